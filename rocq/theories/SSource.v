(** The source text as the manual describes it: lines of a file with includes, and the columns of a line.
    Nothing here refers to decks, cards or records. *)
From Verif Require Import Py MCards SCards SEnds MSymbols SSymbols MInstructions MTools STools MDiag MVerbose SVerbose.

(** the lines of a file after its includes have been put in place: file, number and text of each *)
Inductive source (fs : fsys) : str -> list srcline -> Prop :=
| so_file f content ls out : fs f = Some content -> text_lines content ls -> source_lines fs f 1 ls out -> source fs f out
with source_lines (fs : fsys) : str -> Z -> list str -> list srcline -> Prop :=
| sl_nil f i : source_lines fs f i [] []
| sl_comment f i r rest out : source_lines fs f (i + 1) rest out -> source_lines fs f i ((35 :: r) :: rest) out
| sl_include f i r inc rest out1 out2 : first_word r inc -> source fs inc out1 -> source_lines fs f (i + 1) rest out2 ->
    source_lines fs f i ((36 :: r) :: rest) (out1 ++ out2)
| sl_line f i line rest out : (forall c r, line = c :: r -> c <> 35 /\ c <> 36) -> source_lines fs f (i + 1) rest out ->
    source_lines fs f i (line :: rest) ((f, i, line) :: out).
Definition text_of (x : srcline) : str := snd x.
(** the text without the end of the line *)
Definition shown_text (x : srcline) : str := filter (fun c => negb (c =? 10)) (text_of x).

(** *** the columns of a line *)
(** P, R or L in column 1 *)
Definition remark_line (line : str) : Prop := exists c, nth_error line 0 = Some c /\ In c (lit "PRL").
(** an asterisk in column 8 *)
Definition starred_line (line : str) : Prop := nth_error line 7 = Some 42.
(** the operation, columns 20 to 32 *)
Definition operation_of (line op : str) : Prop := ~ remark_line line /\ trimmed (columns line 20 32) op /\ op <> [].
(** the label, columns 9 to 19, its blanks taken out *)
Definition label_of (line s : str) : Prop :=
  ~ remark_line line /\ exists l, trimmed (columns line 9 19) l /\ l <> [] /\ s = filter (fun c => negb (c =? 32)) l.
(** the mnemonic: the operation up to a comma *)
Definition mnemonic_at (line m : str) : Prop :=
  m <> [] /\ exists op, operation_of line op /\ ((~ In 44 op /\ m = op) \/ exists a b, op = a ++ 44 :: b /\ ~ In 44 a /\ trimmed a m).

(** *** complaints about instructions *)
Definition mnemonic_fault (x : srcline) (ls : list line) : Prop :=
  let '(f, i, line) := x in
  ~ starred_line line /\ exists m, mnemonic_at line m /\ ~ In m INSTRUCTIONS /\
    ls = [OutL (lit "*** ERROR: Invalid instruction """ ++ m ++ lit """:");
          OutL (lit "File " ++ f ++ lit ", line " ++ str_of_Z i ++ lit ": " ++ shown_text x)].
(** a line found by list-instructions, and how it is shown *)
Definition line_found (opcode : str) (details : bool) (x : srcline) (y : str) : Prop :=
  let '(f, i, line) := x in
  ~ starred_line line /\
  (exists op, operation_of line op /\ op_matches opcode (filter (fun c => negb (c =? 32)) op)) /\
  y = (if details then pad_right 32 48 f ++ [32] ++ pad_left 32 6 (str_of_Z i) ++ [32] ++ shown_text x else shown_text x).
(** a line of a listing *)
Definition listed (x : srcline) : str :=
  let '(f, i, _) := x in pad_right 32 64 f ++ [32] ++ pad_right 32 6 (str_of_Z i) ++ [32] ++ shown_text x ++ [10].

(** *** symbols *)
(** the line starts subsegment [s] *)
Definition line_setloc (line s : str) : Prop :=
  ~ starred_line line /\
  exists r, operation_of line (lit "SETLOC" ++ r) /\
    ((~ In 44 r /\ s = lit "0") \/
     (exists a b, r = a ++ 44 :: b /\ ~ In 44 a /\ ~ In 44 b /\ trimmed b s) \/
     (exists a b d, r = a ++ 44 :: b ++ 44 :: d /\ ~ In 44 a /\ ~ In 44 b /\ trimmed b s)).
(** the subsegment after some lines: that of the last SETLOC, or 1 *)
Definition subsegment (lines : list srcline) (s : str) : Prop :=
  ((forall x u, In x lines -> ~ line_setloc (text_of x) u) /\ s = lit "1") \/
  exists a x b, lines = a ++ x :: b /\ line_setloc (text_of x) s /\ forall y u, In y b -> ~ line_setloc (text_of y) u.
(** the line defines a symbol *)
Definition line_defines (upper : str -> str) (line tag kind tagtype : str) : Prop :=
  ~ starred_line line /\
  exists s op, label_of line s /\ well_formed upper s tagtype tag /\ operation_of line op /\
    ((op = lit "ASSIGN" /\ kind = lit "complex") \/ (op <> lit "ASSIGN" /\ kind = lit "simple")).
(** the label of the line is a mistake *)
Definition label_fault (upper : str -> str) (line : str) : Prop :=
  ~ starred_line line /\
  exists s, label_of line s /\ ((forall tagtype tag, ~ well_formed upper s tagtype tag) \/ forall op, ~ operation_of line op).
(** [x] is the last of the lines that defines the symbol in that subsegment *)
Definition latest (upper : str -> str) (lines : list srcline) (tag ss kind : str) (x : srcline) (tagtype : str) : Prop :=
  exists pre post, lines = pre ++ x :: post /\ line_defines upper (text_of x) tag kind tagtype /\ subsegment (pre ++ [x]) ss /\
    forall a y b t, post = a ++ y :: b -> line_defines upper (text_of y) tag kind t -> ~ subsegment (pre ++ x :: a ++ [y]) ss.
(** the entry made from a line *)
Definition made_from (x : srcline) (tagtype : str) (e : tabent) : Prop :=
  let '(f, i, line) := x in
  e_file e = Some f /\ e_line e = i /\ shows (columns line 2 7) (e_lognum e) /\ e_tagtype e = tagtype /\ c_line (e_card e) = shown_text x.
