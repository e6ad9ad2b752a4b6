(** Specification of cards and decks. *)
From Verif Require Import Py MCards.

(** Columns [a]..[b] of a line, numbered from 1 *)
Definition columns (line : str) (a b : Z) : str :=
  firstn (Z.to_nat (b - a + 1)) (skipn (Z.to_nat (a - 1)) line).

(** Starting columns in increasing order, the first being column 1, all on the card *)
Fixpoint increasing (c : Z) (r : list Z) : Prop :=
  match r with [] => True | c' :: r' => c < c' /\ increasing c' r' end.
Definition good_layout (width : Z) (fields : list Z) : Prop :=
  match fields with
  | [] => False
  | c :: r => c = 1 /\ increasing c r /\ last fields c <= width
  end.
(** the column after field number [k] *)
Definition field_end (width : Z) (fields : list Z) (k : nat) : Z :=
  match nth_error fields (S k) with Some c => c - 1 | None => width end.

(** white space: tab, line feed, the other ASCII separators and the blanks of Unicode *)
Definition white (c : Z) : Prop :=
  In c [9; 10; 11; 12; 13; 28; 29; 30; 31; 32; 133; 160; 5760; 8192; 8193; 8194; 8195; 8196; 8197; 8198; 8199; 8200; 8201; 8202;
        8232; 8233; 8239; 8287; 12288].
Definition blank (s : str) : Prop := Forall white s.
(** [t] is [s] without surrounding white space *)
Definition trimmed (s t : str) : Prop :=
  exists pre post, s = pre ++ t ++ post /\ blank pre /\ blank post /\
    (forall c r, t = c :: r -> ~ white c) /\ (forall c r, t = r ++ [c] -> ~ white c).
(** the first word of a text *)
Definition first_word (s w : str) : Prop :=
  exists p q, s = p ++ w ++ q /\ blank p /\ w <> [] /\ Forall (fun c => ~ white c) w /\
    (q = [] \/ exists c r, q = c :: r /\ white c).

Definition comment_line (line : str) : Prop := exists r, line = lit "#" ++ r.
Definition newline_free (line : str) : Prop := ~ In 10 line.

(** *** Include files *)
(** A line of the expanded source: file, line number, text *)
Definition srcline := (str * Z * str)%type.
(** "$name ..." *)
Definition include_of (line : str) (inc : str) : Prop :=
  exists r, line = lit "$" ++ r /\ first_word r inc.

Inductive expand (fs : fsys) : str -> list srcline -> Prop :=
| ex_file f content out :
    fs f = Some content -> expand_lines fs f 1 (readlines content) out -> expand fs f out
with expand_lines (fs : fsys) : str -> Z -> list str -> list srcline -> Prop :=
| ex_nil f i : expand_lines fs f i [] []
| ex_comment f i line rest out :
    comment_line line -> expand_lines fs f (i + 1) rest out -> expand_lines fs f i (line :: rest) out
| ex_include f i line inc rest out1 out2 :
    include_of line inc -> expand fs inc out1 -> expand_lines fs f (i + 1) rest out2 ->
    expand_lines fs f i (line :: rest) (out1 ++ out2)
| ex_card f i line rest out :
    ~ comment_line line -> ~ (exists r, line = lit "$" ++ r) ->
    expand_lines fs f (i + 1) rest out -> expand_lines fs f i (line :: rest) ((f, i, line) :: out).

(** reading file [f] comes to a file that does not exist *)
Inductive reaches_missing (fs : fsys) : str -> Prop :=
| rm_here f : fs f = None -> reaches_missing fs f
| rm_inc f content pre line post inc out :
    fs f = Some content -> readlines content = pre ++ line :: post ->
    expand_lines fs f 1 pre out -> include_of line inc -> reaches_missing fs inc ->
    reaches_missing fs f.

(** every include of every file is spelled out, exists, and has smaller rank *)
Definition includes_ranked (fs : fsys) (rank : str -> nat) : Prop :=
  forall f content line r, fs f = Some content -> In line (readlines content) -> line = lit "$" ++ r ->
    exists inc, first_word r inc /\ fs inc <> None /\ (rank inc < rank f)%nat.
(** only that included files have smaller rank *)
Definition includes_acyclic (fs : fsys) (rank : str -> nat) : Prop :=
  forall f content line inc, fs f = Some content -> In line (readlines content) ->
    include_of line inc -> (rank inc < rank f)%nat.
(** every file of the set includes another one of the set, everything before that include being readable *)
Definition include_loop (fs : fsys) (P : str -> Prop) : Prop :=
  forall f, P f -> exists content pre line post inc out,
    fs f = Some content /\ readlines content = pre ++ line :: post /\
    expand_lines fs f 1 pre out /\ include_of line inc /\ P inc.

(** the same card up to its file name *)
Definition same_card (c c' : card) : Prop :=
  c_line c = c_line c' /\ c_layout c = c_layout c' /\ c_linenum c = c_linenum c' /\
  c_comment c = c_comment c' /\ c_data c = c_data c'.

(** *** Records *)
(** field names: distinct, none of them "linenum", at least one per field *)
Definition good_names (names : list str) (fields : list Z) : Prop :=
  NoDup names /\ ~ In (lit "linenum") names /\ (List.length fields <= List.length names)%nat.
(** the text of field number [k] *)
Definition field_text (line : str) (width : Z) (fields : list Z) (k : nat) : str :=
  columns line (nth k fields 0) (field_end width fields k).
(** what the record shows for a field: None if blank, else the trimmed text *)
Definition shows (f : str) (v : rval) : Prop :=
  (blank f /\ v = RNone) \/ (exists t, trimmed f t /\ t <> [] /\ v = RStr t).
(** a card layout for ARGUS cards: ten fields *)
Definition argus_layout (width : Z) (fields : list Z) : Prop :=
  good_layout width fields /\ List.length fields = 10%nat.
Definition remark_card (line : str) (width : Z) (fields : list Z) : Prop :=
  exists x, In x ["P"; "R"; "L"]%string /\ trimmed (field_text line width fields 0) (lit x).
(** the text of the line from column [n], its line terminators removed *)
Definition text_from (n : nat) (line : str) : str := skipn (n - 1) (filter (fun c => negb (c =? 10)) line).
(** two outcomes that differ at most in the raw fields *)
Definition same_outcome (r r' : res card) : Prop :=
  match r, r' with
  | Ok c, Ok c' =>
      c_line c = c_line c' /\ card_stripped c = card_stripped c' /\ card_record c = card_record c' /\
      c_comment c = c_comment c' /\ c_filename c = c_filename c' /\ c_linenum c = c_linenum c'
  | Err e, Err e' => e = e'
  | _, _ => False
  end.

(** *** Decks *)
Fixpoint number_from (i : Z) (lines : list str) : list (Z * str) :=
  match lines with [] => [] | l :: r => (i, l) :: number_from (i + 1) r end.
Definition not_comment (line : str) : bool := match line with c :: _ => negb (c =? 35) | [] => true end.
(** the lines that become cards, with their positions *)
Definition kept (lines : list str) : list (Z * str) :=
  filter (fun p => not_comment (snd p)) (number_from 1 lines).
(** fields, stripped fields and records are those of the cards *)
Definition parallel (d : deck) : Prop :=
  map card_fields (d_cards d) = map (@Ok _) (d_fields d) /\
  map card_stripped (d_cards d) = map (@Ok _) (d_stripped d) /\
  map card_record (d_cards d) = map (@Ok _) (d_records d).
(** layouts for which cards of the class can be made of every line *)
Definition usable_layout (k : cardclass) (width : Z) (fields : list Z) : Prop :=
  match k with
  | PunchCls => good_layout width fields /\ (List.length fields <= 10)%nat
  | ArgusCls => argus_layout width fields
  end.
Definition card_of (k : cardclass) (width : Z) (fields : list Z) (s : srcline) (c : card) : Prop :=
  let '(f, i, line) := s in card_new k line width fields (Some f) i = Ok c.
(** the card has a log section marker in its first field *)
Definition log_card (c : card) : Prop := card_get c "column1" = Ok (RStr (lit "L")).
