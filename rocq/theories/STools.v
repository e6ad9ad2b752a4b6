(** Specification of the command line tools. *)
From Coq Require Export Sorted.
From Verif Require Import Py MCards SCards MSymbols SSymbols MInstructions MTools.

(** *** decimal numerals *)
Definition decimal (s : str) (n : Z) : Prop :=
  s <> [] /\ Forall (fun c => 48 <= c <= 57) s /\ fold_left (fun a c => 10 * a + (c - 48)) s 0 = n.
Definition opt_arg (rest : list str) (i : nat) (default n : Z) : Prop :=
  match nth_error rest i with Some s => decimal s n | None => n = default end.
(** an integer as int() reads it: blanks around it, a sign, digits with single underlines between them *)
Inductive grouped : str -> str -> Prop :=
| gr_last c : 48 <= c <= 57 -> grouped [c] [c]
| gr_next c s d : 48 <= c <= 57 -> grouped s d -> grouped (c :: s) (c :: d)
| gr_under c s d : 48 <= c <= 57 -> grouped s d -> grouped (c :: 95 :: s) (c :: d).
Definition int_text (s : str) (n : Z) : Prop :=
  exists t u d m, trimmed s t /\ grouped u d /\ decimal d m /\
    ((t = u \/ t = 43 :: u) /\ n = m \/ t = 45 :: u /\ n = - m).

(** *** genlines *)
(** the line shows [n] from column [sc] on *)
Definition shows_number (line : str) (sc n : Z) (t : str) : Prop :=
  exists k, line = repeat 32 (Z.to_nat (sc - 1)) ++ t ++ repeat 32 k /\ decimal t n.
Definition int_arg (rest : list str) (i : nat) (default n : Z) : Prop :=
  match nth_error rest i with Some s => int_text s n | None => n = default end.
(** the text of a number of either sign, with leading zeros *)
Definition signed (t : str) (n : Z) : Prop := decimal t n \/ exists u, t = 45 :: u /\ n < 0 /\ decimal u (- n).
(** an argument that is not a number, or step 0 *)
Definition bad_numbers (a0 a1 : str) (rest : list str) : Prop :=
  (forall n, ~ int_text a0 n) \/ (forall n, ~ int_text a1 n) \/ (forall n, ~ int_arg rest 0 1 n) \/ (forall n, ~ int_arg rest 1 2 n) \/
  (forall n, ~ int_arg rest 2 7 n) \/ int_arg rest 0 1 0.

(** *** genpages *)
Definition page_range (w : str) (a b : Z) : Prop :=
  (~ In 45 w /\ int_text w a /\ b = a) \/
  (exists x y, (w = x ++ 45 :: y \/ exists z, w = x ++ 45 :: y ++ 45 :: z) /\ ~ In 45 x /\ ~ In 45 y /\
     int_text x a /\ int_text y b).
Definition pages_line (line : str) : Prop := exists r, line = lit "# Pages: " ++ r.
Definition name_line (line : str) : Prop := exists r, line = lit "# Filename: " ++ r.
Definition pages_are (line : str) (a b : Z) : Prop :=
  exists r w, line = lit "# Pages: " ++ r /\ first_word r w /\ page_range w a b.
(** the last "# Pages:" line *)
Definition page_numbers (lines : list str) (a b : Z) : Prop :=
  exists pre l post, lines = pre ++ l :: post /\ pages_are l a b /\ forall x, In x post -> ~ pages_line x.
(** a file name up to the first dot, underlines replaced by blanks *)
Definition section_name (line sec : str) : Prop :=
  exists r w t, line = lit "# Filename: " ++ r /\ first_word r w /\ segment_of w t /\
    sec = map (fun c => if c =? 95 then 32 else c) t.
(** the log section and the character in column 8: those of the first L card, or else the name in the first
    "# Filename:" line and "@" *)
Definition l_line (line : str) : Prop := exists r, line = lit "L" ++ r.
Definition section_is (lines : list str) (sec : str) (c8 : rval) : Prop :=
  (exists pre l post, lines = pre ++ l :: post /\ l_line l /\ (forall x, In x pre -> ~ l_line x) /\
     trimmed (columns (filter (fun c => negb (c =? 10)) l) 9 81) sec /\ shows (columns l 8 8) c8) \/
  ((forall x, In x lines -> ~ l_line x) /\ c8 = RStr (lit "@") /\
   exists pre l post, lines = pre ++ l :: post /\ section_name l sec /\ forall x, In x pre -> ~ name_line x).
Definition c8_text (v : rval) : str := match v with RNone => lit "None" | RStr s => s | RInt n => str_of_Z n end.
Definition page_block (c8 sec : str) (page own : Z) : str :=
  [10] ++ lit "# Page " ++ str_of_Z page ++ [10] ++
  lit "#      " ++ c8 ++ pad_right 32 72 sec ++ lit " USER'S OWN PAGE NO." ++ pad_left 32 4 (str_of_Z own) ++
  lit "        PAGE" ++ pad_left 32 4 (str_of_Z own) ++ [10] ++ [10].
(** a line without a word, or with one that is not a number or range *)
Definition malformed (lines : list str) (e : exn) : Prop :=
  (e = IndexError /\ exists x r, In x lines /\ (x = lit "# Pages: " ++ r \/ x = lit "# Filename: " ++ r) /\ forall w, ~ first_word r w) \/
  (e = ValueError /\ exists r w, In (lit "# Pages: " ++ r) lines /\ first_word r w /\ forall a b, ~ page_range w a b).

(** *** decks read by the tools *)
(** the cards of the files, in order *)
Definition all_cards (fuel : nat) (fs : fsys) (files : list str) (cs : list card) : Prop :=
  exists css, Forall2 (source_cards fuel fs) files css /\ cs = concat css.
Definition instr_is (c : card) (m : str) : Prop := m <> [] /\ card_get c "instruction" = Ok (RStr m).
Definition instr_card (c : card) : Prop := exists m, instr_is c m.
Definition sum_counts (d : list (str * Z)) : Z := fold_right (fun r a => snd r + a) 0 d.
(** a subsequence chosen by [P] *)
Inductive picked {A B} (P : A -> B -> Prop) : list A -> list B -> Prop :=
| pk_nil : picked P [] []
| pk_yes x y l r : P x y -> picked P l r -> picked P (x :: l) (y :: r)
| pk_no x l r : (forall y, ~ P x y) -> picked P l r -> picked P (x :: l) r.

(** *** list-instructions *)
Definition op_text (op i : str) : Prop := i = filter (fun c => negb (c =? 32)) (strip op).
Definition op_matches (opcode i : str) : Prop :=
  (~ In 44 opcode /\ (i = opcode \/ exists r, i = opcode ++ 44 :: r)) \/
  (In 44 opcode /\ (i = opcode \/ exists p r, opcode = p ++ [44] /\ i = opcode ++ r)).
Definition li_text (details : bool) (c : card) (y : str) : Prop :=
  if details then
    exists f, c_filename c = Some f /\
      y = pad_right 32 48 f ++ [32] ++ pad_left 32 6 (str_of_Z (c_linenum c)) ++ [32] ++ c_line c
  else y = c_line c.
Definition li_shows (opcode : str) (details : bool) (c : card) (y : str) : Prop :=
  ~ starred c /\ li_text details c y /\
  exists op i, card_get c "operation" = Ok (RStr op) /\ op_text op i /\ op_matches opcode i.
(** the mnemonic of an opcode argument: the text before the first comma *)
Definition mnemonic_of (opcode m : str) : Prop :=
  (~ In 44 opcode /\ m = opcode) \/ (exists r, opcode = m ++ 44 :: r /\ ~ In 44 m).

(** *** check-instructions --count *)
(** the non-"*" cards with instruction [m] number [n] *)
Definition frequency (cs : list card) (m : str) (n : Z) : Prop := count_of (fun c => ~ starred c /\ instr_is c m) cs n.
Definition freq_line (name : str) (n : Z) (p : str) : str :=
  pad_right 32 8 name ++ [32] ++ pad_left 32 6 (str_of_Z n) ++ lit "  " ++ p ++ lit "%".

(** *** symbol tables of several files *)
(** no file's segment is called "simple" or "complex" *)
Definition plain_names (files : list str) : Prop :=
  forall f seg, In f files -> segment_of f seg -> ~ is_kind seg.
(** [e] is the entry of [tag] in a segment, a subsegment and of a kind: the last definition in the last of the files of
    that segment that has one *)
Definition defined_as (upper : str -> str) (files : list str) (css : list (list card)) (tag seg ss kind : str) (e : tabent) : Prop :=
  exists pre f cs post c tagtype, combine files css = pre ++ (f, cs) :: post /\ segment_of f seg /\
    last_def upper (lit "1") cs tag ss kind c tagtype /\ entry_from c tagtype e /\
    forall f' cs', In (f', cs') post -> segment_of f' seg -> never_def upper (lit "1") cs' tag ss kind.
(** some card of the files defines [tag] *)
Definition is_defined (upper : str -> str) (css : list (list card)) (tag : str) : Prop :=
  exists cs c kind tagtype, In cs css /\ In c cs /\ defines upper c tag kind tagtype.

(** *** list-symbols *)
Definition symkey := (str * str * str * str)%type.
Definition key_lt (a b : symkey) : Prop :=
  let '(t, s, u, k) := a in let '(t', s', u', k') := b in
  str_lt t t' \/ (t = t' /\ (str_lt s s' \/ (s = s' /\ (str_lt u u' \/ (u = u' /\ str_lt k k'))))).
Definition def_line (kind : str) (e : tabent) (line : str) : Prop :=
  exists f g, e_file e = Some f /\ segment_of f g /\
    line = lit "        " ++ pad_right 32 9 (lit "<" ++ kind ++ lit ">") ++ [32] ++ pad_left 32 1 (e_tagtype e) ++ [32] ++
           pad_right 32 38 (g ++ lit ":" ++ str_of_Z (e_line e)) ++ lit "      " ++ c_line (e_card e).
(** the symbol, segment and subsegment whose headers have been printed *)
Definition lspos := (option str * option str * option str)%type.
Definition is_at (o : option str) (s : str) : bool := match o with Some x => eqb x s | None => false end.
Definition headers (p : lspos) (t s u : str) : list str :=
  let '(a, b, c) := p in
  if is_at a t then
    if is_at b s then
      if is_at c u then [] else [lit "    Subsegment: " ++ u]
    else [lit "  Segment: " ++ s; lit "    Subsegment: " ++ u]
  else [t; lit "  Segment: " ++ s; lit "    Subsegment: " ++ u].
(** one line per entry, with the headers that change *)
Fixpoint rendered (p : lspos) (es : list (symkey * tabent)) (out : list str) : Prop :=
  match es with
  | [] => out = []
  | ((t, s, u, k), e) :: r =>
      exists line out', def_line k e line /\ rendered (Some t, Some s, Some u) r out' /\
        out = headers p t s u ++ line :: out'
  end.

(** *** listing *)
(** the listing's name: the extension replaced by "lst" *)
Definition list_name (filename name : str) : Prop :=
  (exists p ext, filename = p ++ 46 :: ext /\ ~ In 46 ext /\ name = p ++ lit ".lst") \/
  (~ In 46 filename /\ name = lit ".lst").
Definition list_line (c : card) (y : str) : Prop :=
  exists f, c_filename c = Some f /\
    y = pad_right 32 64 f ++ [32] ++ pad_right 32 6 (str_of_Z (c_linenum c)) ++ [32] ++ c_line c ++ [10].
Definition is_lst (name : str) : Prop := exists p, name = p ++ lit ".lst".
(** no file includes a listing *)
Definition no_lst_includes (fs : fsys) : Prop :=
  forall f content line inc, fs f = Some content -> In line (readlines content) -> include_of line inc -> ~ is_lst inc.
(** [x] stands somewhere before [y] in a list *)
Definition before {A} (l : list A) (x y : A) : Prop := exists p q r, l = p ++ x :: q ++ y :: r.
(** rows of a frequency table by descending frequency, equally frequent ones in the order of the table of mnemonics *)
Definition by_frequency (a b : str * Z) : Prop := snd b < snd a \/ (snd a = snd b /\ before INSTRUCTIONS (fst a) (fst b)).
