(** What the symbol tools say, in terms of the text of the sources. *)
From Coq Require Import Sorted.
From Verif Require Import Py MCards SCards MSymbols SSymbols MTools STools MDiag SDump SEnds SSource.

(** no line of a source defines the symbol in that subsegment *)
Definition undefined_in (upper : str -> str) (lines : list srcline) (tag ss kind : str) : Prop :=
  forall a x b t, lines = a ++ x :: b -> line_defines upper (text_of x) tag kind t -> ~ subsegment (a ++ [x]) ss.
(** [x] is the line that counts for the symbol in a segment, a subsegment and of a kind: the latest definition in the last of
    the files of that segment that has one *)
Definition defined_at (upper : str -> str) (files : list str) (outs : list (list srcline)) (tag seg ss kind : str) (x : srcline) (tagtype : str) : Prop :=
  exists pre f out post, combine files outs = pre ++ (f, out) :: post /\ segment_of f seg /\
    latest upper out tag ss kind x tagtype /\
    forall f' out', In (f', out') post -> segment_of f' seg -> undefined_in upper out' tag ss kind.
(** a line of a file of that segment defines the symbol *)
Definition defined_within (upper : str -> str) (files : list str) (outs : list (list srcline)) (s seg kind : str) : Prop :=
  exists f out x tagtype, In (f, out) (combine files outs) /\ segment_of f seg /\ In x out /\ line_defines upper (text_of x) s kind tagtype.
(** the names among which similar ones are looked for, in order: the symbols with a simple definition in the least of their segments,
    and the least symbol with a simple definition *)
Definition suggestions (upper : str -> str) (files : list str) (outs : list (list srcline)) (choices : list str) : Prop :=
  StronglySorted str_lt choices /\
  forall s, In s choices <->
    (exists seg, defined_within upper files outs s seg (lit "simple") /\
       forall seg' kind, defined_within upper files outs s seg' kind -> str_leb seg seg' = true) \/
    ((exists seg, defined_within upper files outs s seg (lit "simple")) /\
     forall s', str_lt s' s -> ~ exists seg, defined_within upper files outs s' seg (lit "simple")).
(** how list-symbols shows the definition: kind, type of the tag, segment of the file and number of the line, and its text *)
Definition symbol_row (kind : str) (x : srcline) (tagtype y : str) : Prop :=
  let '(f, i, _) := x in
  exists g, segment_of f g /\
    y = lit "        " ++ pad_right 32 9 (lit "<" ++ kind ++ lit ">") ++ [32] ++ pad_left 32 1 tagtype ++ [32] ++
        pad_right 32 38 (g ++ lit ":" ++ str_of_Z i) ++ lit "      " ++ shown_text x.
(** the rows under the names of their symbol, segment and subsegment; a name is written when it differs from that above *)
Fixpoint laid_out (p : option (str * str * str)) (rows : list (symkey * str)) (out : list str) : Prop :=
  match rows with
  | [] => out = []
  | ((t, s, u, k), y) :: r =>
      exists out', laid_out (Some (t, s, u)) r out' /\
        out = (if match p with Some (a, _, _) => eqb a t | None => false end then [] else [t]) ++
              (if match p with Some (a, b, _) => eqb a t && eqb b s | None => false end then [] else [lit "  Segment: " ++ s]) ++
              (if match p with Some (a, b, c) => eqb a t && eqb b s && eqb c u | None => false end then [] else [lit "    Subsegment: " ++ u]) ++
              y :: out'
  end.

(** *** complaints about labels *)
(** what is said about the label of a line, and the type of the tag if it is known by then *)
Inductive label_said (upper : str -> str) (line : str) : str -> option str -> Prop :=
| la_case s : label_of line s -> upper s <> s ->
    label_said upper line (lit "*** ERROR: Symbol " ++ s ++ lit " is ill-formed (case)!") None
| la_commas s x y z : label_of line s -> upper s = s -> s = x ++ 44 :: y ++ 44 :: z ->
    label_said upper line (lit "*** ERROR: Symbol " ++ s ++ lit " is illegal, too many commas!") (Some (lit " "))
| la_prefix s p t : label_of line s -> upper s = s -> s = p ++ 44 :: t -> ~ In 44 p -> ~ In 44 t ->
    ~ In p (map lit ["B"; "F"; "L"; "S"; "X"; "Z"]%string) ->
    label_said upper line (lit "*** ERROR: Symbol " ++ s ++ lit " is ill-formed (tag prefix)!") (Some (lit " "))
| la_unsupported s p t : label_of line s -> upper s = s -> s = p ++ 44 :: t -> ~ In 44 t ->
    In p (map lit ["L"; "X"]%string) ->
    label_said upper line (lit "*** ERROR: Symbol " ++ s ++ lit " has unsupported tag prefix!") (Some (lit " "))
| la_no_operation s tagtype tag : label_of line s -> well_formed upper s tagtype tag -> (forall op, ~ operation_of line op) ->
    label_said upper line (lit "*** ERROR: Symbol " ++ s ++ lit " has no operation!") (Some tagtype).
(** the two lines about a faulty label; [r] is the text of the card itself *)
Definition label_block (upper rep : str -> str) (x : srcline) (ls : list line) : Prop :=
  let '(f, i, line) := x in
  ~ starred_line line /\
  exists m ty lognum l g r, label_said upper line m ty /\
    ((lognum = None /\ shows (columns line 2 7) RNone) \/ exists s, lognum = Some s /\ shows (columns line 2 7) (RStr s)) /\
    none_or rep lognum l /\ none_or rep ty g /\
    ls = [ErrL m; ErrL (lit "Current definition: {'file': " ++ rep f ++ lit ", 'line': " ++ str_of_Z i ++ lit ", 'lognum': " ++ l ++
                        lit ", 'tagtype': " ++ g ++ lit ", 'card': " ++ r ++ lit "}")].
(** what is said about the labels of several files, [n] complaints in all; [counts]: the number of those about each file is told *)
Inductive labels_said (upper rep : str -> str) (counts : bool) : list str -> list (list srcline) -> Z -> list line -> Prop :=
| ls_nil : labels_said upper rep counts [] [] 0 []
| ls_file f files out outs blocks n ls : picked (label_block upper rep) out blocks -> labels_said upper rep counts files outs n ls ->
    labels_said upper rep counts (f :: files) (out :: outs) (zlen blocks + n)
      (concat blocks ++
       (if counts then [ErrL (f ++ lit ": " ++ str_of_Z (zlen blocks) ++ lit " errors encountered building symbol table.")] else []) ++ ls).
