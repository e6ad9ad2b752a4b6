(** What happens when a source cannot be read, in terms of the text of the files. *)
From Verif Require Import Py MCards SCards MSymbols SSymbols MInstructions MTools STools MDiag MVerbose SVerbose MOptions SOptions MProcess SProcess SEnds SSource STextSym SReport.

(** reading [f] comes upon a line that begins with $ and has nothing else on it; the progress messages until then *)
Inductive unnamed_at (fs : fsys) : str -> list line -> Prop :=
| un_here f content pre r post ls : fs f = Some content -> text_lines content (pre ++ (36 :: r) :: post) -> lines_log fs f 1 pre ls ->
    (forall w, ~ first_word r w) -> unnamed_at fs f (OutL (lit "Reading " ++ f ++ lit "...") :: ls)
| un_inside f content pre r post inc ls ls' : fs f = Some content -> text_lines content (pre ++ (36 :: r) :: post) -> lines_log fs f 1 pre ls ->
    first_word r inc -> unnamed_at fs inc ls' -> unnamed_at fs f (OutL (lit "Reading " ++ f ++ lit "...") :: ls ++ ls').
(** reading [f] comes to a file included [n] deep, for the first time; the progress messages until then *)
Fixpoint nested_at (fs : fsys) (n : nat) (f : str) (log : list line) : Prop :=
  match n with
  | O => log = []
  | S n => exists content pre r post inc ls ls', fs f = Some content /\ text_lines content (pre ++ (36 :: r) :: post) /\ lines_log fs f 1 pre ls /\
      (forall q g l, In (36 :: q) pre -> first_word q g -> ~ nested_at fs n g l) /\
      first_word r inc /\ fs inc <> None /\ nested_at fs n inc ls' /\ log = OutL (lit "Reading " ++ f ++ lit "...") :: ls ++ ls'
  end.
(** the file cannot be read: what --verbose tells, the message, and how the run ends.  [depth] is the number of files that may be
    read within one another *)
Inductive gives_up (fs : fsys) (depth : nat) (f : str) : list line -> list line -> ending -> Prop :=
| gu_no_name : f = [] -> gives_up fs depth f [] [] (Died TypeError)
| gu_missing log m : f <> [] -> (forall l, ~ nested_at fs depth f l) -> stops_at fs f log m -> gives_up fs depth f log [ErrL m] (Exit 1)
| gu_unnamed log : f <> [] -> (forall l, ~ nested_at fs depth f l) -> unnamed_at fs f log -> gives_up fs depth f log [] (Died IndexError)
| gu_deep log : f <> [] -> nested_at fs depth f log -> gives_up fs depth f log [] (Died RecursionError).

(** what a tool has said about the files before *)
Inductive said_before (v : env) (fs : fsys) (on : list str) (verbose : bool) :
    tool -> list str -> list str -> list (list srcline) -> list line -> Prop :=
| sb_check args pre outs show ls : turned_on on "print-opcodes" show -> lines_told fs verbose (line_report verbose show) pre outs ls ->
    said_before v fs on verbose CheckInstructions args pre outs ls
| sb_search opcode files pre outs details ls : turned_on on "details" details -> lines_told fs verbose (search_report verbose details opcode) pre outs ls ->
    said_before v fs on verbose ListInstructions (opcode :: files) pre outs ls
| sb_symbols t args pre outs counts ns ls : In (t, counts) [(CheckSymbols, true); (FindSymbols, true); (Parse, true); (ListSymbols, false)] ->
    labels_told fs (e_upper v) (e_rep v) verbose counts pre outs ns ls -> said_before v fs on verbose t args pre outs ls.

(** what reading a file comes to, however deep it may read, and the progress messages *)
Inductive outcome := Reads (out : list srcline) | Missing (message : str) | Unnamed.
Inductive read_outcome (fs : fsys) (f : str) : list line -> outcome -> Prop :=
| ro_reads out log : source fs f out -> read_log fs f log -> read_outcome fs f log (Reads out)
| ro_missing log m : stops_at fs f log m -> read_outcome fs f log (Missing m)
| ro_unnamed log : unnamed_at fs f log -> read_outcome fs f log Unnamed.

(** the listings of the files, written one after the other, lead from [fs] to [fs'] *)
Inductive listed_all (verbose : bool) : fsys -> list str -> list line -> fsys -> Prop :=
| la_nil fs : listed_all verbose fs [] [] fs
| la_file fs f name out log fs1 files ls fs' : f <> [] -> source fs f out -> read_log fs f log -> list_name f name ->
    fs1 name = Some (concat (map listed out)) -> (forall g, g <> name -> fs1 g = fs g) -> listed_all verbose fs1 files ls fs' ->
    listed_all verbose fs (f :: files) ((if verbose then log ++ [OutL (lit "Wrote listing file to " ++ name)] else []) ++ ls) fs'.
