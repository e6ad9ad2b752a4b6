(** Reading a file without its includes, in terms of the text of the file. *)
From Verif Require Import Py MCards SCards SEnds MTools MDiag.

(** how the reading ends *)
Inductive flat_end := AllRead | NoSuchFile (message : str) | NoName.
(** the lines of [f] from number [i] on: those that become cards, the progress messages, and the end *)
Inductive flat_lines (fs : fsys) (f : str) : Z -> list str -> list srcline -> list line -> flat_end -> Prop :=
| fl_nil i : flat_lines fs f i [] [] [] AllRead
| fl_comment i r rest out log e : flat_lines fs f (i + 1) rest out log e ->
    flat_lines fs f i ((35 :: r) :: rest) out (OutL (lit "Skipping meta-comment, file " ++ f ++ lit ", line " ++ str_of_Z i) :: log) e
| fl_include i r inc rest out log e : first_word r inc -> fs inc <> None -> flat_lines fs f (i + 1) rest out log e ->
    flat_lines fs f i ((36 :: r) :: rest) ((f, i, 36 :: r) :: out) log e
| fl_missing i r inc rest : first_word r inc -> fs inc = None ->
    flat_lines fs f i ((36 :: r) :: rest) [] [] (NoSuchFile (lit "File """ ++ inc ++ lit """ does not exist"))
| fl_unnamed i r rest : (forall w, ~ first_word r w) -> flat_lines fs f i ((36 :: r) :: rest) [] [] NoName
| fl_line i line rest out log e : (forall c r, line = c :: r -> c <> 35 /\ c <> 36) -> flat_lines fs f (i + 1) rest out log e ->
    flat_lines fs f i (line :: rest) ((f, i, line) :: out) log e.
Inductive flat_file (fs : fsys) (f : str) : list srcline -> list line -> flat_end -> Prop :=
| ff_missing : fs f = None -> flat_file fs f [] [] (NoSuchFile (lit "ERROR: File """ ++ f ++ lit """ does not exist!"))
| ff_file content ls out log e : fs f = Some content -> text_lines content ls -> flat_lines fs f 1 ls out log e ->
    flat_file fs f out (OutL (lit "Reading " ++ f ++ lit "...") :: log) e.
(** what is printed, and the cards or the exception *)
Definition flat_result (k : cardclass) (width : Z) (fields : list Z) (v : bool) (out : list srcline) (log : list line) (e : flat_end)
                       (printed : list line) (r : res (list card)) : Prop :=
  match e with
  | AllRead => printed = (if v then log else []) /\ exists cs, r = Ok cs /\ Forall2 (card_of k width fields) out cs
  | NoSuchFile m => printed = (if v then log else []) ++ [ErrL m] /\ r = Err SystemExit
  | NoName => printed = (if v then log else []) /\ r = Err IndexError
  end.
(** every line that begins with $ names a file that exists *)
Definition includes_there (fs : fsys) (lines : list str) : Prop :=
  forall r, In (36 :: r) lines -> exists inc, first_word r inc /\ fs inc <> None.
