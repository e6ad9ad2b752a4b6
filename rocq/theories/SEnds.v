(** The lines of text files, whatever ends them. *)
From Verif Require Import Py MCards.

(** the lines of a text as a programme reads them: a line feed, a carriage return or both end a line, and all read as a line feed;
    the last line may have no end *)
Inductive text_lines : str -> list str -> Prop :=
| tl_nil : text_lines [] []
| tl_last l : l <> [] -> ~ In 10 l -> ~ In 13 l -> text_lines l [l]
| tl_line l e rest ls : ~ In 10 l -> ~ In 13 l -> (e = [10] \/ e = [13; 10] \/ (e = [13] /\ forall r, rest <> 10 :: r)) ->
    text_lines rest ls -> text_lines (l ++ e ++ rest) ((l ++ [10]) :: ls).
(** the same files with the same lines, perhaps with other line ends *)
Definition same_lines (fs fs' : fsys) : Prop :=
  forall f, (fs f = None /\ fs' f = None) \/ exists c c' ls, fs f = Some c /\ fs' f = Some c' /\ text_lines c ls /\ text_lines c' ls.
