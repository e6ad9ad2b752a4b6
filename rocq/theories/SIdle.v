(** Lines that say nothing to the tools, put among the lines of a source. *)
From Verif Require Import Py MCards SCards MDiag SEnds SSource.

(** a remark or a blank line *)
Definition idle (line : str) : Prop := remark_line line \/ blank line.
(** the same line, perhaps now with an end *)
Definition same_line (x y : srcline) : Prop :=
  let '(f, i, t) := x in let '(g, j, u) := y in f = g /\ i = j /\ (u = t \/ u = t ++ [10]).
(** [out'] has the lines of [out] in their order, and others between them, all idle *)
Inductive padded : list srcline -> list srcline -> Prop :=
| pd_nil : padded [] []
| pd_line x y out out' : same_line x y -> padded out out' -> padded (x :: out) (y :: out')
| pd_idle y out out' : idle (text_of y) -> padded out out' -> padded out (y :: out').
(** the lines of a run on the standard output *)
Definition printed (ls : list line) : list str := flat_map (fun l => match l with OutL s => [s] | ErrL _ => [] end) ls.
