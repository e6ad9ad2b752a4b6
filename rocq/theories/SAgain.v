(** Specification of running genpages several times on one file. *)
From Coq Require Export List.
From Verif Require Import Py MTools.

(** [ran fuel n content content']: [n] successful runs of genpages, each appending to the file, turn
    [content] into [content'] *)
Inductive ran (fuel : nat) : nat -> str -> str -> Prop :=
| ran_none : forall content, ran fuel 0 content content
| ran_once : forall n content out content', genpages fuel content = Ok out ->
    ran fuel n (content ++ out) content' -> ran fuel (S n) content content'.
