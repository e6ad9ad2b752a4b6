(** The tools compared with each other. *)
From Verif Require Import Py MCards SCards SSource.

(** the operation has no white space before its first comma *)
Definition unspaced (op : str) : Prop := forall a c b, op = a ++ c :: b -> white c -> In 44 a.
