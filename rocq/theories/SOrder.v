(** The same things in another order. *)
From Coq Require Export Permutation.
