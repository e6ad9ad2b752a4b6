(** The files of the symbol tools in another order. *)
From Verif Require Import Py MTools STools SSymbols.

(** different files have different segments: their names differ before the first point *)
Definition own_segments (files : list str) : Prop :=
  forall f g s, In f files -> In g files -> segment_of f s -> segment_of g s -> f = g.
