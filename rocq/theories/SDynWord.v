(** Instruction words and constants with arguments of any type. *)
From Verif Require Import Py MBitField MWord MDyn SDyn MDynWord.

(** The assignments of ints among the assignments *)
Definition int_ops (ops : list (field * val)) : list iw_op :=
  flat_map (fun o => match snd o with VI z => [SetField (fst o) z] | _ => [] end) ops.
