(** Fields whose width is a float. *)
From Verif Require Import Py MBitField MDyn.

(** The width is a float, and so is then the maximum 2 ** width - 1. *)
Definition float_width (h : tf) : Prop := exists f g, tf_width h = VF f /\ tf_maxval h = VF g.
(** The position of bit i counted from the least significant one, with a numbering from the least significant
    bit *)
Definition place (n : scheme) (i : Z) : Z := match n with LSB_0 | MSB_0 => i | _ => i - 1 end.
