(** What assignments of numbers that do not fit do, bit by bit: C07, C08, C12, C23. *)
From Verif Require Import Py MBitField SBits MWord.

(** bit of weight [k] of the number [v] moved up by [lo] places *)
Definition moved_bit (v lo k : Z) : Z := if k <? lo then 0 else bit_at v (k - lo).
(** bit of weight [k] of a number of which only the bits below [W] are kept *)
Definition kept_bit (v W k : Z) : Z := if k <? W then bit_at v k else 0.

(** [v'] is [v], cut to [W] bits, the [n] bits from weight [at0] up cleared, with all the bits of [x] added from weight [lo] up *)
Definition bits_merged (v v' W at0 n x lo : Z) : Prop :=
  forall k, 0 <= k -> bit_at v' k = Z.max (if (at0 <=? k) && (k <? at0 + n) then 0 else kept_bit v W k) (moved_bit x lo k).

(** weight of the lowest bit of each field of an instruction word *)
Definition field_place (f : field) : Z := match f with Command => 36 | FA => 24 | FB => 12 | FC => 0 end.
