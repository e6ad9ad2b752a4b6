(** Specification of the text forms and of iteration. *)
From Verif Require Import Py MBitField SBits MProto.

(** [s] is "0o", a minus sign if [v] is negative, and the octal digits of the
    absolute value, padded with zeros to at least [w] characters with the sign:
    no superfluous leading zero. *)
Definition octal_text (w v : Z) (s : str) : Prop :=
  let sign := if v <? 0 then lit "-" else [] in
  exists ds, s = lit "0o" ++ sign ++ ds /\ Forall (fun c => 48 <= c <= 55) ds /\ spelled 8 ds = Z.abs v /\
    w <= zlen (sign ++ ds) /\ (w < zlen (sign ++ ds) -> hd_error ds <> Some 48).

(** the first valid bit number *)
Definition first_index (n : scheme) : Z :=
  match n with LSB_0 | MSB_0 => 0 | LSB_1 | MSB_1 => 1 end.
(** the value (0 or 1) of the bit numbered [i] of a field *)
Definition bit_no (b : bf) (i : Z) : Z :=
  bit_at (bf_value b) (weight (bf_numbering b) (bf_width b) i).
(** lo, lo+1, ..., hi-1 *)
Definition upto (lo hi : Z) : list Z := map (fun i => lo + Z.of_nat i) (seq 0 (Z.to_nat (hi - lo))).
