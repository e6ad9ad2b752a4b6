(** Specification of the rates printed by check-instructions --count. *)
From Verif Require Import Py MCards SCards MSymbols SSymbols MInstructions MTools STools.

(** the text, right-aligned in six columns, of the number with [c] hundredths, two decimals
    and no superfluous leading zero *)
Definition shows_hundredths (s : str) (c : Z) : Prop :=
  exists k whole d1 d2, s = repeat 32 k ++ whole ++ [46; d1; d2] /\ zlen s = 6 /\
    decimal (whole ++ [d1; d2]) c /\ (whole = [48] \/ exists x r, whole = x :: r /\ x <> 48).
(** [c] hundredths of a percent are a nearest value to [n] out of [total] *)
Definition nearest_rate (n total c : Z) : Prop := 2 * Z.abs (c * total - 10000 * n) <= total.
