(** The floating-point arithmetic behind the rates that check-instructions.py prints:
    check-instructions.py:105, 111-113, 118-120, `"%6.2f" % (100 * float(n)/float(total))`.
    A float is a pair of integers m, e with the value m * 2^e; results are rounded to
    53 bits, to the nearest, ties to even, as IEEE 754 binary64 prescribes and Python
    inherits.  Only non-negative numbers occur.  Exponents are not bounded: overflow
    (counts of 2^1024 and more) and subnormal numbers (rates below 2^-1022) are left out. *)
From Verif Require Import Py.

(** p / q rounded to an integer, ties to even (q > 0) *)
Definition round_even (p q : Z) : Z :=
  let d := p / q in
  let r := 2 * (p mod q) in
  if r <? q then d else if q <? r then d + 1 else if Z.even d then d else d + 1.

Record flt := mkflt { f_m : Z; f_e : Z }.
(** the value is [num] / [den] *)
Definition num (x : flt) : Z := f_m x * 2 ^ Z.max 0 (f_e x).
Definition den (x : flt) : Z := 2 ^ Z.max 0 (- f_e x).

(** p / q rounded to 53 bits (p >= 0, q > 0) *)
Definition expo (p q : Z) : Z :=
  let k := Z.log2 p - Z.log2 q in
  if p * 2 ^ Z.max 0 (- k) <? q * 2 ^ Z.max 0 k then k - 53 else k - 52.
Definition round53 (p q : Z) : flt :=
  if p =? 0 then mkflt 0 0
  else let e := expo p q in
       mkflt (round_even (p * 2 ^ Z.max 0 (- e)) (q * 2 ^ Z.max 0 e)) e.

(** float(n), x * y, x / y *)
Definition fl_int (n : Z) : flt := round53 n 1.
Definition fl_mul (x y : flt) : flt := round53 (num x * num y) (den x * den y).
Definition fl_div (x y : flt) : flt := round53 (num x * den y) (den x * num y).
(** "%.2f" % x: the exact value, rounded to hundredths, ties to even *)
Definition fl_hundredths (x : flt) : Z := round_even (100 * num x) (den x).
Definition fmt_2f (x : flt) : str :=
  let c := fl_hundredths x in
  numeral 10 (c / 100) ++ lit "." ++ pad_left 48 2 (numeral 10 (c mod 100)).

(** check-instructions.py:111-113, 118-120 the last column without the sign % *)
Definition rate (n total : Z) : flt := fl_div (fl_mul (fl_int 100) (fl_int n)) (fl_int total).
Definition pct_py (n total : Z) : str := pad_left 32 6 (fmt_2f (rate n total)).
