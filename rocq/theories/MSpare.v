(** The two private methods of /repo/h800/bitfield.py that nothing in the repository calls. *)
From Verif Require Import Py MBitField.

(** bitfield.py:266-271 _msbIndex *)
Definition msbIndex (b : bf) (s e : Z) : Z :=
  match bf_order b with MSB_LEFT => Z.min s e | LSB_LEFT => Z.max s e end.
(** bitfield.py:335-341 _getBitValue, with bitfield.py:313-315 for a width of None *)
Definition getBitValue (b : bf) (index value : Z) (width : option Z) : res Z :=
  do _ <- checkValue b value (match width with Some w => w | None => bf_width b end);
  do x <- py_shr value index;
  Ok (Z.land x 1).
