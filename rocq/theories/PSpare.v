(** Property theorems; generated from LSpare.v by meta/genp.py. *)
From Verif Require Import Py LPy MBitField SBits MSpare LSpare.

Theorem C190_bit : forall b index value width w, wf b -> w = match width with Some w => w | None => bf_width b end ->
  (0 <= w < 2 ^ bf_width b -> value <= 2 ^ w -> 0 <= index -> getBitValue b index value width = Ok (bit_at value index)) /\
  (~ (0 <= w < 2 ^ bf_width b /\ value <= 2 ^ w /\ 0 <= index) -> getBitValue b index value width = Err ValueError).
Proof. exact (@C190_bit_pf). Qed.
Print Assumptions C190_bit.

Example C190_bit_ex : getBitValue (mkbf 8 255 0 MSB_1 LSB_LEFT) 3 8 (Some 4) = Ok 1 /\ getBitValue (mkbf 8 255 0 LSB_0 MSB_LEFT) 3 8 (Some 4) = Ok 1 /\
  getBitValue (mkbf 8 255 0 LSB_0 MSB_LEFT) 8 256 None = Ok 1 /\ getBitValue (mkbf 8 255 0 LSB_0 MSB_LEFT) 0 17 (Some 4) = Err ValueError /\
  getBitValue (mkbf 8 255 0 LSB_0 MSB_LEFT) (-1) 1 (Some 4) = Err ValueError /\ getBitValue (mkbf 1 1 0 LSB_0 MSB_LEFT) 0 1 (Some 2) = Err ValueError.
Proof. repeat split. Qed.

Theorem C190_ends : forall b s e,
  let most := if weight (bf_numbering b) (bf_width b) s <=? weight (bf_numbering b) (bf_width b) e then e else s in
  let least := if weight (bf_numbering b) (bf_width b) s <=? weight (bf_numbering b) (bf_width b) e then s else e in
  msbIndex b (rindex b s) (rindex b e) = rindex b most /\ lsbIndex b (rindex b s) (rindex b e) = rindex b least.
Proof. exact (@C190_ends_pf). Qed.
Print Assumptions C190_ends.

Example C190_ends_ex : msbIndex (mkbf 8 255 0 LSB_0 MSB_LEFT) 2 5 = 2 /\ lsbIndex (mkbf 8 255 0 LSB_0 MSB_LEFT) 2 5 = 5 /\
  rindex (mkbf 8 255 0 LSB_0 MSB_LEFT) 5 = 2 /\ msbIndex (mkbf 8 255 0 MSB_1 LSB_LEFT) 2 5 = 5.
Proof. repeat split. Qed.
