(** The methods of bit-fields that nothing calls: C190. *)
From Coq Require Import ZArith List Bool Lia.
From Verif Require Import Py LPy MBitField SBits MSpare.
#[local] Arguments Z.add : simpl never.
#[local] Arguments Z.sub : simpl never.
#[local] Arguments Z.mul : simpl never.
#[local] Arguments Z.pow : simpl never.

Lemma C190_bit_pf : forall b index value width w, wf b -> w = match width with Some w => w | None => bf_width b end ->
  (0 <= w < 2 ^ bf_width b -> value <= 2 ^ w -> 0 <= index -> getBitValue b index value width = Ok (bit_at value index)) /\
  (~ (0 <= w < 2 ^ bf_width b /\ value <= 2 ^ w /\ 0 <= index) -> getBitValue b index value width = Err ValueError).
Proof.
  intros b index value width w (W & M) ->. unfold getBitValue, checkValue. rewrite M. set (w := match width with Some w => w | None => bf_width b end).
  destruct (Z.ltb_spec w 0) as [A|A]; cbn [orb].
  { cbn [bind]. split; intros; [lia|reflexivity]. }
  destruct (Z.gtb_spec w (2 ^ bf_width b - 1)) as [B|B].
  { cbn [bind]. split; intros; [lia|reflexivity]. }
  destruct (Z.gtb_spec value (2 ^ w)) as [C|C].
  { cbn [bind]. split; intros; [lia|reflexivity]. }
  cbn [bind]. unfold py_shr. destruct (Z.ltb_spec index 0) as [D|D].
  { cbn [bind]. split; intros; [lia|reflexivity]. }
  cbn [bind]. split; [|intros N; destruct N; lia]. intros _ _ _.
  unfold bit_at. rewrite Z.shiftr_div_pow2 by lia. change 1 with (Z.ones 1). rewrite Z.land_ones by lia. reflexivity.
Qed.
(*@ Example C190_bit_ex : getBitValue (mkbf 8 255 0 MSB_1 LSB_LEFT) 3 8 (Some 4) = Ok 1 /\ getBitValue (mkbf 8 255 0 LSB_0 MSB_LEFT) 3 8 (Some 4) = Ok 1 /\
  getBitValue (mkbf 8 255 0 LSB_0 MSB_LEFT) 8 256 None = Ok 1 /\ getBitValue (mkbf 8 255 0 LSB_0 MSB_LEFT) 0 17 (Some 4) = Err ValueError /\
  getBitValue (mkbf 8 255 0 LSB_0 MSB_LEFT) (-1) 1 (Some 4) = Err ValueError /\ getBitValue (mkbf 1 1 0 LSB_0 MSB_LEFT) 0 1 (Some 2) = Err ValueError.
Proof. repeat split. Qed. @*)

(** of the positions of two bits, the one of the more and the one of the less significant bit *)
Lemma C190_ends_pf : forall b s e,
  let most := if weight (bf_numbering b) (bf_width b) s <=? weight (bf_numbering b) (bf_width b) e then e else s in
  let least := if weight (bf_numbering b) (bf_width b) s <=? weight (bf_numbering b) (bf_width b) e then s else e in
  msbIndex b (rindex b s) (rindex b e) = rindex b most /\ lsbIndex b (rindex b s) (rindex b e) = rindex b least.
Proof.
  intros b s e. unfold msbIndex, lsbIndex, rindex, weight.
  destruct (bf_order b), (bf_numbering b); cbn zeta;
    match goal with |- context [if ?x <=? ?y then _ else _] => destruct (Z.leb_spec x y) end; lia.
Qed.
(*@ Example C190_ends_ex : msbIndex (mkbf 8 255 0 LSB_0 MSB_LEFT) 2 5 = 2 /\ lsbIndex (mkbf 8 255 0 LSB_0 MSB_LEFT) 2 5 = 5 /\
  rindex (mkbf 8 255 0 LSB_0 MSB_LEFT) 5 = 2 /\ msbIndex (mkbf 8 255 0 MSB_1 LSB_LEFT) 2 5 = 5.
Proof. repeat split. Qed. @*)
