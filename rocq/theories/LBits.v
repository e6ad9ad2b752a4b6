(** Lemmas on bits of integers. *)
From Verif Require Import Py MBitField SBits.

Lemma pow2_ones n : 2 ^ n - 1 = Z.ones n.
Proof. rewrite Z.ones_equiv; lia. Qed.

Lemma bit_at_testbit v k : 0 <= k -> bit_at v k = Z.b2z (Z.testbit v k).
Proof. intros Hk. unfold bit_at. symmetry. apply Z.testbit_spec'. exact Hk. Qed.

Lemma bit_at_odd v k : 0 <= k -> Z.odd (v / 2 ^ k) = Z.testbit v k.
Proof. intros Hk. rewrite Z.testbit_odd, Z.shiftr_div_pow2 by lia. reflexivity. Qed.

Lemma bits_at_land v lo n :
  0 <= lo -> 0 <= n -> bits_at v lo n = Z.land (Z.shiftr v lo) (Z.ones n).
Proof.
  intros Hl Hn. unfold bits_at.
  rewrite Z.land_ones, Z.shiftr_div_pow2 by lia. reflexivity.
Qed.

Lemma testbit_ones n j : 0 <= j -> Z.testbit (Z.ones n) j = (j <? n) || (n <? 0).
Proof.
  intros Hj. destruct (Z.ltb_spec n 0).
  - rewrite Z.ones_equiv, Z.pow_neg_r by lia.
    change (Z.pred 0) with (-1). rewrite Z.bits_m1 by lia.
    rewrite orb_true_r; reflexivity.
  - rewrite orb_false_r. destruct (Z.ltb_spec j n).
    + apply Z.ones_spec_low; lia.
    + apply Z.ones_spec_high; lia.
Qed.

Lemma testbit_bits_at v lo n j :
  0 <= lo -> 0 <= n -> 0 <= j ->
  Z.testbit (bits_at v lo n) j = (j <? n) && Z.testbit v (j + lo).
Proof.
  intros Hl Hn Hj. rewrite bits_at_land by lia.
  rewrite Z.land_spec, Z.shiftr_spec, testbit_ones by lia.
  destruct (Z.ltb_spec n 0); [lia|]. rewrite orb_false_r. apply andb_comm.
Qed.

Lemma bits_at_range v lo n : 0 <= n -> 0 <= bits_at v lo n < 2 ^ n.
Proof. intros Hn. unfold bits_at. apply Z.mod_pos_bound. apply Z.pow_pos_nonneg; lia. Qed.

Lemma testbit_high n v j : 0 <= v < 2 ^ n -> n <= j -> Z.testbit v j = false.
Proof.
  intros [H0 H1] Hj.
  destruct (Z.eq_dec v 0) as [->|Hv]; [apply Z.bits_0|].
  apply Z.bits_above_log2; [lia|].
  assert (Z.log2 v < n); [|lia].
  apply Z.log2_lt_pow2; lia.
Qed.

Lemma below_pow2 n v :
  0 <= n -> 0 <= v -> (forall j, n <= j -> Z.testbit v j = false) -> v < 2 ^ n.
Proof.
  intros Hn Hv H.
  destruct (Z.eq_dec v 0) as [->|Hv0]; [apply Z.pow_pos_nonneg; lia|].
  assert (~ n <= Z.log2 v).
  { intros C. specialize (H _ C). rewrite Z.bit_log2 in H by lia. discriminate. }
  apply Z.log2_lt_pow2; lia.
Qed.

Lemma bits_at_full v n : 0 <= v < 2 ^ n -> bits_at v 0 n = v.
Proof.
  intros H. unfold bits_at. change (2 ^ 0) with 1. rewrite Z.div_1_r.
  apply Z.mod_small; exact H.
Qed.

Lemma bits_at_bit v k : 0 <= k -> bits_at v k 1 = bit_at v k.
Proof. intros Hk. unfold bits_at, bit_at. reflexivity. Qed.

(** ((v & mask) >> lo) where mask has n ones from lo *)
Lemma get_mask v lo n :
  0 <= lo -> 0 <= n ->
  Z.shiftr (Z.land v (Z.shiftl (2 ^ n - 1) lo)) lo = bits_at v lo n.
Proof.
  intros Hl Hn. rewrite pow2_ones, bits_at_land by lia.
  apply Z.bits_inj'. intros j Hj.
  rewrite Z.shiftr_spec, !Z.land_spec, Z.shiftl_spec, Z.shiftr_spec by lia.
  replace (j + lo - lo) with j by lia. reflexivity.
Qed.

Lemma mask_sub W lo n :
  0 <= lo -> 0 <= n -> lo + n <= W ->
  (2 ^ W - 1) - Z.shiftl (2 ^ n - 1) lo =
  Z.ldiff (Z.ones W) (Z.shiftl (Z.ones n) lo).
Proof.
  intros Hl Hn HW. rewrite !pow2_ones. apply Z.sub_nocarry_ldiff.
  apply Z.bits_inj'. intros j Hj.
  rewrite Z.ldiff_spec, Z.shiftl_spec, Z.bits_0, (testbit_ones W j) by lia.
  destruct (Z.ltb_spec j lo).
  - rewrite (Z.testbit_neg_r _ (j - lo)) by lia. reflexivity.
  - rewrite testbit_ones by lia.
    destruct (Z.ltb_spec (j - lo) n), (Z.ltb_spec j W), (Z.ltb_spec n 0), (Z.ltb_spec W 0);
      simpl; try reflexivity; lia.
Qed.

(** new value of a slice write, bit by bit *)
Lemma set_mask_testbit W v lo n x j :
  0 <= lo -> 0 <= n -> lo + n <= W -> fits W v -> fits n x -> 0 <= j ->
  Z.testbit (Z.lor (Z.land v ((2 ^ W - 1) - Z.shiftl (2 ^ n - 1) lo)) (Z.shiftl x lo)) j
  = if (lo <=? j) && (j <? lo + n) then Z.testbit x (j - lo) else Z.testbit v j.
Proof.
  intros Hl Hn HW Hv Hx Hj. rewrite mask_sub by lia.
  rewrite Z.lor_spec, Z.land_spec, Z.ldiff_spec, !Z.shiftl_spec, (testbit_ones W j) by lia.
  destruct (Z.leb_spec lo j); simpl.
  - rewrite testbit_ones by lia.
    destruct (Z.ltb_spec n 0); [lia|]. destruct (Z.ltb_spec W 0); [lia|].
    rewrite !orb_false_r.
    destruct (Z.ltb_spec j (lo + n)), (Z.ltb_spec (j - lo) n); try lia; simpl.
    + rewrite andb_false_r, andb_false_r. reflexivity.
    + rewrite (testbit_high n x (j - lo)) by (auto; lia).
      rewrite orb_false_r, andb_true_r.
      destruct (Z.ltb_spec j W); [apply andb_true_r|].
      rewrite (testbit_high W v j) by (auto; lia). reflexivity.
  - rewrite !(Z.testbit_neg_r _ (j - lo)) by lia. simpl.
    rewrite orb_false_r, andb_true_r.
    destruct (Z.ltb_spec j W); [apply andb_true_r|]. lia.
Qed.

Lemma lor_fits W a b : 0 <= W -> fits W a -> fits W b -> fits W (Z.lor a b).
Proof.
  intros HW Ha Hb. unfold fits in *. split; [apply Z.lor_nonneg; lia|].
  apply below_pow2; [lia|apply Z.lor_nonneg; lia|].
  intros j Hj. rewrite Z.lor_spec, (testbit_high W a), (testbit_high W b) by lia.
  reflexivity.
Qed.

Lemma land_fits W a b : 0 <= W -> fits W a -> fits W (Z.land a b).
Proof.
  intros HW Ha. unfold fits in *. split; [apply Z.land_nonneg; lia|].
  apply below_pow2; [lia|apply Z.land_nonneg; lia|].
  intros j Hj. rewrite Z.land_spec, (testbit_high W a) by lia. reflexivity.
Qed.

Lemma shiftl_fits W lo n x :
  0 <= lo -> 0 <= n -> lo + n <= W -> fits n x -> fits W (Z.shiftl x lo).
Proof.
  intros Hl Hn HW [H0 H1]. unfold fits. rewrite Z.shiftl_mul_pow2 by lia.
  assert (0 < 2 ^ lo) by (apply Z.pow_pos_nonneg; lia).
  split; [nia|].
  assert (2 ^ n * 2 ^ lo <= 2 ^ W).
  { rewrite <- Z.pow_add_r by lia. apply Z.pow_le_mono_r; lia. }
  nia.
Qed.

(** equality from bits *)

Lemma set_mask_bits W v lo n x :
  0 <= lo -> 0 <= n -> lo + n <= W -> fits W v -> fits n x ->
  bits_replaced v
    (Z.lor (Z.land v ((2 ^ W - 1) - Z.shiftl (2 ^ n - 1) lo)) (Z.shiftl x lo)) lo n x.
Proof.
  intros Hl Hn HW Hv Hx. split.
  - apply Z.bits_inj'. intros j Hj.
    rewrite testbit_bits_at by lia.
    destruct (Z.ltb_spec j n); simpl.
    + rewrite (set_mask_testbit W) by (auto; lia).
      replace (j + lo - lo) with j by lia.
      destruct (Z.leb_spec lo (j + lo)), (Z.ltb_spec (j + lo) (lo + n)); try lia.
      reflexivity.
    + symmetry. apply (testbit_high n); [exact Hx|lia].
  - intros j Hj Hout. rewrite !bit_at_testbit by lia. f_equal.
    rewrite (set_mask_testbit W) by (auto; lia).
    destruct (Z.leb_spec lo j), (Z.ltb_spec j (lo + n)); try lia; reflexivity.
Qed.

(** A number is determined by a replaced range. *)
Lemma bits_replaced_unique v u w lo n x :
  0 <= lo -> 0 <= n ->
  bits_replaced v u lo n x -> bits_replaced v w lo n x -> u = w.
Proof.
  intros Hl Hn [Hu1 Hu2] [Hw1 Hw2]. apply Z.bits_inj'. intros j Hj.
  destruct (Z_le_dec lo j) as [H1|H1], (Z_lt_dec j (lo + n)) as [H2|H2].
  - assert (E : Z.testbit (bits_at u lo n) (j - lo) = Z.testbit (bits_at w lo n) (j - lo))
      by congruence.
    rewrite !testbit_bits_at in E by lia.
    replace (j - lo + lo) with j in E by lia.
    destruct (Z.ltb_spec (j - lo) n); [exact E|lia].
  - specialize (Hu2 j Hj ltac:(lia)). specialize (Hw2 j Hj ltac:(lia)).
    rewrite !bit_at_testbit in Hu2, Hw2 by lia.
    destruct (Z.testbit u j), (Z.testbit v j), (Z.testbit w j); simpl in *; congruence.
  - specialize (Hu2 j Hj ltac:(lia)). specialize (Hw2 j Hj ltac:(lia)).
    rewrite !bit_at_testbit in Hu2, Hw2 by lia.
    destruct (Z.testbit u j), (Z.testbit v j), (Z.testbit w j); simpl in *; congruence.
  - specialize (Hu2 j Hj ltac:(lia)). specialize (Hw2 j Hj ltac:(lia)).
    rewrite !bit_at_testbit in Hu2, Hw2 by lia.
    destruct (Z.testbit u j), (Z.testbit v j), (Z.testbit w j); simpl in *; congruence.
Qed.

Lemma b2z_eq1 b : (Z.b2z b =? 1) = b. Proof. destruct b; reflexivity. Qed.

(** number of an array and testbits *)
Lemma number_testbit (a : arr) n : forall lo j, 0 <= j ->
  Z.testbit (number a lo n) j = (j <? Z.of_nat n) && a (lo + j).
Proof.
  induction n as [|n IH]; intros lo j Hj.
  - cbn [number]. rewrite Z.bits_0. destruct (Z.ltb_spec j (Z.of_nat 0)); [lia|reflexivity].
  - cbn [number].
    destruct (Z.eq_dec j 0) as [->|Hj0].
    + rewrite Z.add_0_r. destruct (Z.ltb_spec 0 (Z.of_nat (S n))); [|lia].
      rewrite Z.bit0_odd, Z.odd_add_mul_2. destruct (a lo); reflexivity.
    + replace j with (Z.succ (j - 1)) by lia.
      replace ((if a lo then 1 else 0) + 2 * number a (lo + 1) n)
        with (2 * number a (lo + 1) n + Z.b2z (a lo)) by (destruct (a lo); unfold Z.b2z; lia).
      rewrite Z.testbit_succ_r by lia. rewrite IH by lia.
      replace (lo + 1 + (j - 1)) with (lo + Z.succ (j - 1)) by lia.
      destruct (Z.ltb_spec (j - 1) (Z.of_nat n)), (Z.ltb_spec (Z.succ (j - 1)) (Z.of_nat (S n)));
        try lia; reflexivity.
Qed.

Lemma bits_at_number v (a : arr) lo n :
  0 <= lo -> 0 <= n ->
  (forall k, lo <= k < lo + n -> a k = Z.testbit v k) ->
  bits_at v lo n = number a lo (Z.to_nat n).
Proof.
  intros Hl Hn H. apply Z.bits_inj'. intros j Hj.
  rewrite testbit_bits_at, number_testbit by lia.
  rewrite Z2Nat.id by lia.
  destruct (Z.ltb_spec j n); simpl; [|reflexivity].
  rewrite H by lia. f_equal; lia.
Qed.
