(** Lemmas for the rates printed by check-instructions. *)
From Coq Require Import ZArith List Bool Lia.
From Verif Require Import Py LPy MCards SCards MSymbols SSymbols MInstructions MTools STools LSymBuild LGen LTools MFloat SRate.
#[local] Arguments Z.add : simpl never.
#[local] Arguments Z.sub : simpl never.
#[local] Arguments Z.mul : simpl never.
#[local] Arguments Z.pow : simpl never.

(** *** rounding to an integer *)
Lemma round_even_near p q : 0 < q -> 2 * Z.abs (round_even p q * q - p) <= q.
Proof.
  intros Q. unfold round_even. pose proof (Z.div_mod p q ltac:(lia)) as D. pose proof (Z.mod_pos_bound p q Q) as M.
  set (d := p / q) in *. set (r := p mod q) in *.
  destruct (Z.ltb_spec (2 * r) q); [nia|]. destruct (Z.ltb_spec q (2 * r)); [nia|]. destruct (Z.even d); nia.
Qed.
Lemma round_even_even p q : 0 < q -> 2 * Z.abs (round_even p q * q - p) = q -> Z.even (round_even p q) = true.
Proof.
  intros Q. unfold round_even. pose proof (Z.div_mod p q ltac:(lia)) as D. pose proof (Z.mod_pos_bound p q Q) as M.
  set (d := p / q) in *. set (r := p mod q) in *.
  destruct (Z.ltb_spec (2 * r) q); [nia|]. destruct (Z.ltb_spec q (2 * r)); [nia|]. destruct (Z.even d) eqn:E; intros _; [exact E|].
  change (d + 1) with (Z.succ d). rewrite Z.even_succ, <- Z.negb_even, E. reflexivity.
Qed.
Lemma round_even_mono p q p' q' : 0 < q -> 0 < q' -> p * q' <= p' * q -> round_even p q <= round_even p' q'.
Proof.
  intros Q Q' L. pose proof (round_even_near p q Q) as N. pose proof (round_even_near p' q' Q') as N'.
  pose proof (round_even_even p q Q) as E. pose proof (round_even_even p' q' Q') as E'.
  set (a := round_even p q) in *. set (b := round_even p' q') in *.
  destruct (Z_le_gt_dec a b) as [H|H]; [exact H|exfalso].
  (* a >= b + 1, so both are at distance 1/2 of the same number *)
  assert (A1 : 2 * (a * q - p) <= q) by lia. assert (B1 : 2 * (p' - b * q') <= q') by lia.
  assert (A2 : 2 * a * q * q' - q * q' <= 2 * p * q') by nia.
  assert (B2 : 2 * p' * q <= 2 * b * q' * q + q * q') by nia.
  assert (0 < q * q') by nia.
  assert (AB : a = b + 1) by nia.
  assert (X1 : 2 * (a * q - p) = q) by nia. assert (X2 : 2 * (p' - b * q') = q') by nia.
  specialize (E ltac:(lia)). specialize (E' ltac:(lia)). rewrite AB in E.
  change (b + 1) with (Z.succ b) in E. rewrite Z.even_succ, <- Z.negb_even, E' in E. discriminate.
Qed.
Lemma round_even_nonneg p q : 0 < q -> 0 <= p -> 0 <= round_even p q.
Proof. intros Q P. pose proof (round_even_near p q Q). nia. Qed.

(** *** rounding to 53 bits *)
Lemma pow2_pos k : 0 < 2 ^ Z.max 0 k.
Proof. apply Z.pow_pos_nonneg; lia. Qed.
Lemma pow2_split k j : 0 <= j -> 2 ^ Z.max 0 (k + j) * 2 ^ Z.max 0 (- k) = 2 ^ j * 2 ^ Z.max 0 k * 2 ^ Z.max 0 (- (k + j)).
Proof.
  intros J. rewrite <- !Z.pow_add_r by lia. f_equal. lia.
Qed.
(** expo scales the quotient into 2^52 .. 2^53 *)
Lemma expo_range p q : 0 < p -> 0 < q ->
  let e := expo p q in
  2 ^ 52 * (q * 2 ^ Z.max 0 e) <= p * 2 ^ Z.max 0 (- e) < 2 ^ 53 * (q * 2 ^ Z.max 0 e).
Proof.
  intros P Q. cbv zeta. unfold expo. set (k := Z.log2 p - Z.log2 q).
  pose proof (Z.log2_spec p P) as [P1 P2]. pose proof (Z.log2_spec q Q) as [Q1 Q2].
  pose proof (Z.log2_nonneg p). pose proof (Z.log2_nonneg q).
  assert (K1 : q * 2 ^ Z.max 0 (k - 1) <= p * 2 ^ Z.max 0 (- (k - 1))).
  { apply Z.lt_le_incl. apply Z.lt_le_trans with (2 ^ Z.succ (Z.log2 q) * 2 ^ Z.max 0 (k - 1)); [apply Z.mul_lt_mono_pos_r; [apply pow2_pos|lia]|].
    apply Z.le_trans with (2 ^ Z.log2 p * 2 ^ Z.max 0 (- (k - 1))); [|apply Z.mul_le_mono_nonneg_r; [apply Z.lt_le_incl, pow2_pos|lia]].
    rewrite <- !Z.pow_add_r by lia. apply Z.pow_le_mono_r; lia. }
  assert (K2 : p * 2 ^ Z.max 0 (- (k + 1)) < q * 2 ^ Z.max 0 (k + 1)).
  { apply Z.lt_le_trans with (2 ^ Z.succ (Z.log2 p) * 2 ^ Z.max 0 (- (k + 1))); [apply Z.mul_lt_mono_pos_r; [apply pow2_pos|lia]|].
    apply Z.le_trans with (2 ^ Z.log2 q * 2 ^ Z.max 0 (k + 1)); [|apply Z.mul_le_mono_nonneg_r; [apply Z.lt_le_incl, pow2_pos|lia]].
    rewrite <- !Z.pow_add_r by lia. apply Z.pow_le_mono_r; lia. }
  (* q * 2^j <= p moves along *)
  assert (LE : forall a j, 0 <= j -> q * 2 ^ Z.max 0 (a + j) <= p * 2 ^ Z.max 0 (- (a + j)) ->
                2 ^ j * (q * 2 ^ Z.max 0 a) <= p * 2 ^ Z.max 0 (- a)).
  { intros a j J L. pose proof (pow2_split a j J) as S0. pose proof (pow2_pos (- (a + j))). pose proof (pow2_pos (- a)).
    apply Z.mul_le_mono_pos_r with (2 ^ Z.max 0 (- (a + j))); [assumption|].
    replace (2 ^ j * (q * 2 ^ Z.max 0 a) * 2 ^ Z.max 0 (- (a + j))) with (q * (2 ^ j * 2 ^ Z.max 0 a * 2 ^ Z.max 0 (- (a + j)))) by ring.
    rewrite <- S0. replace (q * (2 ^ Z.max 0 (a + j) * 2 ^ Z.max 0 (- a))) with (q * 2 ^ Z.max 0 (a + j) * 2 ^ Z.max 0 (- a)) by ring.
    replace (p * 2 ^ Z.max 0 (- a) * 2 ^ Z.max 0 (- (a + j))) with (p * 2 ^ Z.max 0 (- (a + j)) * 2 ^ Z.max 0 (- a)) by ring.
    apply Z.mul_le_mono_nonneg_r; lia. }
  assert (LT : forall a j, 0 <= j -> p * 2 ^ Z.max 0 (- (a + j)) < q * 2 ^ Z.max 0 (a + j) ->
                p * 2 ^ Z.max 0 (- a) < 2 ^ j * (q * 2 ^ Z.max 0 a)).
  { intros a j J L. pose proof (pow2_split a j J) as S0. pose proof (pow2_pos (- (a + j))). pose proof (pow2_pos (- a)).
    apply Z.mul_lt_mono_pos_r with (2 ^ Z.max 0 (- (a + j))); [assumption|].
    replace (2 ^ j * (q * 2 ^ Z.max 0 a) * 2 ^ Z.max 0 (- (a + j))) with (q * (2 ^ j * 2 ^ Z.max 0 a * 2 ^ Z.max 0 (- (a + j)))) by ring.
    rewrite <- S0. replace (q * (2 ^ Z.max 0 (a + j) * 2 ^ Z.max 0 (- a))) with (q * 2 ^ Z.max 0 (a + j) * 2 ^ Z.max 0 (- a)) by ring.
    replace (p * 2 ^ Z.max 0 (- a) * 2 ^ Z.max 0 (- (a + j))) with (p * 2 ^ Z.max 0 (- (a + j)) * 2 ^ Z.max 0 (- a)) by ring.
    apply Z.mul_lt_mono_pos_r; lia. }
  destruct (Z.ltb_spec (p * 2 ^ Z.max 0 (- k)) (q * 2 ^ Z.max 0 k)) as [C|C]; split.
  - apply (LE (k - 53) 52); [lia|]. replace (k - 53 + 52) with (k - 1) by lia. exact K1.
  - apply (LT (k - 53) 53); [lia|]. replace (k - 53 + 53) with k by lia. exact C.
  - apply (LE (k - 52) 52); [lia|]. replace (k - 52 + 52) with k by lia. exact C.
  - apply (LT (k - 52) 53); [lia|]. replace (k - 52 + 53) with (k + 1) by lia. exact K2.
Qed.
Lemma den_pos x : 0 < den x.
Proof. apply pow2_pos. Qed.
Definition near (x : flt) (p q : Z) : Prop :=
  (2 ^ 53 - 1) * (p * den x) <= 2 ^ 53 * (num x * q) <= (2 ^ 53 + 1) * (p * den x).
Lemma round53_near p q : 0 <= p -> 0 < q -> near (round53 p q) p q.
Proof.
  intros P Q. unfold near, round53. destruct (Z.eqb_spec p 0) as [->|N]; [unfold num, den; cbn [f_m f_e]; lia|].
  cbv zeta. pose proof (expo_range p q ltac:(lia) Q) as [R1 R2]. cbv zeta in R1, R2. set (e := expo p q) in *.
  unfold num, den. cbn [f_m f_e]. pose proof (pow2_pos e) as E1. pose proof (pow2_pos (- e)) as E2.
  pose proof (round_even_near (p * 2 ^ Z.max 0 (- e)) (q * 2 ^ Z.max 0 e) ltac:(nia)) as H.
  set (m := round_even _ _) in *. set (A := 2 ^ Z.max 0 e) in *. set (B := 2 ^ Z.max 0 (- e)) in *.
  change (2 ^ 52) with 4503599627370496 in *. change (2 ^ 53) with 9007199254740992 in *.
  replace (m * A * q) with (m * (q * A)) by ring. set (Y := m * (q * A)) in *. set (X := p * B) in *. set (W := q * A) in *. lia.
Qed.
Lemma round53_nonneg p q : 0 <= p -> 0 < q -> 0 <= num (round53 p q).
Proof. intros P Q. pose proof (round53_near p q P Q) as [N _]. pose proof (den_pos (round53 p q)). change (2 ^ 53) with 9007199254740992 in *. nia. Qed.
Lemma round53_zero q : num (round53 0 q) = 0.
Proof. reflexivity. Qed.

(** the order of values *)
Definition fle (x y : flt) : Prop := num x * den y <= num y * den x.
Lemma round53_bounds p q : 0 < p -> 0 < q ->
  2 ^ 52 <= f_m (round53 p q) <= 2 ^ 53 /\ f_e (round53 p q) = expo p q.
Proof.
  intros P Q. unfold round53. destruct (Z.eqb_spec p 0); [lia|]. cbv zeta. cbn [f_m f_e]. split; [|reflexivity].
  pose proof (expo_range p q P Q) as [R1 R2]. cbv zeta in R1, R2. set (e := expo p q) in *.
  pose proof (pow2_pos e) as E1. set (X := p * 2 ^ Z.max 0 (- e)) in *. set (W := q * 2 ^ Z.max 0 e) in *.
  assert (0 < W) by (unfold W; nia).
  split.
  - replace (2 ^ 52) with (round_even (2 ^ 52) 1) by reflexivity. apply round_even_mono; lia.
  - replace (2 ^ 53) with (round_even (2 ^ 53) 1) by reflexivity. apply round_even_mono; lia.
Qed.
Lemma pow2_diff a b : a <= b -> 2 ^ Z.max 0 b * 2 ^ Z.max 0 (- a) = 2 ^ (b - a) * (2 ^ Z.max 0 a * 2 ^ Z.max 0 (- b)).
Proof. intros H. rewrite <- !Z.pow_add_r by lia. f_equal. lia. Qed.
(** the two comparisons of binades, in contexts of their own *)
Local Ltac pos := repeat first [assumption | apply Z.lt_le_incl; assumption | apply Z.mul_pos_pos | apply Z.mul_nonneg_nonneg | apply Z.lt_le_incl].
Lemma binade_up m m' d K : 0 < K -> 2 <= d -> m <= 2 ^ 53 -> 2 ^ 52 <= m' -> m * K <= m' * (d * K).
Proof.
  intros HK D M M'. rewrite Z.mul_assoc. apply Z.mul_le_mono_nonneg_r; [lia|].
  change (2 ^ 52) with 4503599627370496 in *. change (2 ^ 53) with 9007199254740992 in *. nia.
Qed.
Lemma binade_down p q p' q' A A' F F' d :
  0 < q -> 0 < q' -> 0 < A -> 0 < A' -> 0 < F -> 0 < F' -> 2 <= d ->
  p * q' <= p' * q -> p' * F' < 2 ^ 53 * (q' * A') -> 2 ^ 52 * (q * A) <= p * F -> A * F' = d * (A' * F) -> False.
Proof.
  intros Q Q' HA HA' HF HF' T L B' B D.
  assert (S2 : p' * F' * (q * F) < 2 ^ 53 * (q' * A') * (q * F)) by (apply Z.mul_lt_mono_pos_r; [pos|exact B']).
  assert (S3 : 2 ^ 52 * (q * A) * (q' * F') <= p * F * (q' * F')) by (apply Z.mul_le_mono_nonneg_r; [pos|exact B]).
  assert (S4 : p * q' * (F * F') <= p' * q * (F * F')) by (apply Z.mul_le_mono_nonneg_r; [pos|exact L]).
  replace (p * F * (q' * F')) with (p * q' * (F * F')) in S3 by ring.
  replace (p' * F' * (q * F)) with (p' * q * (F * F')) in S2 by ring.
  replace (2 ^ 53 * (q' * A') * (q * F)) with (2 ^ 52 * (2 * (q * q' * (A' * F)))) in S2 by (change (2 ^ 53) with (2 ^ 52 * 2); ring).
  replace (2 ^ 52 * (q * A) * (q' * F')) with (2 ^ 52 * (q * q' * (A * F'))) in S3 by ring. rewrite D in S3.
  assert (S5 : 2 * (q * q' * (A' * F)) <= q * q' * (d * (A' * F))).
  { replace (q * q' * (d * (A' * F))) with (d * (q * q' * (A' * F))) by ring. apply Z.mul_le_mono_nonneg_r; [pos|exact T]. }
  change (2 ^ 52) with 4503599627370496 in *. lia.
Qed.
Lemma round53_mono p q p' q' : 0 <= p -> 0 <= p' -> 0 < q -> 0 < q' -> p * q' <= p' * q -> fle (round53 p q) (round53 p' q').
Proof.
  intros P P' Q Q' L. destruct (Z.eq_dec p 0) as [->|N].
  { unfold fle. rewrite round53_zero. pose proof (round53_nonneg p' q' P' Q'). pose proof (den_pos (round53 0 q)). nia. }
  assert (N' : 0 < p') by nia.
  destruct (round53_bounds p q ltac:(lia) Q) as [B E]. destruct (round53_bounds p' q' N' Q') as [B' E'].
  pose proof (expo_range p q ltac:(lia) Q) as [R1 R2]. pose proof (expo_range p' q' N' Q') as [R1' R2']. cbv zeta in *.
  unfold fle, num, den. rewrite E, E'.
  assert (EX : expo p q = expo p' q' -> f_m (round53 p q) <= f_m (round53 p' q')).
  { intros EE. unfold round53. destruct (Z.eqb_spec p 0); [lia|]. destruct (Z.eqb_spec p' 0); [lia|]. cbv zeta. cbn [f_m]. rewrite EE.
    set (e := expo p' q'). pose proof (pow2_pos e). pose proof (pow2_pos (- e)).
    apply round_even_mono; [pos|pos|].
    replace (p * 2 ^ Z.max 0 (- e) * (q' * 2 ^ Z.max 0 e)) with (p * q' * (2 ^ Z.max 0 (- e) * 2 ^ Z.max 0 e)) by ring.
    replace (p' * 2 ^ Z.max 0 (- e) * (q * 2 ^ Z.max 0 e)) with (p' * q * (2 ^ Z.max 0 (- e) * 2 ^ Z.max 0 e)) by ring.
    apply Z.mul_le_mono_nonneg_r; [pos|exact L]. }
  set (m := f_m (round53 p q)) in *. set (m' := f_m (round53 p' q')) in *.
  set (e := expo p q) in *. set (e' := expo p' q') in *.
  pose proof (pow2_pos e) as W1. pose proof (pow2_pos (- e)) as W2. pose proof (pow2_pos e') as W3. pose proof (pow2_pos (- e')) as W4.
  destruct (Z_dec e e') as [[C|C]|C].
  - (* smaller binade *)
    pose proof (pow2_diff e e' ltac:(lia)) as D.
    assert (T : 2 <= 2 ^ (e' - e)).
    { change 2 with (2 ^ 1) at 1. apply Z.pow_le_mono_r; lia. }
    replace (m * 2 ^ Z.max 0 e * 2 ^ Z.max 0 (- e')) with (m * (2 ^ Z.max 0 e * 2 ^ Z.max 0 (- e'))) by ring.
    replace (m' * 2 ^ Z.max 0 e' * 2 ^ Z.max 0 (- e)) with (m' * (2 ^ Z.max 0 e' * 2 ^ Z.max 0 (- e))) by ring.
    rewrite D. apply binade_up; [pos|exact T|apply B|apply B'].
  - (* the binade cannot fall *)
    exfalso. pose proof (pow2_diff e' e ltac:(lia)) as D.
    assert (T : 2 <= 2 ^ (e - e')).
    { change 2 with (2 ^ 1) at 1. apply Z.pow_le_mono_r; lia. }
    (* p'/q' < 2^53 2^e' <= 2^52 2^e <= p/q *)
    exact (binade_down p q p' q' _ _ _ _ _ Q Q' W1 W3 W2 W4 T L R2' R1 D).
  - (* same binade *)
    rewrite <- C in *. specialize (EX eq_refl). nia.
Qed.

(** *** the rate *)
Lemma fl_100 : num (fl_int 100) = 100 * den (fl_int 100).
Proof. vm_compute. reflexivity. Qed.
Lemma fl_int_pos n : 0 < n -> 0 < num (fl_int n).
Proof.
  intros N. pose proof (round53_near n 1 ltac:(lia) ltac:(lia)) as [H _]. pose proof (den_pos (round53 n 1)).
  unfold fl_int. change (2 ^ 53) with 9007199254740992 in H. nia.
Qed.
Lemma rate_near n total : 0 <= n -> 0 < total ->
  let z := rate n total in
  0 <= num z /\
  100 * (2 ^ 53 - 8) * (n * den z) <= 2 ^ 53 * (num z * total) <= 100 * (2 ^ 53 + 8) * (n * den z).
Proof.
  intros N T. cbv zeta. unfold rate. set (x := fl_int n). set (t := fl_int total). set (y := fl_mul (fl_int 100) x).
  pose proof (round53_near n 1 N ltac:(lia)) as HX. fold (fl_int n) in HX. fold x in HX.
  pose proof (round53_near total 1 ltac:(lia) ltac:(lia)) as HT. fold (fl_int total) in HT. fold t in HT.
  pose proof (fl_int_pos total T) as TP. fold t in TP.
  assert (XP : 0 <= num x) by (apply round53_nonneg; lia).
  pose proof (den_pos x) as DX. pose proof (den_pos t) as DT. pose proof (den_pos (fl_int 100)) as D1.
  assert (HY : near y (100 * num x) (den x)).
  { unfold y, fl_mul. pose proof (round53_near (num (fl_int 100) * num x) (den (fl_int 100) * den x) ltac:(rewrite fl_100; nia) ltac:(nia)) as H.
    set (y' := round53 _ _) in *. unfold near in *. rewrite fl_100 in H. set (c := den (fl_int 100)) in *.
    change (2 ^ 53) with 9007199254740992 in *. pose proof (den_pos y').
    destruct H as [H1 H2]. split; apply (Z.mul_le_mono_pos_l _ _ c D1); nia. }
  assert (YP : 0 <= num y) by (apply round53_nonneg; [rewrite fl_100|]; nia).
  pose proof (den_pos y) as DY.
  pose proof (round53_near (num y * den t) (den y * num t) ltac:(nia) ltac:(nia)) as HZ. fold (fl_div y t) in HZ.
  assert (ZP : 0 <= num (fl_div y t)) by (apply round53_nonneg; nia).
  set (z := fl_div y t) in *. pose proof (den_pos z) as DZ. split; [exact ZP|].
  unfold near in *. change (2 ^ 53) with 9007199254740992 in *.
  set (X := num x) in *. set (D := den x) in *. set (Y := num y) in *. set (Dy := den y) in *.
  set (Tt := num t) in *. set (Dt := den t) in *. set (Z := num z) in *. set (Dz := den z) in *.
  clearbody X D Y Dy Tt Dt Z Dz. clear x t y z D1. rewrite Z.mul_1_r in HX, HT.
  destruct HX as [X1 X2]. destruct HT as [T1 T2]. destruct HY as [Y1 Y2]. destruct HZ as [Z1 Z2].
  assert (0 <= n * Dz) by nia. assert (0 <= Z * total) by nia.
  split.
  - (* lower bound *)
    assert (A1 : (9007199254740992 - 1) * (Y * Dz) <= (9007199254740992 + 1) * (Z * total * Dy)).
    { apply (Z.mul_le_mono_pos_r _ _ Dt DT).
      assert (9007199254740992 * Tt * (Z * Dy) <= (9007199254740992 + 1) * (total * Dt) * (Z * Dy)) by (apply Z.mul_le_mono_nonneg_r; nia). nia. }
    assert (A2 : (9007199254740992 - 1) * (9007199254740992 - 1) * (100 * X * Dz) <= (9007199254740992 + 1) * 9007199254740992 * (Z * total * D)).
    { apply (Z.mul_le_mono_pos_r _ _ Dy DY).
      assert ((9007199254740992 - 1) * (100 * X * Dy) * (Dz * (9007199254740992 - 1)) <= 9007199254740992 * (Y * D) * (Dz * (9007199254740992 - 1))) by (apply Z.mul_le_mono_nonneg_r; lia).
      assert ((9007199254740992 - 1) * (Y * Dz) * (9007199254740992 * D) <= (9007199254740992 + 1) * (Z * total * Dy) * (9007199254740992 * D)) by (apply Z.mul_le_mono_nonneg_r; lia).
      nia. }
    assert (A3 : (9007199254740992 - 1) * (9007199254740992 - 1) * (9007199254740992 - 1) * (100 * (n * Dz)) <=
                 (9007199254740992 + 1) * 9007199254740992 * 9007199254740992 * (Z * total)).
    { apply (Z.mul_le_mono_pos_r _ _ D DX).
      assert ((9007199254740992 - 1) * (n * D) * (100 * Dz * ((9007199254740992 - 1) * (9007199254740992 - 1))) <= 9007199254740992 * X * (100 * Dz * ((9007199254740992 - 1) * (9007199254740992 - 1)))) by (apply Z.mul_le_mono_nonneg_r; lia).
      assert ((9007199254740992 - 1) * (9007199254740992 - 1) * (100 * X * Dz) * 9007199254740992 <= (9007199254740992 + 1) * 9007199254740992 * (Z * total * D) * 9007199254740992) by (apply Z.mul_le_mono_nonneg_r; lia).
      nia. }
    set (V := n * Dz) in *. set (W := Z * total) in *. clearbody V W. lia.
  - (* upper bound *)
    assert (A1 : (9007199254740992 - 1) * (Z * total * Dy) <= (9007199254740992 + 1) * (Y * Dz)).
    { apply (Z.mul_le_mono_pos_r _ _ Dt DT).
      assert ((9007199254740992 - 1) * (total * Dt) * (Z * Dy) <= 9007199254740992 * Tt * (Z * Dy)) by (apply Z.mul_le_mono_nonneg_r; nia). nia. }
    assert (A2 : (9007199254740992 - 1) * 9007199254740992 * (Z * total * D) <= (9007199254740992 + 1) * (9007199254740992 + 1) * (100 * X * Dz)).
    { apply (Z.mul_le_mono_pos_r _ _ Dy DY).
      assert (9007199254740992 * (Y * D) * (Dz * (9007199254740992 + 1)) <= (9007199254740992 + 1) * (100 * X * Dy) * (Dz * (9007199254740992 + 1))) by (apply Z.mul_le_mono_nonneg_r; lia).
      assert ((9007199254740992 - 1) * (Z * total * Dy) * (9007199254740992 * D) <= (9007199254740992 + 1) * (Y * Dz) * (9007199254740992 * D)) by (apply Z.mul_le_mono_nonneg_r; lia).
      nia. }
    assert (A3 : (9007199254740992 - 1) * 9007199254740992 * 9007199254740992 * (Z * total) <=
                 (9007199254740992 + 1) * (9007199254740992 + 1) * (9007199254740992 + 1) * (100 * (n * Dz))).
    { apply (Z.mul_le_mono_pos_r _ _ D DX).
      assert (9007199254740992 * X * (100 * Dz * ((9007199254740992 + 1) * (9007199254740992 + 1))) <= (9007199254740992 + 1) * (n * D) * (100 * Dz * ((9007199254740992 + 1) * (9007199254740992 + 1)))) by (apply Z.mul_le_mono_nonneg_r; lia).
      assert ((9007199254740992 - 1) * 9007199254740992 * (Z * total * D) * 9007199254740992 <= (9007199254740992 + 1) * (9007199254740992 + 1) * (100 * X * Dz) * 9007199254740992) by (apply Z.mul_le_mono_nonneg_r; lia).
      nia. }
    set (V := n * Dz) in *. set (W := Z * total) in *. clearbody V W. lia.
Qed.
Lemma hundredths_near n total : 0 <= n -> 0 < total ->
  let c := fl_hundredths (rate n total) in
  0 <= c /\ 2 ^ 53 * (2 * Z.abs (c * total - 10000 * n)) <= 2 ^ 53 * total + 160000 * n.
Proof.
  intros N T. cbv zeta. destruct (rate_near n total N T) as (P & L & U). cbv zeta in *. unfold fl_hundredths.
  set (z := rate n total) in *. pose proof (den_pos z) as D. pose proof (round_even_near (100 * num z) (den z) D) as H.
  split; [apply round_even_nonneg; lia|]. set (c := round_even _ _) in *.
  change (2 ^ 53) with 9007199254740992 in *. set (Z := num z) in *. set (Dz := den z) in *. clearbody Z Dz c.
  assert (H1 : 2 * (c * total * Dz - 100 * (Z * total)) <= total * Dz) by nia.
  assert (H2 : 2 * (100 * (Z * total) - c * total * Dz) <= total * Dz) by nia.
  apply (Z.mul_le_mono_pos_r _ _ Dz D).
  replace (9007199254740992 * (2 * Z.abs (c * total - 10000 * n)) * Dz) with (9007199254740992 * (2 * Z.abs (c * total * Dz - 10000 * (n * Dz)))).
  2:{ replace (c * total * Dz - 10000 * (n * Dz)) with ((c * total - 10000 * n) * Dz) by ring. rewrite Z.abs_mul, (Z.abs_eq Dz) by lia. ring. }
  replace ((9007199254740992 * total + 160000 * n) * Dz) with (9007199254740992 * (total * Dz) + 160000 * (n * Dz)) by ring.
  set (W := Z * total) in *. set (V := n * Dz) in *. set (C := c * total * Dz) in *. set (S0 := total * Dz) in *. clearbody W V C S0. lia.
Qed.
Lemma hundredths_range n total : 0 <= n <= total -> 0 < total -> 0 <= fl_hundredths (rate n total) <= 10000.
Proof.
  intros N T. destruct (hundredths_near n total ltac:(lia) T) as (P & H). cbv zeta in *. set (c := fl_hundredths _) in *. clearbody c.
  change (2 ^ 53) with 9007199254740992 in H. split; [exact P|].
  destruct (Z_le_gt_dec c 10000) as [L|L]; [exact L|exfalso].
  assert (10001 * total <= c * total) by nia. lia.
Qed.
Lemma hundredths_nearest n total : 0 <= n <= total -> 0 < total <= 2 ^ 35 -> nearest_rate n total (fl_hundredths (rate n total)).
Proof.
  intros N T. destruct (hundredths_near n total ltac:(lia) ltac:(lia)) as (P & H). cbv zeta in *. unfold nearest_rate.
  change (2 ^ 53) with 9007199254740992 in H. change (2 ^ 35) with 34359738368 in T. lia.
Qed.
Lemma hundredths_mono n n' total : 0 <= n <= n' -> 0 < total -> fl_hundredths (rate n total) <= fl_hundredths (rate n' total).
Proof.
  intros N T. unfold fl_hundredths. apply round_even_mono; try apply den_pos.
  assert (F : fle (rate n total) (rate n' total)).
  { unfold rate. pose proof (fl_int_pos total T) as TP. set (t := fl_int total) in *. pose proof (den_pos t) as TD.
    assert (F1 : fle (fl_int n) (fl_int n')) by (apply round53_mono; lia).
    pose proof (round53_nonneg n 1 ltac:(lia) ltac:(lia)) as X0. pose proof (round53_nonneg n' 1 ltac:(lia) ltac:(lia)) as X1.
    fold (fl_int n) in X0. fold (fl_int n') in X1. set (x := fl_int n) in *. set (x' := fl_int n') in *.
    pose proof (den_pos x) as D0. pose proof (den_pos x') as D1. pose proof (den_pos (fl_int 100)) as D2.
    assert (M : forall v, 0 <= num v -> 0 <= num (fl_mul (fl_int 100) v)).
    { intros v V. apply round53_nonneg; [rewrite fl_100|pose proof (den_pos v)]; nia. }
    assert (F2 : fle (fl_mul (fl_int 100) x) (fl_mul (fl_int 100) x')).
    { unfold fle in F1. apply round53_mono; rewrite ?fl_100; nia. }
    pose proof (M x X0) as Y0. pose proof (M x' X1) as Y1. set (y := fl_mul _ x) in *. set (y' := fl_mul _ x') in *.
    pose proof (den_pos y). pose proof (den_pos y'). unfold fle in F2. apply round53_mono; try nia.
    replace (num y * den t * (den y' * num t)) with (den t * num t * (num y * den y')) by ring.
    replace (num y' * den t * (den y * num t)) with (den t * num t * (num y' * den y)) by ring.
    apply Z.mul_le_mono_nonneg_l; [nia|exact F2]. }
  unfold fle in F. nia.
Qed.

(** *** the text *)
Lemma fmt_shows c : 0 <= c <= 10000 ->
  shows_hundredths (pad_left 32 6 (numeral 10 (c / 100) ++ lit "." ++ pad_left 48 2 (numeral 10 (c mod 100)))) c.
Proof.
  intros C. assert (B : c / 100 <= 100) by (apply Z.div_le_upper_bound; lia). assert (B0 : 0 <= c / 100) by (apply Z.div_pos; lia).
  pose proof (Z.mod_pos_bound c 100 ltac:(lia)) as M. pose proof (Z.div_mod c 100 ltac:(lia)) as DM.
  set (a := c / 100) in *. set (b := c mod 100) in *. rewrite DM.
  assert (FB : exists d1 d2, pad_left 48 2 (numeral 10 b) = [d1; d2] /\ 48 <= d1 <= 57 /\ 48 <= d2 <= 57 /\ b = 10 * (d1 - 48) + (d2 - 48)).
  { exists (48 + b / 10), (48 + b mod 10).
    assert (K : forallb (fun k => let v := Z.of_nat k in eqb (pad_left 48 2 (numeral 10 v)) [48 + v / 10; 48 + v mod 10]) (seq 0 100) = true) by (vm_compute; reflexivity).
    rewrite forallb_forall in K. specialize (K (Z.to_nat b) ltac:(apply in_seq; lia)). cbv zeta in K. rewrite Z2Nat.id in K by lia. apply eqb_ok in K.
    split; [exact K|]. pose proof (Z.div_mod b 10 ltac:(lia)). pose proof (Z.mod_pos_bound b 10 ltac:(lia)).
    assert (0 <= b / 10) by (apply Z.div_pos; lia). assert (b / 10 < 10) by (apply Z.div_lt_upper_bound; lia). lia. }
  destruct FB as (d1 & d2 & -> & R1 & R2 & EB).
  assert (FA : let w := numeral 10 a in 1 <= zlen w <= 3 /\ (w = [48] \/ exists x r, w = x :: r /\ x <> 48)).
  { assert (K : forallb (fun k => let w := numeral 10 (Z.of_nat k) in (1 <=? zlen w) && (zlen w <=? 3) && (eqb w [48] || match w with x :: _ => negb (x =? 48) | [] => false end)) (seq 0 101) = true) by (vm_compute; reflexivity).
    rewrite forallb_forall in K. specialize (K (Z.to_nat a) ltac:(apply in_seq; lia)). cbv zeta in *. rewrite Z2Nat.id in K by lia.
    apply andb_true_iff in K. destruct K as [K1 K2]. apply andb_true_iff in K1. destruct K1 as [K0 K1]. split; [lia|].
    apply orb_true_iff in K2. destruct K2 as [K2|K2]; [left; apply eqb_ok; exact K2|right].
    destruct (numeral 10 a) as [|x r]; [discriminate|]. exists x, r. split; [reflexivity|]. apply negb_true_iff in K2. lia. }
  cbv zeta in FA. destruct FA as [L W]. exists (Z.to_nat (6 - zlen (numeral 10 a ++ lit "." ++ [d1; d2]))), (numeral 10 a), d1, d2.
  split; [reflexivity|]. split; [|split; [|exact W]].
  - unfold pad_left, repeat_char. rewrite !zlen_app. unfold zlen at 1. rewrite repeat_length.
    change (zlen (lit ".")) with 1. change (zlen [d1; d2]) with 2. lia.
  - split; [|split].
    + intros E. apply app_eq_nil in E. destruct E as [_ E]. discriminate.
    + apply Forall_app. split; [|repeat (constructor; [assumption|]); constructor].
      eapply Forall_impl; [|apply (numeral_dig 10 a); lia]. intros x D. unfold dig in D. lia.
    + rewrite spell_fold, spell_app, numeral_spell by lia. unfold spell. cbn [fold_left]. lia.
Qed.
Lemma shows_unique s c c' : shows_hundredths s c -> shows_hundredths s c' -> c = c'.
Proof.
  intros (k & w & d1 & d2 & E & _ & D & _) (k' & w' & d1' & d2' & E' & _ & D' & _). rewrite E in E'. clear E.
  assert (F : forall k w d1 d2 c, decimal (w ++ [d1; d2]) c -> filter (fun x => negb (x =? 32)) (repeat 32 k ++ w ++ [46; d1; d2]) = w ++ [46; d1; d2]).
  { intros k0 w0 a b v (_ & Dg & _). rewrite filter_app. replace (filter (fun x => negb (x =? 32)) (repeat 32 k0)) with (@nil Z) by (induction k0; cbn; auto).
    cbn [app]. apply Forall_app in Dg. destruct Dg as [Dw Dd]. rewrite filter_app. f_equal.
    - induction Dw as [|x w1 X Dw IH]; [reflexivity|]. cbn [filter]. destruct (Z.eqb_spec x 32); [lia|]. cbn [negb]. rewrite IH. reflexivity.
    - inversion Dd as [|? ? A1 Dd1]; subst. inversion Dd1 as [|? ? A2 _]; subst. cbn [filter].
      destruct (Z.eqb_spec a 32); [lia|]. destruct (Z.eqb_spec b 32); [lia|]. reflexivity. }
  assert (G : w ++ [46; d1; d2] = w' ++ [46; d1'; d2']).
  { rewrite <- (F k w d1 d2 c D), <- (F k' w' d1' d2' c' D'), E'. reflexivity. }
  change [46; d1; d2] with ([46; d1] ++ [d2]) in G. change [46; d1'; d2'] with ([46; d1'] ++ [d2']) in G.
  rewrite !app_assoc in G. apply app_inj_tail in G. destruct G as [G ->].
  change [46; d1] with ([46] ++ [d1]) in G. change [46; d1'] with ([46] ++ [d1']) in G.
  rewrite !app_assoc in G. apply app_inj_tail in G. destruct G as [G ->]. apply app_inj_tail in G. destruct G as [-> _].
  destruct D as (_ & _ & <-). destruct D' as (_ & _ & <-). reflexivity.
Qed.
Lemma pct_shows n total : 0 <= n <= total -> 0 < total -> shows_hundredths (pct_py n total) (fl_hundredths (rate n total)).
Proof. intros N T. apply fmt_shows. apply hundredths_range; assumption. Qed.

(** *** C137 *)
Lemma C137_rate_pf : forall n total, 0 <= n <= total -> 0 < total ->
  exists c, shows_hundredths (pct_py n total) c /\ 0 <= c <= 10000 /\
    (total <= 2 ^ 35 -> nearest_rate n total c) /\
    2 ^ 53 * (2 * Z.abs (c * total - 10000 * n)) <= 2 ^ 53 * total + 160000 * n.
Proof.
  intros n total N T. exists (fl_hundredths (rate n total)). split; [apply pct_shows; assumption|].
  split; [apply hundredths_range; assumption|]. split; [intros L; apply hundredths_nearest; lia|].
  apply (hundredths_near n total); lia.
Qed.
(*@ Example C137_rate_ex : pct_py 2 3 = lit " 66.67" /\ pct_py 1 800 = lit "  0.12" /\ pct_py 3 800 = lit "  0.38" /\ nearest_rate 2 3 6667.
Proof. vm_compute. repeat split; discriminate. Qed. @*)
Lemma C137_order_pf : forall n n' total c c', 0 <= n <= n' -> n' <= total -> 0 < total ->
  shows_hundredths (pct_py n total) c -> shows_hundredths (pct_py n' total) c' -> c <= c'.
Proof.
  intros n n' total c c' N L T S1 S2.
  rewrite (shows_unique _ _ _ S1 (pct_shows n total ltac:(lia) T)), (shows_unique _ _ _ S2 (pct_shows n' total ltac:(lia) T)).
  apply hundredths_mono; assumption.
Qed.
(*@ Example C137_order_ex : shows_hundredths (pct_py 1 7) 1429 /\ shows_hundredths (pct_py 2 7) 2857.
Proof.
  split; [exists 1%nat, [49; 52], 50, 57|exists 1%nat, [50; 56], 53, 55]; (split; [vm_compute; reflexivity|]);
    (split; [vm_compute; reflexivity|]); split; [split; [discriminate|split; [repeat constructor; lia|reflexivity]]|right; eexists; eexists; split; [reflexivity|lia]|
    split; [discriminate|split; [repeat constructor; lia|reflexivity]]|right; eexists; eexists; split; [reflexivity|lia]].
Qed. @*)
Lemma C137_ends_pf : forall total, 0 < total -> pct_py 0 total = lit "  0.00" /\ pct_py total total = lit "100.00".
Proof.
  intros total T. unfold pct_py, fmt_2f. cbv zeta. split.
  - assert (E : fl_hundredths (rate 0 total) = 0).
    { destruct (hundredths_near 0 total ltac:(lia) T) as (P & H). cbv zeta in *. set (c := fl_hundredths _) in *. clearbody c.
      change (2 ^ 53) with 9007199254740992 in H. destruct (Z.eq_dec c 0) as [C|C]; [exact C|exfalso].
      assert (total <= c * total) by nia. lia. }
    rewrite E. reflexivity.
  - assert (E : fl_hundredths (rate total total) = 10000).
    { destruct (hundredths_near total total ltac:(lia) T) as (P & H). cbv zeta in *. pose proof (hundredths_range total total ltac:(lia) T) as R.
      set (c := fl_hundredths _) in *. clearbody c.
      change (2 ^ 53) with 9007199254740992 in H. destruct (Z.eq_dec c 10000) as [C|C]; [exact C|exfalso].
      assert (c * total <= 9999 * total) by nia. lia. }
    rewrite E. reflexivity.
Qed.
(*@ Example C137_ends_ex : pct_py 0 12345678901234567890 = lit "  0.00" /\ pct_py (10 ^ 40 + 1) (10 ^ 40 + 1) = lit "100.00".
Proof. vm_compute. auto. Qed. @*)
Lemma count_le {A} (P Q : A -> Prop) l n m : (forall x, P x -> Q x) -> count_of P l n -> count_of Q l m -> n <= m.
Proof.
  intros I H. revert m. induction H as [|x l n Y H IH|x l n Y H IH]; intros m K; inversion K as [|? ? m' Y' K'|? ? m' Y' K']; subst.
  - lia.
  - specialize (IH _ K'). lia.
  - destruct (Y' (I _ Y)).
  - specialize (IH _ K'). lia.
  - apply IH. exact K'.
Qed.
Lemma frequency_dec c m : (~ starred c /\ instr_is c m) \/ ~ (~ starred c /\ instr_is c m).
Proof.
  destruct (starredb c) eqn:B; [right; intros [X _]; apply X, starredb_ok, B|].
  assert (NS : ~ starred c) by (rewrite <- starredb_ok; congruence). unfold instr_is.
  destruct m as [|x m]; [right; intros (_ & X & _); contradiction|].
  destruct (card_get c "instruction") as [[|s|z]|] eqn:E; [right; intros (_ & _ & X); discriminate| | |right; intros (_ & _ & X); discriminate].
  2:{ right. intros (_ & _ & X). discriminate. }
  destruct (eqb s (x :: m)) eqn:EE.
  - apply eqb_ok in EE. subst s. left. split; [exact NS|]. split; [discriminate|reflexivity].
  - right. intros (_ & _ & [= ->]). rewrite eqb_refl in EE. discriminate.
Qed.
Lemma frequency_total cs m : exists n, frequency cs m n.
Proof.
  unfold frequency. induction cs as [|c cs [n IH]]; [exists 0; constructor|].
  destruct (frequency_dec c m) as [Y|NY]; [exists (n + 1); constructor; assumption|exists n; constructor; assumption].
Qed.
Lemma C137_report_pf : forall fuel fs o args cs total, all_cards fuel fs args cs ->
  o_count o = true -> count_of instr_card cs total -> total <> 0 ->
  exists s out pre names rows post,
    check_instructions pct_py fuel fs o args = Ok (s, out) /\
    out = pre ++ freq_line (lit "Total") total (lit "100.00") :: rows ++ post /\
    NoDup names /\
    (forall m, In m names <-> In m INSTRUCTIONS /\ (o_unused o = true -> ~ frequency cs m 0)) /\
    Forall2 (fun m row => exists n p c, frequency cs m n /\ row = freq_line m n p /\ shows_hundredths p c /\
       (total <= 2 ^ 35 -> nearest_rate n total c)) names rows.
Proof.
  intros fuel fs o args cs total A C K NZ. destruct (count_pos _ _ _ K) as [TP _].
  destruct (C99_count_partial_pf pct_py fuel fs o args cs total A C K NZ) as (s & out & pre & rows & unused & err & E & EO & ND & R & _).
  exists s, out, (pre ++ [10 :: lit "Source lines: " ++ str_of_Z (zlen cs); 10 :: lit "Instruction Frequencies:"]), (map fst rows),
    (map (fun r => freq_line (fst r) (snd r) (pct_py (snd r) total)) rows), (unused ++ [err]).
  split; [exact E|]. split; [rewrite EO, <- !app_assoc; reflexivity|]. split; [exact ND|]. split.
  - intros m. split.
    + intros I. apply in_map_iff in I. destruct I as ([m' n'] & <- & I). cbn [fst]. destruct (proj1 (R m' n') I) as (IM & F & U).
      split; [exact IM|]. intros U1 F0. apply (U U1). eapply count_unique; eassumption.
    + intros [IM U]. destruct (frequency_total cs m) as [n F]. apply in_map_iff. exists (m, n). split; [reflexivity|].
      apply R. split; [exact IM|]. split; [exact F|]. intros U1 ->. exact (U U1 F).
  - assert (RR : forall m n, In (m, n) rows -> frequency cs m n) by (intros m n I; apply R; exact I). clear - RR K TP NZ. induction rows as [|[m n] rows IH]; cbn [map fst snd]; constructor.
    + assert (F := RR m n (or_introl eq_refl)).
      assert (N : 0 <= n <= total).
      { split; [apply (count_pos _ _ _ F)|]. eapply count_le; [|exact F|exact K]. intros x [_ X]. exists m. exact X. }
      destruct (C137_rate_pf n total N ltac:(lia)) as (c & S1 & _ & NR & _). exists n, (pct_py n total), c. auto.
    + apply IH. intros m' n' I. apply RR. right. exact I.
Qed.
(*@ Example C137_report_ex : exists s out,
  check_instructions pct_py 2
    (fun f => if eqb f (lit "a") then Some (lit "                   TX,A         B" ++ [10] ++ lit "                   BA           B" ++ [10] ++ lit "                   BA           C" ++ [10]) else None)
    (mkciopts false true false false true true) [lit "a"] = Ok (s, out) /\
  firstn 5 out = [10 :: lit "Source lines: 3"; 10 :: lit "Instruction Frequencies:"; lit "Total         3  100.00%";
                  lit "BA            2   66.67%"; lit "TX            1   33.33%"].
Proof. eexists. eexists. split; [vm_compute; reflexivity|]. reflexivity. Qed. @*)
