(** Fields whose width is a float. *)
From Verif Require Import Py LPy MBitField MDyn SDyn LDyn SDynWidth.

(** A float is accepted as a width, fractions included. *)
Lemma C204_width_refuted_pf : forall A q z,
  (q <= inject_Z 64)%Q ->
  vgt (VI z) (VF (fa_sub A (fa_pow2 A (Fin q)) (fa_of_int A 1))) = TOk false ->
  exists h, tf_new A (VI z) (VF (Fin q)) (VI 0) (VI 1) = TOk h /\
    tf_width h = VF (Fin q) /\ tf_value h = VI z /\ exists g, tf_maxval h = VF g.
Proof.
  intros A q z H G. unfold tf_new.
  assert (vgt (VF (Fin q)) (VI 64) = TOk false) as ->.
  { unfold vgt; cbn [vcmp fcmp tbind]. destruct (Qcompare q (inject_Z 64)) eqn:E; try reflexivity.
    exfalso. apply (Qle_not_lt _ _ H). now apply Qgt_alt. }
  cbn [tbind vpow2]. unfold vsub at 1; cbn [arith tbind]. rewrite G. cbn [tbind].
  change (vscheme (VI 0)) with (Some LSB_0). change (vorder (VI 1)) with (Some LSB_LEFT). cbn iota.
  eexists; split; [reflexivity|]. cbn. eauto.
Qed.

Lemma shl_ok a b r : vshl a b = TOk r -> exists x n, a = VI x /\ b = VI n /\ 0 <= n /\ r = VI (Z.shiftl x n).
Proof.
  unfold vshl, bitop. destruct a as [x| |]; try discriminate. destruct b as [n| |]; try discriminate.
  unfold py_shl. destruct (n <? 0) eqn:E; cbn [lift tbind]; [discriminate|]. intros [= <-].
  exists x, n. repeat split; auto; lia.
Qed.
Lemma and_vf a f : exists e, vand a (VF f) = TErr e.
Proof. destruct a; cbn; eauto. Qed.
Lemma sub_vf A f x r : vsub A (VF f) x = TOk r -> exists g, r = VF g.
Proof. unfold vsub. destruct x; cbn; intros [= <-]; eauto. Qed.
Ltac st H :=
  match type of H with
  | tbind ?r _ = TOk _ => let x := fresh "x" in let E := fresh "E" in destruct r as [x|] eqn:E; cbn [tbind] in H; [|discriminate H]
  end.
Lemma slice_never A h s e v r : float_width h -> tf_setitem_value A h (TSlice s e) v <> TOk r.
Proof.
  intros (f & g & W & M) H. cbn [tf_setitem_value] in H.
  st H. st H. destruct x0 as [rs re]. st H. st H. st H. st H. st H. st H.
  rewrite M in E6. apply sub_vf in E6 as [g' ->]. destruct (and_vf (tf_value h) g') as [e' R]. rewrite R in H. discriminate H.
Qed.
Lemma shift_vi A h i r s n : float_width h -> trindex A h i = TOk r -> tshift A h r = TOk s -> s = VI n ->
  tf_order h = LSB_LEFT /\ (tf_numbering h = LSB_0 \/ tf_numbering h = LSB_1) /\ exists j, i = VI j /\ n = place (tf_numbering h) j.
Proof.
  intros (f & g & W & M) R S ->. unfold tshift in S. destruct (tf_order h) eqn:O.
  - rewrite W in S. st S. apply sub_vf in E as [g' ->]. apply sub_vf in S as [g'' S]. discriminate S.
  - injection S as ->. split; [reflexivity|]. unfold trindex in R. rewrite O in R.
    destruct (tf_numbering h) eqn:N.
    + injection R as ->. split; [auto|]. eauto.
    + split; [auto|]. unfold vsub in R. destruct i as [j| |]; cbn in R; try discriminate.
      injection R as <-. exists j. split; reflexivity.
    + st R. rewrite W in R. apply sub_vf in R as [? R]. discriminate R.
    + rewrite W in R. apply sub_vf in R as [? R]. discriminate R.
Qed.
Lemma item_ok A h k v r : float_width h -> tf_setitem_value A h k v = TOk r ->
  exists i z, k = TIdx (VI i) /\ v = VI 1 /\ tf_value h = VI z /\ tf_order h = LSB_LEFT /\
    (tf_numbering h = LSB_0 \/ tf_numbering h = LSB_1) /\
    0 <= place (tf_numbering h) i /\ vge (VI (place (tf_numbering h) i)) (tf_width h) = TOk false /\
    r = VI (Z.setbit z (place (tf_numbering h) i)).
Proof.
  intros F H. destruct k as [i|s e]; [|now apply slice_never in H].
  cbn [tf_setitem_value] in H. st H. st H. st H. st H. st H.
  apply shl_ok in E3 as (? & n & [= <-] & Hn & N0 & ->).
  destruct (shift_vi A h i _ _ n F E1 E2 Hn) as (O & N & j & -> & ->).
  destruct (veq v 1) eqn:V.
  - st H. apply shl_ok in E3 as (y & m & -> & Hm & _ & ->). rewrite Hn in Hm. injection Hm as <-.
    assert (y = 1) as -> by (unfold veq in V; cbn in V; destruct (Z.compare_spec y 1); congruence).
    destruct (tf_value h) as [z| |] eqn:T; try discriminate H. cbn in H. injection H as <-.
    exists j, z. do 6 (split; [solve [auto]|]). split.
    + unfold tcheckIndex in E. rewrite E1 in E. cbn [tbind] in E. unfold tshift in E2. rewrite O in E2. injection E2 as ->.
      rewrite Hn in E. rewrite vlt_int in E. cbn [tbind] in E.
      assert (place (tf_numbering h) j <? 0 = false) as L by lia. rewrite L in E.
      destruct (vge (VI (place (tf_numbering h) j)) (tf_width h)) as [[|]|]; cbn [tbind] in E; try reflexivity; try discriminate E.
      destruct F as (f & g & W & _). rewrite W in E. destruct f; discriminate E.
    + reflexivity.
  - exfalso. st H. destruct F as (f & g & W & M). rewrite M in E3. apply sub_vf in E3 as [g' ->].
    destruct (and_vf (tf_value h) g') as [e' R]. rewrite R in H. discriminate H.
Qed.
(** All that an item assignment can do to a field with a float for a width is to set one bit, in the order
    and with the numberings that do not compute with the width. *)
Lemma C204_items_partial_pf : forall A h k v, float_width h ->
  (fst (tf_setitem A h k v) = h /\ exists e, snd (tf_setitem A h k v) = TErr e) \/
  (exists i z, k = TIdx (VI i) /\ v = VI 1 /\ tf_value h = VI z /\ tf_order h = LSB_LEFT /\
     (tf_numbering h = LSB_0 \/ tf_numbering h = LSB_1) /\
     0 <= place (tf_numbering h) i /\ vge (VI (place (tf_numbering h) i)) (tf_width h) = TOk false /\
     tf_setitem A h k v = (tf_with h (VI (Z.setbit z (place (tf_numbering h) i))), TOk tt)).
Proof.
  intros A h k v F. unfold tf_setitem. destruct (tf_setitem_value A h k v) as [r|e] eqn:E; cbn [assign fst snd].
  - right. destruct (item_ok A h k v r F E) as (i & z & K & V & T & O & N & P & Q & ->).
    exists i, z. do 7 (split; [assumption|]). reflexivity.
  - left. eauto.
Qed.
(** ... and that it does for every bit below the width. *)
Lemma C204_bits_partial_pf : forall A p q n z i, n = LSB_0 \/ n = LSB_1 ->
  let h := mktf (VF (Fin p)) (VF (Fin q)) (VI z) n LSB_LEFT in
  0 <= place n i -> (inject_Z (place n i) < p)%Q -> (1 <= q)%Q ->
  tf_setitem A h (TIdx (VI i)) (VI 1) = (tf_with h (VI (Z.setbit z (place n i))), TOk tt) /\
  tf_getitem A h (TIdx (VI i)) = TOk (VI (Z.b2z (Z.testbit z (place n i)))).
Proof.
  intros A p q n z i N h P L Q1.
  assert (R : trindex A h (VI i) = TOk (VI (place n i))) by (destruct N as [-> | ->]; reflexivity).
  assert (C : tcheckIndex A h (VI i) = TOk tt).
  { unfold tcheckIndex. rewrite R. cbn [tbind]. rewrite vlt_int. cbn [tbind].
    assert (place n i <? 0 = false) as -> by lia. unfold vge; cbn [vcmp fcmp tbind tf_width h].
    assert (Qcompare (inject_Z (place n i)) p = Lt) as -> by (apply -> Qlt_alt; exact L). reflexivity. }
  assert (S : tshift A h (VI (place n i)) = TOk (VI (place n i))) by reflexivity.
  assert (N0 : place n i <? 0 = false) by lia.
  split.
  - unfold tf_setitem. cbn [tf_setitem_value]. rewrite C. cbn [tbind].
    assert (tcheckValue A h (VI 1) (VI 1) = TOk tt) as ->.
    { unfold tcheckValue. rewrite vlt_int. cbn [tbind]. change (1 <? 0) with false. cbn iota.
      assert (vgt (VI 1) (tf_maxval h) = TOk false) as ->.
      { unfold vgt; cbn [vcmp fcmp tbind tf_maxval h]. destruct (Qcompare (inject_Z 1) q) eqn:E; try reflexivity.
        exfalso. apply (Qle_not_lt _ _ Q1). now apply Qgt_alt. }
      reflexivity. }
    cbn [tbind]. rewrite R. cbn [tbind]. rewrite S. cbn [tbind].
    unfold vshl, bitop, py_shl. rewrite N0. reflexivity.
  - cbn [tf_getitem]. rewrite C. cbn [tbind]. rewrite R. cbn [tbind]. rewrite S. cbn [tbind tf_value h].
    unfold vshr, bitop, py_shr. rewrite N0. cbn [lift tbind vand bitop].
    change 1 with (Z.ones 1) at 1. rewrite Z.land_ones by lia. change (2 ^ 1) with 2.
    rewrite <- Z.bit0_mod, Z.shiftr_spec, Z.add_0_l by lia. reflexivity.
Qed.
(** Whatever is done to it, the width and the maximum stay, and the value is an int or the maximum, which is a
    float.  If it is that float, no item can be read or written any more. *)
Lemma C204_history_partial_pf : forall A h ops, float_width h -> (exists z, tf_value h = VI z) ->
  let h' := tf_run A h ops in
  tf_width h' = tf_width h /\ tf_maxval h' = tf_maxval h /\
  ((exists z, tf_value h' = VI z) \/
   (tf_value h' = tf_maxval h /\ forall k v, (exists e, tf_getitem A h' k = TErr e) /\
      fst (tf_setitem A h' k v) = h' /\ exists e, snd (tf_setitem A h' k v) = TErr e)).
Proof.
  intros A h ops F Z0.
  assert (forall ops h1, tf_width h1 = tf_width h -> tf_maxval h1 = tf_maxval h ->
    ((exists z, tf_value h1 = VI z) \/ tf_value h1 = tf_maxval h) ->
    let h' := tf_run A h1 ops in tf_width h' = tf_width h /\ tf_maxval h' = tf_maxval h /\ ((exists z, tf_value h' = VI z) \/ tf_value h' = tf_maxval h)) as I.
  { clear Z0 ops. induction ops as [|o ops IH]; intros h1 W M V; [repeat split; auto|].
    change (tf_run A h1 (o :: ops)) with (tf_run A (fst (tf_step A h1 o)) ops).
    assert (F1 : float_width h1) by (destruct F as (f & g & Wf & Mg); exists f, g; split; congruence).
    assert (S : forall k v, let h2 := fst (tf_setitem A h1 k v) in
      tf_width h2 = tf_width h /\ tf_maxval h2 = tf_maxval h /\ ((exists z, tf_value h2 = VI z) \/ tf_value h2 = tf_maxval h)).
    { intros k v. destruct (C204_items_partial_pf A h1 k v F1) as [[E _]|(i & z & _ & _ & _ & _ & _ & _ & _ & E)]; cbn zeta; rewrite E.
      - auto.
      - cbn. repeat split; eauto. }
    enough (tf_width (fst (tf_step A h1 o)) = tf_width h /\ tf_maxval (fst (tf_step A h1 o)) = tf_maxval h /\
      ((exists z, tf_value (fst (tf_step A h1 o)) = VI z) \/ tf_value (fst (tf_step A h1 o)) = tf_maxval h)) as (W2 & M2 & V2) by (apply IH; auto).
    destruct o as [k v|v|i|i]; cbn [tf_step].
    - apply S.
    - unfold tf_set_value. match goal with |- context [assign h1 ?r] => destruct r as [x|] eqn:E end; cbn; [|auto].
      repeat split; auto. left. st E. st E. injection E as <-. eauto.
    - unfold tf_set. destruct (truth i); [|cbn; repeat split; auto; now right].
      destruct (tcheckIndex A h1 i); [apply S|cbn; auto].
    - unfold tf_clear. destruct (truth i); [|cbn; repeat split; eauto].
      destruct (tcheckIndex A h1 i); [apply S|cbn; auto]. }
  destruct (I ops h eq_refl eq_refl (or_introl Z0)) as (W & M & V). cbn zeta in *.
  split; [exact W|]. split; [exact M|]. destruct V as [V|V]; [now left|right]. split; [exact V|].
  set (h' := tf_run A h ops) in *. intros k v.
  assert (F' : float_width h') by (destruct F as (f & g & Wf & Mg); exists f, g; split; congruence).
  split.
  - destruct (tf_getitem A h' k) as [x|e] eqn:E; [exfalso|eauto].
    destruct F as (f & g & Wf & Mg). rewrite Mg in V. destruct k as [i|s e]; cbn [tf_getitem] in E.
    + st E. st E. st E. rewrite V in E. cbn in E. discriminate E.
    + st E. st E. destruct x1 as [rs re]. st E. st E. st E. rewrite V in E. cbn in E. discriminate E.
  - destruct (C204_items_partial_pf A h' k v F') as [E|(i & z & _ & _ & T & _)]; [exact E|].
    exfalso. destruct F as (f & g & _ & Mg). congruence.
Qed.
(*@
Example C204_width_refuted_ex :
  let A := mkfa (fun z => Fin (inject_Z z)) (fun a _ => a) (fun _ _ => Fin (inject_Z 180)) (fun x => x) in
  exists h, tf_new A (VI 5) (VF (Fin (15 # 2))) (VI 0) (VI 1) = TOk h /\ tf_width h = VF (Fin (15 # 2)).
Proof.
  intros A. destruct (C204_width_refuted A (15 # 2) 5) as (h & E & W & _); [discriminate|reflexivity|]. eauto.
Qed.
Example C204_items_partial_ex : forall A,
  let h := mktf (VF (Fin (15 # 2))) (VF (Fin (inject_Z 180))) (VI 5) LSB_0 LSB_LEFT in
  tf_setitem A h (TIdx (VI 3)) (VI 1) = (tf_with h (VI 13), TOk tt) /\
  (exists e, snd (tf_setitem A h (TIdx (VI 0)) (VI 0)) = TErr e).
Proof.
  intros A h. split; [reflexivity|].
  destruct (C204_items_partial A h (TIdx (VI 0)) (VI 0)) as [[_ E]|(i & z & _ & [=] & _)]; [|exact E].
  unfold float_width; cbn; eauto.
Qed.
Example C204_bits_partial_ex : forall A,
  let h := mktf (VF (Fin (15 # 2))) (VF (Fin (inject_Z 180))) (VI 5) LSB_1 LSB_LEFT in
  tf_setitem A h (TIdx (VI 8)) (VI 1) = (tf_with h (VI 133), TOk tt).
Proof. intros A h. apply (C204_bits_partial A (15 # 2) (inject_Z 180) LSB_1 5 8); [now right|discriminate|reflexivity|discriminate]. Qed.
Example C204_history_partial_ex : forall A,
  let h := mktf (VF (Fin (inject_Z 8))) (VF (Fin (inject_Z 255))) (VI 5) LSB_0 LSB_LEFT in
  let h' := tf_run A h [TItem (TIdx (VI 3)) (VI 1); TItem (TIdx (VI 0)) (VI 0); TSet (VI 0)] in
  tf_value h' = VF (Fin (inject_Z 255)) /\ exists e, tf_getitem A h' (TIdx (VI 1)) = TErr e.
Proof.
  intros A h h'.
  assert (V : tf_value h' = VF (Fin (inject_Z 255))) by reflexivity. split; [exact V|].
  destruct (C204_history_partial A h [TItem (TIdx (VI 3)) (VI 1); TItem (TIdx (VI 0)) (VI 0); TSet (VI 0)]) as (_ & _ & [[z E]|[_ E]]).
  - unfold float_width; cbn; eauto.
  - cbn; eauto.
  - fold h' in E. congruence.
  - apply (E (TIdx (VI 1)) (VI 1)).
Qed.
@*)
