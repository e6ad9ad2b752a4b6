(** Proofs about the BitField model. *)
From Verif Require Import Py MBitField SBits LPy LBits.
From Coq Require Import ZifyBool FinFun.
Set Implicit Arguments.


(** ** Geometry *)
Lemma shift_rindex b i : shift b (rindex b i) = weight (bf_numbering b) (bf_width b) i.
Proof. unfold shift, rindex, weight. destruct (bf_order b), (bf_numbering b); lia. Qed.

Lemma valid_weight n W i : valid_index n W i <-> 0 <= weight n W i < W.
Proof. unfold valid_index, weight. destruct n; lia. Qed.

Lemma valid_index_dec n W i : {valid_index n W i} + {~ valid_index n W i}.
Proof.
  unfold valid_index.
  destruct n;
    (destruct (Z_le_dec 0 i), (Z_le_dec 1 i), (Z_le_dec i (W - 1)), (Z_le_dec i W);
     ((left; lia) || (right; lia))).
Qed.

Lemma rindex_valid b i :
  valid_index (bf_numbering b) (bf_width b) i <-> 0 <= rindex b i < bf_width b.
Proof.
  unfold valid_index, rindex. destruct (bf_order b), (bf_numbering b); lia.
Qed.

Lemma checkIndex_ok b i :
  valid_index (bf_numbering b) (bf_width b) i -> checkIndex b (Some i) = Ok i.
Proof.
  intros H. apply rindex_valid in H. unfold checkIndex.
  destruct ((rindex b i <? 0) || (rindex b i >=? bf_width b)) eqn:E; [lia|reflexivity].
Qed.
Lemma checkIndex_err b i :
  ~ valid_index (bf_numbering b) (bf_width b) i -> checkIndex b (Some i) = Err ValueError.
Proof.
  intros H. rewrite rindex_valid in H. unfold checkIndex.
  destruct ((rindex b i <? 0) || (rindex b i >=? bf_width b)) eqn:E; [reflexivity|lia].
Qed.

Definition vrange b s e := valid_range (bf_order b) (bf_numbering b) (bf_width b) s e.

Lemma vrange_dec b s e : {vrange b s e} + {~ vrange b s e}.
Proof.
  unfold vrange, valid_range.
  destruct (valid_index_dec (bf_numbering b) (bf_width b) s); [|right; tauto].
  destruct (valid_index_dec (bf_numbering b) (bf_width b) e); [|right; tauto].
  set (we := weight _ _ e). set (ws := weight _ _ s).
  destruct (bf_order b), (Z_le_dec we ws), (Z_le_dec ws we); ((left; tauto) || (right; tauto)).
Qed.

Lemma checkRange_ok b s e : vrange b s e -> checkRange b (Some s) (Some e) = Ok (s, e).
Proof.
  intros (Hs & He & Ho). unfold checkRange.
  rewrite (checkIndex_ok _ _ Hs), (checkIndex_ok _ _ He). cbn [bind].
  unfold weight in Ho.
  destruct (bf_order b), (bf_numbering b);
    match goal with |- (if ?c then _ else _) = _ => destruct c eqn:E end;
    try reflexivity; lia.
Qed.
Lemma checkRange_err b s e :
  ~ vrange b s e -> checkRange b (Some s) (Some e) = Err ValueError.
Proof.
  intros H. unfold checkRange.
  destruct (valid_index_dec (bf_numbering b) (bf_width b) s) as [Hs|Hs].
  2:{ rewrite (checkIndex_err _ _ Hs). reflexivity. }
  rewrite (checkIndex_ok _ _ Hs).
  destruct (valid_index_dec (bf_numbering b) (bf_width b) e) as [He|He].
  2:{ cbn [bind]. rewrite (checkIndex_err _ _ He). reflexivity. }
  rewrite (checkIndex_ok _ _ He). cbn [bind].
  unfold vrange, valid_range in H. unfold weight in H.
  destruct (bf_order b), (bf_numbering b);
    match goal with |- (if ?c then _ else _) = _ => destruct c eqn:E end;
    try reflexivity; exfalso; apply H; cbn in Hs, He |- *; lia.
Qed.
Lemma checkRange_none b s e :
  s = None \/ e = None -> exists x, checkRange b s e = Err x.
Proof.
  intros H. unfold checkRange.
  destruct s as [s|]; [|eexists; reflexivity].
  destruct e as [e|]; [destruct H; discriminate|].
  destruct (valid_index_dec (bf_numbering b) (bf_width b) s) as [Hs|Hs].
  - rewrite (checkIndex_ok _ _ Hs). eexists; reflexivity.
  - rewrite (checkIndex_err _ _ Hs). eexists; reflexivity.
Qed.

Lemma range_facts b s e :
  vrange b s e ->
  let n := range_size (bf_numbering b) (bf_width b) s e in
  let lo := range_lo (bf_numbering b) (bf_width b) s e in
  1 <= n /\ 0 <= lo /\ lo + n <= bf_width b /\
  rindex b e - rindex b s + 1 = n /\
  shift b (lsbIndex b (rindex b s) (rindex b e)) = lo /\
  weight (bf_numbering b) (bf_width b) e =
    match bf_order b with MSB_LEFT => lo | LSB_LEFT => lo + n - 1 end.
Proof.
  intros (Hs & He & Ho).
  unfold range_size, range_lo.
  assert (Hs' := Hs). assert (He' := He). rewrite valid_weight in Hs', He'.
  assert (Es := shift_rindex b s). assert (Ee := shift_rindex b e).
  set (ws := weight _ _ s) in *. set (we := weight _ _ e) in *.
  unfold shift, lsbIndex in *. clearbody ws we.
  cbv zeta. destruct (bf_order b); lia.
Qed.

(** Shift applied to the mask (bitfield.py:322-333). *)
Definition mask_shift b s e : Z :=
  if range_size (bf_numbering b) (bf_width b) s e =? bf_width b then 0
  else weight (bf_numbering b) (bf_width b) e.

Lemma mask_shift_nonneg b s e : vrange b s e -> 0 <= mask_shift b s e.
Proof.
  intros H. unfold mask_shift. destruct (_ =? _); [lia|].
  destruct H as (_ & He & _). rewrite valid_weight in He. lia.
Qed.

Lemma mask_shift_msb b s e :
  bf_order b = MSB_LEFT -> vrange b s e ->
  mask_shift b s e = range_lo (bf_numbering b) (bf_width b) s e.
Proof.
  intros O H. destruct (range_facts H) as (H1 & H2 & H3 & H4 & H5 & H6).
  rewrite O in H6. unfold mask_shift.
  destruct (Z.eqb_spec (range_size (bf_numbering b) (bf_width b) s e) (bf_width b)); lia.
Qed.

Lemma mask_shift_edge b s e :
  vrange b s e ->
  range_size (bf_numbering b) (bf_width b) s e = 1 \/
  range_size (bf_numbering b) (bf_width b) s e = bf_width b ->
  mask_shift b s e = range_lo (bf_numbering b) (bf_width b) s e.
Proof.
  intros H D. destruct (range_facts H) as (H1 & H2 & H3 & H4 & H5 & H6).
  unfold mask_shift.
  destruct (Z.eqb_spec (range_size (bf_numbering b) (bf_width b) s e) (bf_width b));
    destruct (bf_order b); lia.
Qed.

Lemma bitmask_ok b s e :
  vrange b s e ->
  bitmask b (Some s) (Some e) =
  Ok (Z.shiftl (2 ^ range_size (bf_numbering b) (bf_width b) s e - 1) (mask_shift b s e)).
Proof.
  intros H. assert (M := mask_shift_nonneg H).
  destruct (range_facts H) as (H1 & H2 & H3 & H4 & H5 & H6).
  unfold bitmask, getRange. rewrite (checkRange_ok H). cbn [bind].
  rewrite H4, shift_rindex. fold (mask_shift b s e).
  destruct (Z.ltb_spec (range_size (bf_numbering b) (bf_width b) s e) 0); [lia|].
  unfold py_shl. destruct (Z.ltb_spec (mask_shift b s e) 0); [lia|]. reflexivity.
Qed.

Lemma getitem_slice_raw b s e :
  vrange b s e ->
  bf_getitem b (Slice (Some s) (Some e)) =
  Ok (Z.shiftr (Z.land (bf_value b)
        (Z.shiftl (2 ^ range_size (bf_numbering b) (bf_width b) s e - 1) (mask_shift b s e)))
        (range_lo (bf_numbering b) (bf_width b) s e)).
Proof.
  intros H. destruct (range_facts H) as (H1 & H2 & H3 & H4 & H5 & H6).
  unfold bf_getitem. unfold getRange at 1. rewrite (checkRange_ok H). cbn [bind].
  rewrite (bitmask_ok H). cbn [bind]. rewrite H5. unfold py_shr.
  destruct (Z.ltb_spec (range_lo (bf_numbering b) (bf_width b) s e) 0); [lia|]. reflexivity.
Qed.

Lemma getitem_slice_err b s e :
  ~ vrange b s e -> bf_getitem b (Slice (Some s) (Some e)) = Err ValueError.
Proof.
  intros H. unfold bf_getitem, getRange. rewrite (checkRange_err H). reflexivity.
Qed.

Lemma getitem_slice_edge b s e :
  vrange b s e -> mask_shift b s e = range_lo (bf_numbering b) (bf_width b) s e ->
  bf_getitem b (Slice (Some s) (Some e)) =
  Ok (bits_at (bf_value b) (range_lo (bf_numbering b) (bf_width b) s e)
              (range_size (bf_numbering b) (bf_width b) s e)).
Proof.
  intros H M. destruct (range_facts H) as (H1 & H2 & H3 & _).
  rewrite (getitem_slice_raw H), M. rewrite get_mask by lia. reflexivity.
Qed.

Lemma getitem_slice_msb b s e :
  bf_order b = MSB_LEFT -> vrange b s e ->
  bf_getitem b (Slice (Some s) (Some e)) =
  Ok (bits_at (bf_value b) (range_lo (bf_numbering b) (bf_width b) s e)
              (range_size (bf_numbering b) (bf_width b) s e)).
Proof. intros O H. apply getitem_slice_edge; [exact H|apply mask_shift_msb; assumption]. Qed.

(** What an LSB-left slice read really returns (C07). *)
Lemma getitem_slice_lsb b s e :
  bf_order b = LSB_LEFT -> vrange b s e ->
  let n := range_size (bf_numbering b) (bf_width b) s e in
  let lo := range_lo (bf_numbering b) (bf_width b) s e in
  1 < n < bf_width b ->
  bf_getitem b (Slice (Some s) (Some e)) =
  Ok (bits_at (bf_value b) (lo + n - 1) n * 2 ^ (n - 1)).
Proof.
  intros O H n lo Hn. destruct (range_facts H) as (H1 & H2 & H3 & H4 & H5 & H6).
  rewrite O in H6. fold n lo in H1, H2, H3, H4, H5, H6.
  rewrite (getitem_slice_raw H). fold n lo. f_equal.
  assert (M : mask_shift b s e = lo + n - 1).
  { unfold mask_shift. fold n. destruct (Z.eqb_spec n (bf_width b)); lia. }
  rewrite M. rewrite <- Z.shiftl_mul_pow2 by lia.
  apply Z.bits_inj'. intros j Hj.
  rewrite Z.shiftr_spec, Z.land_spec, !Z.shiftl_spec by lia.
  rewrite pow2_ones.
  destruct (Z_lt_dec j (n - 1)).
  - rewrite !(Z.testbit_neg_r _ (_ - _)) by lia. apply andb_false_r.
  - rewrite testbit_bits_at by lia. rewrite testbit_ones by lia.
    replace (j + lo - (lo + n - 1)) with (j - (n - 1)) by lia.
    replace (j - (n - 1) + (lo + n - 1)) with (j + lo) by lia.
    destruct (Z.ltb_spec n 0); [lia|]. rewrite orb_false_r. apply andb_comm.
Qed.

Lemma checkValue_ok b v n :
  wf b -> 0 <= n <= bf_width b -> v <= 2 ^ n -> checkValue b v n = Ok tt.
Proof.
  intros [HW HM] Hn Hv. unfold checkValue.
  assert (P : bf_width b < 2 ^ bf_width b) by (apply Z.pow_gt_lin_r; lia).
  destruct ((n <? 0) || (n >? bf_maxval b)) eqn:E; [lia|].
  destruct (v >? 2 ^ n) eqn:F; [lia|reflexivity].
Qed.
Lemma checkValue_err b v n : 2 ^ n < v -> checkValue b v n = Err ValueError.
Proof.
  intros Hv. unfold checkValue.
  destruct ((n <? 0) || (n >? bf_maxval b)) eqn:E; [reflexivity|].
  destruct (v >? 2 ^ n) eqn:F; [reflexivity|lia].
Qed.

Lemma setitem_slice_raw b s e x :
  wf b -> vrange b s e ->
  let n := range_size (bf_numbering b) (bf_width b) s e in
  let lo := range_lo (bf_numbering b) (bf_width b) s e in
  x <= 2 ^ n ->
  bf_setitem b (Slice (Some s) (Some e)) x =
  (with_value b (Z.lor (Z.land (bf_value b)
     ((2 ^ bf_width b - 1) - Z.shiftl (2 ^ n - 1) (mask_shift b s e))) (Z.shiftl x lo)), Ok tt).
Proof.
  intros Hwf H n lo Hx. destruct (range_facts H) as (H1 & H2 & H3 & H4 & H5 & H6).
  fold n lo in H1, H2, H3, H4, H5, H6.
  unfold bf_setitem, bf_setitem_value. unfold getRange at 1. rewrite (checkRange_ok H).
  cbn [bind]. rewrite H4, (checkValue_ok (n := n)) by (auto; lia). cbn [bind].
  rewrite (bitmask_ok H). cbn [bind]. rewrite H5. unfold py_shl.
  destruct (Z.ltb_spec lo 0); [lia|]. cbn [bind].
  destruct Hwf as [_ ->]. reflexivity.
Qed.

Lemma setitem_slice_err b s e x :
  ~ vrange b s e -> bf_setitem b (Slice (Some s) (Some e)) x = (b, Err ValueError).
Proof.
  intros H. unfold bf_setitem, bf_setitem_value, getRange. rewrite (checkRange_err H).
  reflexivity.
Qed.
Lemma setitem_slice_big b s e x :
  vrange b s e -> 2 ^ range_size (bf_numbering b) (bf_width b) s e < x ->
  bf_setitem b (Slice (Some s) (Some e)) x = (b, Err ValueError).
Proof.
  intros H Hx. destruct (range_facts H) as (H1 & H2 & H3 & H4 & H5 & H6).
  unfold bf_setitem, bf_setitem_value. unfold getRange at 1. rewrite (checkRange_ok H).
  cbn [bind]. rewrite H4, checkValue_err by exact Hx. reflexivity.
Qed.

Lemma setitem_slice_edge b s e x :
  wf b -> vrange b s e -> mask_shift b s e = range_lo (bf_numbering b) (bf_width b) s e ->
  let n := range_size (bf_numbering b) (bf_width b) s e in
  let lo := range_lo (bf_numbering b) (bf_width b) s e in
  fits (bf_width b) (bf_value b) -> fits n x ->
  exists v', bf_setitem b (Slice (Some s) (Some e)) x = (with_value b v', Ok tt) /\
             bits_replaced (bf_value b) v' lo n x /\ fits (bf_width b) v'.
Proof.
  intros Hwf H M n lo Hv Hx. destruct (range_facts H) as (H1 & H2 & H3 & H4 & H5 & H6).
  fold n lo in H1, H2, H3, H4, H5, H6, M.
  eexists. split; [apply setitem_slice_raw; auto|].
  { fold n. unfold fits in Hx. lia. }
  fold n lo. rewrite M. destruct Hwf as [HW _]. split.
  - apply set_mask_bits; auto; lia.
  - apply lor_fits; [lia| |].
    + apply land_fits; [lia|exact Hv].
    + apply (@shiftl_fits _ lo n x); auto; lia.
Qed.

(** ** single bits *)
Lemma getitem_bit b i :
  valid_index (bf_numbering b) (bf_width b) i ->
  bf_getitem b (Idx i) = Ok (bit_at (bf_value b) (weight (bf_numbering b) (bf_width b) i)).
Proof.
  intros H. unfold bf_getitem. rewrite (checkIndex_ok _ _ H). cbn [bind].
  rewrite shift_rindex. rewrite valid_weight in H.
  set (w := weight _ _ i) in *. clearbody w.
  unfold py_shr. destruct (Z.ltb_spec w 0); [lia|]. cbn [bind].
  change 1 with (Z.ones 1). rewrite Z.land_ones, Z.shiftr_div_pow2 by lia. reflexivity.
Qed.
Lemma getitem_bit_err b i :
  ~ valid_index (bf_numbering b) (bf_width b) i -> bf_getitem b (Idx i) = Err ValueError.
Proof. intros H. unfold bf_getitem. rewrite (checkIndex_err _ _ H). reflexivity. Qed.

Lemma setitem_bit_raw b i x :
  wf b -> valid_index (bf_numbering b) (bf_width b) i -> x <= 2 ->
  bf_setitem b (Idx i) x =
  (with_value b
     (let w := weight (bf_numbering b) (bf_width b) i in
      if x =? 1 then Z.lor (bf_value b) (Z.shiftl 1 w)
      else Z.land (bf_value b) ((2 ^ bf_width b - 1) - Z.shiftl 1 w)), Ok tt).
Proof.
  intros Hwf H Hx. unfold bf_setitem, bf_setitem_value. rewrite (checkIndex_ok _ _ H).
  cbn [bind]. rewrite valid_weight in H.
  rewrite checkValue_ok by (auto; lia). cbn [bind]. rewrite shift_rindex.
  set (w := weight _ _ i) in *. clearbody w.
  unfold py_shl. destruct (Z.ltb_spec w 0); [lia|]. cbn [bind].
  destruct Hwf as [_ ->].
  destruct (Z.eqb_spec x 1) as [->|]; reflexivity.
Qed.
Lemma setitem_bit_err b i x :
  ~ valid_index (bf_numbering b) (bf_width b) i -> bf_setitem b (Idx i) x = (b, Err ValueError).
Proof.
  intros H. unfold bf_setitem, bf_setitem_value. rewrite (checkIndex_err _ _ H). reflexivity.
Qed.
Lemma setitem_bit_big b i x :
  valid_index (bf_numbering b) (bf_width b) i -> 2 < x ->
  bf_setitem b (Idx i) x = (b, Err ValueError).
Proof.
  intros H Hx. unfold bf_setitem, bf_setitem_value. rewrite (checkIndex_ok _ _ H).
  cbn [bind]. rewrite checkValue_err by (simpl; lia). reflexivity.
Qed.

Lemma testbit_setbit v w j : 0 <= w -> 0 <= j ->
  Z.testbit (Z.lor v (Z.shiftl 1 w)) j = (j =? w) || Z.testbit v j.
Proof.
  intros Hw Hj. rewrite Z.lor_spec, Z.shiftl_1_l, Z.pow2_bits_eqb by lia.
  rewrite orb_comm. f_equal. lia.
Qed.
Lemma testbit_clrbit n v w j : 0 <= w < n -> fits n v -> 0 <= j ->
  Z.testbit (Z.land v ((2 ^ n - 1) - Z.shiftl 1 w)) j = negb (j =? w) && Z.testbit v j.
Proof.
  intros Hw Hv Hj.
  assert (E := @set_mask_testbit n v w 1 0 j).
  rewrite Z.shiftl_0_l, Z.lor_0_r in E. change (2 ^ 1 - 1) with 1 in E.
  rewrite E by (unfold fits in *; lia). clear E.
  destruct (Z.eqb_spec j w); destruct (Z.leb_spec w j), (Z.ltb_spec j (w + 1)); try lia; simpl.
  - apply Z.bits_0.
  - reflexivity.
  - reflexivity.
Qed.

Lemma setitem_bit b i x :
  wf b -> valid_index (bf_numbering b) (bf_width b) i -> x = 0 \/ x = 1 ->
  fits (bf_width b) (bf_value b) ->
  exists v', bf_setitem b (Idx i) x = (with_value b v', Ok tt) /\
    bit_replaced (bf_value b) v' (weight (bf_numbering b) (bf_width b) i) x /\
    fits (bf_width b) v'.
Proof.
  intros Hwf H Hx Hv. eexists. split; [apply setitem_bit_raw; auto; lia|].
  cbv zeta. rewrite valid_weight in H. set (w := weight _ _ i) in *. clearbody w.
  destruct Hwf as [HW _].
  destruct Hx as [-> | ->]; cbn [Z.eqb]; (split; [split|]).
  - rewrite bit_at_testbit by lia. rewrite testbit_clrbit by (auto; lia).
    rewrite Z.eqb_refl. reflexivity.
  - intros j Hj N. rewrite !bit_at_testbit by lia.
    rewrite testbit_clrbit by (auto; lia). destruct (Z.eqb_spec j w); [lia|]. reflexivity.
  - apply land_fits; [lia|exact Hv].
  - rewrite bit_at_testbit by lia. rewrite Pos.eqb_refl. rewrite testbit_setbit by lia.
    rewrite Z.eqb_refl. reflexivity.
  - intros j Hj N. rewrite !bit_at_testbit by lia. rewrite Pos.eqb_refl.
    rewrite testbit_setbit by lia. destruct (Z.eqb_spec j w); [lia|]. reflexivity.
  - rewrite Pos.eqb_refl. apply lor_fits; [lia|exact Hv|]. apply (@shiftl_fits _ w 1 1); unfold fits; lia.
Qed.

(** ** C01, C02 *)
Lemma C01_constructor_pf : forall value width numbering order, 0 <= width ->
  (bf_new value width numbering order = Err ValueError <->
     width > 64 \/ value > 2 ^ width - 1 \/ ~ (0 <= numbering <= 3) \/
     ~ (order = 0 \/ order = 1)) /\
  (forall e, bf_new value width numbering order = Err e -> e = ValueError) /\
  (forall b, bf_new value width numbering order = Ok b ->
     bf_value b = value /\ bf_width b = width /\ bf_maxval b = 2 ^ width - 1 /\
     scheme_num (bf_numbering b) = numbering /\ order_num (bf_order b) = order).
Proof.
  intros v w n o Hw. unfold bf_new.
  destruct (Z.gtb_spec w 64).
  { split; [split; [lia|reflexivity]|]. split; [congruence|discriminate]. }
  destruct (Z.gtb_spec v (2 ^ w - 1)).
  { split; [split; [lia|reflexivity]|]. split; [congruence|discriminate]. }
  unfold scheme_of, order_of.
  destruct (Z.eqb_spec n 0); [|destruct (Z.eqb_spec n 1);
    [|destruct (Z.eqb_spec n 2); [|destruct (Z.eqb_spec n 3)]]];
  (destruct (Z.eqb_spec o 0); [|destruct (Z.eqb_spec o 1)]);
  (split; [split; [intros E; try discriminate E; lia|intros E; try reflexivity; lia]|];
   split; [congruence|]; intros b E; try discriminate E; injection E as <-; cbn;
   repeat split; congruence).
Qed.
(*@
Example C01_example :
  (exists b, bf_new 200 8 3 0 = Ok b /\ bf_value b = 200 /\ bf_maxval b = 255) /\
  bf_new 256 8 3 0 = Err ValueError /\ bf_new 0 65 0 0 = Err ValueError.
Proof. split; [eexists; repeat split|split; reflexivity]. Qed.
@*)

Lemma new_wf value width numbering order b :
  0 <= width -> bf_new value width numbering order = Ok b -> wf b.
Proof.
  intros Hw E. unfold bf_new in E.
  destruct (Z.gtb_spec width 64); [discriminate|].
  destruct (value >? 2 ^ width - 1); [discriminate|].
  destruct (scheme_of numbering); [|discriminate]. destruct (order_of order); [|discriminate].
  injection E as <-. split; cbn; [lia|reflexivity].
Qed.

Lemma C01_constructed_wf_pf : forall value width numbering order b,
  0 <= width -> bf_new value width numbering order = Ok b -> wf b.
Proof. exact new_wf. Qed.
(*@ Example C01_constructed_wf_ex : exists b, bf_new 130 8 0 1 = Ok b /\ wf b /\ bf_width b = 8.
Proof. eexists. split; [vm_compute; reflexivity|]. split; [|reflexivity]. split; [cbn; lia|reflexivity]. Qed. @*)

Lemma C02_constructor_range_refuted_pf : forall value width numbering order,
  0 <= width <= 64 -> 0 <= numbering <= 3 -> 0 <= order <= 1 -> value < 0 ->
  exists b, bf_new value width numbering order = Ok b /\ bf_value b = value.
Proof.
  intros v w n o Hw Hn Ho Hv.
  destruct (bf_new v w n o) as [b|e] eqn:E.
  - exists b. split; [reflexivity|].
    destruct (@C01_constructor_pf v w n o ltac:(lia)) as (_ & _ & H). apply H in E. tauto.
  - exfalso. destruct (@C01_constructor_pf v w n o ltac:(lia)) as ((H & _) & H2 & _).
    assert (e = ValueError) by (apply H2; exact E). subst. specialize (H E).
    assert (0 < 2 ^ w) by (apply Z.pow_pos_nonneg; lia). lia.
Qed.
(*@
(** the default layout (width 8, LSB 0, MSB right) with value -1 *)
Example C02_refuted_witness : exists b, bf_new (-1) 8 0 1 = Ok b /\ bf_value b = -1.
Proof. eexists; split; reflexivity. Qed.
@*)
Lemma C02_constructor_upper_bound_partial_pf : forall value width numbering order b,
  0 <= width -> bf_new value width numbering order = Ok b -> bf_value b <= bf_maxval b.
Proof.
  intros v w n o b Hw E. destruct (@C01_constructor_pf v w n o Hw) as ((_ & H) & _ & H3).
  destruct (H3 b E) as (-> & _ & -> & _).
  destruct (Z_le_dec v (2 ^ w - 1)); [assumption|].
  rewrite H in E by lia. discriminate.
Qed.
(*@ Example C02_constructor_upper_bound_partial_ex : exists b, bf_new 255 8 3 0 = Ok b /\ bf_maxval b = 255 /\ bf_new 256 8 3 0 = Err ValueError.
Proof. eexists. split; [vm_compute; reflexivity|]. split; reflexivity. Qed. @*)

(** ** C03, C04 *)
Lemma C03_bit_read_pf : forall b i,
  (valid_index (bf_numbering b) (bf_width b) i ->
   bf_getitem b (Idx i) =
   Ok (bit_at (bf_value b) (weight (bf_numbering b) (bf_width b) i))) /\
  (~ valid_index (bf_numbering b) (bf_width b) i ->
   bf_getitem b (Idx i) = Err ValueError).
Proof. intros b i. split; [apply getitem_bit|apply getitem_bit_err]. Qed.
(*@
Example C03_example :
  let b := mkbf 8 255 130 MSB_1 MSB_LEFT in
  bf_getitem b (Idx 1) = Ok 1 /\ bf_getitem b (Idx 7) = Ok 1 /\
  bf_getitem b (Idx 8) = Ok 0 /\ bf_getitem b (Idx 0) = Err ValueError.
Proof. repeat split. Qed.
@*)

Lemma upto_nth W f p : 0 <= p < W -> nth_error (upto W f) (Z.to_nat p) = Some (f + p).
Proof.
  intros H. unfold upto. rewrite nth_error_map.
  rewrite (nth_error_nth' _ O) by (rewrite seq_length; lia).
  rewrite seq_nth by lia. cbn. f_equal. lia.
Qed.
Lemma upto_length W f : List.length (upto W f) = Z.to_nat W.
Proof. unfold upto. rewrite map_length, seq_length. reflexivity. Qed.
Lemma nth_error_rev {A} (l : list A) n :
  (n < List.length l)%nat -> nth_error (rev l) n = nth_error l (List.length l - S n).
Proof.
  intros H. destruct l as [|d l']; [inversion H|]. set (l := d :: l') in *.
  rewrite (nth_error_nth' _ d) by (rewrite rev_length; exact H).
  rewrite rev_nth by exact H. rewrite (nth_error_nth' l d) by lia. reflexivity.
Qed.
Lemma rev_upto_nth W f p : 0 <= p < W -> nth_error (rev (upto W f)) (Z.to_nat p) = Some (f + (W - 1 - p)).
Proof.
  intros H. rewrite nth_error_rev by (rewrite upto_length; lia). rewrite upto_length.
  replace (Z.to_nat W - S (Z.to_nat p))%nat with (Z.to_nat (W - 1 - p)) by lia.
  apply upto_nth. lia.
Qed.

Lemma C03_weight_is_layout_pf : forall o n W p i,
  0 <= p < W -> nth_error (layout o n W) (Z.to_nat p) = Some i ->
  valid_index n W i /\ weight n W i = pos_weight o W p.
Proof.
  intros o n W p i Hp E. unfold layout in E.
  destruct o, n; rewrite ?upto_nth, ?rev_upto_nth in E by exact Hp;
    match type of E with Some ?x = Some i => assert (i = x) by congruence end;
    unfold valid_index, weight, pos_weight; lia.
Qed.
(*@
Example C03_layout_example : layout LSB_LEFT MSB_1 4 = [4; 3; 2; 1] /\ layout MSB_LEFT MSB_1 3 = [1; 2; 3].
Proof. split; reflexivity. Qed.
@*)

Lemma C04_bit_write_pf : forall b i x,
  wf b -> fits (bf_width b) (bf_value b) ->
  valid_index (bf_numbering b) (bf_width b) i -> x = 0 \/ x = 1 ->
  let '(b', r) := bf_setitem b (Idx i) x in
  r = Ok tt /\
  bit_replaced (bf_value b) (bf_value b') (weight (bf_numbering b) (bf_width b) i) x /\
  bf_getitem b' (Idx i) = Ok x.
Proof.
  intros b i x Hwf Hv Hi Hx. destruct (@setitem_bit b i x Hwf Hi Hx Hv) as (v' & -> & Hr & Hf).
  split; [reflexivity|]. split; [exact Hr|].
  rewrite (@getitem_bit (with_value b v') i) by exact Hi. cbn. f_equal. apply Hr.
Qed.
(*@ Example C04_bit_write_ex : let b := mkbf 8 255 130 MSB_1 MSB_LEFT in
  valid_index MSB_1 8 4 /\ bf_value (fst (bf_setitem b (Idx 4) 1)) = 146 /\ bf_getitem (fst (bf_setitem b (Idx 4) 1)) (Idx 4) = Ok 1.
Proof. cbv zeta. split; [split; cbn; lia|]. split; reflexivity. Qed. @*)
Lemma C04_bit_write_invalid_pf : forall b i x,
  ~ valid_index (bf_numbering b) (bf_width b) i ->
  bf_setitem b (Idx i) x = (b, Err ValueError).
Proof. intros b i x H. apply setitem_bit_err. exact H. Qed.
(*@
Example C04_example :
  let b := mkbf 8 255 130 LSB_0 LSB_LEFT in
  wf b /\ fits 8 130 /\ valid_index LSB_0 8 1 /\
  bf_value (fst (bf_setitem b (Idx 1) 0)) = 128 /\ bf_setitem b (Idx 8) 1 = (b, Err ValueError).
Proof. unfold wf, fits; simpl; repeat split; lia. Qed.
@*)

(** ** C05, C06, C07 *)
Lemma C05_slice_read_msb_left_pf : forall b, bf_order b = MSB_LEFT ->
  (forall s e, valid_range (bf_order b) (bf_numbering b) (bf_width b) s e ->
     bf_getitem b (Slice (Some s) (Some e)) =
     Ok (bits_at (bf_value b) (weight (bf_numbering b) (bf_width b) e)
           (weight (bf_numbering b) (bf_width b) s
            - weight (bf_numbering b) (bf_width b) e + 1))) /\
  (forall s e, ~ valid_range (bf_order b) (bf_numbering b) (bf_width b) s e ->
     bf_getitem b (Slice (Some s) (Some e)) = Err ValueError) /\
  (forall s e, s = None \/ e = None -> exists x, bf_getitem b (Slice s e) = Err x).
Proof.
  intros b O. split; [|split].
  - intros s e H. rewrite (getitem_slice_msb O H).
    destruct H as (_ & _ & H). rewrite O in H. unfold range_lo, range_size.
    f_equal. f_equal; lia.
  - intros s e H. apply getitem_slice_err. exact H.
  - intros s e H. destruct (checkRange_none b H) as [x E]. exists x.
    unfold bf_getitem, getRange. rewrite E. reflexivity.
Qed.
(*@
Example C05_example :
  let b := mkbf 8 255 154 MSB_1 MSB_LEFT in   (* 1001 1010 *)
  valid_range MSB_LEFT MSB_1 8 4 7 /\ bf_getitem b (Slice (Some 4) (Some 7)) = Ok 13 /\
  ~ valid_range MSB_LEFT MSB_1 8 7 4 /\ bf_getitem b (Slice (Some 7) (Some 4)) = Err ValueError.
Proof. unfold valid_range; cbn; repeat split; lia. Qed.
@*)

Lemma C06_slice_write_msb_left_pf : forall b s e x,
  bf_order b = MSB_LEFT -> wf b -> fits (bf_width b) (bf_value b) ->
  valid_range (bf_order b) (bf_numbering b) (bf_width b) s e ->
  let lo := weight (bf_numbering b) (bf_width b) e in
  let n := weight (bf_numbering b) (bf_width b) s - lo + 1 in
  0 <= x < 2 ^ n ->
  let '(b', r) := bf_setitem b (Slice (Some s) (Some e)) x in
  r = Ok tt /\ bits_replaced (bf_value b) (bf_value b') lo n x /\
  bf_getitem b' (Slice (Some s) (Some e)) = Ok x.
Proof.
  intros b s e x O Hwf Hv H lo n Hx.
  assert (El : range_lo (bf_numbering b) (bf_width b) s e = lo).
  { destruct H as (_ & _ & H). rewrite O in H. unfold range_lo. lia. }
  assert (En : range_size (bf_numbering b) (bf_width b) s e = n).
  { destruct H as (_ & _ & H). rewrite O in H. unfold range_size. lia. }
  destruct (@setitem_slice_edge b s e x Hwf H (mask_shift_msb O H) Hv) as (v' & -> & Hr & Hf).
  { rewrite En. exact Hx. }
  rewrite El, En in Hr. split; [reflexivity|]. split; [exact Hr|].
  rewrite (@getitem_slice_msb (with_value b v') s e O H). cbn.
  rewrite El, En. f_equal. apply Hr.
Qed.
(*@
Example C06_example :
  let b := mkbf 8 255 154 MSB_1 MSB_LEFT in
  wf b /\ fits 8 154 /\ valid_range MSB_LEFT MSB_1 8 4 7 /\
  bf_value (fst (bf_setitem b (Slice (Some 4) (Some 7)) 2)) = 132.
Proof. unfold wf, fits, valid_range; cbn; repeat split; lia. Qed.
@*)

Lemma C07_slice_lsb_left_edge_partial_pf : forall b s e,
  bf_order b = LSB_LEFT ->
  valid_range (bf_order b) (bf_numbering b) (bf_width b) s e ->
  let lo := weight (bf_numbering b) (bf_width b) s in
  let n := weight (bf_numbering b) (bf_width b) e - lo + 1 in
  n = 1 \/ n = bf_width b ->
  bf_getitem b (Slice (Some s) (Some e)) = Ok (bits_at (bf_value b) lo n) /\
  (forall x, wf b -> fits (bf_width b) (bf_value b) -> 0 <= x < 2 ^ n ->
   let '(b', r) := bf_setitem b (Slice (Some s) (Some e)) x in
   r = Ok tt /\ bits_replaced (bf_value b) (bf_value b') lo n x /\
   bf_getitem b' (Slice (Some s) (Some e)) = Ok x).
Proof.
  intros b s e O H lo n Hn.
  assert (El : range_lo (bf_numbering b) (bf_width b) s e = lo).
  { destruct H as (_ & _ & H). rewrite O in H. unfold range_lo. lia. }
  assert (En : range_size (bf_numbering b) (bf_width b) s e = n).
  { destruct H as (_ & _ & H). rewrite O in H. unfold range_size. lia. }
  assert (M := mask_shift_edge H). rewrite El, En in M. specialize (M Hn).
  rewrite <- El in M. split.
  - rewrite (getitem_slice_edge H M), El, En. reflexivity.
  - intros x Hwf Hv Hx.
    destruct (@setitem_slice_edge b s e x Hwf H M Hv) as (v' & -> & Hr & Hf).
    { rewrite En. exact Hx. }
    rewrite El, En in Hr. split; [reflexivity|]. split; [exact Hr|].
    rewrite (@getitem_slice_edge (with_value b v') s e H M). cbn.
    rewrite El, En. f_equal. apply Hr.
Qed.
(*@ Example C07_slice_lsb_left_edge_partial_ex : let b := mkbf 8 255 130 LSB_0 LSB_LEFT in
  valid_range LSB_LEFT LSB_0 8 0 7 /\ bf_getitem b (Slice (Some 0) (Some 7)) = Ok 130 /\ bf_getitem b (Slice (Some 1) (Some 1)) = Ok 1 /\
  bf_value (fst (bf_setitem b (Slice (Some 0) (Some 7)) 77)) = 77.
Proof. cbv zeta. split; [vm_compute; intuition discriminate|]. vm_compute. auto. Qed. @*)
Lemma C07_slice_read_lsb_left_exact_pf : forall b s e,
  bf_order b = LSB_LEFT ->
  valid_range (bf_order b) (bf_numbering b) (bf_width b) s e ->
  let hi := weight (bf_numbering b) (bf_width b) e in
  let n := hi - weight (bf_numbering b) (bf_width b) s + 1 in
  1 < n < bf_width b ->
  bf_getitem b (Slice (Some s) (Some e)) = Ok (bits_at (bf_value b) hi n * 2 ^ (n - 1)).
Proof.
  intros b s e O H hi n Hn.
  assert (En : range_size (bf_numbering b) (bf_width b) s e = n).
  { destruct H as (_ & _ & H). rewrite O in H. unfold range_size. lia. }
  assert (El : range_lo (bf_numbering b) (bf_width b) s e + n - 1 = hi).
  { destruct H as (_ & _ & H). rewrite O in H. unfold range_lo. lia. }
  rewrite (getitem_slice_lsb O H) by (rewrite En; exact Hn).
  rewrite En, El. reflexivity.
Qed.
(*@ Example C07_slice_read_lsb_left_exact_ex : let b := mkbf 8 255 176 LSB_0 LSB_LEFT in
  valid_range LSB_LEFT LSB_0 8 1 4 /\ bits_at 176 4 4 = 11 /\ bf_getitem b (Slice (Some 1) (Some 4)) = Ok (11 * 8).
Proof. cbv zeta. split; [vm_compute; intuition discriminate|]. vm_compute. auto. Qed. @*)
Lemma C07_slice_read_lsb_left_refuted_pf : forall b s e,
  bf_order b = LSB_LEFT -> wf b -> bf_value b = bf_maxval b ->
  valid_range (bf_order b) (bf_numbering b) (bf_width b) s e ->
  let lo := weight (bf_numbering b) (bf_width b) s in
  let n := weight (bf_numbering b) (bf_width b) e - lo + 1 in
  1 < n < bf_width b ->
  bf_getitem b (Slice (Some s) (Some e)) <> Ok (bits_at (bf_value b) lo n).
Proof.
  intros b s e O Hwf Hv H lo n Hn.
  rewrite (@C07_slice_read_lsb_left_exact_pf b s e O H) by exact Hn.
  fold lo. fold n. intros [= E].
  destruct H as (Hs & He & Ho). rewrite valid_weight in Hs, He. rewrite O in Ho.
  fold lo in Hs, Ho. set (hi := weight _ _ e) in *.
  assert (T : Z.testbit (bits_at (bf_value b) lo n) 0 = true).
  { rewrite testbit_bits_at by lia. destruct Hwf as [HW HM].
    rewrite Hv, HM, pow2_ones, testbit_ones by lia. lia. }
  rewrite <- E in T. rewrite <- Z.shiftl_mul_pow2 in T by lia.
  rewrite Z.shiftl_spec_low in T by lia. discriminate.
Qed.
(*@
(** bits 0..3 of the default 8-bit field holding 255 should read 15; the code gives 120 *)
Example C07_refuted_witness :
  let b := mkbf 8 255 255 LSB_0 LSB_LEFT in
  wf b /\ valid_range LSB_LEFT LSB_0 8 0 3 /\
  bf_getitem b (Slice (Some 0) (Some 3)) = Ok 120 /\ bits_at 255 0 4 = 15.
Proof. unfold wf, valid_range; cbn; repeat split; lia. Qed.
@*)
Lemma C07_slice_write_lsb_left_refuted_pf : forall b s e,
  bf_order b = LSB_LEFT -> wf b -> bf_value b = bf_maxval b ->
  valid_range (bf_order b) (bf_numbering b) (bf_width b) s e ->
  let lo := weight (bf_numbering b) (bf_width b) s in
  let n := weight (bf_numbering b) (bf_width b) e - lo + 1 in
  1 < n < bf_width b ->
  let '(b', r) := bf_setitem b (Slice (Some s) (Some e)) 0 in
  r = Ok tt /\ bits_at (bf_value b') lo n <> 0.
Proof.
  intros b s e O Hwf Hv H lo n Hn.
  assert (El : range_lo (bf_numbering b) (bf_width b) s e = lo).
  { destruct H as (_ & _ & H). rewrite O in H. unfold range_lo. lia. }
  assert (En : range_size (bf_numbering b) (bf_width b) s e = n).
  { destruct H as (_ & _ & H). rewrite O in H. unfold range_size. lia. }
  assert (P : 0 < 2 ^ n) by (apply Z.pow_pos_nonneg; lia).
  rewrite (@setitem_slice_raw b s e 0 Hwf H) by (rewrite En; lia).
  split; [reflexivity|]. cbn [bf_value with_value]. rewrite En.
  assert (M : mask_shift b s e = lo + n - 1).
  { unfold mask_shift. rewrite En. destruct (Z.eqb_spec n (bf_width b)); lia. }
  rewrite M, Z.shiftl_0_l, Z.lor_0_r. intros C.
  assert (T : Z.testbit (bits_at
     (Z.land (bf_value b) ((2 ^ bf_width b - 1) - Z.shiftl (2 ^ n - 1) (lo + n - 1))) lo n) 0 = false)
    by (rewrite C; apply Z.bits_0).
  destruct H as (Hs & He & Ho). rewrite valid_weight in Hs, He. fold lo in Hs.
  rewrite testbit_bits_at in T by lia. destruct (Z.ltb_spec 0 n); [|lia]. simpl in T.
  destruct Hwf as [HW HM]. rewrite Z.land_spec, Hv, HM in T.
  rewrite pow2_ones, testbit_ones in T by lia.
  destruct (Z.ltb_spec lo (bf_width b)); [|lia]. simpl in T.
  rewrite <- (Z.mod_pow2_bits_low _ (lo + n - 1) lo) in T by lia.
  rewrite Z.shiftl_mul_pow2 in T by lia.
  replace (Z.ones (bf_width b) - (2 ^ n - 1) * 2 ^ (lo + n - 1))
    with (Z.ones (bf_width b) + (- (2 ^ n - 1)) * 2 ^ (lo + n - 1)) in T by ring.
  rewrite Z.mod_add in T by (apply Z.pow_nonzero; lia).
  rewrite Z.mod_pow2_bits_low in T by lia. rewrite testbit_ones in T by lia. lia.
Qed.
(*@ Example C07_slice_write_lsb_left_refuted_ex : let b := mkbf 8 255 255 LSB_0 LSB_LEFT in
  valid_range LSB_LEFT LSB_0 8 1 4 /\ snd (bf_setitem b (Slice (Some 1) (Some 4)) 0) = Ok tt /\
  bits_at (bf_value (fst (bf_setitem b (Slice (Some 1) (Some 4)) 0))) 1 4 = 7.
Proof. cbv zeta. split; [vm_compute; intuition discriminate|]. vm_compute. auto. Qed. @*)

(** ** C08 *)
Lemma C08_oversize_rejected_partial_pf : forall b v,
  (forall s e, valid_range (bf_order b) (bf_numbering b) (bf_width b) s e ->
     2 ^ range_size (bf_numbering b) (bf_width b) s e < v ->
     bf_setitem b (Slice (Some s) (Some e)) v = (b, Err ValueError)) /\
  (forall i, valid_index (bf_numbering b) (bf_width b) i -> 2 < v ->
     bf_setitem b (Idx i) v = (b, Err ValueError)) /\
  (2 ^ bf_width b < v -> bf_set_value b v = (b, Err ValueError)).
Proof.
  intros b v. split; [|split].
  - intros s e H Hv. apply setitem_slice_big; assumption.
  - intros i H Hv. apply setitem_bit_big; assumption.
  - intros Hv. unfold bf_set_value. rewrite checkValue_err by exact Hv. reflexivity.
Qed.
(*@ Example C08_oversize_rejected_partial_ex : let b := mkbf 8 255 0 MSB_1 MSB_LEFT in
  bf_setitem b (Slice (Some 5) (Some 8)) 17 = (b, Err ValueError) /\ bf_setitem b (Idx 1) 3 = (b, Err ValueError) /\
  bf_set_value b 257 = (b, Err ValueError).
Proof. vm_compute. auto. Qed. @*)
Lemma set_value_ok b v : wf b -> v <= 2 ^ bf_width b -> bf_set_value b v = (with_value b v, Ok tt).
Proof.
  intros Hwf Hv. unfold bf_set_value. rewrite checkValue_ok; auto. destruct Hwf; lia.
Qed.
Lemma C08_misfit_accepted_refuted_pf : forall b v, wf b ->
  (forall s e, valid_range (bf_order b) (bf_numbering b) (bf_width b) s e ->
     v < 0 \/ v = 2 ^ range_size (bf_numbering b) (bf_width b) s e ->
     snd (bf_setitem b (Slice (Some s) (Some e)) v) = Ok tt) /\
  (forall i, valid_index (bf_numbering b) (bf_width b) i -> v < 0 \/ v = 2 ->
     snd (bf_setitem b (Idx i) v) = Ok tt) /\
  (v < 0 \/ v = 2 ^ bf_width b ->
     snd (bf_set_value b v) = Ok tt /\ bf_value (fst (bf_set_value b v)) = v).
Proof.
  intros b v Hwf. split; [|split].
  - intros s e H Hv. rewrite setitem_slice_raw; auto.
    assert (0 <= 2 ^ range_size (bf_numbering b) (bf_width b) s e) by (apply Z.pow_nonneg; lia).
    lia.
  - intros i H Hv. rewrite setitem_bit_raw; auto. lia.
  - intros Hv. rewrite set_value_ok; auto.
    assert (0 <= 2 ^ bf_width b) by (apply Z.pow_nonneg; lia). lia.
Qed.
(*@
(** 8-bit field: b.value = 256 is accepted; so is b[1:4] = 16 on an MSB-left field,
    where it spills into the bit left of the range *)
Example C08_refuted_witness :
  let b := mkbf 8 255 0 MSB_1 MSB_LEFT in
  wf b /\ bf_value (fst (bf_set_value b 256)) = 256 /\
  snd (bf_set_value b 256) = Ok tt /\
  bf_value (fst (bf_setitem b (Slice (Some 5) (Some 8)) 16)) = 16 /\
  bf_getitem (fst (bf_setitem b (Slice (Some 5) (Some 8)) 16)) (Idx 4) = Ok 1.
Proof. unfold wf; cbn; repeat split; lia. Qed.
@*)

(** ** C09, C10, C17 *)
Definition same_geometry (b b' : bf) : Prop :=
  bf_width b' = bf_width b /\ bf_maxval b' = bf_maxval b /\
  bf_numbering b' = bf_numbering b /\ bf_order b' = bf_order b.

Lemma setitem_cases b k v b' r :
  bf_setitem b k v = (b', r) ->
  (exists e, r = Err e /\ b' = b) \/
  (exists v', bf_setitem_value b k v = Ok v' /\ r = Ok tt /\ b' = with_value b v').
Proof.
  unfold bf_setitem. destruct (bf_setitem_value b k v) as [v'|e]; intros [= <- <-].
  - right. exists v'. auto.
  - left. exists e. auto.
Qed.

Lemma step_cases b o b' r :
  bf_step b o = (b', r) ->
  (exists e, r = Err e /\ b' = b) \/ (r = Ok tt /\ exists v', b' = with_value b v').
Proof.
  destruct o as [k v|v|i|i]; cbn [bf_step].
  - intros H. apply setitem_cases in H. destruct H as [H|(v' & _ & H & H')]; [left; exact H|right].
    eauto.
  - unfold bf_set_value. destruct (checkValue _ _ _); intros [= <- <-]; eauto.
  - unfold bf_set. destruct i as [i|].
    + destruct (i =? 0); [intros [= <- <-]; eauto|].
      destruct (checkIndex b (Some i)); [|intros [= <- <-]; eauto].
      intros H. apply setitem_cases in H. destruct H as [H|(v' & _ & H & H')]; [left; exact H|right].
      eauto.
    + intros [= <- <-]; eauto.
  - unfold bf_clear. destruct i as [i|].
    + destruct (i =? 0); [intros [= <- <-]; eauto|].
      destruct (checkIndex b (Some i)); [|intros [= <- <-]; eauto].
      intros H. apply setitem_cases in H. destruct H as [H|(v' & _ & H & H')]; [left; exact H|right].
      eauto.
    + intros [= <- <-]; eauto.
Qed.

Lemma C10_rejected_no_effect_pf : forall b o b' e,
  bf_step b o = (b', Err e) -> b' = b.
Proof.
  intros b o b' e H. apply step_cases in H. destruct H as [(x & _ & H)|[H _]]; [exact H|discriminate].
Qed.
(*@
Example C10_example :
  let b := mkbf 8 255 154 MSB_1 MSB_LEFT in
  bf_step b (OpItem (Slice (Some 7) (Some 4)) 3) = (b, Err ValueError) /\
  bf_step b (OpItem (Slice (Some 4) None) 3) = (b, Err TypeError) /\
  bf_step b (OpValue 300) = (b, Err ValueError).
Proof. repeat split. Qed.
@*)

Lemma step_geometry b o : same_geometry b (fst (bf_step b o)).
Proof.
  destruct (bf_step b o) as [b' r] eqn:E. apply step_cases in E. cbn.
  destruct E as [(e & _ & ->)|(_ & v' & ->)]; repeat split.
Qed.
Lemma run_geometry ops : forall b, same_geometry b (bf_run b ops).
Proof.
  induction ops as [|o ops IH]; intros b; [repeat split|].
  cbn [bf_run fold_left]. destruct (IH (fst (bf_step b o))) as (A & B & C & D).
  destruct (step_geometry b o) as (A' & B' & C' & D'). unfold bf_run in *.
  unfold same_geometry. rewrite A, B, C, D. auto.
Qed.
Lemma geometry_indices b b' : same_geometry b b' ->
  bf_indices b' = bf_indices b /\ bf_lsb b' = bf_lsb b /\ bf_msb b' = bf_msb b.
Proof.
  destruct b, b'. unfold same_geometry; cbn. intros (-> & -> & -> & ->). repeat split.
Qed.
Lemma C17_geometry_immutable_pf : forall b ops,
  let b' := bf_run b ops in
  bf_width b' = bf_width b /\ bf_maxval b' = bf_maxval b /\
  bf_numbering b' = bf_numbering b /\ bf_order b' = bf_order b /\
  bf_indices b' = bf_indices b /\ bf_lsb b' = bf_lsb b /\ bf_msb b' = bf_msb b.
Proof.
  intros b ops. cbv zeta. assert (G := run_geometry ops b).
  destruct (geometry_indices G) as (? & ? & ?). destruct G as (? & ? & ? & ?). auto 10.
Qed.
(*@
Example C17_example :
  let b := mkbf 8 255 154 MSB_1 MSB_LEFT in
  let b' := bf_run b [OpValue 7; OpItem (Idx 1) 1; OpItem (Idx 9) 1; OpClear None] in
  bf_value b' = 0 /\ bf_indices b' = [1; 2; 3; 4; 5; 6; 7; 8].
Proof. split; reflexivity. Qed.
@*)

Lemma step_fits b o :
  wf b -> fits (bf_width b) (bf_value b) -> op_fits b o ->
  fits (bf_width b) (bf_value (fst (bf_step b o))).
Proof.
  intros Hwf Hv Ho. assert (HW := Hwf). destruct HW as [HW HM].
  assert (Hp : 0 < 2 ^ bf_width b) by (apply Z.pow_pos_nonneg; lia).
  assert (IDX : forall i x, x = 0 \/ x = 1 -> fits (bf_width b) (bf_value (fst (bf_setitem b (Idx i) x)))).
  { intros i x Hx. destruct (valid_index_dec (bf_numbering b) (bf_width b) i) as [Hi|Hi].
    - destruct (@setitem_bit b i x Hwf Hi Hx Hv) as (v' & -> & _ & Hf). exact Hf.
    - rewrite setitem_bit_err by exact Hi. exact Hv. }
  assert (SC : forall i x, x = 0 \/ x = 1 -> fits (bf_width b) (bf_value (fst
     (match checkIndex b (Some i) with Ok _ => bf_setitem b (Idx i) x | Err e => (b, Err e) end)))).
  { intros i x Hx. destruct (checkIndex b (Some i)); [apply IDX; exact Hx|exact Hv]. }
  destruct o as [[i|s e] v|v|i|i]; cbn [bf_step op_fits] in *.
  - apply IDX. exact Ho.
  - destruct s as [s|], e as [e|]; try exact Hv.
    + destruct (vrange_dec b s e) as [H|H].
      * specialize (Ho H). rewrite setitem_slice_raw; auto; [|unfold fits in Ho; lia].
        cbn. destruct (range_facts H) as (H1 & H2 & H3 & _).
        apply lor_fits; [lia|apply land_fits; [lia|exact Hv]|].
        apply (@shiftl_fits _ _ (range_size (bf_numbering b) (bf_width b) s e)); auto; lia.
      * rewrite setitem_slice_err by exact H. exact Hv.
    + unfold bf_setitem, bf_setitem_value, getRange.
      destruct (@checkRange_none b (Some s) None (or_intror eq_refl)) as [x ->]. exact Hv.
  - rewrite set_value_ok; auto. unfold fits in Ho. lia.
  - unfold bf_set. destruct i as [i|].
    + destruct (i =? 0); [cbn; rewrite HM; unfold fits; lia|]. apply SC. auto.
    + cbn. rewrite HM. unfold fits; lia.
  - unfold bf_clear. destruct i as [i|].
    + destruct (i =? 0); [cbn; unfold fits; lia|]. apply SC. auto.
    + cbn. unfold fits; lia.
Qed.
Lemma op_fits_geometry b b' o : same_geometry b b' -> op_fits b o -> op_fits b' o.
Proof. destruct b, b'; unfold same_geometry; cbn. intros (-> & -> & -> & ->). exact (fun x => x). Qed.
Lemma wf_geometry b b' : same_geometry b b' -> wf b -> wf b'.
Proof. destruct b, b'; unfold same_geometry, wf; cbn. intros (-> & -> & _). auto. Qed.

Lemma C09_value_in_range_pf : forall ops b,
  wf b -> fits (bf_width b) (bf_value b) -> Forall (op_fits b) ops ->
  0 <= bf_value (bf_run b ops) <= bf_maxval b.
Proof.
  induction ops as [|o ops IH]; intros b Hwf Hv Ho.
  - destruct Hwf as [_ ->]. unfold fits in Hv. cbn. lia.
  - inversion Ho as [|x l Ho1 Ho2]; subst.
    assert (G := step_geometry b o).
    assert (F := @step_fits b o Hwf Hv Ho1).
    change (bf_run b (o :: ops)) with (bf_run (fst (bf_step b o)) ops).
    destruct G as (GW & GM & GN & GO). rewrite <- GM. apply IH.
    + apply (@wf_geometry b); [repeat split; assumption|exact Hwf].
    + rewrite GW. exact F.
    + eapply Forall_impl; [|exact Ho2]. intros o'. apply op_fits_geometry. repeat split; assumption.
Qed.
(*@
Example C09_example :
  let b := mkbf 8 255 154 LSB_0 LSB_LEFT in
  let ops := [OpItem (Slice (Some 0) (Some 3)) 15; OpValue 255; OpItem (Slice (Some 4) (Some 7)) 9;
              OpItem (Idx 30) 1; OpSet (Some 3); OpItem (Slice (Some 3) None) 77] in
  wf b /\ fits 8 154 /\ Forall (op_fits b) ops /\ bf_value (bf_run b ops) = 255.
Proof.
  cbv zeta. split; [|split; [|split; [|vm_compute; reflexivity]]].
  - split; [cbn; lia|reflexivity].
  - unfold fits. lia.
  - repeat constructor; cbn; unfold valid_range, range_size, fits; cbn; lia.
Qed.
@*)

(** ** C11, C12 *)
Lemma C11_set_clear_pf : forall b, wf b ->
  (forall k, 0 <= k < bf_width b ->
     bit_at (bf_value (fst (bf_set b None))) k = 1 /\
     bit_at (bf_value (fst (bf_clear b None))) k = 0) /\
  fits (bf_width b) (bf_value (fst (bf_set b None))) /\
  fits (bf_width b) (bf_value (fst (bf_clear b None))) /\
  (forall i, i <> 0 -> valid_index (bf_numbering b) (bf_width b) i ->
     fits (bf_width b) (bf_value b) ->
     snd (bf_set b (Some i)) = Ok tt /\ snd (bf_clear b (Some i)) = Ok tt /\
     bit_replaced (bf_value b) (bf_value (fst (bf_set b (Some i))))
                  (weight (bf_numbering b) (bf_width b) i) 1 /\
     bit_replaced (bf_value b) (bf_value (fst (bf_clear b (Some i))))
                  (weight (bf_numbering b) (bf_width b) i) 0).
Proof.
  intros b Hwf. assert (HW := Hwf). destruct HW as [HW HM].
  assert (Hp : 0 < 2 ^ bf_width b) by (apply Z.pow_pos_nonneg; lia).
  cbn [bf_set bf_clear fst with_value bf_value]. rewrite HM. split; [|split; [|split]].
  - intros k Hk. rewrite !bit_at_testbit by lia. rewrite pow2_ones, testbit_ones, Z.bits_0 by lia.
    destruct (Z.ltb_spec k (bf_width b)); [|lia]. split; reflexivity.
  - unfold fits; lia.
  - unfold fits; lia.
  - intros i N Hi Hv. rewrite (checkIndex_ok _ _ Hi).
    destruct (Z.eqb_spec i 0); [contradiction|].
    destruct (@setitem_bit b i 1 Hwf Hi ltac:(auto) Hv) as (v1 & -> & R1 & _).
    destruct (@setitem_bit b i 0 Hwf Hi ltac:(auto) Hv) as (v0 & -> & R0 & _).
    cbn. auto.
Qed.
(*@
Example C11_example :
  let b := mkbf 8 255 154 MSB_1 MSB_LEFT in
  wf b /\ bf_value (fst (bf_set b (Some 2))) = 218 /\ bf_value (fst (bf_clear b (Some 1))) = 26.
Proof. unfold wf; cbn; repeat split; lia. Qed.
@*)
Lemma C12_set_clear_index0_refuted_pf : forall b,
  wf b -> valid_index (bf_numbering b) (bf_width b) 0 -> 1 < bf_width b ->
  (bf_value b = 0 ->
   ~ bit_replaced (bf_value b) (bf_value (fst (bf_set b (Some 0))))
       (weight (bf_numbering b) (bf_width b) 0) 1) /\
  (bf_value b = bf_maxval b ->
   ~ bit_replaced (bf_value b) (bf_value (fst (bf_clear b (Some 0))))
       (weight (bf_numbering b) (bf_width b) 0) 0).
Proof.
  intros b [HW HM] Hi H1. cbn. rewrite HM. rewrite valid_weight in Hi.
  set (w := weight _ _ 0) in *. clearbody w.
  assert (K : exists k, 0 <= k < bf_width b /\ k <> w).
  { destruct (Z.eq_dec w 0); [exists 1|exists 0]; lia. }
  destruct K as (k & Hk & N). split; intros V [_ C]; rewrite V in C; specialize (C k ltac:(lia) N);
    rewrite !bit_at_testbit, pow2_ones, testbit_ones, Z.bits_0 in C by lia;
    destruct (Z.ltb_spec k (bf_width b)); try lia; discriminate.
Qed.
(*@
Example C12_refuted_witness :
  let b := mkbf 8 255 0 LSB_0 LSB_LEFT in
  wf b /\ valid_index LSB_0 8 0 /\ bf_value (fst (bf_set b (Some 0))) = 255.
Proof. unfold wf; cbn; repeat split; lia. Qed.
@*)

(** ** C13 *)
Lemma nth_error_ext {A} : forall (l l' : list A),
  (forall n, nth_error l n = nth_error l' n) -> l = l'.
Proof.
  induction l as [|x l IH]; intros [|y l'] H.
  - reflexivity.
  - specialize (H O). discriminate.
  - specialize (H O). discriminate.
  - assert (x = y) by (specialize (H O); cbn in H; congruence). subst. f_equal.
    apply IH. intros n. exact (H (S n)).
Qed.

Lemma indices_nth b p : 0 <= p < bf_width b ->
  nth_error (bf_indices b) (Z.to_nat p) = Some (vindex b p).
Proof.
  intros H. unfold bf_indices. rewrite nth_error_map, py_range_nth by lia. reflexivity.
Qed.
Lemma indices_length b : 0 <= bf_width b -> zlen (bf_indices b) = bf_width b.
Proof.
  intros H. unfold bf_indices, zlen. rewrite map_length.
  fold (zlen (py_range 0 (bf_width b))). rewrite py_range_length. lia.
Qed.
Lemma layout_length o n W : List.length (layout o n W) = Z.to_nat W.
Proof. unfold layout. destruct o, n; rewrite ?rev_length; apply upto_length. Qed.
Lemma layout_nth b p : 0 <= p < bf_width b ->
  nth_error (layout (bf_order b) (bf_numbering b) (bf_width b)) (Z.to_nat p) = Some (vindex b p).
Proof.
  intros H. unfold layout, vindex. destruct (bf_order b), (bf_numbering b);
    rewrite ?upto_nth, ?rev_upto_nth by exact H; f_equal; lia.
Qed.
Lemma indices_layout b : 0 <= bf_width b ->
  bf_indices b = layout (bf_order b) (bf_numbering b) (bf_width b).
Proof.
  intros H. apply nth_error_ext. intros n.
  destruct (Z_lt_dec (Z.of_nat n) (bf_width b)) as [L|L].
  - rewrite <- (Nat2Z.id n), indices_nth, layout_nth by lia. reflexivity.
  - transitivity (@None Z); [|symmetry]; apply nth_error_None.
    + assert (E := @indices_length b H). unfold zlen in E. lia.
    + rewrite layout_length. lia.
Qed.

Lemma vindex_weight b p :
  weight (bf_numbering b) (bf_width b) (vindex b p) = pos_weight (bf_order b) (bf_width b) p.
Proof. unfold weight, vindex, pos_weight. destruct (bf_order b), (bf_numbering b); lia. Qed.

Lemma indices_In b i : In i (bf_indices b) <-> valid_index (bf_numbering b) (bf_width b) i.
Proof.
  unfold bf_indices. rewrite in_map_iff. split.
  - intros (p & <- & Hp). apply py_range_In in Hp. rewrite valid_weight, vindex_weight.
    unfold pos_weight. destruct (bf_order b); lia.
  - intros Hi. exists (rindex b i). split.
    + unfold vindex, rindex. destruct (bf_order b), (bf_numbering b); lia.
    + apply py_range_In. apply rindex_valid. exact Hi.
Qed.
Lemma indices_NoDup b : NoDup (bf_indices b).
Proof.
  unfold bf_indices. apply Injective_map_NoDup; [|apply py_range_NoDup].
  intros x y E. assert (H := vindex_weight b x). rewrite E, vindex_weight in H.
  unfold pos_weight in H. destruct (bf_order b); lia.
Qed.
Lemma py_index_first {A} (l : list A) x : nth_error l 0 = Some x -> py_index l 0 = Ok x.
Proof.
  intros H. unfold py_index. destruct l as [|y l]; [discriminate|].
  injection H as ->. rewrite zlen_cons. assert (L := zlen_nonneg l).
  cbv zeta. change (0 <? 0) with false. cbv iota. change (0 <? 0) with false. destruct (false || (1 + zlen l <=? 0)) eqn:E; [lia|]. reflexivity.
Qed.
Lemma py_index_last {A} (l : list A) x :
  nth_error l (Z.to_nat (zlen l - 1)) = Some x -> py_index l (-1) = Ok x.
Proof.
  intros H. unfold py_index. assert (L := zlen_nonneg l).
  assert (zlen l <> 0).
  { intros Z0. destruct l; [destruct (Z.to_nat _); discriminate H|rewrite zlen_cons in Z0].
    assert (L2 := zlen_nonneg l). lia. }
  cbn [Z.ltb Z.compare]. replace (-1 + zlen l) with (zlen l - 1) by lia.
  destruct ((zlen l - 1 <? 0) || (zlen l <=? zlen l - 1)) eqn:E; [lia|].
  rewrite H. reflexivity.
Qed.

Lemma lsb_msb b : 1 <= bf_width b ->
  bf_lsb b = Ok (vindex b (match bf_order b with LSB_LEFT => 0 | MSB_LEFT => bf_width b - 1 end)) /\
  bf_msb b = Ok (vindex b (match bf_order b with MSB_LEFT => 0 | LSB_LEFT => bf_width b - 1 end)).
Proof.
  intros H.
  assert (F : py_index (bf_indices b) 0 = Ok (vindex b 0)).
  { apply py_index_first. exact (@indices_nth b 0 ltac:(lia)). }
  assert (L : py_index (bf_indices b) (-1) = Ok (vindex b (bf_width b - 1))).
  { apply py_index_last. rewrite indices_length by lia. apply indices_nth. lia. }
  unfold bf_lsb, bf_msb. destruct (bf_order b); auto.
Qed.

Lemma C13_indices_lsb_msb_pf : forall b, 0 <= bf_width b ->
  bf_indices b = layout (bf_order b) (bf_numbering b) (bf_width b) /\
  NoDup (bf_indices b) /\
  (forall i, In i (bf_indices b) <-> valid_index (bf_numbering b) (bf_width b) i) /\
  (1 <= bf_width b ->
     (exists l, bf_lsb b = Ok l /\ bf_getitem b (Idx l) = Ok (bf_value b mod 2)) /\
     (exists m, bf_msb b = Ok m /\
        bf_getitem b (Idx m) = Ok ((bf_value b / 2 ^ (bf_width b - 1)) mod 2))).
Proof.
  intros b H. split; [apply indices_layout; exact H|]. split; [apply indices_NoDup|].
  split; [apply indices_In|]. intros H1. destruct (@lsb_msb b H1) as [EL EM].
  split; eexists; (split; [eassumption|]).
  - rewrite getitem_bit; [|rewrite valid_weight]; rewrite vindex_weight; unfold pos_weight, bit_at.
    + f_equal. replace (match bf_order b with MSB_LEFT => _ | LSB_LEFT => _ end) with 0
        by (destruct (bf_order b); lia).
      change (2 ^ 0) with 1. rewrite Z.div_1_r. reflexivity.
    + destruct (bf_order b); lia.
  - rewrite getitem_bit; [|rewrite valid_weight]; rewrite vindex_weight; unfold pos_weight, bit_at.
    + replace (match bf_order b with MSB_LEFT => _ | LSB_LEFT => _ end) with (bf_width b - 1)
        by (destruct (bf_order b); lia). reflexivity.
    + destruct (bf_order b); lia.
Qed.
(*@
Example C13_example :
  let b := mkbf 4 15 8 LSB_1 MSB_LEFT in
  bf_indices b = [4; 3; 2; 1] /\ bf_lsb b = Ok 1 /\ bf_msb b = Ok 4 /\ bf_getitem b (Idx 4) = Ok 1.
Proof. repeat split. Qed.
@*)

(** ** C14 *)
Lemma C14_isBit_pf : forall b i v,
  (valid_index (bf_numbering b) (bf_width b) i ->
   let x := bit_at (bf_value b) (weight (bf_numbering b) (bf_width b) i) in
   bf_isBit b i v = Ok (x =? v) /\ bf_isBitSet b i = Ok (x =? 1) /\
   bf_isBitClr b i = Ok (x =? 0)) /\
  (~ valid_index (bf_numbering b) (bf_width b) i ->
   bf_isBit b i v = Err ValueError /\ bf_isBitSet b i = Err ValueError /\
   bf_isBitClr b i = Err ValueError).
Proof.
  intros b i v. split; intros H.
  - cbv zeta. unfold bf_isBitClr, bf_isBitSet, bf_isBit.
    rewrite (checkIndex_ok _ _ H), (@getitem_bit b i H). cbn [bind].
    rewrite valid_weight in H. rewrite bit_at_testbit by lia.
    destruct (Z.testbit _ _); repeat split.
  - unfold bf_isBitClr, bf_isBitSet, bf_isBit. rewrite (checkIndex_err _ _ H). repeat split.
Qed.
(*@
Example C14_example :
  let b := mkbf 8 255 154 MSB_1 MSB_LEFT in
  bf_isBitSet b 1 = Ok true /\ bf_isBitClr b 2 = Ok true /\ bf_isBit b 0 1 = Err ValueError.
Proof. repeat split. Qed.
@*)

(** ** C15, C16 *)
Lemma all_ones v lo n : 0 <= lo -> 0 <= n ->
  (bits_at v lo n = 2 ^ n - 1 <-> forall k, lo <= k < lo + n -> bit_at v k = 1).
Proof.
  intros Hl Hn. rewrite pow2_ones. split.
  - intros E k Hk. rewrite bit_at_testbit by lia.
    assert (T : Z.testbit (bits_at v lo n) (k - lo) = true).
    { rewrite E, testbit_ones by lia. lia. }
    rewrite testbit_bits_at in T by lia.
    replace (k - lo + lo) with k in T by lia.
    destruct (Z.testbit v k); [reflexivity|]. rewrite andb_false_r in T. discriminate.
  - intros H. apply Z.bits_inj'. intros j Hj. rewrite testbit_bits_at, testbit_ones by lia.
    destruct (Z.ltb_spec j n), (Z.ltb_spec n 0); try lia; cbn.
    + specialize (H (j + lo) ltac:(lia)). rewrite bit_at_testbit in H by lia.
      destruct (Z.testbit v (j + lo)); [reflexivity|discriminate].
Qed.
Lemma all_zeros v lo n : 0 <= lo -> 0 <= n ->
  (bits_at v lo n = 0 <-> forall k, lo <= k < lo + n -> bit_at v k = 0).
Proof.
  intros Hl Hn. split.
  - intros E k Hk. rewrite bit_at_testbit by lia.
    assert (T : Z.testbit (bits_at v lo n) (k - lo) = false) by (rewrite E; apply Z.bits_0).
    rewrite testbit_bits_at in T by lia. replace (k - lo + lo) with k in T by lia.
    destruct (Z.ltb_spec (k - lo) n); [|lia]. cbn in T. rewrite T. reflexivity.
  - intros H. apply Z.bits_inj'. intros j Hj. rewrite testbit_bits_at, Z.bits_0 by lia.
    destruct (Z.ltb_spec j n); [|reflexivity]. cbn.
    specialize (H (j + lo) ltac:(lia)). rewrite bit_at_testbit in H by lia.
    destruct (Z.testbit v (j + lo)); [discriminate|reflexivity].
Qed.

Lemma isRange_raw b s e :
  vrange b s e -> mask_shift b s e = range_lo (bf_numbering b) (bf_width b) s e ->
  let n := range_size (bf_numbering b) (bf_width b) s e in
  let lo := range_lo (bf_numbering b) (bf_width b) s e in
  bf_isRange b (Some s) (Some e) 1 =
    Ok (bits_at (bf_value b) lo n =? Z.shiftl (2 ^ n - 1) lo) /\
  bf_isRange b (Some s) (Some e) 0 = Ok (bits_at (bf_value b) lo n =? 0).
Proof.
  intros H M n lo. unfold bf_isRange. rewrite (checkRange_ok H). cbn [bind].
  rewrite (getitem_slice_edge H M), (bitmask_ok H), M. cbn [bind]. split; reflexivity.
Qed.

Lemma range_set_shifted v lo n : 0 < lo -> 1 <= n ->
  (bits_at v lo n =? Z.shiftl (2 ^ n - 1) lo) = false.
Proof.
  intros Hl Hn. apply Z.eqb_neq. intros E.
  assert (R := bits_at_range v lo n ltac:(lia)).
  rewrite Z.shiftl_mul_pow2 in E by lia.
  assert (2 ^ 1 <= 2 ^ lo) by (apply Z.pow_le_mono_r; lia).
  assert (2 ^ 1 <= 2 ^ n) by (apply Z.pow_le_mono_r; lia).
  change (2 ^ 1) with 2 in *. nia.
Qed.

Lemma msb_range b s e :
  bf_order b = MSB_LEFT -> vrange b s e ->
  range_lo (bf_numbering b) (bf_width b) s e = weight (bf_numbering b) (bf_width b) e /\
  range_size (bf_numbering b) (bf_width b) s e =
    weight (bf_numbering b) (bf_width b) s - weight (bf_numbering b) (bf_width b) e + 1 /\
  0 <= weight (bf_numbering b) (bf_width b) e <= weight (bf_numbering b) (bf_width b) s /\
  weight (bf_numbering b) (bf_width b) s < bf_width b.
Proof.
  intros O (Hs & He & H). rewrite O in H. rewrite valid_weight in Hs, He.
  unfold range_lo, range_size. lia.
Qed.

Lemma C15_isRangeSet_partial_pf : forall b s e,
  valid_range (bf_order b) (bf_numbering b) (bf_width b) s e ->
  (bf_order b = MSB_LEFT /\ weight (bf_numbering b) (bf_width b) e = 0) \/
  range_size (bf_numbering b) (bf_width b) s e = bf_width b ->
  exists t, bf_isRangeSet b (Some s) (Some e) = Ok t /\
            bf_isRange b (Some s) (Some e) 1 = Ok t /\
            (t = true <-> forall k, in_bits b s e k -> bit_at (bf_value b) k = 1).
Proof.
  intros b s e H D. destruct (range_facts H) as (H1 & H2 & H3 & _).
  assert (M : mask_shift b s e = range_lo (bf_numbering b) (bf_width b) s e).
  { destruct D as [[O _]|D]; [apply mask_shift_msb; assumption|apply mask_shift_edge; auto]. }
  assert (L : range_lo (bf_numbering b) (bf_width b) s e = 0).
  { destruct D as [[O D]|D]; [|lia]. destruct (msb_range O H) as (-> & _). exact D. }
  destruct (isRange_raw H M) as [E _]. unfold bf_isRangeSet. rewrite E.
  eexists. split; [reflexivity|]. split; [reflexivity|].
  unfold in_bits. rewrite L in *. rewrite Z.shiftl_0_r, Z.eqb_eq.
  apply all_ones; lia.
Qed.
(*@ Example C15_isRangeSet_partial_ex : let b := mkbf 8 255 247 MSB_1 MSB_LEFT in
  valid_range MSB_LEFT MSB_1 8 6 8 /\ weight MSB_1 8 8 = 0 /\
  bf_isRangeSet b (Some 6) (Some 8) = Ok true /\ bf_isRangeSet b (Some 5) (Some 8) = Ok false.
Proof. cbv zeta. split; [vm_compute; intuition discriminate|]. vm_compute. auto. Qed. @*)
Lemma C15_isRangeSet_refuted_pf : forall b s e,
  bf_order b = MSB_LEFT ->
  valid_range (bf_order b) (bf_numbering b) (bf_width b) s e ->
  weight (bf_numbering b) (bf_width b) e <> 0 ->
  bf_isRangeSet b (Some s) (Some e) = Ok false.
Proof.
  intros b s e O H N. destruct (isRange_raw H (mask_shift_msb O H)) as [E _].
  destruct (range_facts H) as (H1 & _). destruct (msb_range O H) as (L & _ & P & _).
  unfold bf_isRangeSet. rewrite E. rewrite range_set_shifted; [reflexivity| |]; lia.
Qed.
(*@
(** all bits of an 8-bit field are 1, yet isRangeSet(1,4) is False *)
Example C15_refuted_witness :
  let b := mkbf 8 255 255 MSB_1 MSB_LEFT in
  valid_range MSB_LEFT MSB_1 8 1 4 /\ weight MSB_1 8 4 <> 0 /\
  (forall k, in_bits b 1 4 k -> bit_at 255 k = 1) /\
  bf_isRangeSet b (Some 1) (Some 4) = Ok false /\ bf_isRangeSet b (Some 5) (Some 8) = Ok true.
Proof.
  unfold valid_range, in_bits, range_lo, range_size; cbn. repeat split; try lia.
  intros k Hk. assert (k = 4 \/ k = 5 \/ k = 6 \/ k = 7) as [-> | [-> | [-> | ->]]] by lia; reflexivity.
Qed.
@*)

Lemma C16_isRange_zero_partial_pf : forall b s e,
  bf_order b = MSB_LEFT ->
  valid_range (bf_order b) (bf_numbering b) (bf_width b) s e ->
  exists t, bf_isRange b (Some s) (Some e) 0 = Ok t /\
            (t = true <-> forall k, in_bits b s e k -> bit_at (bf_value b) k = 0) /\
            (t = true -> bf_isRangeClr b (Some s) (Some e) = Ok true).
Proof.
  intros b s e O H. destruct (isRange_raw H (mask_shift_msb O H)) as [E1 E0].
  destruct (range_facts H) as (H1 & H2 & H3 & _).
  unfold bf_isRangeClr, bf_isRangeSet. rewrite E1, E0. eexists. split; [reflexivity|].
  cbn [bind]. split.
  - rewrite Z.eqb_eq. unfold in_bits. apply all_zeros; lia.
  - rewrite Z.eqb_eq. intros ->. f_equal.
    assert (P : 2 ^ 1 <= 2 ^ range_size (bf_numbering b) (bf_width b) s e)
      by (apply Z.pow_le_mono_r; lia). change (2 ^ 1) with 2 in P.
    assert (Q : 0 < 2 ^ range_lo (bf_numbering b) (bf_width b) s e)
      by (apply Z.pow_pos_nonneg; lia).
    rewrite Z.shiftl_mul_pow2 by lia.
    match goal with |- negb (0 =? ?x) = true => destruct (Z.eqb_spec 0 x); [nia|reflexivity] end.
Qed.
(*@ Example C16_isRange_zero_partial_ex : let b := mkbf 8 255 200 MSB_1 MSB_LEFT in
  valid_range MSB_LEFT MSB_1 8 3 4 /\ bf_isRange b (Some 3) (Some 4) 0 = Ok true /\ bf_isRange b (Some 3) (Some 5) 0 = Ok false.
Proof. cbv zeta. split; [vm_compute; intuition discriminate|]. vm_compute. auto. Qed. @*)
Lemma C16_isRangeClr_refuted_pf : forall b s e,
  bf_order b = MSB_LEFT ->
  valid_range (bf_order b) (bf_numbering b) (bf_width b) s e ->
  (exists k, in_bits b s e k /\ bit_at (bf_value b) k = 0) ->
  bf_isRangeClr b (Some s) (Some e) = Ok true.
Proof.
  intros b s e O H (k & Hk & Hb). destruct (isRange_raw H (mask_shift_msb O H)) as [E1 _].
  destruct (range_facts H) as (H1 & H2 & H3 & _).
  unfold bf_isRangeClr, bf_isRangeSet. rewrite E1. cbn [bind]. f_equal.
  destruct (Z.eq_dec (range_lo (bf_numbering b) (bf_width b) s e) 0) as [L|L].
  - unfold in_bits in Hk. rewrite L in *. rewrite Z.shiftl_0_r.
    destruct (Z.eqb_spec (bits_at (bf_value b) 0 (range_size (bf_numbering b) (bf_width b) s e))
       (2 ^ range_size (bf_numbering b) (bf_width b) s e - 1)) as [E|E]; [|reflexivity].
    rewrite all_ones in E by lia. rewrite E in Hb by lia. discriminate.
  - rewrite range_set_shifted by lia. reflexivity.
Qed.
(*@
(** isRangeClr(1,8) of 254 is True although seven of the eight bits are 1 *)
Example C16_refuted_witness :
  let b := mkbf 8 255 254 MSB_1 MSB_LEFT in
  valid_range MSB_LEFT MSB_1 8 1 8 /\ (in_bits b 1 8 0 /\ bit_at 254 0 = 0) /\
  (in_bits b 1 8 1 /\ bit_at 254 1 = 1) /\ bf_isRangeClr b (Some 1) (Some 8) = Ok true.
Proof. unfold valid_range, in_bits, range_lo, range_size; cbn. repeat split; lia. Qed.
@*)

(** ** C18 *)
Lemma C18_repr_pf : forall b,
  1 <= bf_width b -> fits (bf_width b) (bf_value b) ->
  zlen (bf_repr b) = bf_width b /\
  Forall (fun c => c = 48 \/ c = 49) (bf_repr b) /\
  spelled 2 (bf_repr b) = bf_value b.
Proof.
  intros b H1 Hv. unfold bf_repr, py_bin. destruct Hv as [V0 V1].
  destruct (Z.ltb_spec (bf_value b) 0); [lia|].
  rewrite py_slice_from by lia. change (skipn (Z.to_nat 2) (lit "0b" ++ numeral 2 (bf_value b)))
    with (numeral 2 (bf_value b)).
  assert (L := @numeral_length 2 (bf_value b) (bf_width b) ltac:(lia) ltac:(lia) H1).
  assert (D := @numeral_dig 2 (bf_value b) ltac:(lia) V0).
  assert (S := @numeral_spell 2 (bf_value b) ltac:(lia) V0).
  set (s := numeral 2 (bf_value b)) in *. unfold pad_left, repeat_char. split; [|split].
  - rewrite zlen_app. unfold zlen at 1. rewrite repeat_length. lia.
  - apply Forall_app. split.
    + apply Forall_forall. intros c Hc. apply repeat_spec in Hc. auto.
    + eapply Forall_impl; [|exact D]. unfold dig. intros; lia.
  - change (spelled 2) with (spell 2 0). rewrite spell_app, spell_zeros. exact S.
Qed.
(*@
Example C18_example : bf_repr (mkbf 8 255 5 MSB_1 MSB_LEFT) = lit "00000101".
Proof. reflexivity. Qed.
@*)

(** ** C19 *)
Definition R (n : scheme) (W : Z) (b : bf) (a : arr) : Prop :=
  wf b /\ bf_order b = MSB_LEFT /\ bf_numbering b = n /\ bf_width b = W /\
  fits W (bf_value b) /\ forall k, 0 <= k < W -> a k = Z.testbit (bf_value b) k.

Lemma R_with n W b a a' v' :
  R n W b a -> fits W v' -> (forall k, 0 <= k < W -> a' k = Z.testbit v' k) ->
  R n W (with_value b v') a'.
Proof. intros (H1 & H2 & H3 & H4 & _) Hf Ha. repeat (split; [assumption|]). exact Ha. Qed.

Lemma in_dom_spec n W i : in_dom n W i = true <-> valid_index n W i.
Proof. unfold in_dom, valid_index. destruct n; lia. Qed.
Lemma in_dom_false n W i : in_dom n W i = false <-> ~ valid_index n W i.
Proof. rewrite <- in_dom_spec. destruct (in_dom n W i); split; congruence. Qed.
Lemma in_range_spec n W s e : in_range n W s e = true <-> valid_range MSB_LEFT n W s e.
Proof.
  unfold in_range, valid_range. rewrite !andb_true_iff, !in_dom_spec, Z.leb_le. tauto.
Qed.
Lemma in_range_false n W s e : in_range n W s e = false <-> ~ valid_range MSB_LEFT n W s e.
Proof. rewrite <- in_range_spec. destruct (in_range n W s e); split; congruence. Qed.

Lemma R_bit n W b a i x : R n W b a -> valid_index n W i -> x = 0 \/ x = 1 ->
  exists v', bf_setitem b (Idx i) x = (with_value b v', Ok tt) /\
             R n W (with_value b v') (arr_upd a (weight n W i) (x =? 1)).
Proof.
  intros HR Hi Hx. assert (HR' := HR). destruct HR' as (Hwf & O & <- & <- & Hv & Ha).
  destruct (@setitem_bit b i x Hwf Hi Hx Hv) as (v' & E & [B1 B2] & Hf).
  exists v'. split; [exact E|]. apply (@R_with _ _ b a); [exact HR|exact Hf|].
  intros k Hk. cbn. unfold arr_upd. destruct (Z.eqb_spec k (weight (bf_numbering b) (bf_width b) i)) as [->|N].
  - rewrite bit_at_testbit in B1 by lia. rewrite <- B1. apply b2z_eq1.
  - specialize (B2 k ltac:(lia) N). rewrite !bit_at_testbit in B2 by lia.
    rewrite Ha by lia. destruct (Z.testbit (bf_value b) k), (Z.testbit v' k); simpl in B2; congruence.
Qed.

Lemma R_slice n W b a s e x : R n W b a -> valid_range MSB_LEFT n W s e ->
  fits (range_size n W s e) x ->
  exists v', bf_setitem b (Slice (Some s) (Some e)) x = (with_value b v', Ok tt) /\
     R n W (with_value b v') (arr_fill a (weight n W e) (weight n W s - weight n W e + 1) x).
Proof.
  intros HR H Hx. assert (HR' := HR). destruct HR' as (Hwf & O & <- & <- & Hv & Ha).
  assert (H' : vrange b s e) by (unfold vrange; rewrite O; exact H).
  destruct (msb_range O H') as (EL & EN & B1 & B2).
  destruct (@setitem_slice_edge b s e x Hwf H' (mask_shift_msb O H') Hv Hx) as (v' & E & Hr & Hf).
  exists v'. split; [exact E|].
  rewrite EL, EN in *. set (lo := weight _ _ e) in *. set (m := weight _ _ s - lo + 1) in *.
  assert (Q := bits_replaced_unique).
  assert (Ev : v' = Z.lor (Z.land (bf_value b) ((2 ^ bf_width b - 1) - Z.shiftl (2 ^ m - 1) lo)) (Z.shiftl x lo)).
  { eapply bits_replaced_unique; [| |exact Hr|apply set_mask_bits; auto]; lia. }
  apply (@R_with _ _ b a); [exact HR|exact Hf|].
  intros k Hk. cbn. unfold arr_fill. rewrite Ev.
  rewrite (@set_mask_testbit _ _ _ m) by (auto; lia).
  destruct (Z.leb_spec lo k); simpl; [|apply Ha; exact Hk].
  destruct (Z.ltb_spec k (lo + m)); [|apply Ha; exact Hk].
  rewrite bit_at_odd by lia. reflexivity.
Qed.

Lemma call_sim n W b a c :
  R n W b a -> call_ok b c ->
  snd (bf_call b c) = snd (arr_call n W a c) /\
  R n W (fst (bf_call b c)) (fst (arr_call n W a c)).
Proof.
  intros HR Hc. assert (HR' := HR). destruct HR' as (Hwf & O & N & EW & Hv & Ha).
  assert (HWF := Hwf). destruct HWF as [HW HM].
  assert (SI : forall i x, x = 0 \/ x = 1 -> i <> 0 ->
    let r := match checkIndex b (Some i) with Ok _ => bf_setitem b (Idx i) x | Err e => (b, Err e) end in
    let w := if in_dom n W i then Some (arr_upd a (weight n W i) (x =? 1)) else None in
    (match snd r with Ok _ => Some 0 | Err _ => None end) =
      match w with Some _ => Some 0 | None => None end /\
    R n W (fst r) (match w with Some a' => a' | None => a end)).
  { intros i x Hx Hi. cbv zeta.
    destruct (in_dom n W i) eqn:D.
    - apply in_dom_spec in D. subst n W. rewrite (checkIndex_ok _ _ D).
      destruct (@R_bit _ _ b a i x HR D Hx) as (v' & -> & HR'). auto.
    - apply in_dom_false in D. subst n W. rewrite (checkIndex_err _ _ D). auto. }
  destruct c as [o|k| |i v].
  - destruct o as [[i|s e] v|v|i|i]; cbn [call_ok op_fits] in Hc.
    + cbn [bf_call bf_step arr_call arr_write]. destruct (in_dom n W i) eqn:D.
      * apply in_dom_spec in D. destruct (@R_bit _ _ b a i v HR D Hc) as (v' & -> & HR'). auto.
      * apply in_dom_false in D. subst n W. rewrite setitem_bit_err by exact D. auto.
    + cbn [bf_call bf_step arr_call arr_write].
      destruct s as [s|], e as [e|]; cbn [arr_write].
      * destruct (in_range n W s e) eqn:D.
        -- apply in_range_spec in D.
           assert (F : fits (range_size n W s e) v).
           { subst n W. apply Hc. rewrite O. exact D. }
           destruct (@R_slice _ _ b a s e v HR D F) as (v' & -> & HR'). auto.
        -- apply in_range_false in D.
           rewrite setitem_slice_err by (subst n W; unfold vrange; rewrite O; exact D). auto.
      * unfold bf_setitem, bf_setitem_value, getRange.
        destruct (@checkRange_none b (Some s) None (or_intror eq_refl)) as [x ->]. auto.
      * auto.
      * auto.
    + cbn [bf_call bf_step arr_call arr_write]. rewrite set_value_ok by (auto; unfold fits in Hc; lia).
      split; [reflexivity|]. subst W. cbn [fst]. apply (@R_with _ _ b a); [exact HR|exact Hc|].
      intros k Hk. cbn. unfold arr_fill.
      destruct (Z.leb_spec 0 k), (Z.ltb_spec k (0 + bf_width b)); try lia. simpl.
      rewrite bit_at_odd by lia. f_equal. lia.
    + cbn [bf_call bf_step arr_call arr_write]. destruct i as [i|].
      * unfold bf_set. destruct (Z.eqb_spec i 0); [contradiction|].
        specialize (SI i 1 ltac:(auto) Hc). cbv zeta in SI.
        destruct (match checkIndex b (Some i) with Ok _ => _ | Err e => _ end) as [b' r].
        cbn [fst snd] in *. change (1 =? 1) with true in SI.
        destruct (in_dom n W i); exact SI.
      * cbn. split; [reflexivity|]. subst n W. apply (@R_with _ _ b a); [exact HR| |]; rewrite HM.
        -- assert (0 < 2 ^ bf_width b) by (apply Z.pow_pos_nonneg; lia). unfold fits. lia.
        -- intros k Hk. rewrite pow2_ones, testbit_ones by lia. lia.
    + cbn [bf_call bf_step arr_call arr_write]. destruct i as [i|].
      * unfold bf_clear. destruct (Z.eqb_spec i 0); [contradiction|].
        specialize (SI i 0 ltac:(auto) Hc). cbv zeta in SI.
        destruct (match checkIndex b (Some i) with Ok _ => _ | Err e => _ end) as [b' r].
        cbn [fst snd] in *. change (0 =? 1) with false in SI.
        destruct (in_dom n W i); exact SI.
      * cbn. split; [reflexivity|]. subst n W. apply (@R_with _ _ b a); [exact HR| |].
        -- assert (0 < 2 ^ bf_width b) by (apply Z.pow_pos_nonneg; lia). unfold fits. lia.
        -- intros k Hk. rewrite Z.bits_0. reflexivity.
  - destruct k as [i|s e]; cbn [bf_call arr_call fst snd].
    + split; [|exact HR]. destruct (in_dom n W i) eqn:D.
      * apply in_dom_spec in D. subst n W. rewrite (@getitem_bit b i D). cbn [obs].
        rewrite valid_weight in D. rewrite Ha by exact D. rewrite bit_at_testbit by lia.
        destruct (Z.testbit _ _); reflexivity.
      * apply in_dom_false in D. subst n W. rewrite (@getitem_bit_err b i D). reflexivity.
    + destruct s as [s|], e as [e|]; cbn [fst snd]; try (split; [|exact HR]).
      * destruct (in_range n W s e) eqn:D.
        -- apply in_range_spec in D. subst n W.
           assert (H : vrange b s e) by (unfold vrange; rewrite O; exact D).
           destruct (msb_range O H) as (EL & EN & B1 & B2).
           rewrite (getitem_slice_msb O H), EL, EN. cbn [obs]. f_equal.
           apply bits_at_number; try lia. intros k Hk. apply Ha. lia.
        -- apply in_range_false in D.
           rewrite getitem_slice_err by (subst n W; unfold vrange; rewrite O; exact D). reflexivity.
      * unfold bf_getitem, getRange.
        destruct (@checkRange_none b (Some s) None (or_intror eq_refl)) as [x ->]. reflexivity.
      * reflexivity.
      * reflexivity.
  - cbn [bf_call arr_call fst snd]. split; [|exact HR]. f_equal. subst W.
    rewrite <- (@bits_at_full _ _ Hv) at 1. apply bits_at_number; try lia.
    intros k Hk. apply Ha. lia.
  - cbn [bf_call arr_call fst snd]. split; [|exact HR].
    destruct (C14_isBit_pf b i v) as [H1 H2]. destruct (in_dom n W i) eqn:D.
    + apply in_dom_spec in D. subst n W. destruct (H1 D) as (-> & _).
      rewrite valid_weight in D. rewrite Ha by exact D. rewrite bit_at_testbit by lia.
      destruct (Z.testbit _ _); reflexivity.
    + apply in_dom_false in D. subst n W. destruct (H2 D) as (-> & _). reflexivity.
Qed.

Lemma call_geometry b c : same_geometry b (fst (bf_call b c)).
Proof.
  destruct c as [o|k| |i v]; try (repeat split; fail).
  cbn. assert (G := step_geometry b o). destruct (bf_step b o). exact G.
Qed.

Lemma trace_sim n W : forall cs b a,
  R n W b a -> Forall (call_ok b) cs -> bf_trace b cs = arr_trace n W a cs.
Proof.
  induction cs as [|c cs IH]; intros b a HR Hc; [reflexivity|].
  inversion Hc as [|x l H1 H2]; subst. destruct (call_sim c HR H1) as [Eo HR'].
  assert (G := call_geometry b c).
  cbn. destruct (bf_call b c) as [b' o1], (arr_call n W a c) as [a' o2]. cbn in *. subst o2.
  f_equal. apply IH; [exact HR'|]. eapply Forall_impl; [|exact H2].
  intros c'. destruct c' as [o| | |]; try exact (fun x => x).
  destruct o as [| |[]|[]]; try (exact (fun x => x)); apply op_fits_geometry; exact G.
Qed.

Lemma C19_array_of_bits_pf : forall b cs a,
  wf b -> bf_order b = MSB_LEFT -> fits (bf_width b) (bf_value b) ->
  (forall k, 0 <= k < bf_width b -> a k = Z.odd (bf_value b / 2 ^ k)) ->
  Forall (call_ok b) cs ->
  bf_trace b cs = arr_trace (bf_numbering b) (bf_width b) a cs.
Proof.
  intros b cs a Hwf O Hv Ha Hc. apply trace_sim; [|exact Hc].
  repeat split; try assumption; try apply Hwf; try apply Hv.
  intros k Hk. rewrite Ha by exact Hk. apply bit_at_odd. lia.
Qed.
(*@
Example C19_example :
  let b := mkbf 8 255 154 MSB_1 MSB_LEFT in
  let cs := [Write (OpItem (Slice (Some 1) (Some 4)) 5); ReadItem (Slice (Some 3) (Some 6));
             Write (OpSet (Some 8)); ReadValue; ReadItem (Idx 9); Write (OpItem (Slice (Some 4) (Some 2)) 1);
             ReadBit 1 0] in
  wf b /\ fits 8 154 /\ Forall (call_ok b) cs /\
  bf_trace b cs = [Some 0; Some 6; Some 0; Some 91; None; None; Some 1].
Proof.
  cbv zeta. split; [|split; [|split; [|vm_compute; reflexivity]]].
  - split; [cbn; lia|reflexivity].
  - unfold fits. lia.
  - repeat constructor; cbn; try lia; unfold valid_range, range_size, fits; cbn; lia.
Qed.
@*)
