(** Assignments of numbers that do not fit, bit by bit: C02, C07, C08, C12, C23. *)
From Verif Require Import Py MBitField SBits LBits LBitField MWord SWord LWord SMisfit.
#[local] Arguments Z.add : simpl never.
#[local] Arguments Z.sub : simpl never.
#[local] Arguments Z.mul : simpl never.
#[local] Arguments Z.pow : simpl never.

Lemma moved_testbit v lo k : 0 <= lo -> 0 <= k -> moved_bit v lo k = Z.b2z (Z.testbit (Z.shiftl v lo) k).
Proof.
  intros L K. unfold moved_bit. rewrite Z.shiftl_spec by lia. destruct (Z.ltb_spec k lo); [rewrite Z.testbit_neg_r by lia; reflexivity|apply bit_at_testbit; lia].
Qed.
Lemma b2z_or a b : Z.b2z (a || b) = Z.max (Z.b2z a) (Z.b2z b).
Proof. destruct a, b; reflexivity. Qed.
Lemma merged_msb v W lo n x : 0 <= lo -> 0 <= n -> lo + n <= W ->
  bits_merged v (Z.lor (Z.land v ((2 ^ W - 1) - Z.shiftl (2 ^ n - 1) lo)) (Z.shiftl x lo)) W lo n x lo.
Proof.
  intros L N HW k K. rewrite mask_sub by lia. rewrite bit_at_testbit, moved_testbit, Z.lor_spec, b2z_or by lia. f_equal.
  rewrite Z.land_spec, Z.ldiff_spec, (testbit_ones W k), Z.shiftl_spec by lia. unfold kept_bit.
  destruct (Z.ltb_spec k W) as [KW|KW].
  - rewrite bit_at_testbit by lia. destruct (Z.leb_spec lo k); cbn [andb].
    + rewrite testbit_ones by lia. destruct (Z.ltb_spec k (lo + n)), (Z.ltb_spec (k - lo) n), (Z.ltb_spec n 0); lia.
    + rewrite (Z.testbit_neg_r _ (k - lo)) by lia. cbn [orb andb negb]. rewrite andb_true_r. reflexivity.
  - destruct (Z.ltb_spec W 0); [lia|]. cbn [orb andb negb]. rewrite andb_false_r. destruct ((lo <=? k) && (k <? lo + n)); reflexivity.
Qed.
(** a mask that begins below [W]; above [W] nothing is there to keep *)
Lemma cleared v W hi n k : 0 <= hi -> hi < W -> 0 <= n -> fits W v -> 0 <= k ->
  Z.testbit (Z.land v ((2 ^ W - 1) - Z.shiftl (2 ^ n - 1) hi)) k = negb ((hi <=? k) && (k <? hi + n)) && Z.testbit v k.
Proof.
  intros H HW N F K. rewrite Z.land_spec. destruct (Z.ltb_spec k W) as [KW|KW].
  2:{ rewrite (testbit_high W v k) by (assumption || lia). rewrite andb_false_r. reflexivity. }
  rewrite andb_comm. f_equal. rewrite <- (Z.mod_pow2_bits_low _ W k) by lia.
  destruct (Z.le_gt_cases (hi + n) W) as [S|S].
  - rewrite Z.mod_pow2_bits_low by lia. rewrite mask_sub by lia. rewrite Z.ldiff_spec, (testbit_ones W k), Z.shiftl_spec by lia.
    destruct (Z.ltb_spec k W); [|lia]. cbn [orb andb]. f_equal.
    destruct (Z.leb_spec hi k); [|rewrite Z.testbit_neg_r by lia; reflexivity]. rewrite testbit_ones by lia.
    destruct (Z.ltb_spec (k - hi) n), (Z.ltb_spec k (hi + n)), (Z.ltb_spec n 0); try lia; reflexivity.
  - (* the mask sticks out: the same as the mask of W - hi bits *)
    replace ((2 ^ W - 1 - Z.shiftl (2 ^ n - 1) hi) mod 2 ^ W) with (2 ^ W - 1 - Z.shiftl (2 ^ (W - hi) - 1) hi).
    + rewrite mask_sub by lia. rewrite Z.ldiff_spec, (testbit_ones W k), Z.shiftl_spec by lia.
      destruct (Z.ltb_spec k W); [|lia]. cbn [orb andb]. f_equal.
      destruct (Z.leb_spec hi k); [|rewrite Z.testbit_neg_r by lia; reflexivity]. rewrite testbit_ones by lia.
      destruct (Z.ltb_spec (k - hi) (W - hi)), (Z.ltb_spec k (hi + n)), (Z.ltb_spec (W - hi) 0); try lia; reflexivity.
    + rewrite !Z.shiftl_mul_pow2 by lia.
      assert (E1 : 2 ^ (W - hi) * 2 ^ hi = 2 ^ W) by (rewrite <- Z.pow_add_r by lia; f_equal; lia).
      assert (E2 : 2 ^ n * 2 ^ hi = 2 ^ (hi + n - W) * 2 ^ W) by (rewrite <- !Z.pow_add_r by lia; f_equal; lia).
      assert (P : 0 < 2 ^ hi) by (apply Z.pow_pos_nonneg; lia).
      assert (Q : 2 ^ hi < 2 ^ W) by (apply Z.pow_lt_mono_r; lia).
      apply Z.mod_unique with (1 - 2 ^ (hi + n - W)); [left; nia|]. nia.
Qed.
Lemma merged_lsb v W lo hi n x : 0 <= lo -> 0 <= hi -> hi < W -> 0 <= n -> fits W v ->
  bits_merged v (Z.lor (Z.land v ((2 ^ W - 1) - Z.shiftl (2 ^ n - 1) hi)) (Z.shiftl x lo)) W hi n x lo.
Proof.
  intros L H HW N F k K. rewrite bit_at_testbit, moved_testbit, Z.lor_spec, b2z_or by lia. f_equal. rewrite cleared by assumption.
  unfold kept_bit. destruct ((hi <=? k) && (k <? hi + n)); [reflexivity|]. cbn [negb andb].
  destruct (Z.ltb_spec k W); [symmetry; apply bit_at_testbit; lia|rewrite (testbit_high W v k) by (assumption || lia); reflexivity].
Qed.

(** C02 *)
Lemma C02_constructor_exact_pf : forall value width numbering order, 0 <= width ->
  ((exists b, bf_new value width numbering order = Ok b) <-> width <= 64 /\ 0 <= numbering <= 3 /\ 0 <= order <= 1 /\ value <= 2 ^ width - 1) /\
  (forall b, bf_new value width numbering order = Ok b -> bf_value b = value).
Proof.
  intros value width numbering order W. unfold bf_new. destruct (Z.gtb_spec width 64) as [A|A]; [split; [split; [intros (b & H); discriminate|lia]|discriminate]|].
  destruct (Z.gtb_spec value (2 ^ width - 1)) as [B|B]; [split; [split; [intros (b & H); discriminate|lia]|discriminate]|].
  assert (S : scheme_of numbering <> None <-> 0 <= numbering <= 3).
  { unfold scheme_of. repeat match goal with |- context [?a =? ?b] => destruct (Z.eqb_spec a b) end; split; intros; try discriminate; try lia; try congruence. }
  assert (O : order_of order <> None <-> 0 <= order <= 1).
  { unfold order_of. repeat match goal with |- context [?a =? ?b] => destruct (Z.eqb_spec a b) end; split; intros; try discriminate; try lia; try congruence. }
  destruct (scheme_of numbering) as [n|], (order_of order) as [o|].
  - split; [|intros b H; injection H as <-; reflexivity]. split; [intros _|eauto]. split; [lia|]. split; [apply S; discriminate|]. split; [apply O; discriminate|lia].
  - split; [|discriminate]. split; [intros (b & H); discriminate|]. intros (_ & _ & H & _). apply O in H. contradiction.
  - split; [|discriminate]. split; [intros (b & H); discriminate|]. intros (_ & H & _). apply S in H. contradiction.
  - split; [|discriminate]. split; [intros (b & H); discriminate|]. intros (_ & H & _). apply S in H. contradiction.
Qed.
(*@ Example C02_constructor_exact_ex : bf_new 255 8 0 0 = Ok (mkbf 8 255 255 LSB_0 MSB_LEFT) /\ bf_new 256 8 0 0 = Err ValueError /\
  bf_new (-300) 8 0 0 = Ok (mkbf 8 255 (-300) LSB_0 MSB_LEFT) /\ bf_new 0 65 0 0 = Err ValueError.
Proof. vm_compute. auto. Qed. @*)

(** C07 *)
Lemma C07_slice_write_lsb_left_exact_pf : forall b s e x, bf_order b = LSB_LEFT -> wf b -> fits (bf_width b) (bf_value b) ->
  valid_range (bf_order b) (bf_numbering b) (bf_width b) s e ->
  let lo := weight (bf_numbering b) (bf_width b) s in
  let hi := weight (bf_numbering b) (bf_width b) e in
  let n := hi - lo + 1 in
  1 < n < bf_width b -> x <= 2 ^ n ->
  exists v', bf_setitem b (Slice (Some s) (Some e)) x = (with_value b v', Ok tt) /\
    bits_merged (bf_value b) v' (bf_width b) hi n x lo.
Proof.
  intros b s e x O Hwf Hv H lo hi n Hn Hx.
  assert (El : range_lo (bf_numbering b) (bf_width b) s e = lo) by (destruct H as (_ & _ & H); rewrite O in H; unfold range_lo; lia).
  assert (En : range_size (bf_numbering b) (bf_width b) s e = n) by (destruct H as (_ & _ & H); rewrite O in H; unfold range_size; lia).
  assert (M : mask_shift b s e = hi) by (unfold mask_shift; rewrite En; destruct (Z.eqb_spec n (bf_width b)); lia).
  rewrite (@setitem_slice_raw b s e x Hwf H) by (rewrite En; lia). rewrite En, El, M. eexists. split; [reflexivity|].
  destruct H as (Hs & He & _). rewrite valid_weight in Hs, He. fold lo in Hs. fold hi in He. apply merged_lsb; (lia || assumption).
Qed.
(*@ Example C07_slice_write_lsb_left_exact_ex : let b := mkbf 8 255 255 LSB_0 LSB_LEFT in
  bf_value (fst (bf_setitem b (Slice (Some 1) (Some 4)) 0)) = 15 /\ bf_value (fst (bf_setitem b (Slice (Some 4) (Some 7)) 5)) = 127 /\
  bf_value (fst (bf_setitem (mkbf 8 255 0 LSB_0 LSB_LEFT) (Slice (Some 1) (Some 4)) 9)) = 18.
Proof. vm_compute. auto. Qed. @*)

(** C08 *)
Lemma C08_slice_exact_pf : forall b s e x, wf b -> valid_range (bf_order b) (bf_numbering b) (bf_width b) s e ->
  let n := range_size (bf_numbering b) (bf_width b) s e in
  let lo := range_lo (bf_numbering b) (bf_width b) s e in
  bf_order b = MSB_LEFT \/ n = 1 \/ n = bf_width b ->
  (2 ^ n < x -> bf_setitem b (Slice (Some s) (Some e)) x = (b, Err ValueError)) /\
  (x <= 2 ^ n -> exists v', bf_setitem b (Slice (Some s) (Some e)) x = (with_value b v', Ok tt) /\
    bits_merged (bf_value b) v' (bf_width b) lo n x lo).
Proof.
  intros b s e x Hwf H n lo D. split; [intros X; apply setitem_slice_big; assumption|]. intros X.
  assert (M : mask_shift b s e = lo) by (destruct D as [D|D]; [apply mask_shift_msb; assumption|apply mask_shift_edge; assumption]).
  rewrite (@setitem_slice_raw b s e x Hwf H X). rewrite M. fold n lo. eexists. split; [reflexivity|].
  destruct (range_facts H) as (H1 & H2 & H3 & _). fold n lo in H1, H2, H3. apply merged_msb; lia.
Qed.
(*@ Example C08_slice_exact_ex : let b := mkbf 8 255 1 MSB_1 MSB_LEFT in
  bf_value (fst (bf_setitem b (Slice (Some 5) (Some 7)) 8)) = 17 /\ bf_value (fst (bf_setitem b (Slice (Some 5) (Some 7)) (-3))) = -5 /\
  bits_merged 1 17 8 1 3 8 1 /\ bits_merged 1 (-5) 8 1 3 (-3) 1 /\ snd (bf_setitem b (Slice (Some 5) (Some 7)) 9) = Err ValueError.
Proof.
  cbv zeta. split; [vm_compute; reflexivity|]. split; [vm_compute; reflexivity|].
  assert (V : valid_range MSB_LEFT MSB_1 8 5 7) by (vm_compute; intuition discriminate).
  assert (W : wf (mkbf 8 255 1 MSB_1 MSB_LEFT)) by (vm_compute; intuition discriminate).
  split; [|split; [|vm_compute; reflexivity]].
  - destruct (proj2 (C08_slice_exact (mkbf 8 255 1 MSB_1 MSB_LEFT) 5 7 8 W V (or_introl eq_refl)) ltac:(vm_compute; discriminate)) as (v' & E & M).
    replace 17 with v'; [exact M|]. vm_compute in E. injection E as <-. reflexivity.
  - destruct (proj2 (C08_slice_exact (mkbf 8 255 1 MSB_1 MSB_LEFT) 5 7 (-3) W V (or_introl eq_refl)) ltac:(vm_compute; discriminate)) as (v' & E & M).
    replace (-5) with v'; [exact M|]. vm_compute in E. injection E as <-. reflexivity.
Qed. @*)
Lemma C08_bit_exact_pf : forall b i x, wf b -> valid_index (bf_numbering b) (bf_width b) i ->
  let w := weight (bf_numbering b) (bf_width b) i in
  (2 < x -> bf_setitem b (Idx i) x = (b, Err ValueError)) /\
  (x <= 2 -> exists v', bf_setitem b (Idx i) x = (with_value b v', Ok tt) /\
    bit_at v' w = (if x =? 1 then 1 else 0) /\
    forall k, 0 <= k -> k <> w -> bit_at v' k = if x =? 1 then bit_at (bf_value b) k else kept_bit (bf_value b) (bf_width b) k).
Proof.
  intros b i x Hwf H w. split; [intros X; apply setitem_bit_big; assumption|]. intros X. rewrite setitem_bit_raw by assumption.
  eexists. split; [reflexivity|]. cbv zeta. fold w. rewrite valid_weight in H. fold w in H. destruct (Z.eqb_spec x 1) as [->|NX].
  - split; [|intros k K NK]; rewrite bit_at_testbit by lia; rewrite testbit_setbit by lia; [rewrite Z.eqb_refl; reflexivity|].
    destruct (Z.eqb_spec k w); [lia|]. symmetry. apply bit_at_testbit. lia.
  - pose proof (merged_msb (bf_value b) (bf_width b) w 1 0 ltac:(lia) ltac:(lia) ltac:(lia)) as M. rewrite Z.shiftl_0_l, Z.lor_0_r in M. change (2 ^ 1 - 1) with 1 in M.
    split; [|intros k K NK].
    + rewrite (M w ltac:(lia)). destruct (Z.leb_spec w w), (Z.ltb_spec w (w + 1)); try lia. cbn [andb]. unfold moved_bit. destruct (w <? w); [reflexivity|]. rewrite Z.sub_diag. reflexivity.
    + rewrite (M k K). destruct (Z.leb_spec w k), (Z.ltb_spec k (w + 1)); try lia; cbn [andb]; rewrite moved_testbit, Z.shiftl_0_l, Z.bits_0 by lia; cbn [Z.b2z]; unfold kept_bit;
        destruct (k <? bf_width b); try reflexivity; rewrite bit_at_testbit by lia; destruct (Z.testbit _ _); reflexivity.
Qed.
(*@ Example C08_bit_exact_ex : let b := mkbf 8 255 (-1) LSB_0 MSB_LEFT in
  bf_value (fst (bf_setitem b (Idx 3) 2)) = 247 /\ bf_value (fst (bf_setitem b (Idx 3) (-7))) = 247 /\ bf_value (fst (bf_setitem b (Idx 3) 1)) = -1 /\
  bf_setitem b (Idx 3) 3 = (b, Err ValueError).
Proof. vm_compute. auto. Qed. @*)

(** C12 *)
Lemma C12_index0_exact_pf : forall b, bf_set b (Some 0) = (with_value b (bf_maxval b), Ok tt) /\ bf_clear b (Some 0) = (with_value b 0, Ok tt).
Proof. intros b. split; reflexivity. Qed.
(*@ Example C12_index0_exact_ex : let b := mkbf 8 255 6 LSB_0 MSB_LEFT in
  bf_value (fst (bf_set b (Some 0))) = 255 /\ bf_value (fst (bf_clear b (Some 0))) = 0.
Proof. vm_compute. auto. Qed. @*)

(** C23 *)
Lemma geometry_trans p q r : same_geometry p q -> same_geometry q r -> same_geometry p r.
Proof. intros (A1 & A2 & A3 & A4) (B1 & B2 & B3 & B4). unfold same_geometry. rewrite B1, B2, B3, B4. auto. Qed.
Lemma reach_geometry w : (exists c a b c' w0 ops, iw_new c a b c' = Ok w0 /\ w = iw_run w0 ops) -> same_geometry (wbits 0) (iw_data w).
Proof.
  intros (x & a & b & c & w0 & ops & E & ->).
  assert (G : same_geometry (wbits 0) (iw_data w0)).
  { unfold iw_new in E. rewrite word_new_ok in E by lia. cbn [bind] in E.
    assert (S : forall w1 w2 g y, iw_init_field w1 g y = Ok w2 -> same_geometry (iw_data w1) (iw_data w2)).
    { intros w1 w2 g y H. unfold iw_init_field in H. assert (SG := step_geometry (iw_data w1) (OpItem (field_key g) y)). cbn [bf_step] in SG.
      destruct (bf_setitem (iw_data w1) (field_key g) y) as [d r]. destruct r; [|discriminate]. injection H as <-. destruct w1, g; exact SG. }
    destruct (iw_init_field (mkiword (wbits 0) 0 0 0 0) Command x) as [w1|] eqn:E1; [|discriminate].
    cbn [bind] in E. destruct (iw_init_field w1 FA a) as [w2|] eqn:E2; [|discriminate].
    cbn [bind] in E. destruct (iw_init_field w2 FB b) as [w3|] eqn:E3; [|discriminate].
    cbn [bind] in E. apply S in E1, E2, E3, E. exact (geometry_trans _ _ _ E1 (geometry_trans _ _ _ E2 (geometry_trans _ _ _ E3 E))). }
  clear E. revert w0 G. induction ops as [|o ops IH]; intros w0 G; [exact G|]. apply IH. apply (geometry_trans _ _ _ G). clear.
  destruct w0 as [d x a b c], o as [f v|v]; cbn [iw_step].
  - unfold iw_set. destruct (shadow_form d x a b c f v) as (x' & a' & b' & c' & ->). cbn [iw_data].
    assert (SG := step_geometry d (OpItem (field_key f) v)). cbn [bf_step] in SG. destruct (bf_setitem d (field_key f) v). exact SG.
  - unfold iw_set_value, word_set_value. cbn [iw_data]. assert (SG := step_geometry d (OpValue v)). cbn [bf_step] in SG.
    destruct (word_check v); [|repeat split]. destruct (bf_set_value d v). exact SG.
Qed.
Lemma C23_set_exact_pf : forall w f x, (exists c a b c' w0 ops, iw_new c a b c' = Ok w0 /\ w = iw_run w0 ops) -> x <= 4096 ->
  snd (iw_set w f x) = Ok tt /\
  bits_merged (iw_value w) (iw_value (fst (iw_set w f x))) 48 (field_place f) 12 x (field_place f).
Proof.
  intros w f x R X. pose proof (reach_geometry w R) as G. destruct w as [d x' a' b' c']. unfold iw_set, iw_value. cbn [iw_data] in *.
  destruct (shadow_form d x' a' b' c' f x) as (x1 & a1 & b1 & c1 & ->). cbn [iw_data].
  destruct G as (G1 & G2 & G3 & G4). cbn in G1, G2, G3, G4. assert (D : exists v, d = wbits v).
  { destruct d as [W m v nb o]. exists v. unfold wbits. cbn in G1, G2, G3, G4. rewrite G1, G2, G3, G4. reflexivity. }
  clear G1 G2 G3 G4. destruct D as (v & ->).
  assert (S : exists s e, field_key f = Slice (Some s) (Some e) /\ 1 <= s /\ e = s + 11 /\ e <= 48 /\ field_place f = 48 - e).
  { destruct f; cbn [field_key field_place]; do 2 eexists; (split; [reflexivity|lia]). }
  destruct S as (s & e & -> & S1 & S2 & S3 & ->).
  assert (VR : vrange (wbits v) s e) by (unfold vrange, valid_range, valid_index, weight, wbits; cbn [bf_order bf_numbering bf_width]; lia).
  destruct (wrange v s e ltac:(lia)) as [RS RL]. replace (e - s + 1) with 12 in RS by lia.
  destruct (proj2 (C08_slice_exact_pf (wbits v) s e x (wbits_wf v) VR (or_introl eq_refl)) ltac:(rewrite RS; exact X)) as (v' & E & M).
  rewrite E. split; [reflexivity|]. rewrite RS, RL in M. exact M.
Qed.
(*@ Example C23_set_exact_ex : exists w, iw_new 0 1 2 3 = Ok w /\ iw_value (fst (iw_set w FB 4096)) = 2 ^ 24 + 3 /\
  iw_value (fst (iw_set w FB (-1))) = 3 - 4096 /\ iw_value (fst (iw_set w Command 4096)) = 2 ^ 48 + 2 ^ 24 + 2 * 4096 + 3.
Proof. eexists. split; [vm_compute; reflexivity|]. vm_compute. auto. Qed. @*)
