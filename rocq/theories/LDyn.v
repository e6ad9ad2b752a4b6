(** Calls with arguments of any type. *)
From Verif Require Import Py MBitField MDyn SDyn.
Open Scope Z_scope.

Lemma vlt_int x y : vlt (VI x) (VI y) = TOk (x <? y).
Proof. reflexivity. Qed.
Lemma vgt_int x y : vgt (VI x) (VI y) = TOk (x >? y).
Proof. reflexivity. Qed.
Lemma vge_int x y : vge (VI x) (VI y) = TOk (x >=? y).
Proof. unfold vge, vcmp, tbind, Z.geb. now destruct (x ?= y). Qed.
Lemma vsame_int x y : vsame (VI x) (VI y) = (x =? y).
Proof.
  unfold vsame, vcmp. destruct (Z.compare_spec x y); symmetry;
    [apply Z.eqb_eq; assumption | apply Z.eqb_neq; lia | apply Z.eqb_neq; lia].
Qed.
Lemma veq_int x y : veq (VI x) y = (x =? y).
Proof. apply vsame_int. Qed.

Lemma trindex_int A b i : trindex A (of_bf b) (VI i) = TOk (VI (rindex b i)).
Proof. unfold trindex, rindex, of_bf; cbn. destruct (bf_order b), (bf_numbering b); reflexivity. Qed.
Lemma tshift_int A b i : tshift A (of_bf b) (VI i) = TOk (VI (shift b i)).
Proof. unfold tshift, shift, of_bf; cbn. destruct (bf_order b); reflexivity. Qed.
Lemma tlsb_int b s e : tlsbIndex (of_bf b) (VI s) (VI e) = TOk (VI (lsbIndex b s e)).
Proof.
  unfold tlsbIndex, lsbIndex, of_bf; cbn [tf_order]. destruct (bf_order b); unfold vmax, vmin;
    rewrite ?vgt_int, ?vlt_int; cbn [tbind].
  - destruct (Z.gtb_spec e s); f_equal; f_equal; lia.
  - destruct (Z.ltb_spec e s); f_equal; f_equal; lia.
Qed.
Lemma tcheckIndex_int A b i :
  tcheckIndex A (of_bf b) (of_opt i) = of_res (fun _ => tt) (checkIndex b i).
Proof.
  destruct i as [i|]; cbn [of_opt].
  - unfold tcheckIndex, checkIndex. rewrite trindex_int. cbn [tbind]. rewrite vlt_int. cbn [tbind].
    destruct (rindex b i <? 0); [reflexivity|]. cbn [of_bf tf_width]. rewrite vge_int; cbn [tbind orb].
    destruct (rindex b i >=? bf_width b); reflexivity.
  - unfold tcheckIndex, trindex, checkIndex, of_bf; cbn.
    destruct (bf_order b), (bf_numbering b); reflexivity.
Qed.
Lemma checkIndex_val b i v : checkIndex b i = Ok v -> i = Some v.
Proof. destruct i as [i|]; cbn; [|discriminate]. destruct (_ || _); congruence. Qed.
Lemma tcheckRange_int A b s e :
  tcheckRange A (of_bf b) (of_opt s) (of_opt e) = of_res (fun _ => tt) (checkRange b s e).
Proof.
  unfold tcheckRange, checkRange. rewrite !tcheckIndex_int.
  destruct (checkIndex b s) as [s'|] eqn:Hs; cbn [of_res tbind bind]; [|reflexivity].
  destruct (checkIndex b e) as [e'|] eqn:He; cbn [of_res tbind bind]; [|reflexivity].
  apply checkIndex_val in Hs, He; subst. cbn [of_opt of_bf tf_order tf_numbering].
  destruct (bf_order b), (bf_numbering b); rewrite ?vlt_int, ?vgt_int; cbn [tbind];
    match goal with |- context [if ?c then _ else _] => destruct c end; reflexivity.
Qed.
Lemma checkRange_val b s e p : checkRange b s e = Ok p -> s = Some (fst p) /\ e = Some (snd p).
Proof.
  unfold checkRange.
  destruct (checkIndex b s) as [s'|] eqn:Hs; cbn [bind]; [|discriminate].
  destruct (checkIndex b e) as [e'|] eqn:He; cbn [bind]; [|discriminate].
  apply checkIndex_val in Hs, He; subst.
  destruct (bf_order b), (bf_numbering b);
    match goal with |- context [if ?c then _ else _] => destruct c end;
    intros [= <-]; auto.
Qed.
Lemma tgetRange_int A b s e :
  tgetRange A (of_bf b) (of_opt s) (of_opt e)
  = of_res (fun p => (VI (fst p), VI (snd p))) (getRange b s e).
Proof.
  unfold tgetRange, getRange. rewrite tcheckRange_int.
  destruct (checkRange b s e) as [[s' e']|] eqn:H; cbn [of_res tbind bind]; [|reflexivity].
  apply checkRange_val in H as [-> ->]. cbn [of_opt fst snd]. rewrite !trindex_int. reflexivity.
Qed.
Lemma tcheckValue_int A b v w :
  tcheckValue A (of_bf b) (VI v) (VI w) = of_res (fun x => x) (checkValue b v w).
Proof.
  unfold tcheckValue, checkValue. rewrite vlt_int; cbn [tbind].
  destruct (w <? 0) eqn:E; [reflexivity|]. cbn [of_bf tf_maxval tf_width]. rewrite vgt_int; cbn [tbind orb].
  destruct (w >? bf_maxval b); [reflexivity|]. cbn [vpow2]. rewrite E; cbn [tbind].
  rewrite vgt_int; cbn [tbind]. destruct (v >? 2 ^ w); reflexivity.
Qed.
Lemma getRange_dup b s e : getRange b s e = do _ <- checkRange b s e; getRange b s e.
Proof. unfold getRange. destruct (checkRange b s e) as [[]|]; reflexivity. Qed.
Lemma tbitmask_int A b s e :
  tbitmask A (of_bf b) (of_opt s) (of_opt e) = of_res VI (bitmask b s e).
Proof.
  unfold tbitmask, bitmask. rewrite tcheckRange_int, tgetRange_int.
  unfold getRange. destruct (checkRange b s e) as [[s' e']|] eqn:H; cbn [of_res tbind bind fst snd]; [|reflexivity].
  cbn [trange_width vsub vadd arith tbind of_bf tf_width]. rewrite vsame_int.
  set (w := rindex b e' - rindex b s' + 1).
  destruct (w =? bf_width b).
  - cbn [tbind vpow2]. destruct (w <? 0); cbn; [reflexivity|].
    destruct (py_shl (2 ^ w - 1) 0); reflexivity.
  - fold (of_bf b). rewrite tshift_int. cbn [tbind vpow2]. destruct (w <? 0); cbn [tbind vsub arith vshl bitop]; [reflexivity|].
    destruct (py_shl (2 ^ w - 1) (shift b (rindex b e'))); reflexivity.
Qed.
Lemma tgetitem_int A b k : tf_getitem A (of_bf b) (of_key k) = of_res VI (bf_getitem b k).
Proof.
  destruct k as [i|s e]; cbn [of_key tf_getitem bf_getitem].
  - change (VI i) with (of_opt (Some i)). rewrite tcheckIndex_int; cbn [of_opt].
    destruct (checkIndex b (Some i)); cbn [of_res tbind bind]; [|reflexivity].
    rewrite trindex_int; cbn [tbind]; rewrite tshift_int; cbn [tbind of_bf tf_value vshr bitop].
    destruct (py_shr (bf_value b) (shift b (rindex b i))); reflexivity.
  - rewrite tcheckRange_int, tgetRange_int, tbitmask_int.
    unfold getRange. destruct (checkRange b s e) as [[s' e']|] eqn:H; cbn [of_res tbind bind fst snd]; [|reflexivity].
    destruct (bitmask b s e) as [m|]; cbn [of_res tbind bind]; [|reflexivity].
    rewrite tlsb_int; cbn [tbind]; rewrite tshift_int; cbn [tbind of_bf tf_value vand vshr bitop lift].
    match goal with |- context [py_shr ?x ?y] => destruct (py_shr x y) end; reflexivity.
Qed.
Lemma tsetitem_value_int A b k v :
  tf_setitem_value A (of_bf b) (of_key k) (VI v) = of_res VI (bf_setitem_value b k v).
Proof.
  destruct k as [i|s e]; cbn [of_key tf_setitem_value bf_setitem_value].
  - change (VI i) with (of_opt (Some i)) at 1. rewrite tcheckIndex_int; cbn [of_opt].
    destruct (checkIndex b (Some i)); cbn [of_res tbind bind]; [|reflexivity].
    rewrite tcheckValue_int. destruct (checkValue b v 1); cbn [of_res tbind bind]; [|reflexivity].
    rewrite trindex_int; cbn [tbind]; rewrite tshift_int; cbn [tbind vshl bitop].
    set (sh := shift b (rindex b i)). rewrite veq_int.
    destruct (py_shl 1 sh) as [o|] eqn:E1; cbn [lift tbind bind]; [|reflexivity].
    destruct (v =? 1).
    + destruct (py_shl v sh); reflexivity.
    + reflexivity.
  - rewrite tcheckRange_int, tgetRange_int.
    unfold getRange. destruct (checkRange b s e) as [[s' e']|] eqn:H; cbn [of_res tbind bind fst snd]; [|reflexivity].
    cbn [trange_width vsub vadd arith tbind]. rewrite tcheckValue_int.
    destruct (checkValue b v _); cbn [of_res tbind bind]; [|reflexivity].
    rewrite tbitmask_int. destruct (bitmask b s e) as [m|]; cbn [of_res tbind bind]; [|reflexivity].
    rewrite tlsb_int; cbn [tbind]; rewrite tshift_int; cbn [tbind of_bf tf_value tf_maxval vand vshl bitop lift vsub arith].
    match goal with |- context [py_shl ?x ?y] => destruct (py_shl x y) end; reflexivity.
Qed.
Lemma tsetitem_int A b k v : tf_setitem A (of_bf b) (of_key k) (VI v) = of_out (bf_setitem b k v).
Proof.
  unfold tf_setitem, bf_setitem. rewrite tsetitem_value_int.
  destruct (bf_setitem_value b k v); reflexivity.
Qed.
Lemma tset_value_int A b v : tf_set_value A (of_bf b) (VI v) = of_out (bf_set_value b v).
Proof.
  unfold tf_set_value, bf_set_value. cbn [of_bf tf_width]. fold (of_bf b). rewrite tcheckValue_int.
  destruct (checkValue b v (bf_width b)); reflexivity.
Qed.
Lemma tset_int A b i : tf_set A (of_bf b) (of_opt i) = of_out (bf_set b i).
Proof.
  destruct i as [i|]; [|reflexivity]. unfold tf_set, bf_set. cbn [of_opt truth].
  destruct (i =? 0); [reflexivity|]. cbn [negb].
  change (VI i) with (of_opt (Some i)) at 1. rewrite tcheckIndex_int.
  destruct (checkIndex b (Some i)); cbn [of_res]; [|reflexivity].
  apply (tsetitem_int A b (Idx i) 1).
Qed.
Lemma tclear_int A b i : tf_clear A (of_bf b) (of_opt i) = of_out (bf_clear b i).
Proof.
  destruct i as [i|]; [|reflexivity]. unfold tf_clear, bf_clear. cbn [of_opt truth].
  destruct (i =? 0); [reflexivity|]. cbn [negb].
  change (VI i) with (of_opt (Some i)) at 1. rewrite tcheckIndex_int.
  destruct (checkIndex b (Some i)); cbn [of_res]; [|reflexivity].
  apply (tsetitem_int A b (Idx i) 0).
Qed.
Lemma tstep_int A b o : tf_step A (of_bf b) (of_op o) = of_out (bf_step b o).
Proof.
  destruct o; cbn [tf_step of_op bf_step].
  - apply tsetitem_int.
  - apply tset_value_int.
  - apply tset_int.
  - apply tclear_int.
Qed.
Lemma vscheme_int n : vscheme (VI n) = scheme_of n.
Proof. unfold vscheme, scheme_of. now rewrite !veq_int. Qed.
Lemma vorder_int n : vorder (VI n) = order_of n.
Proof. unfold vorder, order_of. now rewrite !veq_int. Qed.
Lemma tnew_int A v w n o : 0 <= w ->
  tf_new A (VI v) (VI w) (VI n) (VI o) = of_res of_bf (bf_new v w n o).
Proof.
  intros Hw. unfold tf_new, bf_new. rewrite vgt_int; cbn [tbind].
  destruct (w >? 64); [reflexivity|]. cbn [vpow2]. destruct (Z.ltb_spec w 0); [lia|].
  cbn [tbind vsub arith]. rewrite vgt_int; cbn [tbind]. destruct (v >? 2 ^ w - 1); [reflexivity|].
  rewrite vscheme_int, vorder_int. destruct (scheme_of n); [|reflexivity].
  destruct (order_of o); reflexivity.
Qed.
Lemma tisBit_int A b i v : tf_isBit A (of_bf b) (VI i) (VI v) = of_res (fun x => x) (bf_isBit b i v).
Proof.
  unfold tf_isBit, bf_isBit. change (VI i) with (of_opt (Some i)) at 1. rewrite tcheckIndex_int.
  destruct (checkIndex b (Some i)); cbn [of_res tbind bind]; [|reflexivity].
  change (TIdx (VI i)) with (of_key (Idx i)). rewrite (tgetitem_int A b (Idx i)). destruct (bf_getitem b (Idx i)); cbn [of_res tbind bind]; [|reflexivity].
  now rewrite vsame_int.
Qed.
Lemma tisRange_int A b s e v :
  tf_isRange A (of_bf b) (of_opt s) (of_opt e) (VI v) = of_res (fun x => x) (bf_isRange b s e v).
Proof.
  unfold tf_isRange, bf_isRange. rewrite tcheckRange_int.
  destruct (checkRange b s e) as [p|] eqn:H; cbn [of_res tbind bind]; [|reflexivity].
  rewrite !veq_int. destruct (negb ((v =? 0) || (v =? 1))); [reflexivity|].
  change (TSlice (of_opt s) (of_opt e)) with (of_key (Slice s e)). rewrite (tgetitem_int A b (Slice s e)).
  destruct (bf_getitem b (Slice s e)); cbn [of_res tbind bind]; [|reflexivity].
  rewrite tbitmask_int. destruct (bitmask b s e); cbn [of_res tbind bind]; [|reflexivity].
  destruct (v =? 0); cbn [of_res]; f_equal; [apply veq_int | apply vsame_int].
Qed.

(** With ints, every call does what [MBitField] says. *)
Lemma C199_ints_pf : forall A,
  (forall v w n o, 0 <= w ->
     tf_new A (VI v) (VI w) (VI n) (VI o) = of_res of_bf (bf_new v w n o)) /\
  (forall b k, tf_getitem A (of_bf b) (of_key k) = of_res VI (bf_getitem b k)) /\
  (forall b i v, tf_isBit A (of_bf b) (VI i) (VI v) = of_res (fun x => x) (bf_isBit b i v)) /\
  (forall b s e v, tf_isRange A (of_bf b) (of_opt s) (of_opt e) (VI v)
                   = of_res (fun x => x) (bf_isRange b s e v)) /\
  (forall b, tf_get_value (of_bf b) = TOk (bf_value b) /\ tf_int (of_bf b) = TOk (bf_value b)) /\
  (forall b o, tf_step A (of_bf b) (of_op o) = of_out (bf_step b o)) /\
  (forall b i, tf_isBitSet A (of_bf b) (VI i) = of_res (fun x => x) (bf_isBitSet b i) /\
               tf_isBitClr A (of_bf b) (VI i) = of_res (fun x => x) (bf_isBitClr b i)) /\
  (forall b s e, tf_isRangeSet A (of_bf b) (of_opt s) (of_opt e) = of_res (fun x => x) (bf_isRangeSet b s e) /\
                 tf_isRangeClr A (of_bf b) (of_opt s) (of_opt e) = of_res (fun x => x) (bf_isRangeClr b s e)).
Proof.
  intros A.
  repeat apply conj; intros.
  - now apply tnew_int.
  - apply tgetitem_int.
  - apply tisBit_int.
  - apply tisRange_int.
  - split; reflexivity.
  - apply tstep_int.
  - unfold tf_isBitClr, tf_isBitSet, bf_isBitClr, bf_isBitSet. rewrite tisBit_int.
    destruct (bf_isBit b i 1); split; reflexivity.
  - unfold tf_isRangeClr, tf_isRangeSet, bf_isRangeClr, bf_isRangeSet. rewrite tisRange_int.
    destruct (bf_isRange b s e 1); split; reflexivity.
Qed.

(** Arguments that are no ints *)
Lemma fails_type {A} : @fails A (TErr (PyExn TypeError)).
Proof. eexists; split; [reflexivity|now left]. Qed.
Lemma fails_value {A} : @fails A (TErr (PyExn ValueError)).
Proof. eexists; split; [reflexivity|now right]. Qed.
#[local] Hint Resolve fails_type fails_value : core.
Lemma fails_bind {A B} (r : tres A) (f : A -> tres B) : fails r -> fails (tbind r f).
Proof. intros [e [-> H]]. exists e. split; [reflexivity|exact H]. Qed.

Definition is_obj (v : val) : bool := match v with VO _ => true | _ => false end.
Lemma checkIndex_dyn A b w i : tf_width b = VI w ->
  fails (tcheckIndex A b i) \/
  (tcheckIndex A b i = TOk tt /\ is_obj i = false /\
   exists r, trindex A b i = TOk r /\ is_int r = is_int i /\ is_obj r = false).
Proof.
  intros Hw. unfold tcheckIndex, trindex. rewrite Hw.
  destruct i as [z|f|t]; destruct (tf_order b), (tf_numbering b);
    cbn [vadd vsub arith tbind vlt vge vcmp raise_d];
    repeat match goal with |- context [if ?c then _ else _] => destruct c end;
    cbn [tbind]; auto;
    try (right; repeat apply conj; try reflexivity; eexists; repeat apply conj; reflexivity);
    repeat match goal with |- context [match ?c with Some _ => _ | None => _ end] => destruct c as [[]|] end;
    cbn [tbind]; auto;
    try (right; repeat apply conj; try reflexivity; eexists; repeat apply conj; reflexivity).
Qed.
Lemma vcmp_num a b : is_obj a = false -> is_obj b = false -> exists c, vcmp a b = TOk c.
Proof. destruct a, b; cbn; try discriminate; eauto. Qed.
Lemma range_dyn A b w s e : tf_width b = VI w ->
  fails (tcheckRange A b s e) \/
  (tcheckRange A b s e = TOk tt /\
   exists rs re, trindex A b s = TOk rs /\ trindex A b e = TOk re /\
     is_obj rs = false /\ is_obj re = false /\ is_int rs = is_int s /\ is_int re = is_int e).
Proof.
  intros Hw. unfold tcheckRange.
  destruct (checkIndex_dyn A b w s Hw) as [F|[-> [Os [rs [Rs [Is Ors]]]]]]; [left; now apply fails_bind|].
  destruct (checkIndex_dyn A b w e Hw) as [F|[-> [Oe [re [Re [Ie Ore]]]]]];
    [left; cbn [tbind]; now apply fails_bind|].
  cbn [tbind]. destruct (vcmp_num s e Os Oe) as [c Hc].
  assert (H : exists g : bool, (match tf_order b, tf_numbering b with
              | MSB_LEFT, LSB_0 | MSB_LEFT, LSB_1 => vlt s e
              | MSB_LEFT, _ => vgt s e
              | LSB_LEFT, LSB_0 | LSB_LEFT, LSB_1 => vgt s e
              | LSB_LEFT, _ => vlt s e
              end) = TOk g).
  { unfold vlt, vgt. rewrite Hc. cbn [tbind]. destruct (tf_order b), (tf_numbering b); eauto. }
  destruct H as [g ->]. cbn [tbind]. destruct g; [now left; auto|right].
  split; [reflexivity|]. exists rs, re. auto 10.
Qed.
Lemma arith_num A fi ff a b : is_obj a = false -> is_obj b = false ->
  exists c, arith A fi ff a b = TOk c /\ is_obj c = false /\ is_int c = is_int a && is_int b.
Proof. destruct a, b; cbn; try discriminate; eexists; repeat apply conj; reflexivity. Qed.
Lemma shift_num A b w i : tf_width b = VI w -> is_obj i = false ->
  exists c, tshift A b i = TOk c /\ is_obj c = false /\ is_int c = is_int i.
Proof.
  intros Hw Hi. unfold tshift. rewrite Hw. destruct (tf_order b), i; cbn in *; try discriminate; eauto.
Qed.
Lemma bitmask_dyn A b w s e : tf_width b = VI w -> is_int s && is_int e = false ->
  fails (tbitmask A b s e).
Proof.
  intros Hw Hk. unfold tbitmask, tgetRange.
  destruct (range_dyn A b w s e Hw) as [F|[-> [rs [re [Hrs [Hre [O1 [O2 [I1 I2]]]]]]]]]; [now apply fails_bind|].
  cbn [tbind]. rewrite Hrs, Hre. cbn [tbind].
  unfold trange_width. destruct (arith_num A Z.sub (fa_sub A) re rs O2 O1) as [d [Hd [Od Id]]].
  unfold vsub at 1. rewrite Hd; cbn [tbind].
  destruct (arith_num A Z.add (fa_add A) d (VI 1) Od eq_refl) as [x [Hx [Ox Ix]]].
  unfold vadd. rewrite Hx; cbn [tbind].
  assert (is_int x = false) as Nx.
  { rewrite Ix, Id, I1, I2, andb_true_r, andb_comm. exact Hk. }
  destruct x as [|f|]; try discriminate. cbn [vpow2].
  assert (exists sh, (if vsame (VF f) (tf_width b) then TOk (VI 0) else tshift A b re) = TOk sh) as [sh ->].
  { destruct (vsame _ _); [eauto|]. destruct (shift_num A b w re Hw O2) as [c [-> _]]; eauto. }
  cbn. auto.
Qed.
Lemma getitem_dyn A b w k : tf_width b = VI w -> int_key k = false -> fails (tf_getitem A b k).
Proof.
  intros Hw Hk. destruct k as [i|s e]; cbn [int_key] in Hk; cbn [tf_getitem].
  - destruct (checkIndex_dyn A b w i Hw) as [F|[-> [Oi [r [Hr [Ir Or]]]]]]; [now apply fails_bind|].
    cbn [tbind]. rewrite Hr; cbn [tbind]. destruct (shift_num A b w r Hw Or) as [c [-> [Oc Ic]]]; cbn [tbind].
    rewrite Ir, Hk in Ic. destruct c; try discriminate. unfold vshr, bitop. destruct (tf_value b); cbn; auto.
  - unfold tgetRange at 1. pose proof (bitmask_dyn A b w s e Hw Hk) as HB.
    destruct (range_dyn A b w s e Hw) as [F|[-> [rs [re [Hrs [Hre _]]]]]]; [now apply fails_bind|].
    cbn [tbind]. rewrite Hrs, Hre. cbn [tbind]. now apply fails_bind.
Qed.
(** a field whose value is no int: every read fails *)
Lemma getitem_float A b w k : tf_width b = VI w -> is_int (tf_value b) = false -> fails (tf_getitem A b k).
Proof.
  intros Hw Hv. destruct (int_key k) eqn:Hk; [|now apply (getitem_dyn A b w)].
  destruct k as [i|s e]; cbn [tf_getitem].
  - destruct (checkIndex_dyn A b w i Hw) as [F|[-> [Oi [r [Hr [Ir Or]]]]]]; [now apply fails_bind|].
    cbn [tbind]. rewrite Hr; cbn [tbind]. destruct (shift_num A b w r Hw Or) as [c [-> [Oc Ic]]]; cbn [tbind].
    destruct (tf_value b); try discriminate; cbn; auto.
  - unfold tgetRange at 1.
    destruct (range_dyn A b w s e Hw) as [F|[HR [rs [re [Hrs [Hre [O1 [O2 [I1 I2]]]]]]]]]; [now apply fails_bind|].
    rewrite HR. cbn [tbind]. rewrite Hrs, Hre. cbn [tbind].
    destruct (tbitmask A b s e) as [m|x] eqn:HB.
    + cbn [tbind]. destruct rs as [rs|rs|rs], re as [re|re|re]; cbn [int_key] in Hk;
        rewrite <- I1, <- I2 in Hk; try discriminate.
      assert (exists l, tlsbIndex b (VI rs) (VI re) = TOk (VI l)) as [l ->].
      { unfold tlsbIndex, vmax, vmin. destruct (tf_order b); rewrite ?vgt_int, ?vlt_int; cbn [tbind];
          match goal with |- context [if ?c then _ else _] => destruct c end; eauto. }
      cbn [tbind]. destruct (shift_num A b w (VI l) Hw eq_refl) as [c [-> _]]. cbn [tbind].
      destruct (tf_value b); try discriminate; cbn; auto.
    + cbn [tbind]. exists x. split; [reflexivity|].
      unfold tbitmask, tgetRange in HB. rewrite HR in HB. cbn [tbind] in HB. rewrite Hrs, Hre in HB. cbn [tbind] in HB.
      destruct rs as [rs|rs|rs], re as [re|re|re]; cbn [int_key] in Hk;
        rewrite <- I1, <- I2 in Hk; try discriminate.
      cbn [trange_width vsub vadd arith tbind] in HB. rewrite Hw in HB.
      destruct (if vsame (VI (re - rs + 1)) (VI w) then TOk (VI 0) else tshift A b (VI re)) as [sh|y] eqn:Hs.
      * cbn [tbind vpow2] in HB. destruct (re - rs + 1 <? 0); cbn [tbind vsub arith vshl bitop] in HB.
        -- injection HB as <-; now left.
        -- destruct sh as [n|f|t].
           ++ unfold vshl, bitop in HB. unfold py_shl in HB. destruct (n <? 0); cbn in HB; [|discriminate].
              injection HB as <-; now right.
           ++ cbn in HB. injection HB as <-; now left.
           ++ cbn in HB. injection HB as <-; now left.
      * destruct (vsame _ _); [discriminate|].
        destruct (shift_num A b w (VI re) Hw eq_refl) as [c [Hc _]]. congruence.
Qed.
Lemma fails_refuses {A} (r : tres A) : fails r -> refuses r.
Proof. intros [e [-> H]]. exists e; auto. Qed.
Lemma refuses_bind {A B} (r : tres A) (f : A -> tres B) : refuses r -> refuses (tbind r f).
Proof. intros [e [-> H]]. exists e; auto. Qed.
#[local] Hint Resolve fails_refuses : core.

Lemma raise_refuses {A} v : @refuses A (raise_d v).
Proof.
  destruct v as [|[]|]; cbn; auto. eexists; split; [reflexivity|now right].
Qed.
#[local] Hint Resolve raise_refuses : core.

Lemma checkValue_dyn A b v w : is_obj w = false ->
  refuses (tcheckValue A (of_bf b) v w) \/ (tcheckValue A (of_bf b) v w = TOk tt /\ is_obj v = false).
Proof.
  intros Hw. unfold tcheckValue.
  destruct (vcmp_num w (VI 0) Hw eq_refl) as [c Hc]. unfold vlt. rewrite Hc; cbn [tbind].
  destruct (match c with Some Lt => true | _ => false end); [now left|].
  destruct (vcmp_num w (tf_maxval (of_bf b)) Hw eq_refl) as [c' Hc']. unfold vgt. rewrite Hc'; cbn [tbind].
  destruct (match c' with Some Gt => true | _ => false end); [now left|].
  assert (exists p, vpow2 A w = TOk p /\ is_obj p = false) as [p [-> Hp]].
  { destruct w as [z|f|t]; cbn; try discriminate; [destruct (z <? 0)|]; eexists; split; reflexivity. }
  cbn [tbind]. destruct v as [z|f|t].
  - destruct (vcmp_num (VI z) p eq_refl Hp) as [d ->]. cbn [tbind].
    destruct (match d with Some Gt => true | _ => false end); [now left|right; auto].
  - destruct (vcmp_num (VF f) p eq_refl Hp) as [d ->]. cbn [tbind].
    destruct (match d with Some Gt => true | _ => false end); [now left|right; auto].
  - left. cbn. auto.
Qed.
Lemma setitem_key_dyn A b k v : int_key k = false -> refuses (tf_setitem_value A (of_bf b) k v).
Proof.
  intros Hk. assert (tf_width (of_bf b) = VI (bf_width b)) as Hw by reflexivity.
  destruct k as [i|s e]; cbn [int_key] in Hk; cbn [tf_setitem_value].
  - destruct (checkIndex_dyn A _ _ i Hw) as [F|[-> [Oi [r [Hr [Ir Or]]]]]]; [apply refuses_bind; auto|].
    cbn [tbind]. destruct (checkValue_dyn A b v (VI 1) eq_refl) as [F|[-> Hv]]; [now apply refuses_bind|].
    cbn [tbind]. rewrite Hr; cbn [tbind]. destruct (shift_num A _ _ r Hw Or) as [c [-> [Oc Ic]]]; cbn [tbind].
    rewrite Ir, Hk in Ic. destruct c; try discriminate. cbn. auto.
  - unfold tgetRange. pose proof (bitmask_dyn A _ _ s e Hw Hk) as HB.
    destruct (range_dyn A _ _ s e Hw) as [F|[-> [rs [re [Hrs [Hre [O1 [O2 [I1 I2]]]]]]]]]; [apply refuses_bind; auto|].
    cbn [tbind]. rewrite Hrs, Hre. cbn [tbind]. unfold trange_width.
    destruct (arith_num A Z.sub (fa_sub A) re rs O2 O1) as [d [Hd [Od Id]]].
    unfold vsub at 1. rewrite Hd; cbn [tbind].
    destruct (arith_num A Z.add (fa_add A) d (VI 1) Od eq_refl) as [x [Hx [Ox Ix]]].
    unfold vadd at 1. rewrite Hx; cbn [tbind].
    destruct (checkValue_dyn A b v x Ox) as [F|[-> Hv]]; [now apply refuses_bind|].
    cbn [tbind]. apply refuses_bind; auto.
Qed.
(** a range never takes a value that is no int *)
Lemma setitem_slice_dyn A b s e v : is_int v = false ->
  refuses (tf_setitem_value A (of_bf b) (TSlice s e) v).
Proof.
  intros Hv. destruct (int_key (TSlice s e)) eqn:Hk; [|now apply setitem_key_dyn].
  destruct s as [s|s|s], e as [e|e|e]; try discriminate. cbn [tf_setitem_value].
  change (VI s) with (of_opt (Some s)). change (VI e) with (of_opt (Some e)).
  rewrite tcheckRange_int, tgetRange_int, tbitmask_int. unfold bitmask, getRange.
  destruct (checkRange b (Some s) (Some e)) as [[s' e']|x] eqn:HR; cbn [of_res tbind bind fst snd].
  2:{ apply fails_refuses. unfold checkRange, checkIndex in HR.
      destruct (_ || _); cbn [bind] in HR; [injection HR as <-; auto|].
      destruct (_ || _); cbn [bind] in HR; [injection HR as <-; auto|].
      destruct (bf_order b), (bf_numbering b);
        match type of HR with (if ?c then _ else _) = _ => destruct c end; try discriminate HR; injection HR as <-; auto. }
  cbn [trange_width vsub vadd arith tbind].
  destruct (checkValue_dyn A b v (VI (rindex b e' - rindex b s' + 1)) eq_refl) as [F|[-> Ov]]; [now apply refuses_bind|].
  cbn [tbind]. destruct (rindex b e' - rindex b s' + 1 <? 0); [cbn; auto|].
  unfold py_shl. match goal with |- context [if ?c <? 0 then _ else _] => destruct (c <? 0) end; [cbn; auto|].
  cbn [of_res tbind]. rewrite tlsb_int; cbn [tbind]. rewrite tshift_int.
  cbn [tbind of_bf tf_maxval tf_value arith vand bitop lift].
  destruct v; try discriminate; cbn; auto.
Qed.
Lemma above_spec f n : (match fcmp f (Fin (inject_Z n)) with Some Gt => true | _ => false end) = above f n.
Proof.
  destruct f as [q|[]|]; cbn; try reflexivity.
  destruct (Qle_bool q (inject_Z n)) eqn:E; cbn [negb].
  - apply Qle_bool_iff in E. destruct (q ?= inject_Z n)%Q eqn:E2; try reflexivity. exfalso; apply E; exact E2.
  - destruct (Qcompare_spec q (inject_Z n)); try reflexivity.
    + exfalso. rewrite <- not_true_iff_false, Qle_bool_iff in E. apply E. rewrite H. apply Qle_refl.
    + exfalso. rewrite <- not_true_iff_false, Qle_bool_iff in E. apply E. now apply Qlt_le_weak.
Qed.
Lemma equals_spec f n : veq (VF f) n = equals f n.
Proof. unfold veq, vcmp, equals. destruct f as [q|[]|]; reflexivity. Qed.
Lemma truth_spec v : truth v = negb (falsy v).
Proof. destruct v as [z|f|[]]; cbn [truth falsy]; [reflexivity|now rewrite equals_spec|reflexivity|reflexivity]. Qed.
Lemma whole_unique q z z' : whole q z -> whole q z' -> z = z'.
Proof.
  intros [H1 H2] [H1' H2'].
  assert (forall a c, (inject_Z a <= q -> q < inject_Z (c + 1) -> (a <= c)%Z)%Q) as L.
  { intros a c Ha Hc. assert (inject_Z a < inject_Z (c + 1))%Q as H by (eapply Qle_lt_trans; eauto).
    rewrite <- Zlt_Qlt in H. lia. }
  assert (forall a c, (q <= inject_Z a -> inject_Z (c - 1) < q -> (c <= a)%Z)%Q) as L'.
  { intros a c Ha Hc. assert (inject_Z (c - 1) < inject_Z a)%Q as H by (eapply Qlt_le_trans; eauto).
    rewrite <- Zlt_Qlt in H. lia. }
  destruct (Qlt_le_dec q 0) as [Hq|Hq].
  - apply Qlt_le_weak in Hq. destruct (H2 Hq), (H2' Hq).
    assert (z <= z') by (apply L'; assumption). assert (z' <= z) by (apply L'; assumption). lia.
  - destruct (H1 Hq), (H1' Hq).
    assert (z <= z') by (apply L; assumption). assert (z' <= z) by (apply L; assumption). lia.
Qed.
Lemma whole_quot q : whole q (Z.quot (Qnum q) (Zpos (Qden q))).
Proof.
  destruct q as [n d]. unfold whole, Qle, Qlt, inject_Z; cbn [Qnum Qden].
  pose proof (Z.quot_rem' n (Zpos d)) as E.
  pose proof (Z.rem_bound_pos n (Zpos d)) as B1.
  pose proof (Z.rem_bound_pos_neg n (Zpos d)) as B2.
  change (Qnum 0) with 0; change (QDen 0) with 1.
  set (k := n ÷ Zpos d) in *. set (m := Z.rem n (Zpos d)) in *.
  split; intros H.
  - assert (0 <= n) by lia. specialize (B1 H0 eq_refl). split; lia.
  - assert (n <= 0) by lia. specialize (B2 eq_refl H0). split; lia.
Qed.

Lemma assign_refused b r : refuses r -> fst (assign b r) = b /\ refuses (snd (assign b r)).
Proof. intros [e [-> H]]. split; [reflexivity|]. exists e; auto. Qed.
Lemma bit_value_float A b f :
  tcheckValue A (of_bf b) (VF f) (VI 1)
  = if 1 >? bf_maxval b then TErr (PyExn ValueError)
    else if above f 2 then TErr (PyExn ValueError) else TOk tt.
Proof.
  unfold tcheckValue. rewrite vlt_int; cbn [tbind of_bf tf_maxval tf_width].
  change (1 <? 0) with false. rewrite vgt_int; cbn [tbind].
  destruct (1 >? bf_maxval b); [reflexivity|]. cbn [vpow2]. change (1 <? 0) with false.
  change (2 ^ 1) with 2. cbn [tbind]. unfold vgt, vcmp; cbn [tbind]. rewrite above_spec.
  destruct (above f 2); reflexivity.
Qed.
Lemma step_bit_cleared A b i f : above f 2 = false -> equals f 1 = false ->
  tf_setitem A (of_bf b) (TIdx (VI i)) (VF f) = of_out (bf_setitem b (Idx i) 0).
Proof.
  intros H2 H1. unfold tf_setitem, bf_setitem. cbn [tf_setitem_value bf_setitem_value].
  change (VI i) with (of_opt (Some i)) at 1. rewrite tcheckIndex_int; cbn [of_opt].
  destruct (checkIndex b (Some i)); cbn [of_res tbind bind]; [|reflexivity].
  rewrite bit_value_float, H2. unfold checkValue. change (1 <? 0) with false. cbn [orb].
  destruct (1 >? bf_maxval b); [reflexivity|]. change (0 >? 2 ^ 1) with false. cbn [tbind bind].
  rewrite trindex_int; cbn [tbind]; rewrite tshift_int; cbn [tbind vshl bitop].
  rewrite equals_spec, H1. change (0 =? 1) with false.
  destruct (py_shl 1 (shift b (rindex b i))); reflexivity.
Qed.
Lemma step_bit_refused A b i f : above f 2 = true \/ equals f 1 = true ->
  refuses (tf_setitem_value A (of_bf b) (TIdx (VI i)) (VF f)).
Proof.
  intros H. cbn [tf_setitem_value].
  destruct (checkIndex_dyn A (of_bf b) _ (VI i) eq_refl) as [F|[-> _]]; [apply refuses_bind; auto|].
  cbn [tbind]. rewrite bit_value_float.
  destruct (1 >? bf_maxval b); [cbn [tbind]; auto|].
  destruct (above f 2) eqn:E; [cbn [tbind]; auto|]. destruct H as [H|H]; [discriminate|].
  cbn [tbind]. rewrite trindex_int; cbn [tbind]; rewrite tshift_int; cbn [tbind vshl bitop].
  rewrite equals_spec, H. unfold py_shl.
  destruct (_ <? 0); cbn; auto.
Qed.
Lemma bit_object A b i t : refuses (tf_setitem_value A (of_bf b) (TIdx (VI i)) (VO t)).
Proof.
  cbn [tf_setitem_value].
  destruct (checkIndex_dyn A (of_bf b) _ (VI i) eq_refl) as [F|[-> _]]; [apply refuses_bind; auto|].
  cbn [tbind]. destruct (checkValue_dyn A b (VO t) (VI 1) eq_refl) as [F|[_ E]]; [now apply refuses_bind|discriminate].
Qed.
Lemma value_float A b f :
  tcheckValue A (of_bf b) (VF f) (VI (bf_width b))
  = if (bf_width b <? 0) || (bf_width b >? bf_maxval b) then TErr (PyExn ValueError)
    else if above f (2 ^ bf_width b) then TErr (PyExn ValueError) else TOk tt.
Proof.
  unfold tcheckValue. rewrite vlt_int; cbn [tbind of_bf tf_maxval tf_width].
  destruct (bf_width b <? 0) eqn:E; [reflexivity|]. rewrite vgt_int; cbn [tbind orb].
  destruct (bf_width b >? bf_maxval b); [reflexivity|]. cbn [vpow2]. rewrite E.
  cbn [tbind]. unfold vgt, vcmp; cbn [tbind]. rewrite above_spec.
  destruct (above f (2 ^ bf_width b)); reflexivity.
Qed.
Lemma whole_le q z n : whole q z -> above (Fin q) n = false -> 0 <= n -> z <= n.
Proof.
  intros [H1 H2] Hq Hn. cbn in Hq. apply negb_false_iff, Qle_bool_iff in Hq.
  destruct (Qlt_le_dec q 0) as [L|L].
  - assert (q <= 0)%Q as L' by now apply Qlt_le_weak. destruct (H2 L') as [_ H].
    assert (inject_Z (z - 1) < inject_Z 0)%Q as K by (eapply Qlt_trans; eauto).
    rewrite <- Zlt_Qlt in K. lia.
  - destruct (H1 L) as [H _]. assert (inject_Z z <= inject_Z n)%Q as K by (eapply Qle_trans; eauto).
    now rewrite <- Zle_Qle in K.
Qed.
Lemma step_value_whole A b q z : whole q z -> above (Fin q) (2 ^ bf_width b) = false ->
  tf_set_value A (of_bf b) (VF (Fin q)) = of_out (bf_set_value b z).
Proof.
  intros Hz Ha. unfold tf_set_value, bf_set_value, checkValue.
  change (tf_width (of_bf b)) with (VI (bf_width b)). rewrite value_float, Ha.
  destruct (Z.ltb_spec (bf_width b) 0) as [L|L]; [reflexivity|]. cbn [orb].
  destruct (bf_width b >? bf_maxval b); [reflexivity|]. cbn [tbind vint].
  assert (z <= 2 ^ bf_width b) as Hle by (eapply whole_le; eauto; apply Z.pow_nonneg; lia).
  destruct (Z.gtb_spec z (2 ^ bf_width b)) as [G|G]; [lia|].
  rewrite (whole_unique q _ z (whole_quot q) Hz). reflexivity.
Qed.
Lemma set_refused A b i v : is_int i = false -> truth i = true ->
  refuses (match tcheckIndex A (of_bf b) i with
           | TOk _ => snd (tf_setitem A (of_bf b) (TIdx i) v) | TErr e => TErr e end)
  /\ fst (match tcheckIndex A (of_bf b) i with
           | TOk _ => tf_setitem A (of_bf b) (TIdx i) v | TErr e => (of_bf b, TErr e) end) = of_bf b.
Proof.
  intros Hi _. destruct (checkIndex_dyn A (of_bf b) _ i eq_refl) as [[e [-> He]]|[-> _]].
  - split; [|reflexivity]. exists e; auto.
  - pose proof (setitem_key_dyn A b (TIdx i) v Hi) as R.
    unfold tf_setitem. split; apply (assign_refused _ _ R).
Qed.

(** Every call amounts to a call with ints, which it then is, or is refused, and then
    changes nothing. *)
Lemma C199_calls_partial_pf : forall A b o,
  (exists r, amounts (bf_width b) o r) /\
  (forall o', amounts (bf_width b) o (Some o') -> tf_step A (of_bf b) o = of_out (bf_step b o')) /\
  (amounts (bf_width b) o None ->
     fst (tf_step A (of_bf b) o) = of_bf b /\ refuses (snd (tf_step A (of_bf b) o))).
Proof.
  intros A b o.
  split; [|split].
  - destruct o as [k v|v|v|v].
    + destruct (int_key k) eqn:Hk; [|eexists; now apply A_key].
      destruct k as [[i|i|i]|[s|s|s] [e|e|e]]; try discriminate.
      * destruct v as [z|f|t].
        -- eexists; apply (A_int _ (OpItem (Idx i) z)).
        -- destruct (above f 2) eqn:H2; [eexists; apply A_bit_refused; now left|].
           destruct (equals f 1) eqn:H1; [eexists; apply A_bit_refused; now right|].
           eexists; now apply A_bit_cleared.
        -- eexists; apply A_bit_object.
      * destruct v as [z|f|t]; [eexists; apply (A_int _ (OpItem (Slice (Some s) (Some e)) z))| |];
          eexists; now apply A_slice_value.
    + destruct v as [z|[q|n|]|t].
      * eexists; apply (A_int _ (OpValue z)).
      * destruct (above (Fin q) (2 ^ bf_width b)) eqn:E; [eexists; now apply A_large|].
        eexists; eapply A_whole; [apply whole_quot|exact E].
      * eexists; apply A_infinite.
      * eexists; apply A_nan.
      * eexists; apply A_value_object.
    + destruct (falsy v) eqn:F; [eexists; now apply A_set_all|].
      destruct v as [z|f|t]; [eexists; apply (A_int _ (OpSet (Some z)))| |];
        eexists; now apply A_set_refused.
    + destruct (falsy v) eqn:F; [eexists; now apply A_clear_all|].
      destruct v as [z|f|t]; [eexists; apply (A_int _ (OpClear (Some z)))| |];
        eexists; now apply A_clear_refused.
  - intros o' H. inversion H; subst; clear H; cbn [tf_step bf_step].
    + apply tstep_int.
    + now apply step_bit_cleared.
    + now apply step_value_whole.
    + unfold tf_set. rewrite truth_spec. match goal with E : falsy _ = true |- _ => rewrite E end. reflexivity.
    + unfold tf_clear. rewrite truth_spec. match goal with E : falsy _ = true |- _ => rewrite E end. reflexivity.
  - intros H. inversion H; subst; clear H; cbn [tf_step].
    + apply assign_refused, step_bit_refused. assumption.
    + apply assign_refused, bit_object.
    + apply assign_refused, setitem_slice_dyn. assumption.
    + apply assign_refused, setitem_key_dyn. assumption.
    + apply assign_refused. change (tf_width (of_bf b)) with (VI (bf_width b)).
      rewrite value_float. match goal with E : above _ _ = true |- _ => rewrite E end. destruct (_ || _); cbn [tbind]; auto.
    + apply assign_refused. change (tf_width (of_bf b)) with (VI (bf_width b)).
      rewrite value_float. destruct (_ || _); cbn [tbind]; auto.
      destruct (above _ _); cbn [tbind vint]; auto. eexists; split; [reflexivity|now right].
    + apply assign_refused. change (tf_width (of_bf b)) with (VI (bf_width b)).
      rewrite value_float. destruct (_ || _); cbn [tbind]; auto.
      destruct (above _ _); cbn [tbind vint]; auto.
    + apply assign_refused. change (tf_width (of_bf b)) with (VI (bf_width b)).
      destruct (checkValue_dyn A b (VO t) (VI (bf_width b)) eq_refl) as [F|[_ E]];
        [now apply refuses_bind|discriminate].
    + match goal with I : is_int v = false, F : falsy v = false |- _ =>
        unfold tf_set; rewrite truth_spec, F; cbn [negb];
        destruct (set_refused A b v (VI 1) I ltac:(now rewrite truth_spec, F)) as [R E] end.
      split; [exact E|]. destruct (tcheckIndex A (of_bf b) v); exact R.
    + match goal with I : is_int v = false, F : falsy v = false |- _ =>
        unfold tf_clear; rewrite truth_spec, F; cbn [negb];
        destruct (set_refused A b v (VI 0) I ltac:(now rewrite truth_spec, F)) as [R E] end.
      split; [exact E|]. destruct (tcheckIndex A (of_bf b) v); exact R.
Qed.

Lemma step_width b o : bf_width (fst (bf_step b o)) = bf_width b.
Proof.
  destruct o as [k v|v|[i|]|[i|]]; cbn [bf_step]; unfold bf_setitem, bf_set_value, bf_set, bf_clear, bf_setitem;
    repeat match goal with
           | |- context [if ?c then _ else _] => destruct c
           | |- context [match ?c with Ok _ => _ | Err _ => _ end] => destruct c
           end; reflexivity.
Qed.
(** Histories: the field always holds the int that the calls with ints leave. *)
Lemma C199_history_pf : forall A b ops,
  (exists ops', amounts_all (bf_width b) ops ops') /\
  (forall ops', amounts_all (bf_width b) ops ops' ->
     tf_run A (of_bf b) ops = of_bf (bf_run b ops')).
Proof.
  intros A b ops.
  split.
  - generalize (bf_width b); intros W. induction ops as [|o ops [os' IH]]; [eexists; constructor|].
    destruct (C199_calls_partial_pf A (mkbf W 0 0 LSB_0 MSB_LEFT) o) as [[[o'|] H] _]; cbn [bf_width] in H.
    + exists (o' :: os'). now apply AA_call.
    + exists os'. now apply AA_refused.
  - intros ops' H. remember (bf_width b) as W eqn:HW. revert b HW.
    induction H as [|o o' os os' Ho Hos IH|o os os' Ho Hos IH]; intros b ->.
    + reflexivity.
    + unfold tf_run, bf_run. cbn [fold_left].
      destruct (C199_calls_partial_pf A b o) as [_ [E _]]. rewrite (E o' Ho). cbn [of_out fst].
      apply IH. symmetry; apply step_width.
    + unfold tf_run. cbn [fold_left].
      destruct (C199_calls_partial_pf A b o) as [_ [_ E]]. destruct (E Ho) as [-> _]. now apply IH.
Qed.

(** Reads *)
Lemma C199_reads_pf : forall A b,
  (forall k, int_key k = false -> fails (tf_getitem A (of_bf b) k)) /\
  (forall i v, is_int i = false -> fails (tf_isBit A (of_bf b) i v)) /\
  (forall s e v, is_int s && is_int e = false -> fails (tf_isRange A (of_bf b) s e v)) /\
  (forall i f, tf_isBit A (of_bf b) (VI i) (VF f)
               = of_res (equals f) (bf_getitem b (Idx i))) /\
  (forall i t, tf_isBit A (of_bf b) (VI i) (VO t)
               = of_res (fun _ => false) (bf_getitem b (Idx i))) /\
  (forall s e v, (forall n, n = 0 \/ n = 1 -> match v with VI z => z <> n | VF f => equals f n = false | VO _ => True end) ->
     fails (tf_isRange A (of_bf b) s e v)).
Proof.
  intros A b.
  assert (tf_width (of_bf b) = VI (bf_width b)) as Hw by reflexivity.
  assert (forall i v, tf_isBit A (of_bf b) (VI i) v
     = of_res (fun z => vsame (VI z) v) (bf_getitem b (Idx i))) as HB.
  { intros i v. unfold tf_isBit. change (VI i) with (of_opt (Some i)) at 1. rewrite tcheckIndex_int.
    cbn [bf_getitem]. change (TIdx (VI i)) with (of_key (Idx i)). rewrite tgetitem_int. cbn [bf_getitem].
    destruct (checkIndex b (Some i)); cbn [of_res tbind bind]; [|reflexivity].
    destruct (py_shr (bf_value b) _); reflexivity. }
  repeat apply conj.
  - intros k Hk. now apply (getitem_dyn A _ _ k Hw).
  - intros i v Hi. unfold tf_isBit.
    destruct (checkIndex_dyn A _ _ i Hw) as [F|[-> _]]; [now apply fails_bind|].
    cbn [tbind]. apply fails_bind. now apply (getitem_dyn A _ _ (TIdx i) Hw).
  - intros s e v Hi. unfold tf_isRange.
    destruct (range_dyn A _ _ s e Hw) as [F|[-> _]]; [now apply fails_bind|]. cbn [tbind].
    destruct (negb _); [auto|]. apply fails_bind. now apply (getitem_dyn A _ _ (TSlice s e) Hw).
  - intros i f. rewrite HB. destruct (bf_getitem b (Idx i)) as [z|]; [|reflexivity]. cbn [of_res]. f_equal.
    unfold vsame, vcmp. destruct f as [q|[]|]; try reflexivity. cbn [equals fcmp].
    destruct (Qeq_bool q (inject_Z z)) eqn:E.
    + apply Qeq_bool_iff in E. destruct (Qcompare_spec (inject_Z z) q) as [H|H|H]; try reflexivity;
        exfalso; rewrite E in H; now apply Qlt_irrefl in H.
    + destruct (Qcompare_spec (inject_Z z) q) as [H|H|H]; try reflexivity.
      exfalso. rewrite <- not_true_iff_false, Qeq_bool_iff in E. apply E. now symmetry.
  - intros i t. rewrite HB. destruct (bf_getitem b (Idx i)); reflexivity.
  - intros s e v Hv. unfold tf_isRange.
    destruct (range_dyn A _ _ s e Hw) as [F|[-> _]]; [now apply fails_bind|]. cbn [tbind].
    assert (forall n, n = 0 \/ n = 1 -> veq v n = false) as N.
    { intros n Hn. specialize (Hv n Hn). destruct v as [z|f|t].
      - rewrite veq_int. now apply Z.eqb_neq.
      - rewrite equals_spec. exact Hv.
      - reflexivity. }
    rewrite !N by auto. cbn. auto.
Qed.

(** The constructor, for an int width or an object that is no number *)
Lemma C199_new_pf : forall A,
  (forall f w n o, 0 <= w ->
     tf_new A (VF f) (VI w) (VI n) (VI o)
     = if (64 <? w) || above f (2 ^ w - 1) then TErr (PyExn ValueError)
       else of_res (fun b => tf_with (of_bf b) (VF f)) (bf_new 0 w n o)) /\
  (forall t w n o, 0 <= w -> fails (tf_new A (VO t) (VI w) n o)) /\
  (forall t v n o, fails (tf_new A v (VO t) n o)) /\
  (forall t v w o, 0 <= w -> fails (tf_new A v (VI w) (VO t) o)) /\
  (forall t v w n, 0 <= w -> fails (tf_new A v (VI w) n (VO t))).
Proof.
  intros A.
  assert (forall v w n o, 0 <= w -> tf_new A v (VI w) n o =
    if w >? 64 then TErr (PyExn ValueError)
    else try g <- vgt v (VI (2 ^ w - 1));
         if g : bool then TErr (PyExn ValueError)
         else match vscheme n, vorder o with
              | Some n', Some o' => TOk (mktf (VI w) (VI (2 ^ w - 1)) v n' o')
              | _, _ => TErr (PyExn ValueError) end) as H.
  { intros v w n o Hw. unfold tf_new. rewrite vgt_int; cbn [tbind].
    destruct (w >? 64); [reflexivity|]. cbn [vpow2]. destruct (Z.ltb_spec w 0); [lia|].
    cbn [tbind vsub arith]. destruct (vgt v (VI (2 ^ w - 1))) as [[]|]; cbn [tbind]; try reflexivity. }
  repeat apply conj.
  - intros f w n o Hw. rewrite H by assumption. rewrite Z.gtb_ltb.
    destruct (64 <? w) eqn:E; [reflexivity|]. cbn [orb]. unfold vgt, vcmp; cbn [tbind].
    rewrite above_spec. destruct (above f (2 ^ w - 1)); [reflexivity|].
    rewrite vscheme_int, vorder_int. unfold bf_new. rewrite Z.gtb_ltb, E.
    assert (0 < 2 ^ w) by (apply Z.pow_pos_nonneg; lia).
    destruct (Z.gtb_spec 0 (2 ^ w - 1)); [lia|].
    destruct (scheme_of n); [|reflexivity]. destruct (order_of o); reflexivity.
  - intros t w n o Hw. rewrite H by assumption. destruct (w >? 64); cbn; auto.
  - intros t v n o. cbn. auto.
  - intros t v w o Hw. rewrite H by assumption. destruct (w >? 64); [auto|].
    destruct v as [z|f|u]; cbn; auto;
      match goal with |- context [if ?c then _ else _] => destruct c end; auto.
  - intros t v w n Hw. rewrite H by assumption. destruct (w >? 64); [auto|].
    destruct v as [z|f|u]; cbn; auto;
      match goal with |- context [if ?c then _ else _] => destruct c end; auto;
      destruct (vscheme n); auto.
Qed.

Lemma less_spec f g : less f g <-> fcmp f g = Some Lt.
Proof.
  unfold less. destruct f as [p|x|], g as [q|y|]; cbn [fcmp at_most exceeds].
  - split.
    + intros [r [H1 H2]]. f_equal. apply Qlt_alt. eapply Qle_lt_trans; eassumption.
    + intros H. injection H as H. exists p. split; [apply Qle_refl|now apply Qlt_alt].
  - split; [intros [r [_ ->]]; reflexivity|]. destruct y; [discriminate|]. intros _. exists p. split; [apply Qle_refl|reflexivity].
  - split; [intros [r [_ []]]|discriminate].
  - split; [intros [r [-> _]]; reflexivity|]. destruct x; [|discriminate]. intros _. exists (q - 1)%Q.
    split; [reflexivity|]. rewrite <- (Qplus_0_r q) at 2. apply Qplus_lt_r. reflexivity.
  - split; [intros [r [-> ->]]; reflexivity|]. destruct x, y; try discriminate. intros _. exists 0%Q. split; reflexivity.
  - split; [intros [r [_ []]]|discriminate].
  - split; [intros [r [[] _]]|discriminate].
  - split; [intros [r [[] _]]|discriminate].
  - split; [intros [r [[] _]]|discriminate].
Qed.
Lemma fcmp_sym f g : fcmp g f = option_map CompOpp (fcmp f g).
Proof.
  destruct f as [p|[]|], g as [q|[]|]; cbn; try reflexivity. f_equal.
  unfold Qcompare. apply Z.compare_antisym.
Qed.
Lemma fcmp_nan f g : fcmp f g = None <-> f = NaN \/ g = NaN.
Proof. destruct f as [p|[]|], g as [q|[]|]; cbn; split; intros; intuition discriminate. Qed.
(** Comparisons of ints and floats are those of the numbers they are. *)
Lemma C199_order_pf : forall v w f g, number v f -> number w g ->
  (vlt v w = TOk true <-> less f g) /\ (vgt v w = TOk true <-> less g f) /\
  (vge v w = TOk true <-> f <> NaN /\ g <> NaN /\ ~ less f g) /\
  (vsame v w = true <-> f <> NaN /\ g <> NaN /\ ~ less f g /\ ~ less g f).
Proof.
  intros v w f g Hv Hw.
  assert (vcmp v w = TOk (fcmp f g)) as E.
  { destruct v as [x|x|x], w as [y|y|y]; cbn [number] in Hv, Hw; try contradiction; subst; try reflexivity.
    cbn. unfold Qcompare; cbn. now rewrite !Z.mul_1_r. }
  unfold vlt, vgt, vge, vsame. rewrite E, !less_spec, (fcmp_sym f g). cbn [tbind].
  pose proof (fcmp_nan f g) as N.
  destruct (fcmp f g) as [[]|]; cbn [option_map CompOpp].
  1-3: assert (f <> NaN /\ g <> NaN) as [N1 N2] by (split; intros ->; destruct N as [_ N]; specialize (N ltac:(auto)); discriminate N).
  1-3: repeat split; intros; try discriminate; try reflexivity; try assumption; intuition (try discriminate).
  destruct N as [N _]. specialize (N eq_refl).
  repeat split; intros; try discriminate; intuition (try discriminate).
Qed.
(*@
Example C199_order_ex :
  vge (VF (Inf true)) (VF (Inf true)) = TOk true /\ vlt (VF (Inf true)) (VI (-5)) = TOk true /\
  vgt (VI 3) (VF (Fin (5 # 2))) = TOk true /\ vge (VF NaN) (VF NaN) = TOk false /\
  less (Fin (5 # 2)) (Fin (inject_Z 3)).
Proof. repeat split; try reflexivity. exists (5 # 2)%Q. split; [apply Qle_refl|reflexivity]. Qed.
@*)
(** A field that was made with a float can be neither read nor written bit by bit. *)
Lemma C199_float_held_pf : forall A b f, let h := tf_with (of_bf b) (VF f) in
  (forall k, fails (tf_getitem A h k)) /\ tf_int h = TErr (PyExn TypeError) /\
  (forall q, f = Fin q -> exists z, tf_get_value h = TOk z /\ whole q z) /\
  (forall k v, fst (tf_setitem A h k v) = h /\ exists e, snd (tf_setitem A h k v) = TErr e) /\
  (forall v, snd (tf_set_value A h v) = snd (tf_set_value A (of_bf b) v) /\
             (forall u, snd (tf_set_value A h v) = TOk u ->
                fst (tf_set_value A h v) = fst (tf_set_value A (of_bf b) v))) /\
  (forall i, falsy i = true ->
     tf_set A h i = tf_set A (of_bf b) i /\ tf_clear A h i = tf_clear A (of_bf b) i).
Proof.
  intros A b f.
  intros h. assert (tf_width h = VI (bf_width b)) as Hw by reflexivity.
  repeat apply conj.
  - intros k. now apply (getitem_float A h _ k Hw).
  - cbn. auto.
  - intros q ->. eexists. split; [reflexivity|apply whole_quot].
  - intros k v. assert (exists e, tf_setitem_value A h k v = TErr e) as [e E].
    { destruct k as [i|s e]; cbn [tf_setitem_value].
      - destruct (tcheckIndex A h i); cbn [tbind]; [|eauto].
        destruct (tcheckValue A h v (VI 1)); cbn [tbind]; [|eauto].
        destruct (trindex A h i); cbn [tbind]; [|eauto].
        destruct (tshift A h a1); cbn [tbind]; [|eauto].
        destruct (vshl (VI 1) a2); cbn [tbind]; [|eauto].
        destruct (veq v 1).
        + destruct (vshl v a2); cbn; eauto.
        + destruct (vsub A (tf_maxval h) a3); cbn; eauto.
      - destruct (tcheckRange A h s e); cbn [tbind]; [|eauto].
        destruct (tgetRange A h s e) as [[rs re]|]; cbn [tbind]; [|eauto].
        destruct (trange_width A rs re); cbn [tbind]; [|eauto].
        destruct (tcheckValue A h v a0); cbn [tbind]; [|eauto].
        destruct (tbitmask A h s e); cbn [tbind]; [|eauto].
        destruct (tlsbIndex h rs re); cbn [tbind]; [|eauto].
        destruct (tshift A h a3); cbn [tbind]; [|eauto].
        destruct (vsub A (tf_maxval h) a2); cbn; eauto. }
    unfold tf_setitem. rewrite E. cbn. eauto.
  - intros v. unfold tf_set_value. change (tcheckValue A h v (tf_width h)) with (tcheckValue A (of_bf b) v (tf_width (of_bf b))).
    destruct (tcheckValue A (of_bf b) v _); cbn [tbind assign]; [|split; [reflexivity|intros u K; discriminate K]].
    destruct (vint v); cbn [tbind assign]; (split; [reflexivity|]); [reflexivity|intros u K; discriminate K].
  - intros i Hi. unfold tf_set, tf_clear. rewrite truth_spec, Hi. split; reflexivity.
Qed.
(*@
(** A bit is cleared, the value becomes 3, every bit is set; "2.0", None and a float in a
    range are refused. *)
Example C199_calls_partial_ex A : let b := mkbf 4 15 6 LSB_0 LSB_LEFT in
  tf_step A (of_bf b) (TItem (TIdx (VI 1)) (VF (Fin (1#2)))) = (of_bf (with_value b 4), TOk tt) /\
  tf_step A (of_bf b) (TValue (VF (Fin (7#2)))) = (of_bf (with_value b 3), TOk tt) /\
  tf_step A (of_bf b) (TSet (VF (Fin 0))) = (of_bf (with_value b 15), TOk tt) /\
  tf_step A (of_bf b) (TItem (TIdx (VF (Fin 2))) (VI 1)) = (of_bf b, TErr (PyExn TypeError)) /\
  tf_step A (of_bf b) (TItem (TSlice (VI 0) (VI 2)) (VF (Fin 1))) = (of_bf b, TErr (PyExn TypeError)) /\
  tf_step A (of_bf b) (TValue (VO false)) = (of_bf b, TErr (PyExn TypeError)).
Proof. repeat split; reflexivity. Qed.
Example C199_history_ex A : let b := mkbf 4 15 6 LSB_0 LSB_LEFT in
  tf_run A (of_bf b) [TItem (TIdx (VI 1)) (VF (Fin (1#2))); TValue (VO true); TSet (VI 3); TClear (VO true)]
  = of_bf (bf_run b [OpItem (Idx 1) 0; OpSet (Some 3)]).
Proof. reflexivity. Qed.
Example C199_ints_ex A :
  tf_new A (VI 5) (VI 4) (VI 0) (VI 1) = TOk (of_bf (mkbf 4 15 5 LSB_0 LSB_LEFT)) /\
  tf_getitem A (of_bf (mkbf 4 15 5 LSB_0 LSB_LEFT)) (TIdx (VI 2)) = TOk (VI 1).
Proof. split; reflexivity. Qed.
Example C199_reads_ex A : let b := mkbf 4 15 6 LSB_0 LSB_LEFT in
  tf_getitem A (of_bf b) (TIdx (VF (Fin 2))) = TErr (PyExn TypeError) /\
  tf_isBit A (of_bf b) (VI 2) (VF (Fin 1)) = TOk true /\
  tf_isBit A (of_bf b) (VI 2) (VO true) = TOk false /\
  tf_isRange A (of_bf b) (VI 0) (VI 2) (VO false) = TErr (PyExn ValueError).
Proof. repeat split; reflexivity. Qed.
Example C199_new_ex A :
  tf_new A (VF (Fin (5#2))) (VI 4) (VI 0) (VI 1)
  = TOk (mktf (VI 4) (VI 15) (VF (Fin (5#2))) LSB_0 LSB_LEFT) /\
  tf_new A (VI 5) (VI 4) (VF (Fin 1)) (VI 1) = TOk (of_bf (mkbf 4 15 5 LSB_1 LSB_LEFT)) /\
  tf_new A (VO true) (VI 4) (VI 0) (VI 1) = TErr (PyExn TypeError).
Proof. repeat split; reflexivity. Qed.
Example C199_float_held_ex A : let h := mktf (VI 4) (VI 15) (VF (Fin (5#2))) LSB_0 LSB_LEFT in
  tf_getitem A h (TIdx (VI 1)) = TErr (PyExn TypeError) /\ tf_get_value h = TOk 2 /\
  tf_setitem A h (TIdx (VI 1)) (VI 1) = (h, TErr (PyExn TypeError)) /\
  fst (tf_set_value A h (VI 9)) = of_bf (mkbf 4 15 9 LSB_0 LSB_LEFT).
Proof. repeat split; reflexivity. Qed.
@*)

(** Floats and empty objects are not always refused. *)
Lemma C199_refuted_pf :
  (forall A b i, tf_step A (of_bf b) (TItem (TIdx (VI i)) (VF (Fin (1#2))))
                 = of_out (bf_step b (OpItem (Idx i) 0))) /\
  (forall A b, 2 <= bf_width b <= bf_maxval b ->
     tf_step A (of_bf b) (TValue (VF (Fin (7#2)))) = (of_bf (with_value b 3), TOk tt)) /\
  (forall A b, tf_step A (of_bf b) (TSet (VF (Fin 0))) = (of_bf (with_value b (bf_maxval b)), TOk tt)) /\
  ~ (forall A b o, int_call o = false ->
       fst (tf_step A (of_bf b) o) = of_bf b /\ refuses (snd (tf_step A (of_bf b) o))).
Proof.
  repeat apply conj.
  - intros A b i. apply step_bit_cleared; reflexivity.
  - intros A b [H1 H2]. cbn [tf_step]. rewrite (step_value_whole A b (7#2) 3).
    + unfold bf_set_value, checkValue. destruct (Z.ltb_spec (bf_width b) 0); [lia|].
      destruct (Z.gtb_spec (bf_width b) (bf_maxval b)); [lia|]. cbn [orb].
      assert (2 ^ 2 <= 2 ^ bf_width b) by (apply Z.pow_le_mono_r; lia).
      destruct (Z.gtb_spec 3 (2 ^ bf_width b)); [lia|reflexivity].
    + exact (whole_quot (7#2)).
    + cbn [above]. apply negb_false_iff, Qle_bool_iff.
      apply Qle_trans with (inject_Z 4); [discriminate|]. rewrite <- Zle_Qle.
      change 4 with (2 ^ 2). apply Z.pow_le_mono_r; lia.
  - intros A b. reflexivity.
  - intros H. specialize (H (mkfa (fun _ => NaN) (fun _ _ => NaN) (fun _ _ => NaN) (fun _ => NaN))
      (mkbf 4 15 0 LSB_0 LSB_LEFT) (TSet (VF (Fin 0))) eq_refl). destruct H as [H _]. discriminate H.
Qed.

(*@
Example C199_refuted_ex A : let b := mkbf 4 15 6 LSB_0 LSB_LEFT in
  tf_step A (of_bf b) (TItem (TIdx (VI 2)) (VF (Fin (1#2)))) = (of_bf (with_value b 2), TOk tt) /\
  tf_step A (of_bf b) (TClear (VF (Fin 0))) = (of_bf (with_value b 0), TOk tt).
Proof. split; reflexivity. Qed.
@*)

Lemma word_check_float q :
  tword_check (VF (Fin q)) =
  if Qle_bool 0 q && Qle_bool q (inject_Z (2 ^ 48 - 1)) then TOk tt else TErr (PyExn ValueError).
Proof.
  unfold tword_check, vlt, vgt, vcmp; cbn [tbind].
  assert ((match fcmp (Fin q) (Fin (inject_Z 0)) with Some Lt => true | _ => false end) = negb (Qle_bool 0 q)) as ->.
  { change (inject_Z 0) with 0%Q. unfold fcmp. destruct (Qle_bool 0 q) eqn:E; cbn [negb].
    - apply Qle_bool_iff in E. destruct (Qcompare_spec q 0) as [H|H|H]; try reflexivity.
      exfalso. now apply (Qlt_not_le q 0).
    - rewrite <- not_true_iff_false, Qle_bool_iff in E. apply Qnot_le_lt in E. destruct (Qcompare_spec q 0) as [H|H|H]; try reflexivity; exfalso; [rewrite H in E; now apply Qlt_irrefl in E | now apply (Qlt_irrefl q), (Qlt_trans q 0 q)]. }
  rewrite above_spec. cbn [above].
  destruct (Qle_bool 0 q); [|reflexivity]. cbn [negb andb].
  destruct (Qle_bool q _); reflexivity.
Qed.
(** Words: a float is never accepted at construction; assigned, it is cut to its whole part
    if it lies between 0 and 2^48 - 1.  Anything else is refused and changes nothing. *)
Lemma C199_words_pf : forall A,
  (forall v, is_int v = false -> refuses (tword_new A v)) /\
  (forall b q, a_word b -> (0 <= q <= inject_Z (2 ^ 48 - 1))%Q ->
     exists z, whole q z /\ tword_set_value A (of_bf b) (VF (Fin q)) = (of_bf (with_value b z), TOk tt)) /\
  (forall b q, ~ (0 <= q <= inject_Z (2 ^ 48 - 1))%Q ->
     tword_set_value A (of_bf b) (VF (Fin q)) = (of_bf b, TErr (PyExn ValueError))) /\
  (forall b v, is_int v = false -> (forall q, v <> VF (Fin q)) ->
     fst (tword_set_value A (of_bf b) v) = of_bf b /\ fails (snd (tword_set_value A (of_bf b) v))).
Proof.
  intros A.
  repeat apply conj.
  - intros v Hv. unfold tword_new.
    destruct v as [z|f|t]; [discriminate| |cbn; auto].
    assert (fails (tword_check (VF f)) \/ tword_check (VF f) = TOk tt) as [F| ->].
    { unfold tword_check, vlt, vgt, vcmp; cbn [tbind].
      destruct (match fcmp f (Fin (inject_Z 0)) with Some Lt => true | _ => false end); [auto|].
      destruct (match fcmp f (Fin (inject_Z (2 ^ 48 - 1))) with Some Gt => true | _ => false end); auto. }
    + apply refuses_bind; auto.
    + cbn [tbind]. rewrite tnew_int by lia. cbn [bf_new]. unfold bf_new. cbn [Z.gtb Z.compare].
      change (scheme_of 3) with (Some MSB_1). change (order_of 0) with (Some MSB_LEFT).
      change (0 >? 2 ^ 48 - 1) with false. cbn [of_res tbind].
      pose proof (setitem_slice_dyn A (mkbf 48 (2 ^ 48 - 1) 0 MSB_1 MSB_LEFT) (VI 1) (VI 48) (VF f) eq_refl) as [e [E He]].
      change (48 >? 64) with false. cbn [of_res tbind]. unfold tf_setitem. rewrite E. cbn [assign]. exists e; auto.
  - intros b q [Hw [Hm _]] [H0 H1]. unfold tword_set_value. rewrite word_check_float.
    apply Qle_bool_iff in H0. pose proof H1 as H2. apply Qle_bool_iff in H1. rewrite H0, H1. cbn [andb].
    exists (Z.quot (Qnum q) (Zpos (Qden q))). split; [apply whole_quot|].
    assert (above (Fin q) (2 ^ 48 - 1) = false) as Ha by (cbn [above]; now rewrite H1).
    rewrite (step_value_whole A b q _ (whole_quot q)).
    + unfold bf_set_value, checkValue. rewrite Hw, Hm. change (48 <? 0) with false. change (48 >? 2 ^ 48 - 1) with false.
      cbn [orb]. pose proof (whole_le q _ _ (whole_quot q) Ha ltac:(lia)).
      match goal with |- context [if ?c then _ else _] => assert (c = false) as -> end.
      { rewrite Z.gtb_ltb. apply Z.ltb_ge. lia. }
      reflexivity.
    + rewrite Hw. cbn [above]. apply negb_false_iff, Qle_bool_iff. eapply Qle_trans; [exact H2|].
      rewrite <- Zle_Qle. lia.
  - intros b q H. unfold tword_set_value. rewrite word_check_float.
    destruct (Qle_bool 0 q) eqn:E0; [|reflexivity]. destruct (Qle_bool q _) eqn:E1; [|reflexivity].
    exfalso. apply H. split; now apply Qle_bool_iff.
  - intros b v Hv Hq. unfold tword_set_value. destruct v as [z|[q|[]|]|t]; try discriminate.
    + exfalso. now apply (Hq q).
    + cbn. auto.
    + cbn. auto.
    + cbn [tword_check vlt vgt vcmp tbind fcmp]. unfold tf_set_value.
      change (tf_width (of_bf b)) with (VI (bf_width b)). rewrite value_float.
      destruct (_ || _); cbn; auto.
    + cbn. auto.
Qed.
(*@
Example C199_words_ex A : let b := mkbf 48 (2 ^ 48 - 1) 9 MSB_1 MSB_LEFT in
  tword_set_value A (of_bf b) (VF (Fin (7#2))) = (of_bf (with_value b 3), TOk tt) /\
  tword_set_value A (of_bf b) (VF (Fin (-1#2))) = (of_bf b, TErr (PyExn ValueError)) /\
  tword_new A (VF (Fin 1)) = TErr (PyExn TypeError).
Proof. repeat split; reflexivity. Qed.
@*)
