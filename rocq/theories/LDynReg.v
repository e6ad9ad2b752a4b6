(** Registers with arguments of any type. *)
From Coq Require Import Lqa.
From Verif Require Import Py LPy MBitField MRegisters MDyn SDyn LDyn MDynReg SDynReg.

Lemma treg_check_int A w v : 0 <= w -> treg_check A (VI w) (VI v) = of_res (fun x => x) (reg_check w v).
Proof.
  intros Hw. unfold treg_check, reg_check. rewrite vlt_int; cbn [tbind].
  destruct (v <? 0); [reflexivity|]. cbn [vpow2]. destruct (Z.ltb_spec w 0); [lia|].
  cbn [tbind vsub arith]. rewrite vgt_int; cbn [tbind orb]. destruct (v >? 2 ^ w - 1); reflexivity.
Qed.
Lemma treg_set_int A r k v : treg_setitem A (of_reg r) (of_key k) (VI v) = of_reg_out (reg_setitem r k v).
Proof.
  unfold treg_setitem, reg_setitem. cbn [of_reg tr_data]. rewrite tsetitem_int.
  destruct (bf_setitem (r_data r) k v); reflexivity.
Qed.
(** With ints, registers, groups and register files do what [MRegisters.v] says. *)
Lemma C201_ints_pf : forall A,
  (forall v n w, 0 <= w -> treg_new A (VI v) n (VI w) = of_res of_reg (register_new v n w)) /\
  (forall r v, 0 <= r_width r -> treg_set_value A (of_reg r) (VI v) = of_reg_out (reg_set_value r v)) /\
  (forall r k, treg_getitem A (of_reg r) (of_key k) = of_res VI (reg_getitem r k)) /\
  (forall r k v, treg_setitem A (of_reg r) (of_key k) (VI v) = of_reg_out (reg_setitem r k v)) /\
  (forall g i, tgroup_getitem g (VI i) = of_res (fun x => x) (group_getitem g (KI i))) /\
  (forall rs i, tregs_getitem rs (VI i) = of_res (fun x => x) (registers_getitem rs (KI i))).
Proof.
  intros A. repeat apply conj.
  - intros v n w Hw. unfold treg_new, register_new. rewrite treg_check_int by assumption.
    destruct (reg_check w v); cbn [of_res tbind bind]; [|reflexivity].
    destruct (bad_name n); [reflexivity|]. rewrite !veq_int.
    destruct (negb (w =? 16) && negb (w =? 24)); [reflexivity|].
    rewrite tnew_int by assumption. destruct (bf_new 0 w 3 0) as [b|]; cbn [of_res tbind bind]; [|reflexivity].
    change (TSlice (VI 1) (VI w)) with (of_key (Slice (Some 1) (Some w))). rewrite tsetitem_int.
    destruct (bf_setitem b (Slice (Some 1) (Some w)) v) as [b' [u|e]]; reflexivity.
  - intros r v Hw. unfold treg_set_value, reg_set_value. cbn [of_reg tr_width tr_data].
    rewrite treg_check_int by assumption. destruct (reg_check (r_width r) v); cbn [of_res]; [|reflexivity].
    change (TSlice (VI 1) (VI (r_width r))) with (of_key (Slice (Some 1) (Some (r_width r)))).
    rewrite tsetitem_int. destruct (bf_setitem (r_data r) (Slice (Some 1) (Some (r_width r))) v); reflexivity.
  - intros r k. apply tgetitem_int.
  - intros. apply treg_set_int.
  - intros g i. unfold tgroup_getitem, group_getitem. rewrite vlt_int; cbn [tbind].
    destruct (i <? 0); [reflexivity|]. rewrite vge_int; cbn [tbind orb].
    destruct (i >=? zlen REGISTERS); [reflexivity|]. unfold dindex.
    induction (g_registers g) as [|[k n] d IH]; [reflexivity|]. cbn [find fst dget].
    destruct k as [j|s]; cbn [Py.eqb EqB_dkey dkey_eqb]; [|exact IH]. rewrite veq_int, (Z.eqb_sym i j).
    destruct (j =? i); [reflexivity|exact IH].
  - intros rs i. unfold tregs_getitem, registers_getitem.
    destruct ((i <? 0) || (i >=? NUM_GROUPS)); [reflexivity|].
    destruct (dindex (rs_registers rs) i); reflexivity.
Qed.

(*@
Example C201_ints_ex : forall A,
  treg_new A (VI 65536) None (VI 16) = TErr (PyExn ValueError) /\
  (exists r, treg_new A (VI 65535) None (VI 16) = TOk (of_reg r) /\ reg_value r = 65535).
Proof.
  intros A. split; rewrite (proj1 (C201_ints A)) by discriminate; [reflexivity|].
  exists (mkreg (mkbf 16 65535 65535 MSB_1 MSB_LEFT) None 16). split; vm_compute; reflexivity.
Qed.
@*)
Lemma check_refused A w v : is_int v = false -> refuses (treg_check A (VI w) v) \/ treg_check A (VI w) v = TOk tt.
Proof.
  intros Hv. destruct v as [z|f|t]; [discriminate| |left; cbn; auto using fails_refuses, @fails_type].
  unfold treg_check, vlt, vcmp; cbn [tbind].
  destruct (match fcmp f (Fin (inject_Z 0)) with Some Lt => true | _ => false end); [left; apply raise_refuses|].
  assert (exists p, vpow2 A (VI w) = TOk p /\ is_obj p = false) as [p [-> Hp]].
  { cbn. destruct (w <? 0); eexists; split; reflexivity. }
  cbn [tbind]. destruct (arith_num A Z.sub (fa_sub A) p (VI 1) Hp eq_refl) as [c [Hc [Oc _]]].
  unfold vsub. rewrite Hc; cbn [tbind]. unfold vgt.
  destruct (vcmp_num (VF f) c eq_refl Oc) as [d ->]. cbn [tbind].
  destruct (match d with Some Gt => true | _ => false end); [left; apply raise_refuses|now right].
Qed.
(** Nothing but an int becomes the value of a register. *)
Lemma C201_values_pf : forall A,
  (forall r v, is_int v = false ->
     fst (treg_set_value A (of_reg r) v) = of_reg r /\ refuses (snd (treg_set_value A (of_reg r) v))) /\
  (forall v n w, is_int v = false \/ is_int w = false -> exists e, treg_new A v n w = TErr e) /\
  (forall v n t, treg_new A v n (VO t) = TErr (PyExn TypeError)).
Proof.
  intros A. split; [|split].
  - intros r v Hv. unfold treg_set_value. cbn [of_reg tr_width tr_data].
    destruct (check_refused A (r_width r) v Hv) as [[e [-> He]]|E].
    + split; [reflexivity|]. exists e; auto.
    + rewrite E. pose proof (setitem_slice_dyn A (r_data r) (VI 1) (VI (r_width r)) v Hv) as [e [S He]].
      unfold tf_setitem. rewrite S. cbn [assign fst snd]. split; [reflexivity|]. exists e; auto.
  - intros v n w H. unfold treg_new.
    destruct (treg_check A w v); cbn [tbind]; [|eauto].
    destruct (bad_name n); [eauto|].
    destruct (negb (veq w 16) && negb (veq w 24)) eqn:E; [destruct (@raise_refuses treg w) as [e [-> _]]; eauto|].
    destruct w as [w|f|t].
    + destruct H as [H|H]; [|discriminate].
      assert (0 <= w).
      { rewrite !veq_int in E. apply andb_false_iff in E. rewrite !negb_false_iff, !Z.eqb_eq in E. lia. }
      rewrite tnew_int by assumption. destruct (bf_new 0 w 3 0) as [b|]; cbn [of_res tbind]; [|eauto].
      destruct (setitem_slice_dyn A b (VI 1) (VI w) v H) as [e [S _]].
      unfold tf_setitem. rewrite S. cbn. eauto.
    + unfold tf_new. unfold vgt at 1. cbn [vcmp tbind].
      match goal with |- context [if ?c then _ else _] => destruct c end; [cbn [tbind]; eauto|].
      cbn [vpow2 vsub arith tbind]. unfold vsub. cbn [arith tbind]. unfold vgt. cbn [vcmp tbind].
      match goal with |- context [if ?c then _ else _] => destruct c end; [cbn [tbind]; eauto|].
      change (vscheme (VI 3)) with (Some MSB_1). change (vorder (VI 0)) with (Some MSB_LEFT).
      cbn [tbind]. set (b := mktf _ _ _ _ _).
      assert (exists e, tf_setitem_value A b (TSlice (VI 1) (VF f)) v = TErr e) as [e S].
      { cbn [tf_setitem_value].
        assert (exists e, tbitmask A b (VI 1) (VF f) = TErr e) as [e0 B].
        { unfold tbitmask, tgetRange. destruct (tcheckRange A b (VI 1) (VF f)); cbn [tbind]; [|eauto].
          unfold trindex, b; cbn [tf_order tf_numbering]. unfold vsub; cbn [arith tbind].
          unfold trange_width, vsub, vadd; cbn [arith tbind tf_width].
          unfold tshift, vsub; cbn [tf_order tf_width arith tbind].
          destruct (vsame _ _); cbn [tbind vpow2 arith]; unfold vshl, bitop; eauto. }
        rewrite B. destruct (tcheckRange A b (VI 1) (VF f)); cbn [tbind]; [|eauto].
        destruct (tgetRange A b (VI 1) (VF f)) as [[rs re]|]; cbn [tbind]; [|eauto].
        destruct (trange_width A rs re); cbn [tbind]; [|eauto].
        destruct (tcheckValue A b v _); cbn [tbind]; eauto. }
      unfold tf_setitem. rewrite S. cbn. eauto.
    + discriminate E.
  - intros v n t. unfold treg_new, treg_check. destruct v as [z|f|u]; [| |reflexivity].
    + rewrite vlt_int. cbn [tbind]. destruct (z <? 0); reflexivity.
    + unfold vlt; cbn [vcmp tbind].
      match goal with |- context [if ?c then _ else _] => destruct c end; reflexivity.
Qed.
(*@
Example C201_values_ex : forall A,
  refuses (snd (treg_set_value A (of_reg (mkreg (mkbf 16 65535 7 MSB_1 MSB_LEFT) None 16)) (VF (Fin (inject_Z 5))))) /\
  (exists e, treg_new A (VI 5) None (VF (Fin (inject_Z 16))) = TErr e).
Proof. intros A. split; [apply C201_values; reflexivity|apply C201_values; now right]. Qed.
@*)
Lemma reg_set_width r v : r_width (fst (reg_set_value r v)) = r_width r.
Proof.
  unfold reg_set_value. destruct (reg_check (r_width r) v); [|reflexivity].
  destruct (bf_setitem (r_data r) (Slice (Some 1) (Some (r_width r))) v); reflexivity.
Qed.
(** After any assignments of any type a register is what the ints among them made it. *)
Lemma C201_history_pf : forall A r vs, 0 <= r_width r ->
  treg_assigns A (of_reg r) vs = of_reg (reg_assigns r (the_ints vs)).
Proof.
  intros A r vs. revert r. induction vs as [|v vs IH]; intros r Hw; [reflexivity|].
  unfold treg_assigns, reg_assigns. cbn [fold_left].
  change (the_ints (v :: vs)) with ((match v with VI z => [z] | _ => [] end) ++ the_ints vs)%list.
  destruct (is_int v) eqn:Hv.
  - destruct v as [z| |]; try discriminate. cbn [app fold_left].
    rewrite (proj1 (proj2 (C201_ints_pf A)) r z Hw). cbn [of_reg_out fst].
    apply IH. now rewrite reg_set_width.
  - rewrite (proj1 (proj1 (C201_values_pf A) r v Hv)).
    destruct v; [discriminate| |]; cbn [app]; now apply IH.
Qed.
(*@
Example C201_history_ex : forall A,
  let r := mkreg (mkbf 16 65535 7 MSB_1 MSB_LEFT) None 16 in
  treg_assigns A (of_reg r) [VF (Fin (inject_Z 3)); VI 9; VO true; VI 70000; VF NaN] = of_reg (reg_assigns r [9; 70000]) /\
  reg_value (reg_assigns r [9; 70000]) = 9.
Proof. intros A r. split; [apply C201_history; discriminate|vm_compute; reflexivity]. Qed.
@*)
(** Which register or group a key of any type finds *)
Lemma C201_keys_pf :
  (forall g f, match tgroup_getitem g (VF f) with
     | TOk r => exists n, equals f n = true /\ group_getitem g (KI n) = Ok r
     | TErr e => (forall n, equals f n = true -> exists x, group_getitem g (KI n) = Err x) /\
         e = match f with
             | Inf _ => OverflowError
             | NaN => PyExn KeyError
             | Fin q => if Qle_bool 0 q && negb (Qle_bool 32 q) then PyExn KeyError else PyExn ValueError
             end
     end) /\
  (forall g t, tgroup_getitem g (VO t) = TErr (PyExn TypeError)) /\
  (forall rs v, is_int v = false -> tregs_getitem rs v = TErr (PyExn ValueError)).
Proof.
  repeat apply conj.
  - intros g f.
    assert (forall n, equals f n = true -> tgroup_getitem g (VF f) = of_res (fun x => x) (group_getitem g (KI n))) as H.
    { intros n Hn. rewrite <- (proj1 (proj2 (proj2 (proj2 (proj2 (C201_ints_pf (mkfa (fun _ => NaN) (fun _ _ => NaN) (fun _ _ => NaN) (fun _ => NaN)))))))).
      destruct f as [q|[]|]; try discriminate. cbn [equals] in Hn. apply Qeq_bool_iff in Hn.
      unfold tgroup_getitem.
      assert (forall k, vcmp (VF (Fin q)) (VI k) = vcmp (VI n) (VI k)) as C.
      { intros k. unfold vcmp, fcmp. do 2 f_equal. rewrite Hn. unfold Qcompare; cbn. now rewrite !Z.mul_1_r. }
      unfold vlt, vge. rewrite !C. cbn [vcmp tbind].
      destruct (match Some (n ?= 0) with Some Lt => true | _ => false end); [reflexivity|].
      destruct (match Some (n ?= zlen REGISTERS) with Some Gt | Some Eq => true | _ => false end); [reflexivity|].
      replace (find (fun kv : dkey * nat => match fst kv with DI i => veq (VF (Fin q)) i | DS _ => false end) (g_registers g))
        with (find (fun kv : dkey * nat => match fst kv with DI i => veq (VI n) i | DS _ => false end) (g_registers g));
        [reflexivity|].
      induction (g_registers g) as [|[k r] d IH]; [reflexivity|]. cbn [find fst].
      destruct k as [j|s]; [|exact IH].
      assert (veq (VI n) j = veq (VF (Fin q)) j) as -> by (unfold veq; now rewrite C).
      destruct (veq (VF (Fin q)) j); [reflexivity|exact IH]. }
    destruct (tgroup_getitem g (VF f)) as [r|e] eqn:E.
    + unfold tgroup_getitem in E. cbn [vlt vge vcmp tbind] in E.
      destruct (match fcmp f (Fin (inject_Z 0)) with Some Lt => true | _ => false end); [destruct f as [|[]|]; discriminate E|].
      destruct (match fcmp f (Fin (inject_Z (zlen REGISTERS))) with Some Gt | Some Eq => true | _ => false end);
        [destruct f as [|[]|]; discriminate E|].
      destruct (find _ (g_registers g)) as [[k x]|] eqn:F; [|discriminate E].
      apply find_some in F as [_ F]. cbn [fst] in F. destruct k as [j|s]; [|discriminate F].
      rewrite equals_spec in F. exists j. split; [exact F|]. specialize (H j F).
      destruct (group_getitem g (KI j)); cbn [of_res] in H; congruence.
    + split; [intros n Hn; specialize (H n Hn); destruct (group_getitem g (KI n)); cbn [of_res] in H; [discriminate H|eauto]|].
      clear H. unfold tgroup_getitem in E. change (zlen REGISTERS) with 32 in E.
      destruct f as [q|[]|]; cbn [vlt vge vcmp fcmp tbind raise_d] in E.
      * change (inject_Z 0) with 0%Q in E. change (inject_Z 32) with 32%Q in E.
        destruct (Qcompare_spec q 0) as [C|C|C]; destruct (Qcompare_spec q 32) as [D|D|D]; cbn [tbind] in E.
        all: destruct (Qle_bool 0 q) eqn:E0; destruct (Qle_bool 32 q) eqn:E1; cbn [andb negb].
        all: rewrite ?Qle_bool_iff in *; try (apply not_true_iff_false in E0; rewrite Qle_bool_iff in E0);
             try (apply not_true_iff_false in E1; rewrite Qle_bool_iff in E1).
        all: try (exfalso; lra).
        all: try congruence.
        all: destruct (find _ (g_registers g)); congruence.
      * congruence.
      * congruence.
      * destruct (find _ (g_registers g)) eqn:F; congruence.
  - intros. reflexivity.
  - intros rs v Hv. destruct v; [discriminate|reflexivity|reflexivity].
Qed.
(*@
Example C201_keys_ex :
  let g := mkgroup 16 [(DI 3, 7%nat)] 0 in
  tgroup_getitem g (VF (Fin (inject_Z 3))) = TOk 7%nat /\
  tgroup_getitem g (VF (Fin (5 # 2))) = TErr (PyExn KeyError) /\
  tgroup_getitem g (VF (Inf false)) = TErr OverflowError /\
  tgroup_getitem g (VO true) = TErr (PyExn TypeError).
Proof. vm_compute. repeat split. Qed.
@*)
(** Slices, and the assignments that a group or a register file refuses *)
Lemma C201_refused_pf : forall g rs r n,
  group_getitem g KSlice = Err ValueError /\ group_setitem g KSlice r = (g, Err ValueError) /\
  (forall i, group_setitem g (KI i) r = (g, Err KeyError)) /\
  registers_getitem rs KSlice = Err ValueError /\ registers_setitem rs KSlice n = (rs, Err ValueError) /\
  (forall s, registers_getitem rs (KS s) = Err ValueError /\ registers_setitem rs (KS s) n = (rs, Err ValueError)).
Proof. intros. repeat split. Qed.
(*@
Example C201_refused_ex :
  let g := mkgroup 16 [(DI 3, 7%nat)] 0 in
  g_registers (fst (group_setitem g (KI 3) 9%nat)) = [(DI 3, 7%nat)].
Proof. intros g. rewrite (proj1 (proj2 (proj2 (C201_refused g (mkregisters 16 [] 0) 9%nat 0%nat)))). reflexivity. Qed.
@*)
