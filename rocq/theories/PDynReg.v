(** Property theorems; generated from LDynReg.v by meta/genp.py. *)
From Verif Require Import Py LPy MBitField MRegisters MDyn SDyn LDyn MDynReg SDynReg LDynReg.

Theorem C201_ints : forall A,
  (forall v n w, 0 <= w -> treg_new A (VI v) n (VI w) = of_res of_reg (register_new v n w)) /\
  (forall r v, 0 <= r_width r -> treg_set_value A (of_reg r) (VI v) = of_reg_out (reg_set_value r v)) /\
  (forall r k, treg_getitem A (of_reg r) (of_key k) = of_res VI (reg_getitem r k)) /\
  (forall r k v, treg_setitem A (of_reg r) (of_key k) (VI v) = of_reg_out (reg_setitem r k v)) /\
  (forall g i, tgroup_getitem g (VI i) = of_res (fun x => x) (group_getitem g (KI i))) /\
  (forall rs i, tregs_getitem rs (VI i) = of_res (fun x => x) (registers_getitem rs (KI i))).
Proof. exact (@C201_ints_pf). Qed.
Print Assumptions C201_ints.

Example C201_ints_ex : forall A,
  treg_new A (VI 65536) None (VI 16) = TErr (PyExn ValueError) /\
  (exists r, treg_new A (VI 65535) None (VI 16) = TOk (of_reg r) /\ reg_value r = 65535).
Proof.
  intros A. split; rewrite (proj1 (C201_ints A)) by discriminate; [reflexivity|].
  exists (mkreg (mkbf 16 65535 65535 MSB_1 MSB_LEFT) None 16). split; vm_compute; reflexivity.
Qed.

Theorem C201_values : forall A,
  (forall r v, is_int v = false ->
     fst (treg_set_value A (of_reg r) v) = of_reg r /\ refuses (snd (treg_set_value A (of_reg r) v))) /\
  (forall v n w, is_int v = false \/ is_int w = false -> exists e, treg_new A v n w = TErr e) /\
  (forall v n t, treg_new A v n (VO t) = TErr (PyExn TypeError)).
Proof. exact (@C201_values_pf). Qed.
Print Assumptions C201_values.

Example C201_values_ex : forall A,
  refuses (snd (treg_set_value A (of_reg (mkreg (mkbf 16 65535 7 MSB_1 MSB_LEFT) None 16)) (VF (Fin (inject_Z 5))))) /\
  (exists e, treg_new A (VI 5) None (VF (Fin (inject_Z 16))) = TErr e).
Proof. intros A. split; [apply C201_values; reflexivity|apply C201_values; now right]. Qed.

Theorem C201_history : forall A r vs, 0 <= r_width r ->
  treg_assigns A (of_reg r) vs = of_reg (reg_assigns r (the_ints vs)).
Proof. exact (@C201_history_pf). Qed.
Print Assumptions C201_history.

Example C201_history_ex : forall A,
  let r := mkreg (mkbf 16 65535 7 MSB_1 MSB_LEFT) None 16 in
  treg_assigns A (of_reg r) [VF (Fin (inject_Z 3)); VI 9; VO true; VI 70000; VF NaN] = of_reg (reg_assigns r [9; 70000]) /\
  reg_value (reg_assigns r [9; 70000]) = 9.
Proof. intros A r. split; [apply C201_history; discriminate|vm_compute; reflexivity]. Qed.

Theorem C201_keys : (forall g f, match tgroup_getitem g (VF f) with
     | TOk r => exists n, equals f n = true /\ group_getitem g (KI n) = Ok r
     | TErr e => (forall n, equals f n = true -> exists x, group_getitem g (KI n) = Err x) /\
         e = match f with
             | Inf _ => OverflowError
             | NaN => PyExn KeyError
             | Fin q => if Qle_bool 0 q && negb (Qle_bool 32 q) then PyExn KeyError else PyExn ValueError
             end
     end) /\
  (forall g t, tgroup_getitem g (VO t) = TErr (PyExn TypeError)) /\
  (forall rs v, is_int v = false -> tregs_getitem rs v = TErr (PyExn ValueError)).
Proof. exact (@C201_keys_pf). Qed.
Print Assumptions C201_keys.

Example C201_keys_ex :
  let g := mkgroup 16 [(DI 3, 7%nat)] 0 in
  tgroup_getitem g (VF (Fin (inject_Z 3))) = TOk 7%nat /\
  tgroup_getitem g (VF (Fin (5 # 2))) = TErr (PyExn KeyError) /\
  tgroup_getitem g (VF (Inf false)) = TErr OverflowError /\
  tgroup_getitem g (VO true) = TErr (PyExn TypeError).
Proof. vm_compute. repeat split. Qed.

Theorem C201_refused : forall g rs r n,
  group_getitem g KSlice = Err ValueError /\ group_setitem g KSlice r = (g, Err ValueError) /\
  (forall i, group_setitem g (KI i) r = (g, Err KeyError)) /\
  registers_getitem rs KSlice = Err ValueError /\ registers_setitem rs KSlice n = (rs, Err ValueError) /\
  (forall s, registers_getitem rs (KS s) = Err ValueError /\ registers_setitem rs (KS s) n = (rs, Err ValueError)).
Proof. exact (@C201_refused_pf). Qed.
Print Assumptions C201_refused.

Example C201_refused_ex :
  let g := mkgroup 16 [(DI 3, 7%nat)] 0 in
  g_registers (fst (group_setitem g (KI 3) 9%nat)) = [(DI 3, 7%nat)].
Proof. intros g. rewrite (proj1 (proj2 (proj2 (C201_refused g (mkregisters 16 [] 0) 9%nat 0%nat)))). reflexivity. Qed.
