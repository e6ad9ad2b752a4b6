(** Property theorems; generated from LDynWord.v by meta/genp.py. *)
From Verif Require Import Py LPy MBitField MWord MInstruction MDyn SDyn LDyn MDynWord SDynWord LDynWord.

Theorem C203_ints : forall A,
  (forall c a b d, tiw_new A (VI c) (VI a) (VI b) (VI d) = of_res (fun w => of_bf (iw_data w)) (iw_new c a b d)) /\
  (forall w f v, tiw_set A (of_bf (iw_data w)) f (VI v) =
     (of_bf (iw_data (fst (iw_set w f v))), of_res (fun x => x) (snd (iw_set w f v)))) /\
  (forall w f, tiw_get A (of_bf (iw_data w)) f = of_res VI (iw_get w f)) /\
  (forall m v, tconstant_new A (VI v) = of_res of_bf (constant_new m v)).
Proof. exact (@C203_ints_pf). Qed.
Print Assumptions C203_ints.

Theorem C203_refused : forall A,
  (forall c a b d, is_int c && is_int a && is_int b && is_int d = false -> exists e, tiw_new A c a b d = TErr e) /\
  (forall b f v, is_int v = false -> fst (tiw_set A (of_bf b) f v) = of_bf b /\ refuses (snd (tiw_set A (of_bf b) f v))) /\
  (forall v, is_int v = false -> exists e, tconstant_new A v = TErr e).
Proof. exact (@C203_refused_pf). Qed.
Print Assumptions C203_refused.

Theorem C203_history : forall A w ops,
  tiw_run A (of_bf (iw_data w)) ops = of_bf (iw_data (iw_run w (int_ops ops))).
Proof. exact (@C203_history_pf). Qed.
Print Assumptions C203_history.

Example C203_ints_ex : forall A,
  (exists w, tiw_new A (VI 1) (VI 2) (VI 3) (VI 4095) = TOk (of_bf (iw_data w)) /\ iw_value w = 2 ^ 36 + 2 * 2 ^ 24 + 3 * 2 ^ 12 + 4095) /\
  tconstant_new A (VI (2 ^ 48)) = TErr (PyExn ValueError).
Proof.
  intros A. split; [|reflexivity]. rewrite (proj1 (C203_ints A)).
  exists (mkiword (mkbf 48 (2 ^ 48 - 1) (2 ^ 36 + 2 * 2 ^ 24 + 3 * 2 ^ 12 + 4095) MSB_1 MSB_LEFT) 1 2 3 4095).
  split; vm_compute; reflexivity.
Qed.
Example C203_refused_ex : forall A,
  (exists e, tiw_new A (VI 1) (VI 2) (VF (Fin (inject_Z 3))) (VI 4) = TErr e) /\
  tconstant_new A (VF (Fin (inject_Z 3))) = TErr (PyExn TypeError) /\ tconstant_new A (VF (Inf false)) = TErr (PyExn ValueError).
Proof. intros A. split; [apply (proj1 (C203_refused A)); reflexivity|split; reflexivity]. Qed.
Example C203_history_ex : forall A,
  let w := mkiword (mkbf 48 (2 ^ 48 - 1) 0 MSB_1 MSB_LEFT) 0 0 0 0 in
  tiw_run A (of_bf (iw_data w)) [(FC, VI 7); (FB, VF NaN); (FC, VO true); (FB, VI 1)] = of_bf (iw_data (iw_run w [SetField FC 7; SetField FB 1])) /\
  iw_value (iw_run w [SetField FC 7; SetField FB 1]) = 4103.
Proof. intros A w. split; [apply C203_history|vm_compute; reflexivity]. Qed.
