(** Instruction words and constants with arguments of any type. *)
From Verif Require Import Py LPy MBitField MWord MInstruction MDyn SDyn LDyn MDynWord SDynWord.

Lemma tkey_of f : tfield_key f = of_key (field_key f).
Proof. destruct f; reflexivity. Qed.
Lemma shadow_data w f v : iw_data (iw_shadow w f v) = iw_data w.
Proof. destruct w, f; reflexivity. Qed.
Lemma with_data_data w d : iw_data (iw_with_data w d) = d.
Proof. destruct w; reflexivity. Qed.
Lemma tiw_set_int A w f v :
  tiw_set A (of_bf (iw_data w)) f (VI v) = (of_bf (iw_data (fst (iw_set w f v))), of_res (fun x => x) (snd (iw_set w f v))).
Proof.
  unfold tiw_set, iw_set. rewrite tkey_of, tsetitem_int, shadow_data.
  destruct (bf_setitem (iw_data w) (field_key f) v) as [d r]. cbn [fst snd]. rewrite with_data_data. reflexivity.
Qed.
Lemma tiw_set_other A b f v : is_int v = false ->
  fst (tiw_set A (of_bf b) f v) = of_bf b /\ refuses (snd (tiw_set A (of_bf b) f v)).
Proof.
  intros H. unfold tiw_set, tf_setitem.
  assert (refuses (tf_setitem_value A (of_bf b) (tfield_key f) v)) as [e [-> E]] by (destruct f; now apply setitem_slice_dyn).
  cbn [assign fst snd]. split; [reflexivity|]. exists e; auto.
Qed.
Lemma tiw_init_int A f v w :
  tiw_init A f (VI v) (of_bf (iw_data w)) = of_res (fun x => of_bf (iw_data x)) (iw_init_field w f v).
Proof.
  unfold tiw_init, iw_init_field. unfold tiw_set. rewrite tkey_of, tsetitem_int.
  destruct (bf_setitem (iw_data w) (field_key f) v) as [d [u|e]]; [|reflexivity].
  cbn [of_out fst snd of_res]. now rewrite shadow_data, with_data_data.
Qed.
Lemma tiw_init_other A f v b : is_int v = false -> refuses (tiw_init A f v (of_bf b)).
Proof.
  intros H. destruct (tiw_set_other A b f v H) as [_ [e [E W]]]. unfold tiw_init.
  destruct (tiw_set A (of_bf b) f v) as [d r]. cbn [snd] in E. subst r. exists e; auto.
Qed.
Lemma tiw_init_any A f v w :
  (exists w', tiw_init A f v (of_bf (iw_data w)) = TOk (of_bf (iw_data w'))) \/ exists e, tiw_init A f v (of_bf (iw_data w)) = TErr e.
Proof.
  destruct (is_int v) eqn:I.
  - destruct v as [z| |]; try discriminate. rewrite tiw_init_int. destruct (iw_init_field w f z) as [x|e]; cbn [of_res]; eauto.
  - destruct (tiw_init_other A f v (iw_data w) I) as [e [E _]]. eauto.
Qed.
(** With ints, instruction words and constants are those of [MWord.v] and [MInstruction.v]. *)
Lemma C203_ints_pf : forall A,
  (forall c a b d, tiw_new A (VI c) (VI a) (VI b) (VI d) = of_res (fun w => of_bf (iw_data w)) (iw_new c a b d)) /\
  (forall w f v, tiw_set A (of_bf (iw_data w)) f (VI v) =
     (of_bf (iw_data (fst (iw_set w f v))), of_res (fun x => x) (snd (iw_set w f v)))) /\
  (forall w f, tiw_get A (of_bf (iw_data w)) f = of_res VI (iw_get w f)) /\
  (forall m v, tconstant_new A (VI v) = of_res of_bf (constant_new m v)).
Proof.
  intros A. repeat apply conj.
  - intros c a b d. unfold tiw_new, iw_new.
    destruct (word_new 0) as [x|] eqn:E0; [|discriminate E0]. injection E0 as <-.
    change (tword_new A (VI 0)) with (TOk (of_bf (mkbf 48 (2 ^ 48 - 1) 0 MSB_1 MSB_LEFT))).
    cbn [tbind bind].
    match goal with |- context [iw_init_field ?w Command c] => set (w0 := w) end.
    assert (of_bf (iw_data w0) = of_bf (mkbf 48 (2 ^ 48 - 1) 0 MSB_1 MSB_LEFT)) as <- by reflexivity.
    rewrite tiw_init_int. destruct (iw_init_field w0 Command c) as [w1|]; cbn [of_res tbind bind]; [|reflexivity].
    rewrite tiw_init_int. destruct (iw_init_field w1 FA a) as [w2|]; cbn [of_res tbind bind]; [|reflexivity].
    rewrite tiw_init_int. destruct (iw_init_field w2 FB b) as [w3|]; cbn [of_res tbind bind]; [|reflexivity].
    apply tiw_init_int.
  - intros. apply tiw_set_int.
  - intros w f. unfold tiw_get, iw_get. rewrite tkey_of. apply tgetitem_int.
  - intros m v. unfold tconstant_new, constant_new. rewrite vlt_int, vgt_int. cbn [tbind].
    destruct (v <? 0) eqn:L; [reflexivity|]. cbn [orb]. destruct (v >? 2 ^ 48 - 1) eqn:G; [reflexivity|].
    unfold tword_new, word_new, tword_check. rewrite vlt_int, vgt_int. cbn [tbind]. rewrite L, G. cbn [tbind].
    rewrite tnew_int by lia. unfold word_check. rewrite L, G. cbn [orb bind].
    destruct (bf_new 0 48 3 0) as [b|]; cbn [of_res tbind bind]; [|reflexivity].
    change (TSlice (VI 1) (VI 48)) with (of_key (Slice (Some 1) (Some 48))). rewrite tsetitem_int.
    destruct (bf_setitem b (Slice (Some 1) (Some 48)) v) as [b' [u|e]]; reflexivity.
Qed.
(** Nothing but ints becomes an address group, a command or a constant. *)
Lemma C203_refused_pf : forall A,
  (forall c a b d, is_int c && is_int a && is_int b && is_int d = false -> exists e, tiw_new A c a b d = TErr e) /\
  (forall b f v, is_int v = false -> fst (tiw_set A (of_bf b) f v) = of_bf b /\ refuses (snd (tiw_set A (of_bf b) f v))) /\
  (forall v, is_int v = false -> exists e, tconstant_new A v = TErr e).
Proof.
  intros A. repeat apply conj.
  - intros c a b d H. unfold tiw_new.
    change (tword_new A (VI 0)) with (TOk (of_bf (iw_data (mkiword (mkbf 48 (2 ^ 48 - 1) 0 MSB_1 MSB_LEFT) 0 0 0 0)))).
    cbn [tbind]. generalize (mkiword (mkbf 48 (2 ^ 48 - 1) 0 MSB_1 MSB_LEFT) 0 0 0 0). intros w.
    destruct (is_int c) eqn:Hc; [|destruct (tiw_init_other A Command c (iw_data w) Hc) as [e [-> _]]; cbn; eauto].
    destruct (tiw_init_any A Command c w) as [[w1 ->]|[e ->]]; cbn [tbind]; [|eauto].
    destruct (is_int a) eqn:Ha; [|destruct (tiw_init_other A FA a (iw_data w1) Ha) as [e [-> _]]; cbn; eauto].
    destruct (tiw_init_any A FA a w1) as [[w2 ->]|[e ->]]; cbn [tbind]; [|eauto].
    destruct (is_int b) eqn:Hb; [|destruct (tiw_init_other A FB b (iw_data w2) Hb) as [e [-> _]]; cbn; eauto].
    destruct (tiw_init_any A FB b w2) as [[w3 ->]|[e ->]]; cbn [tbind]; [|eauto].
    cbn [andb] in H. destruct (tiw_init_other A FC d (iw_data w3) H) as [e [-> _]]; eauto.
  - intros. now apply tiw_set_other.
  - intros v H. unfold tconstant_new. destruct (vlt v (VI 0)) as [l|]; cbn [tbind]; [|eauto].
    destruct l; [eauto|]. destruct (vgt v (VI (2 ^ 48 - 1))) as [g|]; cbn [tbind]; [|eauto].
    destruct g; [eauto|]. destruct (proj1 (C199_words_pf A) v H) as [e [-> _]]. eauto.
Qed.
(** After any assignments of any type an instruction word is what the ints among them made it. *)
Lemma C203_history_pf : forall A w ops,
  tiw_run A (of_bf (iw_data w)) ops = of_bf (iw_data (iw_run w (int_ops ops))).
Proof.
  intros A w ops. revert w. induction ops as [|[f v] ops IH]; intros w; [reflexivity|].
  unfold tiw_run, iw_run. cbn [fold_left fst snd].
  change (int_ops ((f, v) :: ops)) with ((match v with VI z => [SetField f z] | _ => [] end) ++ int_ops ops)%list.
  destruct (is_int v) eqn:Hv.
  - destruct v as [z| |]; try discriminate. cbn [app fold_left iw_step]. rewrite tiw_set_int. cbn [fst]. apply IH.
  - rewrite (proj1 (tiw_set_other A (iw_data w) f v Hv)).
    destruct v; [discriminate| |]; cbn [app]; apply IH.
Qed.
(*@
Example C203_ints_ex : forall A,
  (exists w, tiw_new A (VI 1) (VI 2) (VI 3) (VI 4095) = TOk (of_bf (iw_data w)) /\ iw_value w = 2 ^ 36 + 2 * 2 ^ 24 + 3 * 2 ^ 12 + 4095) /\
  tconstant_new A (VI (2 ^ 48)) = TErr (PyExn ValueError).
Proof.
  intros A. split; [|reflexivity]. rewrite (proj1 (C203_ints A)).
  exists (mkiword (mkbf 48 (2 ^ 48 - 1) (2 ^ 36 + 2 * 2 ^ 24 + 3 * 2 ^ 12 + 4095) MSB_1 MSB_LEFT) 1 2 3 4095).
  split; vm_compute; reflexivity.
Qed.
Example C203_refused_ex : forall A,
  (exists e, tiw_new A (VI 1) (VI 2) (VF (Fin (inject_Z 3))) (VI 4) = TErr e) /\
  tconstant_new A (VF (Fin (inject_Z 3))) = TErr (PyExn TypeError) /\ tconstant_new A (VF (Inf false)) = TErr (PyExn ValueError).
Proof. intros A. split; [apply (proj1 (C203_refused A)); reflexivity|split; reflexivity]. Qed.
Example C203_history_ex : forall A,
  let w := mkiword (mkbf 48 (2 ^ 48 - 1) 0 MSB_1 MSB_LEFT) 0 0 0 0 in
  tiw_run A (of_bf (iw_data w)) [(FC, VI 7); (FB, VF NaN); (FC, VO true); (FB, VI 1)] = of_bf (iw_data (iw_run w [SetField FC 7; SetField FB 1])) /\
  iw_value (iw_run w [SetField FC 7; SetField FB 1]) = 4103.
Proof. intros A w. split; [apply C203_history|vm_compute; reflexivity]. Qed.
@*)
