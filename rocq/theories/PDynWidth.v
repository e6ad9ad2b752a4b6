(** Property theorems; generated from LDynWidth.v by meta/genp.py. *)
From Verif Require Import Py LPy MBitField MDyn SDyn LDyn SDynWidth LDynWidth.

Theorem C204_width_refuted : forall A q z,
  (q <= inject_Z 64)%Q ->
  vgt (VI z) (VF (fa_sub A (fa_pow2 A (Fin q)) (fa_of_int A 1))) = TOk false ->
  exists h, tf_new A (VI z) (VF (Fin q)) (VI 0) (VI 1) = TOk h /\
    tf_width h = VF (Fin q) /\ tf_value h = VI z /\ exists g, tf_maxval h = VF g.
Proof. exact (@C204_width_refuted_pf). Qed.
Print Assumptions C204_width_refuted.

Theorem C204_items_partial : forall A h k v, float_width h ->
  (fst (tf_setitem A h k v) = h /\ exists e, snd (tf_setitem A h k v) = TErr e) \/
  (exists i z, k = TIdx (VI i) /\ v = VI 1 /\ tf_value h = VI z /\ tf_order h = LSB_LEFT /\
     (tf_numbering h = LSB_0 \/ tf_numbering h = LSB_1) /\
     0 <= place (tf_numbering h) i /\ vge (VI (place (tf_numbering h) i)) (tf_width h) = TOk false /\
     tf_setitem A h k v = (tf_with h (VI (Z.setbit z (place (tf_numbering h) i))), TOk tt)).
Proof. exact (@C204_items_partial_pf). Qed.
Print Assumptions C204_items_partial.

Theorem C204_bits_partial : forall A p q n z i, n = LSB_0 \/ n = LSB_1 ->
  let h := mktf (VF (Fin p)) (VF (Fin q)) (VI z) n LSB_LEFT in
  0 <= place n i -> (inject_Z (place n i) < p)%Q -> (1 <= q)%Q ->
  tf_setitem A h (TIdx (VI i)) (VI 1) = (tf_with h (VI (Z.setbit z (place n i))), TOk tt) /\
  tf_getitem A h (TIdx (VI i)) = TOk (VI (Z.b2z (Z.testbit z (place n i)))).
Proof. exact (@C204_bits_partial_pf). Qed.
Print Assumptions C204_bits_partial.

Theorem C204_history_partial : forall A h ops, float_width h -> (exists z, tf_value h = VI z) ->
  let h' := tf_run A h ops in
  tf_width h' = tf_width h /\ tf_maxval h' = tf_maxval h /\
  ((exists z, tf_value h' = VI z) \/
   (tf_value h' = tf_maxval h /\ forall k v, (exists e, tf_getitem A h' k = TErr e) /\
      fst (tf_setitem A h' k v) = h' /\ exists e, snd (tf_setitem A h' k v) = TErr e)).
Proof. exact (@C204_history_partial_pf). Qed.
Print Assumptions C204_history_partial.

Example C204_width_refuted_ex :
  let A := mkfa (fun z => Fin (inject_Z z)) (fun a _ => a) (fun _ _ => Fin (inject_Z 180)) (fun x => x) in
  exists h, tf_new A (VI 5) (VF (Fin (15 # 2))) (VI 0) (VI 1) = TOk h /\ tf_width h = VF (Fin (15 # 2)).
Proof.
  intros A. destruct (C204_width_refuted A (15 # 2) 5) as (h & E & W & _); [discriminate|reflexivity|]. eauto.
Qed.
Example C204_items_partial_ex : forall A,
  let h := mktf (VF (Fin (15 # 2))) (VF (Fin (inject_Z 180))) (VI 5) LSB_0 LSB_LEFT in
  tf_setitem A h (TIdx (VI 3)) (VI 1) = (tf_with h (VI 13), TOk tt) /\
  (exists e, snd (tf_setitem A h (TIdx (VI 0)) (VI 0)) = TErr e).
Proof.
  intros A h. split; [reflexivity|].
  destruct (C204_items_partial A h (TIdx (VI 0)) (VI 0)) as [[_ E]|(i & z & _ & [=] & _)]; [|exact E].
  unfold float_width; cbn; eauto.
Qed.
Example C204_bits_partial_ex : forall A,
  let h := mktf (VF (Fin (15 # 2))) (VF (Fin (inject_Z 180))) (VI 5) LSB_1 LSB_LEFT in
  tf_setitem A h (TIdx (VI 8)) (VI 1) = (tf_with h (VI 133), TOk tt).
Proof. intros A h. apply (C204_bits_partial A (15 # 2) (inject_Z 180) LSB_1 5 8); [now right|discriminate|reflexivity|discriminate]. Qed.
Example C204_history_partial_ex : forall A,
  let h := mktf (VF (Fin (inject_Z 8))) (VF (Fin (inject_Z 255))) (VI 5) LSB_0 LSB_LEFT in
  let h' := tf_run A h [TItem (TIdx (VI 3)) (VI 1); TItem (TIdx (VI 0)) (VI 0); TSet (VI 0)] in
  tf_value h' = VF (Fin (inject_Z 255)) /\ exists e, tf_getitem A h' (TIdx (VI 1)) = TErr e.
Proof.
  intros A h h'.
  assert (V : tf_value h' = VF (Fin (inject_Z 255))) by reflexivity. split; [exact V|].
  destruct (C204_history_partial A h [TItem (TIdx (VI 3)) (VI 1); TItem (TIdx (VI 0)) (VI 0); TSet (VI 0)]) as (_ & _ & [[z E]|[_ E]]).
  - unfold float_width; cbn; eauto.
  - cbn; eauto.
  - fold h' in E. congruence.
  - apply (E (TIdx (VI 1)) (VI 1)).
Qed.
