(** Property theorems; generated from LDynRead.v by meta/genp.py. *)
From Verif Require Import Py LPy MBitField MProto MDyn SDyn LDyn MDynRead SDynWidth LDynRead.

Theorem C199_whole : forall b v, 0 <= bf_width b -> let h := tf_with (of_bf b) v in
  tf_indices h = TOk (bf_indices b) /\ tf_lsb h = of_res (fun x => x) (bf_lsb b) /\ tf_msb h = of_res (fun x => x) (bf_msb b) /\
  tf_len h = TOk (bf_len b) /\ tf_bool h = TOk (negb (bf_len b =? 0)) /\
  (forall z, v = VI z -> tf_repr h (bf_width b) = TOk (bf_repr (mkbf (bf_width b) (bf_maxval b) z (bf_numbering b) (bf_order b)))) /\
  (is_int v = false -> tf_repr h (bf_width b) = TErr (PyExn TypeError)).
Proof. exact (@C199_whole_pf). Qed.
Print Assumptions C199_whole.

Theorem C204_reads_partial : forall h, float_width h ->
  tf_indices h = TErr (PyExn TypeError) /\ tf_lsb h = TErr (PyExn TypeError) /\ tf_msb h = TErr (PyExn TypeError) /\
  tf_len h = TErr (PyExn TypeError) /\ tf_bool h = TErr (PyExn TypeError).
Proof. exact (@C204_reads_partial_pf). Qed.
Print Assumptions C204_reads_partial.

Theorem C168_whole_partial : forall h w, tf_width h = VI w -> w < 0 ->
  tf_indices h = TOk [] /\ tf_lsb h = TErr (PyExn IndexError) /\ tf_msb h = TErr (PyExn IndexError) /\
  tf_len h = TErr (PyExn ValueError) /\ tf_bool h = TErr (PyExn ValueError) /\
  tf_repr h w = TErr (PyExn (if match tf_value h with VI _ => true | _ => false end then ValueError else TypeError)).
Proof. exact (@C168_whole_partial_pf). Qed.
Print Assumptions C168_whole_partial.

Example C199_whole_ex :
  let h := tf_with (of_bf (mkbf 4 15 0 MSB_1 MSB_LEFT)) (VF (Fin (5 # 2))) in
  tf_indices h = TOk [1; 2; 3; 4] /\ tf_msb h = TOk 1 /\ tf_lsb h = TOk 4 /\ tf_repr h 4 = TErr (PyExn TypeError).
Proof. intros h. split; [|split; [|split]]; vm_compute; reflexivity. Qed.
Example C204_reads_partial_ex :
  tf_len (mktf (VF (Fin (inject_Z 8))) (VF (Fin (inject_Z 255))) (VI 5) LSB_0 LSB_LEFT) = TErr (PyExn TypeError).
Proof. apply C204_reads_partial. unfold float_width; cbn; eauto. Qed.
Example C168_whole_partial_ex :
  tf_len (mktf (VI (-3)) (VF (Fin (-7 # 8))) (VI (-5)) LSB_0 LSB_LEFT) = TErr (PyExn ValueError).
Proof. apply (C168_whole_partial _ (-3)); reflexivity. Qed.
