(** indices, lsb, msb, len, bool and repr of fields that hold a float or have one for a width. *)
From Verif Require Import Py LPy MBitField MProto MDyn SDyn LDyn MDynRead SDynWidth.
Open Scope Z_scope.

(** The numbering of the bits depends on the layout only, whatever the field holds; repr is refused unless it
    holds an int. *)
Lemma C199_whole_pf : forall b v, 0 <= bf_width b -> let h := tf_with (of_bf b) v in
  tf_indices h = TOk (bf_indices b) /\ tf_lsb h = of_res (fun x => x) (bf_lsb b) /\ tf_msb h = of_res (fun x => x) (bf_msb b) /\
  tf_len h = TOk (bf_len b) /\ tf_bool h = TOk (negb (bf_len b =? 0)) /\
  (forall z, v = VI z -> tf_repr h (bf_width b) = TOk (bf_repr (mkbf (bf_width b) (bf_maxval b) z (bf_numbering b) (bf_order b)))) /\
  (is_int v = false -> tf_repr h (bf_width b) = TErr (PyExn TypeError)).
Proof.
  intros b v W h.
  assert (I : tf_indices h = TOk (bf_indices b)).
  { unfold tf_indices, bf_indices. cbn [tf_width h of_bf tf_with]. reflexivity. }
  assert (L : tf_len h = TOk (bf_len b)).
  { unfold tf_len. cbn [tf_width h of_bf tf_with]. destruct (Z.ltb_spec (bf_width b) 0); [lia|reflexivity]. }
  split; [exact I|]. split.
  { unfold tf_lsb, bf_lsb. rewrite I. cbn [tbind tf_order h of_bf tf_with].
    destruct (bf_order b); (match goal with |- context [py_index ?l ?i] => destruct (py_index l i) end); reflexivity. }
  split.
  { unfold tf_msb, bf_msb. rewrite I. cbn [tbind tf_order h of_bf tf_with].
    destruct (bf_order b); (match goal with |- context [py_index ?l ?i] => destruct (py_index l i) end); reflexivity. }
  split; [exact L|]. split.
  { unfold tf_bool. rewrite L. reflexivity. }
  split.
  - intros z ->. unfold tf_repr. cbn [tf_value h of_bf tf_with]. destruct (Z.ltb_spec (bf_width b) 0); [lia|reflexivity].
  - intros N. unfold tf_repr. cbn [tf_value h of_bf tf_with]. destruct v; [discriminate|reflexivity|reflexivity].
Qed.
(** A field with a float for a width has no indices, no ends, no length and no truth value. *)
Lemma C204_reads_partial_pf : forall h, float_width h ->
  tf_indices h = TErr (PyExn TypeError) /\ tf_lsb h = TErr (PyExn TypeError) /\ tf_msb h = TErr (PyExn TypeError) /\
  tf_len h = TErr (PyExn TypeError) /\ tf_bool h = TErr (PyExn TypeError).
Proof.
  intros h (f & g & W & _). unfold tf_bool, tf_lsb, tf_msb, tf_indices, tf_len. rewrite W. repeat split.
Qed.
(** A field of negative width has no indices, and no length, truth value or repr. *)
Lemma C168_whole_partial_pf : forall h w, tf_width h = VI w -> w < 0 ->
  tf_indices h = TOk [] /\ tf_lsb h = TErr (PyExn IndexError) /\ tf_msb h = TErr (PyExn IndexError) /\
  tf_len h = TErr (PyExn ValueError) /\ tf_bool h = TErr (PyExn ValueError) /\
  tf_repr h w = TErr (PyExn (if match tf_value h with VI _ => true | _ => false end then ValueError else TypeError)).
Proof.
  intros h w W N.
  assert (I : tf_indices h = TOk []).
  { unfold tf_indices. rewrite W. unfold py_range. replace (Z.to_nat (w - 0)) with 0%nat by lia. reflexivity. }
  assert (L : w <? 0 = true) by lia.
  split; [exact I|]. unfold tf_lsb, tf_msb, tf_bool, tf_len, tf_repr. rewrite I, W, L. cbn [tbind].
  repeat split; [destruct (tf_order h); reflexivity|destruct (tf_order h); reflexivity|destruct (tf_value h); reflexivity].
Qed.
(*@
Example C199_whole_ex :
  let h := tf_with (of_bf (mkbf 4 15 0 MSB_1 MSB_LEFT)) (VF (Fin (5 # 2))) in
  tf_indices h = TOk [1; 2; 3; 4] /\ tf_msb h = TOk 1 /\ tf_lsb h = TOk 4 /\ tf_repr h 4 = TErr (PyExn TypeError).
Proof. intros h. split; [|split; [|split]]; vm_compute; reflexivity. Qed.
Example C204_reads_partial_ex :
  tf_len (mktf (VF (Fin (inject_Z 8))) (VF (Fin (inject_Z 255))) (VI 5) LSB_0 LSB_LEFT) = TErr (PyExn TypeError).
Proof. apply C204_reads_partial. unfold float_width; cbn; eauto. Qed.
Example C168_whole_partial_ex :
  tf_len (mktf (VI (-3)) (VF (Fin (-7 # 8))) (VI (-5)) LSB_0 LSB_LEFT) = TErr (PyExn ValueError).
Proof. apply (C168_whole_partial _ (-3)); reflexivity. Qed.
@*)
