(** Property theorems; generated from LDyn.v by meta/genp.py. *)
From Verif Require Import Py MBitField MDyn SDyn LDyn.

Theorem C199_ints : forall A,
  (forall v w n o, 0 <= w ->
     tf_new A (VI v) (VI w) (VI n) (VI o) = of_res of_bf (bf_new v w n o)) /\
  (forall b k, tf_getitem A (of_bf b) (of_key k) = of_res VI (bf_getitem b k)) /\
  (forall b i v, tf_isBit A (of_bf b) (VI i) (VI v) = of_res (fun x => x) (bf_isBit b i v)) /\
  (forall b s e v, tf_isRange A (of_bf b) (of_opt s) (of_opt e) (VI v)
                   = of_res (fun x => x) (bf_isRange b s e v)) /\
  (forall b, tf_get_value (of_bf b) = TOk (bf_value b) /\ tf_int (of_bf b) = TOk (bf_value b)) /\
  (forall b o, tf_step A (of_bf b) (of_op o) = of_out (bf_step b o)) /\
  (forall b i, tf_isBitSet A (of_bf b) (VI i) = of_res (fun x => x) (bf_isBitSet b i) /\
               tf_isBitClr A (of_bf b) (VI i) = of_res (fun x => x) (bf_isBitClr b i)) /\
  (forall b s e, tf_isRangeSet A (of_bf b) (of_opt s) (of_opt e) = of_res (fun x => x) (bf_isRangeSet b s e) /\
                 tf_isRangeClr A (of_bf b) (of_opt s) (of_opt e) = of_res (fun x => x) (bf_isRangeClr b s e)).
Proof. exact (@C199_ints_pf). Qed.
Print Assumptions C199_ints.

Theorem C199_calls_partial : forall A b o,
  (exists r, amounts (bf_width b) o r) /\
  (forall o', amounts (bf_width b) o (Some o') -> tf_step A (of_bf b) o = of_out (bf_step b o')) /\
  (amounts (bf_width b) o None ->
     fst (tf_step A (of_bf b) o) = of_bf b /\ refuses (snd (tf_step A (of_bf b) o))).
Proof. exact (@C199_calls_partial_pf). Qed.
Print Assumptions C199_calls_partial.

Theorem C199_history : forall A b ops,
  (exists ops', amounts_all (bf_width b) ops ops') /\
  (forall ops', amounts_all (bf_width b) ops ops' ->
     tf_run A (of_bf b) ops = of_bf (bf_run b ops')).
Proof. exact (@C199_history_pf). Qed.
Print Assumptions C199_history.

Theorem C199_reads : forall A b,
  (forall k, int_key k = false -> fails (tf_getitem A (of_bf b) k)) /\
  (forall i v, is_int i = false -> fails (tf_isBit A (of_bf b) i v)) /\
  (forall s e v, is_int s && is_int e = false -> fails (tf_isRange A (of_bf b) s e v)) /\
  (forall i f, tf_isBit A (of_bf b) (VI i) (VF f)
               = of_res (equals f) (bf_getitem b (Idx i))) /\
  (forall i t, tf_isBit A (of_bf b) (VI i) (VO t)
               = of_res (fun _ => false) (bf_getitem b (Idx i))) /\
  (forall s e v, (forall n, n = 0 \/ n = 1 -> match v with VI z => z <> n | VF f => equals f n = false | VO _ => True end) ->
     fails (tf_isRange A (of_bf b) s e v)).
Proof. exact (@C199_reads_pf). Qed.
Print Assumptions C199_reads.

Theorem C199_new : forall A,
  (forall f w n o, 0 <= w ->
     tf_new A (VF f) (VI w) (VI n) (VI o)
     = if (64 <? w) || above f (2 ^ w - 1) then TErr (PyExn ValueError)
       else of_res (fun b => tf_with (of_bf b) (VF f)) (bf_new 0 w n o)) /\
  (forall t w n o, 0 <= w -> fails (tf_new A (VO t) (VI w) n o)) /\
  (forall t v n o, fails (tf_new A v (VO t) n o)) /\
  (forall t v w o, 0 <= w -> fails (tf_new A v (VI w) (VO t) o)) /\
  (forall t v w n, 0 <= w -> fails (tf_new A v (VI w) n (VO t))).
Proof. exact (@C199_new_pf). Qed.
Print Assumptions C199_new.

Theorem C199_order : forall v w f g, number v f -> number w g ->
  (vlt v w = TOk true <-> less f g) /\ (vgt v w = TOk true <-> less g f) /\
  (vge v w = TOk true <-> f <> NaN /\ g <> NaN /\ ~ less f g) /\
  (vsame v w = true <-> f <> NaN /\ g <> NaN /\ ~ less f g /\ ~ less g f).
Proof. exact (@C199_order_pf). Qed.
Print Assumptions C199_order.

Example C199_order_ex :
  vge (VF (Inf true)) (VF (Inf true)) = TOk true /\ vlt (VF (Inf true)) (VI (-5)) = TOk true /\
  vgt (VI 3) (VF (Fin (5 # 2))) = TOk true /\ vge (VF NaN) (VF NaN) = TOk false /\
  less (Fin (5 # 2)) (Fin (inject_Z 3)).
Proof. repeat split; try reflexivity. exists (5 # 2)%Q. split; [apply Qle_refl|reflexivity]. Qed.

Theorem C199_float_held : forall A b f, let h := tf_with (of_bf b) (VF f) in
  (forall k, fails (tf_getitem A h k)) /\ tf_int h = TErr (PyExn TypeError) /\
  (forall q, f = Fin q -> exists z, tf_get_value h = TOk z /\ whole q z) /\
  (forall k v, fst (tf_setitem A h k v) = h /\ exists e, snd (tf_setitem A h k v) = TErr e) /\
  (forall v, snd (tf_set_value A h v) = snd (tf_set_value A (of_bf b) v) /\
             (forall u, snd (tf_set_value A h v) = TOk u ->
                fst (tf_set_value A h v) = fst (tf_set_value A (of_bf b) v))) /\
  (forall i, falsy i = true ->
     tf_set A h i = tf_set A (of_bf b) i /\ tf_clear A h i = tf_clear A (of_bf b) i).
Proof. exact (@C199_float_held_pf). Qed.
Print Assumptions C199_float_held.

(** A bit is cleared, the value becomes 3, every bit is set; "2.0", None and a float in a
    range are refused. *)
Example C199_calls_partial_ex A : let b := mkbf 4 15 6 LSB_0 LSB_LEFT in
  tf_step A (of_bf b) (TItem (TIdx (VI 1)) (VF (Fin (1#2)))) = (of_bf (with_value b 4), TOk tt) /\
  tf_step A (of_bf b) (TValue (VF (Fin (7#2)))) = (of_bf (with_value b 3), TOk tt) /\
  tf_step A (of_bf b) (TSet (VF (Fin 0))) = (of_bf (with_value b 15), TOk tt) /\
  tf_step A (of_bf b) (TItem (TIdx (VF (Fin 2))) (VI 1)) = (of_bf b, TErr (PyExn TypeError)) /\
  tf_step A (of_bf b) (TItem (TSlice (VI 0) (VI 2)) (VF (Fin 1))) = (of_bf b, TErr (PyExn TypeError)) /\
  tf_step A (of_bf b) (TValue (VO false)) = (of_bf b, TErr (PyExn TypeError)).
Proof. repeat split; reflexivity. Qed.
Example C199_history_ex A : let b := mkbf 4 15 6 LSB_0 LSB_LEFT in
  tf_run A (of_bf b) [TItem (TIdx (VI 1)) (VF (Fin (1#2))); TValue (VO true); TSet (VI 3); TClear (VO true)]
  = of_bf (bf_run b [OpItem (Idx 1) 0; OpSet (Some 3)]).
Proof. reflexivity. Qed.
Example C199_ints_ex A :
  tf_new A (VI 5) (VI 4) (VI 0) (VI 1) = TOk (of_bf (mkbf 4 15 5 LSB_0 LSB_LEFT)) /\
  tf_getitem A (of_bf (mkbf 4 15 5 LSB_0 LSB_LEFT)) (TIdx (VI 2)) = TOk (VI 1).
Proof. split; reflexivity. Qed.
Example C199_reads_ex A : let b := mkbf 4 15 6 LSB_0 LSB_LEFT in
  tf_getitem A (of_bf b) (TIdx (VF (Fin 2))) = TErr (PyExn TypeError) /\
  tf_isBit A (of_bf b) (VI 2) (VF (Fin 1)) = TOk true /\
  tf_isBit A (of_bf b) (VI 2) (VO true) = TOk false /\
  tf_isRange A (of_bf b) (VI 0) (VI 2) (VO false) = TErr (PyExn ValueError).
Proof. repeat split; reflexivity. Qed.
Example C199_new_ex A :
  tf_new A (VF (Fin (5#2))) (VI 4) (VI 0) (VI 1)
  = TOk (mktf (VI 4) (VI 15) (VF (Fin (5#2))) LSB_0 LSB_LEFT) /\
  tf_new A (VI 5) (VI 4) (VF (Fin 1)) (VI 1) = TOk (of_bf (mkbf 4 15 5 LSB_1 LSB_LEFT)) /\
  tf_new A (VO true) (VI 4) (VI 0) (VI 1) = TErr (PyExn TypeError).
Proof. repeat split; reflexivity. Qed.
Example C199_float_held_ex A : let h := mktf (VI 4) (VI 15) (VF (Fin (5#2))) LSB_0 LSB_LEFT in
  tf_getitem A h (TIdx (VI 1)) = TErr (PyExn TypeError) /\ tf_get_value h = TOk 2 /\
  tf_setitem A h (TIdx (VI 1)) (VI 1) = (h, TErr (PyExn TypeError)) /\
  fst (tf_set_value A h (VI 9)) = of_bf (mkbf 4 15 9 LSB_0 LSB_LEFT).
Proof. repeat split; reflexivity. Qed.

Theorem C199_refuted : (forall A b i, tf_step A (of_bf b) (TItem (TIdx (VI i)) (VF (Fin (1#2))))
                 = of_out (bf_step b (OpItem (Idx i) 0))) /\
  (forall A b, 2 <= bf_width b <= bf_maxval b ->
     tf_step A (of_bf b) (TValue (VF (Fin (7#2)))) = (of_bf (with_value b 3), TOk tt)) /\
  (forall A b, tf_step A (of_bf b) (TSet (VF (Fin 0))) = (of_bf (with_value b (bf_maxval b)), TOk tt)) /\
  ~ (forall A b o, int_call o = false ->
       fst (tf_step A (of_bf b) o) = of_bf b /\ refuses (snd (tf_step A (of_bf b) o))).
Proof. exact (@C199_refuted_pf). Qed.
Print Assumptions C199_refuted.

Example C199_refuted_ex A : let b := mkbf 4 15 6 LSB_0 LSB_LEFT in
  tf_step A (of_bf b) (TItem (TIdx (VI 2)) (VF (Fin (1#2)))) = (of_bf (with_value b 2), TOk tt) /\
  tf_step A (of_bf b) (TClear (VF (Fin 0))) = (of_bf (with_value b 0), TOk tt).
Proof. split; reflexivity. Qed.

Theorem C199_words : forall A,
  (forall v, is_int v = false -> refuses (tword_new A v)) /\
  (forall b q, a_word b -> (0 <= q <= inject_Z (2 ^ 48 - 1))%Q ->
     exists z, whole q z /\ tword_set_value A (of_bf b) (VF (Fin q)) = (of_bf (with_value b z), TOk tt)) /\
  (forall b q, ~ (0 <= q <= inject_Z (2 ^ 48 - 1))%Q ->
     tword_set_value A (of_bf b) (VF (Fin q)) = (of_bf b, TErr (PyExn ValueError))) /\
  (forall b v, is_int v = false -> (forall q, v <> VF (Fin q)) ->
     fst (tword_set_value A (of_bf b) v) = of_bf b /\ fails (snd (tword_set_value A (of_bf b) v))).
Proof. exact (@C199_words_pf). Qed.
Print Assumptions C199_words.

Example C199_words_ex A : let b := mkbf 48 (2 ^ 48 - 1) 9 MSB_1 MSB_LEFT in
  tword_set_value A (of_bf b) (VF (Fin (7#2))) = (of_bf (with_value b 3), TOk tt) /\
  tword_set_value A (of_bf b) (VF (Fin (-1#2))) = (of_bf b, TErr (PyExn ValueError)) /\
  tword_new A (VF (Fin 1)) = TErr (PyExn TypeError).
Proof. repeat split; reflexivity. Qed.
