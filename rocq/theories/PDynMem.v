(** Property theorems; generated from LDynMem.v by meta/genp.py. *)
From Verif Require Import Py LPy MBitField MWord MMemory MDyn SDyn LDyn MDynMem SDynMem LDynMem.

Theorem C200_calls_partial : forall A m c, all_words m ->
  ((exists c', call_as c c') \/ foreign c) /\
  (forall c', call_as c c' ->
     tbank_call A (of_bank m) c = of_call_out (bank_call m c') /\ all_words (fst (bank_call m c'))) /\
  (foreign c ->
     fst (tbank_call A (of_bank m) c) = of_bank m /\
     ((exists e, snd (tbank_call A (of_bank m) c) = TErr (PyExn e)) \/
      (to_nothing c /\ snd (tbank_call A (of_bank m) c) = TOk []))).
Proof. exact (@C200_calls_partial_pf). Qed.
Print Assumptions C200_calls_partial.

Theorem C200_history : forall A,
  (exists m, bank_new = Ok m /\ tbank_new A = TOk (of_bank m) /\ all_words m) /\
  (forall cs, exists cs', calls_as cs cs') /\
  (forall m cs cs', all_words m -> calls_as cs cs' ->
     snd (tbank_trace A (of_bank m) cs) = of_bank (bank_run m cs')).
Proof. exact (@C200_history_pf). Qed.
Print Assumptions C200_history.

Theorem C200_refuted : forall A m n w, all_words m -> dget (mb_data m) n = Some w ->
  tbank_call A (of_bank m) (XGet (MOne (VF (Fin (inject_Z n))) true)) = (of_bank m, TOk [word_value w]) /\
  tbank_call A (of_bank m) (XSet (MOne (VI n) true) (VF (Fin (7#2))))
  = of_call_out (bank_call m (MSet (Idx n) 3)).
Proof. exact (@C200_refuted_pf). Qed.
Print Assumptions C200_refuted.

Example C200_calls_partial_ex A : let w := mkbf 48 (2 ^ 48 - 1) 9 MSB_1 MSB_LEFT in
  let m := mkbank [(0, w); (1, with_value w 5)] 48 0 in
  all_words m /\
  tbank_call A (of_bank m) (XGet (MOne (VF (Fin 1)) true)) = (of_bank m, TOk [5]) /\
  tbank_call A (of_bank m) (XGet (MOne (VF (Fin (1#2))) true)) = (of_bank m, TErr (PyExn KeyError)) /\
  tbank_call A (of_bank m) (XSet (MSlice (VI 0) (VI 2)) (VF (Fin (7#2))))
  = (of_bank (mkbank [(0, with_value w 3); (1, with_value w 3)] 48 0), TOk []) /\
  tbank_call A (of_bank m) (XSet (MSlice (VI 0) (VI 2)) (VO true)) = (of_bank m, TErr (PyExn TypeError)) /\
  tbank_call A (of_bank m) (XSet (MSlice (VI 1) (VI 1)) (VO true)) = (of_bank m, TOk []).
Proof.
  cbv zeta. split; [|repeat split; reflexivity].
  intros a w [E|[E|[]]]; injection E as <- <-; repeat split.
Qed.
Example C200_history_ex A : let w := mkbf 48 (2 ^ 48 - 1) 9 MSB_1 MSB_LEFT in
  let m := mkbank [(0, w); (1, w)] 48 0 in
  snd (tbank_trace A (of_bank m) [XSet (MOne (VI 0) true) (VF (Fin (7#2))); XSet (MOne (VO true) true) (VI 1); XNext; XRef 1 (VO false)])
  = of_bank (bank_run m [MSet (Idx 0) 3; MNext]).
Proof. reflexivity. Qed.
Example C200_refuted_ex A : let w := mkbf 48 (2 ^ 48 - 1) 9 MSB_1 MSB_LEFT in
  let m := mkbank [(0, w); (1, with_value w 5)] 48 0 in
  dget (mb_data m) 1 = Some (with_value w 5) /\
  fst (tbank_call A (of_bank m) (XSet (MOne (VI 1) true) (VF (Fin (7#2)))))
  = of_bank (mkbank [(0, w); (1, with_value w 3)] 48 0).
Proof. split; reflexivity. Qed.
