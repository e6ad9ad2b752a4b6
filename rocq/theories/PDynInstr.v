(** Property theorems; generated from LDynInstr.v by meta/genp.py. *)
From Verif Require Import Py LPy MBitField MInstruction MDyn SDyn LDyn MDynInstr SDynInstr LDynInstr.

Theorem C202_encoded : forall A o x y, encodes x y ->
  tinstr_new A o x = of_res (fun i => of_bf (i_data i)) (instr_new o y).
Proof. exact (@C202_encoded_pf). Qed.
Print Assumptions C202_encoded.

Theorem C202_refused : forall A o x,
  (exists y i, encodes x y /\ instr_new o y = Ok i /\ tinstr_new A o x = TOk (of_bf (i_data i))) \/
  (exists e, tinstr_new A o x = TErr e).
Proof. exact (@C202_refused_pf). Qed.
Print Assumptions C202_refused.

Theorem C202_equal : (forall v z, flag_of v = Some z \/ sequence_of v = Some z \/ number_of v = Some z ->
     v = VI z \/ exists f, v = VF f /\ equals f z = true) /\
  (forall y y', encodes (mktargs (num (sequence y)) (num (mask y)) (num (arg_a y)) (num (arg_b y)) (num (arg_c y))
                                 (num (paddr y))) y' <-> y' = y).
Proof. exact (@C202_equal_pf). Qed.
Print Assumptions C202_equal.

(** BA with the sequence bit 0.0 and the A bit 1.0 is BA with 0 and 1; a mask of 3.0, a
    sequence bit of 1.0 and an A bit of None's kin, a text, are refused. *)
Example C202_encoded_ex : forall A, let o := mkopcode (lit "BA") (lit "BinaryAdd") (Some 2) (Some 1) (Some 9) (lit "maskable") in
  exists i, instr_new o (mkiargs (Some 0) None (Some 1) (Some 0) (Some 1) None) = Ok i /\
  tinstr_new A o (mktargs (Some (VF (Fin (inject_Z 0)))) None (Some (VF (Fin (inject_Z 1)))) (Some (VI 0)) (Some (VI 1)) None)
  = TOk (of_bf (i_data i)) /\ instr_value i = 1024 + 256 + 64 + 9.
Proof.
  intros A o. eexists. split; [reflexivity|]. split; [|reflexivity].
  rewrite (C202_encoded A o _ (mkiargs (Some 0) None (Some 1) (Some 0) (Some 1) None)); [reflexivity|].
  repeat split; try reflexivity; discriminate.
Qed.
Example C202_refused_ex : forall A, let o := mkopcode (lit "BA") (lit "BinaryAdd") (Some 2) (Some 1) (Some 9) (lit "maskable") in
  tinstr_new A o (mktargs (Some (VI 0)) (Some (VF (Fin (inject_Z 3)))) None None None None) = TErr (PyExn TypeError) /\
  tinstr_new A o (mktargs (Some (VF (Fin (inject_Z 1)))) None None None None None) = TErr (PyExn TypeError) /\
  tinstr_new A o (mktargs (Some (VI 0)) None (Some (VO true)) None None None) = TErr (PyExn ValueError).
Proof. intros A o. repeat split; reflexivity. Qed.
Example C202_equal_ex : flag_of (VF (Fin (2 # 2))) = Some 1 /\ flag_of (VF (Fin (1 # 2))) = None /\ sequence_of (VF (Fin (2 # 2))) = None.
Proof. repeat split; reflexivity. Qed.
