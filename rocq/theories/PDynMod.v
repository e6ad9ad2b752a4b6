(** Property theorems; generated from LDynMod.v by meta/genp.py. *)
From Verif Require Import Py LPy MBitField MWord MMemory MDyn SDyn LDyn MDynMem SDynMem LDynMem LMemory MDynMod LDynMod.

Theorem C200_modules_partial : forall m k,
  ((exists k', key_as k k') \/ no_address k) /\
  (forall k', key_as k k' -> tmodule_getitem m k = of_res (fun x => x) (module_getitem m k')) /\
  (no_address k -> tmodule_getitem m k = TErr (PyExn KeyError) \/
     exists t, k = MOne (VO t) false /\ tmodule_getitem m k = TErr (PyExn TypeError)).
Proof. exact (@C200_modules_partial_pf). Qed.
Print Assumptions C200_modules_partial.

Theorem C200_modules_refuted : forall m n q b, dget (mm_data m) n = Some b -> (q == inject_Z n)%Q ->
  tmodule_getitem m (MOne (VF (Fin q)) true) = TOk [n].
Proof. exact (@C200_modules_refuted_pf). Qed.
Print Assumptions C200_modules_refuted.

Example C200_modules_partial_ex : forall b,
  tmodule_getitem (mkmmodule 4 [(0, b); (1, b); (2, b); (3, b)]) (MSlice (VI 1) (VI 3)) = TOk [1; 2] /\
  tmodule_getitem (mkmmodule 4 [(0, b); (1, b); (2, b); (3, b)]) (MOne (VF (Fin (1 # 2))) true) = TErr (PyExn KeyError) /\
  tmodule_getitem (mkmmodule 4 [(0, b); (1, b); (2, b); (3, b)]) (MOne (VO true) false) = TErr (PyExn TypeError).
Proof. intros b. split; [|split]; reflexivity. Qed.
Example C200_modules_refuted_ex : forall b,
  tmodule_getitem (mkmmodule 4 [(0, b); (1, b); (2, b); (3, b)]) (MOne (VF (Fin (4 # 2))) true) = TOk [2].
Proof. intros b. apply (C200_modules_refuted _ 2 _ b); reflexivity. Qed.
