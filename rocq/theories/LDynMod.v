(** Memory modules with keys of any type. *)
From Verif Require Import Py LPy MBitField MWord MMemory MDyn SDyn LDyn MDynMem SDynMem LDynMem LMemory MDynMod.

Lemma find_bank (d : dict Z bank) v n : same_number v n ->
  find (fun kv : Z * bank => veq v (fst kv)) d = match dget d n with Some b => Some (n, b) | None => None end.
Proof.
  intros H. induction d as [|[k w] d IH]; [reflexivity|]. cbn [find fst snd dget].
  rewrite (same_veq v n k H). change (Py.eqb k n) with (k =? n).
  destruct (Z.eqb_spec k n) as [->|N]; [reflexivity|exact IH].
Qed.
Lemma bank_of_as d v h n : same_number v n -> tbank_of d v h = of_res (fun _ => n) (dindex d n).
Proof.
  intros H. unfold tbank_of, dindex.
  destruct v as [z|f|t]; [| |destruct H]; rewrite (find_bank _ _ n H); destruct (dget d n); reflexivity.
Qed.
Lemma banks_of_as d l : tbanks_of d l = of_res (fun x => x) (module_refs d l).
Proof.
  induction l as [|i l IH]; [reflexivity|]. cbn [tbanks_of module_refs].
  rewrite (bank_of_as d (VI i) true i eq_refl), IH. destruct (dindex d i); cbn [of_res tbind bind]; [|reflexivity].
  destruct (module_refs d l); reflexivity.
Qed.
(** A key of any type picks the banks of the int key it is equal to, or is refused. *)
Lemma C200_modules_partial_pf : forall m k,
  ((exists k', key_as k k') \/ no_address k) /\
  (forall k', key_as k k' -> tmodule_getitem m k = of_res (fun x => x) (module_getitem m k')) /\
  (no_address k -> tmodule_getitem m k = TErr (PyExn KeyError) \/
     exists t, k = MOne (VO t) false /\ tmodule_getitem m k = TErr (PyExn TypeError)).
Proof.
  intros m k. repeat apply conj.
  - destruct k as [v h|s e].
    + destruct (number_dec v) as [[n H]|H]; [left; exists (Idx n); now constructor|right; exact H].
    + left. exists (Slice (match s with VI z => Some z | _ => None end) (match e with VI z => Some z | _ => None end)).
      constructor; [destruct s|destruct e]; reflexivity.
  - intros k' K. destruct K as [v h n H|s e os oe Hs He]; cbn [tmodule_getitem module_getitem].
    + rewrite (bank_of_as _ _ _ n H). destruct (dindex (mm_data m) n); reflexivity.
    + destruct s as [s|f|t]; cbn [bound] in Hs; subst os; destruct e as [e|g|u]; cbn [bound] in He; subst oe; try reflexivity.
      cbn [vrange tbind]. apply banks_of_as.
  - intros N. destruct k as [v h|s e]; cbn [no_address] in N; [|destruct N]. cbn [tmodule_getitem].
    destruct v as [z|f|t].
    + exfalso. apply (N z). reflexivity.
    + left. unfold tbank_of.
      assert (find (fun kv : Z * bank => veq (VF f) (fst kv)) (mm_data m) = None) as ->; [|reflexivity].
      { generalize (mm_data m). intros d. induction d as [|[k w] d IH]; [reflexivity|]. cbn [find fst].
        destruct (veq (VF f) k) eqn:E; [|exact IH]. exfalso. apply (N k). now apply veq_same. }
    + destruct h; cbn; [now left|right; eauto].
Qed.
(** A float is a key of a module. *)
Lemma C200_modules_refuted_pf : forall m n q b, dget (mm_data m) n = Some b -> (q == inject_Z n)%Q ->
  tmodule_getitem m (MOne (VF (Fin q)) true) = TOk [n].
Proof.
  intros m n q b D Q1. cbn [tmodule_getitem]. rewrite (bank_of_as _ _ _ n).
  - unfold dindex. rewrite D. reflexivity.
  - cbn [same_number equals]. now apply Qeq_bool_iff.
Qed.
(*@
Example C200_modules_partial_ex : forall b,
  tmodule_getitem (mkmmodule 4 [(0, b); (1, b); (2, b); (3, b)]) (MSlice (VI 1) (VI 3)) = TOk [1; 2] /\
  tmodule_getitem (mkmmodule 4 [(0, b); (1, b); (2, b); (3, b)]) (MOne (VF (Fin (1 # 2))) true) = TErr (PyExn KeyError) /\
  tmodule_getitem (mkmmodule 4 [(0, b); (1, b); (2, b); (3, b)]) (MOne (VO true) false) = TErr (PyExn TypeError).
Proof. intros b. split; [|split]; reflexivity. Qed.
Example C200_modules_refuted_ex : forall b,
  tmodule_getitem (mkmmodule 4 [(0, b); (1, b); (2, b); (3, b)]) (MOne (VF (Fin (4 # 2))) true) = TOk [2].
Proof. intros b. apply (C200_modules_refuted _ 2 _ b); reflexivity. Qed.
@*)
