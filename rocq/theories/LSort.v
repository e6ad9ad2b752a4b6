(** sorted() *)
From Coq Require Import ZArith List Bool Lia Permutation Sorted.
From Verif Require Import Py LPy.

Section SORT.
  Context {A : Type} (le : A -> A -> bool).
  Hypothesis total : forall x y, le x y = true \/ le y x = true.
  Hypothesis trans : forall x y z, le x y = true -> le y z = true -> le x z = true.

  Lemma insert_perm x l : Permutation (x :: l) (insert_by le x l).
  Proof using. clear.
    induction l as [|y l IH]; cbn [insert_by]; [reflexivity|].
    destruct (le x y); [reflexivity|]. rewrite perm_swap. constructor. exact IH.
  Qed.
  Lemma sort_perm l : Permutation l (sort_by le l).
  Proof using. clear.
    induction l as [|x l IH]; cbn [sort_by]; [reflexivity|].
    rewrite <- insert_perm. constructor. exact IH.
  Qed.
  Lemma sort_In x l : In x (sort_by le l) <-> In x l.
  Proof using. clear.
    split; intros H.
    - eapply Permutation_in; [symmetry; apply sort_perm|exact H].
    - eapply Permutation_in; [apply sort_perm|exact H].
  Qed.
  Lemma insert_sorted x l :
    StronglySorted (fun a b => le a b = true) l ->
    StronglySorted (fun a b => le a b = true) (insert_by le x l).
  Proof using total trans.
    induction l as [|y l IH]; cbn [insert_by]; intros S; [repeat constructor|].
    inversion S as [|y' l' S' F]; subst. destruct (le x y) eqn:E.
    - constructor; [exact S|]. constructor; [exact E|].
      eapply Forall_impl; [|exact F]. intros z Hz. eapply trans; eassumption.
    - constructor; [apply IH; exact S'|].
      eapply Permutation_Forall; [apply insert_perm|]. constructor; [|exact F].
      destruct (total x y) as [T|T]; [congruence|exact T].
  Qed.
  Lemma sort_sorted l : StronglySorted (fun a b => le a b = true) (sort_by le l).
  Proof using total trans.
    induction l as [|x l IH]; cbn [sort_by]; [constructor|]. apply insert_sorted. exact IH.
  Qed.
End SORT.

Lemma sorted_lt l : NoDup l -> StronglySorted (fun a b => (a <=? b) = true) l -> StronglySorted Z.lt l.
Proof.
  induction l as [|x l IH]; intros N S; [constructor|].
  inversion N as [|x' l' NI N']; inversion S as [|x'' l'' S' F]; subst.
  constructor; [apply IH; assumption|]. rewrite Forall_forall in *. intros y I.
  specialize (F y I). assert (x <> y) by (intros ->; contradiction). lia.
Qed.
Lemma zsort_lt l : NoDup l -> StronglySorted Z.lt (sort_by Z.leb l).
Proof.
  intros N. apply sorted_lt.
  - eapply Permutation_NoDup; [apply sort_perm|exact N].
  - apply sort_sorted; intros; lia.
Qed.
