From Coq Require Import ZArith List Bool Lia Permutation.
From Verif Require Import Py LPy MInstruction MCards SCards LCards LDeck MSymbols SSymbols MInstructions MTools STools LTools MDiag MDump MVerbose SVerbose LVerbose SOrder.
#[local] Arguments Z.add : simpl never.
#[local] Arguments Z.sub : simpl never.
#[local] Arguments Z.mul : simpl never.
#[local] Arguments Z.pow : simpl never.

Lemma count_perm {A} (P : A -> Prop) a b : Permutation a b -> forall n, count_of P a n -> count_of P b n.
Proof.
  induction 1 as [|x a b H IH|x y l|a b c H IH H2 IH2]; intros n C.
  - exact C.
  - inversion C; subst; [apply cn_yes|apply cn_no]; auto.
  - inversion C as [|? ? ? HX C1|? ? ? HX C1]; subst; inversion C1; subst; repeat (first [apply cn_yes; [assumption|]|apply cn_no; [assumption|]]); assumption.
  - auto.
Qed.
Lemma perm_rows {A B} (R : A -> B -> Prop) a a' : Permutation a a' -> forall b, Forall2 R a b -> exists b', Forall2 R a' b' /\ Permutation b b'.
Proof.
  induction 1 as [|x a a' H IH|x y l|a a' a'' H IH H2 IH2]; intros b F.
  - exists b. split; [exact F|reflexivity].
  - inversion F as [|? z ? c HX F']; subst. destruct (IH c F') as (c' & G & Q). exists (z :: c'). split; constructor; assumption.
  - inversion F as [|? z ? c HX F']; subst. inversion F' as [|? w ? d HY F'']; subst. exists (w :: z :: d).
    split; [repeat constructor; assumption|apply perm_swap].
  - destruct (IH b F) as (b' & G & Q). destruct (IH2 b' G) as (b'' & G2 & Q2). exists b''. split; [exact G2|exact (perm_trans Q Q2)].
Qed.
Lemma perm_concat {A} (a b : list (list A)) : Permutation a b -> Permutation (concat a) (concat b).
Proof.
  induction 1 as [|x a b H IH|x y l|a b c H IH H2 IH2]; cbn [concat]; [reflexivity|apply Permutation_app_head; exact IH| |exact (perm_trans IH IH2)].
  rewrite !app_assoc. apply Permutation_app_tail. apply Permutation_app_comm.
Qed.
Lemma same_table (d d' : dict str Z) : dkeys d = dkeys d' -> NoDup (dkeys d) ->
  (forall k n n', dget d k = Some n -> dget d' k = Some n' -> n = n') -> d = d'.
Proof.
  revert d'. induction d as [|[k n] d IH]; intros [|[k' n'] d'] K N H; try discriminate K; [reflexivity|].
  cbn [dkeys map fst] in K, N. injection K as <- K. inversion N as [|? ? N1 N2]; subst. f_equal.
  - f_equal. apply (H k); cbn [dget]; rewrite eqb_refl; reflexivity.
  - apply IH; [exact K|exact N2|]. intros m a a' E E'. apply (H m); cbn [dget].
    + destruct (eqb k m) eqn:Q; [|exact E]. apply eqb_ok in Q. subst m. apply dget_Some_In in E. destruct N1. apply (in_map fst) in E. exact E.
    + destruct (eqb k m) eqn:Q; [|exact E']. apply eqb_ok in Q. subst m. apply dget_Some_In in E'. destruct N1. apply (in_map fst) in E'. cbn [fst] in E'.
      change (map fst d) with (dkeys d). change (map fst d) with (dkeys d) in K. rewrite K. exact E'.
Qed.
Lemma same_report pct o cs cs' s s' : Permutation cs cs' -> ci_inv cs s -> ci_inv cs' s' -> ci_report_run pct o s = ci_report_run pct o s'.
Proof.
  intros P I I'. pose proof (inv_keys _ _ I) as K. pose proof (inv_keys _ _ I') as K'. pose proof (inv_nodup _ _ I) as N.
  destruct I as (L & C & E & _ & T & _), I' as (L' & C' & E' & _ & T' & _).
  assert (ci_lines s = ci_lines s'). { rewrite L, L'. unfold zlen. rewrite (Permutation_length P). reflexivity. }
  assert (ci_instrs s = ci_instrs s') by exact (count_unique _ _ _ _ (count_perm _ _ _ P _ C) C').
  assert (ci_errs s = ci_errs s') by exact (count_unique _ _ _ _ (count_perm _ _ _ P _ E) E').
  assert (ci_tab s = ci_tab s').
  { apply same_table; [congruence|exact N|]. intros k n n' G G'. exact (count_unique _ _ _ _ (count_perm _ _ _ P _ (T k n G)) (T' k n' G')). }
  unfold ci_report_run, without_out. replace (ci_lines s') with (ci_lines s). replace (ci_instrs s') with (ci_instrs s).
  replace (ci_errs s') with (ci_errs s). replace (ci_tab s') with (ci_tab s). reflexivity.
Qed.
Lemma C146_order_pf : forall pct fuel fs v o files files' css, files <> [] -> Permutation files files' -> Forall2 (source_cards fuel fs) files css ->
  exists ls ls' report r, check_instructions_run pct fuel fs v o files = (ls ++ report, r) /\ files_report fuel fs v (o_print o) files ls /\
    check_instructions_run pct fuel fs v o files' = (ls' ++ report, r) /\ files_report fuel fs v (o_print o) files' ls'.
Proof.
  intros pct fuel fs v o files files' css NE P F. destruct (perm_rows _ _ _ P css F) as (css' & F' & Q).
  assert (NE' : files' <> []) by (intros ->; apply Permutation_sym, Permutation_nil in P; contradiction).
  destruct (ci_run pct fuel fs v o files css NE F) as (ls & s & E & R & I). destruct (ci_run pct fuel fs v o files' css' NE' F') as (ls' & s' & E' & R' & I').
  rewrite <- (same_report pct o _ _ s s' (perm_concat _ _ Q) I I') in E'. eauto 10.
Qed.
(*@ Example C146_order_ex : let fs := fun f => if eqb f (lit "a") then Some (lit "                   WA") else if eqb f (lit "b") then Some (lit "                   FOO") else None in
  let run := check_instructions_run (fun _ _ => lit " 50.00") 2 fs true (mkciopts false true false false true true) in
  let '(ls, r) := run [lit "a"; lit "b"; lit "a"] in let '(ls', r') := run [lit "b"; lit "a"; lit "a"] in
  skipn 5 ls = skipn 5 ls' /\ r = r' /\ nth 8 ls (OutL []) = OutL (lit "WA            2   50.00%") /\
  nth 1 ls (OutL []) = OutL (lit "Reading b...") /\ nth 0 ls' (OutL []) = OutL (lit "Reading b...").
Proof. vm_compute. repeat split; reflexivity. Qed. @*)
