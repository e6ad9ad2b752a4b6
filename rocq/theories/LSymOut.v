From Coq Require Import ZArith List Bool Lia Permutation.
From Verif Require Import Py LPy MCards MSymbols SSymbols LSymClass MDiag MVerbose MSymOut SSymOut.
#[local] Arguments Z.add : simpl never.
#[local] Arguments Z.sub : simpl never.
#[local] Arguments Z.mul : simpl never.
#[local] Arguments Z.pow : simpl never.

Lemma bind_told {A B} (ls : list line) (a : A) (k : A -> io B) : io_bind (ls, Ok a) k = (ls ++ fst (k a), snd (k a)).
Proof. cbn [io_bind]. destruct (k a). reflexivity. Qed.
(** the printing loop computes what the silent one does *)
Lemma prune_loop_snd syms : forall fuel u i, snd (prune_loop_out fuel syms u i) = prune_loop fuel syms u i.
Proof.
  induction fuel as [|f IH]; intros u i; [reflexivity|]. cbn [prune_loop_out prune_loop]. destruct (nth_error u i) as [x|]; [|reflexivity].
  destruct (dindex syms x) as [e|e] eqn:E; cbn [bind]; [|reflexivity]. rewrite bind_told. cbn [snd]. destruct (isValid e).
  - rewrite bind_told. apply IH.
  - apply IH.
Qed.
Lemma prune_out_snd t : snd (prune_out t) = st_prune t.
Proof.
  unfold prune_out, st_prune. cbv zeta. rewrite bind_told. cbn [snd]. rewrite <- prune_loop_snd.
  destruct (prune_loop_out _ _ _ _) as [ls [u|e]]; reflexivity.
Qed.
(** the names pruned *)
Fixpoint gone (syms : dict str ste) (l : list str) : list str :=
  match l with
  | [] => []
  | x :: r => if vld syms x then x :: match r with [] => [] | _ :: r' => gone syms r' end else gone syms r
  end.
Lemma prune_gone syms n : forall fuel pre l, (List.length l <= n)%nat -> (List.length l <= fuel)%nat ->
  (forall s, In s l -> dget syms s <> None) ->
  fst (prune_loop_out fuel syms (pre ++ l) (List.length pre)) = map says_removing (gone syms l).
Proof.
  assert (N0 : forall fuel pre, fst (prune_loop_out fuel syms pre (List.length pre)) = []).
  { intros fuel pre. destruct fuel; [reflexivity|]. cbn [prune_loop_out]. rewrite (proj2 (nth_error_None pre (List.length pre))) by lia. reflexivity. }
  induction n as [|n IH]; intros fuel pre l L F K.
  - destruct l; [|cbn in L; lia]. rewrite app_nil_r. apply N0.
  - destruct l as [|x r]; [rewrite app_nil_r; apply N0|].
    destruct fuel as [|fuel]; [cbn in F; lia|]. cbn [prune_loop_out].
    rewrite nth_error_app2 by lia. rewrite Nat.sub_diag. cbn [nth_error].
    destruct (dget syms x) as [e|] eqn:E; [|exfalso; apply (K x); [left; reflexivity|exact E]].
    unfold dindex. rewrite E. rewrite bind_told. cbn [app fst gone]. unfold vld. rewrite E. destruct (isValid e).
    + assert (D : firstn (List.length pre) (pre ++ x :: r) ++ skipn (S (List.length pre)) (pre ++ x :: r) = pre ++ r).
      { rewrite firstn_app, Nat.sub_diag, firstn_all. cbn [firstn]. rewrite app_nil_r. f_equal.
        rewrite skipn_app. rewrite skipn_all2 by lia. cbn [app].
        replace (S (List.length pre) - List.length pre)%nat with 1%nat by lia. reflexivity. }
      rewrite bind_told. cbn [fst]. etransitivity; [apply (f_equal (fun u => [removing_line x] ++ fst (prune_loop_out fuel syms u (S (List.length pre)))) D)|].
      clear D. cbn [map app]. apply (f_equal2 (@cons line)); [reflexivity|]. destruct r as [|y r].
      * rewrite app_nil_r. cbn [map]. destruct fuel; [reflexivity|]. cbn [prune_loop_out].
        rewrite (proj2 (nth_error_None pre (S (List.length pre)))) by lia. reflexivity.
      * replace (pre ++ y :: r) with ((pre ++ [y]) ++ r) by (rewrite <- app_assoc; reflexivity).
        replace (S (List.length pre)) with (List.length (pre ++ [y])) by (rewrite app_length; cbn; lia).
        cbn in L, F. apply IH; [lia|lia|]. intros s I. apply K. right. right. exact I.
    + replace (pre ++ x :: r) with ((pre ++ [x]) ++ r) by (rewrite <- app_assoc; reflexivity).
      replace (S (List.length pre)) with (List.length (pre ++ [x])) by (rewrite app_length; cbn; lia).
      cbn in L, F. apply IH; [lia|lia|]. intros s I. apply K. right. exact I.
Qed.
Lemma gone_perm syms l : Permutation (gone syms l ++ skim syms l) l.
Proof.
  induction l as [|x|x y l IH1 IH2] using list_ind2; [reflexivity| |].
  - cbn. destruct (vld syms x); reflexivity.
  - cbn [gone skim]. destruct (vld syms x).
    + cbn [app]. apply perm_skip. symmetry. apply Permutation_cons_app. symmetry. exact IH1.
    + symmetry. apply Permutation_cons_app. symmetry. exact IH2.
Qed.
Lemma gone_subseq syms l : subseq (gone syms l) l.
Proof.
  induction l as [|x|x y l IH1 IH2] using list_ind2; [constructor| |].
  - cbn. destruct (vld syms x); [apply ss_take|]; constructor.
  - cbn [gone]. destruct (vld syms x); [apply ss_take; apply ss_skip; exact IH1|apply ss_skip; exact IH2].
Qed.
Lemma gone_valid syms l : forall s, In s (gone syms l) -> vld syms s = true.
Proof.
  induction l as [|x|x y l IH1 IH2] using list_ind2; intros s I; [destruct I| |].
  - cbn in I. destruct (vld syms x) eqn:V; [destruct I as [<-|[]]; exact V|destruct I].
  - cbn [gone] in I. destruct (vld syms x) eqn:V; [destruct I as [<-|I]; [exact V|apply IH1; exact I]|apply IH2; exact I].
Qed.
Lemma prune_out_known t : undefs_known t ->
  prune_out t = ([says_pruning (zlen (t_undefs t))] ++ map says_removing (gone (t_symbols t) (t_undefs t)) ++
                 [says_removed (zlen (gone (t_symbols t) (t_undefs t)))], st_prune t).
Proof.
  intros K. rewrite <- prune_out_snd. rewrite (surjective_pairing (prune_out t)) at 1. f_equal.
  unfold prune_out. cbv zeta. rewrite bind_told. cbn [fst]. f_equal.
  pose proof (prune_gone (t_symbols t) _ (List.length (t_undefs t)) [] (t_undefs t) (Nat.le_refl _) (Nat.le_refl _) K) as G.
  pose proof (prune_skim (t_symbols t) _ (List.length (t_undefs t)) [] (t_undefs t) (Nat.le_refl _) (Nat.le_refl _) K) as P.
  cbn [app List.length] in G, P. rewrite <- prune_loop_snd in P.
  destruct (prune_loop_out (List.length (t_undefs t)) (t_symbols t) (t_undefs t) 0) as [ls r]. cbn [fst snd] in *. subst ls r.
  rewrite bind_told. cbn [fst]. f_equal. f_equal. unfold says_removed, removed_line. do 2 f_equal.
  pose proof (Permutation_length (gone_perm (t_symbols t) (t_undefs t))) as L. rewrite app_length in L. f_equal. f_equal. unfold zlen. lia.
Qed.
Lemma C132_prune_pf : forall t, undefs_known t -> exists t' l,
  prune_out t = ([says_pruning (zlen (t_undefs t))] ++ map says_removing l ++ [says_removed (zlen l)], Ok t') /\
  st_prune t = Ok t' /\ subseq l (t_undefs t) /\ (forall s, In s l -> has_value t s) /\ Permutation (l ++ t_undefs t') (t_undefs t).
Proof.
  intros t K. exists (mkst (t_symbols t) (skim (t_symbols t) (t_undefs t))), (gone (t_symbols t) (t_undefs t)).
  rewrite (prune_out_known t K), (prune_known t K). split; [reflexivity|]. split; [reflexivity|]. split; [apply gone_subseq|].
  split; [|apply gone_perm]. intros s I. apply vld_ok. eapply gone_valid. exact I.
Qed.
(*@ Example C132_prune_ex :
  let e := ste_new (lit "A") (Some 1) None None 0 None None in
  let f := ste_new (lit "B") None None None 0 None None in
  fst (prune_out (mkst [(lit "A", e); (lit "B", f); (lit "C", e)] [lit "A"; lit "B"; lit "C"])) =
  map (fun s => OutL (lit s)) ["Pruning undefined symbols list (3 undefs)"; "Removing A from undefined symbols list";
    "Removing C from undefined symbols list"; "Removed 2 symbols from undef list"]%string.
Proof. reflexivity. Qed. @*)

(** *** resolve *)
Lemma subseq_app {A} (a b c d : list A) : subseq a b -> subseq c d -> subseq (a ++ c) (b ++ d).
Proof.
  intros H1 H2. induction H1 as [l|x l l' H IH|x l l' H IH]; cbn [app].
  - induction l as [|x l IH]; [exact H2|]. apply ss_skip. exact IH.
  - apply ss_take. exact IH.
  - apply ss_skip. exact IH.
Qed.
Lemma resolve_loop_snd : forall p i t prev n,
  match resolve_loop p i t prev n with
  | Ok (t', evs) => exists ls, resolve_loop_out p i t prev n = (ls, Ok t') /\ subseq (map event_line evs) ls
  | Err e => snd (resolve_loop_out p i t prev n) = Err e
  end.
Proof.
  induction p as [|p IH]; intros i t prev n; cbn [resolve_loop resolve_loop_out].
  - exists []. split; [reflexivity|constructor].
  - rewrite bind_told. destruct (n =? 0).
    { eexists. split; [reflexivity|]. apply subseq_refl. }
    rewrite bind_told. pose proof (prune_out_snd t) as P. destruct (prune_out t) as [pl pr]. cbn [snd] in P. subst pr.
    destruct (st_prune t) as [t'|e]; cbn [bind]; [|reflexivity]. cbv zeta. rewrite bind_told.
    assert (Q : forall x, map event_line (EvPass i n :: map EvAttempt (t_undefs t) ++ x) =
      [says_pass i n] ++ map says_attempt (t_undefs t) ++ map event_line x).
    { intros x. cbn [map app]. rewrite map_app, map_map. reflexivity. }
    destruct (zlen (t_undefs t') =? prev).
    + eexists. split; [reflexivity|]. cbn [app]. rewrite Q. cbn [fst].
      apply (subseq_app [_] [_]); [apply subseq_refl|]. apply subseq_app; [apply subseq_refl|].
      rewrite <- (app_nil_l (map event_line _)). apply subseq_app; [constructor|apply subseq_refl].
    + specialize (IH (i + 1) t' (zlen (t_undefs t')) (zlen (t_undefs t'))). destruct (resolve_loop p _ _ _ _) as [[t2 evs]|e]; cbn [bind].
      * destruct IH as (ls & E & S). rewrite E. eexists. split; [reflexivity|]. cbn [fst snd app]. rewrite Q.
        apply (subseq_app [_] [_]); [apply subseq_refl|]. apply subseq_app; [apply subseq_refl|].
        rewrite <- (app_nil_l (map event_line _)). apply subseq_app; [constructor|exact S].
      * cbn [snd]. exact IH.
Qed.
Lemma C132_resolve_pf : forall t n,
  match st_resolve t n with
  | Ok (t', evs) => exists ls, resolve_out t n = (ls, Ok t') /\ subseq (map event_line evs) ls
  | Err e => snd (resolve_out t n) = Err e
  end.
Proof. intros t n. apply resolve_loop_snd. Qed.
(*@ Example C132_resolve_ex :
  let e := ste_new (lit "A") (Some 1) None None 0 None None in
  fst (resolve_out (mkst [(lit "A", e)] [lit "A"]) 10) =
  map (fun s => OutL (lit s)) ["Symbol pass 0: 1 undefined symbols"; "Attempting to resolve symbol ""A"""; "Pruning undefined symbols list (1 undefs)";
    "Removing A from undefined symbols list"; "Removed 1 symbols from undef list"; "Symbol pass 1: 0 undefined symbols"; "All symbols resolved!"]%string.
Proof. reflexivity. Qed. @*)

(** *** histories *)
Lemma gone_none syms l : (forall s, In s l -> vld syms s = false) -> gone syms l = [].
Proof.
  induction l as [|x l IH]; intros H; [reflexivity|]. cbn [gone]. rewrite (H x) by (left; reflexivity).
  apply IH. intros s I. apply H. right. exact I.
Qed.
Lemma prune_out_wf t : wf t -> prune_out t = ([says_pruning (zlen (t_undefs t)); says_removed 0], Ok t).
Proof.
  intros W. rewrite (prune_out_known t (wf_known t W)), (wf_prune t W), gone_none; [reflexivity|].
  intros s I. destruct W as (_ & _ & H). destruct (H s I) as (e & E & V). unfold vld. rewrite E. exact V.
Qed.
Lemma step_says pre o : exists ls, step_out (st_run pre) o = (ls, st_run (pre ++ [o])) /\ says pre o ls.
Proof.
  assert (R : st_run (pre ++ [o]) = st_step (st_run pre) o) by (unfold st_run; rewrite fold_left_app; reflexivity).
  rewrite R. pose proof (wf_run pre) as W. destruct o as [n f l v k s u|n v k| |m|n]; cbn [step_out st_step].
  - unfold add_out. destruct (C70_lookup_pf pre n) as (H1 & H2). destruct (adds_some pre n) as [A|N].
    + destruct (first_exists pre n A) as (o & F). destruct (H1 o F) as (e & E & _). destruct A as (o' & I & A). pose proof A as [NE _].
      unfold st_add. destruct n as [|c n]; [contradiction|]. rewrite dmem_get. unfold st_lookup in E. rewrite E.
      eexists. split; [reflexivity|]. eapply says_again; eassumption.
    + exists []. split; [|apply says_new; exact N]. specialize (H2 N). unfold st_lookup in H2. unfold st_add.
      destruct n as [|c n]; [reflexivity|]. rewrite dmem_get, H2. reflexivity.
  - exists []. split; [reflexivity|constructor].
  - rewrite (prune_out_wf _ W), (wf_prune _ W). eexists. split; [reflexivity|]. cbn [fst]. rewrite C71_undefines_pf. constructor.
  - unfold st_resolve, resolve_out. cbv zeta. destruct (Z.leb_spec m 0) as [L|L].
    + replace (Z.to_nat m) with O by lia. exists []. split; [reflexivity|apply says_no_pass; exact L].
    + destruct (Z.to_nat m) as [|p] eqn:P; [lia|]. cbn [resolve_loop resolve_loop_out]. rewrite !bind_told, (prune_out_wf _ W), (wf_prune _ W).
      cbn [bind]. rewrite Z.eqb_refl. pose proof (C71_undefines_pf pre) as U. destruct (t_undefs (st_run pre)) as [|x r] eqn:T.
      * eexists. split; [reflexivity|]. apply says_all; [exact L|symmetry; exact U].
      * destruct (Z.eqb_spec (zlen (x :: r)) 0) as [Z0|NZ]; [rewrite zlen_cons in Z0; pose proof (zlen_nonneg r); lia|].
        rewrite ?bind_told. rewrite ?T, ?Z.eqb_refl. cbn [fst snd app]. eexists. split; [reflexivity|].
        change (says pre (OpResolve m) ([says_pass 0 (zlen (x :: r))] ++ map says_attempt (x :: r) ++ [says_pruning (zlen (x :: r)); says_removed 0; says_no_progress (zlen (x :: r))])).
        rewrite U. apply says_stuck; [exact L|rewrite <- U; discriminate].
  - exists []. split; [reflexivity|constructor].
Qed.
Lemma C132_history_pf : forall h, exists ls, run_out st_new h = (ls, st_run h) /\ transcript [] h ls.
Proof.
  intros h. cut (forall pre, exists ls, run_out (st_run pre) h = (ls, st_run (pre ++ h)) /\ transcript pre h ls).
  { intros H. exact (H []). }
  induction h as [|o h IH]; intros pre; cbn [run_out].
  - exists []. rewrite app_nil_r. split; [reflexivity|constructor].
  - destruct (step_says pre o) as (ls & E & S). rewrite E. destruct (IH (pre ++ [o])) as (ls' & E' & T). rewrite E'.
    exists (ls ++ ls'). rewrite <- app_assoc. split; [reflexivity|]. econstructor; eassumption.
Qed.
(*@ Example C132_history_ex :
  fst (run_out st_new [OpAdd (lit "A") None 1 None None None None; OpAdd (lit "A") None 2 (Some 5) None None None; OpResolve 10; OpPrune]) =
  map (fun s => OutL (lit s)) ["ERROR: Symbol ""A"" already defined!"; "Symbol pass 0: 1 undefined symbols"; "Attempting to resolve symbol ""A""";
    "Pruning undefined symbols list (1 undefs)"; "Removed 0 symbols from undef list"; "ERROR: No progress resolving symbols, 1 undefined symbols";
    "Pruning undefined symbols list (1 undefs)"; "Removed 0 symbols from undef list"]%string.
Proof. reflexivity. Qed. @*)
Lemma says_unique pre o a b : says pre o a -> says pre o b -> a = b.
Proof.
  intros A B. inversion A; subst; inversion B; subst; try reflexivity; try lia; try contradiction;
    match goal with H : forall o, In o pre -> ~ _ |- _ => exfalso; eapply H; eassumption end.
Qed.
Lemma C132_unique_pf : forall pre h a b, transcript pre h a -> transcript pre h b -> a = b.
Proof.
  intros pre h a b A. revert b. induction A as [pre|pre o h ls ls' S T IH]; intros b B; inversion B as [|? ? ? l1 l2 S2 T2]; subst; [reflexivity|].
  f_equal; [eapply says_unique; eassumption|apply IH; assumption].
Qed.
(*@ Example C132_unique_ex : exists ls, transcript [] [OpAdd (lit "A") None 1 None None None None; OpPrune] ls /\ zlen ls = 2.
Proof.
  exists ([] ++ [says_pruning 1; says_removed 0] ++ []). split; [|reflexivity]. constructor; [apply says_new; intros o []|].
  constructor; [exact (says_prune [OpAdd (lit "A") None 1 None None None None])|constructor].
Qed. @*)
