From Coq Require Import ZArith List Bool Lia Permutation.
From Verif Require Import Py LPy MCards MSymbols SSymbols LSort.
#[local] Arguments Z.add : simpl never.
#[local] Arguments Z.sub : simpl never.
#[local] Arguments Z.mul : simpl never.
#[local] Arguments Z.pow : simpl never.

Lemma opt_str_is_ok o s : opt_str_is o s = true <-> o = Some (lit s).
Proof.
  destruct o as [t|]; cbn [opt_str_is]; [|split; discriminate].
  split; [intros H; apply eqb_ok in H; subst; reflexivity|]. intros [= ->]. apply eqb_refl.
Qed.
Lemma ste_new_entry n f l v k s u : entry_of (OpAdd n f l v k s u) (ste_new n v k f l s u).
Proof.
  unfold ste_new. destruct (opt_str_is k "absolute") eqn:E; cbn [entry_of s_name s_file s_line s_symtype s_segment s_subsegment s_refs s_absolute s_complex].
  - apply opt_str_is_ok in E. repeat split; tauto.
  - assert (k <> Some (lit "absolute")) by (intros H; apply opt_str_is_ok in H; congruence). repeat split; tauto.
Qed.
Lemma ste_new_valid n f l v k s u : isValid (ste_new n v k f l s u) = isSome v.
Proof. unfold ste_new. destruct (opt_str_is k "absolute"); unfold isValid; cbn; destruct v; reflexivity. Qed.

Lemma dmem_get (d : dict str ste) n : dmem d n = match dget d n with Some _ => true | None => false end.
Proof. reflexivity. Qed.

(** *** pruning *)
Definition vld (syms : dict str ste) (s : str) : bool :=
  match dget syms s with Some e => isValid e | None => false end.
Fixpoint skim (syms : dict str ste) (l : list str) : list str :=
  match l with
  | [] => []
  | x :: r => if vld syms x then match r with [] => [] | y :: r' => y :: skim syms r' end
              else x :: skim syms r
  end.
Lemma prune_skim syms n : forall fuel pre l, (List.length l <= n)%nat -> (List.length l <= fuel)%nat ->
  (forall s, In s l -> dget syms s <> None) ->
  prune_loop fuel syms (pre ++ l) (List.length pre) = Ok (pre ++ skim syms l).
Proof.
  induction n as [|n IH]; intros fuel pre l L F K.
  - destruct l; [|cbn in L; lia]. rewrite app_nil_r. cbn [skim]. rewrite app_nil_r.
    destruct fuel; [reflexivity|]. cbn [prune_loop].
    rewrite (proj2 (nth_error_None pre (List.length pre))) by lia. reflexivity.
  - destruct l as [|x r].
    { rewrite app_nil_r. cbn [skim]. rewrite app_nil_r.
      destruct fuel; [reflexivity|]. cbn [prune_loop].
      rewrite (proj2 (nth_error_None pre (List.length pre))) by lia. reflexivity. }
    destruct fuel as [|fuel]; [cbn in F; lia|]. cbn [prune_loop].
    rewrite nth_error_app2 by lia. rewrite Nat.sub_diag. cbn [nth_error].
    destruct (dget syms x) as [e|] eqn:E; [|exfalso; apply (K x); [left; reflexivity|exact E]].
    unfold dindex. rewrite E. cbn [bind skim]. unfold vld. rewrite E. destruct (isValid e).
    + assert (D : firstn (List.length pre) (pre ++ x :: r) ++ skipn (S (List.length pre)) (pre ++ x :: r) = pre ++ r).
      { rewrite firstn_app, Nat.sub_diag, firstn_all. cbn [firstn]. rewrite app_nil_r. f_equal.
        rewrite skipn_app. rewrite skipn_all2 by lia. cbn [app].
        replace (S (List.length pre) - List.length pre)%nat with 1%nat by lia. reflexivity. }
      rewrite D. clear D. destruct r as [|y r].
      * rewrite !app_nil_r. destruct fuel; [reflexivity|]. cbn [prune_loop].
        rewrite (proj2 (nth_error_None pre (S (List.length pre)))) by lia. reflexivity.
      * replace (pre ++ y :: r) with ((pre ++ [y]) ++ r) by (rewrite <- app_assoc; reflexivity).
        replace (S (List.length pre)) with (List.length (pre ++ [y])) by (rewrite app_length; cbn; lia).
        cbn in L, F. rewrite IH; [rewrite <- app_assoc; reflexivity|lia|lia|].
        intros s I. apply K. right. right. exact I.
    + replace (pre ++ x :: r) with ((pre ++ [x]) ++ r) by (rewrite <- app_assoc; reflexivity).
      replace (S (List.length pre)) with (List.length (pre ++ [x])) by (rewrite app_length; cbn; lia).
      cbn in L, F. rewrite IH; [rewrite <- app_assoc; reflexivity|lia|lia|].
      intros s I. apply K. right. exact I.
Qed.
Lemma prune_known t : undefs_known t -> st_prune t = Ok (mkst (t_symbols t) (skim (t_symbols t) (t_undefs t))).
Proof.
  intros K. unfold st_prune.
  pose proof (prune_skim _ (List.length (t_undefs t)) _ [] (t_undefs t) (Nat.le_refl _) (Nat.le_refl _) K) as H.
  cbn [app List.length] in H. rewrite H. reflexivity.
Qed.
Lemma list_ind2 {A} (P : list A -> Prop) : P [] -> (forall x, P [x]) -> (forall x y l, P l -> P (y :: l) -> P (x :: y :: l)) ->
  forall l, P l.
Proof.
  intros H0 H1 H2 l. enough (P l /\ forall x, P (x :: l)) by tauto.
  induction l as [|y l [IH1 IH2]]; [auto|]. split; [apply IH2|]. intros x. apply H2; [exact IH1|apply IH2].
Qed.
Lemma skim_subseq syms l : subseq (skim syms l) l.
Proof.
  induction l as [|x|x y l IH1 IH2] using list_ind2.
  - constructor.
  - cbn. destruct (vld syms x); constructor. constructor.
  - cbn [skim] in *. destruct (vld syms x).
    + apply ss_skip. apply ss_take. exact IH1.
    + apply ss_take. exact IH2.
Qed.
Lemma subseq_In {A} (l l' : list A) x : subseq l l' -> In x l -> In x l'.
Proof.
  induction 1 as [l'|y l l' _ IH|y l l' _ IH]; intros I; [destruct I| |right; auto].
  destruct I as [->|I]; [left; reflexivity|right; auto].
Qed.
Lemma skim_keeps syms l x : In x l -> vld syms x = false -> In x (skim syms l).
Proof.
  induction l as [|y|y z l IH1 IH2] using list_ind2; intros I V.
  - destruct I.
  - destruct I as [->|[]]. cbn. rewrite V. left. reflexivity.
  - cbn [skim]. destruct (vld syms y) eqn:VY.
    + destruct I as [->|[->|I]]; [congruence|left; reflexivity|right; apply IH1; assumption].
    + destruct I as [->|I]; [left; reflexivity|right]. apply IH2; assumption.
Qed.
Lemma skim_none syms l : (forall s, In s l -> vld syms s = false) -> skim syms l = l.
Proof.
  induction l as [|x l IH]; intros H; [reflexivity|]. cbn [skim]. rewrite (H x) by (left; reflexivity).
  f_equal. apply IH. intros s I. apply H. right. exact I.
Qed.
Lemma vld_ok t s : vld (t_symbols t) s = true <-> has_value t s.
Proof.
  unfold vld, has_value. destruct (dget (t_symbols t) s) as [e|].
  - unfold isValid. split.
    + intros H. exists e. split; [reflexivity|]. destruct (s_absolute e); [left; discriminate|].
      destruct (s_complex e); [right; discriminate|discriminate].
    + intros (e' & [= <-] & H). destruct (s_absolute e); [reflexivity|]. destruct (s_complex e); [reflexivity|].
      destruct H; congruence.
  - split; [discriminate|]. intros (e & E & _). discriminate.
Qed.
Lemma skim_removes t l : no_neighbours (has_value t) l -> forall x, In x (skim (t_symbols t) l) -> ~ has_value t x.
Proof.
  induction l as [|y|y z l IH1 IH2] using list_ind2; intros N x I.
  - destruct I.
  - cbn in I. destruct (vld (t_symbols t) y) eqn:V; [destruct I|]. destruct I as [<-|[]].
    rewrite <- vld_ok. congruence.
  - cbn [skim] in I. destruct (vld (t_symbols t) y) eqn:V.
    + destruct I as [<-|I].
      * intros H. apply (N [] y z l eq_refl). split; [apply vld_ok; exact V|exact H].
      * apply (IH1 ); [|exact I]. intros pre a b post E. apply (N (y :: z :: pre) a b post). rewrite E. reflexivity.
    + destruct I as [<-|I]; [rewrite <- vld_ok; congruence|].
      apply IH2; [|exact I]. intros pre a b post E. apply (N (y :: pre) a b post). rewrite E. reflexivity.
Qed.

(** *** reachable tables *)
Definition wf (t : symtable) : Prop :=
  NoDup (dkeys (t_symbols t)) /\ NoDup (t_undefs t) /\
  (forall s, In s (t_undefs t) -> exists e, dget (t_symbols t) s = Some e /\ isValid e = false).
Lemma wf_known t : wf t -> undefs_known t.
Proof. intros (_ & _ & H) s I. destruct (H s I) as (e & -> & _). discriminate. Qed.
Lemma wf_prune t : wf t -> st_prune t = Ok t.
Proof.
  intros W. rewrite (prune_known t (wf_known t W)). rewrite skim_none; [destruct t; reflexivity|].
  intros s I. destruct W as (_ & _ & H). destruct (H s I) as (e & E & V). unfold vld. rewrite E. exact V.
Qed.
Definition resolve_events (t : symtable) : list event :=
  match t_undefs t with
  | [] => [EvPass 0 0; EvResolved]
  | u => EvPass 0 (zlen u) :: map EvAttempt u ++ [EvNoProgress (zlen u)]
  end.
Lemma wf_resolve t n : wf t -> st_resolve t n = Ok (t, if n <=? 0 then [] else resolve_events t).
Proof.
  intros W. unfold st_resolve. destruct (Z.leb_spec n 0).
  - replace (Z.to_nat n) with O by lia. reflexivity.
  - destruct (Z.to_nat n) as [|p] eqn:E; [lia|]. cbn [resolve_loop]. unfold resolve_events.
    destruct (t_undefs t) as [|x u] eqn:EU; [reflexivity|].
    destruct (Z.eqb_spec (zlen (x :: u)) 0); [rewrite zlen_cons in *; pose proof (zlen_nonneg u); lia|].
    rewrite (wf_prune t W). cbn [bind]. rewrite EU, Z.eqb_refl. reflexivity.
Qed.
Lemma wf_step t o : wf t -> wf (st_step t o).
Proof.
  intros W. destruct o as [n f l v k s u|n v k| |m|n]; cbn [st_step].
  - unfold st_add. destruct n as [|c n]; [exact W|]. set (nm := c :: n).
    destruct (dmem (t_symbols t) nm) eqn:D; [exact W|]. cbn [fst].
    assert (G : dget (t_symbols t) nm = None) by (rewrite dmem_get in D; destruct (dget _ _); congruence).
    destruct W as (N1 & N2 & H). split; [cbn [t_symbols]; apply dset_NoDup; exact N1|].
    assert (NU : ~ In nm (t_undefs t)) by (intros I; destruct (H nm I) as (e & E & _); congruence).
    assert (HO : forall x, In x (t_undefs t) ->
      exists e, dget (dset (t_symbols t) nm (ste_new nm v k f l s u)) x = Some e /\ isValid e = false).
    { intros x I. destruct (H x I) as (e & E & V). exists e. split; [|exact V].
      rewrite dget_dset_ne by (intros <-; contradiction). exact E. }
    destruct v as [z|]; cbn [t_undefs t_symbols]; (split; [|]); [exact N2|exact HO| |].
    + apply (Permutation_NoDup (l := nm :: t_undefs t)); [apply Permutation_cons_append|constructor; assumption].
    + intros x I. apply in_app_or in I. destruct I as [I|[<-|[]]]; [apply HO; exact I|].
      eexists. split; [apply dget_dset_eq|]. rewrite ste_new_valid. reflexivity.
  - unfold st_update. destruct n; exact W.
  - rewrite (wf_prune t W). exact W.
  - rewrite (wf_resolve t m W). exact W.
  - exact W.
Qed.
Lemma wf_new : wf st_new.
Proof. split; [constructor|]. split; [constructor|]. intros s []. Qed.
Lemma wf_fold h : forall t, wf t -> wf (fold_left st_step h t).
Proof. induction h as [|o h IH]; intros t W; [exact W|]. cbn [fold_left]. apply IH. apply wf_step. exact W. Qed.
Lemma wf_run h : wf (st_run h).
Proof. apply wf_fold. apply wf_new. Qed.

Lemma step_other t o n : wf t -> ~ adds n o -> dget (t_symbols (st_step t o)) n = dget (t_symbols t) n.
Proof.
  intros W NA. destruct o as [m f l v k s u|m v k| |p|m]; cbn [st_step]; try reflexivity.
  - unfold st_add. destruct m as [|c m]; [reflexivity|].
    destruct (dmem (t_symbols t) (c :: m)); [reflexivity|]. cbn [fst t_symbols].
    apply dget_dset_ne. intros ->. apply NA. split; [discriminate|reflexivity].
  - unfold st_update. destruct m; reflexivity.
  - rewrite (wf_prune t W). reflexivity.
  - rewrite (wf_resolve t p W). reflexivity.
Qed.
Lemma step_same t o n e : wf t -> dget (t_symbols t) n = Some e -> dget (t_symbols (st_step t o)) n = Some e.
Proof.
  intros W E. destruct o as [m f l v k s u|m v k| |p|m]; cbn [st_step]; try exact E.
  - unfold st_add. destruct m as [|c m]; [exact E|].
    destruct (dmem (t_symbols t) (c :: m)) eqn:D; [exact E|]. cbn [fst t_symbols].
    rewrite dget_dset_ne; [exact E|]. intros H. rewrite dmem_get, <- H, E in D. discriminate.
  - unfold st_update. destruct m; exact E.
  - rewrite (wf_prune t W). exact E.
  - rewrite (wf_resolve t p W). exact E.
Qed.
Lemma step_adds t o n : dget (t_symbols t) n = None -> adds n o ->
  exists e, dget (t_symbols (st_step t o)) n = Some e /\ entry_of o e.
Proof.
  intros E [NE A]. destruct o as [m f l v k s u|m v k| |p|m]; cbn in A; try contradiction. subst m.
  cbn [st_step]. unfold st_add. destruct n as [|c n]; [contradiction|].
  rewrite dmem_get, E. cbn [fst t_symbols]. eexists. split; [apply dget_dset_eq|apply ste_new_entry].
Qed.
Lemma adds_dec n o : adds n o \/ ~ adds n o.
Proof.
  destruct n as [|c n]; [right; intros [H _]; contradiction|].
  destruct o as [m f l v k s u|m v k| |p|m]; try solve [right; intros [_ []]].
  destruct (eq_dec_b m (c :: n)) as [->|N]; [left; split; [discriminate|reflexivity]|].
  right. intros [_ H]. contradiction.
Qed.
Lemma keep_fold h n e : forall t, wf t -> dget (t_symbols t) n = Some e ->
  dget (t_symbols (fold_left st_step h t)) n = Some e.
Proof.
  induction h as [|o h IH]; intros t W E; [exact E|]. cbn [fold_left].
  apply IH; [apply wf_step; exact W|apply step_same; assumption].
Qed.
Lemma lookup_fold h n : forall t, wf t -> dget (t_symbols t) n = None ->
  (forall o, first_add h n o -> exists e, dget (t_symbols (fold_left st_step h t)) n = Some e /\ entry_of o e) /\
  ((forall o, In o h -> ~ adds n o) -> dget (t_symbols (fold_left st_step h t)) n = None).
Proof.
  induction h as [|o h IH]; intros t W E.
  - split; [|intros _; exact E]. intros o (pre & post & H & _). destruct pre; discriminate.
  - cbn [fold_left]. destruct (adds_dec n o) as [A|NA].
    + split; [|intros H; exfalso; apply (H o); [left; reflexivity|exact A]].
      intros o' (pre & post & H & A' & F). destruct pre as [|o1 pre].
      * injection H as <- <-. destruct (step_adds t o n E A) as (e & E1 & EN). exists e.
        split; [|exact EN]. apply keep_fold; [apply wf_step; exact W|exact E1].
      * injection H as <- ->. exfalso. apply (F o); [left; reflexivity|exact A].
    + destruct (IH (st_step t o)) as (H1 & H2); [apply wf_step; exact W|rewrite step_other; assumption|].
      split.
      * intros o' (pre & post & H & A' & F). destruct pre as [|o1 pre]; [injection H as <- <-; contradiction|].
        injection H as <- ->. apply H1. exists pre, post. split; [reflexivity|]. split; [exact A'|].
        intros x I. apply F. right. exact I.
      * intros H. apply H2. intros x I. apply H. right. exact I.
Qed.

Lemma C70_lookup_pf : forall h n,
  (forall o, first_add h n o -> exists e, st_lookup (st_run h) n = Some e /\ entry_of o e) /\
  ((forall o, In o h -> ~ adds n o) -> st_lookup (st_run h) n = None).
Proof. intros h n. apply (lookup_fold h n st_new wf_new). reflexivity. Qed.
(*@ Example C70_lookup_ex :
  let h := [OpAdd (lit "A") None 3 (Some 7) (Some (lit "absolute")) None None; OpPrune;
            OpAdd (lit "A") None 9 (Some 8) None None None] in
  first_add h (lit "A") (OpAdd (lit "A") None 3 (Some 7) (Some (lit "absolute")) None None) /\
  option_map s_absolute (st_lookup (st_run h) (lit "A")) = Some (Some 7).
Proof.
  split; [|reflexivity]. exists [], [OpPrune; OpAdd (lit "A") None 9 (Some 8) None None None].
  split; [reflexivity|]. split; [split; [discriminate|reflexivity]|]. intros o [].
Qed. @*)

Lemma first_exists h n : (exists o, In o h /\ adds n o) -> exists o, first_add h n o.
Proof.
  induction h as [|o h IH]; intros (x & I & A); [destruct I|].
  destruct (adds_dec n o) as [A'|NA].
  - exists o, [], h. split; [reflexivity|]. split; [exact A'|]. intros y [].
  - destruct I as [->|I]; [contradiction|].
    destruct IH as (o' & pre & post & -> & A2 & F); [eauto|].
    exists o', (o :: pre), post. split; [reflexivity|]. split; [exact A2|]. intros y [<-|J]; [exact NA|apply F; exact J].
Qed.
Lemma adds_some h n : (exists o, In o h /\ adds n o) \/ (forall o, In o h -> ~ adds n o).
Proof.
  induction h as [|o h IH]; [right; intros o []|]. destruct (adds_dec n o) as [A|NA].
  - left. exists o. split; [left; reflexivity|exact A].
  - destruct IH as [(x & I & A)|H]; [left; exists x; split; [right; exact I|exact A]|].
    right. intros x [<-|I]; [exact NA|apply H; exact I].
Qed.
Lemma C70_count_pf : forall h, exists names, NoDup names /\
  (forall n, In n names <-> exists o, In o h /\ adds n o) /\ st_num (st_run h) = zlen names.
Proof.
  intros h. exists (dkeys (t_symbols (st_run h))). split; [apply (wf_run h)|]. split; [|reflexivity].
  intros n. destruct (C70_lookup_pf h n) as (H1 & H2). unfold st_lookup in *. split.
  - intros I. destruct (adds_some h n) as [?|N]; [assumption|].
    exfalso. apply (dget_None (t_symbols (st_run h)) n); [apply H2; exact N|exact I].
  - intros E. destruct (first_exists h n E) as (o & F). destruct (H1 o F) as (e & G & _).
    apply dget_Some_In in G. apply (in_map fst) in G. exact G.
Qed.
(*@ Example C70_count_ex :
  st_num (st_run [OpAdd (lit "A") None 3 None None None None; OpAdd (lit "B") None 4 None None None None;
                  OpAdd (lit "A") None 5 None None None None; OpAdd [] None 6 None None None None]) = 2.
Proof. reflexivity. Qed. @*)

(** *** C71 *)
Lemma undef_names_ext h : forall seen seen', (forall n, n <> [] -> In n seen <-> In n seen') ->
  undef_names seen h = undef_names seen' h.
Proof.
  induction h as [|o h IH]; intros seen seen' E; [reflexivity|].
  destruct o as [n f l v k s u|n v k| |p|n]; cbn [undef_names]; try (apply IH; exact E).
  assert (X : (match n with [] => true | _ => false end) || existsb (fun m => eqb m n) seen =
              (match n with [] => true | _ => false end) || existsb (fun m => eqb m n) seen').
  { destruct n as [|c n]; [reflexivity|]. cbn [orb]. apply eq_true_iff_eq.
    change (existsb (fun m => eqb m (c :: n)) seen) with (inb (c :: n) seen).
    change (existsb (fun m => eqb m (c :: n)) seen') with (inb (c :: n) seen').
    rewrite !inb_In. apply E. discriminate. }
  rewrite X. clear X. destruct ((match n with [] => true | _ => false end) || existsb (fun m => eqb m n) seen'); [apply IH; exact E|].
  assert (E2 : forall m, m <> [] -> In m (n :: seen) <-> In m (n :: seen')) by (intros m M; cbn; rewrite (E m M); tauto).
  rewrite (IH _ _ E2). reflexivity.
Qed.
Lemma undefs_fold h : forall t, wf t ->
  t_undefs (fold_left st_step h t) = t_undefs t ++ undef_names (dkeys (t_symbols t)) h.
Proof.
  induction h as [|o h IH]; intros t W; [cbn; rewrite app_nil_r; reflexivity|]. cbn [fold_left].
  rewrite IH by (apply wf_step; exact W).
  destruct o as [n f l v k s u|n v k| |p|n]; cbn [undef_names st_step].
  - unfold st_add. destruct n as [|c n]; [reflexivity|]. cbn [orb].
    change (existsb (fun m => eqb m (c :: n)) (dkeys (t_symbols t))) with (inb (c :: n) (dkeys (t_symbols t))).
    assert (D : dmem (t_symbols t) (c :: n) = inb (c :: n) (dkeys (t_symbols t))).
    { apply eq_true_iff_eq. rewrite dget_In, inb_In. reflexivity. }
    rewrite D. destruct (inb _ _) eqn:IB; [reflexivity|]. cbn [fst].
    assert (X : forall e, undef_names (dkeys (dset (t_symbols t) (c :: n) e)) h =
                undef_names ((c :: n) :: dkeys (t_symbols t)) h).
    { intros e. apply undef_names_ext. intros m _. rewrite dkeys_dset.
      assert (D0 : dmem (t_symbols t) (c :: n) = false) by congruence. rewrite D0, in_app_iff. cbn. tauto. }
    destruct v; cbn [t_undefs t_symbols]; rewrite X; [reflexivity|rewrite <- app_assoc; reflexivity].
  - unfold st_update. destruct n; reflexivity.
  - rewrite (wf_prune t W). reflexivity.
  - rewrite (wf_resolve t p W). reflexivity.
  - reflexivity.
Qed.
Lemma C71_undefines_pf : forall h, t_undefs (st_run h) = undef_names [] h.
Proof. intros h. unfold st_run. rewrite undefs_fold by apply wf_new. reflexivity. Qed.
(*@ Example C71_undefines_ex :
  t_undefs (st_run [OpAdd (lit "B") None 1 None None None None; OpAdd (lit "A") None 2 None None None None;
                    OpAdd (lit "C") None 3 (Some 1) None None None; OpResolve 5; OpAdd (lit "A") None 4 (Some 9) None None None;
                    OpPrune]) = [lit "B"; lit "A"].
Proof. reflexivity. Qed. @*)
Lemma C71_undefines_In_pf : forall h n, NoDup (t_undefs (st_run h)) /\
  (In n (t_undefs (st_run h)) <-> exists f l k s u, first_add h n (OpAdd n f l None k s u)).
Proof.
  intros h n. split; [apply (wf_run h)|]. destruct (C70_lookup_pf h n) as (H1 & H2). split.
  - intros I. destruct (wf_run h) as (_ & _ & W). destruct (W n I) as (e & E & V).
    destruct (adds_some h n) as [A|NA]; [|rewrite (H2 NA) in E || (unfold st_lookup in H2; rewrite (H2 NA) in E); discriminate].
    destruct (first_exists h n A) as (o & F). destruct (H1 o F) as (e' & E' & EN).
    unfold st_lookup in E'. assert (e' = e) by congruence. subst e'.
    pose proof F as (_ & _ & _ & [_ AD] & _).
    destruct o as [m f l v k s u|m v k| |p|m]; cbn in AD; try contradiction. subst m.
    exists f, l, k, s, u. assert (v = None); [|subst; exact F].
    destruct EN as (_ & _ & _ & _ & _ & _ & _ & A1 & A2). unfold isValid in V. apply orb_false_iff in V.
    destruct (opt_str_is k "absolute") eqn:K.
    + apply opt_str_is_ok in K. destruct (A1 K) as [B _]. rewrite B in V. destruct v; [destruct V; discriminate|reflexivity].
    + destruct (A2 ltac:(intros X; apply opt_str_is_ok in X; congruence)) as [B _]. rewrite B in V.
      destruct v; [destruct V; discriminate|reflexivity].
  - intros (f & l & k & s & u & pre & post & -> & [NE _] & F). rewrite C71_undefines_pf.
    assert (G : forall seen, (forall x, In x seen -> x <> n) -> In n (undef_names seen (pre ++ OpAdd n f l None k s u :: post))).
    { clear H1 H2. induction pre as [|o pre IH]; intros seen S.
      - cbn [app undef_names]. destruct n as [|c n]; [contradiction|]. cbn [orb].
        change (existsb (fun m => eqb m (c :: n)) seen) with (inb (c :: n) seen).
        destruct (inb (c :: n) seen) eqn:IB; [|left; reflexivity].
        apply inb_In in IB. exfalso. exact (S _ IB eq_refl).
      - assert (IH' := IH ltac:(intros o' I; apply F; right; exact I)). specialize (F o ltac:(left; reflexivity)).
        destruct o as [m f' l' v k' s' u'|m v k'| |p|m]; cbn [app undef_names]; try (apply IH'; exact S).
        assert (MN : m <> n) by (intros ->; apply F; split; [exact NE|reflexivity]).
        destruct ((match m with [] => true | _ => false end) || existsb (fun m' => eqb m' m) seen); [apply IH'; exact S|].
        assert (S' : forall x, In x (m :: seen) -> x <> n) by (intros x [<-|I]; [exact MN|apply S; exact I]).
        destruct v; [apply IH'; exact S'|right; apply IH'; exact S']. }
    apply G. intros x [].
Qed.
(*@ Example C71_undefines_In_ex :
  first_add [OpAdd (lit "B") None 1 None None None None; OpAdd (lit "B") None 2 (Some 5) None None None] (lit "B")
    (OpAdd (lit "B") None 1 None None None None).
Proof.
  exists [], [OpAdd (lit "B") None 2 (Some 5) None None None]. split; [reflexivity|].
  split; [split; [discriminate|reflexivity]|intros o []].
Qed. @*)

(** *** C72 *)
Lemma C72_update_refuted_pf : forall t n v k, n <> [] ->
  st_update t n v k = (t, Err AttributeError) /\
  (forall e, st_lookup t n = Some e -> ste_value e = Err AttributeError).
Proof. intros t n v k N. unfold st_update. destruct n; [contradiction|]. split; reflexivity. Qed.
(*@ Example C72_update_refuted_ex :
  let t := st_run [OpAdd (lit "A") None 1 None None None None] in
  st_lookup t (lit "A") <> None /\ snd (st_update t (lit "A") (Some 5) None) = Err AttributeError.
Proof. split; [discriminate|reflexivity]. Qed. @*)

(** *** C73 *)
Lemma passes_app a b : passes (a ++ b) = passes a ++ passes b.
Proof. apply filter_app. Qed.
Lemma passes_attempt l : passes (map EvAttempt l) = [].
Proof. induction l; [reflexivity|assumption]. Qed.
Lemma subseq_trans {A} (l1 l2 l3 : list A) : subseq l1 l2 -> subseq l2 l3 -> subseq l1 l3.
Proof.
  intros H1 H2. revert l1 H1. induction H2 as [l3|x l2 l3 H IH|x l2 l3 H IH]; intros l1 H1.
  - inversion H1; subst. constructor.
  - inversion H1; subst; [constructor|apply ss_take; apply IH; assumption|apply ss_skip; apply IH; assumption].
  - apply ss_skip. apply IH. exact H1.
Qed.
Lemma subseq_refl {A} (l : list A) : subseq l l.
Proof. induction l; constructor; assumption. Qed.
Lemma resolve_loop_ok p : forall i t prev n, undefs_known t ->
  exists t' evs, resolve_loop p i t prev n = Ok (t', evs) /\ t_symbols t' = t_symbols t /\
    subseq (t_undefs t') (t_undefs t) /\ (List.length (passes evs) <= p)%nat.
Proof.
  induction p as [|p IH]; intros i t prev n K; cbn [resolve_loop].
  - exists t, []. repeat split; [apply subseq_refl|cbn; lia].
  - destruct (n =? 0); [exists t, [EvPass i n; EvResolved]; repeat split; [apply subseq_refl|cbn; lia]|].
    rewrite (prune_known t K). cbn [bind]. cbv zeta. cbn [t_undefs].
    pose proof (skim_subseq (t_symbols t) (t_undefs t)) as SS.
    destruct (_ =? prev).
    + eexists. eexists. split; [reflexivity|]. cbn [t_symbols t_undefs]. repeat split; [exact SS|].
      cbn [app]. unfold passes at 1. cbn [filter]. fold (passes (map EvAttempt (t_undefs t) ++ [EvNoProgress (zlen (skim (t_symbols t) (t_undefs t)))])).
      rewrite passes_app, passes_attempt. cbn. lia.
    + set (t1 := mkst (t_symbols t) (skim (t_symbols t) (t_undefs t))).
      destruct (IH (i + 1) t1 (zlen (skim (t_symbols t) (t_undefs t))) (zlen (skim (t_symbols t) (t_undefs t)))) as (t' & evs & E & S1 & S2 & L).
      { intros s I. cbn [t_symbols t_undefs t1] in *. apply K. eapply subseq_In; [exact SS|exact I]. }
      fold t1. rewrite E. cbn [bind fst snd]. exists t'. eexists. split; [reflexivity|].
      split; [exact S1|]. split; [eapply subseq_trans; [exact S2|exact SS]|].
      cbn [app]. unfold passes. cbn [filter]. fold (passes (map EvAttempt (t_undefs t) ++ evs)).
      rewrite passes_app, passes_attempt. cbn [app List.length]. lia.
Qed.
Lemma C73_resolve_pf : forall t n, undefs_known t ->
  exists t' evs, st_resolve t n = Ok (t', evs) /\ t_symbols t' = t_symbols t /\
    subseq (t_undefs t') (t_undefs t) /\ zlen (passes evs) <= Z.max 0 n.
Proof.
  intros t n K. unfold st_resolve. cbv zeta.
  destruct (resolve_loop_ok (Z.to_nat n) 0 t (zlen (t_undefs t)) (zlen (t_undefs t)) K) as (t' & evs & E & S1 & S2 & L).
  exists t', evs. split; [exact E|]. split; [exact S1|]. split; [exact S2|]. unfold zlen. lia.
Qed.
(*@ Example C73_resolve_ex :
  let e := ste_new (lit "A") (Some 1) None None 0 None None in
  let t := mkst [(lit "A", e); (lit "B", e)] [lit "A"; lit "B"] in
  undefs_known t /\ exists evs, st_resolve t 10 = Ok (mkst (t_symbols t) [], evs) /\ zlen (passes evs) = 3.
Proof.
  cbv zeta. split; [intros s [<-|[<-|[]]]; discriminate|]. eexists. split; reflexivity.
Qed. @*)
Lemma C73_resolve_reachable_pf : forall h n,
  st_resolve (st_run h) n =
  Ok (st_run h, if n <=? 0 then []
                else match t_undefs (st_run h) with
                     | [] => [EvPass 0 0; EvResolved]
                     | u => EvPass 0 (zlen u) :: map EvAttempt u ++ [EvNoProgress (zlen u)]
                     end).
Proof. intros h n. apply wf_resolve. apply wf_run. Qed.
(*@ Example C73_resolve_reachable_ex :
  exists t, st_resolve (st_run [OpAdd (lit "B") None 1 None None None None]) 10 =
    Ok (t, [EvPass 0 1; EvAttempt (lit "B"); EvNoProgress 1]).
Proof. eexists. reflexivity. Qed. @*)

(** *** C74 *)
Lemma C74_prune_refuted_pf : forall syms x y r ex ey, NoDup (x :: y :: r) ->
  dget syms x = Some ex -> isValid ex = true -> dget syms y = Some ey -> isValid ey = true ->
  undefs_known (mkst syms (x :: y :: r)) ->
  exists u, st_prune (mkst syms (x :: y :: r)) = Ok (mkst syms u) /\ In y u /\ has_value (mkst syms u) y.
Proof.
  intros syms x y r ex ey ND EX VX EY VY K. rewrite (prune_known _ K). cbn [t_symbols t_undefs].
  exists (skim syms (x :: y :: r)). split; [reflexivity|]. cbn [skim]. unfold vld. rewrite EX, VX.
  split; [left; reflexivity|]. apply vld_ok. cbn. unfold vld. rewrite EY. exact VY.
Qed.
(*@ Example C74_prune_refuted_ex :
  let e := ste_new (lit "A") (Some 1) None None 0 None None in
  st_prune (mkst [(lit "A", e); (lit "B", e)] [lit "A"; lit "B"]) = Ok (mkst [(lit "A", e); (lit "B", e)] [lit "B"]).
Proof. reflexivity. Qed. @*)
Lemma C74_prune_partial_pf : forall t, undefs_known t ->
  exists t', st_prune t = Ok t' /\ t_symbols t' = t_symbols t /\ subseq (t_undefs t') (t_undefs t) /\
    (forall s, In s (t_undefs t) -> ~ has_value t s -> In s (t_undefs t')) /\
    (no_neighbours (has_value t) (t_undefs t) -> forall s, In s (t_undefs t') -> ~ has_value t s).
Proof.
  intros t K. rewrite (prune_known t K). eexists. split; [reflexivity|]. cbn [t_symbols t_undefs].
  split; [reflexivity|]. split; [apply skim_subseq|]. split; [|apply skim_removes].
  intros s I N. apply skim_keeps; [exact I|]. rewrite <- vld_ok in N. destruct (vld _ s); [contradiction|reflexivity].
Qed.
(*@ Example C74_prune_partial_ex :
  let e := ste_new (lit "A") (Some 1) None None 0 None None in
  let f := ste_new (lit "B") None None None 0 None None in
  st_prune (mkst [(lit "A", e); (lit "B", f); (lit "C", e)] [lit "A"; lit "B"; lit "C"]) =
  Ok (mkst [(lit "A", e); (lit "B", f); (lit "C", e)] [lit "B"]).
Proof. reflexivity. Qed. @*)

(** *** C75 *)
Lemma C75_kinds_pf : forall name value symtype file line segment subsegment refs,
  let e := fold_left addReference refs (ste_new name value symtype file line segment subsegment) in
  isMultiple e = false /\
  (isValid e = true <-> value <> None) /\
  (isAbsolute e = true <-> value <> None /\ symtype = Some (lit "absolute")) /\
  (isComplex e = true <-> value <> None /\ symtype <> Some (lit "absolute")) /\
  s_refs e = refs.
Proof.
  intros name value symtype file line segment subsegment refs.
  assert (G : forall refs e, let e' := fold_left addReference refs e in
    s_absolute e' = s_absolute e /\ s_complex e' = s_complex e /\ s_refs e' = s_refs e ++ refs).
  { clear. induction refs as [|r refs IH]; intros e; [cbn; rewrite app_nil_r; repeat split|].
    cbn [fold_left]. destruct (IH (addReference e r)) as (-> & -> & ->). cbn. rewrite <- app_assoc. repeat split. }
  cbv zeta. destruct (G refs (ste_new name value symtype file line segment subsegment)) as (GA & GC & GR).
  unfold isMultiple, isValid, isAbsolute, isComplex. rewrite GA, GC, GR. clear.
  unfold ste_new. destruct (opt_str_is symtype "absolute") eqn:E; cbn [s_absolute s_complex s_refs].
  - apply opt_str_is_ok in E. destruct value; cbn; repeat split; intros; try tauto; try discriminate; try congruence.
    all: exfalso; tauto.
  - assert (N : symtype <> Some (lit "absolute")) by (intros H; apply opt_str_is_ok in H; congruence).
    destruct value; cbn; repeat split; intros; try tauto; try discriminate; try congruence.
    all: exfalso; tauto.
Qed.
(*@ Example C75_kinds_ex :
  isAbsolute (ste_new (lit "A") (Some 0) (Some (lit "absolute")) None 0 None None) = true /\
  isComplex (ste_new (lit "A") (Some 0) (Some (lit "simple")) None 0 None None) = true.
Proof. split; reflexivity. Qed. @*)
