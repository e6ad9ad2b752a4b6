From Coq Require Import ZArith List Bool Lia Permutation.
From Verif Require Import Py LPy LSort MInstructions LInstructions MCards SCards LCards LDeck MSymbols SSymbols LSymBuild LSymQuery MTools STools LTools.
#[local] Arguments Z.add : simpl never.
#[local] Arguments Z.sub : simpl never.
#[local] Arguments Z.mul : simpl never.
#[local] Arguments Z.pow : simpl never.

(** *** well-formed tables *)
Definition ok_dict {V} (P : V -> Prop) (d : dict str V) : Prop :=
  NoDup (dkeys d) /\ forall k v, dget d k = Some v -> P v.
Definition full {V} (P : V -> Prop) (d : dict str V) : Prop := d <> [] /\ ok_dict P d.
Definition deep (tab : symtab) : Prop := ok_dict (full (full (full (fun _ : tabent => True)))) tab.
Lemma ok_dset {V} (P : V -> Prop) d k v : ok_dict P d -> P v -> ok_dict P (dset d k v).
Proof.
  intros [N H] PV. split; [apply dset_NoDup; exact N|]. intros k' v' E. destruct (eq_dec_b k' k) as [->|NE].
  - rewrite dget_dset_eq in E. congruence.
  - rewrite dget_dset_ne in E by exact NE. exact (H _ _ E).
Qed.
Lemma dset_nonempty {V} (d : dict str V) k v : dset d k v <> [].
Proof. destruct d as [|[k' v'] d]; cbn [dset]; [discriminate|]. destruct (eqb k' k); discriminate. Qed.
Lemma full_dset {V} (P : V -> Prop) d k v : ok_dict P d -> P v -> full P (dset d k v).
Proof. intros H1 H2. split; [apply dset_nonempty|apply ok_dset; assumption]. Qed.
Lemma full_one {V} (P : V -> Prop) k (v : V) : P v -> full P [(k, v)].
Proof.
  intros H. split; [discriminate|]. split; [repeat constructor; intros []|]. intros k' v' E. cbn [dget] in E.
  destruct (eqb k k'); [congruence|discriminate].
Qed.
Lemma insert_deep tab seg ss tag kind cmd e tab' n : deep tab -> insert_def tab seg ss tag kind cmd e = Ok (tab', n) ->
  deep tab' /\ forall s, In s (dkeys tab') <-> In s (dkeys tab) \/ s = tag.
Proof.
  intros D H. unfold insert_def in H.
  assert (K : forall sg, forall s, In s (dkeys (dset tab tag sg)) <-> In s (dkeys tab) \/ s = tag).
  { intros sg s. rewrite <- !dget_In. unfold dmem. destruct (eq_dec_b s tag) as [->|NE].
    - rewrite dget_dset_eq. intuition.
    - rewrite dget_dset_ne by exact NE. tauto. }
  destruct (dget tab tag) as [sg|] eqn:E1.
  - assert (D1 := proj2 D _ _ E1). destruct (dget sg seg) as [sub|] eqn:E2.
    + assert (D2 := proj2 (proj2 D1) _ _ E2). destruct (dget sub ss) as [ks|] eqn:E3.
      * assert (D3 := proj2 (proj2 D2) _ _ E3). destruct (dget sg kind) as [prev|] eqn:E4.
        { destruct (eqb cmd (lit "EQUALS")); [destruct (dget prev (lit "card")); discriminate|].
          assert (tab' = tab) by congruence. subst tab'. split; [exact D|]. intros s. split; [auto|].
          intros [X| ->]; [exact X|]. apply dget_In. unfold dmem. rewrite E1. reflexivity. }
        assert (tab' = dset tab tag (dset sg seg (dset sub ss (dset ks kind e)))) by congruence. subst tab'.
        split; [|apply K]. apply ok_dset; [exact D|]. apply full_dset; [apply D1|]. apply full_dset; [apply D2|].
        apply full_dset; [apply D3|exact I].
      * assert (tab' = dset tab tag (dset sg seg (dset sub ss [(kind, e)]))) by congruence. subst tab'.
        split; [|apply K]. apply ok_dset; [exact D|]. apply full_dset; [apply D1|]. apply full_dset; [apply D2|].
        apply full_one. exact I.
    + assert (tab' = dset tab tag (dset sg seg [(ss, [(kind, e)])])) by congruence. subst tab'.
      split; [|apply K]. apply ok_dset; [exact D|]. apply full_dset; [apply D1|]. apply full_one. apply full_one. exact I.
  - assert (tab' = dset tab tag [(seg, [(ss, [(kind, e)])])]) by congruence. subst tab'.
    split; [|apply K]. apply ok_dset; [exact D|]. apply full_one. apply full_one. apply full_one. exact I.
Qed.
Lemma cards_deep upper seg s0 tab errs cs st : Forall proper_card cs -> deep tab ->
  build_cards upper seg (s0, tab, errs) cs = Ok st ->
  deep (snd (fst st)) /\
  forall s, In s (dkeys (snd (fst st))) <-> In s (dkeys tab) \/ exists c k tt, In c cs /\ defines upper c s k tt.
Proof.
  intros F D. revert s0 tab errs D. induction F as [|c cs PC F IH]; intros s0 tab errs D E.
  - injection E as <-. cbn [fst snd]. split; [exact D|]. intros s. split; [auto|]. intros [X|(c & k & tt & [] & _)]. exact X.
  - cbn [build_cards] in E.
    destruct (build_card_cases upper seg c PC s0 tab errs)
      as [(EB & _ & N)|[(EB & _ & N)|(tag & kind & tt & cmd & e & DF & _ & _ & _ & _ & _ & EB)]]; rewrite EB in E; clear EB.
    1,2: cbn [bind] in E; destruct (IH _ _ _ D E) as [D' K]; split; [exact D'|]; intros s; rewrite K; split;
      [intros [X|(c' & k & tt & I & X)]; [auto|right; exists c', k, tt; split; [right; exact I|exact X]]|];
      (intros [X|(c' & k & tt & [<-|I] & X)]; [auto|destruct (N _ _ _ X)|right; exists c', k, tt; auto]).
    destruct (insert_def tab seg (sub_step s0 c) tag kind cmd e) as [[tab1 n]|] eqn:EI; cbn [bind fst snd] in E; [|discriminate].
    destruct (insert_deep _ _ _ _ _ _ _ _ _ D EI) as [D1 K1]. destruct (IH _ _ _ D1 E) as [D' K]. split; [exact D'|].
    intros s. rewrite K, K1. split.
    + intros [[X| ->]|(c' & k & tt' & I & X)]; [auto| |].
      * right. exists c, kind, tt. split; [left; reflexivity|exact DF].
      * right. exists c', k, tt'. split; [right; exact I|exact X].
    + intros [X|(c' & k & tt' & [<-|I] & X)]; [auto| |right; exists c', k, tt'; auto].
      left. right.
      destruct X as (_ & s1 & op1 & L1 & W1 & _), DF as (_ & s2 & op2 & L2 & W2 & _).
      destruct L1 as (l1 & G1 & ->), L2 as (l2 & G2 & ->). assert (l1 = l2) by congruence. subst l2.
      destruct W1 as [_ [(N1 & _ & ->)|(E1 & N1 & _)]], W2 as [_ [(N2 & _ & ->)|(E2 & N2 & _)]]; try reflexivity.
      * exfalso. apply N1. rewrite E2. apply in_or_app. right. left. reflexivity.
      * exfalso. apply N2. rewrite E1. apply in_or_app. right. left. reflexivity.
      * rewrite E1 in E2.
        assert (X : rev (tt' ++ 44 :: s) = rev (tt ++ 44 :: tag)) by (rewrite E2; reflexivity).
        rewrite !rev_app_distr in X. cbn [rev] in X. rewrite <- !app_assoc in X. cbn [app] in X.
        assert (Y : split_on 44 (rev s ++ 44 :: rev tt') = split_on 44 (rev tag ++ 44 :: rev tt)) by (rewrite X; reflexivity).
        rewrite !split_yes in Y by (rewrite <- in_rev; assumption).
        assert (Z0 : rev s = rev tag) by congruence. rewrite <- (rev_involutive s), Z0, rev_involutive. reflexivity.
Qed.
Lemma entry_unique c tt e e' : entry_from c tt e -> entry_from c tt e' -> e = e'.
Proof.
  intros (A1 & A2 & A3 & A4 & A5) (B1 & B2 & B3 & B4 & B5). destruct e, e'. cbn in *.
  assert (e_lognum = e_lognum0) by congruence. congruence.
Qed.
Lemma seg_exists f : exists seg, segment_of f seg.
Proof. exists (nth 0 (split_on 46 f) []). apply seg_ok. reflexivity. Qed.
Lemma seg_unique f s s' : segment_of f s -> segment_of f s' -> s = s'.
Proof. rewrite !seg_ok. congruence. Qed.
Lemma bst_full upper fuel fs f seg cs tab : segment_of f seg -> ~ is_kind seg -> plain_table tab -> deep tab ->
  source_cards fuel fs f cs ->
  exists tab' n, build_symbol_table upper fuel fs f tab = Ok (tab', n) /\ plain_table tab' /\ deep tab' /\
    count_of (label_error upper) cs n /\
    (forall s, In s (dkeys tab') <-> In s (dkeys tab) \/ exists c k tt, In c cs /\ defines upper c s k tt) /\
    forall t s u k e, get4 tab' t s u k = Some e <->
      (s = seg /\ exists c tt, last_def upper (lit "1") cs t u k c tt /\ entry_from c tt e) \/
      ((s <> seg \/ never_def upper (lit "1") cs t u k) /\ get4 tab t s u k = Some e).
Proof.
  intros S NK P D SC. assert (PR := source_proper _ _ _ _ SC).
  rewrite (bst_eq _ _ _ _ _ _ _ S SC).
  destruct (build_plain upper seg (lit "1") tab 0 cs P NK PR) as (tab' & n & E & P' & C & L).
  destruct (cards_deep _ _ _ _ _ _ _ PR D E) as [D' K].
  destruct (build_frame _ _ _ _ _ _ _ PR E) as [_ FR]. cbn [fst snd] in D', K, FR.
  rewrite E. cbn [bind fst snd]. exists tab', (0 + n). split; [reflexivity|]. split; [exact P'|]. split; [exact D'|].
  split; [exact C|]. split; [exact K|]. intros t s u k e.
  assert (LN : forall c tt, last_def upper (lit "1") cs t u k c tt -> ~ never_def upper (lit "1") cs t u k).
  { intros c tt (pre & post & EQ & DF & CU & _) N. exact (N pre c post tt EQ DF CU). }
  split.
  - intros G. destruct (eq_dec_b s seg) as [->|NE].
    + destruct (last_or_never upper (lit "1") t u k cs PR) as [(c & tt & LD)|N].
      * left. split; [reflexivity|]. exists c, tt. split; [exact LD|]. destruct (L _ _ _ _ _ LD) as (e' & G' & EF).
        assert (e = e') by congruence. subst e'. exact EF.
      * right. split; [right; exact N|]. rewrite <- FR; [exact G|right; exact N].
    + right. split; [left; exact NE|]. rewrite <- FR; [exact G|left; exact NE].
  - intros [(-> & c & tt & LD & EF)|(H & G)].
    + destruct (L _ _ _ _ _ LD) as (e' & G' & EF'). rewrite (entry_unique _ _ _ _ EF EF'). exact G'.
    + rewrite FR by exact H. exact G.
Qed.
Lemma combine_map {A B} (ps : list (A * B)) : combine (map fst ps) (map snd ps) = ps.
Proof. induction ps as [|[a b] ps IH]; [reflexivity|]. cbn. rewrite IH. reflexivity. Qed.
Lemma F2_pairs {A B} (R : A -> B -> Prop) a b : Forall2 R a b ->
  exists ps, a = map fst ps /\ b = map snd ps /\ Forall (fun p => R (fst p) (snd p)) ps.
Proof.
  induction 1 as [|x y a b H _ (ps & -> & -> & F)]; [exists []; auto|]. exists ((x, y) :: ps). auto.
Qed.
Lemma snoc_split {A} (pre post : list A) x l y : l ++ [y] = pre ++ x :: post ->
  (x = y /\ pre = l /\ post = []) \/ exists post', post = post' ++ [y] /\ l = pre ++ x :: post'.
Proof.
  intros E. destruct (rev post) as [|z r] eqn:R.
  - assert (post = []) by (rewrite <- (rev_involutive post), R; reflexivity). subst post. left.
    apply app_inj_tail in E. destruct E as [-> ->]. auto.
  - assert (EP : post = rev r ++ [z]) by (rewrite <- (rev_involutive post), R; reflexivity). right. exists (rev r).
    rewrite EP in E. change (x :: rev r ++ [z]) with ((x :: rev r) ++ [z]) in E. rewrite app_assoc in E.
    apply app_inj_tail in E. destruct E as [-> ->]. auto.
Qed.
Lemma plain_nil : plain_table [].
Proof. intros tag sg s E. discriminate. Qed.
Lemma deep_nil : deep [].
Proof. split; [constructor|]. intros k v E. discriminate. Qed.
Lemma build_files upper fuel fs files css : Forall2 (source_cards fuel fs) files css -> plain_names files ->
  exists tab ns, build_all upper fuel fs files = Ok (tab, ns) /\ plain_table tab /\ deep tab /\
    Forall2 (count_of (label_error upper)) css ns /\
    (forall s, In s (dkeys tab) <-> is_defined upper css s) /\
    forall t s u k e, get4 tab t s u k = Some e <-> defined_as upper files css t s u k e.
Proof.
  intros F. apply F2_pairs in F. destruct F as (ps & -> & -> & F). unfold defined_as. rewrite combine_map.
  unfold build_all. induction ps as [|[f cs] ps IH] using rev_ind; intros PN.
  - exists [], []. split; [reflexivity|]. split; [exact plain_nil|]. split; [exact deep_nil|]. split; [constructor|]. split.
    + intros s. split; [intros []|]. intros (cs & c & k & tt & [] & _).
    + intros t s u k e. split; [discriminate|]. intros (pre & f & cs & post & c & tt & E & _). destruct pre; discriminate.
  - apply Forall_app in F. destruct F as [F1 F2]. inversion F2 as [|? ? SC _]; subst. cbn [fst snd] in SC.
    destruct (IH F1) as (tab & ns & E & P & D & C & K & G).
    { intros f' seg I. apply PN. rewrite map_app. apply in_or_app. left. exact I. }
    clear IH. destruct (seg_exists f) as (seg & S).
    assert (NK : ~ is_kind seg).
    { apply (PN f seg); [|exact S]. rewrite map_app. apply in_or_app. right. left. reflexivity. }
    destruct (bst_full upper fuel fs f seg cs tab S NK P D SC) as (tab' & n & E' & P' & D' & C' & K' & G').
    rewrite !map_app. cbn [map fst snd]. rewrite fold_r_app, E. cbn [bind fold_r fst snd]. rewrite E'. cbn [bind fst snd].
    exists tab', (ns ++ [n]). split; [reflexivity|]. split; [exact P'|]. split; [exact D'|].
    split; [apply Forall2_app; [exact C|constructor; [exact C'|constructor]]|]. split.
    + intros s. rewrite K', K. split.
      * intros [(cs' & c & k & tt & I & X)|(c & k & tt & I & X)].
        -- exists cs', c, k, tt. split; [apply in_or_app; left; exact I|exact X].
        -- exists cs, c, k, tt. split; [apply in_or_app; right; left; reflexivity|auto].
      * intros (cs' & c & k & tt & I & IC & X). apply in_app_or in I. destruct I as [I|[<-|[]]].
        -- left. exists cs', c, k, tt. auto.
        -- right. exists c, k, tt. auto.
    + intros t s u k e. rewrite G', G. split.
      * intros [(-> & c & tt & LD & EF)|(H & pre & f' & cs' & post & c & tt & -> & S' & LD & EF & N)].
        -- exists ps, f, cs, [], c, tt. split; [reflexivity|]. split; [exact S|]. split; [exact LD|]. split; [exact EF|].
           intros f' cs' [].
        -- exists pre, f', cs', (post ++ [(f, cs)]), c, tt. split; [rewrite <- app_assoc; reflexivity|].
           split; [exact S'|]. split; [exact LD|]. split; [exact EF|]. intros f'' cs'' I S''. apply in_app_or in I.
           destruct I as [I|[I|[]]]; [exact (N _ _ I S'')|]. assert (f'' = f) by congruence. assert (cs'' = cs) by congruence.
           subst f'' cs''. destruct H as [H|H]; [destruct H; exact (seg_unique _ _ _ S'' S)|exact H].
      * intros (pre & f' & cs' & post & c & tt & EQ & S' & LD & EF & N).
        destruct (snoc_split _ _ _ _ _ EQ) as [(X & -> & ->)|(post' & -> & ->)].
        -- left. assert (f' = f) by congruence. assert (cs' = cs) by congruence. subst f' cs'.
           split; [exact (seg_unique _ _ _ S' S)|]. exists c, tt. auto.
        -- right. split.
           ++ destruct (eq_dec_b s seg) as [->|NE]; [|left; exact NE]. right.
              apply (N f cs); [apply in_or_app; right; left; reflexivity|exact S].
           ++ exists pre, f', cs', post', c, tt. split; [reflexivity|]. split; [exact S'|]. split; [exact LD|]. split; [exact EF|].
              intros f'' cs'' I. apply N. apply in_or_app. left. exact I.
Qed.

(** *** C100 *)
Lemma fold_add l : forall a, fold_left Z.add l a = a + fold_right Z.add 0 l.
Proof. induction l as [|x l IH]; intros a; cbn [fold_left fold_right]; [lia|]. rewrite IH. lia. Qed.
Lemma C100_total_pf : forall upper fuel fs complexOnly files css, files <> [] ->
  Forall2 (source_cards fuel fs) files css -> plain_names files ->
  exists ns syms total, check_symbols upper fuel fs complexOnly files = Ok (ns, syms, total) /\
    Forall2 (count_of (label_error upper)) css ns /\
    total = fold_right Z.add 0 ns + zlen syms /\
    StronglySorted str_lt syms /\
    forall s, In s syms <-> complexOnly = true /\
      (exists seg ss e, defined_as upper files css s seg ss (lit "complex") e) /\
      ~ (exists seg ss e, defined_as upper files css s seg ss (lit "simple") e).
Proof.
  intros upper fuel fs co files css NE F PN. destruct (build_files upper fuel fs files css F PN) as (tab & ns & E & P & D & C & K & G).
  destruct (C81_complex_only_pf tab co (proj1 D)) as [S M].
  unfold check_symbols. destruct files as [|f files]; [contradiction|]. rewrite E. cbn [bind fst snd].
  exists ns, (check_symtab tab co). eexists. split; [reflexivity|]. split; [exact C|]. split; [rewrite fold_add; reflexivity|].
  split; [exact S|]. intros s. rewrite M. unfold has_kind.
  assert (X : forall k, (exists seg ss e, get4 tab s seg ss k = Some e) <-> (exists seg ss e, defined_as upper (f :: files) css s seg ss k e)).
  { intros k. split; intros (seg & ss & e & H); exists seg, ss, e; apply G; exact H. }
  rewrite !X. tauto.
Qed.
(*@ Example C100_total_ex :
  let fs := fun f => if eqb f (lit "p.a") then Some (lit "        A          ASSIGN       1" ++ [10] ++ lit "        b          DEC          1" ++ [10])
                     else if eqb f (lit "q.a") then Some (lit "        L,X        DEC          1" ++ [10] ++ lit "        C          DEC" ++ [10]) else None in
  let up := map (fun c => if (97 <=? c) && (c <=? 122) then c - 32 else c) in
  check_symbols up 2 fs true [lit "p.a"; lit "q.a"] = Ok ([1; 1], [lit "A"], 3).
Proof. vm_compute. reflexivity. Qed. @*)

(** *** C101 *)
Lemma C101_default_refuted_pf : forall extract upper fuel fs exact symbol files css,
  files <> [] -> Forall2 (source_cards fuel fs) files css -> plain_names files ->
  ~ is_defined upper css symbol -> (exists p q, is_defined upper css (p ++ symbol ++ q)) ->
  find_symbols extract upper fuel fs false false false exact (symbol :: files) = Ok FNone.
Proof.
  intros extract upper fuel fs exact symbol files css NE F PN ND _.
  destruct (build_files upper fuel fs files css F PN) as (tab & ns & E & P & D & C & K & G).
  unfold find_symbols. cbn [andb orb]. destruct files as [|f files]; [contradiction|]. rewrite E. cbn [bind fst].
  unfold find_symbol. cbn [negb andb]. destruct (dget tab symbol) as [sg|] eqn:ES; [|reflexivity].
  exfalso. apply ND. apply K. apply dget_In. unfold dmem. rewrite ES. reflexivity.
Qed.
(*@ Example C101_default_refuted_ex :
  find_symbols (fun _ _ _ => []) (fun s => s) 2
    (fun f => if eqb f (lit "p.a") then Some (lit "        TABLE1     DEC          1" ++ [10]) else None)
    false false false false [lit "TABLE"; lit "p.a"] = Ok FNone.
Proof. vm_compute. reflexivity. Qed. @*)
Lemma C101_match_partial_pf : forall extract upper fuel fs begin end_ exact symbol files css,
  files <> [] -> Forall2 (source_cards fuel fs) files css -> plain_names files ->
  (begin && end_ = false -> exact && (begin || end_) = false ->
   exists r, find_symbols extract upper fuel fs begin end_ false exact (symbol :: files) = Ok r /\
     (begin || end_ = false -> match r with FDefs _ => is_defined upper css symbol | FNone => ~ is_defined upper css symbol | FList _ => False end) /\
     (begin || end_ = true -> exists l, r = FList l /\ StronglySorted str_lt l /\
        forall s, In s l <-> is_defined upper css s /\
          ((begin = true /\ exists r, s = symbol ++ r) \/ (end_ = true /\ exists r, s = r ++ symbol)))) /\
  (begin && end_ = true \/ exact && (begin || end_) = true ->
   find_symbols extract upper fuel fs begin end_ false exact (symbol :: files) = Err SystemExit).
Proof.
  intros extract upper fuel fs begin end_ exact symbol files css NE F PN.
  destruct (build_files upper fuel fs files css F PN) as (tab & ns & E & P & D & C & K & G).
  unfold find_symbols. cbn [andb]. rewrite orb_false_r. split.
  - intros B X. assert (CO : (begin && exact) || (end_ && exact) || (begin && end_) = false).
    { destruct begin, end_, exact; try reflexivity; discriminate. }
    rewrite CO. destruct files as [|f files]; [contradiction|]. rewrite E. cbn [bind fst].
    eexists. split; [reflexivity|]. split.
    + intros BE. apply orb_false_iff in BE. destruct BE as [-> ->].
      pose proof (C83_exact_pf extract tab symbol None) as H.
      destruct (find_symbol extract tab symbol None false false false) as [|sg|l]; [|destruct H as [H _]|exact H].
      * rewrite <- K. intros I. apply dget_In in I. unfold dmem in I.
        destruct H as [H|(k & H & _)]; [rewrite H in I; discriminate|discriminate].
      * apply K. apply dget_In. unfold dmem. rewrite H. reflexivity.
    + intros BE. destruct (C83_begin_end_pf extract tab symbol None begin end_ false (proj1 D) BE) as (l & EL & _ & SL & IL).
      exists l. split; [exact EL|]. split; [exact (SL B)|]. intros s. rewrite IL, K. tauto.
  - intros H. assert (CO : (begin && exact) || (end_ && exact) || (begin && end_) = true).
    { destruct begin, end_, exact, H; try reflexivity; discriminate. }
    rewrite CO. reflexivity.
Qed.
(*@ Example C101_match_partial_ex :
  find_symbols (fun _ _ _ => []) (fun s => s) 2
    (fun f => if eqb f (lit "p.a") then Some (lit "        TABLE1     DEC          1" ++ [10] ++ lit "        XTABLE     DEC" ++ [10]) else None)
    true false false false [lit "TAB"; lit "p.a"] = Ok (FList [lit "TABLE1"]).
Proof. vm_compute. reflexivity. Qed. @*)

(** *** C89 *)
Lemma parse_build upper fuel fs files : forall tab ns tab' n0,
  fold_r (fun s f => do r <- build_symbol_table upper fuel fs f (fst s); Ok (fst r, snd s ++ [snd r])) files (tab, ns) = Ok tab' ->
  exists ms, snd tab' = ns ++ ms /\
  fold_r (fun s f => build_symbol_table upper fuel fs f (fst s)) files (tab, n0) = Ok (fst tab', last ms n0).
Proof.
  induction files as [|f files IH]; intros tab ns tab' n0 H; cbn [fold_r] in *.
  - assert (tab' = (tab, ns)) by congruence. subst tab'. exists []. rewrite app_nil_r. auto.
  - cbn [fst snd] in *. destruct (build_symbol_table upper fuel fs f tab) as [[tab1 n]|]; cbn [bind fst snd] in *; [|discriminate].
    destruct (IH _ _ _ n H) as (ms & E & E'). exists (n :: ms). rewrite <- app_assoc in E. split; [exact E|].
    rewrite E'. destruct ms as [|m ms]; [reflexivity|]. cbn [last].
    assert (L : forall (x y : Z) l, last (m :: l) x = last (m :: l) y).
    { clear. intros x y l. revert m. induction l as [|a l IH]; intros m; [reflexivity|]. cbn [last]. apply IH. }
    f_equal. f_equal. exact (L n n0 ms).
Qed.
Definition invalid_card (c : card) : Prop := ~ starred c /\ exists m, instr_is c m /\ ~ In m INSTRUCTIONS.
Lemma parse_step l e c : tool_card c ->
  (invalid_card c /\ parse_card (l, e) c = Ok (l + 1, e + 1)) \/ (~ invalid_card c /\ parse_card (l, e) c = Ok (l + 1, e)).
Proof.
  intros ((oi & EI) & (o8 & E8) & _). unfold parse_card. rewrite EI. cbn [bind].
  assert (NI : forall m, instr_is c m -> oi = Some m /\ m <> []).
  { intros m [N E]. rewrite EI in E. destruct oi; cbn [rstr] in E; [|congruence]. split; [congruence|exact N]. }
  destruct oi as [m|]; cbn [rstr truthy].
  2:{ right. split; [|reflexivity]. intros (_ & m & X & _). destruct (NI m X). discriminate. }
  destruct (eqb m []) eqn:EM; cbn [negb].
  - right. split; [|reflexivity]. intros (_ & m' & X & _). destruct (NI m' X) as [E N]. apply eqb_ok in EM. congruence.
  - assert (M : instr_is c m) by (split; [intros ->; discriminate|exact EI]). rewrite E8. cbn [bind].
    destruct (is_str (rstr o8) "*") eqn:S8.
    + right. split; [|reflexivity]. intros (NS & _). apply NS. unfold starred. rewrite E8. f_equal. apply is_str_ok. exact S8.
    + assert (ST : ~ starred c).
      { unfold starred. intros X. rewrite E8 in X. assert (R : rstr o8 = RStr (lit "*")) by congruence.
        apply is_str_ok in R. congruence. }
      destruct (inb m INSTRUCTIONS) eqn:IB.
      * right. split; [|reflexivity]. intros (_ & m' & X & N). apply inb_In in IB. rewrite (instr_unique _ _ _ X M) in N. contradiction.
      * left. split; [|reflexivity]. split; [exact ST|]. exists m. split; [exact M|]. intros X. apply inb_In in X.
        rewrite X in IB. discriminate.
Qed.
Lemma parse_fold cs : Forall tool_card cs -> forall l e,
  exists n, count_of invalid_card cs n /\ fold_r parse_card cs (l, e) = Ok (l + zlen cs, e + n).
Proof.
  induction 1 as [|c cs H F IH]; intros l e.
  - exists 0. split; [constructor|]. cbn [fold_r]. change (zlen (@nil card)) with 0. rewrite !Z.add_0_r. reflexivity.
  - cbn [fold_r]. rewrite zlen_cons. destruct (parse_step l e c H) as [(I & ->)|(I & ->)]; cbn [bind].
    + destruct (IH (l + 1) (e + 1)) as (n & C & ->). exists (n + 1). split; [apply cn_yes; assumption|]. f_equal. f_equal; lia.
    + destruct (IH (l + 1) e) as (n & C & ->). exists n. split; [apply cn_no; assumption|]. f_equal. f_equal; lia.
Qed.
Lemma C89_total_partial_pf : forall upper fuel fs files css, files <> [] ->
  Forall2 (source_cards fuel fs) files css -> plain_names files ->
  exists ns invalid total,
    parse_tool upper fuel fs files = Ok (zlen (concat css), total) /\
    Forall2 (count_of (label_error upper)) css ns /\
    count_of (fun c => ~ starred c /\ exists m, instr_is c m /\ ~ In m INSTRUCTIONS) (concat css) invalid /\
    total = last ns 0 + invalid /\
    ((forall a, ns = a ++ [last ns 0] -> fold_right Z.add 0 a = 0) -> total = fold_right Z.add 0 ns + invalid).
Proof.
  intros upper fuel fs files css NE F PN. destruct (build_files upper fuel fs files css F PN) as (tab & ns & E & _ & _ & C & _).
  unfold build_all in E. destruct (parse_build _ _ _ _ _ _ _ 0 E) as (ms & EN & EP). cbn [snd fst app] in EN, EP. subst ms.
  assert (T : Forall tool_card (concat css)) by (apply (all_tool fuel fs files); exists css; auto).
  destruct (parse_fold _ T 0 (last ns 0)) as (n & CN & EF).
  unfold parse_tool. destruct files as [|f files]; [contradiction|].
  match goal with |- context [bind ?m _] => replace m with (Ok (tab, last ns 0)) by (symmetry; exact EP) end. cbn [bind snd].
  rewrite (fold_files parse_card fuel fs (f :: files) css (0, last ns 0) F), EF.
  exists ns, n, (last ns 0 + n). split; [reflexivity|]. split; [exact C|]. split; [exact CN|]. split; [reflexivity|].
  intros H. destruct ns as [|x ns]; [reflexivity|].
  assert (ER : x :: ns = removelast (x :: ns) ++ [last (x :: ns) 0]) by (apply app_removelast_last; discriminate).
  specialize (H _ ER). rewrite ER at 2.
  assert (SA : forall a b, fold_right Z.add 0 (a ++ b) = fold_right Z.add 0 a + fold_right Z.add 0 b).
  { clear. induction a as [|y a IH]; intros b; cbn [app fold_right]; [lia|]. rewrite IH. lia. }
  rewrite SA, H. cbn [fold_right]. lia.
Qed.
(*@ Example C89_total_partial_ex :
  let fs := fun f => if eqb f (lit "p.a") then Some (lit "        b          DEC          1" ++ [10] ++ lit "                   FOO" ++ [10]) else None in
  let up := map (fun c => if (97 <=? c) && (c <=? 122) then c - 32 else c) in
  parse_tool up 2 fs [lit "p.a"] = Ok (2, 2).
Proof. vm_compute. reflexivity. Qed. @*)
Lemma C89_total_refuted_pf : forall upper fuel fs files css f cs, files <> [] ->
  Forall2 (source_cards fuel fs) (files ++ [f]) (css ++ [cs]) -> plain_names (files ++ [f]) ->
  (exists c, In c (concat css) /\ label_error upper c) ->
  exists ns invalid lines total,
    Forall2 (count_of (label_error upper)) (css ++ [cs]) ns /\
    count_of (fun c => ~ starred c /\ exists m, instr_is c m /\ ~ In m INSTRUCTIONS) (concat (css ++ [cs])) invalid /\
    parse_tool upper fuel fs (files ++ [f]) = Ok (lines, total) /\
    total < fold_right Z.add 0 ns + invalid.
Proof.
  intros upper fuel fs files css f cs NE F PN (c & IC & LE).
  destruct (C89_total_partial_pf upper fuel fs (files ++ [f]) (css ++ [cs]) ltac:(destruct files; discriminate) F PN)
    as (ns & inv & total & E & C & CI & T & _).
  exists ns, inv. eexists. exists total. split; [exact C|]. split; [exact CI|]. split; [exact E|].
  apply Forall2_app_inv_l in C. destruct C as (n1 & n2 & C1 & C2 & ->). inversion C2 as [|? n ? l2 CN C3]; subst.
  inversion C3; subst. rewrite last_last.
  assert (SA : forall a b, fold_right Z.add 0 (a ++ b) = fold_right Z.add 0 a + fold_right Z.add 0 b).
  { clear. induction a as [|y a IH]; intros b; cbn [app fold_right]; [lia|]. rewrite IH. lia. }
  rewrite SA. cbn [fold_right].
  assert (P : 0 < fold_right Z.add 0 n1).
  { clear - C1 IC LE.
    induction C1 as [|x n css ns H C1 IH]; [destruct IC|]. cbn [concat] in IC. cbn [fold_right].
    assert (N1 := count_pos _ _ _ H).
    apply in_app_or in IC. destruct IC as [IC|IC].
    - assert (n <> 0) by (intros ->; exact (proj1 (proj2 N1) eq_refl c IC LE)).
      assert (0 <= fold_right Z.add 0 ns); [|lia]. clear - C1.
      induction C1 as [|x n css ns H _ IH]; cbn [fold_right]; [lia|]. apply count_pos in H. lia.
    - specialize (IH IC). lia. }
  lia.
Qed.
(*@ Example C89_total_refuted_ex :
  let fs := fun f => if eqb f (lit "p.a") then Some (lit "        b          DEC          1" ++ [10]) else Some [] in
  let up := map (fun c => if (97 <=? c) && (c <=? 122) then c - 32 else c) in
  parse_tool up 2 fs [lit "p.a"] = Ok (1, 1) /\ parse_tool up 2 fs [lit "p.a"; lit "q.a"] = Ok (1, 0).
Proof. vm_compute. auto. Qed. @*)

(** *** C102 *)
Definition vals {V} (d : dict str V) : list (str * V) :=
  flat_map (fun k => match dget d k with Some v => [(k, v)] | None => [] end) (get_keys d).
Lemma vals_In {V} (d : dict str V) k v : In (k, v) (vals d) <-> dget d k = Some v.
Proof.
  unfold vals. rewrite in_flat_map. split.
  - intros (x & I & J). destruct (dget d x) as [w|] eqn:E; [|destruct J]. destruct J as [J|[]].
    assert (x = k) by congruence. subst x. congruence.
  - intros E. exists k. split; [apply keys_In; apply dget_In; unfold dmem; rewrite E; reflexivity|]. rewrite E. left. reflexivity.
Qed.
Lemma ls_each_vals {V} (d : dict str V) (f : str -> V -> res (list str)) :
  ls_each d f = (do ls <- mapr (fun kv => f (fst kv) (snd kv)) (vals d); Ok (concat ls)).
Proof.
  unfold ls_each, vals. f_equal.
  assert (G : forall k, In k (get_keys d) -> exists v, dget d k = Some v).
  { intros k I. apply keys_In in I. apply dget_In in I. unfold dmem in I. destruct (dget d k) as [v|]; [eauto|discriminate]. }
  revert G. induction (get_keys d) as [|k l IH]; intros G; [reflexivity|]. cbn [mapr flat_map].
  destruct (G k (or_introl eq_refl)) as (v & E). unfold dindex. rewrite E. cbn [bind app mapr fst snd].
  destruct (f k v) as [x|]; cbn [bind]; [|reflexivity]. unfold dindex in IH.
  rewrite (IH ltac:(intros k' I; apply G; right; exact I)). reflexivity.
Qed.
Lemma vals_keys {V} (d : dict str V) : map fst (vals d) = get_keys d.
Proof.
  unfold vals.
  assert (G : forall k, In k (get_keys d) -> exists v, dget d k = Some v).
  { intros k I. apply keys_In in I. apply dget_In in I. unfold dmem in I. destruct (dget d k) as [v|]; [eauto|discriminate]. }
  revert G. induction (get_keys d) as [|k l IH]; intros G; [reflexivity|]. cbn [flat_map].
  destruct (G k (or_introl eq_refl)) as (v & ->). cbn [app map fst]. rewrite IH; [reflexivity|].
  intros k' I. apply G. right. exact I.
Qed.
Lemma vals_sorted {V} (d : dict str V) : NoDup (dkeys d) -> StronglySorted (fun a b => str_lt (fst a) (fst b)) (vals d).
Proof. intros N. apply SS_unmap. rewrite vals_keys. apply sorted_lt_str. exact N. Qed.
Lemma vals_nonempty {V} (d : dict str V) : d <> [] -> vals d <> [].
Proof.
  intros N E. destruct d as [|[k v] d]; [contradiction|].
  assert (I : In (k, v) (vals ((k, v) :: d))) by (apply vals_In; cbn [dget]; rewrite eqb_refl; reflexivity).
  rewrite E in I. exact I.
Qed.
Definition after (p : lspos) (es : list (symkey * tabent)) : lspos :=
  fold_left (fun _ x => let '((t, s, u, _), _) := x in (Some t, Some s, Some u)) es p.
Lemma rendered_app es : forall p x es' y, rendered p es x -> rendered (after p es) es' y -> rendered p (es ++ es') (x ++ y).
Proof.
  induction es as [|[[[[t s] u] k] e] es IH]; intros p x es' y H H'.
  - cbn [rendered] in H. subst x. exact H'.
  - destruct H as (line & out' & D & R & ->). cbn [app rendered]. exists line, (out' ++ y).
    split; [exact D|]. split; [apply IH; [exact R|exact H']|]. rewrite <- app_assoc. reflexivity.
Qed.
Lemma after_all (P : lspos -> Prop) es : es <> [] ->
  (forall t s u k e, In ((t, s, u, k), e) es -> P (Some t, Some s, Some u)) -> forall p, P (after p es).
Proof.
  induction es as [|[[[[t s] u] k] e] es IH]; intros N H p; [contradiction|].
  destruct es as [|x es]; [exact (H t s u k e (or_introl eq_refl))|].
  change (P (after (Some t, Some s, Some u) (x :: es))). apply IH; [discriminate|].
  intros t' s' u' k' e' I. apply (H t' s' u' k' e'). right. exact I.
Qed.
Lemma rendered_head p p' t s u k e es h out : rendered p (((t, s, u, k), e) :: es) out ->
  headers p' t s u = h ++ headers p t s u -> rendered p' (((t, s, u, k), e) :: es) (h ++ out).
Proof.
  intros (line & out' & D & R & ->) E. exists line, out'. split; [exact D|]. split; [exact R|].
  rewrite E, <- app_assoc. reflexivity.
Qed.
Definition kents (t s u : str) (ks : kinds) : list (symkey * tabent) := map (fun x => ((t, s, u, fst x), snd x)) (vals ks).
Definition uents (t s : str) (d : subsegs) : list (symkey * tabent) := flat_map (fun x => kents t s (fst x) (snd x)) (vals (V := kinds) d).
Definition sents (t : str) (d : segs) : list (symkey * tabent) := flat_map (fun x => uents t (fst x) (snd x)) (vals (V := subsegs) d).
Definition tents (d : symtab) : list (symkey * tabent) := flat_map (fun x => sents (fst x) (snd x)) (vals (V := segs) d).
Lemma kents_In t s u ks t' s' u' k e : In ((t', s', u', k), e) (kents t s u ks) <-> t' = t /\ s' = s /\ u' = u /\ dget ks k = Some e.
Proof.
  unfold kents. rewrite in_map_iff. split.
  - intros ([k' e'] & E & I). cbn [fst snd] in E. apply vals_In in I.
    assert (k' = k) by congruence. assert (e' = e) by congruence. subst. repeat split; congruence.
  - intros (-> & -> & -> & E). exists (k, e). split; [reflexivity|apply vals_In; exact E].
Qed.
Lemma uents_In t s d t' s' u k e : In ((t', s', u, k), e) (uents t s d) <->
  t' = t /\ s' = s /\ exists ks, dget d u = Some ks /\ dget ks k = Some e.
Proof.
  unfold uents. rewrite in_flat_map. split.
  - intros ([u' ks] & I & J). apply kents_In in J. cbn [fst snd] in J. destruct J as (-> & -> & -> & E). apply vals_In in I. eauto.
  - intros (-> & -> & ks & E & E'). exists (u, ks). split; [apply vals_In; exact E|apply kents_In; auto].
Qed.
Lemma sents_In t d t' s u k e : In ((t', s, u, k), e) (sents t d) <->
  t' = t /\ exists us ks, dget d s = Some us /\ dget us u = Some ks /\ dget ks k = Some e.
Proof.
  unfold sents. rewrite in_flat_map. split.
  - intros ([s' us] & I & J). apply uents_In in J. cbn [fst snd] in J. destruct J as (-> & -> & ks & E & E'). apply vals_In in I. eauto 6.
  - intros (-> & us & ks & E & E' & E''). exists (s, us). split; [apply vals_In; exact E|apply uents_In; eauto].
Qed.
Lemma tents_In d t s u k e : In ((t, s, u, k), e) (tents d) <-> get4 d t s u k = Some e.
Proof.
  unfold tents, get4. rewrite in_flat_map. split.
  - intros ([t' sg] & I & J). apply sents_In in J. cbn [fst snd] in J. destruct J as (-> & us & ks & E & E' & E''). apply vals_In in I.
    cbn [fst] in *. rewrite I, E, E'. exact E''.
  - intros H. destruct (dget d t) as [sg|] eqn:E; [|discriminate]. exists (t, sg). split; [apply vals_In; exact E|].
    apply sents_In. split; [reflexivity|]. cbn [snd]. destruct (dget sg s) as [us|]; [|discriminate].
    destruct (dget us u) as [ks|] eqn:E2; [|discriminate]. exists us, ks. auto.
Qed.
Lemma flat_map_nonempty {A B} (f : A -> list B) l : l <> [] -> (forall x, In x l -> f x <> []) -> flat_map f l <> [].
Proof. destruct l as [|x l]; [contradiction|]. intros _ H E. apply app_eq_nil in E. exact (H x (or_introl eq_refl) (proj1 E)). Qed.
Lemma kents_nonempty t s u ks : ks <> [] -> kents t s u ks <> [].
Proof. intros N E. apply map_eq_nil in E. exact (vals_nonempty _ N E). Qed.
Lemma uents_nonempty t s d : full (full (fun _ : tabent => True)) d -> uents t s d <> [].
Proof.
  intros [N [_ H]]. apply flat_map_nonempty; [apply vals_nonempty; exact N|]. intros [u ks] I. apply vals_In in I.
  apply kents_nonempty. exact (proj1 (H _ _ I)).
Qed.
Lemma sents_nonempty t d : full (full (full (fun _ : tabent => True))) d -> sents t d <> [].
Proof.
  intros [N [_ H]]. apply flat_map_nonempty; [apply vals_nonempty; exact N|]. intros [s us] I. apply vals_In in I.
  apply uents_nonempty. exact (H _ _ I).
Qed.
Lemma at_refl (s : str) : is_at (Some s) s = true.
Proof. apply eqb_refl. Qed.
Definition has_files (es : list (symkey * tabent)) : Prop := forall key e, In (key, e) es -> exists f, e_file e = Some f.
Lemma ls_def_ok kind e f : e_file e = Some f -> exists line, ls_def kind e = Ok line /\ def_line kind e line.
Proof.
  intros E. unfold ls_def. rewrite E. eexists. split; [reflexivity|]. exists f, (nth 0 (split_on 46 f) []).
  split; [exact E|]. split; [apply seg_ok; reflexivity|]. reflexivity.
Qed.
Lemma ls_kinds t s u ks : has_files (kents t s u ks) ->
  exists out, ls_each ks (fun kind e => do l <- ls_def kind e; Ok [l]) = Ok out /\
    rendered (Some t, Some s, Some u) (kents t s u ks) out.
Proof.
  intros H. rewrite ls_each_vals. cbv beta. unfold kents in *. revert H. generalize (vals ks) as l. intros l H.
  cut (exists ls, mapr (fun kv : str * tabent => do l <- ls_def (fst kv) (snd kv); Ok [l]) l = Ok ls /\
         rendered (Some t, Some s, Some u) (map (fun x => ((t, s, u, fst x), snd x)) l) (concat ls)).
  { intros (ls & E & R). exists (concat ls). split; [|exact R]. match goal with |- bind ?m _ = _ => replace m with (Ok ls) by (symmetry; exact E) end. reflexivity. }
  induction l as [|[k e] l IH]; [exists []; split; reflexivity|].
  destruct IH as (ls & E & R); [intros key e' I; apply (H key e'); right; exact I|].
  destruct (H (t, s, u, k) e (or_introl eq_refl)) as (f & EF). destruct (ls_def_ok k e f EF) as (line & EL & D).
  exists ([line] :: ls). cbn [mapr fst snd]. rewrite EL. cbn [bind]. rewrite E. split; [reflexivity|].
  cbn [map fst snd rendered concat]. exists line, (concat ls). split; [exact D|]. split; [exact R|].
  unfold headers. rewrite !at_refl. reflexivity.
Qed.
Lemma ls_subs t s d : full (full (fun _ : tabent => True)) d -> has_files (uents t s d) ->
  exists out, ls_each d (fun ss ks => do r <- ls_each ks (fun kind e => do l <- ls_def kind e; Ok [l]);
                                      Ok ((lit "    Subsegment: " ++ ss) :: r)) = Ok out /\
    rendered (Some t, Some s, None) (uents t s d) out.
Proof.
  intros [N [ND F]] H. rewrite (ls_each_vals (V := kinds)). cbv beta. unfold uents in *.
  assert (F' : forall u ks, In (u, ks) (vals (V := kinds) d) -> ks <> []) by (intros u ks I; apply vals_In in I; exact (proj1 (F _ _ I))).
  assert (S := vals_sorted (V := kinds) d ND). revert H F' S. generalize (vals (V := kinds) d) as l. intros l H F' S.
  cut (forall c, (forall u ks, In (u, ks) l -> is_at c u = false) -> exists ls,
         mapr (fun kv : str * kinds => do r <- ls_each (snd kv) (fun kind e => do l <- ls_def kind e; Ok [l]);
                 Ok ((lit "    Subsegment: " ++ fst kv) :: r)) l = Ok ls /\
         rendered (Some t, Some s, c) (flat_map (fun x => kents t s (fst x) (snd x)) l) (concat ls)).
  { intros X. destruct (X None ltac:(reflexivity)) as (ls & E & R). exists (concat ls). split; [|exact R]. match goal with |- bind ?m _ = _ => replace m with (Ok ls) by (symmetry; exact E) end. reflexivity. }
  induction S as [|[u ks] l S IH FA]; intros c NC; [exists []; split; reflexivity|].
  assert (HK : has_files (kents t s u ks)) by (intros key e I; apply (H key e); apply in_or_app; left; exact I).
  destruct (ls_kinds t s u ks HK) as (out & E & R).
  destruct (IH) with (c := Some u) as (ls & EL & RL).
  { intros key e I. apply (H key e). apply in_or_app. right. exact I. }
  { intros u' ks' I. apply (F' u' ks'). right. exact I. }
  { intros u' ks' I. rewrite Forall_forall in FA. specialize (FA _ I). cbn [fst] in FA. unfold is_at. apply eqb_neq. apply FA. }
  exists (((lit "    Subsegment: " ++ u) :: out) :: ls). cbn [mapr fst snd]. rewrite E. cbn [bind]. rewrite EL. split; [reflexivity|].
  cbn [flat_map concat]. cbn [fst snd]. apply rendered_app.
  - assert (NE := kents_nonempty t s u ks (F' u ks (or_introl eq_refl))).
    destruct (kents t s u ks) as [|[[[[t' s'] u'] k] e] es] eqn:EK; [contradiction|].
    assert (I : In ((t', s', u', k), e) (kents t s u ks)) by (rewrite EK; left; reflexivity).
    apply kents_In in I. destruct I as (-> & -> & -> & _).
    apply (rendered_head _ _ _ _ _ _ _ _ [lit "    Subsegment: " ++ u] _ R). unfold headers. rewrite !at_refl.
    rewrite (NC u ks (or_introl eq_refl)). reflexivity.
  - apply (after_all (fun p => rendered p (flat_map (fun x => kents t s (fst x) (snd x)) l) (concat ls))).
    + apply kents_nonempty. exact (F' u ks (or_introl eq_refl)).
    + intros t' s' u' k e I. apply kents_In in I. destruct I as (-> & -> & -> & _). exact RL.
Qed.
Lemma ls_segs t d : full (full (full (fun _ : tabent => True))) d -> has_files (sents t d) ->
  exists out, ls_each d (fun seg u =>
      do r <- ls_each u (fun ss ks => do r <- ls_each ks (fun kind e => do l <- ls_def kind e; Ok [l]);
                                      Ok ((lit "    Subsegment: " ++ ss) :: r));
      Ok ((lit "  Segment: " ++ seg) :: r)) = Ok out /\
    rendered (Some t, None, None) (sents t d) out.
Proof.
  intros [N [ND F]] H. rewrite (ls_each_vals (V := subsegs)). cbv beta. unfold sents in *.
  assert (F' : forall s us, In (s, us) (vals (V := subsegs) d) -> full (full (fun _ : tabent => True)) us)
    by (intros s us I; apply vals_In in I; exact (F _ _ I)).
  assert (S := vals_sorted (V := subsegs) d ND). revert H F' S. generalize (vals (V := subsegs) d) as l. intros l H F' S.
  cut (forall b c, (forall s us, In (s, us) l -> is_at b s = false) -> exists ls,
         mapr (fun kv : str * subsegs =>
             do r <- ls_each (snd kv) (fun ss ks => do r <- ls_each ks (fun kind e => do l <- ls_def kind e; Ok [l]);
                                      Ok ((lit "    Subsegment: " ++ ss) :: r));
             Ok ((lit "  Segment: " ++ fst kv) :: r)) l = Ok ls /\
         rendered (Some t, b, c) (flat_map (fun x => uents t (fst x) (snd x)) l) (concat ls)).
  { intros X. destruct (X None None ltac:(reflexivity)) as (ls & E & R). exists (concat ls). split; [|exact R]. match goal with |- bind ?m _ = _ => replace m with (Ok ls) by (symmetry; exact E) end. reflexivity. }
  induction S as [|[s us] l S IH FA]; intros b c NC; [exists []; split; reflexivity|].
  assert (HK : has_files (uents t s us)) by (intros key e I; apply (H key e); apply in_or_app; left; exact I).
  destruct (ls_subs t s us (F' s us (or_introl eq_refl)) HK) as (out & E & R).
  assert (IH' : forall c, exists ls,
         mapr (fun kv : str * subsegs =>
             do r <- ls_each (snd kv) (fun ss ks => do r <- ls_each ks (fun kind e => do l <- ls_def kind e; Ok [l]);
                                      Ok ((lit "    Subsegment: " ++ ss) :: r));
             Ok ((lit "  Segment: " ++ fst kv) :: r)) l = Ok ls /\
         rendered (Some t, Some s, c) (flat_map (fun x => uents t (fst x) (snd x)) l) (concat ls)).
  { intros c'. apply IH.
    - intros key e I. apply (H key e). apply in_or_app. right. exact I.
    - intros s' us' I. apply (F' s' us'). right. exact I.
    - intros s' us' I. rewrite Forall_forall in FA. specialize (FA _ I). cbn [fst] in FA. unfold is_at. apply eqb_neq. apply FA. }
  destruct (IH' None) as (ls & EL & _).
  exists (((lit "  Segment: " ++ s) :: out) :: ls). cbn [mapr fst snd].
  match goal with |- bind (bind ?m _) _ = _ /\ _ => replace m with (Ok out) by (symmetry; exact E) end. cbn [bind].
  match goal with |- bind ?m _ = _ /\ _ => replace m with (Ok ls) by (symmetry; exact EL) end. split; [reflexivity|].
  cbn [flat_map concat]. cbn [fst snd]. assert (NE := uents_nonempty t s us (F' s us (or_introl eq_refl))). apply rendered_app.
  - destruct (uents t s us) as [|[[[[t' s'] u'] k] e] es] eqn:EK; [contradiction|].
    assert (I : In ((t', s', u', k), e) (uents t s us)) by (rewrite EK; left; reflexivity).
    apply uents_In in I. destruct I as (-> & -> & _).
    apply (rendered_head _ _ _ _ _ _ _ _ [lit "  Segment: " ++ s] _ R). unfold headers. rewrite !at_refl.
    rewrite (NC s us (or_introl eq_refl)). reflexivity.
  - apply (after_all (fun p => rendered p (flat_map (fun x => uents t (fst x) (snd x)) l) (concat ls))); [exact NE|].
    intros t' s' u' k e I. apply uents_In in I. destruct I as (-> & -> & _).
    destruct (IH' (Some u')) as (ls' & EL' & RL'). assert (ls' = ls) by congruence. subst ls'. exact RL'.
Qed.
Lemma ls_tab d : deep d -> has_files (tents d) ->
  exists out, ls_table d = Ok out /\ rendered (None, None, None) (tents d) out.
Proof.
  intros [ND F] H. unfold ls_table. rewrite (ls_each_vals (V := segs)). cbv beta. unfold tents in *.
  assert (F' : forall t sg, In (t, sg) (vals (V := segs) d) -> full (full (full (fun _ : tabent => True))) sg)
    by (intros t sg I; apply vals_In in I; exact (F _ _ I)).
  assert (S := vals_sorted (V := segs) d ND). revert H F' S. generalize (vals (V := segs) d) as l. intros l H F' S.
  set (F1 := fun kv : str * segs => do r <- ls_each (snd kv) (fun seg u =>
      do r <- ls_each u (fun ss ks => do r <- ls_each ks (fun kind e => do l <- ls_def kind e; Ok [l]);
                                      Ok ((lit "    Subsegment: " ++ ss) :: r));
      Ok ((lit "  Segment: " ++ seg) :: r)); Ok (fst kv :: r)).
  cut (forall a b c, (forall t sg, In (t, sg) l -> is_at a t = false) -> exists ls, mapr F1 l = Ok ls /\
         rendered (a, b, c) (flat_map (fun x => sents (fst x) (snd x)) l) (concat ls)).
  { intros X. destruct (X None None None ltac:(reflexivity)) as (ls & E & R). exists (concat ls). split; [|exact R]. match goal with |- bind ?m _ = _ => replace m with (Ok ls) by (symmetry; exact E) end. reflexivity. }
  induction S as [|[t sg] l S IH FA]; intros a b c NC; [exists []; split; reflexivity|].
  assert (HK : has_files (sents t sg)) by (intros key e I; apply (H key e); apply in_or_app; left; exact I).
  destruct (ls_segs t sg (F' t sg (or_introl eq_refl)) HK) as (out & E & R).
  assert (IH' : forall b c, exists ls, mapr F1 l = Ok ls /\
         rendered (Some t, b, c) (flat_map (fun x => sents (fst x) (snd x)) l) (concat ls)).
  { intros b' c'. apply IH.
    - intros key e I. apply (H key e). apply in_or_app. right. exact I.
    - intros s' us' I. apply (F' s' us'). right. exact I.
    - intros s' us' I. rewrite Forall_forall in FA. specialize (FA _ I). cbn [fst] in FA. unfold is_at. apply eqb_neq. apply FA. }
  destruct (IH' None None) as (ls & EL & _).
  exists ((t :: out) :: ls). cbn [mapr]. unfold F1 at 1. cbn [fst snd].
  match goal with |- bind (bind ?m _) _ = _ /\ _ => replace m with (Ok out) by (symmetry; exact E) end. cbn [bind].
  match goal with |- bind ?m _ = _ /\ _ => replace m with (Ok ls) by (symmetry; exact EL) end. split; [reflexivity|].
  cbn [flat_map concat]. cbn [fst snd]. assert (NE := sents_nonempty t sg (F' t sg (or_introl eq_refl))). apply rendered_app.
  - destruct (sents t sg) as [|[[[[t' s'] u'] k] e] es] eqn:EK; [contradiction|].
    assert (I : In ((t', s', u', k), e) (sents t sg)) by (rewrite EK; left; reflexivity).
    apply sents_In in I. destruct I as (-> & _).
    apply (rendered_head _ _ _ _ _ _ _ _ [t] _ R). unfold headers. rewrite !at_refl.
    rewrite (NC t sg (or_introl eq_refl)). reflexivity.
  - apply (after_all (fun p => rendered p (flat_map (fun x => sents (fst x) (snd x)) l) (concat ls))); [exact NE|].
    intros t' s' u' k e I. apply sents_In in I. destruct I as (-> & _).
    destruct (IH' (Some s') (Some u')) as (ls' & EL' & RL'). assert (ls' = ls) by congruence. subst ls'. exact RL'.
Qed.
Lemma SS_flat_map {A B} (R : B -> B -> Prop) (f : A -> list B) l :
  StronglySorted (fun a b => forall x y, In x (f a) -> In y (f b) -> R x y) l ->
  (forall a, In a l -> StronglySorted R (f a)) -> StronglySorted R (flat_map f l).
Proof.
  induction 1 as [|a l S IH F]; intros H; [constructor|]. cbn [flat_map].
  assert (SA := H a (or_introl eq_refl)). assert (SL := IH ltac:(intros b I; apply H; right; exact I)).
  assert (X : forall x y, In x (f a) -> In y (flat_map f l) -> R x y).
  { intros x y I J. apply in_flat_map in J. destruct J as (b & IB & J). rewrite Forall_forall in F. exact (F b IB x y I J). }
  clear - SA SL X. induction SA as [|x r S IH F]; [exact SL|]. cbn [app]. constructor.
  - apply IH. intros y z I. apply X. right. exact I.
  - rewrite Forall_forall in *. intros y I. apply in_app_or in I. destruct I as [I|I]; [exact (F y I)|].
    apply X; [left; reflexivity|exact I].
Qed.
Lemma SS_weaken {A} (R Q : A -> A -> Prop) l : (forall a b, R a b -> Q a b) -> StronglySorted R l -> StronglySorted Q l.
Proof.
  intros H. induction 1 as [|a l S IH F]; constructor; [exact IH|]. eapply Forall_impl; [|exact F]. intros b. apply H.
Qed.
Lemma tents_sorted d : deep d -> StronglySorted (fun x y => key_lt (fst x) (fst y)) (tents d).
Proof.
  intros [ND F]. unfold tents. apply SS_flat_map.
  - eapply SS_weaken; [|apply vals_sorted; exact ND]. intros [t sg] [t' sg'] L [[[[a b] c] k] e] [[[[a' b'] c'] k'] e'] I J.
    apply sents_In in I, J. cbn [fst snd] in *. destruct I as [-> _], J as [-> _]. left. exact L.
  - intros [t sg] I. apply vals_In in I. destruct (F _ _ I) as [_ [ND1 F1]]. cbn [fst snd]. unfold sents. apply SS_flat_map.
    + eapply SS_weaken; [|apply vals_sorted; exact ND1]. intros [s us] [s' us'] L [[[[a b] c] k] e] [[[[a' b'] c'] k'] e'] I' J.
      apply uents_In in I', J. cbn [fst snd] in *. destruct I' as (-> & -> & _), J as (-> & -> & _). right. split; [reflexivity|]. left. exact L.
    + intros [s us] I'. apply vals_In in I'. destruct (F1 _ _ I') as [_ [ND2 F2]]. cbn [fst snd]. unfold uents. apply SS_flat_map.
      * eapply SS_weaken; [|apply vals_sorted; exact ND2]. intros [u ks] [u' ks'] L [[[[a b] c] k] e] [[[[a' b'] c'] k'] e'] I'' J.
        apply kents_In in I'', J. cbn [fst snd] in *. destruct I'' as (-> & -> & -> & _), J as (-> & -> & -> & _).
        right. split; [reflexivity|]. right. split; [reflexivity|]. left. exact L.
      * intros [u ks] I''. apply vals_In in I''. destruct (F2 _ _ I'') as [_ [ND3 _]]. cbn [fst snd]. unfold kents.
        apply SS_map. eapply SS_weaken; [|apply vals_sorted; exact ND3]. intros [k e] [k' e'] L. cbn [fst snd] in *.
        right. split; [reflexivity|]. right. split; [reflexivity|]. right. split; [reflexivity|exact L].
Qed.
Lemma C102_list_pf : forall upper fuel fs files css, files <> [] ->
  Forall2 (source_cards fuel fs) files css -> plain_names files ->
  exists out ns es,
    list_symbols upper fuel fs files = Ok (out, fold_right Z.add 0 ns) /\
    Forall2 (count_of (label_error upper)) css ns /\
    rendered (None, None, None) es out /\
    StronglySorted (fun x y => key_lt (fst x) (fst y)) es /\
    forall t s u k e, In ((t, s, u, k), e) es <-> defined_as upper files css t s u k e.
Proof.
  intros upper fuel fs files css NE F PN. destruct (build_files upper fuel fs files css F PN) as (tab & ns & E & P & D & C & K & G).
  assert (HF : has_files (tents tab)).
  { intros [[[t s] u] k] e I. apply tents_In in I. apply G in I.
    destruct I as (pre & f & cs & post & c & tt & EC & _ & (a & b & EQ & _) & EF & _).
    destruct EF as (-> & _).
    assert (TC : Forall tool_card (concat css)) by (apply (all_tool fuel fs files); exists css; auto).
    rewrite Forall_forall in TC. apply TC. apply in_concat. exists cs. split; [|rewrite EQ; apply in_or_app; right; left; reflexivity].
    apply (in_combine_r files css f). rewrite EC. apply in_or_app. right. left. reflexivity. }
  destruct (ls_tab tab D HF) as (out & EO & R).
  unfold list_symbols. destruct files as [|f files]; [contradiction|]. rewrite E. cbn [bind fst snd]. rewrite EO. cbn [bind].
  exists out, ns, (tents tab). rewrite fold_add, Z.add_0_l. split; [reflexivity|]. split; [exact C|]. split; [exact R|].
  split; [apply tents_sorted; exact D|]. intros t s u k e. rewrite tents_In. apply G.
Qed.
(*@ Example C102_list_ex :
  let fs := fun f => if eqb f (lit "p.a") then Some (lit "        B          DEC          1" ++ [10] ++ lit "        A          ASSIGN       1" ++ [10] ++
                                                     lit "                   SETLOC,2" ++ [10] ++ lit "        A          DEC" ++ [10]) else None in
  list_symbols (fun s => s) 2 fs [lit "p.a"] =
  Ok ([lit "A"; lit "  Segment: p"; lit "    Subsegment: 1";
       lit "        <complex>   p:2                                                 A          ASSIGN       1";
       lit "    Subsegment: 2";
       lit "        <simple>    p:4                                                 A          DEC";
       lit "B"; lit "  Segment: p"; lit "    Subsegment: 1";
       lit "        <simple>    p:1                                                 B          DEC          1"], 0).
Proof. vm_compute. reflexivity. Qed. @*)
