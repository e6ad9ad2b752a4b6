From Coq Require Import ZArith List Bool Lia Permutation.
From Verif Require Import Py LPy LSort MCards MSymbols SSymbols LCards LSymClass.
#[local] Arguments Z.add : simpl never.
#[local] Arguments Z.sub : simpl never.
#[local] Arguments Z.mul : simpl never.
#[local] Arguments Z.pow : simpl never.

(** *** the order of strings *)
Lemma str_leb_refl a : str_leb a a = true.
Proof. induction a as [|x a IH]; [reflexivity|]. cbn [str_leb]. rewrite Z.eqb_refl, IH, orb_true_r. reflexivity. Qed.
Lemma str_leb_total a : forall b, str_leb a b = true \/ str_leb b a = true.
Proof.
  induction a as [|x a IH]; intros [|y b]; [left; reflexivity|left; reflexivity|right; reflexivity|].
  cbn [str_leb]. destruct (Z.lt_trichotomy x y) as [H|[->|H]].
  - left. apply Z.ltb_lt in H. rewrite H. reflexivity.
  - rewrite Z.ltb_irrefl, Z.eqb_refl. cbn [orb andb]. apply IH.
  - right. apply Z.ltb_lt in H. rewrite H. reflexivity.
Qed.
Lemma str_leb_trans a : forall b c, str_leb a b = true -> str_leb b c = true -> str_leb a c = true.
Proof.
  induction a as [|x a IH]; intros [|y b] [|z c]; cbn [str_leb]; try reflexivity; try discriminate.
  rewrite !orb_true_iff, !andb_true_iff, !Z.ltb_lt, !Z.eqb_eq.
  intros [H1|[-> H1]] [H2|[-> H2]]; [left; lia|left; lia|left; lia|]. right. split; [reflexivity|]. eapply IH; eassumption.
Qed.
Lemma str_leb_antisym a : forall b, str_leb a b = true -> str_leb b a = true -> a = b.
Proof.
  induction a as [|x a IH]; intros [|y b]; cbn [str_leb]; try reflexivity; try discriminate.
  rewrite !orb_true_iff, !andb_true_iff, !Z.ltb_lt, !Z.eqb_eq.
  intros [H1|[-> H1]] [H2|[E H2]]; [lia|lia|lia|]. f_equal. apply IH; assumption.
Qed.
Lemma sorted_le l : StronglySorted (fun a b => str_leb a b = true) (sorted l).
Proof. apply sort_sorted; [apply str_leb_total|apply str_leb_trans]. Qed.
Lemma le_lt l : NoDup l -> StronglySorted (fun a b => str_leb a b = true) l -> StronglySorted str_lt l.
Proof.
  induction l as [|x l IH]; intros N S; [constructor|].
  inversion N as [|? ? NI N']; inversion S as [|? ? S' F]; subst.
  constructor; [apply IH; assumption|]. rewrite Forall_forall in *. intros y I.
  split; [apply F; exact I|]. intros ->. contradiction.
Qed.
Lemma sorted_lt_str l : NoDup l -> StronglySorted str_lt (sorted l).
Proof. intros N. apply le_lt; [|apply sorted_le]. eapply Permutation_NoDup; [apply sort_perm|exact N]. Qed.
Lemma sorted_In x l : In x (sorted l) <-> In x l.
Proof. apply sort_In. Qed.
Lemma lt_le l : StronglySorted str_lt l -> StronglySorted (fun a b => str_leb a b = true) l.
Proof.
  induction 1 as [|x l S IH F]; constructor; [exact IH|]. eapply Forall_impl; [|exact F]. intros y [H _]. exact H.
Qed.
Lemma filter_sorted {A} (R : A -> A -> Prop) (f : A -> bool) l : StronglySorted R l -> StronglySorted R (filter f l).
Proof.
  induction 1 as [|x l S IH F]; [constructor|]. cbn [filter]. destruct (f x); [|exact IH]. constructor; [exact IH|].
  rewrite Forall_forall in *. intros y I. apply filter_In in I. apply F. apply I.
Qed.
Lemma lt_nodup l : StronglySorted str_lt l -> NoDup l.
Proof.
  induction 1 as [|x l S IH F]; constructor; [|exact IH]. intros I. rewrite Forall_forall in F.
  destruct (F x I) as [_ H]. congruence.
Qed.
Lemma keys_In {V} (d : dict str V) k : In k (get_keys d) <-> In k (dkeys d).
Proof. apply sorted_In. Qed.

(** *** found_kind *)
Definition hit (sg : segs) (kind seg : str) : bool :=
  existsb (fun ss => dmem (sub (sub sg seg) ss) kind) (get_keys (sub sg seg)).
Lemma dmem_get {V} (d : dict str V) k : dmem d k = true <-> exists v, dget d k = Some v.
Proof.
  split.
  - intros H. unfold dmem in H. destruct (dget d k) as [v|]; [eauto|discriminate].
  - intros (v & E). unfold dmem. rewrite E. reflexivity.
Qed.
Lemma key_get {V} (d : dict str V) k : In k (dkeys d) <-> exists v, dget d k = Some v.
Proof.
  rewrite <- dmem_get. symmetry. apply dget_In.
Qed.
Lemma sub_some {V} (d : dict str (dict str V)) k v : dget d k = Some v -> sub d k = v.
Proof. unfold sub. intros ->. reflexivity. Qed.
Lemma sub_none {V} (d : dict str (dict str V)) k : dget d k = None -> sub d k = [].
Proof. unfold sub. intros ->. reflexivity. Qed.
Lemma hit_ok (tab : symtab) s sg kind seg : dget tab s = Some sg -> hit sg kind seg = true <-> has_kind_in tab s seg kind.
Proof.
  intros E. unfold hit, has_kind_in, get4. rewrite E, existsb_exists. split.
  - intros (ss & I & H). apply keys_In, key_get in I. destruct I as (ks & EK).
    apply dmem_get in H. destruct H as (e & H). rewrite (sub_some _ _ _ EK) in H.
    destruct (dget sg seg) as [u|] eqn:EU; [|rewrite (sub_none _ _ EU) in EK; discriminate EK].
    rewrite (sub_some _ _ _ EU) in EK. exists ss, e. rewrite EK. exact H.
  - intros (ss & e & H). destruct (dget sg seg) as [u|] eqn:EU; [|discriminate].
    destruct (dget u ss) as [ks|] eqn:EK; [|discriminate]. exists ss. rewrite (sub_some _ _ _ EU).
    split; [apply keys_In, key_get; eauto|]. rewrite (sub_some _ _ _ EK). apply dmem_get. eauto.
Qed.
Lemma found_ok (tab : symtab) s kind : found_kind (sub tab s) kind = true <-> has_kind tab s kind.
Proof.
  unfold found_kind. rewrite existsb_exists. destruct (dget tab s) as [sg|] eqn:E.
  - rewrite (sub_some _ _ _ E). split.
    + intros (seg & _ & H). apply (hit_ok tab s sg kind seg E) in H. destruct H as (ss & e & H). exists seg, ss, e. exact H.
    + intros (seg & ss & e & H). exists seg. split; [|apply (hit_ok tab s sg kind seg E); exists ss, e; exact H].
      apply keys_In, key_get. unfold get4 in H. rewrite E in H. destruct (dget sg seg); [eauto|discriminate].
  - rewrite (sub_none _ _ E). split; [intros (seg & I & _); destruct I|].
    intros (seg & ss & e & H). unfold get4 in H. rewrite E in H. discriminate.
Qed.
Lemma kind_key (tab : symtab) s kind : has_kind tab s kind -> In s (dkeys tab).
Proof.
  intros (seg & ss & e & H). apply key_get. unfold get4 in H. destruct (dget tab s); [eauto|discriminate].
Qed.

(** *** C81 *)
Lemma C81_complex_only_pf : forall tab complexOnly, dict_ok tab ->
  StronglySorted str_lt (check_symtab tab complexOnly) /\
  forall s, In s (check_symtab tab complexOnly) <->
    (complexOnly = true /\ has_kind tab s (lit "complex") /\ ~ has_kind tab s (lit "simple")).
Proof.
  intros tab co D. unfold check_symtab. split.
  - apply sorted_lt_str. apply NoDup_filter. apply lt_nodup. apply sorted_lt_str. exact D.
  - intros s. rewrite sorted_In, filter_In, !andb_true_iff, negb_true_iff, <- not_true_iff_false, !found_ok.
    split; [intros (_ & N & C & K); auto|]. intros (C & K & N).
    split; [apply keys_In; eapply kind_key; exact K|auto].
Qed.
(*@ Example C81_complex_only_ex : forall e : tabent,
  check_symtab [(lit "B", [(lit "p", [(lit "1", [(lit "complex", e)])])]);
                (lit "C", [(lit "p", [(lit "1", [(lit "complex", e)])]); (lit "q", [(lit "0", [(lit "simple", e)])])]);
                (lit "A", [(lit "q", [(lit "1", [(lit "complex", e)])])]);
                (lit "D", [(lit "q", [(lit "1", [(lit "simple", e)])])])] true = [lit "A"; lit "B"].
Proof. intros e. reflexivity. Qed. @*)

(** *** C82 *)
Definition any_hit (tab : symtab) (s : str) : bool := existsb (hit (sub tab s) (lit "simple")) (get_keys (sub tab s)).
Definition first_hit (tab : symtab) (s : str) : bool :=
  match get_keys (sub tab s) with [] => false | g :: _ => hit (sub tab s) (lit "simple") g end.
Lemma abs_segs_false sg l : abs_segs sg l false = (existsb (hit sg (lit "simple")) l, existsb (hit sg (lit "simple")) l).
Proof.
  induction l as [|g l IH]; [reflexivity|]. cbn [abs_segs existsb]. fold (hit sg (lit "simple") g).
  destruct (hit sg (lit "simple") g); [reflexivity|]. cbn [orb]. exact IH.
Qed.
Lemma abs_segs_true sg l : abs_segs sg l true = (match l with [] => false | g :: _ => hit sg (lit "simple") g end, true).
Proof.
  destruct l as [|g l]; [reflexivity|]. cbn [abs_segs]. fold (hit sg (lit "simple") g). rewrite orb_true_r. reflexivity.
Qed.
Lemma abs_syms_true tab l : abs_syms tab l true = filter (first_hit tab) l.
Proof.
  induction l as [|s l IH]; [reflexivity|]. cbn [abs_syms filter]. rewrite abs_segs_true.
  fold (first_hit tab s). rewrite IH. destruct (first_hit tab s); reflexivity.
Qed.
Lemma first_any tab s : first_hit tab s = true -> any_hit tab s = true.
Proof.
  unfold first_hit, any_hit. destruct (get_keys (sub tab s)) as [|g l]; [discriminate|]. intros H.
  cbn [existsb]. rewrite H. reflexivity.
Qed.
Lemma abs_syms_false tab l : StronglySorted str_lt l -> forall s,
  In s (abs_syms tab l false) <->
  In s l /\ (first_hit tab s = true \/ (any_hit tab s = true /\ forall s', In s' l -> str_lt s' s -> any_hit tab s' = false)).
Proof.
  assert (IRR : forall a, ~ str_lt a a) by (intros a [_ H]; congruence).
  assert (ASY : forall a b, str_lt a b -> str_lt b a -> False).
  { intros a b [H1 N] [H2 _]. apply N. apply str_leb_antisym; assumption. }
  induction 1 as [|x l S IH F]; intros s; [cbn; tauto|]. cbn [abs_syms]. rewrite abs_segs_false. fold (any_hit tab x).
  rewrite Forall_forall in F. destruct (any_hit tab x) eqn:A.
  - rewrite abs_syms_true. cbn [In]. rewrite filter_In. split.
    + intros [<-|[I H]]; [|auto]. split; [auto|]. right. split; [exact A|].
      intros s' [<-|I] L; [destruct (IRR _ L)|]. destruct (ASY _ _ L (F _ I)).
    + intros [[<-|I] H]; [auto|]. right. split; [exact I|]. destruct H as [H|[_ H]]; [exact H|].
      rewrite (H x (or_introl eq_refl) (F _ I)) in A. discriminate.
  - rewrite IH. cbn [In]. split.
    + intros [I H]. split; [auto|]. destruct H as [H|[H1 H2]]; [auto|]. right. split; [exact H1|].
      intros s' [<-|I'] L; [exact A|auto].
    + intros [[<-|I] H].
      * exfalso. destruct H as [H|[H _]]; [apply first_any in H|]; congruence.
      * split; [exact I|]. destruct H as [H|[H1 H2]]; [auto|]. right. auto.
Qed.
Lemma abs_syms_sorted tab l found : StronglySorted str_lt l -> StronglySorted str_lt (abs_syms tab l found).
Proof.
  destruct found; [rewrite abs_syms_true; apply filter_sorted|].
  induction 1 as [|x l S IH F]; [constructor|]. cbn [abs_syms]. rewrite abs_segs_false. fold (any_hit tab x).
  destruct (any_hit tab x); [|exact IH]. rewrite abs_syms_true. constructor; [apply filter_sorted; exact S|].
  rewrite Forall_forall in *. intros y I. apply filter_In in I. apply F. apply I.
Qed.
Lemma any_ok tab s : any_hit tab s = true <-> has_kind tab s (lit "simple").
Proof. apply found_ok. Qed.
Lemma first_ok tab s : first_hit tab s = true <-> exists seg, first_seg tab s seg /\ has_kind_in tab s seg (lit "simple").
Proof.
  unfold first_hit. destruct (dget tab s) as [sg|] eqn:E.
  - rewrite (sub_some _ _ _ E). pose proof (sorted_le (dkeys sg)) as SL. fold (get_keys sg) in SL.
    pose proof (fun k => @keys_In _ sg k) as KI.
    destruct (get_keys sg) as [|g l].
    + split; [discriminate|]. intros (seg & (sg' & E' & I & _) & _). assert (sg' = sg) by congruence. subst. apply KI in I. destruct I.
    + assert (FG : forall x, In x (dkeys sg) -> str_leb g x = true).
      { intros x I. apply KI in I. destruct I as [<-|I]; [apply str_leb_refl|]. inversion SL as [|? ? _ F]; subst.
        rewrite Forall_forall in F. apply F. exact I. }
      split.
      * intros H. exists g. split; [|apply (hit_ok tab s sg _ g E); exact H].
        exists sg. split; [exact E|]. split; [apply KI; left; reflexivity|exact FG].
      * intros (seg & (sg' & E' & I & FS) & H). assert (sg' = sg) by congruence. subst sg'.
        assert (seg = g) by (apply str_leb_antisym; [apply FS, KI; left; reflexivity|apply FG; exact I]). subst seg.
        apply (hit_ok tab s sg _ g E). exact H.
  - rewrite (sub_none _ _ E). split; [discriminate|]. intros (seg & (sg' & E' & _) & _). congruence.
Qed.
Lemma C82_absolute_refuted_pf : forall e : tabent, exists tab, plain_table tab /\ dict_ok tab /\
  has_kind tab (lit "B") (lit "simple") /\ ~ In (lit "B") (get_absolute tab).
Proof.
  intros e.
  exists [(lit "A", [(lit "p", [(lit "1", [(lit "simple", e)])])]);
          (lit "B", [(lit "p", [(lit "1", [(lit "complex", e)])]); (lit "q", [(lit "1", [(lit "simple", e)])])])].
  split; [|split; [|split]].
  - intros t sg s E K. cbn [dget] in E.
    destruct (eqb (lit "A") t); [injection E as <-|destruct (eqb (lit "B") t); [injection E as <-|discriminate]];
      destruct K as [-> | ->]; reflexivity.
  - repeat constructor; cbn; intuition discriminate.
  - exists (lit "q"), (lit "1"), e. reflexivity.
  - vm_compute. intuition discriminate.
Qed.
(*@ Example C82_absolute_refuted_ex :
  let fs := fun f : str => Some (if eqb f (lit "p.x") then lit "        A          DEC" ++ [10] ++ lit "        B          ASSIGN"
                                 else lit "        B          DEC") in
  exists t1 t2, build_symbol_table (fun s => s) 1 fs (lit "p.x") [] = Ok (t1, 0) /\
    build_symbol_table (fun s => s) 1 fs (lit "q.x") t1 = Ok (t2, 0) /\
    has_kind t2 (lit "B") (lit "simple") /\ get_absolute t2 = [lit "A"].
Proof.
  do 2 eexists. split; [vm_compute; reflexivity|]. split; [vm_compute; reflexivity|].
  split; [|vm_compute; reflexivity]. exists (lit "q"), (lit "1"). eexists. vm_compute. reflexivity.
Qed. @*)

Lemma C82_absolute_partial_pf : forall tab, dict_ok tab ->
  StronglySorted str_lt (get_absolute tab) /\
  forall s, In s (get_absolute tab) <->
    (exists seg, first_seg tab s seg /\ has_kind_in tab s seg (lit "simple")) \/
    (has_kind tab s (lit "simple") /\ forall s', str_lt s' s -> ~ has_kind tab s' (lit "simple")).
Proof.
  intros tab D. unfold get_absolute. assert (S := sorted_lt_str _ D). fold (get_keys tab) in S.
  split; [apply abs_syms_sorted; exact S|].
  intros s. rewrite (abs_syms_false tab _ S), first_ok, any_ok. split.
  - intros [I [H|[H1 H2]]]; [auto|]. right. split; [exact H1|]. intros s' L K.
    specialize (H2 s' ltac:(apply keys_In; eapply kind_key; exact K) L). apply any_ok in K. congruence.
  - intros [H|[H1 H2]].
    + split; [|auto]. destruct H as (seg & (sg & E & _) & _). apply keys_In, key_get. eauto.
    + split; [apply keys_In; eapply kind_key; exact H1|]. right. split; [exact H1|]. intros s' _ L.
      apply not_true_iff_false. rewrite any_ok. apply H2. exact L.
Qed.
(*@ Example C82_absolute_partial_ex : forall e : tabent,
  get_absolute [(lit "B", [(lit "q", [(lit "1", [(lit "simple", e)])]); (lit "p", [(lit "1", [(lit "complex", e)])])]);
                (lit "C", [(lit "p", [(lit "1", [(lit "complex", e)]); (lit "2", [(lit "simple", e)])])]);
                (lit "A", [(lit "q", [(lit "1", [(lit "complex", e)])])])] = [lit "B"; lit "C"].
Proof. intros e. reflexivity. Qed. @*)

(** *** C83 *)
Lemma starts_ok s p : startswith s p = true <-> exists r, s = p ++ r.
Proof. apply startswith_app. Qed.
Lemma ends_ok s p : endswith s p = true <-> exists r, s = r ++ p.
Proof.
  unfold endswith. rewrite starts_ok. split.
  - intros (r & E). exists (rev r). rewrite <- (rev_involutive s), E, rev_app_distr, rev_involutive. reflexivity.
  - intros (r & ->). exists (rev r). apply rev_app_distr.
Qed.
Lemma C83_exact_pf : forall extract tab name symtype,
  match find_symbol extract tab name symtype false false false with
  | FDefs sg => dget tab name = Some sg /\ (forall k, symtype = Some k -> has_kind tab name k)
  | FNone => dget tab name = None \/ exists k, symtype = Some k /\ ~ has_kind tab name k
  | FList _ => False
  end.
Proof.
  intros extract tab name symtype. unfold find_symbol. cbn [negb andb].
  destruct (dget tab name) as [sg|] eqn:E; [|left; reflexivity].
  destruct symtype as [k|]; [|split; [reflexivity|discriminate]].
  pose proof (found_ok tab name k) as FO. rewrite (sub_some _ _ _ E) in FO.
  destruct (found_kind sg k).
  - split; [reflexivity|]. intros k' [= <-]. apply FO. reflexivity.
  - right. exists k. split; [reflexivity|]. intros H. apply FO in H. discriminate.
Qed.
(*@ Example C83_exact_ex : forall (e : tabent) extract,
  let tab := [(lit "A", [(lit "p", [(lit "1", [(lit "simple", e)])])])] in
  find_symbol extract tab (lit "A") (Some (lit "simple")) false false false = FDefs [(lit "p", [(lit "1", [(lit "simple", e)])])] /\
  find_symbol extract tab (lit "A") (Some (lit "complex")) false false false = FNone /\
  find_symbol extract tab (lit "B") None false false false = FNone.
Proof. intros e extract. repeat split. Qed. @*)

Lemma C83_begin_end_pf : forall extract tab name symtype begin end_ fuzzy, dict_ok tab -> begin || end_ = true ->
  exists l, find_symbol extract tab name symtype begin end_ fuzzy = FList l /\
    StronglySorted (fun a b => str_leb a b = true) l /\
    (begin && end_ = false -> StronglySorted str_lt l) /\
    forall s, In s l <-> (In s (dkeys tab) /\
      ((begin = true /\ exists r, s = name ++ r) \/ (end_ = true /\ exists r, s = r ++ name))).
Proof.
  intros extract tab name symtype begin end_ fuzzy D BE. unfold find_symbol.
  assert (X : negb begin && negb end_ && negb fuzzy = false) by (destruct begin, end_; try discriminate; reflexivity).
  rewrite X, BE. eexists. split; [reflexivity|].
  assert (S := sorted_lt_str _ D). fold (get_keys tab) in S.
  assert (MEM : forall l s, In s (flat_map (fun s => (if begin && startswith s name then [s] else []) ++
                              (if end_ && endswith s name then [s] else [])) l) <->
      (In s l /\ ((begin = true /\ exists r, s = name ++ r) \/ (end_ = true /\ exists r, s = r ++ name)))).
  { intros l s. rewrite in_flat_map. split.
    - intros (y & I & H). apply in_app_or in H. destruct H as [H|H].
      + destruct (begin && startswith y name) eqn:E; [|destruct H]. destruct H as [<-|[]].
        apply andb_true_iff in E. destruct E as [E1 E2]. apply starts_ok in E2. auto.
      + destruct (end_ && endswith y name) eqn:E; [|destruct H]. destruct H as [<-|[]].
        apply andb_true_iff in E. destruct E as [E1 E2]. apply ends_ok in E2. auto.
    - intros (I & H). exists s. split; [exact I|]. apply in_or_app. destruct H as [[-> H]|[-> H]].
      + apply starts_ok in H. rewrite H. left. left. reflexivity.
      + apply ends_ok in H. rewrite H. right. left. reflexivity. }
  split; [|split].
  - apply lt_le in S. induction S as [|x l S IH F]; [constructor|]. cbn [flat_map].
    assert (G : Forall (fun b => str_leb x b = true) (flat_map (fun s => (if begin && startswith s name then [s] else []) ++
                              (if end_ && endswith s name then [s] else [])) l)).
    { rewrite Forall_forall in *. intros y I. apply MEM in I. apply F. apply I. }
    destruct (begin && startswith x name), (end_ && endswith x name); cbn [app]; repeat constructor; try assumption.
    apply str_leb_refl.
  - intros ND. induction S as [|x l S IH F]; [constructor|]. cbn [flat_map].
    assert (G : Forall (str_lt x) (flat_map (fun s => (if begin && startswith s name then [s] else []) ++
                              (if end_ && endswith s name then [s] else [])) l)).
    { rewrite Forall_forall in *. intros y I. apply MEM in I. apply F. apply I. }
    destruct begin, end_; try discriminate; cbn [andb app]; rewrite ?app_nil_r.
    + destruct (startswith x name); cbn [app]; [constructor; assumption|exact IH].
    + destruct (endswith x name); cbn [app]; [constructor; assumption|exact IH].
  - intros s. rewrite MEM, keys_In. tauto.
Qed.
(*@ Example C83_begin_end_ex : forall extract,
  let tab := [(lit "SAB", []); (lit "AB", []); (lit "ABAB", []); (lit "X", []); (lit "ABC", [])] in
  find_symbol extract tab (lit "AB") None true false false = FList [lit "AB"; lit "ABAB"; lit "ABC"] /\
  find_symbol extract tab (lit "AB") None false true false = FList [lit "AB"; lit "ABAB"; lit "SAB"] /\
  find_symbol extract tab (lit "AB") None true true true =
    FList [lit "AB"; lit "AB"; lit "ABAB"; lit "ABAB"; lit "ABC"; lit "SAB"].
Proof. intros extract. repeat split. Qed. @*)

Lemma C83_fuzzy_pf : forall extract tab name symtype, dict_ok tab ->
  (forall n choices k x, In x (extract n choices k) -> In (fst x) choices) ->
  exists l, find_symbol extract tab name symtype false false true = FList l /\
    (forall s, In s l -> has_kind tab s (lit "simple")) /\
    ((forall n choices k, (List.length (extract n choices k) <= Z.to_nat k)%nat) -> (List.length l <= 10)%nat).
Proof.
  intros extract tab name symtype D H. unfold find_symbol. cbn [negb andb orb]. eexists. split; [reflexivity|]. split.
  - intros s I. apply in_map_iff in I. destruct I as (x & <- & I). apply H in I.
    apply (proj2 (C82_absolute_partial_pf tab D)) in I. destruct I as [(seg & _ & ss & e & G)|[K _]]; [|exact K].
    exists seg, ss, e. exact G.
  - intros LE. rewrite map_length. apply (LE name (get_absolute tab) 10).
Qed.
(*@ Example C83_fuzzy_ex : forall e : tabent,
  find_symbol (fun n ch k => map (fun c => (c, 90)) (firstn (Z.to_nat k) ch))
    [(lit "A", [(lit "p", [(lit "1", [(lit "simple", e)])])]); (lit "B", [(lit "p", [(lit "1", [(lit "complex", e)])])])]
    (lit "AA") None false false true = FList [lit "A"].
Proof. intros e. reflexivity. Qed. @*)

(** *** C97 *)
Lemma mapr_entries t l : (forall s, In s l -> dget (t_symbols t) s <> None) ->
  exists es, mapr (fun s => do e <- dindex (t_symbols t) s; Ok (OEntry e)) l = Ok (map OEntry es) /\
    Forall2 (fun n e => st_lookup t n = Some e) l es.
Proof.
  induction l as [|s l IH]; intros H; [exists []; split; [reflexivity|constructor]|].
  destruct IH as (es & E & F); [intros x I; apply H; right; exact I|].
  specialize (H s (or_introl eq_refl)). destruct (dget (t_symbols t) s) as [e|] eqn:G; [|contradiction].
  exists (e :: es). split; [|constructor; assumption]. cbn [mapr]. unfold dindex at 1. rewrite G. cbn [bind]. rewrite E. reflexivity.
Qed.

Lemma C97_print_pf : forall h, let t := st_run h in
  exists names es us, StronglySorted str_lt names /\ (forall n, In n names <-> st_lookup t n <> None) /\
    Forall2 (fun n e => st_lookup t n = Some e) names es /\
    Forall2 (fun n e => st_lookup t n = Some e) (t_undefs t) us /\
    st_print t = Ok (OText (10 :: lit "Defined symbols:" ++ [10]) :: map OEntry es ++
      match us with [] => [] | _ => OText (10 :: lit "Undefined symbols:" ++ [10]) :: map OEntry us end) /\
    st_print_undefs t =
      Ok (OText (10 :: lit "Undefined symbols: " ++ str_of_Z (st_num_undefs t) ++ [10]) :: map OEntry us).
Proof.
  intros h t. assert (W : wf t) by apply wf_run. clearbody t.
  destruct W as (N & NU & K). unfold st_print, st_print_undefs.
  destruct (mapr_entries t (sorted (dkeys (t_symbols t)))) as (es & E & F).
  { intros s I. apply sorted_In, key_get in I. destruct I as (v & ->). discriminate. }
  destruct (mapr_entries t (t_undefs t)) as (us & EU & FU).
  { intros s I. destruct (K s I) as (e & -> & _). discriminate. }
  exists (sorted (dkeys (t_symbols t))), es, us. rewrite E, EU. cbn [bind].
  split; [apply sorted_lt_str; exact N|]. split.
  { intros n. rewrite sorted_In, key_get. unfold st_lookup. destruct (dget (t_symbols t) n) as [v|].
    - split; [discriminate|eauto].
    - split; [intros (v & H); discriminate|congruence]. }
  split; [exact F|]. split; [exact FU|]. split; [|reflexivity].
  destruct FU as [|n u ns us' H FU]; [reflexivity|].
  destruct (Z.ltb_spec 0 (zlen (n :: ns))) as [L|L]; [reflexivity|].
  rewrite zlen_cons in L. pose proof (zlen_nonneg ns). lia.
Qed.
(*@ Example C97_print_ex :
  let t := st_run [OpAdd (lit "B") None 1 None None None None; OpAdd (lit "A") None 2 (Some 5) (Some (lit "absolute")) None None] in
  st_print t = Ok [OText (10 :: lit "Defined symbols:" ++ [10]);
    OEntry (ste_new (lit "A") (Some 5) (Some (lit "absolute")) None 2 None None);
    OEntry (ste_new (lit "B") None None None 1 None None);
    OText (10 :: lit "Undefined symbols:" ++ [10]); OEntry (ste_new (lit "B") None None None 1 None None)].
Proof. vm_compute. reflexivity. Qed. @*)
