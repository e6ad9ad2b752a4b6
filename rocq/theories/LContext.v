From Coq Require Import ZArith List Bool Lia.
From Verif Require Import Py LPy MCards SCards MSymbols SSymbols MContext SContext.
#[local] Arguments Z.add : simpl never.
#[local] Arguments Z.sub : simpl never.
#[local] Arguments Z.mul : simpl never.
#[local] Arguments Z.pow : simpl never.

(** *** C92 *)
Lemma charset_In k v : dget CHARSET k = Some v -> In (k, v) CHARSET.
Proof. apply dget_Some_In. Qed.
Definition is_code (k x : Z) : bool := match dget CHARSET k with Some (Some y) => y =? x | _ => false end.
Lemma is_code_ok k x : is_code k x = true -> dget CHARSET k = Some (Some x).
Proof.
  unfold is_code. destruct (dget CHARSET k) as [[y|]|]; [|discriminate..]. intros E. apply Z.eqb_eq in E. subst. reflexivity.
Qed.
Lemma C92_charset_pf :
  NoDup (dkeys CHARSET) /\ (forall k, In k (dkeys CHARSET) <-> 0 <= k <= 63) /\
  (forall d, 0 <= d <= 9 -> dget CHARSET d = Some (Some (48 + d))) /\
  (forall x, 65 <= x <= 90 -> exists k, dget CHARSET k = Some (Some x)) /\
  (forall k k' x x', dget CHARSET k = Some (Some x) -> dget CHARSET k' = Some (Some x') ->
     65 <= x <= 90 -> 65 <= x' <= 90 -> (x < x' <-> k < k')) /\
  (forall k k' x, dget CHARSET k = Some (Some x) -> dget CHARSET k' = Some (Some x) -> k = k' \/ x = 32) /\
  (forall k, dget CHARSET k = Some None <-> k = 44).
Proof.
  assert (K : dkeys CHARSET = py_range 0 64) by reflexivity.
  split; [|split; [|split; [|split; [|split; [|split]]]]].
  - rewrite K. apply py_range_NoDup.
  - intros k. rewrite K, py_range_In. lia.
  - intros d D. assert (X : forallb (fun d => is_code d (48 + d)) (py_range 0 10) = true) by (vm_compute; reflexivity).
    rewrite forallb_forall in X. apply is_code_ok. apply X. apply py_range_In. lia.
  - intros x D.
    assert (X : forallb (fun x => existsb (fun k => is_code k x) (py_range 0 64)) (py_range 65 91) = true) by (vm_compute; reflexivity).
    rewrite forallb_forall in X. specialize (X x ltac:(apply py_range_In; lia)). apply existsb_exists in X.
    destruct X as (k & _ & E). exists k. apply is_code_ok. exact E.
  - intros k k' x x' E E' L L'. apply charset_In in E, E'.
    assert (X : forallb (fun p => forallb (fun q => match snd p, snd q with
        | Some x, Some x' => if (65 <=? x) && (x <=? 90) && (65 <=? x') && (x' <=? 90) then Bool.eqb (x <? x') (fst p <? fst q) else true
        | _, _ => true end) CHARSET) CHARSET = true) by (vm_compute; reflexivity).
    rewrite forallb_forall in X. specialize (X _ E). rewrite forallb_forall in X. specialize (X _ E'). cbn [fst snd] in X.
    rewrite !(proj2 (Z.leb_le _ _)) in X by lia. cbn [andb] in X. apply Bool.eqb_prop in X.
    rewrite <- !Z.ltb_lt, X. tauto.
  - intros k k' x E E'. apply charset_In in E, E'.
    assert (X : forallb (fun p => forallb (fun q => match snd p, snd q with
        | Some x, Some x' => (fst p =? fst q) || negb (x =? x') || (x =? 32)
        | _, _ => true end) CHARSET) CHARSET = true) by (vm_compute; reflexivity).
    rewrite forallb_forall in X. specialize (X _ E). rewrite forallb_forall in X. specialize (X _ E'). cbn [fst snd] in X.
    apply orb_prop in X. destruct X as [X|X]; [apply orb_prop in X; destruct X as [X|X]|].
    + left. apply Z.eqb_eq. exact X.
    + rewrite Z.eqb_refl in X. discriminate.
    + right. apply Z.eqb_eq. exact X.
  - intros k. split; [|intros ->; reflexivity]. intros E. apply charset_In in E.
    assert (X : forallb (fun p => match snd p with None => fst p =? 44 | _ => true end) CHARSET = true) by (vm_compute; reflexivity).
    rewrite forallb_forall in X. specialize (X _ E). apply Z.eqb_eq. exact X.
Qed.
(*@ Example C92_charset_ex : dget CHARSET 33 = Some (Some 74) /\ dget CHARSET 13 = dget CHARSET 63 /\ zlen CHARSET = 64.
Proof. vm_compute. auto. Qed. @*)

Lemma C92_table_pf :
  map snd CHARSET =
    map Some (lit "0123456789'=:  &" ++ lit "+ABCDEFGHI;.)%" ++ [9608; 32] ++ lit "-JKLMNOPQR#$") ++ [None] ++
    map Some (lit """   /STUVWXYZ@,(" ++ [10; 32; 32]) /\
  map fst CHARSET = map Z.of_nat (seq 0 64).
Proof. split; vm_compute; reflexivity. Qed.
(*@ Example C92_table_ex : dget CHARSET 28 = Some (Some 41) /\ dget CHARSET 61 = Some (Some 10).
Proof. split; reflexivity. Qed. @*)

(** *** attributes *)
Lemma getattr_ok h r n v : getattr h r n = Ok v <-> attr_is h r n v.
Proof.
  unfold getattr, attr_is. destruct (dget h r) as [[a|l]|].
  - destruct (dget a n) as [w|] eqn:E; split.
    + intros H. exists a. split; [reflexivity|]. congruence.
    + intros (a' & E1 & E2). assert (a' = a) by congruence. subst. congruence.
    + discriminate.
    + intros (a' & E1 & E2). assert (a' = a) by congruence. subst. congruence.
  - split; [discriminate|]. intros (a & E & _). discriminate.
  - split; [discriminate|]. intros (a & E & _). discriminate.
Qed.
Lemma getattr_err h r n : (forall v, ~ attr_is h r n v) -> getattr h r n = Err AttributeError.
Proof.
  intros H. destruct (getattr h r n) as [v|e] eqn:E; [apply getattr_ok in E; destruct (H v E)|].
  unfold getattr in E. destruct (dget h r) as [[a|l]|]; [destruct (dget a n)|..]; congruence.
Qed.
Lemma attr_unique h r n v w : attr_is h r n v -> attr_is h r n w -> v = w.
Proof. rewrite <- !getattr_ok. congruence. Qed.
Lemma attr_inst h r n v : attr_is h r n v -> is_inst h r.
Proof. intros (a & E & _). exists a. exact E. Qed.
Lemma setattr_ok h r n v : is_inst h r -> exists h', setattr h r n v = (h', Ok tt) /\
  attr_is h' r n v /\ is_inst h' r /\ (forall r', r' <> r -> dget h' r' = dget h r') /\
  (forall n' w, n' <> n -> (attr_is h' r n' w <-> attr_is h r n' w)).
Proof.
  intros (a & E). unfold setattr. rewrite E. eexists. split; [reflexivity|].
  assert (G : dget (dset h r (Inst (dset a n v))) r = Some (Inst (dset a n v))) by apply dget_dset_eq.
  split; [exists (dset a n v); split; [exact G|apply dget_dset_eq]|].
  split; [eexists; exact G|]. split.
  - intros r' N. apply dget_dset_ne. exact N.
  - intros n' w N. split; intros (a' & E1 & E2).
    + assert (a' = dset a n v) by congruence. subst a'. rewrite dget_dset_ne in E2 by exact N. exists a. auto.
    + assert (a' = a) by congruence. subst a'. exists (dset a n v). split; [exact G|]. rewrite dget_dset_ne by exact N. exact E2.
Qed.
Lemma setattr_inst h r n v h' : setattr h r n v = (h', Ok tt) -> is_inst h r.
Proof. unfold setattr. destruct (dget h r) as [[a|l]|] eqn:E; [|discriminate..]. intros _. exists a. exact E. Qed.
Lemma only_refl h r names : only_attrs h h r names.
Proof. split; [reflexivity|]. tauto. Qed.
(** copying with all attributes present *)
Lemma copy_ok names : forall src dst h, is_inst h dst -> (forall n, In n names -> exists v, attr_is h src n v) ->
  exists h', copy_attrs names src dst h = (h', Ok tt) /\ is_inst h' dst /\
    (forall n v, In n names -> (attr_is h' dst n v <-> attr_is h src n v)) /\ only_attrs h h' dst names.
Proof.
  induction names as [|n names IH]; intros src dst h I H.
  { exists h. split; [reflexivity|]. split; [exact I|]. split; [intros n v []|]. apply only_refl. }
  destruct (H n (or_introl eq_refl)) as (v & A). cbn [copy_attrs]. rewrite (proj2 (getattr_ok _ _ _ _) A).
  destruct (setattr_ok h dst n v I) as (h1 & E & A1 & I1 & O1 & F1). rewrite E. cbn [then_].
  assert (SRC : forall n' w, attr_is h1 src n' w <-> attr_is h src n' w).
  { intros n' w. destruct (Z.eq_dec src dst) as [->|NS].
    - destruct (eq_dec_b n' n) as [->|NN]; [|apply F1; exact NN]. split; intros X.
      + assert (w = v) by exact (attr_unique _ _ _ _ _ X A1). subst. exact A.
      + assert (w = v) by exact (attr_unique _ _ _ _ _ X A). subst. exact A1.
    - unfold attr_is. rewrite (O1 src NS). reflexivity. }
  destruct (IH src dst h1 I1) as (h2 & E2 & I2 & C2 & O2 & F2).
  { intros n' J. destruct (H n' (or_intror J)) as (w & W). exists w. apply SRC. exact W. }
  exists h2. split; [exact E2|]. split; [exact I2|]. split.
  - intros n' w J. destruct (in_dec (list_eq_dec Z.eq_dec) n' names) as [JN|JN].
    + rewrite (C2 n' w JN). apply SRC.
    + destruct J as [<-|J]; [|contradiction]. rewrite (F2 n w JN). split; intros X.
      * assert (w = v) by exact (attr_unique _ _ _ _ _ X A1). subst. exact A.
      * assert (w = v) by exact (attr_unique _ _ _ _ _ X A). subst. exact A1.
  - split.
    + intros r' N. rewrite (O2 r' N). apply O1. exact N.
    + intros n' w J. rewrite (F2 n' w) by (intros X; apply J; right; exact X). apply F1. intros ->. apply J. left. reflexivity.
Qed.
(** a copy that succeeded had them *)
Lemma copy_inv names : forall src dst h h', names <> [] -> copy_attrs names src dst h = (h', Ok tt) ->
  is_inst h dst /\ forall n, In n names -> exists v, attr_is h src n v.
Proof.
  induction names as [|n names IH]; intros src dst h h' NE H; [contradiction|]. cbn [copy_attrs] in H.
  destruct (getattr h src n) as [v|e] eqn:E; [|discriminate]. apply getattr_ok in E.
  destruct (setattr h dst n v) as [h1 [[]|e]] eqn:ES; cbn [then_] in H; [|discriminate].
  assert (I := setattr_inst _ _ _ _ _ ES). split; [exact I|].
  destruct (setattr_ok h dst n v I) as (h1' & ES' & A1 & _ & O1 & F1). assert (h1' = h1) by congruence. subst h1'.
  intros n' [<-|J]; [eauto|]. destruct names as [|m names]; [destruct J|].
  destruct (IH src dst h1 h' ltac:(discriminate) H) as (_ & X). destruct (X n' J) as (w & W).
  destruct (Z.eq_dec src dst) as [->|NS].
  - destruct (eq_dec_b n' n) as [->|NN]; [eauto|]. exists w. apply F1; assumption.
  - exists w. unfold attr_is in *. rewrite <- (O1 src NS). exact W.
Qed.
Lemma set_attrs_ok kvs : forall dst h, is_inst h dst -> NoDup (map fst kvs) ->
  exists h', set_attrs kvs dst h = (h', Ok tt) /\ is_inst h' dst /\
    (forall n v, In (n, v) kvs -> attr_is h' dst n v) /\ only_attrs h h' dst (map fst kvs).
Proof.
  induction kvs as [|[n v] kvs IH]; intros dst h I N.
  { exists h. split; [reflexivity|]. split; [exact I|]. split; [intros n v []|]. apply only_refl. }
  cbn [set_attrs]. inversion N as [|? ? NI ND]; subst.
  destruct (setattr_ok h dst n v I) as (h1 & E & A1 & I1 & O1 & F1). rewrite E. cbn [then_].
  destruct (IH dst h1 I1 ND) as (h2 & E2 & I2 & C2 & O2 & F2). exists h2. split; [exact E2|]. split; [exact I2|]. split.
  - intros n' w [X|J]; [|exact (C2 n' w J)]. assert (n' = n) by congruence. assert (w = v) by congruence. subst. apply F2; assumption.
  - split.
    + intros r' NR. rewrite (O2 r' NR). apply O1. exact NR.
    + intros n' w J. cbn [map fst] in J. rewrite (F2 n' w) by (intros X; apply J; right; exact X). apply F1. intros ->. apply J. left. reflexivity.
Qed.
Lemma save_names n : In n [lit "linenum"; lit "global_linenum"; lit "code"; lit "srcline"; lit "loc"; lit "bank"; lit "coloc"; lit "errorMsg"; lit "warningMsg"]
  <-> In n position.
Proof. unfold position. cbn [In]. tauto. Qed.
Lemma only_incl h h' r a b : (forall n : str, In n a -> In n b) -> only_attrs h h' r a -> only_attrs h h' r b.
Proof. intros H [A B]. split; [exact A|]. intros n v N. apply B. intros I. exact (N (H n I)). Qed.

(** *** C93 save, load, reset *)
Lemma C93_save_pf : forall h c r, is_inst h r -> (forall n, In n position -> exists v, attr_is h c n v) ->
  exists h', context_save h c r = (h', Ok tt) /\
    (forall n v, In n position -> (attr_is h' r n v <-> attr_is h c n v)) /\ only_attrs h h' r position.
Proof.
  intros h c r I H. destruct (copy_ok position c r h I H) as (h' & E & _ & C & O). exists h'. auto.
Qed.
(*@ Example C93_save_ex :
  let attrs := map (fun n => (n, PStr n)) position in
  let h := [(1, Inst attrs); (2, Inst [(lit "label", PNone); (lit "loc", PInt 7)])] in
  exists a, context_save h 1 2 = ([(1, Inst attrs); (2, Inst a)], Ok tt) /\ dget a (lit "loc") = Some (PStr (lit "loc")) /\ dget a (lit "label") = Some PNone.
Proof. eexists. vm_compute. auto. Qed. @*)
Lemma C93_restore_pf : forall h c r h1 h2 c2, context_save h c r = (h1, Ok tt) ->
  dget h2 r = dget h1 r -> is_inst h2 c2 ->
  exists h3, context_load h2 c2 r = (h3, Ok tt) /\
    (forall n v, In n position -> (attr_is h3 c2 n v <-> attr_is h c n v)) /\ only_attrs h2 h3 c2 position.
Proof.
  intros h c r h1 h2 c2 S E2 I2. destruct (copy_inv position c r h h1 ltac:(discriminate) S) as [I H].
  destruct (C93_save_pf h c r I H) as (h1' & S' & V & _). assert (h1' = h1) by congruence. subst h1'.
  assert (X : forall n v, In n position -> (attr_is h2 r n v <-> attr_is h c n v)).
  { intros n v J. rewrite <- (V n v J). unfold attr_is. rewrite E2. reflexivity. }
  destruct (copy_ok [lit "linenum"; lit "global_linenum"; lit "code"; lit "srcline"; lit "loc"; lit "bank"; lit "coloc"; lit "errorMsg"; lit "warningMsg"] r c2 h2 I2)
    as (h3 & E & _ & C & O).
  { intros n J. apply save_names in J. destruct (H n J) as (v & A). exists v. apply X; assumption. }
  exists h3. split; [exact E|]. split.
  - intros n v J. rewrite (C n v) by (apply save_names; exact J). apply X. exact J.
  - eapply only_incl; [|exact O]. intros n. apply save_names.
Qed.
(*@ Example C93_restore_ex :
  let attrs := map (fun n => (n, PStr n)) position in
  let h := [(1, Inst attrs); (2, Inst [])] in
  let h1 := fst (context_save h 1 2) in let h2 := fst (context_reset h1 1) in
  attr_is h2 1 (lit "loc") (PInt 0) /\ attr_is (fst (context_load h2 1 2)) 1 (lit "loc") (PStr (lit "loc")) /\
  snd (context_load h2 1 2) = Ok tt.
Proof. cbv zeta. split; [|split; [|vm_compute; reflexivity]]; apply getattr_ok; vm_compute; reflexivity. Qed. @*)
Lemma fresh_above h : forall k, In k (dkeys h) -> k < fresh h.
Proof.
  unfold fresh. intros k. induction (dkeys h) as [|x l IH]; intros I; [destruct I|]. cbn [fold_right].
  destruct I as [<-|I]; [lia|]. specialize (IH I). lia.
Qed.
Lemma fresh_None h : dget h (fresh h) = None.
Proof.
  destruct (dget h (fresh h)) as [v|] eqn:E; [|reflexivity].
  assert (I : In (fresh h) (dkeys h)) by (apply dget_In; unfold dmem; rewrite E; reflexivity).
  apply fresh_above in I. lia.
Qed.
Ltac nodup_lits := repeat (constructor; [cbn [In map fst]; intros XX; repeat (destruct XX as [XX|XX]; [discriminate|]); exact XX|]); constructor.
Lemma C93_reset_pf : forall h c, is_inst h c ->
  exists h' l, context_reset h c = (h', Ok tt) /\ dget h l = None /\ dget h' l = Some (Lst []) /\
    attr_is h' c (lit "code") (PRef l) /\ attr_is h' c (lit "srcline") PNone /\
    attr_is h' c (lit "currentRecord") PNone /\ attr_is h' c (lit "previousRecord") PNone /\
    attr_is h' c (lit "addSymbol") (PBool true) /\ attr_is h' c (lit "reparse") (PBool false) /\
    (forall n, In n [lit "linenum"; lit "global_linenum"; lit "loc"; lit "bank"] -> attr_is h' c n (PInt 0)) /\
    (forall r, r <> c -> r <> l -> dget h' r = dget h r) /\
    (forall n v, ~ In n [lit "linenum"; lit "global_linenum"; lit "code"; lit "srcline"; lit "currentRecord"; lit "previousRecord";
                         lit "addSymbol"; lit "reparse"; lit "loc"; lit "bank"] -> (attr_is h' c n v <-> attr_is h c n v)).
Proof.
  intros h c I. unfold context_reset.
  destruct (set_attrs_ok [(lit "linenum", PInt 0); (lit "global_linenum", PInt 0)] c h I) as (h1 & E1 & I1 & C1 & O1 & F1); [nodup_lits|].
  rewrite E1. cbn [then_]. cbv zeta. set (l := fresh h1). set (h2 := dset h1 l (Lst [])).
  assert (NL : c <> l). { intros ->. destruct I1 as (a & X). unfold l in X. rewrite fresh_None in X. discriminate. }
  assert (G2 : forall r, r <> l -> dget h2 r = dget h1 r) by (intros r N; apply dget_dset_ne; exact N).
  assert (I2 : is_inst h2 c) by (destruct I1 as (a & X); exists a; rewrite G2 by exact NL; exact X).
  destruct (set_attrs_ok [(lit "code", PRef l); (lit "srcline", PNone); (lit "currentRecord", PNone); (lit "previousRecord", PNone);
             (lit "addSymbol", PBool true); (lit "reparse", PBool false); (lit "loc", PInt 0); (lit "bank", PInt 0)] c h2 I2)
    as (h3 & E3 & I3 & C3 & O3 & F3); [nodup_lits|].
  rewrite E3. exists h3, l. split; [reflexivity|].
  assert (A2 : forall n v, attr_is h2 c n v <-> attr_is h1 c n v) by (intros n v; unfold attr_is; rewrite (G2 c NL); reflexivity).
  split; [rewrite <- (O1 l) by (intros X; apply NL; symmetry; exact X); apply fresh_None|].
  split; [rewrite (O3 l) by (intros X; apply NL; symmetry; exact X); apply dget_dset_eq|].
  repeat (split; [apply C3; cbn [In]; tauto|]). split; [|split].
  - intros n J. destruct J as [<-|[<-|[<-|[<-|[]]]]].
    + apply F3; [cbn [map fst In]; intros XX; repeat (destruct XX as [XX|XX]; [discriminate|]); exact XX|]. apply A2. apply C1. left. reflexivity.
    + apply F3; [cbn [map fst In]; intros XX; repeat (destruct XX as [XX|XX]; [discriminate|]); exact XX|]. apply A2. apply C1. right. left. reflexivity.
    + apply C3. cbn [In]. tauto.
    + apply C3. cbn [In]. tauto.
  - intros r NC NR. rewrite (O3 r NC), (G2 r NR). apply O1. exact NC.
  - intros n v J. rewrite (F3 n v) by (intros X; apply J; cbn [map fst In] in *; tauto). rewrite A2. apply F1.
    intros X; apply J; cbn [map fst In] in *; tauto.
Qed.
(*@ Example C93_reset_ex :
  let h := [(1, Inst [(lit "errors", PInt 3); (lit "loc", PInt 9); (lit "code", PRef 2)]); (2, Lst [PInt 1])] in
  let h' := fst (context_reset h 1) in
  getattr h' 1 (lit "errors") = Ok (PInt 3) /\ getattr h' 1 (lit "loc") = Ok (PInt 0) /\ getattr h' 1 (lit "code") = Ok (PRef 3) /\
  dget h' 2 = Some (Lst [PInt 1]).
Proof. vm_compute. auto. Qed. @*)

(** *** C94 construction *)
Lemma C94_new_refuted_pf : forall h listfile binfile options logLevel logfile,
  exists h' e, context_new h listfile binfile options logLevel logfile = (h', Err e) /\
    ((exists o v d, options = PRef o /\ attr_is h o (lit "verbose") v /\ attr_is h o (lit "debug") d) -> e = NameError).
Proof.
  intros h lf bf op ll lg. unfold context_new. cbv zeta. set (self := fresh h).
  assert (I0 : is_inst (dset h self (Inst [])) self) by (exists []; apply dget_dset_eq).
  assert (N0 : forall o, is_inst h o -> o <> self) by (intros o (a & X) ->; unfold self in X; rewrite fresh_None in X; discriminate).
  destruct (setattr_ok _ self (lit "options") op I0) as (h1 & E1 & _ & I1 & O1 & _). rewrite E1. cbn [then_].
  assert (T1 : forall o n v, attr_is h o n v -> attr_is h1 o n v).
  { intros o n v A. assert (N := N0 o (attr_inst _ _ _ _ A)). unfold attr_is in *. rewrite (O1 o N), dget_dset_ne by exact N. exact A. }
  destruct (match op with PRef o => getattr h1 o (lit "verbose") | _ => Err AttributeError end) as [v|e] eqn:EV.
  2:{ exists h1, e. split; [reflexivity|]. intros (o & v & d & -> & A & _). apply T1 in A. apply getattr_ok in A. congruence. }
  destruct (setattr_ok h1 self (lit "verbose") v I1) as (h2 & E2 & _ & I2 & O2 & _). rewrite E2. cbn [then_].
  assert (T2 : forall o n v, attr_is h o n v -> attr_is h2 o n v).
  { intros o n w A. assert (N := N0 o (attr_inst _ _ _ _ A)). apply T1 in A. unfold attr_is in *. rewrite (O2 o N). exact A. }
  destruct (match op with PRef o => getattr h2 o (lit "debug") | _ => Err AttributeError end) as [d|e] eqn:ED.
  2:{ exists h2, e. split; [reflexivity|]. intros (o & w & d & -> & _ & A). apply T2 in A. apply getattr_ok in A. congruence. }
  match goal with |- context [set_attrs ?k self h2] => destruct (set_attrs_ok k self h2 I2) as (h3 & E3 & _); [nodup_lits|]; rewrite E3 end.
  cbn [then_]. exists h3, NameError. auto.
Qed.
(*@ Example C94_new_refuted_ex :
  snd (context_new [(1, Inst [(lit "verbose", PBool true); (lit "debug", PBool false)])] (PStr (lit "l")) (PStr (lit "b")) (PRef 1) (PInt 0) PNone) = Err NameError.
Proof. vm_compute. reflexivity. Qed. @*)

(** *** C103 save on a context without coloc *)
Lemma C103_save_refuted_pf : forall h c r, is_inst h r -> c <> r ->
  (forall n, In n position -> n <> lit "coloc" -> exists v, attr_is h c n v) -> (forall v, ~ attr_is h c (lit "coloc") v) ->
  exists h', context_save h c r = (h', Err AttributeError) /\
    (forall n v, In n [lit "linenum"; lit "global_linenum"; lit "code"; lit "srcline"; lit "loc"] -> (attr_is h' r n v <-> attr_is h c n v)) /\
    only_attrs h h' r [lit "linenum"; lit "global_linenum"; lit "code"; lit "srcline"; lit "loc"].
Proof.
  intros h c r I NC H HC.
  destruct (copy_ok [lit "linenum"; lit "global_linenum"; lit "code"; lit "srcline"; lit "loc"] c r h I) as (h' & E & _ & C & O).
  { intros n J. apply H; [unfold position; cbn [In] in *; tauto|]. intros ->. cbn [In] in J.
    repeat (destruct J as [J|J]; [discriminate|]). exact J. }
  exists h'. split; [|split; [exact C|exact O]]. unfold context_save.
  assert (X : forall a b src dst h h1, copy_attrs a src dst h = (h1, Ok tt) -> copy_attrs (a ++ b) src dst h = copy_attrs b src dst h1).
  { clear. induction a as [|n a IH]; intros b src dst h h1 E; cbn [copy_attrs app] in *; [congruence|].
    destruct (getattr h src n) as [v|]; [|discriminate]. destruct (setattr h dst n v) as [h2 [[]|]]; cbn [then_] in *; [|discriminate].
    apply IH. exact E. }
  assert (Y := X [lit "linenum"; lit "global_linenum"; lit "code"; lit "srcline"; lit "loc"] [lit "coloc"; lit "bank"; lit "errorMsg"; lit "warningMsg"] c r h h' E).
  cbn [app] in Y. rewrite Y. cbn [copy_attrs]. rewrite getattr_err; [reflexivity|].
  intros v A. apply (HC v). destruct O as [O _]. unfold attr_is in *. rewrite <- (O c NC). exact A.
Qed.
(*@ Example C103_save_refuted_ex :
  let attrs := map (fun n => (n, PInt 5)) (remove (list_eq_dec Z.eq_dec) (lit "coloc") position) in
  let h := [(1, Inst attrs); (2, Inst [(lit "loc", PInt 1); (lit "bank", PInt 1)])] in
  snd (context_save h 1 2) = Err AttributeError /\
  getattr (fst (context_save h 1 2)) 2 (lit "loc") = Ok (PInt 5) /\ getattr (fst (context_save h 1 2)) 2 (lit "bank") = Ok (PInt 1).
Proof. vm_compute. auto. Qed. @*)
Lemma C103_reset_refuted_pf : forall h c h', is_inst h c -> (forall v, ~ attr_is h c (lit "coloc") v) ->
  context_reset h c = (h', Ok tt) -> forall v, ~ attr_is h' c (lit "coloc") v.
Proof.
  intros h c h' I H E v A. destruct (C93_reset_pf h c I) as (h1 & l & E1 & X). assert (h1 = h') by congruence. subst h1.
  apply (H v). apply X; [|exact A]. cbn [In]. intros XX. repeat (destruct XX as [XX|XX]; [discriminate|]). exact XX.
Qed.
(*@ Example C103_reset_refuted_ex :
  let h := [(1, Inst [(lit "loc", PInt 9)])] in getattr (fst (context_reset h 1)) 1 (lit "coloc") = Err AttributeError.
Proof. vm_compute. reflexivity. Qed. @*)
Lemma C103_save_partial_pf : forall h c r, is_inst h r ->
  ((exists h', context_save h c r = (h', Ok tt)) <-> forall n, In n position -> exists v, attr_is h c n v).
Proof.
  intros h c r I. split.
  - intros (h' & E). exact (proj2 (copy_inv position c r h h' ltac:(discriminate) E)).
  - intros H. destruct (C93_save_pf h c r I H) as (h' & E & _). eauto.
Qed.
(*@ Example C103_save_partial_ex :
  snd (context_save [(1, Inst (map (fun n => (n, PNone)) position)); (2, Inst [])] 1 2) = Ok tt.
Proof. vm_compute. reflexivity. Qed. @*)

(** *** C104 setLoc and setCoLoc *)
Lemma C104_set_refuted_pf : forall attr valid h c address,
  (forall v, ~ attr_is h c (lit "memmap") v) -> context_set_loc attr valid h c address = (h, Err AttributeError).
Proof. intros attr valid h c address H. unfold context_set_loc. rewrite (getattr_err _ _ _ H). reflexivity. Qed.
(*@ Example C104_set_refuted_ex :
  context_set_loc (lit "loc") (fun _ _ => true) [(1, Inst [(lit "loc", PInt 0); (lit "reparse", PBool false)])] 1 100 =
  ([(1, Inst [(lit "loc", PInt 0); (lit "reparse", PBool false)])], Err AttributeError).
Proof. reflexivity. Qed. @*)
Lemma truth_ok h v : truth h v = true <-> truthy h v.
Proof.
  unfold truthy. destruct v as [|b|n|s|r]; cbn [truth].
  - split; [discriminate|intros (X & _); contradiction].
  - split; [intros ->; repeat split; discriminate|]. intros (_ & X & _). destruct b; [reflexivity|contradiction].
  - rewrite negb_true_iff, Z.eqb_neq. split; [intros N; repeat split; try discriminate; congruence|].
    intros (_ & _ & X & _) ->. contradiction.
  - destruct s as [|c s].
    + split; [discriminate|]. intros (_ & _ & _ & X & _). contradiction.
    + split; [intros _; repeat split; discriminate|intros _; reflexivity].
  - split.
    + intros H. repeat split; try discriminate. intros r' [= <-] E. rewrite E in H. discriminate.
    + intros (_ & _ & _ & _ & X). specialize (X r eq_refl). destruct (dget h r) as [[a|[|x l]]|]; try reflexivity. contradiction.
Qed.
Lemma truth_no h v : truth h v = false <-> ~ truthy h v.
Proof. rewrite <- truth_ok. destruct (truth h v); split; congruence. Qed.
Lemma C104_set_partial_pf : forall attr valid h c address m rv lv n, attr_is h c (lit "memmap") m -> valid m address = true ->
  attr_is h c (lit "reparse") rv -> attr_is h c (lit "log") lv -> attr_is h c attr (PInt n) ->
  exists h', context_set_loc attr valid h c address = (h', Ok tt) /\
    (truthy h rv -> h' = h) /\ (~ truthy h rv -> attr_is h' c attr (PInt address)) /\ only_attrs h h' c [attr].
Proof.
  intros attr valid h c address m rv lv n M V R L A. unfold context_set_loc.
  rewrite (proj2 (getattr_ok _ _ _ _) M), V, (proj2 (getattr_ok _ _ _ _) R). destruct (truth h rv) eqn:T.
  - exists h. split; [reflexivity|]. apply truth_ok in T. split; [reflexivity|]. split; [contradiction|apply only_refl].
  - rewrite (proj2 (getattr_ok _ _ _ _) L), (proj2 (getattr_ok _ _ _ _) A).
    destruct (setattr_ok h c attr (PInt address) (attr_inst _ _ _ _ A)) as (h' & E & A' & _ & O & F).
    exists h'. split; [exact E|]. apply truth_no in T. split; [contradiction|]. split; [intros _; exact A'|].
    split; [exact O|]. intros n' v N. apply F. intros ->. apply N. left. reflexivity.
Qed.
(*@ Example C104_set_partial_ex :
  snd (context_set_loc (lit "loc") (fun _ a => a <? 2048) [(1, Inst [(lit "loc", PInt 0); (lit "reparse", PBool false); (lit "log", PNone); (lit "memmap", PNone)])] 1 100) = Ok tt.
Proof. reflexivity. Qed. @*)
(** when the two methods return, and what they leave behind when they do not *)
Lemma C104_when_partial_pf : forall attr valid h c address h' r, context_set_loc attr valid h c address = (h', r) ->
  (r = Ok tt <->
    (exists m, attr_is h c (lit "memmap") m /\ (valid m address = true \/ exists e, attr_is h c (lit "error") e)) /\
    (exists rv, attr_is h c (lit "reparse") rv /\
       (truthy h rv \/ (exists lv, attr_is h c (lit "log") lv) /\ exists v, attr_is h c attr v /\ is_number v))) /\
  (r <> Ok tt -> h' = h /\ (r = Err AttributeError \/ r = Err TypeError /\ exists v, attr_is h c attr v /\ ~ is_number v)).
Proof.
  intros attr valid h c address h' r H. unfold context_set_loc in H.
  assert (GE : forall n e, getattr h c n = Err e -> e = AttributeError /\ forall v, ~ attr_is h c n v).
  { intros n e X. split.
    - unfold getattr in X. destruct (dget h c) as [[a|xs]|]; [destruct (dget a n)|..]; congruence.
    - intros v A. apply getattr_ok in A. congruence. }
  assert (GU : forall n v w, getattr h c n = Ok v -> attr_is h c n w -> w = v).
  { intros n v w X A. apply getattr_ok in A. congruence. }
  destruct (getattr h c (lit "memmap")) as [m|e] eqn:EM.
  2:{ destruct (GE _ _ EM) as [-> NM]. assert (h' = h) by congruence. assert (r = Err AttributeError) by congruence. subst h' r.
      split; [|auto]. split; [discriminate|]. intros [(m & A & _) _]. destruct (NM m A). }
  cbv zeta in H.
  set (rest := match getattr h c (lit "reparse") with Ok v => _ | Err e => _ end) in H.
  assert (R : forall h' r, rest = (h', r) ->
    (r = Ok tt <-> (exists rv, attr_is h c (lit "reparse") rv /\
       (truthy h rv \/ (exists lv, attr_is h c (lit "log") lv) /\ exists v, attr_is h c attr v /\ is_number v))) /\
    (r <> Ok tt -> h' = h /\ (r = Err AttributeError \/ r = Err TypeError /\ exists v, attr_is h c attr v /\ ~ is_number v))).
  { clear H h' r. intros h' r H. unfold rest in H. destruct (getattr h c (lit "reparse")) as [rv|e] eqn:ER.
    2:{ destruct (GE _ _ ER) as [-> N]. assert (h' = h) by congruence. assert (r = Err AttributeError) by congruence. subst h' r.
        split; [|auto]. split; [discriminate|]. intros (v & A & _). destruct (N v A). }
    assert (AR := proj1 (getattr_ok _ _ _ _) ER).
    destruct (truth h rv) eqn:T.
    { assert (r = Ok tt) by congruence. subst r. apply truth_ok in T. split; [|congruence]. split; [eauto|reflexivity]. }
    apply truth_no in T. destruct (getattr h c (lit "log")) as [lv|e] eqn:EL.
    2:{ destruct (GE _ _ EL) as [-> N]. assert (h' = h) by congruence. assert (r = Err AttributeError) by congruence. subst h' r.
        split; [|auto]. split; [discriminate|]. intros (v & A & [X|((w & X) & _)]); [|destruct (N w X)].
        rewrite (GU _ _ _ ER A) in X. contradiction. }
    assert (AL := proj1 (getattr_ok _ _ _ _) EL).
    destruct (getattr h c attr) as [v|e] eqn:EA.
    2:{ destruct (GE _ _ EA) as [-> N]. assert (h' = h) by congruence. assert (r = Err AttributeError) by congruence. subst h' r.
        split; [|auto]. split; [discriminate|]. intros (v & A & [X|(_ & w & X & _)]); [|destruct (N w X)].
        rewrite (GU _ _ _ ER A) in X. contradiction. }
    assert (AA := proj1 (getattr_ok _ _ _ _) EA).
    assert (D : is_number v /\ setattr h c attr (PInt address) = (h', r) \/ ~ is_number v /\ (h, Err TypeError) = (h', r)).
    { destruct v as [|b|n|s|q]; [right|left|left|right|right]; (split; [|exact H]);
        [intros [(k & X)|(k & X)]; discriminate|right; eauto|left; eauto|intros [(k & X)|(k & X)]; discriminate..]. }
    destruct D as [[NV HS]|[NV HS]].
    - destruct (setattr_ok h c attr (PInt address) (attr_inst _ _ _ _ AA)) as (h2 & E & _).
      assert (r = Ok tt) by congruence. subst r. split; [|congruence]. split; [|reflexivity]. intros _.
      exists rv. split; [exact AR|]. right. split; eauto.
    - assert (h' = h) by congruence. assert (r = Err TypeError) by congruence. subst h' r. split; [|eauto 8]. split; [discriminate|].
      intros (w & A & [X|(_ & u & X & Y)]); [rewrite (GU _ _ _ ER A) in X; contradiction|].
      rewrite (GU _ _ _ EA X) in Y. contradiction. }
  assert (AM := proj1 (getattr_ok _ _ _ _) EM).
  destruct (valid m address) eqn:EV.
  - destruct (R _ _ H) as [R1 R2]. split; [|exact R2]. rewrite R1. split; [intros X; split; eauto|intros [_ X]; exact X].
  - destruct (getattr h c (lit "error")) as [ev|e] eqn:EE.
    + assert (AE := proj1 (getattr_ok _ _ _ _) EE).
      destruct (R _ _ H) as [R1 R2]. split; [|exact R2]. rewrite R1. split; [intros X; split; eauto|intros [_ X]; exact X].
    + destruct (GE _ _ EE) as [-> N]. assert (h' = h) by congruence. assert (r = Err AttributeError) by congruence. subst h' r.
      split; [|auto]. split; [discriminate|]. intros [(m' & A & [X|(w & X)]) _]; [|destruct (N w X)].
      rewrite (GU _ _ _ EM A) in X. congruence.
Qed.
(*@ Example C104_when_partial_ex :
  snd (context_set_loc (lit "coloc") (fun _ a => a <? 2048) [(1, Inst [(lit "coloc", PNone); (lit "reparse", PInt 0); (lit "log", PNone); (lit "memmap", PNone)])] 1 100) = Err TypeError.
Proof. reflexivity. Qed. @*)

(** *** C105 a saved record shares the code list *)
Lemma C105_snapshot_refuted_pf : forall h c r h1 l xs x, context_save h c r = (h1, Ok tt) -> l <> c -> l <> r ->
  attr_is h c (lit "code") (PRef l) -> dget h l = Some (Lst xs) ->
  attr_is h1 r (lit "code") (PRef l) /\ dget h1 l = Some (Lst xs) /\
  attr_is (list_append h1 l x) r (lit "code") (PRef l) /\ dget (list_append h1 l x) l = Some (Lst (xs ++ [x])).
Proof.
  intros h c r h1 l xs x S NC NR A L. destruct (copy_inv position c r h h1 ltac:(discriminate) S) as [I H].
  destruct (C93_save_pf h c r I H) as (h1' & S' & V & O & _). assert (h1' = h1) by congruence. subst h1'.
  assert (A1 : attr_is h1 r (lit "code") (PRef l)) by (apply V; [unfold position; cbn [In]; tauto|exact A]).
  assert (L1 : dget h1 l = Some (Lst xs)) by (rewrite (O l NR); exact L).
  split; [exact A1|]. split; [exact L1|]. unfold list_append. rewrite L1. split; [|apply dget_dset_eq].
  unfold attr_is. rewrite dget_dset_ne by (intros X; apply NR; symmetry; exact X). exact A1.
Qed.
(*@ Example C105_snapshot_refuted_ex :
  let h := [(1, Inst ((lit "code", PRef 3) :: map (fun n => (n, PNone)) position)); (2, Inst []); (3, Lst [PInt 1])] in
  let h1 := fst (context_save h 1 2) in
  getattr h1 2 (lit "code") = Ok (PRef 3) /\ dget (list_append h1 3 (PInt 2)) 3 = Some (Lst [PInt 1; PInt 2]).
Proof. vm_compute. auto. Qed. @*)
Lemma C105_snapshot_partial_pf : forall h c r h1 h2 l xs, context_save h c r = (h1, Ok tt) -> c <> r -> l <> c ->
  attr_is h1 r (lit "code") (PRef l) -> dget h1 l = Some (Lst xs) -> is_inst h1 c ->
  context_reset h1 c = (h2, Ok tt) ->
  (forall n v, attr_is h2 r n v <-> attr_is h1 r n v) /\ dget h2 l = Some (Lst xs).
Proof.
  intros h c r h1 h2 l xs S NC NL A L I R. destruct (copy_inv position c r h h1 ltac:(discriminate) S) as [IR H].
  destruct (C93_reset_pf h1 c I) as (h2' & l' & E & N' & _ & _ & _ & _ & _ & _ & _ & _ & O & _).
  assert (h2' = h2) by congruence. subst h2'.
  assert (RL : r <> l') by (intros ->; destruct (attr_inst _ _ _ _ A) as (a & X); congruence).
  assert (LL : l <> l') by congruence. split.
  - intros n v. unfold attr_is. rewrite (O r) by (try exact RL; intros X; apply NC; symmetry; exact X). reflexivity.
  - rewrite (O l NL LL). exact L.
Qed.
(*@ Example C105_snapshot_partial_ex :
  let h := [(1, Inst ((lit "code", PRef 3) :: map (fun n => (n, PNone)) position)); (2, Inst []); (3, Lst [PInt 1])] in
  let h2 := fst (context_reset (fst (context_save h 1 2)) 1) in
  getattr h2 2 (lit "code") = Ok (PRef 3) /\ dget h2 3 = Some (Lst [PInt 1]) /\ getattr h2 1 (lit "code") = Ok (PRef 4).
Proof. vm_compute. auto. Qed. @*)

(** *** C115 str(context) *)
Lemma str_attrs_name h self l : str_attrs h self l = Err NameError <->
  Forall (fun p => exists v, attr_is h self (fst p) v /\ (snd p = true -> exists n, v = PInt n \/ exists b, v = PBool b)) l.
Proof.
  induction l as [|[n num] l IH]; cbn [str_attrs]; [split; [constructor|reflexivity]|]. split.
  - unfold getattr. destruct (dget h self) as [[a|xs]|] eqn:EH; try discriminate.
    destruct (dget a n) as [v|] eqn:EA; cbn [bind]; [|discriminate]. intros H. constructor.
    + exists v. split; [exists a; auto|]. cbn [snd]. intros ->. destruct v; try discriminate; [exists 0; right; eauto|eauto].
    + apply IH. destruct num; [destruct v; try discriminate|]; exact H.
  - intros F. pose proof (Forall_inv F) as (v & (a & EH & EA) & K). pose proof (Forall_inv_tail F) as FT. cbn [fst snd] in EA, K.
    apply IH in FT. unfold getattr. rewrite EH, EA. cbn [bind]. destruct num; [|exact FT].
    destruct (K eq_refl) as (k & [->|(b & ->)]); exact FT.
Qed.
Lemma str_attrs_never h self l u : str_attrs h self l <> Ok u.
Proof.
  induction l as [|[n num] l IH]; cbn [str_attrs]; [discriminate|]. destruct (getattr h self n) as [v|e]; cbn [bind]; [|discriminate].
  destruct num; [destruct v; try discriminate|]; exact IH.
Qed.
Lemma C115_str_refuted_pf : forall h self u, context_str h self <> Ok u.
Proof. intros h self u. apply str_attrs_never. Qed.
(*@ Example C115_str_refuted_ex :
  let names := map lit ["options"; "logfile"; "listfile"; "binfile"; "srcfile"; "code"; "srcline"; "currentRecord"; "previousRecord"]%string in
  let h := [(1, Inst ([(lit "linenum", PInt 3); (lit "global_linenum", PInt 7)] ++ map (fun n => (n, PNone)) names))] in
  context_str h 1 = Err NameError /\ context_str (fst (context_reset h 1)) 1 = Err NameError.
Proof. vm_compute. auto. Qed. @*)
Lemma C115_error_partial_pf : forall h self, context_str h self = Err NameError <->
  (forall n, In n (map lit ["options"; "logfile"; "listfile"; "binfile"; "srcfile"; "linenum"; "global_linenum"; "code"; "srcline"; "currentRecord"]%string) ->
     exists v, attr_is h self n v) /\
  (forall n, In n (map lit ["linenum"; "global_linenum"]%string) -> (exists k, attr_is h self n (PInt k)) \/ (exists b, attr_is h self n (PBool b))).
Proof.
  intros h self. unfold context_str. rewrite str_attrs_name. rewrite Forall_forall. split.
  - intros H. split.
    + intros n I. cbn [map In] in I.
      assert (J : exists num, In (n, num) [(lit "options", false); (lit "logfile", false); (lit "listfile", false); (lit "binfile", false); (lit "srcfile", false);
        (lit "linenum", true); (lit "global_linenum", true); (lit "code", false); (lit "srcline", false); (lit "currentRecord", false)]).
      { cbn [In]. repeat (destruct I as [<-|I]; [first [exists false; tauto|exists true; tauto]|]). destruct I. }
      destruct J as (num & J). destruct (H _ J) as (v & A & _). eauto.
    + intros n I. assert (J : In (n, true) [(lit "options", false); (lit "logfile", false); (lit "listfile", false); (lit "binfile", false); (lit "srcfile", false);
        (lit "linenum", true); (lit "global_linenum", true); (lit "code", false); (lit "srcline", false); (lit "currentRecord", false)]).
      { cbn [map In] in *. repeat (destruct I as [<-|I]; [tauto|]). destruct I. }
      destruct (H _ J) as (v & A & K). destruct (K eq_refl) as (k & [->|(b & ->)]); eauto.
  - intros [H1 H2] [n num] J. cbn [fst snd]. destruct num.
    + assert (I : In n (map lit ["linenum"; "global_linenum"]%string)).
      { cbn [map In] in *. repeat (destruct J as [J|J]; [first [discriminate J | injection J as <-; tauto]|]). destruct J. }
      destruct (H2 n I) as [(k & A)|(b & A)]; [exists (PInt k)|exists (PBool b)]; (split; [exact A|]); intros _; [exists k|exists 0]; eauto.
    + destruct (H1 n) as (v & A).
      { cbn [map In] in *. repeat (destruct J as [J|J]; [first [discriminate J | injection J as <-; tauto]|]). destruct J. }
      exists v. split; [exact A|discriminate].
Qed.
(*@ Example C115_error_partial_ex : context_str [(1, Inst [(lit "options", PNone)])] 1 = Err AttributeError.
Proof. reflexivity. Qed. @*)
Lemma C115_kinds_partial_pf : forall h self, exists e, context_str h self = Err e /\ (e = NameError \/ e = AttributeError \/ e = TypeError) /\
  (e = TypeError -> exists n v, In n (map lit ["linenum"; "global_linenum"]%string) /\ attr_is h self n v /\ ~ is_number v) /\
  (e = AttributeError -> exists n, In n (map lit ["options"; "logfile"; "listfile"; "binfile"; "srcfile"; "linenum"; "global_linenum"; "code"; "srcline"; "currentRecord"]%string) /\
     forall v, ~ attr_is h self n v).
Proof.
  intros h self. unfold context_str.
  assert (X : forall l, exists e, str_attrs h self l = Err e /\ (e = NameError \/ e = AttributeError \/ e = TypeError) /\
    (e = TypeError -> exists n v, In (n, true) l /\ attr_is h self n v /\ ~ is_number v) /\
    (e = AttributeError -> exists n b, In (n, b) l /\ forall v, ~ attr_is h self n v)).
  { induction l as [|[n num] l (e & E & K & T & A)].
    - exists NameError. split; [reflexivity|]. split; [auto|]. split; discriminate.
    - assert (G : exists e, str_attrs h self l = Err e /\ (e = NameError \/ e = AttributeError \/ e = TypeError) /\
        (e = TypeError -> exists n0 v, In (n0, true) ((n, num) :: l) /\ attr_is h self n0 v /\ ~ is_number v) /\
        (e = AttributeError -> exists n0 b, In (n0, b) ((n, num) :: l) /\ forall v, ~ attr_is h self n0 v)).
      { exists e. split; [exact E|]. split; [exact K|]. split.
        - intros X. destruct (T X) as (n0 & v & I & Y). exists n0, v. split; [right; exact I|exact Y].
        - intros X. destruct (A X) as (n0 & v & I & Y). exists n0, v. split; [right; exact I|exact Y]. }
      cbn [str_attrs]. destruct (getattr h self n) as [v|e'] eqn:EG; cbn [bind].
      + destruct num; [|exact G]. assert (AG := proj1 (getattr_ok _ _ _ _) EG).
        destruct v as [|b|k|s|q]; try exact G; exists TypeError; (split; [reflexivity|]); (split; [auto|]);
          (split; [|discriminate]); intros _; eexists; eexists; (split; [left; reflexivity|]); (split; [exact AG|]);
          intros [(x & Y)|(x & Y)]; discriminate.
      + exists e'. split; [reflexivity|]. assert (e' = AttributeError).
        { unfold getattr in EG. destruct (dget h self) as [[a|xs]|]; [destruct (dget a n)|..]; congruence. }
        subst e'. split; [auto|]. split; [discriminate|]. intros _. exists n, num. split; [left; reflexivity|].
        intros v V. apply getattr_ok in V. congruence. }
  match goal with |- context [str_attrs h self ?l] => destruct (X l) as (e & E & K & T & A) end.
  exists e. split; [exact E|]. split; [exact K|]. split.
  - intros Y. destruct (T Y) as (n & v & I & W). exists n, v. split; [|exact W]. cbn [map In] in *.
    repeat (destruct I as [I|I]; [first [discriminate I | injection I as <-; tauto]|]). destruct I.
  - intros Y. destruct (A Y) as (n & b & I & W). exists n. split; [|exact W]. cbn [map In] in *.
    repeat (destruct I as [I|I]; [injection I as <- _; tauto|]). destruct I.
Qed.
(*@ Example C115_kinds_partial_ex :
  context_str [(1, Inst (map (fun n => (lit n, PNone)) ["options"; "logfile"; "listfile"; "binfile"; "srcfile"; "linenum"]%string))] 1 = Err TypeError.
Proof. reflexivity. Qed. @*)
