(** The symbol table of files of any names: C194. *)
From Verif Require Import Py LPy MInstructions MCards SCards LCards LDeck MSymbols SSymbols LSymBuild LSymQuery MTools STools LTools LToolSym SClash LClash SForce.
#[local] Arguments Z.add : simpl never.
#[local] Arguments Z.sub : simpl never.

(** *** the definitions of a source *)
Lemma deck_defs_ex upper seg s0 cs : Forall proper_card cs -> exists ds, deck_defs upper seg s0 cs ds.
Proof.
  induction cs as [|c cs IH] using rev_ind; intros F; [exists []; constructor|].
  apply Forall_app in F. destruct F as [F1 F2]. apply Forall_inv in F2. destruct (IH F1) as (ds & D).
  destruct (build_card_cases upper [] c F2 [] [] 0) as [(_ & _ & N)|[(_ & _ & N)|(tag & kind & tt & cmd & e & DF & _)]].
  - exists ds. apply dd_not; assumption.
  - exists ds. apply dd_not; assumption.
  - eexists. eapply dd_def; [exact D|exact DF|]. apply current_ok. reflexivity.
Qed.
Lemma snoc_inj {A} (a b : list A) x y : a ++ [x] = b ++ [y] -> a = b /\ x = y.
Proof. apply app_inj_tail. Qed.
Lemma deck_defs_fun upper seg s0 cs ds : deck_defs upper seg s0 cs ds -> forall ds', deck_defs upper seg s0 cs ds' -> ds = ds'.
Proof.
  induction 1 as [|cs ds c tag kind tt ss D IH DF CU|cs ds c D IH N]; intros ds' D'.
  - inversion D' as [|? ? ? ? ? ? ? ? ? ? E|? ? ? ? ? E]; [reflexivity| |]; destruct cs; discriminate E.
  - inversion D' as [E|cs1 ds1 c1 tag1 kind1 tt1 ss1 D1 DF1 CU1 E|cs1 ds1 c1 D1 N1 E].
    + destruct cs; discriminate E.
    + apply snoc_inj in E. destruct E as [-> ->]. rewrite (IH _ D1). destruct (defines_fun _ _ _ _ _ _ _ _ DF DF1) as (-> & -> & ->).
      apply current_ok in CU, CU1. congruence.
    + apply snoc_inj in E. destruct E as [-> ->]. destruct (N1 _ _ _ DF).
  - inversion D' as [E|cs1 ds1 c1 tag1 kind1 tt1 ss1 D1 DF1 CU1 E|cs1 ds1 c1 D1 N1 E].
    + destruct cs; discriminate E.
    + apply snoc_inj in E. destruct E as [-> ->]. destruct (N _ _ _ DF1).
    + apply snoc_inj in E. destruct E as [-> ->]. exact (IH _ D1).
Qed.
Lemma deck_defs_from upper seg s0 cs ds : deck_defs upper seg s0 cs ds -> forall d, In d ds -> In (sd_card d) cs.
Proof.
  induction 1 as [|cs ds c tag kind tt ss D IH DF CU|cs ds c D IH N]; intros d I.
  - destruct I.
  - apply in_or_app. apply in_app_or in I. destruct I as [I|[<-|[]]]; [left; exact (IH _ I)|right; left; reflexivity].
  - apply in_or_app. left. exact (IH _ I).
Qed.
Lemma files_defs_from upper files css ds : files_defs upper files css ds -> forall d, In d ds -> exists cs, In cs css /\ In (sd_card d) cs.
Proof.
  induction 1 as [|files css ds f seg cs d F IH S D]; intros x I; [destruct I|]. apply in_app_or in I. destruct I as [I|I].
  - destruct (IH _ I) as (cs' & A & B). exists cs'. split; [apply in_or_app; left; exact A|exact B].
  - exists cs. split; [apply in_or_app; right; left; reflexivity|exact (deck_defs_from _ _ _ _ _ D _ I)].
Qed.
Lemma C194_definitions_pf : forall upper fuel fs files css, Forall2 (source_cards fuel fs) files css ->
  exists ds, files_defs upper files css ds /\ forall ds', files_defs upper files css ds' -> ds' = ds.
Proof.
  intros upper fuel fs files css F. apply F2_pairs in F. destruct F as (ps & -> & -> & F).
  induction ps as [|[f cs] ps IH] using rev_ind.
  - exists []. split; [constructor|]. intros ds' D. inversion D as [|? ? ? ? ? ? ? ? ? ? E]; [reflexivity|]. destruct files; discriminate E.
  - apply Forall_app in F. destruct F as [F1 F2]. apply Forall_inv in F2. cbn [fst snd] in F2. destruct (IH F1) as (ds & D & U).
    destruct (seg_exists f) as (seg & S). destruct (deck_defs_ex upper seg (lit "1") cs (source_proper _ _ _ _ F2)) as (d & DD).
    rewrite !map_app. cbn [map fst snd]. exists (ds ++ d). split; [eapply fd_file; eassumption|].
    intros ds' D'. inversion D' as [E|files1 css1 ds1 f1 seg1 cs1 d1 D1 S1 DD1 E E2]; [destruct (map fst ps); discriminate E|].
    apply snoc_inj in E, E2. destruct E as [-> ->], E2 as [-> ->]. rewrite (U _ D1). f_equal.
    rewrite (seg_unique _ _ _ S1 S) in DD1. exact (deck_defs_fun _ _ _ _ _ DD1 _ DD).
Qed.

(** *** the invariant *)
Definition place (ds : list sdef) (t s u : str) : Prop := exists x, In x ds /\ sd_tag x = t /\ sd_seg x = s /\ sd_sub x = u.
Record inv (tab : symtab) (ds : list sdef) : Prop := mkinv {
  i_deep : deep tab;
  i_held : forall t s u, held tab t s u <-> place ds t s u;
  i_keys : forall t, In t (dkeys tab) <-> exists d, In d ds /\ sd_tag d = t;
  i_get : forall t s u k e, get4 tab t s u k = Some e <-> in_force ds t s u k e }.
Lemma deep_no_empty tab : deep tab -> no_empty tab.
Proof.
  intros [_ D] tag sg seg s1 E1 E2. destruct (D _ _ E1) as [_ [_ D1]]. destruct (D1 _ _ E2) as [N _].
  destruct s1 as [|[u ks] r]; [contradiction|]. exists u, ks. cbn [dget]. rewrite eqb_refl. reflexivity.
Qed.
Lemma refused_held tab ds d : inv tab ds ->
  (refused ds d <-> held tab (sd_tag d) (sd_seg d) (sd_sub d) /\ exists u, held tab (sd_tag d) (sd_kind d) u).
Proof.
  intros [D H K G]. unfold refused. split.
  - intros [(x & I & A & B & C) (y & J & P & Q)]. split.
    + apply H. exists x. auto.
    + exists (sd_sub y). apply H. exists y. auto.
  - intros [A (u & B)]. apply H in A, B. split; [exact A|]. destruct B as (y & J & P & Q & _). eauto.
Qed.
Lemma insert_at tab seg ss tag kind cmd e tab' : insert_def tab seg ss tag kind cmd e = Ok (tab', 0) -> get4 tab' tag seg ss kind = Some e.
Proof.
  unfold insert_def, get4. intros H.
  destruct (dget tab tag) as [sg|] eqn:E1; [destruct (dget sg seg) as [s1|] eqn:E2; [destruct (dget s1 ss) as [ks|] eqn:E3; [destruct (dget sg kind) as [pv|]|]|]|].
  1:{ destruct (eqb cmd (lit "EQUALS")); [destruct (dget pv (lit "card")); discriminate H|discriminate H]. }
  all: injection H as <-; repeat first [rewrite dget_dset_eq | progress cbn [dget]; rewrite eqb_refl]; reflexivity.
Qed.
Definition key (d : sdef) : str * str * str * str := (sd_tag d, sd_seg d, sd_sub d, sd_kind d).
Lemma key_dec (a b : str * str * str * str) : {a = b} + {a <> b}.
Proof. repeat decide equality. Qed.
Lemma force_snoc ds d t s u k e : in_force (ds ++ [d]) t s u k e <->
  (key d = (t, s, u, k) /\ ~ refused ds d /\ entry_from (sd_card d) (sd_type d) e) \/
  ((key d <> (t, s, u, k) \/ refused ds d) /\ in_force ds t s u k e).
Proof.
  split.
  - intros (pre & x & post & E & KX & NR & EF & L). apply split_snoc in E. destruct E as [(-> & -> & ->)|(post' & -> & ->)]; [left; auto|].
    right. split.
    + destruct (key_dec (key d) (t, s, u, k)) as [K|K]; [right|left; exact K]. apply (L post' d []); [reflexivity|exact K].
    + exists pre, x, post'. split; [reflexivity|]. do 3 (split; [assumption|]). intros a d' b ->. apply (L a d' (b ++ [d])). rewrite <- app_assoc. reflexivity.
  - intros [(K & NR & EF)|(K & pre & x & post & -> & KX & NR & EF & L)].
    + exists ds, d, []. split; [reflexivity|]. do 3 (split; [assumption|]). intros a d' b E. destruct a; discriminate E.
    + exists pre, x, (post ++ [d]). split; [rewrite <- app_assoc; reflexivity|]. do 3 (split; [assumption|]).
      intros a d' b E KD. apply split_snoc in E. destruct E as [(-> & -> & ->)|(b' & -> & ->)]; [|exact (L a d' b' eq_refl KD)].
      destruct K as [K|K]; [destruct (K KD)|exact K].
Qed.
Lemma place_snoc ds d t s u : place (ds ++ [d]) t s u <-> (t = sd_tag d /\ s = sd_seg d /\ u = sd_sub d) \/ place ds t s u.
Proof.
  split.
  - intros (x & I & A & B & C). apply in_app_or in I. destruct I as [I|[<-|[]]]; [right; exists x; auto|left; auto].
  - intros [(-> & -> & ->)|(x & I & H)]; [exists d|exists x]; (split; [apply in_or_app|]); auto. right. left. reflexivity.
Qed.
Lemma keys_snoc ds d t : (exists x, In x (ds ++ [d]) /\ sd_tag x = t) <-> (exists x, In x ds /\ sd_tag x = t) \/ t = sd_tag d.
Proof.
  split.
  - intros (x & I & E). apply in_app_or in I. destruct I as [I|[<-|[]]]; [left; exists x; auto|right; auto].
  - intros [(x & I & E)| ->]; [exists x|exists d]; (split; [apply in_or_app|]); auto. right. left. reflexivity.
Qed.
(** one definition *)
Lemma step tab ds d cmd e : inv tab ds -> entry_from (sd_card d) (sd_type d) e -> card_get (sd_card d) "operation" = Ok (RStr cmd) ->
  (cmd = lit "EQUALS" -> sd_kind d = lit "simple") ->
  let r := insert_def tab (sd_seg d) (sd_sub d) (sd_tag d) (sd_kind d) cmd e in
  (~ refused ds d /\ (forall x, ~ fatal_at ds d x) /\ exists tab', r = Ok (tab', 0) /\ inv tab' (ds ++ [d])) \/
  (refused ds d /\ (forall x, ~ fatal_at ds d x) /\ r = Ok (tab, 1) /\ inv tab (ds ++ [d])) \/
  (exists x, fatal_at ds d x /\ r = Err x).
Proof.
  intros I EF EO KE. cbv zeta. pose proof (refused_held tab ds d I) as RH. pose proof I as [D H K G].
  destruct (insert_outcome tab (sd_seg d) (sd_sub d) (sd_tag d) (sd_kind d) cmd e (deep_no_empty _ D)) as [(N & tab' & EI & _ & HH)|[(R & NQ & EI)|(R & Q & EI)]].
  - left. assert (NR : ~ refused ds d) by (rewrite RH; exact N). split; [exact NR|]. split; [intros x (X & _); contradiction|].
    exists tab'. split; [exact EI|]. destruct (insert_deep _ _ _ _ _ _ _ _ _ D EI) as [D' K']. split.
    + exact D'.
    + intros t s u. rewrite HH, place_snoc, H. tauto.
    + intros t. rewrite K', keys_snoc, K. tauto.
    + intros t s u k x. rewrite force_snoc. destruct (key_dec (key d) (t, s, u, k)) as [KK|KK].
      * unfold key in KK. injection KK as <- <- <- <-. rewrite (insert_at _ _ _ _ _ _ _ _ EI). split.
        -- intros E. injection E as <-. left. auto.
        -- intros [(_ & _ & EF')|([X|X] & _)]; [rewrite (entry_unique _ _ _ _ EF EF'); reflexivity|destruct (X eq_refl)|contradiction].
      * rewrite (insert_frame _ _ _ _ _ _ _ _ _ EI).
        -- rewrite G. split; [intros F; right; auto|]. intros [(X & _)|(_ & X)]; [contradiction|exact X].
        -- intros (-> & -> & -> & ->). apply KK. reflexivity.
  - right. left. assert (RR : refused ds d) by (rewrite RH; exact R). split; [exact RR|]. split; [intros x (_ & X & _); congruence|].
    split; [exact EI|]. split.
    + exact D.
    + intros t s u. rewrite place_snoc, <- H. split; [auto|]. intros [(-> & -> & ->)|X]; [exact (proj1 R)|exact X].
    + intros t. rewrite keys_snoc, <- K. split; [auto|]. intros [X| ->]; [exact X|]. destruct (proj1 R) as (sg & s1 & ks & E1 & _).
      apply dget_In. unfold dmem. rewrite E1. reflexivity.
    + intros t s u k x. rewrite force_snoc, <- G. split; [auto|]. intros [(_ & X & _)|(_ & X)]; [contradiction|exact X].
  - right. right. subst cmd. assert (RR : refused ds d) by (rewrite RH; exact R). clear RH. rewrite (KE eq_refl) in *.
    assert (HC : held tab (sd_tag d) (lit "simple") (lit "card") <-> exists x, In x ds /\ sd_tag x = sd_tag d /\ sd_seg x = lit "simple" /\ sd_sub x = lit "card") by apply H.
    destruct EI as [[C EI]|[C EI]]; eexists; (split; [|exact EI]); (split; [exact RR|]); (split; [exact EO|]); cbv zeta; rewrite <- HC; auto.
Qed.

(** *** the cards of a file *)
Lemma run_cards upper seg s0 cs d : deck_defs upper seg s0 cs d -> Forall proper_card cs -> forall tab ds n0, inv tab ds ->
  (exists tab' a b, build_cards upper seg (s0, tab, n0) cs = Ok (sub_after s0 cs, tab', n0 + a + b) /\ inv tab' (ds ++ d) /\
     count_of (label_error upper) cs a /\ (forall m, refusals ds m -> refusals (ds ++ d) (m + b)) /\
     forall pre x post e, d = pre ++ x :: post -> ~ fatal_at (ds ++ pre) x e) \/
  (exists e pre x post, build_cards upper seg (s0, tab, n0) cs = Err e /\ d = pre ++ x :: post /\
     (forall p y q e', pre = p ++ y :: q -> ~ fatal_at (ds ++ p) y e') /\ fatal_at (ds ++ pre) x e).
Proof.
  induction 1 as [|cs d c tag kind tt ss D IH DF CU|cs d c D IH N]; intros F tab ds n0 I.
  - left. exists tab, 0, 0. split; [rewrite !Z.add_0_r; reflexivity|]. rewrite app_nil_r. split; [exact I|]. split; [constructor|].
    split; [intros m; rewrite Z.add_0_r; auto|]. intros pre x post e E. destruct pre; discriminate E.
  - apply Forall_app in F. destruct F as [F1 F2]. apply Forall_inv in F2. rewrite build_app.
    destruct (IH F1 tab ds n0 I) as [(tab1 & a & b & E & I1 & CA & RF & NF)|(e & pre & x & post & E & -> & NF & FT)].
    2:{ right. exists e, pre, x, (post ++ [mksdef tag seg ss kind tt c]). rewrite E. split; [reflexivity|]. split; [rewrite <- app_assoc; reflexivity|auto]. }
    rewrite E. cbn [bind build_cards]. apply current_ok in CU. rewrite sub_snoc in CU |- *. set (x := mksdef tag seg ss kind tt c).
    destruct (build_card_cases upper seg c F2 (sub_after s0 cs) tab1 (n0 + a + b))
      as [(_ & _ & N)|[(_ & _ & N)|(tag' & kind' & tt' & cmd & en & D' & NE & EF & IK & KC & EO & ->)]]; [destruct (N _ _ _ DF)|destruct (N _ _ _ DF)|].
    destruct (defines_fun _ _ _ _ _ _ _ _ DF D') as (<- & <- & <-). rewrite <- CU.
    assert (KE : cmd = lit "EQUALS" -> sd_kind x = lit "simple").
    { intros ->. destruct IK as [IK|IK]; [exact IK|]. apply KC in IK. discriminate IK. }
    rewrite app_assoc.
    assert (CC : count_of (label_error upper) (cs ++ [c]) a) by (apply (count_snoc _ _ a); auto).
    assert (NF' : (forall e, ~ fatal_at (ds ++ d) x e) -> forall pre y post e, d ++ [x] = pre ++ y :: post -> ~ fatal_at (ds ++ pre) y e).
    { intros H pre y post e Q. apply split_snoc in Q. destruct Q as [(-> & -> & ->)|(post' & -> & ->)]; [apply H|exact (NF _ _ _ _ eq_refl)]. }
    destruct (step tab1 (ds ++ d) x cmd en I1 EF EO KE) as [(NR & HF & tab2 & EI & I2)|[(R & HF & EI & I2)|(e & FT & EI)]]; cbn [sd_seg sd_sub sd_tag sd_kind x] in EI; rewrite EI; cbn [bind fst snd].
    + left. exists tab2, a, b. split; [rewrite Z.add_0_r; reflexivity|]. split; [exact I2|]. split; [exact CC|].
      split; [intros m M; apply rf_no; [apply RF; exact M|exact NR]|exact (NF' HF)].
    + left. exists tab1, a, (b + 1). split; [rewrite Z.add_assoc; reflexivity|]. split; [exact I2|]. split; [exact CC|].
      split; [intros m M; rewrite Z.add_assoc; apply rf_yes; [apply RF; exact M|exact R]|exact (NF' HF)].
    + right. exists e, d, x, []. split; [reflexivity|]. split; [reflexivity|]. split; [|exact FT]. intros p y q e' ->. exact (NF _ _ _ _ eq_refl).
  - apply Forall_app in F. destruct F as [F1 F2]. apply Forall_inv in F2. rewrite build_app.
    destruct (IH F1 tab ds n0 I) as [(tab1 & a & b & E & I1 & CA & RF & NF)|(e & pre & x & post & E & -> & NF & FT)].
    2:{ right. exists e, pre, x, post. rewrite E. auto. }
    rewrite E. cbn [bind build_cards]. rewrite sub_snoc.
    destruct (build_card_cases upper seg c F2 (sub_after s0 cs) tab1 (n0 + a + b))
      as [(-> & NE & _)|[(-> & LE & _)|(tag' & kind' & tt' & cmd & en & D' & _)]]; [| |destruct (N _ _ _ D')]; cbn [bind]; left.
    + exists tab1, a, b. split; [reflexivity|]. split; [exact I1|]. split; [apply (count_snoc _ _ a); auto|auto].
    + exists tab1, (a + 1), b. split; [replace (n0 + (a + 1) + b) with (n0 + a + b + 1) by lia; reflexivity|]. split; [exact I1|].
      split; [apply (count_snoc _ _ a); auto|auto].
Qed.
Lemma inv_nil : inv [] [].
Proof.
  split.
  - exact deep_nil.
  - intros t s u. split; [intros (a & b & c & E & _); discriminate E|intros (x & [] & _)].
  - intros t. split; [intros []|intros (d & [] & _)].
  - intros t s u k e. split; [discriminate|]. intros (pre & d & post & E & _). destruct pre; discriminate E.
Qed.
Lemma count_of_app {A} (P : A -> Prop) a b m n : count_of P a m -> count_of P b n -> count_of P (a ++ b) (m + n).
Proof.
  intros H K. induction H as [|x l m X H IH|x l m X H IH]; cbn [app].
  - exact K.
  - replace (m + 1 + n) with (m + n + 1) by lia. apply cn_yes; assumption.
  - apply cn_no; assumption.
Qed.
Lemma sum_snoc ns n : fold_right Z.add 0 (ns ++ [n]) = fold_right Z.add 0 ns + n.
Proof. rewrite fold_right_app. cbn [fold_right]. rewrite Z.add_0_r. induction ns as [|x ns IH]; cbn [fold_right]; [lia|]. rewrite IH. lia. Qed.
Lemma harmless_app ds d : harmless ds -> (forall pre x post e, d = pre ++ x :: post -> ~ fatal_at (ds ++ pre) x e) -> harmless (ds ++ d).
Proof.
  intros H. induction d as [|y d IH] using rev_ind; intros NF pre x post e Q; [rewrite app_nil_r in Q; exact (H _ _ _ _ Q)|].
  rewrite app_assoc in Q. apply split_snoc in Q. destruct Q as [(-> & -> & ->)|(post' & -> & Q)]; [apply (NF d y []); reflexivity|].
  apply (IH ltac:(intros p z q e' ->; apply (NF p z (q ++ [y])); rewrite <- app_assoc; reflexivity) _ _ _ _ Q).
Qed.
Lemma run_files upper fuel fs files css ds : files_defs upper files css ds -> Forall2 (source_cards fuel fs) files css ->
  (exists tab ns n r, build_all upper fuel fs files = Ok (tab, ns) /\ inv tab ds /\ harmless ds /\
     count_of (label_error upper) (concat css) n /\ refusals ds r /\ fold_right Z.add 0 ns = n + r) \/
  (exists e, build_all upper fuel fs files = Err e /\ dies_of ds e).
Proof.
  induction 1 as [|files css ds f seg cs d FD IH S DD]; intros F.
  - left. exists [], [], 0, 0. split; [reflexivity|]. split; [exact inv_nil|]. split; [intros pre d post e E; destruct pre; discriminate E|].
    split; [constructor|]. split; [constructor|reflexivity].
  - apply Forall2_app_inv_l in F. destruct F as (css1 & css2 & F1 & F2 & E).
    inversion F2 as [|? cs2 ? ? SC F3 Q1 Q2]; subst. inversion F3; subst. apply snoc_inj in E. destruct E as [<- <-].
    unfold build_all. rewrite fold_r_app. fold (build_all upper fuel fs files).
    destruct (IH F1) as [(tab & ns & n & r & E & I & H & C & R & T)|(e & E & pre & x & post & -> & H & FT)].
    2:{ right. exists e. rewrite E. split; [reflexivity|]. exists pre, x, (post ++ d). split; [rewrite <- app_assoc; reflexivity|auto]. }
    rewrite E. cbn [bind fold_r fst snd]. rewrite (bst_eq _ _ _ _ _ _ _ S SC).
    destruct (run_cards upper seg (lit "1") cs d DD (source_proper _ _ _ _ SC) tab ds 0 I)
      as [(tab' & a & b & E' & I' & CA & RF & NF)|(e & pre & x & post & E' & -> & NF & FT)]; rewrite E'; cbn [bind fst snd].
    + left. exists tab', (ns ++ [0 + a + b]), (n + a), (r + b). split; [reflexivity|]. split; [exact I'|]. split.
      { exact (harmless_app _ _ H NF). }
      split; [rewrite concat_app; cbn [concat]; rewrite app_nil_r; apply count_of_app; assumption|].
      split; [apply RF; exact R|]. rewrite sum_snoc, T. lia.
    + right. exists e. split; [reflexivity|]. exists (ds ++ pre), x, post. split; [rewrite app_assoc; reflexivity|]. split; [|exact FT].
      exact (harmless_app _ _ H NF).
Qed.

Lemma dies_not_harmless ds e : dies_of ds e -> ~ harmless ds.
Proof. intros (pre & d & post & -> & _ & F) H. exact (H _ _ _ _ eq_refl F). Qed.
Lemma fatal_fun ds d e e' : fatal_at ds d e -> fatal_at ds d e' -> e = e'.
Proof. intros (_ & _ & H) (_ & _ & H'). cbv zeta in H, H'. destruct H as [[H ->]|[H ->]], H' as [[H' ->]|[H' ->]]; tauto. Qed.
Lemma two_splits {A} (l l' : list A) x x' r r' : l ++ x :: r = l' ++ x' :: r' ->
  (l = l' /\ x = x') \/ (exists m, l' = l ++ x :: m) \/ (exists m, l = l' ++ x' :: m).
Proof.
  revert l'. induction l as [|y l IH]; intros [|y' l'] E; cbn [app] in E; injection E as -> E.
  - auto.
  - right. left. exists l'. reflexivity.
  - right. right. exists l. reflexivity.
  - destruct (IH _ E) as [[-> ->]|[(m & ->)|(m & ->)]]; [auto|right; left; exists m; reflexivity|right; right; exists m; reflexivity].
Qed.
Lemma dies_fun ds e e' : dies_of ds e -> dies_of ds e' -> e = e'.
Proof.
  intros (pre & d & post & -> & H & F) (pre' & d' & post' & E & H' & F'). destruct (two_splits _ _ _ _ _ _ E) as [[-> ->]|[(m & ->)|(m & ->)]].
  - exact (fatal_fun _ _ _ _ F F').
  - destruct (H' _ _ _ _ eq_refl F).
  - destruct (H _ _ _ _ eq_refl F').
Qed.
Lemma harmless_dec_run upper fuel fs files css ds : files_defs upper files css ds -> Forall2 (source_cards fuel fs) files css ->
  harmless ds \/ exists e, dies_of ds e.
Proof. intros FD F. destruct (run_files upper fuel fs files css ds FD F) as [(tab & ns & n & r & _ & _ & H & _)|(e & _ & D)]; eauto. Qed.
(** *** what the tools do with files of any names *)
Lemma C194_list_pf : forall upper fuel fs files css ds, files <> [] -> Forall2 (source_cards fuel fs) files css -> files_defs upper files css ds ->
  (harmless ds -> exists out es n r,
     list_symbols upper fuel fs files = Ok (out, n + r) /\ count_of (label_error upper) (concat css) n /\ refusals ds r /\
     rendered (None, None, None) es out /\ StronglySorted (fun x y => key_lt (fst x) (fst y)) es /\
     forall t s u k e, In ((t, s, u, k), e) es <-> in_force ds t s u k e) /\
  (forall e, list_symbols upper fuel fs files = Err e <-> dies_of ds e).
Proof.
  intros upper fuel fs files css ds NE F FD.
  assert (LS : list_symbols upper fuel fs files = do t <- build_all upper fuel fs files; do out <- ls_table (fst t); Ok (out, fold_left Z.add (snd t) 0)).
  { unfold list_symbols. destruct files; [contradiction|reflexivity]. }
  rewrite LS. clear LS.
  destruct (run_files upper fuel fs files css ds FD F) as [(tab & ns & n & r & E & I & H & C & R & T)|(e & E & DO)]; rewrite E; cbn [bind fst snd].
  2:{ split; [intros H; destruct (dies_not_harmless _ _ DO H)|]. intros e'. split; [intros X; injection X as <-; exact DO|]. intros DO'. f_equal.
      exact (dies_fun _ _ _ DO DO'). }
  assert (HF : has_files (tents tab)).
  { intros [[[t s] u] k] e J. apply tents_In in J. apply (i_get _ _ I) in J. destruct J as (pre & d & post & -> & _ & _ & EF & _).
    destruct EF as (-> & _). destruct (files_defs_from _ _ _ _ FD d) as (cs & IC & ID); [apply in_or_app; right; left; reflexivity|].
    assert (TC : Forall tool_card (concat css)) by (apply (all_tool fuel fs files); exists css; auto).
    rewrite Forall_forall in TC. apply TC. apply in_concat. exists cs. auto. }
  destruct (ls_tab tab (i_deep _ _ I) HF) as (out & EO & RO). rewrite EO. cbn [bind]. split.
  - intros _. exists out, (tents tab), n, r. rewrite fold_add, Z.add_0_l, T. split; [reflexivity|]. split; [exact C|]. split; [exact R|]. split; [exact RO|].
    split; [apply tents_sorted; exact (i_deep _ _ I)|]. intros t s u k e. rewrite tents_In. apply (i_get _ _ I).
  - intros e. split; [discriminate|]. intros DO. destruct (dies_not_harmless _ _ DO H).
Qed.
(*@ Example C194_list_ex :
  let fs := fun f => if eqb f (lit "simple.a") then Some (lit "        A          DEC          1" ++ [10] ++ lit "        A          DEC          2" ++ [10] ++
                                                     lit "        A          ASSIGN       1" ++ [10]) else None in
  list_symbols (fun s => s) 2 fs [lit "simple.a"] =
  Ok ([lit "A"; lit "  Segment: simple"; lit "    Subsegment: 1";
       lit "        <complex>   simple:3                                            A          ASSIGN       1";
       lit "        <simple>    simple:1                                            A          DEC          1"], 1).
Proof. vm_compute. reflexivity. Qed. @*)
Lemma C194_check_pf : forall upper fuel fs complexOnly files css ds, files <> [] -> Forall2 (source_cards fuel fs) files css -> files_defs upper files css ds ->
  (harmless ds -> exists ns syms n r,
     check_symbols upper fuel fs complexOnly files = Ok (ns, syms, n + r + zlen syms) /\
     count_of (label_error upper) (concat css) n /\ refusals ds r /\ fold_right Z.add 0 ns = n + r /\
     StronglySorted str_lt syms /\
     forall s, In s syms <-> complexOnly = true /\ (exists seg ss e, in_force ds s seg ss (lit "complex") e) /\
       ~ (exists seg ss e, in_force ds s seg ss (lit "simple") e)) /\
  (forall e, check_symbols upper fuel fs complexOnly files = Err e <-> dies_of ds e).
Proof.
  intros upper fuel fs co files css ds NE F FD.
  assert (LS : check_symbols upper fuel fs co files = do t <- build_all upper fuel fs files;
    Ok (snd t, check_symtab (fst t) co, fold_left Z.add (snd t) 0 + zlen (check_symtab (fst t) co))).
  { unfold check_symbols. destruct files; [contradiction|reflexivity]. }
  rewrite LS. clear LS.
  destruct (run_files upper fuel fs files css ds FD F) as [(tab & ns & n & r & E & I & H & C & R & T)|(e & E & DO)]; rewrite E; cbn [bind fst snd].
  2:{ split; [intros H; destruct (dies_not_harmless _ _ DO H)|]. intros e'. split; [intros X; injection X as <-; exact DO|]. intros DO'. f_equal.
      exact (dies_fun _ _ _ DO DO'). }
  destruct (C81_complex_only_pf tab co (proj1 (i_deep _ _ I))) as [S M]. split.
  - intros _. exists ns, (check_symtab tab co), n, r. rewrite fold_add, Z.add_0_l, T. split; [reflexivity|]. split; [exact C|]. split; [exact R|]. split; [reflexivity|].
    split; [exact S|]. intros s. rewrite M. unfold has_kind.
    assert (X : forall k, (exists seg ss e, get4 tab s seg ss k = Some e) <-> (exists seg ss e, in_force ds s seg ss k e)).
    { intros k. split; intros (seg & ss & e & Y); exists seg, ss, e; apply (i_get _ _ I); exact Y. }
    rewrite !X. tauto.
  - intros e. split; [discriminate|]. intros DO. destruct (dies_not_harmless _ _ DO H).
Qed.
(*@ Example C194_check_ex :
  let fs := fun f => if eqb f (lit "simple.a") then Some (lit "        A          DEC          1" ++ [10] ++ lit "        A          EQUALS       1" ++ [10])
                     else if eqb f (lit "complex.a") then Some (lit "        B          ASSIGN       1" ++ [10] ++ lit "        B          ASSIGN       2" ++ [10]) else None in
  check_symbols (fun s => s) 2 fs true [lit "simple.a"] = Err KeyError /\
  check_symbols (fun s => s) 2 fs true [lit "complex.a"] = Ok ([1], [lit "B"], 2).
Proof. vm_compute. auto. Qed. @*)
Lemma C194_find_pf : forall extract upper fuel fs begin end_ exact symbol files css ds,
  files <> [] -> Forall2 (source_cards fuel fs) files css -> files_defs upper files css ds ->
  begin && end_ = false -> exact && (begin || end_) = false ->
  let found := find_symbols extract upper fuel fs begin end_ false exact (symbol :: files) in
  let defined s := exists d, In d ds /\ sd_tag d = s in
  (harmless ds -> exists r, found = Ok r /\
     (begin || end_ = false -> match r with
        | FDefs sg => defined symbol /\ forall seg ss k e, get3 sg seg ss k = Some e <-> in_force ds symbol seg ss k e
        | FNone => ~ defined symbol
        | FList _ => False
        end) /\
     (begin || end_ = true -> exists l, r = FList l /\ StronglySorted str_lt l /\
        forall s, In s l <-> defined s /\
          ((begin = true /\ exists r, s = symbol ++ r) \/ (end_ = true /\ exists r, s = r ++ symbol)))) /\
  (forall e, found = Err e <-> dies_of ds e).
Proof.
  intros extract upper fuel fs begin end_ exact symbol files css ds NE F FD B X. cbv zeta.
  assert (CO : (begin && exact) || (end_ && exact) || (begin && end_) = false).
  { destruct begin, end_, exact; try reflexivity; discriminate. }
  assert (LS : find_symbols extract upper fuel fs begin end_ false exact (symbol :: files) = do t <- build_all upper fuel fs files;
    Ok (find_symbol extract (fst t) symbol None begin end_ false)).
  { unfold find_symbols. cbn [andb]. rewrite orb_false_r, CO. destruct files; [contradiction|reflexivity]. }
  rewrite LS. clear LS.
  destruct (run_files upper fuel fs files css ds FD F) as [(tab & ns & n & r & E & I & H & C & R & T)|(e & E & DO)]; rewrite E; cbn [bind fst snd].
  2:{ split; [intros H; destruct (dies_not_harmless _ _ DO H)|]. intros e'. split; [intros Y; injection Y as <-; exact DO|]. intros DO'. f_equal.
      exact (dies_fun _ _ _ DO DO'). }
  split.
  - intros _. eexists. split; [reflexivity|]. split.
    + intros BE. apply orb_false_iff in BE. destruct BE as [-> ->].
      pose proof (C83_exact_pf extract tab symbol None) as P.
      destruct (find_symbol extract tab symbol None false false false) as [|sg|l]; [|destruct P as [P _]|exact P].
      * rewrite <- (i_keys _ _ I). intros J. apply dget_In in J. unfold dmem in J.
        destruct P as [P|(k & P & _)]; [rewrite P in J; discriminate|discriminate].
      * split.
        -- apply (i_keys _ _ I). apply dget_In. unfold dmem. rewrite P. reflexivity.
        -- intros seg ss k e. rewrite <- (i_get _ _ I). unfold get4. rewrite P. reflexivity.
    + intros BE. destruct (C83_begin_end_pf extract tab symbol None begin end_ false (proj1 (i_deep _ _ I)) BE) as (l & EL & _ & SL & IL).
      exists l. split; [exact EL|]. split; [exact (SL B)|]. intros s. rewrite IL, (i_keys _ _ I). tauto.
  - intros e. split; [discriminate|]. intros DO. destruct (dies_not_harmless _ _ DO H).
Qed.
(*@ Example C194_find_ex :
  let fs := fun f => if eqb f (lit "simple.a") then Some (lit "        A1         DEC          1" ++ [10] ++ lit "        A1         DEC          2" ++ [10]) else None in
  match find_symbols (fun _ _ _ => []) (fun s => s) 2 fs false false false false [lit "A1"; lit "simple.a"] with
  | Ok (FDefs sg) => option_map e_line (get3 sg (lit "simple") (lit "1") (lit "simple")) = Some 1
  | _ => False
  end /\
  find_symbols (fun _ _ _ => []) (fun s => s) 2 fs true false false false [lit "A"; lit "simple.a"] = Ok (FList [lit "A1"]).
Proof. vm_compute. auto. Qed. @*)
(** without such names nothing is refused *)
Lemma deck_defs_seg upper seg s0 cs ds : deck_defs upper seg s0 cs ds -> forall d, In d ds -> sd_seg d = seg /\ is_kind (sd_kind d).
Proof.
  induction 1 as [|cs ds c tag kind tt ss D IH DF CU|cs ds c D IH N]; intros d I; [destruct I| |exact (IH _ I)].
  apply in_app_or in I. destruct I as [I|[<-|[]]]; [exact (IH _ I)|]. split; [reflexivity|]. cbn [sd_kind].
  destruct DF as (_ & s & op & _ & _ & _ & [[_ ->]|[_ ->]]); [right|left]; reflexivity.
Qed.
Lemma files_defs_seg upper files css ds : files_defs upper files css ds -> forall d, In d ds -> is_kind (sd_kind d) /\ exists f, In f files /\ segment_of f (sd_seg d).
Proof.
  induction 1 as [|files css ds f seg cs d F IH S D]; intros x I; [destruct I|]. apply in_app_or in I. destruct I as [I|I].
  - destruct (IH _ I) as (A & g & B & C). split; [exact A|]. exists g. split; [apply in_or_app; left; exact B|exact C].
  - destruct (deck_defs_seg _ _ _ _ _ D _ I) as [-> A]. split; [exact A|]. exists f. split; [apply in_or_app; right; left; reflexivity|exact S].
Qed.
Lemma C194_plain_pf : forall upper files css ds, files_defs upper files css ds -> plain_names files ->
  (forall pre d post, ds = pre ++ d :: post -> ~ refused pre d) /\ harmless ds.
Proof.
  intros upper files css ds FD PN. assert (N : forall pre d post, ds = pre ++ d :: post -> ~ refused pre d).
  { intros pre d post -> [_ (x & I & _ & E)].
    destruct (files_defs_seg _ _ _ _ FD d) as [K _]; [apply in_or_app; right; left; reflexivity|].
    destruct (files_defs_seg _ _ _ _ FD x) as (_ & f & J & S); [apply in_or_app; left; exact I|].
    apply (PN _ _ J S). rewrite E. exact K. }
  split; [exact N|]. intros pre d post e E (R & _). exact (N _ _ _ E R).
Qed.
(*@ Example C194_plain_ex :
  let d line := mksdef (lit "A") (lit "p") (lit "1") (lit "simple") (lit " ") (mkcard line [] None 1 false None) in
  ~ refused [d (lit "x")] (d (lit "y")).
Proof. intros d [_ (x & [<-|[]] & _ & E)]. discriminate E. Qed. @*)
