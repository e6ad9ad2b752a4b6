(** When building a symbol table fails, and what it counts: C78, C84. *)
From Verif Require Import Py LPy MCards SCards LCards LDeck MSymbols SSymbols LSymBuild MInstructions MTools STools LTools SClash.
#[local] Arguments Z.add : simpl never.
#[local] Arguments Z.sub : simpl never.

(** what a table holds, entries aside *)
Definition held (tab : symtab) (tag seg ss : str) : Prop :=
  exists sg s1 ks, dget tab tag = Some sg /\ dget sg seg = Some s1 /\ dget s1 ss = Some ks.
Definition no_empty (tab : symtab) : Prop := forall tag sg seg s1, dget tab tag = Some sg -> dget sg seg = Some s1 -> exists ss ks, dget s1 ss = Some ks.
Definition tracks (tab : symtab) (B : str -> str -> str -> Prop) : Prop :=
  no_empty tab /\ forall tag seg ss, held tab tag seg ss <-> B tag seg ss.
Lemma held_seg tab tag sg seg : no_empty tab -> dget tab tag = Some sg -> (dget sg seg <> None <-> exists ss, held tab tag seg ss).
Proof.
  intros N E. split.
  - intros H. destruct (dget sg seg) as [s1|] eqn:F; [|contradiction]. destruct (N _ _ _ _ E F) as (ss & ks & K). exists ss, sg, s1, ks. auto.
  - intros (ss & sg' & s1 & ks & E' & F & _). congruence.
Qed.
(** one definition put in *)
Lemma set_held tab tag seg ss ks : no_empty tab ->
  let sg := match dget tab tag with Some sg => sg | None => [] end in
  let s1 := match dget sg seg with Some s1 => s1 | None => [] end in
  let tab' := dset tab tag (dset sg seg (dset s1 ss ks)) in
  no_empty tab' /\ forall t s u, held tab' t s u <-> (t = tag /\ s = seg /\ u = ss) \/ held tab t s u.
Proof.
  intros N sg s1 tab'. split.
  - intros t sg' s s1' E F. unfold tab' in E. destruct (eq_dec_b t tag) as [->|NT].
    + rewrite dget_dset_eq in E. injection E as <-. destruct (eq_dec_b s seg) as [->|NS].
      * rewrite dget_dset_eq in F. injection F as <-. exists ss, ks. apply dget_dset_eq.
      * rewrite dget_dset_ne in F by exact NS. unfold sg in F. destruct (dget tab tag) as [sg0|] eqn:E; [exact (N _ _ _ _ E F)|discriminate].
    + rewrite dget_dset_ne in E by exact NT. exact (N _ _ _ _ E F).
  - intros t s u. unfold held, tab'. destruct (eq_dec_b t tag) as [->|NT].
    2:{ rewrite dget_dset_ne by exact NT. split; [right; assumption|intros [(H & _)|H]; [contradiction|exact H]]. }
    rewrite dget_dset_eq. destruct (eq_dec_b s seg) as [->|NS].
    + destruct (eq_dec_b u ss) as [->|NU].
      * split; [left; auto|]. intros _. do 3 eexists. split; [reflexivity|]. split; [apply dget_dset_eq|]. apply dget_dset_eq.
      * split.
        -- intros (a & b & k & EA & EB & EK). injection EA as <-. rewrite dget_dset_eq in EB. injection EB as <-. rewrite dget_dset_ne in EK by exact NU.
           right. unfold s1, sg in EK. destruct (dget tab tag) as [sg0|]; [|discriminate]. destruct (dget sg0 seg) as [x|] eqn:X; [|discriminate]. eauto 7.
        -- intros [(_ & _ & H)|(a & b & k & EA & EB & EK)]; [contradiction|]. do 3 eexists. split; [reflexivity|]. split; [apply dget_dset_eq|].
           rewrite dget_dset_ne by exact NU. unfold s1, sg. rewrite EA, EB. exact EK.
    + split.
      * intros (a & b & k & EA & EB & EK). injection EA as <-. rewrite dget_dset_ne in EB by exact NS. right. unfold sg in EB. destruct (dget tab tag) as [sg0|]; [|discriminate]. eauto 7.
      * intros [(_ & H & _)|(a & b & k & EA & EB & EK)]; [contradiction|]. do 3 eexists. split; [reflexivity|]. rewrite dget_dset_ne by exact NS. unfold sg. rewrite EA. eauto.
Qed.
(** the three outcomes of one definition *)
Lemma insert_outcome tab seg ss tag kind cmd e : no_empty tab ->
  (~ (held tab tag seg ss /\ exists u, held tab tag kind u) /\ exists tab', insert_def tab seg ss tag kind cmd e = Ok (tab', 0) /\
     no_empty tab' /\ forall t s u, held tab' t s u <-> (t = tag /\ s = seg /\ u = ss) \/ held tab t s u) \/
  ((held tab tag seg ss /\ exists u, held tab tag kind u) /\ cmd <> lit "EQUALS" /\ insert_def tab seg ss tag kind cmd e = Ok (tab, 1)) \/
  ((held tab tag seg ss /\ exists u, held tab tag kind u) /\ cmd = lit "EQUALS" /\
     ((held tab tag kind (lit "card") /\ insert_def tab seg ss tag kind cmd e = Err AttributeError) \/
      (~ held tab tag kind (lit "card") /\ insert_def tab seg ss tag kind cmd e = Err KeyError))).
Proof.
  intros N. unfold insert_def. destruct (dget tab tag) as [sg|] eqn:E1.
  2:{ left. split; [intros [(a & b & k & EA & _) _]; congruence|]. eexists. split; [reflexivity|].
      pose proof (set_held tab tag seg ss [(kind, e)] N) as S. cbv zeta in S. rewrite E1 in S. exact S. }
  destruct (dget sg seg) as [s1|] eqn:E2.
  2:{ left. split; [intros [(a & b & k & EA & EB & _) _]; congruence|]. eexists. split; [reflexivity|].
      pose proof (set_held tab tag seg ss [(kind, e)] N) as S. cbv zeta in S. rewrite E1, E2 in S. exact S. }
  destruct (dget s1 ss) as [ks|] eqn:E3.
  2:{ left. split; [intros [(a & b & k & EA & EB & EK) _]; congruence|]. eexists. split; [reflexivity|].
      pose proof (set_held tab tag seg ss [(kind, e)] N) as S. cbv zeta in S. rewrite E1, E2 in S. exact S. }
  assert (H1 : held tab tag seg ss) by (exists sg, s1, ks; auto).
  destruct (dget sg kind) as [prev|] eqn:E4.
  2:{ left. split; [intros [_ (u & H)]; apply (proj2 (held_seg tab tag sg kind N E1)); [eauto|exact E4]|]. eexists. split; [reflexivity|].
      pose proof (set_held tab tag seg ss (dset ks kind e) N) as S. cbv zeta in S. rewrite E1, E2 in S. exact S. }
  assert (H2 : exists u, held tab tag kind u) by (apply (held_seg tab tag sg kind N E1); congruence).
  right. destruct (eqb cmd (lit "EQUALS")) eqn:EC.
  - apply eqb_ok in EC. right. split; [auto|]. split; [exact EC|]. destruct (dget prev (lit "card")) as [k|] eqn:E5; [left|right]; (split; [|reflexivity]).
    + exists sg, prev, k. auto.
    + intros (a & b & k' & EA & EB & EK). congruence.
  - left. split; [auto|]. split; [intros ->; rewrite eqb_refl in EC; discriminate|reflexivity].
Qed.

Lemma placed_snoc upper s0 cs c t u : placed upper s0 (cs ++ [c]) t u <->
  placed upper s0 cs t u \/ exists kind tt, defines upper c t kind tt /\ current_subseg s0 (cs ++ [c]) u.
Proof.
  split.
  - intros (pre & x & post & kind & tt & E & D & S). apply split_snoc in E. destruct E as [(-> & -> & ->)|(post' & -> & ->)].
    + right. eauto.
    + left. exists pre, x, post', kind, tt. auto.
  - intros [(pre & x & post & kind & tt & -> & D & S)|(kind & tt & D & S)].
    + exists pre, x, (post ++ [c]), kind, tt. split; [rewrite <- app_assoc; reflexivity|auto].
    + exists cs, c, [], kind, tt. auto.
Qed.
Lemma placed_nil upper s0 t u : ~ placed upper s0 [] t u.
Proof. intros (pre & x & post & kind & tt & E & _). destruct pre; discriminate. Qed.

Section Run.
Variables (upper : str -> str) (B : str -> str -> str -> Prop) (seg s0 : str).
Notation clash := (clash upper B seg s0).
Definition first_clash (cs : list card) (e : exn) : Prop :=
  exists pre c post, cs = pre ++ c :: post /\ clash pre c e /\ forall pre' c' post' e', pre = pre' ++ c' :: post' -> ~ clash pre' c' e'.
Lemma run_tracks tab n0 : tracks tab B -> forall cs, Forall proper_card cs ->
  (exists tab' a b, build_cards upper seg (s0, tab, n0) cs = Ok (sub_after s0 cs, tab', n0 + a + b) /\
     tracks tab' (known upper B seg s0 cs) /\ count_of (label_error upper) cs a /\ count_along (doubled upper B seg s0) cs b /\
     forall pre c post e, cs = pre ++ c :: post -> ~ clash pre c e) \/
  (exists e, build_cards upper seg (s0, tab, n0) cs = Err e /\ first_clash cs e).
Proof.
  intros [N T]. induction cs as [|c cs IH] using rev_ind; intros F.
  { left. exists tab, 0, 0. split; [rewrite !Z.add_0_r; reflexivity|]. split; [split; [exact N|]|].
    - intros t s u. rewrite T. unfold known. pose proof (placed_nil upper s0 t u). tauto.
    - split; [constructor|]. split; [constructor|]. intros pre c post e E. destruct pre; discriminate. }
  apply Forall_app in F. destruct F as [F1 F2]. apply Forall_inv in F2. rewrite build_app.
  destruct (IH F1) as [(tab1 & a & b & E & [N1 T1] & CA & CB & NC)|(e & E & pre & x & post & -> & C & M)].
  2:{ right. exists e. rewrite E. split; [reflexivity|]. exists pre, x, (post ++ [c]). split; [rewrite <- app_assoc; reflexivity|auto]. }
  rewrite E. cbn [bind build_cards]. rewrite sub_snoc.
  assert (CS : forall u, current_subseg s0 (cs ++ [c]) u <-> u = sub_step (sub_after s0 cs) c) by (intros u; rewrite current_ok, sub_snoc; tauto).
  assert (ND : (forall tag kind tt, ~ defines upper c tag kind tt) -> tracks tab1 (known upper B seg s0 (cs ++ [c])) /\
     ~ doubled upper B seg s0 cs c /\ forall e, ~ clash cs c e).
  { intros H. split; [split; [exact N1|]|split].
    - intros t s u. rewrite T1. unfold known. rewrite placed_snoc. split; [tauto|]. intros [X|(X & [Y|(k & tt & D & _)])]; auto. destruct (H _ _ _ D).
    - intros (_ & tag & kind & tt & u & u' & D & _). destruct (H _ _ _ D).
    - intros e (_ & tag & (tt & u & u' & D & _) & _). destruct (H _ _ _ D). }
  assert (NC' : (forall e, ~ clash cs c e) -> forall pre x post e, cs ++ [c] = pre ++ x :: post -> ~ clash pre x e).
  { intros H pre x post e X. apply split_snoc in X. destruct X as [(-> & -> & ->)|(post' & -> & ->)]; [apply H|]. exact (NC _ _ _ _ eq_refl). }
  destruct (build_card_cases upper seg c F2 (sub_after s0 cs) tab1 (n0 + a + b))
    as [(-> & NE & D)|[(-> & LE & D)|(tag & kind & tt & cmd & en & D & NE & EF & IK & KC & EO & ->)]].
  - destruct (ND D) as (D1 & D2 & D3). left. exists tab1, a, b. split; [reflexivity|]. split; [exact D1|].
    split; [apply (count_snoc _ _ a); auto|]. split; [apply ca_no; assumption|]. apply NC'. exact D3.
  - destruct (ND D) as (D1 & D2 & D3). left. exists tab1, (a + 1), b. split; [replace (n0 + (a + 1) + b) with (n0 + a + b + 1) by lia; reflexivity|]. split; [exact D1|].
    split; [apply (count_snoc _ _ a); auto|]. split; [apply ca_no; assumption|]. apply NC'. exact D3.
  - set (ss := sub_step (sub_after s0 cs) c) in *.
    assert (AG : forall tag' kind', again upper B seg s0 cs c tag' kind' <-> tag' = tag /\ kind' = kind /\ held tab1 tag seg ss /\ exists u, held tab1 tag kind u).
    { intros tag' kind'. split.
      - intros (tt' & u & u' & D' & S & K1 & K2). destruct (defines_fun _ _ _ _ _ _ _ _ D D') as (<- & <- & _). apply CS in S. subst u.
        split; [reflexivity|]. split; [reflexivity|]. split; [apply T1; exact K1|exists u'; apply T1; exact K2].
      - intros (-> & -> & K1 & u & K2). exists tt, ss, u. split; [exact D|]. split; [apply CS; reflexivity|]. split; apply T1; assumption. }
    destruct (insert_outcome tab1 seg ss tag kind cmd en N1) as [(NA & tab2 & EI & N2 & H2)|[(HA & NQ & EI)|(HA & -> & EI)]].
    + left. rewrite EI. cbn [bind fst snd]. exists tab2, a, b. split; [rewrite Z.add_0_r; reflexivity|].
      split; [split; [exact N2|]|].
      { intros t s u. rewrite H2, T1. unfold known. rewrite placed_snoc. split.
        - intros [(-> & -> & ->)|[X|(-> & X)]]; [right; split; [reflexivity|right; exists kind, tt; split; [exact D|apply CS; reflexivity]]|auto|auto].
        - intros [X|(-> & [X|(k & tt' & D' & S)])]; [auto|auto|]. left. destruct (defines_fun _ _ _ _ _ _ _ _ D D') as (<- & _). apply CS in S. auto. }
      split; [apply (count_snoc _ _ a); auto|]. split.
      * apply ca_no; [exact CB|]. intros (_ & t & k & A). apply AG in A. apply NA. tauto.
      * apply NC'. intros e (_ & t & A & _). apply AG in A. apply NA. tauto.
    + left. rewrite EI. cbn [bind fst snd]. exists tab1, a, (b + 1). split; [replace (n0 + a + (b + 1)) with (n0 + a + b + 1) by lia; reflexivity|].
      split; [split; [exact N1|]|].
      { intros t s u. rewrite T1. unfold known. rewrite placed_snoc. split; [tauto|]. intros [X|(-> & [X|(k & tt' & D' & S)])]; [auto|auto|].
        destruct (defines_fun _ _ _ _ _ _ _ _ D D') as (<- & _). apply CS in S. subst u. apply T1. exact (proj1 HA). }
      split; [apply (count_snoc _ _ a); auto|]. split.
      * apply ca_yes; [exact CB|]. split; [congruence|]. exists tag, kind. apply AG. tauto.
      * apply NC'. intros e (O & _). congruence.
    + right. assert (kind = lit "simple").
      { destruct IK as [IK|IK]; [exact IK|]. apply KC in IK. discriminate IK. }
      subst kind. assert (A : again upper B seg s0 cs c tag (lit "simple")) by (apply AG; tauto).
      destruct EI as [[HC EI]|[HC EI]]; rewrite EI; cbn [bind]; eexists; (split; [reflexivity|]); exists cs, c, []; (split; [reflexivity|]); (split; [|intros; apply (NC _ _ _ _ H)]);
        (split; [exact EO|]); exists tag; (split; [exact A|]); [left|right]; (split; [|reflexivity]); rewrite <- T1; exact HC.
Qed.
Lemma clash_fun pre c e e' : clash pre c e -> clash pre c e' -> e = e'.
Proof.
  intros (_ & t & (tt & u & v & D & _) & H) (_ & t' & (tt' & u' & v' & D' & _) & H'). destruct (defines_fun _ _ _ _ _ _ _ _ D D') as (<- & _).
  destruct H as [[H ->]|[H ->]], H' as [[H' ->]|[H' ->]]; tauto.
Qed.
Lemma run_fails tab n0 cs : tracks tab B -> Forall proper_card cs ->
  forall e, build_cards upper seg (s0, tab, n0) cs = Err e <-> first_clash cs e.
Proof.
  intros T F e. split.
  - intros E. destruct (run_tracks tab n0 T cs F) as [(tab' & a & b & E' & _)|(e' & E' & C)]; [congruence|]. rewrite E in E'. injection E' as <-. exact C.
  - intros (pre & c & post & -> & C & M). destruct (run_tracks tab n0 T (pre ++ c :: post) F) as [(tab' & a & b & _ & _ & _ & _ & NC)|(e' & E' & pre' & c' & post' & Q & C' & M')].
    + destruct (NC _ _ _ _ eq_refl C).
    + rewrite E'. f_equal. assert (X : pre' = pre /\ c' = c).
      { clear - C C' M M' Q. revert pre' M' Q C'.
        enough (H : forall (l l' : list card) (x x' : card) (r r' : list card), l ++ x :: r = l' ++ x' :: r' -> (l = l' /\ x = x') \/ (exists m, l' = l ++ x :: m) \/ (exists m, l = l' ++ x' :: m)).
        { intros pre' M' Q C'. destruct (H _ _ _ _ _ _ Q) as [[-> ->]|[(m & ->)|(m & ->)]]; [auto|destruct (M' _ _ _ e eq_refl C)|destruct (M _ _ _ e' eq_refl C')]. }
        clear. induction l as [|y l IH]; intros [|y' l'] x x' r r' E; cbn [app] in E; injection E as -> E.
        - auto.
        - right. left. exists l'. reflexivity.
        - right. right. exists l. reflexivity.
        - destruct (IH _ _ _ _ _ E) as [[-> ->]|[(m & ->)|(m & ->)]]; [auto|right; left; exists m; reflexivity|right; right; exists m; reflexivity]. }
      destruct X as [-> ->]. exact (clash_fun _ _ _ _ C' C).
Qed.
End Run.

(** the files before *)
Lemma tracks_files upper fuel fs : forall files css tab errs B,
  Forall2 (source_cards fuel fs) files css -> tracks tab B -> forall tab' n, 
  fold_r (fun s g => build_symbol_table upper fuel fs g (fst s)) files (tab, errs) = Ok (tab', n) ->
  tracks tab' (fun t s u => B t s u \/ earlier upper files css t s u).
Proof.
  intros files. induction files as [|f files IH]; intros css tab errs B F T tab' n H.
  - inversion F; subst. cbn [fold_r] in H. injection H as <- <-. destruct T as [N T]. split; [exact N|]. intros t s u. rewrite T. split; [auto|]. intros [X|(g & cs & [] & _)]. exact X.
  - inversion F as [|? cs ? css' SC F' Q1 Q2]; subst. cbn [fold_r fst] in H.
    destruct (build_symbol_table upper fuel fs f tab) as [[tab1 n1]|] eqn:E1; cbn [bind] in H; [|discriminate].
    assert (SX : exists seg, segment_of f seg) by (eexists; apply seg_ok; reflexivity). destruct SX as (seg & S).
    rewrite (bst_eq _ _ _ _ _ _ _ S SC) in E1.
    destruct (run_tracks upper B seg (lit "1") tab 0 T cs (source_proper _ _ _ _ SC)) as [(tab2 & a & b & E2 & T2 & _)|(e & E2 & _)]; rewrite E2 in E1; cbn [bind fst snd] in E1; [|discriminate].
    injection E1 as <- _. destruct (IH _ _ _ _ F' T2 _ _ H) as [N' T']. split; [exact N'|]. intros t s u. rewrite T'. unfold known, earlier. cbn [combine]. split.
    + intros [[X|(-> & X)]|(g & cs' & I & X)]; [auto|right; exists f, cs; split; [left; reflexivity|auto]|right; exists g, cs'; split; [right; exact I|exact X]].
    + intros [X|(g & cs' & [I|I] & SG & X)]; [auto| |right; eauto]. injection I as <- <-. left. right. apply seg_ok in S, SG. split; [congruence|exact X].
Qed.
Lemma tracks_start upper fuel fs files css tab errs : Forall2 (source_cards fuel fs) files css ->
  fold_r (fun s g => build_symbol_table upper fuel fs g (fst s)) files ([], 0) = Ok (tab, errs) -> tracks tab (earlier upper files css).
Proof.
  intros F H. assert (T : tracks [] (fun _ _ _ => False)).
  { split; [intros t sg s s1 E; discriminate E|]. intros t s u. split; [intros (a & b & c & E & _); discriminate E|intros []]. }
  destruct (tracks_files upper fuel fs files css [] 0 _ F T tab errs H) as [N X]. split; [exact N|]. intros t s u. rewrite X. tauto.
Qed.
Definition simple_file (subsegment : str) : str -> fsys := fun name f =>
  if eqb f name then Some (lit "                   SETLOC," ++ subsegment ++ [10] ++ lit "        A          DEC          1" ++ [10] ++ lit "        A          EQUALS       1" ++ [10]) else None.
Lemma C84_exact_pf : forall upper fuel fs files css tab errs f seg cs e, Forall2 (source_cards fuel fs) files css ->
  fold_r (fun s g => build_symbol_table upper fuel fs g (fst s)) files ([], 0) = Ok (tab, errs) ->
  segment_of f seg -> source_cards fuel fs f cs ->
  (build_symbol_table upper fuel fs f tab = Err e <->
   exists pre c post, cs = pre ++ c :: post /\ clash upper (earlier upper files css) seg (lit "1") pre c e /\
     forall pre' c' post' e', pre = pre' ++ c' :: post' -> ~ clash upper (earlier upper files css) seg (lit "1") pre' c' e').
Proof.
  intros upper fuel fs files css tab errs f seg cs e F H S SC. pose proof (tracks_start _ _ _ _ _ _ _ F H) as T.
  rewrite (bst_eq _ _ _ _ _ _ _ S SC). pose proof (run_fails upper _ seg (lit "1") tab 0 cs T (source_proper _ _ _ _ SC) e) as R. unfold first_clash in R. rewrite <- R.
  destruct (build_cards upper seg (lit "1", tab, 0) cs) as [[[u t] n]|x]; cbn [bind]; split; intros X; try discriminate X; injection X as ->; reflexivity.
Qed.
(*@ Example C84_exact_ex :
  build_symbol_table (fun s => s) 2 (simple_file (lit "2") (lit "simple.x")) (lit "simple.x") [] = Err KeyError /\
  build_symbol_table (fun s => s) 2 (simple_file (lit "card") (lit "simple.x")) (lit "simple.x") [] = Err AttributeError /\
  match build_symbol_table (fun s => s) 2 (simple_file (lit "2") (lit "complex.x")) (lit "complex.x") [] with Ok (_, n) => n = 0 | Err _ => False end.
Proof. vm_compute. auto. Qed. @*)
Lemma C78_exact_pf : forall upper fuel fs files css tab errs f seg cs tab' n, Forall2 (source_cards fuel fs) files css ->
  fold_r (fun s g => build_symbol_table upper fuel fs g (fst s)) files ([], 0) = Ok (tab, errs) ->
  segment_of f seg -> source_cards fuel fs f cs -> build_symbol_table upper fuel fs f tab = Ok (tab', n) ->
  exists a b, n = a + b /\ count_of (label_error upper) cs a /\ count_along (doubled upper (earlier upper files css) seg (lit "1")) cs b.
Proof.
  intros upper fuel fs files css tab errs f seg cs tab' n F H S SC E. pose proof (tracks_start _ _ _ _ _ _ _ F H) as T.
  rewrite (bst_eq _ _ _ _ _ _ _ S SC) in E.
  destruct (run_tracks upper _ seg (lit "1") tab 0 T cs (source_proper _ _ _ _ SC)) as [(tab2 & a & b & E2 & _ & CA & CB & _)|(e & E2 & _)]; rewrite E2 in E; cbn [bind fst snd] in E; [|discriminate].
  injection E as _ <-. exists a, b. split; [lia|auto].
Qed.
(*@ Example C78_exact_ex :
  let fs name := fun f => if eqb f name then Some (lit "        A          DEC          1" ++ [10] ++ lit "        A          DEC          2" ++ [10] ++ lit "        A          ASSIGN       1" ++ [10]) else None in
  match build_symbol_table (fun s => s) 2 (fs (lit "simple.x")) (lit "simple.x") [] with Ok (_, n) => n = 1 | Err _ => False end /\
  match build_symbol_table (fun s => s) 2 (fs (lit "complex.x")) (lit "complex.x") [] with Ok (_, n) => n = 1 | Err _ => False end /\
  match build_symbol_table (fun s => s) 2 (fs (lit "plain.x")) (lit "plain.x") [] with Ok (_, n) => n = 0 | Err _ => False end.
Proof. vm_compute. auto. Qed. @*)
