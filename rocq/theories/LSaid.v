(** What the tools print for files of any names: C195, C113. *)
From Verif Require Import Py LPy MInstructions MCards SCards LCards LDeck MSymbols SSymbols LSymBuild LSymQuery MTools STools LTools LToolSym SClash LClash LQuiet SForce LForce MDiag SDiag LDiag MDump SDump LDump MVerbose SVerbose LVerbose STranscript LTranscript LTextSym SFound LFound SSaid.
#[local] Arguments Z.add : simpl never.
#[local] Arguments Z.sub : simpl never.
#[local] Arguments Z.mul : simpl never.

(** *** one card *)
Lemma lines_cases upper rep crep seg c : proper_card c -> forall s tab n,
  (card_lines upper rep crep seg (s, tab, n) c = [] /\ (starred c \/ forall m ty, ~ described upper c m ty) /\
   ~ label_error upper c /\ (forall tag kind tt, ~ defines upper c tag kind tt)) \/
  (label_error upper c /\ ~ starred c /\ exists m ty t, described upper c m ty /\ definition_text rep crep c ty t /\
     card_lines upper rep crep seg (s, tab, n) c = [m; lit "Current definition: " ++ t]) \/
  (exists tag kind tt cmd e t, defines upper c tag kind tt /\ ~ label_error upper c /\ entry_from c tt e /\ card_get c "operation" = Ok (RStr cmd) /\
     definition_text rep crep c (Some tt) t /\
     card_lines upper rep crep seg (s, tab, n) c =
     match insert_def tab seg (sub_step s c) tag kind cmd e with
     | Ok (_, k) => if k =? 0 then []
                    else [multiple tag; lit "Previous definitions: " ++ kinds_text rep crep (sub (sub (sub tab tag) seg) (sub_step s c));
                          lit "Current definition: " ++ t; lit "command: " ++ cmd]
     | Err _ => []
     end).
Proof.
  intros PC s tab n. unfold card_lines.
  destruct (PC "column8"%string ltac:(cbn; tauto)) as (v8 & E8 & _).
  destruct (PC "operation"%string ltac:(cbn; tauto)) as (op & EO & KO).
  destruct (PC "label"%string ltac:(cbn; tauto)) as (lb & EL & KL).
  destruct (PC "lognum"%string ltac:(cbn; tauto)) as (lg & EG & KG).
  assert (K2 : match lg with RInt _ => False | _ => True end) by (destruct lg; [exact I|exact I|exact KG]).
  rewrite E8, EO, EL, EG.
  assert (SB : starredb c = is_str v8 "*") by (unfold starredb; rewrite E8; reflexivity).
  destruct lb as [|l|k]; [| |destruct KL].
  { left. split; [reflexivity|]. split.
    - right. intros m ty X. destruct (complaint_has_label _ _ _ (described_complaint _ _ _ _ X)) as (l & E). congruence.
    - split; [intros (_ & t & (l & L & _) & _); congruence|]. intros tag kind tt (_ & t & o & (l & L & _) & _); congruence. }
  destruct l as [|x l]; [contradiction|].
  destruct (is_str v8 "*") eqn:ES.
  { left. assert (ST : starred c) by (apply starredb_ok; exact SB).
    split; [reflexivity|]. split; [left; exact ST|]. split; [intros [H _]; contradiction|intros tag kind tt [H _]; contradiction]. }
  assert (NS : ~ starred c) by (rewrite <- starredb_ok; congruence).
  assert (EN : next_subseg s op = Ok (sub_step s c)).
  { unfold sub_step, setloc_f. rewrite SB, EO. destruct op as [|o|k]; [reflexivity| |destruct KO].
    cbn [next_subseg]. unfold set_of. destruct o as [|y o]; [contradiction|].
    match goal with |- context [negb (eqb ?a ?b)] => replace (negb (eqb a b)) with true by reflexivity end. cbn [andb].
    destruct (startswith (y :: o) (lit "SETLOC")); reflexivity. }
  rewrite EN. cbv zeta. rewrite lines_message. set (lab := x :: l) in *.
  destruct (label_tag upper lab) as [[tt tag]|] eqn:ET.
  - assert (LM : label_message upper (remove_char 32 (strip lab)) = None) by (apply label_message_tag; congruence). rewrite LM.
    assert (W := proj1 (label_tag_spec upper lab tt tag) ET).
    destruct op as [|cmd|k]; [| |destruct KO].
    + right. left. split.
      { split; [exact NS|]. eexists. split; [exists lab; split; [exact EL|reflexivity]|]. right. exact EO. }
      split; [exact NS|]. exists (error_text (remove_char 32 (strip lab)) " has no operation!"), (Some tt). eexists.
      split; [|split; [eapply entry_shown; eassumption|reflexivity]].
      eapply ds_no_operation; [exists lab; split; [exact EL|reflexivity]|exact W|exact EO].
    + right. right. exists tag, (if eqb cmd (lit "ASSIGN") then lit "complex" else lit "simple"), tt, cmd,
        (mkent (c_filename c) (c_linenum c) lg tt c). eexists. split.
      { split; [exact NS|]. eexists. exists cmd. split; [exists lab; split; [exact EL|reflexivity]|].
        split; [exact W|]. split; [exact EO|]. destruct (eqb cmd (lit "ASSIGN")) eqn:EA.
        - apply eqb_ok in EA. auto.
        - right. split; [intros ->; rewrite eqb_refl in EA; discriminate|reflexivity]. }
      split.
      { intros (_ & t & (l' & L' & ->) & [H|H]); [|congruence].
        assert (l' = lab) by congruence. subst l'. exact (H _ _ W). }
      split; [repeat split; exact EG|]. split; [first [exact EO|reflexivity]|]. split; [eapply entry_shown; eassumption|reflexivity].
  - destruct (label_message upper (remove_char 32 (strip lab))) as [m|] eqn:EM.
    + right. left. assert (NW := proj1 (label_tag_none upper lab) ET). split.
      { split; [exact NS|]. eexists. split; [exists lab; split; [exact EL|reflexivity]|]. left. exact NW. }
      split; [exact NS|]. exists m. do 2 eexists. split; [eapply label_described; eassumption|].
      split; [eapply entry_shown; eassumption|reflexivity].
    + apply label_message_tag in EM. congruence.
Qed.
Lemma dump_snoc upper rep crep seg a c : forall st, dump_run upper rep crep seg st (a ++ [c]) =
  let '(ls, st1, r) := dump_run upper rep crep seg st a in
  match r with
  | Err e => (ls, st1, Err e)
  | Ok _ => match build_card upper seg st1 c with
            | Err e => (ls ++ card_lines upper rep crep seg st1 c, st1, Err e)
            | Ok st2 => (ls ++ card_lines upper rep crep seg st1 c, st2, Ok tt)
            end
  end.
Proof.
  induction a as [|y a IH]; intros st; cbn [app dump_run].
  - destruct (build_card upper seg st c); [rewrite app_nil_r; reflexivity|reflexivity].
  - destruct (build_card upper seg st y) as [st'|e]; [|reflexivity]. rewrite IH.
    destruct (dump_run upper rep crep seg st' a) as [[ls st1] [u|e]]; [|reflexivity].
    destruct (build_card upper seg st1 c); rewrite app_assoc; reflexivity.
Qed.

(** *** the table *)
Record inv2 (tab : symtab) (ds : list sdef) : Prop := mkinv2 {
  j_inv : inv tab ds;
  j_acc : forall sym l, accepted sym ds l -> answer_from l (getd tab sym);
  j_ent : forall d, In d ds -> exists e, entry_from (sd_card d) (sd_type d) e }.
Lemma insert_nested0 tab seg ss tag kind cmd e tab' : insert_def tab seg ss tag kind cmd e = Ok (tab', 0) ->
  tab' = dset tab tag (dset (getd tab tag) seg (dset (getd (getd tab tag) seg) ss (dset (getd (getd (getd tab tag) seg) ss) kind e))).
Proof.
  unfold insert_def. intros H.
  destruct (dget tab tag) as [sg|] eqn:E1.
  - assert (X1 : getd tab tag = sg) by exact (getd_eq _ _ _ E1). rewrite X1. destruct (dget sg seg) as [u|] eqn:E2.
    + assert (X2 : getd sg seg = u) by exact (getd_eq _ _ _ E2). rewrite X2. destruct (dget u ss) as [ks|] eqn:E3.
      * assert (X3 : getd u ss = ks) by exact (getd_eq _ _ _ E3). rewrite X3. destruct (dget sg kind) as [pv|]; [|congruence].
        destruct (eqb cmd (lit "EQUALS")); [destruct (dget pv (lit "card")); discriminate H|discriminate H].
      * assert (X3 : getd u ss = []) by exact (getd_eq _ _ _ E3). rewrite X3. injection H as <-. reflexivity.
    + assert (X2 : getd sg seg = []) by exact (getd_eq _ _ _ E2). rewrite X2. injection H as <-. reflexivity.
  - assert (X1 : getd tab tag = []) by exact (getd_eq _ _ _ E1). rewrite X1. injection H as <-. reflexivity.
Qed.
Lemma accepted_snoc sym ds d l : accepted sym (ds ++ [d]) l ->
  (exists l0 e, accepted sym ds l0 /\ sd_tag d = sym /\ ~ refused ds d /\ entry_from (sd_card d) (sd_type d) e /\ l = l0 ++ [(sd_seg d, (sd_sub d, (sd_kind d, e)))]) \/
  (accepted sym ds l /\ (sd_tag d <> sym \/ refused ds d)).
Proof.
  intros A. inversion A as [E|ds1 d1 l1 e A1 T N EF E|ds1 d1 l1 A1 T E]; subst.
  - destruct ds; discriminate E.
  - apply snoc_inj in E. destruct E as [-> ->]. left. exists l1, e. auto.
  - apply snoc_inj in E. destruct E as [-> ->]. right. auto.
Qed.
Lemma step2 tab ds d cmd e : inv2 tab ds -> entry_from (sd_card d) (sd_type d) e -> card_get (sd_card d) "operation" = Ok (RStr cmd) ->
  (cmd = lit "EQUALS" -> sd_kind d = lit "simple") ->
  let r := insert_def tab (sd_seg d) (sd_sub d) (sd_tag d) (sd_kind d) cmd e in
  (~ refused ds d /\ (forall x, ~ fatal_at ds d x) /\ exists tab', r = Ok (tab', 0) /\ inv2 tab' (ds ++ [d])) \/
  (refused ds d /\ cmd <> lit "EQUALS" /\ (forall x, ~ fatal_at ds d x) /\ r = Ok (tab, 1) /\ inv2 tab (ds ++ [d])) \/
  (exists x, fatal_at ds d x /\ r = Err x).
Proof.
  intros [I A EN] EF EO KE. cbv zeta.
  assert (EN' : forall x, In x (ds ++ [d]) -> exists y, entry_from (sd_card x) (sd_type x) y).
  { intros x J. apply in_app_or in J. destruct J as [J|[<-|[]]]; [exact (EN _ J)|eauto]. }
  destruct (step tab ds d cmd e I EF EO KE) as [(N & HF & tab' & EI & I')|[(R & HF & EI & I')|X]]; [| |right; right; exact X].
  - left. split; [exact N|]. split; [exact HF|]. exists tab'. split; [exact EI|]. split; [exact I'| |exact EN']. intros sym l AC.
    apply insert_nested0 in EI. apply accepted_snoc in AC. destruct AC as [(l0 & e' & AC & <- & _ & EF' & ->)|(AC & [T|T])]; [| |contradiction].
    + rewrite (entry_unique _ _ _ _ EF' EF), EI. unfold getd at 1. rewrite dget_dset_eq. apply answer_snoc. exact (A _ _ AC).
    + rewrite EI. unfold getd. rewrite dget_dset_ne by congruence. exact (A _ _ AC).
  - right. left. split; [exact R|]. split.
    { intros ->.
      assert (D := insert_outcome tab (sd_seg d) (sd_sub d) (sd_tag d) (sd_kind d) (lit "EQUALS") e (deep_no_empty _ (i_deep _ _ I))).
      destruct D as [(_ & tab' & E & _)|[(_ & NQ & _)|(_ & _ & [(_ & E)|(_ & E)])]]; congruence. }
    split; [exact HF|]. split; [exact EI|]. split; [exact I'| |exact EN']. intros sym l AC. apply accepted_snoc in AC.
    destruct AC as [(l0 & e' & _ & _ & NR & _)|(AC & _)]; [contradiction|exact (A _ _ AC)].
Qed.
Lemma inv2_nil : inv2 [] [].
Proof.
  split; [exact inv_nil| |intros d []]. intros sym l A. inversion A as [|ds1 d1 l1 e A1 T N EF E|ds1 d1 l1 A1 T E]; subst.
  - apply grouped_nil.
  - destruct ds1; discriminate.
  - destruct ds1; discriminate.
Qed.
Lemma accepted_ex ds : (forall d, In d ds -> exists e, entry_from (sd_card d) (sd_type d) e) -> (forall pre d, refused pre d \/ ~ refused pre d) ->
  forall sym, exists l, accepted sym ds l.
Proof.
  intros H RD sym. induction ds as [|d ds IH] using rev_ind; [exists []; constructor|].
  destruct IH as (l & A); [intros x I; apply H; apply in_or_app; left; exact I|].
  destruct (eq_dec_b (sd_tag d) sym) as [E|E]; [|exists l; apply ac_skip; auto].
  destruct (RD ds d) as [R|R]; [exists l; apply ac_skip; auto|].
  destruct (H d) as (e & EF); [apply in_or_app; right; left; reflexivity|]. eexists. apply ac_take; eassumption.
Qed.
Lemma refused_dec ds d : refused ds d \/ ~ refused ds d.
Proof.
  assert (X : forall P : sdef -> Prop, (forall x, P x \/ ~ P x) -> (exists x, In x ds /\ P x) \/ ~ (exists x, In x ds /\ P x)).
  { intros P D. induction ds as [|y l IH]; [right; intros (x & [] & _)|]. destruct (D y) as [Y|Y]; [left; exists y; split; [left; reflexivity|exact Y]|].
    destruct IH as [(x & I & H)|N]; [left; exists x; split; [right; exact I|exact H]|]. right. intros (x & [<-|I] & H); [contradiction|]. apply N. exists x. auto. }
  assert (Q : forall a b : str, a = b \/ a <> b) by (intros a b; destruct (eq_dec_b a b); auto).
  unfold refused.
  destruct (X (fun x => sd_tag x = sd_tag d /\ sd_seg x = sd_seg d /\ sd_sub x = sd_sub d)) as [A|A].
  { intros x. destruct (Q (sd_tag x) (sd_tag d)); [|tauto]. destruct (Q (sd_seg x) (sd_seg d)); [|tauto]. destruct (Q (sd_sub x) (sd_sub d)); tauto. }
  2:{ right. tauto. }
  destruct (X (fun x => sd_tag x = sd_tag d /\ sd_seg x = sd_kind d)) as [B|B].
  { intros x. destruct (Q (sd_tag x) (sd_tag d)); [|tauto]. destruct (Q (sd_seg x) (sd_kind d)); tauto. }
  - left. auto.
  - right. tauto.
Qed.
Lemma previous_ok rep crep tab ds x : inv2 tab ds ->
  previous rep crep ds x (kinds_text rep crep (sub (sub (sub tab (sd_tag x)) (sd_seg x)) (sd_sub x))).
Proof.
  intros [I A EN]. destruct (accepted_ex ds EN refused_dec (sd_tag x)) as (l & AC).
  destruct (kinds_shown rep crep (sub (sub (sub tab (sd_tag x)) (sd_seg x)) (sd_sub x))) as (items & F & E).
  exists l, (sub (sub (sub tab (sd_tag x)) (sd_seg x)) (sd_sub x)), items. split; [exact AC|]. split; [|auto].
  assert (H := A _ _ AC). assert (H1 := grouped_get _ _ _ (sd_seg x) H). exact (grouped_get _ _ _ (sd_sub x) H1).
Qed.

(** *** the cards of a file *)
Lemma run_said upper rep crep seg s0 cs : Forall proper_card cs -> forall tab ds n0, inv2 tab ds ->
  (exists ls tab' d n, dump_run upper rep crep seg (s0, tab, n0) cs = (ls, (sub_after s0 cs, tab', n0 + n), Ok tt) /\
     cards_said upper rep crep ds seg s0 cs d ls n /\ deck_defs upper seg s0 cs d /\ inv2 tab' (ds ++ d) /\
     forall pre x post e, d = pre ++ x :: post -> ~ fatal_at (ds ++ pre) x e) \/
  (exists e a c b ls tab' d k n tag kind tt ss post, dump_run upper rep crep seg (s0, tab, n0) cs = (ls, (sub_after s0 a, tab', k), Err e) /\
     cs = a ++ c :: b /\ cards_said upper rep crep ds seg s0 a d ls n /\ deck_defs upper seg s0 cs (d ++ mksdef tag seg ss kind tt c :: post) /\
     inv2 tab' (ds ++ d) /\ defines upper c tag kind tt /\ current_subseg s0 (a ++ [c]) ss /\ fatal_at (ds ++ d) (mksdef tag seg ss kind tt c) e /\
     forall pre x post e, d = pre ++ x :: post -> ~ fatal_at (ds ++ pre) x e).
Proof.
  induction cs as [|c cs IH] using rev_ind; intros F tab ds n0 I.
  - left. exists [], tab, [], 0. split; [rewrite Z.add_0_r; reflexivity|]. split; [constructor|]. split; [constructor|].
    rewrite app_nil_r. split; [exact I|]. intros pre x post e E. destruct pre; discriminate E.
  - assert (F0 := F). apply Forall_app in F. destruct F as [F1 F2]. apply Forall_inv in F2. rewrite dump_snoc.
    destruct (IH F1 tab ds n0 I) as [(ls & tab1 & d & n & E & CS & DD & I1 & NF)|(e & a & c1 & b & ls & tab1 & d & k & n & tag & kind & tt & ss & post & E & -> & CS & DD & I1 & DF & CU & FT & NF)]; rewrite E.
    2:{ right. destruct (deck_defs_ex upper seg s0 [] ltac:(constructor)) as (w & _). clear w.
        assert (X : exists post', deck_defs upper seg s0 ((a ++ c1 :: b) ++ [c]) (d ++ mksdef tag seg ss kind tt c1 :: post')).
        { destruct (build_card_cases upper [] c F2 [] [] 0) as [(_ & _ & N)|[(_ & _ & N)|(tag' & kind' & tt' & cmd & en & DF' & _)]].
          - exists post. apply dd_not; assumption.
          - exists post. apply dd_not; assumption.
          - eexists (post ++ [mksdef tag' seg _ kind' tt' c]). change (d ++ mksdef tag seg ss kind tt c1 :: post ++ ?z) with (d ++ (mksdef tag seg ss kind tt c1 :: post) ++ z).
            rewrite app_assoc. apply dd_def; [exact DD|exact DF'|]. apply current_ok. reflexivity. }
        destruct X as (post' & DD'). exists e, a, c1, (b ++ [c]), ls, tab1, d, k, n, tag, kind, tt, ss, post'. split; [reflexivity|].
        split; [rewrite <- app_assoc; reflexivity|]. auto 12. }
    rewrite sub_snoc.
    destruct (build_card_cases upper seg c F2 (sub_after s0 cs) tab1 (n0 + n))
      as [(-> & NE & ND)|[(-> & LE & ND)|(tag & kind & tt & cmd & en & DF & NE & EF & IK & KC & EO & EB)]].
    + destruct (lines_cases upper rep crep seg c F2 (sub_after s0 cs) tab1 (n0 + n))
        as [(-> & Q & _)|[(LE & _)|(tag & kind & tt & cmd & en & t & DF & _)]]; [|contradiction|destruct (ND _ _ _ DF)].
      left. exists ls, tab1, d, n. rewrite app_nil_r. split; [reflexivity|]. split; [apply cs_quiet; assumption|]. split; [apply dd_not; assumption|]. auto.
    + destruct (lines_cases upper rep crep seg c F2 (sub_after s0 cs) tab1 (n0 + n))
        as [(_ & _ & NE & _)|[(_ & NS & m & ty & t & DS & DT & ->)|(tag & kind & tt & cmd & en & t & DF & _)]]; [contradiction| |destruct (ND _ _ _ DF)].
      left. exists (ls ++ [m; lit "Current definition: " ++ t]), tab1, d, (n + 1). split; [rewrite Z.add_assoc; reflexivity|].
      split; [eapply cs_fault; eassumption|]. split; [apply dd_not; assumption|]. auto.
    + destruct (lines_cases upper rep crep seg c F2 (sub_after s0 cs) tab1 (n0 + n))
        as [(_ & _ & _ & ND)|[(LE & _)|(tag' & kind' & tt' & cmd' & en' & t & DF' & _ & EF' & EO' & DT & EL)]]; [destruct (ND _ _ _ DF)|contradiction|].
      destruct (defines_fun _ _ _ _ _ _ _ _ DF DF') as (<- & <- & <-). assert (cmd' = cmd) by congruence. subst cmd'.
      rewrite (entry_unique _ _ _ _ EF' EF) in EL. clear EF' EO' DF' en'. rewrite EB, EL.
      set (ss := sub_step (sub_after s0 cs) c) in *. set (x := mksdef tag seg ss kind tt c).
      assert (CU : current_subseg s0 (cs ++ [c]) ss) by (apply current_ok; rewrite sub_snoc; reflexivity).
      assert (KE : cmd = lit "EQUALS" -> sd_kind x = lit "simple").
      { intros ->. destruct IK as [IK|IK]; [exact IK|]. apply KC in IK. discriminate IK. }
      assert (DD' : deck_defs upper seg s0 (cs ++ [c]) (d ++ [x])) by (apply dd_def; assumption).
      assert (NF' : (forall e, ~ fatal_at (ds ++ d) x e) -> forall pre y post e, d ++ [x] = pre ++ y :: post -> ~ fatal_at (ds ++ pre) y e).
      { intros H pre y post e Q. apply split_snoc in Q. destruct Q as [(-> & -> & ->)|(post' & -> & ->)]; [apply H|exact (NF _ _ _ _ eq_refl)]. }
      destruct (step2 tab1 (ds ++ d) x cmd en I1 EF EO KE) as [(NR & HF & tab2 & EI & I2)|[(R & NQ & HF & EI & I2)|(e & FT & EI)]];
        cbn [sd_seg sd_sub sd_tag sd_kind x] in EI; rewrite EI; cbn [bind fst snd].
      * left. exists ls, tab2, (d ++ [x]), n. change (0 =? 0) with true. cbv iota. rewrite app_nil_r, Z.add_0_r, app_assoc. split; [reflexivity|].
        split; [apply cs_taken; assumption|]. split; [exact DD'|]. split; [exact I2|exact (NF' HF)].
      * left. eexists. exists tab1, (d ++ [x]), (n + 1). change (1 =? 0) with false. cbv iota. rewrite app_assoc. split; [rewrite Z.add_assoc; reflexivity|].
        split; [|split; [exact DD'|split; [exact I2|exact (NF' HF)]]]. eapply cs_refused; try eassumption. exact (previous_ok rep crep tab1 (ds ++ d) x I1).
      * right. exists e, cs, c, [], (ls ++ []), tab1, d, (n0 + n), n, tag, kind, tt, ss, []. rewrite app_nil_r. split; [reflexivity|]. auto 12.
Qed.
(** *** the files *)
Lemma files_said_run upper rep crep fuel fs v counts files css ds : files_defs upper files css ds -> Forall2 (source_cards fuel fs) files css ->
  (exists ls tab ns n, build_files_run upper rep crep fuel fs v counts files = (ls, Ok (tab, fold_right Z.add 0 ns, n)) /\
     files_said upper rep crep fuel fs v counts files ds ls ns /\ inv2 tab ds /\ harmless ds /\ n = last ns 0) \/
  (exists ls e, build_files_run upper rep crep fuel fs v counts files = (ls, Err e) /\ dies_of ds e /\
     broken upper rep crep fuel fs v counts files ls e).
Proof.
  induction 1 as [|files css ds f seg cs d FD IH S DD]; intros F.
  - left. exists [], [], [], 0. split; [reflexivity|]. split; [constructor|]. split; [exact inv2_nil|]. split; [|reflexivity].
    intros pre d post e E. destruct pre; discriminate E.
  - apply Forall2_app_inv_l in F. destruct F as (css1 & css2 & F1 & F2 & E).
    inversion F2 as [|? cs2 ? ? SC F3 Q1 Q2]; subst. inversion F3; subst. apply snoc_inj in E. destruct E as [<- <-].
    unfold build_files_run. rewrite io_fold_app. fold (build_files_run upper rep crep fuel fs v counts files).
    destruct (IH F1) as [(ls & tab & ns & n & E & FS & I & H & EN)|(ls & e & E & DO & pre & f' & post & BR)]; rewrite E.
    2:{ right. exists ls, e. rewrite bind_err. split; [reflexivity|]. split.
        - destruct DO as (p & x & q & -> & H & FT). exists p, x, (q ++ d). split; [rewrite <- app_assoc; reflexivity|auto].
        - destruct BR as (ds1 & ls1 & ns1 & seg1 & log1 & cs1 & c1 & r1 & d1 & said1 & n1 & tag1 & kind1 & tt1 & ss1 & -> & BR).
          exists pre, f', (post ++ [f]), ds1, ls1, ns1, seg1, log1, cs1, c1, r1, d1, said1, n1, tag1, kind1, tt1, ss1.
          split; [rewrite <- app_assoc; reflexivity|exact BR]. }
    rewrite bind_ok. cbn [io_fold fst snd].
    destruct (run_logged fuel fs f v cs SC) as (log & L & EL).
    assert (ED : dump_table_run upper rep crep fuel fs f tab =
      let '(ms, st, r) := dump_run upper rep crep seg (lit "1", tab, 0) cs in
      (ms, snd (fst st), match r with Ok _ => Ok (snd st) | Err e => Err e end)).
    { destruct SC as (dk & sec & c8 & SC & ->). unfold dump_table_run. apply seg_ok in S. cbv zeta. rewrite S.
      unfold DEFAULT_WIDTH, DEFAULT_FIELDS. rewrite SC. reflexivity. }
    destruct (run_said upper rep crep seg (lit "1") cs (source_proper _ _ _ _ SC) tab ds 0 I)
      as [(said & tab' & d' & m & ER & CS & DD' & I' & NF)|(e & a & c & b & said & tab' & d' & k & m & tag & kind & tt & ss & post & ER & EC & CS & DD' & I' & DF & CU & FT & NF)];
      rewrite ER in ED.
    + rewrite (deck_defs_fun _ _ _ _ _ DD _ DD'). clear DD.
      left. eexists. exists tab', (ns ++ [m]), m. split; [|split; [|split; [exact I'|split; [exact (harmless_app _ _ H NF)|rewrite last_last; reflexivity]]]].
      * unfold build_verbose. rewrite ED, EL. cbn [fst snd]. rewrite !bind_ok. cbn [fst snd]. rewrite bind_ok. cbn [fst snd].
        rewrite sum_snoc, Z.add_0_l. reflexivity.
      * match goal with |- files_said _ _ _ _ _ _ _ _ _ ?o _ => replace o with (ls ++ (if v then log else []) ++ map ErrL said ++
          (if counts then [ErrL (f ++ lit ": " ++ str_of_Z m ++ lit " errors encountered building symbol table.")] else [])) end.
        -- eapply fs_file; eassumption.
        -- f_equal. rewrite app_nil_r, <- app_assoc. reflexivity.
    + right. exists (ls ++ (if v then log else []) ++ map ErrL said), e. split; [|split].
      * unfold build_verbose. rewrite ED, EL. cbn [fst snd]. rewrite !bind_err. reflexivity.
      * rewrite (deck_defs_fun _ _ _ _ _ DD _ DD'). exists (ds ++ d'), (mksdef tag seg ss kind tt c), post. split; [rewrite app_assoc; reflexivity|].
        split; [exact (harmless_app _ _ H NF)|exact FT].
      * subst cs. exists files, f, [], ds, ls, ns, seg, log, a, c, b, d', said, m, tag, kind, tt, ss. auto 15.
Qed.

(** *** list-symbols *)
Lemma C195_list_pf : forall upper rep card_rep fuel fs v files css ds, files <> [] -> Forall2 (source_cards fuel fs) files css -> files_defs upper files css ds ->
  let run := list_symbols_run upper rep card_rep fuel fs v files in
  (harmless ds -> exists tables ns out es, let total := fold_right Z.add 0 ns in
     run = (tables ++ map OutL out ++ (if total =? 0 then [] else [ErrL (str_of_Z total ++ lit " errors found")]), Ok tt) /\
     files_said upper rep card_rep fuel fs v false files ds tables ns /\
     rendered (None, None, None) es out /\ StronglySorted (fun x y => key_lt (fst x) (fst y)) es /\
     forall t s u k e, In ((t, s, u, k), e) es <-> in_force ds t s u k e) /\
  (forall e, dies_of ds e -> exists ls, run = (ls, Err e) /\ broken upper rep card_rep fuel fs v false files ls e).
Proof.
  intros upper rep crep fuel fs v files css ds NE F FD. cbv zeta.
  destruct (C194_list_pf upper fuel fs files css ds NE F FD) as [CL _].
  unfold list_symbols_run. destruct files as [|f0 files0]; [contradiction|]. set (files := f0 :: files0) in *.
  destruct (files_said_run upper rep crep fuel fs v false files css ds FD F) as [(tables & tab & ns & n & E & FS & I & H & _)|(ls & e & E & DO & BR)]; rewrite E.
  2:{ split; [intros H; destruct (dies_not_harmless _ _ DO H)|]. intros e' DO'. rewrite bind_err, (dies_fun _ _ _ DO' DO). eauto. }
  split; [|intros e DO; destruct (dies_not_harmless _ _ DO H)]. intros _.
  assert (HF : has_files (tents tab)).
  { intros [[[t s] u] k] e J. apply tents_In in J. apply (i_get _ _ (j_inv _ _ I)) in J. destruct J as (pre & d & post & -> & _ & _ & EF & _).
    destruct EF as (-> & _). destruct (files_defs_from _ _ _ _ FD d) as (cs & IC & ID); [apply in_or_app; right; left; reflexivity|].
    assert (TC : Forall tool_card (concat css)) by (apply (all_tool fuel fs files); exists css; auto).
    rewrite Forall_forall in TC. apply TC. apply in_concat. exists cs. auto. }
  destruct (ls_tab tab (i_deep _ _ (j_inv _ _ I)) HF) as (out & EO & RO).
  exists tables, ns, out, (tents tab). split; [|split; [exact FS|split; [exact RO|split; [apply tents_sorted; exact (i_deep _ _ (j_inv _ _ I))|]]]].
  - rewrite bind_ok. cbn [fst snd]. rewrite EO. cbn [fst snd]. do 3 f_equal.
    assert (0 <= fold_right Z.add 0 ns) as NN.
    { clear -FS. induction FS as [|? ? ? ? ? ? ? ? ? ? m ? IH ? ? ? CS]; [cbn; lia|]. rewrite sum_snoc.
      assert (0 <= m) by (clear -CS; induction CS; lia). lia. }
    destruct (Z.eqb_spec (fold_right Z.add 0 ns) 0) as [->|]; [reflexivity|].
    replace (fold_right Z.add 0 ns >? 0) with true by lia. reflexivity.
  - intros t s u k e. rewrite tents_In. apply (i_get _ _ (j_inv _ _ I)).
Qed.
(*@ Example C195_list_ex :
  list_symbols_run (fun s => s) quoted a_card 2 clash_files true [lit "simple.a"] =
    ([OutL (lit "Reading simple.a...")] ++ clash_said ++
     [OutL (lit "A"); OutL (lit "  Segment: simple"); OutL (lit "    Subsegment: 1");
      OutL (lit "        <simple>    simple:1                                            A          DEC          1");
      ErrL (lit "1 errors found")], Ok tt) /\
  list_symbols_run (fun s => s) quoted a_card 2 clash_files false [lit "simple.a"; lit "simple.b"] = (clash_said, Err KeyError).
Proof. vm_compute. auto. Qed. @*)
(** *** check-symbols *)
Lemma candidates_ok tab ds : inv tab ds -> candidates ds (get_absolute tab).
Proof.
  intros I. assert (D := i_deep _ _ I). assert (G := i_get _ _ I).
  assert (X : forall s k, has_kind tab s k <-> (exists seg ss e, in_force ds s seg ss k e)).
  { intros s k. split; intros (seg & ss & e & H); exists seg, ss, e; apply G; exact H. }
  destruct (C82_absolute_partial_pf tab (proj1 D)) as [SS A]. split; [exact SS|].
  intros s. rewrite A, X.
  assert (Y : (forall s', str_lt s' s -> ~ has_kind tab s' (lit "simple")) <->
              (forall s', str_lt s' s -> ~ exists seg ss e, in_force ds s' seg ss (lit "simple") e)).
  { split; intros H s' L; [rewrite <- X|rewrite X]; exact (H s' L). }
  rewrite Y. clear Y. apply or_iff_compat_r. split.
  - intros (seg & (sg & ES & IS & MIN) & ss & e & H). exists seg, ss, e. split; [apply G; exact H|].
    intros seg' ss' k' e' H'. apply MIN. apply G in H'. unfold get4 in H'. rewrite ES in H'. apply dget_In. unfold dmem.
    destruct (dget sg seg'); [reflexivity|discriminate].
  - intros (seg & ss & e & H & MIN). apply G in H. exists seg. split; [|exists ss, e; exact H].
    assert (H' := H). unfold get4 in H'. destruct (dget tab s) as [sg|] eqn:ES; [|discriminate]. exists sg. split; [exact ES|]. split.
    + apply dget_In. unfold dmem. destruct (dget sg seg); [reflexivity|discriminate].
    + intros x J. apply dget_In in J. unfold dmem in J. destruct (dget sg x) as [u|] eqn:EU; [|discriminate].
      destruct D as [_ D]. destruct (D _ _ ES) as [_ [_ D1]]. destruct (D1 _ _ EU) as [NU [_ D2]]. destruct u as [|[ss' ks] u]; [contradiction|].
      assert (EK : dget ((ss', ks) :: u) ss' = Some ks) by (cbn [dget]; rewrite eqb_refl; reflexivity).
      destruct (D2 _ _ EK) as [NK _]. destruct ks as [|[k' e'] ks]; [contradiction|].
      apply (MIN x ss' k' e'). apply G. unfold get4. rewrite ES, EU, EK. cbn [dget]. rewrite eqb_refl. reflexivity.
Qed.
Lemma C195_check_pf : forall extract upper rep card_rep fuel fs v complexOnly files css ds,
  files <> [] -> Forall2 (source_cards fuel fs) files css -> files_defs upper files css ds ->
  let run := check_symbols_verbose extract upper rep card_rep fuel fs v complexOnly files in
  (harmless ds -> exists tables ns syms choices part total,
     run = (tables ++
       map (fun s => ErrL (lit "ERROR: symbol """ ++ s ++ lit """ has a complex assignment, but no simple assignment!")) syms ++
       part ++ total, Ok tt) /\
     files_said upper rep card_rep fuel fs v true files ds tables ns /\
     StronglySorted str_lt syms /\
     (forall s, In s syms <-> complexOnly = true /\ (exists seg ss e, in_force ds s seg ss (lit "complex") e) /\
       ~ (exists seg ss e, in_force ds s seg ss (lit "simple") e)) /\
     undefined_part (fun s => map fst (extract s choices 10)) syms part /\ candidates ds choices /\
     total_part files (fold_right Z.add 0 ns + zlen syms) total) /\
  (forall e, dies_of ds e -> exists ls, run = (ls, Err e) /\ broken upper rep card_rep fuel fs v true files ls e).
Proof.
  intros extract upper rep crep fuel fs v co files css ds NE F FD. cbv zeta.
  unfold check_symbols_verbose. destruct files as [|f0 files0]; [contradiction|]. set (files := f0 :: files0) in *.
  destruct (files_said_run upper rep crep fuel fs v true files css ds FD F) as [(tables & tab & ns & n & E & FS & I & H & _)|(ls & e & E & DO & BR)]; rewrite E.
  2:{ split; [intros H; destruct (dies_not_harmless _ _ DO H)|]. intros e' DO'. rewrite bind_err, (dies_fun _ _ _ DO' DO). eauto. }
  split; [|intros e DO; destruct (dies_not_harmless _ _ DO H)]. intros _. apply j_inv in I.
  destruct (C81_complex_only_pf tab co (proj1 (i_deep _ _ I))) as [S M].
  assert (X : forall s k, has_kind tab s k <-> (exists seg ss e, in_force ds s seg ss k e)).
  { intros s k. split; intros (seg & ss & e & Y); exists seg, ss, e; apply (i_get _ _ I); exact Y. }
  set (syms := check_symtab tab co) in *.
  assert (UP : exists part, undefined_part (fun s => map fst (extract s (get_absolute tab) 10)) syms part /\
    part = match syms with
           | [] => []
           | _ => ErrL [] :: ErrL (lit "Undefined symbols:") ::
                  map (fun s => suggestion_line s (find_symbol extract tab s None false false true)) syms ++
                  [ErrL (str_of_Z (zlen syms) ++ lit " errors checking symbol table.")]
           end).
  { clearbody syms. destruct syms as [|s0 syms]; [exists []; split; [constructor|reflexivity]|]. eexists. split; [|reflexivity].
    apply (up_some _ (s0 :: syms)); [discriminate|].
    generalize (s0 :: syms). intros l. induction l as [|s l IH]; [constructor|]. cbn [map]. constructor; [|exact IH].
    unfold find_symbol. cbn [negb andb orb]. destruct (map fst (extract s (get_absolute tab) 10)) as [|m r]; cbn [suggestion_line].
    - constructor.
    - constructor. discriminate. }
  destruct UP as (part & U & EP).
  exists tables, ns, syms, (get_absolute tab), part.
  exists (if 1 <? zlen files then [ErrL (lit "Total: " ++ str_of_Z (fold_right Z.add 0 ns + zlen syms) ++ lit " errors encountered.")] else []).
  split; [|split; [exact FS|split; [exact S|split; [intros s; rewrite M, !X; tauto|split; [exact U|split; [exact (candidates_ok tab ds I)|]]]]]].
  - rewrite bind_ok. fold syms. rewrite EP. reflexivity.
  - unfold total_part. destruct (Z.ltb_spec 1 (zlen files)); [right|left]; auto.
Qed.
(*@ Example C195_check_ex :
  check_symbols_verbose (fun _ cs _ => map (fun c => (c, 1)) cs) (fun s => s) quoted a_card 2 clash_files false true [lit "simple.a"; lit "complex.a"] =
    (clash_said ++ [ErrL (lit "simple.a: 1 errors encountered building symbol table."); ErrL (lit "complex.a: 0 errors encountered building symbol table.");
      ErrL (lit "ERROR: symbol ""C"" has a complex assignment, but no simple assignment!"); ErrL []; ErrL (lit "Undefined symbols:");
      OutL (lit "  C - Possible matches: A"); ErrL (lit "1 errors checking symbol table."); ErrL (lit "Total: 2 errors encountered.")], Ok tt).
Proof. vm_compute. reflexivity. Qed. @*)

(** *** find-symbols *)
Lemma C195_find_pf : forall extract upper rep card_rep fuel fs v exact symbol files css ds,
  files <> [] -> Forall2 (source_cards fuel fs) files css -> files_defs upper files css ds ->
  let run := find_symbols_verbose extract upper rep card_rep fuel fs v false false false exact (symbol :: files) in
  let defined := exists d, In d ds /\ sd_tag d = symbol in
  (harmless ds -> exists tables ns, files_said upper rep card_rep fuel fs v true files ds tables ns /\
     (defined -> exists l a t r, run = (tables ++ [OutL t], Ok r) /\ accepted symbol ds l /\ answer_from l a /\ answer_text rep card_rep a t) /\
     (~ defined -> run = (tables ++ [ErrL (lit "ERROR: Undefined symbol """ ++ symbol ++ lit """!")], Ok None))) /\
  (forall e, dies_of ds e -> exists ls, run = (ls, Err e) /\ broken upper rep card_rep fuel fs v true files ls e).
Proof.
  intros extract upper rep crep fuel fs v ex symbol files css ds NE F FD. cbv zeta.
  unfold find_symbols_verbose. cbn [andb orb]. destruct files as [|f0 files0]; [contradiction|]. set (files := f0 :: files0) in *.
  destruct (files_said_run upper rep crep fuel fs v true files css ds FD F) as [(tables & tab & ns & n & E & FS & I & H & _)|(ls & e & E & DO & BR)]; rewrite E.
  2:{ split; [intros H; destruct (dies_not_harmless _ _ DO H)|]. intros e' DO'. rewrite bind_err, (dies_fun _ _ _ DO' DO). eauto. }
  split; [|intros e DO; destruct (dies_not_harmless _ _ DO H)]. intros _. exists tables, ns. split; [exact FS|].
  rewrite bind_ok. cbn [fst snd]. unfold find_symbol. cbn [negb andb]. split.
  - intros DF. apply (i_keys _ _ (j_inv _ _ I)) in DF. apply dget_In in DF. unfold dmem in DF. destruct (dget tab symbol) as [sg|] eqn:ES; [|discriminate].
    assert (SG : sg <> []) by (destruct (i_deep _ _ (j_inv _ _ I)) as [_ D]; exact (proj1 (D symbol sg ES))).
    destruct (accepted_ex ds (j_ent _ _ I) refused_dec symbol) as (l & AC).
    exists l, sg, (found_text rep crep (FDefs sg)), (Some (FDefs sg)). split; [destruct sg; [contradiction|]; reflexivity|].
    split; [exact AC|]. split; [|apply found_ok]. assert (G := j_acc _ _ I _ _ AC). rewrite (getd_eq _ _ _ ES) in G. exact G.
  - intros ND. destruct (dget tab symbol) as [sg|] eqn:ES; [|reflexivity]. destruct ND. apply (i_keys _ _ (j_inv _ _ I)). apply dget_In. unfold dmem.
    rewrite ES. reflexivity.
Qed.
(*@ Example C195_find_ex :
  fst (find_symbols_verbose (fun _ _ _ => []) (fun s => s) quoted a_card 2 clash_files false false false false false [lit "A"; lit "simple.a"]) =
    clash_said ++ [ErrL (lit "simple.a: 1 errors encountered building symbol table.");
      OutL (lit "{'simple': {'1': {'simple': {'file': 'simple.a', 'line': 1, 'lognum': None, 'tagtype': ' ', 'card': <card>}}}}")].
Proof. vm_compute. reflexivity. Qed. @*)
Lemma C195_names_pf : forall extract upper rep card_rep fuel fs v begin end_ symbol files css ds,
  files <> [] -> Forall2 (source_cards fuel fs) files css -> files_defs upper files css ds -> begin = negb end_ ->
  let run := find_symbols_verbose extract upper rep card_rep fuel fs v begin end_ false false (symbol :: files) in
  (harmless ds -> exists tables ns names r,
     run = (tables ++ (if zlen names =? 0 then [] else [OutL (names_text rep names)]), Ok r) /\
     files_said upper rep card_rep fuel fs v true files ds tables ns /\
     StronglySorted str_lt names /\
     forall s, In s names <-> (exists d, In d ds /\ sd_tag d = s) /\
       ((begin = true /\ exists r, s = symbol ++ r) \/ (end_ = true /\ exists r, s = r ++ symbol))) /\
  (forall e, dies_of ds e -> exists ls, run = (ls, Err e) /\ broken upper rep card_rep fuel fs v true files ls e).
Proof.
  intros extract upper rep crep fuel fs v begin end_ symbol files css ds NE F FD BE. cbv zeta.
  assert (OR : begin || end_ = true) by (rewrite BE; destruct end_; reflexivity). assert (AN : begin && end_ = false) by (rewrite BE; destruct end_; reflexivity).
  unfold find_symbols_verbose. rewrite AN, !andb_false_r. cbn [andb orb]. destruct files as [|f0 files0]; [contradiction|]. set (files := f0 :: files0) in *.
  destruct (files_said_run upper rep crep fuel fs v true files css ds FD F) as [(tables & tab & ns & n & E & FS & I & H & _)|(ls & e & E & DO & BR)]; rewrite E.
  2:{ split; [intros H; destruct (dies_not_harmless _ _ DO H)|]. intros e' DO'. rewrite bind_err, (dies_fun _ _ _ DO' DO). eauto. }
  split; [|intros e DO; destruct (dies_not_harmless _ _ DO H)]. intros _. apply j_inv in I.
  destruct (C83_begin_end_pf extract tab symbol None begin end_ false (proj1 (i_deep _ _ I)) OR) as (l & EL & _ & SL & IL).
  exists tables, ns, l, (match l with [] => None | _ => Some (FList l) end).
  split; [|split; [exact FS|split; [exact (SL AN)|intros s; rewrite IL, (i_keys _ _ I); tauto]]].
  rewrite bind_ok. cbn [fst snd]. rewrite EL. destruct l as [|x l]; [reflexivity|]. rewrite zlen_cons. pose proof (zlen_nonneg l).
  destruct (Z.eqb_spec (1 + zlen l) 0); [lia|]. cbn [found_text fst snd]. rewrite list_ok. reflexivity.
Qed.
(*@ Example C195_names_ex :
  fst (find_symbols_verbose (fun _ _ _ => []) (fun s => s) quoted a_card 2 clash_files false true false false false [[]; lit "simple.a"; lit "complex.a"]) =
    clash_said ++ [ErrL (lit "simple.a: 1 errors encountered building symbol table."); ErrL (lit "complex.a: 0 errors encountered building symbol table.");
      OutL (lit "['A', 'C']")].
Proof. vm_compute. reflexivity. Qed. @*)
Lemma C195_fuzzy_pf : forall extract upper rep card_rep fuel fs v symbol files css ds,
  files <> [] -> Forall2 (source_cards fuel fs) files css -> files_defs upper files css ds ->
  let run := find_symbols_verbose extract upper rep card_rep fuel fs v false false true false (symbol :: files) in
  (harmless ds -> exists tables ns choices r, let names := map fst (extract symbol choices 10) in
     run = (tables ++ (if zlen names =? 0 then [] else [OutL (names_text rep names)]), Ok r) /\
     files_said upper rep card_rep fuel fs v true files ds tables ns /\ candidates ds choices) /\
  (forall e, dies_of ds e -> exists ls, run = (ls, Err e) /\ broken upper rep card_rep fuel fs v true files ls e).
Proof.
  intros extract upper rep crep fuel fs v symbol files css ds NE F FD. cbv zeta.
  unfold find_symbols_verbose. cbn [andb orb]. destruct files as [|f0 files0]; [contradiction|]. set (files := f0 :: files0) in *.
  destruct (files_said_run upper rep crep fuel fs v true files css ds FD F) as [(tables & tab & ns & n & E & FS & I & H & _)|(ls & e & E & DO & BR)]; rewrite E.
  2:{ split; [intros H; destruct (dies_not_harmless _ _ DO H)|]. intros e' DO'. rewrite bind_err, (dies_fun _ _ _ DO' DO). eauto. }
  split; [|intros e DO; destruct (dies_not_harmless _ _ DO H)]. intros _. apply j_inv in I.
  exists tables, ns, (get_absolute tab), (match map fst (extract symbol (get_absolute tab) 10) with [] => None | _ => Some (FList (map fst (extract symbol (get_absolute tab) 10))) end).
  split; [|split; [exact FS|exact (candidates_ok tab ds I)]].
  rewrite bind_ok. cbn [fst snd]. unfold find_symbol. cbn [negb andb orb].
  destruct (map fst (extract symbol (get_absolute tab) 10)) as [|x l]; [reflexivity|]. rewrite zlen_cons. pose proof (zlen_nonneg l).
  destruct (Z.eqb_spec (1 + zlen l) 0); [lia|]. cbn [found_text fst snd]. rewrite list_ok. reflexivity.
Qed.
(*@ Example C195_fuzzy_ex :
  fst (find_symbols_verbose (fun _ cs _ => map (fun c => (c, 1)) cs) (fun s => s) quoted a_card 2 clash_files false false false true false [lit "B"; lit "simple.a"; lit "complex.a"]) =
    clash_said ++ [ErrL (lit "simple.a: 1 errors encountered building symbol table."); ErrL (lit "complex.a: 0 errors encountered building symbol table.");
      OutL (lit "['A']")].
Proof. vm_compute. reflexivity. Qed. @*)
(** *** parse *)
Lemma C195_parse_pf : forall upper rep card_rep fuel fs v debug files css ds k,
  files <> [] -> Forall2 (source_cards fuel fs) files css -> files_defs upper files css ds ->
  count_of (fun c => ~ starred c /\ exists m, instr_is c m /\ ~ In m INSTRUCTIONS) (concat css) k ->
  let run := parse_run upper rep card_rep fuel fs v debug files in
  (harmless ds -> exists tables ns n ls,
     run = (tables ++ ls ++ [OutL (10 :: lit "Source lines: " ++ str_of_Z (zlen (concat css))); OutL (error_count (n + k))], Ok tt) /\
     files_said upper rep card_rep fuel fs v true files ds tables (ns ++ [n]) /\ files_report fuel fs v debug files ls) /\
  (forall e, dies_of ds e -> exists ls, run = (ls, Err e) /\ broken upper rep card_rep fuel fs v true files ls e).
Proof.
  intros upper rep crep fuel fs v debug files css ds k NE F FD CN. cbv zeta.
  unfold parse_run. destruct files as [|f0 files0]; [contradiction|]. set (files := f0 :: files0) in *.
  destruct (files_said_run upper rep crep fuel fs v true files css ds FD F) as [(tables & tab & ns & n & E & FS & I & H & EN)|(ls & e & E & DO & BR)]; rewrite E.
  2:{ split; [intros H; destruct (dies_not_harmless _ _ DO H)|]. intros e' DO'. rewrite bind_err, (dies_fun _ _ _ DO' DO). eauto. }
  split; [|intros e DO; destruct (dies_not_harmless _ _ DO H)]. intros _.
  assert (NN : ns <> []) by (intros ->; remember (@nil Z) as z eqn:EZ; destruct FS as [|? ? ? ns0 ? ? ? ? ? ? ? ? ? ? ? ?]; [discriminate NE + destruct NE; reflexivity|destruct ns0; discriminate EZ]).
  destruct (exists_last NN) as (ns1 & m & ->). rename ns1 into ns. clear NN.
  rewrite last_last in EN. subst n.
  destruct (files_fold (parse_card_run v debug) (fun cs s => fst s = zlen cs /\ exists n, count_of invalid_card cs n /\ snd s = m + n)
              v debug (parse_inv_step v debug m) fuel fs files css [] (0, m) F)
    as (ls & s & ER & R & I1 & n' & I2 & I3).
  { split; [reflexivity|]. exists 0. split; [constructor|cbn [snd]; lia]. }
  cbn [app] in I1, I2. assert (n' = k) by exact (count_unique _ _ _ _ I2 CN). subst n'.
  exists tables, ns, m, ls. split; [|auto]. rewrite bind_ok. cbn [fst snd]. rewrite ER, bind_ok. cbn [fst snd]. rewrite I1, I3. reflexivity.
Qed.
(*@ Example C195_parse_ex :
  parse_run (fun s => s) quoted a_card 2 clash_files false false [lit "complex.a"; lit "simple.a"] =
    ([ErrL (lit "complex.a: 0 errors encountered building symbol table.")] ++ clash_said ++ [ErrL (lit "simple.a: 1 errors encountered building symbol table.");
      OutL (10 :: lit "Source lines: 3"); OutL (lit "1 error encountered.")], Ok tt) /\
  parse_run (fun s => s) quoted a_card 2 clash_files false false [lit "simple.a"; lit "complex.a"] =
    (clash_said ++ [ErrL (lit "simple.a: 1 errors encountered building symbol table."); ErrL (lit "complex.a: 0 errors encountered building symbol table.");
      OutL (10 :: lit "Source lines: 3"); OutL (lit "0 errors encountered.")], Ok tt).
Proof. vm_compute. auto. Qed. @*)

(** *** the text is determined *)
Lemma described_fun upper c m ty m' ty' : described upper c m ty -> described upper c m' ty' -> m = m' /\ ty = ty'.
Proof.
  pose (N := fun s => count_occ Z.eq_dec s 44).
  assert (NA : forall a b, N (a ++ b) = (N a + N b)%nat) by (intros; apply count_occ_app).
  assert (NC : forall b, N (44 :: b) = S (N b)) by (intros; unfold N; apply count_occ_cons_eq; reflexivity).
  assert (N0 : forall a, ~ In 44 a -> N a = 0%nat) by (intros; apply count_occ_not_In; assumption).
  assert (T : forall s s', label_text c s -> label_text c s' -> s = s') by (intros s s' (l & L & ->) (l' & L' & ->); congruence).
  assert (CUT : forall p t p' t' : str, p ++ 44 :: t = p' ++ 44 :: t' -> ~ In 44 p -> ~ In 44 p' -> p = p').
  { intros p t p' t' E NP NP'. destruct (two_splits _ _ _ _ _ _ E) as [[X _]|[(q & ->)|(q & ->)]]; [exact X| |]; exfalso;
      [apply NP'|apply NP]; apply in_or_app; right; left; reflexivity. }
  assert (WF : forall s tt tag, well_formed upper s tt tag -> upper s = s /\ (N s <= 1)%nat /\
     forall p t, s = p ++ 44 :: t -> ~ In 44 p -> In p (map lit ["B"; "F"; "S"; "Z"]%string)).
  { intros s tt tag (U & [(NI & _)|(-> & NI & IP)]); (split; [exact U|]).
    - rewrite (N0 _ NI). split; [lia|]. intros p t -> _. destruct NI. apply in_or_app. right. left. reflexivity.
    - assert (NP := prefix_no_comma _ IP). rewrite NA, NC, (N0 _ NI), (N0 _ NP). split; [lia|]. intros p t E NP'.
      rewrite (CUT _ _ _ _ (eq_sym E) NP' NP). exact IP. }
  assert (LX : forall p, In p (map lit ["L"; "X"]%string) -> ~ In p (map lit ["B"; "F"; "S"; "Z"]%string)).
  { intros p [<-|[<-|[]]] Q; cbn in Q; repeat (destruct Q as [Q|Q]; [discriminate Q|]); destruct Q. }
  assert (BF : forall p, In p (map lit ["B"; "F"; "S"; "Z"]%string) \/ In p (map lit ["L"; "X"]%string) -> In p (map lit ["B"; "F"; "L"; "S"; "X"; "Z"]%string)).
  { cbn. intros p. tauto. }
  assert (WU : forall s tt tag tt' tag', label_text c s -> well_formed upper s tt tag -> well_formed upper s tt' tag' -> tt = tt').
  { intros s tt tag tt' tag' (l & _ & ->) W W'. apply label_tag_spec in W. apply label_tag_spec in W'. congruence. }
  pose (K := fun s m ty => (upper s <> s /\ m = lit "*** ERROR: Symbol " ++ s ++ lit " is ill-formed (case)!" /\ ty = None) \/
    (upper s = s /\ (2 <= N s)%nat /\ m = lit "*** ERROR: Symbol " ++ s ++ lit " is illegal, too many commas!" /\ ty = Some (lit " ")) \/
    (upper s = s /\ N s = 1%nat /\ (exists p t, s = p ++ 44 :: t /\ ~ In 44 p /\ ~ In p (map lit ["B"; "F"; "L"; "S"; "X"; "Z"]%string)) /\
       m = lit "*** ERROR: Symbol " ++ s ++ lit " is ill-formed (tag prefix)!" /\ ty = Some (lit " ")) \/
    (upper s = s /\ N s = 1%nat /\ (exists p t, s = p ++ 44 :: t /\ ~ In 44 p /\ In p (map lit ["L"; "X"]%string)) /\
       m = lit "*** ERROR: Symbol " ++ s ++ lit " has unsupported tag prefix!" /\ ty = Some (lit " ")) \/
    (exists tt tag, well_formed upper s tt tag /\ m = lit "*** ERROR: Symbol " ++ s ++ lit " has no operation!" /\ ty = Some tt)).
  assert (C : forall m ty, described upper c m ty -> exists s, label_text c s /\ K s m ty).
  { intros m0 ty0 [s L U|s x y z L U E|s p t L U E NP NT NI|s p t L U E NT IP|s tt tag L W O]; exists s; (split; [exact L|]); unfold K.
    - left. auto.
    - right. left. split; [exact U|]. split; [|auto]. rewrite E, NA, NC, NA, NC. lia.
    - right. right. left. split; [exact U|]. split; [rewrite E, NA, NC, (N0 _ NP), (N0 _ NT); reflexivity|]. split; [eauto|auto].
    - assert (NP := lx_no_comma _ IP). right. right. right. left. split; [exact U|]. split; [rewrite E, NA, NC, (N0 _ NP), (N0 _ NT); reflexivity|]. split; [eauto|auto].
    - right. right. right. right. eauto. }
  intros A B. apply C in A. apply C in B. destruct A as (s & L & A), B as (s' & L' & B). rewrite <- (T _ _ L L') in B. clear L' s' C T. unfold K in A, B. clear K.
  destruct A as [(U & -> & ->)|[(U & H & -> & ->)|[(U & H & (p & t & E & NP & NI) & -> & ->)|[(U & H & (p & t & E & NP & NI) & -> & ->)|(tt & tag & W & -> & ->)]]]];
  destruct B as [(U' & -> & ->)|[(U' & H' & -> & ->)|[(U' & H' & (p' & t' & E' & NP' & NI') & -> & ->)|[(U' & H' & (p' & t' & E' & NP' & NI') & -> & ->)|(tt' & tag' & W' & -> & ->)]]]];
  try (split; reflexivity); try contradiction; try (exfalso; lia).
  - apply WF in W'. destruct W' as (U' & _). contradiction.
  - apply WF in W'. exfalso. lia.
  - exfalso. rewrite E in E'. apply CUT in E'; [|assumption|assumption]. subst p'. apply NI, BF. right. exact NI'.
  - exfalso. apply WF in W'. destruct W' as (_ & _ & W'). apply NI, BF. left. exact (W' _ _ E NP).
  - exfalso. rewrite E in E'. apply CUT in E'; [|assumption|assumption]. subst p'. apply NI', BF. right. exact NI.
  - exfalso. apply WF in W'. destruct W' as (_ & _ & W'). exact (LX _ NI (W' _ _ E NP)).
  - apply WF in W. destruct W as (U & _). contradiction.
  - apply WF in W. exfalso. lia.
  - exfalso. apply WF in W. destruct W as (_ & _ & W). apply NI', BF. left. exact (W _ _ E' NP').
  - exfalso. apply WF in W. destruct W as (_ & _ & W). exact (LX _ NI' (W _ _ E' NP')).
  - rewrite (WU _ _ _ _ _ L W W'). split; reflexivity.
Qed.
Lemma described_not_defines upper c m ty tag kind tt : proper_card c -> ~ starred c -> described upper c m ty -> defines upper c tag kind tt -> False.
Proof.
  intros PC NS D DF. assert (LE : label_error upper c) by (apply (proj2 (C112_one_reason_pf upper c)); [exact PC|split; [exact NS|exists m; exact (described_complaint _ _ _ _ D)]]).
  destruct (build_card_cases upper [] c PC [] [] 0) as [(_ & NE & _)|[(_ & _ & ND)|(tag' & kind' & tt' & cmd & en & _ & NE & _)]]; [contradiction|exact (ND _ _ _ DF)|contradiction].
Qed.
Lemma text_fun rep crep c ty t t' : definition_text rep crep c ty t -> definition_text rep crep c ty t' -> t = t'.
Proof.
  intros (lg & f & l & g & L & F & LL & G & ->) (lg' & f' & l' & g' & L' & F' & LL' & G' & ->).
  assert (lg = lg') by (destruct L as [[A ->]|(s & A & ->)], L' as [[A' ->]|(s' & A' & ->)]; congruence). subst lg'.
  rewrite (none_unique _ _ _ _ F F'), (none_unique _ _ _ _ LL LL'), (none_unique _ _ _ _ G G'). reflexivity.
Qed.
Lemma accepted_fun sym ds l : accepted sym ds l -> forall l', accepted sym ds l' -> l = l'.
Proof.
  induction 1 as [|ds d l e A IH T N EF|ds d l A IH T]; intros l' A'.
  - inversion A' as [|ds1 d1 l1 e A1 T N EF E|ds1 d1 l1 A1 T E]; [reflexivity| |]; destruct ds1; discriminate.
  - apply accepted_snoc in A'. destruct A' as [(l0 & e' & A' & _ & _ & EF' & ->)|(A' & [T'|T'])]; [|contradiction|contradiction].
    rewrite (entry_unique _ _ _ _ EF EF'), (IH _ A'). reflexivity.
  - apply accepted_snoc in A'. destruct A' as [(l0 & e' & A' & T' & N' & _)|(A' & _)]; [destruct T; contradiction|exact (IH _ A')].
Qed.
Lemma items_fun rep crep ks i i' : Forall2 (entry_item rep crep) ks i -> Forall2 (entry_item rep crep) ks i' -> i = i'.
Proof.
  intros F. revert i'. induction F as [|x [k y] d i E F IH]; intros i' F'; inversion F' as [|? [k' y'] ? ? E' F2]; subst; [reflexivity|].
  rewrite (IH _ F2). f_equal. destruct E as [E (f & lg & g & N1 & N2 & -> & E2)], E' as [E' (f' & lg' & g' & N1' & N2' & -> & E2')].
  cbn [fst snd] in *. subst k k' y y'. rewrite (none_unique _ _ _ _ N1 N1'). f_equal. f_equal.
  assert (lg = lg') as -> by (destruct (e_lognum (snd x)); congruence). reflexivity.
Qed.
Lemma previous_fun rep crep ds x t t' : previous rep crep ds x t -> previous rep crep ds x t' -> t = t'.
Proof.
  intros (l & ks & i & A & G & F & ->) (l' & ks' & i' & A' & G' & F' & ->). rewrite (accepted_fun _ _ _ A _ A') in G.
  assert (ks = ks').
  { revert G G'. apply grouped_unique. intros es e e' (b & ->) (b' & E). apply app_inj_tail in E. apply E. }
  subst ks'. rewrite (items_fun _ _ _ _ _ F F'). reflexivity.
Qed.
Lemma cards_snoc upper rep crep ds seg s0 cs c d ls n : cards_said upper rep crep ds seg s0 (cs ++ [c]) d ls n ->
  exists d0 ls0 n0, cards_said upper rep crep ds seg s0 cs d0 ls0 n0 /\
  ((d = d0 /\ n = n0 + 1 /\ ~ starred c /\ exists m ty t, described upper c m ty /\ definition_text rep crep c ty t /\ ls = ls0 ++ [m; lit "Current definition: " ++ t]) \/
   (d = d0 /\ n = n0 /\ ls = ls0 /\ (starred c \/ forall m ty, ~ described upper c m ty) /\ (forall tag kind tt, ~ defines upper c tag kind tt)) \/
   (exists tag kind tt ss, let x := mksdef tag seg ss kind tt c in d = d0 ++ [x] /\ defines upper c tag kind tt /\ current_subseg s0 (cs ++ [c]) ss /\
      ((~ refused (ds ++ d0) x /\ ls = ls0 /\ n = n0) \/
       (refused (ds ++ d0) x /\ n = n0 + 1 /\ exists op p t, card_get c "operation" = Ok (RStr op) /\ op <> lit "EQUALS" /\ previous rep crep (ds ++ d0) x p /\
          definition_text rep crep c (Some tt) t /\
          ls = ls0 ++ [lit "*** ERROR: Symbol " ++ tag ++ lit " is multiply-defined!"; lit "Previous definitions: " ++ p;
              lit "Current definition: " ++ t; lit "command: " ++ op])))).
Proof.
  intros H. remember (cs ++ [c]) as k eqn:E. destruct H as [|cs1 d ls n c1 m ty t H NS DS DT|cs1 d ls n c1 H Q ND|cs1 d ls n c1 tag kind tt ss H DF CU NR|cs1 d ls n c1 tag kind tt ss op p t H DF CU R EO NE P DT].
  - destruct cs; discriminate E.
  - apply snoc_inj in E. destruct E as [-> ->]. exists d, ls, n. split; [exact H|]. left. eauto 12.
  - apply snoc_inj in E. destruct E as [-> ->]. exists d, ls, n. split; [exact H|]. right. left. auto.
  - apply snoc_inj in E. destruct E as [-> ->]. exists d, ls, n. split; [exact H|]. right. right. exists tag, kind, tt, ss. cbv zeta. auto 10.
  - apply snoc_inj in E. destruct E as [-> ->]. exists d, ls, n. split; [exact H|]. right. right. exists tag, kind, tt, ss. cbv zeta. split; [reflexivity|].
    split; [exact DF|]. split; [exact CU|]. right. split; [exact R|]. split; [reflexivity|]. exists op, p, t. auto.
Qed.
Lemma cards_fun upper rep crep ds seg s0 cs : Forall proper_card cs -> forall d ls n d' ls' n',
  cards_said upper rep crep ds seg s0 cs d ls n -> cards_said upper rep crep ds seg s0 cs d' ls' n' -> d = d' /\ ls = ls' /\ n = n'.
Proof.
  induction cs as [|c cs IH] using rev_ind; intros F d ls n d' ls' n' H H'.
  - assert (X : forall d ls n, cards_said upper rep crep ds seg s0 [] d ls n -> d = [] /\ ls = [] /\ n = 0).
    { clear. intros d ls n H. remember (@nil card) as k eqn:E. destruct H as [|cs1 ? ? ? ? ? ? ? ? ? ? ?|cs1 ? ? ? ? ? ? ?|cs1 ? ? ? ? ? ? ? ? ? ? ? ?|cs1 ? ? ? ? ? ? ? ? ? ? ? ? ? ? ? ? ? ? ?]; [auto|destruct cs1; discriminate E..]. }
    destruct (X _ _ _ H) as (-> & -> & ->), (X _ _ _ H') as (-> & -> & ->). auto.
  - apply Forall_app in F. destruct F as [F PC]. apply Forall_inv in PC.
    destruct (cards_snoc _ _ _ _ _ _ _ _ _ _ _ H) as (d0 & ls0 & n0 & H0 & C). destruct (cards_snoc _ _ _ _ _ _ _ _ _ _ _ H') as (d1 & ls1 & n1 & H1 & C').
    destruct (IH F _ _ _ _ _ _ H0 H1) as (<- & <- & <-). clear IH H H' H0 H1.
    destruct C as [(-> & -> & NS & m & ty & t & DS & DT & ->)|[(-> & -> & -> & Q & ND)|(tag & kind & tt & ss & -> & DF & CU & C)]];
    destruct C' as [(-> & -> & NS' & m' & ty' & t' & DS' & DT' & ->)|[(-> & -> & -> & Q' & ND')|(tag' & kind' & tt' & ss' & -> & DF' & CU' & C')]].
    + destruct (described_fun _ _ _ _ _ _ DS DS') as [<- <-]. rewrite (text_fun _ _ _ _ _ _ DT DT'). auto.
    + destruct Q' as [Q'|Q']; [contradiction|destruct (Q' _ _ DS)].
    + destruct (described_not_defines _ _ _ _ _ _ _ PC NS DS DF').
    + destruct Q as [Q|Q]; [contradiction|destruct (Q _ _ DS')].
    + auto.
    + destruct (ND _ _ _ DF').
    + destruct (described_not_defines _ _ _ _ _ _ _ PC NS' DS' DF).
    + destruct (ND' _ _ _ DF).
    + destruct (defines_fun _ _ _ _ _ _ _ _ DF DF') as (<- & <- & <-). apply current_ok in CU. apply current_ok in CU'. assert (EQ : ss' = ss) by congruence. clear CU CU'. subst ss'.
      destruct C as [(NR & -> & ->)|(R & -> & op & p & t & EO & _ & P & DT & ->)], C' as [(NR' & -> & ->)|(R' & -> & op' & p' & t' & EO' & _ & P' & DT' & ->)]; try contradiction; [auto|].
      assert (op' = op) by congruence. subst op'. rewrite (previous_fun _ _ _ _ _ _ P P'), (text_fun _ _ _ _ _ _ DT DT'). auto.
Qed.
Lemma files_fun upper rep crep fuel fs v counts files ds ls ns : files_said upper rep crep fuel fs v counts files ds ls ns ->
  forall ds' ls' ns', files_said upper rep crep fuel fs v counts files ds' ls' ns' -> ds = ds' /\ ls = ls' /\ ns = ns'.
Proof.
  induction 1 as [|files ds ls ns f seg log cs d out n FS IH RL SC SG CS]; intros ds' ls' ns' H.
  - remember (@nil str) as k eqn:E. destruct H as [|files1 ? ? ? ? ? ? ? ? ? ? ? ? ? ? ?]; [auto|destruct files1; discriminate E].
  - remember (files ++ [f]) as k eqn:E. destruct H as [|files1 ds1 ls1 ns1 f1 seg1 log1 cs1 d1 out1 n1 FS1 RL1 SC1 SG1 CS1]; [destruct files; discriminate E|].
    apply snoc_inj in E. destruct E as [-> ->]. destruct (IH _ _ _ FS1) as (<- & <- & <-).
    rewrite (log_unique _ _ _ _ RL1 RL). rewrite (cards_unique _ _ _ _ _ SC1 SC), (seg_unique _ _ _ SG1 SG) in CS1.
    destruct (cards_fun _ _ _ _ _ _ _ (source_proper _ _ _ _ SC) _ _ _ _ _ _ CS CS1) as (<- & <- & <-). auto.
Qed.
Lemma cards_prefix upper rep crep ds seg s0 a b : forall d ls n, cards_said upper rep crep ds seg s0 (a ++ b) d ls n ->
  exists d0 ls0 n0, cards_said upper rep crep ds seg s0 a d0 ls0 n0.
Proof.
  induction b as [|c b IH] using rev_ind; intros d ls n H; [rewrite app_nil_r in H; eauto|].
  rewrite app_assoc in H. apply cards_snoc in H. destruct H as (d0 & ls0 & n0 & H & _). eauto.
Qed.
Lemma files_prefix upper rep crep fuel fs v counts a b : forall ds ls ns, files_said upper rep crep fuel fs v counts (a ++ b) ds ls ns ->
  exists ds0 ls0 ns0, files_said upper rep crep fuel fs v counts a ds0 ls0 ns0.
Proof.
  induction b as [|f b IH] using rev_ind; intros ds ls ns H; [rewrite app_nil_r in H; eauto|].
  rewrite app_assoc in H. remember ((a ++ b) ++ [f]) as k eqn:E. destruct H as [|files1 ds1 ls1 ns1 f1 seg1 log1 cs1 d1 out1 n1 FS1 RL1 SC1 SG1 CS1]; [destruct (a ++ b); discriminate E|].
  apply snoc_inj in E. destruct E as [-> _]. exact (IH _ _ _ FS1).
Qed.
Lemma said_not_fatal upper rep crep ds seg s0 cs c b d ls n d0 ls0 n0 tag kind tt ss e : Forall proper_card (cs ++ c :: b) ->
  cards_said upper rep crep ds seg s0 (cs ++ c :: b) d ls n -> cards_said upper rep crep ds seg s0 cs d0 ls0 n0 ->
  defines upper c tag kind tt -> current_subseg s0 (cs ++ [c]) ss -> fatal_at (ds ++ d0) (mksdef tag seg ss kind tt c) e -> False.
Proof.
  intros F H H0 DF CU (R & EO & _). cbn [sd_card] in EO. change (c :: b) with ([c] ++ b) in H, F. rewrite app_assoc in H, F.
  apply Forall_app in F. destruct F as [F _]. apply Forall_app in F. destruct F as [F PC]. apply Forall_inv in PC.
  destruct (cards_prefix _ _ _ _ _ _ _ _ _ _ _ H) as (d1 & ls1 & n1 & H1). apply cards_snoc in H1. destruct H1 as (d2 & ls2 & n2 & H2 & C).
  destruct (cards_fun _ _ _ _ _ _ _ F _ _ _ _ _ _ H0 H2) as (<- & <- & <-).
  destruct C as [(_ & _ & NS & m & ty & t & DS & _)|[(_ & _ & _ & _ & ND)|(tag' & kind' & tt' & ss' & _ & DF' & CU' & C)]].
  - exact (described_not_defines _ _ _ _ _ _ _ PC NS DS DF).
  - exact (ND _ _ _ DF).
  - destruct (defines_fun _ _ _ _ _ _ _ _ DF DF') as (<- & <- & <-). apply current_ok in CU. apply current_ok in CU'. assert (EQ : ss' = ss) by congruence. clear CU CU'. subst ss'.
    destruct C as [(NR & _)|(_ & _ & op & p & t & EO' & NE & _)]; [contradiction|]. congruence.
Qed.
Lemma C195_determined_pf : forall upper rep card_rep fuel fs v counts files,
  (forall ds ls ns ds' ls' ns', files_said upper rep card_rep fuel fs v counts files ds ls ns ->
     files_said upper rep card_rep fuel fs v counts files ds' ls' ns' -> ds = ds' /\ ls = ls' /\ ns = ns') /\
  (forall ls e ls' e', broken upper rep card_rep fuel fs v counts files ls e -> broken upper rep card_rep fuel fs v counts files ls' e' -> ls = ls' /\ e = e') /\
  (forall ds ls ns ls' e, files_said upper rep card_rep fuel fs v counts files ds ls ns -> ~ broken upper rep card_rep fuel fs v counts files ls' e).
Proof.
  intros upper rep crep fuel fs v counts files.
  assert (NB : forall pre f post ds0 ls0 ns0 ds ls ns seg cs c b d out n tag kind tt ss e,
    files_said upper rep crep fuel fs v counts (pre ++ f :: post) ds0 ls0 ns0 -> files_said upper rep crep fuel fs v counts pre ds ls ns ->
    source_cards fuel fs f (cs ++ c :: b) -> segment_of f seg -> cards_said upper rep crep ds seg (lit "1") cs d out n ->
    defines upper c tag kind tt -> current_subseg (lit "1") (cs ++ [c]) ss -> fatal_at (ds ++ d) (mksdef tag seg ss kind tt c) e -> False).
  { intros pre f post ds0 ls0 ns0 ds ls ns seg cs c b d out n tag kind tt ss e H FS SC SG CS DF CU FT.
    change (f :: post) with ([f] ++ post) in H. rewrite app_assoc in H. destruct (files_prefix _ _ _ _ _ _ _ _ _ _ _ _ H) as (ds1 & ls1 & ns1 & H1). clear H.
    remember (pre ++ [f]) as k eqn:E. destruct H1 as [|files1 ds1 ls1 ns1 f1 seg1 log1 cs1 d1 out1 n1 FS1 RL1 SC1 SG1 CS1]; [destruct pre; discriminate E|].
    apply snoc_inj in E. destruct E as [-> ->]. destruct (files_fun _ _ _ _ _ _ _ _ _ _ _ FS _ _ _ FS1) as (<- & <- & <-).
    rewrite (cards_unique _ _ _ _ _ SC1 SC), (seg_unique _ _ _ SG1 SG) in CS1.
    exact (said_not_fatal _ _ _ _ _ _ _ _ _ _ _ _ _ _ _ _ _ _ _ _ (source_proper _ _ _ _ SC) CS1 CS DF CU FT). }
  split; [intros ds ls ns ds' ls' ns' H; exact (files_fun _ _ _ _ _ _ _ _ _ _ _ H ds' ls' ns')|]. split.
  - intros ls e ls' e' (pre & f & post & ds & l & ns & seg & log & cs & c & b & d & out & n & tag & kind & tt & ss & -> & FS & RL & SC & SG & CS & DF & CU & FT & ->)
      (pre' & f' & post' & ds' & l' & ns' & seg' & log' & cs' & c' & b' & d' & out' & n' & tag' & kind' & tt' & ss' & E & FS' & RL' & SC' & SG' & CS' & DF' & CU' & FT' & ->).
    destruct (two_splits _ _ _ _ _ _ E) as [[<- <-]|[(m & ->)|(m & ->)]].
    + destruct (files_fun _ _ _ _ _ _ _ _ _ _ _ FS _ _ _ FS') as (<- & <- & <-). rewrite (log_unique _ _ _ _ RL' RL). assert (EC := cards_unique _ _ _ _ _ SC SC').
      assert (X := seg_unique _ _ _ SG' SG). subst seg'. assert (PC := source_proper _ _ _ _ SC). assert (PC' := source_proper _ _ _ _ SC').
      destruct (two_splits _ _ _ _ _ _ EC) as [[<- <-]|[(m & ->)|(m & ->)]].
      * assert (PR : Forall proper_card cs) by (apply Forall_app in PC; apply PC).
        destruct (cards_fun _ _ _ _ _ _ _ PR _ _ _ _ _ _ CS CS') as (<- & <- & <-). split; [reflexivity|].
        destruct (defines_fun _ _ _ _ _ _ _ _ DF DF') as (<- & <- & <-). apply current_ok in CU. apply current_ok in CU'. assert (EQ : ss' = ss) by congruence. clear CU CU'. subst ss'.
        exact (fatal_fun _ _ _ _ FT FT').
      * exfalso. apply Forall_app in PC'. exact (said_not_fatal _ _ _ _ _ _ _ _ _ _ _ _ _ _ _ _ _ _ _ _ (proj1 PC') CS' CS DF CU FT).
      * exfalso. apply Forall_app in PC. exact (said_not_fatal _ _ _ _ _ _ _ _ _ _ _ _ _ _ _ _ _ _ _ _ (proj1 PC) CS CS' DF' CU' FT').
    + exfalso. eapply NB; [exact FS'|exact FS|exact SC|exact SG|exact CS|exact DF|exact CU|exact FT].
    + exfalso. eapply NB; [exact FS|exact FS'|exact SC'|exact SG'|exact CS'|exact DF'|exact CU'|exact FT'].
  - intros ds0 ls0 ns0 ls' e H (pre & f & post & ds & l & ns & seg & log & cs & c & b & d & out & n & tag & kind & tt & ss & -> & FS & RL & SC & SG & CS & DF & CU & FT & ->).
    eapply NB; [exact H|exact FS|exact SC|exact SG|exact CS|exact DF|exact CU|exact FT].
Qed.
(*@ Example C195_determined_ex : forall ls e,
  broken (fun s => s) quoted a_card 2 clash_files false false [lit "simple.a"; lit "simple.b"] ls e -> ls = clash_said /\ e = KeyError.
Proof.
  intros ls e B. pose proof (C195_list (fun s => s) quoted a_card 2 clash_files false [lit "simple.a"; lit "simple.b"]) as H. cbv zeta in H.
  assert (R : list_symbols_run (fun s => s) quoted a_card 2 clash_files false [lit "simple.a"; lit "simple.b"] = (clash_said, Err KeyError)) by (vm_compute; reflexivity).
  rewrite R in H. clear R.
  assert (F : exists css, Forall2 (source_cards 2 clash_files) [lit "simple.a"; lit "simple.b"] css).
  { destruct (argus_deck_new 2 clash_files None (Some (lit "simple.a")) 120 [1; 2; 8; 9; 20; 33; 47; 61; 76; 81] ArgusCls) as [[[d1 s1] c1]|x] eqn:E1; [|vm_compute in E1; discriminate E1].
    destruct (argus_deck_new 2 clash_files None (Some (lit "simple.b")) 120 [1; 2; 8; 9; 20; 33; 47; 61; 76; 81] ArgusCls) as [[[d2 s2] c2]|x] eqn:E2; [|vm_compute in E2; discriminate E2].
    exists [d_cards d1; d_cards d2]. constructor; [exists d1, s1, c1; auto|]. constructor; [exists d2, s2, c2; auto|constructor]. }
  destruct F as (css & F). destruct (C194_definitions_pf (fun s => s) _ _ _ _ F) as (ds & FD & _).
  destruct (H css ds ltac:(discriminate) F FD) as [H1 H2]. clear H.
  destruct (harmless_dec_run _ _ _ _ _ _ FD F) as [HL|(e' & DO)].
  - destruct (H1 HL) as (t & ns & out & es & E & _). discriminate E.
  - destruct (H2 _ DO) as (ls' & E & B'). destruct (proj1 (proj2 (C195_determined _ _ _ _ _ _ _ _)) _ _ _ _ B B') as [-> ->]. split; congruence.
Qed. @*)

(** *** the table that a failing build leaves *)
Lemma C113_exact_pf : forall upper fuel fs files css ds tab ns f seg cs pre x post e,
  Forall2 (source_cards fuel fs) files css -> files_defs upper files css ds -> build_all upper fuel fs files = Ok (tab, ns) ->
  source_cards fuel fs f cs -> segment_of f seg -> deck_defs upper seg (lit "1") cs (pre ++ x :: post) ->
  harmless (ds ++ pre) -> fatal_at (ds ++ pre) x e ->
  exists ms tab', build_table_run upper fuel fs f tab = (ms, tab', Err e) /\
    (forall t, dget tab' t <> None <-> exists d, In d (ds ++ pre) /\ sd_tag d = t) /\
    forall t s u k en, get4 tab' t s u k = Some en <-> in_force (ds ++ pre) t s u k en.
Proof.
  intros upper fuel fs files css ds tab ns f seg cs pre x post e F FD EA SC SG DD H FT.
  assert (Q := all_quiet upper (fun s => s) (fun _ => []) fuel fs false files). rewrite EA in Q. destruct Q as (ls & ms & bs & last & EB & _).
  destruct (files_said_run upper (fun s => s) (fun _ => []) fuel fs false false files css ds FD F) as [(ls' & tab0 & ns' & n & E & _ & I & H0 & _)|(ls' & e' & E & _)];
    rewrite EB in E; [|discriminate]. assert (tab0 = tab) by congruence. subst tab0. clear E EB.
  destruct (build_table_run upper fuel fs f tab) as [[ms1 tab'] r] eqn:ER. exists ms1, tab'.
  destruct (C135_blocks_pf upper (fun s => s) (fun _ => []) _ _ _ _ _ _ _ ER) as (blocks & _ & ED).
  assert (X : dump_table_run upper (fun s => s) (fun _ => []) fuel fs f tab =
      let '(ms, st, r) := dump_run upper (fun s => s) (fun _ => []) seg (lit "1", tab, 0) cs in
      (ms, snd (fst st), match r with Ok _ => Ok (snd st) | Err e => Err e end)).
  { destruct SC as (dk & sec & c8 & SC & ->). unfold dump_table_run. apply seg_ok in SG. cbv zeta. rewrite SG.
    unfold DEFAULT_WIDTH, DEFAULT_FIELDS. rewrite SC. reflexivity. }
  rewrite ED in X. clear ED.
  destruct (run_said upper (fun s => s) (fun _ => []) seg (lit "1") cs (source_proper _ _ _ _ SC) tab ds 0 I)
    as [(said & tab1 & d' & m & ERun & CS & DD' & I' & NF)|(e1 & a & c & b & said & tab1 & d' & k & m & tag & kind & tt & ss & post1 & ERun & EC & CS & DD' & I' & DF & CU & FT' & NF)];
    rewrite ERun in X; cbn [fst snd] in X.
  - exfalso. assert (Y := deck_defs_fun _ _ _ _ _ DD _ DD'). exact (NF _ _ _ _ (eq_sym Y) FT).
  - assert (Y := deck_defs_fun _ _ _ _ _ DD _ DD'). assert (Y2 : d' = pre /\ mksdef tag seg ss kind tt c = x).
    { destruct (two_splits _ _ _ _ _ _ Y) as [[<- <-]|[(q & ->)|(q & ->)]]; [auto| |]; exfalso.
      - exact (NF _ _ _ _ eq_refl FT).
      - rewrite app_assoc in H. exact (H _ _ _ _ eq_refl FT'). }
    destruct Y2 as [-> <-]. rewrite <- (fatal_fun _ _ _ _ FT' FT). assert (tab' = tab1) by congruence. subst tab'. split; [congruence|].
    split; [|exact (i_get _ _ (j_inv _ _ I'))]. intros t. rewrite <- (i_keys _ _ (j_inv _ _ I')), <- dget_In. unfold dmem.
    destruct (dget tab1 t); split; congruence.
Qed.
(*@ Example C113_exact_ex :
  let fs := fun f => if eqb f (lit "simple.a") then Some (lit "        A          DEC          1" ++ [10] ++ lit "        A          ASSIGN       2" ++ [10] ++
                        lit "        A          EQUALS       1" ++ [10] ++ lit "        B          DEC          1" ++ [10]) else None in
  let '(_, tab, r) := build_table_run (fun s => s) 2 fs (lit "simple.a") [] in
  r = Err KeyError /\ dkeys tab = [lit "A"] /\ option_map e_line (get4 tab (lit "A") (lit "simple") (lit "1") (lit "simple")) = Some 1 /\
  option_map e_line (get4 tab (lit "A") (lit "simple") (lit "1") (lit "complex")) = Some 2.
Proof. vm_compute. auto. Qed. @*)
