From Coq Require Import ZArith List Bool Lia.
From Verif Require Import Py LPy MCards SCards LInstructions LCards LDeck MSymbols SSymbols LSymBuild LSymQuery MTools STools LTools LToolSym MDiag SDiag.
#[local] Arguments Z.add : simpl never.
#[local] Arguments Z.sub : simpl never.
#[local] Arguments Z.mul : simpl never.
#[local] Arguments Z.pow : simpl never.

(** *** one label *)
Lemma label_message_tag upper l :
  label_message upper (remove_char 32 (strip l)) = None <-> label_tag upper l <> None.
Proof.
  unfold label_message, label_tag. cbv zeta. set (s := remove_char 32 (strip l)).
  destruct (negb (eqb (upper s) s)); [split; [discriminate|congruence]|].
  destruct (has_char 44 s); [|split; [discriminate|reflexivity]].
  destruct (1 <? count_char 44 s); [split; [discriminate|congruence]|].
  destruct (negb (inb (nth 0 (split_on 44 s) []) TAG_PREFIXES)); [split; [discriminate|congruence]|].
  destruct (inb (nth 0 (split_on 44 s) []) (map lit ["L"; "X"]%string)); [split; [discriminate|congruence]|].
  split; [discriminate|reflexivity].
Qed.
Lemma two_commas (s : str) : 1 < count_char 44 s -> exists x y z : str, s = x ++ 44 :: y ++ 44 :: z.
Proof.
  intros C. assert (I : In 44 s).
  { destruct (in_dec Z.eq_dec 44 s) as [I|N]; [exact I|]. rewrite (count_zero 44 s N) in C. lia. }
  destruct (first_split 44 s I) as (x & r & -> & NX). rewrite count_app, count_cons, (count_zero 44 x NX) in C.
  assert (I2 : In 44 r).
  { destruct (in_dec Z.eq_dec 44 r) as [J|N]; [exact J|]. rewrite (count_zero 44 r N) in C. lia. }
  destruct (first_split 44 r I2) as (y & z & -> & _). exists x, y, z. reflexivity.
Qed.
Lemma one_comma (s : str) : In 44 s -> ~ 1 < count_char 44 s -> exists p t : str, s = p ++ 44 :: t /\ ~ In 44 p /\ ~ In 44 t.
Proof.
  intros I C. destruct (first_split 44 s I) as (p & t & -> & NP). exists p, t. split; [reflexivity|]. split; [exact NP|].
  intros J. rewrite count_app, count_cons in C. pose proof (count_in 44 t J). pose proof (count_nonneg 44 p). lia.
Qed.
Lemma lx_no_comma p : In p (map lit ["L"; "X"]%string) -> ~ In 44 p.
Proof. cbn [map In]. intros [<-|[<-|[]]] [H|[]]; discriminate. Qed.
Lemma lx_prefix p : In p (map lit ["L"; "X"]%string) -> inb p TAG_PREFIXES = true.
Proof. cbn [map In]. intros [<-|[<-|[]]]; reflexivity. Qed.

Lemma complaint_label upper c l m : card_get c "label" = Ok (RStr l) -> complaint upper c m ->
  match label_message upper (remove_char 32 (strip l)) with
  | Some m' => m = m'
  | None => m = error_text (remove_char 32 (strip l)) " has no operation!" /\ card_get c "operation" = Ok RNone
  end.
Proof.
  intros EL CP.
  assert (LT : forall s, label_text c s -> s = remove_char 32 (strip l)).
  { intros s (l' & E & ->). assert (l' = l) by congruence. subst l'. reflexivity. }
  unfold label_message. cbv zeta.
  destruct CP as [s T U|s x y z T U E|s p t T U E NP NT I|s p t T U E NT I|s ty tag T W O]; rewrite <- (LT s T); clear LT.
  - destruct (eqb (upper s) s) eqn:EU; [apply eqb_ok in EU; contradiction|]. reflexivity.
  - rewrite U, eqb_refl. cbn [negb].
    assert (I : In 44 s) by (rewrite E; apply in_or_app; right; left; reflexivity).
    rewrite (proj2 (has_char_In 44 s) I).
    assert (C : 1 < count_char 44 s).
    { rewrite E, count_app, count_cons, count_app, count_cons. pose proof (count_nonneg 44 x). pose proof (count_nonneg 44 y).
      pose proof (count_nonneg 44 z). lia. }
    apply Z.ltb_lt in C. rewrite C. reflexivity.
  - rewrite U, eqb_refl. cbn [negb].
    assert (J : In 44 s) by (rewrite E; apply in_or_app; right; left; reflexivity).
    rewrite (proj2 (has_char_In 44 s) J).
    replace (1 <? count_char 44 s) with false
      by (symmetry; apply Z.ltb_ge; rewrite E, count_app, count_cons, !count_zero by assumption; lia).
    assert (N0 : nth 0 (split_on 44 s) [] = p) by (rewrite E, split_yes by exact NP; reflexivity). rewrite N0.
    replace (inb p TAG_PREFIXES) with false by (symmetry; apply inb_false; exact I). reflexivity.
  - assert (NP := lx_no_comma p I). rewrite U, eqb_refl. cbn [negb].
    assert (J : In 44 s) by (rewrite E; apply in_or_app; right; left; reflexivity).
    rewrite (proj2 (has_char_In 44 s) J).
    replace (1 <? count_char 44 s) with false
      by (symmetry; apply Z.ltb_ge; rewrite E, count_app, count_cons, !count_zero by assumption; lia).
    assert (N0 : nth 0 (split_on 44 s) [] = p) by (rewrite E, split_yes by exact NP; reflexivity). rewrite N0.
    rewrite (lx_prefix p I). cbn [negb]. rewrite (proj2 (inb_In p _) I). reflexivity.
  - assert (X : label_message upper (remove_char 32 (strip l)) = None).
    { apply label_message_tag. destruct T as (l' & E & Es). assert (l' = l) by congruence. subst l'. rewrite Es in W.
      apply label_tag_spec in W. congruence. }
    destruct T as (l' & E & Es). assert (l' = l) by congruence. subst l'. change (s = remove_char 32 (strip l)) in Es.
    rewrite <- Es in X. unfold label_message in X. cbv zeta in X. rewrite X. split; [reflexivity|exact O].
Qed.
Lemma label_complaint upper c l m : card_get c "label" = Ok (RStr l) ->
  label_message upper (remove_char 32 (strip l)) = Some m -> complaint upper c m.
Proof.
  intros EL H. set (s := remove_char 32 (strip l)) in *.
  assert (T : label_text c s) by (exists l; auto).
  unfold label_message in H. cbv zeta in H.
  destruct (eqb (upper s) s) eqn:EU; cbn [negb] in H.
  2:{ assert (m = error_text s " is ill-formed (case)!") by congruence. subst m. apply cp_case; [exact T|].
      intros X. rewrite X, eqb_refl in EU. discriminate. }
  apply eqb_ok in EU. destruct (has_char 44 s) eqn:HC; [|discriminate]. apply has_char_In in HC.
  destruct (Z.ltb_spec 1 (count_char 44 s)) as [C|C].
  { assert (m = error_text s " is illegal, too many commas!") by congruence. subst m.
    destruct (two_commas s C) as (x & y & z & E). exact (cp_commas upper c s x y z T EU E). }
  destruct (one_comma s HC ltac:(lia)) as (p & t & E & NP & NT).
  assert (N0 : nth 0 (split_on 44 s) [] = p) by (rewrite E, split_yes by exact NP; reflexivity). rewrite N0 in H.
  destruct (inb p TAG_PREFIXES) eqn:IP; cbn [negb] in H.
  2:{ assert (m = error_text s " is ill-formed (tag prefix)!") by congruence. subst m.
      apply (cp_prefix upper c s p t T EU E NP NT). apply inb_false. exact IP. }
  destruct (inb p (map lit ["L"; "X"]%string)) eqn:IL; [|discriminate].
  assert (m = error_text s " has unsupported tag prefix!") by congruence. subst m.
  apply (cp_unsupported upper c s p t T EU E NT). apply inb_In. exact IL.
Qed.
Lemma complaint_has_label upper c m : complaint upper c m -> exists l, card_get c "label" = Ok (RStr l).
Proof. intros [s (l & E & _)|s x y z (l & E & _)|s p t (l & E & _)|s p t (l & E & _)|s ty tag (l & E & _)]; eauto. Qed.

(** *** one card *)
Lemma card_run upper seg st c :
  match build_card upper seg st c with
  | Ok st' => snd st' = snd st + (match card_message upper seg st c with Some _ => 1 | None => 0 end)
  | Err _ => card_message upper seg st c = None
  end.
Proof.
  destruct st as [[s tab] n]. unfold build_card, card_message.
  destruct (card_get c "column8") as [c8|e]; cbn [bind]; [|reflexivity].
  destruct (is_str c8 "*") eqn:S8.
  { replace (match card_get c "operation" with Ok command => _ | Err _ => None end) with (@None str); [cbn [snd]; lia|].
    destruct (card_get c "operation"); [|reflexivity].
    destruct (card_get c "label") as [[|[|]|]|]; try reflexivity. destruct (card_get c "lognum"); reflexivity. }
  destruct (card_get c "operation") as [cmd|e]; cbn [bind]; [|reflexivity].
  destruct (next_subseg s cmd) as [s'|e]; cbn [bind].
  2:{ destruct (card_get c "label") as [[|[|]|]|]; try reflexivity. destruct (card_get c "lognum"); reflexivity. }
  destruct (card_get c "label") as [[|[|x l]|k]|e]; cbn [bind snd]; try lia; try reflexivity.
  2:{ destruct (k =? 0); cbn [snd]; [lia|reflexivity]. }
  destruct (card_get c "lognum") as [lg|e]; cbn [bind]; [|reflexivity].
  destruct (label_tag upper (x :: l)) as [[ty tag]|] eqn:ET.
  - destruct cmd as [|cmd|k]; cbn [snd]; [lia| |reflexivity]. cbv zeta.
    destruct (insert_def tab seg s' tag _ cmd _) as [[tab' m]|e] eqn:EI; cbn [bind fst snd]; [|reflexivity].
    assert (M : m = 0 \/ m = 1).
    { unfold insert_def in EI. destruct (dget tab tag) as [sg|]; [|left; congruence].
      destruct (dget sg seg) as [ss|]; [|left; congruence]. destruct (dget ss s') as [ks|]; [|left; congruence].
      destruct (dget sg _) as [prev|]; [|left; congruence].
      destruct (eqb cmd (lit "EQUALS")); [destruct (dget prev (lit "card")); discriminate|right; congruence]. }
    destruct M as [-> | ->]; reflexivity.
  - cbn [snd]. cbv zeta.
    destruct (label_message upper (remove_char 32 (strip (x :: l)))) eqn:EM; [reflexivity|].
    apply label_message_tag in EM. congruence.
Qed.
Lemma card_reports upper seg c : proper_card c -> ~ is_kind seg -> forall s tab n, plain_table tab ->
  match card_message upper seg (s, tab, n) c with
  | Some m => ~ starred c /\ complaint upper c m
  | None => starred c \/ forall m, ~ complaint upper c m
  end.
Proof.
  intros PC NK s tab n P. unfold card_message.
  destruct (PC "column8"%string ltac:(cbn; tauto)) as (v8 & E8 & _).
  destruct (PC "operation"%string ltac:(cbn; tauto)) as (op & EO & KO).
  destruct (PC "label"%string ltac:(cbn; tauto)) as (lb & EL & KL).
  destruct (PC "lognum"%string ltac:(cbn; tauto)) as (lg & EG & _).
  assert (SB : starredb c = is_str v8 "*") by (unfold starredb; rewrite E8; reflexivity).
  rewrite E8, EO, EL, EG.
  destruct lb as [|l|k]; [| |destruct KL].
  { right. intros m X. destruct (complaint_has_label _ _ _ X) as (l & E). congruence. }
  destruct l as [|x l]; [contradiction|].
  destruct (is_str v8 "*"); [left; apply starredb_ok; exact SB|].
  assert (NS : ~ starred c) by (rewrite <- starredb_ok; congruence).
  assert (EN : exists s', next_subseg s op = Ok s').
  { destruct op as [|o|k]; [eexists; reflexivity| |destruct KO]. cbn [next_subseg].
    destruct (negb (eqb o []) && startswith o (lit "SETLOC")); eexists; reflexivity. }
  destruct EN as (s' & ->). cbv zeta.
  destruct (label_tag upper (x :: l)) as [[ty tag]|] eqn:ET.
  - assert (LM : label_message upper (remove_char 32 (strip (x :: l))) = None) by (apply label_message_tag; congruence).
    destruct op as [|cmd|k]; [| |destruct KO].
    + split; [exact NS|]. apply label_tag_spec in ET. eapply cp_no_operation; [exists (x :: l); split; [exact EL|reflexivity]|exact ET|exact EO].
    + destruct (insert_plain tab seg s' tag (if eqb cmd (lit "ASSIGN") then lit "complex" else lit "simple") cmd
        (mkent (c_filename c) (c_linenum c) lg ty c) P NK) as (tab' & EI & _).
      { destruct (eqb cmd (lit "ASSIGN")); [right|left]; reflexivity. }
      rewrite EI. cbn [Z.eqb]. right. intros m X. pose proof (complaint_label _ _ _ _ EL X) as Y. rewrite LM in Y.
      destruct Y as [_ Y]. congruence.
  - destruct (label_message upper (remove_char 32 (strip (x :: l)))) as [m|] eqn:EM.
    + split; [exact NS|]. exact (label_complaint _ _ _ _ EL EM).
    + apply label_message_tag in EM. congruence.
Qed.

(** *** all the cards *)
Lemma run_build upper seg cs : forall st,
  match build_cards upper seg st cs with
  | Ok st' => exists ms, build_run upper seg st cs = (ms, st', Ok tt)
  | Err e => exists ms st', build_run upper seg st cs = (ms, st', Err e)
  end.
Proof.
  induction cs as [|c cs IH]; intros st; cbn [build_cards build_run]; [exists []; reflexivity|].
  destruct (build_card upper seg st c) as [st1|e]; cbn [bind]; [|eauto].
  specialize (IH st1). destruct (build_cards upper seg st1 cs) as [st2|e].
  - destruct IH as (ms & ->). eauto.
  - destruct IH as (ms & st2 & ->). eauto.
Qed.
Lemma run_count upper seg cs : forall st ms st' r, build_run upper seg st cs = (ms, st', r) -> snd st' = snd st + zlen ms.
Proof.
  induction cs as [|c cs IH]; intros st ms st' r H; cbn [build_run] in H.
  - injection H as <- <- <-. change (zlen (@nil str)) with 0. lia.
  - pose proof (card_run upper seg st c) as CR. destruct (build_card upper seg st c) as [st1|e].
    + destruct (build_run upper seg st1 cs) as [[ms1 st2] r1] eqn:E. injection H as <- <- <-.
      rewrite (IH _ _ _ _ E), CR, zlen_app. destruct (card_message upper seg st c); cbn; unfold zlen; cbn; lia.
    + rewrite CR in H. injection H as <- <- <-. change (zlen (@nil str)) with 0. lia.
Qed.
(** what is left when a card fails is what the cards before it built *)
Lemma run_left upper seg cs : forall st ms st' e, build_run upper seg st cs = (ms, st', Err e) ->
  exists pre c post, cs = pre ++ c :: post /\ build_cards upper seg st pre = Ok st' /\
    build_card upper seg st' c = Err e.
Proof.
  induction cs as [|c cs IH]; intros st ms st' e H; cbn [build_run] in H; [discriminate|].
  destruct (build_card upper seg st c) as [st1|x] eqn:EC.
  - destruct (build_run upper seg st1 cs) as [[ms1 st2] r1] eqn:E. injection H as <- <- ->.
    destruct (IH _ _ _ _ E) as (pre & c' & post & -> & B & X). exists (c :: pre), c', post. split; [reflexivity|].
    split; [|exact X]. cbn [build_cards]. rewrite EC. exact B.
  - injection H as _ <- <-. exists [], c, cs. split; [reflexivity|]. split; [reflexivity|exact EC].
Qed.
Lemma run_reported upper seg cs : ~ is_kind seg -> Forall proper_card cs -> forall s tab n, plain_table tab ->
  exists ms st', build_run upper seg (s, tab, n) cs = (ms, st', Ok tt) /\ reported upper cs ms /\ plain_table (snd (fst st')).
Proof.
  intros NK F. induction F as [|c cs PC F IH]; intros s tab n P; cbn [build_run].
  - exists [], (s, tab, n). split; [reflexivity|]. split; [constructor|exact P].
  - pose proof (card_reports upper seg c PC NK s tab n P) as CR.
    destruct (build_plain upper seg s tab n [c] P NK ltac:(constructor; [exact PC|constructor])) as (tab1 & k & E & P1 & _).
    cbn [build_cards] in E. destruct (build_card upper seg (s, tab, n) c) as [st1|e]; [|discriminate]. cbn [bind] in E.
    assert (st1 = (sub_after s [c], tab1, n + k)) by congruence. subst st1.
    destruct (IH (sub_after s [c]) tab1 (n + k) P1) as (ms & st2 & -> & R & P2).
    destruct (card_message upper seg (s, tab, n) c) as [m|].
    + exists (m :: ms), st2. split; [reflexivity|]. split; [|exact P2]. destruct CR as [NS CP]. apply rp_bad; assumption.
    + exists ms, st2. split; [reflexivity|]. split; [|exact P2]. apply rp_good; assumption.
Qed.

(** *** C112 messages *)
Lemma table_run upper fuel fs f tab :
  match build_symbol_table upper fuel fs f tab with
  | Ok (tab', n) => exists ms, build_table_run upper fuel fs f tab = (ms, tab', Ok n) /\ zlen ms = n
  | Err e => exists ms tab', build_table_run upper fuel fs f tab = (ms, tab', Err e)
  end.
Proof.
  unfold build_symbol_table, build_table_run. cbv zeta. set (seg := nth 0 (split_on 46 f) []).
  destruct (argus_deck_new fuel fs None (Some f) DEFAULT_WIDTH DEFAULT_FIELDS ArgusCls) as [[[d sec] c8]|e]; cbn [bind fst snd]; [|eauto].
  pose proof (run_build upper seg (d_cards d) (lit "1", tab, 0)) as H.
  destruct (build_cards upper seg (lit "1", tab, 0) (d_cards d)) as [st|e]; cbn [bind].
  - destruct H as (ms & H). exists ms. rewrite H. split; [reflexivity|]. apply run_count in H. cbn [snd] in H. lia.
  - destruct H as (ms & st' & ->). eauto.
Qed.
Lemma C112_messages_pf : forall upper fuel fs filename seg cs tab,
  segment_of filename seg -> ~ is_kind seg -> plain_table tab -> source_cards fuel fs filename cs ->
  exists ms tab', build_table_run upper fuel fs filename tab = (ms, tab', Ok (zlen ms)) /\ reported upper cs ms.
Proof.
  intros upper fuel fs f seg cs tab S NK P SC.
  destruct (run_reported upper seg cs NK (source_proper _ _ _ _ SC) (lit "1") tab 0 P) as (ms & st & E & R & _).
  destruct SC as (d & sec & c8 & H & ->). unfold build_table_run. apply seg_ok in S. cbv zeta. rewrite S.
  unfold DEFAULT_WIDTH, DEFAULT_FIELDS. rewrite H, E. exists ms, (snd (fst st)). split; [|exact R].
  apply run_count in E. cbn [snd] in E. rewrite E, Z.add_0_l. reflexivity.
Qed.
(*@ Example C112_messages_ex :
  let fs := fun f : str =>
     Some (lit "        A          DEC          1" ++ [10] ++ lit "       *A,A,A      DEC" ++ [10] ++
           lit "        A,B,C      DEC" ++ [10] ++ lit "        X,A        DEC" ++ [10] ++ lit "        Q,A        DEC" ++ [10] ++
           lit "        F,A" ++ [10] ++ lit "        a B        DEC") in
  let up := map (fun c => if (97 <=? c) && (c <=? 122) then c - 32 else c) in
  fst (fst (build_table_run up 1 fs (lit "prog.arg") [])) =
    [lit "*** ERROR: Symbol A,B,C is illegal, too many commas!"; lit "*** ERROR: Symbol X,A has unsupported tag prefix!";
     lit "*** ERROR: Symbol Q,A is ill-formed (tag prefix)!"; lit "*** ERROR: Symbol F,A has no operation!";
     lit "*** ERROR: Symbol aB is ill-formed (case)!"].
Proof. vm_compute. reflexivity. Qed. @*)
Lemma C112_one_reason_pf : forall upper c,
  (forall m m', complaint upper c m -> complaint upper c m' -> m = m') /\
  (proper_card c -> (label_error upper c <-> ~ starred c /\ exists m, complaint upper c m)).
Proof.
  intros upper c. split.
  - intros m m' X Y. destruct (complaint_has_label _ _ _ X) as (l & EL).
    pose proof (complaint_label _ _ _ _ EL X) as P1. pose proof (complaint_label _ _ _ _ EL Y) as P2.
    destruct (label_message upper (remove_char 32 (strip l))); [congruence|]. destruct P1, P2. congruence.
  - intros PC. split.
    + intros (NS & s & T & H). split; [exact NS|]. destruct T as (l & EL & Es). change (s = remove_char 32 (strip l)) in Es. subst s.
      destruct (label_message upper (remove_char 32 (strip l))) as [m|] eqn:EM; [exists m; exact (label_complaint _ _ _ _ EL EM)|].
      destruct H as [H|H].
      * apply label_message_tag in EM. destruct (label_tag upper l) as [[ty tag]|] eqn:ET; [|congruence].
        apply label_tag_spec in ET. destruct (H _ _ ET).
      * apply label_message_tag in EM. destruct (label_tag upper l) as [[ty tag]|] eqn:ET; [|congruence].
        apply label_tag_spec in ET. eexists. eapply cp_no_operation; [exists l; split; [exact EL|reflexivity]|exact ET|exact H].
    + intros (NS & m & X). split; [exact NS|]. destruct (complaint_has_label _ _ _ X) as (l & EL).
      exists (remove_char 32 (strip l)). split; [exists l; auto|].
      pose proof (complaint_label _ _ _ _ EL X) as Y.
      destruct (label_message upper (remove_char 32 (strip l))) as [m'|] eqn:EM; [left|right; apply Y].
      intros ty tag W. apply (proj2 (label_tag_spec upper l ty tag)) in W.
      assert (N : label_message upper (remove_char 32 (strip l)) = None) by (apply label_message_tag; congruence). congruence.
Qed.
(*@ Example C112_one_reason_ex : forall upper c, upper (lit "L,a") = lit "L,A" -> card_get c "label" = Ok (RStr (lit "L,a")) ->
  forall m, complaint upper c m -> m = lit "*** ERROR: Symbol L,a is ill-formed (case)!".
Proof.
  intros upper c U EL m X. apply (proj1 (C112_one_reason upper c) m _ X).
  apply (cp_case upper c (lit "L,a")); [exists (lit "L,a"); split; [exact EL|reflexivity]|]. rewrite U. discriminate.
Qed. @*)
(** whatever the segment is called: as many messages as errors *)
Lemma C112_count_pf : forall upper fuel fs filename tab ms tab' n,
  build_table_run upper fuel fs filename tab = (ms, tab', Ok n) -> zlen ms = n /\
  build_symbol_table upper fuel fs filename tab = Ok (tab', n).
Proof.
  intros upper fuel fs f tab ms tab' n H. pose proof (table_run upper fuel fs f tab) as T.
  destruct (build_symbol_table upper fuel fs f tab) as [[t k]|e].
  - destruct T as (ms' & E & L). rewrite H in E. assert (ms' = ms) by congruence. assert (k = n) by congruence.
    assert (t = tab') by congruence. subst. auto.
  - destruct T as (ms' & t & E). rewrite H in E. discriminate.
Qed.
(*@ Example C112_count_ex :
  let fs := fun f : str =>
     Some (lit "        A          DEC          1" ++ [10] ++ lit "        A          DEC") in
  fst (fst (build_table_run (fun s => s) 1 fs (lit "simple.arg") [])) = [lit "*** ERROR: Symbol A is multiply-defined!"] /\
  snd (build_table_run (fun s => s) 1 fs (lit "simple.arg") []) = Ok 1.
Proof. vm_compute. auto. Qed. @*)

(** *** C113 a failing build *)
Lemma C113_unchanged_refuted_pf : forall upper, upper (lit "A") = lit "A" ->
  exists fs ms tab' e, build_table_run upper 1 fs (lit "simple.arg") [] = (ms, tab', Err e) /\
    get4 tab' (lit "A") (lit "simple") (lit "1") (lit "simple") <> None.
Proof.
  intros upper U.
  set (l1 := lit "        A          DEC          1"). set (l2 := lit "        A          EQUALS       2").
  set (fs := (fun _ : str => Some (l1 ++ [10] ++ l2)) : fsys). exists fs.
  unfold build_table_run.
  assert (ED : exists d s c8, argus_deck_new 1 fs None (Some (lit "simple.arg")) DEFAULT_WIDTH DEFAULT_FIELDS ArgusCls = Ok (d, s, c8) /\
     exists c1 c2, d_cards d = [c1; c2] /\ card_new ArgusCls (l1 ++ [10]) DEFAULT_WIDTH DEFAULT_FIELDS (Some (lit "simple.arg")) 1 = Ok c1 /\
       card_new ArgusCls l2 DEFAULT_WIDTH DEFAULT_FIELDS (Some (lit "simple.arg")) 2 = Ok c2).
  { do 3 eexists. split; [vm_compute; reflexivity|]. do 2 eexists. split; [reflexivity|]. split; vm_compute; reflexivity. }
  destruct ED as (d & s & c8 & -> & c1 & c2 & -> & E1 & E2).
  assert (SG : nth 0 (split_on 46 (lit "simple.arg")) [] = lit "simple") by (vm_compute; reflexivity).
  cbv zeta. rewrite SG.
  assert (LT : forall l, remove_char 32 (strip l) = lit "A" -> label_tag upper l = Some (lit " ", lit "A")).
  { intros l E. unfold label_tag. cbv zeta. rewrite E, U, eqb_refl. reflexivity. }
  assert (G1 : card_get c1 "column8" = Ok RNone /\ card_get c1 "operation" = Ok (RStr (lit "DEC")) /\
               card_get c1 "label" = Ok (RStr (lit "A")) /\ exists g, card_get c1 "lognum" = Ok g).
  { vm_compute in E1. injection E1 as <-. vm_compute. eauto. }
  assert (G2 : card_get c2 "column8" = Ok RNone /\ card_get c2 "operation" = Ok (RStr (lit "EQUALS")) /\
               card_get c2 "label" = Ok (RStr (lit "A")) /\ exists g, card_get c2 "lognum" = Ok g).
  { vm_compute in E2. injection E2 as <-. vm_compute. eauto. }
  destruct G1 as (A1 & A2 & A3 & g1 & A4). destruct G2 as (B1 & B2 & B3 & g2 & B4).
  assert (TA : label_tag upper (lit "A") = Some (lit " ", lit "A")) by (apply LT; vm_compute; reflexivity).
  set (e1 := mkent (c_filename c1) (c_linenum c1) g1 (lit " ") c1).
  set (t1 := [(lit "A", [(lit "simple", [(lit "1", [(lit "simple", e1)])])])] : symtab).
  assert (C1 : build_card upper (lit "simple") (lit "1", [], 0) c1 = Ok (lit "1", t1, 0)).
  { unfold build_card. rewrite A1, A2, A3, A4. cbn [bind is_str].
    change (next_subseg (lit "1") (RStr (lit "DEC"))) with (Ok (lit "1") : res str). cbn [bind].
    change (match lit "A" with [] => Ok (lit "1", [] : symtab, 0) | _ :: _ =>
      do lognum <- Ok g1; match label_tag upper (lit "A") with
        | None => Ok (lit "1", [] : symtab, 0 + 1)
        | Some (tagtype, tag) => let kind := if eqb (lit "DEC") (lit "ASSIGN") then lit "complex" else lit "simple" in
           do r <- insert_def [] (lit "simple") (lit "1") tag kind (lit "DEC") (mkent (c_filename c1) (c_linenum c1) lognum tagtype c1);
           Ok (lit "1", fst r, 0 + snd r) end end = Ok (lit "1", t1, 0)).
    cbn [bind]. rewrite TA. reflexivity. }
  assert (C2 : build_card upper (lit "simple") (lit "1", t1, 0) c2 = Err KeyError).
  { unfold build_card. rewrite B1, B2, B3, B4. cbn [bind is_str].
    change (next_subseg (lit "1") (RStr (lit "EQUALS"))) with (Ok (lit "1") : res str). cbn [bind].
    change (match lit "A" with [] => Ok (lit "1", t1 : symtab, 0) | _ :: _ =>
      do lognum <- Ok g2; match label_tag upper (lit "A") with
        | None => Ok (lit "1", t1 : symtab, 0 + 1)
        | Some (tagtype, tag) => let kind := if eqb (lit "EQUALS") (lit "ASSIGN") then lit "complex" else lit "simple" in
           do r <- insert_def t1 (lit "simple") (lit "1") tag kind (lit "EQUALS") (mkent (c_filename c2) (c_linenum c2) lognum tagtype c2);
           Ok (lit "1", fst r, 0 + snd r) end end = Err KeyError).
    cbn [bind]. rewrite TA. reflexivity. }
  assert (ER : exists ms, build_run upper (lit "simple") (lit "1", [], 0) [c1; c2] = (ms, (lit "1", t1, 0), Err KeyError)).
  { cbn [build_run]. rewrite C1, C2. eexists. reflexivity. }
  destruct ER as (ms & ER). exists ms, t1, KeyError. split; [|discriminate].
  exact (f_equal (fun x : list str * bstate * res unit => let '(ms, st, r) := x in
    (ms, snd (fst st), match r with Ok _ => Ok (snd st) | Err e => Err e end)) ER).
Qed.
(*@ Example C113_unchanged_refuted_ex :
  let fs := fun _ : str => Some (lit "        A          DEC          1" ++ [10] ++ lit "        A          EQUALS       2") in
  snd (build_table_run (fun s => s) 1 fs (lit "simple.arg") []) = Err KeyError /\
  dkeys (snd (fst (build_table_run (fun s => s) 1 fs (lit "simple.arg") []))) = [lit "A"].
Proof. vm_compute. auto. Qed. @*)
Lemma C113_left_partial_pf : forall upper fuel fs filename tab ms tab' e,
  build_table_run upper fuel fs filename tab = (ms, tab', Err e) ->
  (~ (exists cs, source_cards fuel fs filename cs) /\ ms = [] /\ tab' = tab) \/
  (exists seg cs pre c post, segment_of filename seg /\ source_cards fuel fs filename cs /\ cs = pre ++ c :: post /\
     card_get c "operation" = Ok (RStr (lit "EQUALS")) /\ (e = KeyError \/ e = AttributeError) /\
     (is_kind seg \/ ~ plain_table tab) /\
     forall t s u k, s <> seg \/ never_def upper (lit "1") pre t u k -> get4 tab' t s u k = get4 tab t s u k).
Proof.
  intros upper fuel fs f tab ms tab' e H. unfold build_table_run in H. cbv zeta in H.
  destruct (argus_deck_new fuel fs None (Some f) DEFAULT_WIDTH DEFAULT_FIELDS ArgusCls) as [[[d sec] c8]|x] eqn:ED.
  2:{ left. injection H as <- <- <-. split; [|auto]. intros (cs & d & sec & c8 & E & _).
      unfold DEFAULT_WIDTH, DEFAULT_FIELDS in ED. congruence. }
  right. destruct (seg_exists f) as (seg & S). exists seg, (d_cards d).
  assert (SC : source_cards fuel fs f (d_cards d)) by (exists d, sec, c8; auto).
  rewrite (proj1 (seg_ok f seg) S) in H.
  destruct (build_run upper seg (lit "1", tab, 0) (d_cards d)) as [[ms1 st] r] eqn:ER.
  assert (r = Err e) by (destruct r; [discriminate|congruence]). subst r.
  assert (tab' = snd (fst st)) by congruence. subst tab'.
  destruct (run_left _ _ _ _ _ _ _ ER) as (pre & c & post & EQ & B & X). exists pre, c, post.
  assert (PR := source_proper _ _ _ _ SC).
  assert (PP : Forall proper_card pre /\ proper_card c).
  { rewrite EQ in PR. apply Forall_app in PR. destruct PR as [P1 P2]. apply Forall_inv in P2. auto. }
  split; [exact S|]. split; [exact SC|]. split; [exact EQ|].
  destruct st as [[s1 tab1] n1].
  assert (KEY : card_get c "operation" = Ok (RStr (lit "EQUALS")) /\ (e = KeyError \/ e = AttributeError)).
  { destruct (build_card_cases upper seg c (proj2 PP) s1 tab1 n1)
      as [(H1 & _)|[(H1 & _)|(tag & kind & tt & cmd & en & _ & _ & _ & _ & _ & EO & H1)]]; rewrite H1 in X; [discriminate|discriminate|].
    unfold insert_def in X. destruct (dget tab1 tag) as [sg|]; [|discriminate].
    destruct (dget sg seg) as [ss|]; [|discriminate]. destruct (dget ss (sub_step s1 c)) as [ks|]; [|discriminate].
    destruct (dget sg kind) as [prev|]; [|discriminate].
    destruct (eqb cmd (lit "EQUALS")) eqn:EC; [|discriminate]. apply eqb_ok in EC. subst cmd. split; [exact EO|].
    destruct (dget prev (lit "card")); cbn [bind] in X; [right|left]; congruence. }
  destruct KEY as [K1 K2]. split; [exact K1|]. split; [exact K2|]. split.
  - destruct (eq_dec_b seg (lit "simple")) as [->|N1]; [left; left; reflexivity|].
    destruct (eq_dec_b seg (lit "complex")) as [->|N2]; [left; right; reflexivity|]. right. intros P.
    assert (NK : ~ is_kind seg) by (intros [Y|Y]; contradiction).
    destruct (run_reported upper seg (d_cards d) NK PR (lit "1") tab 0 P) as (ms2 & st2 & E2 & _). congruence.
  - intros t s u k G. destruct (build_frame upper seg (lit "1") tab 0 pre _ (proj1 PP) B) as [_ FR]. exact (FR t s u k G).
Qed.
(*@ Example C113_left_partial_ex :
  let fs := fun f : str => if eqb f (lit "top.arg") then Some (lit "        A          DEC          1" ++ [10] ++ lit "%include ""gone""") else None in
  forall tab, build_table_run (fun s => s) 3 (fun _ => None) (lit "gone.arg") tab = ([], tab, Err SystemExit).
Proof. intros fs tab. vm_compute. reflexivity. Qed. @*)

(** *** C114 the report of check-symbols *)
Lemma all_run upper fuel fs files css : Forall2 (source_cards fuel fs) files css -> plain_names files ->
  forall tab tot ns, plain_table tab -> exists mss tab', Forall2 (reported upper) css mss /\
    build_all_run upper fuel fs files tab tot = (file_reports files mss, Ok (tab', tot + fold_right Z.add 0 (map zlen mss))) /\
    fold_r (fun s f => do r <- build_symbol_table upper fuel fs f (fst s); Ok (fst r, snd s ++ [snd r])) files (tab, ns) =
      Ok (tab', ns ++ map zlen mss).
Proof.
  induction 1 as [|f cs files css SC F IH]; intros PN tab tot ns P.
  - exists [], tab. split; [constructor|]. cbn. rewrite app_nil_r, Z.add_0_r. auto.
  - destruct (seg_exists f) as (seg & S). assert (NK : ~ is_kind seg) by (apply (PN f seg); [left; reflexivity|exact S]).
    destruct (C112_messages_pf upper fuel fs f seg cs tab S NK P SC) as (ms & tab1 & E & R).
    destruct (C112_count_pf _ _ _ _ _ _ _ _ E) as [_ E1].
    assert (P1 : plain_table tab1).
    { exact (proj2 C76_plain_pf _ _ _ _ _ _ _ _ S NK P E1). }
    destruct (IH (fun f' s I => PN f' s (or_intror I)) tab1 (tot + zlen ms) (ns ++ [zlen ms]) P1) as (mss & tab2 & R2 & EA & EF).
    exists (ms :: mss), tab2. split; [constructor; assumption|]. cbn [build_all_run fold_r fst snd].
    rewrite E, E1. cbn [bind fst snd]. rewrite EA, EF. cbn [map fold_right file_reports]. split.
    + f_equal. f_equal. f_equal. lia.
    + rewrite <- app_assoc. reflexivity.
Qed.
Lemma suggested_ok upper files css tab : deep tab -> (forall t s u k e, get4 tab t s u k = Some e <-> defined_as upper files css t s u k e) ->
  chosen_among upper files css (get_absolute tab).
Proof.
  intros D G.
  assert (X : forall s k, has_kind tab s k <-> (exists seg ss e, defined_as upper files css s seg ss k e)).
  { intros s k. split; intros (seg & ss & e & H); exists seg, ss, e; apply G; exact H. }
  destruct (C82_absolute_partial_pf tab (proj1 D)) as [SS A]. split; [exact SS|].
  intros s. rewrite A, X.
  assert (Y : (forall s', str_lt s' s -> ~ has_kind tab s' (lit "simple")) <->
              (forall s', str_lt s' s -> ~ exists seg ss e, defined_as upper files css s' seg ss (lit "simple") e)).
  { split; intros H s' L; [rewrite <- X|rewrite X]; exact (H s' L). }
  rewrite Y. clear Y. apply or_iff_compat_r. split.
  - intros (seg & (sg & ES & IS & MIN) & ss & e & H). exists seg, ss, e. split; [apply G; exact H|].
    intros seg' ss' k' e' H'. apply MIN. apply G in H'. unfold get4 in H'. rewrite ES in H'. apply dget_In. unfold dmem.
    destruct (dget sg seg'); [reflexivity|discriminate].
  - intros (seg & ss & e & H & MIN). apply G in H. exists seg. split; [|exists ss, e; exact H].
    assert (H' := H). unfold get4 in H'. destruct (dget tab s) as [sg|] eqn:ES; [|discriminate]. exists sg. split; [exact ES|]. split.
    + apply dget_In. unfold dmem. destruct (dget sg seg); [reflexivity|discriminate].
    + intros x I. apply dget_In in I. unfold dmem in I. destruct (dget sg x) as [u|] eqn:EU; [|discriminate].
      destruct D as [_ D]. destruct (D _ _ ES) as [_ [_ D1]]. destruct (D1 _ _ EU) as [NU [_ D2]]. destruct u as [|[ss' ks] u]; [contradiction|].
      assert (EK : dget ((ss', ks) :: u) ss' = Some ks) by (cbn [dget]; rewrite eqb_refl; reflexivity).
      destruct (D2 _ _ EK) as [NK _]. destruct ks as [|[k' e'] ks]; [contradiction|].
      apply (MIN x ss' k' e'). apply G. unfold get4. rewrite ES, EU, EK. cbn [dget]. rewrite eqb_refl. reflexivity.
Qed.
Lemma C114_report_pf : forall extract upper fuel fs complexOnly files css, files <> [] ->
  Forall2 (source_cards fuel fs) files css -> plain_names files ->
  exists mss syms choices part total,
    check_symbols_run extract upper fuel fs complexOnly files =
      (file_reports files mss ++
       map (fun s => ErrL (lit "ERROR: symbol """ ++ s ++ lit """ has a complex assignment, but no simple assignment!")) syms ++
       part ++ total, Ok tt) /\
    Forall2 (reported upper) css mss /\
    StronglySorted str_lt syms /\
    (forall s, In s syms <-> complexOnly = true /\
      (exists seg ss e, defined_as upper files css s seg ss (lit "complex") e) /\
      ~ (exists seg ss e, defined_as upper files css s seg ss (lit "simple") e)) /\
    undefined_part (fun s => map fst (extract s choices 10)) syms part /\
    chosen_among upper files css choices /\
    total_part files (zlen (concat mss) + zlen syms) total.
Proof.
  intros extract upper fuel fs co files css NE F PN.
  destruct (build_files upper fuel fs files css F PN) as (tab & ns & E & P & D & C & K & G).
  destruct (all_run upper fuel fs files css F PN [] 0 [] plain_nil) as (mss & tab' & R & EA & EF).
  assert (EB : build_all upper fuel fs files = Ok (tab', map zlen mss)) by exact EF.
  assert (tab' = tab) by congruence. subst tab'. clear EF EB E.
  destruct (C81_complex_only_pf tab co (proj1 D)) as [S M].
  assert (X : forall s k, has_kind tab s k <-> (exists seg ss e, defined_as upper files css s seg ss k e)).
  { intros s k. split; intros (seg & ss & e & H); exists seg, ss, e; apply G; exact H. }
  set (syms := check_symtab tab co) in *.
  assert (UP : exists part, undefined_part (fun s => map fst (extract s (get_absolute tab) 10)) syms part /\
    part = match syms with
           | [] => []
           | _ => ErrL [] :: ErrL (lit "Undefined symbols:") ::
                  map (fun s => suggestion_line s (find_symbol extract tab s None false false true)) syms ++
                  [ErrL (str_of_Z (zlen syms) ++ lit " errors checking symbol table.")]
           end).
  { clearbody syms. destruct syms as [|s0 syms]; [exists []; split; [constructor|reflexivity]|]. eexists. split; [|reflexivity].
    apply (up_some _ (s0 :: syms)); [discriminate|].
    generalize (s0 :: syms). intros l. induction l as [|s l IH]; [constructor|]. cbn [map]. constructor; [|exact IH].
    unfold find_symbol. cbn [negb andb orb]. destruct (map fst (extract s (get_absolute tab) 10)) as [|m r]; cbn [suggestion_line].
    - constructor.
    - constructor. discriminate. }
  destruct UP as (part & U & EP).
  exists mss, syms, (get_absolute tab), part.
  exists (if 1 <? zlen files then [ErrL (lit "Total: " ++ str_of_Z (zlen (concat mss) + zlen syms) ++ lit " errors encountered.")] else []).
  assert (SUM : fold_right Z.add 0 (map zlen mss) = zlen (concat mss)).
  { clear. induction mss as [|m mss IH]; [reflexivity|]. cbn [map fold_right concat]. rewrite zlen_app, IH. reflexivity. }
  split.
  - unfold check_symbols_run. destruct files as [|f files]; [contradiction|]. rewrite EA. fold syms. rewrite EP, Z.add_0_l, SUM. reflexivity.
  - split; [exact R|]. split; [exact S|]. split; [intros s; rewrite M, !X; tauto|]. split; [exact U|]. split.
    + exact (suggested_ok upper files css tab D G).
    + unfold total_part. destruct (Z.ltb_spec 1 (zlen files)); [right|left]; auto.
Qed.
(*@ Example C114_report_ex :
  let fs := fun f => if eqb f (lit "p.a") then Some (lit "        A          ASSIGN       1" ++ [10] ++ lit "        b          DEC          1" ++ [10])
                     else if eqb f (lit "q.a") then Some (lit "        L,X        DEC          1" ++ [10] ++ lit "        C          DEC" ++ [10]) else None in
  let up := map (fun c => if (97 <=? c) && (c <=? 122) then c - 32 else c) in
  check_symbols_run (fun q cs n => map (fun c => (c, 50)) cs) up 2 fs true [lit "p.a"; lit "q.a"] =
   ([ErrL (lit "*** ERROR: Symbol b is ill-formed (case)!"); ErrL (lit "p.a: 1 errors encountered building symbol table.");
     ErrL (lit "*** ERROR: Symbol L,X has unsupported tag prefix!"); ErrL (lit "q.a: 1 errors encountered building symbol table.");
     ErrL (lit "ERROR: symbol ""A"" has a complex assignment, but no simple assignment!");
     ErrL []; ErrL (lit "Undefined symbols:"); OutL (lit "  A - Possible matches: C"); ErrL (lit "1 errors checking symbol table.");
     ErrL (lit "Total: 3 errors encountered.")], Ok tt).
Proof. vm_compute. reflexivity. Qed. @*)

Lemma C114_usage_pf : forall extract upper fuel fs complexOnly, check_symbols_run extract upper fuel fs complexOnly [] = ([], Err SystemExit).
Proof. reflexivity. Qed.
(*@ Example C114_usage_ex : snd (check_symbols_run (fun _ _ _ => []) (fun s => s) 2 (fun _ => Some []) true [lit "p.a"]) = Ok tt.
Proof. reflexivity. Qed. @*)

(** *** C116 find-symbols says whether it found the symbol *)
Lemma C116_silent_refuted_pf : forall extract upper fuel fs symbol files css,
  files <> [] -> Forall2 (source_cards fuel fs) files css -> plain_names files ->
  (forall q, ~ is_defined upper css (symbol ++ q)) ->
  exists mss, Forall2 (reported upper) css mss /\
    find_symbols_run extract upper fuel fs true false false false (symbol :: files) = (file_reports files mss, Ok None).
Proof.
  intros extract upper fuel fs symbol files css NE F PN ND.
  destruct (build_files upper fuel fs files css F PN) as (tab & ns & E & P & D & C & K & G).
  destruct (all_run upper fuel fs files css F PN [] 0 [] plain_nil) as (mss & tab' & R & EA & EF).
  assert (EB : build_all upper fuel fs files = Ok (tab', map zlen mss)) by exact EF.
  assert (tab' = tab) by congruence. subst tab'. clear EF EB E.
  exists mss. split; [exact R|]. unfold find_symbols_run. cbn [andb orb]. destruct files as [|f files]; [contradiction|].
  rewrite EA. destruct (C83_begin_end_pf extract tab symbol None true false false (proj1 D) eq_refl) as (l & EL & _ & _ & IL).
  rewrite EL. destruct l as [|s l]; [reflexivity|]. exfalso.
  destruct (proj1 (IL s) (or_introl eq_refl)) as [I [(_ & r & Er)|(X & _)]]; [|discriminate].
  apply (ND r). rewrite <- Er. apply K. exact I.
Qed.
(*@ Example C116_silent_refuted_ex :
  find_symbols_run (fun _ _ _ => []) (fun s => s) 2
    (fun f => if eqb f (lit "p.a") then Some (lit "        TABLE1     DEC          1" ++ [10]) else None)
    true false false false [lit "B"; lit "p.a"] = ([ErrL (lit "p.a: 0 errors encountered building symbol table.")], Ok None).
Proof. vm_compute. reflexivity. Qed. @*)
Lemma C116_exact_partial_pf : forall extract upper fuel fs exact symbol files css,
  files <> [] -> Forall2 (source_cards fuel fs) files css -> plain_names files ->
  exists mss ls r, find_symbols_run extract upper fuel fs false false false exact (symbol :: files) =
      (file_reports files mss ++ ls, Ok r) /\ Forall2 (reported upper) css mss /\
    ((is_defined upper css symbol /\ ls = [] /\ exists sg, r = Some (FDefs sg) /\ sg <> []) \/
     (~ is_defined upper css symbol /\ r = None /\ ls = [ErrL (lit "ERROR: Undefined symbol """ ++ symbol ++ lit """!")])).
Proof.
  intros extract upper fuel fs exact symbol files css NE F PN.
  destruct (build_files upper fuel fs files css F PN) as (tab & ns & E & P & D & C & K & G).
  destruct (all_run upper fuel fs files css F PN [] 0 [] plain_nil) as (mss & tab' & R & EA & EF).
  assert (EB : build_all upper fuel fs files = Ok (tab', map zlen mss)) by exact EF.
  assert (tab' = tab) by congruence. subst tab'. clear EF EB E.
  exists mss. unfold find_symbols_run. cbn [andb orb]. destruct files as [|f files]; [contradiction|].
  rewrite EA. unfold find_symbol. cbn [negb andb].
  assert (IN : is_defined upper css symbol <-> dget tab symbol <> None).
  { rewrite <- K, <- dget_In. unfold dmem. destruct (dget tab symbol); split; try congruence; discriminate. }
  destruct (dget tab symbol) as [sg|] eqn:ES.
  - assert (SG : sg <> []).
    { destruct D as [_ D]. exact (proj1 (D symbol sg ES)). }
    exists [], (Some (FDefs sg)). destruct sg as [|x sg]; [contradiction|]. rewrite app_nil_r. split; [reflexivity|].
    split; [exact R|]. left. split; [apply IN; discriminate|]. split; [reflexivity|]. exists (x :: sg). split; [reflexivity|exact SG].
  - exists [undefined_message symbol], None. split; [reflexivity|]. split; [exact R|]. right.
    split; [rewrite IN; congruence|]. auto.
Qed.
(*@ Example C116_exact_partial_ex :
  find_symbols_run (fun _ _ _ => []) (fun s => s) 2
    (fun f => if eqb f (lit "p.a") then Some (lit "        TABLE1     DEC          1" ++ [10]) else None)
    false false false true [lit "B"; lit "p.a"] =
  ([ErrL (lit "p.a: 0 errors encountered building symbol table."); ErrL (lit "ERROR: Undefined symbol ""B""!")], Ok None).
Proof. vm_compute. reflexivity. Qed. @*)
Lemma C116_usage_partial_pf : forall extract upper fuel fs begin end_ fuzzy exact args,
  zlen args < 2 \/
  1 < zlen (filter (fun b : bool => b) [begin; end_; fuzzy; exact]) ->
  find_symbols_run extract upper fuel fs begin end_ fuzzy exact args = ([], Err SystemExit).
Proof.
  intros extract upper fuel fs b e f x args H. unfold find_symbols_run.
  destruct ((b && x) || (e && x) || (b && e) || (f && (b || e || x))) eqn:C; [reflexivity|].
  destruct H as [H|H].
  - destruct args as [|s [|g r]]; [reflexivity..|]. rewrite !zlen_cons in H. pose proof (zlen_nonneg r). lia.
  - exfalso. destruct b, e, f, x; cbn in C, H; try discriminate; unfold zlen in H; cbn in H; lia.
Qed.
(*@ Example C116_usage_partial_ex :
  find_symbols_run (fun _ _ _ => []) (fun s => s) 2 (fun _ => Some []) true false false true [lit "A"; lit "p.a"] = ([], Err SystemExit) /\
  snd (find_symbols_run (fun _ _ _ => []) (fun s => s) 2 (fun _ => Some []) false false false true [lit "A"; lit "p.a"]) = Ok None.
Proof. split; reflexivity. Qed. @*)
