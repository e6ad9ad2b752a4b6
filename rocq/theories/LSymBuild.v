From Coq Require Import ZArith List Bool Lia.
From Verif Require Import Py LPy MCards SCards LInstructions LCards LDeck MSymbols SSymbols.
#[local] Arguments Z.add : simpl never.
#[local] Arguments Z.sub : simpl never.
#[local] Arguments Z.mul : simpl never.
#[local] Arguments Z.pow : simpl never.

(** *** commas *)
Lemma split_no ch s : ~ In ch s -> split_on ch s = [s].
Proof.
  induction s as [|x s IH]; intros N; [reflexivity|]. cbn [split_on].
  destruct (Z.eqb_spec x ch); [subst; destruct N; left; reflexivity|].
  rewrite IH by (intros I; apply N; right; exact I). reflexivity.
Qed.
Lemma split_yes ch s t : ~ In ch s -> split_on ch (s ++ ch :: t) = s :: split_on ch t.
Proof.
  induction s as [|x s IH]; intros N; cbn [app split_on]; [rewrite Z.eqb_refl; reflexivity|].
  destruct (Z.eqb_spec x ch); [subst; destruct N; left; reflexivity|].
  rewrite IH by (intros I; apply N; right; exact I). reflexivity.
Qed.
Lemma first_split (ch : Z) (s : str) : In ch s -> exists a b : str, s = a ++ ch :: b /\ ~ In ch a.
Proof.
  induction s as [|x s IH]; intros I; [destruct I|].
  destruct (Z.eq_dec x ch) as [->|N]; [exists [], s; split; [reflexivity|intros []]|].
  destruct I as [->|I]; [contradiction|]. destruct (IH I) as (a & b & -> & NA).
  exists (x :: a), b. split; [reflexivity|]. intros [->|J]; [contradiction|exact (NA J)].
Qed.
Lemma split_second ch a b : ~ In ch a -> ~ In ch b -> nth 1 (split_on ch (a ++ ch :: b)) [] = b.
Proof. intros H1 H2. rewrite split_yes, split_no by assumption. reflexivity. Qed.
Lemma split_second' ch a b d : ~ In ch a -> ~ In ch b -> nth 1 (split_on ch (a ++ ch :: b ++ ch :: d)) [] = b.
Proof. intros H1 H2. rewrite split_yes, split_yes by assumption. reflexivity. Qed.
Lemma count_app ch a b : count_char ch (a ++ b) = count_char ch a + count_char ch b.
Proof. unfold count_char. rewrite filter_app, zlen_app. reflexivity. Qed.
Lemma count_zero (ch : Z) (a : str) : ~ In ch a -> count_char ch a = 0.
Proof.
  unfold count_char. intros N. induction a as [|x a IH]; [reflexivity|]. cbn [filter].
  destruct (Z.eqb_spec ch x); [subst; destruct N; left; reflexivity|].
  apply IH. intros I. apply N. right. exact I.
Qed.
Lemma count_nonneg ch a : 0 <= count_char ch a.
Proof. apply zlen_nonneg. Qed.
Lemma count_cons ch a : count_char ch (ch :: a) = 1 + count_char ch a.
Proof. unfold count_char. cbn [filter]. rewrite Z.eqb_refl, zlen_cons. lia. Qed.
Lemma count_in (ch : Z) (a : str) : In ch a -> 1 <= count_char ch a.
Proof.
  intros I. destruct (first_split ch a I) as (x & y & -> & _).
  rewrite count_app, count_cons. pose proof (count_nonneg ch x). pose proof (count_nonneg ch y). lia.
Qed.
Lemma good_prefix (p : str) : (inb p TAG_PREFIXES = true /\ inb p (map lit ["L"; "X"]%string) = false) <->
  In p (map lit ["B"; "F"; "S"; "Z"]%string).
Proof.
  rewrite inb_In, inb_false. unfold TAG_PREFIXES. cbn [map In]. split.
  - intros [H N]. intuition.
  - intros [<-|[<-|[<-|[<-|[]]]]]; (split; [tauto|]); intros [H|[H|[]]]; vm_compute in H; discriminate.
Qed.
Lemma prefix_no_comma p : In p (map lit ["B"; "F"; "S"; "Z"]%string) -> ~ In 44 p.
Proof. cbn [map In]. intros [<-|[<-|[<-|[<-|[]]]]] [H|[]]; discriminate. Qed.

Lemma label_tag_spec upper l tt tag :
  label_tag upper l = Some (tt, tag) <-> well_formed upper (filter (fun x => negb (x =? 32)) (strip l)) tt tag.
Proof.
  unfold label_tag. fold (remove_char 32 (strip l)). set (s := remove_char 32 (strip l)). unfold well_formed.
  destruct (eqb (upper s) s) eqn:U; cbn [negb].
  2:{ split; [discriminate|]. intros [H _]. rewrite H, eqb_refl in U. discriminate. }
  apply eqb_ok in U. destruct (has_char 44 s) eqn:H.
  - apply has_char_In in H. destruct (Z.ltb_spec 1 (count_char 44 s)) as [C|C].
    + split; [discriminate|]. intros (_ & [(N & _)|(E & N & P)]); [contradiction|].
      rewrite E, count_app, count_cons, (count_zero 44 tt), (count_zero 44 tag) in C
        by (first [assumption | apply prefix_no_comma; assumption]). lia.
    + destruct (first_split 44 s H) as (a & b & E & NA).
      assert (NB : ~ In 44 b).
      { intros I. rewrite E, count_app, count_cons in C. pose proof (count_in 44 b I). pose proof (count_nonneg 44 a). lia. }
      rewrite E. rewrite split_yes, split_no by assumption. cbv zeta. cbn [nth].
      split.
      * destruct (inb a TAG_PREFIXES) eqn:I1; cbn [negb]; [|intros X; discriminate X].
        destruct (inb a (map lit ["L"; "X"]%string)) eqn:I2; [intros X; discriminate X|]. intros [= <- <-].
        split; [rewrite <- E; exact U|]. right. split; [reflexivity|]. split; [exact NB|].
        apply good_prefix. auto.
      * intros (_ & [(N & _)|(E2 & N & P)]); [exfalso; apply N; apply in_or_app; right; left; reflexivity|].
        assert (X : a = tt /\ b = tag).
        { pose proof (split_yes 44 a b NA) as S1. rewrite E2 in S1.
          rewrite (split_yes 44 tt tag (prefix_no_comma _ P)), !split_no in S1 by assumption.
          injection S1 as <- <-. auto. }
        destruct X as [-> ->]. apply good_prefix in P. destruct P as [-> ->]. reflexivity.
  - assert (N : ~ In 44 s) by (rewrite <- has_char_In, H; discriminate). split.
    + intros [= <- <-]. split; [exact U|]. left. auto.
    + intros (_ & [(_ & -> & ->)|(E & _)]); [reflexivity|]. exfalso. apply N. rewrite E.
      apply in_or_app. right. left. reflexivity.
Qed.
Lemma label_tag_none upper l :
  label_tag upper l = None <-> forall tt tag, ~ well_formed upper (filter (fun x => negb (x =? 32)) (strip l)) tt tag.
Proof.
  split.
  - intros H tt tag W. apply label_tag_spec in W. congruence.
  - intros H. destruct (label_tag upper l) as [[tt tag]|] eqn:E; [|reflexivity].
    apply label_tag_spec in E. exfalso. exact (H _ _ E).
Qed.

(** *** subsegments *)
Definition starredb (c : card) : bool := match card_get c "column8" with Ok v => is_str v "*" | Err _ => false end.
Lemma starredb_ok c : starredb c = true <-> starred c.
Proof.
  unfold starredb, starred. destruct (card_get c "column8") as [v|e]; [|split; discriminate].
  rewrite is_str_ok. split; [intros ->; reflexivity|intros [= ->]; reflexivity].
Qed.
Definition set_of (s : str) : option str :=
  if startswith s (lit "SETLOC")
  then Some (if has_char 44 s then strip (nth 1 (split_on 44 s) []) else lit "0") else None.
Definition setloc_f (c : card) : option str :=
  if starredb c then None
  else match card_get c "operation" with Ok (RStr s) => set_of s | _ => None end.
Lemma setloc_ok c s : setloc c s <-> setloc_f c = Some s.
Proof.
  unfold setloc, setloc_f. rewrite <- starredb_ok.
  destruct (starredb c); [split; [intros [H _]; congruence|discriminate]|].
  destruct (card_get c "operation") as [[|op|n]|e];
    try (split; [intros (_ & r & E & _); discriminate|discriminate]).
  unfold set_of. destruct (startswith op (lit "SETLOC")) eqn:SW.
  2:{ split; [|discriminate]. intros (_ & r & E & _). injection E as E.
      assert (X : startswith op (lit "SETLOC") = true) by (apply startswith_app; exists r; exact E). congruence. }
  apply startswith_app in SW. destruct SW as (r & ->). split.
  - intros (_ & r' & E & H). injection E as E. cbv zeta in H. rewrite <- E in H. clear E r'. f_equal.
    destruct H as [[N ->]|[(a & b & E & NA & NB & ->)|(a & b & d & E & NA & NB & ->)]].
    + destruct (has_char 44 _) eqn:HC; [apply has_char_In in HC; contradiction|reflexivity].
    + rewrite (proj2 (has_char_In 44 _)) by (rewrite E; apply in_or_app; right; left; reflexivity).
      rewrite E, split_second by assumption. reflexivity.
    + rewrite (proj2 (has_char_In 44 _)) by (rewrite E; apply in_or_app; right; left; reflexivity).
      rewrite E, split_second' by assumption. reflexivity.
  - intros X. match type of X with Some ?v = Some _ => assert (Es : s = v) by congruence end. clear X. subst s.
    split; [discriminate|]. exists r. split; [reflexivity|]. cbv zeta.
    destruct (has_char 44 (lit "SETLOC" ++ r)) eqn:HC.
    + apply has_char_In in HC. destruct (first_split 44 _ HC) as (a & b & E & NA). right.
      destruct (in_dec Z.eq_dec 44 b) as [I|NB].
      * destruct (first_split 44 b I) as (b1 & d & -> & NB). right. exists a, b1, d. rewrite E.
        split; [reflexivity|]. split; [exact NA|]. split; [exact NB|]. rewrite split_second' by assumption. reflexivity.
      * left. exists a, b. rewrite E. split; [reflexivity|]. split; [exact NA|]. split; [exact NB|].
        rewrite split_second by assumption. reflexivity.
    + left. split; [rewrite <- has_char_In, HC; discriminate|reflexivity].
Qed.
Definition sub_step (s : str) (c : card) : str := match setloc_f c with Some s' => s' | None => s end.
Definition sub_after (s0 : str) (cs : list card) : str := fold_left sub_step cs s0.
Lemma no_setloc c : (forall s, ~ setloc c s) <-> setloc_f c = None.
Proof.
  split.
  - intros H. destruct (setloc_f c) as [s|] eqn:E; [|reflexivity]. apply setloc_ok in E. exfalso. exact (H s E).
  - intros E s H. apply setloc_ok in H. congruence.
Qed.
Lemma sub_after_none s0 cs : (forall c s, In c cs -> ~ setloc c s) -> sub_after s0 cs = s0.
Proof.
  unfold sub_after. revert s0. induction cs as [|c cs IH]; intros s0 H; [reflexivity|]. cbn [fold_left].
  assert (E : setloc_f c = None) by (apply no_setloc; intros s; apply H; left; reflexivity).
  unfold sub_step at 2. rewrite E. apply IH. intros c' s' I. apply H. right. exact I.
Qed.
Lemma current_ok s0 cs u : current_subseg s0 cs u <-> u = sub_after s0 cs.
Proof.
  split.
  - intros [cs' H|a c b s S H].
    + symmetry. apply sub_after_none. exact H.
    + unfold sub_after. rewrite fold_left_app. cbn [fold_left]. unfold sub_step at 2.
      apply setloc_ok in S. rewrite S. symmetry. apply sub_after_none. exact H.
  - intros ->. induction cs as [|c cs IH] using rev_ind; [apply cs_none; intros c s []|].
    unfold sub_after. rewrite fold_left_app. cbn [fold_left]. fold (sub_after s0 cs). unfold sub_step.
    destruct (setloc_f c) as [s|] eqn:E.
    + apply (cs_last s0 cs c [] s); [apply setloc_ok; exact E|intros c' s' []].
    + assert (NS := proj2 (no_setloc c) E). revert IH. generalize (sub_after s0 cs) as v. intros v IH.
      destruct IH as [cs' H|a c1 b s S H].
      * apply cs_none. intros c' s' I. apply in_app_or in I. destruct I as [I|[<-|[]]]; [apply H; exact I|apply NS].
      * rewrite <- app_assoc. cbn [app]. apply cs_last; [exact S|]. intros c' s' I. apply in_app_or in I.
        destruct I as [I|[<-|[]]]; [apply H; exact I|apply NS].
Qed.

(** *** one card *)
Lemma defines_fun upper c tag kind tt tag' kind' tt' :
  defines upper c tag kind tt -> defines upper c tag' kind' tt' -> tag = tag' /\ kind = kind' /\ tt = tt'.
Proof.
  intros (_ & s & op & (l & L & ->) & W & O & K) (_ & s' & op' & (l' & L' & ->) & W' & O' & K').
  assert (l' = l) by congruence. assert (op' = op) by congruence. subst l' op'.
  apply label_tag_spec in W. apply label_tag_spec in W'. assert (X : (tt, tag) = (tt', tag')) by congruence.
  injection X as -> ->. split; [reflexivity|]. split; [|reflexivity].
  destruct K as [[K1 ->]|[K1 ->]], K' as [[K2 ->]|[K2 ->]]; try reflexivity; contradiction.
Qed.
Lemma build_card_cases upper seg c : proper_card c -> forall s tab errs,
  (build_card upper seg (s, tab, errs) c = Ok (sub_step s c, tab, errs) /\
   ~ label_error upper c /\ (forall tag kind tt, ~ defines upper c tag kind tt)) \/
  (build_card upper seg (s, tab, errs) c = Ok (sub_step s c, tab, errs + 1) /\
   label_error upper c /\ (forall tag kind tt, ~ defines upper c tag kind tt)) \/
  (exists tag kind tt cmd e, defines upper c tag kind tt /\ ~ label_error upper c /\ entry_from c tt e /\ is_kind kind /\
     (kind = lit "complex" <-> cmd = lit "ASSIGN") /\ card_get c "operation" = Ok (RStr cmd) /\
     build_card upper seg (s, tab, errs) c =
     (do r <- insert_def tab seg (sub_step s c) tag kind cmd e; Ok (sub_step s c, fst r, errs + snd r))).
Proof.
  intros PC s tab errs. unfold build_card.
  destruct (PC "column8"%string ltac:(cbn; tauto)) as (v8 & E8 & _).
  destruct (PC "operation"%string ltac:(cbn; tauto)) as (op & EO & KO).
  destruct (PC "label"%string ltac:(cbn; tauto)) as (lb & EL & KL).
  destruct (PC "lognum"%string ltac:(cbn; tauto)) as (lg & EG & _).
  rewrite E8. cbn [bind].
  assert (SB : starredb c = is_str v8 "*") by (unfold starredb; rewrite E8; reflexivity).
  unfold sub_step, setloc_f. rewrite SB, EO, EL, EG. cbn [bind].
  destruct (is_str v8 "*").
  { left. assert (ST : starred c) by (apply starredb_ok; exact SB).
    split; [reflexivity|]. split; [intros [H _]; contradiction|intros tag kind tt [H _]; contradiction]. }
  assert (NS : ~ starred c) by (rewrite <- starredb_ok; congruence).
  assert (EN : exists s', next_subseg s op = Ok s' /\
     match op with RStr o => match set_of o with Some x => x | None => s end | _ => s end = s').
  { destruct op as [|o|n]; [eexists; split; reflexivity| |destruct KO].
    cbn [next_subseg]. unfold set_of. destruct o as [|x o]; [contradiction|].
    match goal with |- context [negb (eqb ?a ?b)] => replace (negb (eqb a b)) with true by reflexivity end. cbn [andb].
    destruct (startswith (x :: o) (lit "SETLOC")); eexists; split; reflexivity. }
  destruct EN as (s' & -> & ES).
  assert (ES' : match (match op with RStr o => set_of o | _ => None end) with Some x => x | None => s end = s').
  { destruct op; exact ES. }
  rewrite ES'. clear ES ES'. cbn [bind].
  destruct lb as [|l|n]; [| |destruct KL].
  { left. split; [reflexivity|]. split; [intros (_ & t & (l & L & _) & _); congruence|].
    intros tag kind tt (_ & t & o & (l & L & _) & _); congruence. }
  destruct l as [|x l]; [contradiction|]. set (lab := x :: l) in *.
  destruct (label_tag upper lab) as [[tt tag]|] eqn:ET.
  - destruct op as [|cmd|n]; [| |destruct KO].
    + right. left. split; [reflexivity|]. split.
      * split; [exact NS|]. eexists. split; [exists lab; split; [exact EL|reflexivity]|]. right. exact EO.
      * intros tag' kind' tt' (_ & t & o & _ & _ & O & _). congruence.
    + right. right. exists tag, (if eqb cmd (lit "ASSIGN") then lit "complex" else lit "simple"), tt, cmd,
        (mkent (c_filename c) (c_linenum c) lg tt c).
      assert (W := proj1 (label_tag_spec upper lab tt tag) ET).
      split.
      { split; [exact NS|]. eexists. exists cmd. split; [exists lab; split; [exact EL|reflexivity]|].
        split; [exact W|]. split; [exact EO|]. destruct (eqb cmd (lit "ASSIGN")) eqn:EA.
        - apply eqb_ok in EA. auto.
        - right. split; [intros ->; rewrite eqb_refl in EA; discriminate|reflexivity]. }
      split.
      { intros (_ & t & (l' & L' & ->) & [H|H]); [|congruence].
        assert (l' = lab) by congruence. subst l'. exact (H _ _ W). }
      split; [repeat split; exact EG|].
      split; [destruct (eqb cmd (lit "ASSIGN")); unfold is_kind; auto|].
      split.
      { destruct (eqb cmd (lit "ASSIGN")) eqn:EA; [apply eqb_ok in EA; tauto|].
        split; [intros H; vm_compute in H; discriminate|]. intros ->. rewrite eqb_refl in EA. discriminate. }
      split; reflexivity.
  - right. left. split; [reflexivity|].
    assert (NW := proj1 (label_tag_none upper lab) ET). split.
    + split; [exact NS|]. eexists. split; [exists lab; split; [exact EL|reflexivity]|]. left. exact NW.
    + intros tag kind tt (_ & t & o & (l' & L' & ->) & W & _). assert (l' = lab) by congruence. subst l'.
      exact (NW _ _ W).
Qed.

(** *** the table *)
Lemma insert_frame tab seg ss tag kind cmd e tab' n : insert_def tab seg ss tag kind cmd e = Ok (tab', n) ->
  forall t s u k, ~ (t = tag /\ s = seg /\ u = ss /\ k = kind) -> get4 tab' t s u k = get4 tab t s u k.
Proof.
  intros H t s u k NE. unfold insert_def in H.
  assert (D1 : forall (x : str) (a b : str), x <> a -> (if eqb a x then True else False) -> False) by
    (intros x a b N; rewrite eqb_neq by congruence; tauto).
  clear D1.
  destruct (dget tab tag) as [sg|] eqn:E1.
  - destruct (dget sg seg) as [sub|] eqn:E2.
    + destruct (dget sub ss) as [ks|] eqn:E3.
      * destruct (dget sg kind) as [prev|] eqn:E4.
        { destruct (eqb cmd (lit "EQUALS")); [destruct (dget prev (lit "card")); discriminate|].
          injection H as <- <-. reflexivity. }
        injection H as <- <-. unfold get4.
        destruct (eq_dec_b t tag) as [->|N1]; [rewrite dget_dset_eq, E1|rewrite dget_dset_ne by exact N1; reflexivity].
        destruct (eq_dec_b s seg) as [->|N2]; [rewrite dget_dset_eq, E2|rewrite dget_dset_ne by exact N2; reflexivity].
        destruct (eq_dec_b u ss) as [->|N3]; [rewrite dget_dset_eq, E3|rewrite dget_dset_ne by exact N3; reflexivity].
        destruct (eq_dec_b k kind) as [->|N4]; [tauto|rewrite dget_dset_ne by exact N4; reflexivity].
      * injection H as <- <-. unfold get4.
        destruct (eq_dec_b t tag) as [->|N1]; [rewrite dget_dset_eq, E1|rewrite dget_dset_ne by exact N1; reflexivity].
        destruct (eq_dec_b s seg) as [->|N2]; [rewrite dget_dset_eq, E2|rewrite dget_dset_ne by exact N2; reflexivity].
        destruct (eq_dec_b u ss) as [->|N3]; [rewrite dget_dset_eq, E3|rewrite dget_dset_ne by exact N3; reflexivity].
        destruct (eq_dec_b k kind) as [->|N4]; [tauto|]. cbn [dget]. rewrite eqb_neq by congruence. reflexivity.
    + injection H as <- <-. unfold get4.
      destruct (eq_dec_b t tag) as [->|N1]; [rewrite dget_dset_eq, E1|rewrite dget_dset_ne by exact N1; reflexivity].
      destruct (eq_dec_b s seg) as [->|N2]; [rewrite dget_dset_eq, E2|rewrite dget_dset_ne by exact N2; reflexivity].
      cbn [dget]. destruct (eq_dec_b u ss) as [->|N3]; [rewrite eqb_refl|rewrite eqb_neq by congruence; reflexivity].
      destruct (eq_dec_b k kind) as [->|N4]; [tauto|]. cbn [dget]. rewrite eqb_neq by congruence. reflexivity.
  - injection H as <- <-. unfold get4.
    destruct (eq_dec_b t tag) as [->|N1]; [rewrite dget_dset_eq, E1|rewrite dget_dset_ne by exact N1; reflexivity].
    cbn [dget]. destruct (eq_dec_b s seg) as [->|N2]; [rewrite eqb_refl|rewrite eqb_neq by congruence; reflexivity].
    cbn [dget]. destruct (eq_dec_b u ss) as [->|N3]; [rewrite eqb_refl|rewrite eqb_neq by congruence; reflexivity].
    destruct (eq_dec_b k kind) as [->|N4]; [tauto|]. cbn [dget]. rewrite eqb_neq by congruence. reflexivity.
Qed.
Lemma insert_plain tab seg ss tag kind cmd e : plain_table tab -> ~ is_kind seg -> is_kind kind ->
  exists tab', insert_def tab seg ss tag kind cmd e = Ok (tab', 0) /\ plain_table tab' /\
    get4 tab' tag seg ss kind = Some e.
Proof.
  intros P NK K. unfold insert_def.
  assert (PL : forall sg', (forall s, is_kind s -> dget sg' s = None) -> plain_table (dset tab tag sg')).
  { intros sg' H t sg s E KS. destruct (eq_dec_b t tag) as [->|N1].
    - rewrite dget_dset_eq in E. injection E as <-. apply H. exact KS.
    - rewrite dget_dset_ne in E by exact N1. apply (P t sg s E KS). }
  assert (SN : forall s, is_kind s -> s <> seg) by (intros s KS ->; contradiction).
  destruct (dget tab tag) as [sg|] eqn:E1.
  - assert (Q : forall x s, is_kind s -> dget (dset sg seg x) s = None).
    { intros x s KS. rewrite dget_dset_ne by (apply SN; exact KS). apply (P tag sg s E1 KS). }
    destruct (dget sg seg) as [sub|] eqn:E2.
    + destruct (dget sub ss) as [ks|] eqn:E3.
      * rewrite (P tag sg kind E1 K). eexists. split; [reflexivity|]. split; [apply PL; apply Q|].
        unfold get4. rewrite !dget_dset_eq. reflexivity.
      * eexists. split; [reflexivity|]. split; [apply PL; apply Q|].
        unfold get4. rewrite !dget_dset_eq. cbn [dget]. rewrite eqb_refl. reflexivity.
    + eexists. split; [reflexivity|]. split; [apply PL; apply Q|].
      unfold get4. rewrite !dget_dset_eq. do 3 (cbn [dget]; rewrite ?eqb_refl). reflexivity.
  - eexists. split; [reflexivity|]. split.
    + apply PL. intros s KS. cbn [dget]. rewrite eqb_neq by (apply not_eq_sym; apply SN; exact KS). reflexivity.
    + unfold get4. rewrite dget_dset_eq. do 3 (cbn [dget]; rewrite ?eqb_refl). reflexivity.
Qed.

(** *** lists of cards, from the end *)
Lemma sub_snoc s0 cs c : sub_after s0 (cs ++ [c]) = sub_step (sub_after s0 cs) c.
Proof. unfold sub_after. rewrite fold_left_app. reflexivity. Qed.
Lemma split_snoc {A} (l : list A) x pre y post : l ++ [x] = pre ++ y :: post ->
  (pre = l /\ y = x /\ post = []) \/ (exists post', post = post' ++ [x] /\ l = pre ++ y :: post').
Proof.
  destruct post as [|z post] using rev_ind; intros E.
  - apply app_inj_tail in E. destruct E as [-> ->]. auto.
  - right. exists post. rewrite app_comm_cons, app_assoc in E. apply app_inj_tail in E.
    destruct E as [-> ->]. auto.
Qed.
Lemma last_snoc upper s0 cs c t u k x tt :
  last_def upper s0 (cs ++ [c]) t u k x tt <->
  (x = c /\ defines upper c t k tt /\ u = sub_after s0 (cs ++ [c])) \/
  (last_def upper s0 cs t u k x tt /\ ~ (exists tt', defines upper c t k tt' /\ u = sub_after s0 (cs ++ [c]))).
Proof.
  split.
  - intros (pre & post & E & D & U & L). apply split_snoc in E.
    destruct E as [(-> & -> & ->)|(post' & -> & E)].
    + left. apply current_ok in U. auto.
    + right. split.
      * exists pre, post'. split; [exact E|]. split; [exact D|]. split; [exact U|].
        intros a c' b t' EQ D'. apply (L a c' (b ++ [c]) t'); [|exact D'].
        rewrite EQ, <- app_assoc. reflexivity.
      * intros (tt' & D' & U'). apply (L post' c [] tt' eq_refl D').
        apply current_ok. rewrite U', E, <- app_assoc. reflexivity.
  - intros [(-> & D & ->)|((pre & post & E & D & U & L) & N)].
    + exists cs, []. split; [reflexivity|]. split; [exact D|]. split; [apply current_ok; reflexivity|].
      intros a c' b t' EQ. destruct a; discriminate EQ.
    + exists pre, (post ++ [c]). split; [rewrite E, <- app_assoc; reflexivity|]. split; [exact D|]. split; [exact U|].
      intros a c' b t' EQ D'. apply split_snoc in EQ. destruct EQ as [(-> & -> & ->)|(b' & -> & EQ)].
      * intros U'. apply N. exists t'. split; [exact D'|]. apply current_ok in U'.
        rewrite U', E, <- app_assoc. reflexivity.
      * apply (L a c' b' t' EQ D').
Qed.
Lemma never_snoc upper s0 cs c t u k :
  never_def upper s0 (cs ++ [c]) t u k <->
  (never_def upper s0 cs t u k /\ ~ (exists tt', defines upper c t k tt' /\ u = sub_after s0 (cs ++ [c]))).
Proof.
  split.
  - intros H. split.
    + intros pre x post tt E D. apply (H pre x (post ++ [c]) tt); [|exact D]. rewrite E, <- app_assoc. reflexivity.
    + intros (tt & D & U). apply (H cs c [] tt eq_refl D). apply current_ok. exact U.
  - intros [H N] pre x post tt E D U. apply split_snoc in E. destruct E as [(-> & -> & ->)|(post' & -> & E)].
    + apply N. exists tt. apply current_ok in U. auto.
    + exact (H pre x post' tt E D U).
Qed.
Lemma defines_dec upper c t k : proper_card c -> (exists tt, defines upper c t k tt) \/ (forall tt, ~ defines upper c t k tt).
Proof.
  intros PC. destruct (build_card_cases upper [] c PC [] [] 0)
    as [(_ & _ & N)|[(_ & _ & N)|(tag & kind & tt & cmd & e & D & _)]]; [right; apply N|right; apply N|].
  destruct (eq_dec_b t tag) as [->|N1]; [destruct (eq_dec_b k kind) as [->|N2]; [left; eauto|]|];
    right; intros tt' D'; destruct (defines_fun _ _ _ _ _ _ _ _ D D') as (? & ? & ?); congruence.
Qed.
Lemma last_or_never upper s0 t u k cs : Forall proper_card cs ->
  (exists c tt, last_def upper s0 cs t u k c tt) \/ never_def upper s0 cs t u k.
Proof.
  induction cs as [|c cs IH] using rev_ind; intros F.
  - right. intros pre x post tt E. destruct pre; discriminate E.
  - apply Forall_app in F. destruct F as [F1 F2]. inversion F2 as [|? ? PC _]; subst.
    destruct (eq_dec_b u (sub_after s0 (cs ++ [c]))) as [EU|NU].
    + destruct (defines_dec upper c t k PC) as [(tt & D)|ND].
      * left. exists c, tt. apply last_snoc. left. auto.
      * destruct (IH F1) as [(x & tt & L)|N].
        -- left. exists x, tt. apply last_snoc. right. split; [exact L|]. intros (tt' & D & _). exact (ND _ D).
        -- right. apply never_snoc. split; [exact N|]. intros (tt' & D & _). exact (ND _ D).
    + destruct (IH F1) as [(x & tt & L)|N].
      * left. exists x, tt. apply last_snoc. right. split; [exact L|]. intros (tt' & _ & E). exact (NU E).
      * right. apply never_snoc. split; [exact N|]. intros (tt' & _ & E). exact (NU E).
Qed.
Lemma build_app upper seg a : forall st b, build_cards upper seg st (a ++ b) =
  (do st' <- build_cards upper seg st a; build_cards upper seg st' b).
Proof.
  induction a as [|c a IH]; intros st b; [reflexivity|]. cbn [app build_cards].
  destruct (build_card upper seg st c) as [st'|e]; cbn [bind]; [apply IH|reflexivity].
Qed.
Lemma count_snoc {A} (P : A -> Prop) l n x m : count_of P l n ->
  ((P x /\ m = n + 1) \/ (~ P x /\ m = n)) -> count_of P (l ++ [x]) m.
Proof.
  intros H. revert m. induction H as [|y l n Y H IH|y l n Y H IH]; intros m K; cbn [app].
  - destruct K as [[K ->]|[K ->]]; [apply cn_yes; [exact K|constructor]|apply cn_no; [exact K|constructor]].
  - replace m with (m - 1 + 1) by lia. apply cn_yes; [exact Y|]. apply IH. destruct K as [[K ->]|[K ->]]; [left|right];
      (split; [exact K|lia]).
  - apply cn_no; [exact Y|]. apply IH. exact K.
Qed.

(** plain tables *)
Lemma build_plain upper seg s0 tab errs cs : plain_table tab -> ~ is_kind seg -> Forall proper_card cs ->
  exists tab' n, build_cards upper seg (s0, tab, errs) cs = Ok (sub_after s0 cs, tab', errs + n) /\
    plain_table tab' /\ count_of (label_error upper) cs n /\
    forall t u k c tt, last_def upper s0 cs t u k c tt ->
      exists e, get4 tab' t seg u k = Some e /\ entry_from c tt e.
Proof.
  intros P NK. induction cs as [|c cs IH] using rev_ind; intros F.
  - exists tab, 0. split; [rewrite Z.add_0_r; reflexivity|]. split; [exact P|]. split; [constructor|].
    intros t u k c tt (pre & post & E & _). destruct pre; discriminate E.
  - apply Forall_app in F. destruct F as [F1 F2]. inversion F2 as [|? ? PC _]; subst.
    destruct (IH F1) as (tab1 & n & E & P1 & C & L). rewrite build_app, E. cbn [bind build_cards].
    rewrite sub_snoc.
    destruct (build_card_cases upper seg c PC (sub_after s0 cs) tab1 (errs + n))
      as [(-> & NE & ND)|[(-> & LE & ND)|(tag & kind & tt & cmd & e & D & NE & EF & IK & _ & _ & ->)]]; cbn [bind].
    + exists tab1, n. split; [reflexivity|]. split; [exact P1|]. split; [apply (count_snoc _ _ n); auto|].
      intros t u k x tt H. apply last_snoc in H. destruct H as [(-> & D & _)|[H _]]; [destruct (ND _ _ _ D)|].
      exact (L _ _ _ _ _ H).
    + exists tab1, (n + 1). split; [rewrite Z.add_assoc; reflexivity|]. split; [exact P1|]. split; [apply (count_snoc _ _ n); auto|].
      intros t u k x tt H. apply last_snoc in H. destruct H as [(-> & D & _)|[H _]]; [destruct (ND _ _ _ D)|].
      exact (L _ _ _ _ _ H).
    + destruct (insert_plain tab1 seg (sub_step (sub_after s0 cs) c) tag kind cmd e P1 NK IK) as (tab2 & EI & P2 & G).
      rewrite EI. cbn [bind fst snd]. exists tab2, n. split; [rewrite Z.add_0_r; reflexivity|]. split; [exact P2|].
      split; [apply (count_snoc _ _ n); auto|].
      intros t u k x tt' H. apply last_snoc in H. rewrite sub_snoc in H. destruct H as [(-> & D' & ->)|[H N]].
      * destruct (defines_fun _ _ _ _ _ _ _ _ D D') as (<- & <- & <-). exists e. auto.
      * rewrite (insert_frame _ _ _ _ _ _ _ _ _ EI); [exact (L _ _ _ _ _ H)|].
        intros (-> & _ & -> & ->). apply N. eauto.
Qed.
(** any table *)
Lemma build_frame upper seg s0 tab errs cs st : Forall proper_card cs ->
  build_cards upper seg (s0, tab, errs) cs = Ok st ->
  fst (fst st) = sub_after s0 cs /\
  forall t s u k, (s <> seg \/ never_def upper s0 cs t u k) -> get4 (snd (fst st)) t s u k = get4 tab t s u k.
Proof.
  revert st. induction cs as [|c cs IH] using rev_ind; intros st F E.
  - injection E as <-. auto.
  - apply Forall_app in F. destruct F as [F1 F2]. inversion F2 as [|? ? PC _]; subst.
    rewrite build_app in E. destruct (build_cards upper seg (s0, tab, errs) cs) as [[[s1 tab1] n]|x] eqn:E1; [|discriminate].
    destruct (IH _ F1 eq_refl) as [S1 G]. cbn [fst snd] in S1, G. subst s1. rewrite sub_snoc.
    cbn [bind build_cards] in E.
    assert (W : forall t s u k, s <> seg \/ never_def upper s0 (cs ++ [c]) t u k -> get4 tab1 t s u k = get4 tab t s u k).
    { intros t s u k H. apply G. destruct H as [H|H]; [left; exact H|right]. apply never_snoc in H. apply H. }
    destruct (build_card_cases upper seg c PC (sub_after s0 cs) tab1 n)
      as [(H & NE & ND)|[(H & LE & ND)|(tag & kind & tt & cmd & e & D & NE & EF & IK & _ & _ & H)]];
      rewrite H in E; cbn [bind] in E.
    + injection E as <-. auto.
    + injection E as <-. auto.
    + destruct (insert_def tab1 seg (sub_step (sub_after s0 cs) c) tag kind cmd e) as [[tab2 m]|x] eqn:EI; [|discriminate].
      cbn [bind fst snd] in E. injection E as <-. cbn [fst snd]. split; [reflexivity|].
      intros t s u k K. rewrite (insert_frame _ _ _ _ _ _ _ _ _ EI); [exact (W _ _ _ _ K)|].
      intros (-> & -> & -> & ->). destruct K as [K|K]; [contradiction|]. apply never_snoc in K. destruct K as [_ K].
      apply K. exists tt. rewrite sub_snoc. auto.
Qed.

(** *** files *)
Lemma seg_ok filename seg : segment_of filename seg <-> nth 0 (split_on 46 filename) [] = seg.
Proof.
  unfold segment_of. destruct (in_dec Z.eq_dec 46 filename) as [I|N].
  - destruct (first_split 46 filename I) as (a & b & E & NA). rewrite E at 3. rewrite split_yes by exact NA. cbn [nth].
    split.
    + intros [[H _]|(r & E2 & NS)]; [contradiction|].
      assert (X : nth 0 (split_on 46 filename) [] = a) by (rewrite E, split_yes by exact NA; reflexivity).
      rewrite E2, split_yes in X by exact NS. cbn [nth] in X. congruence.
    + intros <-. right. exists b. auto.
  - rewrite split_no by exact N. cbn [nth]. split; [|intros <-; left; auto].
    intros [[_ ->]|(r & E & _)]; [reflexivity|]. exfalso. apply N. rewrite E. apply in_or_app. right. left. reflexivity.
Qed.
Lemma rstr_ok f : match rstr (stripped f) with RInt _ => False | RStr s => s <> [] | RNone => True end.
Proof.
  destruct (stripped f) as [t|] eqn:E; cbn [rstr]; [|exact I]. apply stripped_Some in E. apply E.
Qed.
Lemma default_layout : argus_layout 120 [1; 2; 8; 9; 20; 33; 47; 61; 76; 81].
Proof. split; [cbn; lia|reflexivity]. Qed.
Lemma card_proper line fn i c : startswith line (lit "#") = false ->
  card_new ArgusCls line 120 [1; 2; 8; 9; 20; 33; 47; 61; 76; 81] fn i = Ok c -> proper_card c.
Proof.
  intros C H. apply comment_false in C. cbn [card_new] in H. rewrite (argus_ok _ _ _ _ _ C default_layout) in H.
  injection H as <-. intros x [<-|[<-|[<-|[<-|[]]]]]; getf; destruct (is_remark _).
  all: first [exists RNone; split; [reflexivity|exact I] | eexists; split; [reflexivity|apply rstr_ok]].
Qed.
Lemma source_proper fuel fs filename cs : source_cards fuel fs filename cs -> Forall proper_card cs.
Proof.
  intros (d & sec & c8 & H & ->). apply C68_log_section_pf in H. destruct H as [H _].
  destruct filename as [|x r]; [discriminate H|].
  destruct (C64_deck_file_pf _ _ (x :: r) _ _ _ _ ltac:(discriminate) H) as (out & X & F & _).
  pose proof (proj1 (expand_noncomment fs) _ _ X) as NC. clear X H. revert F NC. generalize (d_cards d) as cs.
  intros cs F NC. induction F as [|[[g i] l] c out cs H _ IH]; [constructor|].
  inversion NC as [|a b N1 N2]; subst. constructor; [|apply IH; exact N2]. exact (card_proper _ _ _ _ N1 H).
Qed.
Lemma bst_eq upper fuel fs filename seg cs tab : segment_of filename seg -> source_cards fuel fs filename cs ->
  build_symbol_table upper fuel fs filename tab =
  (do st <- build_cards upper seg (lit "1", tab, 0) cs; Ok (snd (fst st), snd st)).
Proof.
  intros S (d & sec & c8 & E & ->). unfold build_symbol_table. apply seg_ok in S. cbv zeta. rewrite S.
  unfold DEFAULT_WIDTH, DEFAULT_FIELDS. rewrite E. reflexivity.
Qed.
Lemma bst_source upper fuel fs filename tab r : build_symbol_table upper fuel fs filename tab = Ok r ->
  exists cs, source_cards fuel fs filename cs.
Proof.
  unfold build_symbol_table. cbv zeta.
  destruct (argus_deck_new fuel fs None (Some filename) DEFAULT_WIDTH DEFAULT_FIELDS ArgusCls) as [[[d sec] c8]|e] eqn:E;
    [|discriminate]. intros _. exists (d_cards d). exists d, sec, c8. auto.
Qed.
Lemma bst_plain upper fuel fs filename seg cs tab : segment_of filename seg -> ~ is_kind seg -> plain_table tab ->
  source_cards fuel fs filename cs ->
  exists tab' n, build_symbol_table upper fuel fs filename tab = Ok (tab', n) /\ plain_table tab' /\
    count_of (label_error upper) cs n /\
    forall t u k c tt, last_def upper (lit "1") cs t u k c tt ->
      exists e, get4 tab' t seg u k = Some e /\ entry_from c tt e.
Proof.
  intros S NK P SC. rewrite (bst_eq _ _ _ _ _ _ _ S SC).
  destruct (build_plain upper seg (lit "1") tab 0 cs P NK (source_proper _ _ _ _ SC)) as (tab' & n & E & P' & C & L).
  rewrite E. cbn [bind fst snd]. exists tab', n. auto.
Qed.

(** *** C76 *)
Lemma C76_recorded_pf : forall upper fuel fs filename seg cs tab tab' n,
  segment_of filename seg -> ~ is_kind seg -> plain_table tab -> source_cards fuel fs filename cs ->
  build_symbol_table upper fuel fs filename tab = Ok (tab', n) ->
  (forall t u k c tt, last_def upper (lit "1") cs t u k c tt ->
     exists e, get4 tab' t seg u k = Some e /\ entry_from c tt e) /\
  (forall pre c post t k tt u, cs = pre ++ c :: post -> defines upper c t k tt ->
     current_subseg (lit "1") (pre ++ [c]) u -> exists e, get4 tab' t seg u k = Some e).
Proof.
  intros upper fuel fs filename seg cs tab tab' n S NK P SC E.
  destruct (bst_plain upper fuel fs filename seg cs tab S NK P SC) as (tab1 & n1 & E1 & _ & _ & L).
  rewrite E in E1. injection E1 as <- <-. split; [exact L|].
  intros pre c post t k tt u EQ D U.
  destruct (last_or_never upper (lit "1") t u k cs (source_proper _ _ _ _ SC)) as [(x & tt' & LD)|N].
  - destruct (L _ _ _ _ _ LD) as (e & G & _). eauto.
  - destruct (N _ _ _ _ EQ D U).
Qed.
(*@ Example C76_recorded_ex :
  let fs := fun f : str => if eqb f (lit "prog.arg") then
     Some (lit "        A          DEC          1" ++ [10] ++ lit "       *B          DEC" ++ [10] ++
           lit "                   SETLOC,5" ++ [10] ++ lit "        F,M 1      ASSIGN" ++ [10] ++
           lit "        A          EQUALS" ++ [10] ++ lit "        a          DEC") else None in
  exists tab', build_symbol_table (fun s => map (fun c => if (97 <=? c) && (c <=? 122) then c - 32 else c) s)
      1 fs (lit "prog.arg") [] = Ok (tab', 1) /\
    map (fun e => (e_line e, e_tagtype e))
      (match get4 tab' (lit "A") (lit "prog") (lit "1") (lit "simple"),
             get4 tab' (lit "A") (lit "prog") (lit "5") (lit "simple"),
             get4 tab' (lit "M1") (lit "prog") (lit "5") (lit "complex") with
       | Some x, Some y, Some z => [x; y; z] | _, _, _ => [] end) = [(1, lit " "); (5, lit " "); (4, lit "F")] /\
    dkeys tab' = [lit "A"; lit "M1"].
Proof. eexists. split; [vm_compute; reflexivity|]. vm_compute. auto. Qed. @*)

Lemma C76_plain_pf : plain_table [] /\ forall upper fuel fs filename seg tab tab' n,
  segment_of filename seg -> ~ is_kind seg -> plain_table tab ->
  build_symbol_table upper fuel fs filename tab = Ok (tab', n) -> plain_table tab'.
Proof.
  split; [intros t sg s E; discriminate E|].
  intros upper fuel fs filename seg tab tab' n S NK P E.
  destruct (bst_source _ _ _ _ _ _ E) as (cs & SC).
  destruct (bst_plain upper fuel fs filename seg cs tab S NK P SC) as (tab1 & n1 & E1 & P1 & _).
  rewrite E in E1. injection E1 as <- <-. exact P1.
Qed.
(*@ Example C76_plain_ex : segment_of (lit "a.b.c") (lit "a") /\ ~ is_kind (lit "a").
Proof.
  split; [right; exists (lit "b.c"); split; [reflexivity|]; intros [H|[]]; discriminate|].
  intros [H|H]; discriminate H.
Qed. @*)

(** *** C77 *)
Lemma C77_errors_pf : forall upper fuel fs filename seg cs tab tab' n,
  segment_of filename seg -> ~ is_kind seg -> plain_table tab -> source_cards fuel fs filename cs ->
  build_symbol_table upper fuel fs filename tab = Ok (tab', n) -> count_of (label_error upper) cs n.
Proof.
  intros upper fuel fs filename seg cs tab tab' n S NK P SC E.
  destruct (bst_plain upper fuel fs filename seg cs tab S NK P SC) as (tab1 & n1 & E1 & _ & C & _).
  rewrite E in E1. injection E1 as <- <-. exact C.
Qed.
(*@ Example C77_errors_ex :
  let fs := fun f : str => 
     Some (lit "        A          DEC          1" ++ [10] ++ lit "       *A,A,A      DEC" ++ [10] ++
           lit "        A,B,C      DEC" ++ [10] ++ lit "        X,A        DEC" ++ [10] ++
           lit "        A" ++ [10] ++ lit "        a          DEC") in
  exists tab', build_symbol_table (fun s => map (fun c => if (97 <=? c) && (c <=? 122) then c - 32 else c) s)
      1 fs (lit "prog.arg") [] = Ok (tab', 4).
Proof. eexists. vm_compute. reflexivity. Qed. @*)

(** *** C78 *)
Lemma count_none {A} (P : A -> Prop) l n : count_of P l n -> (forall x, In x l -> ~ P x) -> n = 0.
Proof.
  induction 1 as [|x l n Y H IH|x l n Y H IH]; intros N; [reflexivity| |].
  - destruct (N x (or_introl eq_refl) Y).
  - apply IH. intros y I. apply N. right. exact I.
Qed.
Lemma C78_multiple_refuted_pf :
  (forall upper fuel fs filename seg cs tab tab' n,
     segment_of filename seg -> ~ is_kind seg -> plain_table tab -> source_cards fuel fs filename cs ->
     build_symbol_table upper fuel fs filename tab = Ok (tab', n) ->
     (forall c, In c cs -> ~ label_error upper c) -> n = 0) /\
  (forall upper, upper (lit "A") = lit "A" -> exists fs cs c1 c2 tab',
     source_cards 1 fs (lit "prog.arg") cs /\ cs = [c1; c2] /\
     defines upper c1 (lit "A") (lit "simple") (lit " ") /\ defines upper c2 (lit "A") (lit "simple") (lit " ") /\
     current_subseg (lit "1") cs (lit "1") /\
     card_get c1 "operation" = Ok (RStr (lit "DEC")) /\ card_get c2 "operation" = Ok (RStr (lit "DEC")) /\
     build_symbol_table upper 1 fs (lit "prog.arg") [] = Ok (tab', 0)).
Proof.
  split.
  - intros upper fuel fs filename seg cs tab tab' n S NK P SC E N.
    apply (count_none _ _ _ (C77_errors_pf _ _ _ _ _ _ _ _ _ S NK P SC E) N).
  - intros upper U.
    set (l1 := lit "        A          DEC          1"). set (l2 := lit "        A          DEC          2").
    set (fs := (fun _ : str => Some (l1 ++ [10] ++ l2)) : fsys).
    assert (D : exists d sec c8 c1 c2, argus_deck_new 1 fs None (Some (lit "prog.arg")) 120 [1; 2; 8; 9; 20; 33; 47; 61; 76; 81] ArgusCls
       = Ok (d, sec, c8) /\ d_cards d = [c1; c2] /\
       card_get c1 "operation" = Ok (RStr (lit "DEC")) /\ card_get c2 "operation" = Ok (RStr (lit "DEC")) /\
       card_get c1 "label" = Ok (RStr (lit "A")) /\ card_get c2 "label" = Ok (RStr (lit "A")) /\
       card_get c1 "column8" = Ok RNone /\ card_get c2 "column8" = Ok RNone).
    { do 5 eexists. split; [vm_compute; reflexivity|]. split; [reflexivity|]. vm_compute. repeat split; reflexivity. }
    destruct D as (d & sec & c8 & c1 & c2 & E & EC & O1 & O2 & L1 & L2 & K1 & K2).
    assert (SC : source_cards 1 fs (lit "prog.arg") [c1; c2]).
    { exists d, sec, c8. split; [exact E|]. symmetry. exact EC. }
    assert (W : well_formed upper (filter (fun x => negb (x =? 32)) (strip (lit "A"))) (lit " ") (lit "A")).
    { split; [exact U|]. left. split; [intros [H|[]]; discriminate|]. split; reflexivity. }
    assert (DF : forall c, card_get c "operation" = Ok (RStr (lit "DEC")) -> card_get c "label" = Ok (RStr (lit "A")) ->
       card_get c "column8" = Ok RNone -> defines upper c (lit "A") (lit "simple") (lit " ") /\ ~ label_error upper c /\ setloc_f c = None).
    { intros c O L K. assert (NS : ~ starred c) by (unfold starred; rewrite K; discriminate).
      split; [|split].
      - split; [exact NS|]. eexists. exists (lit "DEC"). split; [exists (lit "A"); split; [exact L|reflexivity]|].
        split; [exact W|]. split; [exact O|]. right. split; [intros H; vm_compute in H; discriminate|reflexivity].
      - intros (_ & s & (l & L' & ->) & [H|H]); [|congruence].
        assert (l = lit "A") by congruence. subst l. exact (H _ _ W).
      - unfold setloc_f. destruct (starredb c) eqn:X; [reflexivity|]. rewrite O. reflexivity. }
    destruct (DF c1 O1 L1 K1) as (D1 & N1 & S1). destruct (DF c2 O2 L2 K2) as (D2 & N2 & S2).
    assert (SG : segment_of (lit "prog.arg") (lit "prog")) by (apply seg_ok; reflexivity).
    assert (NK : ~ is_kind (lit "prog")) by (intros [H|H]; vm_compute in H; discriminate).
    destruct (bst_plain upper 1 fs (lit "prog.arg") (lit "prog") [c1; c2] [] SG NK (proj1 C76_plain_pf) SC)
      as (tab' & n & EB & _ & CN & _).
    exists fs, [c1; c2], c1, c2, tab'. split; [exact SC|]. split; [reflexivity|]. split; [exact D1|]. split; [exact D2|].
    split; [apply current_ok; unfold sub_after; cbn [fold_left]; unfold sub_step; rewrite S1, S2; reflexivity|].
    split; [exact O1|]. split; [exact O2|]. rewrite EB. do 2 f_equal.
    apply (count_none _ _ _ CN). intros c [<-|[<-|[]]]; assumption.
Qed.
(*@ Example C78_multiple_refuted_ex :
  let fs := fun f : str => Some (lit "        A          DEC          1" ++ [10] ++ lit "        A          DEC          2") in
  exists tab', build_symbol_table (fun s => s) 1 fs (lit "prog.arg") [] = Ok (tab', 0).
Proof. eexists. vm_compute. reflexivity. Qed. @*)

(** *** C79 *)
Lemma C79_frame_pf : forall upper fuel fs filename seg cs tab tab' n,
  segment_of filename seg -> source_cards fuel fs filename cs ->
  build_symbol_table upper fuel fs filename tab = Ok (tab', n) ->
  forall t s u k, (s <> seg \/ never_def upper (lit "1") cs t u k) -> get4 tab' t s u k = get4 tab t s u k.
Proof.
  intros upper fuel fs filename seg cs tab tab' n S SC E. rewrite (bst_eq _ _ _ _ _ _ _ S SC) in E.
  destruct (build_cards upper seg (lit "1", tab, 0) cs) as [st|x] eqn:EB; cbn [bind] in E; [|discriminate].
  destruct (build_frame _ _ _ _ _ _ _ (source_proper _ _ _ _ SC) EB) as [_ G]. injection E as <- <-. exact G.
Qed.
(*@ Example C79_frame_ex :
  let fs := fun f : str => Some (lit "        A          DEC          1") in
  exists t1 t2, build_symbol_table (fun s => s) 1 fs (lit "p.x") [] = Ok (t1, 0) /\
    build_symbol_table (fun s => s) 1 fs (lit "q.x") t1 = Ok (t2, 0) /\
    get4 t2 (lit "A") (lit "p") (lit "1") (lit "simple") = get4 t1 (lit "A") (lit "p") (lit "1") (lit "simple") /\
    get4 t1 (lit "A") (lit "p") (lit "1") (lit "simple") <> None /\
    get4 t2 (lit "A") (lit "q") (lit "1") (lit "simple") <> None.
Proof.
  do 2 eexists. split; [vm_compute; reflexivity|]. split; [vm_compute; reflexivity|].
  split; [vm_compute; reflexivity|]. split; vm_compute; discriminate.
Qed. @*)

(** *** C80 *)
Lemma C80_subsegment_pf : forall upper fuel fs filename seg cs tab tab' n,
  segment_of filename seg -> ~ is_kind seg -> plain_table tab -> source_cards fuel fs filename cs ->
  build_symbol_table upper fuel fs filename tab = Ok (tab', n) ->
  forall t u k e, get4 tab' t seg u k = Some e ->
    (never_def upper (lit "1") cs t u k /\ get4 tab t seg u k = Some e) \/
    (exists c tt, last_def upper (lit "1") cs t u k c tt /\ entry_from c tt e).
Proof.
  intros upper fuel fs filename seg cs tab tab' n S NK P SC E t u k e G.
  destruct (last_or_never upper (lit "1") t u k cs (source_proper _ _ _ _ SC)) as [(c & tt & LD)|N].
  - right. exists c, tt. split; [exact LD|].
    destruct (C76_recorded_pf _ _ _ _ _ _ _ _ _ S NK P SC E) as [L _].
    destruct (L _ _ _ _ _ LD) as (e' & G' & EF). congruence.
  - left. split; [exact N|]. rewrite <- (C79_frame_pf _ _ _ _ _ _ _ _ _ S SC E t seg u k (or_intror N)). exact G.
Qed.
(*@ Example C80_subsegment_ex :
  let fs := fun f : str => Some (lit "        A          DEC          1" ++ [10] ++ lit "                   SETLOC, 2 ,3" ++ [10] ++
    lit "        A          DEC          1" ++ [10] ++ lit "       *           SETLOC,9" ++ [10] ++ lit "        B          DEC" ++ [10] ++
    lit "        C          SETLOC") in
  exists tab', build_symbol_table (fun s => s) 1 fs (lit "p.x") [] = Ok (tab', 0) /\
    map (fun x => dkeys (sub (sub tab' (lit x)) (lit "p"))) ["A"; "B"; "C"]%string =
    [[lit "1"; lit "2"]; [lit "2"]; [lit "0"]].
Proof. eexists. split; vm_compute; reflexivity. Qed. @*)
Lemma C80_unique_pf : forall s0 cs, exists u, current_subseg s0 cs u /\ forall u', current_subseg s0 cs u' -> u' = u.
Proof.
  intros s0 cs. exists (sub_after s0 cs). split; [apply current_ok; reflexivity|]. intros u' H. apply current_ok in H. exact H.
Qed.
(*@ Example C80_unique_ex : forall c, card_get c "column8" = Ok RNone -> card_get c "operation" = Ok (RStr (lit "SETLOC,7")) ->
  current_subseg (lit "1") [c] (lit "7").
Proof.
  intros c H1 H2. apply (cs_last (lit "1") [] c []); [|intros ? ? []]. split; [unfold starred; rewrite H1; discriminate|].
  exists (lit ",7"). split; [exact H2|]. right. left. exists (lit "SETLOC"), (lit "7").
  split; [reflexivity|]. split; [|split; [|reflexivity]]; cbn; intuition discriminate.
Qed. @*)

(** *** C84 *)
Lemma C84_build_refuted_pf : forall upper, upper (lit "A") = lit "A" ->
  exists fs cs, source_cards 1 fs (lit "simple.arg") cs /\
    build_symbol_table upper 1 fs (lit "simple.arg") [] = Err KeyError.
Proof.
  intros upper U.
  set (l1 := lit "        A          DEC          1"). set (l2 := lit "        A          EQUALS       2").
  set (fs := (fun _ : str => Some (l1 ++ [10] ++ l2)) : fsys).
  assert (D : exists d sec c8 c1 c2, argus_deck_new 1 fs None (Some (lit "simple.arg")) 120 [1; 2; 8; 9; 20; 33; 47; 61; 76; 81] ArgusCls
     = Ok (d, sec, c8) /\ d_cards d = [c1; c2] /\
     card_get c1 "operation" = Ok (RStr (lit "DEC")) /\ card_get c2 "operation" = Ok (RStr (lit "EQUALS")) /\
     card_get c1 "label" = Ok (RStr (lit "A")) /\ card_get c2 "label" = Ok (RStr (lit "A")) /\
     card_get c1 "column8" = Ok RNone /\ card_get c2 "column8" = Ok RNone /\
     card_get c1 "lognum" = Ok RNone /\ card_get c2 "lognum" = Ok RNone).
  { do 5 eexists. split; [vm_compute; reflexivity|]. split; [reflexivity|]. vm_compute. repeat split; reflexivity. }
  destruct D as (d & sec & c8 & c1 & c2 & E & EC & O1 & O2 & L1 & L2 & K1 & K2 & G1 & G2).
  assert (SC : source_cards 1 fs (lit "simple.arg") [c1; c2]).
  { exists d, sec, c8. split; [exact E|]. symmetry. exact EC. }
  exists fs, [c1; c2]. split; [exact SC|].
  assert (SG : segment_of (lit "simple.arg") (lit "simple")) by (apply seg_ok; reflexivity).
  rewrite (bst_eq _ _ _ _ _ _ _ SG SC). cbn [build_cards].
  assert (LT : label_tag upper (lit "A") = Some (lit " ", lit "A")).
  { apply label_tag_spec. split; [exact U|]. left. split; [intros [H|[]]; discriminate|]. split; reflexivity. }
  unfold build_card at 1. rewrite K1, O1, L1, G1. cbn [bind is_str].
  assert (N1 : next_subseg (lit "1") (RStr (lit "DEC")) = Ok (lit "1")) by reflexivity. rewrite N1. cbn [bind].
  change (lit "A") with ([65] : str) at 1. cbv iota. change ([65] : str) with (lit "A"). rewrite LT. cbv beta iota.
  assert (EA : eqb (lit "DEC") (lit "ASSIGN") = false) by reflexivity. rewrite EA.
  set (e1 := mkent (c_filename c1) (c_linenum c1) RNone (lit " ") c1).
  assert (I1 : insert_def [] (lit "simple") (lit "1") (lit "A") (lit "simple") (lit "DEC") e1 =
    Ok ([(lit "A", [(lit "simple", [(lit "1", [(lit "simple", e1)])])])], 0)) by reflexivity.
  rewrite I1. cbn [bind fst snd].
  unfold build_card at 1. rewrite K2, O2, L2, G2. cbn [bind is_str].
  assert (N2 : next_subseg (lit "1") (RStr (lit "EQUALS")) = Ok (lit "1")) by reflexivity. rewrite N2. cbn [bind].
  change (lit "A") with ([65] : str) at 2. cbv iota. change ([65] : str) with (lit "A"). rewrite LT. cbv beta iota.
  assert (EB : eqb (lit "EQUALS") (lit "ASSIGN") = false) by reflexivity. rewrite EB. clear EC E. 
  generalize (mkent (c_filename c2) (c_linenum c2) RNone (lit " ") c2). intros e2. reflexivity.
Qed.
(*@ Example C84_build_refuted_ex :
  let fs := fun f : str => Some (lit "        A          DEC          1" ++ [10] ++ lit "        A          EQUALS       2") in
  build_symbol_table (fun s => s) 1 fs (lit "simple.arg") [] = Err KeyError /\
  exists t, build_symbol_table (fun s => s) 1 fs (lit "other.arg") [] = Ok (t, 0).
Proof. split; [vm_compute; reflexivity|]. eexists. vm_compute. reflexivity. Qed. @*)

Lemma C84_build_partial_pf : forall upper fuel fs filename seg cs tab,
  segment_of filename seg -> ~ is_kind seg -> plain_table tab -> source_cards fuel fs filename cs ->
  exists tab' n, build_symbol_table upper fuel fs filename tab = Ok (tab', n).
Proof.
  intros upper fuel fs filename seg cs tab S NK P SC.
  destruct (bst_plain upper fuel fs filename seg cs tab S NK P SC) as (tab1 & n1 & E1 & _). eauto.
Qed.
(*@ Example C84_build_partial_ex :
  let fs := fun f : str => Some (lit "        A          DEC          1" ++ [10] ++ lit "        A          EQUALS       2") in
  exists t, build_symbol_table (fun s => s) 1 fs (lit "other.arg") [] = Ok (t, 0) /\ dkeys t = [lit "A"].
Proof. eexists. split; vm_compute; reflexivity. Qed. @*)
