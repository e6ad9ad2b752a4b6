From Coq Require Import ZArith List Bool Lia.
From Verif Require Import Py LPy MCards SCards LInstructions.
#[local] Arguments Z.add : simpl never.
#[local] Arguments Z.sub : simpl never.
#[local] Arguments Z.mul : simpl never.
#[local] Arguments Z.pow : simpl never.

(** *** white space *)
Lemma white_ok c : is_space c = true <-> white c.
Proof.
  unfold is_space. split.
  - intros H. unfold white. cbn [In]. repeat (apply orb_true_iff in H; destruct H as [H|H]); try apply andb_true_iff in H; lia.
  - intros H. unfold white in H. cbn [In] in H. repeat (destruct H as [<-|H]; [reflexivity|]). destruct H.
Qed.
Lemma not_white c : is_space c = false <-> ~ white c.
Proof. rewrite <- white_ok. destruct (is_space c); split; intros H; congruence. Qed.
Lemma white_dec c : white c \/ ~ white c.
Proof. rewrite <- white_ok. destruct (is_space c); [left; reflexivity|right; discriminate]. Qed.

(** *** strip *)
Lemma lstrip_spec s : exists pre, s = pre ++ lstrip s /\ blank pre /\
  (forall c r, lstrip s = c :: r -> ~ white c).
Proof.
  induction s as [|c s IH]; cbn [lstrip].
  - exists []. split; [reflexivity|]. split; [constructor|discriminate].
  - destruct (is_space c) eqn:E; [apply white_ok in E|apply not_white in E].
    + destruct IH as (pre & H1 & H2 & H3). exists (c :: pre). split; [cbn; congruence|].
      split; [constructor; assumption|exact H3].
    + exists []. split; [reflexivity|]. split; [constructor|]. intros d r [= <- <-]. exact E.
Qed.
Lemma blank_rev s : blank s -> blank (rev s).
Proof. intros H. apply Forall_rev. exact H. Qed.
Lemma rstrip_spec s : exists post, s = rstrip s ++ post /\ blank post /\
  (forall c r, rstrip s = r ++ [c] -> ~ white c).
Proof.
  unfold rstrip. destruct (lstrip_spec (rev s)) as (pre & H1 & H2 & H3).
  exists (rev pre). split.
  - apply (f_equal (@rev Z)) in H1. rewrite rev_involutive, rev_app_distr in H1. exact H1.
  - split; [apply blank_rev; exact H2|]. intros c r E. apply (H3 c (rev r)).
    rewrite <- (rev_involutive (lstrip _)), E, rev_app_distr. reflexivity.
Qed.
(** *** words *)
Lemma split_ws_word w : Forall (fun c => ~ white c) w -> forall cur r, w <> [] \/ cur <> [] ->
  (r = [] \/ exists c t, r = c :: t /\ white c) ->
  exists rest, split_ws_aux cur (w ++ r) = (rev cur ++ w) :: rest.
Proof.
  induction 1 as [|c w H F IH]; intros cur r N R.
  - destruct N as [N|N]; [contradiction|]. rewrite app_nil_r. destruct cur as [|x cur]; [contradiction|].
    destruct R as [->|(c & t & -> & S)]; cbn [app split_ws_aux]; [eauto|]. apply white_ok in S. rewrite S. eauto.
  - cbn [app split_ws_aux]. rewrite (proj2 (not_white c) H). destruct (IH (c :: cur) r) as (rest & E); [right; discriminate|exact R|].
    exists rest. rewrite E. cbn [rev]. rewrite <- app_assoc. reflexivity.
Qed.
Lemma split_ws_blank p : blank p -> forall r, split_ws_aux [] (p ++ r) = split_ws_aux [] r.
Proof.
  induction 1 as [|c p H F IH]; intros r; [reflexivity|]. cbn [app split_ws_aux]. rewrite (proj2 (white_ok c) H). apply IH.
Qed.
Lemma split_ws_inv s : forall cur w rest, Forall (fun c => ~ white c) cur -> split_ws_aux cur s = w :: rest ->
  exists p v q, s = p ++ v ++ q /\ blank p /\ w = rev cur ++ v /\ w <> [] /\ Forall (fun c => ~ white c) v /\
    (q = [] \/ exists c r, q = c :: r /\ white c) /\ (cur <> [] -> p = []).
Proof.
  induction s as [|c s IH]; intros cur w rest F E; cbn [split_ws_aux] in E.
  - destruct cur as [|x cur]; [discriminate|]. injection E as E1 E2. exists [], [], [].
    split; [reflexivity|]. split; [constructor|]. split; [rewrite app_nil_r; symmetry; exact E1|].
    split; [rewrite <- E1; cbn [rev]; destruct (rev cur); discriminate|]. split; [constructor|]. auto.
  - destruct (is_space c) eqn:S; [apply white_ok in S|apply not_white in S].
    + destruct cur as [|x cur].
      * destruct (IH [] w rest F E) as (p & v & q & -> & B & W & N & V & Q & _).
        exists (c :: p), v, q. split; [reflexivity|]. split; [constructor; assumption|]. repeat (split; [assumption|]).
        intros X. contradiction.
      * injection E as E1 E2. exists [], [], (c :: s).
        split; [reflexivity|]. split; [constructor|]. split; [rewrite app_nil_r; symmetry; exact E1|].
        split; [rewrite <- E1; cbn [rev]; destruct (rev cur); discriminate|]. split; [constructor|].
        split; [right; eauto|auto].
    + destruct (IH (c :: cur) w rest (Forall_cons (P := fun c => ~ white c) c S F) E) as (p & v & q & -> & B & W & N & V & Q & P).
      rewrite (P ltac:(discriminate)). exists [], (c :: v), q. split; [reflexivity|]. split; [constructor|].
      split; [rewrite W; cbn [rev]; rewrite <- app_assoc; reflexivity|]. split; [exact N|].
      split; [constructor; assumption|]. auto.
Qed.
Lemma first_word_ok s w : first_word s w <-> exists rest, split_ws s = w :: rest.
Proof.
  unfold split_ws. split.
  - intros (p & q & -> & B & N & F & Q). rewrite split_ws_blank by exact B.
    destruct (split_ws_word w F [] q) as (rest & E); [auto|exact Q|]. exists rest. exact E.
  - intros (rest & E). destruct (split_ws_inv s [] w rest (Forall_nil _) E) as (p & v & q & -> & B & -> & N & V & Q & _).
    exists p, q. cbn [rev app] in *. auto.
Qed.
Lemma strip_trimmed s : trimmed s (strip s).
Proof.
  unfold strip. destruct (lstrip_spec s) as (pre & H1 & H2 & H3).
  destruct (rstrip_spec (lstrip s)) as (post & H4 & H5 & H6).
  exists pre, post. split; [rewrite <- H4; exact H1|]. split; [exact H2|]. split; [exact H5|].
  split; [|exact H6]. intros c r E. rewrite E in H4. eapply H3. exact H4.
Qed.
Lemma app_same_head (p p' t t' : str) :
  blank p -> blank p' -> p ++ t = p' ++ t' ->
  (forall c r, t = c :: r -> ~ white c) -> (forall c r, t' = c :: r -> ~ white c) ->
  t <> [] -> t' <> [] -> t = t'.
Proof.
  revert p'. induction p as [|x p IH]; intros p' B B' E H H' N N'.
  - destruct p' as [|y p']; [exact E|]. cbn in E. destruct t as [|c t]; [congruence|].
    injection E as E1 E2. subst y. specialize (H c t eq_refl). inversion B'; congruence.
  - destruct p' as [|y p'].
    + cbn in E. destruct t' as [|c t']; [congruence|]. injection E as E1 E2. subst x.
      specialize (H' c t' eq_refl). inversion B; congruence.
    + cbn in E. injection E as E1 E2. inversion B; inversion B'; subst. eapply IH; eassumption.
Qed.
Lemma blank_app a b : blank (a ++ b) <-> blank a /\ blank b.
Proof. apply Forall_app. Qed.
Lemma trimmed_unique s t u : trimmed s t -> trimmed s u -> t = u.
Proof.
  intros (p & q & E & B1 & B2 & H1 & H2) (p' & q' & E' & B1' & B2' & H1' & H2').
  assert (D : forall x : str, (forall c r, x = c :: r -> ~ white c) -> blank x -> x = []).
  { intros [|c x] H B; [reflexivity|]. specialize (H c x eq_refl). inversion B; congruence. }
  destruct t as [|a t].
  { destruct u as [|b u]; [reflexivity|]. exfalso.
    assert (B : blank (p' ++ (b :: u) ++ q')) by (rewrite <- E', E; apply blank_app; split; [exact B1|exact B2]).
    apply blank_app in B. destruct B as [_ B]. apply blank_app in B. destruct B as [B _].
    discriminate (D (b :: u) H1' B). }
  destruct u as [|b u].
  { exfalso. assert (B : blank (p ++ (a :: t) ++ q)) by (rewrite <- E, E'; apply blank_app; split; [exact B1'|exact B2']).
    apply blank_app in B. destruct B as [_ B]. apply blank_app in B. destruct B as [B _].
    discriminate (D (a :: t) H1 B). }
  assert (X : (a :: t) ++ q = (b :: u) ++ q').
  { apply (app_same_head p p'); try assumption; [congruence| | |discriminate|discriminate].
    - intros c r [= -> _]. eapply H1. reflexivity.
    - intros c r [= -> _]. eapply H1'. reflexivity. }
  apply (f_equal (@rev Z)) in X. rewrite !rev_app_distr in X.
  assert (Y : rev (a :: t) = rev (b :: u)).
  { apply (app_same_head (rev q) (rev q')); try assumption; try (apply blank_rev; assumption).
    - intros c r R. apply (H2 c (rev r)). rewrite <- (rev_involutive (a :: t)), R. reflexivity.
    - intros c r R. apply (H2' c (rev r)). rewrite <- (rev_involutive (b :: u)), R. reflexivity.
    - intros R. apply (f_equal (@rev Z)) in R. rewrite rev_involutive in R. discriminate.
    - intros R. apply (f_equal (@rev Z)) in R. rewrite rev_involutive in R. discriminate. }
  apply (f_equal (@rev Z)) in Y. rewrite !rev_involutive in Y. exact Y.
Qed.
Lemma strip_nil s : strip s = [] <-> blank s.
Proof.
  destruct (strip_trimmed s) as (p & q & E & B1 & B2 & H1 & H2). split.
  - intros N. rewrite N in E. rewrite E. apply blank_app. split; [exact B1|exact B2].
  - intros B. destruct (strip s) as [|c t]; [reflexivity|]. exfalso.
    rewrite E in B. apply blank_app in B. destruct B as [_ B]. cbn in B. inversion B; subst.
    specialize (H1 c t eq_refl). congruence.
Qed.
Lemma trimmed_blank_r s t w : blank w -> trimmed s t -> trimmed (s ++ w) t.
Proof.
  intros W (p & q & E & B1 & B2 & H1 & H2). exists p, (q ++ w).
  split; [rewrite E, <- !app_assoc; reflexivity|]. split; [exact B1|]. split; [apply blank_app; auto|auto].
Qed.
Lemma strip_blank_r s w : blank w -> strip (s ++ w) = strip s.
Proof.
  intros W. apply (trimmed_unique (s ++ w)); [apply strip_trimmed|].
  apply trimmed_blank_r; [exact W|apply strip_trimmed].
Qed.
Lemma stripped_None f : stripped f = None <-> blank f.
Proof. rewrite <- strip_nil. unfold stripped. destruct (strip f); split; congruence. Qed.
Lemma stripped_Some f t : stripped f = Some t <-> trimmed f t /\ t <> [].
Proof.
  unfold stripped. split.
  - destruct (strip f) as [|c r] eqn:E; [discriminate|]. intros [= <-]. rewrite <- E.
    split; [apply strip_trimmed|congruence].
  - intros [T N]. rewrite (trimmed_unique f (strip f) t (strip_trimmed f) T). destruct t; [destruct N; reflexivity|reflexivity].
Qed.

(** *** prefixes *)
Lemma startswith_app s p : startswith s p = true <-> exists r, s = p ++ r.
Proof.
  revert s. induction p as [|y p IH]; intros s.
  - cbn. split; [intros _; exists s; reflexivity|intros _; destruct s; reflexivity].
  - destruct s as [|x s]; cbn [startswith app].
    + split; [discriminate|]. intros (r & E). discriminate.
    + rewrite andb_true_iff, Z.eqb_eq, IH. split.
      * intros [-> (r & ->)]. exists r. reflexivity.
      * intros (r & [= -> ->]). split; [reflexivity|eauto].
Qed.
Lemma comment_dec line : startswith line (lit "#") = true <-> comment_line line.
Proof. apply startswith_app. Qed.
Lemma comment_false line : startswith line (lit "#") = false <-> ~ comment_line line.
Proof.
  rewrite <- comment_dec. destruct (startswith line (lit "#")); split; congruence.
Qed.

(** *** fields *)
Lemma cut_columns line s w : 1 <= s -> 0 <= w -> cut line (s, w) = columns line s (s + w - 1).
Proof.
  intros Hs Hw. unfold cut, columns. rewrite py_slice_range by lia.
  replace (s - 1 + w - (s - 1)) with (s + w - 1 - s + 1) by lia. reflexivity.
Qed.
Lemma columns_app line a b c : 1 <= a -> a <= b -> b <= c + 1 ->
  columns line a (b - 1) ++ columns line b c = columns line a c.
Proof.
  intros Ha Hb Hc. unfold columns.
  replace (Z.to_nat (c - a + 1)) with (Z.to_nat (b - a) + Z.to_nat (c - b + 1))%nat by lia.
  replace (Z.to_nat (b - 1 - a + 1)) with (Z.to_nat (b - a)) by lia.
  replace (Z.to_nat (b - 1)) with (Z.to_nat (b - a) + Z.to_nat (a - 1))%nat by lia.
  set (m := Z.to_nat (b - a)). set (n := Z.to_nat (c - b + 1)). set (l := skipn (Z.to_nat (a - 1)) line).
  assert (E : skipn (m + Z.to_nat (a - 1)) line = skipn m l).
  { unfold l. generalize (Z.to_nat (a - 1)) line. clear. intros k. revert m.
    induction k as [|k IH]; intros m line; [rewrite Nat.add_0_r; reflexivity|].
    destruct line as [|x line]; [rewrite !skipn_nil; reflexivity|].
    rewrite Nat.add_succ_r. cbn [skipn]. apply IH. }
  rewrite E. clearbody l m n. clear. revert l. induction m as [|m IH]; intros l; [reflexivity|].
  destruct l as [|x l]; cbn [firstn skipn app]; [rewrite firstn_nil; reflexivity|].
  cbn [plus firstn]. rewrite IH. reflexivity.
Qed.
Lemma last_indep (c' : Z) r x y : last (c' :: r) x = last (c' :: r) y.
Proof.
  revert c'. induction r as [|d r IH]; intros c'; [reflexivity|].
  change (last (d :: r) x = last (d :: r) y). apply IH.
Qed.
Lemma last_ge c r : increasing c r -> c <= last (c :: r) c.
Proof.
  revert c. induction r as [|c' r IH]; intros c H; [cbn; lia|]. destruct H as [H1 H2].
  specialize (IH c' H2). change (last (c :: c' :: r) c) with (last (c' :: r) c).
  rewrite (last_indep c' r c c'). lia.
Qed.
Lemma layout_concat line width r : forall c, 1 <= c -> increasing c r -> last (c :: r) c <= width ->
  concat (map (cut line) (layout width (c :: r))) = columns line c width.
Proof.
  induction r as [|c' r IH]; intros c Hc H L.
  - cbn [layout map concat]. cbn in L. rewrite app_nil_r, cut_columns by lia. f_equal. lia.
  - change (layout width (c :: c' :: r)) with ((c, c' - c) :: layout width (c' :: r)).
    destruct H as [H1 H2]. cbn [map concat].
    change (last (c :: c' :: r) c) with (last (c' :: r) c) in L. rewrite (last_indep c' r c c') in L.
    rewrite IH by (try exact H2; lia). rewrite cut_columns by lia.
    replace (c + (c' - c) - 1) with (c' - 1) by lia.
    pose proof (last_ge c' r H2). apply columns_app; lia.
Qed.
Lemma layout_length width fields : List.length (layout width fields) = List.length fields.
Proof.
  induction fields as [|c r IH]; [reflexivity|]. destruct r as [|c' r]; [reflexivity|].
  change (layout width (c :: c' :: r)) with ((c, c' - c) :: layout width (c' :: r)).
  cbn [List.length] in *. rewrite IH. reflexivity.
Qed.
Lemma layout_nth line width r : forall c k col, 1 <= c -> increasing c r -> last (c :: r) c <= width ->
  nth_error (c :: r) k = Some col ->
  nth_error (map (cut line) (layout width (c :: r))) k =
    Some (columns line col (field_end width (c :: r) k)).
Proof.
  induction r as [|c' r IH]; intros c k col Hc H L E.
  - destruct k as [|k]; cbn in E; [|destruct k; discriminate]. injection E as <-. cbn in L.
    cbn [layout map nth_error field_end]. rewrite cut_columns by lia. do 2 f_equal.
    unfold field_end. cbn. lia.
  - change (layout width (c :: c' :: r)) with ((c, c' - c) :: layout width (c' :: r)).
    destruct H as [H1 H2].
    change (last (c :: c' :: r) c) with (last (c' :: r) c) in L. rewrite (last_indep c' r c c') in L.
    destruct k as [|k].
    + cbn in E. injection E as <-. cbn [map nth_error]. rewrite cut_columns by lia. do 2 f_equal.
      unfold field_end. cbn. lia.
    + cbn [map nth_error] in E |- *. rewrite (IH c' k col) by (try assumption; lia). reflexivity.
Qed.

(** *** the record *)
Lemma py_index_nth {A} (l : list A) i x : 0 <= i -> nth_error l (Z.to_nat i) = Some x -> py_index l i = Ok x.
Proof.
  intros Hi H. unfold py_index.
  assert (L : (Z.to_nat i < List.length l)%nat) by (apply nth_error_Some; congruence).
  unfold zlen. destruct (Z.ltb_spec i 0); [lia|].
  destruct ((i <? 0) || (Z.of_nat (List.length l) <=? i)) eqn:E; [lia|]. rewrite H. reflexivity.
Qed.
Lemma fill_ok names fs : forall pre n rec,
  List.length pre = n -> (List.length fs <= List.length names)%nat ->
  NoDup names -> (forall x, In x names -> ~ In x (dkeys rec)) ->
  fill (pre ++ names) (Z.of_nat n) fs rec =
  Ok (rec ++ combine names (map (fun f => rstr (stripped f)) fs)).
Proof.
  revert names. induction fs as [|f fs IH]; intros names pre n rec Hn L ND FR; cbn [fill map].
  - rewrite combine_nil || (destruct names; cbn [combine]). 
    all: try rewrite app_nil_r; reflexivity.
  - destruct names as [|x names]; [cbn in L; lia|].
    rewrite (py_index_nth _ _ x); [|lia|].
    2:{ rewrite Nat2Z.id, nth_error_app2 by lia. rewrite Hn, Nat.sub_diag. reflexivity. }
    cbn [bind combine]. replace (Z.of_nat n + 1) with (Z.of_nat (S n)) by lia.
    replace (pre ++ x :: names) with ((pre ++ [x]) ++ names) by (rewrite <- app_assoc; reflexivity).
    inversion ND as [|y l N1 N2]; subst.
    rewrite IH; [| |cbn in L; lia|exact N2|].
    + rewrite dset_fresh by (apply FR; left; reflexivity). rewrite <- app_assoc. reflexivity.
    + rewrite app_length. cbn. lia.
    + rewrite dset_fresh by (apply FR; left; reflexivity). unfold dkeys. intros y I J.
      rewrite map_app in J. apply in_app_or in J. destruct J as [J|[J|[]]].
      * apply (FR y); [right; exact I|exact J].
      * cbn in J. subst y. contradiction.
Qed.
Definition base_record (linenum : Z) : record :=
  if linenum =? 0 then [] else [(lit "linenum", RInt linenum)].
Lemma punchcard_ok line width fields names fn ln :
  ~ comment_line line -> good_names names fields ->
  punchcard_new line width fields names fn ln =
  Ok (mkcard (remove_char 10 line) (layout width fields) fn ln false
        (Some (map (cut line) (layout width fields), map stripped (map (cut line) (layout width fields)),
               base_record ln ++ combine names (map (fun f => rstr (stripped f)) (map (cut line) (layout width fields)))))).
Proof.
  intros C (ND & NL & L). unfold punchcard_new. rewrite (proj2 (comment_false line) C).
  rewrite (fill_ok names _ [] 0 (base_record ln)); [reflexivity|reflexivity| |exact ND|].
  - rewrite map_length, layout_length. exact L.
  - unfold base_record. destruct (ln =? 0); cbn; [tauto|]. intros x I [<-|[]]. contradiction.
Qed.
Lemma shows_stripped f : shows f (rstr (stripped f)).
Proof.
  destruct (stripped f) as [t|] eqn:E; cbn [rstr].
  - right. apply stripped_Some in E. destruct E as [T N]. eauto.
  - left. apply stripped_None in E. auto.
Qed.
Lemma punchcard_inv line width fields names fn ln c :
  ~ comment_line line -> punchcard_new line width fields names fn ln = Ok c ->
  exists rec, fill names 0 (map (cut line) (layout width fields)) (base_record ln) = Ok rec /\
    c = mkcard (remove_char 10 line) (layout width fields) fn ln false
        (Some (map (cut line) (layout width fields), map stripped (map (cut line) (layout width fields)), rec)).
Proof.
  intros C H. unfold punchcard_new in H. rewrite (proj2 (comment_false line) C) in H.
  fold (base_record ln) in H. destruct (fill _ _ _ _) as [rec|e]; cbn [bind] in H; [|discriminate].
  injection H as <-. eauto.
Qed.
Lemma set_record_fields c r : card_fields (set_record c r) = card_fields c /\
  card_stripped (set_record c r) = card_stripped c /\ c_line (set_record c r) = c_line c /\
  c_layout (set_record c r) = c_layout c /\ c_filename (set_record c r) = c_filename c /\
  c_linenum (set_record c r) = c_linenum c /\ c_comment (set_record c r) = c_comment c.
Proof. destruct c as [l y f n k [[[a b] d]|]]; cbn; repeat split. Qed.
Lemma argus_inv line width fields names fn ln c : argus_new line width fields names fn ln = Ok c ->
  exists c0 r, punchcard_new line width fields names fn ln = Ok c0 /\ c = set_record c0 r.
Proof.
  unfold argus_new. destruct (punchcard_new _ _ _ _ _ _) as [c0|e]; cbn [bind]; [|discriminate].
  intros H. destruct (card_record c0) as [rec|e]; cbn [bind] in H; [|discriminate].
  destruct (dindex rec _) as [v|e]; cbn [bind] in H; [|discriminate].
  destruct (dindex _ _) as [v'|e] in H; cbn [bind] in H; [|discriminate].
  destruct (dindex _ _) as [op|e] in H; cbn [bind] in H; [|discriminate].
  destruct op as [|op|]; [injection H as <-; eauto| |discriminate].
  destruct (negb (eqb op []) && has_char 44 op); injection H as <-; eauto.
Qed.
Definition new_of (k : cardclass) :=
  match k with PunchCls => punchcard_new | ArgusCls => argus_new end.
Lemma new_of_fields k line width fields names fn ln c :
  ~ comment_line line -> new_of k line width fields names fn ln = Ok c ->
  card_fields c = Ok (map (cut line) (layout width fields)) /\
  card_stripped c = Ok (map stripped (map (cut line) (layout width fields))).
Proof.
  intros C H. destruct k; cbn [new_of] in H.
  - destruct (punchcard_inv _ _ _ _ _ _ _ C H) as (rec & _ & ->). split; reflexivity.
  - destruct (argus_inv _ _ _ _ _ _ _ H) as (c0 & r & H0 & ->).
    destruct (set_record_fields c0 r) as (-> & -> & _).
    destruct (punchcard_inv _ _ _ _ _ _ _ C H0) as (rec & _ & ->). split; reflexivity.
Qed.

Lemma good_layout_inv width fields : good_layout width fields ->
  exists r, fields = 1 :: r /\ increasing 1 r /\ last (1 :: r) 1 <= width.
Proof. destruct fields as [|c r]; cbn [good_layout]; [tauto|]. intros (-> & I & L). eauto. Qed.

Lemma C56_fields_pf : forall k line width fields fn ln c,
  ~ comment_line line -> good_layout width fields -> card_new k line width fields fn ln = Ok c ->
  exists fs, card_fields c = Ok fs /\ concat fs = columns line 1 width /\
    List.length fs = List.length fields /\
    forall i col, nth_error fields i = Some col ->
      nth_error fs i = Some (columns line col (field_end width fields i)).
Proof.
  intros k line width fields fn ln c C G H.
  assert (F : card_fields c = Ok (map (cut line) (layout width fields))).
  { apply (new_of_fields k line width fields DEFAULT_FIELDNAMES fn ln c C). destruct k; exact H. }
  exists (map (cut line) (layout width fields)). split; [exact F|].
  destruct (good_layout_inv _ _ G) as (r & -> & I & L).
  split; [apply layout_concat; try assumption; lia|].
  split; [rewrite map_length; apply layout_length|].
  intros i col E. apply layout_nth; try assumption. lia.
Qed.
(*@ Example C56_fields_ex :
  exists c, card_new PunchCls (lit "  A12 ADD") 9 [1; 2; 4] None 7 = Ok c /\
    card_fields c = Ok [lit " "; lit " A"; lit "12 ADD"].
Proof. eexists. split; vm_compute; reflexivity. Qed. @*)

Lemma C56_fields_names_pf : forall line width fields names fn ln,
  ~ comment_line line -> good_layout width fields -> good_names names fields ->
  exists c fs, punchcard_new line width fields names fn ln = Ok c /\ card_fields c = Ok fs /\
    concat fs = columns line 1 width /\
    forall i col, nth_error fields i = Some col ->
      nth_error fs i = Some (columns line col (field_end width fields i)).
Proof.
  intros line width fields names fn ln C G N. rewrite (punchcard_ok _ _ _ _ _ _ C N).
  eexists. exists (map (cut line) (layout width fields)). split; [reflexivity|]. split; [reflexivity|].
  destruct (good_layout_inv _ _ G) as (r & -> & I & L).
  split; [apply layout_concat; try assumption; lia|].
  intros i col E. apply layout_nth; try assumption. lia.
Qed.
(*@ Example C56_fields_names_ex :
  ~ comment_line (lit "ABCDE") /\ good_layout 4 [1; 3] /\ good_names [lit "x"; lit "y"] [1; 3].
Proof.
  split; [intros (r & E); discriminate|]. split; [cbn; lia|].
  split; [|split; [intros [E|[E|[]]]; discriminate|cbn; lia]].
  constructor; [intros [E|[]]; discriminate|]. constructor; [intros []|constructor].
Qed. @*)

(** *** C57 *)
Lemma dget_app {V} (d d' : dict str V) x :
  dget (d ++ d') x = match dget d x with Some v => Some v | None => dget d' x end.
Proof.
  induction d as [|[y v] d IH]; [reflexivity|]. cbn [app dget]. destruct (eqb y x); [reflexivity|exact IH].
Qed.
Lemma dget_combine {V} (names : list str) (vs : list V) : NoDup names -> forall k x v,
  nth_error names k = Some x -> nth_error vs k = Some v -> dget (combine names vs) x = Some v.
Proof.
  revert vs. induction names as [|n names IH]; intros vs ND k x v E1 E2; [destruct k; discriminate|].
  destruct vs as [|w vs]; [destruct k; discriminate|]. inversion ND; subst. cbn [combine dget].
  destruct k as [|k]; cbn [nth_error] in E1, E2.
  - injection E1 as ->. injection E2 as ->. rewrite eqb_refl. reflexivity.
  - rewrite eqb_neq; [eapply IH; eassumption|]. intros ->. apply nth_error_In in E1. contradiction.
Qed.
Lemma combine_keys {V} (names : list str) (vs : list V) x :
  In x (dkeys (combine names vs)) <-> exists k, (k < List.length vs)%nat /\ nth_error names k = Some x.
Proof.
  revert vs. induction names as [|n names IH]; intros vs.
  - cbn. split; [tauto|]. intros (k & _ & E). destruct k; discriminate.
  - destruct vs as [|v vs].
    + cbn. split; [tauto|]. intros (k & L & _). lia.
    + cbn [combine]. unfold dkeys in *. cbn [map fst In]. rewrite IH. split.
      * intros [<-|(k & L & E)]; [exists O; cbn; split; [lia|reflexivity]|exists (S k); cbn; split; [lia|exact E]].
      * intros ([|k] & L & E); cbn in L, E; [left; congruence|right; exists k; split; [lia|exact E]].
Qed.
Lemma dget_none_keys {V} (d : dict str V) x : ~ In x (dkeys d) -> dget d x = None.
Proof. apply dget_None. Qed.
Lemma base_get_ne ln x : x <> lit "linenum" -> dget (base_record ln) x = None.
Proof.
  intros N. unfold base_record. destruct (ln =? 0); [reflexivity|]. cbn [dget].
  rewrite eqb_neq by congruence. reflexivity.
Qed.
Lemma base_get_ln ln : dget (base_record ln) (lit "linenum") = if ln =? 0 then None else Some (RInt ln).
Proof. unfold base_record. destruct (ln =? 0); [reflexivity|]. cbn [dget]. rewrite eqb_refl. reflexivity. Qed.

Lemma C57_record_pf : forall line width fields names fn ln,
  ~ comment_line line -> good_layout width fields -> good_names names fields ->
  exists c fs st rec, punchcard_new line width fields names fn ln = Ok c /\ card_fields c = Ok fs /\
    card_stripped c = Ok st /\ card_record c = Ok rec /\
    (forall i f, nth_error fs i = Some f ->
       exists name o v, nth_error names i = Some name /\ nth_error st i = Some o /\
         dget rec name = Some v /\ shows f v /\
         match o with None => v = RNone | Some t => v = RStr t end) /\
    List.length st = List.length fs /\
    dget rec (lit "linenum") = (if ln =? 0 then None else Some (RInt ln)) /\
    (forall x, In x (dkeys rec) <->
       (x = lit "linenum" /\ ln <> 0) \/ (exists i, (i < List.length fields)%nat /\ nth_error names i = Some x)).
Proof.
  intros line width fields names fn ln C G N. rewrite (punchcard_ok _ _ _ _ _ _ C N).
  destruct N as (ND & NL & LN).
  set (fs := map (cut line) (layout width fields)).
  assert (LF : List.length fs = List.length fields) by (unfold fs; rewrite map_length; apply layout_length).
  eexists. exists fs, (map stripped fs). eexists. split; [reflexivity|]. split; [reflexivity|].
  split; [reflexivity|]. split; [reflexivity|]. repeat split.
  - intros i f E.
    assert (Li : (i < List.length fs)%nat) by (apply nth_error_Some; congruence).
    destruct (nth_error names i) as [name|] eqn:EN; [|apply nth_error_None in EN; lia].
    exists name, (stripped f), (rstr (stripped f)). split; [reflexivity|].
    split; [apply map_nth_error; exact E|].
    split.
    { rewrite dget_app, base_get_ne.
      - eapply dget_combine; [exact ND|exact EN|]. apply (map_nth_error (fun f => rstr (stripped f))). exact E.
      - intros ->. apply nth_error_In in EN. contradiction. }
    split; [apply shows_stripped|]. destruct (stripped f); reflexivity.
  - apply map_length.
  - rewrite dget_app, base_get_ln. destruct (ln =? 0); [|reflexivity].
    apply dget_none_keys. rewrite combine_keys. intros (k & _ & E). apply nth_error_In in E. contradiction.
  - unfold dkeys. rewrite map_app, in_app_iff. intros [I|I].
    + left. unfold base_record in I. destruct (Z.eqb_spec ln 0); [destruct I|]. destruct I as [<-|[]]. auto.
    + right. apply combine_keys in I. destruct I as (k & L & E). exists k. rewrite map_length, LF in L. auto.
  - unfold dkeys. rewrite map_app, in_app_iff. intros [[-> E]|(i & L & E)].
    + left. unfold base_record. destruct (Z.eqb_spec ln 0); [contradiction|]. left. reflexivity.
    + right. apply combine_keys. exists i. rewrite map_length, LF. auto.
Qed.
(*@ Example C57_record_ex :
  exists c, punchcard_new (lit "  A12 ADD") 9 [1; 2; 4] [lit "u"; lit "v"; lit "w"] None 7 = Ok c /\
    card_record c = Ok [(lit "linenum", RInt 7); (lit "u", RNone); (lit "v", RStr (lit "A"));
                        (lit "w", RStr (lit "12 ADD"))].
Proof. eexists. split; vm_compute; reflexivity. Qed. @*)

(** *** C58 *)
Lemma firstn_snoc_blank {n} (l : str) : exists w, firstn n (l ++ [10]) = firstn n l ++ w /\ blank w.
Proof.
  revert n. induction l as [|x l IH]; intros n.
  - destruct n as [|n]; [exists []; split; [reflexivity|constructor]|].
    exists [10]. destruct n; split; try reflexivity; (constructor; [apply white_ok; reflexivity|constructor]).
  - destruct n as [|n]; [exists []; split; [reflexivity|constructor]|].
    destruct (IH n) as (w & E & B). exists w. cbn [app firstn]. rewrite E. auto.
Qed.
Lemma columns_newline line a b : exists w, columns (line ++ [10]) a b = columns line a b ++ w /\ blank w.
Proof.
  unfold columns. generalize (Z.to_nat (b - a + 1)) as n. generalize (Z.to_nat (a - 1)) as k. intros k n.
  revert line. induction k as [|k IH]; intros line; [apply firstn_snoc_blank|].
  destruct line as [|x line]; cbn [app skipn]; [|apply IH].
  exists []. rewrite skipn_nil, firstn_nil. split; [reflexivity|constructor].
Qed.
Lemma layout_bounds width r : forall c, 1 <= c -> increasing c r -> last (c :: r) c <= width ->
  Forall (fun sw => 1 <= fst sw /\ 0 <= snd sw) (layout width (c :: r)).
Proof.
  induction r as [|c' r IH]; intros c Hc H L.
  - cbn in *. repeat constructor; cbn; lia.
  - change (layout width (c :: c' :: r)) with ((c, c' - c) :: layout width (c' :: r)).
    destruct H as [H1 H2].
    change (last (c :: c' :: r) c) with (last (c' :: r) c) in L. rewrite (last_indep c' r c c') in L.
    constructor; [cbn; lia|]. apply IH; try assumption. lia.
Qed.
Lemma stripped_newline line sw : 1 <= fst sw /\ 0 <= snd sw ->
  stripped (cut (line ++ [10]) sw) = stripped (cut line sw).
Proof.
  destruct sw as [s w]. cbn [fst snd]. intros [H1 H2]. rewrite !cut_columns by assumption.
  destruct (columns_newline line s (s + w - 1)) as (v & -> & B). unfold stripped.
  rewrite strip_blank_r by exact B. reflexivity.
Qed.
Lemma fill_stripped names fs fs' : map stripped fs = map stripped fs' -> forall i rec,
  fill names i fs rec = fill names i fs' rec.
Proof.
  revert fs'. induction fs as [|f fs IH]; intros [|f' fs'] E i rec; try discriminate; [reflexivity|].
  cbn [map] in E. injection E as E1 E2. cbn [fill]. rewrite E1.
  destruct (py_index names i) as [x|e]; cbn [bind]; [apply IH; exact E2|reflexivity].
Qed.
Lemma comment_newline line : startswith (line ++ [10]) (lit "#") = startswith line (lit "#").
Proof. destruct line as [|x line]; [reflexivity|]. cbn. f_equal. destruct line; reflexivity. Qed.
Lemma punch_newline line width fields names fn ln : good_layout width fields ->
  same_outcome (punchcard_new line width fields names fn ln)
               (punchcard_new (line ++ [10]) width fields names fn ln).
Proof.
  intros G. unfold punchcard_new. rewrite comment_newline.
  assert (R : remove_char 10 (line ++ [10]) = remove_char 10 line).
  { unfold remove_char. rewrite filter_app. cbn. apply app_nil_r. }
  rewrite R. destruct (startswith line (lit "#")); [cbn; repeat split|].
  assert (E : map stripped (map (cut (line ++ [10])) (layout width fields)) =
              map stripped (map (cut line) (layout width fields))).
  { destruct (good_layout_inv _ _ G) as (r & -> & I & L).
    rewrite !map_map. apply map_ext_in. intros sw S.
    assert (B := layout_bounds width r 1 ltac:(lia) I L). rewrite Forall_forall in B.
    apply stripped_newline. apply B. exact S. }
  fold (base_record ln). rewrite (fill_stripped _ _ _ E).
  destruct (fill _ _ _ _) as [rec|e]; cbn [bind]; [|reflexivity].
  cbn. rewrite E. repeat split.
Qed.
Lemma C58_newline_pf : forall k line width fields fn ln, good_layout width fields ->
  same_outcome (card_new k line width fields fn ln) (card_new k (line ++ [10]) width fields fn ln).
Proof.
  intros k line width fields fn ln G. unfold card_new.
  pose proof (punch_newline line width fields DEFAULT_FIELDNAMES fn ln G) as H.
  destruct k; [exact H|]. unfold argus_new. revert H.
  destruct (punchcard_new line _ _ _ _ _) as [c|e]; destruct (punchcard_new (line ++ [10]) _ _ _ _ _) as [c'|e'];
    cbn [bind same_outcome]; try tauto.
  intros (H1 & H2 & H3 & H4 & H5 & H6). rewrite <- H3, <- H1.
  destruct (card_record c) as [rec|e] eqn:ER; cbn [bind]; [|reflexivity].
  assert (SR : forall r, same_outcome (Ok (set_record c r)) (Ok (set_record c' r))).
  { intros r. destruct (set_record_fields c r) as (_ & A2 & A3 & _ & A5 & A6 & A7).
    destruct (set_record_fields c' r) as (_ & B2 & B3 & _ & B5 & B6 & B7).
    cbn [same_outcome]. repeat split; try congruence.
    destruct c as [? ? ? ? ? [[[? ?] ?]|]]; [|discriminate].
    destruct c' as [? ? ? ? ? [[[? ?] ?]|]]; [reflexivity|discriminate]. }
  destruct (dindex rec _) as [v|e]; cbn [bind]; [|reflexivity].
  cbv zeta. match goal with |- context [dindex ?r (lit "column1")] => set (r1 := r) end.
  destruct (dindex r1 _) as [v1|e]; cbn [bind]; [|reflexivity].
  match goal with |- context [dindex ?r (lit "operation")] => set (r2 := r) end.
  destruct (dindex r2 _) as [v2|e]; cbn [bind]; [|reflexivity].
  destruct v2 as [|op|]; [apply SR| |reflexivity].
  destruct (_ && _); apply SR.
Qed.
(*@ Example C58_newline_ex :
  exists c c', card_new ArgusCls (lit "R       A REMARK") 120 DEFAULT_FIELDS None 1 = Ok c /\
    card_new ArgusCls (lit "R       A REMARK" ++ [10]) 120 DEFAULT_FIELDS None 1 = Ok c' /\
    card_record c = card_record c' /\ card_fields c <> card_fields c'.
Proof. do 2 eexists. split; [vm_compute; reflexivity|]. split; [vm_compute; reflexivity|].
  split; [reflexivity|]. vm_compute. discriminate. Qed. @*)

(** *** C59 *)
Lemma C59_comment_pf : forall line width fields names fn ln, comment_line line ->
  (exists c, punchcard_new line width fields names fn ln = Ok c /\
     card_comment c = Some (filter (fun x => negb (x =? 10)) line) /\ card_str c = filter (fun x => negb (x =? 10)) line /\
     card_fields c = Err AttributeError /\ card_stripped c = Err AttributeError /\
     card_record c = Err AttributeError) /\
  argus_new line width fields names fn ln = Err AttributeError.
Proof.
  intros line width fields names fn ln C.
  assert (E : punchcard_new line width fields names fn ln = Ok (mkcard (remove_char 10 line) [] fn ln true None)).
  { unfold punchcard_new. rewrite (proj2 (comment_dec line) C). reflexivity. }
  split; [eexists; split; [exact E|]; repeat split|].
  unfold argus_new. rewrite E. reflexivity.
Qed.
(*@ Example C59_comment_ex : comment_line (lit "# note" ++ [10]) /\
  filter (fun x => negb (x =? 10)) (lit "# note" ++ [10]) = lit "# note".
Proof. split; [exists (lit " note" ++ [10]); reflexivity|reflexivity]. Qed. @*)

Lemma C59_not_comment_pf : forall line width fields names fn ln c, ~ comment_line line ->
  punchcard_new line width fields names fn ln = Ok c ->
  card_comment c = None /\ (exists fs, card_fields c = Ok fs) /\ (exists r, card_record c = Ok r).
Proof.
  intros line width fields names fn ln c C H.
  destruct (punchcard_inv _ _ _ _ _ _ _ C H) as (rec & _ & ->). cbn. split; [reflexivity|]. split; eauto.
Qed.
(*@ Example C59_not_comment_ex : ~ comment_line (lit " # note") /\
  exists c, punchcard_new (lit " # note") 3 [1] [lit "a"] None 0 = Ok c /\ card_record c = Ok [(lit "a", RStr (lit "#"))].
Proof. split; [intros (r & E); discriminate|]. eexists. split; vm_compute; reflexivity. Qed. @*)

(** *** ARGUS cards *)
Definition inst_of (v : rval) : rval :=
  match v with
  | RStr op => if negb (eqb op []) && has_char 44 op then RStr (strip (nth 0 (split_on 44 op) [])) else v
  | _ => v
  end.
Definition is_remark (v : rval) : bool := is_str v "P" || is_str v "R" || is_str v "L".
Lemma good_default fields : (List.length fields <= 10)%nat -> good_names DEFAULT_FIELDNAMES fields.
Proof.
  intros H. split; [apply nodupb_ok; vm_compute; reflexivity|]. split; [|exact H].
  intros I. apply inb_In in I. vm_compute in I. discriminate.
Qed.
Definition final_record (ln : Z) (v : nat -> rval) (rem : str) : record :=
  base_record ln ++
  (if is_remark (v 0%nat) then
     [(lit "column1", v 0%nat); (lit "lognum", v 1%nat); (lit "column8", v 2%nat); (lit "label", RNone);
      (lit "operation", RNone); (lit "operand1", RNone); (lit "operand2", RNone); (lit "operand3", RNone);
      (lit "misc", RNone); (lit "remarks", RStr rem); (lit "instruction", RNone)]
   else
     [(lit "column1", v 0%nat); (lit "lognum", v 1%nat); (lit "column8", v 2%nat); (lit "label", v 3%nat);
      (lit "operation", v 4%nat); (lit "operand1", v 5%nat); (lit "operand2", v 6%nat); (lit "operand3", v 7%nat);
      (lit "misc", v 8%nat); (lit "remarks", v 9%nat); (lit "instruction", inst_of (v 4%nat))]).
Definition not_int (v : rval) : Prop := match v with RInt _ => False | _ => True end.
Lemma dset_app_r (d d' : record) k v : dget d k = None -> dset (d ++ d') k v = d ++ dset d' k v.
Proof.
  induction d as [|[x w] d IH]; intros H; [reflexivity|]. cbn [dget app dset] in *.
  destruct (eqb x k); [discriminate|]. rewrite IH by exact H. reflexivity.
Qed.
Lemma dindex_app_r (d d' : record) k : dget d k = None -> dindex (d ++ d') k = dindex d' k.
Proof. intros H. unfold dindex. rewrite dget_app, H. reflexivity. Qed.
Ltac litne := let E := fresh in intros E; vm_compute in E; discriminate E.
Lemma argus_ok line width fields fn ln :
  ~ comment_line line -> argus_layout width fields ->
  argus_new line width fields DEFAULT_FIELDNAMES fn ln =
  Ok (mkcard (remove_char 10 line) (layout width fields) fn ln false
        (Some (map (field_text line width fields) (seq 0 10),
               map stripped (map (field_text line width fields) (seq 0 10)),
               final_record ln (fun k => rstr (stripped (field_text line width fields k)))
                            (strip (skipn 9 (remove_char 10 line)))))).
Proof.
  intros C (G & L).
  assert (F : map (cut line) (layout width fields) = map (field_text line width fields) (seq 0 10)).
  { destruct (good_layout_inv _ _ G) as (r & E & I & B).
    assert (N : forall i col, nth_error fields i = Some col ->
      nth_error (map (cut line) (layout width fields)) i = Some (columns line col (field_end width fields i))).
    { rewrite E in *. intros i col H. apply layout_nth; try assumption. lia. }
    assert (ML : List.length (map (cut line) (layout width fields)) = 10%nat) by (rewrite map_length, layout_length; exact L).
    revert N ML. generalize (map (cut line) (layout width fields)). clear E I B G.
    intros l N ML. apply nth_ext with (d := []) (d' := []); [rewrite map_length, seq_length; exact ML|].
    intros n Hn. rewrite ML in Hn.
    destruct (nth_error fields n) as [col|] eqn:E; [|apply nth_error_None in E; lia].
    rewrite (nth_error_nth _ _ _ (N n col E)).
    rewrite (nth_indep _ [] (field_text line width fields 0)) by (rewrite map_length, seq_length; exact Hn).
    rewrite map_nth, seq_nth by exact Hn. unfold field_text.
    rewrite (nth_error_nth _ _ _ E). reflexivity. }
  unfold argus_new. rewrite (punchcard_ok _ _ _ _ _ _ C (good_default fields ltac:(lia))). rewrite F.
  cbn [bind card_record c_data c_line].
  assert (SK : py_slice (remove_char 10 line) (Some 9) None = skipn 9 (remove_char 10 line)) by (apply py_slice_from; lia).
  rewrite SK. clear SK.
  set (rem := strip (skipn 9 (remove_char 10 line))).
  assert (NI : forall k, not_int ((fun k => rstr (stripped (field_text line width fields k))) k)).
  { intros k. cbn beta. destruct (stripped _); exact I. }
  set (ft := field_text line width fields) in *. set (lay := layout width fields).
  assert (CB : combine DEFAULT_FIELDNAMES (map (fun f => rstr (stripped f)) (map ft (seq 0 10))) =
    combine DEFAULT_FIELDNAMES (map (fun k => rstr (stripped (ft k))) (seq 0 10))) by (rewrite map_map; reflexivity).
  rewrite CB. clear CB.
  change (map (fun k => rstr (stripped (ft k))) (seq 0 10)) with (map (fun k => (fun k => rstr (stripped (ft k))) k) (seq 0 10)).
  generalize dependent (fun k => rstr (stripped (ft k))). intros v NI.
  cbn [seq map]. unfold DEFAULT_FIELDNAMES. cbn [map combine].
  assert (B1 : forall s, s <> lit "linenum" -> dget (base_record ln) s = None) by (intros; apply base_get_ne; assumption).
  rewrite dindex_app_r by (apply B1; litne).
  match goal with |- context [dindex ?d (lit "column1")] => replace (dindex d (lit "column1")) with (Ok (v 0%nat)) by reflexivity end.
  cbn [bind]. fold (is_remark (v 0%nat)). unfold final_record.
  destruct (is_remark (v 0%nat)) eqn:R.
  - cbv zeta.
    match goal with |- context [dindex ?d (lit "column1")] =>
      assert (R1 : d = base_record ln ++
     [(lit "column1", v 0%nat); (lit "lognum", v 1%nat); (lit "column8", v 2%nat); (lit "label", RNone);
      (lit "operation", RNone); (lit "operand1", RNone); (lit "operand2", RNone); (lit "operand3", RNone);
      (lit "misc", RNone); (lit "remarks", RStr rem)]) by (rewrite !dset_app_r by (apply B1; litne); reflexivity) end.
    rewrite R1. clear R1.
    rewrite dindex_app_r by (apply B1; litne).
    match goal with |- context [dindex ?d (lit "column1")] => replace (dindex d (lit "column1")) with (Ok (v 0%nat)) by reflexivity end.
    cbn [bind].
    rewrite dset_app_r by (apply B1; litne).
    match goal with |- context [dset ?d (lit "remarks") (RStr rem)] =>
      replace (dset d (lit "remarks") (RStr rem)) with d by reflexivity end.
    destruct (is_str (v 0%nat) "L").
    all: rewrite dindex_app_r by (apply B1; litne).
    all: match goal with |- context [dindex ?d (lit "operation")] => replace (dindex d (lit "operation")) with (@Ok rval RNone) by reflexivity end.
    all: cbn [bind]; rewrite dset_app_r by (apply B1; litne); reflexivity.
  - cbv zeta. rewrite dindex_app_r by (apply B1; litne).
    match goal with |- context [dindex ?d (lit "column1")] => replace (dindex d (lit "column1")) with (Ok (v 0%nat)) by reflexivity end.
    cbn [bind].
    assert (RL : is_str (v 0%nat) "L" = false) by (unfold is_remark in R; apply orb_false_iff in R; tauto).
    rewrite RL. rewrite dindex_app_r by (apply B1; litne).
    match goal with |- context [dindex ?d (lit "operation")] => replace (dindex d (lit "operation")) with (Ok (v 4%nat)) by reflexivity end.
    cbn [bind]. rewrite dset_app_r by (apply B1; litne).
    specialize (NI 4%nat). destruct (v 4%nat) as [|op|n] eqn:E4; [reflexivity| |destruct NI].
    cbn [inst_of]. destruct (negb (eqb op []) && has_char 44 op); [|reflexivity].
    rewrite dset_app_r by (apply B1; litne). reflexivity.
Qed.

Lemma remark_dec line width fields :
  is_remark (rstr (stripped (field_text line width fields 0))) = true <-> remark_card line width fields.
Proof.
  set (f := field_text line width fields 0). unfold is_remark. unfold remark_card. fold f.
  rewrite !orb_true_iff.
  assert (Q : forall x, lit x <> [] -> is_str (rstr (stripped f)) x = true <-> trimmed f (lit x)).
  { intros x N. destruct (stripped f) as [t|] eqn:E; cbn [rstr is_str].
    - apply stripped_Some in E. destruct E as [T _]. split.
      + intros H. apply eqb_ok in H. subst t. exact T.
      + intros T'. rewrite (trimmed_unique _ _ _ T T'). apply eqb_refl.
    - split; [discriminate|]. intros T. exfalso. apply N.
      apply stripped_None in E. destruct T as (p & q & -> & B1 & B2 & H1 & H2).
      apply blank_app in E. destruct E as [_ E]. apply blank_app in E. destruct E as [E _].
      destruct (lit x) as [|c r]; [reflexivity|]. inversion E; subst. specialize (H1 c r eq_refl). congruence. }
  rewrite !Q by (vm_compute; discriminate). split.
  - intros [[T|T]|T]; [exists "P"%string|exists "R"%string|exists "L"%string]; (split; [cbn; tauto|exact T]).
  - intros (x & [<-|[<-|[<-|[]]]] & T); tauto.
Qed.
Lemma final_get ln v rem x : x <> lit "linenum" ->
  dget (final_record ln v rem) x =
  dget (if is_remark (v 0%nat) then
     [(lit "column1", v 0%nat); (lit "lognum", v 1%nat); (lit "column8", v 2%nat); (lit "label", RNone);
      (lit "operation", RNone); (lit "operand1", RNone); (lit "operand2", RNone); (lit "operand3", RNone);
      (lit "misc", RNone); (lit "remarks", RStr rem); (lit "instruction", RNone)]
   else
     [(lit "column1", v 0%nat); (lit "lognum", v 1%nat); (lit "column8", v 2%nat); (lit "label", v 3%nat);
      (lit "operation", v 4%nat); (lit "operand1", v 5%nat); (lit "operand2", v 6%nat); (lit "operand3", v 7%nat);
      (lit "misc", v 8%nat); (lit "remarks", v 9%nat); (lit "instruction", inst_of (v 4%nat))]) x.
Proof. intros N. unfold final_record. rewrite dget_app, base_get_ne by exact N. reflexivity. Qed.

Lemma get_of c l rec f s n fn ly k x :
  c = mkcard l ly fn n k (Some (f, s, rec)) -> card_get c x = dindex rec (lit x).
Proof. intros ->. reflexivity. Qed.
Ltac getf := rewrite (get_of _ _ _ _ _ _ _ _ _ _ eq_refl); unfold dindex; rewrite final_get by litne.

Lemma C60_remarks_refuted_pf : forall line width fields fn ln ch,
  ~ comment_line line -> argus_layout width fields -> remark_card line width fields ->
  nth_error (filter (fun c => negb (c =? 10)) line) 8 = Some ch -> ~ white ch ->
  exists c, card_new ArgusCls line width fields fn ln = Ok c /\
    forall t, trimmed (text_from 9 line) t -> card_get c "remarks" <> Ok (RStr t).
Proof.
  intros line width fields fn ln ch C A R E8 NS. unfold card_new. rewrite (argus_ok _ _ _ _ _ C A).
  eexists. split; [reflexivity|]. intros t T. getf. rewrite (proj2 (remark_dec _ _ _) R).
  match goal with |- context [dget ?d (lit "remarks")] => replace (dget d (lit "remarks")) with (Some (RStr (strip (skipn 9 (remove_char 10 line))))) by reflexivity end.
  pose proof (strip_trimmed (skipn 9 (remove_char 10 line))) as T2.
  set (rem := strip (skipn 9 (remove_char 10 line))) in *. clearbody rem. intros H. injection H as ->.
  unfold text_from in T. fold (remove_char 10 line) in T. unfold remove_char in *.
  set (l := filter (fun c => negb (c =? 10)) line) in *. clearbody l.
  assert (S8 : skipn (9 - 1) l = ch :: skipn 9 l).
  { clear -E8. cbn [Nat.sub]. do 8 (destruct l as [|? l]; [discriminate|]). destruct l as [|x l]; [discriminate|].
    cbn in E8. injection E8 as ->. reflexivity. }
  rewrite S8 in T.
  destruct T as (p & q & E & B1 & B2 & _). destruct T2 as (p2 & q2 & E2 & B3 & B4 & _).
  assert (ND : forall w, blank w -> filter (fun c => negb (is_space c)) w = []).
  { intros w. induction w as [|x w IH]; intros B; [reflexivity|]. inversion B as [|? ? W ?]; subst. cbn.
    rewrite (proj2 (white_ok x) W). cbn. apply IH. assumption. }
  apply (f_equal (fun l => List.length (filter (fun c => negb (is_space c)) l))) in E, E2.
  rewrite !filter_app, !app_length in E, E2. rewrite !(ND _ B1), !(ND _ B2) in E. rewrite !(ND _ B3), !(ND _ B4) in E2.
  cbn [filter] in E. rewrite (proj2 (not_white ch) NS) in E. cbn in E, E2. lia.
Qed.
(*@ Example C60_remarks_refuted_ex :
  exists c, card_new ArgusCls (lit "R       WHOLE REMARK") 120 DEFAULT_FIELDS None 1 = Ok c /\
    trimmed (text_from 9 (lit "R       WHOLE REMARK")) (lit "WHOLE REMARK") /\
    card_get c "remarks" = Ok (RStr (lit "HOLE REMARK")).
Proof.
  eexists. split; [vm_compute; reflexivity|]. split; [|vm_compute; reflexivity].
  exists [], []. split; [reflexivity|]. split; [constructor|]. split; [constructor|]. split.
  - intros c r [= <- _]. apply not_white. reflexivity.
  - intros c r E. apply (f_equal (fun l => last l 0)) in E. rewrite last_last in E. rewrite <- E. apply not_white. reflexivity.
Qed. @*)

Lemma C60_remarks_partial_pf : forall line width fields fn ln,
  ~ comment_line line -> argus_layout width fields -> remark_card line width fields ->
  exists c t, card_new ArgusCls line width fields fn ln = Ok c /\ card_get c "remarks" = Ok (RStr t) /\
    trimmed (text_from 10 line) t /\
    (match nth_error (filter (fun c => negb (c =? 10)) line) 8 with Some ch => white ch | None => True end ->
     trimmed (text_from 9 line) t).
Proof.
  intros line width fields fn ln C A R. unfold card_new. rewrite (argus_ok _ _ _ _ _ C A).
  eexists. exists (strip (skipn 9 (remove_char 10 line))). split; [reflexivity|]. split.
  { getf. rewrite (proj2 (remark_dec _ _ _) R). reflexivity. }
  split; [apply strip_trimmed|]. unfold text_from, remove_char.
  set (l := filter (fun c => negb (c =? 10)) line). clearbody l. intros H.
  destruct (nth_error l 8) as [ch|] eqn:E8.
  - assert (S8 : skipn (9 - 1) l = ch :: skipn 9 l).
    { clear -E8. cbn [Nat.sub]. do 8 (destruct l as [|? l]; [discriminate|]). destruct l as [|x l]; [discriminate|].
      cbn in E8. injection E8 as ->. reflexivity. }
    rewrite S8. destruct (strip_trimmed (skipn 9 l)) as (p & q & E & B1 & B2 & H1 & H2).
    exists (ch :: p), q. split; [cbn [app]; f_equal; exact E|]. split; [constructor; assumption|]. auto.
  - apply nth_error_None in E8. rewrite !skipn_all2 by lia. cbn.
    exists [], []. split; [reflexivity|]. split; [constructor|]. split; [constructor|].
    split; [discriminate|]. intros c r E. destruct r; discriminate.
Qed.
(*@ Example C60_remarks_partial_ex :
  exists c, card_new ArgusCls (lit "P        TITLE PAGE  ") 120 DEFAULT_FIELDS None 1 = Ok c /\
    card_get c "remarks" = Ok (RStr (lit "TITLE PAGE")).
Proof. eexists. split; vm_compute; reflexivity. Qed. @*)

Lemma C61_remark_card_pf : forall line width fields fn ln,
  ~ comment_line line -> argus_layout width fields -> remark_card line width fields ->
  exists c, card_new ArgusCls line width fields fn ln = Ok c /\
    (forall x, In x ["label"; "operation"; "instruction"; "operand1"; "operand2"; "operand3"; "misc"]%string ->
       card_get c x = Ok RNone) /\
    (forall k x, In (k, x) [(0%nat, "column1"); (1%nat, "lognum"); (2%nat, "column8")]%string ->
       exists v, card_get c x = Ok v /\ shows (field_text line width fields k) v).
Proof.
  intros line width fields fn ln C A R. unfold card_new. rewrite (argus_ok _ _ _ _ _ C A).
  eexists. split; [reflexivity|]. pose proof (proj2 (remark_dec _ _ _) R) as R'. split.
  - intros x I. repeat (destruct I as [<-|I]; [getf; rewrite R'; reflexivity|]). destruct I.
  - intros k x I. exists (rstr (stripped (field_text line width fields k))). split; [|apply shows_stripped].
    repeat (destruct I as [[= <- <-]|I]; [getf; rewrite R'; reflexivity|]). destruct I.
Qed.
(*@ Example C61_remark_card_ex :
  remark_card (lit "L   X   LOG TITLE  OP") 120 DEFAULT_FIELDS /\ argus_layout 120 DEFAULT_FIELDS /\
  exists c, card_new ArgusCls (lit "L   X   LOG TITLE  OP") 120 DEFAULT_FIELDS None 1 = Ok c /\
    card_get c "lognum" = Ok (RStr (lit "X")) /\ card_get c "operation" = Ok RNone.
Proof.
  split.
  { exists "L"%string. split; [cbn; tauto|]. exists [], []. split; [reflexivity|]. split; [constructor|].
    split; [constructor|]. split; [intros c r [= <- _]; apply not_white; reflexivity|].
    intros c r E. apply (f_equal (fun l => last l 0)) in E. rewrite last_last in E. rewrite <- E. apply not_white. reflexivity. }
  split; [split; [cbn; lia|reflexivity]|].
  eexists. split; [vm_compute; reflexivity|]. split; vm_compute; reflexivity.
Qed. @*)

Lemma C61_other_card_pf : forall line width fields fn ln,
  ~ comment_line line -> argus_layout width fields -> ~ remark_card line width fields ->
  exists c, card_new ArgusCls line width fields fn ln = Ok c /\
    (forall k x, nth_error ["column1"; "lognum"; "column8"; "label"; "operation"; "operand1"; "operand2";
                            "operand3"; "misc"; "remarks"]%string k = Some x ->
       exists v, card_get c x = Ok v /\ shows (field_text line width fields k) v).
Proof.
  intros line width fields fn ln C A R. unfold card_new. rewrite (argus_ok _ _ _ _ _ C A).
  eexists. split; [reflexivity|].
  assert (R' : is_remark (rstr (stripped (field_text line width fields 0))) = false).
  { destruct (is_remark _) eqn:E; [|reflexivity]. apply remark_dec in E. contradiction. }
  intros k x I. exists (rstr (stripped (field_text line width fields k))). split; [|apply shows_stripped].
  do 10 (destruct k as [|k]; [injection I as <-; getf; rewrite R'; reflexivity|]). destruct k; discriminate.
Qed.
(*@ Example C61_other_card_ex :
  exists c, card_new ArgusCls (lit " 12     LOOP       WA           A,1           B") 120 DEFAULT_FIELDS None 3 = Ok c /\
    map (card_get c) ["column1"; "lognum"; "label"; "operation"; "operand1"; "operand2"; "remarks"]%string =
    [Ok RNone; Ok (RStr (lit "12")); Ok (RStr (lit "LOOP")); Ok (RStr (lit "WA")); Ok (RStr (lit "A,1"));
     Ok (RStr (lit "B")); Ok RNone].
Proof. eexists. split; vm_compute; reflexivity. Qed. @*)

Lemma split_on_first a b : ~ In 44 a -> nth 0 (split_on 44 (a ++ 44 :: b)) [] = a.
Proof.
  induction a as [|x a IH]; intros N; [reflexivity|]. cbn [app split_on].
  destruct (Z.eqb_spec x 44); [subst; destruct N; left; reflexivity|].
  assert (IH' := IH ltac:(intros I; apply N; right; exact I)).
  destruct (split_on 44 (a ++ 44 :: b)); cbn [nth] in *; [rewrite <- IH'; reflexivity|].
  f_equal. exact IH'.
Qed.
Lemma has_char_In c s : has_char c s = true <-> In c s.
Proof.
  unfold has_char. rewrite existsb_exists. split.
  - intros (x & I & E). apply Z.eqb_eq in E. subst. exact I.
  - intros I. exists c. split; [exact I|apply Z.eqb_refl].
Qed.
Lemma C62_instruction_pf : forall line width fields fn ln,
  ~ comment_line line -> argus_layout width fields ->
  exists c op inst, card_new ArgusCls line width fields fn ln = Ok c /\
    card_get c "operation" = Ok op /\ card_get c "instruction" = Ok inst /\
    (op = RNone /\ inst = RNone \/
     exists s, op = RStr s /\
       (~ In 44 s -> inst = RStr s) /\
       (forall a b, s = a ++ 44 :: b -> ~ In 44 a -> exists t, trimmed a t /\ inst = RStr t)).
Proof.
  intros line width fields fn ln C A. unfold card_new. rewrite (argus_ok _ _ _ _ _ C A).
  destruct (is_remark (rstr (stripped (field_text line width fields 0)))) eqn:R.
  - eexists. exists RNone, RNone. split; [reflexivity|].
    split; [getf; rewrite R; reflexivity|]. split; [getf; rewrite R; reflexivity|]. left. auto.
  - set (f := field_text line width fields 4).
    eexists. exists (rstr (stripped f)), (inst_of (rstr (stripped f))). split; [reflexivity|].
    split; [getf; rewrite R; reflexivity|]. split; [getf; rewrite R; reflexivity|].
    destruct (stripped f) as [s|]; cbn [rstr inst_of]; [right|left; auto].
    exists s. split; [reflexivity|]. split.
    + intros N. destruct (has_char 44 s) eqn:H; [apply has_char_In in H; contradiction|].
      rewrite andb_false_r. reflexivity.
    + intros a b -> N. exists (strip a). split; [apply strip_trimmed|].
      rewrite (proj2 (has_char_In 44 (a ++ 44 :: b))) by (apply in_or_app; right; left; reflexivity).
      rewrite eqb_neq by (destruct a; discriminate). cbn [negb andb].
      rewrite split_on_first by exact N. reflexivity.
Qed.
(*@ Example C62_instruction_ex :
  exists c, card_new ArgusCls (lit "                   WA , MASK,1") 120 DEFAULT_FIELDS None 3 = Ok c /\
    card_get c "operation" = Ok (RStr (lit "WA , MASK,1")) /\ card_get c "instruction" = Ok (RStr (lit "WA")).
Proof. eexists. split; [vm_compute; reflexivity|]. split; vm_compute; reflexivity. Qed. @*)
