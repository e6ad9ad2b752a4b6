From Coq Require Import ZArith List Bool Lia.
From Verif Require Import Py LPy MCards SCards LCards LDeck MSymbols SSymbols LSymBuild MTools STools LGen SAgain.
#[local] Arguments Z.add : simpl never.
#[local] Arguments Z.sub : simpl never.
#[local] Arguments Z.mul : simpl never.
#[local] Arguments Z.pow : simpl never.

(** *** the lines of a file with text appended *)
Lemma universal_tail (r : str) : forall s : str,
  (exists u, universal_newlines s = u ++ [10] /\ universal_newlines (s ++ 10 :: r) = universal_newlines s ++ universal_newlines r) \/
  universal_newlines (s ++ 10 :: r) = universal_newlines s ++ 10 :: universal_newlines r.
Proof.
  induction s as [|c s IH]; [right; reflexivity|]. cbn [app universal_newlines]. destruct (Z.eqb_spec c 13) as [->|N].
  - destruct s as [|d s].
    + left. exists []. split; reflexivity.
    + cbn [app]. cbn [app] in IH. destruct (d =? 10); [exact IH|]. destruct IH as [(u & E & F)|F].
      * left. exists (10 :: u). rewrite E. split; [reflexivity|]. rewrite F, E. reflexivity.
      * right. rewrite F. reflexivity.
  - destruct IH as [(u & E & F)|F].
    + left. exists (c :: u). rewrite E. split; [reflexivity|]. rewrite F, E. reflexivity.
    + right. rewrite F. reflexivity.
Qed.
Lemma lines_tail (v : str) : forall u : str, lines_of (u ++ 10 :: v) = lines_of (u ++ [10]) ++ lines_of v.
Proof.
  induction u as [|c u IH]; [reflexivity|]. cbn [app lines_of]. rewrite IH. destruct (c =? 10); [reflexivity|].
  destruct (lines_of (u ++ [10])) as [|h t] eqn:E; [|reflexivity]. destruct u as [|x u]; [discriminate|].
  exfalso. cbn [app lines_of] in E. destruct (x =? 10); [discriminate|]. destruct (lines_of (u ++ [10])); discriminate.
Qed.
Definition grown (l l' : str) : Prop := l' = l \/ l' = l ++ [10].
Lemma grown_refl ls : Forall2 grown ls ls.
Proof. induction ls; constructor; [left; reflexivity|assumption]. Qed.
Lemma lines_end : forall u : str, exists ls m, lines_of (u ++ [10]) = ls ++ m /\ Forall2 grown (lines_of u) ls /\ (m = [] \/ m = [[10]]) /\
  (u <> [] -> lines_of u <> []).
Proof.
  induction u as [|c u (ls & m & E & F & M & N)].
  - exists [], [[10]]. split; [reflexivity|]. split; [constructor|]. split; [right; reflexivity|]. intros X. contradiction.
  - cbn [app lines_of]. rewrite E. destruct (c =? 10).
    + exists ([10] :: ls), m. split; [reflexivity|]. split; [constructor; [left; reflexivity|exact F]|]. split; [exact M|]. discriminate.
    + destruct F as [|h h' t t' G F].
      * destruct u as [|x u]; [|exfalso; apply N; [discriminate|reflexivity]]. vm_compute in E. destruct M as [->| ->]; [discriminate|].
        exists [[c; 10]], []. split; [reflexivity|]. split; [constructor; [right; reflexivity|constructor]|]. split; [left; reflexivity|discriminate].
      * exists ((c :: h') :: t'), m. split; [reflexivity|]. split; [|split; [exact M|discriminate]].
        constructor; [|exact F]. destruct G as [->| ->]; [left|right]; reflexivity.
Qed.
Lemma lines_grow content rest : exists ls m, readlines (content ++ 10 :: rest) = ls ++ m ++ readlines rest /\
  Forall2 grown (readlines content) ls /\ (m = [] \/ m = [[10]]).
Proof.
  unfold readlines. destruct (universal_tail rest content) as [(u & E & F)|F]; rewrite F.
  - exists (lines_of (universal_newlines content)), []. split; [|split; [apply grown_refl|left; reflexivity]].
    rewrite E, <- app_assoc. cbn [app]. apply lines_tail.
  - rewrite lines_tail. destruct (lines_end (universal_newlines content)) as (ls & m & E & G & M & _).
    exists ls, m. rewrite E, <- app_assoc. auto.
Qed.
Lemma readlines_line (t rest : str) : ~ In 10 t -> ~ In 13 t -> readlines (t ++ [10] ++ rest) = (t ++ [10]) :: readlines rest.
Proof.
  intros A B. unfold readlines. rewrite app_assoc. rewrite universal_app.
  - rewrite <- app_assoc. cbn [app]. apply lines_app. exact A.
  - intros I. apply in_app_or in I. destruct I as [I|[I|[]]]; [exact (B I)|discriminate].
Qed.

(** *** lines with a newline added *)
Lemma ends (p : str) (r l : str) : ~ In 10 p -> p <> [] -> l ++ [10] = p ++ r -> exists r', r = r' ++ [10] /\ l = p ++ r'.
Proof.
  intros N NE E. destruct (@exists_last _ r) as (r' & x & ->).
  - intros ->. rewrite app_nil_r in E. apply N. rewrite <- E. apply in_or_app. right. left. reflexivity.
  - rewrite app_assoc in E. apply app_inj_tail in E. destruct E as [E ->]. exists r'. auto.
Qed.
Lemma prefixed_grown (p : str) l l' : ~ In 10 p -> p <> [] -> grown l l' -> (exists r, l' = p ++ r) <-> (exists r, l = p ++ r).
Proof.
  intros N NE [->| ->]; [tauto|]. split.
  - intros (r & E). destruct (ends p r l N NE E) as (r' & _ & X). exists r'. exact X.
  - intros (r & ->). exists (r ++ [10]). rewrite app_assoc. reflexivity.
Qed.
Ltac nol := let I := fresh in intros I; vm_compute in I; repeat (destruct I as [I|I]; [discriminate|]); exact I.
Lemma l_grown l l' : grown l l' -> l_line l' <-> l_line l.
Proof. apply prefixed_grown; [nol|discriminate]. Qed.
Lemma pages_grown l l' : grown l l' -> pages_line l' <-> pages_line l.
Proof. apply prefixed_grown; [nol|discriminate]. Qed.
Lemma first_word_grown r w : first_word r w -> first_word (r ++ [10]) w.
Proof.
  intros (p & q & -> & B & N & F & Q). exists p, (q ++ [10]). split; [rewrite <- !app_assoc; reflexivity|].
  split; [exact B|]. split; [exact N|]. split; [exact F|]. right. destruct Q as [->|(c & q' & -> & S)].
  - exists 10, []. split; [reflexivity|apply white_ok; reflexivity].
  - exists c, (q' ++ [10]). auto.
Qed.
Lemma pages_are_grown l l' a b : grown l l' -> pages_are l a b -> pages_are l' a b.
Proof.
  intros [->| ->]; [auto|]. intros (r & w & -> & W & R). exists (r ++ [10]), w. split; [rewrite app_assoc; reflexivity|].
  split; [apply first_word_grown; exact W|exact R].
Qed.
Lemma filter_grown l l' : grown l l' -> filter (fun c => negb (c =? 10)) l' = filter (fun c => negb (c =? 10)) l.
Proof. intros [->| ->]; [reflexivity|]. rewrite filter_app. cbn. apply app_nil_r. Qed.
Lemma column8_grown l l' v : grown l l' -> shows (columns l 8 8) v -> shows (columns l' 8 8) v.
Proof.
  intros [->| ->]; [auto|]. unfold columns. change (Z.to_nat (8 - 8 + 1)) with 1%nat. change (Z.to_nat (8 - 1)) with 7%nat. rewrite skipn_app.
  destruct (skipn 7 l) as [|c r] eqn:E; [|auto]. intros S. apply shows_eq in S. subst v. apply shows_eq. cbn [app].
  destruct (skipn (7 - List.length l) [10]) as [|x s] eqn:E2; [reflexivity|].
  destruct (7 - List.length l)%nat as [|k]; [|destruct k; discriminate]. cbn in E2. injection E2 as <- <-. reflexivity.
Qed.
Lemma Forall2_In_r {A B} (R : A -> B -> Prop) l l' y : Forall2 R l l' -> In y l' -> exists x, In x l /\ R x y.
Proof.
  induction 1 as [|a b l l' H F IH]; [intros []|]. intros [<-|I]; [exists a; split; [left; reflexivity|exact H]|].
  destruct (IH I) as (x & J & X). exists x. split; [right; exact J|exact X].
Qed.
Lemma grown_section ls ls' tail sec c8 : Forall2 grown ls ls' -> l_section ls sec c8 -> section_is (ls' ++ tail) sec c8.
Proof.
  intros F (pre & l & post & -> & L & N & T & S). left. apply Forall2_app_inv_l in F. destruct F as (pre' & q & FP & FQ & ->).
  inversion FQ as [|x l' y post' G FQ']; subst. exists pre', l', (post' ++ tail). split; [rewrite <- app_assoc; reflexivity|].
  split; [apply (l_grown _ _ G); exact L|]. split.
  - intros x I X. destruct (Forall2_In_r _ _ _ _ FP I) as (y & J & GY). apply (N y J). apply (l_grown _ _ GY). exact X.
  - split; [rewrite (filter_grown _ _ G); exact T|eapply column8_grown; eassumption].
Qed.
Lemma grown_pages ls ls' tail a b : Forall2 grown ls ls' -> (forall x, In x tail -> ~ pages_line x) -> page_numbers ls a b ->
  page_numbers (ls' ++ tail) a b.
Proof.
  intros F NT (pre & l & post & -> & P & N). apply Forall2_app_inv_l in F. destruct F as (pre' & q & FP & FQ & ->).
  inversion FQ as [|x l' y post' G FQ']; subst. exists pre', l', (post' ++ tail). split; [rewrite <- app_assoc; reflexivity|].
  split; [eapply pages_are_grown; eassumption|]. intros x I. apply in_app_or in I. destruct I as [I|I]; [|exact (NT x I)].
  destruct (Forall2_In_r _ _ _ _ FQ' I) as (y & J & GY). intros X. apply (N y J). apply (pages_grown _ _ GY). exact X.
Qed.
Lemma grown_wf ls ls' tail : Forall2 grown ls ls' -> (forall x, In x tail -> ~ pages_line x) ->
  (forall x, In x ls -> pages_line x -> exists a b, pages_are x a b) ->
  forall x, In x (ls' ++ tail) -> pages_line x -> exists a b, pages_are x a b.
Proof.
  intros F NT W x I X. apply in_app_or in I. destruct I as [I|I]; [|destruct (NT x I X)].
  destruct (Forall2_In_r _ _ _ _ F I) as (y & J & G). destruct (W y J) as (a & b & P); [apply (pages_grown _ _ G); exact X|].
  exists a, b. eapply pages_are_grown; eassumption.
Qed.

(** *** a successful run: all the page lines are readable *)
Lemma gp_lines_wf lines : forall st st', gp_lines st lines = Ok st' -> forall x, In x lines -> pages_line x -> exists a b, pages_are x a b.
Proof.
  induction lines as [|l lines IH]; intros [[sec c8] rng] st' E x I X; [destruct I|]. cbn [gp_lines] in E. rewrite gp_line_eq in E.
  destruct I as [->|I].
  - destruct (match sec with None => if startswith x (lit "# Filename: ") then gp_name x else Ok (sec, c8) | Some _ => Ok (sec, c8) end)
      as [s|e]; [|discriminate]. cbn [bind] in E. rewrite (proj2 (pages_dec x) X) in E. destruct X as (r & ->).
    destruct (gp_rng (lit "# Pages: " ++ r)) as [y|e] eqn:R; [|discriminate]. destruct (gp_rng_inv _ _ R) as (a & b & P & _). eauto.
  - match type of E with (do st <- ?t; _) = _ => destruct t as [s|e]; [|discriminate] end. cbn [bind] in E. eapply IH; eassumption.
Qed.
Lemma genpages_wf fuel content out : genpages fuel content = Ok out ->
  forall x, In x (readlines content) -> pages_line x -> exists a b, pages_are x a b.
Proof.
  intros E. unfold genpages in E.
  destruct (argus_deck_new fuel (fun _ => None) (Some (readlines content)) None DEFAULT_WIDTH DEFAULT_FIELDS ArgusCls) as [[[d sec] c8]|e]; [|discriminate].
  cbn [bind] in E. destruct (gp_lines (sec, c8, None) (readlines content)) as [st|e] eqn:G; [|discriminate]. exact (gp_lines_wf _ _ _ G).
Qed.

(** *** the lines that are appended *)
Lemma numeral_chars n c : In c (str_of_Z n) -> c = 45 \/ 48 <= c <= 57.
Proof.
  unfold str_of_Z. assert (D : forall m, 0 <= m -> In c (numeral 10 m) -> 48 <= c <= 57).
  { intros m H I. pose proof (numeral_dig 10 m ltac:(lia) H) as F. rewrite Forall_forall in F. specialize (F c I). unfold dig in F. lia. }
  destruct (Z.ltb_spec n 0).
  - intros [<-|I]; [left; reflexivity|right; apply (D (- n)); [lia|exact I]].
  - intros I. right. apply (D n); [lia|exact I].
Qed.
Definition plain (s : str) : Prop := ~ In 10 s /\ ~ In 13 s.
Lemma plain_app s t : plain s -> plain t -> plain (s ++ t).
Proof. intros [A B] [C D]. split; intros I; apply in_app_or in I; tauto. Qed.
Lemma plain_num n : plain (str_of_Z n).
Proof. split; intros I; apply numeral_chars in I; lia. Qed.
Lemma plain_blanks n : plain (repeat_char n 32).
Proof. unfold repeat_char. split; intros I; apply repeat_spec in I; discriminate. Qed.
Lemma plain_left w s : plain s -> plain (pad_left 32 w s).
Proof. intros P. unfold pad_left. apply plain_app; [apply plain_blanks|exact P]. Qed.
Lemma plain_right w s : plain s -> plain (pad_right 32 w s).
Proof. intros P. unfold pad_right. apply plain_app; [exact P|apply plain_blanks]. Qed.
Ltac plain := repeat first [apply plain_app | apply plain_blanks | apply plain_num | apply plain_left | apply plain_right | assumption | split; nol].
Lemma block_lines c8 sec page own rest : plain c8 -> plain sec ->
  readlines (page_block c8 sec page own ++ rest) =
    [10] :: (lit "# Page " ++ str_of_Z page ++ [10]) ::
    (lit "#      " ++ c8 ++ pad_right 32 72 sec ++ lit " USER'S OWN PAGE NO." ++ pad_left 32 4 (str_of_Z own) ++
     lit "        PAGE" ++ pad_left 32 4 (str_of_Z own) ++ [10]) :: [10] :: readlines rest.
Proof.
  intros PC PS. unfold page_block.
  set (t := lit "#      " ++ c8 ++ pad_right 32 72 sec ++ lit " USER'S OWN PAGE NO." ++ pad_left 32 4 (str_of_Z own) ++
     lit "        PAGE" ++ pad_left 32 4 (str_of_Z own)).
  assert (PT : plain t) by (subst t; plain). assert (PN : plain (lit "# Page " ++ str_of_Z page)) by plain.
  transitivity (readlines ([] ++ [10] ++ ((lit "# Page " ++ str_of_Z page) ++ [10] ++ (t ++ [10] ++ ([] ++ [10] ++ rest))))).
  { f_equal. subst t. rewrite <- !app_assoc. reflexivity. }
  rewrite readlines_line by (intros []). rewrite readlines_line by apply PN. rewrite readlines_line by apply PT.
  rewrite readlines_line by (intros []). subst t. rewrite <- !app_assoc. reflexivity.
Qed.
Lemma blocks_no_pages c8 sec : plain c8 -> plain sec -> forall pages,
  (forall p, In p pages -> exists a b, p = page_block c8 sec a b) -> forall x, In x (readlines (concat pages)) -> ~ pages_line x /\ ~ l_line x.
Proof.
  intros PC PS. induction pages as [|p pages IH]; intros H x I; [destruct I|]. cbn [concat] in I.
  destruct (H p (or_introl eq_refl)) as (a & b & ->). rewrite (block_lines _ _ _ _ _ PC PS) in I.
  destruct I as [<-|[<-|[<-|[<-|I]]]]; try (split; intros (r & X); discriminate X).
  exact (IH (fun p J => H p (or_intror J)) x I).
Qed.
Lemma section_plain content sec c8 : section_is (readlines content) sec c8 -> plain sec /\ plain (c8_text c8).
Proof.
  intros [S|(_ & -> & pre & l & post & _ & (r & w & t & _ & W & G & ->) & _)].
  - pose proof (l_section_sec _ _ _ S) as (A & B & _). split; [split; assumption|].
    destruct S as (pre & l & post & E & _ & _ & _ & SH). destruct SH as [(B8 & ->)|(t & T & N & ->)]; [split; nol|].
    cbn [c8_text]. assert (J : forall c, In c t -> In c (columns l 8 8)) by (intros c J; eapply trimmed_In; eassumption).
    split.
    + intros I. apply J in I as I2. assert (SP : forall c, In c t -> ~ white c).
      { assert (L1 : (List.length (columns l 8 8) <= 1)%nat) by (unfold columns; rewrite firstn_length; lia).
        destruct T as (p & q & ET & BP & BQ & S1 & S2). rewrite ET, !app_length in L1. destruct t as [|y t]; [contradiction|].
        destruct t; [|cbn in L1; lia]. intros c [<-|[]]. apply (S1 y []). reflexivity. }
      apply (SP 10 I), white_ok. reflexivity.
    + intros I. apply J in I. apply columns_In in I. revert I. apply (readlines_no13 content). rewrite E. apply in_or_app. right. left. reflexivity.
  - split; [|split; nol]. pose proof (first_word_nonspace _ _ W) as F. rewrite Forall_forall in F.
    assert (J : forall c, In c t -> ~ white c).
    { intros c I. apply F. destruct G as [(_ & ->)|(r' & -> & _)]; [exact I|apply in_or_app; left; exact I]. }
    split; intros I; apply in_map_iff in I; destruct I as (c & E & I); specialize (J c I);
      destruct (c =? 95); try discriminate; subst c; apply J, white_ok; reflexivity.
Qed.

(** *** the second run *)
Definition formula (sec : str) (c8 : rval) (a b : Z) : str :=
  [10] ++ (lit "L      " ++ str_of_rval c8 ++ sec ++ [10]) ++ concat (map (gp_page (str_of_rval c8) sec a) (py_range a (b + 1))).
Lemma genpages_formula fuel content sec c8 a b : section_is (readlines content) sec c8 -> page_numbers (readlines content) a b -> a <= b ->
  (forall x, In x (readlines content) -> pages_line x -> exists a' b', pages_are x a' b') -> genpages fuel content = Ok (formula sec c8 a b).
Proof.
  intros S P L W. destruct (genpages_cases fuel content) as [(sec' & c8' & a' & b' & S' & P' & _ & E)|(e & _ & H)].
  - destruct (section_unique _ _ _ _ _ S S') as [<- <-]. destruct (pages_unique _ _ _ _ _ P P') as [<- <-]. exact E.
  - specialize (H _ _ _ _ S P W). lia.
Qed.
Lemma genpages_only fuel content out : genpages fuel content = Ok out -> exists sec c8 a b,
  section_is (readlines content) sec c8 /\ page_numbers (readlines content) a b /\ a <= b /\ out = formula sec c8 a b.
Proof.
  intros H. destruct (genpages_cases fuel content) as [(sec & c8 & a & b & S & P & L & E)|(e & E & _)]; [|congruence].
  exists sec, c8, a, b. split; [exact S|]. split; [exact P|]. split; [exact L|]. rewrite H in E. unfold formula. congruence.
Qed.
Lemma page_is_block c8 sec a p : gp_page c8 sec a p = page_block c8 sec p (p - a + 1).
Proof. unfold gp_page, page_block. cbv zeta. rewrite <- !app_assoc. reflexivity. Qed.
Lemma formula_lines sec c8 a b : plain sec -> plain (c8_text c8) ->
  let cards := lit "L      " ++ c8_text c8 ++ sec ++ [10] in
  let pages := map (gp_page (str_of_rval c8) sec a) (py_range a (b + 1)) in
  formula sec c8 a b = 10 :: cards ++ concat pages /\ readlines (cards ++ concat pages) = cards :: readlines (concat pages) /\
  forall x, In x (readlines (concat pages)) -> ~ pages_line x /\ ~ l_line x.
Proof.
  intros PS PC cards pages. split; [|split].
  - unfold formula. cbn [app]. reflexivity.
  - subst cards. assert (P : plain (lit "L      " ++ c8_text c8 ++ sec)) by plain.
    transitivity (readlines ((lit "L      " ++ c8_text c8 ++ sec) ++ [10] ++ concat pages)).
    { f_equal. rewrite <- !app_assoc. reflexivity. }
    rewrite readlines_line by apply P. rewrite <- !app_assoc. reflexivity.
  - apply (blocks_no_pages (c8_text c8) sec PC PS). intros p I. subst pages. apply in_map_iff in I. destruct I as (k & <- & _).
    exists k, (k - a + 1). apply page_is_block.
Qed.
Lemma again fuel content out sec c8 a b : genpages fuel content = Ok out -> section_is (readlines content) sec c8 ->
  page_numbers (readlines content) a b -> a <= b ->
  exists sec' c8', section_is (readlines (content ++ out)) sec' c8' /\
    genpages fuel (content ++ out) = Ok (formula sec' c8' a b) /\ page_numbers (readlines (content ++ out)) a b /\
    (l_section (readlines content) sec c8 /\ sec' = sec /\ c8' = c8 \/
     (forall x, In x (readlines content) -> ~ l_line x) /\ c8 = RStr (lit "@") /\ c8' = c8 /\ trimmed (firstn 73 sec) sec') /\
    l_section (readlines (content ++ out)) sec' c8'.
Proof.
  intros E S P L. pose proof (genpages_wf _ _ _ E) as W. rewrite (genpages_formula _ _ _ _ _ _ S P L W) in E. injection E as <-.
  destruct (section_plain _ _ _ S) as [PS PC]. destruct (formula_lines sec c8 a b PS PC) as (EF & EL & NL).
  set (cards := lit "L      " ++ c8_text c8 ++ sec ++ [10]) in *. set (pages := map (gp_page (str_of_rval c8) sec a) (py_range a (b + 1))) in *.
  rewrite EF. destruct (lines_grow content (cards ++ concat pages)) as (ls & m & R & G & M). rewrite R, EL.
  assert (NT : forall x, In x (m ++ cards :: readlines (concat pages)) -> ~ pages_line x).
  { intros x I. apply in_app_or in I. destruct I as [I|[<-|I]]; [|intros (r & X); discriminate X|apply NL; exact I].
    destruct M as [->| ->]; [destruct I|]. destruct I as [<-|[]]. intros (r & X). discriminate X. }
  assert (P' := grown_pages _ _ (m ++ cards :: readlines (concat pages)) _ _ G NT P).
  assert (W' := grown_wf _ _ (m ++ cards :: readlines (concat pages)) G NT W).
  assert (K : forall sec' c8', section_is (ls ++ m ++ cards :: readlines (concat pages)) sec' c8' ->
    genpages fuel (content ++ 10 :: cards ++ concat pages) = Ok (formula sec' c8' a b)).
  { intros sec' c8' S'. apply genpages_formula; rewrite ?R, ?EL; assumption. }
  assert (LK : forall sec' c8', section_is (ls ++ m ++ cards :: readlines (concat pages)) sec' c8' ->
     l_section (ls ++ m ++ cards :: readlines (concat pages)) sec' c8').
  { intros sec' c8' [X|(X & _)]; [exact X|]. exfalso. apply (X cards); [apply in_or_app; right; apply in_or_app; right; left; reflexivity|].
    exists (lit "      " ++ c8_text c8 ++ sec ++ [10]). reflexivity. }
  destruct S as [S|(N & -> & S)].
  - assert (S' := grown_section _ _ (m ++ cards :: readlines (concat pages)) _ _ G S). exists sec, c8. split; [exact S'|]. split; [exact (K _ _ S')|].
    split; [exact P'|]. split; [left; auto|exact (LK _ _ S')].
  - assert (S' : section_is (ls ++ m ++ cards :: readlines (concat pages)) (strip (firstn 73 sec)) (RStr (lit "@"))).
    { destruct (reread 64 sec (concat pages)) as (_ & RS); [discriminate|discriminate|apply not_white; reflexivity|apply PS|apply PS|].
      specialize (RS _ (strip_trimmed (firstn 73 sec))). destruct RS as [(pre & l & post & Q & A & B & C & D)|(Z & _)].
      - left. assert (Q2 : readlines ([10] ++ lit "L      " ++ [64] ++ sec ++ [10] ++ concat pages) = [10] :: cards :: readlines (concat pages)).
        { destruct (reread 64 sec (concat pages)) as (RL & _); [discriminate|discriminate|apply not_white; reflexivity|apply PS|apply PS|]. exact RL. }
        rewrite Q2 in Q. destruct pre as [|x pre].
        { exfalso. injection Q as <- _. destruct A as (r & X). discriminate X. }
        injection Q as <- Q. destruct pre as [|x pre].
        2:{ exfalso. injection Q as <- _. apply (B cards); [right; left; reflexivity|]. exists (lit "      " ++ lit "@" ++ sec ++ [10]). reflexivity. }
        injection Q as <- <-. exists (ls ++ m), cards, (readlines (concat pages)). split; [rewrite <- app_assoc; reflexivity|]. split; [exact A|].
        split; [|split; assumption]. intros x I X. apply in_app_or in I. destruct I as [I|I].
        + destruct (Forall2_In_r _ _ _ _ G I) as (y & J & GY). apply (N y J). apply (l_grown _ _ GY). exact X.
        + destruct M as [->| ->]; [destruct I|]. destruct I as [<-|[]]. destruct X as (r & X). discriminate X.
      - exfalso. destruct (reread 64 sec (concat pages)) as (RL & _); [discriminate|discriminate|apply not_white; reflexivity|apply PS|apply PS|].
        apply (Z cards); [rewrite RL; right; left; reflexivity|]. exists (lit "      " ++ lit "@" ++ sec ++ [10]). reflexivity. }
    exists (strip (firstn 73 sec)), (RStr (lit "@")). split; [exact S'|]. split; [exact (K _ _ S')|]. split; [exact P'|].
    split; [right; split; [exact N|]; split; [reflexivity|]; split; [reflexivity|apply strip_trimmed]|exact (LK _ _ S')].
Qed.
Lemma settled fuel sec c8 a b : a <= b -> forall n content, genpages fuel content = Ok (formula sec c8 a b) -> l_section (readlines content) sec c8 ->
  page_numbers (readlines content) a b ->
  forall c', ran fuel n content c' <-> c' = content ++ concat (repeat (formula sec c8 a b) n).
Proof.
  intros L. induction n as [|n IH]; intros content E S P c'.
  - cbn. rewrite app_nil_r. split; [intros R; inversion R; reflexivity|intros ->; constructor].
  - destruct (again _ _ _ _ _ _ _ E (or_introl S) P L) as (sec' & c8' & S' & E' & P' & D & LS).
    assert (X : sec' = sec /\ c8' = c8).
    { destruct D as [(_ & A & B)|(N & _)]; [auto|]. exfalso. destruct S as (pre & l & post & Q & A & _). apply (N l); [rewrite Q; apply in_or_app; right; left; reflexivity|exact A]. }
    destruct X as [-> ->]. cbn [repeat concat]. rewrite app_assoc. rewrite <- (IH _ E' LS P'). split.
    + intros R. inversion R as [|n' c0 out c0' E2 R2]; subst. rewrite E in E2. injection E2 as <-. exact R2.
    + intros R. econstructor; eassumption.
Qed.

(** *** C134 *)
Lemma C134_again_refuted_pf : forall fuel content out, genpages fuel content = Ok out ->
  exists r, forall n c', ran fuel (S n) content c' <-> c' = content ++ out ++ concat (repeat ([10] ++ lit "L      " ++ r) n).
Proof.
  intros fuel content out E. destruct (genpages_only _ _ _ E) as (sec & c8 & a & b & S & P & L & _).
  destruct (again _ _ _ _ _ _ _ E S P L) as (sec' & c8' & S' & E' & P' & D & LS).
  exists (str_of_rval c8' ++ sec' ++ [10] ++ concat (map (gp_page (str_of_rval c8') sec' a) (py_range a (b + 1)))). intros n c'.
  assert (F : [10] ++ lit "L      " ++ str_of_rval c8' ++ sec' ++ [10] ++ concat (map (gp_page (str_of_rval c8') sec' a) (py_range a (b + 1))) = formula sec' c8' a b).
  { unfold formula. rewrite <- !app_assoc. reflexivity. }
  rewrite F. pose proof (settled fuel sec' c8' a b L n _ E' LS P' c') as Q. rewrite <- app_assoc in Q. rewrite <- Q. split.
  - intros R. inversion R as [|n' c0 out' c0' E2 R2]; subst. rewrite E in E2. injection E2 as <-. exact R2.
  - intros R. econstructor; eassumption.
Qed.
(*@ Example C134_again_refuted_ex : exists out,
  genpages 0 (lit "# Filename: _A.argus" ++ [10] ++ lit "# Pages: 7-8") = Ok out /\
  ran 0 1 (lit "# Filename: _A.argus" ++ [10] ++ lit "# Pages: 7-8") ((lit "# Filename: _A.argus" ++ [10] ++ lit "# Pages: 7-8") ++ out) /\
  exists r, genpages 0 ((lit "# Filename: _A.argus" ++ [10] ++ lit "# Pages: 7-8") ++ out) = Ok ([10] ++ lit "L      @A" ++ [10] ++ r).
Proof.
  eexists. split; [vm_compute; reflexivity|]. split; [econstructor; [vm_compute; reflexivity|constructor]|].
  eexists. vm_compute. reflexivity.
Qed. @*)
Lemma C134_again_partial_pf : forall fuel content out sec c8, genpages fuel content = Ok out -> section_is (readlines content) sec c8 ->
  (exists x, In x (readlines content) /\ l_line x) \/ trimmed sec sec /\ zlen sec <= 73 ->
  forall n c', ran fuel n content c' <-> c' = content ++ concat (repeat out n).
Proof.
  intros fuel content out sec c8 E S H n c'. destruct (genpages_only _ _ _ E) as (sec0 & c80 & a & b & S0 & P & L & EF).
  destruct (section_unique _ _ _ _ _ S S0) as [<- <-]. clear S0.
  destruct (again _ _ _ _ _ _ _ E S P L) as (sec' & c8' & S' & E' & P' & D & LS).
  assert (X : sec' = sec /\ c8' = c8).
  { destruct D as [(_ & A & B)|(N & A & B & T)]; [auto|]. split; [|exact B]. destruct H as [(x & I & X)|(TS & LN)]; [destruct (N x I X)|].
    rewrite firstn_all2 in T by (unfold zlen in LN; lia). eapply trimmed_unique; eassumption. }
  destruct X as [-> ->]. rewrite <- EF in E'. destruct n as [|n].
  - cbn. rewrite app_nil_r. split; [intros R; inversion R; reflexivity|intros ->; constructor].
  - cbn [repeat concat]. rewrite app_assoc. rewrite EF at 2. rewrite EF in E' at 2. rewrite <- (settled fuel sec c8 a b L n _ E' LS P' c'). split.
    + intros R. inversion R as [|n' c0 out' c0' E2 R2]; subst n' c0 c0'. rewrite E in E2. injection E2 as <-. exact R2.
    + intros R. econstructor; eassumption.
Qed.
(*@ Example C134_again_partial_ex : exists out,
  genpages 0 (lit "# Pages: 7-8" ++ [10] ++ lit "L       MAIN") = Ok out /\
  ran 0 2 (lit "# Pages: 7-8" ++ [10] ++ lit "L       MAIN") (lit "# Pages: 7-8" ++ [10] ++ lit "L       MAIN" ++ out ++ out).
Proof.
  eexists. split; [vm_compute; reflexivity|]. econstructor; [vm_compute; reflexivity|]. econstructor; [vm_compute; reflexivity|].
  vm_compute. constructor.
Qed. @*)
