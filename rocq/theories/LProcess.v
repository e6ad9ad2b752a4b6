From Coq Require Import ZArith List Bool Lia Sorted.
From Verif Require Import Py LPy LSort MInstruction MCards SCards LCards LDeck MSymbols SSymbols LSymBuild LSymQuery MInstructions MTools STools LGen LTools LToolSym LListTool MDiag SDiag LDiag MDump SDump LDump MVerbose SVerbose LVerbose LQuiet STranscript LTranscript MOptions SOptions LOptions MProcess SProcess.
#[local] Arguments Z.add : simpl never.
#[local] Arguments Z.sub : simpl never.
#[local] Arguments Z.mul : simpl never.
#[local] Arguments Z.pow : simpl never.

(** *** the reasons are given exactly when the parser of MOptions refuses *)
Definition forget {A} (x : said A) : launch A := match x with Bad _ => Usage | Helped => Help | Going a => Started a end.
Lemma forget_short opts cs : forall on, forget (short_said opts cs on) = short_opts opts cs on.
Proof.
  induction cs as [|c cs IH]; intros on; [reflexivity|]. cbn [short_said short_opts].
  destruct (find (fun f => f_short f =? c) (HELP :: opts)) as [f|]; [|reflexivity]. destruct (eqb (f_long f) (lit "help")); [reflexivity|apply IH].
Qed.
Lemma match_said_long opts t : match match_said opts t with
  | Going l => match_long opts t = Some l
  | Bad _ => match_long opts t = None
  | Helped => False
  end.
Proof.
  unfold match_said, match_long. cbv zeta. destruct (inb t (map f_long (HELP :: opts))); [reflexivity|].
  destruct (filter (fun w => startswith w t) (map f_long (HELP :: opts))) as [|w [|w' r]]; reflexivity.
Qed.
Lemma split_eq t : exists a rest, nth 0 (split_on 61 t) [] = a /\ t = a ++ rest /\ ~ In 61 a /\
  ((rest = [] /\ has_char 61 t = false) \/ (exists r, rest = 61 :: r) /\ has_char 61 t = true).
Proof.
  destruct (in_dec Z.eq_dec 61 t) as [I|N].
  - assert (X : exists a r, t = a ++ 61 :: r /\ ~ In 61 a).
    { clear -I. induction t as [|c t IH]; [destruct I|]. destruct (Z.eq_dec c 61) as [->|NE]; [exists [], t; split; [reflexivity|intros []]|].
      destruct I as [I|I]; [congruence|]. destruct (IH I) as (a & r & -> & NI). exists (c :: a), r. split; [reflexivity|]. intros [X|X]; [congruence|exact (NI X)]. }
    destruct X as (a & r & -> & NI). exists a, (61 :: r). rewrite (split_yes 61 a r NI). split; [reflexivity|]. split; [reflexivity|]. split; [exact NI|].
    right. split; [eauto|]. apply has_char_In. exact I.
  - exists t, []. rewrite (split_no 61 t N), app_nil_r. split; [reflexivity|]. split; [reflexivity|]. split; [exact N|]. left. split; [reflexivity|].
    destruct (has_char 61 t) eqn:H; [|reflexivity]. apply has_char_In in H. contradiction.
Qed.
Lemma forget_long opts t on : forget (long_said opts t on) = long_opt opts t on.
Proof.
  unfold long_said, long_opt. destruct (split_eq t) as (a & rest & -> & ET & NA & C). pose proof (match_said_long opts a) as M.
  destruct C as [[-> H]|[(r & ->) H]]; rewrite H.
  - rewrite app_nil_r in ET. subst a. destruct (match_said opts t) as [m| |l]; [rewrite M; reflexivity|destruct M|]. rewrite M. destruct (eqb l (lit "help")); reflexivity.
  - destruct (match_said opts a) as [m| |l]; [reflexivity|destruct M|reflexivity].
Qed.
Lemma forget_words opts words : forall on args, forget (words_said opts words on args) = parse_words opts words on args.
Proof.
  induction words as [|w r IH]; intros on args; [reflexivity|]. cbn [words_said parse_words].
  destruct (eqb w (lit "--")); [reflexivity|]. destruct (startswith w (lit "--")).
  - rewrite <- forget_long. destruct (long_said opts (skipn 2 w) on); [reflexivity|reflexivity|apply IH].
  - destruct (startswith w (lit "-") && (1 <? zlen w)); [|apply IH]. rewrite <- forget_short. destruct (short_said opts (skipn 1 w) on); [reflexivity|reflexivity|apply IH].
Qed.
(** *** the reasons *)
Section Reasons.
Variable opts : list flag.
Hypothesis P : proper_flags opts.
Definition word_said (w : str) (on : list str) : said (list str) :=
  if startswith w (lit "--") then long_said opts (skipn 2 w) on else short_said opts (skipn 1 w) on.
Lemma said_plain w r on args : plain_word w -> words_said opts (w :: r) on args = words_said opts r on (args ++ [w]).
Proof.
  intros [-> | N]; [reflexivity|]. destruct w as [|a w]; [reflexivity|]. assert (a <> 45) by (intros ->; exact (N w eq_refl)).
  cbn [words_said]. assert (E1 : @eqb str _ (a :: w) (lit "--") = false).
  { destruct (@eqb str _ (a :: w) (lit "--")) eqn:E; [|reflexivity]. apply eqb_ok in E. injection E as ->. contradiction. }
  rewrite E1. assert (E2 : forall p, startswith (a :: w) (45 :: p) = false).
  { intros p. cbn [startswith]. apply Z.eqb_neq in H. rewrite H. reflexivity. }
  change (lit "--") with [45; 45]. change (lit "-") with [45]. rewrite !E2. reflexivity.
Qed.
Lemma said_option w r on args : ~ plain_word w -> w <> [45; 45] ->
  words_said opts (w :: r) on args = match word_said w on with Going on' => words_said opts r on' args | Bad m => Bad m | Helped => Helped end.
Proof.
  intros NP NE. unfold word_said. destruct (word_cases w) as [X|[X|[(t & NT & ->)|(c & cs & NC & ->)]]]; [contradiction|contradiction| |].
  - destruct t as [|x t]; [contradiction|]. reflexivity.
  - cbn [words_said].
    assert (E1 : @eqb str _ (45 :: c :: cs) (lit "--") = false).
    { destruct (@eqb str _ (45 :: c :: cs) (lit "--")) eqn:E; [|reflexivity]. apply eqb_ok in E. injection E as ->. contradiction. }
    assert (E2 : startswith (45 :: c :: cs) (lit "--") = false).
    { change (lit "--") with [45; 45]. cbn [startswith]. apply Z.eqb_neq in NC. rewrite NC. reflexivity. }
    assert (E3 : startswith (45 :: c :: cs) (lit "-") && (1 <? zlen (45 :: c :: cs)) = true).
    { change (lit "-") with [45]. cbn [startswith]. rewrite !zlen_cons. pose proof (zlen_nonneg cs).
      destruct (Z.ltb_spec 1 (1 + (1 + zlen cs))); [destruct cs; reflexivity|lia]. }
    rewrite E1, E2, E3. reflexivity.
Qed.
Lemma short_bad cs ls c more : Forall2 (letter_of opts) cs ls -> ~ In (lit "help") ls -> (forall l, ~ letter_of opts c l) ->
  forall on, short_said opts (cs ++ c :: more) on = Bad (no_such (lit "-" ++ [c])).
Proof.
  intros F N U. induction F as [|x l cs ls L F IH]; intros on; cbn [app short_said].
  - pose proof (find_letter opts P c) as FL. destruct (find (fun f => f_short f =? c) (HELP :: opts)) as [f|]; [|reflexivity].
    destruct FL as [FL _]. destruct (U _ FL).
  - pose proof (find_letter opts P x) as FL. destruct (find (fun f => f_short f =? x) (HELP :: opts)) as [f|]; [|destruct (FL _ L)].
    destruct FL as [_ FL]. rewrite <- (FL _ L). destruct (eqb l (lit "help")) eqn:EH.
    + apply eqb_ok in EH. exfalso. apply N. left. exact EH.
    + apply IH. intros X. apply N. right. exact X.
Qed.
Lemma short_bad_inv cs : forall on m, short_said opts cs on = Bad m -> exists pre ls c more, cs = pre ++ c :: more /\
  Forall2 (letter_of opts) pre ls /\ ~ In (lit "help") ls /\ (forall l, ~ letter_of opts c l) /\ m = lit "no such option: -" ++ [c].
Proof.
  induction cs as [|c cs IH]; intros on m E; [discriminate|]. cbn [short_said] in E.
  pose proof (find_letter opts P c) as FL. destruct (find (fun f => f_short f =? c) (HELP :: opts)) as [f|].
  - destruct FL as [FL _]. destruct (eqb (f_long f) (lit "help")) eqn:EH; [discriminate|].
    destruct (IH _ _ E) as (pre & ls & c' & more & -> & F & N & U & EM). exists (c :: pre), (f_long f :: ls), c', more.
    split; [reflexivity|]. split; [constructor; assumption|]. split; [|auto]. intros [X|X]; [rewrite X, eqb_refl in EH; discriminate|exact (N X)].
  - exists [], [], c, cs. split; [reflexivity|]. split; [constructor|]. split; [intros []|]. split; [exact FL|].
    unfold no_such in E. assert (X : m = lit "no such option: " ++ lit "-" ++ [c]) by congruence. rewrite X. reflexivity.
Qed.
Lemma same_sorted a : forall b, StronglySorted str_lt a -> StronglySorted str_lt b -> (forall x, In x a <-> In x b) -> a = b.
Proof.
  induction a as [|x a IH]; intros b A B H.
  - destruct b as [|y b]; [reflexivity|]. destruct (proj2 (H y) (or_introl eq_refl)).
  - destruct b as [|y b]; [destruct (proj1 (H x) (or_introl eq_refl))|].
    inversion A as [|? ? A1 A2]; inversion B as [|? ? B1 B2]; subst. rewrite Forall_forall in A2, B2.
    assert (x = y).
    { destruct (proj1 (H x) (or_introl eq_refl)) as [E|I1]; [auto|]. destruct (proj2 (H y) (or_introl eq_refl)) as [E|I2]; [auto|].
      apply str_leb_antisym; [exact (proj1 (A2 _ I2))|exact (proj1 (B2 _ I1))]. }
    subst y. f_equal. apply IH; [assumption|assumption|]. intros z. split; intros I.
    + destruct (proj1 (H z) (or_intror I)) as [<-|X]; [|exact X]. destruct (A2 _ I) as [_ N]. congruence.
    + destruct (proj2 (H z) (or_intror I)) as [<-|X]; [|exact X]. destruct (B2 _ I) as [_ N]. congruence.
Qed.
Lemma cands t : forall ws, candidates opts t ws <->
  ws = sorted (map (fun w => lit "--" ++ w) (filter (fun w => startswith w t) (map f_long (HELP :: opts)))).
Proof.
  set (l := filter (fun w => startswith w t) (map f_long (HELP :: opts))).
  assert (IN : forall w, In w (sorted (map (fun w => lit "--" ++ w) l)) <-> exists l, declared opts l /\ (exists r, l = t ++ r) /\ w = lit "--" ++ l).
  { intros w. rewrite sorted_In, in_map_iff. split.
    - intros (x & <- & I). apply filter_In in I. destruct I as [I S]. exists x. rewrite startswith_app in S.
      split; [apply declared_In; exact I|]. split; [exact S|reflexivity].
    - intros (x & D & S & ->). exists x. split; [reflexivity|]. apply filter_In. rewrite startswith_app. split; [apply declared_In; exact D|exact S]. }
  assert (SS : StronglySorted str_lt (sorted (map (fun w => lit "--" ++ w) l))).
  { apply sorted_lt_str. apply FinFun.Injective_map_NoDup; [|apply NoDup_filter; exact (proj2 P)].
    intros a b E. injection E as E. exact E. }
  intros ws. split.
  - intros [S H]. apply same_sorted; [exact S|exact SS|]. intros x. rewrite H, IN. reflexivity.
  - intros ->. split; [exact SS|exact IN].
Qed.
Lemma said_names t l : names opts t l -> match_said opts t = Going l.
Proof.
  intros N. pose proof (match_ok opts P t) as M. pose proof (match_said_long opts t) as S.
  destruct (match_said opts t) as [m| |l']; [|destruct S|].
  - rewrite S in M. destruct (M _ N).
  - rewrite S in M. f_equal. eapply names_fun; eassumption.
Qed.
Lemma not_declared t : inb t (map f_long (HELP :: opts)) = false <-> ~ declared opts t.
Proof.
  rewrite inb_false. rewrite declared_In. reflexivity.
Qed.
Lemma said_unknown t : (forall l, declared opts l -> ~ exists r, l = t ++ r) -> match_said opts t = Bad (no_such (lit "--" ++ t)).
Proof.
  intros U. unfold match_said. cbv zeta. rewrite (proj2 (not_declared t)).
  - destruct (filter (fun w => startswith w t) (map f_long (HELP :: opts))) as [|w r] eqn:F; [reflexivity|]. exfalso.
    assert (I : In w (w :: r)) by (left; reflexivity). rewrite <- F in I. apply filter_In in I. destruct I as [I S]. rewrite startswith_app in S.
    apply (U w); [apply declared_In; exact I|exact S].
  - intros D. apply (U t D). exists []. rewrite app_nil_r. reflexivity.
Qed.
Lemma zlen_sorted (l : list str) : zlen (sorted (map (fun w => lit "--" ++ w) l)) = zlen l.
Proof.
  unfold zlen. f_equal. transitivity (length (map (fun w => lit "--" ++ w) l)); [|apply map_length].
  apply Permutation.Permutation_length. apply Permutation.Permutation_sym. apply sort_perm.
Qed.
Lemma said_ambiguous t ws : ~ declared opts t -> candidates opts t ws -> 1 < zlen ws ->
  match_said opts t = Bad (ambiguous (lit "--" ++ t) ws).
Proof.
  intros N C L. apply cands in C. unfold match_said. cbv zeta. rewrite (proj2 (not_declared t) N). subst ws. rewrite zlen_sorted in L.
  destruct (filter (fun w => startswith w t) (map f_long (HELP :: opts))) as [|w [|w' r]]; [unfold zlen in L; cbn in L; lia|unfold zlen in L; cbn in L; lia|reflexivity].
Qed.
Lemma said_bad_inv t m : match_said opts t = Bad m ->
  ((forall l, declared opts l -> ~ exists r, l = t ++ r) /\ m = lit "no such option: --" ++ t) \/
  (~ declared opts t /\ exists ws, candidates opts t ws /\ 1 < zlen ws /\
     m = lit "ambiguous option: --" ++ t ++ lit " (" ++ join (lit ", ") ws ++ lit "?)").
Proof.
  unfold match_said. cbv zeta. destruct (inb t (map f_long (HELP :: opts))) eqn:I; [discriminate|]. apply not_declared in I.
  pose proof (cands t) as C. pose proof (zlen_sorted (filter (fun w => startswith w t) (map f_long (HELP :: opts)))) as ZL.
  destruct (filter (fun w => startswith w t) (map f_long (HELP :: opts))) as [|w [|w' r]] eqn:F; [| |]; intros E; [| discriminate |].
  - left. split; [|unfold no_such in E; assert (X : m = lit "no such option: " ++ lit "--" ++ t) by congruence; rewrite X; reflexivity].
    intros l D S. assert (X : In l []); [|destruct X]. rewrite <- F. apply filter_In. rewrite startswith_app. split; [apply declared_In; exact D|exact S].
  - right. split; [exact I|]. eexists. split; [apply C; reflexivity|]. split.
    + rewrite ZL. rewrite !zlen_cons. pose proof (zlen_nonneg r). lia.
    + unfold ambiguous in E. match type of E with Bad ?x = Bad _ => assert (X : m = x) by congruence end. rewrite X. rewrite <- !app_assoc. reflexivity.
Qed.
Lemma long_bad t on m : t <> [] -> (long_said opts t on = Bad m <-> wrong_word opts (45 :: 45 :: t) m).
Proof.
  intros NT. unfold long_said. split.
  - destruct (split_eq t) as (a & rest & -> & ET & NA & C).
    assert (CR : rest = [] \/ exists r, rest = 61 :: r) by (destruct C as [[X _]|[X _]]; auto).
    destruct (match_said opts a) as [m'| |l] eqn:M; [|discriminate|].
    + intros E. assert (m' = m) by congruence. subst m'. rewrite ET. destruct (said_bad_inv _ _ M) as [[U ->]|(ND & ws & CA & L & ->)].
      * apply ww_unknown; try assumption. rewrite <- ET. exact NT.
      * apply ww_ambiguous; try assumption. rewrite <- ET. exact NT.
    + destruct C as [[-> ->]|[(r & ->) ->]]; [destruct (eqb l (lit "help")); discriminate|]. intros E.
      assert (X : m = no_value (lit "--" ++ l)) by congruence. rewrite X, ET. unfold no_value. rewrite <- app_assoc. apply ww_value; [exact NA|].
      pose proof (match_ok opts P a) as MO. pose proof (match_said_long opts a) as MS. rewrite M in MS. rewrite MS in MO. exact MO.
  - intros W. inversion W as [cs ls c more H F N U E|a rest NI CR NE U E|a rest ws NI CR NE ND CA L E|a l r NI NM E]; subst.
    + exfalso. destruct cs as [|x cs]; cbn [app hd] in *; congruence.
    + assert (S : nth 0 (split_on 61 (a ++ rest)) [] = a) by (destruct CR as [->|(r & ->)]; [rewrite app_nil_r, (split_no 61 a NI)|rewrite (split_yes 61 a r NI)]; reflexivity).
      rewrite S, (said_unknown a U). reflexivity.
    + assert (S : nth 0 (split_on 61 (a ++ rest)) [] = a) by (destruct CR as [->|(r & ->)]; [rewrite app_nil_r, (split_no 61 a NI)|rewrite (split_yes 61 a r NI)]; reflexivity).
      rewrite S, (said_ambiguous a ws ND CA L). unfold ambiguous. rewrite <- !app_assoc. reflexivity.
    + rewrite (split_yes 61 a r NI). cbn [nth]. rewrite (said_names a l NM). assert (HC : has_char 61 (a ++ 61 :: r) = true) by (apply has_char_In, in_elt).
      rewrite HC. unfold no_value. rewrite <- app_assoc. reflexivity.
Qed.
Lemma short_word c cs on m : c <> 45 -> (short_said opts (c :: cs) on = Bad m <-> wrong_word opts (45 :: c :: cs) m).
Proof.
  intros NC. split.
  - intros E. destruct (short_bad_inv _ _ _ E) as (pre & ls & x & more & EC & F & N & U & ->). rewrite EC. eapply ww_letter; try eassumption.
    destruct pre as [|y pre]; cbn [app hd] in *; congruence.
  - intros W. inversion W as [cs' ls x more H F N U E|a rest NI CR NE U E|a rest ws NI CR NE ND CA L E|a l r NI NM E]; subst; try congruence.
    exact (short_bad cs' ls x more F N U on).
Qed.
Lemma word_bad w on m : ~ plain_word w -> w <> [45; 45] -> (word_said w on = Bad m <-> wrong_word opts w m).
Proof.
  intros NP NE. unfold word_said. destruct (word_cases w) as [X|[X|[(t & NT & ->)|(c & cs & NC & ->)]]]; [contradiction|contradiction| |].
  - change (startswith (45 :: 45 :: t) (lit "--")) with (startswith t []). replace (startswith t []) with true by (destruct t; reflexivity). cbn [skipn].
    apply long_bad. exact NT.
  - assert (E2 : startswith (45 :: c :: cs) (lit "--") = false).
    { change (lit "--") with [45; 45]. cbn [startswith]. apply Z.eqb_neq in NC. rewrite NC. reflexivity. }
    rewrite E2. cbn [skipn]. apply short_word. exact NC.
Qed.
Lemma wrong_not_plain w m : wrong_word opts w m -> ~ plain_word w /\ w <> [45; 45].
Proof.
  intros W. inversion W as [cs ls c more H F N U E|a rest NI CR NE U E|a rest ws NI CR NE ND CA L E|a l r NI NM E]; subst.
  - split; [intros [X|X]; [destruct cs; discriminate|exact (X _ eq_refl)]|]. intros X. destruct cs as [|x [|y cs]]; cbn [app hd] in *; [congruence|congruence|congruence].
  - split; [intros [X|X]; [discriminate|exact (X _ eq_refl)]|congruence].
  - split; [intros [X|X]; [discriminate|exact (X _ eq_refl)]|congruence].
  - split; [intros [X|X]; [discriminate|exact (X _ eq_refl)]|]. destruct a; discriminate.
Qed.
Lemma option_going w ls on : option_word opts w ls -> ~ In (lit "help") ls -> word_said w on = Going (on ++ ls).
Proof.
  intros O N. destruct (option_not_plain opts w ls O) as [N1 N2].
  pose proof (said_option w [] on [] N1 N2) as E. pose proof (forget_words opts [w] on []) as F.
  rewrite (parse_understood opts P [w] ls []) in F.
  - rewrite E in F. cbn [words_said] in F. destruct (word_said w on) as [m| |on']; [discriminate|discriminate|]. cbn [forget] in F. congruence.
  - rewrite <- (app_nil_r ls). apply ud_opt; [exact O|exact N|constructor].
Qed.
Lemma words_bad words : forall on args m, words_said opts words on args = Bad m <-> wrong_options opts words m.
Proof.
  induction words as [|w r IH]; intros on args m; [split; [discriminate|intros W; inversion W]|].
  destruct (word_cases w) as [PW|[->|D]].
  - rewrite (said_plain w r on args PW), IH. split; [intros W; apply wo_arg; assumption|].
    intros W. inversion W as [? ? ? WW|? ? ? PW' W'|? ls ? ? O NH W']; subst; [|exact W'|].
    + destruct (wrong_not_plain _ _ WW). contradiction.
    + destruct (option_not_plain _ _ _ O). contradiction.
  - split; [discriminate|]. intros W. inversion W as [? ? ? WW|? ? ? PW' W'|? ls ? ? O NH W']; subst.
    + destruct (wrong_not_plain _ _ WW). contradiction.
    + destruct PW' as [X|X]; [discriminate|destruct (X _ eq_refl)].
    + destruct (option_not_plain _ _ _ O). contradiction.
  - assert (N : ~ plain_word w /\ w <> [45; 45]).
    { destruct D as [(t & NT & ->)|(c & cs & NC & ->)]; (split; [intros [X|X]; [congruence|exact (X _ eq_refl)]|congruence]). }
    destruct N as [N1 N2]. rewrite (said_option w r on args N1 N2). split.
    + destruct (word_said w on) as [m'| |on'] eqn:E.
      * intros X. apply wo_word. apply (word_bad w on m N1 N2). congruence.
      * discriminate.
      * intros X. pose proof (parse_inv opts P [w] on []) as I. rewrite <- (forget_words opts [w] on []), (said_option w [] on [] N1 N2), E in I.
        cbn [words_said forget] in I. destruct I as (o & a & U & _ & _). inversion U as [|? Q|? ? ? ? PW U'|? ls ? o' a' O NH U' Q]; subst; [congruence|contradiction|].
        eapply wo_opt; [exact O|exact NH|]. apply (IH on' args m). exact X.
    + intros W. inversion W as [? ? ? WW|? ? ? PW' W'|? ls ? ? O NH W']; subst.
      * apply (word_bad w on m N1 N2) in WW. rewrite WW. reflexivity.
      * contradiction.
      * rewrite (option_going w ls on O NH). apply IH. exact W'.
Qed.
End Reasons.

(** *** the scripts *)
Lemma opts_are t : opts_of t = options t.
Proof. destruct t; reflexivity. Qed.
Lemma opts_proper t : proper_flags (options t).
Proof.
  rewrite <- opts_are. destruct tables_proper as (A & B & C & D & E & F & G). destruct t; assumption.
Qed.
Lemma refusal_is t prog m : refusal prog (usage_of t) m = refused t prog m.
Proof. destruct t; reflexivity. Qed.
Lemma conflict_ok on : conflicting on <->
  (inb (lit "begin") on && inb (lit "exact") on) || (inb (lit "end") on && inb (lit "exact") on) || (inb (lit "begin") on && inb (lit "end") on) ||
  (inb (lit "fuzzy") on && (inb (lit "begin") on || inb (lit "end") on || inb (lit "exact") on)) = true.
Proof.
  rewrite !orb_true_iff, !andb_true_iff, !orb_true_iff, !inb_In. unfold conflicting. split.
  - intros (l & l' & N & [<-|[<-|[<-|[<-|[]]]]] & [<-|[<-|[<-|[<-|[]]]]] & I & I'); try (exfalso; apply N; reflexivity); tauto.
  - intros H.
    assert (G : forall a b, lit a <> lit b -> In (lit a) [lit "begin"; lit "end"; lit "fuzzy"; lit "exact"] ->
      In (lit b) [lit "begin"; lit "end"; lit "fuzzy"; lit "exact"] -> In (lit a) on -> In (lit b) on ->
      exists l l', l <> l' /\ In l [lit "begin"; lit "end"; lit "fuzzy"; lit "exact"] /\ In l' [lit "begin"; lit "end"; lit "fuzzy"; lit "exact"] /\ In l on /\ In l' on).
    { intros a b. eauto 8. }
    destruct H as [[[[A B]|[A B]]|[A B]]|[A [[B|B]|B]]];
    [apply (G "begin"%string "exact"%string)|apply (G "end"%string "exact"%string)|apply (G "begin"%string "end"%string)|apply (G "fuzzy"%string "begin"%string)|apply (G "fuzzy"%string "end"%string)|apply (G "fuzzy"%string "exact"%string)];
    try assumption; try discriminate; cbn [In]; auto.
Qed.
Lemma page_lines_fine lines : forall sec c8 rng st, gp_lines (sec, c8, rng) lines = Ok st -> page_lines_ok lines.
Proof.
  induction lines as [|l lines IH]; intros sec c8 rng st E x I PL; [destruct I|]. cbn [gp_lines] in E. rewrite gp_line_eq in E.
  destruct (match sec with Some _ => Ok (sec, c8) | None => if startswith l (lit "# Filename: ") then gp_name l else Ok (sec, c8) end) as [y|]; cbn [bind] in E; [|discriminate].
  destruct (if startswith l (lit "# Pages: ") then gp_rng l else Ok rng) as [r1|] eqn:ER; cbn [bind] in E; [|discriminate].
  destruct I as [<-|I]; [|exact (IH _ _ _ _ E x I PL)]. rewrite (proj2 (pages_dec l) PL) in ER. destruct PL as (r & ->). apply gp_rng_inv in ER.
  destruct ER as (a & b & PA & _). exists a, b. exact PA.
Qed.
Lemma genpages_said fuel content : genpages fuel content = Err SystemExit -> page_lines_ok (readlines content) /\
  ((genpages_reason fuel content = lit "Cannot determine log section!" /\ forall x, In x (readlines content) -> ~ l_line x /\ ~ name_line x) \/
   (genpages_reason fuel content = lit "Invalid page numbers!" /\
    exists sec c8 a b, section_is (readlines content) sec c8 /\ page_numbers (readlines content) a b /\ b < a)).
Proof.
  unfold genpages, genpages_reason. set (lines := readlines content). clearbody lines.
  destruct (log_lines fuel (fun _ => None) lines) as (d & o & -> & HO). cbn [bind]. cbv zeta. intros E.
  destruct (gp_lines (_, _, None) lines) as [[[s v] rng]|e'] eqn:G; cbn [bind] in E.
  2:{ exfalso. injection E as ->. apply gp_lines_error in G. destruct G as [(X & _)|(X & _)]; discriminate. }
  split; [eapply page_lines_fine; exact G|]. destruct (gp_lines_inv _ _ _ _ _ _ _ G) as [A B]. destruct s as [s|].
  - right. split; [reflexivity|]. destruct rng as [[a b]|]; [|discriminate]. destruct (Z.ltb_spec b a) as [L|L]; [|discriminate].
    destruct B as [[X _]|(a' & b' & EQ & PN)]; [discriminate|]. assert (a' = a) by congruence. assert (b' = b) by congruence. subst a' b'.
    exists s, v, a, b. split; [|auto]. destruct o as [[s0 v0]|].
    + destruct A as [A1 ->]. assert (s = s0) by congruence. subst s. left. exact HO.
    + destruct A as [(X & _)|(s' & EQ' & -> & NM)]; [discriminate|]. assert (s' = s) by congruence. subst s'. right. auto.
  - left. split; [reflexivity|]. destruct o as [[s0 v0]|]; [destruct A; discriminate|].
    intros x I. split; [exact (HO x I)|exact (gp_lines_none _ _ _ _ _ G x I)].
Qed.
Lemma section_lines lines sec c8 : section_is lines sec c8 -> exists x, In x lines /\ (l_line x \/ name_line x).
Proof.
  intros [(pre & l & post & -> & L & _)|(_ & _ & pre & l & post & -> & S & _)]; exists l; (split; [apply in_elt|]); [left; exact L|right; exact (name_is_line _ _ S)].
Qed.
Definition has_of (on : list str) : string -> bool := fun s => inb (lit s) on.
Lemma inb_dec (m : str) : In m INSTRUCTIONS \/ ~ In m INSTRUCTIONS.
Proof.
  destruct (inb m INSTRUCTIONS) eqn:I; [left; apply inb_In; exact I|right; apply inb_false; exact I].
Qed.
Lemma opcode_ok opcode m : mnemonic_of opcode m -> nth 0 (split_on 44 opcode) [] = m.
Proof.
  intros [[N ->]|(r & -> & N)]; [rewrite (split_no 44 opcode N)|rewrite (split_yes 44 m r N)]; reflexivity.
Qed.
Lemma opcode_some opcode : mnemonic_of opcode (nth 0 (split_on 44 opcode) []).
Proof.
  destruct (in_dec Z.eq_dec 44 opcode) as [I|N].
  - right. destruct (in_split _ _ I) as (a0 & r0 & E0). assert (X : exists a r, opcode = a ++ 44 :: r /\ ~ In 44 a).
    { clear -I. induction opcode as [|c t IH]; [destruct I|]. destruct (Z.eq_dec c 44) as [->|NE]; [exists [], t; split; [reflexivity|intros []]|].
      destruct I as [I|I]; [congruence|]. destruct (IH I) as (a & r & -> & NI). exists (c :: a), r. split; [reflexivity|]. intros [X|X]; [congruence|exact (NI X)]. }
    destruct X as (a & r & -> & NI). rewrite (split_yes 44 a r NI). exists r. auto.
  - left. split; [exact N|]. rewrite (split_no 44 opcode N). reflexivity.
Qed.
(** what is checked before a script starts *)
Lemma checked_misuse fs t on args m : wrong_args t (has_of on) args = Some m -> misuse fs t on args m.
Proof.
  unfold has_of. destruct t; cbn [wrong_args]; intros E;
  try (destruct args as [|a args]; [injection E as <-; apply mu_no_file; cbn [In]; auto 8|discriminate]).
  - destruct (_ || _) eqn:C in E.
    + injection E as <-. apply mu_conflict. apply conflict_ok. exact C.
    + assert (NC : ~ conflicting on) by (rewrite conflict_ok; congruence). destruct (Z.ltb_spec (zlen args) 2) as [L|L]; [|discriminate].
      injection E as <-. apply mu_find; assumption.
  - destruct args as [|opcode files]; [injection E as <-; constructor|]. destruct (inb (nth 0 (split_on 44 opcode) []) INSTRUCTIONS) eqn:I; [discriminate|].
    match type of E with Some ?x = _ => assert (X : m = x) by congruence end. rewrite X. eapply mu_opcode; [apply opcode_some|]. apply inb_false. exact I.
  - destruct (Z.ltb_spec (zlen args) 2) as [L|L]; [|discriminate]. injection E as <-. constructor. exact L.
Qed.
Definition started (v : env) (fs : fsys) (t : tool) (prog : str) (on args : list str) : proc :=
  match wrong_args t (has_of on) args with
  | Some m => (refusal prog (usage_of t) m, Exit 2, fs)
  | None => body_of v fs t prog (has_of on) args
  end.
Lemma command_started v fs t prog words on args : understood (options t) words on args -> command v fs t prog words = started v fs t prog on args.
Proof.
  intros U. unfold command. rewrite opts_are. pose proof (forget_words (options t) words [] []) as F.
  rewrite (parse_understood _ (opts_proper t) _ _ _ U) in F. destruct (words_said (options t) words [] []) as [m| |[o a]]; [discriminate|discriminate|].
  cbn [forget app] in F. assert (o = on) by congruence. assert (a = args) by congruence. subst o a. reflexivity.
Qed.
Lemma misuse_refused v fs t prog on args m : misuse fs t on args m -> started v fs t prog on args = (refused t prog m, Exit 2, fs).
Proof.
  intros M. unfold started. destruct M as [t on I|on args C|on args NC L|on|on opcode m files MN NI|on args L|on a b rest D|on f rest NF|on f rest content F PL NL|on f rest content sec c8 a b F PL SI PN L].
  - cbn [In] in I. destruct I as [<-|[<-|[<-|[<-|[<-|[<-|[]]]]]]]; reflexivity.
  - cbn [wrong_args]. unfold has_of. rewrite (proj1 (conflict_ok on) C). rewrite refusal_is. reflexivity.
  - cbn [wrong_args]. unfold has_of. destruct (_ || _) eqn:X; [apply conflict_ok in X; contradiction|].
    destruct (Z.ltb_spec (zlen args) 2); [|lia]. rewrite refusal_is. reflexivity.
  - reflexivity.
  - cbn [wrong_args]. rewrite (opcode_ok _ _ MN), (proj2 (inb_false m INSTRUCTIONS) NI), refusal_is. reflexivity.
  - cbn [wrong_args]. destruct (Z.ltb_spec (zlen args) 2); [|lia]. rewrite refusal_is. reflexivity.
  - cbn [wrong_args]. destruct (_ <? 2) eqn:X.
    { apply Z.ltb_lt in X. rewrite !(@zlen_cons str) in X. pose proof (@zlen_nonneg str rest). lia. }
    cbn [body_of]. pose proof (C129_rejected_pf (a :: b :: rest)) as R. destruct (genlines (a :: b :: rest)) as [out|e].
    + destruct R as (a0 & a1 & r & E & L0 & L1 & _). injection E as -> -> ->. lia.
    + destruct R as [[-> _]|[-> (a0 & a1 & r & E & L0 & L1 & _)]]; [|injection E as -> -> ->; lia]. rewrite refusal_is. reflexivity.
  - cbn [wrong_args body_of]. rewrite NF, refusal_is. reflexivity.
  - cbn [wrong_args body_of]. rewrite F. assert (G := proj1 (C91_failures_pf (e_fuel v) content PL) NL). rewrite G.
    destruct (genpages_said _ _ G) as [_ [[-> _]|[_ (s & c & a & b & SI & _)]]]; [rewrite refusal_is; reflexivity|].
    destruct (section_lines _ _ _ SI) as (x & I & [X|X]); destruct (NL x I); contradiction.
  - cbn [wrong_args body_of]. rewrite F. assert (G := proj2 (proj2 (C91_failures_pf (e_fuel v) content PL) sec c8 SI) a b PN L). rewrite G.
    destruct (genpages_said _ _ G) as [_ [[_ NL]|[-> _]]]; [|rewrite refusal_is; reflexivity].
    destruct (section_lines _ _ _ SI) as (x & I & [X|X]); destruct (NL x I); contradiction.
Qed.
Lemma C142_refused_pf : forall v fs t prog words reason, wrong_line fs t words reason ->
  command v fs t prog words = (refused t prog reason, Exit 2, fs).
Proof.
  intros v fs t prog words m [W|(on & args & U & M)].
  - apply (words_bad (options t) (opts_proper t) words [] [] m) in W. unfold command. rewrite opts_are, W, refusal_is. reflexivity.
  - rewrite (command_started v fs t prog words on args U). apply misuse_refused. exact M.
Qed.
(*@ Example C142_refused_ex :
  let v := mkenv (fun _ _ => []) (fun _ _ _ => []) (fun s => s) (fun s => s) (fun _ => []) 3 (fun _ => [OutL (lit "help")]) in let fs := fun f => if eqb f (lit "f") then Some (lit "# Pages: 1-2") else None in
  let says t reason := [ErrL (lit "Usage: x.py " ++ lit (calling t)); ErrL []; ErrL (lit "x.py: error: " ++ lit reason)] in
  command v fs FindSymbols (lit "x.py") [lit "-v"; lit "--e"; lit "X"] =
    ([ErrL (lit "Usage: x.py [options] symbol filename [filename]..."); ErrL [];
      ErrL (lit "x.py: error: ambiguous option: --e (--end, --exact?)")], Exit 2, fs) /\
  command v fs FindSymbols (lit "x.py") [lit "-bx"; lit "X"] = (says FindSymbols "Conflicting options!"%string, Exit 2, fs) /\
  command v fs FindSymbols (lit "x.py") [lit "-b"; lit "X"] =
    (says FindSymbols "usage: %prog [options] symbol filename [filename]..."%string, Exit 2, fs) /\
  command v fs Parse (lit "x.py") [lit "-dzv"; lit "f"] = (says Parse "no such option: -z"%string, Exit 2, fs) /\
  command v fs Parse (lit "x.py") [lit "--debug=3"; lit "f"] = (says Parse "--debug option does not take a value"%string, Exit 2, fs) /\
  command v fs ListInstructions (lit "x.py") [lit "FOO,X"; lit "f"] = (says ListInstructions "ERROR: invalid opcode ""FOO,X"""%string, Exit 2, fs) /\
  command v fs Genpages (lit "x.py") [lit "f"] = (says Genpages "Cannot determine log section!"%string, Exit 2, fs) /\
  command v fs Genpages (lit "x.py") [lit "g"] = (says Genpages "Filename g does not exist!"%string, Exit 2, fs) /\
  wrong_line fs FindSymbols [lit "X"; lit "--e=1"] (lit "ambiguous option: --e (--end, --exact?)").
Proof.
  cbv zeta. do 8 (split; [vm_compute; reflexivity|]). left. apply wo_arg; [right; intros r; discriminate|]. apply wo_word.
  apply (ww_ambiguous _ (lit "e") (lit "=1") [lit "--end"; lit "--exact"]).
  - cbn. intuition discriminate.
  - right. eexists. reflexivity.
  - discriminate.
  - intros (f & I & E). cbn in I. intuition (subst f; discriminate).
  - split.
    + repeat constructor; try discriminate; reflexivity.
    + intros w. split.
      * intros [<-|[<-|[]]].
        -- exists (lit "end"). split; [exists (mkflag 101 (lit "end")); split; [cbn; auto 12|reflexivity]|]. split; [eexists; reflexivity|reflexivity].
        -- exists (lit "exact"). split; [exists (mkflag 120 (lit "exact")); split; [cbn; auto 12|reflexivity]|]. split; [eexists; reflexivity|reflexivity].
      * intros (l & (f & I & <-) & (r & E) & ->). cbn in I. intuition (subst f; try discriminate; cbn; auto).
  - reflexivity.
Qed. @*)
Lemma C142_help_pf : forall v fs t prog words, asks_help (options t) words ->
  command v fs t prog words = (e_help v t, Exit 0, fs).
Proof.
  intros v fs t prog words H. unfold command. rewrite opts_are. pose proof (forget_words (options t) words [] []) as F.
  rewrite (parse_help _ (opts_proper t) _ H) in F. destruct (words_said (options t) words [] []) as [m| |[o a]]; [discriminate| |discriminate]. reflexivity.
Qed.
(*@ Example C142_help_ex : let v := mkenv (fun _ _ => []) (fun _ _ _ => []) (fun s => s) (fun s => s) (fun _ => []) 3 (fun _ => [OutL (lit "help")]) in
  command v (fun _ => None) Listing (lit "x.py") [lit "f"; lit "-vh"; lit "-z"] = ([OutL (lit "help")], Exit 0, fun _ => None) /\
  asks_help (options Listing) [lit "f"; lit "-vh"; lit "-z"].
Proof.
  split; [vm_compute; reflexivity|]. apply ah_arg; [right; intros r; discriminate|]. apply (ah_letter _ 104 [118] [lit "verbose"] []); [discriminate| |].
  - repeat constructor. eexists. split; [right; left; reflexivity|]. split; reflexivity.
  - eexists. split; [left; reflexivity|]. split; reflexivity.
Qed. @*)
Lemma finish_is {A} (ls : list line) (r : res A) fs : exists st, finish (ls, r) fs = (ls, st, fs) /\ ends_as r st.
Proof.
  unfold finish. cbn [fst snd]. destruct r as [a|e]; [eexists; split; [reflexivity|constructor]|].
  destruct (match e with SystemExit => true | _ => false end) eqn:Q.
  - destruct e; try discriminate Q. exists (Exit 1). split; [reflexivity|constructor].
  - exists (Died e). split; [destruct e; try reflexivity; discriminate Q|]. constructor. intros ->. discriminate Q.
Qed.
Lemma started_runs v fs t prog on args : (forall reason, ~ misuse fs t on args reason) ->
  exists ls st fs', started v fs t prog on args = (ls, st, fs') /\ runs v fs on args t ls st fs'.
Proof.
  intros N. unfold started. destruct (wrong_args t (has_of on) args) as [m|] eqn:W; [destruct (N m); apply checked_misuse; exact W|].
  assert (ON : forall s, turned_on on s (has_of on s)) by (intros s; apply on_ok).
  destruct t; cbn [body_of]; cbv zeta;
  try (match goal with |- context [finish ?x fs] => destruct x as [ls r] eqn:E end;
       destruct (finish_is ls r fs) as (st & -> & EA); exists ls, st, fs; (split; [reflexivity|]); econstructor; try exact E; try exact EA; cbn [o_all o_count o_invalid o_print o_sort o_unused]; apply ON).
  - destruct (listing_run (e_fuel v) fs (has_of on "verbose") args) as [[ls r] fs'] eqn:E. cbn [fst snd].
    destruct (finish_is ls r fs') as (st & -> & EA). exists ls, st, fs'. split; [reflexivity|]. econstructor; [apply ON|exact E|exact EA].
  - destruct (genlines args) as [out|e] eqn:E; [eexists; eexists; eexists; split; [reflexivity|]; constructor; exact E|].
    pose proof (C129_rejected_pf args) as R. rewrite E in R. destruct R as [[-> [L|(a0 & a1 & rest & -> & D)]]|[-> _]].
    + destruct (N _ (mu_numbers fs on args L)).
    + destruct (N _ (mu_digits fs on a0 a1 rest D)).
    + exists [], (Died ValueError), fs. split; [reflexivity|]. constructor. exact E.
  - destruct args as [|f rest]; [discriminate|]. destruct (fs f) as [content|] eqn:F; [|destruct (N _ (mu_missing fs on f rest F))].
    destruct (genpages (e_fuel v) content) as [more|e] eqn:G.
    + exists [], (Exit 0), (fs_write fs f (content ++ more)). split; [reflexivity|].
      eapply rn_genpages; [reflexivity|exact F|exact G| |]; unfold fs_write; [rewrite eqb_refl; reflexivity|].
      intros g NE. rewrite (eqb_neq g f NE). reflexivity.
    + assert (NS : e <> SystemExit).
      { intros ->. destruct (genpages_said _ _ G) as [PL [[_ NL]|[_ (sec & c8 & a & b & SI & PN & L)]]].
        - exact (N _ (mu_section fs on f rest content F PL NL)).
        - exact (N _ (mu_pages fs on f rest content sec c8 a b F PL SI PN L)). }
      exists [], (Died e), fs. split; [destruct e; try reflexivity; contradiction|]. eapply rn_genpages_bad; [reflexivity|exact F|exact G].
Qed.
Lemma C142_starts_pf : forall v fs t prog words on args, understood (options t) words on args -> (forall reason, ~ misuse fs t on args reason) ->
  exists ls st fs', command v fs t prog words = (ls, st, fs') /\ runs v fs on args t ls st fs'.
Proof.
  intros v fs t prog words on args U N. rewrite (command_started v fs t prog words on args U). apply started_runs. exact N.
Qed.
(*@ Example C142_starts_ex : let v := mkenv (fun _ _ => []) (fun _ _ _ => []) (fun s => s) (fun s => s) (fun _ => []) 3 (fun _ => [OutL (lit "help")]) in let fs := fun f => if eqb f (lit "f") then Some (lit "                   FOO") else None in
  exists on args, understood (options Parse) [lit "f"; lit "--deb"] on args /\ (forall reason, ~ misuse fs Parse on args reason) /\
  fst (command v fs Parse (lit "x.py") [lit "f"; lit "--deb"]) =
    ([ErrL (lit "f: 0 errors encountered building symbol table."); OutL (lit "f 1                    FOO");
      OutL (lit "*** ERROR: Invalid instruction ""FOO"":"); OutL (lit "File f, line 1:                    FOO");
      OutL (10 :: lit "Source lines: 1"); OutL (lit "1 error encountered.")], Exit 0).
Proof.
  cbv zeta. exists [lit "debug"], [lit "f"]. split; [|split].
  - apply ud_arg; [right; intros r; discriminate|]. apply (ud_opt _ _ [lit "debug"]); [|intros [H|[]]; discriminate|constructor].
    apply ow_name; [discriminate|cbn; intuition discriminate|]. apply nm_abbrev.
    + intros (f & I & E). cbn in I. intuition (subst f; discriminate).
    + eexists. split; [right; left; reflexivity|reflexivity].
    + eexists. reflexivity.
    + intros l (f & I & <-) (r & E). cbn in I. intuition (subst f; try discriminate; reflexivity).
  - intros m M. inversion M.
  - vm_compute. reflexivity.
Qed. @*)
Lemma runs_not_two v fs on args t ls fs' : ~ runs v fs on args t ls (Exit 2) fs'.
Proof.
  assert (E : forall A (r : res A), ~ ends_as r (Exit 2)) by (intros A r X; inversion X).
  intros R. inversion R; subst; eapply E; eassumption.
Qed.
Lemma misuse_dec fs t on args : (exists m, misuse fs t on args m) \/ (forall m, ~ misuse fs t on args m).
Proof.
  set (v := mkenv (fun _ _ => []) (fun _ _ _ => []) (fun s => s) (fun s => s) (fun _ => []) 0 (fun _ => [])).
  destruct (wrong_args t (has_of on) args) as [m|] eqn:W; [left; exists m; apply checked_misuse; exact W|].
  assert (G : forall e, snd (fst (body_of v fs t [] (has_of on) args)) = e -> e <> Exit 2 -> forall m, ~ misuse fs t on args m).
  { intros e E NE m M. apply (misuse_refused v fs t [] on args m) in M. unfold started in M. rewrite W in M. rewrite M in E. cbn [fst snd] in E. congruence. }
  assert (FN : forall A (x : io A) fs', snd (fst (finish x fs')) <> Exit 2).
  { intros A [ls r] f'. destruct (finish_is ls r f') as (st & -> & EA). cbn [fst snd]. intros ->. inversion EA. }
  destruct t; try (right; eapply G; [reflexivity|]; cbn [body_of]; cbv zeta; apply FN).
  - pose proof (C129_rejected_pf args) as R. destruct (genlines args) as [out|e] eqn:E.
    + right. eapply G; [reflexivity|]. cbn [body_of]. rewrite E. discriminate.
    + destruct R as [[-> [L|(a0 & a1 & rest & -> & D)]]|[-> _]]; [left; eexists; constructor; exact L|left; eexists; constructor; exact D|].
      right. eapply G; [reflexivity|]. cbn [body_of]. rewrite E. discriminate.
  - destruct args as [|f rest]; [discriminate|]. destruct (fs f) as [content|] eqn:F; [|left; eexists; constructor; exact F].
    destruct (genpages (e_fuel v) content) as [more|e] eqn:E.
    + right. eapply G; [reflexivity|]. cbn [body_of]. rewrite F, E. discriminate.
    + destruct (match e with SystemExit => true | _ => false end) eqn:Q.
      * destruct e; try discriminate Q. left. destruct (genpages_said _ _ E) as [PL [[_ NL]|[_ (sec & c8 & a & b & SI & PN & L)]]];
          [eexists; eapply mu_section; eassumption|eexists; eapply mu_pages; eassumption].
      * right. eapply G; [reflexivity|]. cbn [body_of]. rewrite F, E. destruct e; discriminate.
Qed.
Lemma line_cases t words : (exists m, wrong_options (options t) words m) \/ asks_help (options t) words \/ exists on args, understood (options t) words on args.
Proof.
  pose proof (forget_words (options t) words [] []) as F. destruct (words_said (options t) words [] []) as [m| |[on args]] eqn:E.
  - left. exists m. apply (words_bad _ (opts_proper t) words [] [] m). exact E.
  - right. left. apply (C123_help_pf _ _ (opts_proper t)). rewrite <- F. reflexivity.
  - right. right. exists on, args. apply (C123_understood_pf _ _ _ _ (opts_proper t)). rewrite <- F. reflexivity.
Qed.
Lemma C142_only_pf : forall v fs t prog words ls fs', command v fs t prog words = (ls, Exit 2, fs') ->
  exists reason, wrong_line fs t words reason /\ ls = refused t prog reason /\ fs' = fs.
Proof.
  intros v fs t prog words ls fs' E.
  assert (G : forall m, wrong_line fs t words m -> exists reason, wrong_line fs t words reason /\ ls = refused t prog reason /\ fs' = fs).
  { intros m W. exists m. split; [exact W|]. rewrite (C142_refused_pf v fs t prog words m W) in E. split; congruence. }
  destruct (line_cases t words) as [(m & W)|[H|(on & args & U)]].
  - apply (G m). left. exact W.
  - rewrite (C142_help_pf v fs t prog words H) in E. congruence.
  - destruct (misuse_dec fs t on args) as [(m & M)|N]; [apply (G m); right; eauto|]. exfalso.
    destruct (C142_starts_pf v fs t prog words on args U N) as (ls1 & st & fs1 & E1 & R). rewrite E in E1.
    assert (st = Exit 2) by congruence. subst st. eapply runs_not_two. exact R.
Qed.
(*@ Example C142_only_ex : let v := mkenv (fun _ _ => []) (fun _ _ _ => []) (fun s => s) (fun s => s) (fun _ => []) 3 (fun _ => [OutL (lit "help")]) in let fs := fun f => if eqb f (lit "f") then Some (lit "R 1") else None in
  snd (fst (command v fs Genlines (lit "x.py") [lit "1"; lit "2"])) = Exit 0 /\
  snd (fst (command v fs Genlines (lit "x.py") [lit "1"; lit "2000000"])) = Exit 2 /\
  snd (fst (command v fs Genlines (lit "x.py") [lit "1"; lit "x"])) = Died ValueError /\
  snd (fst (command v fs ListSymbols (lit "x.py") [lit "f"; lit "g"])) = Exit 1 /\
  snd (fst (command v fs ListSymbols (lit "x.py") [lit "f"])) = Exit 0.
Proof. vm_compute. repeat split. Qed. @*)
Lemma conflict_dec on : conflicting on \/ ~ conflicting on.
Proof.
  rewrite conflict_ok. destruct (_ || _); [left; reflexivity|right; discriminate].
Qed.

(** *** exit status *)
Lemma not_conflicting on b e f x : turned_on on "begin" b -> turned_on on "end" e -> turned_on on "fuzzy" f -> turned_on on "exact" x ->
  ~ conflicting on -> (b && x) || (e && x) || (b && e) || (f && (b || e || x)) = false.
Proof.
  intros B E F X N. assert (T : forall l b, turned_on on l b -> b = inb (lit l) on).
  { intros l b' H. unfold turned_on in H. rewrite <- inb_In in H. destruct b', (inb (lit l) on); try reflexivity; [symmetry; apply H; reflexivity|apply H; reflexivity]. }
  rewrite (T _ _ B), (T _ _ E), (T _ _ F), (T _ _ X). destruct (_ || _) eqn:Q; [|reflexivity]. apply conflict_ok in Q. contradiction.
Qed.
Lemma ci_ok pct fuel fs v o files css : files <> [] -> Forall2 (source_cards fuel fs) files css ->
  (o_count o = true -> exists c, In c (concat css) /\ instr_card c) ->
  exists n ls, count_of (fun c => ~ starred c /\ exists m, instr_is c m /\ ~ In m INSTRUCTIONS) (concat css) n /\
    check_instructions_run pct fuel fs v o files = (ls ++ [OutL (error_count n)], Ok tt).
Proof.
  intros NE F C. destruct (ci_run pct fuel fs v o files css NE F) as (ls & s & E & R & I). destruct I as (_ & IC & IE & _).
  exists (ci_errs s). destruct (o_count o) eqn:O.
  - destruct (C121_count_pf pct fuel fs v o files css _ _ NE O F IE IC) as (l1 & rows & un & E1 & _).
    + intros Z. pose proof (proj1 (proj2 (count_pos _ _ _ IC)) Z) as Z2. destruct (C eq_refl) as (c & I & K). exact (Z2 c I K).
    + eexists. split; [exact IE|]. rewrite E1. rewrite !map_app. cbn [map]. rewrite !app_comm_cons, !app_assoc. reflexivity.
  - destruct (C121_transcript_pf pct fuel fs v o files css _ NE O F IE) as (l1 & un & E1 & _).
    eexists. split; [exact IE|]. rewrite E1, map_app, app_assoc. reflexivity.
Qed.
Lemma bad_count fuel fs files css : files <> [] -> Forall2 (source_cards fuel fs) files css ->
  exists n, count_of (fun c => ~ starred c /\ exists m, instr_is c m /\ ~ In m INSTRUCTIONS) (concat css) n.
Proof.
  intros NE F. destruct (ci_ok (fun _ _ => []) fuel fs false (mkciopts false false false false false false) files css NE F) as (n & _ & H & _); [discriminate|eauto].
Qed.
Lemma last_css {A B} (R : A -> B -> Prop) l l' : Forall2 R l l' -> l <> [] -> exists pre x, l' = pre ++ [x].
Proof.
  intros F N. destruct (exists_last (l := l')) as (pre & x & E); [|eauto]. intros ->. inversion F. subst. contradiction.
Qed.
Lemma args_not_empty fs t on args : In t [CheckInstructions; CheckSymbols; ListSymbols; Listing; Parse; Genpages] -> (forall m, ~ misuse fs t on args m) -> args <> [].
Proof. intros I N ->. exact (N _ (mu_no_file fs t on I)). Qed.
Lemma runs_ok v fs on args t ls st fs' css : reads_only t -> (forall m, ~ misuse fs t on args m) -> runs v fs on args t ls st fs' ->
  Forall2 (source_cards (e_fuel v) fs) (sources t args) css -> (keeps_table t -> plain_names (sources t args)) ->
  (t = CheckInstructions -> In (lit "count") on -> exists c, In c (concat css) /\ instr_card c) -> st = Exit 0 /\ fs' = fs.
Proof.
  intros RO N R F PN C. assert (OK : forall A (r : res A), (exists a, r = Ok a) -> ends_as r st -> st = Exit 0) by (intros A r (a & ->) H; inversion H; reflexivity).
  destruct R as [verbose o ls r st V1 V2 V3 V4 V5 V6 V7 E EA|verbose complex ls r st V1 V2 E EA|verbose b e f x ls r st V1 V2 V3 V4 V5 E EA|verbose details ls r st V1 V2 E EA|
    verbose ls r st V1 E EA|verbose ls r st fs' V1 E EA|verbose debug ls r st V1 V2 E EA|out E|e E|f rest content more fs' E1 E2 E3 E4 E5|f rest content e E1 E2 E3];
  try (exfalso; unfold reads_only in RO; cbn [In] in RO; intuition discriminate); (split; [|reflexivity]); cbn [sources] in F, PN; try specialize (PN ltac:(cbn; auto)); eapply OK; try exact EA.
  - assert (NE := args_not_empty fs CheckInstructions on args ltac:(cbn; auto) N).
    destruct (ci_ok (e_pct v) (e_fuel v) fs verbose o args css NE F) as (n & l & _ & X); [intros O; apply C; [reflexivity|apply V3; exact O]|].
    exists tt. rewrite E in X. congruence.
  - assert (NE := args_not_empty fs CheckSymbols on args ltac:(cbn; auto) N).
    destruct (C140_check_pf (e_extract v) (e_upper v) (e_rep v) (e_card_rep v) (e_fuel v) fs verbose complex args css NE F PN) as (a & b & c & d & p & q & X & _).
    exists tt. rewrite E in X. congruence.
  - destruct args as [|s [|g files]]; [exfalso| exfalso |].
    + destruct (conflict_dec on) as [K|K]; [exact (N _ (mu_conflict fs on _ K))|]. exact (N _ (mu_find fs on [] K eq_refl)).
    + destruct (conflict_dec on) as [K|K]; [exact (N _ (mu_conflict fs on _ K))|]. exact (N _ (mu_find fs on [s] K eq_refl)).
    + assert (NC : ~ conflicting on) by (intros K; exact (N _ (mu_conflict fs on _ K))).
      unfold find_symbols_verbose in E. rewrite (not_conflicting on b e f x V2 V3 V4 V5 NC) in E. cbn [tl] in F, PN.
      destruct (tables_all (e_upper v) (e_rep v) (e_card_rep v) (e_fuel v) fs verbose true (g :: files) css F PN) as (l1 & mss & tab & n & ET & _).
      rewrite ET, bind_ok in E. cbn [fst snd] in E.
      destruct (find_symbol (e_extract v) tab s None b e f) as [|[|? ?]|[|? ?]]; cbn [fst snd] in E; eexists; symmetry;
      match type of E with (_, ?y) = (_, r) => assert (Y : y = r) by congruence; exact Y end.
  - destruct args as [|opcode files]; [destruct (N _ (mu_no_opcode fs on))|]. cbn [tl] in F.
    set (m := nth 0 (split_on 44 opcode) []). assert (M : mnemonic_of opcode m) by apply opcode_some.
    assert (I : In m INSTRUCTIONS) by (destruct (inb_dec m) as [I|NI]; [exact I|destruct (N _ (mu_opcode fs on opcode m files M NI))]).
    destruct (C138_transcript_pf (e_fuel v) fs verbose details opcode m files css M I F) as (l & X & _). exists tt. rewrite E in X. congruence.
  - assert (NE := args_not_empty fs ListSymbols on args ltac:(cbn; auto) N).
    destruct (C140_list_pf (e_upper v) (e_rep v) (e_card_rep v) (e_fuel v) fs verbose args css NE F PN) as (a & b & c & d & X & _).
    exists tt. rewrite E in X. congruence.
  - assert (NE := args_not_empty fs Parse on args ltac:(cbn; auto 7) N). destruct (bad_count (e_fuel v) fs args css NE F) as (n & CN).
    destruct (last_css _ _ _ F NE) as (pre & last_cs & EL).
    destruct (C120_transcript_pf (e_upper v) (e_rep v) (e_card_rep v) (e_fuel v) fs verbose debug args css last_cs n NE F PN (ex_intro _ pre EL) CN) as (a & b & c & X & _).
    exists tt. rewrite E in X. congruence.
Qed.
Lemma C143_success_partial_pf : forall v fs t prog words on args css, reads_only t -> understood (options t) words on args ->
  (forall reason, ~ misuse fs t on args reason) -> Forall2 (source_cards (e_fuel v) fs) (sources t args) css -> (keeps_table t -> plain_names (sources t args)) ->
  (t = CheckInstructions -> In (lit "count") on -> exists c, In c (concat css) /\ instr_card c) ->
  exists ls, command v fs t prog words = (ls, Exit 0, fs).
Proof.
  intros v fs t prog words on args css RO U N F PN C. destruct (C142_starts_pf v fs t prog words on args U N) as (ls & st & fs' & E & R).
  destruct (runs_ok v fs on args t ls st fs' css RO N R F PN C) as [-> ->]. eauto.
Qed.
(*@ Example C143_success_partial_ex : let v := mkenv (fun _ _ => []) (fun _ _ _ => []) (fun s => s) (fun s => s) (fun _ => []) 3 (fun _ => [OutL (lit "help")]) in
  let fs := fun f => if eqb f (lit "f") then Some (lit "                   DA    X") else None in
  snd (fst (command v fs CheckInstructions (lit "x.py") [lit "-c"; lit "f"])) = Exit 0 /\
  snd (fst (command v fs CheckInstructions (lit "x.py") [lit "-c"; lit "e"])) = Exit 1 /\
  fst (command v (fun _ => Some []) CheckInstructions (lit "x.py") [lit "-c"; lit "f"]) =
    ([OutL (10 :: lit "Source lines: 0"); OutL (10 :: lit "Instruction Frequencies:"); OutL (ci_row (lit "Total") 0 (lit "100.00"))],
     Died ZeroDivisionError) /\
  map (fun t => snd (fst (command v fs t (lit "x.py") [lit "DA"; lit "f"]))) [FindSymbols; ListInstructions] = [Exit 0; Exit 0] /\
  map (fun t => snd (fst (command v fs t (lit "x.py") [lit "f"]))) [CheckSymbols; ListSymbols; Parse] = [Exit 0; Exit 0; Exit 0].
Proof. vm_compute. repeat split. Qed. @*)
Lemma fold_fails {S A} (f : S -> A -> io S) pre x post s s' e : snd (io_fold f pre s) = Ok s' -> snd (f s' x) = Err e ->
  snd (io_fold f (pre ++ x :: post) s) = Err e.
Proof.
  intros P X. rewrite io_fold_app, snd_bind, P. cbn [bind io_fold]. rewrite snd_bind, X. reflexivity.
Qed.
Lemma tables_fail upper rep card_rep fuel fs v counts pre css f post e : Forall2 (source_cards fuel fs) pre css -> plain_names pre ->
  load fuel fs f = Err e -> snd (build_files_run upper rep card_rep fuel fs v counts (pre ++ f :: post)) = Err e.
Proof.
  intros F PN H. destruct (tables_all upper rep card_rep fuel fs v counts pre css F PN) as (ls & mss & tab & n & E & _).
  unfold build_files_run. eapply fold_fails; [unfold build_files_run in E; rewrite E; reflexivity|]. cbn [fst snd].
  assert (EB : dump_table_run upper rep card_rep fuel fs f tab = ([], tab, Err e)).
  { unfold load in H. unfold dump_table_run. cbv zeta.
    destruct (argus_deck_new fuel fs None (Some f) DEFAULT_WIDTH DEFAULT_FIELDS ArgusCls) as [[[d sec] c8]|e']; cbn [bind] in H; [discriminate|].
    congruence. }
  rewrite snd_bind. unfold build_verbose. rewrite EB. reflexivity.
Qed.
Lemma ends_fun {A} (r : res A) st st' : ends_as r st -> ends_as r st' -> st = st'.
Proof. intros H K. inversion H; subst; inversion K; subst; congruence. Qed.
Lemma ends_err {A B} e st : ends_as (Err e : res A) st -> ends_as (Err e : res B) st.
Proof. intros H. inversion H; subst; constructor; assumption. Qed.
Lemma runs_fail v fs on args t ls st fs' pre css f post e : reads_only t -> (forall m, ~ misuse fs t on args m) -> runs v fs on args t ls st fs' ->
  sources t args = pre ++ f :: post -> Forall2 (source_cards (e_fuel v) fs) pre css -> (keeps_table t -> plain_names pre) -> load (e_fuel v) fs f = Err e ->
  ends_as (Err e : res unit) st /\ fs' = fs.
Proof.
  intros RO N R S F PN L.
  assert (OK : forall A (r : res A), r = Err e -> ends_as r st -> ends_as (Err e : res unit) st) by (intros A r -> H; exact (ends_err e st H)).
  destruct R as [verbose o ls r st V1 V2 V3 V4 V5 V6 V7 E EA|verbose complex ls r st V1 V2 E EA|verbose b e' f' x ls r st V1 V2 V3 V4 V5 E EA|verbose details ls r st V1 V2 E EA|
    verbose ls r st V1 E EA|verbose ls r st fs' V1 E EA|verbose debug ls r st V1 V2 E EA|out E|e' E|f' rest content more fs' E1 E2 E3 E4 E5|f' rest content e' E1 E2 E3];
  try (exfalso; unfold reads_only in RO; cbn [In] in RO; intuition discriminate); (split; [|reflexivity]); cbn [sources] in S; try specialize (PN ltac:(cbn; auto)); eapply OK; try exact EA.
  - assert (NE : args <> []) by (rewrite S; destruct pre; discriminate).
    assert (X : snd (check_instructions_run (e_pct v) (e_fuel v) fs verbose o args) = Err e); [|rewrite E in X; exact X].
    unfold check_instructions_run. destruct args as [|a0 r0]; [contradiction|]. rewrite S, snd_bind.
    assert (Q : snd (io_fold (fun s f => io_bind (load_run (e_fuel v) fs verbose f) (fun cs => io_fold (ci_card_run verbose o) cs s)) (pre ++ f :: post) ci_init) = Err e).
    { destruct (files_fold (ci_card_run verbose o) ci_inv verbose (o_print o) (ci_report_card verbose o) (e_fuel v) fs pre css [] ci_init F ci_init_inv) as (l & s' & E' & _).
      eapply fold_fails; [rewrite E'; reflexivity|]. rewrite snd_bind, load_run_snd, L. reflexivity. }
    rewrite Q. reflexivity.
  - assert (NE : args <> []) by (rewrite S; destruct pre; discriminate).
    assert (X : snd (check_symbols_verbose (e_extract v) (e_upper v) (e_rep v) (e_card_rep v) (e_fuel v) fs verbose complex args) = Err e); [|rewrite E in X; exact X].
    unfold check_symbols_verbose. destruct args as [|a0 r0]; [contradiction|]. rewrite snd_bind, S, (tables_fail _ _ _ _ _ _ _ _ _ _ _ _ F PN L). reflexivity.
  - destruct args as [|s [|g files]]; [destruct pre; discriminate|destruct pre; discriminate|]. cbn [tl] in S.
    assert (NC : ~ conflicting on) by (intros K; exact (N _ (mu_conflict fs on _ K))).
    unfold find_symbols_verbose in E. rewrite (not_conflicting on b e' f' x V2 V3 V4 V5 NC) in E. apply (f_equal snd) in E.
    rewrite snd_bind, S, (tables_fail _ _ _ _ _ _ _ _ _ _ _ _ F PN L) in E. cbn [bind snd] in E. congruence.
  - destruct args as [|opcode files]; [destruct pre; discriminate|]. cbn [tl] in S.
    set (m := nth 0 (split_on 44 opcode) []). assert (M : mnemonic_of opcode m) by apply opcode_some.
    assert (I : In m INSTRUCTIONS) by (destruct (inb_dec m) as [I|NI]; [exact I|destruct (N _ (mu_opcode fs on opcode m files M NI))]).
    destruct (li_start opcode m M I) as [NO G]. destruct (li_files (e_fuel v) fs verbose details opcode pre css NO F) as (l & E' & _).
    assert (X : snd (list_instructions_run (e_fuel v) fs verbose details (opcode :: files)) = Err e); [|rewrite E in X; exact X].
    unfold list_instructions_run. cbv zeta. rewrite G, S. eapply fold_fails; [rewrite E'; reflexivity|]. rewrite snd_bind, load_run_snd, L. reflexivity.
  - assert (NE : args <> []) by (rewrite S; destruct pre; discriminate).
    assert (X : snd (list_symbols_run (e_upper v) (e_rep v) (e_card_rep v) (e_fuel v) fs verbose args) = Err e); [|rewrite E in X; exact X].
    unfold list_symbols_run. destruct args as [|a0 r0]; [contradiction|]. rewrite snd_bind, S, (tables_fail _ _ _ _ _ _ _ _ _ _ _ _ F PN L). reflexivity.
  - assert (NE : args <> []) by (rewrite S; destruct pre; discriminate).
    assert (X : snd (parse_run (e_upper v) (e_rep v) (e_card_rep v) (e_fuel v) fs verbose debug args) = Err e); [|rewrite E in X; exact X].
    unfold parse_run. destruct args as [|a0 r0]; [contradiction|]. rewrite snd_bind, S, (tables_fail _ _ _ _ _ _ _ _ _ _ _ _ F PN L). reflexivity.
Qed.
Lemma C143_unreadable_partial_pf : forall v fs t prog words on args pre css f post e, reads_only t -> understood (options t) words on args ->
  (forall reason, ~ misuse fs t on args reason) -> sources t args = pre ++ f :: post ->
  Forall2 (source_cards (e_fuel v) fs) pre css -> (keeps_table t -> plain_names pre) -> load (e_fuel v) fs f = Err e ->
  exists ls st, command v fs t prog words = (ls, st, fs) /\ ends_as (Err e : res unit) st.
Proof.
  intros v fs t prog words on args pre css f post e RO U N S F PN L. destruct (C142_starts_pf v fs t prog words on args U N) as (ls & st & fs' & E & R).
  destruct (runs_fail v fs on args t ls st fs' pre css f post e RO N R S F PN L) as [EA ->]. eauto.
Qed.
(*@ Example C143_unreadable_partial_ex : let v := mkenv (fun _ _ => []) (fun _ _ _ => []) (fun s => s) (fun s => s) (fun _ => []) 3 (fun _ => [OutL (lit "help")]) in
  let fs := fun f => if eqb f (lit "f") then Some (lit "                   DA    X") else if eqb f (lit "self") then Some (lit "$self") else None in
  let ends name := map (fun t => snd (fst (command v fs t (lit "x.py") [lit "DA"; lit "f"; lit name; lit "f"]))) [FindSymbols; ListInstructions] ++
    map (fun t => snd (fst (command v fs t (lit "x.py") [lit "f"; lit name; lit "f"]))) [CheckInstructions; CheckSymbols; ListSymbols; Parse] in
  ends "g"%string = [Exit 1; Exit 1; Exit 1; Exit 1; Exit 1; Exit 1] /\
  ends "self"%string = [Died RecursionError; Died RecursionError; Died RecursionError; Died RecursionError; Died RecursionError; Died RecursionError] /\
  ends "f"%string = [Exit 0; Exit 0; Exit 0; Exit 0; Exit 0; Exit 0].
Proof. vm_compute. repeat split. Qed. @*)
Lemma files_no_misuse fs t on files : In t [CheckInstructions; CheckSymbols; ListSymbols; Listing; Parse] -> files <> [] -> forall m, ~ misuse fs t on files m.
Proof. intros I NE m M. destruct M; cbn [In] in I; try contradiction; intuition discriminate. Qed.
Lemma C143_instructions_refuted_pf : forall v fs prog words on files css n, understood (options CheckInstructions) words on files -> files <> [] ->
  Forall2 (source_cards (e_fuel v) fs) files css -> (In (lit "count") on -> exists c, In c (concat css) /\ instr_card c) ->
  count_of (fun c => ~ starred c /\ exists m, instr_is c m /\ ~ In m INSTRUCTIONS) (concat css) n ->
  exists ls, command v fs CheckInstructions prog words = (ls ++ [OutL (error_count n)], Exit 0, fs).
Proof.
  intros v fs prog words on files css n U NE F C CN.
  destruct (C142_starts_pf v fs CheckInstructions prog words on files U (files_no_misuse fs CheckInstructions on files ltac:(cbn; auto) NE)) as (ls & st & fs' & E & R).
  inversion R as [verbose o ls0 r st0 V1 V2 V3 V4 V5 V6 V7 EC EA| | | | | | | | | |]; subst.
  destruct (ci_ok (e_pct v) (e_fuel v) fs' verbose o files css NE F) as (n' & l & CN' & X); [intros O; apply C, V3, O|].
  assert (n' = n) by (eapply count_unique; eassumption). subst n'. exists l. rewrite E. rewrite X in EC.
  assert (r = Ok tt) by congruence. subst r. inversion EA; subst. congruence.
Qed.
(*@ Example C143_instructions_refuted_ex : let v := mkenv (fun _ _ => []) (fun _ _ _ => []) (fun s => s) (fun s => s) (fun _ => []) 3 (fun _ => [OutL (lit "help")]) in
  let fs := fun f => if eqb f (lit "f") then Some (lit "                   FOO" ++ [10] ++ lit "                   BAR") else None in
  fst (command v fs CheckInstructions (lit "x.py") [lit "f"]) =
    ([OutL (lit "*** ERROR: Invalid instruction ""FOO"":"); OutL (lit "File f, line 1:                    FOO");
      OutL (lit "*** ERROR: Invalid instruction ""BAR"":"); OutL (lit "File f, line 2:                    BAR");
      OutL (error_count 2)], Exit 0).
Proof. vm_compute. reflexivity. Qed. @*)
Lemma on_unique on l b b' : turned_on on l b -> turned_on on l b' -> b = b'.
Proof. unfold turned_on. intros [A B] [C D]. destruct b, b'; try reflexivity; [symmetry|]; auto. Qed.
Lemma C143_symbols_refuted_pf : forall v fs prog words on verbose files css, understood (options CheckSymbols) words on files -> files <> [] ->
  turned_on on "verbose" verbose -> Forall2 (source_cards (e_fuel v) fs) files css -> plain_names files ->
  exists mss tables rest, command v fs CheckSymbols prog words = (tables ++ rest, Exit 0, fs) /\
    tables_said (e_upper v) (e_rep v) (e_card_rep v) (e_fuel v) fs verbose true files mss tables.
Proof.
  intros v fs prog words on verbose files css U NE V F PN.
  destruct (C142_starts_pf v fs CheckSymbols prog words on files U (files_no_misuse fs CheckSymbols on files ltac:(cbn; auto) NE)) as (ls & st & fs' & E & R).
  inversion R as [|verbose' complex ls0 r st0 V1 V2 EC EA| | | | | | | | |]; subst. rewrite <- (on_unique _ _ _ _ V V1) in EC.
  destruct (C140_check_pf (e_extract v) (e_upper v) (e_rep v) (e_card_rep v) (e_fuel v) fs' verbose complex files css NE F PN) as (tb & mss & a & b & p & q & X & T & _).
  exists mss, tb. eexists. split; [|exact T]. rewrite E. rewrite X in EC.
  assert (r = Ok tt) by congruence. subst r. inversion EA; subst. apply (f_equal fst) in EC. cbn [fst] in EC. subst ls. reflexivity.
Qed.
(*@ Example C143_symbols_refuted_ex : let v := mkenv (fun _ _ => []) (fun _ _ _ => []) (fun s => s) (fun s => s) (fun _ => []) 3 (fun _ => [OutL (lit "help")]) in
  let fs := fun f => if eqb f (lit "f") then Some (lit "        A          ASSIGN       1" ++ [10] ++ lit "        A,B,C,D    DEC          1") else None in
  fst (command v fs CheckSymbols (lit "x.py") [lit "-c"; lit "f"]) =
    ([ErrL (lit "*** ERROR: Symbol A,B,C,D is illegal, too many commas!");
      ErrL (lit "Current definition: {'file': f, 'line': 2, 'lognum': None, 'tagtype':  , 'card': }");
      ErrL (lit "f: 1 errors encountered building symbol table.");
      ErrL (lit "ERROR: symbol ""A"" has a complex assignment, but no simple assignment!"); ErrL []; ErrL (lit "Undefined symbols:");
      ErrL (lit "  A - No matches!"); ErrL (lit "1 errors checking symbol table.")], Exit 0).
Proof. vm_compute. reflexivity. Qed. @*)
Lemma C143_listing_partial_pf : forall v fs prog words on verbose files ls fs', understood (options Listing) words on files -> turned_on on "verbose" verbose ->
  (command v fs Listing prog words = (ls, Exit 0, fs') -> listings (e_fuel v) verbose fs files ls fs') /\
  (command v fs Listing prog words = (ls, Exit 1, fs') ->
    exists pre f post l1 log m, files = pre ++ f :: post /\ listings (e_fuel v) verbose fs pre l1 fs' /\ stops_at fs' f log m /\
      ls = l1 ++ (if verbose then log else []) ++ [ErrL m]).
Proof.
  intros v fs prog words on verbose files ls fs' U V.
  destruct files as [|f0 files0] eqn:EF.
  { rewrite (C142_refused_pf v fs Listing prog words (lit "usage: %prog filename")); [split; congruence|]. right. exists on, []. split; [exact U|].
    constructor. cbn. auto 6. }
  rewrite <- EF in *. assert (NE : files <> []) by (rewrite EF; discriminate).
  destruct (C142_starts_pf v fs Listing prog words on files U (files_no_misuse fs Listing on files ltac:(cbn; auto 6) NE)) as (ls1 & st & fs1 & E & R).
  inversion R as [| | | | |verbose' ls0 r st0 fs0 V1 EC EA| | | | |]; subst ls0 st0 fs0. rewrite <- (on_unique _ _ _ _ V V1) in EC. rewrite E.
  split; intros H; assert (ls1 = ls) by congruence; assert (fs1 = fs') by congruence; subst ls1 fs1.
  - assert (st = Exit 0) by congruence. subst st. inversion EA as [[]| |]; subst r. exact (proj2 (C139_transcript_pf _ _ _ _ _ _ EC)).
  - assert (st = Exit 1) by congruence. subst st. inversion EA; subst r. destruct (C139_missing_pf _ _ _ _ _ _ EC) as [[X _]|X]; [contradiction|exact X].
Qed.
(*@ Example C143_listing_partial_ex : let v := mkenv (fun _ _ => []) (fun _ _ _ => []) (fun s => s) (fun s => s) (fun _ => []) 3 (fun _ => [OutL (lit "help")]) in
  let fs := fun f => if eqb f (lit "a.arg") then Some (lit "R 1") else None in
  fst (command v fs Listing (lit "x.py") [lit "-v"; lit "a.arg"; lit "b.arg"]) =
    ([OutL (lit "Reading a.arg..."); OutL (lit "Wrote listing file to a.lst"); ErrL (lit "ERROR: File ""b.arg"" does not exist!")], Exit 1) /\
  fst (command v fs Listing (lit "x.py") [lit "a.arg"]) = ([], Exit 0) /\
  snd (command v fs Listing (lit "x.py") [lit "a.arg"; lit "b.arg"]) (lit "a.lst") <> None.
Proof. vm_compute. split; [reflexivity|]. split; [reflexivity|discriminate]. Qed. @*)
