From Coq Require Import ZArith List Bool Lia Permutation.
From Verif Require Import Py LPy MCards LCards LDeck MSymbols MInstructions MTools STools LGen LTools MDiag MVerbose SVerbose MOptions SOptions.
#[local] Arguments Z.add : simpl never.
#[local] Arguments Z.sub : simpl never.
#[local] Arguments Z.mul : simpl never.

(** *** words *)
Lemma word_cases (w : str) : plain_word w \/ w = [45; 45] \/ (exists t, t <> [] /\ w = 45 :: 45 :: t) \/ (exists c cs, c <> 45 /\ w = 45 :: c :: cs).
Proof.
  destruct w as [|a w]; [left; right; discriminate|]. destruct (Z.eq_dec a 45) as [->|N]; [|left; right; intros r E; congruence].
  destruct w as [|b w]; [left; left; reflexivity|]. destruct (Z.eq_dec b 45) as [->|N]; [|right; right; right; eauto].
  destruct w as [|d w]; [right; left; reflexivity|]. right. right. left. exists (d :: w). split; [discriminate|reflexivity].
Qed.
Lemma has_char_In c s : has_char c s = true <-> In c s.
Proof.
  unfold has_char. rewrite existsb_exists. split; [intros (x & I & E); apply Z.eqb_eq in E; subst; exact I|intros I; exists c; split; [exact I|apply Z.eqb_refl]].
Qed.
Section Parser.
Variable opts : list flag.
Hypothesis P : proper_flags opts.
Lemma find_letter c : match find (fun f => f_short f =? c) (HELP :: opts) with
  | Some f => letter_of opts c (f_long f) /\ forall l, letter_of opts c l -> l = f_long f
  | None => forall l, ~ letter_of opts c l
  end.
Proof.
  destruct (find (fun f => f_short f =? c) (HELP :: opts)) as [f|] eqn:E.
  - apply find_some in E. destruct E as [I E]. apply Z.eqb_eq in E. split; [exists f; auto|].
    intros l (g & Ig & Sg & <-). f_equal.
    assert (X : forall fs f g, NoDup (map f_short fs) -> In f fs -> In g fs -> f_short f = f_short g -> f = g).
    { clear. induction fs as [|x fs IH]; intros f g N If Ig E; [destruct If|]. inversion N; subst.
      destruct If as [->|If], Ig as [->|Ig]; [reflexivity| | |exact (IH f g H2 If Ig E)].
      - exfalso. apply H1. rewrite E. apply in_map. exact Ig.
      - exfalso. apply H1. rewrite <- E. apply in_map. exact If. }
    apply (X (HELP :: opts)); [exact (proj1 P)|assumption|assumption|congruence].
  - intros l (f & I & S & _). pose proof (find_none _ _ E f I) as N. cbn beta in N. apply Z.eqb_neq in N. contradiction.
Qed.
Lemma short_ok cs : forall on, match short_opts opts cs on with
  | Started on' => exists ls, Forall2 (letter_of opts) cs ls /\ ~ In (lit "help") ls /\ on' = on ++ ls
  | Help => exists pre c more ls, cs = pre ++ c :: more /\ Forall2 (letter_of opts) pre ls /\ letter_of opts c (lit "help")
  | Usage => exists pre c more ls, cs = pre ++ c :: more /\ Forall2 (letter_of opts) pre ls /\ ~ In (lit "help") ls /\ forall l, ~ letter_of opts c l
  end.
Proof.
  induction cs as [|c cs IH]; intros on; cbn [short_opts].
  - exists []. rewrite app_nil_r. auto.
  - pose proof (find_letter c) as F. destruct (find (fun f => f_short f =? c) (HELP :: opts)) as [f|].
    + destruct F as [F _]. destruct (eqb (f_long f) (lit "help")) eqn:EH.
      * apply eqb_ok in EH. rewrite EH in F. exists [], c, cs, []. auto.
      * assert (NH : f_long f <> lit "help") by (intros X; rewrite X, eqb_refl in EH; discriminate).
        specialize (IH (on ++ [f_long f])). destruct (short_opts opts cs (on ++ [f_long f])) as [| |on'].
        -- destruct IH as (pre & c' & more & ls & -> & F2 & N & U). exists (c :: pre), c', more, (f_long f :: ls).
           split; [reflexivity|]. split; [constructor; assumption|]. split; [|exact U]. intros [X|X]; [contradiction|exact (N X)].
        -- destruct IH as (pre & c' & more & ls & -> & F2 & U). exists (c :: pre), c', more, (f_long f :: ls).
           split; [reflexivity|]. split; [constructor; assumption|exact U].
        -- destruct IH as (ls & F2 & N & ->). exists (f_long f :: ls). split; [constructor; assumption|].
           split; [intros [X|X]; [contradiction|exact (N X)]|]. rewrite <- app_assoc. reflexivity.
    + exists [], c, cs, []. auto.
Qed.
Lemma declared_In l : declared opts l <-> In l (map f_long (HELP :: opts)).
Proof.
  rewrite in_map_iff. unfold declared. split; intros (f & A & B); exists f; auto.
Qed.
Lemma match_ok t : match match_long opts t with
  | Some l => names opts t l
  | None => forall l, ~ names opts t l
  end.
Proof.
  unfold match_long. set (words := map f_long (HELP :: opts)). assert (D : forall l, declared opts l <-> In l words) by exact declared_In.
  destruct (inb t words) eqn:I.
  - apply inb_In in I. apply nm_exact. apply D. exact I.
  - assert (NI : ~ In t words) by (intros X; apply inb_In in X; congruence).
    assert (F : forall l, In l (filter (fun w => startswith w t) words) <-> In l words /\ exists r, l = t ++ r).
    { intros l. rewrite filter_In, startswith_app. reflexivity. }
    assert (ND : NoDup (filter (fun w => startswith w t) words)) by (apply NoDup_filter; exact (proj2 P)).
    destruct (filter (fun w => startswith w t) words) as [|w [|w' r]].
    + intros l N. inversion N; subst; [apply NI, D; assumption|]. apply (proj2 (F l)). split; [apply D|]; assumption.
    + destruct (proj1 (F w) (or_introl eq_refl)) as [Iw Pw]. apply nm_abbrev.
      * rewrite D. exact NI.
      * apply D. exact Iw.
      * exact Pw.
      * intros l' Dl Pl. assert (X := proj2 (F l') (conj (proj1 (D l') Dl) Pl)). destruct X as [X|[]]. auto.
    + intros l N. inversion N as [|? ? N1 N2 N3 N4]; subst; [apply NI, D; assumption|].
      destruct (proj1 (F w) (or_introl eq_refl)) as [Iw Pw]. destruct (proj1 (F w') (or_intror (or_introl eq_refl))) as [Iw' Pw'].
      apply D in Iw, Iw'. rewrite (N4 w Iw Pw) in ND. rewrite (N4 w' Iw' Pw') in ND. inversion ND; subst. apply H1. left. reflexivity.
Qed.
Lemma names_fun t l l' : names opts t l -> names opts t l' -> l = l'.
Proof.
  intros A B. inversion A as [? D1|? ? N1 D1 P1 U1]; subst; inversion B as [? D2|? ? N2 D2 P2 U2]; subst; try reflexivity; try contradiction.
  symmetry. apply U1; assumption.
Qed.
Lemma letters_fun cs : forall ls ls', Forall2 (letter_of opts) cs ls -> Forall2 (letter_of opts) cs ls' -> ls = ls'.
Proof.
  induction cs as [|c cs IH]; intros ls ls' A B; inversion A as [|? l ? ls1 L1 A1]; inversion B as [|? l' ? ls2 L2 B1]; subst; [reflexivity|].
  f_equal; [|exact (IH _ _ A1 B1)]. pose proof (find_letter c) as F. destruct (find (fun f => f_short f =? c) (HELP :: opts)) as [f|].
  - destruct F as [_ F]. rewrite (F l L1), (F l' L2). reflexivity.
  - exfalso. exact (F l L1).
Qed.
Lemma letters_split pre c more ls : Forall2 (letter_of opts) (pre ++ c :: more) ls ->
  exists l1 l l2, ls = l1 ++ l :: l2 /\ Forall2 (letter_of opts) pre l1 /\ letter_of opts c l.
Proof.
  intros F. apply Forall2_app_inv_l in F. destruct F as (l1 & l2 & F1 & F2 & ->). inversion F2; subst. eauto 8.
Qed.
Lemma letter_fun c l l' : letter_of opts c l -> letter_of opts c l' -> l = l'.
Proof.
  intros A B. pose proof (find_letter c) as F. destruct (find (fun f => f_short f =? c) (HELP :: opts)) as [f|].
  - destruct F as [_ F]. rewrite (F l A), (F l' B). reflexivity.
  - exfalso. exact (F l A).
Qed.
Lemma prefix_compare {A} (a : list A) : forall x b c y d, a ++ x :: b = c ++ y :: d ->
  (a = c /\ x = y) \/ (exists m, a = c ++ y :: m) \/ (exists m, c = a ++ x :: m).
Proof.
  induction a as [|p a IH]; intros x b c y d E; destruct c as [|q c]; cbn [app] in E.
  - injection E as -> _. auto.
  - injection E as -> E. right. right. exists c. reflexivity.
  - injection E as -> E. right. left. exists a. reflexivity.
  - injection E as -> E. destruct (IH _ _ _ _ _ E) as [[-> ->]|[(m & ->)|(m & ->)]]; [auto|right; left; exists m; reflexivity|right; right; exists m; reflexivity].
Qed.
(** one option word *)
Inductive verdict : str -> launch (list str) -> Prop :=
| vd_started w ls : option_word opts w ls -> ~ In (lit "help") ls -> verdict w (Started ls)
| vd_help_letter c cs ls more : hd 0 (cs ++ [c]) <> 45 -> Forall2 (letter_of opts) cs ls -> letter_of opts c (lit "help") ->
    verdict (45 :: cs ++ c :: more) Help
| vd_help_name t : t <> [] -> ~ In 61 t -> names opts t (lit "help") -> verdict (45 :: 45 :: t) Help
| vd_usage w : ~ plain_word w -> w <> [45; 45] -> (forall ls, ~ option_word opts w ls) ->
    (forall c cs ls more, hd 0 (cs ++ [c]) <> 45 -> Forall2 (letter_of opts) cs ls -> letter_of opts c (lit "help") -> w <> 45 :: cs ++ c :: more) ->
    (forall t, names opts t (lit "help") -> ~ In 61 t -> w <> 45 :: 45 :: t) -> verdict w Usage.
Lemma short_verdict c cs on : c <> 45 -> match short_opts opts (c :: cs) on with
  | Started on' => exists ls, on' = on ++ ls /\ verdict (45 :: c :: cs) (Started ls)
  | Help => verdict (45 :: c :: cs) Help
  | Usage => verdict (45 :: c :: cs) Usage
  end.
Proof.
  intros N. pose proof (short_ok (c :: cs) on) as S. destruct (short_opts opts (c :: cs) on) as [| |on'].
  - destruct S as (pre & c' & more & ls & E & F & NH & U). constructor.
    + intros [X|X]; [discriminate|exact (X _ eq_refl)].
    + congruence.
    + intros ls' O. inversion O as [? ? ? _ F'|]; [|congruence]. subst. rewrite E in F'. apply letters_split in F'.
      destruct F' as (l1 & l & l2 & _ & _ & L). exact (U _ L).
    + intros d ds ls' more' _ F' L X. injection X as X. rewrite E in X. apply prefix_compare in X.
      destruct X as [[_ ->]|[(m & ->)|(m & ->)]].
      * exact (U _ L).
      * apply letters_split in F. destruct F as (l1 & l & l2 & -> & _ & L'). apply NH. rewrite (letter_fun _ _ _ L L'). apply in_elt.
      * apply letters_split in F'. destruct F' as (l1 & l & l2 & _ & _ & L'). exact (U _ L').
    + intros t _ _ X. congruence.
  - destruct S as (pre & c' & more & ls & E & F & L). rewrite E. eapply vd_help_letter; [|exact F|exact L].
    destruct pre as [|p pre]; cbn [app hd] in *; injection E as <- _; exact N.
  - destruct S as (ls & F & NH & ->). exists ls. split; [reflexivity|]. constructor; [constructor; assumption|exact NH].
Qed.
Lemma long_verdict t on : t <> [] -> match long_opt opts t on with
  | Started on' => exists ls, on' = on ++ ls /\ verdict (45 :: 45 :: t) (Started ls)
  | Help => verdict (45 :: 45 :: t) Help
  | Usage => verdict (45 :: 45 :: t) Usage
  end.
Proof.
  intros N. unfold long_opt.
  assert (U : (forall l, In 61 t \/ ~ names opts t l) -> verdict (45 :: 45 :: t) Usage).
  { intros X. constructor.
    - intros [Y|Y]; [discriminate|exact (Y _ eq_refl)].
    - congruence.
    - intros ls O. inversion O as [|? l _ NI NM]; subst; [congruence|]. destruct (X l); contradiction.
    - intros d ds ls' more' H _ _ Y. injection Y as Y. destruct ds as [|e ds]; cbn [app hd] in *; injection Y as <- _; congruence.
    - intros t' NM NI Y. injection Y as <-. destruct (X (lit "help")); contradiction. }
  destruct (has_char 61 t) eqn:HC.
  { apply U. intros l. left. apply has_char_In. exact HC. }
  assert (NI : ~ In 61 t) by (intros X; apply has_char_In in X; congruence).
  pose proof (match_ok t) as M. destruct (match_long opts t) as [l|].
  - destruct (eqb l (lit "help")) eqn:EH.
    + apply eqb_ok in EH. subst l. constructor; assumption.
    + exists [l]. split; [reflexivity|]. constructor; [constructor; assumption|]. intros [X|[]]. rewrite X, eqb_refl in EH. discriminate.
  - apply U. intros l. right. apply M.
Qed.
Lemma verdict_fun w r r' : verdict w r -> verdict w r' -> r = r'.
Proof.
  assert (SH : forall w ls r, option_word opts w ls -> ~ In (lit "help") ls -> verdict w r -> r = Started ls).
  { clear w r r'. intros w ls r O NH V. inversion V as [? ls' O' NH'|c cs l2 more H F L|t NT NI NM|? _ _ U _ _]; subst.
    - f_equal. inversion O; subst; inversion O'; subst; try congruence; try (eapply letters_fun; eassumption).
      f_equal. eapply names_fun; eassumption.
    - exfalso. inversion O as [c1 cs1 ls1 N1 F1|t1 l1 NT NI NM]; subst.
      + replace (c1 :: cs1) with (cs ++ c :: more) in F1 by congruence. apply letters_split in F1.
        destruct F1 as (la & l & lb & -> & _ & L'). apply NH. rewrite (letter_fun _ _ _ L L'). apply in_elt.
      + destruct cs as [|x cs]; cbn [app hd] in *; congruence.
    - exfalso. inversion O as [c1 cs1 ls1 N1 F1|t1 l1 NT1 NI1 NM1]; subst; [congruence|].
      apply NH. left. eapply names_fun; eassumption.
    - exfalso. exact (U ls O). }
  intros A B. inversion A as [? ls O NH|c cs ls more H F L|t NT NI NM|? U1 U2 U3 U4 U5]; subst.
  - symmetry. eapply SH; eassumption.
  - inversion B as [? ls' O NH|? ? ? ? ? ? ? E|? ? ? ? E|? _ _ _ U _]; subst; try reflexivity.
    + exact (SH _ _ _ O NH A).
    + exfalso. exact (U c cs ls more H F L eq_refl).
  - inversion B as [? ls' O NH|? ? ? ? ? ? ? E|? ? ? ? E|? _ _ _ _ U]; subst; try reflexivity.
    + exact (SH _ _ _ O NH A).
    + exfalso. exact (U t NM NI eq_refl).
  - inversion B as [? ls' O NH|c cs ls more H F L E|t NT NI NM E|]; subst; try reflexivity.
    + exfalso. exact (U3 _ O).
    + exfalso. exact (U4 c cs ls more H F L eq_refl).
    + exfalso. exact (U5 t NM NI eq_refl).
Qed.
Lemma parse_plain w r on args : plain_word w -> parse_words opts (w :: r) on args = parse_words opts r on (args ++ [w]).
Proof.
  intros [-> | N]; [reflexivity|]. destruct w as [|a w]; [reflexivity|]. assert (a <> 45) by (intros ->; exact (N w eq_refl)).
  cbn [parse_words]. assert (E1 : @eqb str _ (a :: w) (lit "--") = false).
  { destruct (@eqb str _ (a :: w) (lit "--")) eqn:E; [|reflexivity]. apply eqb_ok in E. injection E as ->. contradiction. }
  rewrite E1. assert (E2 : forall p, startswith (a :: w) (45 :: p) = false).
  { intros p. cbn [startswith]. apply Z.eqb_neq in H. rewrite H. reflexivity. }
  change (lit "--") with [45; 45]. change (lit "-") with [45]. rewrite !E2. reflexivity.
Qed.
Lemma parse_option w r on args : ~ plain_word w -> w <> [45; 45] -> exists v, verdict w v /\
  parse_words opts (w :: r) on args = match v with Started ls => parse_words opts r (on ++ ls) args | Usage => Usage | Help => Help end.
Proof.
  intros NP NE. destruct (word_cases w) as [X|[X|[(t & NT & ->)|(c & cs & NC & ->)]]]; [contradiction|contradiction| |].
  - pose proof (long_verdict t on NT) as V. destruct t as [|x t]; [contradiction|].
    cbn [parse_words]. change (@eqb str _ (45 :: 45 :: x :: t) (lit "--")) with false. change (startswith (45 :: 45 :: x :: t) (lit "--")) with true.
    cbn [skipn]. cbv iota. destruct (long_opt opts (x :: t) on) as [| |on']; [exists Usage; auto|exists Help; auto|].
    destruct V as (ls & -> & V). exists (Started ls). auto.
  - pose proof (short_verdict c cs on NC) as V. cbn [parse_words].
    assert (E1 : @eqb str _ (45 :: c :: cs) (lit "--") = false).
    { destruct (@eqb str _ (45 :: c :: cs) (lit "--")) eqn:E; [|reflexivity]. apply eqb_ok in E. injection E as ->. contradiction. }
    assert (E2 : startswith (45 :: c :: cs) (lit "--") = false).
    { change (lit "--") with [45; 45]. cbn [startswith]. apply Z.eqb_neq in NC. rewrite NC. reflexivity. }
    assert (E3 : startswith (45 :: c :: cs) (lit "-") && (1 <? zlen (45 :: c :: cs)) = true).
    { change (lit "-") with [45]. cbn [startswith]. rewrite !zlen_cons. pose proof (zlen_nonneg cs).
      destruct (Z.ltb_spec 1 (1 + (1 + zlen cs))); [destruct cs; reflexivity|lia]. }
    rewrite E1, E2, E3. cbn [skipn]. destruct (short_opts opts (c :: cs) on) as [| |on']; [exists Usage; auto|exists Help; auto|].
    destruct V as (ls & -> & V). exists (Started ls). auto.
Qed.
Lemma option_not_plain w ls : option_word opts w ls -> ~ plain_word w /\ w <> [45; 45].
Proof.
  intros O. inversion O; subst; (split; [intros [X|X]; [congruence|exact (X _ eq_refl)]|congruence]).
Qed.
Lemma parse_understood words on1 args1 : understood opts words on1 args1 ->
  forall on args, parse_words opts words on args = Started (on ++ on1, args ++ args1).
Proof.
  induction 1 as [|r|w r o a PW U IH|w ls r o a OW NH U IH]; intros on args.
  - cbn [parse_words]. rewrite !app_nil_r. reflexivity.
  - cbn [parse_words]. change (@eqb str _ [45; 45] (lit "--")) with true. cbv iota. rewrite app_nil_r. reflexivity.
  - rewrite (parse_plain w r on args PW), IH, <- app_assoc. reflexivity.
  - destruct (option_not_plain w ls OW) as [N1 N2]. destruct (parse_option w r on args N1 N2) as (v & V & ->).
    rewrite (verdict_fun _ _ _ V (vd_started w ls OW NH)), IH, <- app_assoc. reflexivity.
Qed.
Lemma parse_help words : asks_help opts words -> forall on args, parse_words opts words on args = Help.
Proof.
  assert (G : forall w r on args, verdict w Help -> ~ plain_word w -> w <> [45; 45] -> parse_words opts (w :: r) on args = Help).
  { intros w r on args V N1 N2. destruct (parse_option w r on args N1 N2) as (v & V' & ->). rewrite (verdict_fun _ _ _ V' V). reflexivity. }
  induction 1 as [c cs ls more r HD F L|t r NT NI NM|w r PW H IH|w ls r OW NH H IH]; intros on args.
  - assert (V : verdict (45 :: cs ++ c :: more) Help) by (eapply vd_help_letter; eassumption).
    apply G; [exact V| |]; destruct cs as [|x cs]; cbn [app hd] in *; try (intros [X|X]; [discriminate|exact (X _ eq_refl)]); congruence.
  - apply G; [constructor; assumption| |congruence]. intros [X|X]; [discriminate|exact (X _ eq_refl)].
  - rewrite (parse_plain w r on args PW). apply IH.
  - destruct (option_not_plain w ls OW) as [N1 N2]. destruct (parse_option w r on args N1 N2) as (v & V & ->).
    rewrite (verdict_fun _ _ _ V (vd_started w ls OW NH)). apply IH.
Qed.
Lemma parse_inv words : forall on args, match parse_words opts words on args with
  | Started (on', args') => exists o a, understood opts words o a /\ on' = on ++ o /\ args' = args ++ a
  | Help => asks_help opts words
  | Usage => True
  end.
Proof.
  induction words as [|w r IH]; intros on args.
  - exists [], []. rewrite !app_nil_r. split; [constructor|auto].
  - destruct (word_cases w) as [PW|[->|D]].
    + rewrite (parse_plain w r on args PW). specialize (IH on (args ++ [w])).
      destruct (parse_words opts r on (args ++ [w])) as [| |[on' args']]; [exact I|apply ah_arg; assumption|].
      destruct IH as (o & a & U & -> & ->). exists o, (w :: a). split; [constructor; assumption|]. rewrite <- app_assoc. auto.
    + exists [], r. split; [constructor|]. rewrite app_nil_r. auto.
    + assert (N : ~ plain_word w /\ w <> [45; 45]).
      { destruct D as [(t & NT & ->)|(c & cs & NC & ->)]; (split; [intros [X|X]; [congruence|exact (X _ eq_refl)]|congruence]). }
      destruct (parse_option w r on args (proj1 N) (proj2 N)) as (v & V & ->). destruct v as [| |ls]; [exact I| |].
      * inversion V; subst; [eapply ah_letter; eassumption|constructor; assumption].
      * inversion V as [? ? O NH| | |]; subst. specialize (IH (on ++ ls) args).
        destruct (parse_words opts r (on ++ ls) args) as [| |[on' args']]; [exact I|eapply ah_opt; eassumption|].
        destruct IH as (o & a & U & -> & ->). exists (ls ++ o), a. split; [constructor; assumption|]. rewrite <- app_assoc. auto.
Qed.
End Parser.

Lemma C123_understood_pf : forall opts words on args, proper_flags opts ->
  (parse_words opts words [] [] = Started (on, args) <-> understood opts words on args).
Proof.
  intros opts words on args P. split.
  - intros E. pose proof (parse_inv opts P words [] []) as I. rewrite E in I. destruct I as (o & a & U & -> & ->). exact U.
  - intros U. rewrite (parse_understood opts P words on args U). reflexivity.
Qed.
(*@ Example C123_understood_ex :
  parse_words CHECK_INSTRUCTIONS_OPTS [lit "a"; lit "-cs"; lit "b"; lit "--verb"; lit "-"; lit "--"; lit "-u"] [] [] =
    Started ([lit "count"; lit "sort"; lit "verbose"], [lit "a"; lit "b"; lit "-"; lit "-u"]) /\
  parse_words CHECK_INSTRUCTIONS_OPTS [lit "--no"] [] [] = Usage /\ parse_words CHECK_INSTRUCTIONS_OPTS [lit "--count=1"] [] [] = Usage.
Proof. vm_compute. auto. Qed. @*)
Lemma C123_help_pf : forall opts words, proper_flags opts -> (parse_words opts words [] [] = Help <-> asks_help opts words).
Proof.
  intros opts words P. split.
  - intros E. pose proof (parse_inv opts P words [] []) as I. rewrite E in I. exact I.
  - intros H. exact (parse_help opts P words H [] []).
Qed.
(*@ Example C123_help_ex :
  parse_words PARSE_OPTS [lit "-vh"; lit "--zzz"] [] [] = Help /\ parse_words PARSE_OPTS [lit "--zzz"; lit "-h"] [] [] = Usage /\
  parse_words PARSE_OPTS [lit "--he"] [] [] = Help.
Proof. vm_compute. auto. Qed. @*)
Lemma C123_usage_pf : forall opts words, proper_flags opts ->
  (parse_words opts words [] [] = Usage <-> (forall on args, ~ understood opts words on args) /\ ~ asks_help opts words).
Proof.
  intros opts words P. split.
  - intros E. split.
    + intros on args U. apply (C123_understood_pf opts words on args P) in U. congruence.
    + intros H. apply (C123_help_pf opts words P) in H. congruence.
  - intros [NU NH]. pose proof (parse_inv opts P words [] []) as I. destruct (parse_words opts words [] []) as [| |[on args]]; [reflexivity|contradiction|].
    destruct I as (o & a & U & _). exfalso. exact (NU _ _ U).
Qed.
(*@ Example C123_usage_ex : parse_words FIND_SYMBOLS_OPTS [lit "X"; lit "--e"] [] [] = Usage /\
  parse_words FIND_SYMBOLS_OPTS [lit "X"; lit "--en"] [] [] = Started ([lit "end"], [lit "X"]).
Proof. vm_compute. auto. Qed. @*)

(** *** an option word can stand anywhere before -- *)
Lemma option_fun opts w ls ls' : proper_flags opts -> option_word opts w ls -> ~ In (lit "help") ls ->
  option_word opts w ls' -> ~ In (lit "help") ls' -> ls = ls'.
Proof.
  intros P O N O' N'. pose proof (verdict_fun opts P w _ _ (vd_started opts w ls O N) (vd_started opts w ls' O' N')) as E. congruence.
Qed.
Lemma C124_position_pf : forall opts a w ls b, proper_flags opts -> option_word opts w ls -> ~ In (lit "help") ls -> ~ In (lit "--") a ->
  (forall on args, understood opts (a ++ b) on args ->
     exists on', understood opts (a ++ w :: b) on' args /\ Permutation on' (ls ++ on)) /\
  (forall on' args, understood opts (a ++ w :: b) on' args ->
     exists on, understood opts (a ++ b) on args /\ Permutation on' (ls ++ on)).
Proof.
  intros opts a w ls b P O NH. destruct (option_not_plain opts w ls O) as [NP NE].
  induction a as [|x a IH]; intros NI.
  - cbn [app]. split; intros on args U.
    + exists (ls ++ on). split; [constructor; assumption|apply Permutation_refl].
    + inversion U as [|r|w' r o a' PW U'|w' ls' r o a' OW NH' U']; subst; [contradiction|contradiction|].
      exists o. split; [exact U'|]. rewrite (option_fun opts w ls ls' P O NH OW NH'). apply Permutation_refl.
  - assert (NIa : ~ In (lit "--") a) by (intros X; apply NI; right; exact X). destruct (IH NIa) as [I1 I2]. cbn [app].
    split; intros on args U; inversion U as [|r E|w' r o a' PW U'|w' ls' r o a' OW NH' U']; subst.
    + exfalso. apply NI. left. reflexivity.
    + destruct (I1 _ _ U') as (o' & U2 & PM). exists o'. split; [constructor; assumption|exact PM].
    + destruct (I1 _ _ U') as (o' & U2 & PM). exists (ls' ++ o'). split; [constructor; assumption|].
      rewrite PM, !app_assoc. apply Permutation_app_tail. apply Permutation_app_comm.
    + exfalso. apply NI. left. reflexivity.
    + destruct (I2 _ _ U') as (o' & U2 & PM). exists o'. split; [constructor; assumption|exact PM].
    + destruct (I2 _ _ U') as (o' & U2 & PM). exists (ls' ++ o'). split; [constructor; assumption|].
      rewrite PM, !app_assoc. apply Permutation_app_tail. apply Permutation_app_comm.
Qed.
(*@ Example C124_position_ex :
  parse_words PARSE_OPTS [lit "x"; lit "-v"; lit "y"; lit "-d"] [] [] = Started ([lit "verbose"; lit "debug"], [lit "x"; lit "y"]) /\
  parse_words PARSE_OPTS [lit "-d"; lit "x"; lit "y"; lit "-v"] [] [] = Started ([lit "debug"; lit "verbose"], [lit "x"; lit "y"]).
Proof. vm_compute. auto. Qed. @*)
Lemma C124_arguments_pf : forall opts words, Forall plain_word words ->
  forall rest, (~ In (lit "--") rest -> parse_words opts words [] [] = Started ([], words)) /\
    parse_words opts (words ++ lit "--" :: rest) [] [] = Started ([], words ++ rest).
Proof.
  intros opts words F rest.
  assert (G : forall args, parse_words opts words [] args = Started ([], args ++ words) /\
     parse_words opts (words ++ lit "--" :: rest) [] args = Started ([], args ++ words ++ rest)).
  { induction F as [|w words PW F IH]; intros args; [split; [cbn [parse_words]; rewrite app_nil_r; reflexivity|reflexivity]|].
    cbn [app]. rewrite !(parse_plain opts w _ [] args PW). destruct (IH (args ++ [w])) as [-> ->]. rewrite <- !app_assoc. auto. }
  destruct (G []) as [A B]. split; [intros _; exact A|exact B].
Qed.
(*@ Example C124_arguments_ex :
  parse_words [] [lit "1000"; lit "--"; lit "100"; lit "-50"] [] [] = Started ([], [lit "1000"; lit "100"; lit "-50"]) /\
  parse_words [] [lit "1000"; lit "100"; lit "-50"] [] [] = Usage.
Proof. vm_compute. auto. Qed. @*)

(** *** the tools *)
Lemma tables_proper : proper_flags CHECK_INSTRUCTIONS_OPTS /\ proper_flags CHECK_SYMBOLS_OPTS /\ proper_flags FIND_SYMBOLS_OPTS /\
  proper_flags LIST_INSTRUCTIONS_OPTS /\ proper_flags VERBOSE_OPTS /\ proper_flags PARSE_OPTS /\ proper_flags [].
Proof.
  assert (D : forall (A : Type) (E : EqB A) (l : list A), (fix nd (l : list A) := match l with [] => true | x :: r => negb (inb x r) && nd r end) l = true -> NoDup l).
  { intros A E l. induction l as [|x r IH]; intros H; [constructor|]. apply andb_prop in H. destruct H as [H1 H2]. constructor; [|exact (IH H2)].
    intros X. apply inb_In in X. rewrite X in H1. discriminate. }
  unfold proper_flags. repeat split; apply (D _ _); vm_compute; reflexivity.
Qed.
Lemma main_started {A} opts words on args (body : (string -> bool) -> list str -> A) : proper_flags opts -> understood opts words on args ->
  main_with opts words body = Started (body (fun s => inb (lit s) on) args).
Proof. intros P U. unfold main_with. rewrite (parse_understood opts P words on args U). reflexivity. Qed.
Lemma on_ok on l : turned_on on l (inb (lit l) on).
Proof. unfold turned_on. apply inb_In. Qed.
Lemma C125_check_instructions_pf : forall pct fuel fs words on args, understood CHECK_INSTRUCTIONS_OPTS words on args ->
  exists v o, check_instructions_main pct fuel fs words = Started (check_instructions_run pct fuel fs v o args) /\
    turned_on on "verbose" v /\ turned_on on "all" (o_all o) /\ turned_on on "count" (o_count o) /\ turned_on on "invalid" (o_invalid o) /\
    turned_on on "print-opcodes" (o_print o) /\ turned_on on "sort" (o_sort o) /\ turned_on on "unused" (o_unused o).
Proof.
  intros pct fuel fs words on args U. unfold check_instructions_main. rewrite (main_started _ _ _ _ _ (proj1 tables_proper) U).
  eexists. eexists. split; [reflexivity|]. cbn [o_all o_count o_invalid o_print o_sort o_unused]. repeat split; apply on_ok.
Qed.
(*@ Example C125_check_instructions_ex :
  check_instructions_main (fun _ _ => []) 2 (fun _ => Some (lit "                   FOO")) [lit "--print"; lit "f"] =
    Started ([OutL (lit "f 1                    FOO"); OutL (lit "*** ERROR: Invalid instruction ""FOO"":");
              OutL (lit "File f, line 1:                    FOO"); OutL (lit "1 error encountered.")], Ok tt).
Proof. vm_compute. reflexivity. Qed. @*)
Lemma C125_symbol_tools_pf : forall extract upper rep card_rep fuel fs words on args,
  (understood CHECK_SYMBOLS_OPTS words on args -> exists v c,
     check_symbols_main extract upper rep card_rep fuel fs words = Started (check_symbols_verbose extract upper rep card_rep fuel fs v c args) /\
     turned_on on "verbose" v /\ turned_on on "complex" c) /\
  (understood FIND_SYMBOLS_OPTS words on args -> exists v b e f x,
     find_symbols_main extract upper rep card_rep fuel fs words = Started (find_symbols_verbose extract upper rep card_rep fuel fs v b e f x args) /\
     turned_on on "verbose" v /\ turned_on on "begin" b /\ turned_on on "end" e /\ turned_on on "fuzzy" f /\ turned_on on "exact" x) /\
  (understood VERBOSE_OPTS words on args -> exists v,
     list_symbols_main upper rep card_rep fuel fs words = Started (list_symbols_run upper rep card_rep fuel fs v args) /\ turned_on on "verbose" v).
Proof.
  intros extract upper rep card_rep fuel fs words on args. destruct tables_proper as (_ & P1 & P2 & _ & P3 & _). split; [|split]; intros U.
  - unfold check_symbols_main. rewrite (main_started _ _ _ _ _ P1 U). eexists. eexists. split; [reflexivity|]. split; apply on_ok.
  - unfold find_symbols_main. rewrite (main_started _ _ _ _ _ P2 U). do 5 eexists. split; [reflexivity|]. repeat split; apply on_ok.
  - unfold list_symbols_main. rewrite (main_started _ _ _ _ _ P3 U). eexists. split; [reflexivity|]. apply on_ok.
Qed.
(*@ Example C125_symbol_tools_ex :
  find_symbols_main (fun _ _ _ => []) (fun s => s) quoted a_card 2 (fun _ => Some (lit "        ALPHA      DEC          1")) [lit "BETA"; lit "-x"; lit "f.a"] =
    Started ([ErrL (lit "f.a: 0 errors encountered building symbol table."); ErrL (lit "ERROR: Undefined symbol ""BETA""!")], Ok None) /\
  find_symbols_main (fun _ _ _ => []) (fun s => s) quoted a_card 2 (fun _ => None) [lit "-xf"; lit "BETA"; lit "f.a"] = Started ([], Err SystemExit).
Proof. vm_compute. auto. Qed. @*)
Lemma C125_other_tools_pf : forall upper rep card_rep fuel fs words on args,
  (understood LIST_INSTRUCTIONS_OPTS words on args -> exists v d,
     list_instructions_main fuel fs words = Started (list_instructions_run fuel fs v d args) /\
     turned_on on "verbose" v /\ turned_on on "details" d) /\
  (understood VERBOSE_OPTS words on args -> exists v,
     listing_main fuel fs words = Started (listing_run fuel fs v args) /\ turned_on on "verbose" v) /\
  (understood PARSE_OPTS words on args -> exists v d,
     parse_main upper rep card_rep fuel fs words = Started (parse_run upper rep card_rep fuel fs v d args) /\ turned_on on "verbose" v /\ turned_on on "debug" d) /\
  (understood [] words on args -> genlines_main words = Started (genlines args) /\ genpages_main fuel fs words = Started (genpages_run fuel fs args)).
Proof.
  intros upper rep card_rep fuel fs words on args. destruct tables_proper as (_ & _ & _ & P1 & P2 & P3 & P4). split; [|split; [|split]]; intros U.
  - unfold list_instructions_main. rewrite (main_started _ _ _ _ _ P1 U). eexists. eexists. split; [reflexivity|]. split; apply on_ok.
  - unfold listing_main. rewrite (main_started _ _ _ _ _ P2 U). eexists. split; [reflexivity|]. apply on_ok.
  - unfold parse_main. rewrite (main_started _ _ _ _ _ P3 U). eexists. eexists. split; [reflexivity|]. split; apply on_ok.
  - unfold genlines_main, genpages_main. rewrite !(main_started _ _ _ _ _ P4 U). auto.
Qed.
(*@ Example C125_other_tools_ex :
  parse_main (fun s => s) quoted a_card 2 (fun _ => Some (lit "R")) [lit "-v"; lit "f.a"] =
    Started ([OutL (lit "Reading f.a..."); ErrL (lit "f.a: 0 errors encountered building symbol table."); OutL (lit "Reading f.a...");
              OutL (10 :: lit "Source lines: 1"); OutL (lit "0 errors encountered.")], Ok tt).
Proof. vm_compute. reflexivity. Qed. @*)

(** *** genlines counting down *)
Lemma parse_minus words c cs rest : Forall plain_word words -> 48 <= c <= 57 ->
  parse_words [] (words ++ (45 :: c :: cs) :: rest) [] [] = Usage.
Proof.
  intros F C. cut (forall args, parse_words [] (words ++ (45 :: c :: cs) :: rest) [] args = Usage); [intros G; apply G|]. induction F as [|w words PW F IH]; intros args.
  - cbn [app]. assert (NC : c <> 45) by lia.
    destruct (parse_option [] (proj2 (proj2 (proj2 (proj2 (proj2 (proj2 tables_proper)))))) (45 :: c :: cs) rest [] args) as (v & V & EQ).
    + intros [X|X]; [discriminate|exact (X _ eq_refl)].
    + congruence.
    + etransitivity; [exact EQ|]. clear EQ. assert (NL : forall l, ~ letter_of [] c l).
      { intros l (f & [<-|[]] & E & _). cbn [HELP_FLAG f_short] in E. lia. }
      inversion V as [? ls O NH|c' ds ls more H F' L E|t NT NI NM E|]; subst; [| | |reflexivity].
      * inversion O as [? ? ? _ F'|]; [|congruence]. subst. inversion F'; subst. exfalso. eapply NL. eassumption.
      * exfalso. destruct ds as [|d ds]; cbn [app] in E; injection E as -> _.
        -- exact (NL _ L).
        -- inversion F'; subst. eapply NL. eassumption.
      * congruence.
  - cbn [app]. rewrite (parse_plain [] w _ [] args PW). apply IH.
Qed.
Lemma decimal_plain s n : decimal s n -> plain_word s.
Proof.
  intros (_ & F & _). right. intros r ->. inversion F; subst. lia.
Qed.
Lemma C126_countdown_refuted_pf : forall a b s start end_ step rest, decimal a start -> decimal b end_ -> decimal s step ->
  genlines_main (a :: b :: (45 :: s) :: rest) = Usage.
Proof.
  intros a b s start end_ step rest DA DB DS. unfold genlines_main, main_with.
  destruct s as [|c cs]; [destruct DS as (X & _); contradiction|]. assert (C : 48 <= c <= 57) by (destruct DS as (_ & F & _); inversion F; assumption).
  assert (E := parse_minus [a; b] c cs rest). cbn [app] in E. unfold str in *. rewrite E; [reflexivity| |exact C].
  constructor; [eapply decimal_plain; exact DA|]. constructor; [eapply decimal_plain; exact DB|constructor].
Qed.
(*@ Example C126_countdown_refuted_ex : genlines_main [lit "1000"; lit "100"; lit "-100"] = Usage.
Proof. vm_compute. reflexivity. Qed. @*)
Lemma py_int_minus s n : decimal s n -> py_int (45 :: s) = Ok (- n).
Proof.
  intros (NE & F & <-).
  assert (ST : strip (45 :: s) = 45 :: s).
  { apply (trimmed_unique (45 :: s)); [apply strip_trimmed|]. exists [], []. rewrite app_nil_r.
    split; [reflexivity|]. split; [constructor|]. split; [constructor|]. split.
    - intros c r E. injection E as <- _. apply not_white. reflexivity.
    - intros c r E. assert (I : In c (45 :: s)) by (rewrite E; apply in_or_app; right; left; reflexivity).
      destruct I as [<-|I]; [apply not_white; reflexivity|]. apply digit_not_space. rewrite Forall_forall in F. exact (F c I). }
  unfold py_int. rewrite ST. change (45 =? 43) with false. change (45 =? 45) with true. cbv iota.
  rewrite int_digits_ok; [reflexivity|exact F|left; exact NE].
Qed.
Lemma genlines_down a0 a1 s rest start end_ step sc ec :
  decimal a0 start -> decimal a1 end_ -> zlen a0 <= 6 -> zlen a1 <= 6 -> decimal s step -> 1 <= step ->
  opt_arg rest 0 2 sc -> opt_arg rest 1 7 ec ->
  genlines (a0 :: a1 :: (45 :: s) :: rest) =
  Ok (map (fun i => repeat_char (sc - 1) 32 ++ fmt_0w (Z.max 4 (zlen a1)) (start - Z.of_nat i * step) ++
                    repeat_char (ec + 2 - sc - Z.max 4 (zlen a1)) 32)
          (seq 0 (Z.to_nat ((start - end_ + step + step - 1) / step)))).
Proof.
  intros D0 D1 L0 L1 DS ST O2 O3. unfold genlines.
  destruct (Z.ltb_spec 6 (zlen a0)); [lia|]. destruct (Z.ltb_spec 6 (zlen a1)); [lia|].
  rewrite (py_int_decimal _ _ D0), (py_int_decimal _ _ D1). cbn [bind].
  assert (B := decimal_bound _ _ D1). assert (LL := decimal_len _ _ D1).
  assert (NL : 1 <= zlen (str_of_Z end_) <= zlen a1).
  { unfold str_of_Z. destruct (Z.ltb_spec end_ 0); [lia|].
    pose proof (numeral_length 10 end_ (zlen a1) ltac:(lia) B LL).
    pose proof (numeral_nonempty end_ ltac:(lia)) as NE. destruct (numeral 10 end_) as [|x l]; [contradiction|].
    rewrite zlen_cons in *. pose proof (zlen_nonneg l). lia. }
  destruct (Z.ltb_spec 6 (zlen (str_of_Z end_))); [lia|].
  assert (W : (if (if zlen (str_of_Z end_) <? 4 then 4 else zlen (str_of_Z end_)) <? zlen a1 then zlen a1
               else if zlen (str_of_Z end_) <? 4 then 4 else zlen (str_of_Z end_)) = Z.max 4 (zlen a1)).
  { destruct (Z.ltb_spec (zlen (str_of_Z end_)) 4); destruct (Z.ltb_spec 4 (zlen a1));
      try (destruct (Z.ltb_spec (zlen (str_of_Z end_)) (zlen a1))); lia. }
  cbv zeta. rewrite W. clear W.
  assert (N1 : nth_int (a0 :: a1 :: (45 :: s) :: rest) 2 1 = Ok (- step)) by (unfold nth_int; cbn [nth_error]; apply py_int_minus; exact DS).
  assert (NI : forall i d n, opt_arg rest i d n -> nth_int (a0 :: a1 :: (45 :: s) :: rest) (3 + i)%nat d = Ok n).
  { intros i d n. unfold opt_arg, nth_int. cbn [nth_error Nat.add]. destruct (nth_error rest i) as [t|].
    - apply py_int_decimal.
    - intros ->. reflexivity. }
  assert (N2 := NI _ _ _ O2). assert (N3 := NI _ _ _ O3). cbn [Nat.add] in N2, N3.
  rewrite N1, N2, N3. cbn [bind]. unfold py_range_step.
  destruct (Z.eqb_spec (- step) 0); [lia|]. destruct (Z.ltb_spec 0 (- step)); [lia|]. cbn [bind].
  rewrite map_map. f_equal. replace (start - (end_ + - step) - - step - 1) with (start - end_ + step + step - 1) by lia.
  rewrite Z.opp_involutive. apply map_ext. intros i. replace (start + Z.of_nat i * - step) with (start - Z.of_nat i * step) by lia. reflexivity.
Qed.
Lemma C126_countdown_partial_pf : forall a0 a1 s rest start end_ step sc ec,
  decimal a0 start -> decimal a1 end_ -> zlen a0 <= 6 -> zlen a1 <= 6 -> decimal s step -> 1 <= step ->
  opt_arg rest 0 2 sc -> opt_arg rest 1 7 ec ->
  exists out, genlines_main (lit "--" :: a0 :: a1 :: (45 :: s) :: rest) = Started (Ok out) /\
    forall k, let n := start - Z.of_nat k * step in
      match nth_error out k with
      | None => n <= end_ - step
      | Some line => end_ - step < n /\ (0 <= n -> exists t, shows_number line sc n t /\ (n < 10 ^ Z.max 4 (zlen a1) -> zlen t = Z.max 4 (zlen a1)))
      end.
Proof.
  intros a0 a1 s rest start end_ step sc ec D0 D1 L0 L1 DS ST O2 O3. eexists. split.
  { unfold genlines_main, main_with. cbn [parse_words]. change (eqb (lit "--") (lit "--")) with true. cbv iota. cbn [app].
    rewrite (genlines_down _ _ _ _ _ _ _ _ _ D0 D1 L0 L1 DS ST O2 O3). reflexivity. }
  intros k n. rewrite nth_error_map, nth_error_seq.
  set (N := (start - end_ + step + step - 1) / step).
  assert (HN : step * N <= start - end_ + step + step - 1 < step * N + step).
  { unfold N. pose proof (Z.div_mod (start - end_ + step + step - 1) step ltac:(lia)).
    pose proof (Z.mod_pos_bound (start - end_ + step + step - 1) step ltac:(lia)). lia. }
  destruct (Nat.ltb_spec k (Z.to_nat N)) as [K|K]; cbn [option_map].
  - assert (Z.of_nat k + 1 <= N) by lia. split; [unfold n; nia|]. intros P.
    destruct (fmt_decimal (Z.max 4 (zlen a1)) n P) as [DT LT]. exists (fmt_0w (Z.max 4 (zlen a1)) n).
    split; [eexists; split; [reflexivity|exact DT]|].
    intros X. apply LT; [lia|exact X].
  - assert (N <= Z.of_nat k) by lia. unfold n. nia.
Qed.
(*@ Example C126_countdown_partial_ex : genlines_main [lit "--"; lit "30"; lit "10"; lit "-15"] = Started (Ok [lit " 0030   "; lit " 0015   "; lit " 0000   "]).
Proof. vm_compute. reflexivity. Qed. @*)
Lemma C126_zero_partial_pf : forall a0 a1 s rest start end_ sc ec, decimal a0 start -> decimal a1 end_ -> zlen a0 <= 6 -> zlen a1 <= 6 ->
  decimal s 0 -> opt_arg rest 0 2 sc -> opt_arg rest 1 7 ec ->
  genlines (a0 :: a1 :: s :: rest) = Err ValueError.
Proof.
  intros a0 a1 s rest start end_ sc ec D0 D1 L0 L1 DS O2 O3. unfold genlines.
  destruct (Z.ltb_spec 6 (zlen a0)); [lia|]. destruct (Z.ltb_spec 6 (zlen a1)); [lia|].
  rewrite (py_int_decimal _ _ D0), (py_int_decimal _ _ D1). cbn [bind].
  assert (B := decimal_bound _ _ D1). assert (LL := decimal_len _ _ D1).
  assert (NL : zlen (str_of_Z end_) <= zlen a1).
  { unfold str_of_Z. destruct (Z.ltb_spec end_ 0); [lia|]. exact (numeral_length 10 end_ (zlen a1) ltac:(lia) B LL). }
  destruct (Z.ltb_spec 6 (zlen (str_of_Z end_))); [lia|]. cbv zeta.
  assert (N1 : nth_int (a0 :: a1 :: s :: rest) 2 1 = Ok 0) by (unfold nth_int; cbn [nth_error]; apply py_int_decimal; exact DS).
  assert (NI : forall i d n, opt_arg rest i d n -> nth_int (a0 :: a1 :: s :: rest) (3 + i)%nat d = Ok n).
  { intros i d n. unfold opt_arg, nth_int. cbn [nth_error Nat.add]. destruct (nth_error rest i) as [t|].
    - apply py_int_decimal.
    - intros ->. reflexivity. }
  assert (N2 := NI _ _ _ O2). assert (N3 := NI _ _ _ O3). cbn [Nat.add] in N2, N3.
  rewrite N1, N2, N3. reflexivity.
Qed.
(*@ Example C126_zero_partial_ex : genlines_main [lit "1"; lit "5"; lit "0"] = Started (Err ValueError).
Proof. vm_compute. reflexivity. Qed. @*)

(** *** genpages only appends *)
Lemma C127_append_pf : forall fuel fs args r fs', genpages_run fuel fs args = (r, fs') ->
  match r with
  | Ok _ => exists f rest content more, args = f :: rest /\ fs f = Some content /\ genpages fuel content = Ok more /\
              fs' f = Some (content ++ more) /\ forall g, g <> f -> fs' g = fs g
  | Err _ => forall g, fs' g = fs g
  end.
Proof.
  intros fuel fs args r fs' E. unfold genpages_run in E. destruct args as [|f rest]; [injection E as <- <-; reflexivity|].
  destruct (fs f) as [content|] eqn:F; [|injection E as <- <-; reflexivity].
  destruct (genpages fuel content) as [more|e] eqn:G; injection E as <- <-; [|reflexivity].
  exists f, rest, content, more. split; [reflexivity|]. split; [exact F|]. split; [exact G|]. unfold fs_write. split.
  - rewrite eqb_refl. reflexivity.
  - intros g N. destruct (eqb g f) eqn:X; [apply eqb_ok in X; contradiction|reflexivity].
Qed.
(*@ Example C127_append_ex :
  let fs := fun g : str => if eqb g (lit "f") then Some (lit "L      *MAIN" ++ [10] ++ lit "# Pages: 3" ++ [10]) else None in
  let after := snd (genpages_run 0 fs [lit "f"]) in
  option_map (fun c => (startswith c (lit "L      *MAIN" ++ [10] ++ lit "# Pages: 3" ++ [10] ++ [10] ++ lit "L      *MAIN"), zlen c)) (after (lit "f")) = Some (true, 170) /\
  after (lit "g") = None /\ snd (genpages_run 0 fs [lit "g"]) (lit "f") = fs (lit "f").
Proof. vm_compute. auto. Qed. @*)
Lemma C127_refused_pf : forall fuel fs args,
  args = [] \/ (exists f rest, args = f :: rest /\ fs f = None) -> genpages_run fuel fs args = (Err SystemExit, fs).
Proof. intros fuel fs args [->|(f & rest & -> & E)]; unfold genpages_run; [|rewrite E]; reflexivity. Qed.
(*@ Example C127_refused_ex : genpages_main 0 (fun _ => None) [lit "f"] = Started (Err SystemExit, fun _ => None).
Proof. reflexivity. Qed. @*)

(** *** wrong use *)
Lemma C130_no_files_pf : forall pct extract upper rep card_rep fuel fs words on,
  (understood CHECK_INSTRUCTIONS_OPTS words on [] -> check_instructions_main pct fuel fs words = Started ([], Err SystemExit)) /\
  (understood CHECK_SYMBOLS_OPTS words on [] -> check_symbols_main extract upper rep card_rep fuel fs words = Started ([], Err SystemExit)) /\
  (understood LIST_INSTRUCTIONS_OPTS words on [] -> list_instructions_main fuel fs words = Started ([], Err SystemExit)) /\
  (understood VERBOSE_OPTS words on [] -> list_symbols_main upper rep card_rep fuel fs words = Started ([], Err SystemExit) /\
     listing_main fuel fs words = Started ([], Err SystemExit, fs)) /\
  (understood PARSE_OPTS words on [] -> parse_main upper rep card_rep fuel fs words = Started ([], Err SystemExit)) /\
  (understood [] words on [] -> genlines_main words = Started (Err SystemExit) /\ genpages_main fuel fs words = Started (Err SystemExit, fs)).
Proof.
  intros pct extract upper rep card_rep fuel fs words on. destruct tables_proper as (P1 & P2 & _ & P3 & P4 & P5 & P6). repeat match goal with |- _ /\ _ => split | |- _ -> _ => intros U end.
  - unfold check_instructions_main. rewrite (main_started _ _ _ _ _ P1 U). reflexivity.
  - unfold check_symbols_main. rewrite (main_started _ _ _ _ _ P2 U). reflexivity.
  - unfold list_instructions_main. rewrite (main_started _ _ _ _ _ P3 U). reflexivity.
  - unfold list_symbols_main. rewrite (main_started _ _ _ _ _ P4 U). reflexivity.
  - unfold listing_main. rewrite (main_started _ _ _ _ _ P4 U). reflexivity.
  - unfold parse_main. rewrite (main_started _ _ _ _ _ P5 U). reflexivity.
  - unfold genlines_main. rewrite (main_started _ _ _ _ _ P6 U). reflexivity.
  - unfold genpages_main. rewrite (main_started _ _ _ _ _ P6 U). reflexivity.
Qed.
(*@ Example C130_no_files_ex : parse_main (fun s => s) quoted a_card 1 (fun _ => None) [lit "-v"; lit "--debug"] = Started ([], Err SystemExit) /\
  parse_main (fun s => s) quoted a_card 1 (fun _ => None) [lit "--de=1"] = Usage /\ parse_main (fun s => s) quoted a_card 1 (fun _ => None) [lit "--he"] = Help.
Proof. vm_compute. auto. Qed. @*)
Lemma C130_find_pf : forall extract upper rep card_rep fuel fs words on args, understood FIND_SYMBOLS_OPTS words on args ->
  zlen args < 2 \/ (exists l l', l <> l' /\ In l [lit "begin"; lit "end"; lit "fuzzy"; lit "exact"] /\ In l' [lit "begin"; lit "end"; lit "fuzzy"; lit "exact"] /\
    In l on /\ In l' on) ->
  find_symbols_main extract upper rep card_rep fuel fs words = Started ([], Err SystemExit).
Proof.
  intros extract upper rep card_rep fuel fs words on args U H. destruct tables_proper as (_ & _ & P & _). unfold find_symbols_main.
  rewrite (main_started _ _ _ _ _ P U). f_equal. unfold find_symbols_verbose.
  destruct H as [H|(l & l' & N & I & I' & O & O')].
  - destruct ((_ && _) || _ || _ || _); [reflexivity|]. destruct args as [|s [|g r]]; [reflexivity..|]. rewrite !zlen_cons in H. pose proof (zlen_nonneg r). lia.
  - apply inb_In in O, O'. repeat (destruct I as [<-|I]; [|]); try contradiction; repeat (destruct I' as [<-|I']; [|]); try contradiction; rewrite ?O, ?O'; try (exfalso; apply N; reflexivity);
      repeat match goal with |- context [inb (lit ?x) on] => destruct (inb (lit x) on) end; reflexivity.
Qed.
(*@ Example C130_find_ex : find_symbols_main (fun _ _ _ => []) (fun s => s) quoted a_card 1 (fun _ => None) [lit "-bx"; lit "A"; lit "f"] = Started ([], Err SystemExit) /\
  find_symbols_main (fun _ _ _ => []) (fun s => s) quoted a_card 1 (fun _ => None) [lit "A"; lit "-v"] = Started ([], Err SystemExit).
Proof. vm_compute. auto. Qed. @*)
Lemma C130_opcode_pf : forall fuel fs words on opcode m files, understood LIST_INSTRUCTIONS_OPTS words on (opcode :: files) ->
  mnemonic_of opcode m -> ~ In m INSTRUCTIONS -> list_instructions_main fuel fs words = Started ([], Err SystemExit).
Proof.
  intros fuel fs words on opcode m files U M N. destruct tables_proper as (_ & _ & _ & P & _). unfold list_instructions_main.
  rewrite (main_started _ _ _ _ _ P U). f_equal. unfold list_instructions_run. cbv zeta. apply mnemonic_ok in M. rewrite M.
  destruct (inb m INSTRUCTIONS) eqn:I; [apply inb_In in I; contradiction|]. reflexivity.
Qed.
(*@ Example C130_opcode_ex : list_instructions_main 1 (fun _ => None) [lit "FOO"; lit "f"] = Started ([], Err SystemExit).
Proof. vm_compute. reflexivity. Qed. @*)
