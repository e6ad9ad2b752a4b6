(** What the tools say about the same files agrees: C169, C170. *)
From Coq Require Import ZArith List Bool Lia Sorted.
From Verif Require Import Py LPy MInstruction MCards SCards LCards LDeck MSymbols SSymbols LSymBuild MInstructions MTools STools LTools LToolSym MDiag SDiag LDiag MDump SDump MVerbose SVerbose LVerbose SOrder LOrder STranscript LTranscript MOptions SOptions LOptions MProcess SProcess LProcess SEnds LEnds SSource LSource SFound STextSym LTextSym SIdle LIdle SReport LReport SUnread LUnread SSwap LGen LLabel LSwap SAgree.
#[local] Arguments Z.add : simpl never.
#[local] Arguments Z.sub : simpl never.
#[local] Arguments Z.mul : simpl never.
#[local] Arguments Z.pow : simpl never.

Lemma some_row (v : env) fs files outs (rows : list (symkey * str)) s k : ~ In [] files -> Forall2 (source fs) files outs ->
  (forall t s u k y, In ((t, s, u, k), y) rows <-> exists x tt, defined_at (e_upper v) files outs t s u k x tt /\ symbol_row k x tt y) ->
  ((exists seg ss y, In ((s, seg, ss, k), y) rows) <->
   exists out x tt, In out outs /\ In x out /\ line_defines (e_upper v) (text_of x) s k tt).
Proof.
  intros N S R. destruct (sources_read fs files outs N S) as (n & css & A & K). specialize (K _ (Nat.le_refl n)).
  rewrite <- (somewhere_text _ _ _ _ _ A), <- (defined_somewhere _ _ _ _ _ _ _ K). split.
  - intros (seg & ss & y & I). apply R in I. destruct I as (x & tt & D & _). destruct (defined_2 _ _ _ _ _ _ _ _ _ _ A D) as (e & D' & _). eauto.
  - intros (seg & ss & e & D). destruct (defined_1 _ _ _ _ _ _ _ _ _ A D) as (x & tt & D' & _).
    assert (Q : exists y, symbol_row k x tt y) by (destruct x as [[f i] l]; eexists; eexists; split; [apply segment_first|reflexivity]).
    destruct Q as (y & Q). exists seg, ss, y. apply R. eauto.
Qed.
Lemma told_same fs upper rep v v' c c' files outs ns ns' ls ls' : labels_told fs upper rep v c files outs ns ls ->
  labels_told fs upper rep v' c' files outs ns' ls' -> ns = ns'.
Proof.
  intros T T'. apply told_numbers in T. apply told_numbers in T'. revert ns' T'.
  induction T as [|o n outs ns C _ IH]; intros ns' T'; inversion T' as [|? n' ? ns2 C' T2]; subst; [reflexivity|].
  rewrite (count_unique _ _ _ _ C C'), (IH _ T2). reflexivity.
Qed.
Lemma kinds upper line s k tt : line_defines upper line s k tt -> k = lit "simple" \/ k = lit "complex".
Proof. intros (_ & x & op & _ & _ & _ & [[_ ->]|[_ ->]]); auto. Qed.

Lemma C169_names_pf : forall fs prog words prog' words' on on' verbose verbose' b files outs symbol,
  understood (options ListSymbols) words on files -> turned_on on "verbose" verbose ->
  understood (options FindSymbols) words' on' (symbol :: files) -> turned_on on' "verbose" verbose' ->
  turned_on on' "begin" b -> turned_on on' "end" (negb b) -> (forall x, In x ["fuzzy"; "exact"]%string -> ~ In (lit x) on') ->
  files <> [] -> ~ In [] files -> plain_names files -> Forall2 (source fs) files outs ->
  exists k, forall v, (k <= e_fuel v)%nat -> exists said said' shown rows errors names ns,
    command v fs ListSymbols prog words = (said ++ map OutL shown ++ errors, Exit 0, fs) /\
    laid_out None rows shown /\ StronglySorted (fun a b => key_lt (fst a) (fst b)) rows /\
    command v fs FindSymbols prog' words' = (said' ++ (if zlen names =? 0 then [] else [OutL (names_text (e_rep v) names)]), Exit 0, fs) /\
    StronglySorted str_lt names /\
    (forall s, In s names <-> (exists seg ss kind y, In ((s, seg, ss, kind), y) rows) /\ if b then exists r, s = symbol ++ r else exists r, s = r ++ symbol) /\
    labels_told fs (e_upper v) (e_rep v) verbose false files outs ns said /\
    labels_told fs (e_upper v) (e_rep v) verbose' true files outs ns said' /\
    errors = (if total_of ns =? 0 then [] else [ErrL (str_of_Z (total_of ns) ++ lit " errors found")]).
Proof.
  intros fs prog words prog' words' on on' verbose verbose' b files outs symbol U V U' V' B EN O NE N PN S.
  destruct (C161_list_pf fs prog words on verbose files outs U V NE N PN S) as (k & H).
  destruct (C161_names_pf fs prog' words' on' verbose' b files outs symbol U' V' B EN O NE N PN S) as (k' & H').
  exists (Nat.max k k'). intros v L. destruct (H v ltac:(lia)) as (said & shown & rows & ns & E & T & LO & SS & R).
  destruct (H' v ltac:(lia)) as (said' & ns' & names & T' & E' & SS' & R'). rewrite <- (told_same _ _ _ _ _ _ _ _ _ _ _ _ _ T T') in T'.
  exists said, said', shown, rows. eexists. exists names, ns. split; [exact E|]. split; [exact LO|]. split; [exact SS|]. split; [exact E'|]. split; [exact SS'|].
  split; [|split; [exact T|split; [exact T'|reflexivity]]]. intros s. rewrite R'. split; intros [D Q]; (split; [|exact Q]).
  - destruct D as (out & x & kind & tt & I & J & D). destruct (proj2 (some_row v fs files outs rows s kind N S R)) as (seg & ss & y & W); [exists out, x, tt; auto|exists seg, ss, kind, y; exact W].
  - destruct D as (seg & ss & kind & y & I). destruct (proj1 (some_row v fs files outs rows s kind N S R)) as (out & x & tt & W); [exists seg, ss, y; exact I|exists out, x, kind, tt; exact W].
Qed.
(*@ Example C169_names_ex : Forall2 (source sample) [lit "a.arg"] [sample_lines] /\
  printed (fst (fst (command sample_env sample ListSymbols (lit "x.py") [lit "a.arg"]))) =
    [lit "A"; lit "  Segment: a"; lit "    Subsegment: 1"; lit "        <simple>    a:6                                           12    A          FOO";
     lit "N"; lit "  Segment: a"; lit "    Subsegment: 1"; lit "        <complex>   inc:1                                               N          ASSIGN       5"] /\
  printed (fst (fst (command sample_env sample FindSymbols (lit "x.py") [lit "-b"; lit ""; lit "a.arg"]))) = [lit "[A, N]"] /\
  printed (fst (fst (command sample_env sample FindSymbols (lit "x.py") [lit "-e"; lit "N"; lit "a.arg"]))) = [lit "[N]"].
Proof. split; [constructor; [exact sample_ok|constructor]|]. repeat split; vm_compute; reflexivity. Qed. @*)
Lemma C169_answer_pf : forall fs prog words prog' words' on on' verbose verbose' files outs symbol,
  understood (options ListSymbols) words on files -> turned_on on "verbose" verbose ->
  understood (options FindSymbols) words' on' (symbol :: files) -> turned_on on' "verbose" verbose' ->
  (forall x, In x ["begin"; "end"; "fuzzy"]%string -> ~ In (lit x) on') ->
  files <> [] -> ~ In [] files -> plain_names files -> Forall2 (source fs) files outs ->
  exists k, forall v, (k <= e_fuel v)%nat -> exists said said' shown rows errors ns,
    command v fs ListSymbols prog words = (said ++ map OutL shown ++ errors, Exit 0, fs) /\
    laid_out None rows shown /\ StronglySorted (fun a b => key_lt (fst a) (fst b)) rows /\
    labels_told fs (e_upper v) (e_rep v) verbose false files outs ns said /\
    labels_told fs (e_upper v) (e_rep v) verbose' true files outs ns said' /\
    errors = (if total_of ns =? 0 then [] else [ErrL (str_of_Z (total_of ns) ++ lit " errors found")]) /\
    (((exists seg ss kind y, In ((symbol, seg, ss, kind), y) rows) /\ exists t, command v fs FindSymbols prog' words' = (said' ++ [OutL t], Exit 0, fs)) \/
     (~ (exists seg ss kind y, In ((symbol, seg, ss, kind), y) rows) /\
      command v fs FindSymbols prog' words' = (said' ++ [ErrL (lit "ERROR: Undefined symbol """ ++ symbol ++ lit """!")], Exit 0, fs))).
Proof.
  intros fs prog words prog' words' on on' verbose verbose' files outs symbol U V U' V' O NE N PN S.
  destruct (C161_list_pf fs prog words on verbose files outs U V NE N PN S) as (k & H).
  destruct (C161_answer_pf fs prog' words' on' verbose' files outs symbol U' V' O NE N PN S) as (k' & H').
  exists (Nat.max k k'). intros v L. destruct (H v ltac:(lia)) as (said & shown & rows & ns & E & T & LO & SS & R).
  destruct (H' v ltac:(lia)) as (said' & ns' & T' & A). rewrite <- (told_same _ _ _ _ _ _ _ _ _ _ _ _ _ T T') in T'.
  exists said, said', shown, rows. eexists. exists ns. split; [exact E|]. split; [exact LO|]. split; [exact SS|]. split; [exact T|]. split; [exact T'|]. split; [reflexivity|].
  destruct A as [(D & l & ds & t & E' & _)|(D & E')]; [left|right]; (split; [|eauto]).
  - destruct D as (out & x & kind & tt & I & J & D). destruct (proj2 (some_row v fs files outs rows symbol kind N S R)) as (seg & ss & y & W); [exists out, x, tt; auto|exists seg, ss, kind, y; exact W].
  - intros (seg & ss & kind & y & I). apply D. destruct (proj1 (some_row v fs files outs rows symbol kind N S R)) as (out & x & tt & W); [exists seg, ss, y; exact I|exists out, x, kind, tt; exact W].
Qed.
(*@ Example C169_answer_ex : Forall2 (source sample) [lit "a.arg"] [sample_lines] /\
  last (fst (fst (command sample_env sample FindSymbols (lit "x.py") [lit "N"; lit "a.arg"]))) (ErrL []) =
    OutL (lit "{a: {1: {complex: {'file': inc, 'line': 1, 'lognum': None, 'tagtype':  , 'card': ?}}}}") /\
  last (fst (fst (command sample_env sample FindSymbols (lit "x.py") [lit "x"; lit "a.arg"]))) (ErrL []) = ErrL (lit "ERROR: Undefined symbol ""x""!").
Proof. split; [constructor; [exact sample_ok|constructor]|]. split; vm_compute; reflexivity. Qed. @*)
Lemma C169_complex_pf : forall fs prog words prog' words' on on' verbose verbose' files outs,
  understood (options ListSymbols) words on files -> turned_on on "verbose" verbose ->
  understood (options CheckSymbols) words' on' files -> turned_on on' "verbose" verbose' -> In (lit "complex") on' ->
  files <> [] -> ~ In [] files -> plain_names files -> Forall2 (source fs) files outs ->
  exists k, forall v, (k <= e_fuel v)%nat -> exists said said' shown rows errors ns syms part total,
    command v fs ListSymbols prog words = (said ++ map OutL shown ++ errors, Exit 0, fs) /\
    laid_out None rows shown /\ StronglySorted (fun a b => key_lt (fst a) (fst b)) rows /\
    labels_told fs (e_upper v) (e_rep v) verbose false files outs ns said /\
    labels_told fs (e_upper v) (e_rep v) verbose' true files outs ns said' /\
    errors = (if total_of ns =? 0 then [] else [ErrL (str_of_Z (total_of ns) ++ lit " errors found")]) /\
    command v fs CheckSymbols prog' words' =
      (said' ++ map (fun s => ErrL (lit "ERROR: symbol """ ++ s ++ lit """ has a complex assignment, but no simple assignment!")) syms ++ part ++ total, Exit 0, fs) /\
    StronglySorted str_lt syms /\
    (forall s, In s syms <-> (exists seg ss kind y, In ((s, seg, ss, kind), y) rows) /\
                        forall seg ss kind y, In ((s, seg, ss, kind), y) rows -> kind = lit "complex") /\
    total_part files (total_of ns + zlen syms) total.
Proof.
  intros fs prog words prog' words' on on' verbose verbose' files outs U V U' V' C NE N PN S.
  destruct (C161_list_pf fs prog words on verbose files outs U V NE N PN S) as (k & H).
  assert (TC : turned_on on' "complex" true) by (split; auto).
  destruct (C161_symbols_pf fs prog' words' on' verbose' true files outs U' V' TC NE N PN S) as (k' & H').
  exists (Nat.max k k'). intros v L. destruct (H v ltac:(lia)) as (said & shown & rows & ns & E & T & LO & SS & R).
  destruct (H' v ltac:(lia)) as (said' & syms & ch & part & total & ns' & E' & T' & SS' & R' & UP & _ & TP).
  pose proof (told_same _ _ _ _ _ _ _ _ _ _ _ _ _ T T') as EN. subst ns'.
  exists said, said', shown, rows. eexists. exists ns, syms, part, total.
  split; [exact E|]. split; [exact LO|]. split; [exact SS|]. split; [exact T|]. split; [exact T'|]. split; [reflexivity|]. split; [exact E'|]. split; [exact SS'|].
  split; [|exact TP]. intros s. rewrite R', <- !(some_row v fs files outs rows s _ N S R). split.
  - intros (_ & (seg & ss & y & I) & NS). split; [eauto|]. intros seg' ss' kind' y' I'. pose proof I' as I2. apply R in I2.
    destruct I2 as (x & tt & (pre & f & out & post & _ & _ & (a & c & _ & D & _) & _) & _). destruct (kinds _ _ _ _ _ D) as [->| ->]; [|reflexivity].
    exfalso. apply NS. eauto.
  - intros ((seg & ss & kind & y & I) & A). split; [reflexivity|]. split; [exists seg, ss, y; rewrite <- (A _ _ _ _ I); exact I|].
    intros (seg' & ss' & y' & I'). discriminate (A _ _ _ _ I').
Qed.
(*@ Example C169_complex_ex : Forall2 (source sample) [lit "a.arg"] [sample_lines] /\
  skipn 3 (fst (fst (command sample_env sample CheckSymbols (lit "x.py") [lit "-c"; lit "a.arg"]))) =
    [ErrL (lit "ERROR: symbol ""N"" has a complex assignment, but no simple assignment!"); ErrL []; ErrL (lit "Undefined symbols:");
     OutL (lit "  N - Possible matches: A"); ErrL (lit "1 errors checking symbol table.")].
Proof. split; [constructor; [exact sample_ok|constructor]|vm_compute; reflexivity]. Qed. @*)
Lemma first_comma (a b a' b' : str) : a ++ 44 :: b = a' ++ 44 :: b' -> ~ In 44 a -> ~ In 44 a' -> a = a'.
Proof.
  revert a'. induction a as [|x a IH]; intros [|y a'] E NA NA'; cbn [app] in E.
  - reflexivity.
  - injection E as <- _. exfalso. apply NA'. left. reflexivity.
  - injection E as -> _. exfalso. apply NA. left. reflexivity.
  - injection E as <- E. f_equal. apply (IH a'); [exact E|intros I; apply NA; right; exact I|intros I; apply NA'; right; exact I].
Qed.
(** *** the questions asked about a line can be answered *)
Lemma count_ex {A} (P : A -> Prop) l : (forall x, P x \/ ~ P x) -> exists n, count_of P l n.
Proof.
  intros D. induction l as [|x l (n & IH)]; [exists 0; constructor|]. destruct (D x) as [H|H]; [exists (n + 1)|exists n]; constructor; assumption.
Qed.
Lemma remark_dec line : remark_line line \/ ~ remark_line line.
Proof.
  unfold remark_line. destruct (nth_error line 0) as [c|]; [|right; intros (c & X & _); discriminate X].
  destruct (in_dec Z.eq_dec c (lit "PRL")) as [I|I]; [left; eauto|right; intros (d & [= <-] & J); contradiction].
Qed.
Lemma starred_dec line : starred_line line \/ ~ starred_line line.
Proof.
  unfold starred_line. destruct (nth_error line 7) as [c|]; [|right; discriminate]. destruct (Z.eq_dec c 42) as [->|N]; [left; reflexivity|right; congruence].
Qed.
Lemma operation_dec line : (exists op, operation_of line op) \/ forall op, ~ operation_of line op.
Proof.
  destruct (remark_dec line) as [R|R]; [right; intros op (N & _); contradiction|]. pose proof (strip_trimmed (columns line 20 32)) as T.
  destruct (strip (columns line 20 32)) as [|c r] eqn:E.
  - right. intros op (_ & T' & N). apply N. exact (trimmed_unique _ _ _ T' T).
  - left. exists (c :: r). split; [exact R|]. split; [exact T|discriminate].
Qed.
Lemma mnemonic_dec line : (exists m, mnemonic_at line m) \/ forall m, ~ mnemonic_at line m.
Proof.
  destruct (operation_dec line) as [(op & O)|N]; [|right; intros m (_ & op & O & _); exact (N op O)].
  destruct (in_dec Z.eq_dec 44 op) as [I|I].
  - destruct (comma_split op I) as (a & b & E & NA). destruct (strip a) as [|c r] eqn:ES.
    + right. intros m M. pose proof M as (NE & op' & O' & H). rewrite <- (op_unique _ _ _ O O') in H. apply NE.
      destruct H as [[X _]|(a' & b' & E' & NA' & T)]; [contradiction|]. rewrite <- (first_comma a b a' b' ltac:(congruence) NA NA') in T.
      rewrite <- ES. exact (trimmed_unique _ _ _ T (strip_trimmed a)).
    + left. exists (c :: r). split; [discriminate|]. exists op. split; [exact O|]. right. exists a, b. split; [exact E|]. split; [exact NA|]. rewrite <- ES. apply strip_trimmed.
  - left. exists op. split; [exact (proj2 (proj2 O))|]. exists op. split; [exact O|]. left. auto.
Qed.
Lemma fault_dec x : (exists ls, mnemonic_fault x ls) \/ ~ (exists ls, mnemonic_fault x ls).
Proof.
  destruct x as [[f i] line]. destruct (starred_dec line) as [S|S]; [right; intros (ls & N & _); contradiction|].
  destruct (mnemonic_dec line) as [(m & M)|N]; [|right; intros (ls & _ & m & M & _); exact (N m M)].
  destruct (in_dec (list_eq_dec Z.eq_dec) m INSTRUCTIONS) as [I|I].
  - right. intros (ls & _ & m' & M' & J & _). apply J. rewrite <- (mnemonic_unique _ _ _ M M'). exact I.
  - left. eexists. split; [exact S|]. exists m. eauto.
Qed.
Lemma at_dec m x : (~ starred_line (text_of x) /\ mnemonic_at (text_of x) m) \/ ~ (~ starred_line (text_of x) /\ mnemonic_at (text_of x) m).
Proof.
  destruct (starred_dec (text_of x)) as [S|S]; [right; intros [N _]; contradiction|]. destruct (mnemonic_dec (text_of x)) as [(m' & M)|N]; [|right; intros [_ M]; exact (N m M)].
  destruct (list_eq_dec Z.eq_dec m m') as [->|N]; [left; auto|right; intros [_ M']; apply N; exact (mnemonic_unique _ _ _ M' M)].
Qed.

(** *** the numbers of mistakes *)
Lemma C169_errors_pf : forall fs prog words prog1 words1 prog2 words2 on on1 on2 verbose verbose1 debug file out,
  understood (options Parse) words on [file] -> turned_on on "verbose" verbose -> turned_on on "debug" debug ->
  understood (options CheckSymbols) words1 on1 [file] -> turned_on on1 "verbose" verbose1 ->
  understood (options CheckInstructions) words2 on2 [file] -> ~ In (lit "count") on2 ->
  file <> [] -> plain_names [file] -> source fs file out ->
  exists k, forall v, (k <= e_fuel v)%nat -> exists said told said1 rest1 told2 n bad,
    command v fs Parse prog words =
      (said ++ told ++ [OutL (10 :: lit "Source lines: " ++ str_of_Z (zlen out)); OutL (error_count (n + bad))], Exit 0, fs) /\
    labels_told fs (e_upper v) (e_rep v) verbose true [file] [out] [n] said /\
    lines_told fs verbose (line_report verbose debug) [file] [out] told /\
    command v fs CheckSymbols prog1 words1 = (said1 ++ rest1, Exit 0, fs) /\
    labels_told fs (e_upper v) (e_rep v) verbose1 true [file] [out] [n] said1 /\
    command v fs CheckInstructions prog2 words2 = (told2 ++ [OutL (error_count bad)], Exit 0, fs).
Proof.
  intros fs prog words prog1 words1 prog2 words2 on on1 on2 verbose verbose1 debug file out U V D U1 V1 U2 C2 NE PN S.
  assert (W : forall (o : list str) l, exists b, turned_on o l b).
  { intros o l. destruct (in_dec (list_eq_dec Z.eq_dec) (lit l) o) as [I|I]; [exists true|exists false]; split; intros X; try assumption; try reflexivity; [discriminate|contradiction]. }
  destruct (W on1 "complex"%string) as (cx & CX), (W on2 "verbose"%string) as (vb & VB), (W on2 "print-opcodes"%string) as (sh & SH), (W on2 "unused"%string) as (un & UN).
  assert (F : Forall2 (source fs) [file] [out]) by (constructor; [exact S|constructor]). assert (NI : ~ In [] [file]) by (intros [X|[]]; apply NE; exact X).
  assert (CN : exists bad, count_of (fun x => exists ls, mnemonic_fault x ls) (concat [out]) bad).
  { apply count_ex. exact fault_dec. }
  destruct CN as (bad & CN).
  destruct (C161_parse_pf fs prog words on verbose debug [file] [out] bad U V D ltac:(discriminate) NI PN F CN) as (k & H).
  destruct (C161_symbols_pf fs prog1 words1 on1 verbose1 cx [file] [out] U1 V1 CX ltac:(discriminate) NI PN F) as (k1 & H1).
  destruct (C161_check_pf fs prog2 words2 on2 vb sh un [file] [out] bad U2 VB SH UN C2 ltac:(discriminate) NI F CN) as (k2 & H2).
  exists (Nat.max k (Nat.max k1 k2)). intros v L. destruct (H v ltac:(lia)) as (said & told & before & n & E & T & LT).
  destruct (H1 v ltac:(lia)) as (said1 & syms & ch & part & total & ns1 & E1 & T1 & _). destruct (H2 v ltac:(lia)) as (told2 & unl & E2 & _).
  assert (before = []) by (inversion T as [|? ? ? ? ? ? ? ? ? ? T0 Q1 Q2 Q3]; subst; inversion T0; subst; destruct before as [|? [|? ?]]; [reflexivity|discriminate|discriminate]).
  subst before. cbn [app] in T. rewrite <- (told_same _ _ _ _ _ _ _ _ _ _ _ _ _ T T1) in T1.
  exists said, told, said1. eexists. exists (told2 ++ map OutL unl), n, bad. cbn [concat] in E. rewrite app_nil_r in E. split; [exact E|]. split; [exact T|]. split; [exact LT|].
  split; [exact E1|]. split; [exact T1|]. rewrite E2, map_app, app_assoc. reflexivity.
Qed.
(*@ Example C169_errors_ex : source sample (lit "a.arg") sample_lines /\
  last (fst (fst (command sample_env sample Parse (lit "x.py") [lit "a.arg"]))) (ErrL []) = OutL (lit "2 errors encountered.") /\
  nth 2 (fst (fst (command sample_env sample CheckSymbols (lit "x.py") [lit "a.arg"]))) (OutL []) = ErrL (lit "a.arg: 1 errors encountered building symbol table.") /\
  last (fst (fst (command sample_env sample CheckInstructions (lit "x.py") [lit "a.arg"]))) (ErrL []) = OutL (lit "1 error encountered.") /\
  last (fst (fst (command sample_env sample Parse (lit "x.py") [lit "inc"; lit "inc"; lit "inc"]))) (ErrL []) = OutL (lit "1 error encountered.").
Proof. split; [exact sample_ok|]. repeat split; vm_compute; reflexivity. Qed. @*)

(** *** C170: lines found and lines counted *)
Lemma unspaced_op op m : trimmed op op -> op <> [] -> unspaced op -> ~ In 44 m -> m <> [] ->
  (op_matches m (filter (fun c => negb (c =? 32)) op) <-> (~ In 44 op /\ m = op) \/ exists a b, op = a ++ 44 :: b /\ ~ In 44 a /\ trimmed a m).
Proof.
  intros T NE U NM NE'.
  assert (K : forall a : str, (forall c, In c a -> ~ white c) -> filter (fun c => negb (c =? 32)) a = a /\ trimmed a a).
  { intros a H. split.
    - induction a as [|x a IH]; [reflexivity|]. cbn [filter]. destruct (Z.eqb_spec x 32) as [->|_]; cbn [negb].
      + exfalso. apply (H 32); [left; reflexivity|]. apply white_ok. reflexivity.
      + rewrite IH; [reflexivity|]. intros c I. apply H. right. exact I.
    - exists [], []. split; [cbn; rewrite app_nil_r; reflexivity|]. split; [constructor|]. split; [constructor|].
      split; intros c r E; apply H; rewrite E; [left; reflexivity|apply in_or_app; right; left; reflexivity]. }
  destruct (in_dec Z.eq_dec 44 op) as [I|I].
  - destruct (comma_split op I) as (a & b & E & NA). assert (HA : forall c, In c a -> ~ white c).
    { intros c J W. apply in_split in J. destruct J as (a1 & a2 & J). apply NA. rewrite J. apply in_or_app. left.
      apply (U a1 c (a2 ++ 44 :: b)); [rewrite E, J, <- app_assoc; reflexivity|exact W]. }
    destruct (K a HA) as [F TA]. rewrite E, filter_app, F. cbn [filter Z.eqb Pos.eqb negb]. split.
    + intros [[_ [X|(r & X)]]|[X _]]; [| |contradiction].
      * exfalso. apply NM. rewrite <- X. apply in_or_app. right. left. reflexivity.
      * right. exists a, b. split; [reflexivity|]. split; [exact NA|]. rewrite <- (first_comma a _ m r X NA NM). exact TA.
    + intros [[X _]|(a' & b' & X & NA' & T')]; [exfalso; apply X; apply in_or_app; right; left; reflexivity|].
      left. split; [exact NM|]. right. rewrite <- (first_comma a b a' b' X NA NA') in T'. rewrite (trimmed_unique _ _ _ T' TA). eauto.
  - assert (HA : forall c, In c op -> ~ white c).
    { intros c J W. apply in_split in J. destruct J as (a1 & a2 & J). apply I. rewrite J. apply in_or_app. left. exact (U a1 c a2 J W). }
    destruct (K op HA) as [F _]. rewrite F. split.
    + intros [[_ [X|(r & X)]]|[X _]]; [left; auto| |contradiction]. exfalso. apply I. rewrite X. apply in_or_app. right. left. reflexivity.
    + intros [[_ ->]|(a & b & X & _)]; [left; auto|]. exfalso. apply I. rewrite X. apply in_or_app. right. left. reflexivity.
Qed.
Lemma trimmed_again s t : trimmed s t -> trimmed t t.
Proof. intros (p & q & _ & _ & _ & H1 & H2). exists [], []. split; [cbn; rewrite app_nil_r; reflexivity|]. split; [constructor|]. split; [constructor|auto]. Qed.
Lemma found_counted m details x : ~ In 44 m -> m <> [] -> (forall op, operation_of (text_of x) op -> unspaced op) ->
  ((exists y, line_found m details x y) <-> ~ starred_line (text_of x) /\ mnemonic_at (text_of x) m).
Proof.
  intros NM NE U. destruct x as [[f i] line]. cbn [text_of snd] in U |- *. split.
  - intros (y & S & (op & O & M) & _). split; [exact S|]. split; [exact NE|]. exists op. split; [exact O|].
    apply (unspaced_op op m); [exact (trimmed_again _ _ (proj1 (proj2 O)))|exact (proj2 (proj2 O))|exact (U op O)|exact NM|exact NE|exact M].
  - intros (S & _ & op & O & M). eexists. split; [exact S|]. split; [|reflexivity]. exists op. split; [exact O|].
    apply (unspaced_op op m); [exact (trimmed_again _ _ (proj1 (proj2 O)))|exact (proj2 (proj2 O))|exact (U op O)|exact NM|exact NE|exact M].
Qed.
Lemma search_length m details x ls : search_report false details m x ls ->
  ((exists y, line_found m details x y) /\ zlen ls = 1) \/ (~ (exists y, line_found m details x y) /\ ls = []).
Proof.
  intros [N|op t O S _|y F|op O S N].
  - right. split; [|reflexivity]. destruct x as [[f i] line]. intros (y & _ & (op & O & _) & _). exact (N op O).
  - right. split; [|reflexivity]. destruct x as [[f i] line]. intros (y & S' & _). contradiction.
  - left. split; [eauto|reflexivity].
  - right. split; [|reflexivity]. intros (y & F). exact (N y F).
Qed.
Lemma told_length fs m details files outs told n : lines_told fs false (search_report false details m) files outs told ->
  count_of (fun x => exists y, line_found m details x y) (concat outs) n -> zlen told = n.
Proof.
  intros T. revert n. induction T as [|f files out outs log lss ls _ F _ IH]; intros n C; [inversion C; reflexivity|].
  cbn [concat app] in C |- *. revert n C. induction F as [|x l out lss H _ IH2]; intros n C; [exact (IH n C)|]. cbn [app concat] in C |- *.
  destruct (search_length _ _ _ _ H) as [[Y L]|[N ->]]; inversion C as [|? ? n' Y' C'|? ? n' N' C']; subst; try contradiction.
  - rewrite <- app_assoc, zlen_app, L, (IH2 _ C'). lia.
  - exact (IH2 _ C').
Qed.
Lemma count_iff_in {A} (P Q : A -> Prop) l n : (forall x, In x l -> (P x <-> Q x)) -> count_of P l n -> count_of Q l n.
Proof.
  intros H C. induction C as [|x l n Y C IH|x l n N C IH]; [constructor| |].
  - constructor; [apply H; [left; reflexivity|exact Y]|apply IH; intros z I; apply H; right; exact I].
  - constructor; [intros Q0; apply N, H; [left; reflexivity|exact Q0]|apply IH; intros z I; apply H; right; exact I].
Qed.
Lemma known_plain m : In m INSTRUCTIONS -> ~ In 44 m /\ m <> [].
Proof.
  intros I. assert (A : forallb (fun m => negb (existsb (Z.eqb 44) m) && negb (zlen m =? 0)) INSTRUCTIONS = true) by (vm_compute; reflexivity).
  rewrite forallb_forall in A. specialize (A m I). apply andb_true_iff in A. destruct A as [A B]. split.
  - intros J. apply negb_true_iff in A. assert (X : existsb (Z.eqb 44) m = true) by (apply existsb_exists; exists 44; split; [exact J|reflexivity]). congruence.
  - intros ->. discriminate B.
Qed.

Lemma C170_counts_partial_pf : forall fs prog words prog' words' on on' details unused files outs m total,
  understood (options ListInstructions) words on (m :: files) -> ~ In (lit "verbose") on -> turned_on on "details" details ->
  understood (options CheckInstructions) words' on' files -> In (lit "count") on' -> turned_on on' "unused" unused ->
  In m INSTRUCTIONS -> files <> [] -> ~ In [] files -> Forall2 (source fs) files outs ->
  (forall x op, In x (concat outs) -> operation_of (text_of x) op -> unspaced op) ->
  count_of (fun x => exists m, mnemonic_at (text_of x) m) (concat outs) total -> total <> 0 \/ unused = true ->
  exists k, forall v, (k <= e_fuel v)%nat -> exists found told rows un,
    command v fs ListInstructions prog words = (found, Exit 0, fs) /\
    (exists bad, command v fs CheckInstructions prog' words' =
      (told ++ map OutL ([10 :: lit "Source lines: " ++ str_of_Z (zlen (concat outs)); 10 :: lit "Instruction Frequencies:";
                          freq_line (lit "Total") total (lit "100.00")] ++
                         map (fun r => freq_line (fst r) (snd r) (e_pct v (snd r) total)) rows ++ un ++ [error_count bad]), Exit 0, fs)) /\
    (forall n, In (m, n) rows <-> n = zlen found /\ (unused = true -> n <> 0)) /\
    (unused = true -> (In m un <-> found = [])).
Proof.
  intros fs prog words prog' words' on on' details unused files outs m total U V D U' C UN IM NE N S US CT TT.
  assert (W : forall (o : list str) l, exists b, turned_on o l b).
  { intros o l. destruct (in_dec (list_eq_dec Z.eq_dec) (lit l) o) as [I|I]; [exists true|exists false]; split; intros X; try assumption; try reflexivity; [discriminate|contradiction]. }
  destruct (W on' "verbose"%string) as (vb & VB), (W on' "print-opcodes"%string) as (sh & SH), (W on' "sort"%string) as (so & SO).
  destruct (known_plain m IM) as [NM NEM].
  assert (V' : turned_on on "verbose" false) by (split; [discriminate|intros X; contradiction]).
  destruct (count_ex (fun x => exists ls, mnemonic_fault x ls) (concat outs) fault_dec) as (bad & CB).
  destruct (C161_search_pf fs prog words on false details m m files outs U V' D (or_introl (conj NM eq_refl)) IM N S) as (k & H).
  destruct (C161_count_pf fs prog' words' on' vb sh unused so files outs bad total U' VB SH UN SO C NE N S CB CT TT) as (k' & H').
  exists (Nat.max k k'). intros v L. destruct (H v ltac:(lia)) as (found & E & T). destruct (H' v ltac:(lia)) as (told & rows & un & E' & _ & _ & R & _ & UT).
  destruct (count_ex (fun x => ~ starred_line (text_of x) /\ mnemonic_at (text_of x) m) (concat outs) (at_dec m)) as (n & CN).
  assert (ZN : zlen found = n).
  { apply (told_length _ _ _ _ _ _ _ T). eapply count_iff_in; [|exact CN]. intros x I. symmetry. apply (found_counted m details x NM NEM). intros op. exact (US x op I). }
  exists found, told, rows, un. split; [exact E|]. split; [exists bad; exact E'|]. split.
  - intros n0. rewrite R. split.
    + intros (_ & O & Q). split; [|exact Q]. rewrite ZN. exact (count_unique _ _ _ _ O CN).
    + intros (-> & Q). split; [exact IM|]. split; [rewrite ZN; exact CN|exact Q].
  - intros ->. destruct UT as (ms & -> & _ & MS). split.
    + intros [X|I]; [exfalso|].
      * clear - X IM. assert (A : forallb (fun m => negb (hd 0 m =? 10)) INSTRUCTIONS = true) by (vm_compute; reflexivity).
        rewrite forallb_forall in A. specialize (A m IM). rewrite <- X in A. discriminate A.
      * apply MS in I. rewrite <- (count_unique _ _ _ _ CN (proj2 I)) in ZN || rewrite (count_unique _ _ _ _ CN (proj2 I)) in ZN.
        destruct found as [|y found]; [reflexivity|]. rewrite zlen_cons in ZN. pose proof (zlen_nonneg found). lia.
    + intros ->. right. apply MS. split; [exact IM|]. rewrite <- ZN in CN. exact CN.
Qed.
Definition spaced : fsys := fun f => if eqb f (lit "a") then Some (lit "        A          DA,B" ++ [10] ++ lit "                   D A") else None.
(*@ Example C170_counts_partial_ex :
  fst (command sample_env sample ListInstructions (lit "x.py") [lit "DA"; lit "a.arg"; lit "a.arg"]) =
    ([OutL (lit "        A          DA,B         1"); OutL (lit "        A          DA,B         1")], Exit 0) /\
  In (OutL (lit "DA            2   50.00%")) (fst (fst (command sample_env sample CheckInstructions (lit "x.py") [lit "-c"; lit "a.arg"; lit "a.arg"]))) /\
  unspaced (lit "DA,B C") /\ ~ unspaced (lit "D A").
Proof.
  split; [vm_compute; reflexivity|]. split; [apply (nth_error_In _ 21); vm_compute; reflexivity|]. split.
  - intros a c b E W. destruct a as [|x1 [|x2 [|x3 a]]]; cbn in E; injection E as; subst;
      try (exfalso; apply white_ok in W; vm_compute in W; discriminate W). right. right. left. reflexivity.
  - intros U. assert (W : white 32) by (apply white_ok; reflexivity). destruct (U [68] 32 [65] eq_refl W) as [X|[]]. discriminate X.
Qed. @*)
Lemma C170_counts_refuted_pf : exists fs v, forall prog,
  fst (command v fs ListInstructions prog [lit "DA"; lit "a"]) =
    ([OutL (lit "        A          DA,B"); OutL (lit "                   D A")], Exit 0) /\
  exists p, In (OutL (freq_line (lit "DA") 1 p)) (fst (fst (command v fs CheckInstructions prog [lit "-c"; lit "a"]))) /\
    firstn 2 (fst (fst (command v fs CheckInstructions prog [lit "-c"; lit "a"]))) =
      [OutL (lit "*** ERROR: Invalid instruction ""D A"":"); OutL (lit "File a, line 2:                    D A")].
Proof.
  exists spaced, sample_env. intros prog. split; [vm_compute; reflexivity|]. exists (lit " 50.00").
  split; [apply (nth_error_In _ 19); vm_compute; reflexivity|vm_compute; reflexivity].
Qed.
(*@ Example C170_counts_refuted_ex : source spaced (lit "a") [(lit "a", 1, lit "        A          DA,B" ++ [10]); (lit "a", 2, lit "                   D A")] /\
  fst (command sample_env spaced ListInstructions (lit "x.py") [lit "-D"; lit "DA"; lit "a"]) =
    ([OutL (lit "a                                                     1         A          DA,B");
      OutL (lit "a                                                     2                    D A")], Exit 0).
Proof.
  split; [|vm_compute; reflexivity].
  apply (so_file spaced (lit "a") (lit "        A          DA,B" ++ [10] ++ lit "                   D A") [lit "        A          DA,B" ++ [10]; lit "                   D A"]); [reflexivity| |].
  - apply tl_line; [vm_compute; intuition lia|vm_compute; intuition lia|left; reflexivity|]. apply tl_last; [discriminate|vm_compute; intuition lia|vm_compute; intuition lia].
  - apply sl_line; [intros c r [= <- _]; lia|]. apply sl_line; [intros c r [= <- _]; lia|]. constructor.
Qed. @*)
