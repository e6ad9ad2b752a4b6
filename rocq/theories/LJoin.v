(** Several files together and one after the other: C173. *)
From Coq Require Import ZArith List Bool Lia Sorted.
From Verif Require Import Py LPy MInstruction MCards SCards LCards LDeck MSymbols SSymbols LSymBuild LSymQuery MInstructions MTools STools LTools LToolSym MDiag SDiag LDiag MDump SDump MVerbose SVerbose LVerbose SOrder LOrder STranscript LTranscript MOptions SOptions LOptions MProcess SProcess LProcess SEnds LEnds SSource LSource SFound STextSym LTextSym SIdle LIdle SReport LReport SUnread LUnread SSwap LGen LLabel LPlaces LSwap SAgree LAgree.
#[local] Arguments Z.add : simpl never.
#[local] Arguments Z.sub : simpl never.
#[local] Arguments Z.mul : simpl never.
#[local] Arguments Z.pow : simpl never.

Lemma told_app fs v P files1 outs1 l1 files2 outs2 l2 : lines_told fs v P files1 outs1 l1 -> lines_told fs v P files2 outs2 l2 ->
  lines_told fs v P (files1 ++ files2) (outs1 ++ outs2) (l1 ++ l2).
Proof.
  intros T T2. induction T as [|f files out outs log lss ls L F _ IH]; [exact T2|]. cbn [app]. rewrite <- !app_assoc. constructor; assumption.
Qed.
Lemma counts_app {A} (P : A -> Prop) a b n m : count_of P a n -> count_of P b m -> count_of P (a ++ b) (n + m).
Proof.
  intros C D. induction C as [|x a n H _ IH|x a n H _ IH]; [exact D| |].
  - replace (n + 1 + m) with (n + m + 1) by lia. apply cn_yes; assumption.
  - apply cn_no; assumption.
Qed.
Lemma counts_split {A} (P : A -> Prop) a b n : count_of P (a ++ b) n -> exists p q, count_of P a p /\ count_of P b q /\ n = p + q.
Proof.
  revert n. induction a as [|x a IH]; intros n C; cbn [app] in C; [exists 0, n; repeat split; [constructor|exact C]|].
  inversion C as [|? ? k H C'|? ? k H C']; subst; destruct (IH _ C') as (p & q & C1 & C2 & ->).
  - exists (p + 1), q. split; [apply cn_yes; assumption|]. split; [exact C2|lia].
  - exists p, q. split; [apply cn_no; assumption|]. auto.
Qed.
Lemma numbers_app fs upper rep v c files1 outs1 files2 outs2 ns1 ns2 ns l1 l2 l :
  labels_told fs upper rep v c files1 outs1 ns1 l1 -> labels_told fs upper rep v c files2 outs2 ns2 l2 ->
  labels_told fs upper rep v c (files1 ++ files2) (outs1 ++ outs2) ns l -> ns = ns1 ++ ns2.
Proof.
  intros T1 T2 T. apply told_numbers in T, T1, T2. assert (A := Forall2_app T1 T2). revert T A. generalize (outs1 ++ outs2) (ns1 ++ ns2).
  intros o n T. revert n. induction T as [|a k o ns C _ IH]; intros n A; inversion A as [|? k' ? n' C' A']; subst; [reflexivity|].
  rewrite (count_unique _ _ _ _ C C'), (IH _ A'). reflexivity.
Qed.
Lemma total_app a b : total_of (a ++ b) = total_of a + total_of b.
Proof. unfold total_of. induction a as [|x a IH]; cbn [app fold_right]; [lia|]. rewrite IH. lia. Qed.

Lemma C173_found_pf : forall fs prog words prog1 words1 prog2 words2 on verbose details opcode m files1 files2 outs1 outs2,
  understood (options ListInstructions) words1 on (opcode :: files1) -> understood (options ListInstructions) words2 on (opcode :: files2) ->
  understood (options ListInstructions) words on (opcode :: files1 ++ files2) -> turned_on on "verbose" verbose -> turned_on on "details" details ->
  mnemonic_of opcode m -> In m INSTRUCTIONS ->
  ~ In [] files1 -> ~ In [] files2 -> Forall2 (source fs) files1 outs1 -> Forall2 (source fs) files2 outs2 ->
  exists k, forall v, (k <= e_fuel v)%nat -> exists out1 out2,
    command v fs ListInstructions prog1 words1 = (out1, Exit 0, fs) /\ command v fs ListInstructions prog2 words2 = (out2, Exit 0, fs) /\
    command v fs ListInstructions prog words = (out1 ++ out2, Exit 0, fs).
Proof.
  intros fs prog words prog1 words1 prog2 words2 on verbose details opcode m files1 files2 outs1 outs2 U1 U2 U V D M I N1 N2 S1 S2.
  assert (N : ~ In [] (files1 ++ files2)) by (intros X; apply in_app_or in X; tauto).
  destruct (C161_search_pf fs prog1 words1 on verbose details opcode m files1 outs1 U1 V D M I N1 S1) as (k1 & H1).
  destruct (C161_search_pf fs prog2 words2 on verbose details opcode m files2 outs2 U2 V D M I N2 S2) as (k2 & H2).
  destruct (C161_search_pf fs prog words on verbose details opcode m _ _ U V D M I N (Forall2_app S1 S2)) as (k3 & H3).
  exists (Nat.max k1 (Nat.max k2 k3)). intros v L. destruct (H1 v ltac:(lia)) as (o1 & E1 & T1), (H2 v ltac:(lia)) as (o2 & E2 & T2), (H3 v ltac:(lia)) as (o & E & T).
  exists o1, o2. split; [exact E1|]. split; [exact E2|]. rewrite E. do 2 f_equal.
  exact (proj2 (C161_determined_pf _ _ _ _ _ _) _ _ T (told_app _ _ _ _ _ _ _ _ _ T1 T2)).
Qed.
(*@ Example C173_found_ex : Forall2 (source sample) [lit "a.arg"] [sample_lines] /\ fst (fst (command sample_env sample ListInstructions (lit "x.py") [lit "ASSIGN"; lit "a.arg"])) = [OutL (lit "        N          ASSIGN       5")] /\
  fst (fst (command sample_env sample ListInstructions (lit "x.py") [lit "ASSIGN"; lit "a.arg"; lit "inc"])) =
    [OutL (lit "        N          ASSIGN       5"); OutL (lit "        N          ASSIGN       5")].
Proof. split; [constructor; [exact sample_ok|constructor]|]. repeat split; vm_compute; reflexivity. Qed. @*)
Lemma C173_check_pf : forall fs prog words prog1 words1 prog2 words2 on verbose show files1 files2 outs1 outs2,
  understood (options CheckInstructions) words1 on files1 -> understood (options CheckInstructions) words2 on files2 ->
  understood (options CheckInstructions) words on (files1 ++ files2) -> turned_on on "verbose" verbose -> turned_on on "print-opcodes" show ->
  ~ In (lit "count") on ->
  files1 <> [] -> files2 <> [] -> ~ In [] files1 -> ~ In [] files2 -> Forall2 (source fs) files1 outs1 -> Forall2 (source fs) files2 outs2 ->
  exists k, forall v, (k <= e_fuel v)%nat -> exists told1 told2 un1 un2 un bad1 bad2,
    command v fs CheckInstructions prog1 words1 = (told1 ++ map OutL (un1 ++ [error_count bad1]), Exit 0, fs) /\
    command v fs CheckInstructions prog2 words2 = (told2 ++ map OutL (un2 ++ [error_count bad2]), Exit 0, fs) /\
    command v fs CheckInstructions prog words = (told1 ++ told2 ++ map OutL (un ++ [error_count (bad1 + bad2)]), Exit 0, fs) /\
    (~ In (lit "unused") on -> un1 = [] /\ un2 = [] /\ un = []) /\
    (In (lit "unused") on -> exists t l1 l2 l, un1 = t :: l1 /\ un2 = t :: l2 /\ un = t :: l /\ StronglySorted str_lt l /\
       forall m, In m l <-> In m l1 /\ In m l2).
Proof.
  intros fs prog words prog1 words1 prog2 words2 on verbose show files1 files2 outs1 outs2 U1 U2 U V D NC NE1 NE2 N1 N2 S1 S2.
  assert (N : ~ In [] (files1 ++ files2)) by (intros X; apply in_app_or in X; tauto).
  assert (NE : files1 ++ files2 <> []) by (destruct files1; [contradiction|discriminate]).
  assert (W : exists b, turned_on on "unused" b).
  { destruct (in_dec (list_eq_dec Z.eq_dec) (lit "unused") on) as [I|I]; [exists true|exists false]; split; intros X; try assumption; try reflexivity; [discriminate|contradiction]. }
  destruct W as (un & UN).
  destruct (count_ex (fun x => exists ls, mnemonic_fault x ls) (concat outs1) fault_dec) as (b1 & B1).
  destruct (count_ex (fun x => exists ls, mnemonic_fault x ls) (concat outs2) fault_dec) as (b2 & B2).
  assert (B := counts_app _ _ _ _ _ B1 B2). rewrite <- concat_app in B.
  destruct (C161_check_pf fs prog1 words1 on verbose show un files1 outs1 b1 U1 V D UN NC NE1 N1 S1 B1) as (k1 & H1).
  destruct (C161_check_pf fs prog2 words2 on verbose show un files2 outs2 b2 U2 V D UN NC NE2 N2 S2 B2) as (k2 & H2).
  destruct (C161_check_pf fs prog words on verbose show un _ _ _ U V D UN NC NE N (Forall2_app S1 S2) B) as (k3 & H3).
  exists (Nat.max k1 (Nat.max k2 k3)). intros v L.
  destruct (H1 v ltac:(lia)) as (o1 & u1 & E1 & T1 & X1), (H2 v ltac:(lia)) as (o2 & u2 & E2 & T2 & X2), (H3 v ltac:(lia)) as (o & u & E & T & X).
  rewrite (proj1 (C161_determined_pf _ _ _ _ _ _) _ T (told_app _ _ _ _ _ _ _ _ _ T1 T2)), <- app_assoc in E.
  exists o1, o2, u1, u2, u, b1, b2. split; [exact E1|]. split; [exact E2|]. split; [exact E|].
  unfold unused_text in X1, X2, X. destruct un.
  - split; [intros NU; exfalso; apply NU, UN; reflexivity|]. intros _. destruct X1 as (l1 & -> & _ & M1), X2 as (l2 & -> & _ & M2), X as (l & -> & SS & MM).
    exists (10 :: lit "Unused Instructions:"), l1, l2, l. repeat (split; [reflexivity|]). split; [exact SS|]. intros m. rewrite MM, M1, M2, concat_app. split.
    + intros [I O]. destruct (counts_split _ _ _ _ O) as (p & q & P & Q & Z). pose proof (proj1 (count_pos _ _ _ P)). pose proof (proj1 (count_pos _ _ _ Q)).
      assert (p = 0) by lia. assert (q = 0) by lia. subst. auto.
    + intros [[I O1] [_ O2]]. split; [exact I|]. exact (counts_app _ _ _ _ _ O1 O2).
  - split; [auto|]. intros I. apply UN in I. discriminate I.
Qed.
(*@ Example C173_check_ex : Forall2 (source sample) [lit "a.arg"] [sample_lines] /\ 
  skipn 2 (fst (fst (command sample_env sample CheckInstructions (lit "x.py") [lit "a.arg"]))) = [OutL (lit "1 error encountered.")] /\
  fst (fst (command sample_env sample CheckInstructions (lit "x.py") [lit "inc"])) = [OutL (lit "0 errors encountered.")] /\
  skipn 4 (fst (fst (command sample_env sample CheckInstructions (lit "x.py") [lit "a.arg"; lit "inc"; lit "a.arg"]))) = [OutL (lit "2 errors encountered.")].
Proof. split; [constructor; [exact sample_ok|constructor]|]. repeat split; vm_compute; reflexivity. Qed. @*)
Lemma C173_count_pf : forall fs prog words prog1 words1 prog2 words2 on verbose show files1 files2 outs1 outs2,
  understood (options CheckInstructions) words1 on files1 -> understood (options CheckInstructions) words2 on files2 ->
  understood (options CheckInstructions) words on (files1 ++ files2) -> turned_on on "verbose" verbose -> turned_on on "print-opcodes" show ->
  In (lit "count") on -> ~ In (lit "unused") on ->
  (exists x m, In x (concat outs1) /\ mnemonic_at (text_of x) m) -> (exists x m, In x (concat outs2) /\ mnemonic_at (text_of x) m) ->
  files1 <> [] -> files2 <> [] -> ~ In [] files1 -> ~ In [] files2 -> Forall2 (source fs) files1 outs1 -> Forall2 (source fs) files2 outs2 ->
  exists k, forall v, (k <= e_fuel v)%nat -> exists told1 told2 bad1 bad2 total1 total2 rows1 rows2 rows lines1 lines2,
    let report := fun lines total rows bad =>
      map OutL ([10 :: lit "Source lines: " ++ str_of_Z lines; 10 :: lit "Instruction Frequencies:"; freq_line (lit "Total") total (lit "100.00")] ++
                map (fun r => freq_line (fst r) (snd r) (e_pct v (snd r) total)) rows ++ [error_count bad]) in
    command v fs CheckInstructions prog1 words1 = (told1 ++ report lines1 total1 rows1 bad1, Exit 0, fs) /\
    command v fs CheckInstructions prog2 words2 = (told2 ++ report lines2 total2 rows2 bad2, Exit 0, fs) /\
    command v fs CheckInstructions prog words = (told1 ++ told2 ++ report (lines1 + lines2) (total1 + total2) rows (bad1 + bad2), Exit 0, fs) /\
    NoDup (map fst rows) /\
    forall m n, In (m, n) rows <-> exists n1 n2, In (m, n1) rows1 /\ In (m, n2) rows2 /\ n = n1 + n2.
Proof.
  intros fs prog words prog1 words1 prog2 words2 on verbose show files1 files2 outs1 outs2 U1 U2 U V D C NU (x1 & m1 & I1 & M1) (x2 & m2 & I2 & M2) NE1 NE2 N1 N2 S1 S2.
  assert (N : ~ In [] (files1 ++ files2)) by (intros X; apply in_app_or in X; tauto).
  assert (NE : files1 ++ files2 <> []) by (destruct files1; [contradiction|discriminate]).
  assert (UN : turned_on on "unused" false) by (split; [discriminate|intros X; contradiction]).
  assert (W : exists b, turned_on on "sort" b).
  { destruct (in_dec (list_eq_dec Z.eq_dec) (lit "sort") on) as [I|I]; [exists true|exists false]; split; intros X; try assumption; try reflexivity; [discriminate|contradiction]. }
  destruct W as (so & SO).
  destruct (count_ex (fun x => exists ls, mnemonic_fault x ls) (concat outs1) fault_dec) as (b1 & B1).
  destruct (count_ex (fun x => exists ls, mnemonic_fault x ls) (concat outs2) fault_dec) as (b2 & B2).
  assert (B := counts_app _ _ _ _ _ B1 B2). rewrite <- concat_app in B.
  assert (MD : forall x : srcline, (exists m, mnemonic_at (text_of x) m) \/ ~ (exists m, mnemonic_at (text_of x) m)).
  { intros x. destruct (mnemonic_dec (text_of x)) as [Y|Y]; [left; exact Y|right; intros (m & M); exact (Y m M)]. }
  destruct (count_ex (fun x => exists m, mnemonic_at (text_of x) m) (concat outs1) MD) as (t1 & CT1).
  destruct (count_ex (fun x => exists m, mnemonic_at (text_of x) m) (concat outs2) MD) as (t2 & CT2).
  assert (CT := counts_app _ _ _ _ _ CT1 CT2). rewrite <- concat_app in CT.
  pose proof (count_pos _ _ _ CT1) as P1. pose proof (count_pos _ _ _ CT2) as P2.
  assert (Z1 : t1 <> 0) by (intros Z; apply (proj1 (proj2 P1) Z x1 I1); eauto).
  assert (Z2 : t2 <> 0) by (intros Z; apply (proj1 (proj2 P2) Z x2 I2); eauto).
  assert (Z : t1 + t2 <> 0) by lia.
  destruct (C161_count_pf fs prog1 words1 on verbose show false so files1 outs1 b1 t1 U1 V D UN SO C NE1 N1 S1 B1 CT1 (or_introl Z1)) as (k1 & H1).
  destruct (C161_count_pf fs prog2 words2 on verbose show false so files2 outs2 b2 t2 U2 V D UN SO C NE2 N2 S2 B2 CT2 (or_introl Z2)) as (k2 & H2).
  destruct (C161_count_pf fs prog words on verbose show false so _ _ _ _ U V D UN SO C NE N (Forall2_app S1 S2) B CT (or_introl Z)) as (k3 & H3).
  exists (Nat.max k1 (Nat.max k2 k3)). intros v L.
  destruct (H1 v ltac:(lia)) as (o1 & r1 & u1 & E1 & T1 & ND1 & R1 & _ & X1), (H2 v ltac:(lia)) as (o2 & r2 & u2 & E2 & T2 & ND2 & R2 & _ & X2), (H3 v ltac:(lia)) as (o & r & u & E & T & ND & R & _ & X).
  unfold unused_text in X1, X2, X. subst u1 u2 u.
  rewrite (proj1 (C161_determined_pf _ _ _ _ _ _) _ T (told_app _ _ _ _ _ _ _ _ _ T1 T2)), <- app_assoc, concat_app, zlen_app in E.
  exists o1, o2, b1, b2, t1, t2, r1, r2, r, (zlen (concat outs1)), (zlen (concat outs2)). cbn zeta.
  split; [exact E1|]. split; [exact E2|]. split; [exact E|]. split; [exact ND|].
  intros m n. rewrite R, concat_app. split.
  - intros (I & O & _). destruct (counts_split _ _ _ _ O) as (p & q & P & Q & ->). exists p, q. split; [apply R1; split; [exact I|split; [exact P|discriminate]]|].
    split; [apply R2; split; [exact I|split; [exact Q|discriminate]]|reflexivity].
  - intros (n1 & n2 & J1 & J2 & ->). apply R1 in J1. apply R2 in J2. split; [apply J1|]. split; [apply counts_app; [apply J1|apply J2]|discriminate].
Qed.
(*@ Example C173_count_ex : Forall2 (source sample) [lit "a.arg"] [sample_lines] /\ 
  nth 7 (fst (fst (command sample_env sample CheckInstructions (lit "x.py") [lit "-c"; lit "a.arg"]))) (OutL []) = OutL (lit "ASSIGN        1   50.00%") /\
  nth 5 (fst (fst (command sample_env sample CheckInstructions (lit "x.py") [lit "-c"; lit "inc"]))) (OutL []) = OutL (lit "ASSIGN        1   50.00%") /\
  nth 7 (fst (fst (command sample_env sample CheckInstructions (lit "x.py") [lit "-c"; lit "a.arg"; lit "inc"]))) (OutL []) = OutL (lit "ASSIGN        2   50.00%").
Proof. split; [constructor; [exact sample_ok|constructor]|]. repeat split; vm_compute; reflexivity. Qed. @*)

(** *** the symbol tools *)
Lemma latest_or_not fs upper f out t u k : f <> [] -> source fs f out -> (exists x tt, latest upper out t u k x tt) \/ undefined_in upper out t u k.
Proof.
  intros N S. destruct (source_read fs f out N S) as (n & cs & A & K). pose proof (source_proper _ _ _ _ (K n (Nat.le_refl n))) as P.
  destruct (last_or_never upper (lit "1") t u k cs P) as [(c & tt & LD)|ND].
  - left. destruct (agrees_latest_1 _ _ _ _ _ _ _ _ A LD) as (x & _ & LA). eauto.
  - right. apply (agrees_never _ _ _ _ _ _ A). exact ND.
Qed.
Lemma latest_defined upper out t u k x tt : latest upper out t u k x tt -> ~ undefined_in upper out t u k.
Proof. intros (pre & post & E & D & S & _) N. exact (N _ _ _ _ E D S). Qed.
Lemma combine_both {A B} (a a' : list A) (b b' : list B) : List.length a = List.length b -> combine (a ++ a') (b ++ b') = combine a b ++ combine a' b'.
Proof. revert b. induction a as [|x a IH]; intros [|y b] E; try discriminate E; [reflexivity|]. cbn [app combine]. f_equal. apply IH. injection E as E. exact E. Qed.
Lemma F2_len {A B} (R : A -> B -> Prop) a b : Forall2 R a b -> List.length a = List.length b.
Proof. induction 1; cbn; congruence. Qed.
(** the definition of a key in several files, or none *)
Lemma defined_or_not fs upper files outs t s u k : ~ In [] files -> Forall2 (source fs) files outs ->
  (exists x tt, defined_at upper files outs t s u k x tt) \/
  (forall f out, In (f, out) (combine files outs) -> segment_of f s -> undefined_in upper out t u k).
Proof.
  intros N F. induction F as [|f out files outs S F IH]; [right; intros f out []|].
  destruct IH as [(x & tt & pre & g & o & post & E & H)|NO]; [intros I; apply N; right; exact I| |].
  - left. exists x, tt, ((f, out) :: pre), g, o, post. split; [cbn [combine]; rewrite E; reflexivity|exact H].
  - assert (SD : segment_of f s \/ ~ segment_of f s).
    { destruct (list_eq_dec Z.eq_dec (nth 0 (split_on 46 f) []) s) as [E|E]; [left|right]; [|intros X; apply E]; apply seg_ok; assumption || exact X. }
    destruct SD as [SG|SG].
    + destruct (latest_or_not fs upper f out t u k) as [(x & tt & L)|U]; [intros ->; apply N; left; reflexivity|exact S| |].
      * left. exists x, tt, [], f, out, (combine files outs). split; [reflexivity|]. split; [exact SG|]. split; [exact L|exact NO].
      * right. intros g o [E|I] SG'; [injection E as <- <-; exact U|exact (NO g o I SG')].
    + right. intros g o [E|I] SG'; [injection E as <- <-; contradiction|exact (NO g o I SG')].
Qed.
Lemma defined_app fs upper files1 outs1 files2 outs2 t s u k x tt : ~ In [] files2 -> Forall2 (source fs) files1 outs1 -> Forall2 (source fs) files2 outs2 ->
  (defined_at upper (files1 ++ files2) (outs1 ++ outs2) t s u k x tt <->
   defined_at upper files2 outs2 t s u k x tt \/
   (defined_at upper files1 outs1 t s u k x tt /\ forall y t', ~ defined_at upper files2 outs2 t s u k y t')).
Proof.
  intros N S1 S2. unfold defined_at at 1. rewrite (combine_both _ _ _ _ (F2_len _ _ _ S1)). split.
  - intros (pre & f & out & post & E & SG & L & NO). apply app_eq_app in E. destruct E as (l & [[E1 E2]|[E1 E2]]).
    + destruct l as [|[g o] l].
      * left. cbn [app] in E2. exists [], f, out, post. split; [symmetry; exact E2|auto].
      * injection E2 as <- <- E2. right. split.
        -- exists pre, f, out, l. split; [exact E1|]. split; [exact SG|]. split; [exact L|]. intros g o I. apply NO. rewrite E2. apply in_or_app. left. exact I.
        -- intros y t' (p & g & o & q & E & SG' & L' & _). apply (latest_defined _ _ _ _ _ _ _ L'). apply (NO g); [|exact SG'].
           rewrite E2, E. apply in_or_app. right. apply in_or_app. right. left. reflexivity.
    + left. exists l, f, out, post. auto.
  - intros [(pre & f & out & post & E & H)|[(pre & f & out & post & E & SG & L & NO) NO2]].
    + exists (combine files1 outs1 ++ pre), f, out, post. split; [rewrite E, app_assoc; reflexivity|exact H].
    + exists pre, f, out, (post ++ combine files2 outs2). split; [rewrite E, <- app_assoc; reflexivity|]. split; [exact SG|]. split; [exact L|].
      intros g o I SG'. apply in_app_or in I. destruct I as [I|I]; [exact (NO g o I SG')|].
      destruct (defined_or_not fs upper files2 outs2 t s u k N S2) as [(y & t' & D)|Q]; [exfalso; exact (NO2 _ _ D)|exact (Q g o I SG')].
Qed.
Lemma C173_list_pf : forall fs prog words prog1 words1 prog2 words2 on verbose files1 files2 outs1 outs2,
  understood (options ListSymbols) words1 on files1 -> understood (options ListSymbols) words2 on files2 ->
  understood (options ListSymbols) words on (files1 ++ files2) -> turned_on on "verbose" verbose ->
  files1 <> [] -> files2 <> [] -> ~ In [] files1 -> ~ In [] files2 -> plain_names (files1 ++ files2) ->
  Forall2 (source fs) files1 outs1 -> Forall2 (source fs) files2 outs2 ->
  exists k, forall v, (k <= e_fuel v)%nat -> exists said1 said2 said shown1 shown2 shown rows1 rows2 rows ns1 ns2,
    let final := fun ns => if total_of ns =? 0 then [] else [ErrL (str_of_Z (total_of ns) ++ lit " errors found")] in
    command v fs ListSymbols prog1 words1 = (said1 ++ map OutL shown1 ++ final ns1, Exit 0, fs) /\
    command v fs ListSymbols prog2 words2 = (said2 ++ map OutL shown2 ++ final ns2, Exit 0, fs) /\
    command v fs ListSymbols prog words = (said ++ map OutL shown ++ final (ns1 ++ ns2), Exit 0, fs) /\
    laid_out None rows1 shown1 /\ laid_out None rows2 shown2 /\ laid_out None rows shown /\
    StronglySorted (fun a b => key_lt (fst a) (fst b)) rows /\
    forall key y, In (key, y) rows <-> In (key, y) rows2 \/ (In (key, y) rows1 /\ forall y', ~ In (key, y') rows2).
Proof.
  intros fs prog words prog1 words1 prog2 words2 on verbose files1 files2 outs1 outs2 U1 U2 U V NE1 NE2 N1 N2 PN S1 S2.
  assert (N : ~ In [] (files1 ++ files2)) by (intros X; apply in_app_or in X; tauto).
  assert (NE : files1 ++ files2 <> []) by (destruct files1; [contradiction|discriminate]).
  assert (PN1 : plain_names files1) by (intros f s I; apply PN; apply in_or_app; left; exact I).
  assert (PN2 : plain_names files2) by (intros f s I; apply PN; apply in_or_app; right; exact I).
  destruct (C161_list_pf fs prog1 words1 on verbose files1 outs1 U1 V NE1 N1 PN1 S1) as (k1 & H1).
  destruct (C161_list_pf fs prog2 words2 on verbose files2 outs2 U2 V NE2 N2 PN2 S2) as (k2 & H2).
  destruct (C161_list_pf fs prog words on verbose _ _ U V NE N PN (Forall2_app S1 S2)) as (k3 & H3).
  exists (Nat.max k1 (Nat.max k2 k3)). intros v L.
  destruct (H1 v ltac:(lia)) as (a1 & h1 & r1 & n1 & E1 & T1 & LO1 & SS1 & R1), (H2 v ltac:(lia)) as (a2 & h2 & r2 & n2 & E2 & T2 & LO2 & SS2 & R2),
    (H3 v ltac:(lia)) as (a & h & r & n & E & T & LO & SS & R).
  pose proof (numbers_app _ _ _ _ _ _ _ _ _ _ _ _ _ _ _ T1 T2 T) as EN. subst n.
  exists a1, a2, a, h1, h2, h, r1, r2, r, n1, n2. cbn zeta. split; [exact E1|]. split; [exact E2|]. split; [exact E|]. repeat (split; [assumption|]).
  assert (RX : forall kd x tt, exists y, symbol_row kd x tt y).
  { intros kd [[f i] l] tt. eexists. exists (nth 0 (split_on 46 f) []). split; [apply seg_ok; reflexivity|reflexivity]. }
  intros [[[t s] u] kd] y. rewrite R, R1, R2. split.
  - intros (x & tt & D & Y). apply (defined_app fs _ _ _ _ _ _ _ _ _ _ _ N2 S1 S2) in D. destruct D as [D|[D NO]]; [left; eauto|right]. split; [eauto|].
    intros y' I. apply R2 in I. destruct I as (x' & t' & D' & _). exact (NO _ _ D').
  - intros [(x & tt & D & Y)|[(x & tt & D & Y) NO]]; exists x, tt; (split; [|exact Y]); apply (defined_app fs _ _ _ _ _ _ _ _ _ _ _ N2 S1 S2); [left; exact D|right].
    split; [exact D|]. intros x' t' D'. destruct (RX kd x' t') as (y' & Y'). apply (NO y'). apply R2. eauto.
Qed.
(*@ Example C173_list_ex :
  let two := fun f => if eqb f (lit "x.1") then Some (lit "        N          ASSIGN       5") else
                      if eqb f (lit "x.2") then Some (lit "        N          ASSIGN       6" ++ [10] ++ lit "        M          DA") else None in
  let run := fun files => fst (fst (command sample_env two ListSymbols (lit "x.py") files)) in
  run [lit "x.1"] = [OutL (lit "N"); OutL (lit "  Segment: x"); OutL (lit "    Subsegment: 1");
                     OutL (lit "        <complex>   x:1                                                 N          ASSIGN       5")] /\
  run [lit "x.1"; lit "x.2"] =
    [OutL (lit "M"); OutL (lit "  Segment: x"); OutL (lit "    Subsegment: 1");
     OutL (lit "        <simple>    x:2                                                 M          DA");
     OutL (lit "N"); OutL (lit "  Segment: x"); OutL (lit "    Subsegment: 1");
     OutL (lit "        <complex>   x:1                                                 N          ASSIGN       6")] /\
  run [lit "x.2"; lit "x.1"] =
    [OutL (lit "M"); OutL (lit "  Segment: x"); OutL (lit "    Subsegment: 1");
     OutL (lit "        <simple>    x:2                                                 M          DA");
     OutL (lit "N"); OutL (lit "  Segment: x"); OutL (lit "    Subsegment: 1");
     OutL (lit "        <complex>   x:1                                                 N          ASSIGN       5")].
Proof. repeat split; vm_compute; reflexivity. Qed. @*)
Lemma C173_names_pf : forall fs prog words prog1 words1 prog2 words2 on verbose b symbol files1 files2 outs1 outs2,
  understood (options FindSymbols) words1 on (symbol :: files1) -> understood (options FindSymbols) words2 on (symbol :: files2) ->
  understood (options FindSymbols) words on (symbol :: files1 ++ files2) -> turned_on on "verbose" verbose ->
  turned_on on "begin" b -> turned_on on "end" (negb b) -> (forall x, In x ["fuzzy"; "exact"]%string -> ~ In (lit x) on) ->
  files1 <> [] -> files2 <> [] -> ~ In [] files1 -> ~ In [] files2 -> plain_names (files1 ++ files2) ->
  Forall2 (source fs) files1 outs1 -> Forall2 (source fs) files2 outs2 ->
  exists k, forall v, (k <= e_fuel v)%nat -> exists said1 said2 said names1 names2 names,
    let answer := fun l => if zlen l =? 0 then [] else [OutL (names_text (e_rep v) l)] in
    command v fs FindSymbols prog1 words1 = (said1 ++ answer names1, Exit 0, fs) /\ command v fs FindSymbols prog2 words2 = (said2 ++ answer names2, Exit 0, fs) /\
    command v fs FindSymbols prog words = (said ++ answer names, Exit 0, fs) /\
    StronglySorted str_lt names /\ forall s, In s names <-> In s names1 \/ In s names2.
Proof.
  intros fs prog words prog1 words1 prog2 words2 on verbose b symbol files1 files2 outs1 outs2 U1 U2 U V B EN O NE1 NE2 N1 N2 PN S1 S2.
  assert (N : ~ In [] (files1 ++ files2)) by (intros X; apply in_app_or in X; tauto).
  assert (NE : files1 ++ files2 <> []) by (destruct files1; [contradiction|discriminate]).
  assert (PN1 : plain_names files1) by (intros f s I; apply PN; apply in_or_app; left; exact I).
  assert (PN2 : plain_names files2) by (intros f s I; apply PN; apply in_or_app; right; exact I).
  destruct (C161_names_pf fs prog1 words1 on verbose b files1 outs1 symbol U1 V B EN O NE1 N1 PN1 S1) as (k1 & H1).
  destruct (C161_names_pf fs prog2 words2 on verbose b files2 outs2 symbol U2 V B EN O NE2 N2 PN2 S2) as (k2 & H2).
  destruct (C161_names_pf fs prog words on verbose b _ _ symbol U V B EN O NE N PN (Forall2_app S1 S2)) as (k3 & H3).
  exists (Nat.max k1 (Nat.max k2 k3)). intros v L.
  destruct (H1 v ltac:(lia)) as (a1 & n1 & l1 & _ & E1 & _ & R1), (H2 v ltac:(lia)) as (a2 & n2 & l2 & _ & E2 & _ & R2), (H3 v ltac:(lia)) as (a & n & l & _ & E & SS & R).
  exists a1, a2, a, l1, l2, l. cbn zeta. repeat (split; [assumption|]). intros s. rewrite R, R1, R2. split.
  - intros ((out & x & kd & tt & I & J) & H). apply in_app_or in I. destruct I as [I|I]; [left|right]; (split; [|exact H]); exists out, x, kd, tt; auto.
  - intros [((out & x & kd & tt & I & J) & H)|((out & x & kd & tt & I & J) & H)]; (split; [|exact H]); exists out, x, kd, tt; (split; [apply in_or_app; auto|exact J]).
Qed.
(*@ Example C173_names_ex : Forall2 (source sample) [lit "a.arg"] [sample_lines] /\ 
  skipn 3 (fst (fst (command sample_env sample FindSymbols (lit "x.py") [lit "-b"; lit ""; lit "a.arg"]))) = [OutL (lit "[A, N]")] /\
  skipn 3 (fst (fst (command sample_env sample FindSymbols (lit "x.py") [lit "-b"; lit ""; lit "inc"]))) = [OutL (lit "[N]")] /\
  skipn 6 (fst (fst (command sample_env sample FindSymbols (lit "x.py") [lit "-b"; lit ""; lit "inc"; lit "a.arg"]))) = [OutL (lit "[A, N]")].
Proof. split; [constructor; [exact sample_ok|constructor]|]. repeat split; vm_compute; reflexivity. Qed. @*)
Lemma C173_symbols_pf : forall fs prog words prog1 words1 prog2 words2 on verbose complex files1 files2 outs1 outs2,
  understood (options CheckSymbols) words1 on files1 -> understood (options CheckSymbols) words2 on files2 ->
  understood (options CheckSymbols) words on (files1 ++ files2) -> turned_on on "verbose" verbose -> turned_on on "complex" complex ->
  files1 <> [] -> files2 <> [] -> ~ In [] files1 -> ~ In [] files2 -> plain_names (files1 ++ files2) ->
  Forall2 (source fs) files1 outs1 -> Forall2 (source fs) files2 outs2 ->
  exists k, forall v, (k <= e_fuel v)%nat -> exists said1 said2 said syms1 syms2 syms rest1 rest2 rest ns1 ns2,
    let blamed := map (fun s => ErrL (lit "ERROR: symbol """ ++ s ++ lit """ has a complex assignment, but no simple assignment!")) in
    command v fs CheckSymbols prog1 words1 = (said1 ++ blamed syms1 ++ rest1, Exit 0, fs) /\
    command v fs CheckSymbols prog2 words2 = (said2 ++ blamed syms2 ++ rest2, Exit 0, fs) /\
    command v fs CheckSymbols prog words =
      (said ++ blamed syms ++ rest ++
       [ErrL (lit "Total: " ++ str_of_Z (total_of ns1 + total_of ns2 + zlen syms) ++ lit " errors encountered.")], Exit 0, fs) /\
    labels_told fs (e_upper v) (e_rep v) verbose true files1 outs1 ns1 said1 /\ labels_told fs (e_upper v) (e_rep v) verbose true files2 outs2 ns2 said2 /\
    labels_told fs (e_upper v) (e_rep v) verbose true (files1 ++ files2) (outs1 ++ outs2) (ns1 ++ ns2) said /\
    forall s, In s syms <-> (In s syms1 \/ In s syms2) /\
      ~ exists x tt, (In x (concat outs1) \/ In x (concat outs2)) /\ line_defines (e_upper v) (text_of x) s (lit "simple") tt.
Proof.
  intros fs prog words prog1 words1 prog2 words2 on verbose complex files1 files2 outs1 outs2 U1 U2 U V C NE1 NE2 N1 N2 PN S1 S2.
  assert (N : ~ In [] (files1 ++ files2)) by (intros X; apply in_app_or in X; tauto).
  assert (NE : files1 ++ files2 <> []) by (destruct files1; [contradiction|discriminate]).
  assert (PN1 : plain_names files1) by (intros f s I; apply PN; apply in_or_app; left; exact I).
  assert (PN2 : plain_names files2) by (intros f s I; apply PN; apply in_or_app; right; exact I).
  destruct (C161_symbols_pf fs prog1 words1 on verbose complex files1 outs1 U1 V C NE1 N1 PN1 S1) as (k1 & H1).
  destruct (C161_symbols_pf fs prog2 words2 on verbose complex files2 outs2 U2 V C NE2 N2 PN2 S2) as (k2 & H2).
  destruct (C161_symbols_pf fs prog words on verbose complex _ _ U V C NE N PN (Forall2_app S1 S2)) as (k3 & H3).
  exists (Nat.max k1 (Nat.max k2 k3)). intros v L.
  destruct (H1 v ltac:(lia)) as (a1 & y1 & c1 & p1 & t1 & n1 & E1 & T1 & _ & R1 & _ & _ & _), (H2 v ltac:(lia)) as (a2 & y2 & c2 & p2 & t2 & n2 & E2 & T2 & _ & R2 & _ & _ & _),
    (H3 v ltac:(lia)) as (a & y & c & p & t & n & E & T & _ & R & _ & _ & TP).
  pose proof (numbers_app _ _ _ _ _ _ _ _ _ _ _ _ _ _ _ T1 T2 T) as EN. subst n. rewrite total_app in TP.
  destruct TP as [[Q _]|[_ ->]].
  { exfalso. rewrite zlen_app in Q. destruct files1, files2; try contradiction. rewrite !zlen_cons in Q. pose proof (zlen_nonneg files1). pose proof (zlen_nonneg files2). lia. }
  exists a1, a2, a, y1, y2, y. eexists (_ ++ _), (_ ++ _), p, n1, n2. cbn zeta. split; [exact E1|]. split; [exact E2|]. split; [exact E|]. repeat (split; [assumption|]).
  assert (SP : forall s kind, (exists out x tt, In out (outs1 ++ outs2) /\ In x out /\ line_defines (e_upper v) (text_of x) s kind tt) <->
    (exists out x tt, In out outs1 /\ In x out /\ line_defines (e_upper v) (text_of x) s kind tt) \/
    (exists out x tt, In out outs2 /\ In x out /\ line_defines (e_upper v) (text_of x) s kind tt)).
  { intros s kind. split.
    - intros (out & x & tt & I & J). apply in_app_or in I. destruct I; [left|right]; eauto.
    - intros [(out & x & tt & I & J)|(out & x & tt & I & J)]; exists out, x, tt; (split; [apply in_or_app; auto|exact J]). }
  assert (SS : forall s, (exists x tt, (In x (concat outs1) \/ In x (concat outs2)) /\ line_defines (e_upper v) (text_of x) s (lit "simple") tt) <->
    (exists out x tt, In out (outs1 ++ outs2) /\ In x out /\ line_defines (e_upper v) (text_of x) s (lit "simple") tt)).
  { intros s. split.
    - intros (x & tt & I & D). assert (J : In x (concat (outs1 ++ outs2))) by (rewrite concat_app; apply in_or_app; exact I).
      apply in_concat in J. destruct J as (out & J & K). exists out, x, tt. auto.
    - intros (out & x & tt & I & J & D). exists x, tt. split; [|exact D]. apply in_app_or. rewrite <- concat_app. apply in_concat. eauto. }
  intros s. rewrite SS, R, R1, R2, !SP. tauto.
Qed.
(*@ Example C173_symbols_ex : Forall2 (source sample) [lit "a.arg"] [sample_lines] /\ 
  nth 3 (fst (fst (command sample_env sample CheckSymbols (lit "x.py") [lit "-c"; lit "a.arg"]))) (OutL []) = ErrL (lit "ERROR: symbol ""N"" has a complex assignment, but no simple assignment!") /\
  nth 3 (fst (fst (command sample_env sample CheckSymbols (lit "x.py") [lit "-c"; lit "inc"]))) (OutL []) = ErrL (lit "ERROR: symbol ""N"" has a complex assignment, but no simple assignment!") /\
  nth 6 (fst (fst (command sample_env sample CheckSymbols (lit "x.py") [lit "-c"; lit "inc"; lit "a.arg"]))) (OutL []) = ErrL (lit "ERROR: symbol ""N"" has a complex assignment, but no simple assignment!") /\
  last (fst (fst (command sample_env sample CheckSymbols (lit "x.py") [lit "-c"; lit "inc"; lit "a.arg"]))) (OutL []) = ErrL (lit "Total: 3 errors encountered.").
Proof. split; [constructor; [exact sample_ok|constructor]|]. repeat split; vm_compute; reflexivity. Qed. @*)
