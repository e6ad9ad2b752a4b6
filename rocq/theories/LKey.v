(** Only some columns matter: C172. *)
From Coq Require Import ZArith List Bool Lia Sorted.
From Verif Require Import Py LPy MInstruction MCards SCards LCards LDeck MSymbols SSymbols LSymBuild LSymQuery MInstructions MTools STools LTools LToolSym MDiag SDiag LDiag MDump SDump MVerbose SVerbose LVerbose SOrder LOrder STranscript LTranscript MOptions SOptions LOptions MProcess SProcess LProcess SEnds LEnds SSource LSource SFound STextSym LTextSym SIdle LIdle SReport LReport SUnread LUnread SSwap LGen LLabel LPlaces LSwap SAgree LAgree SKey.
#[local] Arguments Z.add : simpl never.
#[local] Arguments Z.sub : simpl never.
#[local] Arguments Z.mul : simpl never.
#[local] Arguments Z.pow : simpl never.

Lemma trimmed_left s t : trimmed s t -> t <> [] -> filter (fun c => negb (c =? 32)) t <> [].
Proof.
  intros T N. destruct t as [|c t]; [contradiction|]. destruct T as (pre & post & _ & _ & _ & H & _).
  specialize (H c t eq_refl). cbn [filter]. destruct (Z.eqb_spec c 32) as [->|]; cbn [negb]; [|discriminate].
  destruct H. unfold white. cbn [In]. tauto.
Qed.
Lemma key_alike x y : same_key x y -> alike (text_of x) (text_of y).
Proof.
  intros (R & S & [RM|((t & t' & T & T' & F) & (u & U & U'))]); (split; [exact S|]); split.
  - intros op. unfold operation_of. rewrite R in *. split; intros (N & _); contradiction.
  - intros s. unfold label_of. rewrite R in *. split; intros (N & _); contradiction.
  - intros op. unfold operation_of. rewrite R. split; intros (N & A & H); (split; [exact N|]); (split; [|exact H]).
    + rewrite (trimmed_unique _ _ _ A U). exact U'.
    + rewrite (trimmed_unique _ _ _ A U'). exact U.
  - intros s. unfold label_of. rewrite R. split; intros (N & l & A & H & E); (split; [exact N|]).
    + rewrite (trimmed_unique _ _ _ A T) in *. exists t'. split; [exact T'|]. split; [|congruence].
      intros ->. cbn in F. exact (trimmed_left _ _ T H F).
    + rewrite (trimmed_unique _ _ _ A T') in *. exists t. split; [exact T|]. split; [|congruence].
      intros ->. cbn in F. exact (trimmed_left _ _ T' H (eq_sym F)).
Qed.
Lemma key_sym x y : same_key x y -> same_key y x.
Proof.
  intros (R & S & H). split; [symmetry; exact R|]. split; [symmetry; exact S|].
  destruct H as [H|((t & t' & T & T' & F) & (u & U & U'))]; [left; apply R; exact H|right]. split; [|eauto]. exists t', t. auto.
Qed.
Lemma keys_sym a b : Forall2 same_key a b -> Forall2 same_key b a.
Proof. induction 1; constructor; [apply key_sym; assumption|assumption]. Qed.
Lemma all_sym a b : Forall2 (Forall2 same_key) a b -> Forall2 (Forall2 same_key) b a.
Proof. induction 1; constructor; [apply keys_sym; assumption|assumption]. Qed.
Lemma key_count (P : srcline -> Prop) a b n : (forall x y, same_key x y -> (P x <-> P y)) -> Forall2 same_key a b -> count_of P a n -> count_of P b n.
Proof.
  intros H F. revert n. induction F as [|x y a b M _ IH]; intros n C; inversion C; subst; [constructor| |].
  - apply cn_yes; [apply (H _ _ M); assumption|apply IH; assumption].
  - apply cn_no; [rewrite <- (H _ _ M); assumption|apply IH; assumption].
Qed.
Lemma key_fault x y : same_key x y -> ((exists ls, mnemonic_fault x ls) <-> exists ls, mnemonic_fault y ls).
Proof.
  intros K. pose proof (key_alike _ _ K) as A. destruct K as (_ & S & _). destruct x as [[f i] l], y as [[g j] l']. cbn [text_of snd] in A, S.
  split; intros (ls & N & m & M & I & _); eexists; (split; [rewrite S in * || rewrite <- S in *; exact N|]); exists m; (split; [apply (alike_mnemonic _ _ _ A); exact M|split; [exact I|reflexivity]]).
Qed.
Lemma key_occurs a b m n : Forall2 same_key a b -> (occurs a m n <-> occurs b m n).
Proof.
  assert (H : forall x y, same_key x y -> ((~ starred_line (text_of x) /\ mnemonic_at (text_of x) m) <-> (~ starred_line (text_of y) /\ mnemonic_at (text_of y) m))).
  { intros x y K. pose proof (key_alike _ _ K) as A. destruct K as (_ & S & _). rewrite S, (alike_mnemonic _ _ _ A). reflexivity. }
  intros F. split; apply key_count; [exact H|exact F|exact H|exact (keys_sym _ _ F)].
Qed.
Lemma key_len {A B} (R : A -> B -> Prop) a b : Forall2 R a b -> zlen a = zlen b.
Proof. induction 1; [reflexivity|]. rewrite !zlen_cons. lia. Qed.
Lemma concat_keys a b : Forall2 (Forall2 same_key) a b -> Forall2 same_key (concat a) (concat b).
Proof. induction 1; cbn [concat]; [constructor|]. apply Forall2_app; assumption. Qed.
Lemma unused_same a b w l l' : Forall2 same_key a b -> unused_text a w l -> unused_text b w l' -> l = l'.
Proof.
  intros F. unfold unused_text. destruct w; [|congruence]. intros (ms & -> & SS & M) (ms' & -> & SS' & M'). f_equal. apply same_sorted; [exact SS|exact SS'|].
  intros m. rewrite M, M', (key_occurs _ _ _ _ F). reflexivity.
Qed.

(** *** two sources that differ in their log numbers, addresses and remarks *)
Lemma key_computes f i g j l l' : columns l 1 1 = columns l' 1 1 -> columns l 8 8 = columns l' 8 8 ->
  hd 0 l = 82 \/ (filter (fun c => negb (c =? 32)) (strip (columns l 9 19)) = filter (fun c => negb (c =? 32)) (strip (columns l' 9 19)) /\ strip (columns l 20 32) = strip (columns l' 20 32)) -> same_key (f, i, l) (g, j, l').
Proof.
  assert (NE : forall n (a : str), nth_error a n = hd_error (firstn 1 (skipn n a))).
  { induction n as [|n IH]; intros [|x a]; cbn; try reflexivity. apply IH. }
  assert (ND : forall n (a b : str), firstn 1 (skipn n a) = firstn 1 (skipn n b) -> nth_error a n = nth_error b n) by (intros n a b E; rewrite !NE, E; reflexivity).
  intros C1 C8 H. unfold same_key. cbn [text_of snd]. unfold remark_line, starred_line.
  rewrite (ND 0%nat l l' C1), (ND 7%nat l l' C8). split; [reflexivity|]. split; [reflexivity|]. destruct H as [H|[L O]].
  - left. rewrite <- (ND 0%nat l l' C1). destruct l as [|c l]; cbn in H; [discriminate|]. subst c. exists 82. split; [reflexivity|right; left; reflexivity].
  - right. split; [exists (strip (columns l 9 19)), (strip (columns l' 9 19)); repeat split; [apply strip_trimmed|apply strip_trimmed|exact L]|exists (strip (columns l 20 32)); split; [|rewrite O]; apply strip_trimmed].
Qed.
Definition other (f : str) : option str :=
  if eqb f (lit "a.arg") then
    Some (lit "# sample" ++ [10] ++ lit "$ inc" ++ [13; 10] ++
          lit "  77    A          DA,B" ++ [10] ++ lit "R       ANOTHER REMARK" ++ [10] ++
          lit "       *           FOO          7" ++ [10] ++ lit "  13    A          FOO          2             3")
  else if eqb f (lit "inc") then Some (lit "        N          ASSIGN       6" ++ [10] ++ lit "   1    x" ++ [10]) else None.
Definition other_lines : list srcline :=
  [(lit "inc", 1, lit "        N          ASSIGN       6" ++ [10]); (lit "inc", 2, lit "   1    x" ++ [10]);
   (lit "a.arg", 3, lit "  77    A          DA,B" ++ [10]); (lit "a.arg", 4, lit "R       ANOTHER REMARK" ++ [10]);
   (lit "a.arg", 5, lit "       *           FOO          7" ++ [10]); (lit "a.arg", 6, lit "  13    A          FOO          2             3")].
Lemma other_ok : source other (lit "a.arg") other_lines.
Proof.
  apply (proj1 (expand_source other)).
  eapply ex_file; [reflexivity|]. match goal with |- expand_lines _ _ _ ?l _ => let l' := eval vm_compute in l in change l with l' end.
  apply ex_comment; [eexists; reflexivity|].
  eapply (ex_include other (lit "a.arg") _ _ (lit "inc") _ [_; _]).
  - eexists. split; [reflexivity|]. exists [32], [10]. split; [reflexivity|]. split; [repeat constructor; apply white_ok; reflexivity|].
    split; [discriminate|]. split; [repeat constructor; apply not_white; reflexivity|]. right. exists 10, []. split; [reflexivity|apply white_ok; reflexivity].
  - eapply ex_file; [reflexivity|]. match goal with |- expand_lines _ _ _ ?l _ => let l' := eval vm_compute in l in change l with l' end.
    repeat (apply ex_card; [intros (r & E); discriminate E|intros (r & E); discriminate E|]). constructor.
  - repeat (apply ex_card; [intros (r & E); discriminate E|intros (r & E); discriminate E|]). constructor.
Qed.
Lemma other_keys : Forall2 (Forall2 same_key) [sample_lines] [other_lines].
Proof. constructor; [|constructor]. repeat (constructor; [apply key_computes; [vm_compute; reflexivity|vm_compute; reflexivity|vm_compute; auto]|]). constructor. Qed.

Lemma C172_check_pf : forall fs fs' prog words prog' words' on verbose show files outs outs',
  understood (options CheckInstructions) words on files -> understood (options CheckInstructions) words' on files ->
  turned_on on "verbose" verbose -> turned_on on "print-opcodes" show ->
  (In (lit "count") on -> In (lit "unused") on \/ exists x m, In x (concat outs) /\ mnemonic_at (text_of x) m) ->
  files <> [] -> ~ In [] files -> Forall2 (source fs) files outs -> Forall2 (source fs') files outs' -> Forall2 (Forall2 same_key) outs outs' ->
  exists k, forall v, (k <= e_fuel v)%nat -> exists told told' report,
    command v fs CheckInstructions prog words = (told ++ map OutL report, Exit 0, fs) /\
    command v fs' CheckInstructions prog' words' = (told' ++ map OutL report, Exit 0, fs') /\
    lines_told fs verbose (line_report verbose show) files outs told /\ lines_told fs' verbose (line_report verbose show) files outs' told'.
Proof.
  intros fs fs' prog words prog' words' on verbose show files outs outs' U U' V SH CO NE N S S' K.
  pose proof (concat_keys _ _ K) as F.
  assert (W : forall (o : list str) l, exists b, turned_on o l b).
  { intros o l. destruct (in_dec (list_eq_dec Z.eq_dec) (lit l) o) as [I|I]; [exists true|exists false]; split; intros X; try assumption; try reflexivity; [discriminate|contradiction]. }
  destruct (W on "unused"%string) as (un & UN), (W on "sort"%string) as (so & SO), (W on "count"%string) as (co & CN).
  destruct (count_ex (fun x => exists ls, mnemonic_fault x ls) (concat outs) fault_dec) as (bad & B).
  assert (B' := key_count _ _ _ _ key_fault F B).
  destruct co.
  - assert (C := proj1 CN eq_refl).
    destruct (count_ex (fun x => exists m, mnemonic_at (text_of x) m) (concat outs)) as (total & CT).
    { intros x. destruct (mnemonic_dec (text_of x)) as [Y|Y]; [left; exact Y|right; intros (m & M); exact (Y m M)]. }
    assert (CT' : count_of (fun x => exists m, mnemonic_at (text_of x) m) (concat outs') total).
    { apply (key_count _ (concat outs)); [|exact F|exact CT]. intros x y Q. pose proof (key_alike _ _ Q) as A. split; intros (m & M); exists m; apply (alike_mnemonic _ _ _ A); exact M. }
    assert (TT : total <> 0 \/ un = true).
    { destruct (CO C) as [I|(x & m & I & M)]; [right; apply UN; exact I|left]. intros ->. apply count_pos in CT. destruct CT as [_ CT].
      apply (proj1 CT eq_refl x I). eauto. }
    destruct (C161_count_pf fs prog words on verbose show un so files outs bad total U V SH UN SO C NE N S B CT TT) as (k & H).
    destruct (C161_count_pf fs' prog' words' on verbose show un so files outs' bad total U' V SH UN SO C NE N S' B' CT' TT) as (k' & H').
    exists (Nat.max k k'). intros v L. destruct (H v ltac:(lia)) as (told & rows & u & E & T & ND & R & SR & UT). destruct (H' v ltac:(lia)) as (told' & rows' & u' & E' & T' & ND' & R' & SR' & UT').
    assert (EI : forall r, In r rows' <-> In r rows) by (intros [m n]; rewrite R, R', (key_occurs _ _ _ _ F); reflexivity).
    assert (rows' = rows).
    { destruct so.
      - apply (same_sorted_by by_frequency); [exact frequency_asym|exact SR'|exact SR|exact EI].
      - apply (same_sorted_by (fun a b => str_lt (fst a) (fst b))); [intros a b A0 B0; exact (str_lt_asym _ _ A0 B0)|exact SR'|exact SR|exact EI]. }
    subst rows'. rewrite <- (unused_same _ _ _ _ _ F UT UT'), <- (key_len _ _ _ F) in E'. exists told, told'. eexists. eauto 6.
  - assert (C : ~ In (lit "count") on) by (intros I; apply CN in I; discriminate I).
    destruct (C161_check_pf fs prog words on verbose show un files outs bad U V SH UN C NE N S B) as (k & H).
    destruct (C161_check_pf fs' prog' words' on verbose show un files outs' bad U' V SH UN C NE N S' B') as (k' & H').
    exists (Nat.max k k'). intros v L. destruct (H v ltac:(lia)) as (told & u & E & T & UT). destruct (H' v ltac:(lia)) as (told' & u' & E' & T' & UT').
    rewrite <- (unused_same _ _ _ _ _ F UT UT') in E'. exists told, told'. eexists. eauto 6.
Qed.
(*@ Example C172_check_ex : Forall2 (source sample) [lit "a.arg"] [sample_lines] /\ Forall2 (source other) [lit "a.arg"] [other_lines] /\
  Forall2 (Forall2 same_key) [sample_lines] [other_lines] /\
  same_key (lit "a", 3, lit "        LOOP       DA") (lit "inc", 7, lit "   12     LO OP    DA           X") /\
  skipn 2 (fst (fst (command sample_env sample CheckInstructions (lit "x.py") [lit "a.arg"]))) = [OutL (lit "1 error encountered.")] /\
  skipn 2 (fst (fst (command sample_env other CheckInstructions (lit "x.py") [lit "a.arg"]))) = [OutL (lit "1 error encountered.")].
Proof. split; [constructor; [exact sample_ok|constructor]|]. split; [constructor; [exact other_ok|constructor]|]. split; [exact other_keys|]. split; [apply key_computes; vm_compute; auto|]. repeat (split; [vm_compute; reflexivity|]); vm_compute; reflexivity. Qed. @*)

(** *** list-instructions *)
Lemma key_found opcode details x y z : same_key x y -> line_found opcode details x z -> z = line_shown details x /\ line_found opcode details y (line_shown details y).
Proof.
  intros K. pose proof (key_alike _ _ K) as A. destruct K as (_ & S & _). destruct x as [[f i] l], y as [[g j] l']. cbn [text_of snd] in A, S.
  intros (N & (op & O & M) & ->). split; [reflexivity|]. split; [rewrite <- S; exact N|]. split; [|reflexivity]. exists op. split; [apply A; exact O|exact M].
Qed.
Lemma key_searched opcode details x y ls ls' : same_key x y -> search_report false details opcode x ls -> search_report false details opcode y ls' ->
  (ls = [] /\ ls' = []) \/ (ls = [OutL (line_shown details x)] /\ ls' = [OutL (line_shown details y)]).
Proof.
  intros K R R'. destruct (search_length _ _ _ _ R) as [[(z & Z) L]|[Z ->]], (search_length _ _ _ _ R') as [[(z' & Z') L']|[Z' ->]].
  - right. destruct (key_found _ _ _ _ _ K Z) as [EZ _], (key_found _ _ _ _ _ (key_sym _ _ K) Z') as [EZ' _]. subst z z'.
    split; [apply (search_unique _ _ _ _ _ _ R)|apply (search_unique _ _ _ _ _ _ R')]; apply sr_found; assumption.
  - exfalso. apply Z'. exists (line_shown details y). exact (proj2 (key_found _ _ _ _ _ K Z)).
  - exfalso. apply Z. exists (line_shown details x). exact (proj2 (key_found _ _ _ _ _ (key_sym _ _ K) Z')).
  - left. auto.
Qed.
Lemma C172_found_pf : forall (R : srcline -> srcline -> Prop) fs fs' prog words prog' words' on details opcode m files outs outs', (forall x y, R x y -> same_key x y) ->
  understood (options ListInstructions) words on (opcode :: files) -> understood (options ListInstructions) words' on (opcode :: files) ->
  ~ In (lit "verbose") on -> turned_on on "details" details -> mnemonic_of opcode m -> In m INSTRUCTIONS ->
  ~ In [] files -> Forall2 (source fs) files outs -> Forall2 (source fs') files outs' -> Forall2 (Forall2 R) outs outs' ->
  exists k, forall v, (k <= e_fuel v)%nat -> exists found,
    command v fs ListInstructions prog words = (map (fun p => OutL (line_shown details (fst p))) found, Exit 0, fs) /\
    command v fs' ListInstructions prog' words' = (map (fun p => OutL (line_shown details (snd p))) found, Exit 0, fs') /\
    Forall (fun p => R (fst p) (snd p) /\ In (fst p) (concat outs) /\ In (snd p) (concat outs')) found.
Proof.
  intros R fs fs' prog words prog' words' on details opcode m files outs outs' HR U U' V D M I N S S' K.
  assert (V' : turned_on on "verbose" false) by (split; [discriminate|intros X; contradiction]).
  destruct (C161_search_pf fs prog words on false details opcode m files outs U V' D M I N S) as (k & H).
  destruct (C161_search_pf fs' prog' words' on false details opcode m files outs' U' V' D M I N S') as (k' & H').
  exists (Nat.max k k'). intros v L. destruct (H v ltac:(lia)) as (told & E & T). destruct (H' v ltac:(lia)) as (told' & E' & T').
  assert (Q : exists found, told = map (fun p => OutL (line_shown details (fst p))) found /\ told' = map (fun p => OutL (line_shown details (snd p))) found /\
              Forall (fun p => R (fst p) (snd p) /\ In (fst p) (concat outs) /\ In (snd p) (concat outs')) found).
  { clear - HR K T T'. revert outs' told' K T'. induction T as [|f files out outs log lss ls _ F _ IH]; intros outs' told' K T'; inversion K as [|? out' ? outs2 K1 K2]; subst;
      inversion T' as [|? ? ? ? log' lss' ls' _ F' T2]; subst; [exists []; repeat split; constructor|].
    destruct (IH _ _ K2 T2) as (fd & -> & -> & FD). cbn [app concat]. clear IH T2 T'.
    revert lss lss' F F' FD. generalize (concat outs) (concat outs2). clear K K2 outs outs2. intros r r'.
    induction K1 as [|x y out out' KX _ IH]; intros lss lss' F F' FD; inversion F as [|? a ? lss2 R1 F2]; subst; inversion F' as [|? a' ? lss2' R1' F2']; subst.
    - exists fd. auto.
    - cbn [concat]. destruct (IH _ _ F2 F2' FD) as (g & G & G' & GF).
      assert (GF' : Forall (fun p => R (fst p) (snd p) /\ In (fst p) ((x :: out) ++ r) /\ In (snd p) ((y :: out') ++ r')) g).
      { eapply Forall_impl; [|exact GF]. intros p (A & B & C). split; [exact A|]. split; right; assumption. }
      rewrite <- !app_assoc, G, G'. destruct (key_searched _ _ _ _ _ _ (HR _ _ KX) R1 R1') as [[-> ->]|[-> ->]].
      + exists g. auto.
      + exists ((x, y) :: g). split; [reflexivity|]. split; [reflexivity|]. constructor; [|exact GF']. split; [exact KX|]. split; left; reflexivity. }
  destruct Q as (found & -> & -> & F). exists found. auto.
Qed.
(*@ Example C172_found_ex : Forall2 (source sample) [lit "a.arg"] [sample_lines] /\ Forall2 (source other) [lit "a.arg"] [other_lines] /\
  Forall2 (Forall2 same_key) [sample_lines] [other_lines] /\
   (fst (fst (command sample_env sample ListInstructions (lit "x.py") [lit "DA"; lit "a.arg"]))) = [OutL (lit "        A          DA,B         1")] /\
   (fst (fst (command sample_env other ListInstructions (lit "x.py") [lit "DA"; lit "a.arg"]))) = [OutL (lit "  77    A          DA,B")].
Proof. split; [constructor; [exact sample_ok|constructor]|]. split; [constructor; [exact other_ok|constructor]|]. split; [exact other_keys|]. repeat (split; [vm_compute; reflexivity|]); vm_compute; reflexivity. Qed. @*)

(** *** the symbol tools *)
Lemma key_subsegment a b s : Forall2 same_key a b -> subsegment a s -> subsegment b s.
Proof.
  intros F [[N E]|(p & x & q & -> & D & N)].
  - left. split; [|exact E]. intros y u I D. destruct (F2_In_r _ _ _ _ F I) as (x & J & K). apply (N x u J), (alike_setloc _ _ _ (key_alike _ _ K)). exact D.
  - right. destruct (F2_split_l _ _ _ _ _ F) as (p' & y & q' & -> & P & K & Q). exists p', y, q'. split; [reflexivity|].
    split; [apply (alike_setloc _ _ _ (key_alike _ _ K)); exact D|]. intros z u I D'. destruct (F2_In_r _ _ _ _ Q I) as (w & J & K').
    apply (N w u J), (alike_setloc _ _ _ (key_alike _ _ K')). exact D'.
Qed.
Lemma F2_weaken {A B} (P Q : A -> B -> Prop) a b : (forall x y, P x y -> Q x y) -> Forall2 P a b -> Forall2 Q a b.
Proof. intros H. induction 1; constructor; auto. Qed.
Lemma key_latest (R : srcline -> srcline -> Prop) upper a b t u k x tt : (forall x y, R x y -> same_key x y) ->
  Forall2 R a b -> latest upper a t u k x tt -> exists y, R x y /\ latest upper b t u k y tt.
Proof.
  intros HR F (pre & post & -> & D & S & N). destruct (F2_split_l _ _ _ _ _ F) as (p' & y & q' & -> & P & K & Q). exists y. split; [exact K|].
  exists p', q'. split; [reflexivity|]. split; [apply (alike_defines _ _ _ _ _ _ (key_alike _ _ (HR _ _ K))); exact D|].
  split; [apply (key_subsegment (pre ++ [x])); [apply (F2_weaken _ _ _ _ HR), Forall2_app; [exact P|constructor; [exact K|constructor]]|exact S]|].
  intros c z d t' E D' S'. subst q'. destruct (F2_split_r _ _ _ _ _ Q) as (c' & w & d' & -> & PC & KW & PD).
  apply (N c' w d' t' eq_refl); [apply (alike_defines _ _ _ _ _ _ (key_alike _ _ (HR _ _ KW))); exact D'|].
  apply (key_subsegment (p' ++ y :: c ++ [z])); [|exact S']. apply keys_sym, (F2_weaken _ _ _ _ HR), Forall2_app; [exact P|]. constructor; [exact K|].
  apply Forall2_app; [exact PC|constructor; [exact KW|constructor]].
Qed.
Lemma key_undefined upper a b t u k : Forall2 same_key a b -> undefined_in upper a t u k -> undefined_in upper b t u k.
Proof.
  intros F N c y d tt -> D S. destruct (F2_split_r _ _ _ _ _ F) as (c' & x & d' & -> & P & K & Q).
  apply (N c' x d' tt eq_refl); [apply (alike_defines _ _ _ _ _ _ (key_alike _ _ K)); exact D|].
  apply (key_subsegment (c ++ [y])); [|exact S]. apply keys_sym, Forall2_app; [exact P|constructor; [exact K|constructor]].
Qed.
Lemma key_combine (R : srcline -> srcline -> Prop) (files : list str) a b : Forall2 (Forall2 R) a b ->
  Forall2 (fun p q => fst p = fst q /\ Forall2 R (snd p) (snd q)) (combine files a) (combine files b).
Proof. intros F. revert files. induction F as [|x y a b K _ IH]; intros [|f files]; cbn [combine]; constructor; [split; [reflexivity|exact K]|apply IH]. Qed.
Lemma key_defined (R : srcline -> srcline -> Prop) upper files a b t s u k x tt : (forall x y, R x y -> same_key x y) ->
  Forall2 (Forall2 R) a b -> defined_at upper files a t s u k x tt -> exists y, R x y /\ defined_at upper files b t s u k y tt.
Proof.
  intros HR F (pre & f & out & post & E & SG & L & N). assert (C := key_combine R files _ _ F). rewrite E in C.
  destruct (F2_split_l _ _ _ _ _ C) as (p' & [f' out'] & q' & E' & P & [EF K] & Q). cbn [fst snd] in EF, K. subst f'.
  destruct (key_latest R _ _ _ _ _ _ _ _ HR K L) as (y & KY & L'). exists y. split; [exact KY|]. exists p', f, out', q'. split; [exact E'|]. split; [exact SG|]. split; [exact L'|].
  intros g o I SG'. destruct (F2_In_r _ _ _ _ Q I) as ([g' o'] & J & [EG K']). cbn [fst snd] in EG, K'. subst g'.
  apply (key_undefined _ _ _ _ _ _ (F2_weaken _ _ _ _ HR K')), (N g o' J SG').
Qed.
Lemma key_within upper files a b s seg k : Forall2 (Forall2 same_key) a b -> defined_within upper files a s seg k -> defined_within upper files b s seg k.
Proof.
  intros F (f & out & x & tt & I & SG & J & D). destruct (F2_In_l _ _ _ _ (key_combine _ files _ _ F) I) as ([g o] & I' & [EG K]). cbn [fst snd] in EG, K. subst g.
  destruct (F2_In_l _ _ _ _ K J) as (y & J' & KY). exists f, o, y, tt. split; [assumption|]. split; [assumption|]. split; [assumption|]. apply (alike_defines _ _ _ _ _ _ (key_alike _ _ KY)). exact D.
Qed.
Lemma key_defines upper a b s kind : Forall2 (Forall2 same_key) a b ->
  (exists out x tt, In out a /\ In x out /\ line_defines upper (text_of x) s kind tt) ->
  (exists out x tt, In out b /\ In x out /\ line_defines upper (text_of x) s kind tt).
Proof.
  intros F (out & x & tt & I & J & D). destruct (F2_In_l _ _ _ _ F I) as (o & I' & K). destruct (F2_In_l _ _ _ _ K J) as (y & J' & KY).
  exists o, y, tt. split; [assumption|]. split; [assumption|]. apply (alike_defines _ _ _ _ _ _ (key_alike _ _ KY)). exact D.
Qed.
Lemma key_block upper rep x y : same_key x y -> (exists ls, label_block upper rep x ls) -> exists ls, label_block upper rep y ls.
Proof.
  intros K. pose proof (key_alike _ _ K) as A. destruct x as [[f i] l], y as [[g j] l']. cbn [text_of snd] in A.
  intros (ls & N & m & ty & _ & _ & _ & _ & M & _). apply (alike_said upper _ _ _ _ A) in M.
  assert (S := shows_stripped (columns l' 2 7)). unfold rstr in S.
  assert (G : exists q, none_or rep ty q) by (destruct ty; eexists; reflexivity). destruct G as (q & G).
  destruct (stripped (columns l' 2 7)) as [r|]; eexists; (split; [rewrite <- (proj1 A); exact N|]).
  - exists m, ty, (Some r), (rep r), q, []. split; [exact M|]. split; [right; eauto|]. split; [reflexivity|]. split; [exact G|reflexivity].
  - exists m, ty, None, (lit "None"), q, []. split; [exact M|]. split; [left; auto|]. split; [reflexivity|]. split; [exact G|reflexivity].
Qed.
Lemma key_numbers fs fs' upper rep v c files outs outs' ns ns' ls ls' : Forall2 (Forall2 same_key) outs outs' ->
  labels_told fs upper rep v c files outs ns ls -> labels_told fs' upper rep v c files outs' ns' ls' -> ns = ns'.
Proof.
  intros F T T'. apply told_numbers in T, T'. revert ns ns' T T'. induction F as [|a b outs outs' K _ IH]; intros ns ns' T T'; inversion T as [|? n ? ns2 C T2]; subst;
    inversion T' as [|? n' ? ns2' C' T2']; subst; [reflexivity|]. f_equal; [|exact (IH _ _ T2 T2')].
  refine (count_unique _ _ _ _ (key_count _ _ _ _ _ K C) C'). intros x y Q. split; apply key_block; [exact Q|exact (key_sym _ _ Q)].
Qed.
Lemma C172_symbols_pf : forall fs fs' prog words prog' words' on verbose files outs outs',
  understood (options CheckSymbols) words on files -> understood (options CheckSymbols) words' on files -> turned_on on "verbose" verbose ->
  files <> [] -> ~ In [] files -> plain_names files -> Forall2 (source fs) files outs -> Forall2 (source fs') files outs' -> Forall2 (Forall2 same_key) outs outs' ->
  exists k, forall v, (k <= e_fuel v)%nat -> exists said said' ns report,
    command v fs CheckSymbols prog words = (said ++ report, Exit 0, fs) /\ command v fs' CheckSymbols prog' words' = (said' ++ report, Exit 0, fs') /\
    labels_told fs (e_upper v) (e_rep v) verbose true files outs ns said /\ labels_told fs' (e_upper v) (e_rep v) verbose true files outs' ns said'.
Proof.
  intros fs fs' prog words prog' words' on verbose files outs outs' U U' V NE N PN S S' F. assert (F' := all_sym _ _ F).
  assert (C : exists complex, turned_on on "complex" complex).
  { destruct (in_dec (list_eq_dec Z.eq_dec) (lit "complex") on) as [I|I]; [exists true|exists false]; split; intros X; try assumption; try reflexivity; [discriminate|contradiction]. }
  destruct C as (complex & C).
  destruct (C161_symbols_pf fs prog words on verbose complex files outs U V C NE N PN S) as (k & H).
  destruct (C161_symbols_pf fs' prog' words' on verbose complex files outs' U' V C NE N PN S') as (k' & H').
  exists (Nat.max k k'). intros v L. destruct (H v ltac:(lia)) as (said & syms & ch & part & total & ns & E & T & SS & R & UP & CH & TP).
  destruct (H' v ltac:(lia)) as (said' & syms' & ch' & part' & total' & ns' & E' & T' & SS' & R' & UP' & CH' & TP').
  pose proof (key_numbers _ _ _ _ _ _ _ _ _ _ _ _ _ F T T') as EN. subst ns'.
  assert (W : forall s kind, (exists out x tt, In out outs /\ In x out /\ line_defines (e_upper v) (text_of x) s kind tt) <->
                        (exists out x tt, In out outs' /\ In x out /\ line_defines (e_upper v) (text_of x) s kind tt)).
  { intros s kind. split; apply key_defines; assumption. }
  assert (syms' = syms) by (apply same_sorted; [exact SS'|exact SS|]; intros s; rewrite R, R', !W; reflexivity).
  subst syms'. assert (total' = total).
  { destruct TP as [[Q ->]|[Q ->]], TP' as [[Q' ->]|[Q' ->]]; try reflexivity; lia. }
  subst total'. assert (ch' = ch) by (refine (suggestions_same _ _ _ _ _ _ _ _ CH' CH); intros s seg kd; split; apply key_within; assumption). subst ch'.
  rewrite (part_unique _ _ _ _ UP' UP) in E'. exists said, said', ns. eexists. eauto 8.
Qed.
(*@ Example C172_symbols_ex : Forall2 (source sample) [lit "a.arg"] [sample_lines] /\ Forall2 (source other) [lit "a.arg"] [other_lines] /\
  Forall2 (Forall2 same_key) [sample_lines] [other_lines] /\
  skipn 4 (fst (fst (command sample_env sample CheckSymbols (lit "x.py") [lit "-c"; lit "a.arg"]))) = [ErrL []; ErrL (lit "Undefined symbols:"); OutL (lit "  N - Possible matches: A"); ErrL (lit "1 errors checking symbol table.")] /\
  skipn 4 (fst (fst (command sample_env other CheckSymbols (lit "x.py") [lit "-c"; lit "a.arg"]))) = [ErrL []; ErrL (lit "Undefined symbols:"); OutL (lit "  N - Possible matches: A"); ErrL (lit "1 errors checking symbol table.")].
Proof. split; [constructor; [exact sample_ok|constructor]|]. split; [constructor; [exact other_ok|constructor]|]. split; [exact other_keys|]. repeat (split; [vm_compute; reflexivity|]); vm_compute; reflexivity. Qed. @*)
Lemma C172_names_pf : forall fs fs' prog words prog' words' on verbose b symbol files outs outs',
  understood (options FindSymbols) words on (symbol :: files) -> understood (options FindSymbols) words' on (symbol :: files) -> turned_on on "verbose" verbose ->
  turned_on on "begin" b -> turned_on on "end" (negb b) -> (forall x, In x ["fuzzy"; "exact"]%string -> ~ In (lit x) on) ->
  files <> [] -> ~ In [] files -> plain_names files -> Forall2 (source fs) files outs -> Forall2 (source fs') files outs' -> Forall2 (Forall2 same_key) outs outs' ->
  exists k, forall v, (k <= e_fuel v)%nat -> exists said said' ns report,
    command v fs FindSymbols prog words = (said ++ report, Exit 0, fs) /\ command v fs' FindSymbols prog' words' = (said' ++ report, Exit 0, fs') /\
    labels_told fs (e_upper v) (e_rep v) verbose true files outs ns said /\ labels_told fs' (e_upper v) (e_rep v) verbose true files outs' ns said'.
Proof.
  intros fs fs' prog words prog' words' on verbose b symbol files outs outs' U U' V B EN O NE N PN S S' F.
  destruct (C161_names_pf fs prog words on verbose b files outs symbol U V B EN O NE N PN S) as (k & H).
  destruct (C161_names_pf fs' prog' words' on verbose b files outs' symbol U' V B EN O NE N PN S') as (k' & H').
  exists (Nat.max k k'). intros v L. destruct (H v ltac:(lia)) as (said & ns & names & T & E & SS & R).
  destruct (H' v ltac:(lia)) as (said' & ns' & names' & T' & E' & SS' & R').
  pose proof (key_numbers _ _ _ _ _ _ _ _ _ _ _ _ _ F T T') as X. subst ns'.
  assert (names' = names).
  { apply same_sorted; [exact SS'|exact SS|]. intros s. rewrite R, R'.
    split; intros ((out & x & kind & tt & I & Q) & Z); (split; [|exact Z]).
    - destruct (key_defines (e_upper v) _ _ s kind (all_sym _ _ F)) as (o & y & t2 & Y); [exists out, x, tt; auto|]. exists o, y, kind, t2. exact Y.
    - destruct (key_defines (e_upper v) _ _ s kind F) as (o & y & t2 & Y); [exists out, x, tt; auto|]. exists o, y, kind, t2. exact Y. }
  subst names'. exists said, said', ns. eexists. eauto 8.
Qed.
(*@ Example C172_names_ex : Forall2 (source sample) [lit "a.arg"] [sample_lines] /\ Forall2 (source other) [lit "a.arg"] [other_lines] /\
  Forall2 (Forall2 same_key) [sample_lines] [other_lines] /\
  skipn 3 (fst (fst (command sample_env sample FindSymbols (lit "x.py") [lit "-b"; lit ""; lit "a.arg"]))) = [OutL (lit "[A, N]")] /\
  skipn 3 (fst (fst (command sample_env other FindSymbols (lit "x.py") [lit "-b"; lit ""; lit "a.arg"]))) = [OutL (lit "[A, N]")].
Proof. split; [constructor; [exact sample_ok|constructor]|]. split; [constructor; [exact other_ok|constructor]|]. split; [exact other_keys|]. repeat (split; [vm_compute; reflexivity|]); vm_compute; reflexivity. Qed. @*)
Lemma C172_fuzzy_pf : forall fs fs' prog words prog' words' on verbose symbol files outs outs',
  understood (options FindSymbols) words on (symbol :: files) -> understood (options FindSymbols) words' on (symbol :: files) -> turned_on on "verbose" verbose ->
  In (lit "fuzzy") on -> (forall x, In x ["begin"; "end"; "exact"]%string -> ~ In (lit x) on) ->
  files <> [] -> ~ In [] files -> plain_names files -> Forall2 (source fs) files outs -> Forall2 (source fs') files outs' -> Forall2 (Forall2 same_key) outs outs' ->
  exists k, forall v, (k <= e_fuel v)%nat -> exists said said' ns report,
    command v fs FindSymbols prog words = (said ++ report, Exit 0, fs) /\ command v fs' FindSymbols prog' words' = (said' ++ report, Exit 0, fs') /\
    labels_told fs (e_upper v) (e_rep v) verbose true files outs ns said /\ labels_told fs' (e_upper v) (e_rep v) verbose true files outs' ns said'.
Proof.
  intros fs fs' prog words prog' words' on verbose symbol files outs outs' U U' V B O NE N PN S S' F. assert (F' := all_sym _ _ F).
  destruct (C161_fuzzy_pf fs prog words on verbose files outs symbol U V B O NE N PN S) as (k & H).
  destruct (C161_fuzzy_pf fs' prog' words' on verbose files outs' symbol U' V B O NE N PN S') as (k' & H').
  exists (Nat.max k k'). intros v L. destruct (H v ltac:(lia)) as (said & ns & ch & T & E & CH).
  destruct (H' v ltac:(lia)) as (said' & ns' & ch' & T' & E' & CH').
  pose proof (key_numbers _ _ _ _ _ _ _ _ _ _ _ _ _ F T T') as X. subst ns'.
  assert (ch' = ch) by (refine (suggestions_same _ _ _ _ _ _ _ _ CH' CH); intros s seg kd; split; apply key_within; assumption). subst ch'.
  exists said, said', ns. eexists. eauto 8.
Qed.
(*@ Example C172_fuzzy_ex : Forall2 (source sample) [lit "a.arg"] [sample_lines] /\ Forall2 (source other) [lit "a.arg"] [other_lines] /\
  Forall2 (Forall2 same_key) [sample_lines] [other_lines] /\
  skipn 3 (fst (fst (command sample_env sample FindSymbols (lit "x.py") [lit "-f"; lit "M"; lit "a.arg"]))) = [OutL (lit "[A]")] /\
  skipn 3 (fst (fst (command sample_env other FindSymbols (lit "x.py") [lit "-f"; lit "M"; lit "a.arg"]))) = [OutL (lit "[A]")].
Proof. split; [constructor; [exact sample_ok|constructor]|]. split; [constructor; [exact other_ok|constructor]|]. split; [exact other_keys|]. repeat (split; [vm_compute; reflexivity|]); vm_compute; reflexivity. Qed. @*)
(** the rows of two tables at the same keys *)
Lemma F2_flip {A B} (P : A -> B -> Prop) a b : Forall2 P a b -> Forall2 (fun y x => P x y) b a.
Proof. induction 1; constructor; auto. Qed.
Definition row_pair (R : srcline -> srcline -> Prop) (r r' : symkey * str) : Prop :=
  fst r = fst r' /\ exists x x' tt, R x x' /\ symbol_row (snd (fst r)) x tt (snd r) /\ symbol_row (snd (fst r)) x' tt (snd r').
Lemma C172_list_pf : forall (R : srcline -> srcline -> Prop) fs fs' prog words prog' words' on verbose files outs outs', (forall x y, R x y -> same_key x y) ->
  understood (options ListSymbols) words on files -> understood (options ListSymbols) words' on files -> turned_on on "verbose" verbose ->
  files <> [] -> ~ In [] files -> plain_names files -> Forall2 (source fs) files outs -> Forall2 (source fs') files outs' -> Forall2 (Forall2 R) outs outs' ->
  exists k, forall v, (k <= e_fuel v)%nat -> exists said said' shown shown' rows rows' ns final,
    command v fs ListSymbols prog words = (said ++ map OutL shown ++ final, Exit 0, fs) /\
    command v fs' ListSymbols prog' words' = (said' ++ map OutL shown' ++ final, Exit 0, fs') /\
    labels_told fs (e_upper v) (e_rep v) verbose false files outs ns said /\ labels_told fs' (e_upper v) (e_rep v) verbose false files outs' ns said' /\
    laid_out None rows shown /\ laid_out None rows' shown' /\
    Forall2 (fun r r' => fst r = fst r' /\
               exists x x' tt, R x x' /\ symbol_row (snd (fst r)) x tt (snd r) /\ symbol_row (snd (fst r)) x' tt (snd r')) rows rows'.
Proof.
  intros Q fs fs' prog words prog' words' on verbose files outs outs' HQ U U' V NE N PN S S' F.
  assert (F' : Forall2 (Forall2 (fun y x => Q x y)) outs' outs) by exact (F2_weaken _ _ _ _ (fun b a H => F2_flip Q a b H) (F2_flip _ _ _ F)).
  assert (FK := F2_weaken _ (Forall2 same_key) _ _ (fun a b H => F2_weaken _ _ a b HQ H) F).
  destruct (C161_list_pf fs prog words on verbose files outs U V NE N PN S) as (k & H).
  destruct (C161_list_pf fs' prog' words' on verbose files outs' U' V NE N PN S') as (k' & H').
  exists (Nat.max k k'). intros v L. destruct (H v ltac:(lia)) as (said & shown & rows & ns & E & T & LO & SS & R).
  destruct (H' v ltac:(lia)) as (said' & shown' & rows' & ns' & E' & T' & LO' & SS' & R').
  pose proof (key_numbers _ _ _ _ _ _ _ _ _ _ _ _ _ FK T T') as X. subst ns'.
  exists said, said', shown, shown', rows, rows', ns. eexists. split; [exact E|]. split; [exact E'|]. repeat (split; [assumption|]).
  assert (RX : forall kd (x' : srcline) tt, exists y', symbol_row kd x' tt y').
  { intros kd [[g j] l'] tt. destruct (seg_exists g) as (s & SG). eexists. exists s. split; [exact SG|reflexivity]. }
  assert (A : forall r, In r rows -> exists r', In r' rows' /\ row_pair Q r r').
  { intros [[[[t s] u] kd] y] I. apply R in I. destruct I as (x & tt & D & Y). destruct (key_defined Q _ _ _ _ _ _ _ _ _ _ HQ F D) as (x' & K & D').
    destruct (RX kd x' tt) as (y' & Y'). exists ((t, s, u, kd), y'). split; [apply R'; eauto|]. split; [reflexivity|]. exists x, x', tt. auto. }
  assert (A' : forall r', In r' rows' -> exists r, In r rows /\ row_pair Q r r').
  { intros [[[[t s] u] kd] y'] I. apply R' in I. destruct I as (x' & tt & D' & Y'). destruct (key_defined (fun y x => Q x y) _ _ _ _ _ _ _ _ _ _ (fun y x H => key_sym _ _ (HQ _ _ H)) F' D') as (x & K & D).
    destruct (RX kd x tt) as (y & Y). exists ((t, s, u, kd), y). split; [apply R; eauto|]. split; [reflexivity|]. exists x, x', tt. auto. }
  clear - SS SS' A A'. revert rows' SS' A A'. induction SS as [|r rows SS IH FA]; intros rows' SS' A A'.
  - destruct rows' as [|r' rows']; [constructor|]. destruct (A' r' (or_introl eq_refl)) as (r & [] & _).
  - destruct SS' as [|r' rows' SS' FA']; [destruct (A r (or_introl eq_refl)) as (? & [] & _)|]. rewrite Forall_forall in FA, FA'.
    assert (P : row_pair Q r r').
    { destruct (A r (or_introl eq_refl)) as (q & [<-|I] & P); [exact P|]. destruct (A' r' (or_introl eq_refl)) as (q' & [<-|I'] & P'); [exact P'|].
      exfalso. apply FA' in I. apply FA in I'. rewrite <- (proj1 P) in I. rewrite (proj1 P') in I'. exact (key_asym _ _ I I'). }
    constructor; [exact P|]. apply IH; [exact SS'| |].
    + intros q I. destruct (A q (or_intror I)) as (q' & [<-|J] & QQ); [|exists q'; auto]. exfalso. apply FA in I. rewrite (proj1 P), (proj1 QQ) in I. exact (key_asym _ _ I I).
    + intros q' I. destruct (A' q' (or_intror I)) as (q & [<-|J] & QQ); [|exists q; auto]. exfalso. apply FA' in I. rewrite <- (proj1 P), <- (proj1 QQ) in I. exact (key_asym _ _ I I).
Qed.
(*@ Example C172_list_ex : Forall2 (source sample) [lit "a.arg"] [sample_lines] /\ Forall2 (source other) [lit "a.arg"] [other_lines] /\
  Forall2 (Forall2 same_key) [sample_lines] [other_lines] /\
  printed (fst (fst (command sample_env sample ListSymbols (lit "x.py") [lit "a.arg"]))) = [lit "A"; lit "  Segment: a"; lit "    Subsegment: 1"; lit "        <simple>    a:6                                           12    A          FOO";
     lit "N"; lit "  Segment: a"; lit "    Subsegment: 1"; lit "        <complex>   inc:1                                               N          ASSIGN       5"] /\
  printed (fst (fst (command sample_env other ListSymbols (lit "x.py") [lit "a.arg"]))) = [lit "A"; lit "  Segment: a"; lit "    Subsegment: 1"; lit "        <simple>    a:6                                           13    A          FOO          2             3";
     lit "N"; lit "  Segment: a"; lit "    Subsegment: 1"; lit "        <complex>   inc:1                                               N          ASSIGN       6"].
Proof. split; [constructor; [exact sample_ok|constructor]|]. split; [constructor; [exact other_ok|constructor]|]. split; [exact other_keys|]. repeat (split; [vm_compute; reflexivity|]); vm_compute; reflexivity. Qed. @*)
Lemma C172_parse_pf : forall fs fs' prog words prog' words' on verbose debug files outs outs',
  understood (options Parse) words on files -> understood (options Parse) words' on files -> turned_on on "verbose" verbose -> turned_on on "debug" debug ->
  files <> [] -> ~ In [] files -> plain_names files -> Forall2 (source fs) files outs -> Forall2 (source fs') files outs' -> Forall2 (Forall2 same_key) outs outs' ->
  exists k, forall v, (k <= e_fuel v)%nat -> exists said said' told told' ns report,
    command v fs Parse prog words = (said ++ told ++ report, Exit 0, fs) /\ command v fs' Parse prog' words' = (said' ++ told' ++ report, Exit 0, fs') /\
    labels_told fs (e_upper v) (e_rep v) verbose true files outs ns said /\ labels_told fs' (e_upper v) (e_rep v) verbose true files outs' ns said' /\
    lines_told fs verbose (line_report verbose debug) files outs told /\ lines_told fs' verbose (line_report verbose debug) files outs' told'.
Proof.
  intros fs fs' prog words prog' words' on verbose debug files outs outs' U U' V D NE N PN S S' F. pose proof (concat_keys _ _ F) as FC.
  destruct (count_ex (fun x => exists ls, mnemonic_fault x ls) (concat outs) fault_dec) as (bad & B).
  destruct (C161_parse_pf fs prog words on verbose debug files outs bad U V D NE N PN S B) as (k & H).
  destruct (C161_parse_pf fs' prog' words' on verbose debug files outs' bad U' V D NE N PN S' (key_count _ _ _ _ key_fault FC B)) as (k' & H').
  exists (Nat.max k k'). intros v L. destruct (H v ltac:(lia)) as (said & told & before & n & E & T & LT). destruct (H' v ltac:(lia)) as (said' & told' & before' & n' & E' & T' & LT').
  pose proof (key_numbers _ _ _ _ _ _ _ _ _ _ _ _ _ F T T') as X. apply app_inj_tail in X. destruct X as [<- <-].
  rewrite <- (key_len _ _ _ FC) in E'. exists said, said', told, told', (before ++ [n]). eexists. eauto 8.
Qed.
(*@ Example C172_parse_ex : Forall2 (source sample) [lit "a.arg"] [sample_lines] /\ Forall2 (source other) [lit "a.arg"] [other_lines] /\
  Forall2 (Forall2 same_key) [sample_lines] [other_lines] /\
  skipn 5 (fst (fst (command sample_env sample Parse (lit "x.py") [lit "a.arg"]))) = [OutL (10 :: lit "Source lines: 6"); OutL (lit "2 errors encountered.")] /\
  skipn 5 (fst (fst (command sample_env other Parse (lit "x.py") [lit "a.arg"]))) = [OutL (10 :: lit "Source lines: 6"); OutL (lit "2 errors encountered.")].
Proof. split; [constructor; [exact sample_ok|constructor]|]. split; [constructor; [exact other_ok|constructor]|]. split; [exact other_keys|]. repeat (split; [vm_compute; reflexivity|]); vm_compute; reflexivity. Qed. @*)
Lemma C172_answer_pf : forall fs fs' prog words prog' words' on verbose symbol files outs outs',
  understood (options FindSymbols) words on (symbol :: files) -> understood (options FindSymbols) words' on (symbol :: files) -> turned_on on "verbose" verbose ->
  (forall x, In x ["begin"; "end"; "fuzzy"]%string -> ~ In (lit x) on) ->
  files <> [] -> ~ In [] files -> plain_names files -> Forall2 (source fs) files outs -> Forall2 (source fs') files outs' -> Forall2 (Forall2 same_key) outs outs' ->
  exists k, forall v, (k <= e_fuel v)%nat -> exists said said' ns answer answer',
    command v fs FindSymbols prog words = (said ++ [answer], Exit 0, fs) /\ command v fs' FindSymbols prog' words' = (said' ++ [answer'], Exit 0, fs') /\
    labels_told fs (e_upper v) (e_rep v) verbose true files outs ns said /\ labels_told fs' (e_upper v) (e_rep v) verbose true files outs' ns said' /\
    ((exists t t', answer = OutL t /\ answer' = OutL t') \/
     (answer = answer' /\ answer = ErrL (lit "ERROR: Undefined symbol """ ++ symbol ++ lit """!"))).
Proof.
  intros fs fs' prog words prog' words' on verbose symbol files outs outs' U U' V O NE N PN S S' F. assert (F' := all_sym _ _ F).
  destruct (C161_answer_pf fs prog words on verbose files outs symbol U V O NE N PN S) as (k & H).
  destruct (C161_answer_pf fs' prog' words' on verbose files outs' symbol U' V O NE N PN S') as (k' & H').
  exists (Nat.max k k'). intros v L. destruct (H v ltac:(lia)) as (said & ns & T & R). destruct (H' v ltac:(lia)) as (said' & ns' & T' & R').
  pose proof (key_numbers _ _ _ _ _ _ _ _ _ _ _ _ _ F T T') as X. subst ns'.
  assert (W : forall a b, Forall2 (Forall2 same_key) a b ->
    (exists out x kind tt, In out a /\ In x out /\ line_defines (e_upper v) (text_of x) symbol kind tt) ->
    (exists out x kind tt, In out b /\ In x out /\ line_defines (e_upper v) (text_of x) symbol kind tt)).
  { intros a b Q (out & x & kind & tt & D). destruct (key_defines (e_upper v) a b symbol kind Q) as (o & y & t2 & Y); [exists out, x, tt; exact D|]. exists o, y, kind, t2. exact Y. }
  destruct R as [[D (l & ds & t & E & _)]|[D E]], R' as [[D' (l' & ds' & t' & E' & _)]|[D' E']].
  - exists said, said', ns, (OutL t), (OutL t'). split; [exact E|]. split; [exact E'|]. split; [exact T|]. split; [exact T'|]. left. eauto.
  - exfalso. apply D'. exact (W _ _ F D).
  - exfalso. apply D. exact (W _ _ F' D').
  - eexists said, said', ns, _, _. split; [exact E|]. split; [exact E'|]. split; [exact T|]. split; [exact T'|]. right. split; reflexivity.
Qed.
(*@ Example C172_answer_ex : Forall2 (source sample) [lit "a.arg"] [sample_lines] /\ Forall2 (source other) [lit "a.arg"] [other_lines] /\
  Forall2 (Forall2 same_key) [sample_lines] [other_lines] /\
  skipn 3 (fst (fst (command sample_env sample FindSymbols (lit "x.py") [lit "Q"; lit "a.arg"]))) = [ErrL (lit "ERROR: Undefined symbol ""Q""!")] /\
  skipn 3 (fst (fst (command sample_env other FindSymbols (lit "x.py") [lit "Q"; lit "a.arg"]))) = [ErrL (lit "ERROR: Undefined symbol ""Q""!")] /\
  skipn 3 (fst (fst (command sample_env sample FindSymbols (lit "x.py") [lit "A"; lit "a.arg"]))) =
    [OutL (lit "{a: {1: {simple: {'file': a.arg, 'line': 6, 'lognum': 12, 'tagtype':  , 'card': ?}}}}")] /\
  skipn 3 (fst (fst (command sample_env other FindSymbols (lit "x.py") [lit "A"; lit "a.arg"]))) =
    [OutL (lit "{a: {1: {simple: {'file': a.arg, 'line': 6, 'lognum': 13, 'tagtype':  , 'card': ?}}}}")].
Proof. split; [constructor; [exact sample_ok|constructor]|]. split; [constructor; [exact other_ok|constructor]|]. split; [exact other_keys|]. repeat (split; [vm_compute; reflexivity|]); vm_compute; reflexivity. Qed. @*)

(** *** the same lines at other places, for the tools that look at symbols (C157) *)
Lemma key_ended x y : ended x -> ended y -> shown_text x = shown_text y -> same_key x y.
Proof.
  assert (C : forall x, ended x -> (remark_line (text_of x) <-> remark_line (shown_text x)) /\ (starred_line (text_of x) <-> starred_line (shown_text x)) /\
    forall a b t, trimmed (columns (text_of x) a b) t <-> trimmed (columns (shown_text x) a b) t).
  { intros z [E|E]; rewrite E.
    - repeat split; auto.
    - split; [apply remark_end|]. split; [unfold starred_line; apply nth_end; discriminate|]. intros a b t. apply trimmed_columns. }
  intros X Y E. destruct (C x X) as (RX & SX & TX), (C y Y) as (RY & SY & TY). rewrite <- E in RY, SY, TY.
  split; [rewrite RX, RY; reflexivity|]. split; [rewrite SX, SY; reflexivity|]. right. split.
  - exists (strip (columns (shown_text x) 9 19)), (strip (columns (shown_text x) 9 19)).
    split; [apply TX, strip_trimmed|]. split; [apply TY, strip_trimmed|reflexivity].
  - exists (strip (columns (shown_text x) 20 32)). split; [apply TX|apply TY]; apply strip_trimmed.
Qed.
Lemma C157_key_pf : forall fs fs' files outs outs', Forall2 (source fs) files outs -> Forall2 (source fs') files outs' ->
  Forall2 (fun a b => map shown_text a = map shown_text b) outs outs' ->
  Forall2 (Forall2 (fun x y => shown_text x = shown_text y /\ same_key x y)) outs outs'.
Proof.
  assert (A : forall a b, Forall ended a -> Forall ended b -> map shown_text a = map shown_text b -> Forall2 (fun x y => shown_text x = shown_text y /\ same_key x y) a b).
  { induction a as [|x a IH]; intros [|y b] FA FB E; try discriminate; [constructor|].
    injection E as E1 E2. inversion FA; inversion FB; subst. constructor; [|apply IH; assumption]. split; [exact E1|]. apply key_ended; assumption. }
  intros fs fs' files outs outs' S. revert outs'. induction S as [|f out files outs S _ IH]; intros outs' S' F; inversion S'; subst; inversion F; subst; [constructor|].
  constructor; [|apply IH; assumption]. apply A; [exact (proj1 (source_ended fs) _ _ S)| |assumption].
  match goal with H : source fs' _ _ |- _ => exact (proj1 (source_ended fs') _ _ H) end.
Qed.
Definition flat (f : str) : option str :=
  if eqb f (lit "a.arg") then
    Some (lit "        N          ASSIGN       5" ++ [13; 10] ++ lit "# no include" ++ [10] ++ lit "        x" ++ [10] ++
          lit "        A          DA,B         1" ++ [10] ++ lit "R       A REMARK" ++ [10] ++
          lit "       *           FOO" ++ [10; 35; 10] ++ lit "  12    A          FOO" ++ [10])
  else None.
Definition flat_lines : list srcline :=
  [(lit "a.arg", 1, lit "        N          ASSIGN       5" ++ [10]); (lit "a.arg", 3, lit "        x" ++ [10]);
   (lit "a.arg", 4, lit "        A          DA,B         1" ++ [10]); (lit "a.arg", 5, lit "R       A REMARK" ++ [10]);
   (lit "a.arg", 6, lit "       *           FOO" ++ [10]); (lit "a.arg", 8, lit "  12    A          FOO" ++ [10])].
Lemma flat_ok : source flat (lit "a.arg") flat_lines.
Proof.
  apply (proj1 (expand_source flat)).
  eapply ex_file; [reflexivity|]. match goal with |- expand_lines _ _ _ ?l _ => let l' := eval vm_compute in l in change l with l' end.
  repeat first [apply ex_comment; [eexists; reflexivity|]|apply ex_card; [intros (r & E); discriminate E|intros (r & E); discriminate E|]]. constructor.
Qed.
(*@ Example C157_key_ex : Forall2 (source sample) [lit "a.arg"] [sample_lines] /\ Forall2 (source flat) [lit "a.arg"] [flat_lines] /\
  Forall2 (fun a b => map shown_text a = map shown_text b) [sample_lines] [flat_lines] /\
  ~ In (lit "inc", 1, lit "        N          ASSIGN       5" ++ [10]) flat_lines.
Proof. split; [constructor; [exact sample_ok|constructor]|]. split; [constructor; [exact flat_ok|constructor]|]. split; [constructor; [vm_compute; reflexivity|constructor]|]. cbn. intuition discriminate. Qed. @*)
Lemma keyed a b : Forall2 (Forall2 (fun x y => shown_text x = shown_text y /\ same_key x y)) a b -> Forall2 (Forall2 same_key) a b.
Proof. apply F2_weaken. intros x y. apply F2_weaken. intros ? ? [_ H]. exact H. Qed.
Lemma C157_list_pf : forall fs fs' prog words prog' words' on verbose files outs outs',
  understood (options ListSymbols) words on files -> understood (options ListSymbols) words' on files -> turned_on on "verbose" verbose ->
  files <> [] -> ~ In [] files -> plain_names files -> Forall2 (source fs) files outs -> Forall2 (source fs') files outs' ->
  Forall2 (fun a b => map shown_text a = map shown_text b) outs outs' ->
  exists k, forall v, (k <= e_fuel v)%nat -> exists said said' shown shown' rows rows' ns final,
    command v fs ListSymbols prog words = (said ++ map OutL shown ++ final, Exit 0, fs) /\
    command v fs' ListSymbols prog' words' = (said' ++ map OutL shown' ++ final, Exit 0, fs') /\
    labels_told fs (e_upper v) (e_rep v) verbose false files outs ns said /\ labels_told fs' (e_upper v) (e_rep v) verbose false files outs' ns said' /\
    laid_out None rows shown /\ laid_out None rows' shown' /\
    Forall2 (fun r r' => fst r = fst r' /\
               exists x x' tt, shown_text x = shown_text x' /\ symbol_row (snd (fst r)) x tt (snd r) /\ symbol_row (snd (fst r)) x' tt (snd r')) rows rows'.
Proof.
  intros fs fs' prog words prog' words' on verbose files outs outs' U U' V NE N PN S S' E.
  destruct (C172_list_pf _ fs fs' prog words prog' words' on verbose files outs outs' (fun x y H => proj2 H) U U' V NE N PN S S' (C157_key_pf _ _ _ _ _ S S' E)) as (k & H).
  exists k. intros v L. destruct (H v L) as (said & said' & shown & shown' & rows & rows' & ns & final & A & B & T & T' & O & O' & F).
  exists said, said', shown, shown', rows, rows', ns, final. split; [exact A|]. split; [exact B|]. split; [exact T|]. split; [exact T'|]. split; [exact O|]. split; [exact O'|].
  revert F. apply F2_weaken. intros r r' (X & x & x' & tt & [Y _] & Z). split; [exact X|]. exists x, x', tt. split; [exact Y|exact Z].
Qed.
(*@ Example C157_list_ex : Forall2 (source sample) [lit "a.arg"] [sample_lines] /\ Forall2 (source flat) [lit "a.arg"] [flat_lines] /\
  Forall2 (fun a b => map shown_text a = map shown_text b) [sample_lines] [flat_lines] /\
  printed (fst (fst (command sample_env sample ListSymbols (lit "x.py") [lit "a.arg"]))) = [lit "A"; lit "  Segment: a"; lit "    Subsegment: 1"; lit "        <simple>    a:6                                           12    A          FOO";
     lit "N"; lit "  Segment: a"; lit "    Subsegment: 1"; lit "        <complex>   inc:1                                               N          ASSIGN       5"] /\
  printed (fst (fst (command sample_env flat ListSymbols (lit "x.py") [lit "a.arg"]))) = [lit "A"; lit "  Segment: a"; lit "    Subsegment: 1"; lit "        <simple>    a:8                                           12    A          FOO";
     lit "N"; lit "  Segment: a"; lit "    Subsegment: 1"; lit "        <complex>   a:1                                                 N          ASSIGN       5"].
Proof. split; [constructor; [exact sample_ok|constructor]|]. split; [constructor; [exact flat_ok|constructor]|]. split; [constructor; [vm_compute; reflexivity|constructor]|]. split; vm_compute; reflexivity. Qed. @*)
Lemma C157_symbols_pf : forall fs fs' prog words prog' words' on verbose files outs outs',
  understood (options CheckSymbols) words on files -> understood (options CheckSymbols) words' on files -> turned_on on "verbose" verbose ->
  files <> [] -> ~ In [] files -> plain_names files -> Forall2 (source fs) files outs -> Forall2 (source fs') files outs' ->
  Forall2 (fun a b => map shown_text a = map shown_text b) outs outs' ->
  exists k, forall v, (k <= e_fuel v)%nat -> exists said said' ns report,
    command v fs CheckSymbols prog words = (said ++ report, Exit 0, fs) /\ command v fs' CheckSymbols prog' words' = (said' ++ report, Exit 0, fs') /\
    labels_told fs (e_upper v) (e_rep v) verbose true files outs ns said /\ labels_told fs' (e_upper v) (e_rep v) verbose true files outs' ns said'.
Proof. intros fs fs' prog words prog' words' on verbose files outs outs' U U' V NE N PN S S' E. eapply C172_symbols_pf; eauto. apply keyed. eapply C157_key_pf; eauto. Qed.
(*@ Example C157_symbols_ex : Forall2 (source sample) [lit "a.arg"] [sample_lines] /\ Forall2 (source flat) [lit "a.arg"] [flat_lines] /\
  Forall2 (fun a b => map shown_text a = map shown_text b) [sample_lines] [flat_lines] /\
  skipn 4 (fst (fst (command sample_env sample CheckSymbols (lit "x.py") [lit "-c"; lit "a.arg"]))) = [ErrL []; ErrL (lit "Undefined symbols:"); OutL (lit "  N - Possible matches: A"); ErrL (lit "1 errors checking symbol table.")] /\
  skipn 4 (fst (fst (command sample_env flat CheckSymbols (lit "x.py") [lit "-c"; lit "a.arg"]))) = [ErrL []; ErrL (lit "Undefined symbols:"); OutL (lit "  N - Possible matches: A"); ErrL (lit "1 errors checking symbol table.")].
Proof. split; [constructor; [exact sample_ok|constructor]|]. split; [constructor; [exact flat_ok|constructor]|]. split; [constructor; [vm_compute; reflexivity|constructor]|]. split; vm_compute; reflexivity. Qed. @*)
Lemma C157_names_pf : forall fs fs' prog words prog' words' on verbose b symbol files outs outs',
  understood (options FindSymbols) words on (symbol :: files) -> understood (options FindSymbols) words' on (symbol :: files) -> turned_on on "verbose" verbose ->
  turned_on on "begin" b -> turned_on on "end" (negb b) -> (forall x, In x ["fuzzy"; "exact"]%string -> ~ In (lit x) on) ->
  files <> [] -> ~ In [] files -> plain_names files -> Forall2 (source fs) files outs -> Forall2 (source fs') files outs' ->
  Forall2 (fun a b => map shown_text a = map shown_text b) outs outs' ->
  exists k, forall v, (k <= e_fuel v)%nat -> exists said said' ns report,
    command v fs FindSymbols prog words = (said ++ report, Exit 0, fs) /\ command v fs' FindSymbols prog' words' = (said' ++ report, Exit 0, fs') /\
    labels_told fs (e_upper v) (e_rep v) verbose true files outs ns said /\ labels_told fs' (e_upper v) (e_rep v) verbose true files outs' ns said'.
Proof. intros fs fs' prog words prog' words' on verbose b symbol files outs outs' U U' V B B' O NE N PN S S' E. eapply (C172_names_pf fs fs' prog words prog' words' on verbose b); eauto. apply keyed. eapply C157_key_pf; eauto. Qed.
(*@ Example C157_names_ex : Forall2 (source sample) [lit "a.arg"] [sample_lines] /\ Forall2 (source flat) [lit "a.arg"] [flat_lines] /\
  Forall2 (fun a b => map shown_text a = map shown_text b) [sample_lines] [flat_lines] /\
  skipn 3 (fst (fst (command sample_env sample FindSymbols (lit "x.py") [lit "-b"; lit "N"; lit "a.arg"]))) = [OutL (lit "[N]")] /\
  skipn 3 (fst (fst (command sample_env flat FindSymbols (lit "x.py") [lit "-b"; lit "N"; lit "a.arg"]))) = [OutL (lit "[N]")].
Proof. split; [constructor; [exact sample_ok|constructor]|]. split; [constructor; [exact flat_ok|constructor]|]. split; [constructor; [vm_compute; reflexivity|constructor]|]. split; vm_compute; reflexivity. Qed. @*)
Lemma C157_parse_pf : forall fs fs' prog words prog' words' on verbose debug files outs outs',
  understood (options Parse) words on files -> understood (options Parse) words' on files -> turned_on on "verbose" verbose -> turned_on on "debug" debug ->
  files <> [] -> ~ In [] files -> plain_names files -> Forall2 (source fs) files outs -> Forall2 (source fs') files outs' ->
  Forall2 (fun a b => map shown_text a = map shown_text b) outs outs' ->
  exists k, forall v, (k <= e_fuel v)%nat -> exists said said' told told' ns report,
    command v fs Parse prog words = (said ++ told ++ report, Exit 0, fs) /\ command v fs' Parse prog' words' = (said' ++ told' ++ report, Exit 0, fs') /\
    labels_told fs (e_upper v) (e_rep v) verbose true files outs ns said /\ labels_told fs' (e_upper v) (e_rep v) verbose true files outs' ns said' /\
    lines_told fs verbose (line_report verbose debug) files outs told /\ lines_told fs' verbose (line_report verbose debug) files outs' told'.
Proof. intros fs fs' prog words prog' words' on verbose debug files outs outs' U U' V D NE N PN S S' E. eapply C172_parse_pf; eauto. apply keyed. eapply C157_key_pf; eauto. Qed.
(*@ Example C157_parse_ex : Forall2 (source sample) [lit "a.arg"] [sample_lines] /\ Forall2 (source flat) [lit "a.arg"] [flat_lines] /\
  Forall2 (fun a b => map shown_text a = map shown_text b) [sample_lines] [flat_lines] /\
  skipn 5 (fst (fst (command sample_env sample Parse (lit "x.py") [lit "a.arg"]))) = [OutL (10 :: lit "Source lines: 6"); OutL (lit "2 errors encountered.")] /\
  skipn 5 (fst (fst (command sample_env flat Parse (lit "x.py") [lit "a.arg"]))) = [OutL (10 :: lit "Source lines: 6"); OutL (lit "2 errors encountered.")].
Proof. split; [constructor; [exact sample_ok|constructor]|]. split; [constructor; [exact flat_ok|constructor]|]. split; [constructor; [vm_compute; reflexivity|constructor]|]. split; vm_compute; reflexivity. Qed. @*)
