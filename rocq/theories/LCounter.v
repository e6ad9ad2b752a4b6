(** The S/C column: C184. *)
From Coq Require Import ZArith List Bool Lia Sorted.
From Verif Require Import Py LPy MInstruction MCards SCards LCards LDeck MSymbols SSymbols LSymBuild LSymQuery MRegisters SRegisters MInstructions MTools STools LTools LToolSym MDiag SDiag LDiag MDump SDump MVerbose SVerbose LVerbose SOrder LOrder STranscript LTranscript MOptions SOptions LOptions MProcess SProcess LProcess SEnds LEnds SSource LSource SFound STextSym LTextSym SIdle LIdle SReport LReport SUnread LUnread SSwap SLabel LGen LLabel LPlaces LSwap SAgree LAgree SKey LKey LJoin SManual STags LTags SCounter.
#[local] Arguments Z.add : simpl never.
#[local] Arguments Z.sub : simpl never.
#[local] Arguments Z.mul : simpl never.

Lemma columns_split (line a b : str) (c : Z) : zlen a = 31 -> line = a ++ c :: b ->
  columns line 20 32 = columns line 20 31 ++ [c] /\ columns line 20 31 = skipn 19 a.
Proof.
  intros L ->. unfold zlen in L. assert (LA : List.length a = 31%nat) by lia. unfold columns.
  change (Z.to_nat (32 - 20 + 1)) with 13%nat. change (Z.to_nat (31 - 20 + 1)) with 12%nat. change (Z.to_nat (20 - 1)) with 19%nat.
  rewrite skipn_app, LA. change (skipn (19 - 31) (c :: b)) with (c :: b).
  assert (LS : List.length (skipn 19 a) = 12%nat) by (rewrite skipn_length; lia).
  rewrite !firstn_app, LS. change (firstn (13 - 12) (c :: b)) with [c]. change (firstn (12 - 12) (c :: b)) with (@nil Z).
  rewrite !firstn_all2 by lia. rewrite app_nil_r. auto.
Qed.
Lemma nth_at (line : str) (c : Z) : nth_error line 31 = Some c -> exists a b, zlen a = 31 /\ line = a ++ c :: b.
Proof. intros H. destruct (nth_error_split _ _ H) as (a & b & E & L). exists a, b. unfold zlen. split; [lia|exact E]. Qed.
Lemma not_white_letter c : In c (lit "SC") -> ~ white c.
Proof. intros [<-|[<-|[]]] W; unfold white in W; cbn [In] in W; intuition discriminate. Qed.

(** *** a counter that is named is taken for a part of the operation *)
Lemma short_codes m : In m INSTRUCTIONS -> m <> [] /\ zlen m < 12 /\ ~ In 44 m /\ (forall c, In c m -> ~ white c).
Proof.
  assert (F : forallb (fun m => negb (zlen m =? 0) && (zlen m <? 12) && forallb (fun c => (48 <=? c) && (c <=? 90)) m) INSTRUCTIONS = true) by (vm_compute; reflexivity).
  intros I. rewrite forallb_forall in F. specialize (F m I). rewrite !andb_true_iff, forallb_forall in F. destruct F as ((A & B) & C).
  apply negb_true_iff, Z.eqb_neq in A. apply Z.ltb_lt in B.
  assert (D : forall c, In c m -> 48 <= c <= 90) by (intros c J; specialize (C c J); rewrite andb_true_iff, !Z.leb_le in C; exact C).
  split; [intros ->; apply A; reflexivity|]. split; [exact B|]. split; [intros J; specialize (D _ J); lia|].
  intros c J W. specialize (D c J). unfold white in W. cbn [In] in W. lia.
Qed.
Lemma named_operation line m c : In m INSTRUCTIONS -> ~ remark_line line -> command_group line m -> In c (lit "SC") -> nth_error line 31 = Some c ->
  exists n, operation_of line (m ++ repeat 32 (S n) ++ [c]).
Proof.
  intros I R (n & E & L) C N. destruct (nth_at _ _ N) as (a & b & LA & EL). destruct (columns_split _ _ _ _ LA EL) as (ES & _).
  destruct (short_codes m I) as (NE & SH & _ & NW).
  assert (X : exists k, n = S k). { destruct n as [|k]; [|eauto]. rewrite E in L. cbn [repeat] in L. rewrite app_nil_r in L. lia. } destruct X as (k & ->). exists k.
  split; [exact R|]. split; [|destruct m; [contradiction|discriminate]]. rewrite ES, E, <- app_assoc. exists [], [].
  split; [rewrite app_nil_r; reflexivity|]. split; [constructor|]. split; [constructor|]. split.
  - intros d r Q. destruct m as [|e m]; [contradiction|]. injection Q as <- _. apply NW. left. reflexivity.
  - intros d r Q. rewrite app_assoc in Q. apply app_inj_tail in Q. destruct Q as (_ & <-). apply not_white_letter, C.
Qed.
Lemma named_no_comma m c n : In m INSTRUCTIONS -> In c (lit "SC") -> ~ In 44 (m ++ repeat 32 (S n) ++ [c]).
Proof.
  intros I C J. apply in_app_or in J. destruct J as [J|J]; [exact (proj1 (proj2 (proj2 (short_codes m I))) J)|]. apply in_app_or in J. destruct J as [J|[J|[]]].
  - apply repeat_spec in J. discriminate.
  - subst c. destruct C as [C|[C|[]]]; discriminate.
Qed.
Lemma C184_check_refuted_pf : forall fs prog words on files outs,
  understood (options CheckInstructions) words on files ->
  (forall x, In x ["verbose"; "count"; "print-opcodes"; "unused"]%string -> ~ In (lit x) on) ->
  files <> [] -> ~ In [] files -> Forall2 (source fs) files outs ->
  exists k, forall v, (k <= e_fuel v)%nat -> exists faults,
    command v fs CheckInstructions prog words = (concat faults ++ [OutL (error_count (zlen faults))], Exit 0, fs) /\
    forall x m, In x (concat outs) -> ~ starred_line (text_of x) -> ~ remark_line (text_of x) ->
      In m INSTRUCTIONS -> command_group (text_of x) m -> counter_named (text_of x) -> exists ls, In ls faults /\ mnemonic_fault x ls.
Proof.
  intros fs prog words on files outs U O NE N SO. destruct (C180_check_refuted_pf fs prog words on files outs U O NE N SO) as (k & H).
  exists k. intros v L. destruct (H v L) as (faults & E & P). exists faults. split; [exact E|]. intros x m I NS R IM G C.
  assert (X : exists c, In c (lit "SC") /\ nth_error (text_of x) 31 = Some c) by (destruct C as [C|C]; eexists; (split; [|exact C]); cbn; auto).
  destruct X as (c & IC & NC). destruct (named_operation _ _ _ IM R G IC NC) as (n & OP).
  apply (P x (m ++ repeat 32 (S n) ++ [c]) I).
  - split; [exact NS|]. split; [destruct m; discriminate|]. exists (m ++ repeat 32 (S n) ++ [c]). split; [exact OP|]. left. split; [|reflexivity]. apply named_no_comma; assumption.
  - apply in_or_app. right. left. reflexivity.
Qed.
(*@ Example C184_check_refuted_ex : let fs := fun f => if eqb f (lit "p.arg") then
      Some (lit "                   TX          SX             Y" ++ [10] ++ lit "                   TX           X             Y") else None in
  printed (fst (fst (command sample_env fs CheckInstructions (lit "x.py") [lit "p.arg"]))) =
    [lit "*** ERROR: Invalid instruction ""TX          S"":"; lit "File p.arg, line 1:                    TX          SX             Y"; lit "1 error encountered."] /\
  command_group (lit "                   TX          SX             Y") (lit "TX") /\ counter_named (lit "                   TX          SX             Y") /\ In (lit "TX") INSTRUCTIONS.
Proof. split; [vm_compute; reflexivity|]. split; [exists 10%nat; split; reflexivity|]. split; [left; reflexivity|]. apply inb_In. vm_compute. reflexivity. Qed. @*)
Lemma C184_list_refuted_pf : forall fs prog words on details m files outs,
  understood (options ListInstructions) words on (m :: files) -> ~ In (lit "verbose") on -> turned_on on "details" details ->
  In m INSTRUCTIONS -> ~ In [] files -> Forall2 (source fs) files outs ->
  exists k, forall v, (k <= e_fuel v)%nat -> exists ys,
    command v fs ListInstructions prog words = (map OutL ys, Exit 0, fs) /\ picked (line_found m details) (concat outs) ys /\
    forall x, In x (concat outs) -> ~ remark_line (text_of x) -> command_group (text_of x) m -> counter_named (text_of x) -> forall y, ~ line_found m details x y.
Proof.
  intros fs prog words on details m files outs U NV D I N SO.
  destruct (C148_found_pf fs prog words on details m m files outs U NV D (or_introl (conj (proj1 (proj2 (proj2 (short_codes m I)))) eq_refl)) I N SO) as (k & H).
  exists k. intros v L. destruct (H v L) as (ys & E & P). exists ys. split; [exact E|]. split; [exact P|].
  intros [[f i] line] IX R G C y (_ & (op & O & M) & _). cbn [text_of snd] in *.
  assert (X : exists c, In c (lit "SC") /\ nth_error line 31 = Some c) by (destruct C as [C|C]; eexists; (split; [|exact C]); cbn; auto).
  destruct X as (c & IC & NC). destruct (named_operation _ _ _ I R G IC NC) as (n & OP).
  rewrite (op_unique _ _ _ O OP) in M. destruct (short_codes m I) as (_ & _ & NM & NW).
  assert (Q : filter (fun c => negb (c =? 32)) (m ++ repeat 32 (S n) ++ [c]) = m ++ [c]).
  { rewrite !filter_app. f_equal.
    - clear - NW. induction m as [|d m IH]; [reflexivity|]. cbn [filter]. destruct (Z.eqb_spec d 32) as [->|]; cbn [negb].
      + destruct (NW 32 (or_introl eq_refl)). unfold white. cbn. tauto.
      + f_equal. apply IH. intros e J. apply NW. right. exact J.
    - replace (filter (fun c => negb (c =? 32)) (repeat 32 (S n))) with (@nil Z).
      + destruct IC as [<-|[<-|[]]]; reflexivity.
      + clear. induction (S n) as [|k0 IH]; [reflexivity|exact IH]. }
  rewrite Q in M. destruct M as [(_ & [E1|(r & E1)])|(E1 & _)].
  - rewrite <- (app_nil_r m) in E1 at 2. apply app_inv_head in E1. discriminate.
  - apply app_inv_head in E1. injection E1 as E1 _. subst c. destruct IC as [X|[X|[]]]; discriminate X.
  - exact (NM E1).
Qed.
(*@ Example C184_list_refuted_ex : let fs := fun f => if eqb f (lit "p.arg") then
      Some (lit "                   TX          SX             Y" ++ [10] ++ lit "                   TX           Z") else None in
  printed (fst (fst (command sample_env fs ListInstructions (lit "x.py") [lit "TX"; lit "p.arg"]))) = [lit "                   TX           Z"].
Proof. vm_compute. reflexivity. Qed. @*)

(** *** after a comma the column does not matter *)
Lemma comma_first {A} (dec : forall a b : A, {a = b} + {a <> b}) k (s : list A) : In k s -> exists p q, s = p ++ k :: q /\ ~ In k p.
Proof.
  induction s as [|c s IH]; intros I; [destruct I|]. destruct (dec c k) as [->|N]; [exists [], s; split; [reflexivity|intros []]|].
  destruct I as [->|I]; [contradiction|]. destruct (IH I) as (p & q & -> & H). exists (c :: p), q. split; [reflexivity|]. intros [X|X]; auto.
Qed.
Lemma first_same (p q p' q' : str) : p ++ 44 :: q = p' ++ 44 :: q' -> ~ In 44 p -> ~ In 44 p' -> p = p' /\ q = q'.
Proof.
  revert p'. induction p as [|c p IH]; intros [|c' p'] E N N'; cbn [app] in E.
  - injection E as ->. auto.
  - injection E as <- _. destruct N'. left. reflexivity.
  - injection E as -> _. destruct N. left. reflexivity.
  - injection E as <- E. destruct (IH _ E) as (-> & ->); [intro X; apply N; right; exact X|intro X; apply N'; right; exact X|auto].
Qed.
Lemma comma_white : ~ white 44.
Proof. unfold white. cbn [In]. intuition discriminate. Qed.
(** the operation of a field with a comma *)
Lemma comma_op s op p q : s = p ++ 44 :: q -> ~ In 44 p -> trimmed s op -> exists a b pre, op = a ++ 44 :: b /\ ~ In 44 a /\ p = pre ++ a /\ blank pre /\ (forall c r, a = c :: r -> ~ white c).
Proof.
  intros -> N (pre & post & E & B1 & B2 & HD & _).
  assert (IO : In 44 op).
  { assert (J : In 44 (pre ++ op ++ post)) by (rewrite <- E; apply in_or_app; right; left; reflexivity).
    unfold blank in B1, B2. rewrite Forall_forall in B1, B2. apply in_app_or in J. destruct J as [J|J]; [destruct (comma_white (B1 _ J))|].
    apply in_app_or in J. destruct J as [J|J]; [exact J|destruct (comma_white (B2 _ J))]. }
  destruct (comma_first Z.eq_dec _ _ IO) as (a & b & -> & NA). exists a, b, pre. split; [reflexivity|]. split; [exact NA|].
  split; [|split; [exact B1|intros c r ->; apply (HD c (r ++ 44 :: b)); reflexivity]].
  rewrite <- app_assoc in E. cbn [app] in E. rewrite app_assoc in E. apply first_same in E; [exact (proj1 E)|exact N|].
  intros J. apply in_app_or in J. destruct J as [J|J]; [|exact (NA J)]. unfold blank in B1. rewrite Forall_forall in B1. exact (comma_white (B1 _ J)).
Qed.
Lemma trimmed_pre pre a m : blank pre -> (trimmed (pre ++ a) m <-> trimmed a m).
Proof.
  intros B. split; intros T.
  - pose proof (strip_trimmed a) as S1. assert (Q : trimmed (pre ++ a) (strip a)).
    { destruct S1 as (p & q & E & B1 & R). exists (pre ++ p), q. split; [rewrite E at 1; rewrite <- app_assoc; reflexivity|]. split; [apply blank_app; auto|exact R]. }
    rewrite (trimmed_unique _ _ _ T Q). exact S1.
  - destruct T as (p & q & -> & B1 & R). exists (pre ++ p), q. split; [rewrite <- app_assoc; reflexivity|]. split; [apply blank_app; auto|exact R].
Qed.
Lemma comma_mnemonic line p q m : columns line 20 32 = p ++ 44 :: q -> ~ In 44 p ->
  (mnemonic_at line m <-> m <> [] /\ ~ remark_line line /\ trimmed p m).
Proof.
  intros E N. split.
  - intros (NE & op & (R & T & _) & M). split; [exact NE|]. split; [exact R|]. destruct (comma_op _ _ _ _ E N T) as (a & b & pre & EO & NA & -> & B & _).
    apply trimmed_pre; [exact B|]. destruct M as [(NC & _)|(a' & b' & EO' & NA' & TM)].
    + destruct NC. rewrite EO. apply in_or_app. right. left. reflexivity.
    + rewrite EO in EO'. apply first_same in EO'; [|assumption..]. destruct EO' as (-> & _). exact TM.
  - intros (NE & R & T). split; [exact NE|]. exists (strip (columns line 20 32)). pose proof (strip_trimmed (columns line 20 32)) as TS.
    destruct (comma_op _ _ _ _ E N TS) as (a & b & pre & EO & NA & -> & B & _). split.
    + split; [exact R|]. split; [exact TS|]. rewrite EO. destruct a; discriminate.
    + right. exists a, b. split; [exact EO|]. split; [exact NA|]. apply (trimmed_pre pre); assumption.
Qed.
Lemma blank_unique pre a pre' a' : pre ++ a = pre' ++ a' -> blank pre -> blank pre' -> (forall c r, a = c :: r -> ~ white c) -> (forall c r, a' = c :: r -> ~ white c) -> a = a'.
Proof.
  revert pre'. induction pre as [|c pre IH]; intros [|c' pre'] E B B' H H'; cbn [app] in E.
  - exact E.
  - subst a. inversion B'; subst. destruct (H c' _ eq_refl). assumption.
  - subst a'. inversion B; subst. destruct (H' c _ eq_refl). assumption.
  - injection E as <- E. inversion B; inversion B'; subst. apply (IH pre'); assumption.
Qed.
(** what list-instructions compares, in a field with a comma *)
Lemma comma_matches opcode line p q : columns line 20 32 = p ++ 44 :: q -> ~ In 44 p -> ~ In 44 opcode ->
  ((exists op, operation_of line op /\ op_matches opcode (no_blanks op)) <->
   ~ remark_line line /\ exists pre a, p = pre ++ a /\ blank pre /\ (forall c r, a = c :: r -> ~ white c) /\ opcode = no_blanks a).
Proof.
  intros E N NO.
  assert (K : forall a b, ~ In 44 a -> (op_matches opcode (no_blanks (a ++ 44 :: b)) <-> opcode = no_blanks a)).
  { intros a b NA. unfold no_blanks. rewrite filter_app. cbn [filter]. change (negb (44 =? 32)) with true. cbn iota.
    assert (NF : ~ In 44 (filter (fun c => negb (c =? 32)) a)) by (intros J; apply filter_In in J; exact (NA (proj1 J))).
    split.
    - intros [(_ & [X|(r & X)])|(X & _)]; [| |contradiction].
      + destruct NO. rewrite <- X. apply in_or_app. right. left. reflexivity.
      + apply first_same in X; [|assumption..]. destruct X as (-> & _). reflexivity.
    - intros ->. left. split; [exact NF|]. right. eexists. reflexivity. }
  split.
  - intros (op & (R & T & _) & M). split; [exact R|]. destruct (comma_op _ _ _ _ E N T) as (a & b & pre & -> & NA & -> & B & H).
    exists pre, a. split; [reflexivity|]. split; [exact B|]. split; [exact H|]. apply (K a b NA), M.
  - intros (R & pre & a & EP & B & H & EO). pose proof (strip_trimmed (columns line 20 32)) as TS.
    destruct (comma_op _ _ _ _ E N TS) as (a' & b & pre' & EO' & NA & EP' & B' & H'). exists (strip (columns line 20 32)). split.
    + split; [exact R|]. split; [exact TS|]. rewrite EO'. destruct a'; discriminate.
    + rewrite EO'. apply K; [exact NA|]. rewrite EO. f_equal. rewrite EP in EP'. exact (blank_unique _ _ _ _ EP' B B' H H').
Qed.

(** *** two sources *)
Lemma lines_alike x y : same_instruction x y -> fst x = fst y /\ (starred_line (text_of x) <-> starred_line (text_of y)) /\
  (forall m, mnemonic_at (text_of x) m <-> mnemonic_at (text_of y) m) /\
  (forall opcode, ~ In 44 opcode -> ((exists op, operation_of (text_of x) op /\ op_matches opcode (no_blanks op)) <-> (exists op, operation_of (text_of y) op /\ op_matches opcode (no_blanks op)))).
Proof.
  intros [->|((F & a & c & d & b & L & _ & _ & EX & EY) & C)]; [split; [reflexivity|]; split; [reflexivity|]; split; intros; reflexivity|]. split; [exact F|].
  destruct (columns_split _ _ _ _ L EX) as (CX & SX), (columns_split _ _ _ _ L EY) as (CY & SY).
  unfold comma_before in C. rewrite SX in C. destruct (comma_first Z.eq_dec _ _ C) as (p & q & EP & NP).
  rewrite SX, EP, <- app_assoc in CX. rewrite SY, EP, <- app_assoc in CY. cbn [app] in CX, CY.
  assert (LA : List.length a = 31%nat) by (unfold zlen in L; lia).
  assert (NT : forall n e, (n < 31)%nat -> nth_error (a ++ e :: b) n = nth_error a n) by (intros n e H; apply nth_error_app1; lia).
  assert (RM : remark_line (text_of x) <-> remark_line (text_of y)) by (unfold remark_line; rewrite EX, EY, !NT by lia; reflexivity).
  split; [unfold starred_line; rewrite EX, EY, !NT by lia; reflexivity|]. split.
  - intros m. rewrite (comma_mnemonic _ _ _ m CX NP), (comma_mnemonic _ _ _ m CY NP), RM. reflexivity.
  - intros opcode NO. rewrite (comma_matches opcode _ _ _ CX NP NO), (comma_matches opcode _ _ _ CY NP NO), RM. reflexivity.
Qed.
Lemma picked_pairs {A B} (R : A -> A -> Prop) (P : A -> B -> Prop) l l' r r' :
  (forall x x', R x x' -> ((exists y, P x y) <-> (exists y, P x' y))) -> Forall2 R l l' -> picked P l r -> picked P l' r' ->
  Forall2 (fun y y' => exists x x', In x l /\ In x' l' /\ R x x' /\ P x y /\ P x' y') r r'.
Proof.
  intros H F. revert r r'. induction F as [|x x' l l' K F IH]; intros r r' P1 P2.
  - inversion P1; inversion P2; subst; constructor.
  - assert (W : forall r r', picked P l r -> picked P l' r' -> Forall2 (fun y y' => exists a a', In a (x :: l) /\ In a' (x' :: l') /\ R a a' /\ P a y /\ P a' y') r r').
    { intros r1 r2 Q1 Q2. refine (F2_weaken _ _ _ _ _ (IH _ _ Q1 Q2)). intros y y' (a & a' & I & J & Q). exists a, a'. cbn [In]. auto. }
    inversion P1 as [|? y ? r0 Y Q1|? ? ? Y Q1]; subst; inversion P2 as [|? y' ? r0' Y' Q2|? ? ? Y' Q2]; subst.
    + constructor; [|apply W; assumption]. exists x, x'. cbn [In]. auto.
    + destruct (proj1 (H _ _ K) (ex_intro _ y Y)) as (z & Z). destruct (Y' _ Z).
    + destruct (proj2 (H _ _ K) (ex_intro _ y' Y')) as (z & Z). destruct (Y _ Z).
    + apply W; assumption.
Qed.

Lemma C184_check_partial_pf : forall fs fs' prog words prog' words' on on' files files' outs outs',
  understood (options CheckInstructions) words on files -> understood (options CheckInstructions) words' on' files' ->
  (forall x, In x ["verbose"; "count"; "print-opcodes"; "unused"]%string -> ~ In (lit x) on /\ ~ In (lit x) on') ->
  files <> [] -> ~ In [] files -> files' <> [] -> ~ In [] files' -> Forall2 (source fs) files outs -> Forall2 (source fs') files' outs' ->
  Forall2 same_instruction (concat outs) (concat outs') ->
  exists k, forall v, (k <= e_fuel v)%nat -> exists faults faults',
    command v fs CheckInstructions prog words = (concat faults ++ [OutL (error_count (zlen faults))], Exit 0, fs) /\
    command v fs' CheckInstructions prog' words' = (concat faults' ++ [OutL (error_count (zlen faults'))], Exit 0, fs') /\
    zlen faults = zlen faults' /\
    Forall2 (fun ls ls' => exists x x' m, same_instruction x x' /\ has_mnemonic x m /\ has_mnemonic x' m /\ mnemonic_fault x ls /\ mnemonic_fault x' ls') faults faults'.
Proof.
  intros fs fs' prog words prog' words' on on' files files' outs outs' U U' O NE N NE' N' SO SO' F.
  destruct (C147_faults_pf fs prog words on files outs U (fun x I => proj1 (O x I)) NE N SO) as (k & H).
  destruct (C147_faults_pf fs' prog' words' on' files' outs' U' (fun x I => proj2 (O x I)) NE' N' SO') as (k' & H').
  exists (Nat.max k k'). intros v L. destruct (H v ltac:(lia)) as (faults & E & P). destruct (H' v ltac:(lia)) as (faults' & E' & P').
  exists faults, faults'. split; [exact E|]. split; [exact E'|].
  assert (A : forall x y ls, same_instruction x y -> mnemonic_fault x ls -> exists ls', mnemonic_fault y ls').
  { intros [[f i] l] [[g j] l'] ls K (NS & m & M & NM & _). destruct (lines_alike _ _ K) as (_ & ST & MN & _). cbn [text_of snd] in *.
    eexists. split; [rewrite <- ST; exact NS|]. exists m. split; [apply MN; exact M|]. split; [exact NM|reflexivity]. }
  assert (S1 : forall x y, same_instruction x y -> same_instruction y x).
  { intros x y [->|((Q & a & c & d & b & LA & C & D & EX & EY) & CB)]; [left; reflexivity|]. right. split.
    - split; [auto|]. exists a, d, c, b. auto.
    - unfold comma_before in *. destruct (columns_split _ _ _ _ LA EX) as (_ & SX), (columns_split _ _ _ _ LA EY) as (_ & SY). rewrite SY, <- SX. exact CB. }
  assert (R := picked_pairs _ _ _ _ _ _ (fun x x' K => conj (fun '(ex_intro _ y Y) => A _ _ _ K Y) (fun '(ex_intro _ y Y) => A _ _ _ (S1 _ _ K) Y)) F P P').
  split; [clear - R; unfold zlen; f_equal; induction R; cbn [List.length]; congruence|].
  refine (F2_weaken _ _ _ _ _ R). intros ls ls' (x & x' & _ & _ & K & Q & Q'). exists x, x'.
  destruct (lines_alike _ _ K) as (_ & ST & MN & _). assert (M : exists m, has_mnemonic x m) by (destruct x as [[f i] l]; destruct Q as (NS & m & M & _); exists m; split; assumption).
  destruct M as (m & NS & M). exists m. split; [exact K|]. split; [split; assumption|]. split; [|split; assumption]. split; [rewrite <- ST; exact NS|apply MN; exact M].
Qed.
(*@ Example C184_check_partial_ex : let x := lit "                   DX,M1       SA             B" in let y := lit "                   DX,M1       CA             B" in
  let fs := fun l : str => fun f => if eqb f (lit "p.arg") then Some l else None in
  same_instruction (lit "p.arg", 1, x) (lit "p.arg", 1, y) /\
  printed (fst (fst (command sample_env (fs x) CheckInstructions (lit "x.py") [lit "p.arg"]))) =
    [lit "*** ERROR: Invalid instruction ""DX"":"; lit "File p.arg, line 1: " ++ x; lit "1 error encountered."] /\
  printed (fst (fst (command sample_env (fs y) CheckInstructions (lit "x.py") [lit "p.arg"]))) =
    [lit "*** ERROR: Invalid instruction ""DX"":"; lit "File p.arg, line 1: " ++ y; lit "1 error encountered."].
Proof.
  cbv zeta. split; [|split; vm_compute; reflexivity]. right. split.
  - split; [reflexivity|]. exists (lit "                   DX,M1       "), 83, 67, (lit "A             B"). repeat split; [left; reflexivity|right; left; reflexivity].
  - do 2 right. left. reflexivity.
Qed. @*)
Lemma C184_list_partial_pf : forall fs fs' prog words prog' words' on on' details m files files' outs outs',
  understood (options ListInstructions) words on (m :: files) -> understood (options ListInstructions) words' on' (m :: files') ->
  ~ In (lit "verbose") on -> ~ In (lit "verbose") on' -> turned_on on "details" details -> turned_on on' "details" details ->
  In m INSTRUCTIONS -> ~ In [] files -> ~ In [] files' -> Forall2 (source fs) files outs -> Forall2 (source fs') files' outs' ->
  Forall2 same_instruction (concat outs) (concat outs') ->
  exists k, forall v, (k <= e_fuel v)%nat -> exists ys ys',
    command v fs ListInstructions prog words = (map OutL ys, Exit 0, fs) /\
    command v fs' ListInstructions prog' words' = (map OutL ys', Exit 0, fs') /\
    picked (line_found m details) (concat outs) ys /\ picked (line_found m details) (concat outs') ys' /\
    Forall2 (fun y y' => exists x x', In x (concat outs) /\ In x' (concat outs') /\ same_instruction x x' /\ line_found m details x y /\ line_found m details x' y') ys ys'.
Proof.
  intros fs fs' prog words prog' words' on on' details m files files' outs outs' U U' NV NV' D D' I N N' SO SO' F.
  assert (NM := proj1 (proj2 (proj2 (short_codes m I)))).
  destruct (C148_found_pf fs prog words on details m m files outs U NV D (or_introl (conj NM eq_refl)) I N SO) as (k & H).
  destruct (C148_found_pf fs' prog' words' on' details m m files' outs' U' NV' D' (or_introl (conj NM eq_refl)) I N' SO') as (k' & H').
  exists (Nat.max k k'). intros v L. destruct (H v ltac:(lia)) as (ys & E & P). destruct (H' v ltac:(lia)) as (ys' & E' & P').
  exists ys, ys'. split; [exact E|]. split; [exact E'|]. split; [exact P|]. split; [exact P'|].
  refine (picked_pairs _ _ _ _ _ _ _ F P P').
  intros [[f i] l] [[g j] l'] K. destruct (lines_alike _ _ K) as (_ & ST & _ & OP). specialize (OP m NM). unfold text_of in ST, OP. cbn [snd] in ST, OP.
  split; intros (y & NS & M & _); (eexists; split; [tauto|]; split; [apply OP; exact M|reflexivity]).
Qed.
(*@ Example C184_list_partial_ex : let x := lit "                   DA,M1       SA             B" in let y := lit "                   DA,M1       CA             B" in
  let fs := fun l : str => fun f => if eqb f (lit "p.arg") then Some l else None in
  printed (fst (fst (command sample_env (fs x) ListInstructions (lit "x.py") [lit "DA"; lit "p.arg"]))) = [x] /\
  printed (fst (fst (command sample_env (fs y) ListInstructions (lit "x.py") [lit "DA"; lit "p.arg"]))) = [y].
Proof. split; vm_compute; reflexivity. Qed. @*)
