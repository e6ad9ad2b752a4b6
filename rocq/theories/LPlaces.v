From Coq Require Import ZArith List Bool Lia Sorted.
From Verif Require Import Py LPy MInstruction MCards SCards LCards LDeck MSymbols SSymbols LSymBuild LSymQuery MInstructions MTools STools LTools LToolSym LListTool MDiag SDiag LDiag LQuiet MDump SDump MVerbose SVerbose LVerbose STranscript LTranscript MOptions SOptions LOptions MProcess SProcess LProcess SEnds LEnds SSource LSource STextSym LTextSym SIdle LIdle.
#[local] Arguments Z.add : simpl never.
#[local] Arguments Z.sub : simpl never.
#[local] Arguments Z.mul : simpl never.
#[local] Arguments Z.pow : simpl never.

(** *** lines with the same text *)
Definition ended (x : srcline) : Prop := text_of x = shown_text x \/ text_of x = shown_text x ++ [10].
Lemma no_newline l : ~ In 10 l -> filter (fun c => negb (c =? 10)) l = l.
Proof.
  induction l as [|c l IH]; intros N; [reflexivity|]. cbn [filter]. destruct (Z.eqb_spec c 10) as [->|D]; [destruct N; left; reflexivity|].
  cbn [negb]. rewrite IH; [reflexivity|]. intros I. apply N. right. exact I.
Qed.
Lemma lines_ended c ls : text_lines c ls -> forall f i t, In t ls -> ended (f, i, t).
Proof.
  induction 1 as [|l _ N _|l e rest ls N _ _ _ IH]; intros f i t I.
  - destruct I.
  - destruct I as [<-|[]]. left. symmetry. unfold shown_text, text_of. cbn [snd]. apply no_newline. exact N.
  - destruct I as [<-|I]; [|apply IH; exact I]. right. unfold shown_text, text_of. cbn [snd]. rewrite filter_app, (no_newline l N). cbn. rewrite app_nil_r. reflexivity.
Qed.
Lemma source_ended fs : (forall f out, source fs f out -> Forall ended out) /\
  (forall f i ls out, source_lines fs f i ls out -> (forall g j t, In t ls -> ended (g, j, t)) -> Forall ended out).
Proof.
  apply source_both.
  - intros f content ls out _ T _ IH. apply IH. intros g j t I. exact (lines_ended _ _ T g j t I).
  - intros. constructor.
  - intros f i r rest out _ IH H. apply IH. intros g j t I. apply H. right. exact I.
  - intros f i r inc rest out1 out2 _ _ IH1 _ IH2 H. apply Forall_app. split; [exact IH1|]. apply IH2. intros g j t I. apply H. right. exact I.
  - intros f i line rest out _ _ IH H. constructor; [apply H; left; reflexivity|]. apply IH. intros g j t I. apply H. right. exact I.
Qed.
Lemma sources_ended fs files outs : Forall2 (source fs) files outs -> Forall ended (concat outs).
Proof. induction 1 as [|f out files outs S _ IH]; cbn [concat]; [constructor|]. apply Forall_app. split; [exact (proj1 (source_ended fs) _ _ S)|exact IH]. Qed.
Lemma alike_sym l l' : alike l l' -> alike l' l.
Proof. intros (A & B & C). split; [symmetry; exact A|]. split; intros; symmetry; auto. Qed.
Lemma alike_trans a b c : alike a b -> alike b c -> alike a c.
Proof. intros (A & B & C) (A' & B' & C'). split; [rewrite A; exact A'|]. split; intros; [rewrite B; apply B'|rewrite C; apply C']. Qed.
Lemma ended_alike x : ended x -> alike (shown_text x) (text_of x).
Proof. intros [->| ->]; [apply alike_refl|apply alike_end]. Qed.
Definition moved (x y : srcline) : Prop := shown_text x = shown_text y /\ alike (text_of x) (text_of y).
Lemma all_moved a : forall b, Forall ended a -> Forall ended b -> map shown_text a = map shown_text b -> Forall2 moved a b.
Proof.
  induction a as [|x a IH]; intros [|y b] FA FB E; try discriminate; [constructor|].
  injection E as E1 E2. inversion FA; inversion FB; subst. constructor; [|apply IH; assumption]. split; [exact E1|].
  eapply alike_trans; [apply alike_sym, ended_alike; eassumption|]. rewrite E1. apply ended_alike. assumption.
Qed.
Lemma moved_count (P : srcline -> Prop) a b n : (forall x y, moved x y -> (P x <-> P y)) -> Forall2 moved a b -> count_of P a n -> count_of P b n.
Proof.
  intros H F. revert n. induction F as [|x y a b M _ IH]; intros n C; inversion C; subst.
  - constructor.
  - apply cn_yes; [apply (H _ _ M); assumption|apply IH; assumption].
  - apply cn_no; [rewrite <- (H _ _ M); assumption|apply IH; assumption].
Qed.
Lemma moved_picked {B} (P : srcline -> B -> Prop) a b ys : (forall x y z, moved x y -> (P x z <-> P y z)) -> Forall2 moved a b -> picked P a ys -> picked P b ys.
Proof.
  intros H F. revert ys. induction F as [|x y a b M _ IH]; intros ys K; inversion K as [|? z ? r A K'|? ? ? A K']; subst.
  - constructor.
  - constructor; [apply (H _ _ _ M); exact A|apply IH; exact K'].
  - apply pk_no; [intros z Z; apply (A z); apply (H _ _ _ M); exact Z|apply IH; exact K'].
Qed.
Lemma nth_here {A} (p : list A) x q : nth_error (p ++ x :: q) (List.length p) = Some x.
Proof. rewrite nth_error_app2 by lia. rewrite Nat.sub_diag. reflexivity. Qed.
Lemma before_places {A} (l : list A) x y : before l x y -> exists m n, (m < n)%nat /\ nth_error l m = Some x /\ nth_error l n = Some y.
Proof.
  intros (p & q & r & ->). exists (List.length p), (List.length (p ++ x :: q)). split; [rewrite app_length; cbn [List.length]; lia|].
  split; [apply nth_here|]. change (p ++ x :: q ++ y :: r) with (p ++ (x :: q) ++ y :: r). rewrite app_assoc. apply nth_here.
Qed.
Lemma before_asym {A} (l : list A) a b : NoDup l -> before l a b -> before l b a -> False.
Proof.
  intros ND B B'. destruct (before_places _ _ _ B) as (m & n & L & E1 & E2). destruct (before_places _ _ _ B') as (m' & n' & L' & E1' & E2').
  rewrite NoDup_nth_error in ND.
  assert (m = n') by (apply ND; [apply nth_error_Some; congruence|congruence]). assert (n = m') by (apply ND; [apply nth_error_Some; congruence|congruence]). lia.
Qed.
Lemma frequency_asym a b : by_frequency a b -> by_frequency b a -> False.
Proof. intros [A|[E A]] [B|[E' B]]; try lia. exact (before_asym _ _ _ NoDup_INSTR A B). Qed.
(** a source in two files and in one, for the examples *)
Definition apart (f : str) : option str :=
  if eqb f (lit "a.arg") then Some (lit "$ inc" ++ [10] ++ lit "        A          DA,B         1" ++ [10])
  else if eqb f (lit "inc") then Some (lit "        B          DA" ++ [13; 10] ++ lit "                   FOO") else None.
Definition together (f : str) : option str :=
  if eqb f (lit "b.arg") then Some (lit "# one file" ++ [10] ++ lit "        B          DA" ++ [10] ++ lit "                   FOO" ++ [10] ++ lit "        A          DA,B         1")
  else None.
Lemma C157_found_pf : forall fs fs' prog prog' words words' on on' opcode m files files' outs outs',
  understood (options ListInstructions) words on (opcode :: files) -> understood (options ListInstructions) words' on' (opcode :: files') ->
  (forall x, In x ["verbose"; "details"]%string -> ~ In (lit x) on /\ ~ In (lit x) on') ->
  mnemonic_of opcode m -> In m INSTRUCTIONS -> ~ In [] files -> ~ In [] files' ->
  Forall2 (source fs) files outs -> Forall2 (source fs') files' outs' -> map shown_text (concat outs) = map shown_text (concat outs') ->
  exists k, forall v, (k <= e_fuel v)%nat ->
    fst (command v fs ListInstructions prog words) = fst (command v fs' ListInstructions prog' words').
Proof.
  intros fs fs' prog prog' words words' on on' opcode m files files' outs outs' U U' O M I N N' F F' E.
  assert (D : forall o, (forall x, In x ["verbose"; "details"]%string -> ~ In (lit x) o) -> turned_on o "details" false).
  { intros o H. split; [discriminate|]. intros X. destruct (H "details"%string ltac:(cbn; auto) X). }
  destruct (C148_found_pf fs prog words on false opcode m files outs U) as (k & H); try assumption.
  { exact (proj1 (O "verbose"%string ltac:(cbn; auto))). } { apply D. intros x J. exact (proj1 (O x J)). }
  destruct (C148_found_pf fs' prog' words' on' false opcode m files' outs' U') as (k' & H'); try assumption.
  { exact (proj2 (O "verbose"%string ltac:(cbn; auto))). } { apply D. intros x J. exact (proj2 (O x J)). }
  exists (Nat.max k k'). intros v L. destruct (H v ltac:(lia)) as (ys & EC & K). destruct (H' v ltac:(lia)) as (ys' & EC' & K').
  rewrite EC, EC'. cbn [fst]. replace ys' with ys; [reflexivity|].
  apply (picked_unique (line_found opcode false)) with (l := concat outs'); [|apply (moved_picked _ (concat outs)); [| |exact K]|exact K'].
  - intros [[f i] t] y z (_ & _ & ->) (_ & _ & ->). reflexivity.
  - intros [[f i] t] [[g j] u] z (SH & AL). unfold line_found. rewrite SH. cbn [text_of snd] in AL. destruct AL as (ST & OP & _). rewrite ST.
    split; intros (A & (op & P & Q) & R); (split; [exact A|]); (split; [|exact R]); exists op; (split; [apply OP; exact P|exact Q]).
  - apply all_moved; [exact (sources_ended _ _ _ F)|exact (sources_ended _ _ _ F')|exact E].
Qed.
(*@ Example C157_found_ex : let v := mkenv (fun _ _ => lit " 50.00") (fun _ _ _ => []) (map (fun c => if (97 <=? c) && (c <=? 122) then c - 32 else c)) (fun s => s) (fun _ => lit "?") 3 (fun _ => []) in
  fst (command v apart ListInstructions (lit "x.py") [lit "DA"; lit "a.arg"]) =
    ([OutL (lit "        B          DA"); OutL (lit "        A          DA,B         1")], Exit 0) /\
  fst (command v together ListInstructions (lit "x.py") [lit "DA"; lit "b.arg"]) =
    ([OutL (lit "        B          DA"); OutL (lit "        A          DA,B         1")], Exit 0).
Proof. vm_compute. auto. Qed. @*)
Lemma moved_fault x y : moved x y -> (exists z, mnemonic_fault x z) <-> exists z, mnemonic_fault y z.
Proof.
  intros (_ & AL). rewrite !fault_ex. rewrite (proj1 AL). split; intros (N & m & M & H); (split; [exact N|]); exists m; (split; [apply (alike_mnemonic _ _ _ AL); exact M|exact H]).
Qed.
Lemma moved_faults a b fa fb : Forall2 moved a b -> picked mnemonic_fault a fa -> picked mnemonic_fault b fb -> zlen fa = zlen fb.
Proof.
  intros F A B. pose proof (picked_count mnemonic_fault _ _ _ (fun x => iff_refl _) A) as CA. pose proof (picked_count mnemonic_fault _ _ _ (fun x => iff_refl _) B) as CB.
  cbn beta in CA, CB. apply (moved_count _ _ b) in CA; [|exact moved_fault|exact F]. exact (count_unique _ _ _ _ CA CB).
Qed.
Lemma C157_errors_pf : forall fs fs' prog prog' words words' on on' files files' outs outs',
  understood (options CheckInstructions) words on files -> understood (options CheckInstructions) words' on' files' ->
  (forall x, In x ["verbose"; "count"; "print-opcodes"; "unused"]%string -> ~ In (lit x) on /\ ~ In (lit x) on') ->
  files <> [] -> files' <> [] -> ~ In [] files -> ~ In [] files' ->
  Forall2 (source fs) files outs -> Forall2 (source fs') files' outs' -> map shown_text (concat outs) = map shown_text (concat outs') ->
  exists k, forall v, (k <= e_fuel v)%nat -> exists faults faults' n,
    command v fs CheckInstructions prog words = (concat faults ++ [OutL (error_count n)], Exit 0, fs) /\
    command v fs' CheckInstructions prog' words' = (concat faults' ++ [OutL (error_count n)], Exit 0, fs') /\
    picked mnemonic_fault (concat outs) faults /\ picked mnemonic_fault (concat outs') faults' /\ zlen faults = n /\ zlen faults' = n.
Proof.
  intros fs fs' prog prog' words words' on on' files files' outs outs' U U' O NE NE' N N' F F' E.
  destruct (C147_faults_pf fs prog words on files outs U (fun x J => proj1 (O x J)) NE N F) as (k & H).
  destruct (C147_faults_pf fs' prog' words' on' files' outs' U' (fun x J => proj2 (O x J)) NE' N' F') as (k' & H').
  exists (Nat.max k k'). intros v L. destruct (H v ltac:(lia)) as (fl & EC & K). destruct (H' v ltac:(lia)) as (fl' & EC' & K').
  assert (Z : zlen fl = zlen fl').
  { apply (moved_faults (concat outs) (concat outs')); [|exact K|exact K']. apply all_moved; [exact (sources_ended _ _ _ F)|exact (sources_ended _ _ _ F')|exact E]. }
  exists fl, fl', (zlen fl). rewrite Z at 2. rewrite EC, EC'. auto 8.
Qed.
(*@ Example C157_errors_ex : let v := mkenv (fun _ _ => lit " 50.00") (fun _ _ _ => []) (map (fun c => if (97 <=? c) && (c <=? 122) then c - 32 else c)) (fun s => s) (fun _ => lit "?") 3 (fun _ => []) in
  fst (command v apart CheckInstructions (lit "x.py") [lit "a.arg"]) =
    ([OutL (lit "*** ERROR: Invalid instruction ""FOO"":"); OutL (lit "File inc, line 2:                    FOO"); OutL (lit "1 error encountered.")], Exit 0) /\
  fst (command v together CheckInstructions (lit "x.py") [lit "b.arg"]) =
    ([OutL (lit "*** ERROR: Invalid instruction ""FOO"":"); OutL (lit "File b.arg, line 3:                    FOO"); OutL (lit "1 error encountered.")], Exit 0).
Proof. vm_compute. auto. Qed. @*)
Lemma C157_count_pf : forall fs fs' prog prog' words words' on on' files files' outs outs' total,
  understood (options CheckInstructions) words on files -> understood (options CheckInstructions) words' on' files' ->
  In (lit "count") on -> In (lit "count") on' -> (In (lit "sort") on <-> In (lit "sort") on') ->
  (forall x, In x ["verbose"; "print-opcodes"; "unused"]%string -> ~ In (lit x) on /\ ~ In (lit x) on') ->
  files <> [] -> files' <> [] -> ~ In [] files -> ~ In [] files' ->
  Forall2 (source fs) files outs -> Forall2 (source fs') files' outs' -> map shown_text (concat outs) = map shown_text (concat outs') ->
  count_of (fun x => exists m, mnemonic_at (text_of x) m) (concat outs) total -> total <> 0 ->
  exists k, forall v, (k <= e_fuel v)%nat -> exists faults faults' report,
    command v fs CheckInstructions prog words = (concat faults ++ report, Exit 0, fs) /\
    command v fs' CheckInstructions prog' words' = (concat faults' ++ report, Exit 0, fs') /\
    picked mnemonic_fault (concat outs) faults /\ picked mnemonic_fault (concat outs') faults' /\ zlen faults = zlen faults'.
Proof.
  intros fs fs' prog prog' words words' on on' files files' outs outs' total U U' OC OC' OS O NE NE' N N' F F' E CT NZ.
  assert (MV : Forall2 moved (concat outs) (concat outs')) by (apply all_moved; [exact (sources_ended _ _ _ F)|exact (sources_ended _ _ _ F')|exact E]).
  assert (VM : Forall2 moved (concat outs') (concat outs)) by (apply all_moved; [exact (sources_ended _ _ _ F')|exact (sources_ended _ _ _ F)|symmetry; exact E]).
  assert (CT' : count_of (fun x => exists m, mnemonic_at (text_of x) m) (concat outs') total).
  { apply (moved_count _ (concat outs)); [|exact MV|exact CT]. intros x y (_ & AL). split; intros (m & M); exists m; apply (alike_mnemonic _ _ _ AL); exact M. }
  destruct (C147_count_pf fs prog words on files outs total U OC (fun x J => proj1 (O x J)) NE N F CT NZ) as (k & H).
  destruct (C147_count_pf fs' prog' words' on' files' outs' total U' OC' (fun x J => proj2 (O x J)) NE' N' F' CT' NZ) as (k' & H').
  exists (Nat.max k k'). intros v L. destruct (H v ltac:(lia)) as (fl & rows & EC & K & ND & IN & SO & NS). destruct (H' v ltac:(lia)) as (fl' & rows' & EC' & K' & ND' & IN' & SO' & NS').
  assert (Z : zlen fl = zlen fl') by exact (moved_faults _ _ _ _ MV K K').
  assert (ZC : zlen (concat outs) = zlen (concat outs')) by (unfold zlen; rewrite (F2_length _ _ _ MV); reflexivity).
  assert (C : forall m n, count_of (fun x => ~ starred_line (text_of x) /\ mnemonic_at (text_of x) m) (concat outs) n <->
                          count_of (fun x => ~ starred_line (text_of x) /\ mnemonic_at (text_of x) m) (concat outs') n).
  { assert (Q : forall m x y, moved x y -> (~ starred_line (text_of x) /\ mnemonic_at (text_of x) m <-> ~ starred_line (text_of y) /\ mnemonic_at (text_of y) m)).
    { intros m x y (_ & AL). rewrite (proj1 AL), (alike_mnemonic _ _ m AL). reflexivity. }
    intros m n. split; apply moved_count; auto. }
  assert (R : rows = rows').
  { assert (S : forall r, In r rows <-> In r rows') by (intros [m n]; rewrite IN, IN', C; reflexivity).
    assert (D : In (lit "sort") on \/ ~ In (lit "sort") on) by (destruct (in_dec (list_eq_dec Z.eq_dec) (lit "sort") on); auto).
    destruct D as [D|D].
    - apply (same_sorted_by by_frequency); [exact frequency_asym|apply SO; exact D|apply SO', OS; exact D|exact S].
    - apply (same_sorted_by (fun a b => str_lt (fst a) (fst b))); [intros a b A B; exact (str_lt_asym _ _ A B)|apply NS; exact D|apply NS'; rewrite <- OS; exact D|exact S]. }
  exists fl, fl'. eexists. split; [exact EC|]. rewrite EC', <- R, <- Z, <- ZC. auto.
Qed.
(*@ Example C157_count_ex : let v := mkenv (fun _ _ => lit " 50.00") (fun _ _ _ => []) (map (fun c => if (97 <=? c) && (c <=? 122) then c - 32 else c)) (fun s => s) (fun _ => lit "?") 3 (fun _ => []) in
  (exists outs outs', Forall2 (source apart) [lit "a.arg"] outs /\ Forall2 (source together) [lit "b.arg"] outs' /\ map shown_text (concat outs) = map shown_text (concat outs')) /\
  skipn 2 (fst (fst (command v apart CheckInstructions (lit "x.py") [lit "-cs"; lit "a.arg"]))) =
  skipn 2 (fst (fst (command v together CheckInstructions (lit "x.py") [lit "-cs"; lit "b.arg"]))) /\
  firstn 4 (skipn 2 (fst (fst (command v together CheckInstructions (lit "x.py") [lit "-cs"; lit "b.arg"])))) =
    [OutL (10 :: lit "Source lines: 3"); OutL (10 :: lit "Instruction Frequencies:"); OutL (lit "Total         3  100.00%"); OutL (lit "DA            2   50.00%")].
Proof.
  split; [|vm_compute; auto].
  exists [[(lit "inc", 1, lit "        B          DA" ++ [10]); (lit "inc", 2, lit "                   FOO"); (lit "a.arg", 2, lit "        A          DA,B         1" ++ [10])]],
         [[(lit "b.arg", 2, lit "        B          DA" ++ [10]); (lit "b.arg", 3, lit "                   FOO" ++ [10]); (lit "b.arg", 4, lit "        A          DA,B         1")]].
  split; [constructor; [|constructor]|split; [constructor; [|constructor]|vm_compute; reflexivity]].
  - eapply (so_file _ _ _ [lit "$ inc" ++ [10]; lit "        A          DA,B         1" ++ [10]]); [reflexivity|apply C144_lines_pf; vm_compute; reflexivity|].
    eapply (sl_include _ _ _ (lit " inc" ++ [10]) (lit "inc") _ [_; _] [_]).
    + apply first_word_ok. exists []. vm_compute. reflexivity.
    + eapply (so_file _ _ _ [lit "        B          DA" ++ [10]; lit "                   FOO"]); [reflexivity|apply C144_lines_pf; vm_compute; reflexivity|].
      repeat (apply sl_line; [intros c r X; injection X as <- _; split; discriminate|]). constructor.
    + repeat (apply sl_line; [intros c r X; injection X as <- _; split; discriminate|]). constructor.
  - eapply (so_file _ _ _ [lit "# one file" ++ [10]; lit "        B          DA" ++ [10]; lit "                   FOO" ++ [10]; lit "        A          DA,B         1"]); [reflexivity|apply C144_lines_pf; vm_compute; reflexivity|].
    apply sl_comment. repeat (apply sl_line; [intros c r X; injection X as <- _; split; discriminate|]). constructor.
Qed. @*)
