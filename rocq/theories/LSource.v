From Coq Require Import ZArith List Bool Lia Sorted.
From Verif Require Import Py LPy MInstruction MCards SCards LCards LDeck MSymbols SSymbols LSymBuild MInstructions MTools STools LTools LToolSym LListTool MDiag SDiag LQuiet MDump MVerbose SVerbose LVerbose STranscript LTranscript MOptions SOptions LOptions MProcess SProcess LProcess SEnds LEnds SSource.
#[local] Arguments Z.add : simpl never.
#[local] Arguments Z.sub : simpl never.
#[local] Arguments Z.mul : simpl never.
#[local] Arguments Z.pow : simpl never.

Definition F10 : list Z := [1; 2; 8; 9; 20; 33; 47; 61; 76; 81].

(** *** the text of the sources and its expansion *)
Scheme source_ind2 := Minimality for source Sort Prop
  with source_lines_ind2 := Minimality for source_lines Sort Prop.
Combined Scheme source_both from source_ind2, source_lines_ind2.
Lemma source_expand fs : (forall f out, source fs f out -> expand fs f out) /\
  (forall f i ls out, source_lines fs f i ls out -> expand_lines fs f i ls out).
Proof.
  apply source_both.
  - intros f content ls out E T _ IH. apply (ex_file fs f content); [exact E|]. rewrite (text_ok _ _ T). exact IH.
  - intros. constructor.
  - intros f i r rest out _ IH. apply ex_comment; [exists r; reflexivity|exact IH].
  - intros f i r inc rest out1 out2 W _ IH1 _ IH2. apply (ex_include fs f i _ inc); [exists r; split; [reflexivity|exact W]|exact IH1|exact IH2].
  - intros f i line rest out N _ IH. apply ex_card; [| |exact IH]; [intros (r & E)|intros (r & E)]; destruct (N _ _ E) as [A B]; [apply A|apply B]; reflexivity.
Qed.
Scheme expand_ind2 := Minimality for expand Sort Prop
  with expand_lines_ind2 := Minimality for expand_lines Sort Prop.
Combined Scheme expand_both from expand_ind2, expand_lines_ind2.
Lemma expand_source fs : (forall f out, expand fs f out -> source fs f out) /\
  (forall f i ls out, expand_lines fs f i ls out -> source_lines fs f i ls out).
Proof.
  apply expand_both.
  - intros f content out E _ IH. destruct (text_exists content) as (ls & T). apply (so_file fs f content ls); [exact E|exact T|].
    rewrite (text_ok _ _ T) in IH. exact IH.
  - intros. constructor.
  - intros f i line rest out (r & ->) _ IH. apply sl_comment. exact IH.
  - intros f i line inc rest out1 out2 (r & -> & W) _ IH1 _ IH2. apply (sl_include fs f i r inc); assumption.
  - intros f i line rest out N1 N2 _ IH. apply sl_line; [|exact IH].
    intros c r E. split; intros ->; [apply N1|apply N2]; exists r; exact E.
Qed.

(** *** one line *)
Lemma first_column line : columns line 1 1 = match nth_error line 0 with Some c => [c] | None => [] end.
Proof. destruct line; reflexivity. Qed.
Lemma nth_column (line : str) n : columns line (Z.of_nat n + 1) (Z.of_nat n + 1) = match nth_error line n with Some c => [c] | None => [] end.
Proof.
  unfold columns. replace (Z.of_nat n + 1 - (Z.of_nat n + 1) + 1) with 1 by lia. replace (Z.of_nat n + 1 - 1) with (Z.of_nat n) by lia.
  rewrite Nat2Z.id. revert line. induction n as [|n IH]; intros [|c line]; try reflexivity. apply IH.
Qed.
Lemma trimmed_one c x : ~ white c -> trimmed x [c] -> (List.length x <= 1)%nat -> x = [c].
Proof.
  intros W (p & q & -> & _) L. rewrite !app_length in L. cbn in L. destruct p; [|cbn in L; lia]. destruct q; [reflexivity|cbn in L; lia].
Qed.
Lemma one_trimmed c : ~ white c -> trimmed [c] [c].
Proof.
  intros W. exists [], []. split; [reflexivity|]. split; [constructor|]. split; [constructor|]. split.
  - intros x r [= <- _]. exact W.
  - intros x r E. destruct r as [|y r]; [injection E as <-; exact W|]. destruct r; discriminate E.
Qed.
Lemma remark_line_ok line : remark_card line 120 F10 <-> remark_line line.
Proof.
  unfold remark_card, remark_line. assert (EF : field_text line 120 F10 0 = columns line 1 1) by reflexivity. rewrite EF, first_column. clear EF. split.
  - intros (x & I & T). destruct (nth_error line 0) as [c|].
    + exists c. split; [reflexivity|].
      destruct I as [<-|[<-|[<-|[]]]]; apply trimmed_one in T; try (apply not_white; reflexivity); try (cbn; lia); injection T as ->; cbn; tauto.
    + exfalso. destruct T as (p & q & E & _). destruct p; [|discriminate]. destruct I as [<-|[<-|[<-|[]]]]; discriminate E.
  - intros (c & -> & I). destruct I as [<-|[<-|[<-|[]]]]; [exists "P"%string|exists "R"%string|exists "L"%string]; (split; [cbn; tauto|]);
      apply one_trimmed; apply not_white; reflexivity.
Qed.
Lemma shown_op f op : rstr (stripped f) = RStr op <-> trimmed f op /\ op <> [].
Proof. rewrite <- stripped_Some. destruct (stripped f); cbn [rstr]; split; congruence. Qed.
Lemma shown_none f : rstr (stripped f) = RNone <-> forall op, ~ (trimmed f op /\ op <> []).
Proof.
  split.
  - intros E op H. apply shown_op in H. congruence.
  - intros H. destruct (stripped f) as [t|] eqn:E; [|reflexivity]. apply stripped_Some in E. exfalso. exact (H _ E).
Qed.
Lemma strip_trim t f : trimmed f t -> strip t = t.
Proof.
  intros (p & q & _ & _ & _ & H1 & H2). apply (trimmed_unique t); [apply strip_trimmed|].
  exists [], []. rewrite app_nil_r. split; [reflexivity|]. split; [constructor|]. split; [constructor|]. auto.
Qed.

Definition agrees (x : srcline) (c : card) : Prop :=
  let '(f, i, line) := x in
  (starred c <-> starred_line line) /\
  (forall op, card_get c "operation" = Ok (RStr op) <-> operation_of line op) /\
  (card_get c "operation" = Ok RNone <-> forall op, ~ operation_of line op) /\
  (forall s, label_text c s <-> label_of line s) /\
  (forall m, instr_is c m <-> mnemonic_at line m) /\
  (exists v, card_get c "lognum" = Ok v /\ shows (columns line 2 7) v) /\
  c_filename c = Some f /\ c_linenum c = i /\ c_line c = shown_text x.
Lemma record_gets c l ly fn n f1 s1 v rem :
  c = mkcard l ly fn n false (Some (f1, s1, final_record n v rem)) ->
  card_get c "column8" = Ok (v 2%nat) /\ card_get c "lognum" = Ok (v 1%nat) /\
  card_get c "label" = Ok (if is_remark (v 0%nat) then RNone else v 3%nat) /\
  card_get c "operation" = Ok (if is_remark (v 0%nat) then RNone else v 4%nat) /\
  card_get c "instruction" = Ok (if is_remark (v 0%nat) then RNone else inst_of (v 4%nat)).
Proof.
  intros ->. repeat split; getf; destruct (is_remark (v 0%nat)); reflexivity.
Qed.
Lemma line_card x c : ~ comment_line (text_of x) -> card_of ArgusCls 120 F10 x c -> agrees x c.
Proof.
  destruct x as [[f i] line]. cbn [text_of snd card_of]. intros NC E. unfold card_new in E.
  pose proof (argus_ok line 120 F10 (Some f) i NC default_layout) as A. change (argus_new line 120 F10 DEFAULT_FIELDNAMES (Some f) i = Ok c) in E.
  rewrite A in E. clear A. pose proof (record_gets c (remove_char 10 line) (layout 120 F10) (Some f) i
    (map (field_text line 120 F10) (seq 0 10)) (map stripped (map (field_text line 120 F10) (seq 0 10)))
    (fun k => rstr (stripped (field_text line 120 F10 k))) (strip (skipn 9 (remove_char 10 line)))) as G.
  assert (E' := f_equal (fun r => match r with Ok y => y | Err _ => c end) E). cbv beta iota in E'. specialize (G (eq_sym E')).
  assert (cf : c_filename c = Some f /\ c_linenum c = i /\ c_line c = shown_text (f, i, line)).
  { rewrite <- E'. repeat split. }
  clear E E'. unfold agrees.
  pose proof (remark_dec line 120 F10) as R. rewrite remark_line_ok in R.
  assert (C2 : field_text line 120 F10 1 = columns line 2 7) by reflexivity.
  assert (C8 : field_text line 120 F10 2 = columns line 8 8) by reflexivity.
  assert (C9 : field_text line 120 F10 3 = columns line 9 19) by reflexivity.
  assert (C20 : field_text line 120 F10 4 = columns line 20 32) by reflexivity.
  set (v := fun k : nat => rstr (stripped (field_text line 120 F10 k))) in *.
  change (rstr (stripped (field_text line 120 F10 0))) with (v 0%nat) in R.
  assert (V2 : v 1%nat = rstr (stripped (columns line 2 7))) by (unfold v; rewrite C2; reflexivity).
  assert (V8 : v 2%nat = rstr (stripped (columns line 8 8))) by (unfold v; rewrite C8; reflexivity).
  assert (V9 : v 3%nat = rstr (stripped (columns line 9 19))) by (unfold v; rewrite C9; reflexivity).
  assert (V20 : v 4%nat = rstr (stripped (columns line 20 32))) by (unfold v; rewrite C20; reflexivity).
  clearbody v. clear C2 C8 C9 C20. destruct G as (G8 & GL & G9 & G20 & GI).
  assert (OP : forall op, card_get c "operation" = Ok (RStr op) <-> operation_of line op).
  { intros op. rewrite G20. unfold operation_of. destruct (is_remark (v 0%nat)).
    - split; [discriminate|]. intros [N _]. destruct (N (proj1 R eq_refl)).
    - rewrite V20. assert (NR : ~ remark_line line) by (intros X; apply R in X; discriminate). split.
      + intros [= E]. apply shown_op in E. tauto.
      + intros [_ E]. apply (f_equal Ok), shown_op. exact E. }
  split; [|split; [exact OP|split; [|split; [|split; [|split; [|exact cf]]]]]].
  - unfold starred, starred_line. rewrite G8, V8. pose proof (nth_column line 7) as N8. cbn [Z.of_nat Pos.of_succ_nat Pos.succ] in N8.
    change (7 + 1) with 8 in N8. rewrite N8. clear N8. generalize (nth_error line 7) as n8. intros n8. split.
    + intros [= E]. apply shown_op in E. destruct E as [T _]. destruct n8 as [c8|].
      * apply (trimmed_one 42) in T; [injection T as ->; reflexivity|apply not_white; reflexivity|cbn; lia].
      * apply (trimmed_one 42) in T; [discriminate|apply not_white; reflexivity|cbn; lia].
    + intros ->. apply (f_equal Ok). apply shown_op. split; [apply one_trimmed, not_white; reflexivity|discriminate].
  - rewrite G20. unfold operation_of. destruct (is_remark (v 0%nat)).
    + split; [intros _ op [N _]; apply N, R; reflexivity|reflexivity].
    + assert (NR : ~ remark_line line) by (intros X; apply R in X; discriminate). rewrite V20. split.
      * intros [= E] op [_ H]. exact (proj1 (shown_none _) E op H).
      * intros H. apply (f_equal Ok), shown_none. intros op X. apply (H op). tauto.
  - intros s. unfold label_text, label_of. rewrite G9. destruct (is_remark (v 0%nat)).
    + split; [intros (l & E & _); discriminate|]. intros [N _]. destruct (N (proj1 R eq_refl)).
    + assert (NR : ~ remark_line line) by (intros X; apply R in X; discriminate). rewrite V9. split.
      * intros (l & E & ->). injection E as E. apply shown_op in E. destruct E as [T N]. split; [exact NR|].
        exists l. rewrite (strip_trim _ _ T). auto.
      * intros (_ & l & T & N & ->). exists l. rewrite (strip_trim _ _ T). split; [|reflexivity]. apply (f_equal Ok), shown_op. auto.
  - intros m. unfold instr_is, mnemonic_at. rewrite GI. split.
    + intros [N E]. split; [exact N|]. injection E as E. destruct (is_remark (v 0%nat)); [discriminate|].
      destruct (v 4%nat) as [|op|z] eqn:E4; try discriminate. exists op. split; [apply OP; rewrite G20; reflexivity|]. cbn [inst_of] in E.
      destruct (has_char 44 op) eqn:HC.
      * right. apply has_char_In in HC. destruct (first_split 44 _ HC) as (a & b & -> & NA). exists a, b. split; [reflexivity|]. split; [exact NA|].
        rewrite eqb_neq in E by (destruct a; discriminate). cbn [negb andb] in E. rewrite split_on_first in E by exact NA. injection E as <-. apply strip_trimmed.
      * left. rewrite andb_false_r in E. injection E as ->. split; [|reflexivity]. rewrite <- has_char_In, HC. discriminate.
    + intros (N & op & O & H). split; [exact N|]. pose proof (proj2 (OP op) O) as E. rewrite G20 in E. f_equal. injection E as E.
      destruct (is_remark (v 0%nat)); [discriminate|]. rewrite E. cbn [inst_of]. destruct H as [[NC' ->]|(a & b & -> & NA & T)].
      * destruct (has_char 44 op) eqn:HC; [apply has_char_In in HC; contradiction|]. rewrite andb_false_r. reflexivity.
      * rewrite (proj2 (has_char_In 44 (a ++ 44 :: b))) by (apply in_or_app; right; left; reflexivity).
        rewrite eqb_neq by (destruct a; discriminate). cbn [negb andb]. rewrite split_on_first by exact NA.
        f_equal. apply (trimmed_unique a); [apply strip_trimmed|exact T].
  - exists (v 1%nat). split; [exact GL|]. rewrite V2. apply shows_stripped.
Qed.

(** *** the cards of a source *)
Lemma log_total k out cs : (k = ArgusCls) -> Forall2 (card_of k 120 F10) out cs -> Forall (fun s => startswith (snd s) (lit "#") = false) out ->
  exists o, log_section cs = Ok o.
Proof.
  intros K F NC. induction F as [|[[f i] l] c ps cs H _ IH]; [exists None; reflexivity|].
  inversion NC as [|x y N1 N2]; subst. cbn [card_of] in H.
  destruct (card_cols ArgusCls _ _ _ _ _ _ default_layout eq_refl H N1) as (v1 & v8 & G1 & G8).
  cbn [log_section]. unfold card_get in G1, G8.
  destruct (card_record c) as [rec|e]; cbn [bind] in *; [|discriminate]. rewrite G1. cbn [bind].
  destruct (is_str v1 "L"); [rewrite G8; cbn [bind]; eauto|apply IH; [exact N2]].
Qed.
Lemma source_read fs (f : str) out : f <> [] -> source fs f out ->
  exists k cs, Forall2 agrees out cs /\ forall fuel, (k <= fuel)%nat -> source_cards fuel fs f cs.
Proof.
  intros N S. apply (proj1 (source_expand fs)) in S. pose proof (proj1 (expand_noncomment fs) _ _ S) as NC.
  destruct (cards_exist ArgusCls 120 F10 out default_layout NC) as (cs & F).
  destruct (C64_deck_file_complete_pf fs f 120 F10 ArgusCls out N default_layout S) as (k1 & d & K1).
  destruct (proj1 (expand_reads ArgusCls 120 F10 fs) _ _ S cs F) as (k2 & K2).
  destruct (log_total _ _ _ eq_refl F NC) as (o & LS).
  exists (max k1 k2), cs. split.
  - clear - F NC. induction F as [|x c out cs H _ IH]; [constructor|]. inversion NC as [|a b N1 N2]; subst.
    constructor; [|apply IH; exact N2]. apply line_card; [|exact H]. apply comment_false. exact N1.
  - intros fuel L. specialize (K1 fuel ltac:(lia)). pose proof K1 as K1'.
    rewrite deck_file in K1 by exact N. destruct (K2 fuel) as [E|[L2 _]]; [|lia]. rewrite E in K1. cbn [bind] in K1.
    destruct (mapr triple cs) as [all|e]; [|discriminate]. cbn [bind] in K1.
    assert (EC : d_cards d = cs) by (apply (f_equal (fun r => match r with Ok y => d_cards y | Err _ => cs end)) in K1; symmetry; exact K1).
    exists d, (match o with Some (s, _) => Some s | None => None end), (match o with Some (_, c8) => c8 | None => RNone end).
    split; [|congruence]. unfold argus_deck_new. match goal with |- context[deck_new ?a1 ?a2 ?a3 ?a4 ?a5 ?a6 ?a7] => replace (deck_new a1 a2 a3 a4 a5 a6 a7) with (Ok d) by (symmetry; exact K1') end. cbn [bind]. rewrite EC, LS. cbn [bind].
    destruct o as [[s c8]|]; reflexivity.
Qed.
Lemma sources_read fs (files : list str) outs : ~ In [] files -> Forall2 (source fs) files outs ->
  exists k css, Forall2 (Forall2 agrees) outs css /\ forall fuel, (k <= fuel)%nat -> Forall2 (source_cards fuel fs) files css.
Proof.
  intros N F. induction F as [|f out files outs S _ IH]; [exists 0%nat, []; split; [constructor|intros; constructor]|].
  destruct IH as (k & css & A & H); [intros I; apply N; right; exact I|].
  destruct (source_read fs f out) as (k' & cs & A' & H'); [intros ->; apply N; left; reflexivity|exact S|].
  exists (max k k'), (cs :: css). split; [constructor; assumption|]. intros fuel L. constructor; [apply H'; lia|apply H; lia].
Qed.
Lemma F2_concat {A B} (R : A -> B -> Prop) a b : Forall2 (Forall2 R) a b -> Forall2 R (concat a) (concat b).
Proof. induction 1; [constructor|]. cbn [concat]. apply Forall2_app; assumption. Qed.
Lemma source_unique fuel fs f cs cs' : source_cards fuel fs f cs -> source_cards fuel fs f cs' -> cs = cs'.
Proof. intros (d & s & c & E & ->) (d' & s' & c' & E' & ->). rewrite E in E'. injection E' as -> -> ->. reflexivity. Qed.

(** *** from the lines to the cards *)
Lemma agrees_count (P : srcline -> Prop) (Q : card -> Prop) out cs n : (forall x c, agrees x c -> (P x <-> Q c)) ->
  Forall2 agrees out cs -> (count_of P out n <-> count_of Q cs n).
Proof.
  intros H F. revert n. induction F as [|x c out cs A _ IH]; intros n.
  - split; inversion 1; constructor.
  - split; inversion 1; subst; (constructor; [apply (H _ _ A) || (rewrite <- (H _ _ A) || rewrite (H _ _ A)); assumption|apply IH; assumption]).
Qed.
Lemma agrees_picked {B} (P : srcline -> B -> Prop) (Q : card -> B -> Prop) out cs ys : (forall x c y, agrees x c -> (P x y <-> Q c y)) ->
  Forall2 agrees out cs -> picked Q cs ys -> picked P out ys.
Proof.
  intros H F. revert ys. induction F as [|x c out cs A _ IH]; intros ys K; inversion K; subst.
  - constructor.
  - constructor; [apply (H _ _ _ A); assumption|apply IH; assumption].
  - apply pk_no; [intros y X; apply (H _ _ _ A) in X; eapply H2; exact X|apply IH; assumption].
Qed.
Lemma agrees_invalid x c : agrees x c ->
  ((~ starred_line (text_of x) /\ exists m, mnemonic_at (text_of x) m /\ ~ In m INSTRUCTIONS) <->
   (~ starred c /\ exists m, instr_is c m /\ ~ In m INSTRUCTIONS)).
Proof.
  destruct x as [[f i] line]. intros (S & _ & _ & _ & M & _). cbn [text_of snd]. rewrite S.
  split; intros (N & m & H); (split; [exact N|exists m]); (rewrite M || rewrite <- M); exact H.
Qed.
Lemma instr_unique c m m' : instr_is c m -> instr_is c m' -> m = m'.
Proof. intros [_ E] [_ E']. rewrite E in E'. injection E' as ->. reflexivity. Qed.
Lemma report_faults out cs lss : Forall2 agrees out cs -> Forall2 (card_report false false) cs lss ->
  exists faults, concat lss = concat faults /\ picked mnemonic_fault out faults.
Proof.
  intros F. revert lss. induction F as [|x c out cs A _ IH]; intros lss G; inversion G as [|c' ls cs' lss' R G']; subst.
  - exists []. split; [reflexivity|constructor].
  - destruct (IH _ G') as (fl & E & P). cbn [concat]. rewrite E.
    destruct x as [[f i] line]. destruct A as (AS & _ & _ & _ & AM & _ & AF & AI & AL).
    inversion R as [NI|t IC ST PO|m t IM NS IN PO|m t l IM NS NI PO CO]; subst ls.
    + exists fl. split; [reflexivity|]. apply pk_no; [|exact P]. intros y (_ & m & M & _). apply NI. exists m. apply AM. exact M.
    + exists fl. split; [reflexivity|]. apply pk_no; [|exact P]. intros y (N & _). apply N, AS. exact ST.
    + exists fl. split; [reflexivity|]. apply pk_no; [|exact P]. intros y (_ & m' & M & N & _). apply AM in M. rewrite (instr_unique _ _ _ M IM) in N. contradiction.
    + exists (l :: fl). split; [reflexivity|]. apply pk_yes; [|exact P]. split; [rewrite <- AS; exact NS|]. exists m.
      split; [apply AM; exact IM|]. split; [exact NI|]. destruct CO as (g & EG & ->). rewrite AF in EG. injection EG as <-. rewrite AI, AL. reflexivity.
Qed.
Lemma picked_app {A B} (P : A -> B -> Prop) a x b y : picked P a x -> picked P b y -> picked P (a ++ b) (x ++ y).
Proof. induction 1; intros; cbn [app]; [assumption|apply pk_yes; auto|apply pk_no; auto]. Qed.
Lemma files_faults fuel fs files ls outs css : files_report fuel fs false false files ls -> Forall2 (source_cards fuel fs) files css ->
  Forall2 (Forall2 agrees) outs css -> exists faults, ls = concat faults /\ picked mnemonic_fault (concat outs) faults.
Proof.
  intros R. revert outs css. induction R as [|f files log cs lss ls L SC CR _ IH]; intros outs css F G; inversion F; subst; inversion G; subst.
  - exists []. split; [reflexivity|constructor].
  - destruct (IH _ _ H3 H5) as (fl & -> & P). pose proof (source_unique _ _ _ _ _ SC H1) as E. subst cs.
    match goal with A : Forall2 agrees _ _ |- _ => destruct (report_faults _ _ _ A CR) as (fl' & E' & P') end.
    exists (fl' ++ fl). rewrite E', concat_app. split; [reflexivity|]. cbn [concat]. apply picked_app; assumption.
Qed.
Lemma picked_count (P : srcline -> list line -> Prop) Q out fl : (forall x, (exists y, P x y) <-> Q x) -> picked P out fl -> count_of Q out (zlen fl).
Proof.
  intros H. induction 1 as [|x y l r A _ IH|x l r A _ IH].
  - constructor.
  - replace (zlen (y :: r)) with (zlen r + 1) by (rewrite zlen_cons; lia). apply cn_yes; [apply H; exists y; exact A|exact IH].
  - apply cn_no; [|exact IH]. rewrite <- H. intros (y & B). exact (A y B).
Qed.
Lemma fault_ex x : (exists ls, mnemonic_fault x ls) <-> (~ starred_line (text_of x) /\ exists m, mnemonic_at (text_of x) m /\ ~ In m INSTRUCTIONS).
Proof.
  destruct x as [[f i] line]. cbn [mnemonic_fault text_of snd]. split.
  - intros (ls & N & m & M & I & _). eauto.
  - intros (N & m & M & I). eexists. split; [exact N|]. exists m. split; [exact M|]. split; [exact I|reflexivity].
Qed.

(** a source for the examples: a comment, an include, a remark, a line with an asterisk, a wrong mnemonic, symbols *)
Definition sample (f : str) : option str :=
  if eqb f (lit "a.arg") then
    Some (lit "# sample" ++ [10] ++ lit "$ inc" ++ [13; 10] ++
          lit "        A          DA,B         1" ++ [10] ++ lit "R       A REMARK" ++ [10] ++
          lit "       *           FOO" ++ [10] ++ lit "  12    A          FOO")
  else if eqb f (lit "inc") then Some (lit "        N          ASSIGN       5" ++ [10] ++ lit "        x" ++ [10]) else None.
Definition sample_lines : list srcline :=
  [(lit "inc", 1, lit "        N          ASSIGN       5" ++ [10]); (lit "inc", 2, lit "        x" ++ [10]);
   (lit "a.arg", 3, lit "        A          DA,B         1" ++ [10]); (lit "a.arg", 4, lit "R       A REMARK" ++ [10]);
   (lit "a.arg", 5, lit "       *           FOO" ++ [10]); (lit "a.arg", 6, lit "  12    A          FOO")].
Lemma sample_ok : source sample (lit "a.arg") sample_lines.
Proof.
  apply (proj1 (expand_source sample)).
  eapply ex_file; [reflexivity|]. match goal with |- expand_lines _ _ _ ?l _ => let l' := eval vm_compute in l in change l with l' end.
  apply ex_comment; [eexists; reflexivity|].
  eapply (ex_include sample (lit "a.arg") _ _ (lit "inc") _ [_; _]).
  - eexists. split; [reflexivity|]. exists [32], [10]. split; [reflexivity|]. split; [repeat constructor; apply white_ok; reflexivity|].
    split; [discriminate|]. split; [repeat constructor; apply not_white; reflexivity|]. right. exists 10, []. split; [reflexivity|apply white_ok; reflexivity].
  - eapply ex_file; [reflexivity|]. match goal with |- expand_lines _ _ _ ?l _ => let l' := eval vm_compute in l in change l with l' end.
    repeat (apply ex_card; [intros (r & E); discriminate E|intros (r & E); discriminate E|]). constructor.
  - repeat (apply ex_card; [intros (r & E); discriminate E|intros (r & E); discriminate E|]). constructor.
Qed.

(** *** C147 *)
Lemma off on l b : turned_on on l b -> ~ In (lit l) on -> b = false.
Proof. intros [A _] N. destruct b; [destruct (N (A eq_refl))|reflexivity]. Qed.
Lemma C147_faults_pf : forall fs prog words on files outs,
  understood (options CheckInstructions) words on files ->
  (forall x, In x ["verbose"; "count"; "print-opcodes"; "unused"]%string -> ~ In (lit x) on) ->
  files <> [] -> ~ In [] files -> Forall2 (source fs) files outs ->
  exists k, forall v, (k <= e_fuel v)%nat -> exists faults,
    command v fs CheckInstructions prog words = (concat faults ++ [OutL (error_count (zlen faults))], Exit 0, fs) /\
    picked mnemonic_fault (concat outs) faults.
Proof.
  intros fs prog words on files outs U O NE N S. destruct (sources_read fs files outs N S) as (k & css & A & K).
  exists k. intros v L. specialize (K _ L).
  destruct (C142_starts_pf v fs CheckInstructions prog words on files U (files_no_misuse fs CheckInstructions on files ltac:(cbn; auto) NE)) as (ls & st & fs' & E & R).
  inversion R as [verbose o ls0 r st0 V1 V2 V3 V4 V5 V6 V7 EC EA| | | | | | | | | |]; subst.
  assert (EV := off _ _ _ V1 (O "verbose"%string ltac:(cbn; auto 8))). assert (EC' := off _ _ _ V3 (O "count"%string ltac:(cbn; auto 8))).
  assert (EP := off _ _ _ V5 (O "print-opcodes"%string ltac:(cbn; auto 8))). assert (EU := off _ _ _ V7 (O "unused"%string ltac:(cbn; auto 8))).
  destruct (ci_run (e_pct v) (e_fuel v) fs' verbose o files css NE K) as (l0 & s & _ & R0 & _). rewrite EV, EP in R0.
  destruct (files_faults _ _ _ _ _ _ R0 K A) as (fl & _ & P0). clear R0 l0 s.
  assert (CN : count_of (fun c => ~ starred c /\ exists m, instr_is c m /\ ~ In m INSTRUCTIONS) (concat css) (zlen fl)).
  { apply (agrees_count (fun x => ~ starred_line (text_of x) /\ exists m, mnemonic_at (text_of x) m /\ ~ In m INSTRUCTIONS) _ (concat outs));
      [exact agrees_invalid|apply F2_concat; exact A|]. apply (picked_count mnemonic_fault); [apply fault_ex|exact P0]. }
  destruct (C121_transcript_pf (e_pct v) (e_fuel v) fs' verbose o files css (zlen fl) NE EC' K CN) as (l1 & un & X & FR & UN).
  rewrite EV, EP in FR. destruct (files_faults _ _ _ _ _ _ FR K A) as (fl' & -> & P).
  rewrite EU in UN. inversion UN; subst un. rewrite X in EC. injection EC as <- <-. inversion EA; subst.
  exists fl'. split; [|exact P]. rewrite E. cbn [map app].
  assert (CN' := picked_count mnemonic_fault _ _ _ fault_ex P). assert (CN0 := picked_count mnemonic_fault _ _ _ fault_ex P0).
  rewrite (count_unique _ _ _ _ CN' CN0). reflexivity.
Qed.
(*@ Example C147_faults_ex : let v := mkenv (fun _ _ => lit " 50.00") (fun _ _ _ => []) (fun s => map (fun c => if (97 <=? c) && (c <=? 122) then c - 32 else c) s) (fun s => s) (fun _ => []) 3 (fun _ => []) in
  Forall2 (source sample) [lit "a.arg"] [sample_lines] /\ understood (options CheckInstructions) [lit "a.arg"] [] [lit "a.arg"] /\
  fst (command v sample CheckInstructions (lit "x.py") [lit "a.arg"]) =
    ([OutL (lit "*** ERROR: Invalid instruction ""FOO"":"); OutL (lit "File a.arg, line 6:   12    A          FOO");
      OutL (lit "1 error encountered.")], Exit 0).
Proof.
  split; [constructor; [exact sample_ok|constructor]|]. split; [apply ud_arg; [right; intros r; discriminate|constructor]|]. vm_compute. reflexivity.
Qed. @*)
Lemma agrees_len out cs : Forall2 agrees out cs -> zlen cs = zlen out.
Proof. intros F. unfold zlen. f_equal. symmetry. exact (F2_length _ _ _ F). Qed.
Lemma C147_count_pf : forall fs prog words on files outs total,
  understood (options CheckInstructions) words on files -> In (lit "count") on ->
  (forall x, In x ["verbose"; "print-opcodes"; "unused"]%string -> ~ In (lit x) on) ->
  files <> [] -> ~ In [] files -> Forall2 (source fs) files outs ->
  count_of (fun x => exists m, mnemonic_at (text_of x) m) (concat outs) total -> total <> 0 ->
  exists k, forall v, (k <= e_fuel v)%nat -> exists faults rows,
    command v fs CheckInstructions prog words =
      (concat faults ++
       [OutL (10 :: lit "Source lines: " ++ str_of_Z (zlen (concat outs))); OutL (10 :: lit "Instruction Frequencies:");
        OutL (freq_line (lit "Total") total (lit "100.00"))] ++
       map (fun r => OutL (freq_line (fst r) (snd r) (e_pct v (snd r) total))) rows ++
       [OutL (error_count (zlen faults))], Exit 0, fs) /\
    picked mnemonic_fault (concat outs) faults /\
    NoDup (map fst rows) /\
    (forall m n, In (m, n) rows <->
       In m INSTRUCTIONS /\ count_of (fun x => ~ starred_line (text_of x) /\ mnemonic_at (text_of x) m) (concat outs) n) /\
    (In (lit "sort") on -> StronglySorted by_frequency rows) /\
    (~ In (lit "sort") on -> StronglySorted (fun a b => str_lt (fst a) (fst b)) rows).
Proof.
  intros fs prog words on files outs total U OC O NE N S CT NZ. destruct (sources_read fs files outs N S) as (k & css & A & K).
  exists k. intros v L. specialize (K _ L).
  destruct (C142_starts_pf v fs CheckInstructions prog words on files U (files_no_misuse fs CheckInstructions on files ltac:(cbn; auto) NE)) as (ls & st & fs' & E & R).
  inversion R as [verbose o ls0 r st0 V1 V2 V3 V4 V5 V6 V7 EC EA| | | | | | | | | |]; subst.
  assert (EV := off _ _ _ V1 (O "verbose"%string ltac:(cbn; auto 8))). assert (EC' := proj2 V3 OC).
  assert (EP := off _ _ _ V5 (O "print-opcodes"%string ltac:(cbn; auto 8))). assert (EU := off _ _ _ V7 (O "unused"%string ltac:(cbn; auto 8))).
  destruct (ci_run (e_pct v) (e_fuel v) fs' verbose o files css NE K) as (l0 & s & _ & R0 & _). rewrite EV, EP in R0.
  destruct (files_faults _ _ _ _ _ _ R0 K A) as (fl & _ & P0). clear R0 l0 s.
  assert (A' := F2_concat _ _ _ A).
  assert (CN : count_of (fun c => ~ starred c /\ exists m, instr_is c m /\ ~ In m INSTRUCTIONS) (concat css) (zlen fl)).
  { apply (agrees_count (fun x => ~ starred_line (text_of x) /\ exists m, mnemonic_at (text_of x) m /\ ~ In m INSTRUCTIONS) _ (concat outs));
      [exact agrees_invalid|exact A'|]. apply (picked_count mnemonic_fault); [apply fault_ex|exact P0]. }
  assert (CI : count_of instr_card (concat css) total).
  { apply (agrees_count (fun x => exists m, mnemonic_at (text_of x) m) _ (concat outs)); [|exact A'|exact CT].
    intros [[f i] line] c (_ & _ & _ & _ & M & _). cbn [text_of snd]. split; intros (m & H); exists m; apply M; exact H. }
  destruct (C121_count_pf (e_pct v) (e_fuel v) fs' verbose o files css (zlen fl) total NE EC' K CN CI NZ) as (l1 & rows & un & X & FR & R1 & R2 & R3 & R4 & UN).
  rewrite EV, EP in FR. destruct (files_faults _ _ _ _ _ _ FR K A) as (fl' & -> & P).
  rewrite EU in UN. inversion UN; subst un. rewrite X in EC. injection EC as <- <-. inversion EA; subst.
  exists fl', rows. split; [|split; [exact P|split; [exact R1|split; [|split]]]].
  - rewrite E. assert (CN' := picked_count mnemonic_fault _ _ _ fault_ex P). assert (CN0 := picked_count mnemonic_fault _ _ _ fault_ex P0).
    rewrite (count_unique _ _ _ _ CN' CN0), (agrees_len _ _ A'). rewrite !map_app, map_map. cbn [map app]. reflexivity.
  - intros m n. rewrite R2, EU. unfold frequency.
    assert (Q : count_of (fun x => ~ starred_line (text_of x) /\ mnemonic_at (text_of x) m) (concat outs) n <->
                count_of (fun c => ~ starred c /\ instr_is c m) (concat css) n).
    { apply agrees_count; [|exact A']. intros [[f i] line] c (SS & _ & _ & _ & M & _). cbn [text_of snd]. rewrite SS, M. reflexivity. }
    rewrite Q. intuition discriminate.
  - intros I. apply R3, V6, I.
  - intros I. apply R4. destruct (o_sort o); [destruct (I (proj1 V6 eq_refl))|reflexivity].
Qed.
(*@ Example C147_count_ex : let v := mkenv (fun _ _ => lit " 50.00") (fun _ _ _ => []) (fun s => map (fun c => if (97 <=? c) && (c <=? 122) then c - 32 else c) s) (fun s => s) (fun _ => []) 3 (fun _ => []) in
  Forall2 (source sample) [lit "a.arg"] [sample_lines] /\ understood (options CheckInstructions) [lit "-c"; lit "a.arg"] [lit "count"] [lit "a.arg"] /\
  firstn 5 (fst (fst (command v sample CheckInstructions (lit "x.py") [lit "-c"; lit "a.arg"]))) =
    [OutL (lit "*** ERROR: Invalid instruction ""FOO"":"); OutL (lit "File a.arg, line 6:   12    A          FOO");
     OutL (10 :: lit "Source lines: 6"); OutL (10 :: lit "Instruction Frequencies:"); OutL (lit "Total         4  100.00%")] /\
  In (OutL (lit "DA            1   50.00%")) (fst (fst (command v sample CheckInstructions (lit "x.py") [lit "-c"; lit "a.arg"]))).
Proof.
  split; [constructor; [exact sample_ok|constructor]|]. split.
  - apply (ud_opt _ _ [lit "count"]).
    + apply (ow_letters _ 99 []); [discriminate|]. constructor; [|constructor]. eexists. split; [right; right; left; reflexivity|]. split; reflexivity.
    + cbn. intuition discriminate.
    + apply ud_arg; [right; intros r; discriminate|constructor].
  - split; [vm_compute; reflexivity|]. vm_compute. tauto.
Qed. @*)

(** *** C148 *)
Lemma op_unique line op op' : operation_of line op -> operation_of line op' -> op = op'.
Proof. intros (_ & T & _) (_ & T' & _). exact (trimmed_unique _ _ _ T T'). Qed.
Lemma C148_found_pf : forall fs prog words on details opcode m files outs,
  understood (options ListInstructions) words on (opcode :: files) -> ~ In (lit "verbose") on -> turned_on on "details" details ->
  mnemonic_of opcode m -> In m INSTRUCTIONS -> ~ In [] files -> Forall2 (source fs) files outs ->
  exists k, forall v, (k <= e_fuel v)%nat -> exists ys,
    command v fs ListInstructions prog words = (map OutL ys, Exit 0, fs) /\ picked (line_found opcode details) (concat outs) ys.
Proof.
  intros fs prog words on details opcode m files outs U NV D M I N S. destruct (sources_read fs files outs N S) as (k & css & A & K).
  exists k. intros v L. specialize (K _ L). assert (A' := F2_concat _ _ _ A).
  assert (NM : forall w, ~ misuse fs ListInstructions on (opcode :: files) w).
  { intros w X. inversion X; subst; try (cbn [In] in *; intuition discriminate).
    apply mnemonic_ok in M. match goal with H : mnemonic_of opcode _ |- _ => apply mnemonic_ok in H; rewrite H in M end. subst. contradiction. }
  destruct (C142_starts_pf v fs ListInstructions prog words on (opcode :: files) U NM) as (ls & st & fs' & E & R).
  inversion R as [| | |verbose dt ls0 r st0 V1 V2 EC EA| | | | | | |]; subst.
  assert (EV := off _ _ _ V1 NV). assert (ED := on_unique _ _ _ _ D V2). subst verbose dt.
  destruct (C88_list_pf (e_fuel v) fs' details opcode m files (concat css) M I) as (ys & Y & P); [exists css; auto|].
  pose proof (C131_list_instructions_pf (e_fuel v) fs' details (opcode :: files)) as Q. rewrite Y in Q. rewrite Q in EC. injection EC as <- <-.
  inversion EA; subst. exists ys. split; [exact E|]. apply (agrees_picked _ (li_shows opcode details) _ (concat css)); [|exact A'|exact P].
  intros [[f i] line] c y (SS & OP & _ & _ & _ & _ & AF & AI & AL). cbn [line_found]. unfold li_shows, li_text. rewrite SS.
  split.
  - intros (NS & (op & O & MA) & ->). split; [exact NS|]. split.
    + destruct details; [exists f; rewrite AI, AL; auto|rewrite AL; reflexivity].
    + exists op. eexists. split; [apply OP; exact O|]. split; [reflexivity|]. destruct O as (_ & T & _). rewrite (strip_trim _ _ T). exact MA.
  - intros (NS & T & op & i' & O & -> & MA). split; [exact NS|]. apply OP in O. split.
    + exists op. split; [exact O|]. destruct O as (_ & TT & _). rewrite (strip_trim _ _ TT) in MA. exact MA.
    + destruct details; [destruct T as (g & EG & ->); rewrite AF in EG; injection EG as <-; rewrite AI, AL; reflexivity|rewrite T, AL; reflexivity].
Qed.
(*@ Example C148_found_ex : let v := mkenv (fun _ _ => lit " 50.00") (fun _ _ _ => []) (fun s => map (fun c => if (97 <=? c) && (c <=? 122) then c - 32 else c) s) (fun s => s) (fun _ => []) 3 (fun _ => []) in
  Forall2 (source sample) [lit "a.arg"] [sample_lines] /\ mnemonic_of (lit "DA") (lit "DA") /\ In (lit "DA") INSTRUCTIONS /\
  fst (command v sample ListInstructions (lit "x.py") [lit "DA"; lit "a.arg"]) = ([OutL (lit "        A          DA,B         1")], Exit 0).
Proof.
  split; [constructor; [exact sample_ok|constructor]|]. split; [left; split; [cbn; intuition discriminate|reflexivity]|].
  split; [apply inb_In; vm_compute; reflexivity|]. vm_compute. reflexivity.
Qed. @*)

(** *** C149 *)
Lemma agrees_listed out cs ys : Forall2 agrees out cs -> Forall2 list_line cs ys -> ys = map listed out.
Proof.
  intros F. revert ys. induction F as [|x c out cs A _ IH]; intros ys G; inversion G as [|c' y cs' ys' H G']; subst; [reflexivity|].
  cbn [map]. rewrite <- (IH _ G'). f_equal. destruct x as [[f i] line]. destruct A as (_ & _ & _ & _ & _ & _ & AF & AI & AL).
  destruct H as (g & EG & ->). rewrite AF in EG. injection EG as <-. rewrite AI, AL. reflexivity.
Qed.
Lemma C149_listing_pf : forall fs prog words on f out, understood (options Listing) words on [f] -> ~ In (lit "verbose") on ->
  f <> [] -> source fs f out ->
  exists k, forall v, (k <= e_fuel v)%nat -> exists name fs', list_name f name /\
    command v fs Listing prog words = ([], Exit 0, fs') /\
    fs' name = Some (concat (map listed out)) /\ forall g, g <> name -> fs' g = fs g.
Proof.
  intros fs prog words on f out U NV N S. destruct (source_read fs f out N S) as (k & cs & A & K).
  exists k. intros v L. specialize (K _ L).
  destruct (C90_one_partial_pf (e_fuel v) fs f cs K) as (name & fs1 & ys & LN & Y & F & C & G).
  destruct (C142_starts_pf v fs Listing prog words on [f] U (files_no_misuse fs Listing on [f] ltac:(cbn; auto 6) ltac:(discriminate))) as (ls1 & st & fs2 & E & R).
  inversion R as [| | | | |verbose' ls0 r st0 fs0 V1 EC EA| | | | |]; subst ls0 st0 fs0. assert (EV := off _ _ _ V1 NV). subst verbose'.
  pose proof (C131_listing_pf (e_fuel v) fs [f]) as Q. rewrite Y in Q. rewrite Q in EC. injection EC as <- <- <-. inversion EA; subst.
  exists name, fs1. split; [exact LN|]. split; [exact E|]. split; [|exact G]. rewrite C. rewrite (agrees_listed _ _ _ A F). reflexivity.
Qed.
(*@ Example C149_listing_ex : let v := mkenv (fun _ _ => lit " 50.00") (fun _ _ _ => []) (fun s => map (fun c => if (97 <=? c) && (c <=? 122) then c - 32 else c) s) (fun s => s) (fun _ => []) 3 (fun _ => []) in
  source sample (lit "a.arg") sample_lines /\ list_name (lit "a.arg") (lit "a.lst") /\
  snd (command v sample Listing (lit "x.py") [lit "a.arg"]) (lit "a.lst") = Some (concat (map listed sample_lines)) /\
  listed (lit "inc", 2, lit "        x" ++ [10]) =
    lit "inc                                                              2              x" ++ [10].
Proof.
  split; [exact sample_ok|]. split; [left; exists (lit "a"), (lit "arg"); repeat split; cbn; intuition discriminate|]. split; vm_compute; reflexivity.
Qed. @*)

(** *** C150 *)
Lemma F2_split_r {A B} (R : A -> B -> Prop) out pre c post : Forall2 R out (pre ++ c :: post) ->
  exists pre' x post', out = pre' ++ x :: post' /\ Forall2 R pre' pre /\ R x c /\ Forall2 R post' post.
Proof.
  intros F. apply Forall2_app_inv_r in F. destruct F as (a & b & Fa & Fb & ->). inversion Fb as [|x c' b' p' H Fp]; subst.
  exists a, x, b'. auto.
Qed.
Lemma F2_split_l {A B} (R : A -> B -> Prop) cs pre c post : Forall2 R (pre ++ c :: post) cs ->
  exists pre' x post', cs = pre' ++ x :: post' /\ Forall2 R pre pre' /\ R c x /\ Forall2 R post post'.
Proof.
  intros F. apply Forall2_app_inv_l in F. destruct F as (a & b & Fa & Fb & ->). inversion Fb as [|x c' b' p' H Fp]; subst.
  exists a, c', p'. auto.
Qed.
Lemma F2_In_r {A B} (R : A -> B -> Prop) out cs c : Forall2 R out cs -> In c cs -> exists x, In x out /\ R x c.
Proof. induction 1 as [|x y a b H _ IH]; intros I; [destruct I|]. destruct I as [<-|I]; [exists x; cbn; auto|]. destruct (IH I) as (z & J & K). exists z. cbn. auto. Qed.
Lemma F2_In_l {A B} (R : A -> B -> Prop) out cs x : Forall2 R out cs -> In x out -> exists c, In c cs /\ R x c.
Proof. induction 1 as [|z y a b H _ IH]; intros I; [destruct I|]. destruct I as [<-|I]; [exists y; cbn; auto|]. destruct (IH I) as (w & J & K). exists w. cbn. auto. Qed.
Lemma setloc_tail r : forall a b : str, lit "SETLOC" ++ r = a ++ 44 :: b -> exists a', a = lit "SETLOC" ++ a' /\ r = a' ++ 44 :: b.
Proof.
  intros a b E. do 6 (destruct a as [|? a]; [discriminate E|injection E as <- E]). exists a. split; [reflexivity|exact E].
Qed.
Lemma in_setloc r : In 44 (lit "SETLOC" ++ r) <-> In 44 r.
Proof. rewrite in_app_iff. split; [|auto]. intros [I|I]; [|exact I]. cbn in I. intuition discriminate. Qed.
Lemma strip_ex b s : s = strip b <-> trimmed b s.
Proof. split; [intros ->; apply strip_trimmed|]. intros T. exact (trimmed_unique _ _ _ T (strip_trimmed b)). Qed.
Lemma agrees_setloc x c s : agrees x c -> (line_setloc (text_of x) s <-> setloc c s).
Proof.
  destruct x as [[f i] line]. intros (SS & OP & _). cbn [text_of snd]. unfold line_setloc, setloc. rewrite SS.
  split; intros (N & r & O & H); (split; [exact N|]); exists r; cbv zeta in *; (split; [apply OP; exact O|]).
  - destruct H as [[H ->]|[(a & b & -> & NA & NB & T)|(a & b & d & -> & NA & NB & T)]].
    + left. rewrite in_setloc. auto.
    + right. left. exists (lit "SETLOC" ++ a), b. rewrite in_setloc, strip_ex, <- app_assoc. auto.
    + right. right. exists (lit "SETLOC" ++ a), b, d. rewrite in_setloc, strip_ex, <- app_assoc. auto.
  - destruct H as [[H ->]|[(a & b & E & NA & NB & T)|(a & b & d & E & NA & NB & T)]].
    + left. rewrite in_setloc in H. auto.
    + right. left. apply setloc_tail in E. destruct E as (a' & -> & ->). rewrite in_setloc in NA. exists a', b. rewrite <- strip_ex. auto.
    + right. right. apply setloc_tail in E. destruct E as (a' & -> & ->). rewrite in_setloc in NA. exists a', b, d. rewrite <- strip_ex. auto.
Qed.
Lemma agrees_subseg out cs s : Forall2 agrees out cs -> (subsegment out s <-> current_subseg (lit "1") cs s).
Proof.
  intros F. split.
  - intros [[H ->]|(a & x & b & -> & SL & H)].
    + apply cs_none. intros c u I Z. destruct (F2_In_r _ _ _ _ F I) as (x & J & A). apply (H x u J). apply (agrees_setloc _ _ _ A). exact Z.
    + destruct (F2_split_l _ _ _ _ _ F) as (a' & c & b' & -> & _ & A & Fb). apply cs_last; [apply (agrees_setloc _ _ _ A); exact SL|].
      intros c' u I Z. destruct (F2_In_r _ _ _ _ Fb I) as (y & J & A'). apply (H y u J). apply (agrees_setloc _ _ _ A'). exact Z.
  - intros H. inversion H as [cs' H1|a c b s' SL H1]; subst.
    + left. split; [|reflexivity]. intros x u I Z. destruct (F2_In_l _ _ _ _ F I) as (c & J & A). apply (H1 c u J). apply (agrees_setloc _ _ _ A). exact Z.
    + destruct (F2_split_r _ _ _ _ _ F) as (a' & x & b' & -> & _ & A & Fb). right. exists a', x, b'. split; [reflexivity|].
      split; [apply (agrees_setloc _ _ _ A); exact SL|].
      intros y u I Z. destruct (F2_In_l _ _ _ _ Fb I) as (c' & J & A'). apply (H1 c' u J). apply (agrees_setloc _ _ _ A'). exact Z.
Qed.
Lemma agrees_defines upper x c t k tt : agrees x c -> (line_defines upper (text_of x) t k tt <-> defines upper c t k tt).
Proof.
  destruct x as [[f i] line]. intros (SS & OP & _ & LB & _). cbn [text_of snd]. unfold line_defines, defines. rewrite SS.
  split; intros (N & s & op & L & W & O & H); (split; [exact N|]); exists s, op; (split; [apply LB; exact L|]); (split; [exact W|]);
    (split; [apply OP; exact O|exact H]).
Qed.
Lemma agrees_latest_1 upper out cs t u k c tt : Forall2 agrees out cs -> last_def upper (lit "1") cs t u k c tt ->
  exists x, agrees x c /\ latest upper out t u k x tt.
Proof.
  intros F (pre & post & -> & D & CS & H). destruct (F2_split_r _ _ _ _ _ F) as (pre' & x & post' & -> & Fa & A & Fb).
  exists x. split; [exact A|]. exists pre', post'. split; [reflexivity|]. split; [apply (agrees_defines _ _ _ _ _ _ A); exact D|].
  split; [apply (agrees_subseg _ (pre ++ [c])); [apply Forall2_app; [exact Fa|constructor; [exact A|constructor]]|exact CS]|].
  intros a y b t' -> DY SY. destruct (F2_split_l _ _ _ _ _ Fb) as (a' & c' & b' & -> & Fa' & A' & Fb').
  apply (H a' c' b' t' eq_refl); [apply (agrees_defines _ _ _ _ _ _ A'); exact DY|].
  apply (agrees_subseg (pre' ++ x :: a ++ [y])); [|exact SY]. apply Forall2_app; [exact Fa|]. constructor; [exact A|].
  apply Forall2_app; [exact Fa'|]. constructor; [exact A'|constructor].
Qed.
Lemma agrees_latest_2 upper out cs t u k x tt : Forall2 agrees out cs -> latest upper out t u k x tt ->
  exists c, agrees x c /\ last_def upper (lit "1") cs t u k c tt.
Proof.
  intros F (pre & post & -> & D & CS & H). destruct (F2_split_l _ _ _ _ _ F) as (pre' & c & post' & -> & Fa & A & Fb).
  exists c. split; [exact A|]. exists pre', post'. split; [reflexivity|]. split; [apply (agrees_defines _ _ _ _ _ _ A); exact D|].
  split; [apply (agrees_subseg (pre ++ [x])); [apply Forall2_app; [exact Fa|constructor; [exact A|constructor]]|exact CS]|].
  intros a c' b t' -> DY SY. destruct (F2_split_r _ _ _ _ _ Fb) as (a' & y & b' & -> & Fa' & A' & Fb').
  apply (H a' y b' t' eq_refl); [apply (agrees_defines _ _ _ _ _ _ A'); exact DY|].
  apply (agrees_subseg _ (pre' ++ c :: a ++ [c'])); [|exact SY]. apply Forall2_app; [exact Fa|]. constructor; [exact A|].
  apply Forall2_app; [exact Fa'|]. constructor; [exact A'|constructor].
Qed.
Lemma agrees_made x c tt e : agrees x c -> entry_from c tt e -> made_from x tt e.
Proof.
  destruct x as [[f i] line]. intros (_ & _ & _ & _ & _ & (v & G & SH) & AF & AI & AL) (E1 & E2 & E3 & E4 & E5). unfold made_from.
  rewrite G in E3. injection E3 as ->. rewrite E1, E2, E4, E5, AF, AI, AL. auto.
Qed.
Lemma agrees_label x c upper : agrees x c -> (label_fault upper (text_of x) <-> label_error upper c).
Proof.
  destruct x as [[f i] line]. intros (SS & _ & NO & LB & _). cbn [text_of snd]. unfold label_fault, label_error. rewrite SS.
  split; intros (N & s & L & H); (split; [exact N|]); exists s; (split; [apply LB; exact L|]); (destruct H as [H|H]; [left; exact H|right; apply NO; exact H]).
Qed.
Lemma C150_table_pf : forall fs f seg out, f <> [] -> segment_of f seg -> ~ is_kind seg -> source fs f out ->
  exists k, forall upper fuel, (k <= fuel)%nat -> exists tab n,
    build_symbol_table upper fuel fs f [] = Ok (tab, n) /\
    count_of (fun x => label_fault upper (text_of x)) out n /\
    (forall tag ss kind x tt, latest upper out tag ss kind x tt -> exists e, get4 tab tag seg ss kind = Some e /\ made_from x tt e) /\
    (forall tag sg ss kind e, get4 tab tag sg ss kind = Some e -> sg = seg /\ exists x tt, latest upper out tag ss kind x tt /\ made_from x tt e).
Proof.
  intros fs f seg out N SG NK S. destruct (source_read fs f out N S) as (k & cs & A & K).
  exists k. intros upper fuel L. specialize (K _ L).
  assert (PT : plain_table []) by (intros t sg s; discriminate).
  destruct (bst_plain upper fuel fs f seg cs [] SG NK PT K) as (tab & n & E & _ & CN & LD).
  exists tab, n. split; [exact E|]. split; [|split].
  - apply (agrees_count _ (label_error upper) _ cs); [intros x c Q; apply agrees_label; exact Q|exact A|exact CN].
  - intros tag ss kind x tt LA. destruct (agrees_latest_2 _ _ _ _ _ _ _ _ A LA) as (c & Q & D). destruct (LD _ _ _ _ _ D) as (e & G & EF).
    exists e. split; [exact G|]. exact (agrees_made _ _ _ _ Q EF).
  - intros tag sg ss kind e G. pose proof (C79_frame_pf upper fuel fs f seg cs [] tab n SG K E) as FR.
    destruct (list_eq_dec Z.eq_dec sg seg) as [->|NE]; [|rewrite (FR tag sg ss kind (or_introl NE)) in G; discriminate G].
    split; [reflexivity|]. destruct (last_or_never upper (lit "1") tag ss kind cs (source_proper _ _ _ _ K)) as [(c & tt & D)|ND];
      [|rewrite (FR tag seg ss kind (or_intror ND)) in G; discriminate G].
    destruct (LD _ _ _ _ _ D) as (e' & G' & EF). rewrite G in G'. injection G' as <-.
    destruct (agrees_latest_1 _ _ _ _ _ _ _ _ A D) as (x & Q & LA). exists x, tt. split; [exact LA|]. exact (agrees_made _ _ _ _ Q EF).
Qed.
(*@ Example C150_table_ex : let up := map (fun c => if (97 <=? c) && (c <=? 122) then c - 32 else c) in
  source sample (lit "a.arg") sample_lines /\ segment_of (lit "a.arg") (lit "a") /\
  exists tab e, build_symbol_table up 3 sample (lit "a.arg") [] = Ok (tab, 1) /\
    get4 tab (lit "A") (lit "a") (lit "1") (lit "simple") = Some e /\ e_line e = 6 /\ e_lognum e = RStr (lit "12") /\
    get4 tab (lit "N") (lit "a") (lit "1") (lit "complex") <> None /\
    latest up sample_lines (lit "A") (lit "1") (lit "simple") (lit "a.arg", 6, lit "  12    A          FOO") (lit " ").
Proof.
  intros up. split; [exact sample_ok|]. split; [right; exists (lit "arg"); split; [reflexivity|cbn; intuition discriminate]|].
  eexists. eexists. split; [vm_compute; reflexivity|]. split; [vm_compute; reflexivity|]. split; [reflexivity|]. split; [reflexivity|]. split; [vm_compute; discriminate|].
  exists (firstn 5 sample_lines), []. split; [reflexivity|].
  assert (NR : ~ remark_line (lit "  12    A          FOO")) by (intros (c & E & I); injection E as <-; cbn in I; intuition discriminate).
  split; [split; [discriminate|]; exists (lit "A"), (lit "FOO"); split; [split; [exact NR|exists (lit "A"); split; [apply strip_ex; reflexivity|split; [discriminate|reflexivity]]]|];
    split; [split; [reflexivity|left; repeat split; cbn; intuition discriminate]|]; split; [split; [exact NR|split; [apply strip_ex; reflexivity|discriminate]]|];
    right; split; [discriminate|reflexivity]|].
  split; [|intros a y b t E; destruct a; discriminate E]. left. split; [|reflexivity].
  intros x u I (_ & r & (_ & T & _) & _). apply strip_ex in T. repeat (destruct I as [<-|I]; [vm_compute in T; discriminate T|]). destruct I.
Qed. @*)

(** *** C151 *)
Lemma C151_parse_pf : forall fs prog words on f seg out n bad, understood (options Parse) words on [f] ->
  ~ In (lit "verbose") on -> ~ In (lit "debug") on -> f <> [] -> segment_of f seg -> ~ is_kind seg -> source fs f out ->
  count_of (fun x => exists ls, mnemonic_fault x ls) out bad ->
  exists k, forall v, (k <= e_fuel v)%nat -> count_of (fun x => label_fault (e_upper v) (text_of x)) out n ->
    exists said, command v fs Parse prog words =
      (said ++ [OutL (10 :: lit "Source lines: " ++ str_of_Z (zlen out)); OutL (error_count (n + bad))], Exit 0, fs).
Proof.
  intros fs prog words on f seg out n bad U NV ND N SG NK S CB. destruct (source_read fs f out N S) as (k & cs & A & K).
  exists k. intros v L CN. specialize (K _ L).
  destruct (C89_total_partial_pf (e_upper v) (e_fuel v) fs [f] [cs]) as (ns & inv & total & P & FN & CI & _ & T).
  { discriminate. } { constructor; [exact K|constructor]. }
  { intros g sg [<-|[]] G. assert (sg = seg) by (apply seg_ok in SG; apply seg_ok in G; congruence). subst sg. exact NK. }
  inversion FN as [|? m ? ? CM FN']; subst. inversion FN'; subst. cbn [concat] in *. rewrite app_nil_r in *.
  assert (EM : m = n).
  { apply (agrees_count (fun x => label_fault (e_upper v) (text_of x)) _ out) in CM; [|intros x c Q; apply agrees_label; exact Q|exact A]. exact (count_unique _ _ _ _ CM CN). }
  assert (EI : inv = bad).
  { apply (agrees_count (fun x => exists ls, mnemonic_fault x ls) _ out) in CI; [exact (count_unique _ _ _ _ CI CB)| |exact A].
    intros x c Q. rewrite fault_ex. apply agrees_invalid. exact Q. }
  subst m inv.
  assert (ET : total = n + bad).
  { rewrite T; [cbn; lia|]. intros a E. destruct a as [|? [|]]; [reflexivity|discriminate|discriminate]. }
  subst total. destruct (C142_starts_pf v fs Parse prog words on [f] U (files_no_misuse fs Parse on [f] ltac:(cbn; auto 6) ltac:(discriminate))) as (ls1 & st & fs2 & E & R).
  inversion R as [| | | | | |vb db ls0 r st0 V1 V2 EC EA| | | |]; subst. assert (EV := off _ _ _ V1 NV). assert (ED := off _ _ _ V2 ND). subst vb db.
  pose proof (C131_parse_pf (e_upper v) (e_rep v) (e_card_rep v) (e_fuel v) fs2 [f]) as Q. rewrite P in Q. destruct Q as (said & Q). rewrite Q in EC.
  injection EC as <- <-. inversion EA; subst. exists said. rewrite E, (agrees_len _ _ A). reflexivity.
Qed.
(*@ Example C151_parse_ex : let v := mkenv (fun _ _ => lit " 50.00") (fun _ _ _ => []) (fun s => map (fun c => if (97 <=? c) && (c <=? 122) then c - 32 else c) s) (fun s => s) (fun _ => []) 3 (fun _ => []) in
  source sample (lit "a.arg") sample_lines /\
  (exists said, fst (command v sample Parse (lit "x.py") [lit "a.arg"]) =
    (said ++ [OutL (10 :: lit "Source lines: 6"); OutL (lit "2 errors encountered.")], Exit 0)) /\
  label_fault (e_upper v) (lit "        x" ++ [10]).
Proof.
  intros v. split; [exact sample_ok|]. split.
  - vm_compute. match goal with |- exists s, (?l, _) = _ => exists (firstn (List.length l - 2) l) end. reflexivity.
  - split; [discriminate|]. exists (lit "x"). split; [split; [intros (c & E & I); injection E as <-; cbn in I; intuition discriminate|]|].
    + exists (lit "x"). split; [apply strip_ex; reflexivity|split; [discriminate|reflexivity]].
    + left. intros a b [E _]. discriminate E.
Qed. @*)
