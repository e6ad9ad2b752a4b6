From Coq Require Import ZArith List Bool Lia Sorted.
From Verif Require Import Py LPy MInstruction MCards SCards LCards LDeck MSymbols SSymbols LSymBuild LSymQuery MInstructions MTools STools LTools LGen SAgain LAgain LToolSym LListTool MDiag SDiag LDiag LQuiet MDump SDump MVerbose SVerbose LVerbose STranscript LTranscript MOptions SOptions LOptions MProcess SProcess LProcess SEnds LEnds SSource LSource STextSym LTextSym SIdle.
#[local] Arguments Z.add : simpl never.
#[local] Arguments Z.sub : simpl never.
#[local] Arguments Z.mul : simpl never.
#[local] Arguments Z.pow : simpl never.

(** *** a line with an end *)
Lemma columns_end (l : str) a b : columns (l ++ [10]) a b = columns l a b \/ columns (l ++ [10]) a b = columns l a b ++ [10].
Proof.
  unfold columns. rewrite skipn_app, firstn_app. generalize (Z.to_nat (b - a + 1)), (Z.to_nat (a - 1)). intros m n.
  set (u := (n - List.length l)%nat). destruct u as [|u]; cbn [skipn].
  - destruct (m - List.length (skipn n l))%nat as [|w]; cbn [firstn]; [left; apply app_nil_r|right]. rewrite firstn_nil. reflexivity.
  - left. rewrite skipn_nil, firstn_nil. apply app_nil_r.
Qed.
Lemma trimmed_end x t : trimmed (x ++ [10]) t <-> trimmed x t.
Proof.
  assert (W : forall x t, trimmed x t -> trimmed (x ++ [10]) t).
  { intros y s (p & q & -> & B & C & D). exists p, (q ++ [10]). split; [rewrite <- !app_assoc; reflexivity|]. split; [exact B|].
    split; [|exact D]. apply Forall_app. split; [exact C|]. constructor; [apply white_ok; reflexivity|constructor]. }
  split; [|apply W]. intros T. pose proof (strip_trimmed x) as T'.
  rewrite (trimmed_unique _ _ _ T (W _ _ T')). exact T'.
Qed.
Lemma trimmed_columns l a b t : trimmed (columns (l ++ [10]) a b) t <-> trimmed (columns l a b) t.
Proof. destruct (columns_end l a b) as [->| ->]; [reflexivity|apply trimmed_end]. Qed.
Lemma remark_end l : remark_line (l ++ [10]) <-> remark_line l.
Proof.
  unfold remark_line. destruct l as [|c l]; cbn [app nth_error]; [|reflexivity].
  split; intros (c & E & I); [|discriminate]. injection E as <-. vm_compute in I. intuition discriminate.
Qed.
Lemma nth_end (l : str) n c : c <> 10 -> nth_error (l ++ [10]) n = Some c <-> nth_error l n = Some c.
Proof.
  intros N. destruct (Nat.ltb_spec n (List.length l)); [rewrite nth_error_app1 by assumption; reflexivity|].
  rewrite nth_error_app2 by assumption. rewrite (proj2 (nth_error_None l n)) by assumption.
  split; [|discriminate]. intros E. destruct (n - List.length l)%nat as [|k]; [injection E as <-; contradiction|destruct k; discriminate].
Qed.
(** the lines that are read alike *)
Definition alike (l l' : str) : Prop :=
  (starred_line l <-> starred_line l') /\ (forall op, operation_of l op <-> operation_of l' op) /\ (forall s, label_of l s <-> label_of l' s).
Lemma alike_end l : alike l (l ++ [10]).
Proof.
  split; [|split].
  - unfold starred_line. rewrite nth_end by discriminate. reflexivity.
  - intros op. unfold operation_of. rewrite remark_end, trimmed_columns. reflexivity.
  - intros s. unfold label_of. rewrite remark_end. split; intros (N & x & T & H); (split; [exact N|]); exists x; (split; [apply (trimmed_columns l 9 19 x); exact T|exact H]).
Qed.
Lemma alike_refl l : alike l l.
Proof. split; [tauto|split; intros; tauto]. Qed.
Lemma same_alike x y : same_line x y -> alike (text_of x) (text_of y).
Proof. destruct x as [[f i] t], y as [[g j] u]. intros (_ & _ & [->| ->]); [apply alike_refl|apply alike_end]. Qed.
Lemma same_shown x y : same_line x y -> shown_text x = shown_text y.
Proof.
  destruct x as [[f i] t], y as [[g j] u]. intros (_ & _ & [->| ->]); [reflexivity|]. unfold shown_text, text_of. cbn [snd].
  rewrite filter_app. cbn. rewrite app_nil_r. reflexivity.
Qed.
Lemma alike_mnemonic l l' m : alike l l' -> mnemonic_at l m <-> mnemonic_at l' m.
Proof.
  intros (_ & O & _). unfold mnemonic_at. split; intros (N & op & A & H); (split; [exact N|]); exists op; (split; [apply O; exact A|exact H]).
Qed.
Lemma alike_setloc l l' s : alike l l' -> line_setloc l s <-> line_setloc l' s.
Proof.
  intros (S & O & _). unfold line_setloc. rewrite S. split; intros (N & r & A & H); (split; [exact N|]); exists r; (split; [apply O; exact A|exact H]).
Qed.
Lemma alike_defines upper l l' t k tt : alike l l' -> line_defines upper l t k tt <-> line_defines upper l' t k tt.
Proof.
  intros (S & O & L). unfold line_defines. rewrite S.
  split; intros (N & s & op & A & W & B & H); (split; [exact N|]); exists s, op; (split; [apply L; exact A|split; [exact W|split; [apply O; exact B|exact H]]]).
Qed.
(** idle lines *)
Lemma blank_trimmed x t : blank x -> trimmed x t -> t = [].
Proof.
  intros B T. apply (trimmed_unique x t [] T). exists x, []. rewrite app_nil_r. repeat split; [exact B|constructor| |]; intros c r E; [discriminate|].
  destruct r; discriminate.
Qed.
Lemma blank_columns l a b : blank l -> blank (columns l a b).
Proof.
  intros H. unfold blank, columns in *. generalize (Z.to_nat (b - a + 1)), (Z.to_nat (a - 1)). intros m n.
  rewrite <- (firstn_skipn n l) in H. apply Forall_app in H. destruct H as [_ H].
  rewrite <- (firstn_skipn m (skipn n l)) in H. apply Forall_app in H. exact (proj1 H).
Qed.
Lemma idle_operation l op : idle l -> ~ operation_of l op.
Proof. intros [R|B] (N & T & NE); [exact (N R)|]. apply NE. exact (blank_trimmed _ _ (blank_columns _ _ _ B) T). Qed.
Lemma idle_label l s : idle l -> ~ label_of l s.
Proof. intros [R|B] (N & x & T & NE & _); [exact (N R)|]. apply NE. exact (blank_trimmed _ _ (blank_columns _ _ _ B) T). Qed.
Lemma idle_mnemonic l m : idle l -> ~ mnemonic_at l m.
Proof. intros I (_ & op & O & _). exact (idle_operation _ _ I O). Qed.
Lemma idle_setloc l s : idle l -> ~ line_setloc l s.
Proof. intros I (_ & r & O & _). exact (idle_operation _ _ I O). Qed.
Lemma idle_defines upper l t k tt : idle l -> ~ line_defines upper l t k tt.
Proof. intros I (_ & s & op & L & _). exact (idle_label _ _ I L). Qed.

(** *** among other lines *)
Lemma padded_split_l a x b out' : padded (a ++ x :: b) out' ->
  exists a' y b', out' = a' ++ y :: b' /\ padded a a' /\ same_line x y /\ padded b b'.
Proof.
  remember (a ++ x :: b) as l eqn:E. intros P. revert a E. induction P as [|z y l l' S P IH|y l l' I P IH]; intros a E.
  - destruct a; discriminate.
  - destruct a as [|w a]; cbn [app] in E; injection E as -> ->.
    + exists [], y, l'. repeat split; [constructor|exact S|exact P].
    + destruct (IH a eq_refl) as (a' & y' & b' & -> & PA & S' & PB). exists (y :: a'), y', b'. repeat split; [constructor; assumption|exact S'|exact PB].
  - destruct (IH a E) as (a' & y' & b' & -> & PA & S' & PB). exists (y :: a'), y', b'. repeat split; [apply pd_idle; assumption|exact S'|exact PB].
Qed.
Lemma padded_split_r a' y b' out : padded out (a' ++ y :: b') -> ~ idle (text_of y) ->
  exists a x b, out = a ++ x :: b /\ padded a a' /\ same_line x y /\ padded b b'.
Proof.
  remember (a' ++ y :: b') as l' eqn:E. intros P N. revert a' E. induction P as [|x z l l' S P IH|z l l' I P IH]; intros a' E.
  - destruct a'; discriminate.
  - destruct a' as [|w a']; cbn [app] in E; injection E as -> ->.
    + exists [], x, l. repeat split; [constructor|exact S|exact P].
    + destruct (IH a' eq_refl) as (a & x' & b & -> & PA & S' & PB). exists (x :: a), x', b. repeat split; [constructor; assumption|exact S'|exact PB].
  - destruct a' as [|w a']; cbn [app] in E; injection E as -> ->; [contradiction|].
    destruct (IH a' eq_refl) as (a & x' & b & -> & PA & S' & PB). exists a, x', b. repeat split; [apply pd_idle; assumption|exact S'|exact PB].
Qed.
Lemma padded_app a a' b b' : padded a a' -> padded b b' -> padded (a ++ b) (a' ++ b').
Proof. intros P Q. induction P; cbn [app]; [exact Q|constructor; assumption|apply pd_idle; assumption]. Qed.
Lemma padded_In_l out out' x : padded out out' -> In x out -> exists y, In y out' /\ same_line x y.
Proof.
  intros P I. apply in_split in I. destruct I as (a & b & ->). destruct (padded_split_l _ _ _ _ P) as (a' & y & b' & -> & _ & S & _).
  exists y. split; [apply in_or_app; right; left; reflexivity|exact S].
Qed.
Lemma padded_In_r out out' y : padded out out' -> In y out' -> ~ idle (text_of y) -> exists x, In x out /\ same_line x y.
Proof.
  intros P I N. apply in_split in I. destruct I as (a & b & ->). destruct (padded_split_r _ _ _ _ P N) as (a' & x & b' & -> & _ & S & _).
  exists x. split; [apply in_or_app; right; left; reflexivity|exact S].
Qed.
Lemma padded_picked {B} (P : srcline -> B -> Prop) out out' ys : (forall x y z, same_line x y -> (P x z <-> P y z)) ->
  (forall y z, idle (text_of y) -> ~ P y z) -> padded out out' -> picked P out ys -> picked P out' ys.
Proof.
  intros H I Q. revert ys. induction Q as [|x y out out' S Q IH|y out out' D Q IH]; intros ys K.
  - exact K.
  - inversion K as [|? z ? r A K'|? ? ? A K']; subst.
    + constructor; [apply (H _ _ _ S); exact A|apply IH; exact K'].
    + apply pk_no; [intros z Z; apply (A z); apply (H _ _ _ S); exact Z|apply IH; exact K'].
  - apply pk_no; [intros z; apply I; exact D|apply IH; exact K].
Qed.
Lemma padded_subsegment l l' s : padded l l' -> subsegment l s <-> subsegment l' s.
Proof.
  intros P. unfold subsegment. split; intros [[N E]|(a & x & b & E & D & N)].
  - left. split; [|exact E]. intros y u I D. destruct (padded_In_r _ _ _ P I) as (x & J & S); [intros K; exact (idle_setloc _ _ K D)|].
    apply (N x u J). apply (alike_setloc _ _ _ (same_alike _ _ S)). exact D.
  - right. subst l. destruct (padded_split_l _ _ _ _ P) as (a' & y & b' & -> & PA & S & PB). exists a', y, b'. split; [reflexivity|].
    split; [apply (alike_setloc _ _ _ (same_alike _ _ S)); exact D|]. intros z u I D'.
    destruct (padded_In_r _ _ _ PB I) as (w & J & S'); [intros K; exact (idle_setloc _ _ K D')|].
    apply (N w u J). apply (alike_setloc _ _ _ (same_alike _ _ S')). exact D'.
  - left. split; [|exact E]. intros x u I D. destruct (padded_In_l _ _ _ P I) as (y & J & S).
    apply (N y u J). apply (alike_setloc _ _ _ (same_alike _ _ S)). exact D.
  - right. subst l'. destruct (padded_split_r _ _ _ _ P) as (a' & y & b' & -> & PA & S & PB); [intros K; exact (idle_setloc _ _ K D)|].
    exists a', y, b'. split; [reflexivity|].
    split; [apply (alike_setloc _ _ _ (same_alike _ _ S)); exact D|]. intros z u I D'.
    destruct (padded_In_l _ _ _ PB I) as (w & J & S'). apply (N w u J). apply (alike_setloc _ _ _ (same_alike _ _ S')). exact D'.
Qed.
Lemma padded_one x y : same_line x y -> padded [x] [y].
Proof. intros S. constructor; [exact S|constructor]. Qed.
Lemma padded_undefined upper out out' t u k : padded out out' -> undefined_in upper out t u k <-> undefined_in upper out' t u k.
Proof.
  intros P. split; intros H a x b tt E D S.
  - subst out'. destruct (padded_split_r _ _ _ _ P) as (a' & y & b' & -> & PA & SL & PB); [intros K; exact (idle_defines _ _ _ _ _ K D)|].
    apply (H a' y b' tt eq_refl); [apply (alike_defines _ _ _ _ _ _ (same_alike _ _ SL)); exact D|].
    apply (padded_subsegment _ (a ++ [x])); [apply padded_app; [exact PA|apply padded_one; exact SL]|exact S].
  - subst out. destruct (padded_split_l _ _ _ _ P) as (a' & y & b' & -> & PA & SL & PB).
    apply (H a' y b' tt eq_refl); [apply (alike_defines _ _ _ _ _ _ (same_alike _ _ SL)); exact D|].
    apply (padded_subsegment (a ++ [x])); [apply padded_app; [exact PA|apply padded_one; exact SL]|exact S].
Qed.
Lemma padded_latest_1 upper out out' t u k x tt : padded out out' -> latest upper out t u k x tt -> exists y, same_line x y /\ latest upper out' t u k y tt.
Proof.
  intros P (pre & post & -> & D & S & N). destruct (padded_split_l _ _ _ _ P) as (a' & y & b' & -> & PA & SL & PB).
  exists y. split; [exact SL|]. exists a', b'. split; [reflexivity|]. split; [apply (alike_defines _ _ _ _ _ _ (same_alike _ _ SL)); exact D|].
  split; [apply (padded_subsegment (pre ++ [x])); [apply padded_app; [exact PA|apply padded_one; exact SL]|exact S]|].
  intros a z b t' E D' S'. subst b'. destruct (padded_split_r _ _ _ _ PB) as (a2 & w & b2 & -> & PA2 & SL2 & PB2); [intros K; exact (idle_defines _ _ _ _ _ K D')|].
  apply (N a2 w b2 t' eq_refl); [apply (alike_defines _ _ _ _ _ _ (same_alike _ _ SL2)); exact D'|].
  apply (padded_subsegment _ (a' ++ y :: a ++ [z])); [|exact S']. apply padded_app; [exact PA|]. constructor; [exact SL|]. apply padded_app; [exact PA2|apply padded_one; exact SL2].
Qed.
Lemma padded_latest_2 upper out out' t u k y tt : padded out out' -> latest upper out' t u k y tt -> exists x, same_line x y /\ latest upper out t u k x tt.
Proof.
  intros P (pre & post & -> & D & S & N). destruct (padded_split_r _ _ _ _ P) as (a' & x & b' & -> & PA & SL & PB); [intros K; exact (idle_defines _ _ _ _ _ K D)|].
  exists x. split; [exact SL|]. exists a', b'. split; [reflexivity|]. split; [apply (alike_defines _ _ _ _ _ _ (same_alike _ _ SL)); exact D|].
  split; [apply (padded_subsegment _ (pre ++ [y])); [apply padded_app; [exact PA|apply padded_one; exact SL]|exact S]|].
  intros a z b t' E D' S'. subst b'. destruct (padded_split_l _ _ _ _ PB) as (a2 & w & b2 & -> & PA2 & SL2 & PB2).
  apply (N a2 w b2 t' eq_refl); [apply (alike_defines _ _ _ _ _ _ (same_alike _ _ SL2)); exact D'|].
  apply (padded_subsegment (a' ++ x :: a ++ [z])); [|exact S']. apply padded_app; [exact PA|]. constructor; [exact SL|]. apply padded_app; [exact PA2|apply padded_one; exact SL2].
Qed.

(** *** lines at the end of a file *)
(** a comment, or an idle line that is neither a comment nor an include *)
Definition tail_line (l : str) : Prop := (exists r, l = 35 :: r) \/ (idle l /\ forall c r, l = c :: r -> c <> 35 /\ c <> 36).
Lemma tail_source fs f extra : Forall tail_line extra -> forall i, exists out', source_lines fs f i extra out' /\ padded [] out'.
Proof.
  induction 1 as [|l extra T _ IH]; intros i; [exists []; split; constructor|]. destruct (IH (i + 1)) as (out' & S & P).
  destruct T as [(r & ->)|[I N]].
  - exists out'. split; [apply sl_comment; exact S|exact P].
  - exists ((f, i, l) :: out'). split; [apply sl_line; assumption|apply pd_idle; assumption].
Qed.
(** files that have only grown by such lines *)
Definition appended (fs fs' : fsys) : Prop :=
  forall f c ls, fs f = Some c -> text_lines c ls -> exists c' ls' extra, fs' f = Some c' /\ text_lines c' (ls' ++ extra) /\
    Forall2 grown ls ls' /\ Forall tail_line extra.
Lemma source_padded fs fs' : appended fs fs' ->
  (forall f out, source fs f out -> exists out', source fs' f out' /\ padded out out') /\
  (forall f i ls out, source_lines fs f i ls out -> forall ls' extra, Forall2 grown ls ls' -> Forall tail_line extra ->
     exists out', source_lines fs' f i (ls' ++ extra) out' /\ padded out out').
Proof.
  intros A. apply source_both.
  - intros f content ls out E T _ IH. destruct (A _ _ _ E T) as (c' & ls' & extra & E' & T' & G & X).
    destruct (IH ls' extra G X) as (out' & S & P). exists out'. split; [exact (so_file _ _ _ _ _ E' T' S)|exact P].
  - intros f i ls' extra G X. inversion G; subst. cbn [app]. apply tail_source. exact X.
  - intros f i r rest out _ IH ls' extra G X. inversion G as [|? l' ? ls2 H G']; subst. destruct (IH _ _ G' X) as (out' & S & P).
    exists out'. split; [|exact P]. destruct H as [->| ->]; cbn [app]; apply sl_comment; exact S.
  - intros f i r inc rest out1 out2 W _ IH1 _ IH2 ls' extra G X. inversion G as [|? l' ? ls2 H G']; subst.
    destruct IH1 as (o1 & S1 & P1). destruct (IH2 _ _ G' X) as (o2 & S2 & P2). exists (o1 ++ o2).
    split; [|apply padded_app; assumption]. destruct H as [->| ->]; cbn [app]; apply (sl_include _ _ _ _ inc); try assumption.
    apply first_word_grown. exact W.
  - intros f i line rest out N _ IH ls' extra G X. inversion G as [|? l' ? ls2 H G']; subst. destruct (IH _ _ G' X) as (out' & S & P).
    exists ((f, i, l') :: out'). split; [|constructor; [repeat split; exact H|exact P]]. cbn [app]. apply sl_line; [|exact S].
    destruct H as [->| ->]; [exact N|]. intros c r E. destruct line as [|c0 line]; cbn [app] in E; injection E as <- <-; [split; discriminate|].
    exact (N _ _ eq_refl).
Qed.
Lemma grown_refl ls : Forall2 grown ls ls.
Proof. induction ls; constructor; [left; reflexivity|assumption]. Qed.
(** what genpages appends *)
Lemma blocks_tail c8 sec : plain c8 -> plain sec -> forall pages, (forall p, In p pages -> exists k n, p = page_block c8 sec k n) ->
  Forall tail_line (readlines (concat pages)).
Proof.
  intros PC PS pages. induction pages as [|p pages IH]; intros H; [constructor|].
  destruct (H p (or_introl eq_refl)) as (k & n & ->). specialize (IH (fun q I => H q (or_intror I))). cbn [concat].
  assert (B : tail_line [10]).
  { right. split; [right; constructor; [apply white_ok; reflexivity|constructor]|]. intros c r E. injection E as <- <-. split; discriminate. }
  rewrite (block_lines c8 sec k n _ PC PS). constructor; [exact B|]. constructor; [left; eexists; reflexivity|].
  constructor; [left; eexists; reflexivity|]. constructor; [exact B|exact IH].
Qed.
Lemma pages_appended fuel fs f content more fs' : fs f = Some content -> genpages fuel content = Ok more ->
  fs' f = Some (content ++ more) -> (forall g, g <> f -> fs' g = fs g) -> appended fs fs'.
Proof.
  intros E G E' O g c ls EG T. destruct (list_eq_dec Z.eq_dec g f) as [->|NE].
  - rewrite E in EG. injection EG as <-. apply C144_lines_pf in T.
    destruct (genpages_only _ _ _ G) as (sec & c8 & a & b & S & P & L & ->). destruct (section_plain _ _ _ S) as [PS PC].
    destruct (formula_lines sec c8 a b PS PC) as (F & R & _). destruct (lines_grow content ((lit "L      " ++ c8_text c8 ++ sec ++ [10]) ++
      concat (map (gp_page (str_of_rval c8) sec a) (py_range a (b + 1))))) as (ls' & m & RL & GR & M).
    exists (content ++ formula sec c8 a b), ls', (m ++ readlines ((lit "L      " ++ c8_text c8 ++ sec ++ [10]) ++ concat (map (gp_page (str_of_rval c8) sec a) (py_range a (b + 1))))).
    split; [exact E'|]. split; [apply C144_lines_pf; rewrite F; exact RL|]. rewrite <- T. split; [exact GR|].
    apply Forall_app. split.
    + destruct M as [->| ->]; [constructor|]. constructor; [|constructor]. right. split; [right; constructor; [apply white_ok; reflexivity|constructor]|].
      intros c r X. injection X as <- <-. split; discriminate.
    + rewrite R. constructor.
      * right. split; [left; exists 76; split; [reflexivity|vm_compute; tauto]|]. intros c r X. injection X as <- <-. split; discriminate.
      * apply (blocks_tail (c8_text c8) sec PC PS). intros p I. apply in_map_iff in I. destruct I as (k & <- & _). exists k, (k - a + 1). apply page_is_block.
  - exists c, ls, []. rewrite app_nil_r. split; [rewrite O by exact NE; exact EG|]. split; [exact T|]. split; [apply grown_refl|constructor].
Qed.

(** a source for the examples, before and after genpages *)
Definition paged (f : str) : option str :=
  if eqb f (lit "a.arg") then
    Some (lit "# Filename: SEC_1.x" ++ [10] ++ lit "# Pages: 3-4" ++ [10] ++ lit "        A          DA,B         1" ++ [10] ++ lit "        b          FOO")
  else None.

(** *** C155 *)
Lemma C155_genlines_pf : forall v fs prog words on a0 a1 rest start end_ step sc ec,
  understood (options Genlines) words on (a0 :: a1 :: rest) ->
  int_text a0 start -> int_text a1 end_ -> zlen a0 <= 6 -> zlen a1 <= 6 ->
  int_arg rest 0 1 step -> int_arg rest 1 2 sc -> int_arg rest 2 7 ec -> step <> 0 ->
  exists out, command v fs Genlines prog words = (map OutL out, Exit 0, fs) /\
    forall k, let n := start + Z.of_nat k * step in let w := Z.max 4 (zlen a1) in
      match nth_error out k with
      | None => (0 < step -> end_ + step <= n) /\ (step < 0 -> n <= end_ + step)
      | Some line => (0 < step -> n < end_ + step) /\ (step < 0 -> end_ + step < n) /\
          exists t, line = repeat 32 (Z.to_nat (sc - 1)) ++ t ++ repeat 32 (Z.to_nat (ec + 2 - sc - w)) /\ signed t n /\
            zlen t = Z.max w (zlen (str_of_Z n))
      end.
Proof.
  intros v fs prog words on a0 a1 rest start end_ step sc ec U I0 I1 L0 L1 O1 O2 O3 S.
  destruct (C129_genlines_pf _ _ _ _ _ _ _ _ I0 I1 L0 L1 O1 O2 O3 S) as (out & E & H). exists out. split; [|exact H].
  assert (NM : forall m, ~ misuse fs Genlines on (a0 :: a1 :: rest) m).
  { intros m M. inversion M as [| | | | |? ? Z|? ? ? ? Z| | |]; subst; [rewrite !zlen_cons in Z; pose proof (zlen_nonneg rest); lia|lia]. }
  destruct (C142_starts_pf v fs Genlines prog words on _ U NM) as (ls & st & fs' & EC & R). rewrite EC. inversion R as [| | | | | | |o G|e G| |]; subst; congruence.
Qed.
(*@ Example C155_genlines_ex : let v := mkenv (fun _ _ => []) (fun _ _ _ => []) (map (fun c => if (97 <=? c) && (c <=? 122) then c - 32 else c)) (fun s => s) (fun _ => lit "?") 3 (fun _ => []) in
  understood (options Genlines) [lit "10"; lit "30"; lit "10"] [] [lit "10"; lit "30"; lit "10"] /\
  fst (command v paged Genlines (lit "x.py") [lit "10"; lit "30"; lit "10"]) =
    ([OutL (lit " 0010   "); OutL (lit " 0020   "); OutL (lit " 0030   ")], Exit 0).
Proof. split; [repeat (apply ud_arg; [right; intros r; discriminate|]); constructor|vm_compute; reflexivity]. Qed. @*)
Lemma C155_numbers_pf : forall v fs prog words on a0 a1 rest, understood (options Genlines) words on (a0 :: a1 :: rest) ->
  zlen a0 <= 6 -> zlen a1 <= 6 -> bad_numbers a0 a1 rest -> command v fs Genlines prog words = ([], Died ValueError, fs).
Proof.
  intros v fs prog words on a0 a1 rest U L0 L1 B.
  assert (NM : forall m, ~ misuse fs Genlines on (a0 :: a1 :: rest) m).
  { intros m M. inversion M as [| | | | |? ? Z|? ? ? ? Z| | |]; subst; [rewrite !zlen_cons in Z; pose proof (zlen_nonneg rest); lia|lia]. }
  pose proof (C129_rejected_pf (a0 :: a1 :: rest)) as RJ.
  destruct (C142_starts_pf v fs Genlines prog words on _ U NM) as (ls & st & fs' & EC & R). rewrite EC. inversion R as [| | | | | | |o G|e G| |]; subst; rewrite G in RJ.
  - destruct RJ as (b0 & b1 & r & [= <- <- <-] & _ & _ & N). contradiction.
  - destruct RJ as [(_ & [Z|(b0 & b1 & r & [= <- <- <-] & Z)])|(-> & _)]; [|lia|reflexivity].
    rewrite !zlen_cons in Z. pose proof (zlen_nonneg rest). lia.
Qed.
(*@ Example C155_numbers_ex : let v := mkenv (fun _ _ => []) (fun _ _ _ => []) (map (fun c => if (97 <=? c) && (c <=? 122) then c - 32 else c)) (fun s => s) (fun _ => lit "?") 3 (fun _ => []) in
  fst (command v paged Genlines (lit "x.py") [lit "10"; lit "3x"]) = ([], Died ValueError) /\
  fst (command v paged Genlines (lit "x.py") [lit "10"; lit "30"; lit "0"]) = ([], Died ValueError).
Proof. vm_compute. auto. Qed. @*)
Lemma C155_genpages_pf : forall v fs prog words on f rest content sec c8 a b,
  understood (options Genpages) words on (f :: rest) -> fs f = Some content ->
  section_is (readlines content) sec c8 -> page_numbers (readlines content) a b -> a <= b -> page_lines_ok (readlines content) ->
  exists fs' pages, command v fs Genpages prog words = ([], Exit 0, fs') /\
    fs' f = Some (content ++ [10] ++ lit "L      " ++ c8_text c8 ++ sec ++ [10] ++ concat pages) /\
    (forall g, g <> f -> fs' g = fs g) /\
    zlen pages = b - a + 1 /\
    forall k p, nth_error pages k = Some p -> p = page_block (c8_text c8) sec (a + Z.of_nat k) (Z.of_nat k + 1).
Proof.
  intros v fs prog words on f rest content sec c8 a b U EF S P L W.
  destruct (C91_genpages_pf (e_fuel v) content sec c8 a b S P L W) as (pages & G & Z & B).
  assert (NM : forall m, ~ misuse fs Genpages on (f :: rest) m).
  { intros m M. inversion M as [| | | | | | |? ? ? N|? ? ? c N _ NS|? ? ? c s8 k8 x y N _ S' P' LT]; subst; rewrite EF in N; try discriminate; injection N as <-.
    - destruct S as [(p & l & q & E & LL & _)|(_ & _ & p & l & q & E & (r & w & t & N & _) & _)].
      + apply (proj1 (NS l ltac:(rewrite E; apply in_or_app; right; left; reflexivity))). exact LL.
      + apply (proj2 (NS l ltac:(rewrite E; apply in_or_app; right; left; reflexivity))). exists r. exact N.
    - destruct (pages_unique _ _ _ _ _ P P') as [<- <-]. lia. }
  destruct (C142_starts_pf v fs Genpages prog words on _ U NM) as (ls & st & fs' & EC & R).
  inversion R as [| | | | | | | | |g r c more fs2 EA EG GG E' O EL|g r c e EA EG GG]; subst; injection EA as <- <-; rewrite EF in EG; injection EG as <-; rewrite G in GG; [|discriminate].
  injection GG as <-. exists fs', pages. split; [exact EC|]. split; [exact E'|]. split; [exact O|]. split; [exact Z|exact B].
Qed.
(*@ Example C155_genpages_ex : let v := mkenv (fun _ _ => []) (fun _ _ _ => []) (map (fun c => if (97 <=? c) && (c <=? 122) then c - 32 else c)) (fun s => s) (fun _ => lit "?") 3 (fun _ => []) in
  let r := command v paged Genpages (lit "x.py") [lit "a.arg"] in
  fst r = ([], Exit 0) /\
  snd r (lit "a.arg") = Some (
    lit "# Filename: SEC_1.x" ++ [10] ++ lit "# Pages: 3-4" ++ [10] ++ lit "        A          DA,B         1" ++ [10] ++ lit "        b          FOO" ++ [10] ++
    lit "L      @SEC 1" ++ [10; 10] ++ lit "# Page 3" ++ [10] ++
    lit "#      @SEC 1                                                                    USER'S OWN PAGE NO.   1        PAGE   1" ++ [10; 10; 10] ++
    lit "# Page 4" ++ [10] ++
    lit "#      @SEC 1                                                                    USER'S OWN PAGE NO.   2        PAGE   2" ++ [10; 10]).
Proof. vm_compute. auto. Qed. @*)

(** *** C156 *)
Lemma C156_source_pf : forall v fs prog words on f rest ls fs', understood (options Genpages) words on (f :: rest) ->
  command v fs Genpages prog words = (ls, Exit 0, fs') ->
  forall g out, source fs g out -> exists out', source fs' g out' /\ padded out out'.
Proof.
  intros v fs prog words on f rest ls fs' U E.
  assert (NM : forall m, ~ misuse fs Genpages on (f :: rest) m).
  { intros m M. rewrite (C142_refused_pf v fs Genpages prog words m) in E; [congruence|]. right. exists on, (f :: rest). auto. }
  destruct (C142_starts_pf v fs Genpages prog words on _ U NM) as (ls2 & st & fs2 & EC & R).
  rewrite EC in E. assert (fs2 = fs') by congruence. assert (st = Exit 0) by congruence. subst fs2 st. clear E EC.
  inversion R as [| | | | | | | | |h r c more fs2 EA EG GG E' O EL|]; subst. injection EA as <- <-.
  exact (proj1 (source_padded fs fs' (pages_appended (e_fuel v) fs f c more fs' EG GG E' O))).
Qed.
(*@ Example C156_source_ex : let v := mkenv (fun _ _ => []) (fun _ _ _ => []) (map (fun c => if (97 <=? c) && (c <=? 122) then c - 32 else c)) (fun s => s) (fun _ => lit "?") 3 (fun _ => []) in
  understood (options Genpages) [lit "a.arg"] [] [lit "a.arg"] /\
  let fs' := snd (command v paged Genpages (lit "x.py") [lit "a.arg"]) in
  fst (command v paged Genpages (lit "x.py") [lit "a.arg"]) = ([], Exit 0) /\
  fst (command v paged Parse (lit "x.py") [lit "a.arg"]) <> fst (command v fs' Parse (lit "x.py") [lit "a.arg"]).
Proof. split; [repeat (apply ud_arg; [right; intros r; discriminate|]); constructor|]. vm_compute. split; [reflexivity|discriminate]. Qed. @*)
Lemma picked_unique {A B} (P : A -> B -> Prop) : (forall x y z, P x y -> P x z -> y = z) -> forall l r r', picked P l r -> picked P l r' -> r = r'.
Proof.
  intros U l r r' K. revert r'. induction K as [|x y l r A0 K IH|x l r A0 K IH]; intros r' K'; inversion K' as [|? z ? s H K2|? ? ? H K2]; subst.
  - reflexivity.
  - rewrite (U _ _ _ A0 H), (IH _ K2). reflexivity.
  - destruct (H _ A0).
  - destruct (A0 _ H).
  - exact (IH _ K2).
Qed.
Lemma padded_concat outs outs' : Forall2 padded outs outs' -> padded (concat outs) (concat outs').
Proof. induction 1; cbn [concat]; [constructor|apply padded_app; assumption]. Qed.
Lemma padded_sources fs fs' : (forall g out, source fs g out -> exists out', source fs' g out' /\ padded out out') ->
  forall files outs, Forall2 (source fs) files outs -> exists outs', Forall2 (source fs') files outs' /\ Forall2 padded outs outs'.
Proof.
  intros H files outs F. induction F as [|g out files outs S _ (outs' & F' & P)]; [exists []; split; constructor|].
  destruct (H _ _ S) as (out' & S' & Q). exists (out' :: outs'). split; constructor; assumption.
Qed.
Lemma same_fault x y z : same_line x y -> mnemonic_fault x z <-> mnemonic_fault y z.
Proof.
  intros S. pose proof (same_shown _ _ S) as SH. pose proof (same_alike _ _ S) as AL. destruct x as [[f i] t], y as [[g j] u]. destruct S as (<- & <- & _).
  cbn [text_of snd] in AL. unfold mnemonic_fault. rewrite SH. pose proof (proj1 AL) as ST. rewrite ST.
  split; intros (N & m & M & H); (split; [exact N|]); exists m; (split; [apply (alike_mnemonic _ _ _ AL); exact M|exact H]).
Qed.
Lemma same_found o d x y z : same_line x y -> line_found o d x z <-> line_found o d y z.
Proof.
  intros S. pose proof (same_shown _ _ S) as SH. pose proof (same_alike _ _ S) as AL. destruct x as [[f i] t], y as [[g j] u]. destruct S as (<- & <- & _).
  cbn [text_of snd] in AL. unfold line_found. rewrite SH. destruct AL as (ST & OP & _). rewrite ST.
  split; intros (N & (op & O & M) & H); (split; [exact N|]); (split; [|exact H]); exists op; (split; [apply OP; exact O|exact M]).
Qed.
Lemma mnemonic_one l m m' : mnemonic_at l m -> mnemonic_at l m' -> m = m'.
Proof.
  intros (_ & op & O & H) (_ & op' & O' & H'). rewrite (op_unique _ _ _ O' O) in H'. clear op' O' O.
  destruct H as [[N ->]|(a & b & -> & NA & T)], H' as [[N' ->]|(a' & b' & E & NA' & T')].
  - reflexivity.
  - destruct N. rewrite E. apply in_or_app. right. left. reflexivity.
  - destruct N'. apply in_or_app. right. left. reflexivity.
  - assert (a' = a); [|subst; exact (trimmed_unique _ _ _ T T')]. clear - E NA NA'. revert a' E NA'. induction a as [|x a IH]; intros [|y a'] E NA'; cbn [app] in E.
    + reflexivity.
    + injection E as <- _. destruct NA'. left. reflexivity.
    + injection E as -> _. destruct NA. left. reflexivity.
    + injection E as E1 E. subst y. f_equal. apply IH; [intros I; apply NA; right; exact I|exact E|intros I; apply NA'; right; exact I].
Qed.
Lemma C156_found_pf : forall v0 fs prog0 words0 on0 f0 rest0 ls0 fs' prog words on details opcode m files outs,
  understood (options Genpages) words0 on0 (f0 :: rest0) -> command v0 fs Genpages prog0 words0 = (ls0, Exit 0, fs') ->
  understood (options ListInstructions) words on (opcode :: files) -> ~ In (lit "verbose") on -> turned_on on "details" details ->
  mnemonic_of opcode m -> In m INSTRUCTIONS -> ~ In [] files -> Forall2 (source fs) files outs ->
  exists k, forall v, (k <= e_fuel v)%nat ->
    fst (command v fs' ListInstructions prog words) = fst (command v fs ListInstructions prog words).
Proof.
  intros v0 fs prog0 words0 on0 f0 rest0 ls0 fs' prog words on details opcode m files outs U0 E0 U NV D M I N F.
  destruct (padded_sources fs fs' (C156_source_pf _ _ _ _ _ _ _ _ _ U0 E0) files outs F) as (outs' & F' & P).
  destruct (C148_found_pf fs prog words on details opcode m files outs U NV D M I N F) as (k & H).
  destruct (C148_found_pf fs' prog words on details opcode m files outs' U NV D M I N F') as (k' & H').
  exists (Nat.max k k'). intros v L. destruct (H v ltac:(lia)) as (ys & E & K). destruct (H' v ltac:(lia)) as (ys' & E' & K').
  rewrite E, E'. cbn [fst]. replace ys' with ys; [reflexivity|].
  apply (picked_unique (line_found opcode details) (fun x y z A B => ltac:(destruct x as [[f i] t]; destruct A as (_ & _ & ->); destruct B as (_ & _ & ->); reflexivity)) (concat outs')).
  - apply (padded_picked (line_found opcode details) (concat outs)); [intros; apply same_found; assumption| |apply padded_concat; exact P|exact K].
    intros [[f i] t] z ID (_ & (op & O & _) & _). exact (idle_operation _ _ ID O).
  - exact K'.
Qed.
(*@ Example C156_found_ex : let v := mkenv (fun _ _ => []) (fun _ _ _ => []) (map (fun c => if (97 <=? c) && (c <=? 122) then c - 32 else c)) (fun s => s) (fun _ => lit "?") 3 (fun _ => []) in
  let fs' := snd (command v paged Genpages (lit "x.py") [lit "a.arg"]) in
  fst (command v fs' ListInstructions (lit "x.py") [lit "DA"; lit "a.arg"]) = ([OutL (lit "        A          DA,B         1")], Exit 0) /\
  fst (command v paged ListInstructions (lit "x.py") [lit "DA"; lit "a.arg"]) = ([OutL (lit "        A          DA,B         1")], Exit 0).
Proof. vm_compute. auto. Qed. @*)
Lemma C156_faults_pf : forall v0 fs prog0 words0 on0 f0 rest0 ls0 fs' prog words on files outs,
  understood (options Genpages) words0 on0 (f0 :: rest0) -> command v0 fs Genpages prog0 words0 = (ls0, Exit 0, fs') ->
  understood (options CheckInstructions) words on files ->
  (forall x, In x ["verbose"; "count"; "print-opcodes"; "unused"]%string -> ~ In (lit x) on) ->
  files <> [] -> ~ In [] files -> Forall2 (source fs) files outs ->
  exists k, forall v, (k <= e_fuel v)%nat ->
    fst (command v fs' CheckInstructions prog words) = fst (command v fs CheckInstructions prog words).
Proof.
  intros v0 fs prog0 words0 on0 f0 rest0 ls0 fs' prog words on files outs U0 E0 U O NE N F.
  destruct (padded_sources fs fs' (C156_source_pf _ _ _ _ _ _ _ _ _ U0 E0) files outs F) as (outs' & F' & P).
  destruct (C147_faults_pf fs prog words on files outs U O NE N F) as (k & H).
  destruct (C147_faults_pf fs' prog words on files outs' U O NE N F') as (k' & H').
  exists (Nat.max k k'). intros v L. destruct (H v ltac:(lia)) as (ys & E & K). destruct (H' v ltac:(lia)) as (ys' & E' & K').
  rewrite E, E'. cbn [fst]. replace ys' with ys; [reflexivity|]. apply (picked_unique mnemonic_fault) with (l := concat outs').
  - intros [[f i] t] y z (_ & m & M & _ & ->) (_ & m' & M' & _ & ->). rewrite (mnemonic_one _ _ _ M M'). reflexivity.
  - apply (padded_picked mnemonic_fault (concat outs)); [intros; apply same_fault; assumption| |apply padded_concat; exact P|exact K].
    intros [[f i] t] z ID (_ & m & M & _). exact (idle_mnemonic _ _ ID M).
  - exact K'.
Qed.
(*@ Example C156_faults_ex : let v := mkenv (fun _ _ => []) (fun _ _ _ => []) (map (fun c => if (97 <=? c) && (c <=? 122) then c - 32 else c)) (fun s => s) (fun _ => lit "?") 3 (fun _ => []) in
  let fs' := snd (command v paged Genpages (lit "x.py") [lit "a.arg"]) in
  fst (command v fs' CheckInstructions (lit "x.py") [lit "a.arg"]) =
    ([OutL (lit "*** ERROR: Invalid instruction ""FOO"":"); OutL (lit "File a.arg, line 4:         b          FOO");
      OutL (lit "1 error encountered.")], Exit 0) /\
  fst (command v fs' CheckInstructions (lit "x.py") [lit "a.arg"]) = fst (command v paged CheckInstructions (lit "x.py") [lit "a.arg"]).
Proof. vm_compute. auto. Qed. @*)
Lemma str_lt_asym a b : str_lt a b -> str_lt b a -> False.
Proof. intros [A N] [B _]. apply N. exact (str_leb_antisym _ _ A B). Qed.
Lemma key_asym a b : key_lt a b -> key_lt b a -> False.
Proof.
  destruct a as [[[t s] u] k], b as [[[t' s'] u'] k']. unfold key_lt.
  assert (I : forall x, ~ str_lt x x) by (intros x [_ N]; apply N; reflexivity).
  intros [A|(-> & [A|(-> & [A|(-> & A)])])] [B|(E & [B|(E2 & [B|(E3 & B)])])]; subst; try exact (str_lt_asym _ _ A B);
    try exact (I _ A); try exact (I _ B).
Qed.
Lemma same_sorted_by {A} (R : A -> A -> Prop) : (forall x y, R x y -> R y x -> False) ->
  forall a b, StronglySorted R a -> StronglySorted R b -> (forall x, In x a <-> In x b) -> a = b.
Proof.
  intros AS a. induction a as [|x a IH]; intros b SA SB H.
  - destruct b as [|y b]; [reflexivity|]. destruct (proj2 (H y) (or_introl eq_refl)).
  - destruct b as [|y b]; [destruct (proj1 (H x) (or_introl eq_refl))|].
    inversion SA as [|? ? A1 A2]; inversion SB as [|? ? B1 B2]; subst. rewrite Forall_forall in A2, B2.
    assert (x = y).
    { destruct (proj1 (H x) (or_introl eq_refl)) as [E|I1]; [auto|]. destruct (proj2 (H y) (or_introl eq_refl)) as [E|I2]; [auto|].
      destruct (AS _ _ (A2 _ I2) (B2 _ I1)). }
    subst y. f_equal. apply IH; [assumption|assumption|]. intros z. split; intros I.
    + destruct (proj1 (H z) (or_intror I)) as [<-|X]; [|exact X]. destruct (AS _ _ (A2 _ I) (A2 _ I)).
    + destruct (proj2 (H z) (or_intror I)) as [<-|X]; [|exact X]. destruct (AS _ _ (B2 _ I) (B2 _ I)).
Qed.
Lemma laid_unique rows : forall p out out', laid_out p rows out -> laid_out p rows out' -> out = out'.
Proof.
  induction rows as [|[[[[t s] u] k] y] rows IH]; intros p out out' A B; [cbn [laid_out] in A, B; congruence|].
  destruct A as (o & A & ->), B as (o' & B & ->). rewrite (IH _ _ _ A B). reflexivity.
Qed.
Lemma printed_app a b : printed (a ++ b) = printed a ++ printed b.
Proof. apply flat_map_app. Qed.
Lemma printed_out l : printed (map OutL l) = l.
Proof. induction l as [|x l IH]; [reflexivity|]. cbn [map printed flat_map app]. change (flat_map _ (map OutL l)) with (printed (map OutL l)). rewrite IH. reflexivity. Qed.
Lemma printed_labels upper rep files outs n ls : labels_said upper rep false files outs n ls -> printed ls = [].
Proof.
  intros H. remember false as c. induction H as [|f files out outs blocks n ls P _ IH]; [reflexivity|]. subst c. rewrite !printed_app, IH by reflexivity.
  rewrite !app_nil_r. clear - P. induction P as [|x y l r A _ IH|x l r A _ IH]; [reflexivity| |exact IH].
  cbn [concat]. rewrite printed_app, IH. destruct x as [[f i] t]. destruct A as (_ & m & ty & lg & lt & g & r0 & _ & _ & _ & _ & ->). reflexivity.
Qed.
Lemma same_row k x y tt z : same_line x y -> symbol_row k x tt z <-> symbol_row k y tt z.
Proof.
  intros S. pose proof (same_shown _ _ S) as SH. destruct x as [[f i] t], y as [[g j] u]. destruct S as (<- & <- & _). unfold symbol_row. rewrite SH. reflexivity.
Qed.
Definition files_alike (p q : str * list srcline) : Prop := fst p = fst q /\ padded (snd p) (snd q).
Lemma combine_alike (files : list str) outs outs' : Forall2 padded outs outs' -> Forall2 files_alike (combine files outs) (combine files outs').
Proof.
  intros F. revert files. induction F as [|out cs outs css A _ IH]; intros [|f files]; cbn [combine]; try constructor; [split; [reflexivity|exact A]|apply IH].
Qed.
Lemma padded_defined upper files outs outs' t s u k z : Forall2 padded outs outs' ->
  (exists x tt, defined_at upper files outs t s u k x tt /\ symbol_row k x tt z) <->
  (exists x tt, defined_at upper files outs' t s u k x tt /\ symbol_row k x tt z).
Proof.
  intros F. pose proof (combine_alike files _ _ F) as C. split; intros (x & tt & (pre & f & out & post & E & SG & LA & N) & R); rewrite E in C.
  - destruct (F2_split_l _ _ _ _ _ C) as (pre' & [f' out'] & post' & E' & _ & [P1 P2] & FP). cbn [fst snd] in P1, P2. subst f'.
    destruct (padded_latest_1 _ _ _ _ _ _ _ _ P2 LA) as (y & S & LY). exists y, tt. split; [|apply (same_row _ _ _ _ _ S); exact R].
    exists pre', f, out', post'. split; [exact E'|]. split; [exact SG|]. split; [exact LY|]. intros g o I SG'.
    destruct (F2_In_r _ _ _ _ FP I) as ([g' o'] & J & [Q1 Q2]). cbn [fst snd] in Q1, Q2. subst g'. apply (padded_undefined _ o'); [exact Q2|]. exact (N _ _ J SG').
  - destruct (F2_split_r _ _ _ _ _ C) as (pre' & [f' out'] & post' & E' & _ & [P1 P2] & FP). cbn [fst snd] in P1, P2. subst f'.
    destruct (padded_latest_2 _ _ _ _ _ _ _ _ P2 LA) as (y & S & LY). exists y, tt. split; [|apply (same_row _ _ _ _ _ S); exact R].
    exists pre', f, out', post'. split; [exact E'|]. split; [exact SG|]. split; [exact LY|]. intros g o I SG'.
    destruct (F2_In_l _ _ _ _ FP I) as ([g' o'] & J & [Q1 Q2]). cbn [fst snd] in Q1, Q2. subst g'. apply (padded_undefined _ _ o'); [exact Q2|]. exact (N _ _ J SG').
Qed.
Lemma C156_symbols_pf : forall v0 fs prog0 words0 on0 f0 rest0 ls0 fs' prog words on files outs,
  understood (options Genpages) words0 on0 (f0 :: rest0) -> command v0 fs Genpages prog0 words0 = (ls0, Exit 0, fs') ->
  understood (options ListSymbols) words on files -> ~ In (lit "verbose") on ->
  files <> [] -> ~ In [] files -> plain_names files -> Forall2 (source fs) files outs ->
  exists k, forall v, (k <= e_fuel v)%nat ->
    printed (fst (fst (command v fs' ListSymbols prog words))) = printed (fst (fst (command v fs ListSymbols prog words))).
Proof.
  intros v0 fs prog0 words0 on0 f0 rest0 ls0 fs' prog words on files outs U0 E0 U O NE N PN F.
  destruct (padded_sources fs fs' (C156_source_pf _ _ _ _ _ _ _ _ _ U0 E0) files outs F) as (outs' & F' & P).
  destruct (C154_list_pf fs prog words on files outs U O NE N PN F) as (k & H).
  destruct (C154_list_pf fs' prog words on files outs' U O NE N PN F') as (k' & H').
  exists (Nat.max k k'). intros v L. destruct (H v ltac:(lia)) as (said & shown & rows & n & E & S & LO & SS & R).
  destruct (H' v ltac:(lia)) as (said' & shown' & rows' & n' & E' & S' & LO' & SS' & R').
  rewrite E, E'. cbn [fst]. rewrite !printed_app, !printed_out, (printed_labels _ _ _ _ _ _ S), (printed_labels _ _ _ _ _ _ S').
  replace (printed (if n' =? 0 then [] else [ErrL (str_of_Z n' ++ lit " errors found")])) with (@nil str) by (destruct (n' =? 0); reflexivity).
  replace (printed (if n =? 0 then [] else [ErrL (str_of_Z n ++ lit " errors found")])) with (@nil str) by (destruct (n =? 0); reflexivity).
  assert (rows' = rows); [|subst rows'; rewrite (laid_unique _ _ _ _ LO' LO); reflexivity].
  apply (same_sorted_by (fun a b => key_lt (fst a) (fst b))); [intros a b A B; exact (key_asym _ _ A B)|exact SS'|exact SS|].
  intros [[[[t s] u] kd] y]. rewrite R, R'. symmetry. apply padded_defined. exact P.
Qed.
(*@ Example C156_symbols_ex : let v := mkenv (fun _ _ => []) (fun _ _ _ => []) (map (fun c => if (97 <=? c) && (c <=? 122) then c - 32 else c)) (fun s => s) (fun _ => lit "?") 3 (fun _ => []) in
  let fs' := snd (command v paged Genpages (lit "x.py") [lit "a.arg"]) in
  printed (fst (fst (command v fs' ListSymbols (lit "x.py") [lit "a.arg"]))) =
    [lit "A"; lit "  Segment: a"; lit "    Subsegment: 1"; lit "        <simple>    a:3                                                 A          DA,B         1"] /\
  printed (fst (fst (command v paged ListSymbols (lit "x.py") [lit "a.arg"]))) =
    [lit "A"; lit "  Segment: a"; lit "    Subsegment: 1"; lit "        <simple>    a:3                                                 A          DA,B         1"].
Proof. vm_compute. auto. Qed. @*)
Lemma same_lognum x y r : same_line x y -> shows (columns (text_of x) 2 7) r <-> shows (columns (text_of y) 2 7) r.
Proof.
  destruct x as [[f i] t], y as [[g j] u]. intros (_ & _ & [->| ->]); [reflexivity|]. unfold text_of. cbn [snd].
  assert (B : blank (columns (t ++ [10]) 2 7) <-> blank (columns t 2 7)).
  { destruct (columns_end t 2 7) as [E|E]; rewrite E; [reflexivity|]. unfold blank. rewrite Forall_app. split; [intros [A _]; exact A|].
    intros A. split; [exact A|]. constructor; [apply white_ok; reflexivity|constructor]. }
  unfold shows. rewrite B. split; (intros [H|(s & T & H)]; [left; exact H|right; exists s; split; [apply (trimmed_columns t 2 7 s); exact T|exact H]]).
Qed.
Lemma alike_said upper l l' m ty : alike l l' -> label_said upper l m ty -> label_said upper l' m ty.
Proof.
  intros (_ & O & L) [s A U|s x y z A U E|s a t A U E N1 N2 N3|s a t A U E N I|s a t A W N]; apply L in A.
  - apply la_case; assumption.
  - exact (la_commas _ _ _ _ _ _ A U E).
  - exact (la_prefix _ _ _ _ _ A U E N1 N2 N3).
  - exact (la_unsupported _ _ _ _ _ A U E N I).
  - apply (la_no_operation _ _ _ _ _ A W). intros op Q. apply (N op), O. exact Q.
Qed.
Lemma same_line_block upper rep x y ls : same_line x y -> label_block upper rep x ls <-> label_block upper rep y ls.
Proof.
  intros S. assert (A := same_alike _ _ S). assert (G := fun r => same_lognum x y r S). destruct x as [[f i] t], y as [[g j] u].
  destruct S as (<- & <- & _). cbn [text_of snd] in A, G. cbn [label_block]. rewrite (proj1 A).
  split; intros (N & m & ty & lg & a & b & r & LS & H & R); (split; [exact N|]); exists m, ty, lg, a, b, r.
  - split; [exact (alike_said _ _ _ _ _ A LS)|]. rewrite <- G. split; [|exact R].
    destruct H as [H|(s & -> & H)]; [left; exact H|right; exists s; rewrite <- G; auto].
  - split; [apply (alike_said _ u t); [|exact LS]|]. { destruct A as (A1 & A2 & A3). split; [symmetry; exact A1|split; intros; symmetry; auto]. }
    rewrite G. split; [|exact R]. destruct H as [H|(s & -> & H)]; [left; exact H|right; exists s; rewrite G; auto].
Qed.
Lemma idle_block upper rep y ls : idle (text_of y) -> ~ label_block upper rep y ls.
Proof.
  destruct y as [[f i] t]. cbn [text_of snd label_block]. intros I (_ & m & ty & lg & a & b & r & LS & _).
  destruct LS as [s A _|s x y z A _ _|s p u A _ _ _ _ _|s p u A _ _ _ _|s p u A _ _]; exact (idle_label _ _ I A).
Qed.
Lemma padded_unpicked {B} (P : srcline -> B -> Prop) out out' ys : (forall x y z, same_line x y -> (P x z <-> P y z)) ->
  (forall y z, idle (text_of y) -> ~ P y z) -> padded out out' -> picked P out' ys -> picked P out ys.
Proof.
  intros H I Q. revert ys. induction Q as [|x y out out' S Q IH|y out out' D Q IH]; intros ys K.
  - exact K.
  - inversion K as [|? z ? r A K'|? ? ? A K']; subst.
    + constructor; [apply (H _ _ _ S); exact A|apply IH; exact K'].
    + apply pk_no; [intros z Z; apply (A z); apply (H _ _ _ S); exact Z|apply IH; exact K'].
  - inversion K as [|? z ? r A K'|? ? ? A K']; subst; [destruct (I _ _ D A)|apply IH; exact K'].
Qed.
Lemma labels_back upper rep counts files : forall outs outs', Forall2 padded outs outs' -> forall n said,
  labels_said upper rep counts files outs' n said -> labels_said upper rep counts files outs n said.
Proof.
  intros outs outs' F. revert files. induction F as [|out out' outs outs' P F IH]; intros files n said L; inversion L; subst; [constructor|].
  constructor; [|apply IH; assumption].
  match goal with K : picked _ out' _ |- _ => exact (padded_unpicked (label_block upper rep) out out' _ (fun x y z => same_line_block upper rep x y z) (fun y z => idle_block upper rep y z) P K) end.
Qed.
Lemma picked_len {A B} (P : A -> B -> Prop) l r r' : picked P l r -> picked P l r' -> zlen r = zlen r'.
Proof.
  intros K. revert r'. induction K as [|x y l r A0 K IH|x l r A0 K IH]; intros r' K'; inversion K' as [|? z ? s H K2|? ? ? H K2]; subst.
  - reflexivity.
  - rewrite !zlen_cons, (IH _ K2). reflexivity.
  - destruct (H _ A0).
  - destruct (A0 _ H).
  - exact (IH _ K2).
Qed.
Lemma labels_number upper rep counts files : forall outs n said n' said', labels_said upper rep counts files outs n said ->
  labels_said upper rep counts files outs n' said' -> n = n'.
Proof.
  induction files as [|f files IH]; intros outs n said n' said' L L'; inversion L; subst; inversion L'; subst; [reflexivity|].
  f_equal; [eapply picked_len; eassumption|eapply IH; eassumption].
Qed.
Lemma defined_padded upper outs outs' s k : Forall2 padded outs outs' ->
  ((exists out x tt, In out outs' /\ In x out /\ line_defines upper (text_of x) s k tt) <->
   (exists out x tt, In out outs /\ In x out /\ line_defines upper (text_of x) s k tt)).
Proof.
  intros F. split; intros (out & x & tt & I & J & D).
  - destruct (F2_In_r _ _ _ _ F I) as (out' & I' & P). destruct (padded_In_r _ _ _ P J) as (y & J' & S); [intros Q; exact (idle_defines _ _ _ _ _ Q D)|].
    exists out', y, tt. split; [exact I'|]. split; [exact J'|]. apply (alike_defines _ _ _ _ _ _ (same_alike _ _ S)). exact D.
  - destruct (F2_In_l _ _ _ _ F I) as (out' & I' & P). destruct (padded_In_l _ _ _ P J) as (y & J' & S).
    exists out', y, tt. split; [exact I'|]. split; [exact J'|]. apply (alike_defines _ _ _ _ _ _ (same_alike _ _ S)). exact D.
Qed.
Lemma within_padded upper files outs outs' s seg k : Forall2 padded outs outs' ->
  (defined_within upper files outs' s seg k <-> defined_within upper files outs s seg k).
Proof.
  intros F. assert (C : Forall2 (fun p q : str * list srcline => fst p = fst q /\ padded (snd p) (snd q)) (combine files outs) (combine files outs')).
  { clear - F. revert files. induction F as [|a b outs outs' H _ IH]; intros [|f files]; cbn [combine]; try constructor; auto. }
  split; intros (f & out & x & tt & I & SG & J & D).
  - destruct (F2_In_r _ _ _ _ C I) as ([f' out'] & I' & [E P]). cbn [fst snd] in E, P. subst f'. destruct (padded_In_r _ _ _ P J) as (y & J' & S); [intros Q; exact (idle_defines _ _ _ _ _ Q D)|].
    exists f, out', y, tt. split; [exact I'|]. split; [exact SG|]. split; [exact J'|]. apply (alike_defines _ _ _ _ _ _ (same_alike _ _ S)). exact D.
  - destruct (F2_In_l _ _ _ _ C I) as ([f' out'] & I' & [E P]). cbn [fst snd] in E, P. subst f'. destruct (padded_In_l _ _ _ P J) as (y & J' & S).
    exists f, out', y, tt. split; [exact I'|]. split; [exact SG|]. split; [exact J'|]. apply (alike_defines _ _ _ _ _ _ (same_alike _ _ S)). exact D.
Qed.
Lemma C156_check_pf : forall v0 fs prog0 words0 on0 f0 rest0 ls0 fs' prog words on complex files outs,
  understood (options Genpages) words0 on0 (f0 :: rest0) -> command v0 fs Genpages prog0 words0 = (ls0, Exit 0, fs') ->
  understood (options CheckSymbols) words on files -> ~ In (lit "verbose") on -> turned_on on "complex" complex ->
  files <> [] -> ~ In [] files -> plain_names files -> Forall2 (source fs) files outs ->
  exists k, forall v, (k <= e_fuel v)%nat -> exists said said' report n,
    command v fs CheckSymbols prog words = (said ++ report, Exit 0, fs) /\
    command v fs' CheckSymbols prog words = (said' ++ report, Exit 0, fs') /\
    labels_said (e_upper v) (e_rep v) true files outs n said /\ labels_said (e_upper v) (e_rep v) true files outs n said'.
Proof.
  intros v0 fs prog0 words0 on0 f0 rest0 ls0 fs' prog words on complex files outs U0 E0 U O OC NE N PN F.
  destruct (padded_sources fs fs' (C156_source_pf _ _ _ _ _ _ _ _ _ U0 E0) files outs F) as (outs' & F' & P).
  destruct (C154_check_pf fs prog words on complex files outs U O OC NE N PN F) as (k & H).
  destruct (C154_check_pf fs' prog words on complex files outs' U O OC NE N PN F') as (k' & H').
  exists (Nat.max k k'). intros v L.
  destruct (H v ltac:(lia)) as (said & syms & ch & part & total & n & E & S & SS & M & UP & CH & TP).
  destruct (H' v ltac:(lia)) as (said' & syms' & ch' & part' & total' & n' & E' & S' & SS' & M' & UP' & CH' & TP').
  apply (labels_back _ _ _ _ _ _ P) in S'. assert (n' = n) by (symmetry; eapply labels_number; eassumption). subst n'.
  assert (syms' = syms).
  { apply (same_sorted_by str_lt); [exact str_lt_asym|exact SS'|exact SS|]. intros s. rewrite M, M', !(defined_padded _ _ _ _ _ P). reflexivity. }
  subst syms'. assert (total' = total) by (destruct TP as [[A ->]|[A ->]], TP' as [[B ->]|[B ->]]; reflexivity || lia). subst total'.
  assert (ch' = ch) by (refine (suggestions_same _ _ _ _ _ _ _ _ CH' CH); intros s seg kd; exact (within_padded _ _ _ _ _ _ _ P)). subst ch'.
  rewrite (part_unique _ _ _ _ UP' UP) in E'. exists said, said'. eexists. exists n. eauto 8.
Qed.
(*@ Example C156_check_ex : let v := mkenv (fun _ _ => []) (fun _ _ _ => []) (map (fun c => if (97 <=? c) && (c <=? 122) then c - 32 else c)) (fun s => s) (fun _ => lit "?") 3 (fun _ => []) in
  let fs' := snd (command v paged Genpages (lit "x.py") [lit "a.arg"]) in
  fs' (lit "a.arg") <> paged (lit "a.arg") /\
  fst (command v fs' CheckSymbols (lit "x.py") [lit "-c"; lit "a.arg"]) = fst (command v paged CheckSymbols (lit "x.py") [lit "-c"; lit "a.arg"]).
Proof. vm_compute. split; [discriminate|reflexivity]. Qed. @*)
