(** What happens when a source cannot be read: C162. *)
From Coq Require Import ZArith List Bool Lia Sorted.
From Verif Require Import Py LPy MInstruction MCards SCards LCards LDeck MSymbols SSymbols LSymBuild MInstructions MTools STools LTools LToolSym LListTool MDiag SDiag LDiag LQuiet MDump SDump MVerbose SVerbose LVerbose STranscript LTranscript MOptions SOptions LOptions MProcess SProcess LProcess SEnds LEnds SSource LSource SFound LFound STextSym LTextSym SReport LReport SUnread.
#[local] Arguments Z.add : simpl never.
#[local] Arguments Z.sub : simpl never.
#[local] Arguments Z.mul : simpl never.
#[local] Arguments Z.pow : simpl never.

Section Give.
Variable fs : fsys.
Let RD fuel v := read_run fuel ArgusCls DEFAULT_WIDTH DEFAULT_FIELDS fs v.
Let SR fuel v := src_run (RD fuel v) ArgusCls DEFAULT_WIDTH DEFAULT_FIELDS fs v.

(** the lines before are read, with their log *)
Lemma log_snoc f pre ls : lines_log fs f 1 pre ls -> forall line l2, lines_log fs f (1 + zlen pre) [line] l2 -> lines_log fs f 1 (pre ++ [line]) (ls ++ l2).
Proof.
  intros LL line l2 L2. revert L2. induction LL as [g i|g i l r ls C LL IHL|g i l inc r l1 l3 INC RL LL IHL|g i l r ls C D LL IHL]; intros L2.
  - cbn [app]. change (zlen (@nil str)) with 0 in L2. rewrite Z.add_0_r in L2. exact L2.
  - cbn [app]. apply ll_comment; [exact C|]. apply IHL. rewrite zlen_cons in L2. replace (i + 1 + zlen r) with (i + (1 + zlen r)) by lia. exact L2.
  - cbn [app]. rewrite <- app_assoc. eapply ll_include; [exact INC|exact RL|]. apply IHL. rewrite zlen_cons in L2.
    replace (i + 1 + zlen r) with (i + (1 + zlen r)) by lia. exact L2.
  - cbn [app]. apply ll_card; [exact C|exact D|]. apply IHL. rewrite zlen_cons in L2. replace (i + 1 + zlen r) with (i + (1 + zlen r)) by lia. exact L2.
Qed.
Lemma nested_runs v n f ls : nested_at fs n f ls -> snd (RD n v f) = Err RecursionError.
Proof.
  revert f ls. induction n as [|n IHn]; intros f ls; [reflexivity|]. intros (content & pre & r & post & inc & l1 & l2 & E & TL & LL & _ & FW & NN & NA & _).
  pose proof (IHn _ _ NA) as IH. apply C144_lines_pf in TL; change (readlines content = @app str pre (@cons str (36 :: r) post)) in TL.
  destruct (proj2 (log_runs ArgusCls DEFAULT_WIDTH DEFAULT_FIELDS fs default_usable v) _ _ _ _ LL) as (n1 & cs & H).
  unfold RD. rewrite read_run_S, E, TL, bind_ok. cbn [snd].
  change (src_run (read_run n ArgusCls DEFAULT_WIDTH DEFAULT_FIELDS fs v) ArgusCls DEFAULT_WIDTH DEFAULT_FIELDS fs v) with (SR n v).
  specialize (H n (@cons str (36 :: r) post)). fold (RD n v) in H. fold (SR n v) in H.
  destruct H as [G|[L G]]; [|exact G]. rewrite G. cbn [snd].
  assert (IO : include_of (36 :: r) inc) by (exists r; auto).
  assert (X : SR n v f (1 + @zlen str pre) (@cons str (36 :: r) post) =
    io_bind (RD n v inc) (fun ic => io_bind (SR n v f (1 + zlen pre + 1) post) (fun t => ([], Ok (ic ++ t))))).
  { unfold SR at 1. cbn [src_run]. destruct (include_name _ _ IO) as (-> & -> & ->). rewrite bind_nil.
    destruct (fs inc); [|contradiction]. reflexivity. }
  rewrite X, snd_bind, IH. reflexivity.
Qed.
Definition fails_as (fuel : nat) (v : bool) (f : str) (x : io (list card)) : Prop :=
  match x with
  | (_, Ok _) => True
  | (_, Err SystemExit) => True
  | (out, Err IndexError) => exists ls, unnamed_at fs f ls /\ out = vis v ls
  | (out, Err RecursionError) => exists ls, nested_at fs fuel f ls /\ out = vis v ls
  | (_, Err _) => False
  end.
Definition rest_fails (fuel : nat) (v : bool) (f : str) (ls : list line) (x : io (list card)) : Prop :=
  match x with
  | (_, Ok _) => True
  | (_, Err SystemExit) => True
  | (out, Err IndexError) => exists ls', unnamed_at fs f (OutL (lit "Reading " ++ f ++ lit "...") :: ls ++ ls') /\ out = vis v ls'
  | (out, Err RecursionError) => exists ls', nested_at fs (S fuel) f (OutL (lit "Reading " ++ f ++ lit "...") :: ls ++ ls') /\ out = vis v ls'
  | (_, Err _) => False
  end.
Lemma src_fails fuel v (IH : forall f, fails_as fuel v f (RD fuel v f)) f content (E : fs f = Some content) lines : forall i pre ls,
  readlines content = pre ++ lines -> lines_log fs f 1 pre ls -> i = 1 + zlen pre ->
  (forall q g l, In (36 :: q) pre -> first_word q g -> ~ nested_at fs fuel g l) ->
  rest_fails fuel v f ls (SR fuel v f i lines).
Proof.
  induction lines as [|l r IHL]; intros i pre ls ER LL EI NP; [exact I|].
  assert (NX : forall l2, lines_log fs f i [l] l2 -> readlines content = (pre ++ [l]) ++ r /\ lines_log fs f 1 (pre ++ [l]) (ls ++ l2) /\
            i + 1 = 1 + zlen (pre ++ [l])).
  { intros l2 L2. split; [rewrite <- app_assoc; exact ER|]. split; [apply log_snoc; [exact LL|rewrite <- EI; exact L2]|].
    rewrite zlen_app. change (zlen [l]) with 1. lia. }
  assert (NQ : (forall q g, l = 36 :: q -> first_word q g -> forall l0, ~ nested_at fs fuel g l0) ->
            forall q g l0, In (36 :: q) (pre ++ [l]) -> first_word q g -> ~ nested_at fs fuel g l0).
  { intros Q q g l0 I W. apply in_app_or in I. destruct I as [I|[I|[]]]; [exact (NP _ _ _ I W)|exact (Q _ _ I W l0)]. }
  assert (ST : forall l2 pf, lines_log fs f i [l] l2 -> (forall q g, l = 36 :: q -> first_word q g -> forall l0, ~ nested_at fs fuel g l0) -> forall x : io (list card), fst x = vis v l2 ++ fst (SR fuel v f (i + 1) r) ->
            snd x = (do t <- snd (SR fuel v f (i + 1) r); Ok (pf ++ t)) ->
            rest_fails fuel v f ls x).
  { intros l2 pf L2 QQ x X1 X2. destruct (NX _ L2) as (A1 & A2 & A3). specialize (IHL (i + 1) _ _ A1 A2 A3 (NQ QQ)).
    destruct x as [o [t|e]]; [exact I|]. cbn [fst snd] in X1, X2. destruct (SR fuel v f (i + 1) r) as [o2 [t2|e2]]; cbn [fst snd bind] in X1, X2; [discriminate|].
    injection X2 as <-. destruct e; try exact IHL; destruct IHL as (ls' & U & ->); rewrite <- app_assoc in U; exists (l2 ++ ls'); (split; [exact U|]);
    rewrite X1, vis_app; reflexivity. }
  unfold SR. cbn [src_run]. fold (SR fuel v). destruct (startswith l (lit "#")) eqn:C.
  { apply comment_dec in C. rewrite bind_ok.
    apply (ST [OutL (MVerbose.skipping f i)] []); [apply ll_comment; [exact C|constructor]|intros q g EL _; exfalso; destruct C as (r1 & C); rewrite EL in C; discriminate C|cbn [fst]; rewrite tell_vis; reflexivity|].
    cbn [snd]. destruct (snd (SR fuel v f (i + 1) r)); reflexivity. }
  destruct (startswith l (lit "$")) eqn:D.
  - rewrite bind_nil. pose proof D as D'. apply dollar_dec in D'. destruct D' as (r0 & EL).
    assert (TL : text_lines content (pre ++ (36 :: r0) :: r)) by (apply C144_lines_pf; rewrite ER, EL; reflexivity).
    destruct (py_index _ 0) as [inc|e] eqn:EN.
    2:{ assert (e = IndexError) by (unfold py_index in EN; cbv zeta in EN; destruct (_ || _); [congruence|]; destruct (nth_error _ _); congruence).
        subst e. exists []. split; [|destruct v; reflexivity]. rewrite app_nil_r. eapply un_here; [exact E|exact TL|exact LL|].
        intros w W. assert (IO : include_of l w) by (exists r0; auto). destruct (include_name _ _ IO) as (_ & _ & X). congruence. }
    assert (INC := include_inv _ _ D EN). assert (FW : first_word r0 inc) by (destruct INC as (r1 & E1 & W); rewrite EL in E1; apply app_inv_head in E1; subst r1; exact W).
    destruct (fs inc) as [ci|] eqn:EC; [|exact I].
    pose proof (IH inc) as HI. fold (RD fuel v inc).
    pose proof (read_logged ArgusCls DEFAULT_WIDTH DEFAULT_FIELDS fs default_usable fuel v inc) as HL. cbv zeta beta in HL. fold (RD fuel v) in HL.
    destruct (RD fuel v inc) as [o1 [ic|e]] eqn:ERD.
    + destruct HL as (l1 & RL & ->). rewrite bind_ok, bind_map.
      apply (ST (l1 ++ []) ic); [eapply ll_include; [exact INC|exact RL|constructor]| |cbn [fst]; rewrite app_nil_r; reflexivity|reflexivity].
      intros q g EQ W l0 NA. assert (q = r0) by (rewrite EL in EQ; injection EQ; auto). subst q.
      assert (g = inc) by (apply first_word_ok in W; apply first_word_ok in FW; destruct W as (? & W), FW as (? & FW); congruence). subst g.
      apply (nested_runs v) in NA. rewrite ERD in NA. discriminate NA.
    + rewrite bind_err. destruct e; try exact HI; destruct HI as (l1 & U & ->); exists l1; (split; [|reflexivity]).
      * eapply un_inside; eassumption.
      * exists content, pre, r0, r, inc, ls, l1. repeat split; try assumption. congruence.
  - rewrite bind_nil. destruct (card_new_total ArgusCls l DEFAULT_WIDTH DEFAULT_FIELDS (Some f) i C default_usable) as (c & EC). rewrite EC, bind_map.
    apply comment_false in C. apply dollar_false in D.
    apply (ST [] [c]); [apply ll_card; [exact C|exact D|constructor]|intros q g EL _; exfalso; apply D; exists q; exact EL|cbn [fst]; destruct v; reflexivity|reflexivity].
Qed.
Lemma read_fails fuel v : forall f, fails_as fuel v f (RD fuel v f).
Proof.
  induction fuel as [|fuel IH]; intros f.
  { exists []. split; [reflexivity|destruct v; reflexivity]. }
  unfold RD. rewrite read_run_S. destruct (fs f) as [content|] eqn:E; [|exact I].
  rewrite bind_ok. pose proof (src_fails fuel v IH f content E (readlines content) 1 [] [] eq_refl ltac:(constructor) eq_refl ltac:(intros q g l [])) as H.
  change (src_run (read_run fuel ArgusCls DEFAULT_WIDTH DEFAULT_FIELDS fs v) ArgusCls DEFAULT_WIDTH DEFAULT_FIELDS fs v) with (SR fuel v).
  destruct (SR fuel v f 1 (readlines content)) as [out [cs|e]]; cbn [fst snd fails_as]; [exact I|].
  destruct e; try exact H; destruct H as (ls & U & ->); exists (OutL (reading f) :: ls); (split; [exact U|]); rewrite tell_vis, <- vis_app; reflexivity.
Qed.
(** and back *)
Lemma unnamed_runs v f ls : unnamed_at fs f ls -> exists n, forall fuel,
  RD fuel v f = (vis v ls, Err IndexError) \/ ((fuel < n)%nat /\ snd (RD fuel v f) = Err RecursionError).
Proof.
  induction 1 as [f content pre r post ls E TL LL NW|f content pre r post inc ls ls' E TL LL FW _ (n0 & IH)]; apply C144_lines_pf in TL; change (readlines content = @app str pre (@cons str (36 :: r) post)) in TL.
  - destruct (proj2 (log_runs ArgusCls DEFAULT_WIDTH DEFAULT_FIELDS fs default_usable v) _ _ _ _ LL) as (n & cs & H).
    exists (S n). intros [|fuel]; [right; split; [lia|reflexivity]|]. unfold RD. rewrite read_run_S, E, TL, bind_ok.
    change (src_run (read_run fuel ArgusCls DEFAULT_WIDTH DEFAULT_FIELDS fs v) ArgusCls DEFAULT_WIDTH DEFAULT_FIELDS fs v) with (SR fuel v).
    specialize (H fuel (@cons str (36 :: r) post)). fold (RD fuel v) in H. fold (SR fuel v) in H.
    destruct H as [G|[L G]]; [|right; split; [lia|exact G]]. left. rewrite G.
    assert (X : SR fuel v f (1 + @zlen str pre) (@cons str (36 :: r) post) = ([], Err IndexError)).
    { unfold SR. cbn [src_run]. change (startswith (36 :: r) (lit "#")) with false. assert (DD : startswith (36 :: r) (lit "$") = true) by (apply dollar_dec; exists r; reflexivity). rewrite DD.
      destruct (py_index (split_ws (py_slice (36 :: r) (Some 1) None)) 0) as [inc|e] eqn:EN.
      - exfalso. apply include_inv in EN; [|exact DD]. destruct EN as (r1 & E1 & W). injection E1 as <-. exact (NW _ W).
      - unfold py_index in EN. cbv zeta in EN. destruct (_ || _); [injection EN as <-; reflexivity|]. destruct (nth_error _ _); [discriminate|]. injection EN as <-. reflexivity. }
    rewrite X. cbn [fst snd bind]. rewrite app_nil_r. f_equal. rewrite tell_vis, <- vis_app. reflexivity.
  - destruct (proj2 (log_runs ArgusCls DEFAULT_WIDTH DEFAULT_FIELDS fs default_usable v) _ _ _ _ LL) as (n & cs & H).
    exists (S (Nat.max n n0)). intros [|fuel]; [right; split; [lia|reflexivity]|]. unfold RD. rewrite read_run_S, E, TL, bind_ok.
    change (src_run (read_run fuel ArgusCls DEFAULT_WIDTH DEFAULT_FIELDS fs v) ArgusCls DEFAULT_WIDTH DEFAULT_FIELDS fs v) with (SR fuel v).
    specialize (H fuel (@cons str (36 :: r) post)). fold (RD fuel v) in H. fold (SR fuel v) in H.
    destruct H as [G|[L G]]; [|right; split; [lia|exact G]]. rewrite G.
    assert (IO : include_of (36 :: r) inc) by (exists r; auto).
    assert (X : fs inc <> None -> SR fuel v f (1 + @zlen str pre) (@cons str (36 :: r) post) =
      io_bind (RD fuel v inc) (fun ic => io_bind (SR fuel v f (1 + zlen pre + 1) post) (fun t => ([], Ok (ic ++ t))))).
    { intros NN. unfold SR at 1. cbn [src_run]. destruct (include_name _ _ IO) as (-> & -> & ->). rewrite bind_nil.
      destruct (fs inc); [|contradiction]. reflexivity. }
    assert (NN : fs inc <> None).
    { intros EN. destruct (IH (S n0)) as [Y|[Y _]]; [|lia]. unfold RD in Y. rewrite read_run_S, EN in Y. apply (f_equal snd) in Y. discriminate Y. }
    rewrite (X NN). destruct (IH fuel) as [Y|[L Y]].
    2:{ right. split; [lia|]. cbn [snd]. rewrite snd_bind, Y. reflexivity. }
    left. rewrite Y, bind_err. cbn [fst snd bind]. f_equal.
    change (OutL (lit "Reading " ++ f ++ lit "...") :: ls ++ ls') with ([OutL (reading f)] ++ ls ++ ls').
    rewrite tell_vis, !vis_app, <- ?app_assoc. reflexivity.
Qed.
Lemma lines_log_unique f i lines l l' : lines_log fs f i lines l -> lines_log fs f i lines l' -> l = l'.
Proof.
  intros A B. destruct (proj2 (log_runs ArgusCls DEFAULT_WIDTH DEFAULT_FIELDS fs default_usable true) _ _ _ _ A) as (n & cs & H).
  destruct (proj2 (log_runs ArgusCls DEFAULT_WIDTH DEFAULT_FIELDS fs default_usable true) _ _ _ _ B) as (n' & cs' & H').
  destruct (H (Nat.max n n') []) as [E|[L _]]; [|lia]. destruct (H' (Nat.max n n') []) as [E'|[L _]]; [|lia].
  rewrite E in E'. apply (f_equal fst) in E'. cbn [fst src_run] in E'. rewrite !app_nil_r in E'. exact E'.
Qed.
Lemma nested_unique n : forall f l l', nested_at fs n f l -> nested_at fs n f l' -> l = l'.
Proof.
  induction n as [|n IH]; intros f l l'; [cbn; congruence|].
  intros (c & pre & r & post & inc & l1 & l2 & E & TL & LL & NP & FW & NN & NA & ->) (c' & pre' & r' & post' & inc' & l1' & l2' & E' & TL' & LL' & NP' & FW' & NN' & NA' & ->).
  assert (c' = c) by congruence. subst c'. apply C144_lines_pf in TL. apply C144_lines_pf in TL'. rewrite TL in TL'. clear TL.
  assert (X : pre = pre' /\ r = r').
  { assert (T : forall (a b p q : list (list Z)) x y, a ++ x :: p = b ++ y :: q -> (a = b /\ x = y) \/ (In x b \/ In y a)).
    { clear. induction a as [|h a IH]; intros [|k b] p q x y H; cbn [app] in H; injection H as H1 H2.
      - auto.
      - right. left. left. auto.
      - right. right. left. auto.
      - destruct (IH _ _ _ _ _ H2) as [[-> ->]|[G|G]]; [left; subst; auto|right; left; right; exact G|right; right; right; exact G]. }
    destruct (T _ _ _ _ _ _ TL') as [[-> EQ]|[G|G]].
    - injection EQ as ->. auto.
    - destruct (NP' _ _ _ G FW NA).
    - destruct (NP _ _ _ G FW' NA'). }
  destruct X as [<- <-].
  assert (inc' = inc) by (apply first_word_ok in FW; apply first_word_ok in FW'; destruct FW as (? & W), FW' as (? & W'); congruence). subst inc'.
  rewrite (IH _ _ _ NA NA'). f_equal. f_equal. exact (lines_log_unique _ _ _ _ _ LL LL').
Qed.
End Give.

(** *** a file that is not read *)
Lemma give_up fuel fs v f e : load fuel fs f = Err e -> exists log msg st, gives_up fs fuel f log msg st /\ ends_as (Err e : res unit) st /\
  load_run fuel fs v f = (vis v log ++ msg, Err e).
Proof.
  intros L. destruct f as [|x r] eqn:EF.
  { assert (e = TypeError) by (unfold load, argus_deck_new, deck_new in L; cbn in L; congruence). subst e. exists [], [], (Died TypeError).
    split; [constructor; reflexivity|]. split; [constructor; discriminate|]. destruct v; reflexivity. }
  rewrite <- EF in *. assert (N : f <> []) by (rewrite EF; discriminate). clear x r EF.
  pose proof (read_fails fs fuel v f) as R.
  pose proof (read_logged ArgusCls DEFAULT_WIDTH DEFAULT_FIELDS fs default_usable fuel v f) as H. cbv zeta beta in H.
  change (fails_as fs fuel v f (read_run fuel ArgusCls DEFAULT_WIDTH DEFAULT_FIELDS fs v f)) in R.
  rewrite <- load_run_read in R, H by exact N. pose proof (load_run_snd fuel fs v f) as B. rewrite L in B.
  assert (NN : e <> RecursionError -> forall l, ~ nested_at fs fuel f l).
  { intros NE l NA. apply (nested_runs fs v) in NA. rewrite <- load_run_read in NA by exact N. rewrite B in NA. congruence. }
  destruct (load_run fuel fs v f) as [out r]. cbn [snd] in B. subst r. unfold fails_as in R. unfold log_of in H.
  destruct e; try contradiction.
  - destruct R as (l & U & ->). exists l, [], (Died IndexError). split; [constructor; try assumption; apply NN; discriminate|].
    split; [constructor; discriminate|]. rewrite app_nil_r. reflexivity.
  - destruct H as (l & m & U & ->). exists l, [ErrL m], (Exit 1). split; [constructor; try assumption; apply NN; discriminate|]. split; [constructor|]. reflexivity.
  - destruct R as (l & U & ->). exists l, [], (Died RecursionError). split; [constructor; assumption|].
    split; [constructor; discriminate|]. rewrite app_nil_r. reflexivity.
Qed.
(** the files are read, or there is a first one that is not *)
Lemma cards_source fuel fs f cs : source_cards fuel fs f cs -> exists out, source fs f out /\ Forall2 agrees out cs.
Proof.
  intros SC. pose proof (source_ne _ _ _ _ SC) as N. pose proof (load_ok _ _ _ _ SC) as L. rewrite load_read in L by exact N.
  destruct (read_sound _ _ _ _ _ _ _ L) as (out & X & F). exists out. split; [apply expand_source; exact X|].
  pose proof (proj1 (expand_noncomment fs) _ _ X) as NC. clear - F NC. induction F as [|x c out cs H _ IH]; [constructor|].
  inversion NC as [|a b N1 N2]; subst. constructor; [|apply IH; exact N2]. apply line_card; [|exact H]. apply comment_false. exact N1.
Qed.
Lemma first_unread fuel fs files :
  (exists css outs, Forall2 (source_cards fuel fs) files css /\ Forall2 (source fs) files outs /\ Forall2 (Forall2 agrees) outs css) \/
  (exists pre css outs f post e, files = pre ++ f :: post /\ Forall2 (source_cards fuel fs) pre css /\ Forall2 (source fs) pre outs /\
     Forall2 (Forall2 agrees) outs css /\ load fuel fs f = Err e).
Proof.
  induction files as [|f files IH]; [left; exists [], []; repeat constructor|]. destruct (load fuel fs f) as [cs|e] eqn:L.
  - apply load_inv in L. destruct (cards_source _ _ _ _ L) as (out & S & A). destruct IH as [(css & outs & F & G & H)|(pre & css & outs & g & post & e & -> & F & G & H & Q)].
    + left. exists (cs :: css), (out :: outs). repeat split; constructor; assumption.
    + right. exists (f :: pre), (cs :: css), (out :: outs), g, post, e. repeat split; try constructor; assumption.
  - right. exists [], [], [], f, files, e. repeat split; try constructor. exact L.
Qed.
Lemma tables_stop upper rep card_rep fuel fs v counts pre css f post log msg e : Forall2 (source_cards fuel fs) pre css -> plain_names pre ->
  load fuel fs f = Err e -> load_run fuel fs v f = (vis v log ++ msg, Err e) ->
  exists ls mss, build_files_run upper rep card_rep fuel fs v counts (pre ++ f :: post) = (ls ++ vis v log ++ msg, Err e) /\
    tables_said upper rep card_rep fuel fs v counts pre mss ls.
Proof.
  intros F PN H EL. destruct (tables_all upper rep card_rep fuel fs v counts pre css F PN) as (ls & mss & tab & n & E & _ & T).
  exists ls, mss. split; [|auto].
  unfold build_files_run. rewrite io_fold_app. fold (build_files_run upper rep card_rep fuel fs v counts pre). rewrite E, bind_ok. cbn [io_fold fst snd].
  assert (EB : dump_table_run upper rep card_rep fuel fs f tab = ([], tab, Err e)).
  { unfold load in H. unfold dump_table_run. cbv zeta.
    destruct (argus_deck_new fuel fs None (Some f) DEFAULT_WIDTH DEFAULT_FIELDS ArgusCls) as [[[d sec] c8]|e']; cbn [bind] in H; [discriminate|].
    congruence. }
  assert (BV : build_verbose upper rep card_rep fuel fs v tab f = (vis v log ++ msg, Err e)).
  { unfold build_verbose. rewrite EB, EL. cbn [fst map]. rewrite app_nil_r. reflexivity. }
  rewrite !BV. unfold io_bind. cbn [fst snd]. reflexivity.
Qed.
Lemma same_switch on l b b' : turned_on on l b -> turned_on on l b' -> b = b'.
Proof. intros H K. unfold turned_on in *. destruct b, b'; try reflexivity; [symmetry; apply K, H; reflexivity|apply H, K; reflexivity]. Qed.
Lemma runs_unread v fs on args t ls st fs' pre css outs f post verbose log msg e : reads_only t -> (forall m, ~ misuse fs t on args m) -> runs v fs on args t ls st fs' ->
  sources t args = pre ++ f :: post -> Forall2 (source_cards (e_fuel v) fs) pre css -> Forall2 (Forall2 agrees) outs css -> (keeps_table t -> plain_names pre) ->
  turned_on on "verbose" verbose -> load (e_fuel v) fs f = Err e -> load_run (e_fuel v) fs verbose f = (vis verbose log ++ msg, Err e) ->
  exists said, said_before v fs on verbose t args pre outs said /\ ls = said ++ vis verbose log ++ msg.
Proof.
  intros RO N R S F G PN V0 L EL.
  destruct R as [vb o ls r st V1 V2 V3 V4 V5 V6 V7 E EA|vb complex ls r st V1 V2 E EA|vb b e' f' x ls r st V1 V2 V3 V4 V5 E EA|vb details ls r st V1 V2 E EA|
    vb ls r st V1 E EA|vb ls r st fs' V1 E EA|vb debug ls r st V1 V2 E EA|out E|e' E|f' rest content more fs' E1 E2 E3 E4 E5|f' rest content e' E1 E2 E3];
  try (exfalso; unfold reads_only in RO; cbn [In] in RO; intuition discriminate); cbn [sources] in S; try specialize (PN ltac:(cbn; auto));
  pose proof (same_switch _ _ _ _ V0 V1) as VV; subst vb.
  - assert (NE : args <> []) by (rewrite S; destruct pre; discriminate).
    destruct (files_fold (ci_card_run verbose o) ci_inv verbose (o_print o) (ci_report_card verbose o) (e_fuel v) fs pre css [] ci_init F ci_init_inv) as (l & s & E' & R & _).
    exists l. split; [eapply sb_check; [eassumption|]; apply (report_told _ _ _ _ _ _ R _ _ F G)|].
    unfold check_instructions_run in E. destruct args as [|a0 r0]; [contradiction|]. rewrite S, io_fold_app, E', bind_ok in E. cbn [io_fold] in E. rewrite EL in E.
    apply (f_equal fst) in E. symmetry. exact E.
  - assert (NE : args <> []) by (rewrite S; destruct pre; discriminate).
    destruct (tables_stop (e_upper v) (e_rep v) (e_card_rep v) (e_fuel v) fs verbose true pre css f post log msg e F PN L EL) as (l & mss & E' & T).
    exists l. split; [eapply sb_symbols; [left; reflexivity|apply (tables_told _ _ _ _ _ _ _ _ _ _ T _ _ F G)]|].
    unfold check_symbols_verbose in E. destruct args as [|a0 r0]; [contradiction|]. rewrite S, E', bind_err in E. congruence.
  - destruct args as [|s [|g files]]; [destruct pre; discriminate|destruct pre; discriminate|]. cbn [tl] in S.
    assert (NC : ~ conflicting on) by (intros K; exact (N _ (mu_conflict fs on _ K))).
    destruct (tables_stop (e_upper v) (e_rep v) (e_card_rep v) (e_fuel v) fs verbose true pre css f post log msg e F PN L EL) as (l & mss & E' & T).
    exists l. split; [eapply sb_symbols; [right; left; reflexivity|apply (tables_told _ _ _ _ _ _ _ _ _ _ T _ _ F G)]|].
    unfold find_symbols_verbose in E. rewrite (not_conflicting on b e' f' x V2 V3 V4 V5 NC), S, E', bind_err in E. congruence.
  - destruct args as [|opcode files]; [destruct pre; discriminate|]. cbn [tl] in S.
    set (m := nth 0 (split_on 44 opcode) []). assert (M : mnemonic_of opcode m) by apply opcode_some.
    assert (I : In m INSTRUCTIONS) by (destruct (inb_dec m) as [I|NI]; [exact I|destruct (N _ (mu_opcode fs on opcode m files M NI))]).
    destruct (li_start opcode m M I) as [NO GG]. destruct (li_files (e_fuel v) fs verbose details opcode pre css NO F) as (l & E' & R).
    exists l. split; [eapply sb_search; [eassumption|apply (found_told _ _ _ _ _ _ _ R _ _ F G)]|].
    unfold list_instructions_run in E. cbv zeta in E. rewrite GG, S, io_fold_app, E', bind_ok in E. cbn [io_fold] in E. rewrite EL in E.
    apply (f_equal fst) in E. symmetry. exact E.
  - assert (NE : args <> []) by (rewrite S; destruct pre; discriminate).
    destruct (tables_stop (e_upper v) (e_rep v) (e_card_rep v) (e_fuel v) fs verbose false pre css f post log msg e F PN L EL) as (l & mss & E' & T).
    exists l. split; [eapply sb_symbols; [do 3 right; left; reflexivity|apply (tables_told _ _ _ _ _ _ _ _ _ _ T _ _ F G)]|].
    unfold list_symbols_run in E. destruct args as [|a0 r0]; [contradiction|]. rewrite S, E', bind_err in E. congruence.
  - assert (NE : args <> []) by (rewrite S; destruct pre; discriminate).
    destruct (tables_stop (e_upper v) (e_rep v) (e_card_rep v) (e_fuel v) fs verbose true pre css f post log msg e F PN L EL) as (l & mss & E' & T).
    exists l. split; [eapply sb_symbols; [do 2 right; left; reflexivity|apply (tables_told _ _ _ _ _ _ _ _ _ _ T _ _ F G)]|].
    unfold parse_run in E. destruct args as [|a0 r0]; [contradiction|]. rewrite S, E', bind_err in E. congruence.
Qed.

(** *** C162 *)
Lemma nested_gives fs n v f ls : f <> [] -> nested_at fs n f ls -> load_run n fs v f = (vis v ls, Err RecursionError).
Proof.
  intros N H. rewrite load_run_read by exact N. pose proof (nested_runs fs v _ _ _ H) as R. pose proof (read_fails fs n v f) as F. cbv beta zeta in R, F.
  destruct (read_run n ArgusCls DEFAULT_WIDTH DEFAULT_FIELDS fs v f) as [out r]. cbn [snd] in R. subst r.
  destruct F as (l & NA & ->). rewrite (nested_unique _ _ _ _ _ NA H). reflexivity.
Qed.
Lemma count_some {A} (P : A -> Prop) l n : count_of P l n -> n <> 0 -> exists x, In x l /\ P x.
Proof.
  induction 1 as [|x l n H _ IH|x l n H _ IH]; intros N; [contradiction|exists x; split; [left; reflexivity|exact H]|].
  destruct (IH N) as (y & I & K). exists y. split; [right; exact I|exact K].
Qed.
Lemma C162_told_pf : forall v fs t prog words on args verbose, reads_only t -> understood (options t) words on args ->
  (forall reason, ~ misuse fs t on args reason) -> (keeps_table t -> plain_names (sources t args)) -> turned_on on "verbose" verbose ->
  exists ls st, command v fs t prog words = (ls, st, fs) /\
    ((exists outs, Forall2 (source fs) (sources t args) outs /\
       (st = Exit 0 \/
        t = CheckInstructions /\ In (lit "count") on /\ ~ In (lit "unused") on /\ st = Died ZeroDivisionError /\
        forall x m, In x (concat outs) -> ~ mnemonic_at (text_of x) m)) \/
     (exists pre f post outs said log msg, sources t args = pre ++ f :: post /\ Forall2 (source fs) pre outs /\
       said_before v fs on verbose t args pre outs said /\ gives_up fs (e_fuel v) f log msg st /\
       ls = said ++ (if verbose then log else []) ++ msg)).
Proof.
  intros v fs t prog words on args verbose RO U N PN V. destruct (C142_starts_pf v fs t prog words on args U N) as (ls & st & fs' & E & R).
  destruct (first_unread (e_fuel v) fs (sources t args)) as [(css & outs & F & G & A)|(pre & css & outs & f & post & e & S & F & G & A & L)].
  - exists ls, st. assert (DEC : (t = CheckInstructions -> In (lit "count") on -> exists c, In c (concat css) /\ instr_card c) \/
                        (t = CheckInstructions /\ In (lit "count") on /\ forall c, In c (concat css) -> ~ instr_card c)).
    { destruct (in_dec (list_eq_dec Z.eq_dec) (lit "count") on) as [IC|NC]; [|left; intros; contradiction].
      destruct t; try (left; discriminate). cbn [sources] in F. assert (NE := args_not_empty fs CheckInstructions on args ltac:(cbn; auto) N).
      destruct (ci_run (fun _ _ => []) (e_fuel v) fs false (mkciopts false false false false false false) args css NE F) as (l & s & _ & _ & I).
      destruct (count_pos _ _ _ (proj1 (proj2 I))) as (P1 & P2 & P3). destruct (Z.eq_dec (ci_instrs s) 0) as [Z|Z]; [right; auto|left; intros _ _; exact (count_some _ _ _ (proj1 (proj2 I)) Z)]. }
    destruct DEC as [C|(ET & IC & NI)].
    + destruct (runs_ok v fs on args t ls st fs' css RO N R F PN C) as [-> ->]. split; [exact E|]. left. eauto.
    + subst t. cbn [sources] in F, G. assert (NE := args_not_empty fs CheckInstructions on args ltac:(cbn; auto) N).
      inversion R as [vb o ls0 r st0 V1 V2 V3 V4 V5 V6 V7 EC EA| | | | | | | | | |]; subst fs'. split; [exact E|]. left. exists outs. split; [exact G|].
      destruct (o_unused o) eqn:UN.
      * left. destruct (bad_count (e_fuel v) fs args css NE F) as (n & CN).
        assert (C0 : count_of instr_card (concat css) 0).
        { clear - NI. induction (concat css) as [|c l IH]; [constructor|]. constructor; [apply NI; left; reflexivity|apply IH; intros; apply NI; right; assumption]. }
        destruct (count_rows (e_pct v) (e_fuel v) fs vb o args css n 0 NE (proj2 V3 IC) F CN C0 (or_intror UN)) as (l1 & rows & un & X & _).
        rewrite X in EC. assert (r = Ok tt) by congruence. subst r. inversion EA. reflexivity.
      * right. split; [reflexivity|]. split; [exact IC|]. split; [intros I; apply V7 in I; congruence|].
        destruct (C121_no_instructions_pf (e_pct v) (e_fuel v) fs vb o args css NE (proj2 V3 IC) UN F NI) as (l & X & _). rewrite X in EC.
        assert (r = Err ZeroDivisionError) by congruence. subst r. split; [inversion EA; reflexivity|].
        intros x m I M. apply F2_concat in A. clear - A NI I M. induction A as [|y c out cs AG _ IH]; [destruct I|].
        destruct I as [<-|I]; [|apply IH; [intros; apply NI; right; assumption|exact I]].
        apply (NI c); [left; reflexivity|]. destruct y as [[g i] line]. destruct AG as (_ & _ & _ & _ & AM & _). exists m. apply AM. exact M.
  - destruct (give_up (e_fuel v) fs verbose f e L) as (log & msg & st' & GU & EA & EL).
    assert (PN' : keeps_table t -> plain_names pre) by (intros K g sg I; apply PN; [exact K|rewrite S; apply in_or_app; left; exact I]).
    destruct (runs_fail v fs on args t ls st fs' pre css f post e RO N R S F PN' L) as [EA' ->].
    rewrite (ends_fun _ _ _ EA EA') in GU.
    destruct (runs_unread v fs on args t ls st fs pre css outs f post verbose log msg e RO N R S F A PN' V L EL) as (said & SB & ->).
    exists (said ++ vis verbose log ++ msg), st. split; [exact E|]. right. exists pre, f, post, outs, said, log, msg. auto.
Qed.
(*@ Example C162_told_ex : let fs := fun f => if eqb f (lit "a") then Some (lit "                   FOO" ++ [10]) else if eqb f (lit "b") then Some (lit "#x" ++ [10] ++ lit "$ ") else
                     if eqb f (lit "c") then Some (lit "$c") else if eqb f (lit "d") then Some (lit "$ e") else None in
  let run := fun f => fst (command sample_env fs CheckInstructions (lit "x.py") [lit "-v"; lit "a"; f; lit "a"]) in
  let said := [OutL (lit "Reading a..."); OutL (lit "*** ERROR: Invalid instruction ""FOO"":"); OutL (lit "File a, line 1:                    FOO")] in
  run (lit "b") = (said ++ [OutL (lit "Reading b..."); OutL (lit "Skipping meta-comment, file b, line 1")], Died IndexError) /\
  run (lit "c") = (said ++ repeat (OutL (lit "Reading c...")) (e_fuel sample_env), Died RecursionError) /\
  run (lit "d") = (said ++ [OutL (lit "Reading d..."); ErrL (lit "File ""e"" does not exist")], Exit 1) /\
  run (lit "e") = (said ++ [ErrL (lit "ERROR: File ""e"" does not exist!")], Exit 1) /\
  run [] = (said, Died TypeError).
Proof. vm_compute. repeat split. Qed. @*)
Lemma C162_stops_pf : forall fs t prog words on args verbose pre f post outs log, reads_only t -> understood (options t) words on args ->
  (forall reason, ~ misuse fs t on args reason) -> (keeps_table t -> plain_names pre) -> turned_on on "verbose" verbose ->
  sources t args = pre ++ f :: post -> ~ In [] pre -> f <> [] -> Forall2 (source fs) pre outs ->
  (forall m, stops_at fs f log m -> exists k, forall v, (k <= e_fuel v)%nat -> exists said, said_before v fs on verbose t args pre outs said /\
     command v fs t prog words = (said ++ (if verbose then log else []) ++ [ErrL m], Exit 1, fs)) /\
  (unnamed_at fs f log -> exists k, forall v, (k <= e_fuel v)%nat -> exists said, said_before v fs on verbose t args pre outs said /\
     command v fs t prog words = (said ++ (if verbose then log else []), Died IndexError, fs)) /\
  (exists k, forall v, (k <= e_fuel v)%nat -> nested_at fs (e_fuel v) f log -> exists said, said_before v fs on verbose t args pre outs said /\
     command v fs t prog words = (said ++ (if verbose then log else []), Died RecursionError, fs)).
Proof.
  intros fs t prog words on args verbose pre f post outs log RO U N PN V S NP NF G.
  destruct (sources_read fs pre outs NP G) as (k & css & A & SC).
  assert (K : forall v msg e st, (k <= e_fuel v)%nat -> load_run (e_fuel v) fs verbose f = (vis verbose log ++ msg, Err e) -> ends_as (Err e : res unit) st ->
            exists said, said_before v fs on verbose t args pre outs said /\ command v fs t prog words = (said ++ (if verbose then log else []) ++ msg, st, fs)).
  { intros v msg e st L EL EA. specialize (SC _ L). assert (LE : load (e_fuel v) fs f = Err e) by (rewrite <- (load_run_snd _ _ verbose), EL; reflexivity).
    destruct (C142_starts_pf v fs t prog words on args U N) as (ls & st' & fs' & E & R).
    destruct (runs_fail v fs on args t ls st' fs' pre css f post e RO N R S SC PN LE) as [EA' ->]. rewrite (ends_fun _ _ _ EA EA').
    destruct (runs_unread v fs on args t ls st' fs pre css outs f post verbose log msg e RO N R S SC A PN V LE EL) as (said & SB & ->). exists said. auto. }
  split; [|split].
  - intros m ST. destruct (stops_runs ArgusCls DEFAULT_WIDTH DEFAULT_FIELDS fs default_usable verbose f log m ST) as (n & H).
    exists (Nat.max k n). intros v L. apply (K v [ErrL m] SystemExit); [lia| |constructor].
    rewrite load_run_read by exact NF. destruct (H (e_fuel v)) as [E|[L' _]]; [exact E|lia].
  - intros UN. destruct (unnamed_runs fs verbose f log UN) as (n & H). cbv beta zeta in H.
    exists (Nat.max k n). intros v L. destruct (K v [] IndexError (Died IndexError)) as (said & SB & E); [lia| |constructor; discriminate|].
    + rewrite load_run_read, app_nil_r by exact NF. destruct (H (e_fuel v)) as [E|[L' _]]; [exact E|lia].
    + exists said. rewrite app_nil_r in E. auto.
  - exists k. intros v L NA. destruct (K v [] RecursionError (Died RecursionError)) as (said & SB & E); [lia| |constructor; discriminate|].
    + rewrite app_nil_r. apply nested_gives; assumption.
    + exists said. rewrite app_nil_r in E. auto.
Qed.
(*@ Example C162_stops_ex : let fs := fun f => if eqb f (lit "a") then Some (lit "                   FOO" ++ [10]) else if eqb f (lit "b") then Some (lit "#x" ++ [10] ++ lit "$ ") else
                     if eqb f (lit "c") then Some (lit "$c") else if eqb f (lit "d") then Some (lit "$ e") else None in
  unnamed_at fs (lit "b") [OutL (lit "Reading b..."); OutL (lit "Skipping meta-comment, file b, line 1")] /\
  stops_at fs (lit "d") [OutL (lit "Reading d...")] (lit "File ""e"" does not exist") /\
  nested_at fs 2 (lit "c") [OutL (lit "Reading c..."); OutL (lit "Reading c...")] /\
  source fs (lit "a") [(lit "a", 1, lit "                   FOO" ++ [10])] /\
  fst (command sample_env fs ListInstructions (lit "x.py") [lit "TX"; lit "a"; lit "d"]) = ([ErrL (lit "File ""e"" does not exist")], Exit 1) /\
  fst (command sample_env fs CheckSymbols (lit "x.py") [lit "a"; lit "b"]) = ([ErrL (lit "a: 0 errors encountered building symbol table.")], Died IndexError).
Proof.
  cbv zeta. split; [|split; [|split; [|split; [|split; vm_compute; reflexivity]]]].
  - change (lit "Reading b...") with (lit "Reading " ++ lit "b" ++ lit "..."). change (lit "Skipping meta-comment, file b, line 1") with (lit "Skipping meta-comment, file " ++ lit "b" ++ lit ", line " ++ str_of_Z 1). eapply (un_here _ _ _ [lit "#x" ++ [10]] (lit " ") [] [_]); [vm_compute; reflexivity|apply C144_lines_pf; vm_compute; reflexivity| |].
    + apply ll_comment; [exists (lit "x" ++ [10]); reflexivity|constructor].
    + intros w W. apply first_word_ok in W. destruct W as (rest & W). discriminate W.
  - change (lit "Reading d...") with (lit "Reading " ++ lit "d" ++ lit "..."). change (lit "File ""e"" does not exist") with (lit "File """ ++ lit "e" ++ lit """ does not exist"). eapply (sa_include _ _ _ [] _ [] (lit "e") []); [vm_compute; reflexivity|vm_compute; reflexivity|constructor| |vm_compute; reflexivity].
    exists (lit " e"). split; [reflexivity|]. apply first_word_ok. exists []. vm_compute. reflexivity.
  - exists (lit "$c"), [], (lit "c"), [], (lit "c"), [], [OutL (lit "Reading c...")].
    assert (W : first_word (lit "c") (lit "c")) by (apply first_word_ok; exists []; vm_compute; reflexivity).
    assert (T : text_lines (lit "$c") [lit "$c"]) by (apply C144_lines_pf; vm_compute; reflexivity).
    split; [reflexivity|]. split; [exact T|]. split; [constructor|]. split; [intros q g l []|]. split; [exact W|]. split; [vm_compute; discriminate|]. split; [|reflexivity].
    exists (lit "$c"), [], (lit "c"), [], (lit "c"), [], []. split; [reflexivity|]. split; [exact T|]. split; [constructor|]. split; [intros q g l []|]. split; [exact W|].
    split; [vm_compute; discriminate|]. split; reflexivity.
  - eapply so_file; [vm_compute; reflexivity|apply C144_lines_pf; vm_compute; reflexivity|]. apply sl_line; [|constructor].
    intros c r [= <- _]. split; discriminate.
Qed. @*)
(** never two of these *)
Lemma source_once fs : (forall f out, source fs f out -> forall out', source fs f out' -> out = out') /\
  (forall f i ls out, source_lines fs f i ls out -> forall out', source_lines fs f i ls out' -> out = out').
Proof.
  apply source_both.
  - intros f content ls out E T _ IH out' H. inversion H as [? c' ls' ? E' T' H']; subst. assert (c' = content) by congruence. subst c'.
    apply C144_lines_pf in T. apply C144_lines_pf in T'. apply IH. replace ls with ls' by congruence. exact H'.
  - intros f i out' H. inversion H. reflexivity.
  - intros f i r rest out _ IH out' H. inversion H as [|? ? ? ? ? H1| |? ? ? ? ? N H1]; subst; [apply IH; assumption|].
    destruct (N _ _ eq_refl) as [X _]. contradiction.
  - intros f i r inc rest out1 out2 W _ IH1 _ IH2 out' H. inversion H as [| |? ? ? inc' ? o1 o2 W' S1 S2|? ? ? ? ? N H1]; subst.
    + assert (inc' = inc) by (apply first_word_ok in W; apply first_word_ok in W'; destruct W as (? & W), W' as (? & W'); congruence). subst inc'.
      rewrite (IH1 _ S1), (IH2 _ S2). reflexivity.
    + destruct (N _ _ eq_refl) as [_ X]. contradiction.
  - intros f i line rest out N _ IH out' H. inversion H as [|? ? r ? ? H1|? ? r inc ? o1 o2 W S1 S2|? ? ? ? ? N' H1]; subst.
    + destruct (N _ _ eq_refl) as [X _]. contradiction.
    + destruct (N _ _ eq_refl) as [_ X]. contradiction.
    + f_equal. apply IH. exact H1.
Qed.
Definition ended (o : outcome) (r : res (list card)) : Prop :=
  match o with Reads _ => exists cs, r = Ok cs | Missing _ => r = Err SystemExit | Unnamed => r = Err IndexError end.
Lemma outcome_runs fs f log o : read_outcome fs f log o -> exists n, forall fuel, (n <= fuel)%nat -> exists r, ended o r /\
  read_run fuel ArgusCls DEFAULT_WIDTH DEFAULT_FIELDS fs true f = (log ++ match o with Missing m => [ErrL m] | _ => [] end, r).
Proof.
  intros [out l S RL|l m ST|l UN].
  - destruct (proj1 (log_runs ArgusCls DEFAULT_WIDTH DEFAULT_FIELDS fs default_usable true) _ _ RL) as (n & cs & H).
    exists n. intros fuel L. exists (Ok cs). split; [exists cs; reflexivity|]. rewrite app_nil_r. destruct (H fuel) as [E|[L' _]]; [exact E|lia].
  - destruct (stops_runs ArgusCls DEFAULT_WIDTH DEFAULT_FIELDS fs default_usable true f l m ST) as (n & H). exists n. intros fuel L.
    exists (Err SystemExit). split; [reflexivity|]. destruct (H fuel) as [E|[L' _]]; [exact E|lia].
  - destruct (unnamed_runs fs true f l UN) as (n & H). exists n. intros fuel L. exists (Err IndexError). split; [reflexivity|].
    rewrite app_nil_r. destruct (H fuel) as [E|[L' _]]; [exact E|lia].
Qed.
Lemma C162_one_pf : forall fs f,
  (forall log o log' o', read_outcome fs f log o -> read_outcome fs f log' o' -> log = log' /\ o = o') /\
  (forall log o, read_outcome fs f log o -> exists n, forall depth log', (n <= depth)%nat -> ~ nested_at fs depth f log') /\
  (forall depth, (exists log o, read_outcome fs f log o) \/ exists log, nested_at fs depth f log) /\
  (forall depth log log', nested_at fs depth f log -> nested_at fs depth f log' -> log = log').
Proof.
  intros fs f. split; [|split; [|split]].
  - intros log o log' o' A B. destruct (outcome_runs _ _ _ _ A) as (n & H). destruct (outcome_runs _ _ _ _ B) as (n' & H').
    destruct (H (Nat.max n n') ltac:(lia)) as (r & E & R). destruct (H' (Nat.max n n') ltac:(lia)) as (r' & E' & R'). rewrite R in R'.
    assert (r' = r) by congruence. subst r'. apply (f_equal fst) in R'. cbn [fst] in R'.
    destruct o as [out|m|], o' as [out'|m'|]; cbn [ended] in E, E'; try (destruct E; congruence); try (destruct E'; congruence); try congruence.
    + rewrite !app_nil_r in R'. split; [exact R'|]. f_equal. inversion A; subst. inversion B; subst. eapply (proj1 (source_once fs)); eassumption.
    + apply app_inj_tail in R'. destruct R' as [-> R']. injection R' as ->. auto.
    + rewrite !app_nil_r in R'. auto.
  - intros log o A. destruct (outcome_runs _ _ _ _ A) as (n & H). exists n. intros depth log' L NA. destruct (H depth L) as (r & E & R).
    apply (nested_runs fs true) in NA. cbv beta zeta in NA. rewrite R in NA. cbn [snd] in NA. subst r. destruct o; cbn in E; [destruct E|..]; discriminate.
  - intros depth. pose proof (read_fails fs depth true f) as F. cbv beta zeta in F.
    pose proof (read_logged ArgusCls DEFAULT_WIDTH DEFAULT_FIELDS fs default_usable depth true f) as L. cbv beta zeta in L.
    pose proof (read_run_snd depth ArgusCls DEFAULT_WIDTH DEFAULT_FIELDS fs true f) as RS.
    destruct (read_run depth ArgusCls DEFAULT_WIDTH DEFAULT_FIELDS fs true f) as [out [cs|e]].
    + left. destruct L as (ls & RL & _). cbn [snd] in RS. symmetry in RS. destruct (read_sound _ _ _ _ _ _ _ RS) as (o & X & _).
      exists ls, (Reads o). constructor; [apply expand_source; exact X|exact RL].
    + destruct e; try contradiction.
      * left. destruct F as (ls & U & _). exists ls, Unnamed. constructor. exact U.
      * left. destruct L as (ls & m & ST & _). exists ls, (Missing m). constructor. exact ST.
      * right. destruct F as (ls & U & _). exists ls. exact U.
  - intros depth log log'. apply nested_unique.
Qed.
(*@ Example C162_one_ex : let fs := fun f => if eqb f (lit "b") then Some (lit "$ ") else None in
  read_outcome fs (lit "b") [OutL (lit "Reading b...")] Unnamed /\ read_outcome fs (lit "c") [] (Missing (lit "ERROR: File ""c"" does not exist!")) /\
  forall log o, read_outcome fs (lit "b") log o -> o = Unnamed.
Proof.
  cbv zeta. match goal with |- read_outcome ?g _ _ _ /\ _ => set (fs := g) end.
  assert (B : read_outcome fs (lit "b") [OutL (lit "Reading b...")] Unnamed).
  { apply ro_unnamed. change (lit "Reading b...") with (lit "Reading " ++ lit "b" ++ lit "..."). eapply (un_here _ _ _ [] (lit " ") [] []); [reflexivity|apply C144_lines_pf; vm_compute; reflexivity|constructor|].
    intros w W. apply first_word_ok in W. destruct W as (rest & W). discriminate W. }
  split; [exact B|]. split; [apply ro_missing; apply (sa_here fs (lit "c")); reflexivity|].
  intros log o H. exact (proj2 (proj1 (C162_one fs (lit "b")) _ _ _ _ H B)).
Qed. @*)
Lemma gives_runs fs depth f log msg st : gives_up fs depth f log msg st -> exists e, ends_as (Err e : res unit) st /\
  load_run depth fs true f = (log ++ msg, Err e).
Proof.
  intros [EF|l m N NN ST|l N NN UN|l N NA].
  - subst f. exists TypeError. split; [constructor; discriminate|]. reflexivity.
  - exists SystemExit. split; [constructor|]. rewrite load_run_read by exact N.
    destruct (stops_runs ArgusCls DEFAULT_WIDTH DEFAULT_FIELDS fs default_usable true f l m ST) as (n & H). destruct (H depth) as [E|[_ E]]; [exact E|].
    exfalso. pose proof (read_fails fs depth true f) as F. cbv beta zeta in F.
    destruct (read_run depth ArgusCls DEFAULT_WIDTH DEFAULT_FIELDS fs true f) as [out r]. cbn [snd] in E. subst r. destruct F as (l' & NA & _). exact (NN _ NA).
  - exists IndexError. split; [constructor; discriminate|]. rewrite load_run_read, app_nil_r by exact N.
    destruct (unnamed_runs fs true f l UN) as (n & H). destruct (H depth) as [E|[_ E]]; [exact E|].
    exfalso. pose proof (read_fails fs depth true f) as F. cbv beta zeta in F, E.
    destruct (read_run depth ArgusCls DEFAULT_WIDTH DEFAULT_FIELDS fs true f) as [out r]. cbn [snd] in E. subst r. destruct F as (l' & NA & _). exact (NN _ NA).
  - exists RecursionError. split; [constructor; discriminate|]. rewrite app_nil_r. exact (nested_gives fs depth true f l N NA).
Qed.
Lemma C162_exclusive_pf : forall fs depth f,
  (forall log msg st log' msg' st', gives_up fs depth f log msg st -> gives_up fs depth f log' msg' st' -> log = log' /\ msg = msg' /\ st = st') /\
  (forall log msg st cs, gives_up fs depth f log msg st -> ~ source_cards depth fs f cs) /\
  ((exists cs, source_cards depth fs f cs) \/ exists log msg st, gives_up fs depth f log msg st).
Proof.
  intros fs depth f. split; [|split].
  - intros log msg st log' msg' st' A B. destruct (gives_runs _ _ _ _ _ _ A) as (e & EA & RA). destruct (gives_runs _ _ _ _ _ _ B) as (e' & EB & RB).
    rewrite RA in RB. assert (EE : e' = e) by congruence. assert (EL : log ++ msg = log' ++ msg') by congruence. clear RA RB. subst e'. pose proof (ends_fun _ _ _ EA EB) as ->. clear EA EB.
    inversion A; subst; inversion B; subst; try contradiction; auto; rewrite ?app_nil_r in EL; try (subst; auto; fail).
    apply app_inj_tail in EL. destruct EL as [-> EL]. injection EL as ->. auto.
  - intros log msg st cs A SC. destruct (gives_runs _ _ _ _ _ _ A) as (e & _ & RA). pose proof (load_run_snd depth fs true f) as B.
    rewrite RA, (load_ok _ _ _ _ SC) in B. discriminate B.
  - destruct (load depth fs f) as [cs|e] eqn:L; [left; exists cs; apply load_inv; exact L|right]. destruct (give_up depth fs true f e L) as (log & msg & st & G & _). eauto.
Qed.
(*@ Example C162_exclusive_ex : let fs := fun f => if eqb f (lit "d") then Some (lit "$ d") else None in
  gives_up fs 2 (lit "d") (repeat (OutL (lit "Reading d...")) 2) [] (Died RecursionError) /\
  gives_up fs 2 (lit "c") [] [ErrL (lit "ERROR: File ""c"" does not exist!")] (Exit 1) /\
  forall log msg st, gives_up fs 2 (lit "c") log msg st -> st = Exit 1.
Proof.
  cbv zeta. match goal with |- gives_up ?g _ _ _ _ _ /\ _ => set (fs := g) end.
  assert (C : gives_up fs 2 (lit "c") [] [ErrL (lit "ERROR: File ""c"" does not exist!")] (Exit 1)).
  { apply gu_missing; [discriminate| |apply (sa_here fs (lit "c")); reflexivity]. intros l (content & pre & r & post & inc & l1 & l2 & E & _). discriminate E. }
  split; [|split; [exact C|intros log msg st G; exact (proj2 (proj2 (proj1 (C162_exclusive fs 2 (lit "c")) _ _ _ _ _ _ G C)))]].
  apply gu_deep; [discriminate|]. pose proof (read_fails fs 2 true (lit "d")) as F. vm_compute in F. destruct F as (l & NA & E). subst l. exact NA.
Qed. @*)
(** *** listings *)
Lemma listing_give fuel verbose files : forall fs ls e fs', listing_files fuel fs verbose files = ((ls, Err e), fs') ->
  exists pre f post l1 log msg st, files = pre ++ f :: post /\ listed_all verbose fs pre l1 fs' /\ gives_up fs' fuel f log msg st /\
    ends_as (Err e : res unit) st /\ ls = l1 ++ (if verbose then log else []) ++ msg.
Proof.
  induction files as [|f files IH]; intros fs ls e fs' H; cbn [listing_files] in H; [discriminate H|]. destruct (load fuel fs f) as [cs|e'] eqn:EL.
  - apply load_inv in EL. destruct (list_one fuel fs verbose f cs EL) as (log & ys & L & F & E). rewrite E in H.
    destruct (listing_files fuel (fs_write fs (listfile f) (concat ys)) verbose files) as [[l2 x] fs2] eqn:E2.
    assert (x = Err e) by congruence. assert (fs2 = fs') by congruence. subst x fs2. destruct (cards_source _ _ _ _ EL) as (out & S & A).
    destruct (IH _ _ _ _ E2) as (pre & g & post & l1 & log' & msg & st & EP & LA & GU & EA & EQ). destruct (written fs (listfile f) (concat ys)) as [W1 W2].
    exists (f :: pre), g, post. eexists. exists log', msg, st. split; [rewrite EP; reflexivity|].
    split; [eapply la_file; [exact (source_ne _ _ _ _ EL)|exact S|exact L|apply listfile_ok; reflexivity| |exact W2|exact LA]|].
    { rewrite W1, (agrees_listed _ _ _ A F). reflexivity. }
    split; [exact GU|]. split; [exact EA|]. rewrite <- app_assoc, <- EQ. congruence.
  - destruct (give_up fuel fs verbose f e' EL) as (log & msg & st & GU & EA & R). unfold listing_one in H. rewrite R, bind_err in H.
    assert (e' = e) by congruence. assert (fs' = fs) by congruence. subst e' fs'.
    exists [], f, files, [], log, msg, st. split; [reflexivity|]. split; [constructor|]. split; [exact GU|]. split; [exact EA|]. cbn [app]. unfold vis in H. congruence.
Qed.
Lemma listings_text fuel verbose fs files ls fs' : listings fuel verbose fs files ls fs' -> listed_all verbose fs files ls fs'.
Proof.
  induction 1 as [fs|fs f name files log cs ys ls fs1 fs' L SC HN F W1 W2 H IH]; [constructor|].
  destruct (cards_source _ _ _ _ SC) as (out & S & A). eapply la_file; [exact (source_ne _ _ _ _ SC)|exact S|exact L|exact HN| |exact W2|exact IH].
  rewrite W1, (agrees_listed _ _ _ A F). reflexivity.
Qed.
Lemma text_listings verbose fs files ls fs' : listed_all verbose fs files ls fs' -> exists k, forall fuel, (k <= fuel)%nat -> listings fuel verbose fs files ls fs'.
Proof.
  induction 1 as [fs|fs f name out log fs1 files ls fs' NF S L HN W1 W2 H (k & IH)]; [exists 0%nat; intros; constructor|].
  destruct (source_read fs f out NF S) as (k' & cs & A & SC). exists (Nat.max k k'). intros fuel LE. specialize (SC fuel ltac:(lia)).
  destruct (list_one fuel fs verbose f cs SC) as (log0 & ys & _ & F & _). eapply lg_file; [exact L|exact SC|exact HN|exact F| |exact W2|apply IH; lia].
  rewrite W1, (agrees_listed _ _ _ A F). reflexivity.
Qed.
Lemma C162_listing_pf : forall v fs prog words on files verbose, understood (options Listing) words on files -> files <> [] -> turned_on on "verbose" verbose ->
  exists ls st fs', command v fs Listing prog words = (ls, st, fs') /\
    ((st = Exit 0 /\ listed_all verbose fs files ls fs') \/
     (exists pre f post said log msg, files = pre ++ f :: post /\ listed_all verbose fs pre said fs' /\ gives_up fs' (e_fuel v) f log msg st /\
       ls = said ++ (if verbose then log else []) ++ msg)).
Proof.
  intros v fs prog words on files verbose U NE V.
  destruct (C142_starts_pf v fs Listing prog words on files U (files_no_misuse fs Listing on files ltac:(cbn; auto 6) NE)) as (ls & st & fs' & E & R).
  inversion R as [| | | | |verbose' ls0 r st0 fs0 V1 EC EA| | | | |]; subst ls0 st0 fs0. rewrite <- (on_unique _ _ _ _ V V1) in EC.
  exists ls, st, fs'. split; [exact E|]. destruct r as [[]|e].
  - left. inversion EA; subst. split; [reflexivity|]. exact (listings_text _ _ _ _ _ _ (proj2 (C139_transcript_pf _ _ _ _ _ _ EC))).
  - right. unfold listing_run in EC. destruct files as [|f0 files0]; [contradiction|].
    destruct (listing_give _ _ _ _ _ _ _ EC) as (pre & f & post & l1 & log & msg & st' & EP & LA & GU & EA' & ->).
    rewrite (ends_fun _ _ _ EA' EA) in GU. exists pre, f, post, l1, log, msg. auto.
Qed.
(*@ Example C162_listing_ex : let fs := fun f => if eqb f (lit "a") then Some (lit "                   FOO" ++ [10]) else if eqb f (lit "b") then Some (lit "#x" ++ [10] ++ lit "$ ") else
                     if eqb f (lit "c") then Some (lit "$c") else if eqb f (lit "d") then Some (lit "$ e") else None in
  let run := fun files => command sample_env fs Listing (lit "x.py") (lit "-v" :: files) in
  fst (run [lit "a"; lit ".lst"; lit "c"]) =
    ([OutL (lit "Reading a..."); OutL (lit "Wrote listing file to .lst"); OutL (lit "Reading .lst..."); OutL (lit "Wrote listing file to .lst")] ++
     repeat (OutL (lit "Reading c...")) (e_fuel sample_env), Died RecursionError) /\
  snd (run [lit "a"; lit "b"]) (lit ".lst") = Some (listed (lit "a", 1, lit "                   FOO" ++ [10])) /\
  snd (fst (run [lit "a"; lit "b"])) = Died IndexError.
Proof. vm_compute. repeat split. Qed. @*)
Lemma C162_lists_pf : forall fs prog words on files verbose ls fs', understood (options Listing) words on files -> files <> [] -> turned_on on "verbose" verbose ->
  listed_all verbose fs files ls fs' ->
  exists k, forall v, (k <= e_fuel v)%nat -> exists fs2, command v fs Listing prog words = (ls, Exit 0, fs2) /\ forall g, fs2 g = fs' g.
Proof.
  intros fs prog words on files verbose ls fs' U NE V LA. destruct (text_listings _ _ _ _ _ LA) as (k & H). exists k. intros v L. specialize (H _ L).
  destruct (C139_runs_pf _ _ _ _ _ _ H NE) as (fs2 & E2 & S2).
  destruct (C142_starts_pf v fs Listing prog words on files U (files_no_misuse fs Listing on files ltac:(cbn; auto 6) NE)) as (ls1 & st & fs1 & E & R).
  inversion R as [| | | | |verbose' ls0 r st0 fs0 V1 EC EA| | | | |]; subst ls0 st0 fs0. rewrite <- (on_unique _ _ _ _ V V1), E2 in EC.
  assert (ls1 = ls) by congruence. assert (fs1 = fs2) by congruence. assert (r = Ok tt) by congruence. subst. inversion EA; subst. exists fs2. auto.
Qed.
(*@ Example C162_lists_ex : let fs := fun f => if eqb f (lit "p.arg") then Some (lit "R1") else None in
  let fs1 := fun f => if eqb f (lit "p.lst") then Some (listed (lit "p.arg", 1, lit "R1")) else fs f in
  listed_all true fs [lit "p.arg"] [OutL (lit "Reading p.arg..."); OutL (lit "Wrote listing file to p.lst")] fs1 /\
  fst (command sample_env fs Listing (lit "x.py") [lit "-v"; lit "p.arg"]) = ([OutL (lit "Reading p.arg..."); OutL (lit "Wrote listing file to p.lst")], Exit 0).
Proof.
  cbv zeta. split; [|vm_compute; reflexivity].
  change [OutL (lit "Reading p.arg..."); OutL (lit "Wrote listing file to p.lst")] with
    (([OutL (lit "Reading " ++ lit "p.arg" ++ lit "...")] ++ [OutL (lit "Wrote listing file to " ++ lit "p.lst")]) ++ []).
  match goal with |- listed_all _ ?g _ _ ?h => eapply (la_file true g (lit "p.arg") (lit "p.lst") [(lit "p.arg", 1, lit "R1")] [_] h [] [] h) end; [discriminate| | | |vm_compute; reflexivity| |constructor].
  - eapply so_file; [vm_compute; reflexivity|apply C144_lines_pf; vm_compute; reflexivity|]. apply sl_line; [|constructor]. intros c r [= <- _]. split; discriminate.
  - eapply rl_file; [vm_compute; reflexivity|]. apply ll_card; [intros (r & E); discriminate E|intros (r & E); discriminate E|constructor].
  - left. exists (lit "p"), (lit "arg"). repeat split; cbn; intuition discriminate.
  - intros g N. rewrite eqb_neq by exact N. reflexivity.
Qed. @*)
