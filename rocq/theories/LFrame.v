(** Which files a tool looks at and which it writes: C197. *)
From Coq Require Import ZArith List Bool Lia.
From Verif Require Import Py LPy MInstruction MCards SCards LCards LDeck MSymbols MInstructions MTools STools LGen LTools LListTool MDiag MDump MVerbose LVerbose MOptions SOptions LOptions MProcess SProcess LProcess SEnds LEnds LUnfollow SFrame.
#[local] Arguments Z.add : simpl never.
#[local] Arguments Z.sub : simpl never.
#[local] Arguments Z.mul : simpl never.
#[local] Arguments Z.pow : simpl never.

(** *** a set of files that holds what its files include *)
Definition shut (fs : fsys) (P : str -> Prop) : Prop :=
  forall f content r g, P f -> fs f = Some content -> In (36 :: r) (readlines content) -> first_word r g -> P g.
Lemma leads_trans fs f g : leads_to fs f g -> forall content ls r h, fs g = Some content -> text_lines content ls -> In (36 :: r) ls -> first_word r h -> leads_to fs f h.
Proof.
  induction 1 as [f|f c ls r g h F T I W L IH]; intros content ls' r' h' F' T' I' W'.
  - exact (lt_include _ _ _ _ _ _ _ F' T' I' W' (lt_self _ _)).
  - exact (lt_include _ _ _ _ _ _ _ F T I W (IH _ _ _ _ F' T' I' W')).
Qed.
Lemma leads_shut fs named : shut fs (fun f => exists g, In g named /\ leads_to fs g f).
Proof.
  intros f content r h (g & I & L) F J W. exists g. split; [exact I|].
  eapply leads_trans; [exact L|exact F|apply C144_lines_pf; reflexivity|exact J|exact W].
Qed.

Lemma leads_inv fs g f : leads_to fs g f <-> g = f \/ exists content r inc, fs g = Some content /\ In (36 :: r) (readlines content) /\ first_word r inc /\ leads_to fs inc f.
Proof.
  split.
  - intros [?|? content ls r inc h F T I W L]; [left; reflexivity|right]. exists content, r, inc. rewrite (proj2 (C144_lines_pf content ls) T). auto.
  - intros [->|(content & r & inc & F & I & W & L)]; [constructor|]. eapply lt_include; [exact F|apply C144_lines_pf; reflexivity|exact I|exact W|exact L].
Qed.

Section Same.
Variables (fs fs' : fsys) (P : str -> Prop).
Hypothesis SH : shut fs P.
Hypothesis AG : forall f, P f -> fs f = fs' f.
Lemma src_frame rec rec' k width fields v f lines : (forall g, P g -> rec' g = rec g) ->
  (forall r g, In (36 :: r) lines -> first_word r g -> P g) ->
  forall i, src_run rec' k width fields fs' v f i lines = src_run rec k width fields fs v f i lines.
Proof.
  intros A. induction lines as [|l r IH]; intros B i; [reflexivity|]. cbn [src_run].
  rewrite IH by (intros r0 g I; apply (B r0); right; exact I).
  destruct (line_kinds l) as [q -> C|q -> C D|_ C D]; rewrite C; [reflexivity| |rewrite D; reflexivity].
  rewrite D, dollar_words. destruct (split_ws q) as [|w t] eqn:E; [reflexivity|]. cbn [io_bind].
  assert (PW : P w) by (apply (B q); [left; reflexivity|exact (the_word _ _ _ E)]).
  rewrite A, (AG w PW) by exact PW. reflexivity.
Qed.
Lemma run_frame k width fields v fuel : forall f, P f -> read_run fuel k width fields fs' v f = read_run fuel k width fields fs v f.
Proof.
  induction fuel as [|fuel IH]; intros f PF; [reflexivity|]. rewrite !read_run_S, <- (AG f PF).
  destruct (fs f) as [content|] eqn:F; [|reflexivity]. rewrite (src_frame (read_run fuel k width fields fs v)); [reflexivity|exact IH|].
  intros r g I W. exact (SH _ _ _ _ PF F I W).
Qed.
Lemma deck_frame f fuel width fields k : P f ->
  argus_deck_new fuel fs' None (Some f) width fields k = argus_deck_new fuel fs None (Some f) width fields k.
Proof.
  intros PF. unfold argus_deck_new, deck_new. destruct f as [|x r]; [reflexivity|].
  rewrite <- !(read_run_snd fuel k width fields _ false), run_frame by exact PF. reflexivity.
Qed.
Lemma load_frame v fuel f : P f -> load_run fuel fs' v f = load_run fuel fs v f.
Proof.
  intros PF. unfold load_run, deck_run. rewrite deck_frame by exact PF. destruct f as [|x r]; [reflexivity|].
  rewrite run_frame by exact PF. reflexivity.
Qed.
Lemma fold_frame {S} (f g : S -> str -> io S) : forall l s, (forall x, In x l -> P x) -> (forall s x, P x -> f s x = g s x) -> io_fold f l s = io_fold g l s.
Proof.
  induction l as [|x l IH]; intros s A H; [reflexivity|]. cbn [io_fold]. rewrite H by (apply A; left; reflexivity). unfold io_bind.
  destruct (g s x) as [ls [s'|e]]; [|reflexivity]. rewrite IH; [reflexivity|intros y J; apply A; right; exact J|exact H].
Qed.
Lemma tables_frame upper rep card_rep fuel v counts args : (forall f, In f args -> P f) ->
  build_files_run upper rep card_rep fuel fs' v counts args = build_files_run upper rep card_rep fuel fs v counts args.
Proof.
  intros A. unfold build_files_run. apply fold_frame; [exact A|]. intros s f PF. unfold build_verbose, dump_table_run. cbv zeta.
  rewrite deck_frame, load_frame by exact PF. reflexivity.
Qed.
End Same.

(** *** what is written *)
Definition same_effect (fs fs' : fsys) (t : tool) (args : list str) (r r' : fsys) : Prop :=
  forall g, (r g = fs g /\ r' g = fs' g) \/ (r g = r' g /\ r g <> None /\ may_write t args g).
Lemma write_frame fs fs' (P : str -> Prop) name c : ~ P name -> shut fs P -> (forall f, P f -> fs f = fs' f) ->
  shut (fs_write fs name c) P /\ (forall f, P f -> fs_write fs name c f = fs_write fs' name c f).
Proof.
  intros N SH AG. split.
  - intros f content r g PF F. unfold fs_write in F. destruct (eqb f name) eqn:E; [apply eqb_ok in E; congruence|]. exact (SH f content r g PF F).
  - intros f PF. unfold fs_write. destruct (eqb f name); [reflexivity|exact (AG f PF)].
Qed.
Lemma listing_frame fuel v (P : str -> Prop) args : (forall f, In f args -> P f) -> (forall f, In f args -> ~ P (listfile f)) ->
  forall fs fs', shut fs P -> (forall f, P f -> fs f = fs' f) ->
  fst (listing_files fuel fs' v args) = fst (listing_files fuel fs v args) /\
  forall g, (snd (listing_files fuel fs v args) g = fs g /\ snd (listing_files fuel fs' v args) g = fs' g) \/
    (snd (listing_files fuel fs v args) g = snd (listing_files fuel fs' v args) g /\ snd (listing_files fuel fs v args) g <> None /\ exists f, In f args /\ list_name f g).
Proof.
  induction args as [|f args IH]; intros PA NP fs fs' SH AG; [split; [reflexivity|intros g; left; auto]|]. cbn [listing_files]. unfold listing_one.
  assert (PF : P f) by (apply PA; left; reflexivity). assert (NF := NP f (or_introl eq_refl)).
  rewrite (load_frame fs fs' P SH AG v fuel f PF). destruct (load_run fuel fs v f) as [ls [cs|e]]; [|split; [reflexivity|left; auto]]. cbn [io_bind].
  destruct (mapr listing_line cs) as [ys|e]; [|split; [reflexivity|left; auto]].
  set (c := concat (map (fun l => l ++ [10]) ys)).
  destruct (write_frame fs fs' P (listfile f) c NF SH AG) as [SH' AG'].
  destruct (IH (fun x I => PA x (or_intror I)) (fun x I => NP x (or_intror I)) _ _ SH' AG') as [E B].
  destruct (listing_files fuel (fs_write fs _ _) v args) as [[l1 x1] f1], (listing_files fuel (fs_write fs' _ _) v args) as [[l2 x2] f2].
  cbn [fst snd] in *. split; [congruence|]. intros g. destruct (B g) as [[X Y]|(X & N & h & I & L)].
  - unfold fs_write in X, Y. destruct (eqb g (listfile f)) eqn:G; [|left; auto]. right. apply eqb_ok in G. split; [congruence|]. split; [congruence|].
    exists f. split; [left; reflexivity|]. apply listfile_ok. congruence.
  - right. split; [exact X|]. split; [exact N|]. exists h. split; [right; exact I|exact L].
Qed.
Lemma body_frame v fs fs' t prog has args : (forall f, looks_at fs t args f -> fs f = fs' f) -> listings_apart fs t args ->
  fst (body_of v fs t prog has args) = fst (body_of v fs' t prog has args) /\
  same_effect fs fs' t args (snd (body_of v fs t prog has args)) (snd (body_of v fs' t prog has args)).
Proof.
  intros AG AP.
  assert (Q : forall A (r r' : io A), r' = r -> fst (finish r fs) = fst (finish r' fs') /\ same_effect fs fs' t args (snd (finish r fs)) (snd (finish r' fs')))
    by (intros A r r' ->; split; [reflexivity|intros g; left; split; reflexivity]).
  pose (P := fun f => exists g, In g (sources t args) /\ leads_to fs g f).
  assert (SH : shut fs P) by apply leads_shut.
  assert (PA : forall f, In f (sources t args) -> P f) by (intros f I; exists f; split; [exact I|constructor]).
  destruct t; cbn [looks_at] in AG; cbn [body_of].
  - apply Q. unfold check_instructions_run. destruct args as [|a args]; [reflexivity|].
    erewrite (fold_frame P); [reflexivity|exact PA|]. intros s f PF. cbv beta. rewrite (load_frame fs fs' P SH AG _ _ _ PF). reflexivity.
  - apply Q. unfold check_symbols_verbose. destruct args as [|a args]; [reflexivity|]. rewrite (tables_frame fs fs' P SH AG) by exact PA. reflexivity.
  - apply Q. unfold find_symbols_verbose. destruct (_ || _); [reflexivity|]. destruct args as [|s [|f r]]; [reflexivity|reflexivity|].
    rewrite (tables_frame fs fs' P SH AG) by exact PA. reflexivity.
  - apply Q. unfold list_instructions_run. destruct args as [|a args]; [reflexivity|]. cbv zeta. destruct (negb _); [reflexivity|].
    erewrite (fold_frame P); [reflexivity|exact PA|]. intros s f PF. cbv beta. rewrite (load_frame fs fs' P SH AG _ _ _ PF). reflexivity.
  - apply Q. unfold list_symbols_run. destruct args as [|a args]; [reflexivity|]. rewrite (tables_frame fs fs' P SH AG) by exact PA. reflexivity.
  - unfold listing_run. destruct args as [|a args]; [split; [reflexivity|intros g; left; auto]|]. cbv zeta.
    assert (NP : forall f, In f (a :: args) -> ~ P (listfile f)) by (intros f I; exact (AP eq_refl f _ I (proj2 (listfile_ok f _) eq_refl))).
    destruct (listing_frame (e_fuel v) (has "verbose"%string) P (a :: args) PA NP fs fs' SH AG) as [E B].
    unfold finish. cbn [fst snd]. split; [rewrite E; reflexivity|]. intros g. destruct (B g) as [X|(X & N & Y)]; [left; exact X|right].
    split; [exact X|]. split; [exact N|]. left. split; [reflexivity|exact Y].
  - apply Q. unfold parse_run. destruct args as [|a args]; [reflexivity|]. rewrite (tables_frame fs fs' P SH AG) by exact PA.
    unfold io_bind at 1 3. destruct (build_files_run _ _ _ _ _ _ _ _) as [ls [x|e]]; [|reflexivity].
    erewrite (fold_frame P); [reflexivity|exact PA|]. intros s f PF. cbv beta. rewrite (load_frame fs fs' P SH AG _ _ _ PF). reflexivity.
  - destruct (genlines args) as [out|e]; [|destruct e]; (split; [reflexivity|intros g; left; split; reflexivity]).
  - destruct args as [|f rest]; [split; [reflexivity|intros g; left; split; reflexivity]|].
    rewrite <- (AG f) by (exists rest; reflexivity). destruct (fs f) as [c|] eqn:F; [|split; [reflexivity|intros g; left; split; reflexivity]].
    destruct (genpages (e_fuel v) c) as [more|e]; [|destruct e; (split; [reflexivity|intros g; left; split; reflexivity])].
    split; [reflexivity|]. intros g. cbn [snd]. unfold fs_write. destruct (eqb g f) eqn:G; [|left; split; reflexivity].
    right. apply eqb_ok in G. split; [reflexivity|]. split; [discriminate|]. right. split; [reflexivity|]. exists rest. congruence.
Qed.

Lemma C197_looks_pf : forall v fs fs' t prog words,
  (forall on args f, understood (options t) words on args -> looks_at fs t args f -> fs f = fs' f) ->
  (forall on args, understood (options t) words on args -> listings_apart fs t args) ->
  fst (command v fs t prog words) = fst (command v fs' t prog words) /\
  forall g, (snd (command v fs t prog words) g = fs g /\ snd (command v fs' t prog words) g = fs' g) \/
    (snd (command v fs t prog words) g = snd (command v fs' t prog words) g /\ snd (command v fs t prog words) g <> None /\
     exists on args, understood (options t) words on args /\ may_write t args g).
Proof.
  intros v fs fs' t prog words AG AP. unfold command. rewrite opts_are.
  destruct (words_said (options t) words [] []) as [m| |[on args]] eqn:W; [split; [reflexivity|left; auto]|split; [reflexivity|left; auto]|].
  assert (U : understood (options t) words on args).
  { pose proof (forget_words (options t) words [] []) as F. rewrite W in F. cbn [forget] in F. symmetry in F.
    apply (proj1 (C123_understood_pf (options t) words on args (opts_proper t))). exact F. }
  destruct (wrong_args _ _ _); [split; [reflexivity|left; auto]|].
  destruct (body_frame v fs fs' t prog (fun s => inb (lit s) on) args (fun f => AG on args f U) (AP on args U)) as [E B].
  split; [exact E|]. intros g. destruct (B g) as [X|(X & N & Y)]; [left; exact X|right]. split; [exact X|]. split; [exact N|]. eauto.
Qed.

(*@ Example C197_looks_ex : let v := mkenv (fun _ _ => []) (fun _ _ _ => []) (fun s => s) (fun s => s) (fun _ => []) 4 (fun _ => [OutL (lit "help")]) in
  let fs c := fun f => if eqb f (lit "f") then Some (lit "$g" ++ [10] ++ lit "                   FOO") else if eqb f (lit "g") then Some (lit "                   BAR")
                       else if eqb f (lit "h") then Some c else None in
  fst (command v (fs (lit "x")) Parse (lit "x.py") [lit "-d"; lit "f"]) = fst (command v (fs (lit "y")) Parse (lit "x.py") [lit "-d"; lit "f"]) /\
  In (OutL (lit "g 1                    BAR")) (fst (fst (command v (fs (lit "x")) Parse (lit "x.py") [lit "-d"; lit "f"]))) /\
  leads_to (fs (lit "x")) (lit "f") (lit "g") /\ ~ leads_to (fs (lit "x")) (lit "f") (lit "h").
Proof.
  cbv zeta.
  assert (G : forall c, leads_to (fun f => if eqb f (lit "f") then Some (lit "$g" ++ [10] ++ lit "                   FOO") else if eqb f (lit "g") then Some (lit "                   BAR")
                       else if eqb f (lit "h") then Some c else None) (lit "f") (lit "g")).
  { intros c. apply leads_inv. right. eexists. exists (lit "g" ++ [10]), (lit "g"). split; [reflexivity|]. split; [vm_compute; left; reflexivity|].
    split; [apply first_word_ok; eexists; vm_compute; reflexivity|constructor]. }
  assert (H : forall c h, leads_to (fun f => if eqb f (lit "f") then Some (lit "$g" ++ [10] ++ lit "                   FOO") else if eqb f (lit "g") then Some (lit "                   BAR")
                       else if eqb f (lit "h") then Some c else None) (lit "f") h -> h = lit "f" \/ h = lit "g").
  { intros c h L. apply leads_inv in L. destruct L as [<-|(ct & r & inc & F & I & W & L)]; [left; reflexivity|right].
    cbv beta in F. change (eqb (lit "f") (lit "f")) with true in F. cbv iota in F. injection F as <-. vm_compute in I. destruct I as [I|[I|[]]]; [|discriminate I]. injection I as <-.
    apply first_word_ok in W. destruct W as (t & W). vm_compute in W. injection W as <- _.
    apply leads_inv in L. destruct L as [<-|(ct & r & inc & F & I & _)]; [reflexivity|].
    cbv beta in F. change (eqb [103] (lit "f")) with false in F. change (eqb [103] (lit "g")) with true in F. cbv iota in F. injection F as <-. vm_compute in I. destruct I as [I|[]]. discriminate I. }
  split; [|split; [vm_compute; intuition|split; [apply G|intros L; destruct (H _ _ L) as [X|X]; vm_compute in X; discriminate X]]].
  apply C197_looks.
  - intros on args f U (g & I & L). apply (C123_understood_pf _ _ _ _ (opts_proper Parse)) in U. vm_compute in U. injection U as <- <-.
    destruct I as [<-|[]]. destruct (H _ _ L) as [E|E]; rewrite E; reflexivity.
  - intros on args U X. discriminate X.
Qed. @*)

Lemma listing_writes fuel v args : forall fs g, snd (listing_files fuel fs v args) g <> fs g -> exists f, In f args /\ list_name f g.
Proof.
  induction args as [|f args IH]; intros fs g N; [contradiction N; reflexivity|]. cbn [listing_files] in N. unfold listing_one in N.
  destruct (load_run fuel fs v f) as [ls [cs|e]]; [|contradiction N; reflexivity]. cbn [io_bind] in N.
  destruct (mapr listing_line cs) as [ys|e]; [|contradiction N; reflexivity].
  destruct (eqb g (listfile f)) eqn:G; [apply eqb_ok in G; exists f; split; [left; reflexivity|]; apply listfile_ok; congruence|].
  destruct (IH (fs_write fs (listfile f) (concat (map (fun l => l ++ [10]) ys))) g) as (h & I & L); [|exists h; split; [right; exact I|exact L]].
  destruct (listing_files fuel (fs_write fs _ _) v args) as [[l1 x1] f1]. cbn [snd] in N |- *. unfold fs_write. rewrite G. exact N.
Qed.
Lemma C197_writes_pf : forall v fs t prog words g, snd (command v fs t prog words) g <> fs g ->
  exists on args, understood (options t) words on args /\ may_write t args g.
Proof.
  intros v fs t prog words g N. destruct (line_cases t words) as [(m & W)|[H|(on & args & U)]].
  - rewrite (C142_refused_pf v fs t prog words m (or_introl W)) in N. contradiction N. reflexivity.
  - rewrite (C142_help_pf v fs t prog words H) in N. contradiction N. reflexivity.
  - exists on, args. split; [exact U|]. rewrite (command_started _ _ _ _ _ _ _ U) in N. unfold started in N.
    destruct (wrong_args _ _ _); [contradiction N; reflexivity|]. destruct t; cbn [body_of] in N; try (contradiction N; reflexivity).
    + left. split; [reflexivity|]. unfold listing_run in N. destruct args as [|a args]; [contradiction N; reflexivity|]. cbv zeta in N.
      unfold finish in N. cbn [snd] in N. exact (listing_writes _ _ _ _ _ N).
    + contradiction N. destruct (genlines args) as [o|e]; [reflexivity|destruct e; reflexivity].
    + right. split; [reflexivity|]. destruct args as [|f rest]; [contradiction N; reflexivity|]. destruct (fs f) as [c|]; [|contradiction N; reflexivity].
      destruct (genpages (e_fuel v) c) as [more|e]; [|contradiction N; destruct e; reflexivity]. cbn [snd] in N. unfold fs_write in N.
      destruct (eqb g f) eqn:G; [|contradiction N; reflexivity]. apply eqb_ok in G. exists rest. congruence.
Qed.

(*@ Example C197_writes_ex : let v := mkenv (fun _ _ => []) (fun _ _ _ => []) (fun s => s) (fun s => s) (fun _ => []) 4 (fun _ => [OutL (lit "help")]) in
  let fs := fun f => if eqb f (lit "a.src") then Some (lit "                   FOO") else None in
  snd (command v fs Listing (lit "x.py") [lit "a.src"]) (lit "a.lst") <> None /\ may_write Listing [lit "a.src"] (lit "a.lst").
Proof.
  cbv zeta. split; [vm_compute; discriminate|]. left. split; [reflexivity|]. exists (lit "a.src"). split; [left; reflexivity|]. left. exists (lit "a"), (lit "src").
  split; [reflexivity|]. split; [|reflexivity]. intros I. vm_compute in I. repeat (destruct I as [I|I]; [discriminate I|]). exact I.
Qed. @*)

(** *** every file looked at is needed *)
Section Needed.
Variables (fs : fsys) (f : str).
Let gone := without fs f.
Lemma gone_self : gone f = None. Proof. unfold gone, without. rewrite (proj2 (eqb_ok f f) eq_refl). reflexivity. Qed.
Lemma gone_other g : g <> f -> gone g = fs g.
Proof. intros N. unfold gone, without. destruct (eqb g f) eqn:E; [apply eqb_ok in E; contradiction|reflexivity]. Qed.
Lemma src_needed rec rec' k width fields v g lines :
  (forall h x, snd (rec h) = Ok x -> (rec' h = rec h /\ ~ leads_to fs h f) \/ snd (rec' h) = Err SystemExit) ->
  forall i x, snd (src_run rec k width fields fs v g i lines) = Ok x ->
  (src_run rec' k width fields gone v g i lines = src_run rec k width fields fs v g i lines /\
     forall r inc, In (36 :: r) lines -> first_word r inc -> ~ leads_to fs inc f) \/
  snd (src_run rec' k width fields gone v g i lines) = Err SystemExit.
Proof.
  intros A. induction lines as [|l r IH]; intros i x E; [left; split; [reflexivity|intros ? ? []]|]. cbn [src_run] in *.
  destruct (line_kinds l) as [q -> C|q -> C D|O C D]; rewrite C in *.
  - rewrite !snd_bind in E. cbn [snd bind] in E. destruct (IH _ _ E) as [[B N]|B]; [left|right].
    + rewrite B. split; [reflexivity|]. intros r0 inc [X|I]; [discriminate X|exact (N r0 inc I)].
    + rewrite snd_bind. cbn [snd bind]. exact B.
  - rewrite D, dollar_words in *. destruct (split_ws q) as [|w t] eqn:W; [discriminate E|]. cbn [io_bind] in *.
    destruct (list_eq_dec Z.eq_dec w f) as [->|NE].
    { right. rewrite gone_self. reflexivity. }
    rewrite (gone_other w NE). destruct (fs w) as [cw|] eqn:FW; [|discriminate E].
    rewrite (surjective_pairing (rec w)) in E. unfold io_bind in E at 2. destruct (snd (rec w)) as [ic|e] eqn:RW; [|discriminate E].
    destruct (A w ic RW) as [[B N]|B].
    2: { right. rewrite (surjective_pairing (rec' w)), B. reflexivity. }
    rewrite B. rewrite (surjective_pairing (rec w)), RW. cbn [io_bind] in E |- *.
    destruct (src_run rec k width fields fs v g (i + 1) r) as [l1 [x1|e1]] eqn:R1; cbn [io_bind] in E; [|discriminate E].
    destruct (IH (i + 1) x1) as [[B2 N2]|B2]; [rewrite R1; reflexivity|left|right].
    + rewrite B2, R1. split; [reflexivity|]. intros r0 inc [X|I] FI; [|exact (N2 r0 inc I FI)]. injection X as <-.
      rewrite <- (same_word _ _ _ (the_word _ _ _ W) FI). exact N.
    + destruct (src_run rec' k width fields gone v g (i + 1) r) as [l2 q2]. cbn [snd] in B2. rewrite B2. reflexivity.
  - rewrite D in *. destruct (card_new k l width fields (Some g) i) as [c|e]; cbn [io_bind] in *; [|discriminate E].
    destruct (src_run rec k width fields fs v g (i + 1) r) as [l1 [x1|e1]] eqn:R1; cbn [io_bind] in E; [|discriminate E].
    destruct (IH (i + 1) x1) as [[B2 N2]|B2]; [rewrite R1; reflexivity|left|right].
    + rewrite B2, R1. split; [reflexivity|]. intros r0 inc [X|I] FI; [|exact (N2 r0 inc I FI)]. destruct (O _ _ X); congruence.
    + destruct (src_run rec' k width fields gone v g (i + 1) r) as [l2 q2]. cbn [snd] in B2. rewrite B2. reflexivity.
Qed.
Lemma run_needed k width fields v fuel : forall g x, snd (read_run fuel k width fields fs v g) = Ok x ->
  (read_run fuel k width fields gone v g = read_run fuel k width fields fs v g /\ ~ leads_to fs g f) \/
  snd (read_run fuel k width fields gone v g) = Err SystemExit.
Proof.
  induction fuel as [|fuel IH]; intros g x E; [discriminate E|]. rewrite !read_run_S in *.
  destruct (list_eq_dec Z.eq_dec g f) as [->|NE]; [right; rewrite gone_self; reflexivity|]. rewrite (gone_other g NE).
  destruct (fs g) as [content|] eqn:F; [|discriminate E]. rewrite snd_bind in E. cbn [snd bind] in E.
  destruct (src_needed _ (read_run fuel k width fields gone v) k width fields v g (readlines content) IH 1 x E) as [[B N]|B]; [left|right].
  - rewrite B. split; [reflexivity|]. rewrite leads_inv. intros [X|(c & r & inc & F' & I & W & L)]; [contradiction|].
    assert (c = content) by congruence. subst c. exact (N r inc I W L).
  - rewrite snd_bind. exact B.
Qed.
Lemma deck_needed fuel (g : str) width fields k d : g <> [] -> argus_deck_new fuel fs None (Some g) width fields k = Ok d ->
  (argus_deck_new fuel gone None (Some g) width fields k = Ok d /\ (forall v, read_run fuel k width fields gone v g = read_run fuel k width fields fs v g) /\ ~ leads_to fs g f) \/
  argus_deck_new fuel gone None (Some g) width fields k = Err SystemExit.
Proof.
  intros NG E. unfold argus_deck_new, deck_new in *. destruct g as [|a g]; [contradiction|].
  rewrite <- !(read_run_snd fuel k width fields _ false) in *. destruct (snd (read_run fuel k width fields fs false (a :: g))) as [cs|e] eqn:R; [|discriminate E].
  destruct (run_needed _ _ _ _ _ _ _ R) as [[B N]|B]; [left|right; rewrite B; reflexivity]. rewrite B, R. split; [exact E|]. split; [|exact N].
  intros v. assert (RV : snd (read_run fuel k width fields fs v (a :: g)) = Ok cs) by (rewrite read_run_snd in R |- *; exact R).
  destruct (run_needed _ _ _ _ _ _ _ RV) as [[B' _]|B']; [exact B'|].
  rewrite read_run_snd, <- (read_run_snd fuel k width fields gone false), B, R in B'. discriminate B'.
Qed.
Lemma no_name_fails fuel : argus_deck_new fuel fs None (Some []) DEFAULT_WIDTH DEFAULT_FIELDS ArgusCls = Err TypeError.
Proof. reflexivity. Qed.
Lemma load_needed v fuel g x : snd (load_run fuel fs v g) = Ok x ->
  (load_run fuel gone v g = load_run fuel fs v g /\
   argus_deck_new fuel gone None (Some g) DEFAULT_WIDTH DEFAULT_FIELDS ArgusCls = argus_deck_new fuel fs None (Some g) DEFAULT_WIDTH DEFAULT_FIELDS ArgusCls /\
   ~ leads_to fs g f) \/
  (snd (load_run fuel gone v g) = Err SystemExit /\ argus_deck_new fuel gone None (Some g) DEFAULT_WIDTH DEFAULT_FIELDS ArgusCls = Err SystemExit).
Proof.
  intros E. unfold load_run, deck_run in *. rewrite snd_bind in E. cbn [snd] in E.
  destruct (argus_deck_new fuel fs None (Some g) DEFAULT_WIDTH DEFAULT_FIELDS ArgusCls) as [d|e] eqn:D; [|discriminate E].
  assert (NG : g <> []) by (intros ->; rewrite no_name_fails in D; discriminate D).
  destruct (deck_needed fuel g _ _ _ d NG D) as [(B & R & N)|B]; [left|right].
  - rewrite B. split; [|auto]. specialize (R v). destruct g as [|a g]; [contradiction|]. rewrite R. reflexivity.
  - rewrite B, snd_bind. auto.
Qed.
(** a step that reads a source first *)
Definition needs {S} (step step' : S -> str -> io S) : Prop :=
  forall s g s', snd (step s g) = Ok s' -> (step' s g = step s g /\ ~ leads_to fs g f) \/ snd (step' s g) = Err SystemExit.
Lemma fold_needed {S} (step step' : S -> str -> io S) : needs step step' -> forall files s x, snd (io_fold step files s) = Ok x ->
  (io_fold step' files s = io_fold step files s /\ forall g, In g files -> ~ leads_to fs g f) \/ snd (io_fold step' files s) = Err SystemExit.
Proof.
  intros H. induction files as [|g files IH]; intros s x E; [left; split; [reflexivity|intros g []]|]. cbn [io_fold] in *.
  destruct (step s g) as [ls [s'|e]] eqn:ST; cbn [io_bind] in E; [|discriminate E].
  destruct (H s g s') as [[B N]|B]; [rewrite ST; reflexivity| |right; rewrite (surjective_pairing (step' s g)), B; reflexivity].
  rewrite B, ST. cbn [io_bind]. assert (E' : snd (io_fold step files s') = Ok x) by (destruct (io_fold step files s'); exact E).
  destruct (IH s' x E') as [[B2 N2]|B2]; [left|right; destruct (io_fold step' files s'); exact B2].
  rewrite B2. split; [reflexivity|]. intros h [<-|I]; [exact N|exact (N2 h I)].
Qed.
Lemma loads_need {A : Type} fuel v (then_ : list card -> A -> io A) : needs (fun (s : A) (g : str) => io_bind (load_run fuel fs v g) (fun cs => then_ cs s)) (fun (s : A) (g : str) => io_bind (load_run fuel gone v g) (fun cs => then_ cs s)).
Proof.
  intros s g s' E. rewrite snd_bind in E. destruct (snd (load_run fuel fs v g)) as [cs|e] eqn:L; [|discriminate E].
  destruct (load_needed v fuel g cs L) as [(B & _ & N)|[B _]]; [left; rewrite B; auto|right]. rewrite snd_bind, B. reflexivity.
Qed.
Lemma tables_need upper rep card_rep fuel v (counts : bool) : needs
  (fun (s : symtab * Z * Z) g => io_bind (build_verbose upper rep card_rep fuel fs v (fst (fst s)) g) (fun r => ((if counts then [built_line g (snd r)] else []), Ok (fst r, snd (fst s) + snd r, snd r))))
  (fun (s : symtab * Z * Z) g => io_bind (build_verbose upper rep card_rep fuel gone v (fst (fst s)) g) (fun r => ((if counts then [built_line g (snd r)] else []), Ok (fst r, snd (fst s) + snd r, snd r)))).
Proof.
  intros s g s' E. unfold build_verbose, dump_table_run in *. cbv zeta in *.
  destruct (argus_deck_new fuel fs None (Some g) DEFAULT_WIDTH DEFAULT_FIELDS ArgusCls) as [[[d sec] c8]|e] eqn:D; [|discriminate E].
  assert (L : snd (load_run fuel fs v g) = Ok (d_cards d)) by (unfold load_run, deck_run; rewrite snd_bind; cbn [snd]; rewrite D; reflexivity).
  destruct (load_needed v fuel g _ L) as [(B & B' & N)|[_ B]]; [left|right].
  - rewrite B', D, B. auto.
  - rewrite B. reflexivity.
Qed.
Lemma build_needed upper rep card_rep fuel v counts files x : snd (build_files_run upper rep card_rep fuel fs v counts files) = Ok x ->
  (forall g, In g files -> ~ leads_to fs g f) \/ snd (build_files_run upper rep card_rep fuel gone v counts files) = Err SystemExit.
Proof.
  intros E. unfold build_files_run in *. destruct (fold_needed _ _ (tables_need upper rep card_rep fuel v counts) _ _ _ E) as [[_ N]|B]; auto.
Qed.
End Needed.

(** listing writes on the way *)
Lemma leads_write fs name c g h : ~ leads_to fs g name -> (leads_to (fs_write fs name c) g h <-> leads_to fs g h).
Proof.
  intros N. split; intros L.
  - revert N. induction L as [f|f content ls r g h F T I W L IH]; intros N; [constructor|].
    assert (NE : f <> name) by (intros ->; apply N; constructor). unfold fs_write in F. destruct (eqb f name) eqn:E; [apply eqb_ok in E; contradiction|].
    eapply lt_include; [exact F|exact T|exact I|exact W|]. apply IH. intros X. apply N. eapply lt_include; [exact F|exact T|exact I|exact W|exact X].
  - revert N. induction L as [f|f content ls r g h F T I W L IH]; intros N; [constructor|].
    assert (NE : f <> name) by (intros ->; apply N; constructor).
    eapply lt_include; [|exact T|exact I|exact W|].
    + unfold fs_write. destruct (eqb f name) eqn:E; [apply eqb_ok in E; contradiction|exact F].
    + apply IH. intros X. apply N. eapply lt_include; [exact F|exact T|exact I|exact W|exact X].
Qed.
Lemma load_ext fs fs' v fuel f : (forall g, fs g = fs' g) -> load_run fuel fs' v f = load_run fuel fs v f.
Proof. intros E. apply load_alike. intros g. rewrite E. reflexivity. Qed.
Lemma listing_ext fuel v args : forall fs fs', (forall g, fs g = fs' g) -> fst (listing_files fuel fs' v args) = fst (listing_files fuel fs v args).
Proof. intros fs fs' E. apply listing_alike. intros g. rewrite E. reflexivity. Qed.
Lemma listing_needed fuel v f args : forall fs x, snd (fst (listing_files fuel fs v args)) = Ok x ->
  (forall g h, In g args -> In h args -> ~ leads_to fs h (listfile g)) ->
  (exists g, In g args /\ leads_to fs g f) -> snd (fst (listing_files fuel (without fs f) v args)) = Err SystemExit.
Proof.
  induction args as [|g args IH]; intros fs x E NP (g0 & I & L); [destruct I|]. cbn [listing_files] in *. unfold listing_one in *.
  destruct (load_run fuel fs v g) as [ls [cs|e]] eqn:LR; [|discriminate E]. cbn [io_bind] in E.
  destruct (load_needed fs f v fuel g cs) as [(B & _ & N)|[B _]]; [rewrite LR; reflexivity| |].
  2: { rewrite (surjective_pairing (load_run fuel (without fs f) v g)), B. reflexivity. }
  rewrite B, LR. cbn [io_bind]. destruct (mapr listing_line cs) as [ys|e]; [|discriminate E].
  set (c := concat (map (fun l => l ++ [10]) ys)) in *. set (fs1 := fs_write fs (listfile g) c) in *.
  assert (I' : In g0 args) by (destruct I as [->|I]; [contradiction|exact I]).
  assert (NL : forall h, In h (g :: args) -> ~ leads_to fs h (listfile g)) by (intros h J; apply NP; [left; reflexivity|exact J]).
  assert (S1 : snd (fst (listing_files fuel (without fs1 f) v args)) = Err SystemExit).
  { apply (IH fs1 x).
    - destruct (listing_files fuel fs1 v args) as [[l1 x1] f1]. exact E.
    - intros a h A H X. apply leads_write in X; [|apply NL; right; exact H]. exact (NP a h (or_intror A) (or_intror H) X).
    - exists g0. split; [exact I'|]. apply leads_write; [apply NL; right; exact I'|exact L]. }
  assert (NE : listfile g <> f) by (intros X; apply (NL g0 (or_intror I')); rewrite X; exact L).
  assert (EXT : forall h, without fs1 f h = fs_write (without fs f) (listfile g) c h).
  { intros h. unfold without, fs1, fs_write. destruct (eqb h f) eqn:E1, (eqb h (listfile g)) eqn:E2; try reflexivity.
    apply eqb_ok in E1. apply eqb_ok in E2. congruence. }
  rewrite <- (listing_ext fuel v args _ _ EXT) in S1. destruct (listing_files fuel (fs_write (without fs f) (listfile g) c) v args) as [[l2 x2] f2]. exact S1.
Qed.
Lemma finish_zero {A} (r : io A) fs : snd (fst (finish r fs)) = Exit 0 -> exists a, snd r = Ok a.
Proof. unfold finish. cbn [fst snd]. destruct (snd r) as [a|e]; [eauto|destruct e; discriminate]. Qed.
Lemma finish_one {A} (r : io A) fs : snd r = Err SystemExit -> snd (fst (finish r fs)) = Exit 1.
Proof. unfold finish. cbn [fst snd]. intros ->. reflexivity. Qed.
Lemma bind_fails {A B} (x : io A) (k : A -> io B) e : snd x = Err e -> snd (io_bind x k) = Err e.
Proof. intros E. rewrite snd_bind, E. reflexivity. Qed.
Lemma bind_runs {A B} (x : io A) (k : A -> io B) b : snd (io_bind x k) = Ok b -> exists a, snd x = Ok a.
Proof. rewrite snd_bind. destruct (snd x) as [a|e]; [eauto|discriminate]. Qed.

Lemma C197_needed_pf : forall v fs t prog words on args f, understood (options t) words on args -> listings_apart fs t args ->
  snd (fst (command v fs t prog words)) = Exit 0 -> looks_at fs t args f ->
  snd (fst (command v (without fs f) t prog words)) = Exit (match t with Genpages => 2 | _ => 1 end).
Proof.
  intros v fs t prog words on args f U AP Z LA. rewrite !(command_started _ _ _ _ _ _ _ U) in *. unfold started in *.
  destruct (wrong_args t (has_of on) args); [discriminate Z|].
  assert (ND : forall files : list str, (exists g, In g files /\ leads_to fs g f) -> (forall g, In g files -> ~ leads_to fs g f) -> False)
    by (intros files (g & I & L) N; exact (N g I L)).
  destruct t; cbn [looks_at sources] in LA; cbn [body_of] in *.
  - apply finish_one. apply finish_zero in Z. destruct Z as (a & Z). unfold check_instructions_run in *. destruct args as [|b args]; [discriminate Z|].
    apply bind_fails. apply bind_runs in Z. destruct Z as (s & Z).
    destruct (fold_needed fs f _ _ (loads_need fs f _ _ _) _ _ _ Z) as [[_ N]|B]; [destruct (ND _ LA N)|exact B].
  - apply finish_one. apply finish_zero in Z. destruct Z as (a & Z). unfold check_symbols_verbose in *. destruct args as [|b args]; [discriminate Z|].
    apply bind_fails. apply bind_runs in Z. destruct Z as (s & Z).
    destruct (build_needed fs f _ _ _ _ _ _ _ _ Z) as [N|B]; [destruct (ND _ LA N)|exact B].
  - apply finish_one. apply finish_zero in Z. destruct Z as (a & Z). unfold find_symbols_verbose in *. destruct (_ || _); [discriminate Z|].
    destruct args as [|b [|g args]]; [discriminate Z|discriminate Z|].
    apply bind_fails. apply bind_runs in Z. destruct Z as (s & Z).
    destruct (build_needed fs f _ _ _ _ _ _ _ _ Z) as [N|B]; [destruct (ND _ LA N)|exact B].
  - apply finish_one. apply finish_zero in Z. destruct Z as (a & Z). unfold list_instructions_run in *. destruct args as [|b args]; [discriminate Z|].
    cbv zeta in *. destruct (negb _); [discriminate Z|].
    destruct (fold_needed fs f _ _ (loads_need fs f _ _ _) _ _ _ Z) as [[_ N]|B]; [destruct (ND _ LA N)|exact B].
  - apply finish_one. apply finish_zero in Z. destruct Z as (a & Z). unfold list_symbols_run in *. destruct args as [|b args]; [discriminate Z|].
    apply bind_fails. apply bind_runs in Z. destruct Z as (s & Z).
    destruct (build_needed fs f _ _ _ _ _ _ _ _ Z) as [N|B]; [destruct (ND _ LA N)|exact B].
  - cbv zeta in *. apply finish_one. apply finish_zero in Z. destruct Z as (a & Z). unfold listing_run in *. destruct args as [|b args]; [discriminate Z|].
    apply (listing_needed _ _ _ _ _ _ Z); [|exact LA]. intros g h I J X. apply (AP eq_refl g (listfile g) I (proj2 (listfile_ok g _) eq_refl)).
    exists h. split; [exact J|exact X].
  - apply finish_one. apply finish_zero in Z. destruct Z as (a & Z). unfold parse_run in *. destruct args as [|b args]; [discriminate Z|].
    apply bind_fails. apply bind_runs in Z. destruct Z as (s & Z).
    destruct (build_needed fs f _ _ _ _ _ _ _ _ Z) as [N|B]; [destruct (ND _ LA N)|exact B].
  - destruct LA.
  - destruct LA as (rest & ->). unfold without at 1. rewrite (proj2 (eqb_ok f f) eq_refl). reflexivity.
Qed.
(*@ Example C197_needed_ex : let v := mkenv (fun _ _ => []) (fun _ _ _ => []) (fun s => s) (fun s => s) (fun _ => []) 4 (fun _ => [OutL (lit "help")]) in
  let fs := fun f => if eqb f (lit "f") then Some (lit "$g" ++ [10] ++ lit "                   FOO") else if eqb f (lit "g") then Some (lit "                   BAR") else None in
  snd (fst (command v fs ListSymbols (lit "x.py") [lit "f"])) = Exit 0 /\ snd (fst (command v (without fs (lit "g")) ListSymbols (lit "x.py") [lit "f"])) = Exit 1.
Proof.
  cbv zeta. assert (Z : snd (fst (command (mkenv (fun _ _ => []) (fun _ _ _ => []) (fun s => s) (fun s => s) (fun _ => []) 4 (fun _ => [OutL (lit "help")]))
    (fun f => if eqb f (lit "f") then Some (lit "$g" ++ [10] ++ lit "                   FOO") else if eqb f (lit "g") then Some (lit "                   BAR") else None) ListSymbols (lit "x.py") [lit "f"])) = Exit 0) by (vm_compute; reflexivity).
  split; [exact Z|]. refine (C197_needed _ _ ListSymbols _ _ [] [lit "f"] (lit "g") _ _ Z _).
  - apply (C123_understood_pf _ _ _ _ (opts_proper ListSymbols)). vm_compute. reflexivity.
  - intros X. discriminate X.
  - exists (lit "f"). split; [left; reflexivity|]. apply leads_inv. right. eexists. exists (lit "g" ++ [10]), (lit "g"). split; [reflexivity|].
    split; [vm_compute; left; reflexivity|]. split; [apply first_word_ok; eexists; vm_compute; reflexivity|constructor].
Qed. @*)
