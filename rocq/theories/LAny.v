(** The symbol tools as commands, for sources of any names: C196. *)
From Verif Require Import Py LPy MInstructions MCards SCards LCards LDeck MSymbols SSymbols LSymBuild LSymQuery MTools STools LTools LToolSym SClash LClash LQuiet SForce LForce MDiag SDiag LDiag MDump SDump LDump MVerbose SVerbose LVerbose STranscript LTranscript LTextSym SFound LFound MOptions SOptions LOptions MProcess SProcess LProcess SEnds SSource STextSym SReport LReport LIdle SUnread LUnread SSaid LSaid SAny.
#[local] Arguments Z.add : simpl never.
#[local] Arguments Z.sub : simpl never.
#[local] Arguments Z.mul : simpl never.

Lemma stop_any upper rep crep fuel fs v counts pre css ds f post log msg e : files_defs upper pre css ds -> Forall2 (source_cards fuel fs) pre css ->
  load fuel fs f = Err e -> load_run fuel fs v f = (vis v log ++ msg, Err e) ->
  (exists ls ns, build_files_run upper rep crep fuel fs v counts (pre ++ f :: post) = (ls ++ vis v log ++ msg, Err e) /\
     files_said upper rep crep fuel fs v counts pre ds ls ns /\ harmless ds) \/
  (exists ls e', build_files_run upper rep crep fuel fs v counts (pre ++ f :: post) = (ls, Err e') /\
     broken upper rep crep fuel fs v counts (pre ++ f :: post) ls e').
Proof.
  intros FD F H EL. unfold build_files_run. rewrite io_fold_app. fold (build_files_run upper rep crep fuel fs v counts pre).
  destruct (files_said_run upper rep crep fuel fs v counts pre css ds FD F) as [(ls & tab & ns & n & E & FS & _ & HL & _)|(ls & e' & E & _ & pre' & f' & post' & BR)]; rewrite E.
  - left. exists ls, ns. rewrite bind_ok. cbn [io_fold fst snd].
    assert (EB : dump_table_run upper rep crep fuel fs f tab = ([], tab, Err e)).
    { unfold load in H. unfold dump_table_run. cbv zeta.
      destruct (argus_deck_new fuel fs None (Some f) DEFAULT_WIDTH DEFAULT_FIELDS ArgusCls) as [[[d sec] c8]|e']; cbn [bind] in H; [discriminate|].
      congruence. }
    assert (BV : build_verbose upper rep crep fuel fs v tab f = (vis v log ++ msg, Err e)).
    { unfold build_verbose. rewrite EB, EL. cbn [fst map]. rewrite app_nil_r. reflexivity. }
    rewrite !BV. unfold io_bind. cbn [fst snd]. auto.
  - right. exists ls, e'. rewrite bind_err. split; [reflexivity|].
    destruct BR as (ds1 & ls1 & ns1 & seg1 & log1 & cs1 & c1 & r1 & d1 & said1 & n1 & tag1 & kind1 & tt1 & ss1 & -> & BR).
    exists pre', f', (post' ++ f :: post), ds1, ls1, ns1, seg1, log1, cs1, c1, r1, d1, said1, n1, tag1, kind1, tt1, ss1.
    split; [rewrite <- app_assoc; reflexivity|exact BR].
Qed.
Lemma broken_died upper rep crep fuel fs v counts files ls e st {A} : broken upper rep crep fuel fs v counts files ls e -> ends_as (Err e : res A) st -> st = Died e.
Proof.
  intros (pre & f & post & ds & l & ns & seg & log & cs & c & b & d & said & n & tag & kind & tt & ss & BR) H.
  destruct BR as (_ & _ & _ & _ & _ & _ & _ & _ & (_ & _ & [[_ ->]|[_ ->]]) & _); inversion H; reflexivity.
Qed.
(** either all the sources can be read, or the table is not made *)
Lemma tables_any v fs verbose counts files :
  (exists css ds, Forall2 (source_cards (e_fuel v) fs) files css /\ files_defs (e_upper v) files css ds /\ (harmless ds \/ exists e, dies_of ds e)) \/
  (exists ls e, build_files_run (e_upper v) (e_rep v) (e_card_rep v) (e_fuel v) fs verbose counts files = (ls, Err e) /\
     (exists pre f post e', files = pre ++ f :: post /\ load (e_fuel v) fs f = Err e') /\
     forall st, ends_as (Err e : res unit) st ->
       (broken (e_upper v) (e_rep v) (e_card_rep v) (e_fuel v) fs verbose counts files ls e /\ st = Died e) \/
       unread v fs verbose counts files ls st).
Proof.
  destruct (first_unread (e_fuel v) fs files) as [(css & _ & F & _)|(pre & css & _ & f & post & e & -> & F & _ & _ & L)];
    destruct (C194_definitions_pf (e_upper v) (e_fuel v) fs _ css F) as (ds & FD & _).
  - left. exists css, ds. split; [exact F|]. split; [exact FD|]. exact (harmless_dec_run _ _ _ _ _ _ FD F).
  - right. destruct (give_up (e_fuel v) fs verbose f e L) as (log & msg & st' & GU & EA & EL).
    destruct (stop_any (e_upper v) (e_rep v) (e_card_rep v) (e_fuel v) fs verbose counts pre css ds f post log msg e FD F L EL)
      as [(ls & ns & E & FS & HL)|(ls & e' & E & BR)].
    + exists (ls ++ vis verbose log ++ msg), e. split; [exact E|]. split; [exists pre, f, post, e; auto|]. intros st ES. right.
      rewrite (ends_fun _ _ _ ES EA). exists pre, f, post, css, ds, ns, ls, log, msg. auto 10.
    + exists ls, e'. split; [exact E|]. split; [exists pre, f, post, e; auto|]. intros st ES. left. split; [exact BR|]. exact (broken_died _ _ _ _ _ _ _ _ _ _ _ BR ES).
Qed.
Lemma on_true on l : turned_on on l true -> In (lit l) on.
Proof. intros H. apply H. reflexivity. Qed.
Lemma on_false on l : turned_on on l false -> ~ In (lit l) on.
Proof. intros H I. apply H in I. discriminate. Qed.
Lemma died_ends {A} e st (ls0 : list line) (r : res A) ls : (ls0, r) = (ls, Err e) -> ends_as r st -> ends_as (Err e : res unit) st /\ ls0 = ls.
Proof. intros E H. inversion E; subst. split; [exact (ends_err e st H)|reflexivity]. Qed.
Lemma ok_ends {A} st (ls0 : list line) (r : res A) ls x : (ls0, r) = (ls, Ok x) -> ends_as r st -> st = Exit 0 /\ ls0 = ls.
Proof. intros E H. inversion E; subst. inversion H. auto. Qed.

Lemma runs_any v fs on args t counts verbose ls st fs' : prints_counts t counts -> (forall m, ~ misuse fs t on args m) -> turned_on on "verbose" verbose ->
  runs v fs on args t ls st fs' -> fs' = fs /\
    ((completes v fs on verbose counts t args ls /\ st = Exit 0) \/
     (exists e, broken (e_upper v) (e_rep v) (e_card_rep v) (e_fuel v) fs verbose counts (sources t args) ls e /\ st = Died e) \/
     unread v fs verbose counts (sources t args) ls st).
Proof.
  intros PC N V0 R.
  destruct (tables_any v fs verbose counts (sources t args)) as [(css & ds & F & FD & HD)|(bls & be & EB & _ & HB)].
  - destruct R as [vb o ls r st V1 V2 V3 V4 V5 V6 V7 E EA|vb complex ls r st V1 V2 E EA|vb b e' f' x ls r st V1 V2 V3 V4 V5 E EA|vb details ls r st V1 V2 E EA|
    vb ls r st V1 E EA|vb ls r st fs' V1 E EA|vb debug ls r st V1 V2 E EA|out E|e' E|f' rest content more fs' E1 E2 E3 E4 E5|f' rest content e' E1 E2 E3];
    try (exfalso; unfold prints_counts in PC; cbn [In] in PC; intuition discriminate); (split; [reflexivity|]);
    pose proof (same_switch _ _ _ _ V0 V1) as VV; subst vb; cbn [sources] in *.
    + assert (counts = true) as -> by (cbn in PC; intuition congruence).
      assert (NE := args_not_empty fs CheckSymbols on args ltac:(cbn; auto) N).
      destruct (C195_check_pf (e_extract v) (e_upper v) (e_rep v) (e_card_rep v) (e_fuel v) fs verbose complex args css ds NE F FD) as [A B]. cbv zeta in A, B.
      destruct HD as [H|(e & DO)].
      * left. destruct (A H) as (tables & ns & syms & choices & part & total & X & FS & S1 & S2 & UP & CA & TP). rewrite X in E. symmetry in E.
        destruct (ok_ends _ _ _ _ _ E EA) as [-> ->]. split; [|reflexivity]. exists css, ds, ns, tables. eexists. split; [exact F|]. split; [exact FD|]. split; [exact H|].
        split; [exact FS|]. split; [|reflexivity]. eapply cl_check; eassumption.
      * right. left. destruct (B e DO) as (bl & X & BR). rewrite X in E. symmetry in E. destruct (died_ends _ _ _ _ _ E EA) as [EA' ->].
        exists e. split; [exact BR|exact (broken_died _ _ _ _ _ _ _ _ _ _ _ BR EA')].
    + assert (counts = true) as -> by (cbn in PC; intuition congruence).
      destruct args as [|s [|g files]]; [exfalso| exfalso |].
      { destruct (conflict_dec on) as [K|K]; [exact (N _ (mu_conflict fs on _ K))|]. exact (N _ (mu_find fs on [] K eq_refl)). }
      { destruct (conflict_dec on) as [K|K]; [exact (N _ (mu_conflict fs on _ K))|]. exact (N _ (mu_find fs on [s] K eq_refl)). }
      cbn [tl] in *. assert (NE : g :: files <> []) by discriminate.
      assert (NC : ~ conflicting on) by (intros K; exact (N _ (mu_conflict fs on _ K))). apply (not_conflicting on b e' f' x V2 V3 V4 V5) in NC.
      destruct f'.
      * destruct b; [destruct e', x; discriminate NC|]. destruct e'; [destruct x; discriminate NC|]. destruct x; [discriminate NC|].
        destruct (C195_fuzzy_pf (e_extract v) (e_upper v) (e_rep v) (e_card_rep v) (e_fuel v) fs verbose s (g :: files) css ds NE F FD) as [A B]. cbv zeta in A, B.
        destruct HD as [H|(e & DO)].
        -- left. destruct (A H) as (tables & ns & choices & rr & X & FS & CA). rewrite X in E. symmetry in E. destruct (ok_ends _ _ _ _ _ E EA) as [-> ->].
           split; [|reflexivity]. exists css, ds, ns, tables. eexists. split; [exact F|]. split; [exact FD|]. split; [exact H|]. split; [exact FS|]. split; [|reflexivity].
           eapply cl_similar; [exact (on_true _ _ V4)|exact CA|reflexivity].
        -- right. left. destruct (B e DO) as (bl & X & BR). rewrite X in E. symmetry in E. destruct (died_ends _ _ _ _ _ E EA) as [EA' ->].
           exists e. split; [exact BR|exact (broken_died _ _ _ _ _ _ _ _ _ _ _ BR EA')].
      * destruct (b || e')%bool eqn:BE.
        -- assert (BN : b = negb e') by (destruct b, e'; try reflexivity; [destruct x|]; discriminate).
           destruct x; [destruct b, e'; discriminate|].
           destruct (C195_names_pf (e_extract v) (e_upper v) (e_rep v) (e_card_rep v) (e_fuel v) fs verbose b e' s (g :: files) css ds NE F FD BN) as [A B]. cbv zeta in A, B.
           destruct HD as [H|(e & DO)].
           ++ left. destruct (A H) as (tables & ns & names & rr & X & FS & S1 & S2). rewrite X in E. symmetry in E. destruct (ok_ends _ _ _ _ _ E EA) as [-> ->].
              split; [|reflexivity]. exists css, ds, ns, tables. eexists. split; [exact F|]. split; [exact FD|]. split; [exact H|]. split; [exact FS|]. split; [|reflexivity].
              apply cl_names; [destruct b; [left; exact (on_true _ _ V2)|right; destruct e'; [exact (on_true _ _ V3)|discriminate]]|exact S1|].
              intros y. rewrite (S2 y). unfold turned_on in V2, V3. rewrite V2, V3. reflexivity.
           ++ right. left. destruct (B e DO) as (bl & X & BR). rewrite X in E. symmetry in E. destruct (died_ends _ _ _ _ _ E EA) as [EA' ->].
              exists e. split; [exact BR|exact (broken_died _ _ _ _ _ _ _ _ _ _ _ BR EA')].
        -- destruct b; [discriminate|]. destruct e'; [discriminate|].
           destruct (C195_find_pf (e_extract v) (e_upper v) (e_rep v) (e_card_rep v) (e_fuel v) fs verbose x s (g :: files) css ds NE F FD) as [A B]. cbv zeta in A, B.
           destruct HD as [H|(e & DO)].
           ++ left. destruct (A H) as (tables & ns & FS & A1 & A2).
              destruct (in_dec (list_eq_dec Z.eq_dec) s (map sd_tag ds)) as [I|NI].
              ** apply in_map_iff in I. destruct I as (d & TD & ID). destruct (A1 (ex_intro _ d (conj ID TD))) as (l & a & t & rr & X & AC & AF & AT).
                 rewrite X in E. symmetry in E. destruct (ok_ends _ _ _ _ _ E EA) as [-> ->].
                 split; [|reflexivity]. exists css, ds, ns, tables. eexists. split; [exact F|]. split; [exact FD|]. split; [exact H|]. split; [exact FS|]. split; [|reflexivity].
                 eapply cl_found; eassumption.
              ** assert (NI' : forall d, In d ds -> sd_tag d <> s) by (intros d ID TD; apply NI, in_map_iff; eauto).
                 rewrite A2 in E by (intros (d & ID & TD); exact (NI' d ID TD)). symmetry in E. destruct (ok_ends _ _ _ _ _ E EA) as [-> ->].
                 split; [|reflexivity]. exists css, ds, ns, tables. eexists. split; [exact F|]. split; [exact FD|]. split; [exact H|]. split; [exact FS|]. split; [|reflexivity].
                 apply cl_unknown; assumption.
           ++ right. left. destruct (B e DO) as (bl & X & BR). rewrite X in E. symmetry in E. destruct (died_ends _ _ _ _ _ E EA) as [EA' ->].
              exists e. split; [exact BR|exact (broken_died _ _ _ _ _ _ _ _ _ _ _ BR EA')].
    + assert (counts = false) as -> by (cbn in PC; intuition congruence).
      assert (NE := args_not_empty fs ListSymbols on args ltac:(cbn; auto) N).
      destruct (C195_list_pf (e_upper v) (e_rep v) (e_card_rep v) (e_fuel v) fs verbose args css ds NE F FD) as [A B]. cbv zeta in A, B.
      destruct HD as [H|(e & DO)].
      * left. destruct (A H) as (tables & ns & out & es & X & FS & RO & S1 & S2). rewrite X in E. symmetry in E.
        destruct (ok_ends _ _ _ _ _ E EA) as [-> ->]. split; [|reflexivity]. exists css, ds, ns, tables. eexists. split; [exact F|]. split; [exact FD|]. split; [exact H|].
        split; [exact FS|]. split; [|reflexivity]. eapply cl_list; eassumption.
      * right. left. destruct (B e DO) as (bl & X & BR). rewrite X in E. symmetry in E. destruct (died_ends _ _ _ _ _ E EA) as [EA' ->].
        exists e. split; [exact BR|exact (broken_died _ _ _ _ _ _ _ _ _ _ _ BR EA')].
    + assert (counts = true) as -> by (cbn in PC; intuition congruence).
      assert (NE := args_not_empty fs Parse on args ltac:(cbn; auto 7) N). destruct (bad_count (e_fuel v) fs args css NE F) as (k & CN).
      destruct (C195_parse_pf (e_upper v) (e_rep v) (e_card_rep v) (e_fuel v) fs verbose debug args css ds k NE F FD CN) as [A B]. cbv zeta in A, B.
      destruct HD as [H|(e & DO)].
      * left. destruct (A H) as (tables & ns & n & l & X & FS & FR). rewrite X in E. symmetry in E.
        destruct (ok_ends _ _ _ _ _ E EA) as [-> ->]. split; [|reflexivity]. exists css, ds, (ns ++ [n]), tables. eexists. split; [exact F|]. split; [exact FD|]. split; [exact H|].
        split; [exact FS|]. split; [|reflexivity]. eapply cl_parse; [eassumption|reflexivity|eassumption|eassumption].
      * right. left. destruct (B e DO) as (bl & X & BR). rewrite X in E. symmetry in E. destruct (died_ends _ _ _ _ _ E EA) as [EA' ->].
        exists e. split; [exact BR|exact (broken_died _ _ _ _ _ _ _ _ _ _ _ BR EA')].
  - assert (NX : forall A (r : res A), (bls, Err be) = (ls, r) -> ends_as r st ->
      (exists e, broken (e_upper v) (e_rep v) (e_card_rep v) (e_fuel v) fs verbose counts (sources t args) ls e /\ st = Died e) \/
      unread v fs verbose counts (sources t args) ls st).
    { intros A r E EA. inversion E; subst. destruct (HB st (ends_err be st EA)) as [[BR ->]|UR]; [left; eauto|right; exact UR]. }
    destruct R as [vb o ls r st V1 V2 V3 V4 V5 V6 V7 E EA|vb complex ls r st V1 V2 E EA|vb b e' f' x ls r st V1 V2 V3 V4 V5 E EA|vb details ls r st V1 V2 E EA|
    vb ls r st V1 E EA|vb ls r st fs' V1 E EA|vb debug ls r st V1 V2 E EA|out E|e' E|f' rest content more fs' E1 E2 E3 E4 E5|f' rest content e' E1 E2 E3];
    try (exfalso; unfold prints_counts in PC; cbn [In] in PC; intuition discriminate); (split; [reflexivity|]); right;
    pose proof (same_switch _ _ _ _ V0 V1) as VV; subst vb; cbn [sources] in *.
    + assert (counts = true) as -> by (cbn in PC; intuition congruence).
      assert (NE := args_not_empty fs CheckSymbols on args ltac:(cbn; auto) N).
      unfold check_symbols_verbose in E. destruct args as [|a0 r0]; [contradiction|]. rewrite EB, bind_err in E. exact (NX _ _ E EA).
    + assert (counts = true) as -> by (cbn in PC; intuition congruence).
      destruct args as [|s [|g files]]; [exfalso| exfalso |].
      { destruct (conflict_dec on) as [K|K]; [exact (N _ (mu_conflict fs on _ K))|]. exact (N _ (mu_find fs on [] K eq_refl)). }
      { destruct (conflict_dec on) as [K|K]; [exact (N _ (mu_conflict fs on _ K))|]. exact (N _ (mu_find fs on [s] K eq_refl)). }
      assert (NC : ~ conflicting on) by (intros K; exact (N _ (mu_conflict fs on _ K))). cbn [tl] in *.
      unfold find_symbols_verbose in E. rewrite (not_conflicting on b e' f' x V2 V3 V4 V5 NC), EB, bind_err in E. exact (NX _ _ E EA).
    + assert (counts = false) as -> by (cbn in PC; intuition congruence).
      assert (NE := args_not_empty fs ListSymbols on args ltac:(cbn; auto) N).
      unfold list_symbols_run in E. destruct args as [|a0 r0]; [contradiction|]. rewrite EB, bind_err in E. exact (NX _ _ E EA).
    + assert (counts = true) as -> by (cbn in PC; intuition congruence).
      assert (NE := args_not_empty fs Parse on args ltac:(cbn; auto 7) N).
      unfold parse_run in E. destruct args as [|a0 r0]; [contradiction|]. rewrite EB, bind_err in E. exact (NX _ _ E EA).
Qed.
(** *** C196 *)
Lemma C196_command_pf : forall v fs t counts prog words on args verbose, prints_counts t counts -> understood (options t) words on args ->
  (forall reason, ~ misuse fs t on args reason) -> turned_on on "verbose" verbose ->
  exists ls st, command v fs t prog words = (ls, st, fs) /\
    ((completes v fs on verbose counts t args ls /\ st = Exit 0) \/
     (exists e, broken (e_upper v) (e_rep v) (e_card_rep v) (e_fuel v) fs verbose counts (sources t args) ls e /\ st = Died e) \/
     unread v fs verbose counts (sources t args) ls st).
Proof.
  intros v fs t counts prog words on args verbose PC U N V. destruct (C142_starts_pf v fs t prog words on args U N) as (ls & st & fs' & E & R).
  destruct (runs_any v fs on args t counts verbose ls st fs' PC N V R) as [-> H]. eauto.
Qed.
(*@ Example C196_command_ex : let v := mkenv (fun _ _ => []) (fun _ _ _ => []) (fun s => s) quoted a_card 3 (fun _ => []) in
  let run := fun t words => fst (command v clash_files t (lit "x.py") words) in
  run ListSymbols [lit "-v"; lit "simple.a"; lit "simple.b"] = ([OutL (lit "Reading simple.a...")] ++ clash_said ++ [OutL (lit "Reading simple.b...")], Died KeyError) /\
  run CheckSymbols [lit "simple.a"; lit "simple.c"; lit "simple.b"] =
    (clash_said ++ [ErrL (lit "simple.a: 1 errors encountered building symbol table."); ErrL (lit "ERROR: File ""simple.c"" does not exist!")], Exit 1) /\
  run FindSymbols [lit "-b"; lit "C"; lit "complex.a"] =
    ([ErrL (lit "complex.a: 0 errors encountered building symbol table."); OutL (lit "['C']")], Exit 0) /\
  run Parse [lit "simple.a"; lit "simple.b"; lit "simple.c"] =
    (clash_said ++ [ErrL (lit "simple.a: 1 errors encountered building symbol table.")], Died KeyError).
Proof. vm_compute. repeat split. Qed. @*)
(** *** the outcomes exclude each other *)
Lemma two_splits {A} (a : list A) : forall b x y p q, a ++ x :: p = b ++ y :: q ->
  (a = b /\ x = y /\ p = q) \/ (exists r, b = a ++ x :: r) \/ (exists r, a = b ++ y :: r).
Proof.
  induction a as [|h a IH]; intros [|k b] x y p q H; cbn [app] in H; injection H as H1 H2.
  - auto.
  - right. left. exists b. subst. reflexivity.
  - right. right. exists a. subst. reflexivity.
  - destruct (IH _ _ _ _ _ H2) as [(-> & -> & ->)|[(r & ->)|(r & ->)]]; subst; [left; auto|right; left; exists r; reflexivity|right; right; exists r; reflexivity].
Qed.
Lemma said_read upper rep crep fuel fs v counts files ds ls ns : files_said upper rep crep fuel fs v counts files ds ls ns ->
  forall f, In f files -> exists cs, source_cards fuel fs f cs.
Proof.
  induction 1 as [|files ds ls ns f seg log cs d out n FS IH RL SC SG CS]; intros g I; [destruct I|]. apply in_app_or in I.
  destruct I as [I|[<-|[]]]; eauto.
Qed.
Lemma line_fun k e a b : def_line k e a -> def_line k e b -> a = b.
Proof. intros (f & g & E & S & ->) (f' & g' & E' & S' & ->). assert (f' = f) by congruence. subst f'. rewrite (seg_unique _ _ _ S S'). reflexivity. Qed.
Lemma rendered_fun es : forall p out out', rendered p es out -> rendered p es out' -> out = out'.
Proof.
  induction es as [|[[[[t s] u] k] e] es IH]; intros p out out' A B; [cbn [rendered] in A, B; congruence|].
  destruct A as (l & o & L & A & ->), B as (l' & o' & L' & B & ->). rewrite (IH _ _ _ A B), (line_fun _ _ _ _ L L'). reflexivity.
Qed.
Lemma answer_text_fun rep crep a t t' : answer_text rep crep a t -> answer_text rep crep a t' -> t = t'.
Proof.
  apply shown_unique. intros u x y. apply shown_unique. intros ks x' y' (i & F & ->) (i' & F' & ->). rewrite (items_fun _ _ _ _ _ F F'). reflexivity.
Qed.
Lemma total_fun files n a b : total_part files n a -> total_part files n b -> a = b.
Proof. intros [[L ->]|[L ->]] [[L' ->]|[L' ->]]; try reflexivity; lia. Qed.
Lemma position_fun c a b : position c a -> position c b -> a = b.
Proof. intros (f & E & ->) (f' & E' & ->). assert (f' = f) by congruence. subst. reflexivity. Qed.
Lemma report_fun v s c a b : card_report v s c a -> card_report v s c b -> a = b.
Proof.
  assert (IC : forall m, instr_is c m -> instr_card c) by (intros m I; exists m; exact I).
  intros [N|t I S P|m t I S V P|m t ls I S V P Q] [N'|t' I' S' P'|m' t' I' S' V' P'|m' t' ls' I' S' V' P' Q'];
    try reflexivity; try contradiction; try (exfalso; eauto; fail);
    try (rewrite (position_fun _ _ _ P P'); reflexivity);
    pose proof (instr_unique _ _ _ I I') as EM; subst m'; try contradiction.
  destruct Q as (f & E & ->), Q' as (f' & E' & ->). assert (f' = f) by congruence. subst f'. rewrite (position_fun _ _ _ P P'). reflexivity.
Qed.
Lemma files_report_fun fuel fs v s files a : files_report fuel fs v s files a -> forall b, files_report fuel fs v s files b -> a = b.
Proof.
  induction 1 as [|f files log cs lss ls L SC R A IH]; intros ls' B; inversion B as [|f' files' log' cs' lss' ls2 L' SC' R' B']; subst; [reflexivity|].
  rewrite (IH _ B'), (log_unique _ _ _ _ L L'). rewrite (cards_unique _ _ _ _ _ SC SC') in R.
  assert (lss = lss').
  { clear -R R'. revert lss' R'. induction R as [|c l cs lss H R IH]; intros lss' R'; inversion R'; subst; [reflexivity|].
    f_equal; [eapply report_fun; eassumption|apply IH; assumption]. }
  subst. reflexivity.
Qed.
Lemma candidates_fun ds a b : candidates ds a -> candidates ds b -> a = b.
Proof. intros [S M] [S' M']. apply same_sorted; [exact S|exact S'|]. intros x. rewrite M, M'. reflexivity. Qed.
Lemma on_both on l : turned_on on l false -> In (lit l) on -> False.
Proof. intros H I. exact (on_false _ _ H I). Qed.
Lemma closing_fun v fs on verbose css ds ns t args a b : ~ (t = FindSymbols /\ conflicting on) ->
  closing v fs on verbose css ds ns t args a -> closing v fs on verbose css ds ns t args b -> a = b.
Proof.
  intros NC A B.
  assert (FZ : t = FindSymbols -> In (lit "fuzzy") on -> In (lit "begin") on \/ In (lit "end") on -> False).
  { intros ET I K. apply NC. split; [exact ET|]. destruct K as [K|K];
    [exists (lit "fuzzy"), (lit "begin")|exists (lit "fuzzy"), (lit "end")]; (split; [discriminate|]); cbn [In]; auto 10. }
  destruct A as [files out es R S M|files co syms ch part total T S M C U P|symbol files d l a t B1 E1 F1 I TG AC AF AT|symbol files B1 E1 F1 ND|
    symbol files names O S M|symbol files ch names O C EN|files debug n before k ls D EN CN FR];
  inversion B as [? out' es' R' S' M'|? co' syms' ch' part' total' T' S' M' C' U' P'|? ? d' l' a' t' B1' E1' F1' I' TG' AC' AF' AT'|? ? B1' E1' F1' ND'|
    ? ? names' O' S' M'|? ? ch' names' O' C' EN'|? debug' n' before' k' ls' D' EN' CN' FR']; subst;
  try (exfalso; match goal with
       | H : In ?x (?f :: _) |- _ => idtac
       | ND : forall d, In d ds -> sd_tag d <> sd_tag ?x, I : In ?x ds |- _ => exact (ND _ I eq_refl)
       | O : In (lit "begin") on \/ In (lit "end") on, B1 : turned_on on "begin" false, E1 : turned_on on "end" false |- _ =>
           destruct O as [O|O]; [exact (on_both _ _ B1 O)|exact (on_both _ _ E1 O)]
       | O : In (lit "fuzzy") on, F1 : turned_on on "fuzzy" false |- _ => exact (on_both _ _ F1 O)
       | O : In (lit "fuzzy") on, O' : In (lit "begin") on \/ In (lit "end") on |- _ => exact (FZ eq_refl O O')
       end).
  - assert (es' = es) as ->.
    { apply (same_sorted_by _ (fun x y => key_asym (fst x) (fst y))); [exact S'|exact S|]. intros [[[[t s] u] k] e]. rewrite M, M'. reflexivity. }
    rewrite (rendered_fun _ _ _ _ R R'). reflexivity.
  - pose proof (same_switch _ _ _ _ T T') as ->. assert (syms' = syms) as -> by (apply same_sorted; [exact S'|exact S|intros x; rewrite M, M'; reflexivity]).
    rewrite (candidates_fun _ _ _ C C') in U. rewrite (part_unique _ _ _ _ U U'), (total_fun _ _ _ _ P P'). reflexivity.
  - rewrite (accepted_fun _ _ _ AC _ AC') in AF. rewrite (answer_unique _ _ _ AF AF') in AT. rewrite (answer_text_fun _ _ _ _ _ AT AT'). reflexivity.
  - reflexivity.
  - assert (names' = names) as -> by (apply same_sorted; [exact S'|exact S|intros x; rewrite M, M'; reflexivity]). reflexivity.
  - rewrite (candidates_fun _ _ _ C C'). reflexivity.
  - apply app_inj_tail in EN'. destruct EN' as [_ <-]. pose proof (same_switch _ _ _ _ D D') as ->.
    rewrite (count_unique _ _ _ _ CN CN'), (files_report_fun _ _ _ _ _ _ FR _ FR'). reflexivity.
Qed.
Lemma defs_once upper fuel fs files css ds ds' : Forall2 (source_cards fuel fs) files css -> files_defs upper files css ds -> files_defs upper files css ds' -> ds = ds'.
Proof. intros F A B. destruct (C194_definitions_pf upper fuel fs files css F) as (d & _ & U). rewrite (U _ A), (U _ B). reflexivity. Qed.
Lemma css_once fuel fs files css : Forall2 (source_cards fuel fs) files css -> forall css', Forall2 (source_cards fuel fs) files css' -> css = css'.
Proof.
  induction 1 as [|f cs files css S F IH]; intros css' F'; inversion F' as [|? cs' ? css2 S' F2]; subst; [reflexivity|].
  rewrite (cards_unique _ _ _ _ _ S S'), (IH _ F2). reflexivity.
Qed.
Lemma F2_read fuel fs files css f : Forall2 (source_cards fuel fs) files css -> In f files -> exists cs, source_cards fuel fs f cs.
Proof. induction 1 as [|g cs files css S F IH]; intros I; [destruct I|]. destruct I as [<-|I]; eauto. Qed.
Lemma C196_determined_pf : forall v fs t counts on args verbose, (forall reason, ~ misuse fs t on args reason) ->
  let broken_at := broken (e_upper v) (e_rep v) (e_card_rep v) (e_fuel v) fs verbose counts (sources t args) in
  let unread_at := unread v fs verbose counts (sources t args) in
  let done := completes v fs on verbose counts t args in
  (forall ls ls', done ls -> done ls' -> ls = ls') /\
  (forall ls e ls' e', broken_at ls e -> broken_at ls' e' -> ls = ls' /\ e = e') /\
  (forall ls st ls' st', unread_at ls st -> unread_at ls' st' -> ls = ls' /\ st = st') /\
  (forall ls ls' e, done ls -> ~ broken_at ls' e) /\ (forall ls ls' st, done ls -> ~ unread_at ls' st) /\
  (forall ls e ls' st, broken_at ls e -> ~ unread_at ls' st).
Proof.
  intros v fs t counts on args verbose N. cbv zeta.
  destruct (C195_determined_pf (e_upper v) (e_rep v) (e_card_rep v) (e_fuel v) fs verbose counts (sources t args)) as (D1 & D2 & D3).
  assert (NC : ~ (t = FindSymbols /\ conflicting on)) by (intros [-> K]; exact (N _ (mu_conflict fs on _ K))).
  repeat match goal with |- _ /\ _ => split end.
  - intros ls ls' (css & ds & ns & tables & rest & F & FD & H & FS & CL & ->) (css' & ds' & ns' & tables' & rest' & F' & FD' & H' & FS' & CL' & ->).
    destruct (D1 _ _ _ _ _ _ FS FS') as (-> & -> & ->). rewrite (css_once _ _ _ _ F _ F') in CL. f_equal. exact (closing_fun _ _ _ _ _ _ _ _ _ _ _ NC CL CL').
  - exact D2.
  - intros ls st ls' st' (pre & f & post & css & ds & ns & tables & log & msg & E & F & FD & H & FS & G & ->)
      (pre' & f' & post' & css' & ds' & ns' & tables' & log' & msg' & E' & F' & FD' & H' & FS' & G' & ->).
    rewrite E in E'. destruct (C162_exclusive_pf fs (e_fuel v) f) as (U & X & _). destruct (C162_exclusive_pf fs (e_fuel v) f') as (_ & X' & _).
    destruct (two_splits _ _ _ _ _ _ E') as [(-> & -> & ->)|[(r & ->)|(r & ->)]].
    + destruct (U _ _ _ _ _ _ G G') as (-> & -> & ->). destruct (proj1 (C195_determined_pf _ _ _ _ _ _ _ _) _ _ _ _ _ _ FS FS') as (_ & -> & _). auto.
    + destruct (said_read _ _ _ _ _ _ _ _ _ _ _ FS' f) as (cs & SC); [apply in_or_app; right; left; reflexivity|]. destruct (X _ _ _ _ G SC).
    + destruct (said_read _ _ _ _ _ _ _ _ _ _ _ FS f') as (cs & SC); [apply in_or_app; right; left; reflexivity|]. destruct (X' _ _ _ _ G' SC).
  - intros ls ls' e (css & ds & ns & tables & rest & F & FD & H & FS & CL & ->). exact (D3 _ _ _ _ _ FS).
  - intros ls ls' st (css & ds & ns & tables & rest & F & FD & H & FS & CL & ->) (pre & f & post & css' & ds' & ns' & tables' & log & msg & E & F' & FD' & H' & FS' & G & _).
    destruct (F2_read _ _ _ _ f F) as (cs & SC); [rewrite E; apply in_or_app; right; left; reflexivity|]. exact (proj1 (proj2 (C162_exclusive_pf fs (e_fuel v) f)) _ _ _ _ G SC).
  - intros ls e ls' st BR (pre & f & post & css' & ds' & ns' & tables' & log & msg & E & F' & FD' & H' & FS' & G & _).
    destruct BR as (pre1 & f1 & post1 & ds1 & ls1 & ns1 & seg1 & log1 & cs1 & c1 & r1 & d1 & said1 & n1 & tag1 & kind1 & tt1 & ss1 & E1 & FS1 & RL & SC & REST).
    rewrite E in E1. pose proof (proj1 (proj2 (C162_exclusive_pf fs (e_fuel v) f))) as X.
    destruct (two_splits _ _ _ _ _ _ E1) as [(-> & -> & ->)|[(r & ->)|(r & ->)]].
    + exact (X _ _ _ _ G SC).
    + destruct (said_read _ _ _ _ _ _ _ _ _ _ _ FS1 f) as (cs & SC'); [apply in_or_app; right; left; reflexivity|]. exact (X _ _ _ _ G SC').
    + eapply (proj2 (proj2 (C195_determined_pf _ _ _ _ _ _ _ _))); [exact FS'|].
      exists pre1, f1, r, ds1, ls1, ns1, seg1, log1, cs1, c1, r1, d1, said1, n1, tag1, kind1, tt1, ss1. split; [reflexivity|]. split; [exact FS1|]. split; [exact RL|]. split; [exact SC|exact REST].
Qed.
(*@ Example C196_determined_ex : forall ls ls' st,
  completes sample_env clash_files [] false true CheckSymbols [lit "simple.a"] ls -> ~ unread sample_env clash_files false true [lit "simple.a"] ls' st.
Proof.
  intros ls ls' st A B. assert (N : forall r, ~ misuse clash_files CheckSymbols [] [lit "simple.a"] r) by (intros r M; inversion M).
  exact (proj1 (proj2 (proj2 (proj2 (proj2 (C196_determined sample_env clash_files CheckSymbols true [] [lit "simple.a"] false N))))) ls ls' st A B).
Qed. @*)
Lemma C196_status_pf : forall v fs t counts prog words on args verbose, prints_counts t counts -> understood (options t) words on args ->
  (forall reason, ~ misuse fs t on args reason) -> turned_on on "verbose" verbose ->
  let st := snd (fst (command v fs t prog words)) in
  (st = Exit 0 <-> exists css ds, Forall2 (source_cards (e_fuel v) fs) (sources t args) css /\ files_defs (e_upper v) (sources t args) css ds /\ harmless ds) /\
  (st = Exit 1 <-> exists pre f post css ds log m, sources t args = pre ++ f :: post /\ Forall2 (source_cards (e_fuel v) fs) pre css /\
     files_defs (e_upper v) pre css ds /\ harmless ds /\ gives_up fs (e_fuel v) f log [ErrL m] (Exit 1)) /\
  (forall pre f post css ds log msg st', sources t args = pre ++ f :: post -> Forall2 (source_cards (e_fuel v) fs) pre css ->
     files_defs (e_upper v) pre css ds -> harmless ds -> gives_up fs (e_fuel v) f log msg st' -> st = st') /\
  (forall e, e = KeyError \/ e = AttributeError ->
     (st = Died e <-> exists pre f post css ds, sources t args = pre ++ f :: post /\ Forall2 (source_cards (e_fuel v) fs) (pre ++ [f]) css /\
       files_defs (e_upper v) (pre ++ [f]) css ds /\ dies_of ds e)) /\
  (forall e, st = Died e -> In e [KeyError; AttributeError; TypeError; IndexError; RecursionError]).
Proof.
  intros v fs t counts prog words on args verbose PC U N V. cbv zeta.
  destruct (C196_command_pf v fs t counts prog words on args verbose PC U N V) as (ls & st & E & H). rewrite E. cbn [fst snd]. clear E.
  destruct (C196_determined_pf v fs t counts on args verbose N) as (_ & _ & _ & X1 & X2 & X3). cbv zeta in X1, X2, X3.
  (* every description is one of the outcomes *)
  assert (Y1 : forall css ds, Forall2 (source_cards (e_fuel v) fs) (sources t args) css -> files_defs (e_upper v) (sources t args) css ds -> harmless ds -> st = Exit 0).
  { intros css ds F FD HL. destruct H as [[_ ->]|[(e & BR & _)|UR]]; [reflexivity|exfalso|exfalso].
    - destruct (files_said_run (e_upper v) (e_rep v) (e_card_rep v) (e_fuel v) fs verbose counts _ css ds FD F) as [(l & tab & ns & n & _ & FS & _)|(l & e' & _ & DO & _)].
      + exact (proj2 (proj2 (C195_determined_pf _ _ _ _ _ _ _ _)) _ _ _ _ _ FS BR).
      + exact (dies_not_harmless _ _ DO HL).
    - destruct UR as (pre & f & post & css' & ds' & ns' & tables' & log & msg & E & _ & _ & _ & _ & G & _).
      destruct (F2_read _ _ _ _ f F) as (cs & SC); [rewrite E; apply in_or_app; right; left; reflexivity|]. exact (proj1 (proj2 (C162_exclusive_pf fs (e_fuel v) f)) _ _ _ _ G SC). }
  assert (Y2 : forall pre f post css ds log msg st', sources t args = pre ++ f :: post -> Forall2 (source_cards (e_fuel v) fs) pre css ->
     files_defs (e_upper v) pre css ds -> harmless ds -> gives_up fs (e_fuel v) f log msg st' -> st = st').
  { intros pre f post css ds log msg st' E F FD HL G.
    destruct (files_said_run (e_upper v) (e_rep v) (e_card_rep v) (e_fuel v) fs verbose counts _ css ds FD F) as [(l & tab & ns & n & _ & FS & _)|(l & e' & _ & DO & _)];
      [|destruct (dies_not_harmless _ _ DO HL)].
    assert (UR : unread v fs verbose counts (sources t args) (l ++ (if verbose then log else []) ++ msg) st') by (exists pre, f, post, css, ds, ns, l, log, msg; auto 10).
    destruct H as [[CO _]|[(e & BR & _)|UR']]; [destruct (X2 _ _ _ CO UR)|destruct (X3 _ _ _ _ BR UR)|].
    exact (proj2 (proj1 (proj2 (proj2 (C196_determined_pf v fs t counts on args verbose N))) _ _ _ _ UR' UR)). }
  assert (Y3 : forall pre f post css ds e, sources t args = pre ++ f :: post -> Forall2 (source_cards (e_fuel v) fs) (pre ++ [f]) css ->
     files_defs (e_upper v) (pre ++ [f]) css ds -> dies_of ds e -> st = Died e).
  { intros pre f post css ds e E F FD DO.
    destruct (files_said_run (e_upper v) (e_rep v) (e_card_rep v) (e_fuel v) fs verbose counts _ css ds FD F) as [(l & tab & ns & n & _ & _ & _ & HL & _)|(l & e' & _ & DO' & BR)];
      [destruct (dies_not_harmless _ _ DO HL)|]. rewrite (dies_fun _ _ _ DO DO').
    assert (BR' : broken (e_upper v) (e_rep v) (e_card_rep v) (e_fuel v) fs verbose counts (sources t args) l e').
    { destruct BR as (p1 & f1 & q1 & ds1 & ls1 & ns1 & seg1 & log1 & cs1 & c1 & r1 & d1 & said1 & n1 & tag1 & kind1 & tt1 & ss1 & E1 & BR).
      exists p1, f1, (q1 ++ post), ds1, ls1, ns1, seg1, log1, cs1, c1, r1, d1, said1, n1, tag1, kind1, tt1, ss1. split; [|exact BR].
      rewrite E. change (f :: post) with ([f] ++ post). rewrite app_assoc, E1, <- app_assoc. reflexivity. }
    destruct H as [[CO _]|[(e2 & BR2 & ->)|UR]]; [destruct (X1 _ _ _ CO BR')| |destruct (X3 _ _ _ _ BR' UR)].
    f_equal. exact (proj2 (proj1 (proj2 (C196_determined_pf v fs t counts on args verbose N)) _ _ _ _ BR2 BR')). }
  assert (Z : forall l e, broken (e_upper v) (e_rep v) (e_card_rep v) (e_fuel v) fs verbose counts (sources t args) l e ->
     exists pre f post css ds, sources t args = pre ++ f :: post /\ Forall2 (source_cards (e_fuel v) fs) (pre ++ [f]) css /\
       files_defs (e_upper v) (pre ++ [f]) css ds /\ dies_of ds e).
  { intros l e (p1 & f1 & q1 & ds1 & ls1 & ns1 & seg1 & log1 & cs1 & c1 & r1 & d1 & said1 & n1 & tag1 & kind1 & tt1 & ss1 & E1 & FS & RL & SC & REST).
    assert (RD : exists css, Forall2 (source_cards (e_fuel v) fs) (p1 ++ [f1]) css).
    { assert (A : forall g, In g (p1 ++ [f1]) -> exists cs, source_cards (e_fuel v) fs g cs).
      { intros g I. apply in_app_or in I. destruct I as [I|[<-|[]]]; [exact (said_read _ _ _ _ _ _ _ _ _ _ _ FS g I)|eauto]. }
      clear - A. induction (p1 ++ [f1]) as [|g l IH]; [exists []; constructor|]. destruct (A g (or_introl eq_refl)) as (cs & SC).
      destruct IH as (css & F); [intros x I; apply A; right; exact I|]. exists (cs :: css). constructor; assumption. }
    destruct RD as (css & F). destruct (C194_definitions_pf (e_upper v) (e_fuel v) fs _ css F) as (ds & FD & _).
    exists p1, f1, q1, css, ds. split; [exact E1|]. split; [exact F|]. split; [exact FD|].
    assert (BR1 : broken (e_upper v) (e_rep v) (e_card_rep v) (e_fuel v) fs verbose counts (p1 ++ [f1]) l e).
    { exists p1, f1, [], ds1, ls1, ns1, seg1, log1, cs1, c1, r1, d1, said1, n1, tag1, kind1, tt1, ss1.
      split; [reflexivity|]. split; [exact FS|]. split; [exact RL|]. split; [exact SC|exact REST]. }
    destruct (files_said_run (e_upper v) (e_rep v) (e_card_rep v) (e_fuel v) fs verbose counts _ css ds FD F) as [(l' & tab & ns & n & _ & FS' & _)|(l' & e' & _ & DO' & BR')].
    - destruct (proj2 (proj2 (C195_determined_pf _ _ _ _ _ _ _ _)) _ _ _ _ _ FS' BR1).
    - rewrite (proj2 (proj1 (proj2 (C195_determined_pf _ _ _ _ _ _ _ _)) _ _ _ _ BR1 BR')). exact DO'. }
  assert (KE : forall l e, broken (e_upper v) (e_rep v) (e_card_rep v) (e_fuel v) fs verbose counts (sources t args) l e -> e = KeyError \/ e = AttributeError).
  { intros l e BR. destruct (Z _ _ BR) as (a1 & a2 & a3 & a4 & a5 & _ & _ & _ & (b1 & b2 & b3 & _ & _ & (_ & _ & [[_ ->]|[_ ->]]))); auto. }
  split; [|split; [|split; [exact Y2|split]]].
  - split; [|intros (css & ds & F & FD & HL); exact (Y1 css ds F FD HL)]. intros ->.
    destruct H as [[(css & ds & ns & tables & rest & F & FD & HL & _) _]|[(e & _ & K)|(pre & f & post & css' & ds' & ns' & tables' & log & msg & E & _ & _ & _ & _ & G & _)]];
      [eauto|discriminate|inversion G].
  - split; [|intros (pre & f & post & css & ds & log & m & E & F & FD & HL & G); exact (Y2 pre f post css ds log _ _ E F FD HL G)]. intros ->.
    destruct H as [[_ K]|[(e & _ & K)|(pre & f & post & css' & ds' & ns' & tables' & log & msg & E & F & FD & HL & _ & G & _)]]; [discriminate|discriminate|].
    inversion G; subst. exists pre, f, post, css', ds', log, m. auto 10.
  - intros e KV. split; [|intros (pre & f & post & css & ds & E & F & FD & DO); exact (Y3 pre f post css ds e E F FD DO)]. intros ->.
    destruct H as [[_ K]|[(e' & BR & K)|(pre & f & post & css' & ds' & ns' & tables' & log & msg & E & F & FD & HL & _ & G & _)]]; [discriminate| |].
    + injection K as ->. exact (Z _ _ BR).
    + exfalso. inversion G; subst; destruct KV; discriminate.
  - intros e ->. destruct H as [[_ K]|[(e' & BR & K)|(pre & f & post & css' & ds' & ns' & tables' & log & msg & E & F & FD & HL & _ & G & _)]]; [discriminate| |].
    + injection K as ->. destruct (KE _ _ BR) as [->| ->]; cbn; auto.
    + inversion G; subst; cbn; auto 10.
Qed.
(*@ Example C196_status_ex : let run := fun t words => snd (fst (command sample_env clash_files t (lit "x.py") words)) in
  map (fun t => run t [lit "simple.a"; lit "simple.b"]) [CheckSymbols; ListSymbols; Parse] = repeat (Died KeyError) 3 /\
  map (fun t => run t [lit "simple.a"; lit "missing"; lit "simple.b"]) [CheckSymbols; ListSymbols; Parse; FindSymbols] = repeat (Exit 1) 4 /\
  run FindSymbols [lit "A"; lit "simple.a"; lit "complex.a"] = Exit 0 /\ run ListSymbols [lit "simple.a"; []] = Died TypeError.
Proof. vm_compute. repeat split. Qed. @*)
Lemma C196_same_pf : forall v fs t t' counts counts' prog prog' words words' on on' args args' verbose verbose',
  prints_counts t counts -> understood (options t) words on args -> (forall reason, ~ misuse fs t on args reason) -> turned_on on "verbose" verbose ->
  prints_counts t' counts' -> understood (options t') words' on' args' -> (forall reason, ~ misuse fs t' on' args' reason) -> turned_on on' "verbose" verbose' ->
  sources t args = sources t' args' -> snd (fst (command v fs t prog words)) = snd (fst (command v fs t' prog' words')).
Proof.
  intros v fs t t' counts counts' prog prog' words words' on on' args args' verbose verbose' PC U N V PC' U' N' V' S.
  destruct (C196_command_pf v fs t counts prog words on args verbose PC U N V) as (ls & st & E & H).
  destruct (C196_status_pf v fs t counts prog words on args verbose PC U N V) as (_ & _ & _ & B & _). cbv zeta in B.
  destruct (C196_status_pf v fs t' counts' prog' words' on' args' verbose' PC' U' N' V') as (A' & _ & G' & B' & _). cbv zeta in A', G', B'.
  rewrite <- S in A', G', B'. rewrite E in *. cbn [fst snd] in *. symmetry.
  destruct H as [[(css & ds & ns & tables & rest & F & FD & HL & _) ->]|[(e & BR & ->)|(pre & f & post & css & ds & ns & tables & log & msg & ES & F & FD & HL & _ & G & _)]].
  - apply A'. eauto.
  - assert (KE : e = KeyError \/ e = AttributeError).
    { destruct BR as (p1 & f1 & q1 & ds1 & ls1 & ns1 & seg1 & log1 & cs1 & c1 & r1 & d1 & said1 & n1 & tag1 & kind1 & tt1 & ss1 & BR).
      destruct BR as (_ & _ & _ & _ & _ & _ & _ & _ & (_ & _ & [[_ ->]|[_ ->]]) & _); auto. }
    apply (B' e KE). apply (B e KE). reflexivity.
  - exact (G' pre f post css ds log msg st ES F FD HL G).
Qed.
(*@ Example C196_same_ex : let run := fun t words => snd (fst (command sample_env clash_files t (lit "x.py") words)) in
  run ListSymbols [lit "-v"; lit "simple.a"; lit "simple.b"] = run FindSymbols [lit "-f"; lit "A"; lit "simple.a"; lit "simple.b"] /\
  run CheckSymbols [lit "-c"; lit "simple.b"; lit "x"] = run Parse [lit "simple.b"; lit "x"].
Proof. vm_compute. auto. Qed. @*)
(** *** the tools agree, C169 *)
Lemma forced ds : (forall d, In d ds -> exists e, entry_from (sd_card d) (sd_type d) e) -> forall s,
  (exists d, In d ds /\ sd_tag d = s) <-> exists seg ss kind e, in_force ds s seg ss kind e.
Proof.
  intros EF s. split; [|intros (seg & ss & kind & e & pre & d & post & -> & K & _); exists d; split; [apply in_or_app; right; left; reflexivity|congruence]].
  induction ds as [|d ds IH] using rev_ind; intros (x & I & T); [destruct I|].
  destruct (in_dec (list_eq_dec Z.eq_dec) s (map sd_tag ds)) as [J|NJ].
  - apply in_map_iff in J. destruct J as (y & TY & IY).
    destruct IH as (seg & ss & kind & e & FO); [intros z IZ; apply EF, in_or_app; left; exact IZ|eauto|].
    destruct (key_dec (key d) (s, seg, ss, kind)) as [K|K]; [|exists seg, ss, kind, e; apply force_snoc; right; auto].
    destruct (refused_dec ds d) as [R|NR]; [exists seg, ss, kind, e; apply force_snoc; right; auto|].
    destruct (EF d) as (e' & E'); [apply in_or_app; right; left; reflexivity|]. exists seg, ss, kind, e'. apply force_snoc. left. auto.
  - apply in_app_or in I. destruct I as [I|[<-|[]]]; [destruct NJ; apply in_map_iff; eauto|].
    destruct (EF d) as (e' & E'); [apply in_or_app; right; left; reflexivity|]. exists (sd_seg d), (sd_sub d), (sd_kind d), e'. apply force_snoc. left.
    split; [unfold key; congruence|]. split; [|exact E']. intros ((y & IY & TY & _) & _). apply NJ, in_map_iff. exists y. split; [congruence|exact IY].
Qed.
Lemma same_counts upper rep crep fuel fs v v' counts counts' files ds ls ns : files_said upper rep crep fuel fs v counts files ds ls ns ->
  forall ds' ls' ns', files_said upper rep crep fuel fs v' counts' files ds' ls' ns' -> ds = ds' /\ ns = ns'.
Proof.
  induction 1 as [|files ds ls ns f seg log cs d out n FS IH RL SC SG CS]; intros ds' ls' ns' H.
  - remember (@nil str) as k eqn:E. destruct H as [|files1 ? ? ? ? ? ? ? ? ? ? ? ? ? ? ?]; [auto|destruct files1; discriminate E].
  - remember (files ++ [f]) as k eqn:E. destruct H as [|files1 ds1 ls1 ns1 f1 seg1 log1 cs1 d1 out1 n1 FS1 RL1 SC1 SG1 CS1]; [destruct files; discriminate E|].
    apply snoc_inj in E. destruct E as [-> ->]. destruct (IH _ _ _ FS1) as (<- & <-).
    rewrite (cards_unique _ _ _ _ _ SC1 SC), (seg_unique _ _ _ SG1 SG) in CS1.
    destruct (cards_fun _ _ _ _ _ _ _ (source_proper _ _ _ _ SC) _ _ _ _ _ _ CS CS1) as (<- & _ & <-). auto.
Qed.
Lemma harmless_entries upper fuel fs files css ds : Forall2 (source_cards fuel fs) files css -> files_defs upper files css ds -> harmless ds ->
  forall d, In d ds -> exists e, entry_from (sd_card d) (sd_type d) e.
Proof.
  intros F FD HL. destruct (files_said_run upper (fun s => s) (fun _ => []) fuel fs false false files css ds FD F) as [(l & tab & ns & n & _ & _ & [_ _ EN] & _)|(l & e & _ & DO & _)];
    [exact EN|destruct (dies_not_harmless _ _ DO HL)].
Qed.
Lemma both_complete v fs t t' counts counts' prog prog' words words' on on' args args' verbose verbose' :
  prints_counts t counts -> understood (options t) words on args -> (forall reason, ~ misuse fs t on args reason) -> turned_on on "verbose" verbose ->
  prints_counts t' counts' -> understood (options t') words' on' args' -> (forall reason, ~ misuse fs t' on' args' reason) -> turned_on on' "verbose" verbose' ->
  sources t args = sources t' args' -> snd (fst (command v fs t prog words)) = Exit 0 ->
  exists css ds ns tables rest tables' rest',
    Forall2 (source_cards (e_fuel v) fs) (sources t args) css /\ files_defs (e_upper v) (sources t args) css ds /\ harmless ds /\
    command v fs t prog words = (tables ++ rest, Exit 0, fs) /\ command v fs t' prog' words' = (tables' ++ rest', Exit 0, fs) /\
    files_said (e_upper v) (e_rep v) (e_card_rep v) (e_fuel v) fs verbose counts (sources t args) ds tables ns /\
    files_said (e_upper v) (e_rep v) (e_card_rep v) (e_fuel v) fs verbose' counts' (sources t args) ds tables' ns /\
    closing v fs on verbose css ds ns t args rest /\ closing v fs on' verbose' css ds ns t' args' rest'.
Proof.
  intros PC U N V PC' U' N' V' S X.
  pose proof (C196_same_pf v fs t t' counts counts' prog prog' words words' on on' args args' verbose verbose' PC U N V PC' U' N' V' S) as X'.
  destruct (C196_command_pf v fs t counts prog words on args verbose PC U N V) as (ls & st & E & H).
  destruct (C196_command_pf v fs t' counts' prog' words' on' args' verbose' PC' U' N' V') as (ls' & st' & E' & H').
  rewrite E, E' in *. cbn [fst snd] in X, X'. subst st st'.
  destruct H as [[CO _]|[(e & _ & K)|(p & f & q & c1 & c2 & c3 & c4 & c5 & c6 & _ & _ & _ & _ & _ & G & _)]]; [|discriminate K|inversion G].
  destruct H' as [[CO' _]|[(e & _ & K)|(p & f & q & c1 & c2 & c3 & c4 & c5 & c6 & _ & _ & _ & _ & _ & G & _)]]; [|discriminate K|inversion G].
  destruct CO as (css & ds & ns & tables & rest & F & FD & HL & FS & CL & ->), CO' as (css' & ds' & ns' & tables' & rest' & F' & FD' & _ & FS' & CL' & ->).
  rewrite <- S in F', FD', FS'. pose proof (css_once _ _ _ _ F _ F') as <-. destruct (same_counts _ _ _ _ _ _ _ _ _ _ _ _ _ FS _ _ _ FS') as [<- <-].
  exists css, ds, ns, tables, rest, tables', rest'. auto 12.
Qed.
Lemma find_fine fs on symbol files : files <> [] -> ~ conflicting on -> forall r, ~ misuse fs FindSymbols on (symbol :: files) r.
Proof.
  intros NE NC r M. inversion M; subst; try contradiction.
  destruct files as [|g files]; [contradiction|]. match goal with H : _ < 2 |- _ => rewrite !zlen_cons in H; pose proof (zlen_nonneg files); lia end.
Qed.
Lemma files_fine fs t on files : In t [CheckSymbols; ListSymbols; Parse] -> files <> [] -> forall r, ~ misuse fs t on files r.
Proof. intros I NE r M. cbn [In] in I. destruct I as [<-|[<-|[<-|[]]]]; inversion M; subst; contradiction. Qed.

Lemma C169_any_names_pf : forall v fs prog words prog' words' on on' verbose verbose' b files symbol,
  understood (options ListSymbols) words on files -> turned_on on "verbose" verbose ->
  understood (options FindSymbols) words' on' (symbol :: files) -> turned_on on' "verbose" verbose' ->
  turned_on on' "begin" b -> turned_on on' "end" (negb b) -> (forall x, In x ["fuzzy"; "exact"]%string -> ~ In (lit x) on') ->
  files <> [] -> snd (fst (command v fs ListSymbols prog words)) = Exit 0 ->
  exists ds ns tables out es tables' names,
    command v fs ListSymbols prog words =
      (tables ++ map OutL out ++ (if fold_right Z.add 0 ns =? 0 then [] else [ErrL (str_of_Z (fold_right Z.add 0 ns) ++ lit " errors found")]), Exit 0, fs) /\
    rendered (None, None, None) es out /\ StronglySorted (fun x y => key_lt (fst x) (fst y)) es /\
    command v fs FindSymbols prog' words' = (tables' ++ (if zlen names =? 0 then [] else [OutL (names_text (e_rep v) names)]), Exit 0, fs) /\
    StronglySorted str_lt names /\
    (forall s, In s names <-> (exists seg ss kind e, In ((s, seg, ss, kind), e) es) /\ if b then exists r, s = symbol ++ r else exists r, s = r ++ symbol) /\
    files_said (e_upper v) (e_rep v) (e_card_rep v) (e_fuel v) fs verbose false files ds tables ns /\
    files_said (e_upper v) (e_rep v) (e_card_rep v) (e_fuel v) fs verbose' true files ds tables' ns.
Proof.
  intros v fs prog words prog' words' on on' verbose verbose' b files symbol U V U' V' B EB NO NE X.
  assert (NF : ~ In (lit "fuzzy") on') by (apply NO; cbn; auto). assert (NX : ~ In (lit "exact") on') by (apply NO; cbn; auto).
  assert (NC : ~ conflicting on').
  { intros (l & l' & NEQ & I & I' & O & O'). unfold turned_on in B, EB. cbn [In] in I, I'.
    assert (BN : In (lit "begin") on' -> In (lit "end") on' -> False) by (intros P Q; apply B in P; apply EB in Q; subst b; discriminate).
    destruct I as [<-|[<-|[<-|[<-|[]]]]]; destruct I' as [<-|[<-|[<-|[<-|[]]]]]; try contradiction; auto. }
  destruct (both_complete v fs ListSymbols FindSymbols false true prog prog' words words' on on' files (symbol :: files) verbose verbose'
    ltac:(cbn; auto 6) U (files_fine fs ListSymbols on files ltac:(cbn; auto) NE) V ltac:(cbn; auto) U' (find_fine fs on' symbol files NE NC) V' eq_refl X)
    as (css & ds & ns & tables & rest & tables' & rest' & F & FD & HL & E & E' & FS & FS' & CL & CL'). cbn [sources tl] in *.
  inversion CL as [? out es R S M| | | | | |]; subst. exists ds, ns, tables, out, es, tables'.
  inversion CL' as [| |? ? d l a t B1 E1 F1 I TG AC AF AT|? ? B1 E1 F1 ND|? ? names O S' M'|? ? ch names O C EN|]; subst; [exfalso|exfalso| |contradiction].
  - pose proof (on_unique _ _ _ _ B B1). pose proof (on_unique _ _ _ _ EB E1). subst b. discriminate.
  - pose proof (on_unique _ _ _ _ B B1). pose proof (on_unique _ _ _ _ EB E1). subst b. discriminate.
  - exists names. split; [exact E|]. split; [exact R|]. split; [exact S|]. split; [exact E'|]. split; [exact S'|]. split; [|auto].
    intros s. rewrite M'. rewrite (forced ds (harmless_entries _ _ _ _ _ _ F FD HL) s).
    assert (Q : (exists seg ss kind e, in_force ds s seg ss kind e) <-> (exists seg ss kind e, In (s, seg, ss, kind, e) es)).
    { split; intros (seg & ss & kind & e & H); exists seg, ss, kind, e; apply M; exact H. }
    rewrite Q. unfold turned_on in B, EB. rewrite <- B, <- EB. destruct b; cbn [negb]; intuition discriminate.
Qed.
(*@ Example C169_any_names_ex : let run := fun t words => fst (command sample_env clash_files t (lit "x.py") words) in
  exists l l', run ListSymbols [lit "simple.a"; lit "complex.a"] = (l, Exit 0) /\ run FindSymbols [lit "-b"; lit ""; lit "simple.a"; lit "complex.a"] = (l', Exit 0) /\
    In (OutL (lit "C")) l /\ In (OutL (lit "A")) l.
Proof. eexists. eexists. split; [vm_compute; reflexivity|]. split; [vm_compute; reflexivity|]. split; cbn [In]; tauto. Qed. @*)
Lemma C169_any_answer_pf : forall v fs prog words prog' words' on on' verbose verbose' files symbol,
  understood (options ListSymbols) words on files -> turned_on on "verbose" verbose ->
  understood (options FindSymbols) words' on' (symbol :: files) -> turned_on on' "verbose" verbose' ->
  (forall x, In x ["begin"; "end"; "fuzzy"]%string -> ~ In (lit x) on') ->
  files <> [] -> snd (fst (command v fs ListSymbols prog words)) = Exit 0 ->
  exists ds ns tables out es tables',
    command v fs ListSymbols prog words =
      (tables ++ map OutL out ++ (if fold_right Z.add 0 ns =? 0 then [] else [ErrL (str_of_Z (fold_right Z.add 0 ns) ++ lit " errors found")]), Exit 0, fs) /\
    rendered (None, None, None) es out /\ StronglySorted (fun x y => key_lt (fst x) (fst y)) es /\
    (((exists seg ss kind e, In ((symbol, seg, ss, kind), e) es) /\ exists t, command v fs FindSymbols prog' words' = (tables' ++ [OutL t], Exit 0, fs)) \/
     (~ (exists seg ss kind e, In ((symbol, seg, ss, kind), e) es) /\
      command v fs FindSymbols prog' words' = (tables' ++ [ErrL (lit "ERROR: Undefined symbol """ ++ symbol ++ lit """!")], Exit 0, fs))) /\
    files_said (e_upper v) (e_rep v) (e_card_rep v) (e_fuel v) fs verbose false files ds tables ns /\
    files_said (e_upper v) (e_rep v) (e_card_rep v) (e_fuel v) fs verbose' true files ds tables' ns.
Proof.
  intros v fs prog words prog' words' on on' verbose verbose' files symbol U V U' V' NO NE X.
  assert (NB : ~ In (lit "begin") on') by (apply NO; cbn; auto). assert (NN : ~ In (lit "end") on') by (apply NO; cbn; auto).
  assert (NF : ~ In (lit "fuzzy") on') by (apply NO; cbn; auto).
  assert (NC : ~ conflicting on').
  { intros (l & l' & NEQ & I & I' & O & O'). cbn [In] in I, I'.
    destruct I as [<-|[<-|[<-|[<-|[]]]]]; destruct I' as [<-|[<-|[<-|[<-|[]]]]]; contradiction. }
  destruct (both_complete v fs ListSymbols FindSymbols false true prog prog' words words' on on' files (symbol :: files) verbose verbose'
    ltac:(cbn; auto 6) U (files_fine fs ListSymbols on files ltac:(cbn; auto) NE) V ltac:(cbn; auto) U' (find_fine fs on' symbol files NE NC) V' eq_refl X)
    as (css & ds & ns & tables & rest & tables' & rest' & F & FD & HL & E & E' & FS & FS' & CL & CL'). cbn [sources tl] in *.
  inversion CL as [? out es R S M| | | | | |]; subst. exists ds, ns, tables, out, es, tables'.
  split; [exact E|]. split; [exact R|]. split; [exact S|]. split; [|auto].
  assert (Q : (exists seg ss kind e, in_force ds symbol seg ss kind e) <-> (exists seg ss kind e, In (symbol, seg, ss, kind, e) es)).
  { split; intros (seg & ss & kind & e & H); exists seg, ss, kind, e; apply M; exact H. }
  rewrite <- Q, <- (forced ds (harmless_entries _ _ _ _ _ _ F FD HL) symbol).
  inversion CL' as [| |? ? d l a t B1 E1 F1 I TG AC AF AT|? ? B1 E1 F1 ND|? ? names O S' M'|? ? ch names O C EN|]; subst; [left|right| |].
  - split; [exists d; auto|]. exists t. exact E'.
  - split; [|exact E']. intros (d & I & T). exact (ND _ I T).
  - destruct O; contradiction.
  - contradiction.
Qed.
(*@ Example C169_any_answer_ex : let run := fun t words => fst (command sample_env clash_files t (lit "x.py") words) in
  exists l, run FindSymbols [lit "B"; lit "simple.a"] = (l ++ [ErrL (lit "ERROR: Undefined symbol ""B""!")], Exit 0) /\ snd (run ListSymbols [lit "simple.a"]) = Exit 0.
Proof. eexists (_ :: _ :: _ :: _ :: _ :: []). split; [vm_compute; reflexivity|vm_compute; reflexivity]. Qed. @*)
Lemma C169_any_complex_pf : forall v fs prog words prog' words' on on' verbose verbose' files,
  understood (options ListSymbols) words on files -> turned_on on "verbose" verbose ->
  understood (options CheckSymbols) words' on' files -> turned_on on' "verbose" verbose' -> In (lit "complex") on' ->
  files <> [] -> snd (fst (command v fs ListSymbols prog words)) = Exit 0 ->
  exists ds ns tables out es tables' syms part total,
    command v fs ListSymbols prog words =
      (tables ++ map OutL out ++ (if fold_right Z.add 0 ns =? 0 then [] else [ErrL (str_of_Z (fold_right Z.add 0 ns) ++ lit " errors found")]), Exit 0, fs) /\
    rendered (None, None, None) es out /\ StronglySorted (fun x y => key_lt (fst x) (fst y)) es /\
    command v fs CheckSymbols prog' words' =
      (tables' ++ map (fun s => ErrL (lit "ERROR: symbol """ ++ s ++ lit """ has a complex assignment, but no simple assignment!")) syms ++ part ++ total, Exit 0, fs) /\
    StronglySorted str_lt syms /\
    (forall s, In s syms <-> (exists seg ss kind e, In ((s, seg, ss, kind), e) es) /\
                        forall seg ss kind e, In ((s, seg, ss, kind), e) es -> kind = lit "complex") /\
    total_part files (fold_right Z.add 0 ns + zlen syms) total /\
    files_said (e_upper v) (e_rep v) (e_card_rep v) (e_fuel v) fs verbose false files ds tables ns /\
    files_said (e_upper v) (e_rep v) (e_card_rep v) (e_fuel v) fs verbose' true files ds tables' ns.
Proof.
  intros v fs prog words prog' words' on on' verbose verbose' files U V U' V' OC NE X.
  destruct (both_complete v fs ListSymbols CheckSymbols false true prog prog' words words' on on' files files verbose verbose'
    ltac:(cbn; auto 6) U (files_fine fs ListSymbols on files ltac:(cbn; auto) NE) V ltac:(cbn; auto) U' (files_fine fs CheckSymbols on' files ltac:(cbn; auto) NE) V' eq_refl X)
    as (css & ds & ns & tables & rest & tables' & rest' & F & FD & HL & E & E' & FS & FS' & CL & CL'). cbn [sources tl] in *.
  inversion CL as [? out es R S M| | | | | |]; subst.
  inversion CL' as [|? co syms ch part total T S' M' C UP P| | | | |]; subst.
  exists ds, ns, tables, out, es, tables', syms, part, total.
  split; [exact E|]. split; [exact R|]. split; [exact S|]. split; [exact E'|]. split; [exact S'|]. split; [|auto].
  intros s. rewrite M'. assert (co = true) as -> by (apply T; exact OC).
  assert (KD : forall seg ss k e, in_force ds s seg ss k e -> is_kind k).
  { intros seg ss k e (pre & d & post & EQ & K & _). destruct (files_defs_seg _ _ _ _ FD d) as [KK _]; [rewrite EQ; apply in_or_app; right; left; reflexivity|]. congruence. }
  split.
  - intros (_ & (seg & ss & e & I) & NS). split; [exists seg, ss, (lit "complex"), e; apply M; exact I|].
    intros seg' ss' k e' J. apply M in J. destruct (KD _ _ _ _ J) as [->| ->]; [destruct NS; eauto|reflexivity].
  - intros ((seg & ss & k & e & I) & A). split; [reflexivity|]. pose proof (A _ _ _ _ I). subst k. apply M in I. split; [eauto|].
    intros (seg' & ss' & e' & J). apply M in J. discriminate (A _ _ _ _ J).
Qed.
(*@ Example C169_any_complex_ex : let run := fun t words => fst (command sample_env clash_files t (lit "x.py") words) in
  exists l, run CheckSymbols [lit "-c"; lit "complex.a"] = (l, Exit 0) /\
    In (ErrL (lit "ERROR: symbol ""C"" has a complex assignment, but no simple assignment!")) l /\ snd (run ListSymbols [lit "complex.a"]) = Exit 0.
Proof. eexists. split; [vm_compute; reflexivity|]. split; [cbn [In]; tauto|vm_compute; reflexivity]. Qed. @*)
Lemma C169_any_errors_pf : forall v fs prog words prog1 words1 prog2 words2 on on1 on2 verbose verbose1 debug file,
  understood (options Parse) words on [file] -> turned_on on "verbose" verbose -> turned_on on "debug" debug ->
  understood (options CheckSymbols) words1 on1 [file] -> turned_on on1 "verbose" verbose1 ->
  understood (options CheckInstructions) words2 on2 [file] -> ~ In (lit "count") on2 ->
  snd (fst (command v fs Parse prog words)) = Exit 0 ->
  exists cs ds said told said1 rest1 told2 n bad, source_cards (e_fuel v) fs file cs /\
    command v fs Parse prog words =
      (said ++ told ++ [OutL (10 :: lit "Source lines: " ++ str_of_Z (zlen cs)); OutL (error_count (n + bad))], Exit 0, fs) /\
    files_said (e_upper v) (e_rep v) (e_card_rep v) (e_fuel v) fs verbose true [file] ds said [n] /\
    files_report (e_fuel v) fs verbose debug [file] told /\
    command v fs CheckSymbols prog1 words1 = (said1 ++ rest1, Exit 0, fs) /\
    files_said (e_upper v) (e_rep v) (e_card_rep v) (e_fuel v) fs verbose1 true [file] ds said1 [n] /\
    command v fs CheckInstructions prog2 words2 = (told2 ++ [OutL (error_count bad)], Exit 0, fs).
Proof.
  intros v fs prog words prog1 words1 prog2 words2 on on1 on2 verbose verbose1 debug file U V D U1 V1 U2 C2 X. assert (NE : [file] <> []) by discriminate.
  destruct (both_complete v fs Parse CheckSymbols true true prog prog1 words words1 on on1 [file] [file] verbose verbose1
    ltac:(cbn; auto 6) U (files_fine fs Parse on [file] ltac:(cbn; auto) NE) V ltac:(cbn; auto) U1 (files_fine fs CheckSymbols on1 [file] ltac:(cbn; auto) NE) V1 eq_refl X)
    as (css & ds & ns & tables & rest & tables' & rest' & F & FD & HL & E & E' & FS & FS' & CL & CL'). cbn [sources tl] in *.
  inversion F as [|? cs ? ? SC F0]; subst. inversion F0; subst. clear F0.
  inversion CL as [| | | | | |? debug' n before bad told D' EN CN FR]; subst. pose proof (on_unique _ _ _ _ D D') as <-.
  assert (before = []) as ->.
  { assert (LN : forall files d l m, files_said (e_upper v) (e_rep v) (e_card_rep v) (e_fuel v) fs verbose true files d l m -> length m = length files).
    { induction 1; [reflexivity|]. rewrite !app_length. cbn [length]. lia. }
    apply LN in FS. rewrite app_length in FS. cbn [length] in FS. destruct before; [reflexivity|cbn [length] in FS; lia]. }
  cbn [app] in *. destruct (C142_starts_pf v fs CheckInstructions prog2 words2 on2 [file] U2 (files_no_misuse fs CheckInstructions on2 [file] ltac:(cbn; auto) NE)) as (ls & st & fs' & E2 & R).
  inversion R as [vb o ls0 r st0 W1 W2 W3 W4 W5 W6 W7 EC EA| | | | | | | | | |]; subst.
  assert (EC' : o_count o = false) by (destruct (o_count o); [destruct (C2 (on_true _ _ W3))|reflexivity]).
  destruct (C121_transcript_pf (e_pct v) (e_fuel v) fs' vb o [file] [cs] bad NE EC' F CN) as (told2 & un & X2 & _ & _).
  rewrite X2 in EC. assert (r = Ok tt) by congruence. subst r. apply (f_equal fst) in EC. cbn [fst] in EC. subst ls. inversion EA; subst st.
  exists cs, ds, tables, told, tables', rest', (told2 ++ map OutL un), n, bad. cbn [concat] in E. rewrite app_nil_r in E.
  split; [exact SC|]. split; [exact E|]. split; [exact FS|]. split; [exact FR|]. split; [exact E'|]. split; [exact FS'|].
  rewrite E2, map_app, app_assoc. reflexivity.
Qed.
(*@ Example C169_any_errors_ex : let run := fun t words => fst (command sample_env clash_files t (lit "x.py") words) in
  last (fst (run Parse [lit "simple.a"])) (ErrL []) = OutL (lit "1 error encountered.") /\ snd (run Parse [lit "simple.a"]) = Exit 0 /\
  nth 4 (fst (run CheckSymbols [lit "simple.a"])) (ErrL []) = ErrL (lit "simple.a: 1 errors encountered building symbol table.") /\
  run CheckInstructions [lit "simple.a"] = ([OutL (lit "0 errors encountered.")], Exit 0).
Proof. vm_compute. auto. Qed. @*)
