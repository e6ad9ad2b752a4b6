(** Everything the tools print, with all their options, in terms of the text of the sources: C161. *)
From Coq Require Import ZArith List Bool Lia Sorted.
From Verif Require Import Py LPy MInstruction MCards SCards LCards LDeck MSymbols SSymbols LSymBuild MInstructions MTools STools LTools LToolSym LListTool MDiag SDiag LDiag LQuiet MDump SDump MVerbose SVerbose LVerbose STranscript LTranscript MOptions SOptions LOptions MProcess SProcess LProcess SEnds LEnds SSource LSource SFound LFound STextSym LTextSym SReport.
#[local] Arguments Z.add : simpl never.
#[local] Arguments Z.sub : simpl never.
#[local] Arguments Z.mul : simpl never.
#[local] Arguments Z.pow : simpl never.

(** *** from the cards to the lines *)
Lemma position_place x c t : agrees x c -> position c t -> t = place x.
Proof.
  destruct x as [[f i] line]. intros (_ & _ & _ & _ & _ & _ & AF & AI & AL) (g & G & ->). rewrite AF in G. injection G as <-. rewrite AI, AL.
  unfold place. do 4 f_equal. unfold shown_text. induction (text_of (f, i, line)) as [|a l IH]; [reflexivity|]. cbn [filter].
  destruct (negb (a =? 10)) eqn:E; [cbn [filter]; rewrite E, IH; reflexivity|exact IH].
Qed.
Lemma agrees_report v s x c ls : agrees x c -> card_report v s c ls -> line_report v s x ls.
Proof.
  intros A R. pose proof (fun t => position_place x c t A) as PL. destruct x as [[f i] line]. destruct A as (AS & _ & _ & _ & AM & _ & AF & AI & AL).
  inversion R as [NI|t (m & IM) ST PO|m t IM NS IN PO|m t l IM NS NI PO CO]; subst ls; try rewrite (PL _ PO).
  - apply lr_none. intros m M. apply NI. exists m. apply AM. exact M.
  - eapply lr_star; [apply AM; exact IM|apply AS; exact ST].
  - eapply lr_known; [apply AM; exact IM|cbn [text_of snd]; rewrite <- AS; exact NS|exact IN].
  - apply lr_fault. split; [rewrite <- AS; exact NS|]. exists m. split; [apply AM; exact IM|]. split; [exact NI|].
    destruct CO as (g & EG & ->). rewrite AF in EG. injection EG as <-. rewrite AI, AL. reflexivity.
Qed.
Lemma agrees_reports {P : srcline -> list line -> Prop} {Q : card -> list line -> Prop} out cs : (forall x c ls, agrees x c -> Q c ls -> P x ls) ->
  Forall2 agrees out cs -> forall lss, Forall2 Q cs lss -> Forall2 P out lss.
Proof. intros H. induction 1 as [|x c out cs A _ IH]; intros lss G; inversion G; subst; constructor; [eapply H; eassumption|apply IH; assumption]. Qed.
Lemma report_told fuel fs v s files ls : files_report fuel fs v s files ls -> forall outs css, Forall2 (source_cards fuel fs) files css ->
  Forall2 (Forall2 agrees) outs css -> lines_told fs v (line_report v s) files outs ls.
Proof.
  induction 1 as [|f files log cs lss ls L SC CR _ IH]; intros outs css F G; inversion F as [|? cs' ? css' S F']; subst; inversion G as [|out ? outs' ? A G']; subst.
  - constructor.
  - rewrite (source_unique _ _ _ _ _ S SC) in A. constructor; [exact L| |apply (IH _ _ F' G')].
    exact (agrees_reports _ _ (agrees_report v s) A _ CR).
Qed.
Lemma agrees_search v d opcode x c ls : agrees x c -> find_report v d opcode c ls -> search_report v d opcode x ls.
Proof.
  destruct x as [[f i] line]. intros (AS & OP & NO & _ & _ & _ & AF & AI & AL) R.
  assert (LF : forall y, li_shows opcode d c y <-> line_found opcode d (f, i, line) y).
  { intros y. cbn [line_found]. unfold li_shows, li_text. rewrite AS. split.
    - intros (NS & T & op & o & O & OT & MA). apply OP in O. split; [exact NS|]. split.
      + exists op. split; [exact O|]. unfold op_text in OT. subst o. destruct O as (_ & T' & _). rewrite (strip_trim _ _ T') in MA. exact MA.
      + destruct d; [destruct T as (g & G & ->); rewrite AF in G; injection G as <-; rewrite AI, AL; reflexivity|rewrite AL in T; exact T].
    - intros (NS & (op & O & MA) & ->). split; [exact NS|]. split.
      + destruct d; [exists f; rewrite AI, AL; auto|rewrite AL; reflexivity].
      + exists op. eexists. split; [apply OP; exact O|]. split; [reflexivity|]. destruct O as (_ & T & _). rewrite (strip_trim _ _ T). exact MA. }
  inversion R as [op G E|op t O NE ST T|y S|op O NE NS H]; subst ls.
  - apply sr_none. intros op' O. cbn [text_of snd] in O. destruct E as [->| ->]; [exact (proj1 NO G op' O)|].
    apply OP in G. destruct G as (_ & _ & N). exact (N eq_refl).
  - eapply sr_star; [apply OP; exact O|apply AS; exact ST|]. destruct T as (g & G & ->). rewrite AF in G. injection G as <-. rewrite AI, AL. reflexivity.
  - apply sr_found. apply LF. exact S.
  - eapply sr_other; [apply OP; exact O|cbn [text_of snd]; rewrite <- AS; exact NS|]. intros y Y. apply (H y). apply LF. exact Y.
Qed.
Lemma found_told fuel fs v d opcode files ls : files_found fuel fs v d opcode files ls -> forall outs css, Forall2 (source_cards fuel fs) files css ->
  Forall2 (Forall2 agrees) outs css -> lines_told fs v (search_report v d opcode) files outs ls.
Proof.
  induction 1 as [|f files log cs lss ls L SC CR _ IH]; intros outs css F G; inversion F as [|? cs' ? css' S F']; subst; inversion G as [|out ? outs' ? A G']; subst.
  - constructor.
  - rewrite (source_unique _ _ _ _ _ S SC) in A. constructor; [exact L| |apply (IH _ _ F' G')].
    exact (agrees_reports _ _ (agrees_search v d opcode) A _ CR).
Qed.
Lemma total_concat {A} (l : list (list A)) : total_of (map zlen l) = zlen (concat l).
Proof. induction l as [|x l IH]; [reflexivity|]. cbn [map concat total_of fold_right]. fold (total_of (map zlen l)). rewrite zlen_app, IH. reflexivity. Qed.
Lemma tables_told upper rep card_rep fuel fs v counts files mss ls : tables_said upper rep card_rep fuel fs v counts files mss ls ->
  forall outs css, Forall2 (source_cards fuel fs) files css -> Forall2 (Forall2 agrees) outs css ->
  labels_told fs upper rep v counts files outs (map zlen mss) ls.
Proof.
  induction 1 as [|f files log cs ms ds mss ls RL SC R D T IH]; intros outs css F A.
  - inversion F; subst. inversion A; subst. constructor.
  - inversion F as [|? cs' ? css' S F']; subst. inversion A as [|out ? outs' ? A1 A2]; subst.
    rewrite (source_unique _ _ _ _ _ S SC) in A1. destruct (blocks_said _ _ _ _ _ A1 _ _ R D) as (bs & P & E & Z).
    cbn [map]. rewrite Z, E. constructor; [exact RL|exact P|]. apply (IH _ css'); assumption.
Qed.
Lemma report_labels upper rep card_rep fuel fs v files ls : tables_report upper rep card_rep fuel fs v files ls ->
  forall outs css, Forall2 (source_cards fuel fs) files css -> Forall2 (Forall2 agrees) outs css ->
  exists mss, Forall2 (reported upper) css mss /\ labels_told fs upper rep v true files outs (map zlen mss) ls.
Proof.
  induction 1 as [|f files log cs ms ds ls RL SC R D T IH]; intros outs css F A.
  - inversion F; subst. inversion A; subst. exists []. split; constructor.
  - inversion F as [|? cs' ? css' S F']; subst. inversion A as [|out ? outs' ? A1 A2]; subst.
    pose proof (source_unique _ _ _ _ _ S SC) as E. subst cs'. destruct (blocks_said _ _ _ _ _ A1 _ _ R D) as (bs & P & E & Z).
    destruct (IH _ css' F' A2) as (mss & RM & LT). exists (ms :: mss). split; [constructor; assumption|].
    cbn [map]. rewrite Z, E. apply (lb_file _ _ _ _ true _ _ _ _ _ _ _ _ RL P LT).
Qed.
Lemma reported_len upper cs ms ms' : reported upper cs ms -> reported upper cs ms' -> zlen ms = zlen ms'.
Proof.
  intros R. revert ms'. induction R as [|c cs m ms NS C R IH|c cs ms G R IH]; intros ms' R'; inversion R' as [|? ? m' ms2 NS' C' R2|? ? ? G' R2]; subst.
  - reflexivity.
  - rewrite !zlen_cons, (IH _ R2). reflexivity.
  - exfalso. destruct G' as [G'|G']; [exact (NS G')|exact (G' _ C)].
  - exfalso. destruct G as [G|G]; [exact (NS' G)|exact (G _ C')].
  - exact (IH _ R2).
Qed.
Lemma invalid_lines out cs n : Forall2 agrees out cs -> count_of (fun x => exists ls, mnemonic_fault x ls) out n ->
  count_of (fun c => ~ starred c /\ exists m, instr_is c m /\ ~ In m INSTRUCTIONS) cs n.
Proof.
  intros A C. apply (agrees_count (fun x => exists ls, mnemonic_fault x ls) _ out); [|exact A|exact C].
  intros x c Q. rewrite fault_ex. apply agrees_invalid. exact Q.
Qed.
Lemma occurs_cards out cs m n : Forall2 agrees out cs -> (occurs out m n <-> frequency cs m n).
Proof.
  intros A. apply agrees_count; [|exact A]. intros [[f i] line] c (SS & _ & _ & _ & M & _). cbn [text_of snd]. rewrite SS, M. reflexivity.
Qed.
Lemma unused_lines out cs w l : Forall2 agrees out cs -> unused_part cs w l -> unused_text out w l.
Proof.
  intros A U. inversion U as [|ms SS M]; subst; [reflexivity|]. exists ms. split; [reflexivity|]. split; [exact SS|].
  intros m. rewrite M, (occurs_cards _ _ _ _ A). reflexivity.
Qed.

(** with -c and -u and without a single instruction no row is shown, so that nothing is divided *)
Lemma count_rows pct fuel fs v o files css n total : files <> [] -> o_count o = true ->
  Forall2 (source_cards fuel fs) files css ->
  count_of (fun c => ~ starred c /\ exists m, instr_is c m /\ ~ In m INSTRUCTIONS) (concat css) n ->
  count_of instr_card (concat css) total -> total <> 0 \/ o_unused o = true ->
  exists ls rows unused, check_instructions_run pct fuel fs v o files =
      (ls ++ map OutL ([10 :: lit "Source lines: " ++ str_of_Z (zlen (concat css)); 10 :: lit "Instruction Frequencies:";
                        freq_line (lit "Total") total (lit "100.00")] ++
                       map (fun r => freq_line (fst r) (snd r) (pct (snd r) total)) rows ++ unused ++ [error_count n]), Ok tt) /\
    files_report fuel fs v (o_print o) files ls /\
    NoDup (map fst rows) /\
    (forall m k, In (m, k) rows <-> In m INSTRUCTIONS /\ frequency (concat css) m k /\ (o_unused o = true -> k <> 0)) /\
    (o_sort o = true -> StronglySorted by_frequency rows) /\
    (o_sort o = false -> StronglySorted (fun a b => str_lt (fst a) (fst b)) rows) /\
    unused_part (concat css) (o_unused o) unused.
Proof.
  intros NE C F CN CT NZ. destruct (Z.eq_dec total 0) as [->|N]; [|exact (C121_count_pf pct fuel fs v o files css n total NE C F CN CT N)].
  destruct NZ as [NZ|UN]; [contradiction|].
  destruct (ci_run pct fuel fs v o files css NE F) as (ls & s & E & R & I).
  assert (CE := count_unique _ _ _ _ (proj1 (proj2 (proj2 I))) CN). assert (IT := count_unique _ _ _ _ (proj1 (proj2 I)) CT).
  destruct (rows_spec o s (inv_keys _ _ I) (inv_nodup _ _ I)) as (_ & R2 & _).
  assert (NF : forall m k, frequency (concat css) m k -> k = 0).
  { intros m k FQ. apply (proj2 (count_pos _ _ _ FQ)). intros c J (_ & M). pose proof (proj1 (proj2 (count_pos _ _ _ CT)) eq_refl c J) as X.
    apply X. exists m. exact M. }
  assert (ER : ci_table_rows o s = []).
  { destruct (ci_table_rows o s) as [|[m k] rows]; [reflexivity|]. exfalso. destruct (proj1 (R2 m k) (or_introl eq_refl)) as (D & K).
    apply (K UN). apply (NF m). destruct I as (_ & _ & _ & _ & G & _). exact (G _ _ D). }
  rewrite E. unfold ci_report_run, ci_report, ci_rows. rewrite C. cbn [ci_instrs ci_tab without_out].
  fold (ci_table_rows o s). rewrite ER. cbn [mapr bind ci_out without_out ci_errs ci_tab ci_lines fst snd]. cbv zeta. rewrite CE, IT, (proj1 I), UN.
  exists ls, [], ((10 :: lit "Unused Instructions:") :: map fst (filter (fun r => snd r =? 0) (by_name (ci_tab s)))).
  split; [reflexivity|]. split; [exact R|]. split; [constructor|]. split; [|split; [intros; constructor|split; [intros; constructor|exact (unused_ok _ _ I)]]].
  intros m k. split; [intros []|]. intros (_ & FQ & K). apply (K eq_refl). exact (NF _ _ FQ).
Qed.

(** for examples: an environment that shows strings as they are *)
Definition sample_env : env :=
  mkenv (fun _ _ => lit " 50.00") (fun _ cs _ => map (fun c => (c, 1)) cs) (map (fun c => if (97 <=? c) && (c <=? 122) then c - 32 else c)) (fun s => s) (fun _ => lit "?") 3 (fun _ => []).

(** *** C161 *)
Lemma C161_parse_pf : forall fs prog words on verbose debug files outs bad,
  understood (options Parse) words on files -> turned_on on "verbose" verbose -> turned_on on "debug" debug ->
  files <> [] -> ~ In [] files -> plain_names files -> Forall2 (source fs) files outs ->
  count_of (fun x => exists ls, mnemonic_fault x ls) (concat outs) bad ->
  exists k, forall v, (k <= e_fuel v)%nat -> exists said told before n,
    command v fs Parse prog words =
      (said ++ told ++ [OutL (10 :: lit "Source lines: " ++ str_of_Z (zlen (concat outs))); OutL (error_count (n + bad))], Exit 0, fs) /\
    labels_told fs (e_upper v) (e_rep v) verbose true files outs (before ++ [n]) said /\
    lines_told fs verbose (line_report verbose debug) files outs told.
Proof.
  intros fs prog words on verbose debug files outs bad U V D NE N PN S CB. destruct (sources_read fs files outs N S) as (k & css & A & K).
  exists k. intros v L. specialize (K _ L). assert (A' := F2_concat _ _ _ A).
  destruct (C142_starts_pf v fs Parse prog words on files U (files_no_misuse fs Parse on files ltac:(cbn; auto 8) NE)) as (ls & st & fs' & E & R).
  inversion R as [| | | | | |vb db ls0 r st0 V1 V2 EC EA| | | |]; subst.
  rewrite <- (on_unique _ _ _ _ V V1), <- (on_unique _ _ _ _ D V2) in EC.
  assert (LC : exists before last_cs, css = before ++ [last_cs]).
  { destruct css as [|c0 cs0] using rev_ind; [inversion K; subst; contradiction|eauto]. }
  destruct LC as (bc & last_cs & LC).
  destruct (C120_transcript_pf (e_upper v) (e_rep v) (e_card_rep v) (e_fuel v) fs' verbose debug files css last_cs bad NE K PN ltac:(eauto) (invalid_lines _ _ _ A' CB))
    as (tables & told & ms & X & TR & FR & RM).
  rewrite X in EC. assert (r = Ok tt) by congruence. subst r. apply (f_equal fst) in EC. cbn [fst] in EC. subst ls. inversion EA; subst st.
  destruct (report_labels _ _ _ _ _ _ _ _ TR _ _ K A) as (mss & RS & LT).
  rewrite LC in RS. apply Forall2_app_inv_l in RS. destruct RS as (m1 & m2 & _ & F2 & ->). inversion F2 as [|? m0 ? ? R0 F3]; subst. inversion F3; subst.
  exists tables, told, (map zlen m1), (zlen ms). rewrite E, (agrees_len _ _ A'). split; [reflexivity|].
  split; [|exact (report_told _ _ _ _ _ _ FR _ _ K A)]. rewrite (reported_len _ _ _ _ RM R0). rewrite map_app in LT. exact LT.
Qed.
(*@ Example C161_parse_ex : Forall2 (source sample) [lit "a.arg"] [sample_lines] /\
  fst (command sample_env sample Parse (lit "x.py") [lit "-vd"; lit "a.arg"; lit "inc"]) =
    ([OutL (lit "Reading a.arg..."); OutL (lit "Skipping meta-comment, file a.arg, line 1"); OutL (lit "Reading inc...");
     ErrL (lit "*** ERROR: Symbol x is ill-formed (case)!");
     ErrL (lit "Current definition: {'file': inc, 'line': 2, 'lognum': None, 'tagtype': None, 'card': ?}");
     ErrL (lit "a.arg: 1 errors encountered building symbol table."); OutL (lit "Reading inc...");
     ErrL (lit "*** ERROR: Symbol x is ill-formed (case)!");
     ErrL (lit "Current definition: {'file': inc, 'line': 2, 'lognum': None, 'tagtype': None, 'card': ?}");
     ErrL (lit "inc: 1 errors encountered building symbol table.");
     OutL (lit "Reading a.arg..."); OutL (lit "Skipping meta-comment, file a.arg, line 1"); OutL (lit "Reading inc...");
     OutL (lit "inc 1         N          ASSIGN       5"); OutL (lit "a.arg 3         A          DA,B         1");
     OutL (lit "a.arg 5        *           FOO");
     OutL (lit "Skipping card with * in column 8:"); OutL (lit "a.arg 5        *           FOO");
     OutL (lit "a.arg 6   12    A          FOO"); OutL (lit "*** ERROR: Invalid instruction ""FOO"":");
     OutL (lit "File a.arg, line 6:   12    A          FOO");
     OutL (lit "Reading inc..."); OutL (lit "inc 1         N          ASSIGN       5");
     OutL (10 :: lit "Source lines: 8"); OutL (lit "2 errors encountered.")], Exit 0).
Proof. split; [constructor; [exact sample_ok|constructor]|vm_compute; reflexivity]. Qed. @*)
Lemma C161_check_pf : forall fs prog words on verbose show unused files outs bad,
  understood (options CheckInstructions) words on files ->
  turned_on on "verbose" verbose -> turned_on on "print-opcodes" show -> turned_on on "unused" unused -> ~ In (lit "count") on ->
  files <> [] -> ~ In [] files -> Forall2 (source fs) files outs ->
  count_of (fun x => exists ls, mnemonic_fault x ls) (concat outs) bad ->
  exists k, forall v, (k <= e_fuel v)%nat -> exists told un,
    command v fs CheckInstructions prog words = (told ++ map OutL (un ++ [error_count bad]), Exit 0, fs) /\
    lines_told fs verbose (line_report verbose show) files outs told /\
    unused_text (concat outs) unused un.
Proof.
  intros fs prog words on verbose show unused files outs bad U V P UN NC NE N S CB. destruct (sources_read fs files outs N S) as (k & css & A & K).
  exists k. intros v L. specialize (K _ L). assert (A' := F2_concat _ _ _ A).
  destruct (C142_starts_pf v fs CheckInstructions prog words on files U (files_no_misuse fs CheckInstructions on files ltac:(cbn; auto) NE)) as (ls & st & fs' & E & R).
  inversion R as [vb o ls0 r st0 V1 V2 V3 V4 V5 V6 V7 EC EA| | | | | | | | | |]; subst.
  assert (EC' := off _ _ _ V3 NC). rewrite <- (on_unique _ _ _ _ V V1) in EC.
  destruct (C121_transcript_pf (e_pct v) (e_fuel v) fs' verbose o files css bad NE EC' K (invalid_lines _ _ _ A' CB)) as (told & un & X & FR & UP).
  rewrite <- (on_unique _ _ _ _ P V5) in FR. rewrite <- (on_unique _ _ _ _ UN V7) in UP.
  rewrite X in EC. assert (r = Ok tt) by congruence. subst r. apply (f_equal fst) in EC. cbn [fst] in EC. subst ls. inversion EA; subst st.
  exists told, un. split; [exact E|]. split; [exact (report_told _ _ _ _ _ _ FR _ _ K A)|exact (unused_lines _ _ _ _ A' UP)].
Qed.
(*@ Example C161_check_ex : Forall2 (source sample) [lit "a.arg"] [sample_lines] /\
  firstn 14 (fst (fst (command sample_env sample CheckInstructions (lit "x.py") [lit "-pvu"; lit "a.arg"]))) =
    [OutL (lit "Reading a.arg..."); OutL (lit "Skipping meta-comment, file a.arg, line 1"); OutL (lit "Reading inc...");
     OutL (lit "inc 1         N          ASSIGN       5"); OutL (lit "a.arg 3         A          DA,B         1");
     OutL (lit "a.arg 5        *           FOO");
     OutL (lit "Skipping card with * in column 8:"); OutL (lit "a.arg 5        *           FOO");
     OutL (lit "a.arg 6   12    A          FOO"); OutL (lit "*** ERROR: Invalid instruction ""FOO"":");
     OutL (lit "File a.arg, line 6:   12    A          FOO");
     OutL (10 :: lit "Unused Instructions:"); OutL (lit "ALF"); OutL (lit "ARGUS")] /\
  last (fst (fst (command sample_env sample CheckInstructions (lit "x.py") [lit "-pvu"; lit "a.arg"]))) (OutL []) = OutL (lit "1 error encountered.").
Proof. split; [constructor; [exact sample_ok|constructor]|]. split; vm_compute; reflexivity. Qed. @*)
Lemma C161_count_pf : forall fs prog words on verbose show unused sorted files outs bad total,
  understood (options CheckInstructions) words on files ->
  turned_on on "verbose" verbose -> turned_on on "print-opcodes" show -> turned_on on "unused" unused -> turned_on on "sort" sorted ->
  In (lit "count") on -> files <> [] -> ~ In [] files -> Forall2 (source fs) files outs ->
  count_of (fun x => exists ls, mnemonic_fault x ls) (concat outs) bad ->
  count_of (fun x => exists m, mnemonic_at (text_of x) m) (concat outs) total -> total <> 0 \/ unused = true ->
  exists k, forall v, (k <= e_fuel v)%nat -> exists told rows un,
    command v fs CheckInstructions prog words =
      (told ++ map OutL ([10 :: lit "Source lines: " ++ str_of_Z (zlen (concat outs)); 10 :: lit "Instruction Frequencies:";
                          freq_line (lit "Total") total (lit "100.00")] ++
                         map (fun r => freq_line (fst r) (snd r) (e_pct v (snd r) total)) rows ++ un ++ [error_count bad]), Exit 0, fs) /\
    lines_told fs verbose (line_report verbose show) files outs told /\
    NoDup (map fst rows) /\
    (forall m n, In (m, n) rows <-> In m INSTRUCTIONS /\ occurs (concat outs) m n /\ (unused = true -> n <> 0)) /\
    (if sorted then StronglySorted by_frequency rows else StronglySorted (fun a b => str_lt (fst a) (fst b)) rows) /\
    unused_text (concat outs) unused un.
Proof.
  intros fs prog words on verbose show unused sorted files outs bad total U V P UN SO C NE N S CB CT NZ. destruct (sources_read fs files outs N S) as (k & css & A & K).
  exists k. intros v L. specialize (K _ L). assert (A' := F2_concat _ _ _ A).
  destruct (C142_starts_pf v fs CheckInstructions prog words on files U (files_no_misuse fs CheckInstructions on files ltac:(cbn; auto) NE)) as (ls & st & fs' & E & R).
  inversion R as [vb o ls0 r st0 V1 V2 V3 V4 V5 V6 V7 EC EA| | | | | | | | | |]; subst.
  assert (EC' := proj2 V3 C). rewrite <- (on_unique _ _ _ _ V V1) in EC.
  assert (CI : count_of instr_card (concat css) total).
  { apply (agrees_count (fun x => exists m, mnemonic_at (text_of x) m) _ (concat outs)); [|exact A'|exact CT].
    intros [[f i] line] c (_ & _ & _ & _ & M & _). cbn [text_of snd]. split; intros (m & H); exists m; apply M; exact H. }
  rewrite (on_unique _ _ _ _ UN V7) in NZ.
  destruct (count_rows (e_pct v) (e_fuel v) fs' verbose o files css bad total NE EC' K (invalid_lines _ _ _ A' CB) CI NZ) as (told & rows & un & X & FR & R1 & R2 & R3 & R4 & UP).
  rewrite <- (on_unique _ _ _ _ P V5) in FR. rewrite <- (on_unique _ _ _ _ UN V7) in UP, R2. rewrite <- (on_unique _ _ _ _ SO V6) in R3, R4.
  rewrite X in EC. assert (r = Ok tt) by congruence. subst r. apply (f_equal fst) in EC. cbn [fst] in EC. subst ls. inversion EA; subst st.
  exists told, rows, un. rewrite <- (agrees_len _ _ A'). split; [exact E|]. split; [exact (report_told _ _ _ _ _ _ FR _ _ K A)|]. split; [exact R1|].
  split; [intros m n; rewrite R2, (occurs_cards _ _ _ _ A'); reflexivity|]. split; [destruct sorted; auto|exact (unused_lines _ _ _ _ A' UP)].
Qed.
(*@ Example C161_count_ex : Forall2 (source sample) [lit "a.arg"] [sample_lines] /\
  firstn 13 (fst (fst (command sample_env sample CheckInstructions (lit "x.py") [lit "-cpsu"; lit "a.arg"]))) =
    [OutL (lit "inc 1         N          ASSIGN       5"); OutL (lit "a.arg 3         A          DA,B         1");
     OutL (lit "a.arg 5        *           FOO");
     OutL (lit "a.arg 6   12    A          FOO"); OutL (lit "*** ERROR: Invalid instruction ""FOO"":");
     OutL (lit "File a.arg, line 6:   12    A          FOO");
     OutL (10 :: lit "Source lines: 6"); OutL (10 :: lit "Instruction Frequencies:"); OutL (lit "Total         4  100.00%");
     OutL (lit "DA            1   50.00%"); OutL (lit "ASSIGN        1   50.00%");
     OutL (10 :: lit "Unused Instructions:"); OutL (lit "ALF")].
Proof. split; [constructor; [exact sample_ok|constructor]|vm_compute; reflexivity]. Qed. @*)
Lemma C161_none_pf : forall fs prog words on verbose show files outs,
  understood (options CheckInstructions) words on files ->
  turned_on on "verbose" verbose -> turned_on on "print-opcodes" show -> ~ In (lit "unused") on ->
  In (lit "count") on -> files <> [] -> ~ In [] files -> Forall2 (source fs) files outs ->
  (forall x m, In x (concat outs) -> ~ mnemonic_at (text_of x) m) ->
  exists k, forall v, (k <= e_fuel v)%nat -> exists told,
    command v fs CheckInstructions prog words =
      (told ++ map OutL [10 :: lit "Source lines: " ++ str_of_Z (zlen (concat outs)); 10 :: lit "Instruction Frequencies:";
                         freq_line (lit "Total") 0 (lit "100.00")], Died ZeroDivisionError, fs) /\
    lines_told fs verbose (line_report verbose show) files outs told.
Proof.
  intros fs prog words on verbose show files outs U V P NU C NE N S NI. destruct (sources_read fs files outs N S) as (k & css & A & K).
  exists k. intros v L. specialize (K _ L). assert (A' := F2_concat _ _ _ A).
  destruct (C142_starts_pf v fs CheckInstructions prog words on files U (files_no_misuse fs CheckInstructions on files ltac:(cbn; auto) NE)) as (ls & st & fs' & E & R).
  inversion R as [vb o ls0 r st0 V1 V2 V3 V4 V5 V6 V7 EC EA| | | | | | | | | |]; subst.
  assert (EC' := proj2 V3 C). assert (EU := off _ _ _ V7 NU). rewrite <- (on_unique _ _ _ _ V V1) in EC.
  destruct (C121_no_instructions_pf (e_pct v) (e_fuel v) fs' verbose o files css NE EC' EU K) as (told & X & FR).
  { intros c I (m & M). destruct (F2_In_r _ _ _ _ A' I) as ([[f i] line] & J & (_ & _ & _ & _ & AM & _)). apply (NI _ m J). apply AM. exact M. }
  rewrite <- (on_unique _ _ _ _ P V5) in FR.
  rewrite X in EC. assert (r = Err ZeroDivisionError) by congruence. subst r. apply (f_equal fst) in EC. cbn [fst] in EC. subst ls. inversion EA; subst st; try discriminate.
  exists told. rewrite <- (agrees_len _ _ A'). split; [exact E|exact (report_told _ _ _ _ _ _ FR _ _ K A)].
Qed.
(*@ Example C161_none_ex : let fs := fun f => if eqb f (lit "a") then Some (lit "R TEXT") else None in
  fst (command sample_env fs CheckInstructions (lit "x.py") [lit "-cv"; lit "a"]) =
    ([OutL (lit "Reading a..."); OutL (10 :: lit "Source lines: 1"); OutL (10 :: lit "Instruction Frequencies:"); OutL (lit "Total         0  100.00%")],
     Died ZeroDivisionError).
Proof. vm_compute. reflexivity. Qed. @*)
Lemma C161_search_pf : forall fs prog words on verbose details opcode m files outs,
  understood (options ListInstructions) words on (opcode :: files) -> turned_on on "verbose" verbose -> turned_on on "details" details ->
  mnemonic_of opcode m -> In m INSTRUCTIONS -> ~ In [] files -> Forall2 (source fs) files outs ->
  exists k, forall v, (k <= e_fuel v)%nat -> exists told,
    command v fs ListInstructions prog words = (told, Exit 0, fs) /\
    lines_told fs verbose (search_report verbose details opcode) files outs told.
Proof.
  intros fs prog words on verbose details opcode m files outs U V D M I N S. destruct (sources_read fs files outs N S) as (k & css & A & K).
  exists k. intros v L. specialize (K _ L).
  assert (NM : forall w, ~ misuse fs ListInstructions on (opcode :: files) w).
  { intros w X. inversion X; subst; try (cbn [In] in *; intuition discriminate).
    apply mnemonic_ok in M. match goal with H : mnemonic_of opcode _ |- _ => apply mnemonic_ok in H; rewrite H in M end. subst. contradiction. }
  destruct (C142_starts_pf v fs ListInstructions prog words on (opcode :: files) U NM) as (ls & st & fs' & E & R).
  inversion R as [| | |vb dt ls0 r st0 V1 V2 EC EA| | | | | | |]; subst. rewrite <- (on_unique _ _ _ _ V V1), <- (on_unique _ _ _ _ D V2) in EC.
  destruct (C138_transcript_pf (e_fuel v) fs' verbose details opcode m files css M I K) as (told & X & FF).
  rewrite X in EC. injection EC as <- <-. inversion EA; subst. exists told. split; [exact E|]. exact (found_told _ _ _ _ _ _ _ FF _ _ K A).
Qed.
(*@ Example C161_search_ex : Forall2 (source sample) [lit "a.arg"] [sample_lines] /\
  fst (command sample_env sample ListInstructions (lit "x.py") [lit "-v"; lit "DA"; lit "a.arg"]) =
    ([OutL (lit "Reading a.arg..."); OutL (lit "Skipping meta-comment, file a.arg, line 1"); OutL (lit "Reading inc...");
     OutL (lit "        A          DA,B         1"); OutL (lit "Skipping card with * in column 8:");
     OutL (lit "a.arg                                                 5        *           FOO")], Exit 0).
Proof. split; [constructor; [exact sample_ok|constructor]|vm_compute; reflexivity]. Qed. @*)
Lemma C161_list_pf : forall fs prog words on verbose files outs,
  understood (options ListSymbols) words on files -> turned_on on "verbose" verbose ->
  files <> [] -> ~ In [] files -> plain_names files -> Forall2 (source fs) files outs ->
  exists k, forall v, (k <= e_fuel v)%nat -> exists said shown rows ns,
    command v fs ListSymbols prog words =
      (said ++ map OutL shown ++ (if total_of ns =? 0 then [] else [ErrL (str_of_Z (total_of ns) ++ lit " errors found")]), Exit 0, fs) /\
    labels_told fs (e_upper v) (e_rep v) verbose false files outs ns said /\
    laid_out None rows shown /\
    StronglySorted (fun a b => key_lt (fst a) (fst b)) rows /\
    (forall t s u k y, In ((t, s, u, k), y) rows <->
       exists x tt, defined_at (e_upper v) files outs t s u k x tt /\ symbol_row k x tt y).
Proof.
  intros fs prog words on verbose files outs U V NE N PN S. destruct (sources_read fs files outs N S) as (k & css & A & K).
  exists k. intros v L. specialize (K _ L).
  destruct (C142_starts_pf v fs ListSymbols prog words on files U (files_no_misuse fs ListSymbols on files ltac:(cbn; auto 8) NE)) as (ls & st & fs' & E & R).
  inversion R as [| | | |vb ls0 r st0 V1 EC EA| | | | | |]; subst. rewrite <- (on_unique _ _ _ _ V V1) in EC.
  destruct (C140_list_pf (e_upper v) (e_rep v) (e_card_rep v) (e_fuel v) fs' verbose files css NE K PN) as (tb & mss & out & es & X & T & RD & SS & G).
  rewrite X in EC. assert (r = Ok tt) by congruence. subst r. apply (f_equal fst) in EC. cbn [fst] in EC. subst ls. inversion EA; subst.
  destruct (rendered_rows None es out RD) as (rows & LO & F).
  exists tb, out, rows, (map zlen mss). rewrite total_concat. split; [exact E|]. split; [exact (tables_told _ _ _ _ _ _ _ _ _ _ T _ _ K A)|]. split; [exact LO|].
  split; [|exact (rows_of _ _ _ _ _ _ A F G)].
  clear - F SS. induction F as [|x r es rows [E _] F IH]; [constructor|]. inversion SS as [|? ? SS' H]; subst. constructor; [apply IH; exact SS'|].
  rewrite Forall_forall in *. intros y I. destruct (F2_In_r _ _ _ _ F I) as (z & J & [E' _]). clear IH. cbn beta in E'. destruct x as [q ex], r as [q' ey], z as [w ez], y as [w' ew]. cbn [fst snd] in E, E' |- *. subst. exact (H _ J).
Qed.
(*@ Example C161_list_ex : Forall2 (source sample) [lit "a.arg"] [sample_lines] /\
  fst (command sample_env sample ListSymbols (lit "x.py") [lit "-v"; lit "inc"]) =
    ([OutL (lit "Reading inc...");
     ErrL (lit "*** ERROR: Symbol x is ill-formed (case)!");
     ErrL (lit "Current definition: {'file': inc, 'line': 2, 'lognum': None, 'tagtype': None, 'card': ?}");
     OutL (lit "N"); OutL (lit "  Segment: inc"); OutL (lit "    Subsegment: 1");
     OutL (lit "        <complex>   inc:1                                               N          ASSIGN       5");
     ErrL (lit "1 errors found")], Exit 0).
Proof. split; [constructor; [exact sample_ok|constructor]|vm_compute; reflexivity]. Qed. @*)
Lemma C161_symbols_pf : forall fs prog words on verbose complex files outs,
  understood (options CheckSymbols) words on files -> turned_on on "verbose" verbose -> turned_on on "complex" complex ->
  files <> [] -> ~ In [] files -> plain_names files -> Forall2 (source fs) files outs ->
  exists k, forall v, (k <= e_fuel v)%nat -> exists said syms choices part total ns,
    command v fs CheckSymbols prog words =
      (said ++
       map (fun s => ErrL (lit "ERROR: symbol """ ++ s ++ lit """ has a complex assignment, but no simple assignment!")) syms ++
       part ++ total, Exit 0, fs) /\
    labels_told fs (e_upper v) (e_rep v) verbose true files outs ns said /\
    StronglySorted str_lt syms /\
    (forall s, In s syms <-> complex = true /\
       (exists out x tt, In out outs /\ In x out /\ line_defines (e_upper v) (text_of x) s (lit "complex") tt) /\
       ~ (exists out x tt, In out outs /\ In x out /\ line_defines (e_upper v) (text_of x) s (lit "simple") tt)) /\
    undefined_part (fun s => map fst (e_extract v s choices 10)) syms part /\
    suggestions (e_upper v) files outs choices /\
    total_part files (total_of ns + zlen syms) total.
Proof.
  intros fs prog words on verbose complex files outs U O OC NE N PN S. destruct (sources_read fs files outs N S) as (k & css & A & K).
  exists k. intros v L. specialize (K _ L).
  destruct (C142_starts_pf v fs CheckSymbols prog words on files U (files_no_misuse fs CheckSymbols on files ltac:(cbn; auto) NE)) as (ls & st & fs' & E & R).
  inversion R as [|vb complex' ls0 r st0 V1 V2 EC EA| | | | | | | | |]; subst. rewrite <- (on_unique _ _ _ _ O V1), <- (on_unique _ _ _ _ OC V2) in EC.
  destruct (C140_check_pf (e_extract v) (e_upper v) (e_rep v) (e_card_rep v) (e_fuel v) fs' verbose complex files css NE K PN) as (tb & mss & syms & ch & part & total & X & T & SS & M & UP & CH & TP).
  rewrite X in EC. assert (r = Ok tt) by congruence. subst r. apply (f_equal fst) in EC. cbn [fst] in EC. subst ls. inversion EA; subst.
  exists tb, syms, ch, part, total, (map zlen mss). rewrite total_concat. split; [exact E|]. split; [exact (tables_told _ _ _ _ _ _ _ _ _ _ T _ _ K A)|].
  split; [exact SS|]. split; [|split; [exact UP|split; [|exact TP]]].
  - intros s. rewrite M, !(defined_somewhere _ _ _ _ _ _ _ K), !(somewhere_text _ _ _ _ _ A). reflexivity.
  - exact (suggestions_text _ _ _ _ _ _ _ K A CH).
Qed.
(*@ Example C161_symbols_ex : Forall2 (source sample) [lit "a.arg"] [sample_lines] /\
  fst (command sample_env sample CheckSymbols (lit "x.py") [lit "-vc"; lit "a.arg"; lit "inc"]) =
    ([OutL (lit "Reading a.arg..."); OutL (lit "Skipping meta-comment, file a.arg, line 1"); OutL (lit "Reading inc...");
     ErrL (lit "*** ERROR: Symbol x is ill-formed (case)!");
     ErrL (lit "Current definition: {'file': inc, 'line': 2, 'lognum': None, 'tagtype': None, 'card': ?}");
     ErrL (lit "a.arg: 1 errors encountered building symbol table."); OutL (lit "Reading inc...");
     ErrL (lit "*** ERROR: Symbol x is ill-formed (case)!");
     ErrL (lit "Current definition: {'file': inc, 'line': 2, 'lognum': None, 'tagtype': None, 'card': ?}");
     ErrL (lit "inc: 1 errors encountered building symbol table.");
     ErrL (lit "ERROR: symbol ""N"" has a complex assignment, but no simple assignment!"); ErrL []; ErrL (lit "Undefined symbols:");
     OutL (lit "  N - Possible matches: A"); ErrL (lit "1 errors checking symbol table."); ErrL (lit "Total: 3 errors encountered.")], Exit 0).
Proof. split; [constructor; [exact sample_ok|constructor]|vm_compute; reflexivity]. Qed. @*)
(** *** find-symbols *)
Lemma grouped_rel {A B V W} (R : A -> B -> Prop) (T : V -> W -> Prop) (P : list A -> V -> Prop) (Q : list B -> W -> Prop) :
  (forall a b v, Forall2 R a b -> P a v -> exists w, Q b w /\ T v w) ->
  forall l l' d, Forall2 (fun x y => fst x = fst y /\ R (snd x) (snd y)) l l' -> grouped P l d ->
  exists d', grouped Q l' d' /\ Forall2 (fun x y => fst x = fst y /\ T (snd x) (snd y)) d d'.
Proof.
  intros H l l' d F [G1 G2].
  assert (KE : map fst l = map fst l') by (clear - F; induction F as [|x y l l' [E _] _ IH]; [reflexivity|cbn [map]; rewrite E, IH; reflexivity]).
  assert (UR : forall k, Forall2 R (under k l) (under k l')).
  { intros k. unfold under. clear - F. induction F as [|x y l l' [E X] _ IH]; [constructor|]. cbn [filter]. rewrite <- E. destruct (eqb (fst x) k); [|exact IH].
    cbn [map]. constructor; [exact X|exact IH]. }
  assert (X : exists d', map fst d' = map fst d /\ (forall k w, In (k, w) d' -> Q (under k l') w) /\ Forall2 (fun x y => fst x = fst y /\ T (snd x) (snd y)) d d').
  { clear G1. induction d as [|[k v] d IH]; [exists []; split; [reflexivity|split; [intros ? ? []|constructor]]|].
    destruct IH as (d' & E & I & F2); [intros k' v' J; apply G2; right; exact J|].
    destruct (H _ _ _ (UR k) (G2 k v (or_introl eq_refl))) as (w & QW & TW).
    exists ((k, w) :: d'). split; [cbn [map fst]; rewrite E; reflexivity|]. split.
    - intros k' w' [[= <- <-]|J]; [exact QW|exact (I _ _ J)].
    - constructor; [split; [reflexivity|exact TW]|exact F2]. }
  destruct X as (d' & E & I & F2). exists d'. split; [|exact F2]. split; [rewrite E, G1, KE; reflexivity|exact I].
Qed.
Definition from_line (e : tabent) (d : srcline * str) : Prop := made_from (fst d) (snd d) e.
Definition pairs {A B} (R : A -> B -> Prop) (x : str * A) (y : str * B) : Prop := fst x = fst y /\ R (snd x) (snd y).
Lemma next_card u x c u' : agrees x c -> current_subseg u [c] u' -> next_subseg u x u'.
Proof.
  intros A H. inversion H as [cs N|a c' b s SL N]; subst.
  - right. split; [|reflexivity]. intros s Z. apply (N c s (or_introl eq_refl)). apply (agrees_setloc _ _ _ A). exact Z.
  - destruct a as [|? [|]]; cbn [app] in *; try discriminate. match goal with Q : _ = [_] |- _ => injection Q as -> -> end. left. apply (agrees_setloc _ _ _ A). exact SL.
Qed.
Lemma made_given upper sym u cs l : made upper sym u cs l -> forall out, Forall2 agrees out cs ->
  exists l', given upper sym u out l' /\ Forall2 (pairs (pairs from_line)) l l'.
Proof.
  induction 1 as [u|u c cs u' kind tt e l CS D EF _ IH|u c cs u' l CS ND _ IH]; intros out A; inversion A as [|x ? out' ? Q A']; subst.
  - exists []. split; constructor.
  - destruct (IH _ A') as (l' & G & F). exists ((u', (kind, (x, tt))) :: l'). split.
    + constructor; [exact (next_card _ _ _ _ Q CS)|apply (agrees_defines _ _ _ _ _ _ Q); exact D|exact G].
    + constructor; [|exact F]. split; [reflexivity|]. split; [reflexivity|]. exact (agrees_made _ _ _ _ Q EF).
  - destruct (IH _ A') as (l' & G & F). exists l'. split; [|exact F]. apply (gv_skip _ _ _ _ _ u'); [exact (next_card _ _ _ _ Q CS)| |exact G].
    intros kd t X. apply (ND kd t). apply (agrees_defines _ _ _ _ _ _ Q). exact X.
Qed.
Lemma all_made_given upper sym files css l : all_made upper sym files css l -> forall outs, Forall2 (Forall2 agrees) outs css ->
  exists l', all_given upper sym files outs l' /\ Forall2 (pairs (pairs (pairs from_line))) l l'.
Proof.
  induction 1 as [|f cs files css seg l r SG M _ IH]; intros outs A; inversion A as [|out ? outs' ? A1 A2]; subst.
  - exists []. split; constructor.
  - destruct (made_given _ _ _ _ _ M _ A1) as (l1 & G1 & F1). destruct (IH _ A2) as (l2 & G2 & F2).
    exists (map (fun d => (seg, d)) l1 ++ l2). split; [constructor; assumption|]. apply Forall2_app; [|exact F2].
    clear - F1. induction F1; cbn [map]; constructor; [split; [reflexivity|assumption]|assumption].
Qed.
Lemma last_from (a : list tabent) (b : list (srcline * str)) v : Forall2 from_line a b -> (exists before, a = before ++ [v]) ->
  exists w, (exists before, b = before ++ [w]) /\ from_line v w.
Proof.
  intros F (bf & ->). apply Forall2_app_inv_l in F. destruct F as (b1 & b2 & _ & F & ->). inversion F as [|? w ? ? X F']; subst. inversion F'; subst. exists w. split; [eauto|exact X].
Qed.
Lemma answer_collected l l' ds : Forall2 (pairs (pairs (pairs from_line))) l l' -> answer_from l ds ->
  exists ds', collected l' ds' /\ Forall2 (pairs (Forall2 (pairs (Forall2 (pairs from_line))))) ds ds'.
Proof.
  intros F A. unfold answer_from in A. unfold collected.
  refine (grouped_rel (pairs (pairs from_line)) _ _ _ _ _ _ _ F A). intros a b v F1.
  refine (grouped_rel (pairs from_line) _ _ _ _ _ _ _ F1). intros a1 b1 v1 F2.
  refine (grouped_rel from_line _ _ _ _ _ _ _ F2). exact last_from.
Qed.
Lemma shown_rel {V W} rep (T : V -> W -> Prop) (p : V -> str -> Prop) (q : W -> str -> Prop) : (forall v w t, T v w -> p v t -> q w t) ->
  forall d d' t, Forall2 (pairs T) d d' -> dict_shown rep p d t -> dict_shown rep q d' t.
Proof.
  intros H d d' t F (items & G & ->). exists items. split; [|reflexivity]. revert items G.
  induction F as [|x y d d' [E X] _ IH]; intros items G; inversion G as [|? kv ? items' [E1 E2] G']; subst; constructor; [|apply IH; exact G'].
  split; [rewrite <- E; exact E1|exact (H _ _ _ X E2)].
Qed.
Lemma answer_lines rep card_rep ds ds' t : Forall2 (pairs (Forall2 (pairs (Forall2 (pairs from_line))))) ds ds' ->
  answer_text rep card_rep ds t -> answer_shown rep ds' t.
Proof.
  intros F. apply (shown_rel rep (Forall2 (pairs (Forall2 (pairs from_line))))); [|exact F]. clear. intros d d' t F.
  apply (shown_rel rep (Forall2 (pairs from_line))); [|exact F]. clear. intros d d' t F (items & G & ->).
  exists items. split; [|reflexivity]. revert items G. induction F as [|[k e] [k' [x tt]] d d' [E X] _ IH]; intros items G; inversion G as [|? kv ? items' [E1 E2] G']; subst; constructor; [|apply IH; exact G'].
  cbn [fst snd] in *. subst k'. split; [exact E1|]. destruct x as [[f i] line]. destruct X as (M1 & M2 & M3 & M4 & M5). cbn [fst snd] in *.
  destruct E2 as (f' & l & g & N1 & N2 & -> & E2). rewrite M1 in N1. cbn [none_or] in N1. subst f'. rewrite M2, M4 in E2.
  exists (match e_lognum e with RStr s => Some s | _ => None end), l, (card_rep (e_card e)). split; [|split].
  - destruct M3 as [[B ->]|(s & T & NE & ->)]; [left; split; [reflexivity|left; auto]|right; exists s; split; [reflexivity|right; exists s; auto]].
  - destruct M3 as [[B EL]|(s & T & NE & EL)]; rewrite EL in *; exact N2.
  - rewrite E2. unfold dict_text, items_text. cbn [lit app map]. rewrite <- ?app_assoc. cbn [app]. reflexivity.
Qed.
Lemma find_no_misuse fs on symbol files : files <> [] ->
  (forall x y, In x ["begin"; "end"; "fuzzy"; "exact"]%string -> In y ["begin"; "end"; "fuzzy"; "exact"]%string -> In (lit x) on -> In (lit y) on -> x = y) ->
  forall m, ~ misuse fs FindSymbols on (symbol :: files) m.
Proof.
  intros NE O m M. destruct files as [|f files]; [contradiction|]. inversion M as [? ? I| ? ? C| ? ? C Z| | | | | | |]; subst.
  - destruct C as (a & b & D & I & J & A1 & B1).
    assert (X : forall l : str, In l [lit "begin"; lit "end"; lit "fuzzy"; lit "exact"] -> exists x, In x ["begin"; "end"; "fuzzy"; "exact"]%string /\ l = lit x).
    { intros l IL. change [lit "begin"; lit "end"; lit "fuzzy"; lit "exact"] with (map lit ["begin"; "end"; "fuzzy"; "exact"]%string) in IL.
      apply in_map_iff in IL. destruct IL as (x & <- & IX). exists x. auto. }
    destruct (X _ I) as (x & IX & ->). destruct (X _ J) as (y & IY & ->). rewrite (O _ _ IX IY A1 B1) in D. exact (D eq_refl).
  - rewrite !zlen_cons in Z. pose proof (zlen_nonneg files). lia.
Qed.
Lemma defined_lines upper outs css s : Forall2 (Forall2 agrees) outs css ->
  (is_defined upper css s <-> exists out x kind tt, In out outs /\ In x out /\ line_defines upper (text_of x) s kind tt).
Proof.
  intros A. split.
  - intros (cs & c & kd & tt & I & J & DF). destruct (proj1 (somewhere_text upper outs css s kd A)) as (o & y & t2 & H); [exists cs, c, tt; auto|].
    exists o, y, kd, t2. exact H.
  - intros (o & y & kd & tt & I & J & DF). destruct (proj2 (somewhere_text upper outs css s kd A)) as (cs & c & t2 & H); [exists o, y, tt; auto|].
    exists cs, c, kd, t2. exact H.
Qed.
Lemma C161_answer_pf : forall fs prog words on verbose files outs symbol,
  understood (options FindSymbols) words on (symbol :: files) -> turned_on on "verbose" verbose ->
  (forall x, In x ["begin"; "end"; "fuzzy"]%string -> ~ In (lit x) on) ->
  files <> [] -> ~ In [] files -> plain_names files -> Forall2 (source fs) files outs ->
  exists k, forall v, (k <= e_fuel v)%nat -> exists said ns,
    labels_told fs (e_upper v) (e_rep v) verbose true files outs ns said /\
    (((exists out x kind tt, In out outs /\ In x out /\ line_defines (e_upper v) (text_of x) symbol kind tt) /\
      exists l ds t, command v fs FindSymbols prog words = (said ++ [OutL t], Exit 0, fs) /\
        all_given (e_upper v) symbol files outs l /\ collected l ds /\ answer_shown (e_rep v) ds t) \/
     (~ (exists out x kind tt, In out outs /\ In x out /\ line_defines (e_upper v) (text_of x) symbol kind tt) /\
      command v fs FindSymbols prog words = (said ++ [ErrL (lit "ERROR: Undefined symbol """ ++ symbol ++ lit """!")], Exit 0, fs))).
Proof.
  intros fs prog words on verbose files outs symbol U V O NE N PN S. destruct (sources_read fs files outs N S) as (k & css & A & K).
  exists k. intros v L. specialize (K _ L).
  assert (NM : forall m, ~ misuse fs FindSymbols on (symbol :: files) m).
  { apply find_no_misuse; [exact NE|]. intros x y IX IY HX HY.
    assert (X : forall z, In z ["begin"; "end"; "fuzzy"; "exact"]%string -> In (lit z) on -> z = "exact"%string).
    { intros z IZ HZ. cbn in IZ. destruct IZ as [<-|[<-|[<-|[<-|[]]]]]; try reflexivity; exfalso; revert HZ; apply O; cbn; auto. }
    rewrite (X _ IX HX), (X _ IY HY). reflexivity. }
  destruct (C142_starts_pf v fs FindSymbols prog words on (symbol :: files) U NM) as (ls & st & fs' & E & R).
  inversion R as [| |vb b e f x ls0 r st0 V1 V2 V3 V4 V5 EC EA| | | | | | | |]; subst.
  rewrite <- (on_unique _ _ _ _ V V1) in EC. assert (EB := off _ _ _ V2 (O "begin"%string ltac:(cbn; auto 8))).
  assert (EE := off _ _ _ V3 (O "end"%string ltac:(cbn; auto 8))). assert (EF := off _ _ _ V4 (O "fuzzy"%string ltac:(cbn; auto 8))). subst b e f.
  destruct (C140_find_pf (e_extract v) (e_upper v) (e_rep v) (e_card_rep v) (e_fuel v) fs' verbose x symbol files css NE K PN) as (tb & mss & lf & r' & X & T & D).
  destruct D as [(D & sg & t & _)|(D & _ & ->)].
  - destruct (C141_definitions_pf (e_extract v) (e_upper v) (e_rep v) (e_card_rep v) (e_fuel v) fs' verbose x symbol files css NE K PN D)
      as (tb2 & mss2 & l & ds & t2 & r2 & X2 & T2 & AM & AF & AT).
    rewrite X2 in EC. assert (r = Ok r2) by congruence. subst r. apply (f_equal fst) in EC. cbn [fst] in EC. subst ls. inversion EA; subst.
    exists tb2, (map zlen mss2). split; [exact (tables_told _ _ _ _ _ _ _ _ _ _ T2 _ _ K A)|]. left. split; [apply (defined_lines _ _ _ _ A); exact D|].
    destruct (all_made_given _ _ _ _ _ AM _ A) as (l' & AG & F). destruct (answer_collected _ _ _ F AF) as (ds' & CO & F').
    exists l', ds', t2. split; [exact E|]. split; [exact AG|]. split; [exact CO|]. exact (answer_lines _ _ _ _ _ F' AT).
  - rewrite X in EC. assert (r = Ok r') by congruence. subst r. apply (f_equal fst) in EC. cbn [fst] in EC. subst ls. inversion EA; subst.
    exists tb, (map zlen mss). split; [exact (tables_told _ _ _ _ _ _ _ _ _ _ T _ _ K A)|]. right.
    split; [rewrite <- (defined_lines _ _ _ _ A); exact D|exact E].
Qed.
(*@ Example C161_answer_ex : Forall2 (source sample) [lit "a.arg"] [sample_lines] /\
  fst (command sample_env sample FindSymbols (lit "x.py") [lit "-v"; lit "N"; lit "a.arg"; lit "inc"]) =
    ([OutL (lit "Reading a.arg..."); OutL (lit "Skipping meta-comment, file a.arg, line 1"); OutL (lit "Reading inc...");
     ErrL (lit "*** ERROR: Symbol x is ill-formed (case)!");
     ErrL (lit "Current definition: {'file': inc, 'line': 2, 'lognum': None, 'tagtype': None, 'card': ?}");
     ErrL (lit "a.arg: 1 errors encountered building symbol table."); OutL (lit "Reading inc...");
     ErrL (lit "*** ERROR: Symbol x is ill-formed (case)!");
     ErrL (lit "Current definition: {'file': inc, 'line': 2, 'lognum': None, 'tagtype': None, 'card': ?}");
     ErrL (lit "inc: 1 errors encountered building symbol table.");
     OutL (lit "{a: {1: {complex: {'file': inc, 'line': 1, 'lognum': None, 'tagtype':  , 'card': ?}}}, inc: {1: {complex: {'file': inc, 'line': 1, 'lognum': None, 'tagtype':  , 'card': ?}}}}")], Exit 0) /\
  collected [(lit "a", (lit "1", (lit "complex", ((lit "inc", 1, []), lit " ")))); (lit "inc", (lit "1", (lit "complex", ((lit "inc", 1, []), lit " "))))]
    [(lit "a", [(lit "1", [(lit "complex", ((lit "inc", 1, []), lit " "))])]); (lit "inc", [(lit "1", [(lit "complex", ((lit "inc", 1, []), lit " "))])])].
Proof.
  split; [constructor; [exact sample_ok|constructor]|]. split; [vm_compute; reflexivity|].
  split; [reflexivity|]. intros k v [[= <- <-]|[[= <- <-]|[]]]; (split; [reflexivity|]); intros k v [[= <- <-]|[]];
    (split; [reflexivity|]); intros k v [[= <- <-]|[]]; exists []; reflexivity.
Qed. @*)
Lemma C161_names_pf : forall fs prog words on verbose b files outs symbol,
  understood (options FindSymbols) words on (symbol :: files) -> turned_on on "verbose" verbose ->
  turned_on on "begin" b -> turned_on on "end" (negb b) ->
  (forall x, In x ["fuzzy"; "exact"]%string -> ~ In (lit x) on) ->
  files <> [] -> ~ In [] files -> plain_names files -> Forall2 (source fs) files outs ->
  exists k, forall v, (k <= e_fuel v)%nat -> exists said ns names,
    labels_told fs (e_upper v) (e_rep v) verbose true files outs ns said /\
    command v fs FindSymbols prog words = (said ++ (if zlen names =? 0 then [] else [OutL (names_text (e_rep v) names)]), Exit 0, fs) /\
    StronglySorted str_lt names /\
    forall s, In s names <-> (exists out x kind tt, In out outs /\ In x out /\ line_defines (e_upper v) (text_of x) s kind tt) /\
      if b then exists r, s = symbol ++ r else exists r, s = r ++ symbol.
Proof.
  intros fs prog words on verbose b files outs symbol U V TB TE O NE N PN S. destruct (sources_read fs files outs N S) as (k & css & A & K).
  exists k. intros v L. specialize (K _ L).
  assert (NM : forall m, ~ misuse fs FindSymbols on (symbol :: files) m).
  { apply find_no_misuse; [exact NE|]. intros x y IX IY HX HY.
    assert (OF := O "fuzzy"%string ltac:(cbn; auto)). assert (OX := O "exact"%string ltac:(cbn; auto)).
    assert (NB : In (lit "begin") on -> In (lit "end") on -> False) by (intros I J; apply TB in I; apply TE in J; subst b; discriminate).
    cbn in IX, IY. destruct IX as [<-|[<-|[<-|[<-|[]]]]], IY as [<-|[<-|[<-|[<-|[]]]]]; try reflexivity; exfalso; auto. }
  destruct (C142_starts_pf v fs FindSymbols prog words on (symbol :: files) U NM) as (ls & st & fs' & E & R).
  inversion R as [| |vb b' e f x ls0 r st0 V1 V2 V3 V4 V5 EC EA| | | | | | | |]; subst.
  assert (EX := off _ _ _ V5 (O "exact"%string ltac:(cbn; auto))). assert (EF := off _ _ _ V4 (O "fuzzy"%string ltac:(cbn; auto))). subst f x.
  rewrite <- (on_unique _ _ _ _ V V1), <- (on_unique _ _ _ _ TB V2), <- (on_unique _ _ _ _ TE V3) in EC.
  destruct (C141_names_pf (e_extract v) (e_upper v) (e_rep v) (e_card_rep v) (e_fuel v) fs' verbose b (negb b) symbol files css NE K PN) as (tb & mss & names & r' & X & T & SS & M).
  { rewrite negb_involutive. reflexivity. }
  rewrite X in EC. assert (r = Ok r') by congruence. subst r. apply (f_equal fst) in EC. cbn [fst] in EC. subst ls. inversion EA; subst.
  exists tb, (map zlen mss), names. split; [exact (tables_told _ _ _ _ _ _ _ _ _ _ T _ _ K A)|]. split; [exact E|]. split; [exact SS|].
  intros s. rewrite M, (defined_lines _ _ _ _ A). destruct b; cbn [negb]; intuition discriminate.
Qed.
(*@ Example C161_names_ex : Forall2 (source sample) [lit "a.arg"] [sample_lines] /\
  fst (command sample_env sample FindSymbols (lit "x.py") [lit "-ve"; lit "N"; lit "inc"]) =
    ([OutL (lit "Reading inc...");
     ErrL (lit "*** ERROR: Symbol x is ill-formed (case)!");
     ErrL (lit "Current definition: {'file': inc, 'line': 2, 'lognum': None, 'tagtype': None, 'card': ?}");
     ErrL (lit "inc: 1 errors encountered building symbol table."); OutL (lit "[N]")], Exit 0).
Proof. split; [constructor; [exact sample_ok|constructor]|vm_compute; reflexivity]. Qed. @*)
Lemma C161_fuzzy_pf : forall fs prog words on verbose files outs symbol,
  understood (options FindSymbols) words on (symbol :: files) -> turned_on on "verbose" verbose -> In (lit "fuzzy") on ->
  (forall x, In x ["begin"; "end"; "exact"]%string -> ~ In (lit x) on) ->
  files <> [] -> ~ In [] files -> plain_names files -> Forall2 (source fs) files outs ->
  exists k, forall v, (k <= e_fuel v)%nat -> exists said ns choices, let names := map fst (e_extract v symbol choices 10) in
    labels_told fs (e_upper v) (e_rep v) verbose true files outs ns said /\
    command v fs FindSymbols prog words = (said ++ (if zlen names =? 0 then [] else [OutL (names_text (e_rep v) names)]), Exit 0, fs) /\
    suggestions (e_upper v) files outs choices.
Proof.
  intros fs prog words on verbose files outs symbol U V TF O NE N PN S. destruct (sources_read fs files outs N S) as (k & css & A & K).
  exists k. intros v L. specialize (K _ L).
  assert (NM : forall m, ~ misuse fs FindSymbols on (symbol :: files) m).
  { apply find_no_misuse; [exact NE|]. intros x y IX IY HX HY.
    assert (X : forall z, In z ["begin"; "end"; "fuzzy"; "exact"]%string -> In (lit z) on -> z = "fuzzy"%string).
    { intros z IZ HZ. cbn in IZ. destruct IZ as [<-|[<-|[<-|[<-|[]]]]]; try reflexivity; exfalso; revert HZ; apply O; cbn; auto. }
    rewrite (X _ IX HX), (X _ IY HY). reflexivity. }
  destruct (C142_starts_pf v fs FindSymbols prog words on (symbol :: files) U NM) as (ls & st & fs' & E & R).
  inversion R as [| |vb b e f x ls0 r st0 V1 V2 V3 V4 V5 EC EA| | | | | | | |]; subst.
  rewrite <- (on_unique _ _ _ _ V V1) in EC. assert (EB := off _ _ _ V2 (O "begin"%string ltac:(cbn; auto 8))).
  assert (EE := off _ _ _ V3 (O "end"%string ltac:(cbn; auto 8))). assert (EX := off _ _ _ V5 (O "exact"%string ltac:(cbn; auto 8))).
  assert (EF := proj2 V4 TF). subst b e f x.
  destruct (C141_fuzzy_pf (e_extract v) (e_upper v) (e_rep v) (e_card_rep v) (e_fuel v) fs' verbose symbol files css NE K PN) as (tb & mss & ch & r' & X & T & CH).
  rewrite X in EC. assert (r = Ok r') by congruence. subst r. apply (f_equal fst) in EC. cbn [fst] in EC. subst ls. inversion EA; subst.
  exists tb, (map zlen mss), ch. cbv zeta. split; [exact (tables_told _ _ _ _ _ _ _ _ _ _ T _ _ K A)|]. split; [exact E|].
  exact (suggestions_text _ _ _ _ _ _ _ K A CH).
Qed.
(*@ Example C161_fuzzy_ex : Forall2 (source sample) [lit "a.arg"] [sample_lines] /\
  fst (command sample_env sample FindSymbols (lit "x.py") [lit "-vf"; lit "N"; lit "a.arg"]) =
    ([OutL (lit "Reading a.arg..."); OutL (lit "Skipping meta-comment, file a.arg, line 1"); OutL (lit "Reading inc...");
     ErrL (lit "*** ERROR: Symbol x is ill-formed (case)!");
     ErrL (lit "Current definition: {'file': inc, 'line': 2, 'lognum': None, 'tagtype': None, 'card': ?}");
     ErrL (lit "a.arg: 1 errors encountered building symbol table."); OutL (lit "[A]")], Exit 0).
Proof. split; [constructor; [exact sample_ok|constructor]|vm_compute; reflexivity]. Qed. @*)
(** the descriptions leave nothing open *)
Lemma mnemonic_unique line m m' : mnemonic_at line m -> mnemonic_at line m' -> m = m'.
Proof.
  intros (_ & op & O & H) (_ & op' & O' & H'). rewrite <- (op_unique _ _ _ O O') in H'.
  destruct H as [[N ->]|(a & b & E & NA & T)], H' as [[N' ->]|(a' & b' & E' & NA' & T')].
  - reflexivity.
  - exfalso. apply N. rewrite E'. apply in_or_app. right. left. reflexivity.
  - exfalso. apply N'. rewrite E. apply in_or_app. right. left. reflexivity.
  - rewrite E in E'. assert (a = a').
    { clear - E' NA NA'. revert a' E' NA'. induction a as [|x a IH]; intros [|y a'] E' NA'; cbn [app] in E'.
      - reflexivity.
      - injection E' as <- _. exfalso. apply NA'. left. reflexivity.
      - injection E' as -> _. exfalso. apply NA. left. reflexivity.
      - injection E' as <- E'. f_equal. apply IH; [intros I; apply NA; right; exact I|exact E'|intros I; apply NA'; right; exact I]. }
    subst a'. exact (trimmed_unique _ _ _ T T').
Qed.
Lemma fault_unique x l l' : mnemonic_fault x l -> mnemonic_fault x l' -> l = l'.
Proof. destruct x as [[f i] line]. intros (_ & m & M & _ & ->) (_ & m' & M' & _ & ->). rewrite (mnemonic_unique _ _ _ M M'). reflexivity. Qed.
Lemma line_unique_report v s x l l' : line_report v s x l -> line_report v s x l' -> l = l'.
Proof.
  assert (F : forall ls, mnemonic_fault x ls -> ~ starred_line (text_of x) /\ exists m, mnemonic_at (text_of x) m /\ ~ In m INSTRUCTIONS).
  { intros ls H. apply fault_ex. exists ls. exact H. }
  intros R R'. destruct R as [N|m M S|m M S I|ls H], R' as [N'|m' M' S'|m' M' S' I'|ls' H']; try reflexivity;
    try (exfalso; first [eapply N; eassumption|eapply N'; eassumption|contradiction]).
  - destruct (F _ H') as (_ & m & M & _). exfalso. exact (N _ M).
  - destruct (F _ H') as (NS & _). contradiction.
  - destruct (F _ H') as (_ & m' & M' & NI). rewrite (mnemonic_unique _ _ _ M M') in I. contradiction.
  - destruct (F _ H) as (_ & m & M & _). exfalso. exact (N' _ M).
  - destruct (F _ H) as (NS & _). contradiction.
  - destruct (F _ H) as (_ & m & M & NI). rewrite (mnemonic_unique _ _ _ M' M) in I'. contradiction.
  - rewrite (fault_unique _ _ _ H H'). reflexivity.
Qed.
Lemma search_unique v d o x l l' : search_report v d o x l -> search_report v d o x l' -> l = l'.
Proof.
  assert (F : forall y, line_found o d x y -> ~ starred_line (text_of x) /\ exists op, operation_of (text_of x) op).
  { destruct x as [[f i] line]. intros y (NS & (op & O & _) & _). eauto. }
  assert (FU : forall y y', line_found o d x y -> line_found o d x y' -> y = y').
  { destruct x as [[f i] line]. intros y y' (_ & _ & ->) (_ & _ & ->). reflexivity. }
  intros R R'. destruct R as [N|op t O S ->|y Y|op O S N], R' as [N'|op' t' O' S' ->|y' Y'|op' O' S' N']; try reflexivity;
    try (exfalso; first [eapply N; eassumption|eapply N'; eassumption|contradiction]);
    try (destruct (F _ Y) as (? & ? & ?)); try (destruct (F _ Y') as (? & ? & ?));
    try (exfalso; first [eapply N; eassumption|eapply N'; eassumption|contradiction]).
  rewrite (FU _ _ Y Y'). reflexivity.
Qed.
Lemma lines_unique fs v (P : srcline -> list line -> Prop) files outs l l' : (forall x a b, P x a -> P x b -> a = b) -> lines_told fs v P files outs l -> lines_told fs v P files outs l' -> l = l'.
Proof.
  intros H T. revert l'. induction T as [|f files out outs log lss ls L F T IH]; intros l' T'; inversion T' as [|? ? ? ? log' lss' ls' L' F' T2]; subst; [reflexivity|].
  rewrite (log_unique _ _ _ _ L L'), (IH _ T2). do 2 f_equal. f_equal. clear - H F F'. revert lss' F'.
  induction F as [|x a out lss X _ IH]; intros lss' F'; inversion F' as [|? b ? lss2 X' F2]; subst; [reflexivity|]. rewrite (H _ _ _ X X'), (IH _ F2). reflexivity.
Qed.
Lemma C161_determined_pf : forall fs verbose files outs l l',
  (forall show, lines_told fs verbose (line_report verbose show) files outs l -> lines_told fs verbose (line_report verbose show) files outs l' -> l = l') /\
  (forall details opcode, lines_told fs verbose (search_report verbose details opcode) files outs l ->
     lines_told fs verbose (search_report verbose details opcode) files outs l' -> l = l').
Proof.
  intros fs verbose files outs l l'. split; intros *; apply lines_unique; intros *; [apply line_unique_report|apply search_unique].
Qed.
(*@ Example C161_determined_ex : line_report true true (lit "a", 5, lit "       *           FOO") (skipping (lit "a 5        *           FOO")) -> False.
Proof.
  intros H. assert (X : line_report true true (lit "a", 5, lit "       *           FOO") ([OutL (place (lit "a", 5, lit "       *           FOO"))] ++ skipping (place (lit "a", 5, lit "       *           FOO")))).
  { apply (lr_star true true _ (lit "FOO")); [|reflexivity]. split; [discriminate|]. exists (lit "FOO"). split.
    - split; [intros (c & E & I); injection E as <-; cbn in I; intuition discriminate|]. split; [apply strip_ex; reflexivity|discriminate].
    - left. split; [cbn; intuition discriminate|reflexivity]. }
  pose proof (line_unique_report _ _ _ _ _ H X) as E. apply (f_equal (@List.length line)) in E. discriminate E.
Qed. @*)
