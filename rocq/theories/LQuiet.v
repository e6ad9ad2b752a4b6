From Coq Require Import ZArith List Bool Lia.
From Verif Require Import Py LPy MCards SCards LCards LDeck MSymbols SSymbols LSymBuild LSymQuery MInstructions MTools STools LTools LToolSym LListTool MDiag SDiag LDiag MDump SDump LDump MVerbose SVerbose LVerbose.
#[local] Arguments Z.add : simpl never.
#[local] Arguments Z.sub : simpl never.
#[local] Arguments Z.mul : simpl never.
#[local] Arguments Z.pow : simpl never.

(** *** a run that prints simulates one that collects *)
Lemma io_sim {S P X} (f : S -> X -> io S) (g : P -> X -> res P) (R : S -> list line -> P -> Prop)
  (H : forall s out p x, R s out p -> match g p x with
     | Ok p' => exists ls s', f s x = (ls, Ok s') /\ R s' (out ++ ls) p' | Err e => snd (f s x) = Err e end) l :
  forall s out p, R s out p -> match fold_r g l p with
     | Ok p' => exists ls s', io_fold f l s = (ls, Ok s') /\ R s' (out ++ ls) p' | Err e => snd (io_fold f l s) = Err e end.
Proof.
  induction l as [|x l IH]; intros s out p r; cbn [fold_r io_fold].
  - exists [], s. rewrite app_nil_r. auto.
  - specialize (H s out p x r). destruct (g p x) as [p'|e]; cbn [bind].
    + destruct H as (ls & s' & -> & r'). rewrite bind_ok. specialize (IH s' _ p' r'). destruct (fold_r g l p') as [p2|e].
      * destruct IH as (ls2 & s2 & -> & r2). exists (ls ++ ls2), s2. cbn [fst snd]. rewrite app_assoc. auto.
      * exact IH.
    + rewrite snd_bind, H. reflexivity.
Qed.
Lemma load_quiet fuel fs f : match load fuel fs f with Ok cs => load_run fuel fs false f = ([], Ok cs) | Err e => snd (load_run fuel fs false f) = Err e end.
Proof.
  destruct (load fuel fs f) as [cs|e] eqn:E; [|rewrite load_run_snd; exact E].
  destruct (run_logged fuel fs f false cs (load_inv _ _ _ _ E)) as (ls & _ & ->). reflexivity.
Qed.
Lemma files_sim {S P} fuel fs (f : S -> card -> io S) (g : P -> card -> res P) (R : S -> list line -> P -> Prop)
  (H : forall s out p x, R s out p -> match g p x with
     | Ok p' => exists ls s', f s x = (ls, Ok s') /\ R s' (out ++ ls) p' | Err e => snd (f s x) = Err e end) files :
  forall s out p, R s out p -> match fold_r (fun p h => do cs <- load fuel fs h; fold_r g cs p) files p with
     | Ok p' => exists ls s', io_fold (fun s h => io_bind (load_run fuel fs false h) (fun cs => io_fold f cs s)) files s = (ls, Ok s') /\ R s' (out ++ ls) p'
     | Err e => snd (io_fold (fun s h => io_bind (load_run fuel fs false h) (fun cs => io_fold f cs s)) files s) = Err e end.
Proof.
  apply (io_sim (fun s h => io_bind (load_run fuel fs false h) (fun cs => io_fold f cs s)) (fun p h => do cs <- load fuel fs h; fold_r g cs p) R).
  intros s out p h r. pose proof (load_quiet fuel fs h) as L. destruct (load fuel fs h) as [cs|e]; cbn [bind].
  - rewrite L, bind_ok. cbn [app]. pose proof (io_sim f g R H cs s out p r) as C. destruct (fold_r g cs p) as [p'|e]; [|exact C].
    destruct C as (ls & s' & -> & r'). exists ls, s'. auto.
  - rewrite snd_bind, L. reflexivity.
Qed.
Lemma star_quiet show c : star_lines false show c = [].
Proof. unfold star_lines. destruct (card_get c "column8") as [x|]; [|reflexivity]. destruct (is_str x "*"); reflexivity. Qed.

(** *** list-instructions *)
Lemma li_card_out opcode details out c : li_card opcode details out c = (do l <- li_card opcode details [] c; Ok (out ++ l)).
Proof.
  unfold li_card. destruct (card_get c "operation") as [op|]; cbn [bind]; [|reflexivity].
  destruct (truthy op); cbn [negb bind]; [|rewrite app_nil_r; reflexivity].
  destruct (card_get c "column8") as [c8|]; cbn [bind]; [|reflexivity]. destruct (is_str c8 "*"); [cbn [bind]; rewrite app_nil_r; reflexivity|].
  destruct op as [|s|n]; try reflexivity. destruct (li_match opcode s); cbn [bind app]; [reflexivity|rewrite app_nil_r; reflexivity].
Qed.
Lemma C131_list_instructions_pf : forall fuel fs details args,
  match list_instructions fuel fs details args with
  | Ok out => list_instructions_run fuel fs false details args = (map OutL out, Ok tt)
  | Err e => snd (list_instructions_run fuel fs false details args) = Err e
  end.
Proof.
  intros fuel fs details args. unfold list_instructions, list_instructions_run. destruct args as [|opcode files]; [reflexivity|]. cbv zeta.
  destruct (negb (inb _ INSTRUCTIONS)); [reflexivity|].
  pose proof (files_sim fuel fs (fun _ c => li_card_run false opcode details c) (li_card opcode details) (fun (_ : unit) ls out => ls = map OutL out)) as F.
  assert (H : forall (s : unit) out p x, out = map OutL p -> match li_card opcode details p x with
     | Ok p' => exists ls (s' : unit), li_card_run false opcode details x = (ls, Ok s') /\ out ++ ls = map OutL p'
     | Err e => snd (li_card_run false opcode details x) = Err e end).
  { intros s out p c ->. rewrite li_card_out. unfold li_card_run. destruct (li_card opcode details [] c) as [l|e]; cbn [bind]; [|reflexivity].
    eexists. eexists. split; [reflexivity|]. rewrite map_app. do 2 f_equal.
    destruct (card_get c "operation") as [op|]; [|rewrite app_nil_r; reflexivity]. rewrite star_quiet. destruct (truthy op); rewrite app_nil_r; reflexivity. }
  specialize (F H files tt [] [] eq_refl).
  assert (X : forall fl (u : unit), io_fold (fun (s : unit) h => io_bind (load_run fuel fs false h) (fun cs => io_fold (fun _ c => li_card_run false opcode details c) cs s)) fl u =
     io_fold (fun (_ : unit) h => io_bind (load_run fuel fs false h) (fun cs => io_fold (fun _ c => li_card_run false opcode details c) cs tt)) fl u).
  { induction fl as [|h fl IH]; intros []; [reflexivity|]. cbn [io_fold]. match goal with |- io_bind ?a _ = io_bind ?b _ => change b with a; destruct a as [l1 [[]|e]] end; [|reflexivity].
    rewrite !bind_ok, IH. reflexivity. }
  rewrite X in F. clear X.
  destruct (fold_r _ files []) as [out|e]; [|exact F]. destruct F as (ls & [] & -> & E). cbn [app] in E. rewrite E. reflexivity.
Qed.
(*@ Example C131_list_instructions_ex :
  let fs := fun f => if eqb f (lit "a") then Some (lit "# x" ++ [10] ++ lit "       *           TX           B" ++ [10] ++
                                                   lit "                   TX           C" ++ [10]) else None in
  list_instructions 2 fs false [lit "TX"; lit "a"] = Ok [lit "                   TX           C"] /\
  list_instructions_run 2 fs false false [lit "TX"; lit "a"] = ([OutL (lit "                   TX           C")], Ok tt).
Proof. vm_compute. auto. Qed. @*)

(** *** check-instructions *)
Lemma ci_card_out o s c : ci_card o s c =
  (do s' <- ci_card o (without_out s) c; Ok (mkci (ci_lines s') (ci_instrs s') (ci_tab s') (ci_errs s') (ci_out s ++ ci_out s'))).
Proof.
  unfold ci_card, without_out. cbn [ci_lines ci_instrs ci_tab ci_errs ci_out].
  destruct (card_get c "instruction") as [i|]; cbn [bind]; [|reflexivity].
  destruct (truthy i); cbn [negb bind ci_lines ci_instrs ci_tab ci_errs ci_out]; [|rewrite app_nil_r; reflexivity].
  destruct (card_get c "column8") as [c8|]; cbn [bind]; [|reflexivity]. destruct (is_str c8 "*"); [reflexivity|].
  destruct i as [|m|n]; cbn [bind ci_lines ci_instrs ci_tab ci_errs ci_out]; try (rewrite <- app_assoc; reflexivity).
  destruct (dget (ci_tab s) m) as [k|]; cbn [bind ci_lines ci_instrs ci_tab ci_errs ci_out]; [|rewrite <- app_assoc; reflexivity].
  destruct ((o_all o || o_invalid o) && negb (inb m INSTRUCTIONS)); cbn [bind ci_lines ci_instrs ci_tab ci_errs ci_out];
    rewrite <- ?app_assoc; reflexivity.
Qed.
Lemma ci_report_out pct o s : ci_report pct o s = (do out <- ci_report pct o (without_out s); Ok (ci_out s ++ out)).
Proof.
  unfold ci_report, without_out. cbn [ci_lines ci_instrs ci_tab ci_errs ci_out].
  destruct (if o_count o then _ else _) as [counts|]; cbn [bind]; reflexivity.
Qed.
Lemma C131_check_instructions_pf : forall pct fuel fs o args,
  match check_instructions pct fuel fs o args with
  | Ok (s, out) => check_instructions_run pct fuel fs false o args = (map OutL out, Ok tt)
  | Err e => snd (check_instructions_run pct fuel fs false o args) = Err e
  end.
Proof.
  intros pct fuel fs o args. unfold check_instructions, check_instructions_run. destruct args as [|f args]; [reflexivity|].
  pose proof (files_sim fuel fs (ci_card_run false o) (ci_card o) (fun s ls p => s = without_out p /\ ls = map OutL (ci_out p))) as F.
  assert (H : forall s out p x, s = without_out p /\ out = map OutL (ci_out p) -> match ci_card o p x with
     | Ok p' => exists ls s', ci_card_run false o s x = (ls, Ok s') /\ s' = without_out p' /\ out ++ ls = map OutL (ci_out p')
     | Err e => snd (ci_card_run false o s x) = Err e end).
  { intros s out p c [-> ->]. rewrite ci_card_out. unfold ci_card_run.
    change (without_out (without_out p)) with (without_out p). destruct (ci_card o (without_out p) c) as [s'|e]; cbn [bind]; [|reflexivity].
    eexists. eexists. split; [reflexivity|]. cbn [ci_out]. split; [reflexivity|]. rewrite map_app. do 2 f_equal.
    destruct (card_get c "instruction") as [i|]; [|rewrite app_nil_r; reflexivity]. rewrite star_quiet. destruct (truthy i); rewrite app_nil_r; reflexivity. }
  specialize (F H (f :: args) ci_init [] ci_init (conj eq_refl eq_refl)).
  change (fold_r (ci_file fuel fs o) (f :: args) ci_init) with (fold_r (fun p h => do cs <- load fuel fs h; fold_r (ci_card o) cs p) (f :: args) ci_init).
  set (G := io_fold _ (f :: args) ci_init) in *. clearbody G.
  destruct (fold_r _ (f :: args) ci_init) as [p|e]; cbn [bind]; [|rewrite snd_bind, F; reflexivity].
  destruct F as (ls & s' & -> & -> & E). cbn [app] in E. subst ls. rewrite bind_ok. unfold ci_report_run.
  change (without_out (without_out p)) with (without_out p). rewrite ci_report_out.
  destruct (ci_report pct o (without_out p)) as [out|e]; cbn [bind fst snd]; [|reflexivity]. rewrite map_app. reflexivity.
Qed.
(*@ Example C131_check_instructions_ex :
  let fs := fun f => if eqb f (lit "a") then Some (lit "# x" ++ [10] ++ lit "                   FOO" ++ [10]) else None in
  let o := mkciopts false false false false false false in
  check_instructions_run (fun _ _ => []) 2 fs false o [lit "a"] =
    ([OutL (lit "*** ERROR: Invalid instruction ""FOO"":"); OutL (lit "File a, line 2:                    FOO");
      OutL (lit "1 error encountered.")], Ok tt) /\
  option_map zlen (match check_instructions (fun _ _ => []) 2 fs o [lit "a"] with Ok (_, out) => Some out | Err _ => None end) = Some 3.
Proof. vm_compute. auto. Qed. @*)

(** *** the symbol tables *)
Lemma build_quiet upper rep card_rep fuel fs tab f :
  match build_symbol_table upper fuel fs f tab with
  | Ok (tab', n) => exists ms bs, build_table_run upper fuel fs f tab = (ms, tab', Ok n) /\ zlen ms = n /\ Forall2 block_of ms bs /\
      build_verbose upper rep card_rep fuel fs false tab f = (map ErrL (concat bs), Ok (tab', n))
  | Err e => snd (build_verbose upper rep card_rep fuel fs false tab f) = Err e
  end.
Proof.
  pose proof (table_run upper fuel fs f tab) as T. unfold build_verbose.
  destruct (build_symbol_table upper fuel fs f tab) as [[tab' n]|e] eqn:E.
  - destruct T as (ms & T & Z). destruct (C135_blocks_pf upper rep card_rep _ _ _ _ _ _ _ T) as (bs & F & ->).
    exists ms, bs. split; [exact T|]. split; [exact Z|]. split; [exact F|].
    unfold build_symbol_table in E. pose proof (load_quiet fuel fs f) as L. unfold load in L.
    destruct (argus_deck_new fuel fs None (Some f) DEFAULT_WIDTH DEFAULT_FIELDS ArgusCls) as [d|]; cbn [bind] in *; [|discriminate].
    rewrite L. reflexivity.
  - destruct T as (ms & tab' & T). destruct (C135_blocks_pf upper rep card_rep _ _ _ _ _ _ _ T) as (bs & _ & ->). reflexivity.
Qed.
Lemma wd_app a b c d : with_dumps a b -> with_dumps c d -> with_dumps (a ++ c) (b ++ d).
Proof. intros H K. induction H; cbn [app]; [exact K|constructor; assumption|rewrite <- app_assoc; constructor; assumption]. Qed.
Lemma wd_refl a : with_dumps a a.
Proof. induction a; constructor; assumption. Qed.
Lemma wd_blocks ms bs : Forall2 block_of ms bs -> with_dumps (map ErrL ms) (map ErrL (concat bs)).
Proof. induction 1 as [|m b ms bs B F IH]; cbn [map concat]; [constructor|rewrite map_app; constructor; assumption]. Qed.
Definition step_run upper rep card_rep fuel fs (counts : bool) : symtab * Z * Z -> str -> io (symtab * Z * Z) := fun s f =>
  io_bind (build_verbose upper rep card_rep fuel fs false (fst (fst s)) f) (fun r =>
  ((if counts then [built_line f (snd r)] else []), Ok (fst r, snd (fst s) + snd r, snd r))).
Lemma sum_snoc ns n : fold_left Z.add (ns ++ [n]) 0 = fold_left Z.add ns 0 + n.
Proof. rewrite fold_left_app. reflexivity. Qed.
Lemma tables_quiet upper rep card_rep fuel fs counts args : forall tab ns last,
  match fold_r (fun s f => do r <- build_symbol_table upper fuel fs f (fst s); Ok (fst r, snd s ++ [snd r])) args (tab, ns) with
  | Ok (tab', ns') => exists ls ms bs last', io_fold (step_run upper rep card_rep fuel fs counts) args (tab, fold_left Z.add ns 0, last) = (ls, Ok (tab', fold_left Z.add ns' 0, last')) /\
      fold_left Z.add ns 0 + zlen ms = fold_left Z.add ns' 0 /\
      Forall2 block_of ms bs /\ (counts = false -> ls = map ErrL (concat bs)) /\
      (counts = true -> exists ls0, build_all_run upper fuel fs args tab (fold_left Z.add ns 0) = (ls0, Ok (tab', fold_left Z.add ns' 0)) /\ with_dumps ls0 ls)
  | Err e => snd (io_fold (step_run upper rep card_rep fuel fs counts) args (tab, fold_left Z.add ns 0, last)) = Err e /\
      snd (build_all_run upper fuel fs args tab (fold_left Z.add ns 0)) = Err e
  end.
Proof.
  induction args as [|f args IH]; intros tab ns last; cbn [fold_r io_fold build_all_run].
  - exists [], [], [], last. split; [reflexivity|]. rewrite Z.add_0_r. split; [reflexivity|]. split; [constructor|]. split; [reflexivity|].
    intros _. exists []. split; [reflexivity|constructor].
  - cbn [fst snd]. unfold step_run at 1 3. cbn [fst snd]. pose proof (build_quiet upper rep card_rep fuel fs tab f) as B. pose proof (table_run upper fuel fs f tab) as T.
    destruct (build_symbol_table upper fuel fs f tab) as [[tab1 n]|e]; cbn [bind fst snd].
    + destruct B as (ms & bs & E & Z & F & ->). rewrite !bind_ok. cbn [fst snd]. rewrite bind_ok, E. specialize (IH tab1 (ns ++ [n]) n). rewrite sum_snoc in IH.
      destruct (fold_r _ args (tab1, ns ++ [n])) as [[tab' ns']|e].
      * destruct IH as (ls & ms' & bs' & last' & -> & S & F' & C0 & C1). cbn [fst snd].
        exists ((map ErrL (concat bs) ++ if counts then [built_line f n] else []) ++ ls), (ms ++ ms'), (bs ++ bs'), last'. split; [reflexivity|].
        rewrite zlen_app, Z. split; [lia|]. split; [apply Forall2_app; assumption|]. split.
        -- intros ->. rewrite (C0 eq_refl), app_nil_r, concat_app, map_app. reflexivity.
        -- intros ->. destruct (C1 eq_refl) as (ls0 & -> & W). eexists. split; [reflexivity|]. rewrite <- app_assoc.
           apply wd_app; [apply wd_blocks, F|]. constructor. exact W.
      * destruct IH as [I1 I2]. split; [exact I1|]. destruct (build_all_run upper fuel fs args tab1 _). exact I2.
    + destruct T as (ms & tab' & ->). split; [|reflexivity]. rewrite snd_bind. rewrite snd_bind, B. reflexivity.
Qed.
Lemma all_quiet upper rep card_rep fuel fs counts args :
  match build_all upper fuel fs args with
  | Ok (tab, ns) => exists ls ms bs last, build_files_run upper rep card_rep fuel fs false counts args = (ls, Ok (tab, fold_left Z.add ns 0, last)) /\
      zlen ms = fold_left Z.add ns 0 /\ Forall2 block_of ms bs /\ (counts = false -> ls = map ErrL (concat bs)) /\
      (counts = true -> exists ls0, build_all_run upper fuel fs args [] 0 = (ls0, Ok (tab, fold_left Z.add ns 0)) /\ with_dumps ls0 ls)
  | Err e => snd (build_files_run upper rep card_rep fuel fs false counts args) = Err e
  end.
Proof.
  pose proof (tables_quiet upper rep card_rep fuel fs counts args [] [] 0) as T.
  match type of T with match ?x with _ => _ end => change x with (build_all upper fuel fs args) in T end.
  destruct (build_all upper fuel fs args) as [[tab ns]|e]; [|exact (proj1 T)].
  destruct T as (ls & ms & bs & last & E & S & C). exists ls, ms, bs, last. split; [exact E|]. split; [exact S|exact C].
Qed.
Lemma C131_symbols_pf : forall extract upper rep card_rep fuel fs begin end_ fuzzy exact complexOnly args,
  match check_symbols upper fuel fs complexOnly args with
  | Ok _ => exists short out, check_symbols_verbose extract upper rep card_rep fuel fs false complexOnly args = (out, Ok tt) /\
              check_symbols_run extract upper fuel fs complexOnly args = (short, Ok tt) /\ with_dumps short out
  | Err e => snd (check_symbols_verbose extract upper rep card_rep fuel fs false complexOnly args) = Err e
  end /\
  match find_symbols extract upper fuel fs begin end_ fuzzy exact args with
  | Ok d => exists short out answer r,
              find_symbols_verbose extract upper rep card_rep fuel fs false begin end_ fuzzy exact args = (out ++ answer, Ok r) /\
              find_symbols_run extract upper fuel fs begin end_ fuzzy exact args = (short, Ok r) /\ with_dumps short out /\
              (r = None /\ answer = [] /\ (d = FNone \/ d = FDefs [] \/ d = FList []) \/
               r = Some d /\ answer = [OutL (found_text rep card_rep d)])
  | Err e => snd (find_symbols_verbose extract upper rep card_rep fuel fs false begin end_ fuzzy exact args) = Err e
  end.
Proof.
  intros extract upper rep card_rep fuel fs begin end_ fuzzy exact complexOnly args. split.
  - unfold check_symbols, check_symbols_verbose, check_symbols_run. destruct args as [|f args]; [reflexivity|].
    pose proof (all_quiet upper rep card_rep fuel fs true (f :: args)) as T.
    destruct (build_all upper fuel fs (f :: args)) as [[tab ns]|e]; cbn [bind].
    + destruct T as (ls & ms & bs & last & -> & _ & _ & _ & C). destruct (C eq_refl) as (ls0 & -> & W). rewrite bind_ok. cbn [fst snd].
      eexists. eexists. split; [reflexivity|]. split; [reflexivity|]. apply wd_app; [exact W|apply wd_refl].
    + rewrite snd_bind, T. reflexivity.
  - unfold find_symbols, find_symbols_verbose, find_symbols_run. destruct (_ || _); [reflexivity|]. destruct args as [|sym [|f args]]; [reflexivity..|].
    pose proof (all_quiet upper rep card_rep fuel fs true (f :: args)) as T.
    destruct (build_all upper fuel fs (f :: args)) as [[tab ns]|e]; cbn [bind].
    + destruct T as (ls & ms & bs & last & -> & _ & _ & _ & C). destruct (C eq_refl) as (ls0 & -> & W). rewrite bind_ok. cbn [fst snd].
      pose proof (wd_app _ _ [undefined_message sym] _ W (wd_refl _)) as W1.
      destruct (find_symbol extract tab sym None begin end_ fuzzy) as [|[|d ds]|[|x xs]].
      * eexists _, _, [], _. split; [rewrite app_nil_r; cbn [fst snd]; rewrite ?app_nil_r; reflexivity|]. split; [reflexivity|]. auto 8.
      * eexists _, _, [], _. split; [rewrite app_nil_r; cbn [fst snd]; rewrite ?app_nil_r; reflexivity|]. split; [reflexivity|]. auto 8.
      * eexists _, _, [_], _. split; [reflexivity|]. split; [reflexivity|]. auto 8.
      * eexists _, _, [], _. split; [rewrite app_nil_r; cbn [fst snd]; rewrite ?app_nil_r; reflexivity|]. split; [reflexivity|]. auto 8.
      * eexists _, _, [_], _. split; [reflexivity|]. split; [reflexivity|]. auto 8.
    + rewrite snd_bind, T. reflexivity.
Qed.
(*@ Example C131_symbols_ex :
  let fs := fun f => if eqb f (lit "p.a") then Some (lit "        ALPHA      DEC          1" ++ [10]) else None in
  find_symbols_verbose (fun _ _ _ => []) (fun s => s) quoted a_card 2 fs false false false false false [lit "BETA"; lit "p.a"] =
    find_symbols_run (fun _ _ _ => []) (fun s => s) 2 fs false false false false [lit "BETA"; lit "p.a"] /\
  find_symbols (fun _ _ _ => []) (fun s => s) 2 fs false false false false [lit "BETA"; lit "p.a"] = Ok FNone.
Proof. vm_compute. auto. Qed. @*)
Lemma C131_list_symbols_pf : forall upper rep card_rep fuel fs args,
  match list_symbols upper fuel fs args with
  | Ok (out, n) => exists faults blocks, zlen faults = n /\ Forall2 block_of faults blocks /\
      list_symbols_run upper rep card_rep fuel fs false args =
      (map ErrL (concat blocks) ++ map OutL out ++ (if 0 <? n then [ErrL (str_of_Z n ++ lit " errors found")] else []), Ok tt)
  | Err e => snd (list_symbols_run upper rep card_rep fuel fs false args) = Err e
  end.
Proof.
  intros upper rep card_rep fuel fs args. unfold list_symbols, list_symbols_run. destruct args as [|f args]; [reflexivity|].
  pose proof (all_quiet upper rep card_rep fuel fs false (f :: args)) as T.
  destruct (build_all upper fuel fs (f :: args)) as [[tab ns]|e]; cbn [bind].
  - destruct T as (ls & ms & bs & last & -> & S & F & C & _). rewrite bind_ok. cbn [fst snd]. destruct (ls_table tab) as [out|e]; cbn [bind fst snd]; [|reflexivity].
    exists ms, bs. split; [exact S|]. split; [exact F|]. rewrite (C eq_refl), Z.gtb_ltb. reflexivity.
  - rewrite snd_bind, T. reflexivity.
Qed.
(*@ Example C131_list_symbols_ex :
  let fs := fun f => if eqb f (lit "p.a") then Some (lit "        A,B,C,D    DEC          1" ++ [10]) else None in
  list_symbols (fun s => s) 2 fs [lit "p.a"] = Ok ([], 1) /\ zlen (fst (list_symbols_run (fun s => s) quoted a_card 2 fs false [lit "p.a"])) = 3.
Proof. vm_compute. auto. Qed. @*)

(** *** parse *)
Lemma C131_parse_pf : forall upper rep card_rep fuel fs args,
  match parse_tool upper fuel fs args with
  | Ok (lines, errs) => exists faults, parse_run upper rep card_rep fuel fs false false args =
      (faults ++ [OutL (10 :: lit "Source lines: " ++ str_of_Z lines);
                  OutL (if errs =? 1 then lit "1 error encountered." else str_of_Z errs ++ lit " errors encountered.")], Ok tt)
  | Err e => snd (parse_run upper rep card_rep fuel fs false false args) = Err e
  end.
Proof.
  intros upper rep card_rep fuel fs args. unfold parse_tool, parse_run. destruct args as [|f args]; [reflexivity|].
  assert (T : forall l tab tot last, match fold_r (fun s f => build_symbol_table upper fuel fs f (fst s)) l (tab, last) with
     | Ok (tab', last') => exists ls tot', io_fold (step_run upper rep card_rep fuel fs true) l (tab, tot, last) = (ls, Ok (tab', tot', last'))
     | Err e => snd (io_fold (step_run upper rep card_rep fuel fs true) l (tab, tot, last)) = Err e end).
  { induction l as [|g l IH]; intros tab tot last; cbn [fold_r io_fold]; [exists [], tot; reflexivity|]. cbn [fst]. unfold step_run at 1 3. cbn [fst snd].
    pose proof (build_quiet upper rep card_rep fuel fs tab g) as B. destruct (build_symbol_table upper fuel fs g tab) as [[tab1 n]|e]; cbn [bind].
    - destruct B as (ms & bs & _ & _ & _ & ->). rewrite !bind_ok. cbn [fst snd]. rewrite bind_ok. specialize (IH tab1 (tot + n) n).
      destruct (fold_r _ l (tab1, n)) as [[tab' last']|e]; [|exact IH]. destruct IH as (ls & tot' & ->). eexists. eexists. reflexivity.
    - rewrite snd_bind, snd_bind, B. reflexivity. }
  specialize (T (f :: args) [] 0 0).
  change (io_fold (step_run upper rep card_rep fuel fs true) (f :: args) ([], 0, 0)) with (build_files_run upper rep card_rep fuel fs false true (f :: args)) in T.
  match goal with |- context [bind ?y _] => match type of T with match ?x with _ => _ end => change x with y in T end; destruct y as [[tab n]|e]; cbn [bind]; [|rewrite snd_bind, T; reflexivity] end.
  destruct T as (ls & tot & ->). rewrite bind_ok. cbn [fst snd].
  pose proof (files_sim fuel fs (parse_card_run false false) parse_card (fun s (_ : list line) p => s = p)) as F.
  assert (H : forall (s : Z * Z) (out : list line) p x, s = p -> match parse_card p x with
     | Ok p' => exists ls s', parse_card_run false false s x = (ls, Ok s') /\ s' = p'
     | Err e => snd (parse_card_run false false s x) = Err e end).
  { intros s out p c ->. unfold parse_card_run. destruct (parse_card p c) as [p'|e]; [|reflexivity]. eexists. eexists. split; reflexivity. }
  specialize (F H (f :: args) (0, n) [] (0, n) eq_refl). set (G := io_fold _ (f :: args) (0, n)) in *. clearbody G.
  match type of F with match ?x with _ => _ end => destruct x as [[lines errs]|e]; [|rewrite snd_bind, F; reflexivity] end.
  destruct F as (ls2 & s' & -> & ->). rewrite bind_ok. cbn [fst snd]. exists (ls ++ ls2). rewrite <- app_assoc. reflexivity.
Qed.
(*@ Example C131_parse_ex :
  let fs := fun f => if eqb f (lit "p.a") then Some (lit "                   FOO" ++ [10]) else None in
  parse_tool (fun s => s) 2 fs [lit "p.a"] = Ok (1, 1) /\ zlen (fst (parse_run (fun s => s) quoted a_card 2 fs false false [lit "p.a"])) = 5.
Proof. vm_compute. auto. Qed. @*)

(** *** listing *)
Lemma C131_listing_pf : forall fuel fs args,
  match listing fuel fs args with
  | Ok fs' => listing_run fuel fs false args = (([], Ok tt), fs')
  | Err e => snd (fst (listing_run fuel fs false args)) = Err e
  end.
Proof.
  intros fuel fs args. unfold listing, listing_run. destruct args as [|f args]; [reflexivity|].
  generalize (f :: args) as l. clear f args. intros l. revert fs.
  induction l as [|f l IH]; intros fs; cbn [fold_r listing_files]; [reflexivity|].
  unfold listing_file at 1, listing_one at 1 2. pose proof (load_quiet fuel fs f) as L. destruct (load fuel fs f) as [cs|e]; cbn [bind].
  - rewrite L, bind_ok. cbn [app]. destruct (mapr listing_line cs) as [ls|e]; cbn [bind fst snd tell]; [|reflexivity].
    set (fs1 := fs_write fs _ _). specialize (IH fs1). destruct (fold_r (listing_file fuel) l fs1) as [fs'|e].
    + rewrite IH. reflexivity.
    + destruct (listing_files fuel fs1 false l) as [[ls' x] fs2]. exact IH.
  - destruct (load_run fuel fs false f) as [l1 r]. cbn [snd] in L. subst r. reflexivity.
Qed.
(*@ Example C131_listing_ex :
  let fs := fun f => if eqb f (lit "p.a") then Some (lit "                   FOO" ++ [10]) else None in
  fst (listing_run 2 fs false [lit "p.a"]) = ([], Ok tt) /\ snd (listing_run 2 fs false [lit "p.a"]) (lit "p.lst") <> None.
Proof. vm_compute. split; [reflexivity|discriminate]. Qed. @*)
