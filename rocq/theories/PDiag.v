(** Property theorems; generated from LDiag.v by meta/genp.py. *)
From Verif Require Import Py LPy MCards SCards LInstructions LCards LDeck MSymbols SSymbols LSymBuild LSymQuery MTools STools LTools LToolSym MDiag SDiag LDiag.

Theorem C112_messages : forall upper fuel fs filename seg cs tab,
  segment_of filename seg -> ~ is_kind seg -> plain_table tab -> source_cards fuel fs filename cs ->
  exists ms tab', build_table_run upper fuel fs filename tab = (ms, tab', Ok (zlen ms)) /\ reported upper cs ms.
Proof. exact (@C112_messages_pf). Qed.
Print Assumptions C112_messages.

Example C112_messages_ex :
  let fs := fun f : str =>
     Some (lit "        A          DEC          1" ++ [10] ++ lit "       *A,A,A      DEC" ++ [10] ++
           lit "        A,B,C      DEC" ++ [10] ++ lit "        X,A        DEC" ++ [10] ++ lit "        Q,A        DEC" ++ [10] ++
           lit "        F,A" ++ [10] ++ lit "        a B        DEC") in
  let up := map (fun c => if (97 <=? c) && (c <=? 122) then c - 32 else c) in
  fst (fst (build_table_run up 1 fs (lit "prog.arg") [])) =
    [lit "*** ERROR: Symbol A,B,C is illegal, too many commas!"; lit "*** ERROR: Symbol X,A has unsupported tag prefix!";
     lit "*** ERROR: Symbol Q,A is ill-formed (tag prefix)!"; lit "*** ERROR: Symbol F,A has no operation!";
     lit "*** ERROR: Symbol aB is ill-formed (case)!"].
Proof. vm_compute. reflexivity. Qed.

Theorem C112_one_reason : forall upper c,
  (forall m m', complaint upper c m -> complaint upper c m' -> m = m') /\
  (proper_card c -> (label_error upper c <-> ~ starred c /\ exists m, complaint upper c m)).
Proof. exact (@C112_one_reason_pf). Qed.
Print Assumptions C112_one_reason.

Example C112_one_reason_ex : forall upper c, upper (lit "L,a") = lit "L,A" -> card_get c "label" = Ok (RStr (lit "L,a")) ->
  forall m, complaint upper c m -> m = lit "*** ERROR: Symbol L,a is ill-formed (case)!".
Proof.
  intros upper c U EL m X. apply (proj1 (C112_one_reason upper c) m _ X).
  apply (cp_case upper c (lit "L,a")); [exists (lit "L,a"); split; [exact EL|reflexivity]|]. rewrite U. discriminate.
Qed.

Theorem C112_count : forall upper fuel fs filename tab ms tab' n,
  build_table_run upper fuel fs filename tab = (ms, tab', Ok n) -> zlen ms = n /\
  build_symbol_table upper fuel fs filename tab = Ok (tab', n).
Proof. exact (@C112_count_pf). Qed.
Print Assumptions C112_count.

Example C112_count_ex :
  let fs := fun f : str =>
     Some (lit "        A          DEC          1" ++ [10] ++ lit "        A          DEC") in
  fst (fst (build_table_run (fun s => s) 1 fs (lit "simple.arg") [])) = [lit "*** ERROR: Symbol A is multiply-defined!"] /\
  snd (build_table_run (fun s => s) 1 fs (lit "simple.arg") []) = Ok 1.
Proof. vm_compute. auto. Qed.

Theorem C113_unchanged_refuted : forall upper, upper (lit "A") = lit "A" ->
  exists fs ms tab' e, build_table_run upper 1 fs (lit "simple.arg") [] = (ms, tab', Err e) /\
    get4 tab' (lit "A") (lit "simple") (lit "1") (lit "simple") <> None.
Proof. exact (@C113_unchanged_refuted_pf). Qed.
Print Assumptions C113_unchanged_refuted.

Example C113_unchanged_refuted_ex :
  let fs := fun _ : str => Some (lit "        A          DEC          1" ++ [10] ++ lit "        A          EQUALS       2") in
  snd (build_table_run (fun s => s) 1 fs (lit "simple.arg") []) = Err KeyError /\
  dkeys (snd (fst (build_table_run (fun s => s) 1 fs (lit "simple.arg") []))) = [lit "A"].
Proof. vm_compute. auto. Qed.

Theorem C113_left_partial : forall upper fuel fs filename tab ms tab' e,
  build_table_run upper fuel fs filename tab = (ms, tab', Err e) ->
  (~ (exists cs, source_cards fuel fs filename cs) /\ ms = [] /\ tab' = tab) \/
  (exists seg cs pre c post, segment_of filename seg /\ source_cards fuel fs filename cs /\ cs = pre ++ c :: post /\
     card_get c "operation" = Ok (RStr (lit "EQUALS")) /\ (e = KeyError \/ e = AttributeError) /\
     (is_kind seg \/ ~ plain_table tab) /\
     forall t s u k, s <> seg \/ never_def upper (lit "1") pre t u k -> get4 tab' t s u k = get4 tab t s u k).
Proof. exact (@C113_left_partial_pf). Qed.
Print Assumptions C113_left_partial.

Example C113_left_partial_ex :
  let fs := fun f : str => if eqb f (lit "top.arg") then Some (lit "        A          DEC          1" ++ [10] ++ lit "%include ""gone""") else None in
  forall tab, build_table_run (fun s => s) 3 (fun _ => None) (lit "gone.arg") tab = ([], tab, Err SystemExit).
Proof. intros fs tab. vm_compute. reflexivity. Qed.

Theorem C114_report : forall extract upper fuel fs complexOnly files css, files <> [] ->
  Forall2 (source_cards fuel fs) files css -> plain_names files ->
  exists mss syms choices part total,
    check_symbols_run extract upper fuel fs complexOnly files =
      (file_reports files mss ++
       map (fun s => ErrL (lit "ERROR: symbol """ ++ s ++ lit """ has a complex assignment, but no simple assignment!")) syms ++
       part ++ total, Ok tt) /\
    Forall2 (reported upper) css mss /\
    StronglySorted str_lt syms /\
    (forall s, In s syms <-> complexOnly = true /\
      (exists seg ss e, defined_as upper files css s seg ss (lit "complex") e) /\
      ~ (exists seg ss e, defined_as upper files css s seg ss (lit "simple") e)) /\
    undefined_part (fun s => map fst (extract s choices 10)) syms part /\
    chosen_among upper files css choices /\
    total_part files (zlen (concat mss) + zlen syms) total.
Proof. exact (@C114_report_pf). Qed.
Print Assumptions C114_report.

Example C114_report_ex :
  let fs := fun f => if eqb f (lit "p.a") then Some (lit "        A          ASSIGN       1" ++ [10] ++ lit "        b          DEC          1" ++ [10])
                     else if eqb f (lit "q.a") then Some (lit "        L,X        DEC          1" ++ [10] ++ lit "        C          DEC" ++ [10]) else None in
  let up := map (fun c => if (97 <=? c) && (c <=? 122) then c - 32 else c) in
  check_symbols_run (fun q cs n => map (fun c => (c, 50)) cs) up 2 fs true [lit "p.a"; lit "q.a"] =
   ([ErrL (lit "*** ERROR: Symbol b is ill-formed (case)!"); ErrL (lit "p.a: 1 errors encountered building symbol table.");
     ErrL (lit "*** ERROR: Symbol L,X has unsupported tag prefix!"); ErrL (lit "q.a: 1 errors encountered building symbol table.");
     ErrL (lit "ERROR: symbol ""A"" has a complex assignment, but no simple assignment!");
     ErrL []; ErrL (lit "Undefined symbols:"); OutL (lit "  A - Possible matches: C"); ErrL (lit "1 errors checking symbol table.");
     ErrL (lit "Total: 3 errors encountered.")], Ok tt).
Proof. vm_compute. reflexivity. Qed.

Theorem C114_usage : forall extract upper fuel fs complexOnly, check_symbols_run extract upper fuel fs complexOnly [] = ([], Err SystemExit).
Proof. exact (@C114_usage_pf). Qed.
Print Assumptions C114_usage.

Example C114_usage_ex : snd (check_symbols_run (fun _ _ _ => []) (fun s => s) 2 (fun _ => Some []) true [lit "p.a"]) = Ok tt.
Proof. reflexivity. Qed.

Theorem C116_silent_refuted : forall extract upper fuel fs symbol files css,
  files <> [] -> Forall2 (source_cards fuel fs) files css -> plain_names files ->
  (forall q, ~ is_defined upper css (symbol ++ q)) ->
  exists mss, Forall2 (reported upper) css mss /\
    find_symbols_run extract upper fuel fs true false false false (symbol :: files) = (file_reports files mss, Ok None).
Proof. exact (@C116_silent_refuted_pf). Qed.
Print Assumptions C116_silent_refuted.

Example C116_silent_refuted_ex :
  find_symbols_run (fun _ _ _ => []) (fun s => s) 2
    (fun f => if eqb f (lit "p.a") then Some (lit "        TABLE1     DEC          1" ++ [10]) else None)
    true false false false [lit "B"; lit "p.a"] = ([ErrL (lit "p.a: 0 errors encountered building symbol table.")], Ok None).
Proof. vm_compute. reflexivity. Qed.

Theorem C116_exact_partial : forall extract upper fuel fs exact symbol files css,
  files <> [] -> Forall2 (source_cards fuel fs) files css -> plain_names files ->
  exists mss ls r, find_symbols_run extract upper fuel fs false false false exact (symbol :: files) =
      (file_reports files mss ++ ls, Ok r) /\ Forall2 (reported upper) css mss /\
    ((is_defined upper css symbol /\ ls = [] /\ exists sg, r = Some (FDefs sg) /\ sg <> []) \/
     (~ is_defined upper css symbol /\ r = None /\ ls = [ErrL (lit "ERROR: Undefined symbol """ ++ symbol ++ lit """!")])).
Proof. exact (@C116_exact_partial_pf). Qed.
Print Assumptions C116_exact_partial.

Example C116_exact_partial_ex :
  find_symbols_run (fun _ _ _ => []) (fun s => s) 2
    (fun f => if eqb f (lit "p.a") then Some (lit "        TABLE1     DEC          1" ++ [10]) else None)
    false false false true [lit "B"; lit "p.a"] =
  ([ErrL (lit "p.a: 0 errors encountered building symbol table."); ErrL (lit "ERROR: Undefined symbol ""B""!")], Ok None).
Proof. vm_compute. reflexivity. Qed.

Theorem C116_usage_partial : forall extract upper fuel fs begin end_ fuzzy exact args,
  zlen args < 2 \/
  1 < zlen (filter (fun b : bool => b) [begin; end_; fuzzy; exact]) ->
  find_symbols_run extract upper fuel fs begin end_ fuzzy exact args = ([], Err SystemExit).
Proof. exact (@C116_usage_partial_pf). Qed.
Print Assumptions C116_usage_partial.

Example C116_usage_partial_ex :
  find_symbols_run (fun _ _ _ => []) (fun s => s) 2 (fun _ => Some []) true false false true [lit "A"; lit "p.a"] = ([], Err SystemExit) /\
  snd (find_symbols_run (fun _ _ _ => []) (fun s => s) 2 (fun _ => Some []) false false false true [lit "A"; lit "p.a"]) = Ok None.
Proof. split; reflexivity. Qed.
