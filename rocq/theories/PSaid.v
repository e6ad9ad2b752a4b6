(** Property theorems; generated from LSaid.v by meta/genp.py. *)
From Verif Require Import Py LPy MInstructions MCards SCards LCards LDeck MSymbols SSymbols LSymBuild LSymQuery MTools STools LTools LToolSym SClash LClash LQuiet SForce LForce MDiag SDiag LDiag MDump SDump LDump MVerbose SVerbose LVerbose STranscript LTranscript LTextSym SFound LFound SSaid LSaid.

Theorem C195_list : forall upper rep card_rep fuel fs v files css ds, files <> [] -> Forall2 (source_cards fuel fs) files css -> files_defs upper files css ds ->
  let run := list_symbols_run upper rep card_rep fuel fs v files in
  (harmless ds -> exists tables ns out es, let total := fold_right Z.add 0 ns in
     run = (tables ++ map OutL out ++ (if total =? 0 then [] else [ErrL (str_of_Z total ++ lit " errors found")]), Ok tt) /\
     files_said upper rep card_rep fuel fs v false files ds tables ns /\
     rendered (None, None, None) es out /\ StronglySorted (fun x y => key_lt (fst x) (fst y)) es /\
     forall t s u k e, In ((t, s, u, k), e) es <-> in_force ds t s u k e) /\
  (forall e, dies_of ds e -> exists ls, run = (ls, Err e) /\ broken upper rep card_rep fuel fs v false files ls e).
Proof. exact (@C195_list_pf). Qed.
Print Assumptions C195_list.

Example C195_list_ex :
  list_symbols_run (fun s => s) quoted a_card 2 clash_files true [lit "simple.a"] =
    ([OutL (lit "Reading simple.a...")] ++ clash_said ++
     [OutL (lit "A"); OutL (lit "  Segment: simple"); OutL (lit "    Subsegment: 1");
      OutL (lit "        <simple>    simple:1                                            A          DEC          1");
      ErrL (lit "1 errors found")], Ok tt) /\
  list_symbols_run (fun s => s) quoted a_card 2 clash_files false [lit "simple.a"; lit "simple.b"] = (clash_said, Err KeyError).
Proof. vm_compute. auto. Qed.

Theorem C195_check : forall extract upper rep card_rep fuel fs v complexOnly files css ds,
  files <> [] -> Forall2 (source_cards fuel fs) files css -> files_defs upper files css ds ->
  let run := check_symbols_verbose extract upper rep card_rep fuel fs v complexOnly files in
  (harmless ds -> exists tables ns syms choices part total,
     run = (tables ++
       map (fun s => ErrL (lit "ERROR: symbol """ ++ s ++ lit """ has a complex assignment, but no simple assignment!")) syms ++
       part ++ total, Ok tt) /\
     files_said upper rep card_rep fuel fs v true files ds tables ns /\
     StronglySorted str_lt syms /\
     (forall s, In s syms <-> complexOnly = true /\ (exists seg ss e, in_force ds s seg ss (lit "complex") e) /\
       ~ (exists seg ss e, in_force ds s seg ss (lit "simple") e)) /\
     undefined_part (fun s => map fst (extract s choices 10)) syms part /\ candidates ds choices /\
     total_part files (fold_right Z.add 0 ns + zlen syms) total) /\
  (forall e, dies_of ds e -> exists ls, run = (ls, Err e) /\ broken upper rep card_rep fuel fs v true files ls e).
Proof. exact (@C195_check_pf). Qed.
Print Assumptions C195_check.

Example C195_check_ex :
  check_symbols_verbose (fun _ cs _ => map (fun c => (c, 1)) cs) (fun s => s) quoted a_card 2 clash_files false true [lit "simple.a"; lit "complex.a"] =
    (clash_said ++ [ErrL (lit "simple.a: 1 errors encountered building symbol table."); ErrL (lit "complex.a: 0 errors encountered building symbol table.");
      ErrL (lit "ERROR: symbol ""C"" has a complex assignment, but no simple assignment!"); ErrL []; ErrL (lit "Undefined symbols:");
      OutL (lit "  C - Possible matches: A"); ErrL (lit "1 errors checking symbol table."); ErrL (lit "Total: 2 errors encountered.")], Ok tt).
Proof. vm_compute. reflexivity. Qed.

Theorem C195_find : forall extract upper rep card_rep fuel fs v exact symbol files css ds,
  files <> [] -> Forall2 (source_cards fuel fs) files css -> files_defs upper files css ds ->
  let run := find_symbols_verbose extract upper rep card_rep fuel fs v false false false exact (symbol :: files) in
  let defined := exists d, In d ds /\ sd_tag d = symbol in
  (harmless ds -> exists tables ns, files_said upper rep card_rep fuel fs v true files ds tables ns /\
     (defined -> exists l a t r, run = (tables ++ [OutL t], Ok r) /\ accepted symbol ds l /\ answer_from l a /\ answer_text rep card_rep a t) /\
     (~ defined -> run = (tables ++ [ErrL (lit "ERROR: Undefined symbol """ ++ symbol ++ lit """!")], Ok None))) /\
  (forall e, dies_of ds e -> exists ls, run = (ls, Err e) /\ broken upper rep card_rep fuel fs v true files ls e).
Proof. exact (@C195_find_pf). Qed.
Print Assumptions C195_find.

Example C195_find_ex :
  fst (find_symbols_verbose (fun _ _ _ => []) (fun s => s) quoted a_card 2 clash_files false false false false false [lit "A"; lit "simple.a"]) =
    clash_said ++ [ErrL (lit "simple.a: 1 errors encountered building symbol table.");
      OutL (lit "{'simple': {'1': {'simple': {'file': 'simple.a', 'line': 1, 'lognum': None, 'tagtype': ' ', 'card': <card>}}}}")].
Proof. vm_compute. reflexivity. Qed.

Theorem C195_names : forall extract upper rep card_rep fuel fs v begin end_ symbol files css ds,
  files <> [] -> Forall2 (source_cards fuel fs) files css -> files_defs upper files css ds -> begin = negb end_ ->
  let run := find_symbols_verbose extract upper rep card_rep fuel fs v begin end_ false false (symbol :: files) in
  (harmless ds -> exists tables ns names r,
     run = (tables ++ (if zlen names =? 0 then [] else [OutL (names_text rep names)]), Ok r) /\
     files_said upper rep card_rep fuel fs v true files ds tables ns /\
     StronglySorted str_lt names /\
     forall s, In s names <-> (exists d, In d ds /\ sd_tag d = s) /\
       ((begin = true /\ exists r, s = symbol ++ r) \/ (end_ = true /\ exists r, s = r ++ symbol))) /\
  (forall e, dies_of ds e -> exists ls, run = (ls, Err e) /\ broken upper rep card_rep fuel fs v true files ls e).
Proof. exact (@C195_names_pf). Qed.
Print Assumptions C195_names.

Example C195_names_ex :
  fst (find_symbols_verbose (fun _ _ _ => []) (fun s => s) quoted a_card 2 clash_files false true false false false [[]; lit "simple.a"; lit "complex.a"]) =
    clash_said ++ [ErrL (lit "simple.a: 1 errors encountered building symbol table."); ErrL (lit "complex.a: 0 errors encountered building symbol table.");
      OutL (lit "['A', 'C']")].
Proof. vm_compute. reflexivity. Qed.

Theorem C195_fuzzy : forall extract upper rep card_rep fuel fs v symbol files css ds,
  files <> [] -> Forall2 (source_cards fuel fs) files css -> files_defs upper files css ds ->
  let run := find_symbols_verbose extract upper rep card_rep fuel fs v false false true false (symbol :: files) in
  (harmless ds -> exists tables ns choices r, let names := map fst (extract symbol choices 10) in
     run = (tables ++ (if zlen names =? 0 then [] else [OutL (names_text rep names)]), Ok r) /\
     files_said upper rep card_rep fuel fs v true files ds tables ns /\ candidates ds choices) /\
  (forall e, dies_of ds e -> exists ls, run = (ls, Err e) /\ broken upper rep card_rep fuel fs v true files ls e).
Proof. exact (@C195_fuzzy_pf). Qed.
Print Assumptions C195_fuzzy.

Example C195_fuzzy_ex :
  fst (find_symbols_verbose (fun _ cs _ => map (fun c => (c, 1)) cs) (fun s => s) quoted a_card 2 clash_files false false false true false [lit "B"; lit "simple.a"; lit "complex.a"]) =
    clash_said ++ [ErrL (lit "simple.a: 1 errors encountered building symbol table."); ErrL (lit "complex.a: 0 errors encountered building symbol table.");
      OutL (lit "['A']")].
Proof. vm_compute. reflexivity. Qed.

Theorem C195_parse : forall upper rep card_rep fuel fs v debug files css ds k,
  files <> [] -> Forall2 (source_cards fuel fs) files css -> files_defs upper files css ds ->
  count_of (fun c => ~ starred c /\ exists m, instr_is c m /\ ~ In m INSTRUCTIONS) (concat css) k ->
  let run := parse_run upper rep card_rep fuel fs v debug files in
  (harmless ds -> exists tables ns n ls,
     run = (tables ++ ls ++ [OutL (10 :: lit "Source lines: " ++ str_of_Z (zlen (concat css))); OutL (error_count (n + k))], Ok tt) /\
     files_said upper rep card_rep fuel fs v true files ds tables (ns ++ [n]) /\ files_report fuel fs v debug files ls) /\
  (forall e, dies_of ds e -> exists ls, run = (ls, Err e) /\ broken upper rep card_rep fuel fs v true files ls e).
Proof. exact (@C195_parse_pf). Qed.
Print Assumptions C195_parse.

Example C195_parse_ex :
  parse_run (fun s => s) quoted a_card 2 clash_files false false [lit "complex.a"; lit "simple.a"] =
    ([ErrL (lit "complex.a: 0 errors encountered building symbol table.")] ++ clash_said ++ [ErrL (lit "simple.a: 1 errors encountered building symbol table.");
      OutL (10 :: lit "Source lines: 3"); OutL (lit "1 error encountered.")], Ok tt) /\
  parse_run (fun s => s) quoted a_card 2 clash_files false false [lit "simple.a"; lit "complex.a"] =
    (clash_said ++ [ErrL (lit "simple.a: 1 errors encountered building symbol table."); ErrL (lit "complex.a: 0 errors encountered building symbol table.");
      OutL (10 :: lit "Source lines: 3"); OutL (lit "0 errors encountered.")], Ok tt).
Proof. vm_compute. auto. Qed.

Theorem C195_determined : forall upper rep card_rep fuel fs v counts files,
  (forall ds ls ns ds' ls' ns', files_said upper rep card_rep fuel fs v counts files ds ls ns ->
     files_said upper rep card_rep fuel fs v counts files ds' ls' ns' -> ds = ds' /\ ls = ls' /\ ns = ns') /\
  (forall ls e ls' e', broken upper rep card_rep fuel fs v counts files ls e -> broken upper rep card_rep fuel fs v counts files ls' e' -> ls = ls' /\ e = e') /\
  (forall ds ls ns ls' e, files_said upper rep card_rep fuel fs v counts files ds ls ns -> ~ broken upper rep card_rep fuel fs v counts files ls' e).
Proof. exact (@C195_determined_pf). Qed.
Print Assumptions C195_determined.

Example C195_determined_ex : forall ls e,
  broken (fun s => s) quoted a_card 2 clash_files false false [lit "simple.a"; lit "simple.b"] ls e -> ls = clash_said /\ e = KeyError.
Proof.
  intros ls e B. pose proof (C195_list (fun s => s) quoted a_card 2 clash_files false [lit "simple.a"; lit "simple.b"]) as H. cbv zeta in H.
  assert (R : list_symbols_run (fun s => s) quoted a_card 2 clash_files false [lit "simple.a"; lit "simple.b"] = (clash_said, Err KeyError)) by (vm_compute; reflexivity).
  rewrite R in H. clear R.
  assert (F : exists css, Forall2 (source_cards 2 clash_files) [lit "simple.a"; lit "simple.b"] css).
  { destruct (argus_deck_new 2 clash_files None (Some (lit "simple.a")) 120 [1; 2; 8; 9; 20; 33; 47; 61; 76; 81] ArgusCls) as [[[d1 s1] c1]|x] eqn:E1; [|vm_compute in E1; discriminate E1].
    destruct (argus_deck_new 2 clash_files None (Some (lit "simple.b")) 120 [1; 2; 8; 9; 20; 33; 47; 61; 76; 81] ArgusCls) as [[[d2 s2] c2]|x] eqn:E2; [|vm_compute in E2; discriminate E2].
    exists [d_cards d1; d_cards d2]. constructor; [exists d1, s1, c1; auto|]. constructor; [exists d2, s2, c2; auto|constructor]. }
  destruct F as (css & F). destruct (C194_definitions_pf (fun s => s) _ _ _ _ F) as (ds & FD & _).
  destruct (H css ds ltac:(discriminate) F FD) as [H1 H2]. clear H.
  destruct (harmless_dec_run _ _ _ _ _ _ FD F) as [HL|(e' & DO)].
  - destruct (H1 HL) as (t & ns & out & es & E & _). discriminate E.
  - destruct (H2 _ DO) as (ls' & E & B'). destruct (proj1 (proj2 (C195_determined _ _ _ _ _ _ _ _)) _ _ _ _ B B') as [-> ->]. split; congruence.
Qed.

Theorem C113_exact : forall upper fuel fs files css ds tab ns f seg cs pre x post e,
  Forall2 (source_cards fuel fs) files css -> files_defs upper files css ds -> build_all upper fuel fs files = Ok (tab, ns) ->
  source_cards fuel fs f cs -> segment_of f seg -> deck_defs upper seg (lit "1") cs (pre ++ x :: post) ->
  harmless (ds ++ pre) -> fatal_at (ds ++ pre) x e ->
  exists ms tab', build_table_run upper fuel fs f tab = (ms, tab', Err e) /\
    (forall t, dget tab' t <> None <-> exists d, In d (ds ++ pre) /\ sd_tag d = t) /\
    forall t s u k en, get4 tab' t s u k = Some en <-> in_force (ds ++ pre) t s u k en.
Proof. exact (@C113_exact_pf). Qed.
Print Assumptions C113_exact.

Example C113_exact_ex :
  let fs := fun f => if eqb f (lit "simple.a") then Some (lit "        A          DEC          1" ++ [10] ++ lit "        A          ASSIGN       2" ++ [10] ++
                        lit "        A          EQUALS       1" ++ [10] ++ lit "        B          DEC          1" ++ [10]) else None in
  let '(_, tab, r) := build_table_run (fun s => s) 2 fs (lit "simple.a") [] in
  r = Err KeyError /\ dkeys tab = [lit "A"] /\ option_map e_line (get4 tab (lit "A") (lit "simple") (lit "1") (lit "simple")) = Some 1 /\
  option_map e_line (get4 tab (lit "A") (lit "simple") (lit "1") (lit "complex")) = Some 2.
Proof. vm_compute. auto. Qed.
