(** Property theorems; generated from LReport.v by meta/genp.py. *)
From Verif Require Import Py LPy MInstruction MCards SCards LCards LDeck MSymbols SSymbols LSymBuild MInstructions MTools STools LTools LToolSym LListTool MDiag SDiag LDiag LQuiet MDump SDump MVerbose SVerbose LVerbose STranscript LTranscript MOptions SOptions LOptions MProcess SProcess LProcess SEnds LEnds SSource LSource SFound LFound STextSym LTextSym SReport LReport.

Theorem C161_parse : forall fs prog words on verbose debug files outs bad,
  understood (options Parse) words on files -> turned_on on "verbose" verbose -> turned_on on "debug" debug ->
  files <> [] -> ~ In [] files -> plain_names files -> Forall2 (source fs) files outs ->
  count_of (fun x => exists ls, mnemonic_fault x ls) (concat outs) bad ->
  exists k, forall v, (k <= e_fuel v)%nat -> exists said told before n,
    command v fs Parse prog words =
      (said ++ told ++ [OutL (10 :: lit "Source lines: " ++ str_of_Z (zlen (concat outs))); OutL (error_count (n + bad))], Exit 0, fs) /\
    labels_told fs (e_upper v) (e_rep v) verbose true files outs (before ++ [n]) said /\
    lines_told fs verbose (line_report verbose debug) files outs told.
Proof. exact (@C161_parse_pf). Qed.
Print Assumptions C161_parse.

Example C161_parse_ex : Forall2 (source sample) [lit "a.arg"] [sample_lines] /\
  fst (command sample_env sample Parse (lit "x.py") [lit "-vd"; lit "a.arg"; lit "inc"]) =
    ([OutL (lit "Reading a.arg..."); OutL (lit "Skipping meta-comment, file a.arg, line 1"); OutL (lit "Reading inc...");
     ErrL (lit "*** ERROR: Symbol x is ill-formed (case)!");
     ErrL (lit "Current definition: {'file': inc, 'line': 2, 'lognum': None, 'tagtype': None, 'card': ?}");
     ErrL (lit "a.arg: 1 errors encountered building symbol table."); OutL (lit "Reading inc...");
     ErrL (lit "*** ERROR: Symbol x is ill-formed (case)!");
     ErrL (lit "Current definition: {'file': inc, 'line': 2, 'lognum': None, 'tagtype': None, 'card': ?}");
     ErrL (lit "inc: 1 errors encountered building symbol table.");
     OutL (lit "Reading a.arg..."); OutL (lit "Skipping meta-comment, file a.arg, line 1"); OutL (lit "Reading inc...");
     OutL (lit "inc 1         N          ASSIGN       5"); OutL (lit "a.arg 3         A          DA,B         1");
     OutL (lit "a.arg 5        *           FOO");
     OutL (lit "Skipping card with * in column 8:"); OutL (lit "a.arg 5        *           FOO");
     OutL (lit "a.arg 6   12    A          FOO"); OutL (lit "*** ERROR: Invalid instruction ""FOO"":");
     OutL (lit "File a.arg, line 6:   12    A          FOO");
     OutL (lit "Reading inc..."); OutL (lit "inc 1         N          ASSIGN       5");
     OutL (10 :: lit "Source lines: 8"); OutL (lit "2 errors encountered.")], Exit 0).
Proof. split; [constructor; [exact sample_ok|constructor]|vm_compute; reflexivity]. Qed.

Theorem C161_check : forall fs prog words on verbose show unused files outs bad,
  understood (options CheckInstructions) words on files ->
  turned_on on "verbose" verbose -> turned_on on "print-opcodes" show -> turned_on on "unused" unused -> ~ In (lit "count") on ->
  files <> [] -> ~ In [] files -> Forall2 (source fs) files outs ->
  count_of (fun x => exists ls, mnemonic_fault x ls) (concat outs) bad ->
  exists k, forall v, (k <= e_fuel v)%nat -> exists told un,
    command v fs CheckInstructions prog words = (told ++ map OutL (un ++ [error_count bad]), Exit 0, fs) /\
    lines_told fs verbose (line_report verbose show) files outs told /\
    unused_text (concat outs) unused un.
Proof. exact (@C161_check_pf). Qed.
Print Assumptions C161_check.

Example C161_check_ex : Forall2 (source sample) [lit "a.arg"] [sample_lines] /\
  firstn 14 (fst (fst (command sample_env sample CheckInstructions (lit "x.py") [lit "-pvu"; lit "a.arg"]))) =
    [OutL (lit "Reading a.arg..."); OutL (lit "Skipping meta-comment, file a.arg, line 1"); OutL (lit "Reading inc...");
     OutL (lit "inc 1         N          ASSIGN       5"); OutL (lit "a.arg 3         A          DA,B         1");
     OutL (lit "a.arg 5        *           FOO");
     OutL (lit "Skipping card with * in column 8:"); OutL (lit "a.arg 5        *           FOO");
     OutL (lit "a.arg 6   12    A          FOO"); OutL (lit "*** ERROR: Invalid instruction ""FOO"":");
     OutL (lit "File a.arg, line 6:   12    A          FOO");
     OutL (10 :: lit "Unused Instructions:"); OutL (lit "ALF"); OutL (lit "ARGUS")] /\
  last (fst (fst (command sample_env sample CheckInstructions (lit "x.py") [lit "-pvu"; lit "a.arg"]))) (OutL []) = OutL (lit "1 error encountered.").
Proof. split; [constructor; [exact sample_ok|constructor]|]. split; vm_compute; reflexivity. Qed.

Theorem C161_count : forall fs prog words on verbose show unused sorted files outs bad total,
  understood (options CheckInstructions) words on files ->
  turned_on on "verbose" verbose -> turned_on on "print-opcodes" show -> turned_on on "unused" unused -> turned_on on "sort" sorted ->
  In (lit "count") on -> files <> [] -> ~ In [] files -> Forall2 (source fs) files outs ->
  count_of (fun x => exists ls, mnemonic_fault x ls) (concat outs) bad ->
  count_of (fun x => exists m, mnemonic_at (text_of x) m) (concat outs) total -> total <> 0 \/ unused = true ->
  exists k, forall v, (k <= e_fuel v)%nat -> exists told rows un,
    command v fs CheckInstructions prog words =
      (told ++ map OutL ([10 :: lit "Source lines: " ++ str_of_Z (zlen (concat outs)); 10 :: lit "Instruction Frequencies:";
                          freq_line (lit "Total") total (lit "100.00")] ++
                         map (fun r => freq_line (fst r) (snd r) (e_pct v (snd r) total)) rows ++ un ++ [error_count bad]), Exit 0, fs) /\
    lines_told fs verbose (line_report verbose show) files outs told /\
    NoDup (map fst rows) /\
    (forall m n, In (m, n) rows <-> In m INSTRUCTIONS /\ occurs (concat outs) m n /\ (unused = true -> n <> 0)) /\
    (if sorted then StronglySorted by_frequency rows else StronglySorted (fun a b => str_lt (fst a) (fst b)) rows) /\
    unused_text (concat outs) unused un.
Proof. exact (@C161_count_pf). Qed.
Print Assumptions C161_count.

Example C161_count_ex : Forall2 (source sample) [lit "a.arg"] [sample_lines] /\
  firstn 13 (fst (fst (command sample_env sample CheckInstructions (lit "x.py") [lit "-cpsu"; lit "a.arg"]))) =
    [OutL (lit "inc 1         N          ASSIGN       5"); OutL (lit "a.arg 3         A          DA,B         1");
     OutL (lit "a.arg 5        *           FOO");
     OutL (lit "a.arg 6   12    A          FOO"); OutL (lit "*** ERROR: Invalid instruction ""FOO"":");
     OutL (lit "File a.arg, line 6:   12    A          FOO");
     OutL (10 :: lit "Source lines: 6"); OutL (10 :: lit "Instruction Frequencies:"); OutL (lit "Total         4  100.00%");
     OutL (lit "DA            1   50.00%"); OutL (lit "ASSIGN        1   50.00%");
     OutL (10 :: lit "Unused Instructions:"); OutL (lit "ALF")].
Proof. split; [constructor; [exact sample_ok|constructor]|vm_compute; reflexivity]. Qed.

Theorem C161_none : forall fs prog words on verbose show files outs,
  understood (options CheckInstructions) words on files ->
  turned_on on "verbose" verbose -> turned_on on "print-opcodes" show -> ~ In (lit "unused") on ->
  In (lit "count") on -> files <> [] -> ~ In [] files -> Forall2 (source fs) files outs ->
  (forall x m, In x (concat outs) -> ~ mnemonic_at (text_of x) m) ->
  exists k, forall v, (k <= e_fuel v)%nat -> exists told,
    command v fs CheckInstructions prog words =
      (told ++ map OutL [10 :: lit "Source lines: " ++ str_of_Z (zlen (concat outs)); 10 :: lit "Instruction Frequencies:";
                         freq_line (lit "Total") 0 (lit "100.00")], Died ZeroDivisionError, fs) /\
    lines_told fs verbose (line_report verbose show) files outs told.
Proof. exact (@C161_none_pf). Qed.
Print Assumptions C161_none.

Example C161_none_ex : let fs := fun f => if eqb f (lit "a") then Some (lit "R TEXT") else None in
  fst (command sample_env fs CheckInstructions (lit "x.py") [lit "-cv"; lit "a"]) =
    ([OutL (lit "Reading a..."); OutL (10 :: lit "Source lines: 1"); OutL (10 :: lit "Instruction Frequencies:"); OutL (lit "Total         0  100.00%")],
     Died ZeroDivisionError).
Proof. vm_compute. reflexivity. Qed.

Theorem C161_search : forall fs prog words on verbose details opcode m files outs,
  understood (options ListInstructions) words on (opcode :: files) -> turned_on on "verbose" verbose -> turned_on on "details" details ->
  mnemonic_of opcode m -> In m INSTRUCTIONS -> ~ In [] files -> Forall2 (source fs) files outs ->
  exists k, forall v, (k <= e_fuel v)%nat -> exists told,
    command v fs ListInstructions prog words = (told, Exit 0, fs) /\
    lines_told fs verbose (search_report verbose details opcode) files outs told.
Proof. exact (@C161_search_pf). Qed.
Print Assumptions C161_search.

Example C161_search_ex : Forall2 (source sample) [lit "a.arg"] [sample_lines] /\
  fst (command sample_env sample ListInstructions (lit "x.py") [lit "-v"; lit "DA"; lit "a.arg"]) =
    ([OutL (lit "Reading a.arg..."); OutL (lit "Skipping meta-comment, file a.arg, line 1"); OutL (lit "Reading inc...");
     OutL (lit "        A          DA,B         1"); OutL (lit "Skipping card with * in column 8:");
     OutL (lit "a.arg                                                 5        *           FOO")], Exit 0).
Proof. split; [constructor; [exact sample_ok|constructor]|vm_compute; reflexivity]. Qed.

Theorem C161_list : forall fs prog words on verbose files outs,
  understood (options ListSymbols) words on files -> turned_on on "verbose" verbose ->
  files <> [] -> ~ In [] files -> plain_names files -> Forall2 (source fs) files outs ->
  exists k, forall v, (k <= e_fuel v)%nat -> exists said shown rows ns,
    command v fs ListSymbols prog words =
      (said ++ map OutL shown ++ (if total_of ns =? 0 then [] else [ErrL (str_of_Z (total_of ns) ++ lit " errors found")]), Exit 0, fs) /\
    labels_told fs (e_upper v) (e_rep v) verbose false files outs ns said /\
    laid_out None rows shown /\
    StronglySorted (fun a b => key_lt (fst a) (fst b)) rows /\
    (forall t s u k y, In ((t, s, u, k), y) rows <->
       exists x tt, defined_at (e_upper v) files outs t s u k x tt /\ symbol_row k x tt y).
Proof. exact (@C161_list_pf). Qed.
Print Assumptions C161_list.

Example C161_list_ex : Forall2 (source sample) [lit "a.arg"] [sample_lines] /\
  fst (command sample_env sample ListSymbols (lit "x.py") [lit "-v"; lit "inc"]) =
    ([OutL (lit "Reading inc...");
     ErrL (lit "*** ERROR: Symbol x is ill-formed (case)!");
     ErrL (lit "Current definition: {'file': inc, 'line': 2, 'lognum': None, 'tagtype': None, 'card': ?}");
     OutL (lit "N"); OutL (lit "  Segment: inc"); OutL (lit "    Subsegment: 1");
     OutL (lit "        <complex>   inc:1                                               N          ASSIGN       5");
     ErrL (lit "1 errors found")], Exit 0).
Proof. split; [constructor; [exact sample_ok|constructor]|vm_compute; reflexivity]. Qed.

Theorem C161_symbols : forall fs prog words on verbose complex files outs,
  understood (options CheckSymbols) words on files -> turned_on on "verbose" verbose -> turned_on on "complex" complex ->
  files <> [] -> ~ In [] files -> plain_names files -> Forall2 (source fs) files outs ->
  exists k, forall v, (k <= e_fuel v)%nat -> exists said syms choices part total ns,
    command v fs CheckSymbols prog words =
      (said ++
       map (fun s => ErrL (lit "ERROR: symbol """ ++ s ++ lit """ has a complex assignment, but no simple assignment!")) syms ++
       part ++ total, Exit 0, fs) /\
    labels_told fs (e_upper v) (e_rep v) verbose true files outs ns said /\
    StronglySorted str_lt syms /\
    (forall s, In s syms <-> complex = true /\
       (exists out x tt, In out outs /\ In x out /\ line_defines (e_upper v) (text_of x) s (lit "complex") tt) /\
       ~ (exists out x tt, In out outs /\ In x out /\ line_defines (e_upper v) (text_of x) s (lit "simple") tt)) /\
    undefined_part (fun s => map fst (e_extract v s choices 10)) syms part /\
    suggestions (e_upper v) files outs choices /\
    total_part files (total_of ns + zlen syms) total.
Proof. exact (@C161_symbols_pf). Qed.
Print Assumptions C161_symbols.

Example C161_symbols_ex : Forall2 (source sample) [lit "a.arg"] [sample_lines] /\
  fst (command sample_env sample CheckSymbols (lit "x.py") [lit "-vc"; lit "a.arg"; lit "inc"]) =
    ([OutL (lit "Reading a.arg..."); OutL (lit "Skipping meta-comment, file a.arg, line 1"); OutL (lit "Reading inc...");
     ErrL (lit "*** ERROR: Symbol x is ill-formed (case)!");
     ErrL (lit "Current definition: {'file': inc, 'line': 2, 'lognum': None, 'tagtype': None, 'card': ?}");
     ErrL (lit "a.arg: 1 errors encountered building symbol table."); OutL (lit "Reading inc...");
     ErrL (lit "*** ERROR: Symbol x is ill-formed (case)!");
     ErrL (lit "Current definition: {'file': inc, 'line': 2, 'lognum': None, 'tagtype': None, 'card': ?}");
     ErrL (lit "inc: 1 errors encountered building symbol table.");
     ErrL (lit "ERROR: symbol ""N"" has a complex assignment, but no simple assignment!"); ErrL []; ErrL (lit "Undefined symbols:");
     OutL (lit "  N - Possible matches: A"); ErrL (lit "1 errors checking symbol table."); ErrL (lit "Total: 3 errors encountered.")], Exit 0).
Proof. split; [constructor; [exact sample_ok|constructor]|vm_compute; reflexivity]. Qed.

Theorem C161_answer : forall fs prog words on verbose files outs symbol,
  understood (options FindSymbols) words on (symbol :: files) -> turned_on on "verbose" verbose ->
  (forall x, In x ["begin"; "end"; "fuzzy"]%string -> ~ In (lit x) on) ->
  files <> [] -> ~ In [] files -> plain_names files -> Forall2 (source fs) files outs ->
  exists k, forall v, (k <= e_fuel v)%nat -> exists said ns,
    labels_told fs (e_upper v) (e_rep v) verbose true files outs ns said /\
    (((exists out x kind tt, In out outs /\ In x out /\ line_defines (e_upper v) (text_of x) symbol kind tt) /\
      exists l ds t, command v fs FindSymbols prog words = (said ++ [OutL t], Exit 0, fs) /\
        all_given (e_upper v) symbol files outs l /\ collected l ds /\ answer_shown (e_rep v) ds t) \/
     (~ (exists out x kind tt, In out outs /\ In x out /\ line_defines (e_upper v) (text_of x) symbol kind tt) /\
      command v fs FindSymbols prog words = (said ++ [ErrL (lit "ERROR: Undefined symbol """ ++ symbol ++ lit """!")], Exit 0, fs))).
Proof. exact (@C161_answer_pf). Qed.
Print Assumptions C161_answer.

Example C161_answer_ex : Forall2 (source sample) [lit "a.arg"] [sample_lines] /\
  fst (command sample_env sample FindSymbols (lit "x.py") [lit "-v"; lit "N"; lit "a.arg"; lit "inc"]) =
    ([OutL (lit "Reading a.arg..."); OutL (lit "Skipping meta-comment, file a.arg, line 1"); OutL (lit "Reading inc...");
     ErrL (lit "*** ERROR: Symbol x is ill-formed (case)!");
     ErrL (lit "Current definition: {'file': inc, 'line': 2, 'lognum': None, 'tagtype': None, 'card': ?}");
     ErrL (lit "a.arg: 1 errors encountered building symbol table."); OutL (lit "Reading inc...");
     ErrL (lit "*** ERROR: Symbol x is ill-formed (case)!");
     ErrL (lit "Current definition: {'file': inc, 'line': 2, 'lognum': None, 'tagtype': None, 'card': ?}");
     ErrL (lit "inc: 1 errors encountered building symbol table.");
     OutL (lit "{a: {1: {complex: {'file': inc, 'line': 1, 'lognum': None, 'tagtype':  , 'card': ?}}}, inc: {1: {complex: {'file': inc, 'line': 1, 'lognum': None, 'tagtype':  , 'card': ?}}}}")], Exit 0) /\
  collected [(lit "a", (lit "1", (lit "complex", ((lit "inc", 1, []), lit " ")))); (lit "inc", (lit "1", (lit "complex", ((lit "inc", 1, []), lit " "))))]
    [(lit "a", [(lit "1", [(lit "complex", ((lit "inc", 1, []), lit " "))])]); (lit "inc", [(lit "1", [(lit "complex", ((lit "inc", 1, []), lit " "))])])].
Proof.
  split; [constructor; [exact sample_ok|constructor]|]. split; [vm_compute; reflexivity|].
  split; [reflexivity|]. intros k v [[= <- <-]|[[= <- <-]|[]]]; (split; [reflexivity|]); intros k v [[= <- <-]|[]];
    (split; [reflexivity|]); intros k v [[= <- <-]|[]]; exists []; reflexivity.
Qed.

Theorem C161_names : forall fs prog words on verbose b files outs symbol,
  understood (options FindSymbols) words on (symbol :: files) -> turned_on on "verbose" verbose ->
  turned_on on "begin" b -> turned_on on "end" (negb b) ->
  (forall x, In x ["fuzzy"; "exact"]%string -> ~ In (lit x) on) ->
  files <> [] -> ~ In [] files -> plain_names files -> Forall2 (source fs) files outs ->
  exists k, forall v, (k <= e_fuel v)%nat -> exists said ns names,
    labels_told fs (e_upper v) (e_rep v) verbose true files outs ns said /\
    command v fs FindSymbols prog words = (said ++ (if zlen names =? 0 then [] else [OutL (names_text (e_rep v) names)]), Exit 0, fs) /\
    StronglySorted str_lt names /\
    forall s, In s names <-> (exists out x kind tt, In out outs /\ In x out /\ line_defines (e_upper v) (text_of x) s kind tt) /\
      if b then exists r, s = symbol ++ r else exists r, s = r ++ symbol.
Proof. exact (@C161_names_pf). Qed.
Print Assumptions C161_names.

Example C161_names_ex : Forall2 (source sample) [lit "a.arg"] [sample_lines] /\
  fst (command sample_env sample FindSymbols (lit "x.py") [lit "-ve"; lit "N"; lit "inc"]) =
    ([OutL (lit "Reading inc...");
     ErrL (lit "*** ERROR: Symbol x is ill-formed (case)!");
     ErrL (lit "Current definition: {'file': inc, 'line': 2, 'lognum': None, 'tagtype': None, 'card': ?}");
     ErrL (lit "inc: 1 errors encountered building symbol table."); OutL (lit "[N]")], Exit 0).
Proof. split; [constructor; [exact sample_ok|constructor]|vm_compute; reflexivity]. Qed.

Theorem C161_fuzzy : forall fs prog words on verbose files outs symbol,
  understood (options FindSymbols) words on (symbol :: files) -> turned_on on "verbose" verbose -> In (lit "fuzzy") on ->
  (forall x, In x ["begin"; "end"; "exact"]%string -> ~ In (lit x) on) ->
  files <> [] -> ~ In [] files -> plain_names files -> Forall2 (source fs) files outs ->
  exists k, forall v, (k <= e_fuel v)%nat -> exists said ns choices, let names := map fst (e_extract v symbol choices 10) in
    labels_told fs (e_upper v) (e_rep v) verbose true files outs ns said /\
    command v fs FindSymbols prog words = (said ++ (if zlen names =? 0 then [] else [OutL (names_text (e_rep v) names)]), Exit 0, fs) /\
    suggestions (e_upper v) files outs choices.
Proof. exact (@C161_fuzzy_pf). Qed.
Print Assumptions C161_fuzzy.

Example C161_fuzzy_ex : Forall2 (source sample) [lit "a.arg"] [sample_lines] /\
  fst (command sample_env sample FindSymbols (lit "x.py") [lit "-vf"; lit "N"; lit "a.arg"]) =
    ([OutL (lit "Reading a.arg..."); OutL (lit "Skipping meta-comment, file a.arg, line 1"); OutL (lit "Reading inc...");
     ErrL (lit "*** ERROR: Symbol x is ill-formed (case)!");
     ErrL (lit "Current definition: {'file': inc, 'line': 2, 'lognum': None, 'tagtype': None, 'card': ?}");
     ErrL (lit "a.arg: 1 errors encountered building symbol table."); OutL (lit "[A]")], Exit 0).
Proof. split; [constructor; [exact sample_ok|constructor]|vm_compute; reflexivity]. Qed.

Theorem C161_determined : forall fs verbose files outs l l',
  (forall show, lines_told fs verbose (line_report verbose show) files outs l -> lines_told fs verbose (line_report verbose show) files outs l' -> l = l') /\
  (forall details opcode, lines_told fs verbose (search_report verbose details opcode) files outs l ->
     lines_told fs verbose (search_report verbose details opcode) files outs l' -> l = l').
Proof. exact (@C161_determined_pf). Qed.
Print Assumptions C161_determined.

Example C161_determined_ex : line_report true true (lit "a", 5, lit "       *           FOO") (skipping (lit "a 5        *           FOO")) -> False.
Proof.
  intros H. assert (X : line_report true true (lit "a", 5, lit "       *           FOO") ([OutL (place (lit "a", 5, lit "       *           FOO"))] ++ skipping (place (lit "a", 5, lit "       *           FOO")))).
  { apply (lr_star true true _ (lit "FOO")); [|reflexivity]. split; [discriminate|]. exists (lit "FOO"). split.
    - split; [intros (c & E & I); injection E as <-; cbn in I; intuition discriminate|]. split; [apply strip_ex; reflexivity|discriminate].
    - left. split; [cbn; intuition discriminate|reflexivity]. }
  pose proof (line_unique_report _ _ _ _ _ H X) as E. apply (f_equal (@List.length line)) in E. discriminate E.
Qed.
