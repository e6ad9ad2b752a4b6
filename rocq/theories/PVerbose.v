(** Property theorems; generated from LVerbose.v by meta/genp.py. *)
From Verif Require Import Py LPy MInstruction SInstruction LInstruction MInstructions LInstructions MCards SCards LCards LDeck MSymbols SSymbols LSymBuild LSymQuery MTools STools LTools LToolSym LListTool MDiag SDiag LDiag MDump SDump LDump MVerbose SVerbose LVerbose.

Theorem C117_deck : forall fuel fs lines file width fields k,
  only_adds (deck_run fuel fs true lines file width fields k) (deck_run fuel fs false lines file width fields k).
Proof. exact (@C117_deck_pf). Qed.
Print Assumptions C117_deck.

Example C117_deck_ex :
  let fs := fun f => if eqb f (lit "a") then Some (lit "# x" ++ [10] ++ lit "$b" ++ [10] ++ lit "R 1") else
                     if eqb f (lit "b") then Some (lit "# y" ++ [10] ++ lit "#z") else None in
  fst (deck_run 2 fs true None (Some (lit "a")) 120 DEFAULT_FIELDS ArgusCls) =
    [OutL (lit "Reading a..."); OutL (lit "Skipping meta-comment, file a, line 1"); OutL (lit "Reading b...");
     OutL (lit "Skipping meta-comment, file b, line 1"); OutL (lit "Skipping meta-comment, file b, line 2")] /\
  fst (deck_run 2 fs false None (Some (lit "a")) 120 DEFAULT_FIELDS ArgusCls) = [] /\
  fst (deck_run 2 fs true (Some [lit "R 1"; lit "# c"]) None 120 DEFAULT_FIELDS ArgusCls) =
    [OutL (lit "Skipping meta-comment, file None, line 2")].
Proof. vm_compute. auto. Qed.

Theorem C117_check_instructions : forall pct fuel fs o args,
  only_adds (check_instructions_run pct fuel fs true o args) (check_instructions_run pct fuel fs false o args).
Proof. exact (@C117_check_instructions_pf). Qed.
Print Assumptions C117_check_instructions.

Example C117_check_instructions_ex :
  let fs := fun f => if eqb f (lit "a") then Some (lit "# x" ++ [10] ++ lit "       *           TX           B" ++ [10] ++
                                                   lit "                   FOO" ++ [10]) else None in
  let o := mkciopts false false false false false false in
  let quiet := [OutL (lit "*** ERROR: Invalid instruction ""FOO"":"); OutL (lit "File a, line 3:                    FOO");
                OutL (lit "1 error encountered.")] in
  check_instructions_run (fun _ _ => []) 2 fs false o [lit "a"] = (quiet, Ok tt) /\
  check_instructions_run (fun _ _ => []) 2 fs true o [lit "a"] =
    ([OutL (lit "Reading a..."); OutL (lit "Skipping meta-comment, file a, line 1");
      OutL (lit "Skipping card with * in column 8:"); OutL (lit "a 2        *           TX           B")] ++ quiet, Ok tt).
Proof. vm_compute. auto. Qed.

Theorem C117_list_instructions : forall fuel fs details args,
  only_adds (list_instructions_run fuel fs true details args) (list_instructions_run fuel fs false details args).
Proof. exact (@C117_list_instructions_pf). Qed.
Print Assumptions C117_list_instructions.

Example C117_list_instructions_ex :
  let fs := fun f => if eqb f (lit "a") then Some (lit "       *           TX           B" ++ [10] ++
                                                   lit "                   TX           B") else None in
  list_instructions_run 2 fs true false [lit "TX"; lit "a"] =
    ([OutL (lit "Reading a..."); OutL (lit "Skipping card with * in column 8:");
      OutL (pad_right 32 48 (lit "a") ++ lit "      1        *           TX           B");
      OutL (lit "                   TX           B")], Ok tt) /\
  list_instructions_run 2 fs false false [lit "TX"; lit "a"] = ([OutL (lit "                   TX           B")], Ok tt).
Proof. vm_compute. auto. Qed.

Theorem C117_parse : forall upper rep card_rep fuel fs debug args,
  only_adds (parse_run upper rep card_rep fuel fs true debug args) (parse_run upper rep card_rep fuel fs false debug args).
Proof. exact (@C117_parse_pf). Qed.
Print Assumptions C117_parse.

Example C117_parse_ex :
  let fs := fun f => if eqb f (lit "a") then Some (lit "# x" ++ [10] ++ lit "                   TX           B") else None in
  parse_run (fun s => s) quoted a_card 2 fs true false [lit "a"] =
    ([OutL (lit "Reading a..."); OutL (lit "Skipping meta-comment, file a, line 1");
      ErrL (lit "a: 0 errors encountered building symbol table.");
      OutL (lit "Reading a..."); OutL (lit "Skipping meta-comment, file a, line 1");
      OutL (10 :: lit "Source lines: 1"); OutL (lit "0 errors encountered.")], Ok tt) /\
  parse_run (fun s => s) quoted a_card 2 fs false false [lit "a"] =
    ([ErrL (lit "a: 0 errors encountered building symbol table.");
      OutL (10 :: lit "Source lines: 1"); OutL (lit "0 errors encountered.")], Ok tt).
Proof. vm_compute. auto. Qed.

Theorem C117_symbols : forall extract upper rep card_rep fuel fs begin end_ fuzzy exact complexOnly args,
  only_adds (check_symbols_verbose extract upper rep card_rep fuel fs true complexOnly args)
            (check_symbols_verbose extract upper rep card_rep fuel fs false complexOnly args) /\
  only_adds (find_symbols_verbose extract upper rep card_rep fuel fs true begin end_ fuzzy exact args)
            (find_symbols_verbose extract upper rep card_rep fuel fs false begin end_ fuzzy exact args) /\
  only_adds (list_symbols_run upper rep card_rep fuel fs true args) (list_symbols_run upper rep card_rep fuel fs false args).
Proof. exact (@C117_symbols_pf). Qed.
Print Assumptions C117_symbols.

Example C117_symbols_ex :
  let fs := fun f => if eqb f (lit "a") then Some (lit "        A          DEC          1") else None in
  fst (list_symbols_run (fun s => s) quoted a_card 2 fs true [lit "a"]) = OutL (lit "Reading a...") :: fst (list_symbols_run (fun s => s) quoted a_card 2 fs false [lit "a"]) /\
  zlen (fst (list_symbols_run (fun s => s) quoted a_card 2 fs false [lit "a"])) = 4 /\
  fst (check_symbols_verbose (fun _ _ _ => []) (fun s => s) quoted a_card 2 fs true true [lit "a"]) =
    [OutL (lit "Reading a..."); ErrL (lit "a: 0 errors encountered building symbol table.")] /\
  fst (find_symbols_verbose (fun _ _ _ => []) (fun s => s) quoted a_card 2 fs true false false false false [lit "B"; lit "a"]) =
    [OutL (lit "Reading a..."); ErrL (lit "a: 0 errors encountered building symbol table."); ErrL (lit "ERROR: Undefined symbol ""B""!")].
Proof. vm_compute. auto. Qed.

Theorem C117_listing : forall fuel fs args,
  only_adds (fst (listing_run fuel fs true args)) (fst (listing_run fuel fs false args)) /\
  snd (listing_run fuel fs true args) = snd (listing_run fuel fs false args).
Proof. exact (@C117_listing_pf). Qed.
Print Assumptions C117_listing.

Example C117_listing_ex :
  let fs := fun f => if eqb f (lit "a.arg") then Some (lit "R 1") else None in
  fst (listing_run 2 fs true [lit "a.arg"]) = ([OutL (lit "Reading a.arg..."); OutL (lit "Wrote listing file to a.lst")], Ok tt) /\
  fst (listing_run 2 fs false [lit "a.arg"]) = ([], Ok tt) /\
  snd (listing_run 2 fs true [lit "a.arg"]) (lit "a.lst") <> None.
Proof. vm_compute. split; [reflexivity|]. split; [reflexivity|discriminate]. Qed.

Theorem C118_missing : forall fs f ls m, f <> [] -> stops_at fs f ls m ->
  exists n, forall fuel, (n <= fuel)%nat ->
    load_run fuel fs false f = ([ErrL m], Err SystemExit) /\
    load_run fuel fs true f = (ls ++ [ErrL m], Err SystemExit).
Proof. exact (@C118_missing_pf). Qed.
Print Assumptions C118_missing.

Example C118_missing_ex :
  let fs := fun f => if eqb f (lit "a") then Some (lit "#x" ++ [10] ++ lit "$b" ++ [10]) else
                     if eqb f (lit "b") then Some (lit "$ c.arg X") else None in
  load_run 3 fs true (lit "a") =
    ([OutL (lit "Reading a..."); OutL (lit "Skipping meta-comment, file a, line 1"); OutL (lit "Reading b...");
      ErrL (lit "File ""c.arg"" does not exist")], Err SystemExit) /\
  load_run 3 fs false (lit "d") = ([ErrL (lit "ERROR: File ""d"" does not exist!")], Err SystemExit).
Proof. vm_compute. auto. Qed.

Theorem C118_only : forall fuel fs v f out, load_run fuel fs v f = (out, Err SystemExit) ->
  exists ls m, stops_at fs f ls m /\ out = (if v then ls else []) ++ [ErrL m].
Proof. exact (@C118_only_pf). Qed.
Print Assumptions C118_only.

Example C118_only_ex :
  let fs := fun f => if eqb f (lit "a") then Some (lit "$b" ++ [10]) else None in
  load_run 2 fs false (lit "a") = ([ErrL (lit "File ""b"" does not exist")], Err SystemExit).
Proof. vm_compute. reflexivity. Qed.

Theorem C118_named : forall fs f ls m, stops_at fs f ls m ->
  reaches_missing fs f /\ exists g, fs g = None /\
    (m = lit "ERROR: File """ ++ g ++ lit """ does not exist!" /\ g = f \/
     m = lit "File """ ++ g ++ lit """ does not exist").
Proof. exact (@C118_named_pf). Qed.
Print Assumptions C118_named.

Example C118_named_ex :
  let fs := fun f => if eqb f (lit "a") then Some (lit "$b" ++ [10]) else None in
  stops_at fs (lit "a") [OutL (lit "Reading a...")] (lit "File ""b"" does not exist").
Proof.
  cbv zeta. eapply sa_include with (pre := []) (line := lit "$b" ++ [10]) (post := []) (inc := lit "b");
    [reflexivity|reflexivity|constructor| |reflexivity].
  exists (lit "b" ++ [10]). split; [reflexivity|apply first_word_ok; eexists; reflexivity].
Qed.

Theorem C119_progress : forall fuel fs f cs, source_cards fuel fs f cs ->
  exists ls, read_log fs f ls /\ (forall ls', read_log fs f ls' -> ls' = ls) /\
    load_run fuel fs true f = (ls, Ok cs) /\ load_run fuel fs false f = ([], Ok cs).
Proof. exact (@C119_progress_pf). Qed.
Print Assumptions C119_progress.

Example C119_progress_ex :
  let fs := fun f => if eqb f (lit "a") then Some (lit "R 1" ++ [10] ++ lit "#x" ++ [10] ++ lit "$b" ++ [10] ++ lit "#y") else
                     if eqb f (lit "b") then Some (lit "#z") else None in
  fst (load_run 3 fs true (lit "a")) =
    [OutL (lit "Reading a..."); OutL (lit "Skipping meta-comment, file a, line 2"); OutL (lit "Reading b...");
     OutL (lit "Skipping meta-comment, file b, line 1"); OutL (lit "Skipping meta-comment, file a, line 4")] /\
  exists c, snd (load_run 3 fs true (lit "a")) = Ok [c].
Proof. cbv zeta. split; [vm_compute; reflexivity|]. eexists. vm_compute. reflexivity. Qed.

Theorem C119_lines : forall fuel fs lines width fields k, usable_layout k width fields ->
  exists ls, fst (deck_run fuel fs true (Some lines) None width fields k) = ls /\
    fst (deck_run fuel fs false (Some lines) None width fields k) = [] /\
    picked (fun p y => comment_line (snd p) /\
        y = OutL (lit "Skipping meta-comment, file None, line " ++ str_of_Z (fst p)))
      (combine (py_range 1 (1 + zlen lines)) lines) ls.
Proof. exact (@C119_lines_pf). Qed.
Print Assumptions C119_lines.

Example C119_lines_ex : fst (deck_run 1 (fun _ => None) true (Some [lit "#a"; lit "R 1"; lit "#b"]) None 120 DEFAULT_FIELDS ArgusCls) =
  [OutL (lit "Skipping meta-comment, file None, line 1"); OutL (lit "Skipping meta-comment, file None, line 3")].
Proof. vm_compute. reflexivity. Qed.

Theorem C119_no_input : forall fuel fs v width fields k,
  deck_run fuel fs v None None width fields k = ([ErrL (lit "ERROR: no input supplied to class constructor!")], Err SystemExit) /\
  deck_run fuel fs v None (Some []) width fields k = ([], Err TypeError).
Proof. exact (@C119_no_input_pf). Qed.
Print Assumptions C119_no_input.

Example C119_no_input_ex : deck_run 1 (fun _ => None) true None None 80 DEFAULT_FIELDS ArgusCls =
  ([ErrL (lit "ERROR: no input supplied to class constructor!")], Err SystemExit).
Proof. vm_compute. reflexivity. Qed.

Theorem C121_transcript : forall pct fuel fs v o files css n, files <> [] -> o_count o = false ->
  Forall2 (source_cards fuel fs) files css ->
  count_of (fun c => ~ starred c /\ exists m, instr_is c m /\ ~ In m INSTRUCTIONS) (concat css) n ->
  exists ls unused, check_instructions_run pct fuel fs v o files = (ls ++ map OutL (unused ++ [error_count n]), Ok tt) /\
    files_report fuel fs v (o_print o) files ls /\ unused_part (concat css) (o_unused o) unused.
Proof. exact (@C121_transcript_pf). Qed.
Print Assumptions C121_transcript.

Example C121_transcript_ex :
  let fs := fun f => if eqb f (lit "a") then Some (lit "                   TX,A         B" ++ [10] ++ lit "       *           TX           B" ++ [10] ++
       lit "                   FOO" ++ [10]) else Some (lit "R      REMARK") in
  check_instructions_run (fun _ _ => []) 2 fs true (mkciopts false false false true false false) [lit "a"; lit "b"] =
    ([OutL (lit "Reading a..."); OutL (lit "a 1                    TX,A         B");
      OutL (lit "a 2        *           TX           B");
      OutL (lit "Skipping card with * in column 8:"); OutL (lit "a 2        *           TX           B");
      OutL (lit "a 3                    FOO"); OutL (lit "*** ERROR: Invalid instruction ""FOO"":");
      OutL (lit "File a, line 3:                    FOO"); OutL (lit "Reading b..."); OutL (lit "1 error encountered.")], Ok tt).
Proof. vm_compute. reflexivity. Qed.

Theorem C121_count : forall pct fuel fs v o files css n total, files <> [] -> o_count o = true ->
  Forall2 (source_cards fuel fs) files css ->
  count_of (fun c => ~ starred c /\ exists m, instr_is c m /\ ~ In m INSTRUCTIONS) (concat css) n ->
  count_of instr_card (concat css) total -> total <> 0 ->
  exists ls rows unused, check_instructions_run pct fuel fs v o files =
      (ls ++ map OutL ([10 :: lit "Source lines: " ++ str_of_Z (zlen (concat css)); 10 :: lit "Instruction Frequencies:";
                        freq_line (lit "Total") total (lit "100.00")] ++
                       map (fun r => freq_line (fst r) (snd r) (pct (snd r) total)) rows ++ unused ++ [error_count n]), Ok tt) /\
    files_report fuel fs v (o_print o) files ls /\
    NoDup (map fst rows) /\
    (forall m k, In (m, k) rows <-> In m INSTRUCTIONS /\ frequency (concat css) m k /\ (o_unused o = true -> k <> 0)) /\
    (o_sort o = true -> StronglySorted by_frequency rows) /\
    (o_sort o = false -> StronglySorted (fun a b => str_lt (fst a) (fst b)) rows) /\
    unused_part (concat css) (o_unused o) unused.
Proof. exact (@C121_count_pf). Qed.
Print Assumptions C121_count.

Example C121_count_ex :
  let fs := fun f : str => Some (lit "                   TX,A         B" ++ [10] ++ lit "                   WA") in
  let '(out, r) := check_instructions_run (fun _ _ => lit " 50.00") 2 fs true (mkciopts false true false false true true) [lit "a"] in
  firstn 6 out =
    [OutL (lit "Reading a..."); OutL (10 :: lit "Source lines: 2"); OutL (10 :: lit "Instruction Frequencies:");
     OutL (lit "Total         2  100.00%"); OutL (lit "WA            1   50.00%"); OutL (lit "TX            1   50.00%")] /\
  nth 6 out (OutL []) = OutL (10 :: lit "Unused Instructions:") /\ last out (OutL []) = OutL (lit "0 errors encountered.") /\ r = Ok tt.
Proof. vm_compute. auto. Qed.

Theorem C121_no_instructions : forall pct fuel fs v o files css, files <> [] -> o_count o = true -> o_unused o = false ->
  Forall2 (source_cards fuel fs) files css -> (forall c, In c (concat css) -> ~ instr_card c) ->
  exists ls, check_instructions_run pct fuel fs v o files =
      (ls ++ map OutL [10 :: lit "Source lines: " ++ str_of_Z (zlen (concat css)); 10 :: lit "Instruction Frequencies:";
                       freq_line (lit "Total") 0 (lit "100.00")], Err ZeroDivisionError) /\
    files_report fuel fs v (o_print o) files ls.
Proof. exact (@C121_no_instructions_pf). Qed.
Print Assumptions C121_no_instructions.

Example C121_no_instructions_ex :
  check_instructions_run (fun _ _ => []) 2 (fun f : str => Some (lit "R 1")) false (mkciopts false true false false false false) [lit "a"] =
    ([OutL (10 :: lit "Source lines: 1"); OutL (10 :: lit "Instruction Frequencies:"); OutL (lit "Total         0  100.00%")],
     Err ZeroDivisionError).
Proof. vm_compute. reflexivity. Qed.

Theorem C121_only_unused : forall pct fuel fs v o files css, files <> [] -> o_count o = true -> o_unused o = true ->
  Forall2 (source_cards fuel fs) files css -> (forall c, In c (concat css) -> ~ instr_card c) ->
  exists ls unused, check_instructions_run pct fuel fs v o files =
      (ls ++ map OutL ([10 :: lit "Source lines: " ++ str_of_Z (zlen (concat css)); 10 :: lit "Instruction Frequencies:";
                        freq_line (lit "Total") 0 (lit "100.00")] ++ unused ++ [lit "0 errors encountered."]), Ok tt) /\
    files_report fuel fs v (o_print o) files ls /\ unused_part (concat css) true unused.
Proof. exact (@C121_only_unused_pf). Qed.
Print Assumptions C121_only_unused.

Example C121_only_unused_ex :
  let '(out, r) := check_instructions_run (fun _ _ => []) 2 (fun f : str => Some (lit "R 1")) false (mkciopts false true false false false true) [lit "a"] in
  firstn 4 out = [OutL (10 :: lit "Source lines: 1"); OutL (10 :: lit "Instruction Frequencies:"); OutL (lit "Total         0  100.00%");
                  OutL (10 :: lit "Unused Instructions:")] /\
  zlen out = 5 + zlen INSTRUCTIONS /\ r = Ok tt.
Proof. vm_compute. auto. Qed.

Theorem C121_missing : forall pct fuel fs v o pre css f post,
  Forall2 (source_cards fuel fs) pre css -> load fuel fs f = Err SystemExit ->
  exists ls log m, check_instructions_run pct fuel fs v o (pre ++ f :: post) =
      (ls ++ (if v then log else []) ++ [ErrL m], Err SystemExit) /\
    files_report fuel fs v (o_print o) pre ls /\ stops_at fs f log m.
Proof. exact (@C121_missing_pf). Qed.
Print Assumptions C121_missing.

Example C121_missing_ex :
  let fs := fun f => if eqb f (lit "a") then Some (lit "                   FOO") else None in
  check_instructions_run (fun _ _ => []) 2 fs false (mkciopts false true false false true true) [lit "a"; lit "b"; lit "a"] =
    ([OutL (lit "*** ERROR: Invalid instruction ""FOO"":"); OutL (lit "File a, line 1:                    FOO");
      ErrL (lit "ERROR: File ""b"" does not exist!")], Err SystemExit).
Proof. vm_compute. reflexivity. Qed.

Theorem C120_transcript : forall upper rep card_rep fuel fs v debug files css last_cs n, files <> [] ->
  Forall2 (source_cards fuel fs) files css -> plain_names files -> (exists before, css = before ++ [last_cs]) ->
  count_of (fun c => ~ starred c /\ exists m, instr_is c m /\ ~ In m INSTRUCTIONS) (concat css) n ->
  exists tables ls ms, parse_run upper rep card_rep fuel fs v debug files =
      (tables ++ ls ++ [OutL (10 :: lit "Source lines: " ++ str_of_Z (zlen (concat css))); OutL (error_count (zlen ms + n))], Ok tt) /\
    tables_report upper rep card_rep fuel fs v files tables /\ files_report fuel fs v debug files ls /\ reported upper last_cs ms.
Proof. exact (@C120_transcript_pf). Qed.
Print Assumptions C120_transcript.

Example C120_transcript_ex :
  let fs := fun f => if eqb f (lit "p.a") then Some (lit "        A,B,C      DEC          1" ++ [10] ++ lit "                   FOO          1" ++ [10])
                     else if eqb f (lit "q.a") then Some (lit "        L,X        DEC          1" ++ [10] ++ lit "       *           FOO" ++ [10]) else None in
  parse_run (fun s => s) quoted a_card 2 fs false true [lit "p.a"; lit "q.a"] =
    ([ErrL (lit "*** ERROR: Symbol A,B,C is illegal, too many commas!");
      ErrL (lit "Current definition: {'file': 'p.a', 'line': 1, 'lognum': None, 'tagtype': ' ', 'card': <card>}"); ErrL (lit "p.a: 1 errors encountered building symbol table.");
      ErrL (lit "*** ERROR: Symbol L,X has unsupported tag prefix!");
      ErrL (lit "Current definition: {'file': 'q.a', 'line': 1, 'lognum': None, 'tagtype': ' ', 'card': <card>}"); ErrL (lit "q.a: 1 errors encountered building symbol table.");
      OutL (lit "p.a 1         A,B,C      DEC          1"); OutL (lit "p.a 2                    FOO          1");
      OutL (lit "*** ERROR: Invalid instruction ""FOO"":"); OutL (lit "File p.a, line 2:                    FOO          1");
      OutL (lit "q.a 1         L,X        DEC          1"); OutL (lit "q.a 2        *           FOO");
      OutL (10 :: lit "Source lines: 4"); OutL (lit "2 errors encountered.")], Ok tt).
Proof. vm_compute. reflexivity. Qed.

Theorem C120_missing : forall upper rep card_rep fuel fs v debug pre css f post,
  Forall2 (source_cards fuel fs) pre css -> plain_names pre -> load fuel fs f = Err SystemExit ->
  exists ls log m, parse_run upper rep card_rep fuel fs v debug (pre ++ f :: post) =
      (ls ++ (if v then log else []) ++ [ErrL m], Err SystemExit) /\
    tables_report upper rep card_rep fuel fs v pre ls /\ stops_at fs f log m.
Proof. exact (@C120_missing_pf). Qed.
Print Assumptions C120_missing.

Example C120_missing_ex :
  let fs := fun f => if eqb f (lit "p.a") then Some (lit "$x" ++ [10]) else None in
  parse_run (fun s => s) quoted a_card 2 fs true true [lit "p.a"; lit "q.a"] =
    ([OutL (lit "Reading p.a..."); ErrL (lit "File ""x"" does not exist")], Err SystemExit).
Proof. vm_compute. reflexivity. Qed.

Theorem C122_silent_refuted : forall c k i, class_call c k = Ok i ->
  exists t, class_run c k = ([OutL t], Ok i) /\ instruction_line (i_opcode i) (i_args i) t.
Proof. exact (@C122_silent_refuted_pf). Qed.
Print Assumptions C122_silent_refuted.

Example C122_silent_refuted_ex :
  let k := mkkw (Some (Some 1)) (Some (Some 19)) None None None None in
  match class_run (lit "BinaryAdd") k with
  | (out, Ok i) => instr_value i = 3305 /\ out =
      [OutL (lit "opcode:Opcode(m='BA', c='BinaryAdd', b23=2, b7=1, op=9, type='maskable') sequence:1 mask:19 a=None b=None c=None paddr=None")]
  | _ => False
  end.
Proof. vm_compute. auto. Qed.

Theorem C122_failed_partial : forall c k, class_call c k = Err ValueError ->
  exists o x t, class_run c k = ([OutL t], Err ValueError) /\ instruction_line o x t /\ dget OPCODES (o_m o) = Some o.
Proof. exact (@C122_failed_partial_pf). Qed.
Print Assumptions C122_failed_partial.

Example C122_failed_partial_ex :
  class_run (lit "ReadForward") (mkkw None None None None None (Some (Some 64))) =
    ([OutL (lit "opcode:Opcode(m='RF', c='ReadForward', b23=None, b7=1, op=26, type='peripheral') sequence:None mask:None a=None b=None c=None paddr=64")],
     Err ValueError).
Proof. vm_compute. reflexivity. Qed.

Theorem C122_unbound_partial : forall c k,
  fst (class_run c k) = [] <-> class_call c k = Err TypeError \/ class_call c k = Err NameError.
Proof. exact (@C122_unbound_partial_pf). Qed.
Print Assumptions C122_unbound_partial.

Example C122_unbound_partial_ex :
  class_run (lit "BinaryAdd") (mkkw None None None None None (Some (Some 1))) = ([], Err TypeError) /\
  class_run (lit "Proceed") (mkkw None None None None None None) <> ([], Err TypeError).
Proof. split; [vm_compute; reflexivity|vm_compute; discriminate]. Qed.
