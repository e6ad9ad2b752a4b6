(** Property theorems; generated from LJoin.v by meta/genp.py. *)
From Verif Require Import Py LPy MInstruction MCards SCards LCards LDeck MSymbols SSymbols LSymBuild LSymQuery MInstructions MTools STools LTools LToolSym MDiag SDiag LDiag MDump SDump MVerbose SVerbose LVerbose SOrder LOrder STranscript LTranscript MOptions SOptions LOptions MProcess SProcess LProcess SEnds LEnds SSource LSource SFound STextSym LTextSym SIdle LIdle SReport LReport SUnread LUnread SSwap LGen LLabel LPlaces LSwap SAgree LAgree LJoin.

Theorem C173_found : forall fs prog words prog1 words1 prog2 words2 on verbose details opcode m files1 files2 outs1 outs2,
  understood (options ListInstructions) words1 on (opcode :: files1) -> understood (options ListInstructions) words2 on (opcode :: files2) ->
  understood (options ListInstructions) words on (opcode :: files1 ++ files2) -> turned_on on "verbose" verbose -> turned_on on "details" details ->
  mnemonic_of opcode m -> In m INSTRUCTIONS ->
  ~ In [] files1 -> ~ In [] files2 -> Forall2 (source fs) files1 outs1 -> Forall2 (source fs) files2 outs2 ->
  exists k, forall v, (k <= e_fuel v)%nat -> exists out1 out2,
    command v fs ListInstructions prog1 words1 = (out1, Exit 0, fs) /\ command v fs ListInstructions prog2 words2 = (out2, Exit 0, fs) /\
    command v fs ListInstructions prog words = (out1 ++ out2, Exit 0, fs).
Proof. exact (@C173_found_pf). Qed.
Print Assumptions C173_found.

Example C173_found_ex : Forall2 (source sample) [lit "a.arg"] [sample_lines] /\ fst (fst (command sample_env sample ListInstructions (lit "x.py") [lit "ASSIGN"; lit "a.arg"])) = [OutL (lit "        N          ASSIGN       5")] /\
  fst (fst (command sample_env sample ListInstructions (lit "x.py") [lit "ASSIGN"; lit "a.arg"; lit "inc"])) =
    [OutL (lit "        N          ASSIGN       5"); OutL (lit "        N          ASSIGN       5")].
Proof. split; [constructor; [exact sample_ok|constructor]|]. repeat split; vm_compute; reflexivity. Qed.

Theorem C173_check : forall fs prog words prog1 words1 prog2 words2 on verbose show files1 files2 outs1 outs2,
  understood (options CheckInstructions) words1 on files1 -> understood (options CheckInstructions) words2 on files2 ->
  understood (options CheckInstructions) words on (files1 ++ files2) -> turned_on on "verbose" verbose -> turned_on on "print-opcodes" show ->
  ~ In (lit "count") on ->
  files1 <> [] -> files2 <> [] -> ~ In [] files1 -> ~ In [] files2 -> Forall2 (source fs) files1 outs1 -> Forall2 (source fs) files2 outs2 ->
  exists k, forall v, (k <= e_fuel v)%nat -> exists told1 told2 un1 un2 un bad1 bad2,
    command v fs CheckInstructions prog1 words1 = (told1 ++ map OutL (un1 ++ [error_count bad1]), Exit 0, fs) /\
    command v fs CheckInstructions prog2 words2 = (told2 ++ map OutL (un2 ++ [error_count bad2]), Exit 0, fs) /\
    command v fs CheckInstructions prog words = (told1 ++ told2 ++ map OutL (un ++ [error_count (bad1 + bad2)]), Exit 0, fs) /\
    (~ In (lit "unused") on -> un1 = [] /\ un2 = [] /\ un = []) /\
    (In (lit "unused") on -> exists t l1 l2 l, un1 = t :: l1 /\ un2 = t :: l2 /\ un = t :: l /\ StronglySorted str_lt l /\
       forall m, In m l <-> In m l1 /\ In m l2).
Proof. exact (@C173_check_pf). Qed.
Print Assumptions C173_check.

Example C173_check_ex : Forall2 (source sample) [lit "a.arg"] [sample_lines] /\ 
  skipn 2 (fst (fst (command sample_env sample CheckInstructions (lit "x.py") [lit "a.arg"]))) = [OutL (lit "1 error encountered.")] /\
  fst (fst (command sample_env sample CheckInstructions (lit "x.py") [lit "inc"])) = [OutL (lit "0 errors encountered.")] /\
  skipn 4 (fst (fst (command sample_env sample CheckInstructions (lit "x.py") [lit "a.arg"; lit "inc"; lit "a.arg"]))) = [OutL (lit "2 errors encountered.")].
Proof. split; [constructor; [exact sample_ok|constructor]|]. repeat split; vm_compute; reflexivity. Qed.

Theorem C173_count : forall fs prog words prog1 words1 prog2 words2 on verbose show files1 files2 outs1 outs2,
  understood (options CheckInstructions) words1 on files1 -> understood (options CheckInstructions) words2 on files2 ->
  understood (options CheckInstructions) words on (files1 ++ files2) -> turned_on on "verbose" verbose -> turned_on on "print-opcodes" show ->
  In (lit "count") on -> ~ In (lit "unused") on ->
  (exists x m, In x (concat outs1) /\ mnemonic_at (text_of x) m) -> (exists x m, In x (concat outs2) /\ mnemonic_at (text_of x) m) ->
  files1 <> [] -> files2 <> [] -> ~ In [] files1 -> ~ In [] files2 -> Forall2 (source fs) files1 outs1 -> Forall2 (source fs) files2 outs2 ->
  exists k, forall v, (k <= e_fuel v)%nat -> exists told1 told2 bad1 bad2 total1 total2 rows1 rows2 rows lines1 lines2,
    let report := fun lines total rows bad =>
      map OutL ([10 :: lit "Source lines: " ++ str_of_Z lines; 10 :: lit "Instruction Frequencies:"; freq_line (lit "Total") total (lit "100.00")] ++
                map (fun r => freq_line (fst r) (snd r) (e_pct v (snd r) total)) rows ++ [error_count bad]) in
    command v fs CheckInstructions prog1 words1 = (told1 ++ report lines1 total1 rows1 bad1, Exit 0, fs) /\
    command v fs CheckInstructions prog2 words2 = (told2 ++ report lines2 total2 rows2 bad2, Exit 0, fs) /\
    command v fs CheckInstructions prog words = (told1 ++ told2 ++ report (lines1 + lines2) (total1 + total2) rows (bad1 + bad2), Exit 0, fs) /\
    NoDup (map fst rows) /\
    forall m n, In (m, n) rows <-> exists n1 n2, In (m, n1) rows1 /\ In (m, n2) rows2 /\ n = n1 + n2.
Proof. exact (@C173_count_pf). Qed.
Print Assumptions C173_count.

Example C173_count_ex : Forall2 (source sample) [lit "a.arg"] [sample_lines] /\ 
  nth 7 (fst (fst (command sample_env sample CheckInstructions (lit "x.py") [lit "-c"; lit "a.arg"]))) (OutL []) = OutL (lit "ASSIGN        1   50.00%") /\
  nth 5 (fst (fst (command sample_env sample CheckInstructions (lit "x.py") [lit "-c"; lit "inc"]))) (OutL []) = OutL (lit "ASSIGN        1   50.00%") /\
  nth 7 (fst (fst (command sample_env sample CheckInstructions (lit "x.py") [lit "-c"; lit "a.arg"; lit "inc"]))) (OutL []) = OutL (lit "ASSIGN        2   50.00%").
Proof. split; [constructor; [exact sample_ok|constructor]|]. repeat split; vm_compute; reflexivity. Qed.

Theorem C173_list : forall fs prog words prog1 words1 prog2 words2 on verbose files1 files2 outs1 outs2,
  understood (options ListSymbols) words1 on files1 -> understood (options ListSymbols) words2 on files2 ->
  understood (options ListSymbols) words on (files1 ++ files2) -> turned_on on "verbose" verbose ->
  files1 <> [] -> files2 <> [] -> ~ In [] files1 -> ~ In [] files2 -> plain_names (files1 ++ files2) ->
  Forall2 (source fs) files1 outs1 -> Forall2 (source fs) files2 outs2 ->
  exists k, forall v, (k <= e_fuel v)%nat -> exists said1 said2 said shown1 shown2 shown rows1 rows2 rows ns1 ns2,
    let final := fun ns => if total_of ns =? 0 then [] else [ErrL (str_of_Z (total_of ns) ++ lit " errors found")] in
    command v fs ListSymbols prog1 words1 = (said1 ++ map OutL shown1 ++ final ns1, Exit 0, fs) /\
    command v fs ListSymbols prog2 words2 = (said2 ++ map OutL shown2 ++ final ns2, Exit 0, fs) /\
    command v fs ListSymbols prog words = (said ++ map OutL shown ++ final (ns1 ++ ns2), Exit 0, fs) /\
    laid_out None rows1 shown1 /\ laid_out None rows2 shown2 /\ laid_out None rows shown /\
    StronglySorted (fun a b => key_lt (fst a) (fst b)) rows /\
    forall key y, In (key, y) rows <-> In (key, y) rows2 \/ (In (key, y) rows1 /\ forall y', ~ In (key, y') rows2).
Proof. exact (@C173_list_pf). Qed.
Print Assumptions C173_list.

Example C173_list_ex :
  let two := fun f => if eqb f (lit "x.1") then Some (lit "        N          ASSIGN       5") else
                      if eqb f (lit "x.2") then Some (lit "        N          ASSIGN       6" ++ [10] ++ lit "        M          DA") else None in
  let run := fun files => fst (fst (command sample_env two ListSymbols (lit "x.py") files)) in
  run [lit "x.1"] = [OutL (lit "N"); OutL (lit "  Segment: x"); OutL (lit "    Subsegment: 1");
                     OutL (lit "        <complex>   x:1                                                 N          ASSIGN       5")] /\
  run [lit "x.1"; lit "x.2"] =
    [OutL (lit "M"); OutL (lit "  Segment: x"); OutL (lit "    Subsegment: 1");
     OutL (lit "        <simple>    x:2                                                 M          DA");
     OutL (lit "N"); OutL (lit "  Segment: x"); OutL (lit "    Subsegment: 1");
     OutL (lit "        <complex>   x:1                                                 N          ASSIGN       6")] /\
  run [lit "x.2"; lit "x.1"] =
    [OutL (lit "M"); OutL (lit "  Segment: x"); OutL (lit "    Subsegment: 1");
     OutL (lit "        <simple>    x:2                                                 M          DA");
     OutL (lit "N"); OutL (lit "  Segment: x"); OutL (lit "    Subsegment: 1");
     OutL (lit "        <complex>   x:1                                                 N          ASSIGN       5")].
Proof. repeat split; vm_compute; reflexivity. Qed.

Theorem C173_names : forall fs prog words prog1 words1 prog2 words2 on verbose b symbol files1 files2 outs1 outs2,
  understood (options FindSymbols) words1 on (symbol :: files1) -> understood (options FindSymbols) words2 on (symbol :: files2) ->
  understood (options FindSymbols) words on (symbol :: files1 ++ files2) -> turned_on on "verbose" verbose ->
  turned_on on "begin" b -> turned_on on "end" (negb b) -> (forall x, In x ["fuzzy"; "exact"]%string -> ~ In (lit x) on) ->
  files1 <> [] -> files2 <> [] -> ~ In [] files1 -> ~ In [] files2 -> plain_names (files1 ++ files2) ->
  Forall2 (source fs) files1 outs1 -> Forall2 (source fs) files2 outs2 ->
  exists k, forall v, (k <= e_fuel v)%nat -> exists said1 said2 said names1 names2 names,
    let answer := fun l => if zlen l =? 0 then [] else [OutL (names_text (e_rep v) l)] in
    command v fs FindSymbols prog1 words1 = (said1 ++ answer names1, Exit 0, fs) /\ command v fs FindSymbols prog2 words2 = (said2 ++ answer names2, Exit 0, fs) /\
    command v fs FindSymbols prog words = (said ++ answer names, Exit 0, fs) /\
    StronglySorted str_lt names /\ forall s, In s names <-> In s names1 \/ In s names2.
Proof. exact (@C173_names_pf). Qed.
Print Assumptions C173_names.

Example C173_names_ex : Forall2 (source sample) [lit "a.arg"] [sample_lines] /\ 
  skipn 3 (fst (fst (command sample_env sample FindSymbols (lit "x.py") [lit "-b"; lit ""; lit "a.arg"]))) = [OutL (lit "[A, N]")] /\
  skipn 3 (fst (fst (command sample_env sample FindSymbols (lit "x.py") [lit "-b"; lit ""; lit "inc"]))) = [OutL (lit "[N]")] /\
  skipn 6 (fst (fst (command sample_env sample FindSymbols (lit "x.py") [lit "-b"; lit ""; lit "inc"; lit "a.arg"]))) = [OutL (lit "[A, N]")].
Proof. split; [constructor; [exact sample_ok|constructor]|]. repeat split; vm_compute; reflexivity. Qed.

Theorem C173_symbols : forall fs prog words prog1 words1 prog2 words2 on verbose complex files1 files2 outs1 outs2,
  understood (options CheckSymbols) words1 on files1 -> understood (options CheckSymbols) words2 on files2 ->
  understood (options CheckSymbols) words on (files1 ++ files2) -> turned_on on "verbose" verbose -> turned_on on "complex" complex ->
  files1 <> [] -> files2 <> [] -> ~ In [] files1 -> ~ In [] files2 -> plain_names (files1 ++ files2) ->
  Forall2 (source fs) files1 outs1 -> Forall2 (source fs) files2 outs2 ->
  exists k, forall v, (k <= e_fuel v)%nat -> exists said1 said2 said syms1 syms2 syms rest1 rest2 rest ns1 ns2,
    let blamed := map (fun s => ErrL (lit "ERROR: symbol """ ++ s ++ lit """ has a complex assignment, but no simple assignment!")) in
    command v fs CheckSymbols prog1 words1 = (said1 ++ blamed syms1 ++ rest1, Exit 0, fs) /\
    command v fs CheckSymbols prog2 words2 = (said2 ++ blamed syms2 ++ rest2, Exit 0, fs) /\
    command v fs CheckSymbols prog words =
      (said ++ blamed syms ++ rest ++
       [ErrL (lit "Total: " ++ str_of_Z (total_of ns1 + total_of ns2 + zlen syms) ++ lit " errors encountered.")], Exit 0, fs) /\
    labels_told fs (e_upper v) (e_rep v) verbose true files1 outs1 ns1 said1 /\ labels_told fs (e_upper v) (e_rep v) verbose true files2 outs2 ns2 said2 /\
    labels_told fs (e_upper v) (e_rep v) verbose true (files1 ++ files2) (outs1 ++ outs2) (ns1 ++ ns2) said /\
    forall s, In s syms <-> (In s syms1 \/ In s syms2) /\
      ~ exists x tt, (In x (concat outs1) \/ In x (concat outs2)) /\ line_defines (e_upper v) (text_of x) s (lit "simple") tt.
Proof. exact (@C173_symbols_pf). Qed.
Print Assumptions C173_symbols.

Example C173_symbols_ex : Forall2 (source sample) [lit "a.arg"] [sample_lines] /\ 
  nth 3 (fst (fst (command sample_env sample CheckSymbols (lit "x.py") [lit "-c"; lit "a.arg"]))) (OutL []) = ErrL (lit "ERROR: symbol ""N"" has a complex assignment, but no simple assignment!") /\
  nth 3 (fst (fst (command sample_env sample CheckSymbols (lit "x.py") [lit "-c"; lit "inc"]))) (OutL []) = ErrL (lit "ERROR: symbol ""N"" has a complex assignment, but no simple assignment!") /\
  nth 6 (fst (fst (command sample_env sample CheckSymbols (lit "x.py") [lit "-c"; lit "inc"; lit "a.arg"]))) (OutL []) = ErrL (lit "ERROR: symbol ""N"" has a complex assignment, but no simple assignment!") /\
  last (fst (fst (command sample_env sample CheckSymbols (lit "x.py") [lit "-c"; lit "inc"; lit "a.arg"]))) (OutL []) = ErrL (lit "Total: 3 errors encountered.").
Proof. split; [constructor; [exact sample_ok|constructor]|]. repeat split; vm_compute; reflexivity. Qed.
