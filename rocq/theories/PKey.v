(** Property theorems; generated from LKey.v by meta/genp.py. *)
From Verif Require Import Py LPy MInstruction MCards SCards LCards LDeck MSymbols SSymbols LSymBuild LSymQuery MInstructions MTools STools LTools LToolSym MDiag SDiag LDiag MDump SDump MVerbose SVerbose LVerbose SOrder LOrder STranscript LTranscript MOptions SOptions LOptions MProcess SProcess LProcess SEnds LEnds SSource LSource SFound STextSym LTextSym SIdle LIdle SReport LReport SUnread LUnread SSwap LGen LLabel LPlaces LSwap SAgree LAgree SKey LKey.

Theorem C172_check : forall fs fs' prog words prog' words' on verbose show files outs outs',
  understood (options CheckInstructions) words on files -> understood (options CheckInstructions) words' on files ->
  turned_on on "verbose" verbose -> turned_on on "print-opcodes" show ->
  (In (lit "count") on -> In (lit "unused") on \/ exists x m, In x (concat outs) /\ mnemonic_at (text_of x) m) ->
  files <> [] -> ~ In [] files -> Forall2 (source fs) files outs -> Forall2 (source fs') files outs' -> Forall2 (Forall2 same_key) outs outs' ->
  exists k, forall v, (k <= e_fuel v)%nat -> exists told told' report,
    command v fs CheckInstructions prog words = (told ++ map OutL report, Exit 0, fs) /\
    command v fs' CheckInstructions prog' words' = (told' ++ map OutL report, Exit 0, fs') /\
    lines_told fs verbose (line_report verbose show) files outs told /\ lines_told fs' verbose (line_report verbose show) files outs' told'.
Proof. exact (@C172_check_pf). Qed.
Print Assumptions C172_check.

Example C172_check_ex : Forall2 (source sample) [lit "a.arg"] [sample_lines] /\ Forall2 (source other) [lit "a.arg"] [other_lines] /\
  Forall2 (Forall2 same_key) [sample_lines] [other_lines] /\
  same_key (lit "a", 3, lit "        LOOP       DA") (lit "inc", 7, lit "   12     LO OP    DA           X") /\
  skipn 2 (fst (fst (command sample_env sample CheckInstructions (lit "x.py") [lit "a.arg"]))) = [OutL (lit "1 error encountered.")] /\
  skipn 2 (fst (fst (command sample_env other CheckInstructions (lit "x.py") [lit "a.arg"]))) = [OutL (lit "1 error encountered.")].
Proof. split; [constructor; [exact sample_ok|constructor]|]. split; [constructor; [exact other_ok|constructor]|]. split; [exact other_keys|]. split; [apply key_computes; vm_compute; auto|]. repeat (split; [vm_compute; reflexivity|]); vm_compute; reflexivity. Qed.

Theorem C172_found : forall (R : srcline -> srcline -> Prop) fs fs' prog words prog' words' on details opcode m files outs outs', (forall x y, R x y -> same_key x y) ->
  understood (options ListInstructions) words on (opcode :: files) -> understood (options ListInstructions) words' on (opcode :: files) ->
  ~ In (lit "verbose") on -> turned_on on "details" details -> mnemonic_of opcode m -> In m INSTRUCTIONS ->
  ~ In [] files -> Forall2 (source fs) files outs -> Forall2 (source fs') files outs' -> Forall2 (Forall2 R) outs outs' ->
  exists k, forall v, (k <= e_fuel v)%nat -> exists found,
    command v fs ListInstructions prog words = (map (fun p => OutL (line_shown details (fst p))) found, Exit 0, fs) /\
    command v fs' ListInstructions prog' words' = (map (fun p => OutL (line_shown details (snd p))) found, Exit 0, fs') /\
    Forall (fun p => R (fst p) (snd p) /\ In (fst p) (concat outs) /\ In (snd p) (concat outs')) found.
Proof. exact (@C172_found_pf). Qed.
Print Assumptions C172_found.

Example C172_found_ex : Forall2 (source sample) [lit "a.arg"] [sample_lines] /\ Forall2 (source other) [lit "a.arg"] [other_lines] /\
  Forall2 (Forall2 same_key) [sample_lines] [other_lines] /\
   (fst (fst (command sample_env sample ListInstructions (lit "x.py") [lit "DA"; lit "a.arg"]))) = [OutL (lit "        A          DA,B         1")] /\
   (fst (fst (command sample_env other ListInstructions (lit "x.py") [lit "DA"; lit "a.arg"]))) = [OutL (lit "  77    A          DA,B")].
Proof. split; [constructor; [exact sample_ok|constructor]|]. split; [constructor; [exact other_ok|constructor]|]. split; [exact other_keys|]. repeat (split; [vm_compute; reflexivity|]); vm_compute; reflexivity. Qed.

Theorem C172_symbols : forall fs fs' prog words prog' words' on verbose files outs outs',
  understood (options CheckSymbols) words on files -> understood (options CheckSymbols) words' on files -> turned_on on "verbose" verbose ->
  files <> [] -> ~ In [] files -> plain_names files -> Forall2 (source fs) files outs -> Forall2 (source fs') files outs' -> Forall2 (Forall2 same_key) outs outs' ->
  exists k, forall v, (k <= e_fuel v)%nat -> exists said said' ns report,
    command v fs CheckSymbols prog words = (said ++ report, Exit 0, fs) /\ command v fs' CheckSymbols prog' words' = (said' ++ report, Exit 0, fs') /\
    labels_told fs (e_upper v) (e_rep v) verbose true files outs ns said /\ labels_told fs' (e_upper v) (e_rep v) verbose true files outs' ns said'.
Proof. exact (@C172_symbols_pf). Qed.
Print Assumptions C172_symbols.

Example C172_symbols_ex : Forall2 (source sample) [lit "a.arg"] [sample_lines] /\ Forall2 (source other) [lit "a.arg"] [other_lines] /\
  Forall2 (Forall2 same_key) [sample_lines] [other_lines] /\
  skipn 4 (fst (fst (command sample_env sample CheckSymbols (lit "x.py") [lit "-c"; lit "a.arg"]))) = [ErrL []; ErrL (lit "Undefined symbols:"); OutL (lit "  N - Possible matches: A"); ErrL (lit "1 errors checking symbol table.")] /\
  skipn 4 (fst (fst (command sample_env other CheckSymbols (lit "x.py") [lit "-c"; lit "a.arg"]))) = [ErrL []; ErrL (lit "Undefined symbols:"); OutL (lit "  N - Possible matches: A"); ErrL (lit "1 errors checking symbol table.")].
Proof. split; [constructor; [exact sample_ok|constructor]|]. split; [constructor; [exact other_ok|constructor]|]. split; [exact other_keys|]. repeat (split; [vm_compute; reflexivity|]); vm_compute; reflexivity. Qed.

Theorem C172_names : forall fs fs' prog words prog' words' on verbose b symbol files outs outs',
  understood (options FindSymbols) words on (symbol :: files) -> understood (options FindSymbols) words' on (symbol :: files) -> turned_on on "verbose" verbose ->
  turned_on on "begin" b -> turned_on on "end" (negb b) -> (forall x, In x ["fuzzy"; "exact"]%string -> ~ In (lit x) on) ->
  files <> [] -> ~ In [] files -> plain_names files -> Forall2 (source fs) files outs -> Forall2 (source fs') files outs' -> Forall2 (Forall2 same_key) outs outs' ->
  exists k, forall v, (k <= e_fuel v)%nat -> exists said said' ns report,
    command v fs FindSymbols prog words = (said ++ report, Exit 0, fs) /\ command v fs' FindSymbols prog' words' = (said' ++ report, Exit 0, fs') /\
    labels_told fs (e_upper v) (e_rep v) verbose true files outs ns said /\ labels_told fs' (e_upper v) (e_rep v) verbose true files outs' ns said'.
Proof. exact (@C172_names_pf). Qed.
Print Assumptions C172_names.

Example C172_names_ex : Forall2 (source sample) [lit "a.arg"] [sample_lines] /\ Forall2 (source other) [lit "a.arg"] [other_lines] /\
  Forall2 (Forall2 same_key) [sample_lines] [other_lines] /\
  skipn 3 (fst (fst (command sample_env sample FindSymbols (lit "x.py") [lit "-b"; lit ""; lit "a.arg"]))) = [OutL (lit "[A, N]")] /\
  skipn 3 (fst (fst (command sample_env other FindSymbols (lit "x.py") [lit "-b"; lit ""; lit "a.arg"]))) = [OutL (lit "[A, N]")].
Proof. split; [constructor; [exact sample_ok|constructor]|]. split; [constructor; [exact other_ok|constructor]|]. split; [exact other_keys|]. repeat (split; [vm_compute; reflexivity|]); vm_compute; reflexivity. Qed.

Theorem C172_fuzzy : forall fs fs' prog words prog' words' on verbose symbol files outs outs',
  understood (options FindSymbols) words on (symbol :: files) -> understood (options FindSymbols) words' on (symbol :: files) -> turned_on on "verbose" verbose ->
  In (lit "fuzzy") on -> (forall x, In x ["begin"; "end"; "exact"]%string -> ~ In (lit x) on) ->
  files <> [] -> ~ In [] files -> plain_names files -> Forall2 (source fs) files outs -> Forall2 (source fs') files outs' -> Forall2 (Forall2 same_key) outs outs' ->
  exists k, forall v, (k <= e_fuel v)%nat -> exists said said' ns report,
    command v fs FindSymbols prog words = (said ++ report, Exit 0, fs) /\ command v fs' FindSymbols prog' words' = (said' ++ report, Exit 0, fs') /\
    labels_told fs (e_upper v) (e_rep v) verbose true files outs ns said /\ labels_told fs' (e_upper v) (e_rep v) verbose true files outs' ns said'.
Proof. exact (@C172_fuzzy_pf). Qed.
Print Assumptions C172_fuzzy.

Example C172_fuzzy_ex : Forall2 (source sample) [lit "a.arg"] [sample_lines] /\ Forall2 (source other) [lit "a.arg"] [other_lines] /\
  Forall2 (Forall2 same_key) [sample_lines] [other_lines] /\
  skipn 3 (fst (fst (command sample_env sample FindSymbols (lit "x.py") [lit "-f"; lit "M"; lit "a.arg"]))) = [OutL (lit "[A]")] /\
  skipn 3 (fst (fst (command sample_env other FindSymbols (lit "x.py") [lit "-f"; lit "M"; lit "a.arg"]))) = [OutL (lit "[A]")].
Proof. split; [constructor; [exact sample_ok|constructor]|]. split; [constructor; [exact other_ok|constructor]|]. split; [exact other_keys|]. repeat (split; [vm_compute; reflexivity|]); vm_compute; reflexivity. Qed.

Theorem C172_list : forall (R : srcline -> srcline -> Prop) fs fs' prog words prog' words' on verbose files outs outs', (forall x y, R x y -> same_key x y) ->
  understood (options ListSymbols) words on files -> understood (options ListSymbols) words' on files -> turned_on on "verbose" verbose ->
  files <> [] -> ~ In [] files -> plain_names files -> Forall2 (source fs) files outs -> Forall2 (source fs') files outs' -> Forall2 (Forall2 R) outs outs' ->
  exists k, forall v, (k <= e_fuel v)%nat -> exists said said' shown shown' rows rows' ns final,
    command v fs ListSymbols prog words = (said ++ map OutL shown ++ final, Exit 0, fs) /\
    command v fs' ListSymbols prog' words' = (said' ++ map OutL shown' ++ final, Exit 0, fs') /\
    labels_told fs (e_upper v) (e_rep v) verbose false files outs ns said /\ labels_told fs' (e_upper v) (e_rep v) verbose false files outs' ns said' /\
    laid_out None rows shown /\ laid_out None rows' shown' /\
    Forall2 (fun r r' => fst r = fst r' /\
               exists x x' tt, R x x' /\ symbol_row (snd (fst r)) x tt (snd r) /\ symbol_row (snd (fst r)) x' tt (snd r')) rows rows'.
Proof. exact (@C172_list_pf). Qed.
Print Assumptions C172_list.

Example C172_list_ex : Forall2 (source sample) [lit "a.arg"] [sample_lines] /\ Forall2 (source other) [lit "a.arg"] [other_lines] /\
  Forall2 (Forall2 same_key) [sample_lines] [other_lines] /\
  printed (fst (fst (command sample_env sample ListSymbols (lit "x.py") [lit "a.arg"]))) = [lit "A"; lit "  Segment: a"; lit "    Subsegment: 1"; lit "        <simple>    a:6                                           12    A          FOO";
     lit "N"; lit "  Segment: a"; lit "    Subsegment: 1"; lit "        <complex>   inc:1                                               N          ASSIGN       5"] /\
  printed (fst (fst (command sample_env other ListSymbols (lit "x.py") [lit "a.arg"]))) = [lit "A"; lit "  Segment: a"; lit "    Subsegment: 1"; lit "        <simple>    a:6                                           13    A          FOO          2             3";
     lit "N"; lit "  Segment: a"; lit "    Subsegment: 1"; lit "        <complex>   inc:1                                               N          ASSIGN       6"].
Proof. split; [constructor; [exact sample_ok|constructor]|]. split; [constructor; [exact other_ok|constructor]|]. split; [exact other_keys|]. repeat (split; [vm_compute; reflexivity|]); vm_compute; reflexivity. Qed.

Theorem C172_parse : forall fs fs' prog words prog' words' on verbose debug files outs outs',
  understood (options Parse) words on files -> understood (options Parse) words' on files -> turned_on on "verbose" verbose -> turned_on on "debug" debug ->
  files <> [] -> ~ In [] files -> plain_names files -> Forall2 (source fs) files outs -> Forall2 (source fs') files outs' -> Forall2 (Forall2 same_key) outs outs' ->
  exists k, forall v, (k <= e_fuel v)%nat -> exists said said' told told' ns report,
    command v fs Parse prog words = (said ++ told ++ report, Exit 0, fs) /\ command v fs' Parse prog' words' = (said' ++ told' ++ report, Exit 0, fs') /\
    labels_told fs (e_upper v) (e_rep v) verbose true files outs ns said /\ labels_told fs' (e_upper v) (e_rep v) verbose true files outs' ns said' /\
    lines_told fs verbose (line_report verbose debug) files outs told /\ lines_told fs' verbose (line_report verbose debug) files outs' told'.
Proof. exact (@C172_parse_pf). Qed.
Print Assumptions C172_parse.

Example C172_parse_ex : Forall2 (source sample) [lit "a.arg"] [sample_lines] /\ Forall2 (source other) [lit "a.arg"] [other_lines] /\
  Forall2 (Forall2 same_key) [sample_lines] [other_lines] /\
  skipn 5 (fst (fst (command sample_env sample Parse (lit "x.py") [lit "a.arg"]))) = [OutL (10 :: lit "Source lines: 6"); OutL (lit "2 errors encountered.")] /\
  skipn 5 (fst (fst (command sample_env other Parse (lit "x.py") [lit "a.arg"]))) = [OutL (10 :: lit "Source lines: 6"); OutL (lit "2 errors encountered.")].
Proof. split; [constructor; [exact sample_ok|constructor]|]. split; [constructor; [exact other_ok|constructor]|]. split; [exact other_keys|]. repeat (split; [vm_compute; reflexivity|]); vm_compute; reflexivity. Qed.

Theorem C172_answer : forall fs fs' prog words prog' words' on verbose symbol files outs outs',
  understood (options FindSymbols) words on (symbol :: files) -> understood (options FindSymbols) words' on (symbol :: files) -> turned_on on "verbose" verbose ->
  (forall x, In x ["begin"; "end"; "fuzzy"]%string -> ~ In (lit x) on) ->
  files <> [] -> ~ In [] files -> plain_names files -> Forall2 (source fs) files outs -> Forall2 (source fs') files outs' -> Forall2 (Forall2 same_key) outs outs' ->
  exists k, forall v, (k <= e_fuel v)%nat -> exists said said' ns answer answer',
    command v fs FindSymbols prog words = (said ++ [answer], Exit 0, fs) /\ command v fs' FindSymbols prog' words' = (said' ++ [answer'], Exit 0, fs') /\
    labels_told fs (e_upper v) (e_rep v) verbose true files outs ns said /\ labels_told fs' (e_upper v) (e_rep v) verbose true files outs' ns said' /\
    ((exists t t', answer = OutL t /\ answer' = OutL t') \/
     (answer = answer' /\ answer = ErrL (lit "ERROR: Undefined symbol """ ++ symbol ++ lit """!"))).
Proof. exact (@C172_answer_pf). Qed.
Print Assumptions C172_answer.

Example C172_answer_ex : Forall2 (source sample) [lit "a.arg"] [sample_lines] /\ Forall2 (source other) [lit "a.arg"] [other_lines] /\
  Forall2 (Forall2 same_key) [sample_lines] [other_lines] /\
  skipn 3 (fst (fst (command sample_env sample FindSymbols (lit "x.py") [lit "Q"; lit "a.arg"]))) = [ErrL (lit "ERROR: Undefined symbol ""Q""!")] /\
  skipn 3 (fst (fst (command sample_env other FindSymbols (lit "x.py") [lit "Q"; lit "a.arg"]))) = [ErrL (lit "ERROR: Undefined symbol ""Q""!")] /\
  skipn 3 (fst (fst (command sample_env sample FindSymbols (lit "x.py") [lit "A"; lit "a.arg"]))) =
    [OutL (lit "{a: {1: {simple: {'file': a.arg, 'line': 6, 'lognum': 12, 'tagtype':  , 'card': ?}}}}")] /\
  skipn 3 (fst (fst (command sample_env other FindSymbols (lit "x.py") [lit "A"; lit "a.arg"]))) =
    [OutL (lit "{a: {1: {simple: {'file': a.arg, 'line': 6, 'lognum': 13, 'tagtype':  , 'card': ?}}}}")].
Proof. split; [constructor; [exact sample_ok|constructor]|]. split; [constructor; [exact other_ok|constructor]|]. split; [exact other_keys|]. repeat (split; [vm_compute; reflexivity|]); vm_compute; reflexivity. Qed.

Theorem C157_key : forall fs fs' files outs outs', Forall2 (source fs) files outs -> Forall2 (source fs') files outs' ->
  Forall2 (fun a b => map shown_text a = map shown_text b) outs outs' ->
  Forall2 (Forall2 (fun x y => shown_text x = shown_text y /\ same_key x y)) outs outs'.
Proof. exact (@C157_key_pf). Qed.
Print Assumptions C157_key.

Example C157_key_ex : Forall2 (source sample) [lit "a.arg"] [sample_lines] /\ Forall2 (source flat) [lit "a.arg"] [flat_lines] /\
  Forall2 (fun a b => map shown_text a = map shown_text b) [sample_lines] [flat_lines] /\
  ~ In (lit "inc", 1, lit "        N          ASSIGN       5" ++ [10]) flat_lines.
Proof. split; [constructor; [exact sample_ok|constructor]|]. split; [constructor; [exact flat_ok|constructor]|]. split; [constructor; [vm_compute; reflexivity|constructor]|]. cbn. intuition discriminate. Qed.

Theorem C157_list : forall fs fs' prog words prog' words' on verbose files outs outs',
  understood (options ListSymbols) words on files -> understood (options ListSymbols) words' on files -> turned_on on "verbose" verbose ->
  files <> [] -> ~ In [] files -> plain_names files -> Forall2 (source fs) files outs -> Forall2 (source fs') files outs' ->
  Forall2 (fun a b => map shown_text a = map shown_text b) outs outs' ->
  exists k, forall v, (k <= e_fuel v)%nat -> exists said said' shown shown' rows rows' ns final,
    command v fs ListSymbols prog words = (said ++ map OutL shown ++ final, Exit 0, fs) /\
    command v fs' ListSymbols prog' words' = (said' ++ map OutL shown' ++ final, Exit 0, fs') /\
    labels_told fs (e_upper v) (e_rep v) verbose false files outs ns said /\ labels_told fs' (e_upper v) (e_rep v) verbose false files outs' ns said' /\
    laid_out None rows shown /\ laid_out None rows' shown' /\
    Forall2 (fun r r' => fst r = fst r' /\
               exists x x' tt, shown_text x = shown_text x' /\ symbol_row (snd (fst r)) x tt (snd r) /\ symbol_row (snd (fst r)) x' tt (snd r')) rows rows'.
Proof. exact (@C157_list_pf). Qed.
Print Assumptions C157_list.

Example C157_list_ex : Forall2 (source sample) [lit "a.arg"] [sample_lines] /\ Forall2 (source flat) [lit "a.arg"] [flat_lines] /\
  Forall2 (fun a b => map shown_text a = map shown_text b) [sample_lines] [flat_lines] /\
  printed (fst (fst (command sample_env sample ListSymbols (lit "x.py") [lit "a.arg"]))) = [lit "A"; lit "  Segment: a"; lit "    Subsegment: 1"; lit "        <simple>    a:6                                           12    A          FOO";
     lit "N"; lit "  Segment: a"; lit "    Subsegment: 1"; lit "        <complex>   inc:1                                               N          ASSIGN       5"] /\
  printed (fst (fst (command sample_env flat ListSymbols (lit "x.py") [lit "a.arg"]))) = [lit "A"; lit "  Segment: a"; lit "    Subsegment: 1"; lit "        <simple>    a:8                                           12    A          FOO";
     lit "N"; lit "  Segment: a"; lit "    Subsegment: 1"; lit "        <complex>   a:1                                                 N          ASSIGN       5"].
Proof. split; [constructor; [exact sample_ok|constructor]|]. split; [constructor; [exact flat_ok|constructor]|]. split; [constructor; [vm_compute; reflexivity|constructor]|]. split; vm_compute; reflexivity. Qed.

Theorem C157_symbols : forall fs fs' prog words prog' words' on verbose files outs outs',
  understood (options CheckSymbols) words on files -> understood (options CheckSymbols) words' on files -> turned_on on "verbose" verbose ->
  files <> [] -> ~ In [] files -> plain_names files -> Forall2 (source fs) files outs -> Forall2 (source fs') files outs' ->
  Forall2 (fun a b => map shown_text a = map shown_text b) outs outs' ->
  exists k, forall v, (k <= e_fuel v)%nat -> exists said said' ns report,
    command v fs CheckSymbols prog words = (said ++ report, Exit 0, fs) /\ command v fs' CheckSymbols prog' words' = (said' ++ report, Exit 0, fs') /\
    labels_told fs (e_upper v) (e_rep v) verbose true files outs ns said /\ labels_told fs' (e_upper v) (e_rep v) verbose true files outs' ns said'.
Proof. exact (@C157_symbols_pf). Qed.
Print Assumptions C157_symbols.

Example C157_symbols_ex : Forall2 (source sample) [lit "a.arg"] [sample_lines] /\ Forall2 (source flat) [lit "a.arg"] [flat_lines] /\
  Forall2 (fun a b => map shown_text a = map shown_text b) [sample_lines] [flat_lines] /\
  skipn 4 (fst (fst (command sample_env sample CheckSymbols (lit "x.py") [lit "-c"; lit "a.arg"]))) = [ErrL []; ErrL (lit "Undefined symbols:"); OutL (lit "  N - Possible matches: A"); ErrL (lit "1 errors checking symbol table.")] /\
  skipn 4 (fst (fst (command sample_env flat CheckSymbols (lit "x.py") [lit "-c"; lit "a.arg"]))) = [ErrL []; ErrL (lit "Undefined symbols:"); OutL (lit "  N - Possible matches: A"); ErrL (lit "1 errors checking symbol table.")].
Proof. split; [constructor; [exact sample_ok|constructor]|]. split; [constructor; [exact flat_ok|constructor]|]. split; [constructor; [vm_compute; reflexivity|constructor]|]. split; vm_compute; reflexivity. Qed.

Theorem C157_names : forall fs fs' prog words prog' words' on verbose b symbol files outs outs',
  understood (options FindSymbols) words on (symbol :: files) -> understood (options FindSymbols) words' on (symbol :: files) -> turned_on on "verbose" verbose ->
  turned_on on "begin" b -> turned_on on "end" (negb b) -> (forall x, In x ["fuzzy"; "exact"]%string -> ~ In (lit x) on) ->
  files <> [] -> ~ In [] files -> plain_names files -> Forall2 (source fs) files outs -> Forall2 (source fs') files outs' ->
  Forall2 (fun a b => map shown_text a = map shown_text b) outs outs' ->
  exists k, forall v, (k <= e_fuel v)%nat -> exists said said' ns report,
    command v fs FindSymbols prog words = (said ++ report, Exit 0, fs) /\ command v fs' FindSymbols prog' words' = (said' ++ report, Exit 0, fs') /\
    labels_told fs (e_upper v) (e_rep v) verbose true files outs ns said /\ labels_told fs' (e_upper v) (e_rep v) verbose true files outs' ns said'.
Proof. exact (@C157_names_pf). Qed.
Print Assumptions C157_names.

Example C157_names_ex : Forall2 (source sample) [lit "a.arg"] [sample_lines] /\ Forall2 (source flat) [lit "a.arg"] [flat_lines] /\
  Forall2 (fun a b => map shown_text a = map shown_text b) [sample_lines] [flat_lines] /\
  skipn 3 (fst (fst (command sample_env sample FindSymbols (lit "x.py") [lit "-b"; lit "N"; lit "a.arg"]))) = [OutL (lit "[N]")] /\
  skipn 3 (fst (fst (command sample_env flat FindSymbols (lit "x.py") [lit "-b"; lit "N"; lit "a.arg"]))) = [OutL (lit "[N]")].
Proof. split; [constructor; [exact sample_ok|constructor]|]. split; [constructor; [exact flat_ok|constructor]|]. split; [constructor; [vm_compute; reflexivity|constructor]|]. split; vm_compute; reflexivity. Qed.

Theorem C157_parse : forall fs fs' prog words prog' words' on verbose debug files outs outs',
  understood (options Parse) words on files -> understood (options Parse) words' on files -> turned_on on "verbose" verbose -> turned_on on "debug" debug ->
  files <> [] -> ~ In [] files -> plain_names files -> Forall2 (source fs) files outs -> Forall2 (source fs') files outs' ->
  Forall2 (fun a b => map shown_text a = map shown_text b) outs outs' ->
  exists k, forall v, (k <= e_fuel v)%nat -> exists said said' told told' ns report,
    command v fs Parse prog words = (said ++ told ++ report, Exit 0, fs) /\ command v fs' Parse prog' words' = (said' ++ told' ++ report, Exit 0, fs') /\
    labels_told fs (e_upper v) (e_rep v) verbose true files outs ns said /\ labels_told fs' (e_upper v) (e_rep v) verbose true files outs' ns said' /\
    lines_told fs verbose (line_report verbose debug) files outs told /\ lines_told fs' verbose (line_report verbose debug) files outs' told'.
Proof. exact (@C157_parse_pf). Qed.
Print Assumptions C157_parse.

Example C157_parse_ex : Forall2 (source sample) [lit "a.arg"] [sample_lines] /\ Forall2 (source flat) [lit "a.arg"] [flat_lines] /\
  Forall2 (fun a b => map shown_text a = map shown_text b) [sample_lines] [flat_lines] /\
  skipn 5 (fst (fst (command sample_env sample Parse (lit "x.py") [lit "a.arg"]))) = [OutL (10 :: lit "Source lines: 6"); OutL (lit "2 errors encountered.")] /\
  skipn 5 (fst (fst (command sample_env flat Parse (lit "x.py") [lit "a.arg"]))) = [OutL (10 :: lit "Source lines: 6"); OutL (lit "2 errors encountered.")].
Proof. split; [constructor; [exact sample_ok|constructor]|]. split; [constructor; [exact flat_ok|constructor]|]. split; [constructor; [vm_compute; reflexivity|constructor]|]. split; vm_compute; reflexivity. Qed.
