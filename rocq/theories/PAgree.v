(** Property theorems; generated from LAgree.v by meta/genp.py. *)
From Verif Require Import Py LPy MInstruction MCards SCards LCards LDeck MSymbols SSymbols LSymBuild MInstructions MTools STools LTools LToolSym MDiag SDiag LDiag MDump SDump MVerbose SVerbose LVerbose SOrder LOrder STranscript LTranscript MOptions SOptions LOptions MProcess SProcess LProcess SEnds LEnds SSource LSource SFound STextSym LTextSym SIdle LIdle SReport LReport SUnread LUnread SSwap LGen LLabel LSwap SAgree LAgree.

Theorem C169_names : forall fs prog words prog' words' on on' verbose verbose' b files outs symbol,
  understood (options ListSymbols) words on files -> turned_on on "verbose" verbose ->
  understood (options FindSymbols) words' on' (symbol :: files) -> turned_on on' "verbose" verbose' ->
  turned_on on' "begin" b -> turned_on on' "end" (negb b) -> (forall x, In x ["fuzzy"; "exact"]%string -> ~ In (lit x) on') ->
  files <> [] -> ~ In [] files -> plain_names files -> Forall2 (source fs) files outs ->
  exists k, forall v, (k <= e_fuel v)%nat -> exists said said' shown rows errors names ns,
    command v fs ListSymbols prog words = (said ++ map OutL shown ++ errors, Exit 0, fs) /\
    laid_out None rows shown /\ StronglySorted (fun a b => key_lt (fst a) (fst b)) rows /\
    command v fs FindSymbols prog' words' = (said' ++ (if zlen names =? 0 then [] else [OutL (names_text (e_rep v) names)]), Exit 0, fs) /\
    StronglySorted str_lt names /\
    (forall s, In s names <-> (exists seg ss kind y, In ((s, seg, ss, kind), y) rows) /\ if b then exists r, s = symbol ++ r else exists r, s = r ++ symbol) /\
    labels_told fs (e_upper v) (e_rep v) verbose false files outs ns said /\
    labels_told fs (e_upper v) (e_rep v) verbose' true files outs ns said' /\
    errors = (if total_of ns =? 0 then [] else [ErrL (str_of_Z (total_of ns) ++ lit " errors found")]).
Proof. exact (@C169_names_pf). Qed.
Print Assumptions C169_names.

Example C169_names_ex : Forall2 (source sample) [lit "a.arg"] [sample_lines] /\
  printed (fst (fst (command sample_env sample ListSymbols (lit "x.py") [lit "a.arg"]))) =
    [lit "A"; lit "  Segment: a"; lit "    Subsegment: 1"; lit "        <simple>    a:6                                           12    A          FOO";
     lit "N"; lit "  Segment: a"; lit "    Subsegment: 1"; lit "        <complex>   inc:1                                               N          ASSIGN       5"] /\
  printed (fst (fst (command sample_env sample FindSymbols (lit "x.py") [lit "-b"; lit ""; lit "a.arg"]))) = [lit "[A, N]"] /\
  printed (fst (fst (command sample_env sample FindSymbols (lit "x.py") [lit "-e"; lit "N"; lit "a.arg"]))) = [lit "[N]"].
Proof. split; [constructor; [exact sample_ok|constructor]|]. repeat split; vm_compute; reflexivity. Qed.

Theorem C169_answer : forall fs prog words prog' words' on on' verbose verbose' files outs symbol,
  understood (options ListSymbols) words on files -> turned_on on "verbose" verbose ->
  understood (options FindSymbols) words' on' (symbol :: files) -> turned_on on' "verbose" verbose' ->
  (forall x, In x ["begin"; "end"; "fuzzy"]%string -> ~ In (lit x) on') ->
  files <> [] -> ~ In [] files -> plain_names files -> Forall2 (source fs) files outs ->
  exists k, forall v, (k <= e_fuel v)%nat -> exists said said' shown rows errors ns,
    command v fs ListSymbols prog words = (said ++ map OutL shown ++ errors, Exit 0, fs) /\
    laid_out None rows shown /\ StronglySorted (fun a b => key_lt (fst a) (fst b)) rows /\
    labels_told fs (e_upper v) (e_rep v) verbose false files outs ns said /\
    labels_told fs (e_upper v) (e_rep v) verbose' true files outs ns said' /\
    errors = (if total_of ns =? 0 then [] else [ErrL (str_of_Z (total_of ns) ++ lit " errors found")]) /\
    (((exists seg ss kind y, In ((symbol, seg, ss, kind), y) rows) /\ exists t, command v fs FindSymbols prog' words' = (said' ++ [OutL t], Exit 0, fs)) \/
     (~ (exists seg ss kind y, In ((symbol, seg, ss, kind), y) rows) /\
      command v fs FindSymbols prog' words' = (said' ++ [ErrL (lit "ERROR: Undefined symbol """ ++ symbol ++ lit """!")], Exit 0, fs))).
Proof. exact (@C169_answer_pf). Qed.
Print Assumptions C169_answer.

Example C169_answer_ex : Forall2 (source sample) [lit "a.arg"] [sample_lines] /\
  last (fst (fst (command sample_env sample FindSymbols (lit "x.py") [lit "N"; lit "a.arg"]))) (ErrL []) =
    OutL (lit "{a: {1: {complex: {'file': inc, 'line': 1, 'lognum': None, 'tagtype':  , 'card': ?}}}}") /\
  last (fst (fst (command sample_env sample FindSymbols (lit "x.py") [lit "x"; lit "a.arg"]))) (ErrL []) = ErrL (lit "ERROR: Undefined symbol ""x""!").
Proof. split; [constructor; [exact sample_ok|constructor]|]. split; vm_compute; reflexivity. Qed.

Theorem C169_complex : forall fs prog words prog' words' on on' verbose verbose' files outs,
  understood (options ListSymbols) words on files -> turned_on on "verbose" verbose ->
  understood (options CheckSymbols) words' on' files -> turned_on on' "verbose" verbose' -> In (lit "complex") on' ->
  files <> [] -> ~ In [] files -> plain_names files -> Forall2 (source fs) files outs ->
  exists k, forall v, (k <= e_fuel v)%nat -> exists said said' shown rows errors ns syms part total,
    command v fs ListSymbols prog words = (said ++ map OutL shown ++ errors, Exit 0, fs) /\
    laid_out None rows shown /\ StronglySorted (fun a b => key_lt (fst a) (fst b)) rows /\
    labels_told fs (e_upper v) (e_rep v) verbose false files outs ns said /\
    labels_told fs (e_upper v) (e_rep v) verbose' true files outs ns said' /\
    errors = (if total_of ns =? 0 then [] else [ErrL (str_of_Z (total_of ns) ++ lit " errors found")]) /\
    command v fs CheckSymbols prog' words' =
      (said' ++ map (fun s => ErrL (lit "ERROR: symbol """ ++ s ++ lit """ has a complex assignment, but no simple assignment!")) syms ++ part ++ total, Exit 0, fs) /\
    StronglySorted str_lt syms /\
    (forall s, In s syms <-> (exists seg ss kind y, In ((s, seg, ss, kind), y) rows) /\
                        forall seg ss kind y, In ((s, seg, ss, kind), y) rows -> kind = lit "complex") /\
    total_part files (total_of ns + zlen syms) total.
Proof. exact (@C169_complex_pf). Qed.
Print Assumptions C169_complex.

Example C169_complex_ex : Forall2 (source sample) [lit "a.arg"] [sample_lines] /\
  skipn 3 (fst (fst (command sample_env sample CheckSymbols (lit "x.py") [lit "-c"; lit "a.arg"]))) =
    [ErrL (lit "ERROR: symbol ""N"" has a complex assignment, but no simple assignment!"); ErrL []; ErrL (lit "Undefined symbols:");
     OutL (lit "  N - Possible matches: A"); ErrL (lit "1 errors checking symbol table.")].
Proof. split; [constructor; [exact sample_ok|constructor]|vm_compute; reflexivity]. Qed.

Theorem C169_errors : forall fs prog words prog1 words1 prog2 words2 on on1 on2 verbose verbose1 debug file out,
  understood (options Parse) words on [file] -> turned_on on "verbose" verbose -> turned_on on "debug" debug ->
  understood (options CheckSymbols) words1 on1 [file] -> turned_on on1 "verbose" verbose1 ->
  understood (options CheckInstructions) words2 on2 [file] -> ~ In (lit "count") on2 ->
  file <> [] -> plain_names [file] -> source fs file out ->
  exists k, forall v, (k <= e_fuel v)%nat -> exists said told said1 rest1 told2 n bad,
    command v fs Parse prog words =
      (said ++ told ++ [OutL (10 :: lit "Source lines: " ++ str_of_Z (zlen out)); OutL (error_count (n + bad))], Exit 0, fs) /\
    labels_told fs (e_upper v) (e_rep v) verbose true [file] [out] [n] said /\
    lines_told fs verbose (line_report verbose debug) [file] [out] told /\
    command v fs CheckSymbols prog1 words1 = (said1 ++ rest1, Exit 0, fs) /\
    labels_told fs (e_upper v) (e_rep v) verbose1 true [file] [out] [n] said1 /\
    command v fs CheckInstructions prog2 words2 = (told2 ++ [OutL (error_count bad)], Exit 0, fs).
Proof. exact (@C169_errors_pf). Qed.
Print Assumptions C169_errors.

Example C169_errors_ex : source sample (lit "a.arg") sample_lines /\
  last (fst (fst (command sample_env sample Parse (lit "x.py") [lit "a.arg"]))) (ErrL []) = OutL (lit "2 errors encountered.") /\
  nth 2 (fst (fst (command sample_env sample CheckSymbols (lit "x.py") [lit "a.arg"]))) (OutL []) = ErrL (lit "a.arg: 1 errors encountered building symbol table.") /\
  last (fst (fst (command sample_env sample CheckInstructions (lit "x.py") [lit "a.arg"]))) (ErrL []) = OutL (lit "1 error encountered.") /\
  last (fst (fst (command sample_env sample Parse (lit "x.py") [lit "inc"; lit "inc"; lit "inc"]))) (ErrL []) = OutL (lit "1 error encountered.").
Proof. split; [exact sample_ok|]. repeat split; vm_compute; reflexivity. Qed.

Theorem C170_counts_partial : forall fs prog words prog' words' on on' details unused files outs m total,
  understood (options ListInstructions) words on (m :: files) -> ~ In (lit "verbose") on -> turned_on on "details" details ->
  understood (options CheckInstructions) words' on' files -> In (lit "count") on' -> turned_on on' "unused" unused ->
  In m INSTRUCTIONS -> files <> [] -> ~ In [] files -> Forall2 (source fs) files outs ->
  (forall x op, In x (concat outs) -> operation_of (text_of x) op -> unspaced op) ->
  count_of (fun x => exists m, mnemonic_at (text_of x) m) (concat outs) total -> total <> 0 \/ unused = true ->
  exists k, forall v, (k <= e_fuel v)%nat -> exists found told rows un,
    command v fs ListInstructions prog words = (found, Exit 0, fs) /\
    (exists bad, command v fs CheckInstructions prog' words' =
      (told ++ map OutL ([10 :: lit "Source lines: " ++ str_of_Z (zlen (concat outs)); 10 :: lit "Instruction Frequencies:";
                          freq_line (lit "Total") total (lit "100.00")] ++
                         map (fun r => freq_line (fst r) (snd r) (e_pct v (snd r) total)) rows ++ un ++ [error_count bad]), Exit 0, fs)) /\
    (forall n, In (m, n) rows <-> n = zlen found /\ (unused = true -> n <> 0)) /\
    (unused = true -> (In m un <-> found = [])).
Proof. exact (@C170_counts_partial_pf). Qed.
Print Assumptions C170_counts_partial.

Example C170_counts_partial_ex :
  fst (command sample_env sample ListInstructions (lit "x.py") [lit "DA"; lit "a.arg"; lit "a.arg"]) =
    ([OutL (lit "        A          DA,B         1"); OutL (lit "        A          DA,B         1")], Exit 0) /\
  In (OutL (lit "DA            2   50.00%")) (fst (fst (command sample_env sample CheckInstructions (lit "x.py") [lit "-c"; lit "a.arg"; lit "a.arg"]))) /\
  unspaced (lit "DA,B C") /\ ~ unspaced (lit "D A").
Proof.
  split; [vm_compute; reflexivity|]. split; [apply (nth_error_In _ 21); vm_compute; reflexivity|]. split.
  - intros a c b E W. destruct a as [|x1 [|x2 [|x3 a]]]; cbn in E; injection E as; subst;
      try (exfalso; apply white_ok in W; vm_compute in W; discriminate W). right. right. left. reflexivity.
  - intros U. assert (W : white 32) by (apply white_ok; reflexivity). destruct (U [68] 32 [65] eq_refl W) as [X|[]]. discriminate X.
Qed.

Theorem C170_counts_refuted : exists fs v, forall prog,
  fst (command v fs ListInstructions prog [lit "DA"; lit "a"]) =
    ([OutL (lit "        A          DA,B"); OutL (lit "                   D A")], Exit 0) /\
  exists p, In (OutL (freq_line (lit "DA") 1 p)) (fst (fst (command v fs CheckInstructions prog [lit "-c"; lit "a"]))) /\
    firstn 2 (fst (fst (command v fs CheckInstructions prog [lit "-c"; lit "a"]))) =
      [OutL (lit "*** ERROR: Invalid instruction ""D A"":"); OutL (lit "File a, line 2:                    D A")].
Proof. exact (@C170_counts_refuted_pf). Qed.
Print Assumptions C170_counts_refuted.

Example C170_counts_refuted_ex : source spaced (lit "a") [(lit "a", 1, lit "        A          DA,B" ++ [10]); (lit "a", 2, lit "                   D A")] /\
  fst (command sample_env spaced ListInstructions (lit "x.py") [lit "-D"; lit "DA"; lit "a"]) =
    ([OutL (lit "a                                                     1         A          DA,B");
      OutL (lit "a                                                     2                    D A")], Exit 0).
Proof.
  split; [|vm_compute; reflexivity].
  apply (so_file spaced (lit "a") (lit "        A          DA,B" ++ [10] ++ lit "                   D A") [lit "        A          DA,B" ++ [10]; lit "                   D A"]); [reflexivity| |].
  - apply tl_line; [vm_compute; intuition lia|vm_compute; intuition lia|left; reflexivity|]. apply tl_last; [discriminate|vm_compute; intuition lia|vm_compute; intuition lia].
  - apply sl_line; [intros c r [= <- _]; lia|]. apply sl_line; [intros c r [= <- _]; lia|]. constructor.
Qed.
