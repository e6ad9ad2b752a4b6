(** Property theorems; generated from LTwice.v by meta/genp.py. *)
From Verif Require Import Py LPy MInstruction MCards SCards LCards LDeck MSymbols SSymbols LSymBuild MInstructions MTools STools LTools LToolSym MDiag SDiag LDiag MDump SDump MVerbose SVerbose LVerbose SOrder LOrder STranscript LTranscript MOptions SOptions LOptions MProcess SProcess LProcess SEnds LEnds SSource LSource SFound STextSym LTextSym SIdle LIdle SReport LReport SUnread LUnread SSwap LGen LSwap LJoin LTwice.

Theorem C182_list : forall fs prog words prog' words' on verbose files files' outs,
  understood (options ListSymbols) words on files -> understood (options ListSymbols) words' on files' -> turned_on on "verbose" verbose ->
  files <> [] -> ~ In [] files -> plain_names files -> own_segments files -> (forall f, In f files <-> In f files') -> Forall2 (source fs) files outs ->
  exists k, forall v, (k <= e_fuel v)%nat -> exists outs' said said' ns ns' shown,
    let final := fun ns => if total_of ns =? 0 then [] else [ErrL (str_of_Z (total_of ns) ++ lit " errors found")] in
    command v fs ListSymbols prog words = (said ++ map OutL shown ++ final ns, Exit 0, fs) /\
    command v fs ListSymbols prog' words' = (said' ++ map OutL shown ++ final ns', Exit 0, fs) /\
    labels_told fs (e_upper v) (e_rep v) verbose false files outs ns said /\ labels_told fs (e_upper v) (e_rep v) verbose false files' outs' ns' said' /\
    Forall2 (source fs) files' outs'.
Proof. exact (@C182_list_pf). Qed.
Print Assumptions C182_list.

Example C182_list_ex : (forall f, In f [lit "a.arg"; lit "inc"] <-> In f [lit "inc"; lit "a.arg"; lit "inc"]) /\
  printed (fst (fst (command sample_env sample ListSymbols (lit "x.py") [lit "a.arg"; lit "inc"]))) =
    [lit "A"; lit "  Segment: a"; lit "    Subsegment: 1"; lit "        <simple>    a:6                                           12    A          FOO";
     lit "N"; lit "  Segment: a"; lit "    Subsegment: 1"; lit "        <complex>   inc:1                                               N          ASSIGN       5";
     lit "  Segment: inc"; lit "    Subsegment: 1"; lit "        <complex>   inc:1                                               N          ASSIGN       5"] /\
  printed (fst (fst (command sample_env sample ListSymbols (lit "x.py") [lit "a.arg"; lit "inc"]))) =
  printed (fst (fst (command sample_env sample ListSymbols (lit "x.py") [lit "inc"; lit "a.arg"; lit "inc"]))).
Proof. split; [intros f; cbn [In]; tauto|]. split; vm_compute; reflexivity. Qed.

Theorem C182_symbols : forall fs prog words prog' words' on verbose files files' outs,
  understood (options CheckSymbols) words on files -> understood (options CheckSymbols) words' on files' -> turned_on on "verbose" verbose ->
  files <> [] -> ~ In [] files -> plain_names files -> (forall f, In f files <-> In f files') -> Forall2 (source fs) files outs ->
  exists k, forall v, (k <= e_fuel v)%nat -> exists outs' said said' ns ns' syms part total total',
    let report := map (fun s => ErrL (lit "ERROR: symbol """ ++ s ++ lit """ has a complex assignment, but no simple assignment!")) syms ++ part in
    command v fs CheckSymbols prog words = (said ++ report ++ total, Exit 0, fs) /\
    command v fs CheckSymbols prog' words' = (said' ++ report ++ total', Exit 0, fs) /\
    labels_told fs (e_upper v) (e_rep v) verbose true files outs ns said /\ labels_told fs (e_upper v) (e_rep v) verbose true files' outs' ns' said' /\
    total_part files (total_of ns + zlen syms) total /\ total_part files' (total_of ns' + zlen syms) total' /\ Forall2 (source fs) files' outs'.
Proof. exact (@C182_symbols_pf). Qed.
Print Assumptions C182_symbols.

Example C182_symbols_ex : (forall f, In f [lit "a.arg"; lit "a.arg"] <-> In f [lit "a.arg"]) /\
  skipn 4 (fst (fst (command sample_env sample CheckSymbols (lit "x.py") [lit "-c"; lit "a.arg"]))) =
    [ErrL []; ErrL (lit "Undefined symbols:"); OutL (lit "  N - Possible matches: A"); ErrL (lit "1 errors checking symbol table.")] /\
  skipn 7 (fst (fst (command sample_env sample CheckSymbols (lit "x.py") [lit "-c"; lit "a.arg"; lit "a.arg"]))) =
    [ErrL []; ErrL (lit "Undefined symbols:"); OutL (lit "  N - Possible matches: A"); ErrL (lit "1 errors checking symbol table.");
     ErrL (lit "Total: 3 errors encountered.")].
Proof. split; [intros f; cbn [In]; tauto|]. split; vm_compute; reflexivity. Qed.

Theorem C182_names : forall fs prog words prog' words' on verbose b symbol files files' outs,
  understood (options FindSymbols) words on (symbol :: files) -> understood (options FindSymbols) words' on (symbol :: files') -> turned_on on "verbose" verbose ->
  turned_on on "begin" b -> turned_on on "end" (negb b) -> (forall x, In x ["fuzzy"; "exact"]%string -> ~ In (lit x) on) ->
  files <> [] -> ~ In [] files -> plain_names files -> (forall f, In f files <-> In f files') -> Forall2 (source fs) files outs ->
  exists k, forall v, (k <= e_fuel v)%nat -> exists outs' said said' ns ns' report,
    command v fs FindSymbols prog words = (said ++ report, Exit 0, fs) /\ labels_told fs (e_upper v) (e_rep v) verbose true files outs ns said /\
    command v fs FindSymbols prog' words' = (said' ++ report, Exit 0, fs) /\ labels_told fs (e_upper v) (e_rep v) verbose true files' outs' ns' said' /\
    Forall2 (source fs) files' outs'.
Proof. exact (@C182_names_pf). Qed.
Print Assumptions C182_names.

Example C182_names_ex : (forall f, In f [lit "a.arg"; lit "inc"] <-> In f [lit "inc"; lit "a.arg"; lit "inc"]) /\
  skipn 6 (fst (fst (command sample_env sample FindSymbols (lit "x.py") [lit "-b"; lit ""; lit "a.arg"; lit "inc"]))) = [OutL (lit "[A, N]")] /\
  skipn 9 (fst (fst (command sample_env sample FindSymbols (lit "x.py") [lit "-b"; lit ""; lit "inc"; lit "a.arg"; lit "inc"]))) = [OutL (lit "[A, N]")].
Proof. split; [intros f; cbn [In]; tauto|]. split; vm_compute; reflexivity. Qed.

Theorem C182_fuzzy : forall fs prog words prog' words' on verbose symbol files files' outs,
  understood (options FindSymbols) words on (symbol :: files) -> understood (options FindSymbols) words' on (symbol :: files') -> turned_on on "verbose" verbose ->
  In (lit "fuzzy") on -> (forall x, In x ["begin"; "end"; "exact"]%string -> ~ In (lit x) on) ->
  files <> [] -> ~ In [] files -> plain_names files -> (forall f, In f files <-> In f files') -> Forall2 (source fs) files outs ->
  exists k, forall v, (k <= e_fuel v)%nat -> exists outs' said said' ns ns' report,
    command v fs FindSymbols prog words = (said ++ report, Exit 0, fs) /\ labels_told fs (e_upper v) (e_rep v) verbose true files outs ns said /\
    command v fs FindSymbols prog' words' = (said' ++ report, Exit 0, fs) /\ labels_told fs (e_upper v) (e_rep v) verbose true files' outs' ns' said' /\
    Forall2 (source fs) files' outs'.
Proof. exact (@C182_fuzzy_pf). Qed.
Print Assumptions C182_fuzzy.

Example C182_fuzzy_ex : (forall f, In f [lit "a.arg"; lit "a.arg"] <-> In f [lit "a.arg"]) /\
  skipn 3 (fst (fst (command sample_env sample FindSymbols (lit "x.py") [lit "-f"; lit "N"; lit "a.arg"]))) =
  skipn 6 (fst (fst (command sample_env sample FindSymbols (lit "x.py") [lit "-f"; lit "N"; lit "a.arg"; lit "a.arg"]))) /\
  skipn 3 (fst (fst (command sample_env sample FindSymbols (lit "x.py") [lit "-f"; lit "N"; lit "a.arg"]))) = [OutL (lit "[A]")].
Proof. split; [intros f; cbn [In]; tauto|]. split; vm_compute; reflexivity. Qed.
