(** Property theorems; generated from LSwap.v by meta/genp.py. *)
From Verif Require Import Py LPy MInstruction MCards SCards LCards LDeck MSymbols SSymbols LSymBuild MInstructions MTools STools LTools LToolSym MDiag SDiag LDiag MDump SDump MVerbose SVerbose LVerbose SOrder LOrder STranscript LTranscript MOptions SOptions LOptions MProcess SProcess LProcess SEnds LEnds SSource LSource SFound STextSym LTextSym SIdle LIdle SReport LReport SUnread LUnread SSwap LSwap.

Theorem C165_list : forall fs prog words prog' words' on verbose files files' outs,
  understood (options ListSymbols) words on files -> understood (options ListSymbols) words' on files' -> turned_on on "verbose" verbose ->
  files <> [] -> ~ In [] files -> plain_names files -> own_segments files -> Permutation files files' -> Forall2 (source fs) files outs ->
  exists k, forall v, (k <= e_fuel v)%nat -> exists outs' said said' ns ns' report,
    command v fs ListSymbols prog words = (said ++ report, Exit 0, fs) /\ labels_told fs (e_upper v) (e_rep v) verbose false files outs ns said /\
    command v fs ListSymbols prog' words' = (said' ++ report, Exit 0, fs) /\ labels_told fs (e_upper v) (e_rep v) verbose false files' outs' ns' said' /\
    Forall2 (source fs) files' outs'.
Proof. exact (@C165_list_pf). Qed.
Print Assumptions C165_list.

Example C165_list_ex : own_segments [lit "a.arg"; lit "inc"] /\ Forall2 (source sample) [lit "a.arg"] [sample_lines] /\
  skipn 4 (fst (fst (command sample_env sample ListSymbols (lit "x.py") [lit "inc"; lit "a.arg"]))) =
    [OutL (lit "A"); OutL (lit "  Segment: a"); OutL (lit "    Subsegment: 1");
     OutL (lit "        <simple>    a:6                                           12    A          FOO");
     OutL (lit "N"); OutL (lit "  Segment: a"); OutL (lit "    Subsegment: 1");
     OutL (lit "        <complex>   inc:1                                               N          ASSIGN       5");
     OutL (lit "  Segment: inc"); OutL (lit "    Subsegment: 1");
     OutL (lit "        <complex>   inc:1                                               N          ASSIGN       5");
     ErrL (lit "2 errors found")] /\
  command sample_env sample ListSymbols (lit "x.py") [lit "a.arg"; lit "inc"] = command sample_env sample ListSymbols (lit "x.py") [lit "inc"; lit "a.arg"] /\
  let two := fun f => if eqb f (lit "x.1") then Some (lit "        N          ASSIGN       5") else
                      if eqb f (lit "x.2") then Some (lit "        N          ASSIGN       6") else None in
  last (fst (fst (command sample_env two ListSymbols (lit "x.py") [lit "x.1"; lit "x.2"]))) (OutL []) =
    OutL (lit "        <complex>   x:1                                                 N          ASSIGN       6") /\
  last (fst (fst (command sample_env two ListSymbols (lit "x.py") [lit "x.2"; lit "x.1"]))) (OutL []) =
    OutL (lit "        <complex>   x:1                                                 N          ASSIGN       5").
Proof.
  split.
  { assert (A : forall s, segment_of (lit "a.arg") s -> s <> [] /\ hd 0 s = 97).
    { intros s [[N _]|(r & E & _)]; [exfalso; apply N; right; left; reflexivity|]. destruct s as [|c s]; [discriminate E|]. injection E as E _. rewrite <- E. split; [discriminate|reflexivity]. }
    assert (B : forall s, segment_of (lit "inc") s -> hd 0 s = 105).
    { intros s [[_ ->]|(r & E & _)]; [reflexivity|]. exfalso. assert (I : In 46 (lit "inc")) by (rewrite E; apply in_or_app; right; left; reflexivity).
      destruct I as [I|[I|[I|[]]]]; discriminate I. }
    intros f g s [<-|[<-|[]]] [<-|[<-|[]]] F G; try reflexivity.
    - destruct (A _ F) as (_ & X). rewrite (B _ G) in X. discriminate X.
    - destruct (A _ G) as (_ & X). rewrite (B _ F) in X. discriminate X. }
  split; [constructor; [exact sample_ok|constructor]|]. repeat split; vm_compute; reflexivity.
Qed.

Theorem C165_check : forall fs prog words prog' words' on verbose files files' outs,
  understood (options CheckSymbols) words on files -> understood (options CheckSymbols) words' on files' -> turned_on on "verbose" verbose ->
  files <> [] -> ~ In [] files -> plain_names files -> Permutation files files' -> Forall2 (source fs) files outs ->
  exists k, forall v, (k <= e_fuel v)%nat -> exists outs' said said' ns ns' report,
    command v fs CheckSymbols prog words = (said ++ report, Exit 0, fs) /\ labels_told fs (e_upper v) (e_rep v) verbose true files outs ns said /\
    command v fs CheckSymbols prog' words' = (said' ++ report, Exit 0, fs) /\ labels_told fs (e_upper v) (e_rep v) verbose true files' outs' ns' said' /\
    Forall2 (source fs) files' outs'.
Proof. exact (@C165_check_pf). Qed.
Print Assumptions C165_check.

Example C165_check_ex : Permutation [lit "a.arg"; lit "inc"] [lit "inc"; lit "a.arg"] /\
  skipn 6 (fst (fst (command sample_env sample CheckSymbols (lit "x.py") [lit "-c"; lit "a.arg"; lit "inc"]))) =
    [ErrL (lit "ERROR: symbol ""N"" has a complex assignment, but no simple assignment!"); ErrL []; ErrL (lit "Undefined symbols:");
     OutL (lit "  N - Possible matches: A"); ErrL (lit "1 errors checking symbol table."); ErrL (lit "Total: 3 errors encountered.")] /\
  skipn 6 (fst (fst (command sample_env sample CheckSymbols (lit "x.py") [lit "-c"; lit "inc"; lit "a.arg"]))) =
    [ErrL (lit "ERROR: symbol ""N"" has a complex assignment, but no simple assignment!"); ErrL []; ErrL (lit "Undefined symbols:");
     OutL (lit "  N - Possible matches: A"); ErrL (lit "1 errors checking symbol table."); ErrL (lit "Total: 3 errors encountered.")].
Proof. split; [apply perm_swap|]. split; vm_compute; reflexivity. Qed.

Theorem C165_names : forall fs prog words prog' words' on verbose b symbol files files' outs,
  understood (options FindSymbols) words on (symbol :: files) -> understood (options FindSymbols) words' on (symbol :: files') -> turned_on on "verbose" verbose ->
  turned_on on "begin" b -> turned_on on "end" (negb b) -> (forall x, In x ["fuzzy"; "exact"]%string -> ~ In (lit x) on) ->
  files <> [] -> ~ In [] files -> plain_names files -> Permutation files files' -> Forall2 (source fs) files outs ->
  exists k, forall v, (k <= e_fuel v)%nat -> exists outs' said said' ns ns' report,
    command v fs FindSymbols prog words = (said ++ report, Exit 0, fs) /\ labels_told fs (e_upper v) (e_rep v) verbose true files outs ns said /\
    command v fs FindSymbols prog' words' = (said' ++ report, Exit 0, fs) /\ labels_told fs (e_upper v) (e_rep v) verbose true files' outs' ns' said' /\
    Forall2 (source fs) files' outs'.
Proof. exact (@C165_names_pf). Qed.
Print Assumptions C165_names.

Example C165_names_ex : Permutation [lit "a.arg"; lit "inc"] [lit "inc"; lit "a.arg"] /\
  skipn 6 (fst (fst (command sample_env sample FindSymbols (lit "x.py") [lit "-b"; lit ""; lit "a.arg"; lit "inc"]))) = [OutL (lit "[A, N]")] /\
  skipn 6 (fst (fst (command sample_env sample FindSymbols (lit "x.py") [lit "-b"; lit ""; lit "inc"; lit "a.arg"]))) = [OutL (lit "[A, N]")].
Proof. split; [apply perm_swap|]. split; vm_compute; reflexivity. Qed.

Theorem C165_fuzzy : forall fs prog words prog' words' on verbose symbol files files' outs,
  understood (options FindSymbols) words on (symbol :: files) -> understood (options FindSymbols) words' on (symbol :: files') -> turned_on on "verbose" verbose ->
  In (lit "fuzzy") on -> (forall x, In x ["begin"; "end"; "exact"]%string -> ~ In (lit x) on) ->
  files <> [] -> ~ In [] files -> plain_names files -> Permutation files files' -> Forall2 (source fs) files outs ->
  exists k, forall v, (k <= e_fuel v)%nat -> exists outs' said said' ns ns' report,
    command v fs FindSymbols prog words = (said ++ report, Exit 0, fs) /\ labels_told fs (e_upper v) (e_rep v) verbose true files outs ns said /\
    command v fs FindSymbols prog' words' = (said' ++ report, Exit 0, fs) /\ labels_told fs (e_upper v) (e_rep v) verbose true files' outs' ns' said' /\
    Forall2 (source fs) files' outs'.
Proof. exact (@C165_fuzzy_pf). Qed.
Print Assumptions C165_fuzzy.

Example C165_fuzzy_ex : Permutation [lit "a.arg"; lit "inc"] [lit "inc"; lit "a.arg"] /\
  skipn 6 (fst (fst (command sample_env sample FindSymbols (lit "x.py") [lit "-f"; lit "M"; lit "a.arg"; lit "inc"]))) = [OutL (lit "[A]")] /\
  skipn 6 (fst (fst (command sample_env sample FindSymbols (lit "x.py") [lit "-f"; lit "M"; lit "inc"; lit "a.arg"]))) = [OutL (lit "[A]")].
Proof. split; [apply perm_swap|]. split; vm_compute; reflexivity. Qed.
