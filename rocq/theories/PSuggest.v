(** Property theorems; generated from LSuggest.v by meta/genp.py. *)
From Verif Require Import Py LPy MInstruction MCards SCards LCards LDeck MSymbols SSymbols LSymBuild LSymQuery MInstructions MTools STools LTools LToolSym MDiag SDiag LDiag MDump SDump MVerbose SVerbose LVerbose SOrder LOrder STranscript LTranscript MOptions SOptions LOptions MProcess SProcess LProcess SEnds LEnds SSource LSource SFound STextSym LTextSym SIdle LIdle SReport LReport SUnread LUnread SSwap LGen LSwap LSuggest.

Theorem C171_all_refuted : exists fs v files x, Forall (fun f => exists out, source fs f out) files /\
  line_defines (e_upper v) (text_of x) (lit "B") (lit "simple") (lit " ") /\ (exists f out, In f files /\ source fs f out /\ In x out) /\
  (forall name choices n, e_extract v name choices n = map (fun c => (c, 1)) choices) /\ forall prog,
  skipn 2 (fst (fst (command v fs FindSymbols prog (lit "-f" :: lit "B" :: files)))) = [OutL (lit "[A]")] /\
  skipn 2 (fst (fst (command v fs CheckSymbols prog (lit "-c" :: files)))) =
    [ErrL (lit "ERROR: symbol ""C"" has a complex assignment, but no simple assignment!"); ErrL []; ErrL (lit "Undefined symbols:");
     OutL (lit "  C - Possible matches: A"); ErrL (lit "1 errors checking symbol table."); ErrL (lit "Total: 1 errors encountered.")].
Proof. exact (@C171_all_refuted_pf). Qed.
Print Assumptions C171_all_refuted.

Example C171_all_refuted_ex :
  skipn 2 (fst (fst (command sample_env two_segments FindSymbols (lit "x.py") [lit "-f"; lit "B"; lit "q.x"; lit "p.x"]))) = [OutL (lit "[A]")] /\
  skipn 1 (fst (fst (command sample_env two_segments FindSymbols (lit "x.py") [lit "-f"; lit "B"; lit "q.x"]))) = [OutL (lit "[B]")].
Proof. split; vm_compute; reflexivity. Qed.

Theorem C171_find_partial : forall fs prog words on verbose files outs symbol seg,
  understood (options FindSymbols) words on (symbol :: files) -> turned_on on "verbose" verbose -> In (lit "fuzzy") on ->
  (forall x, In x ["begin"; "end"; "exact"]%string -> ~ In (lit x) on) ->
  files <> [] -> ~ In [] files -> plain_names files -> (forall f, In f files -> segment_of f seg) -> Forall2 (source fs) files outs ->
  exists k, forall v, (k <= e_fuel v)%nat -> exists said ns choices, let names := map fst (e_extract v symbol choices 10) in
    labels_told fs (e_upper v) (e_rep v) verbose true files outs ns said /\
    command v fs FindSymbols prog words = (said ++ (if zlen names =? 0 then [] else [OutL (names_text (e_rep v) names)]), Exit 0, fs) /\
    StronglySorted str_lt choices /\
    forall s, In s choices <-> exists out x tt, In out outs /\ In x out /\ line_defines (e_upper v) (text_of x) s (lit "simple") tt.
Proof. exact (@C171_find_partial_pf). Qed.
Print Assumptions C171_find_partial.

Example C171_find_partial_ex : (forall f, In f [lit "q.x"; lit "q.y"] -> segment_of f (lit "q")) /\
  skipn 1 (fst (fst (command sample_env two_segments FindSymbols (lit "x.py") [lit "-f"; lit "B"; lit "p.x"]))) = [OutL (lit "[A]")] /\
  skipn 2 (fst (fst (command sample_env (fun f => if eqb f (lit "q.y") then two_segments (lit "p.x") else two_segments f) FindSymbols (lit "x.py") [lit "-f"; lit "B"; lit "q.y"; lit "q.x"]))) = [OutL (lit "[A, B]")].
Proof.
  split; [|split; vm_compute; reflexivity].
  intros f [<-|[<-|[]]]; right; [exists (lit "x")|exists (lit "y")]; (split; [reflexivity|]); intros [X|[]]; discriminate X.
Qed.

Theorem C171_check_partial : forall fs prog words on verbose complex files outs seg,
  understood (options CheckSymbols) words on files -> turned_on on "verbose" verbose -> turned_on on "complex" complex ->
  files <> [] -> ~ In [] files -> plain_names files -> (forall f, In f files -> segment_of f seg) -> Forall2 (source fs) files outs ->
  exists k, forall v, (k <= e_fuel v)%nat -> exists said syms choices part total ns,
    command v fs CheckSymbols prog words =
      (said ++
       map (fun s => ErrL (lit "ERROR: symbol """ ++ s ++ lit """ has a complex assignment, but no simple assignment!")) syms ++
       part ++ total, Exit 0, fs) /\
    labels_told fs (e_upper v) (e_rep v) verbose true files outs ns said /\
    undefined_part (fun s => map fst (e_extract v s choices 10)) syms part /\
    StronglySorted str_lt choices /\
    (forall s, In s choices <-> exists out x tt, In out outs /\ In x out /\ line_defines (e_upper v) (text_of x) s (lit "simple") tt) /\
    (forall s, In s syms -> ~ In s choices) /\ total_part files (total_of ns + zlen syms) total.
Proof. exact (@C171_check_partial_pf). Qed.
Print Assumptions C171_check_partial.

Example C171_check_partial_ex :
  skipn 2 (fst (fst (command sample_env (fun f => if eqb f (lit "q.y") then two_segments (lit "p.x") else two_segments f) CheckSymbols (lit "x.py") [lit "-c"; lit "q.y"; lit "q.x"]))) =
    [ErrL (lit "ERROR: symbol ""C"" has a complex assignment, but no simple assignment!"); ErrL []; ErrL (lit "Undefined symbols:");
     OutL (lit "  C - Possible matches: A B"); ErrL (lit "1 errors checking symbol table."); ErrL (lit "Total: 1 errors encountered.")].
Proof. vm_compute. reflexivity. Qed.
