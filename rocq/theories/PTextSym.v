(** Property theorems; generated from LTextSym.v by meta/genp.py. *)
From Verif Require Import Py LPy MInstruction MCards SCards LCards LDeck MSymbols SSymbols LSymBuild MInstructions MTools STools LTools LToolSym LListTool MDiag SDiag LDiag LQuiet MDump SDump MVerbose SVerbose LVerbose STranscript LTranscript MOptions SOptions LOptions MProcess SProcess LProcess SEnds LEnds SSource LSource SFound LFound STextSym LTextSym.

Theorem C154_list : forall fs prog words on files outs,
  understood (options ListSymbols) words on files -> ~ In (lit "verbose") on ->
  files <> [] -> ~ In [] files -> plain_names files -> Forall2 (source fs) files outs ->
  exists k, forall v, (k <= e_fuel v)%nat -> exists said shown rows n,
    command v fs ListSymbols prog words =
      (said ++ map OutL shown ++ (if n =? 0 then [] else [ErrL (str_of_Z n ++ lit " errors found")]), Exit 0, fs) /\
    labels_said (e_upper v) (e_rep v) false files outs n said /\
    laid_out None rows shown /\
    StronglySorted (fun a b => key_lt (fst a) (fst b)) rows /\
    (forall t s u k y, In ((t, s, u, k), y) rows <->
       exists x tt, defined_at (e_upper v) files outs t s u k x tt /\ symbol_row k x tt y).
Proof. exact (@C154_list_pf). Qed.
Print Assumptions C154_list.

Example C154_list_ex : let v := mkenv (fun _ _ => []) (fun _ _ _ => []) (map (fun c => if (97 <=? c) && (c <=? 122) then c - 32 else c)) (fun s => s) (fun _ => lit "?") 3 (fun _ => []) in
  Forall2 (source sample) [lit "a.arg"] [sample_lines] /\ plain_names [lit "a.arg"] /\
  understood (options ListSymbols) [lit "a.arg"] [] [lit "a.arg"] /\
  fst (command v sample ListSymbols (lit "x.py") [lit "a.arg"]) =
    ([ErrL (lit "*** ERROR: Symbol x is ill-formed (case)!");
      ErrL (lit "Current definition: {'file': inc, 'line': 2, 'lognum': None, 'tagtype': None, 'card': ?}");
      OutL (lit "A"); OutL (lit "  Segment: a"); OutL (lit "    Subsegment: 1");
      OutL (lit "        <simple>    a:6                                           12    A          FOO");
      OutL (lit "N"); OutL (lit "  Segment: a"); OutL (lit "    Subsegment: 1");
      OutL (lit "        <complex>   inc:1                                               N          ASSIGN       5");
      ErrL (lit "1 errors found")], Exit 0).
Proof.
  split; [constructor; [exact sample_ok|constructor]|]. split.
  { intros f seg [<-|[]] S. apply seg_ok in S. vm_compute in S. subst seg. intros [H|H]; discriminate. }
  split; [apply ud_arg; [right; intros r; discriminate|constructor]|]. vm_compute. reflexivity.
Qed.

Theorem C154_check : forall fs prog words on complex files outs,
  understood (options CheckSymbols) words on files -> ~ In (lit "verbose") on -> turned_on on "complex" complex ->
  files <> [] -> ~ In [] files -> plain_names files -> Forall2 (source fs) files outs ->
  exists k, forall v, (k <= e_fuel v)%nat -> exists said syms choices part total n,
    command v fs CheckSymbols prog words =
      (said ++
       map (fun s => ErrL (lit "ERROR: symbol """ ++ s ++ lit """ has a complex assignment, but no simple assignment!")) syms ++
       part ++ total, Exit 0, fs) /\
    labels_said (e_upper v) (e_rep v) true files outs n said /\
    StronglySorted str_lt syms /\
    (forall s, In s syms <-> complex = true /\
       (exists out x tt, In out outs /\ In x out /\ line_defines (e_upper v) (text_of x) s (lit "complex") tt) /\
       ~ (exists out x tt, In out outs /\ In x out /\ line_defines (e_upper v) (text_of x) s (lit "simple") tt)) /\
    undefined_part (fun s => map fst (e_extract v s choices 10)) syms part /\
    suggestions (e_upper v) files outs choices /\
    total_part files (n + zlen syms) total.
Proof. exact (@C154_check_pf). Qed.
Print Assumptions C154_check.

Example C154_check_ex : let v := mkenv (fun _ _ => []) (fun _ _ _ => []) (map (fun c => if (97 <=? c) && (c <=? 122) then c - 32 else c)) (fun s => s) (fun _ => lit "?") 3 (fun _ => []) in
  Forall2 (source sample) [lit "a.arg"] [sample_lines] /\ plain_names [lit "a.arg"] /\
  understood (options CheckSymbols) [lit "-c"; lit "a.arg"] [lit "complex"] [lit "a.arg"] /\
  fst (command v sample CheckSymbols (lit "x.py") [lit "-c"; lit "a.arg"]) =
    ([ErrL (lit "*** ERROR: Symbol x is ill-formed (case)!");
      ErrL (lit "Current definition: {'file': inc, 'line': 2, 'lognum': None, 'tagtype': None, 'card': ?}");
      ErrL (lit "a.arg: 1 errors encountered building symbol table.");
      ErrL (lit "ERROR: symbol ""N"" has a complex assignment, but no simple assignment!"); ErrL []; ErrL (lit "Undefined symbols:");
      ErrL (lit "  N - No matches!"); ErrL (lit "1 errors checking symbol table.")], Exit 0).
Proof.
  split; [constructor; [exact sample_ok|constructor]|]. split.
  { intros f seg [<-|[]] S. apply seg_ok in S. vm_compute in S. subst seg. intros [H|H]; discriminate. }
  split; [|vm_compute; reflexivity]. apply (ud_opt _ _ [lit "complex"]).
  - apply (ow_letters _ 99 []); [discriminate|]. constructor; [|constructor]. eexists. split; [right; right; left; reflexivity|]. split; reflexivity.
  - cbn. intuition discriminate.
  - apply ud_arg; [right; intros r; discriminate|constructor].
Qed.

Theorem C154_find : forall fs prog words on files outs symbol,
  understood (options FindSymbols) words on (symbol :: files) ->
  (forall x, In x ["verbose"; "begin"; "end"; "fuzzy"]%string -> ~ In (lit x) on) ->
  files <> [] -> ~ In [] files -> plain_names files -> Forall2 (source fs) files outs ->
  exists k, forall v, (k <= e_fuel v)%nat -> exists said n,
    labels_said (e_upper v) (e_rep v) true files outs n said /\
    (((exists out x kind tt, In out outs /\ In x out /\ line_defines (e_upper v) (text_of x) symbol kind tt) /\
      exists t, command v fs FindSymbols prog words = (said ++ [OutL t], Exit 0, fs)) \/
     (~ (exists out x kind tt, In out outs /\ In x out /\ line_defines (e_upper v) (text_of x) symbol kind tt) /\
      command v fs FindSymbols prog words = (said ++ [ErrL (lit "ERROR: Undefined symbol """ ++ symbol ++ lit """!")], Exit 0, fs))).
Proof. exact (@C154_find_pf). Qed.
Print Assumptions C154_find.

Example C154_find_ex : let v := mkenv (fun _ _ => []) (fun _ _ _ => []) (map (fun c => if (97 <=? c) && (c <=? 122) then c - 32 else c)) (fun s => s) (fun _ => lit "?") 3 (fun _ => []) in
  Forall2 (source sample) [lit "a.arg"] [sample_lines] /\ plain_names [lit "a.arg"] /\
  understood (options FindSymbols) [lit "Q"; lit "a.arg"] [] [lit "Q"; lit "a.arg"] /\
  fst (command v sample FindSymbols (lit "x.py") [lit "Q"; lit "a.arg"]) =
    ([ErrL (lit "*** ERROR: Symbol x is ill-formed (case)!");
      ErrL (lit "Current definition: {'file': inc, 'line': 2, 'lognum': None, 'tagtype': None, 'card': ?}");
      ErrL (lit "a.arg: 1 errors encountered building symbol table."); ErrL (lit "ERROR: Undefined symbol ""Q""!")], Exit 0) /\
  fst (command v sample FindSymbols (lit "x.py") [lit "N"; lit "a.arg"]) =
    ([ErrL (lit "*** ERROR: Symbol x is ill-formed (case)!");
      ErrL (lit "Current definition: {'file': inc, 'line': 2, 'lognum': None, 'tagtype': None, 'card': ?}");
      ErrL (lit "a.arg: 1 errors encountered building symbol table.");
      OutL (lit "{a: {1: {complex: {'file': inc, 'line': 1, 'lognum': None, 'tagtype':  , 'card': ?}}}}")], Exit 0).
Proof.
  split; [constructor; [exact sample_ok|constructor]|]. split.
  { intros f seg [<-|[]] S. apply seg_ok in S. vm_compute in S. subst seg. intros [H|H]; discriminate. }
  split; [apply ud_arg; [right; intros r; discriminate|apply ud_arg; [right; intros r; discriminate|constructor]]|].
  split; vm_compute; reflexivity.
Qed.

Theorem C154_names : forall fs prog words on b files outs symbol,
  understood (options FindSymbols) words on (symbol :: files) ->
  turned_on on "begin" b -> turned_on on "end" (negb b) ->
  (forall x, In x ["verbose"; "fuzzy"; "exact"]%string -> ~ In (lit x) on) ->
  files <> [] -> ~ In [] files -> plain_names files -> Forall2 (source fs) files outs ->
  exists k, forall v, (k <= e_fuel v)%nat -> exists said n names,
    labels_said (e_upper v) (e_rep v) true files outs n said /\
    command v fs FindSymbols prog words = (said ++ (if zlen names =? 0 then [] else [OutL (names_text (e_rep v) names)]), Exit 0, fs) /\
    StronglySorted str_lt names /\
    forall s, In s names <-> (exists out x kind tt, In out outs /\ In x out /\ line_defines (e_upper v) (text_of x) s kind tt) /\
      if b then exists r, s = symbol ++ r else exists r, s = r ++ symbol.
Proof. exact (@C154_names_pf). Qed.
Print Assumptions C154_names.

Example C154_names_ex : let v := mkenv (fun _ _ => []) (fun _ _ _ => []) (map (fun c => if (97 <=? c) && (c <=? 122) then c - 32 else c)) (fun s => s) (fun _ => lit "?") 3 (fun _ => []) in
  Forall2 (source sample) [lit "a.arg"] [sample_lines] /\
  turned_on [lit "begin"] "begin" true /\ turned_on [lit "begin"] "end" (negb true) /\
  skipn 3 (fst (fst (command v sample FindSymbols (lit "x.py") [lit "-b"; []; lit "a.arg"]))) = [OutL (lit "[A, N]")] /\
  skipn 3 (fst (fst (command v sample FindSymbols (lit "x.py") [lit "-e"; lit "N"; lit "a.arg"]))) = [OutL (lit "[N]")] /\
  skipn 3 (fst (fst (command v sample FindSymbols (lit "x.py") [lit "-e"; lit "Q"; lit "a.arg"]))) = [].
Proof.
  split; [constructor; [exact sample_ok|constructor]|]. split; [split; [left; reflexivity|reflexivity]|].
  split; [split; [discriminate|intros [H|[]]; discriminate H]|]. vm_compute. auto.
Qed.
