(** Property theorems; generated from LUnread.v by meta/genp.py. *)
From Verif Require Import Py LPy MInstruction MCards SCards LCards LDeck MSymbols SSymbols LSymBuild MInstructions MTools STools LTools LToolSym LListTool MDiag SDiag LDiag LQuiet MDump SDump MVerbose SVerbose LVerbose STranscript LTranscript MOptions SOptions LOptions MProcess SProcess LProcess SEnds LEnds SSource LSource SFound LFound STextSym LTextSym SReport LReport SUnread LUnread.

Theorem C162_told : forall v fs t prog words on args verbose, reads_only t -> understood (options t) words on args ->
  (forall reason, ~ misuse fs t on args reason) -> (keeps_table t -> plain_names (sources t args)) -> turned_on on "verbose" verbose ->
  exists ls st, command v fs t prog words = (ls, st, fs) /\
    ((exists outs, Forall2 (source fs) (sources t args) outs /\
       (st = Exit 0 \/
        t = CheckInstructions /\ In (lit "count") on /\ ~ In (lit "unused") on /\ st = Died ZeroDivisionError /\
        forall x m, In x (concat outs) -> ~ mnemonic_at (text_of x) m)) \/
     (exists pre f post outs said log msg, sources t args = pre ++ f :: post /\ Forall2 (source fs) pre outs /\
       said_before v fs on verbose t args pre outs said /\ gives_up fs (e_fuel v) f log msg st /\
       ls = said ++ (if verbose then log else []) ++ msg)).
Proof. exact (@C162_told_pf). Qed.
Print Assumptions C162_told.

Example C162_told_ex : let fs := fun f => if eqb f (lit "a") then Some (lit "                   FOO" ++ [10]) else if eqb f (lit "b") then Some (lit "#x" ++ [10] ++ lit "$ ") else
                     if eqb f (lit "c") then Some (lit "$c") else if eqb f (lit "d") then Some (lit "$ e") else None in
  let run := fun f => fst (command sample_env fs CheckInstructions (lit "x.py") [lit "-v"; lit "a"; f; lit "a"]) in
  let said := [OutL (lit "Reading a..."); OutL (lit "*** ERROR: Invalid instruction ""FOO"":"); OutL (lit "File a, line 1:                    FOO")] in
  run (lit "b") = (said ++ [OutL (lit "Reading b..."); OutL (lit "Skipping meta-comment, file b, line 1")], Died IndexError) /\
  run (lit "c") = (said ++ repeat (OutL (lit "Reading c...")) (e_fuel sample_env), Died RecursionError) /\
  run (lit "d") = (said ++ [OutL (lit "Reading d..."); ErrL (lit "File ""e"" does not exist")], Exit 1) /\
  run (lit "e") = (said ++ [ErrL (lit "ERROR: File ""e"" does not exist!")], Exit 1) /\
  run [] = (said, Died TypeError).
Proof. vm_compute. repeat split. Qed.

Theorem C162_stops : forall fs t prog words on args verbose pre f post outs log, reads_only t -> understood (options t) words on args ->
  (forall reason, ~ misuse fs t on args reason) -> (keeps_table t -> plain_names pre) -> turned_on on "verbose" verbose ->
  sources t args = pre ++ f :: post -> ~ In [] pre -> f <> [] -> Forall2 (source fs) pre outs ->
  (forall m, stops_at fs f log m -> exists k, forall v, (k <= e_fuel v)%nat -> exists said, said_before v fs on verbose t args pre outs said /\
     command v fs t prog words = (said ++ (if verbose then log else []) ++ [ErrL m], Exit 1, fs)) /\
  (unnamed_at fs f log -> exists k, forall v, (k <= e_fuel v)%nat -> exists said, said_before v fs on verbose t args pre outs said /\
     command v fs t prog words = (said ++ (if verbose then log else []), Died IndexError, fs)) /\
  (exists k, forall v, (k <= e_fuel v)%nat -> nested_at fs (e_fuel v) f log -> exists said, said_before v fs on verbose t args pre outs said /\
     command v fs t prog words = (said ++ (if verbose then log else []), Died RecursionError, fs)).
Proof. exact (@C162_stops_pf). Qed.
Print Assumptions C162_stops.

Example C162_stops_ex : let fs := fun f => if eqb f (lit "a") then Some (lit "                   FOO" ++ [10]) else if eqb f (lit "b") then Some (lit "#x" ++ [10] ++ lit "$ ") else
                     if eqb f (lit "c") then Some (lit "$c") else if eqb f (lit "d") then Some (lit "$ e") else None in
  unnamed_at fs (lit "b") [OutL (lit "Reading b..."); OutL (lit "Skipping meta-comment, file b, line 1")] /\
  stops_at fs (lit "d") [OutL (lit "Reading d...")] (lit "File ""e"" does not exist") /\
  nested_at fs 2 (lit "c") [OutL (lit "Reading c..."); OutL (lit "Reading c...")] /\
  source fs (lit "a") [(lit "a", 1, lit "                   FOO" ++ [10])] /\
  fst (command sample_env fs ListInstructions (lit "x.py") [lit "TX"; lit "a"; lit "d"]) = ([ErrL (lit "File ""e"" does not exist")], Exit 1) /\
  fst (command sample_env fs CheckSymbols (lit "x.py") [lit "a"; lit "b"]) = ([ErrL (lit "a: 0 errors encountered building symbol table.")], Died IndexError).
Proof.
  cbv zeta. split; [|split; [|split; [|split; [|split; vm_compute; reflexivity]]]].
  - change (lit "Reading b...") with (lit "Reading " ++ lit "b" ++ lit "..."). change (lit "Skipping meta-comment, file b, line 1") with (lit "Skipping meta-comment, file " ++ lit "b" ++ lit ", line " ++ str_of_Z 1). eapply (un_here _ _ _ [lit "#x" ++ [10]] (lit " ") [] [_]); [vm_compute; reflexivity|apply C144_lines_pf; vm_compute; reflexivity| |].
    + apply ll_comment; [exists (lit "x" ++ [10]); reflexivity|constructor].
    + intros w W. apply first_word_ok in W. destruct W as (rest & W). discriminate W.
  - change (lit "Reading d...") with (lit "Reading " ++ lit "d" ++ lit "..."). change (lit "File ""e"" does not exist") with (lit "File """ ++ lit "e" ++ lit """ does not exist"). eapply (sa_include _ _ _ [] _ [] (lit "e") []); [vm_compute; reflexivity|vm_compute; reflexivity|constructor| |vm_compute; reflexivity].
    exists (lit " e"). split; [reflexivity|]. apply first_word_ok. exists []. vm_compute. reflexivity.
  - exists (lit "$c"), [], (lit "c"), [], (lit "c"), [], [OutL (lit "Reading c...")].
    assert (W : first_word (lit "c") (lit "c")) by (apply first_word_ok; exists []; vm_compute; reflexivity).
    assert (T : text_lines (lit "$c") [lit "$c"]) by (apply C144_lines_pf; vm_compute; reflexivity).
    split; [reflexivity|]. split; [exact T|]. split; [constructor|]. split; [intros q g l []|]. split; [exact W|]. split; [vm_compute; discriminate|]. split; [|reflexivity].
    exists (lit "$c"), [], (lit "c"), [], (lit "c"), [], []. split; [reflexivity|]. split; [exact T|]. split; [constructor|]. split; [intros q g l []|]. split; [exact W|].
    split; [vm_compute; discriminate|]. split; reflexivity.
  - eapply so_file; [vm_compute; reflexivity|apply C144_lines_pf; vm_compute; reflexivity|]. apply sl_line; [|constructor].
    intros c r [= <- _]. split; discriminate.
Qed.

Theorem C162_one : forall fs f,
  (forall log o log' o', read_outcome fs f log o -> read_outcome fs f log' o' -> log = log' /\ o = o') /\
  (forall log o, read_outcome fs f log o -> exists n, forall depth log', (n <= depth)%nat -> ~ nested_at fs depth f log') /\
  (forall depth, (exists log o, read_outcome fs f log o) \/ exists log, nested_at fs depth f log) /\
  (forall depth log log', nested_at fs depth f log -> nested_at fs depth f log' -> log = log').
Proof. exact (@C162_one_pf). Qed.
Print Assumptions C162_one.

Example C162_one_ex : let fs := fun f => if eqb f (lit "b") then Some (lit "$ ") else None in
  read_outcome fs (lit "b") [OutL (lit "Reading b...")] Unnamed /\ read_outcome fs (lit "c") [] (Missing (lit "ERROR: File ""c"" does not exist!")) /\
  forall log o, read_outcome fs (lit "b") log o -> o = Unnamed.
Proof.
  cbv zeta. match goal with |- read_outcome ?g _ _ _ /\ _ => set (fs := g) end.
  assert (B : read_outcome fs (lit "b") [OutL (lit "Reading b...")] Unnamed).
  { apply ro_unnamed. change (lit "Reading b...") with (lit "Reading " ++ lit "b" ++ lit "..."). eapply (un_here _ _ _ [] (lit " ") [] []); [reflexivity|apply C144_lines_pf; vm_compute; reflexivity|constructor|].
    intros w W. apply first_word_ok in W. destruct W as (rest & W). discriminate W. }
  split; [exact B|]. split; [apply ro_missing; apply (sa_here fs (lit "c")); reflexivity|].
  intros log o H. exact (proj2 (proj1 (C162_one fs (lit "b")) _ _ _ _ H B)).
Qed.

Theorem C162_exclusive : forall fs depth f,
  (forall log msg st log' msg' st', gives_up fs depth f log msg st -> gives_up fs depth f log' msg' st' -> log = log' /\ msg = msg' /\ st = st') /\
  (forall log msg st cs, gives_up fs depth f log msg st -> ~ source_cards depth fs f cs) /\
  ((exists cs, source_cards depth fs f cs) \/ exists log msg st, gives_up fs depth f log msg st).
Proof. exact (@C162_exclusive_pf). Qed.
Print Assumptions C162_exclusive.

Example C162_exclusive_ex : let fs := fun f => if eqb f (lit "d") then Some (lit "$ d") else None in
  gives_up fs 2 (lit "d") (repeat (OutL (lit "Reading d...")) 2) [] (Died RecursionError) /\
  gives_up fs 2 (lit "c") [] [ErrL (lit "ERROR: File ""c"" does not exist!")] (Exit 1) /\
  forall log msg st, gives_up fs 2 (lit "c") log msg st -> st = Exit 1.
Proof.
  cbv zeta. match goal with |- gives_up ?g _ _ _ _ _ /\ _ => set (fs := g) end.
  assert (C : gives_up fs 2 (lit "c") [] [ErrL (lit "ERROR: File ""c"" does not exist!")] (Exit 1)).
  { apply gu_missing; [discriminate| |apply (sa_here fs (lit "c")); reflexivity]. intros l (content & pre & r & post & inc & l1 & l2 & E & _). discriminate E. }
  split; [|split; [exact C|intros log msg st G; exact (proj2 (proj2 (proj1 (C162_exclusive fs 2 (lit "c")) _ _ _ _ _ _ G C)))]].
  apply gu_deep; [discriminate|]. pose proof (read_fails fs 2 true (lit "d")) as F. vm_compute in F. destruct F as (l & NA & E). subst l. exact NA.
Qed.

Theorem C162_listing : forall v fs prog words on files verbose, understood (options Listing) words on files -> files <> [] -> turned_on on "verbose" verbose ->
  exists ls st fs', command v fs Listing prog words = (ls, st, fs') /\
    ((st = Exit 0 /\ listed_all verbose fs files ls fs') \/
     (exists pre f post said log msg, files = pre ++ f :: post /\ listed_all verbose fs pre said fs' /\ gives_up fs' (e_fuel v) f log msg st /\
       ls = said ++ (if verbose then log else []) ++ msg)).
Proof. exact (@C162_listing_pf). Qed.
Print Assumptions C162_listing.

Example C162_listing_ex : let fs := fun f => if eqb f (lit "a") then Some (lit "                   FOO" ++ [10]) else if eqb f (lit "b") then Some (lit "#x" ++ [10] ++ lit "$ ") else
                     if eqb f (lit "c") then Some (lit "$c") else if eqb f (lit "d") then Some (lit "$ e") else None in
  let run := fun files => command sample_env fs Listing (lit "x.py") (lit "-v" :: files) in
  fst (run [lit "a"; lit ".lst"; lit "c"]) =
    ([OutL (lit "Reading a..."); OutL (lit "Wrote listing file to .lst"); OutL (lit "Reading .lst..."); OutL (lit "Wrote listing file to .lst")] ++
     repeat (OutL (lit "Reading c...")) (e_fuel sample_env), Died RecursionError) /\
  snd (run [lit "a"; lit "b"]) (lit ".lst") = Some (listed (lit "a", 1, lit "                   FOO" ++ [10])) /\
  snd (fst (run [lit "a"; lit "b"])) = Died IndexError.
Proof. vm_compute. repeat split. Qed.

Theorem C162_lists : forall fs prog words on files verbose ls fs', understood (options Listing) words on files -> files <> [] -> turned_on on "verbose" verbose ->
  listed_all verbose fs files ls fs' ->
  exists k, forall v, (k <= e_fuel v)%nat -> exists fs2, command v fs Listing prog words = (ls, Exit 0, fs2) /\ forall g, fs2 g = fs' g.
Proof. exact (@C162_lists_pf). Qed.
Print Assumptions C162_lists.

Example C162_lists_ex : let fs := fun f => if eqb f (lit "p.arg") then Some (lit "R1") else None in
  let fs1 := fun f => if eqb f (lit "p.lst") then Some (listed (lit "p.arg", 1, lit "R1")) else fs f in
  listed_all true fs [lit "p.arg"] [OutL (lit "Reading p.arg..."); OutL (lit "Wrote listing file to p.lst")] fs1 /\
  fst (command sample_env fs Listing (lit "x.py") [lit "-v"; lit "p.arg"]) = ([OutL (lit "Reading p.arg..."); OutL (lit "Wrote listing file to p.lst")], Exit 0).
Proof.
  cbv zeta. split; [|vm_compute; reflexivity].
  change [OutL (lit "Reading p.arg..."); OutL (lit "Wrote listing file to p.lst")] with
    (([OutL (lit "Reading " ++ lit "p.arg" ++ lit "...")] ++ [OutL (lit "Wrote listing file to " ++ lit "p.lst")]) ++ []).
  match goal with |- listed_all _ ?g _ _ ?h => eapply (la_file true g (lit "p.arg") (lit "p.lst") [(lit "p.arg", 1, lit "R1")] [_] h [] [] h) end; [discriminate| | | |vm_compute; reflexivity| |constructor].
  - eapply so_file; [vm_compute; reflexivity|apply C144_lines_pf; vm_compute; reflexivity|]. apply sl_line; [|constructor]. intros c r [= <- _]. split; discriminate.
  - eapply rl_file; [vm_compute; reflexivity|]. apply ll_card; [intros (r & E); discriminate E|intros (r & E); discriminate E|constructor].
  - left. exists (lit "p"), (lit "arg"). repeat split; cbn; intuition discriminate.
  - intros g N. rewrite eqb_neq by exact N. reflexivity.
Qed.
