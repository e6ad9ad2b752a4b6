(** Property theorems; generated from LAny.v by meta/genp.py. *)
From Verif Require Import Py LPy MInstructions MCards SCards LCards LDeck MSymbols SSymbols LSymBuild LSymQuery MTools STools LTools LToolSym SClash LClash LQuiet SForce LForce MDiag SDiag LDiag MDump SDump LDump MVerbose SVerbose LVerbose STranscript LTranscript LTextSym SFound LFound MOptions SOptions LOptions MProcess SProcess LProcess SEnds SSource STextSym SReport LReport LIdle SUnread LUnread SSaid LSaid SAny LAny.

Theorem C196_command : forall v fs t counts prog words on args verbose, prints_counts t counts -> understood (options t) words on args ->
  (forall reason, ~ misuse fs t on args reason) -> turned_on on "verbose" verbose ->
  exists ls st, command v fs t prog words = (ls, st, fs) /\
    ((completes v fs on verbose counts t args ls /\ st = Exit 0) \/
     (exists e, broken (e_upper v) (e_rep v) (e_card_rep v) (e_fuel v) fs verbose counts (sources t args) ls e /\ st = Died e) \/
     unread v fs verbose counts (sources t args) ls st).
Proof. exact (@C196_command_pf). Qed.
Print Assumptions C196_command.

Example C196_command_ex : let v := mkenv (fun _ _ => []) (fun _ _ _ => []) (fun s => s) quoted a_card 3 (fun _ => []) in
  let run := fun t words => fst (command v clash_files t (lit "x.py") words) in
  run ListSymbols [lit "-v"; lit "simple.a"; lit "simple.b"] = ([OutL (lit "Reading simple.a...")] ++ clash_said ++ [OutL (lit "Reading simple.b...")], Died KeyError) /\
  run CheckSymbols [lit "simple.a"; lit "simple.c"; lit "simple.b"] =
    (clash_said ++ [ErrL (lit "simple.a: 1 errors encountered building symbol table."); ErrL (lit "ERROR: File ""simple.c"" does not exist!")], Exit 1) /\
  run FindSymbols [lit "-b"; lit "C"; lit "complex.a"] =
    ([ErrL (lit "complex.a: 0 errors encountered building symbol table."); OutL (lit "['C']")], Exit 0) /\
  run Parse [lit "simple.a"; lit "simple.b"; lit "simple.c"] =
    (clash_said ++ [ErrL (lit "simple.a: 1 errors encountered building symbol table.")], Died KeyError).
Proof. vm_compute. repeat split. Qed.

Theorem C196_determined : forall v fs t counts on args verbose, (forall reason, ~ misuse fs t on args reason) ->
  let broken_at := broken (e_upper v) (e_rep v) (e_card_rep v) (e_fuel v) fs verbose counts (sources t args) in
  let unread_at := unread v fs verbose counts (sources t args) in
  let done := completes v fs on verbose counts t args in
  (forall ls ls', done ls -> done ls' -> ls = ls') /\
  (forall ls e ls' e', broken_at ls e -> broken_at ls' e' -> ls = ls' /\ e = e') /\
  (forall ls st ls' st', unread_at ls st -> unread_at ls' st' -> ls = ls' /\ st = st') /\
  (forall ls ls' e, done ls -> ~ broken_at ls' e) /\ (forall ls ls' st, done ls -> ~ unread_at ls' st) /\
  (forall ls e ls' st, broken_at ls e -> ~ unread_at ls' st).
Proof. exact (@C196_determined_pf). Qed.
Print Assumptions C196_determined.

Example C196_determined_ex : forall ls ls' st,
  completes sample_env clash_files [] false true CheckSymbols [lit "simple.a"] ls -> ~ unread sample_env clash_files false true [lit "simple.a"] ls' st.
Proof.
  intros ls ls' st A B. assert (N : forall r, ~ misuse clash_files CheckSymbols [] [lit "simple.a"] r) by (intros r M; inversion M).
  exact (proj1 (proj2 (proj2 (proj2 (proj2 (C196_determined sample_env clash_files CheckSymbols true [] [lit "simple.a"] false N))))) ls ls' st A B).
Qed.

Theorem C196_status : forall v fs t counts prog words on args verbose, prints_counts t counts -> understood (options t) words on args ->
  (forall reason, ~ misuse fs t on args reason) -> turned_on on "verbose" verbose ->
  let st := snd (fst (command v fs t prog words)) in
  (st = Exit 0 <-> exists css ds, Forall2 (source_cards (e_fuel v) fs) (sources t args) css /\ files_defs (e_upper v) (sources t args) css ds /\ harmless ds) /\
  (st = Exit 1 <-> exists pre f post css ds log m, sources t args = pre ++ f :: post /\ Forall2 (source_cards (e_fuel v) fs) pre css /\
     files_defs (e_upper v) pre css ds /\ harmless ds /\ gives_up fs (e_fuel v) f log [ErrL m] (Exit 1)) /\
  (forall pre f post css ds log msg st', sources t args = pre ++ f :: post -> Forall2 (source_cards (e_fuel v) fs) pre css ->
     files_defs (e_upper v) pre css ds -> harmless ds -> gives_up fs (e_fuel v) f log msg st' -> st = st') /\
  (forall e, e = KeyError \/ e = AttributeError ->
     (st = Died e <-> exists pre f post css ds, sources t args = pre ++ f :: post /\ Forall2 (source_cards (e_fuel v) fs) (pre ++ [f]) css /\
       files_defs (e_upper v) (pre ++ [f]) css ds /\ dies_of ds e)) /\
  (forall e, st = Died e -> In e [KeyError; AttributeError; TypeError; IndexError; RecursionError]).
Proof. exact (@C196_status_pf). Qed.
Print Assumptions C196_status.

Example C196_status_ex : let run := fun t words => snd (fst (command sample_env clash_files t (lit "x.py") words)) in
  map (fun t => run t [lit "simple.a"; lit "simple.b"]) [CheckSymbols; ListSymbols; Parse] = repeat (Died KeyError) 3 /\
  map (fun t => run t [lit "simple.a"; lit "missing"; lit "simple.b"]) [CheckSymbols; ListSymbols; Parse; FindSymbols] = repeat (Exit 1) 4 /\
  run FindSymbols [lit "A"; lit "simple.a"; lit "complex.a"] = Exit 0 /\ run ListSymbols [lit "simple.a"; []] = Died TypeError.
Proof. vm_compute. repeat split. Qed.

Theorem C196_same : forall v fs t t' counts counts' prog prog' words words' on on' args args' verbose verbose',
  prints_counts t counts -> understood (options t) words on args -> (forall reason, ~ misuse fs t on args reason) -> turned_on on "verbose" verbose ->
  prints_counts t' counts' -> understood (options t') words' on' args' -> (forall reason, ~ misuse fs t' on' args' reason) -> turned_on on' "verbose" verbose' ->
  sources t args = sources t' args' -> snd (fst (command v fs t prog words)) = snd (fst (command v fs t' prog' words')).
Proof. exact (@C196_same_pf). Qed.
Print Assumptions C196_same.

Example C196_same_ex : let run := fun t words => snd (fst (command sample_env clash_files t (lit "x.py") words)) in
  run ListSymbols [lit "-v"; lit "simple.a"; lit "simple.b"] = run FindSymbols [lit "-f"; lit "A"; lit "simple.a"; lit "simple.b"] /\
  run CheckSymbols [lit "-c"; lit "simple.b"; lit "x"] = run Parse [lit "simple.b"; lit "x"].
Proof. vm_compute. auto. Qed.

Theorem C169_any_names : forall v fs prog words prog' words' on on' verbose verbose' b files symbol,
  understood (options ListSymbols) words on files -> turned_on on "verbose" verbose ->
  understood (options FindSymbols) words' on' (symbol :: files) -> turned_on on' "verbose" verbose' ->
  turned_on on' "begin" b -> turned_on on' "end" (negb b) -> (forall x, In x ["fuzzy"; "exact"]%string -> ~ In (lit x) on') ->
  files <> [] -> snd (fst (command v fs ListSymbols prog words)) = Exit 0 ->
  exists ds ns tables out es tables' names,
    command v fs ListSymbols prog words =
      (tables ++ map OutL out ++ (if fold_right Z.add 0 ns =? 0 then [] else [ErrL (str_of_Z (fold_right Z.add 0 ns) ++ lit " errors found")]), Exit 0, fs) /\
    rendered (None, None, None) es out /\ StronglySorted (fun x y => key_lt (fst x) (fst y)) es /\
    command v fs FindSymbols prog' words' = (tables' ++ (if zlen names =? 0 then [] else [OutL (names_text (e_rep v) names)]), Exit 0, fs) /\
    StronglySorted str_lt names /\
    (forall s, In s names <-> (exists seg ss kind e, In ((s, seg, ss, kind), e) es) /\ if b then exists r, s = symbol ++ r else exists r, s = r ++ symbol) /\
    files_said (e_upper v) (e_rep v) (e_card_rep v) (e_fuel v) fs verbose false files ds tables ns /\
    files_said (e_upper v) (e_rep v) (e_card_rep v) (e_fuel v) fs verbose' true files ds tables' ns.
Proof. exact (@C169_any_names_pf). Qed.
Print Assumptions C169_any_names.

Example C169_any_names_ex : let run := fun t words => fst (command sample_env clash_files t (lit "x.py") words) in
  exists l l', run ListSymbols [lit "simple.a"; lit "complex.a"] = (l, Exit 0) /\ run FindSymbols [lit "-b"; lit ""; lit "simple.a"; lit "complex.a"] = (l', Exit 0) /\
    In (OutL (lit "C")) l /\ In (OutL (lit "A")) l.
Proof. eexists. eexists. split; [vm_compute; reflexivity|]. split; [vm_compute; reflexivity|]. split; cbn [In]; tauto. Qed.

Theorem C169_any_answer : forall v fs prog words prog' words' on on' verbose verbose' files symbol,
  understood (options ListSymbols) words on files -> turned_on on "verbose" verbose ->
  understood (options FindSymbols) words' on' (symbol :: files) -> turned_on on' "verbose" verbose' ->
  (forall x, In x ["begin"; "end"; "fuzzy"]%string -> ~ In (lit x) on') ->
  files <> [] -> snd (fst (command v fs ListSymbols prog words)) = Exit 0 ->
  exists ds ns tables out es tables',
    command v fs ListSymbols prog words =
      (tables ++ map OutL out ++ (if fold_right Z.add 0 ns =? 0 then [] else [ErrL (str_of_Z (fold_right Z.add 0 ns) ++ lit " errors found")]), Exit 0, fs) /\
    rendered (None, None, None) es out /\ StronglySorted (fun x y => key_lt (fst x) (fst y)) es /\
    (((exists seg ss kind e, In ((symbol, seg, ss, kind), e) es) /\ exists t, command v fs FindSymbols prog' words' = (tables' ++ [OutL t], Exit 0, fs)) \/
     (~ (exists seg ss kind e, In ((symbol, seg, ss, kind), e) es) /\
      command v fs FindSymbols prog' words' = (tables' ++ [ErrL (lit "ERROR: Undefined symbol """ ++ symbol ++ lit """!")], Exit 0, fs))) /\
    files_said (e_upper v) (e_rep v) (e_card_rep v) (e_fuel v) fs verbose false files ds tables ns /\
    files_said (e_upper v) (e_rep v) (e_card_rep v) (e_fuel v) fs verbose' true files ds tables' ns.
Proof. exact (@C169_any_answer_pf). Qed.
Print Assumptions C169_any_answer.

Example C169_any_answer_ex : let run := fun t words => fst (command sample_env clash_files t (lit "x.py") words) in
  exists l, run FindSymbols [lit "B"; lit "simple.a"] = (l ++ [ErrL (lit "ERROR: Undefined symbol ""B""!")], Exit 0) /\ snd (run ListSymbols [lit "simple.a"]) = Exit 0.
Proof. eexists (_ :: _ :: _ :: _ :: _ :: []). split; [vm_compute; reflexivity|vm_compute; reflexivity]. Qed.

Theorem C169_any_complex : forall v fs prog words prog' words' on on' verbose verbose' files,
  understood (options ListSymbols) words on files -> turned_on on "verbose" verbose ->
  understood (options CheckSymbols) words' on' files -> turned_on on' "verbose" verbose' -> In (lit "complex") on' ->
  files <> [] -> snd (fst (command v fs ListSymbols prog words)) = Exit 0 ->
  exists ds ns tables out es tables' syms part total,
    command v fs ListSymbols prog words =
      (tables ++ map OutL out ++ (if fold_right Z.add 0 ns =? 0 then [] else [ErrL (str_of_Z (fold_right Z.add 0 ns) ++ lit " errors found")]), Exit 0, fs) /\
    rendered (None, None, None) es out /\ StronglySorted (fun x y => key_lt (fst x) (fst y)) es /\
    command v fs CheckSymbols prog' words' =
      (tables' ++ map (fun s => ErrL (lit "ERROR: symbol """ ++ s ++ lit """ has a complex assignment, but no simple assignment!")) syms ++ part ++ total, Exit 0, fs) /\
    StronglySorted str_lt syms /\
    (forall s, In s syms <-> (exists seg ss kind e, In ((s, seg, ss, kind), e) es) /\
                        forall seg ss kind e, In ((s, seg, ss, kind), e) es -> kind = lit "complex") /\
    total_part files (fold_right Z.add 0 ns + zlen syms) total /\
    files_said (e_upper v) (e_rep v) (e_card_rep v) (e_fuel v) fs verbose false files ds tables ns /\
    files_said (e_upper v) (e_rep v) (e_card_rep v) (e_fuel v) fs verbose' true files ds tables' ns.
Proof. exact (@C169_any_complex_pf). Qed.
Print Assumptions C169_any_complex.

Example C169_any_complex_ex : let run := fun t words => fst (command sample_env clash_files t (lit "x.py") words) in
  exists l, run CheckSymbols [lit "-c"; lit "complex.a"] = (l, Exit 0) /\
    In (ErrL (lit "ERROR: symbol ""C"" has a complex assignment, but no simple assignment!")) l /\ snd (run ListSymbols [lit "complex.a"]) = Exit 0.
Proof. eexists. split; [vm_compute; reflexivity|]. split; [cbn [In]; tauto|vm_compute; reflexivity]. Qed.

Theorem C169_any_errors : forall v fs prog words prog1 words1 prog2 words2 on on1 on2 verbose verbose1 debug file,
  understood (options Parse) words on [file] -> turned_on on "verbose" verbose -> turned_on on "debug" debug ->
  understood (options CheckSymbols) words1 on1 [file] -> turned_on on1 "verbose" verbose1 ->
  understood (options CheckInstructions) words2 on2 [file] -> ~ In (lit "count") on2 ->
  snd (fst (command v fs Parse prog words)) = Exit 0 ->
  exists cs ds said told said1 rest1 told2 n bad, source_cards (e_fuel v) fs file cs /\
    command v fs Parse prog words =
      (said ++ told ++ [OutL (10 :: lit "Source lines: " ++ str_of_Z (zlen cs)); OutL (error_count (n + bad))], Exit 0, fs) /\
    files_said (e_upper v) (e_rep v) (e_card_rep v) (e_fuel v) fs verbose true [file] ds said [n] /\
    files_report (e_fuel v) fs verbose debug [file] told /\
    command v fs CheckSymbols prog1 words1 = (said1 ++ rest1, Exit 0, fs) /\
    files_said (e_upper v) (e_rep v) (e_card_rep v) (e_fuel v) fs verbose1 true [file] ds said1 [n] /\
    command v fs CheckInstructions prog2 words2 = (told2 ++ [OutL (error_count bad)], Exit 0, fs).
Proof. exact (@C169_any_errors_pf). Qed.
Print Assumptions C169_any_errors.

Example C169_any_errors_ex : let run := fun t words => fst (command sample_env clash_files t (lit "x.py") words) in
  last (fst (run Parse [lit "simple.a"])) (ErrL []) = OutL (lit "1 error encountered.") /\ snd (run Parse [lit "simple.a"]) = Exit 0 /\
  nth 4 (fst (run CheckSymbols [lit "simple.a"])) (ErrL []) = ErrL (lit "simple.a: 1 errors encountered building symbol table.") /\
  run CheckInstructions [lit "simple.a"] = ([OutL (lit "0 errors encountered.")], Exit 0).
Proof. vm_compute. auto. Qed.
