(** Property theorems; generated from LTranscript.v by meta/genp.py. *)
From Verif Require Import Py LPy MInstruction MCards SCards LCards LDeck MSymbols SSymbols LSymBuild LSymQuery MInstructions MTools STools LTools LToolSym LListTool MDiag SDiag LDiag MDump SDump LDump MVerbose SVerbose LVerbose LQuiet STranscript LTranscript.

Theorem C138_transcript : forall fuel fs v details opcode m files css,
  mnemonic_of opcode m -> In m INSTRUCTIONS -> Forall2 (source_cards fuel fs) files css ->
  exists ls, list_instructions_run fuel fs v details (opcode :: files) = (ls, Ok tt) /\
    files_found fuel fs v details opcode files ls.
Proof. exact (@C138_transcript_pf). Qed.
Print Assumptions C138_transcript.

Example C138_transcript_ex :
  let fs := fun f => if eqb f (lit "a") then Some (lit "                   TX,A         B" ++ [10] ++ lit "       *           IX           B" ++ [10] ++
       lit "                   IX" ++ [10]) else Some (lit "R      REMARK") in
  list_instructions_run 2 fs true false [lit "TX"; lit "a"; lit "b"] =
    ([OutL (lit "Reading a..."); OutL (lit "                   TX,A         B"); OutL (lit "Skipping card with * in column 8:");
      OutL (lit "a                                                     2        *           IX           B"); OutL (lit "Reading b...")], Ok tt).
Proof. vm_compute. reflexivity. Qed.

Theorem C138_missing : forall fuel fs v details opcode m pre css f post,
  mnemonic_of opcode m -> In m INSTRUCTIONS -> Forall2 (source_cards fuel fs) pre css -> load fuel fs f = Err SystemExit ->
  exists ls log t, list_instructions_run fuel fs v details (opcode :: pre ++ f :: post) =
      (ls ++ (if v then log else []) ++ [ErrL t], Err SystemExit) /\
    files_found fuel fs v details opcode pre ls /\ stops_at fs f log t.
Proof. exact (@C138_missing_pf). Qed.
Print Assumptions C138_missing.

Example C138_missing_ex :
  let fs := fun f => if eqb f (lit "a") then Some (lit "                   TX,A         B" ++ [10]) else None in
  list_instructions_run 2 fs true true [lit "TX"; lit "a"; lit "b"; lit "a"] =
    ([OutL (lit "Reading a..."); OutL (lit "a                                                     1                    TX,A         B");
      ErrL (lit "ERROR: File ""b"" does not exist!")], Err SystemExit).
Proof. vm_compute. reflexivity. Qed.

Theorem C138_unknown : forall fuel fs v details opcode m files, mnemonic_of opcode m -> ~ In m INSTRUCTIONS ->
  list_instructions_run fuel fs v details (opcode :: files) = ([], Err SystemExit).
Proof. exact (@C138_unknown_pf). Qed.
Print Assumptions C138_unknown.

Example C138_unknown_ex : list_instructions_run 2 (fun _ => None) true true [lit "FOO,A"; lit "a"] = ([], Err SystemExit).
Proof. reflexivity. Qed.

Theorem C138_determined : forall fuel fs v details opcode files ls ls', opcode <> [] ->
  files_found fuel fs v details opcode files ls -> files_found fuel fs v details opcode files ls' -> ls = ls'.
Proof. exact (@C138_determined_pf). Qed.
Print Assumptions C138_determined.

Example C138_determined_ex :
  let fs := fun f => if eqb f (lit "a") then Some (lit "                   TX,A         B" ++ [10]) else None in
  exists ls, files_found 2 fs false false (lit "TX") [lit "a"] ls /\ ls = [OutL (lit "                   TX,A         B")].
Proof.
  cbv zeta. match goal with |- exists ls, files_found _ ?g _ _ _ _ _ /\ _ => set (fs := g) end.
  assert (F : exists cs, source_cards 2 fs (lit "a") cs) by (eexists; eexists; eexists; eexists; split; [vm_compute; reflexivity|reflexivity]).
  destruct F as (cs & SC). destruct (C138_transcript 2 fs false false (lit "TX") (lit "TX") [lit "a"] [cs]) as (ls & E & R).
  - left. split; [|reflexivity]. intros [X|[X|[]]]; discriminate.
  - unfold INSTRUCTIONS. repeat (first [left; reflexivity|right]).
  - constructor; [exact SC|constructor].
  - exists ls. split; [exact R|]. vm_compute in E |- *. congruence.
Qed.

Theorem C139_transcript : forall fuel fs v files ls fs', listing_run fuel fs v files = ((ls, Ok tt), fs') ->
  files <> [] /\ listings fuel v fs files ls fs'.
Proof. exact (@C139_transcript_pf). Qed.
Print Assumptions C139_transcript.

Example C139_transcript_ex :
  let fs := fun f => if eqb f (lit "a.arg") then Some (lit "$a.lst" ++ [10]) else if eqb f (lit "a.lst") then Some (lit "R 1") else None in
  fst (listing_run 2 fs true [lit "a.arg"; lit "a.lst"]) =
    ([OutL (lit "Reading a.arg..."); OutL (lit "Reading a.lst..."); OutL (lit "Wrote listing file to a.lst");
      OutL (lit "Reading a.lst..."); OutL (lit "Wrote listing file to a.lst")], Ok tt) /\
  snd (listing_run 2 fs true [lit "a.arg"; lit "a.lst"]) (lit "a.lst") =
    Some (pad_right 32 64 (lit "a.lst") ++ lit " 1      " ++ pad_right 32 64 (lit "a.lst") ++ lit " 1      R 1" ++ [10]).
Proof. vm_compute. auto. Qed.

Theorem C139_missing : forall fuel fs v files ls fs', listing_run fuel fs v files = ((ls, Err SystemExit), fs') ->
  (files = [] /\ ls = []) \/
  exists pre f post l1 log m, files = pre ++ f :: post /\ listings fuel v fs pre l1 fs' /\ stops_at fs' f log m /\
    ls = l1 ++ (if v then log else []) ++ [ErrL m].
Proof. exact (@C139_missing_pf). Qed.
Print Assumptions C139_missing.

Example C139_missing_ex :
  let fs := fun f => if eqb f (lit "a.arg") then Some (lit "R 1") else None in
  fst (listing_run 2 fs true [lit "a.arg"; lit "b.arg"; lit "a.arg"]) =
    ([OutL (lit "Reading a.arg..."); OutL (lit "Wrote listing file to a.lst"); ErrL (lit "ERROR: File ""b.arg"" does not exist!")], Err SystemExit) /\
  fst (listing_run 2 fs false [lit "b.arg"]) = ([ErrL (lit "ERROR: File ""b.arg"" does not exist!")], Err SystemExit) /\
  snd (listing_run 2 fs true [lit "a.arg"; lit "b.arg"]) (lit "a.lst") <> None.
Proof. vm_compute. split; [reflexivity|]. split; [reflexivity|discriminate]. Qed.

Theorem C139_runs : forall fuel v fs files ls fs', listings fuel v fs files ls fs' -> files <> [] ->
  exists fs2, listing_run fuel fs v files = ((ls, Ok tt), fs2) /\ forall g, fs2 g = fs' g.
Proof. exact (@C139_runs_pf). Qed.
Print Assumptions C139_runs.

Example C139_runs_ex :
  let fs := fun f => if eqb f (lit "a.arg") then Some (lit "R 1") else None in
  exists ls fs', listings 2 true fs [lit "a.arg"] ls fs' /\ ls = [OutL (lit "Reading a.arg..."); OutL (lit "Wrote listing file to a.lst")].
Proof.
  cbv zeta. match goal with |- exists ls fs', listings _ _ ?g _ _ _ /\ _ => set (fs := g) end.
  destruct (listing_run 2 fs true [lit "a.arg"]) as [[ls r] fs'] eqn:E.
  assert (X : fst (listing_run 2 fs true [lit "a.arg"]) = (ls, r)) by (rewrite E; reflexivity). vm_compute in X.
  assert (r = Ok tt) by congruence. subst r. exists ls, fs'. split; [exact (proj2 (C139_transcript _ _ _ _ _ _ E))|].
  vm_compute. congruence.
Qed.

Theorem C140_check : forall extract upper rep card_rep fuel fs v complexOnly files css, files <> [] ->
  Forall2 (source_cards fuel fs) files css -> plain_names files ->
  exists tables mss syms choices part total,
    check_symbols_verbose extract upper rep card_rep fuel fs v complexOnly files =
      (tables ++
       map (fun s => ErrL (lit "ERROR: symbol """ ++ s ++ lit """ has a complex assignment, but no simple assignment!")) syms ++
       part ++ total, Ok tt) /\
    tables_said upper rep card_rep fuel fs v true files mss tables /\
    StronglySorted str_lt syms /\
    (forall s, In s syms <-> complexOnly = true /\
      (exists seg ss e, defined_as upper files css s seg ss (lit "complex") e) /\
      ~ (exists seg ss e, defined_as upper files css s seg ss (lit "simple") e)) /\
    undefined_part (fun s => map fst (extract s choices 10)) syms part /\
    chosen_among upper files css choices /\
    total_part files (zlen (concat mss) + zlen syms) total.
Proof. exact (@C140_check_pf). Qed.
Print Assumptions C140_check.

Example C140_check_ex :
  let fs := fun f => if eqb f (lit "p.a") then Some (lit "# x" ++ [10] ++ lit "        A          ASSIGN       1" ++ [10] ++ lit "        A,B,C,D    DEC          1")
                     else if eqb f (lit "q.a") then Some (lit "        B          DEC          1") else None in
  check_symbols_verbose (fun _ cs _ => map (fun c => (c, 1)) cs) (fun s => s) quoted a_card 2 fs true true [lit "p.a"; lit "q.a"] =
    ([OutL (lit "Reading p.a..."); OutL (lit "Skipping meta-comment, file p.a, line 1");
      ErrL (lit "*** ERROR: Symbol A,B,C,D is illegal, too many commas!");
      ErrL (lit "Current definition: {'file': 'p.a', 'line': 3, 'lognum': None, 'tagtype': ' ', 'card': <card>}");
      ErrL (lit "p.a: 1 errors encountered building symbol table.");
      OutL (lit "Reading q.a..."); ErrL (lit "q.a: 0 errors encountered building symbol table.");
      ErrL (lit "ERROR: symbol ""A"" has a complex assignment, but no simple assignment!"); ErrL []; ErrL (lit "Undefined symbols:");
      OutL (lit "  A - Possible matches: B"); ErrL (lit "1 errors checking symbol table."); ErrL (lit "Total: 2 errors encountered.")], Ok tt).
Proof. vm_compute. reflexivity. Qed.

Theorem C140_find : forall extract upper rep card_rep fuel fs v exact symbol files css, files <> [] ->
  Forall2 (source_cards fuel fs) files css -> plain_names files ->
  exists tables mss ls r, find_symbols_verbose extract upper rep card_rep fuel fs v false false false exact (symbol :: files) = (tables ++ ls, Ok r) /\
    tables_said upper rep card_rep fuel fs v true files mss tables /\
    ((is_defined upper css symbol /\ exists sg t, ls = [OutL t] /\ r = Some (FDefs sg) /\ sg <> []) \/
     (~ is_defined upper css symbol /\ r = None /\ ls = [ErrL (lit "ERROR: Undefined symbol """ ++ symbol ++ lit """!")])).
Proof. exact (@C140_find_pf). Qed.
Print Assumptions C140_find.

Example C140_find_ex :
  let fs := fun f => if eqb f (lit "p.a") then Some (lit "        B          DEC          1") else None in
  find_symbols_verbose (fun _ _ _ => []) (fun s => s) quoted a_card 2 fs true false false false true [lit "A"; lit "p.a"] =
    ([OutL (lit "Reading p.a..."); ErrL (lit "p.a: 0 errors encountered building symbol table."); ErrL (lit "ERROR: Undefined symbol ""A""!")], Ok None).
Proof. vm_compute. reflexivity. Qed.

Theorem C140_list : forall upper rep card_rep fuel fs v files css, files <> [] ->
  Forall2 (source_cards fuel fs) files css -> plain_names files ->
  exists tables mss out es,
    list_symbols_run upper rep card_rep fuel fs v files =
      (tables ++ map OutL out ++
       (if zlen (concat mss) =? 0 then [] else [ErrL (str_of_Z (zlen (concat mss)) ++ lit " errors found")]), Ok tt) /\
    tables_said upper rep card_rep fuel fs v false files mss tables /\
    rendered (None, None, None) es out /\
    StronglySorted (fun x y => key_lt (fst x) (fst y)) es /\
    forall t s u k e, In ((t, s, u, k), e) es <-> defined_as upper files css t s u k e.
Proof. exact (@C140_list_pf). Qed.
Print Assumptions C140_list.

Example C140_list_ex :
  let fs := fun f => if eqb f (lit "p.a") then Some (lit "        B          DEC          1" ++ [10] ++ lit "        A,B,C,D    DEC          1") else None in
  list_symbols_run (fun s => s) quoted a_card 2 fs true [lit "p.a"] =
    ([OutL (lit "Reading p.a..."); ErrL (lit "*** ERROR: Symbol A,B,C,D is illegal, too many commas!");
      ErrL (lit "Current definition: {'file': 'p.a', 'line': 2, 'lognum': None, 'tagtype': ' ', 'card': <card>}");
      OutL (lit "B"); OutL (lit "  Segment: p"); OutL (lit "    Subsegment: 1");
      OutL (lit "        <simple>    p:1                                                 B          DEC          1");
      ErrL (lit "1 errors found")], Ok tt).
Proof. vm_compute. reflexivity. Qed.

Theorem C140_missing : forall extract upper rep card_rep fuel fs v pre css f post,
  Forall2 (source_cards fuel fs) pre css -> plain_names pre -> load fuel fs f = Err SystemExit ->
  exists log m, stops_at fs f log m /\
    (forall complexOnly, exists ls mss, tables_said upper rep card_rep fuel fs v true pre mss ls /\
       check_symbols_verbose extract upper rep card_rep fuel fs v complexOnly (pre ++ f :: post) = (ls ++ (if v then log else []) ++ [ErrL m], Err SystemExit)) /\
    (forall begin end_ fuzzy exact symbol, zlen (filter (fun b : bool => b) [begin; end_; fuzzy; exact]) <= 1 ->
       exists ls mss, tables_said upper rep card_rep fuel fs v true pre mss ls /\
       find_symbols_verbose extract upper rep card_rep fuel fs v begin end_ fuzzy exact (symbol :: pre ++ f :: post) =
         (ls ++ (if v then log else []) ++ [ErrL m], Err SystemExit)) /\
    (exists ls mss, tables_said upper rep card_rep fuel fs v false pre mss ls /\
       list_symbols_run upper rep card_rep fuel fs v (pre ++ f :: post) = (ls ++ (if v then log else []) ++ [ErrL m], Err SystemExit)).
Proof. exact (@C140_missing_pf). Qed.
Print Assumptions C140_missing.

Example C140_missing_ex :
  let fs := fun f => if eqb f (lit "p.a") then Some (lit "$x" ++ [10]) else None in
  list_symbols_run (fun s => s) quoted a_card 2 fs true [lit "p.a"; lit "q.a"] =
    ([OutL (lit "Reading p.a..."); ErrL (lit "File ""x"" does not exist")], Err SystemExit) /\
  check_symbols_verbose (fun _ _ _ => []) (fun s => s) quoted a_card 2 fs false true [lit "q.a"] = ([ErrL (lit "ERROR: File ""q.a"" does not exist!")], Err SystemExit).
Proof. vm_compute. auto. Qed.
