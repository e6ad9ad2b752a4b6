(** Property theorems; generated from LPlaces.v by meta/genp.py. *)
From Verif Require Import Py LPy MInstruction MCards SCards LCards LDeck MSymbols SSymbols LSymBuild LSymQuery MInstructions MTools STools LTools LToolSym LListTool MDiag SDiag LDiag LQuiet MDump SDump MVerbose SVerbose LVerbose STranscript LTranscript MOptions SOptions LOptions MProcess SProcess LProcess SEnds LEnds SSource LSource STextSym LTextSym SIdle LIdle LPlaces.

Theorem C157_found : forall fs fs' prog prog' words words' on on' opcode m files files' outs outs',
  understood (options ListInstructions) words on (opcode :: files) -> understood (options ListInstructions) words' on' (opcode :: files') ->
  (forall x, In x ["verbose"; "details"]%string -> ~ In (lit x) on /\ ~ In (lit x) on') ->
  mnemonic_of opcode m -> In m INSTRUCTIONS -> ~ In [] files -> ~ In [] files' ->
  Forall2 (source fs) files outs -> Forall2 (source fs') files' outs' -> map shown_text (concat outs) = map shown_text (concat outs') ->
  exists k, forall v, (k <= e_fuel v)%nat ->
    fst (command v fs ListInstructions prog words) = fst (command v fs' ListInstructions prog' words').
Proof. exact (@C157_found_pf). Qed.
Print Assumptions C157_found.

Example C157_found_ex : let v := mkenv (fun _ _ => lit " 50.00") (fun _ _ _ => []) (map (fun c => if (97 <=? c) && (c <=? 122) then c - 32 else c)) (fun s => s) (fun _ => lit "?") 3 (fun _ => []) in
  fst (command v apart ListInstructions (lit "x.py") [lit "DA"; lit "a.arg"]) =
    ([OutL (lit "        B          DA"); OutL (lit "        A          DA,B         1")], Exit 0) /\
  fst (command v together ListInstructions (lit "x.py") [lit "DA"; lit "b.arg"]) =
    ([OutL (lit "        B          DA"); OutL (lit "        A          DA,B         1")], Exit 0).
Proof. vm_compute. auto. Qed.

Theorem C157_errors : forall fs fs' prog prog' words words' on on' files files' outs outs',
  understood (options CheckInstructions) words on files -> understood (options CheckInstructions) words' on' files' ->
  (forall x, In x ["verbose"; "count"; "print-opcodes"; "unused"]%string -> ~ In (lit x) on /\ ~ In (lit x) on') ->
  files <> [] -> files' <> [] -> ~ In [] files -> ~ In [] files' ->
  Forall2 (source fs) files outs -> Forall2 (source fs') files' outs' -> map shown_text (concat outs) = map shown_text (concat outs') ->
  exists k, forall v, (k <= e_fuel v)%nat -> exists faults faults' n,
    command v fs CheckInstructions prog words = (concat faults ++ [OutL (error_count n)], Exit 0, fs) /\
    command v fs' CheckInstructions prog' words' = (concat faults' ++ [OutL (error_count n)], Exit 0, fs') /\
    picked mnemonic_fault (concat outs) faults /\ picked mnemonic_fault (concat outs') faults' /\ zlen faults = n /\ zlen faults' = n.
Proof. exact (@C157_errors_pf). Qed.
Print Assumptions C157_errors.

Example C157_errors_ex : let v := mkenv (fun _ _ => lit " 50.00") (fun _ _ _ => []) (map (fun c => if (97 <=? c) && (c <=? 122) then c - 32 else c)) (fun s => s) (fun _ => lit "?") 3 (fun _ => []) in
  fst (command v apart CheckInstructions (lit "x.py") [lit "a.arg"]) =
    ([OutL (lit "*** ERROR: Invalid instruction ""FOO"":"); OutL (lit "File inc, line 2:                    FOO"); OutL (lit "1 error encountered.")], Exit 0) /\
  fst (command v together CheckInstructions (lit "x.py") [lit "b.arg"]) =
    ([OutL (lit "*** ERROR: Invalid instruction ""FOO"":"); OutL (lit "File b.arg, line 3:                    FOO"); OutL (lit "1 error encountered.")], Exit 0).
Proof. vm_compute. auto. Qed.

Theorem C157_count : forall fs fs' prog prog' words words' on on' files files' outs outs' total,
  understood (options CheckInstructions) words on files -> understood (options CheckInstructions) words' on' files' ->
  In (lit "count") on -> In (lit "count") on' -> (In (lit "sort") on <-> In (lit "sort") on') ->
  (forall x, In x ["verbose"; "print-opcodes"; "unused"]%string -> ~ In (lit x) on /\ ~ In (lit x) on') ->
  files <> [] -> files' <> [] -> ~ In [] files -> ~ In [] files' ->
  Forall2 (source fs) files outs -> Forall2 (source fs') files' outs' -> map shown_text (concat outs) = map shown_text (concat outs') ->
  count_of (fun x => exists m, mnemonic_at (text_of x) m) (concat outs) total -> total <> 0 ->
  exists k, forall v, (k <= e_fuel v)%nat -> exists faults faults' report,
    command v fs CheckInstructions prog words = (concat faults ++ report, Exit 0, fs) /\
    command v fs' CheckInstructions prog' words' = (concat faults' ++ report, Exit 0, fs') /\
    picked mnemonic_fault (concat outs) faults /\ picked mnemonic_fault (concat outs') faults' /\ zlen faults = zlen faults'.
Proof. exact (@C157_count_pf). Qed.
Print Assumptions C157_count.

Example C157_count_ex : let v := mkenv (fun _ _ => lit " 50.00") (fun _ _ _ => []) (map (fun c => if (97 <=? c) && (c <=? 122) then c - 32 else c)) (fun s => s) (fun _ => lit "?") 3 (fun _ => []) in
  (exists outs outs', Forall2 (source apart) [lit "a.arg"] outs /\ Forall2 (source together) [lit "b.arg"] outs' /\ map shown_text (concat outs) = map shown_text (concat outs')) /\
  skipn 2 (fst (fst (command v apart CheckInstructions (lit "x.py") [lit "-cs"; lit "a.arg"]))) =
  skipn 2 (fst (fst (command v together CheckInstructions (lit "x.py") [lit "-cs"; lit "b.arg"]))) /\
  firstn 4 (skipn 2 (fst (fst (command v together CheckInstructions (lit "x.py") [lit "-cs"; lit "b.arg"])))) =
    [OutL (10 :: lit "Source lines: 3"); OutL (10 :: lit "Instruction Frequencies:"); OutL (lit "Total         3  100.00%"); OutL (lit "DA            2   50.00%")].
Proof.
  split; [|vm_compute; auto].
  exists [[(lit "inc", 1, lit "        B          DA" ++ [10]); (lit "inc", 2, lit "                   FOO"); (lit "a.arg", 2, lit "        A          DA,B         1" ++ [10])]],
         [[(lit "b.arg", 2, lit "        B          DA" ++ [10]); (lit "b.arg", 3, lit "                   FOO" ++ [10]); (lit "b.arg", 4, lit "        A          DA,B         1")]].
  split; [constructor; [|constructor]|split; [constructor; [|constructor]|vm_compute; reflexivity]].
  - eapply (so_file _ _ _ [lit "$ inc" ++ [10]; lit "        A          DA,B         1" ++ [10]]); [reflexivity|apply C144_lines_pf; vm_compute; reflexivity|].
    eapply (sl_include _ _ _ (lit " inc" ++ [10]) (lit "inc") _ [_; _] [_]).
    + apply first_word_ok. exists []. vm_compute. reflexivity.
    + eapply (so_file _ _ _ [lit "        B          DA" ++ [10]; lit "                   FOO"]); [reflexivity|apply C144_lines_pf; vm_compute; reflexivity|].
      repeat (apply sl_line; [intros c r X; injection X as <- _; split; discriminate|]). constructor.
    + repeat (apply sl_line; [intros c r X; injection X as <- _; split; discriminate|]). constructor.
  - eapply (so_file _ _ _ [lit "# one file" ++ [10]; lit "        B          DA" ++ [10]; lit "                   FOO" ++ [10]; lit "        A          DA,B         1"]); [reflexivity|apply C144_lines_pf; vm_compute; reflexivity|].
    apply sl_comment. repeat (apply sl_line; [intros c r X; injection X as <- _; split; discriminate|]). constructor.
Qed.
