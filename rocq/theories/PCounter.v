(** Property theorems; generated from LCounter.v by meta/genp.py. *)
From Verif Require Import Py LPy MInstruction MCards SCards LCards LDeck MSymbols SSymbols LSymBuild LSymQuery MRegisters SRegisters MInstructions MTools STools LTools LToolSym MDiag SDiag LDiag MDump SDump MVerbose SVerbose LVerbose SOrder LOrder STranscript LTranscript MOptions SOptions LOptions MProcess SProcess LProcess SEnds LEnds SSource LSource SFound STextSym LTextSym SIdle LIdle SReport LReport SUnread LUnread SSwap SLabel LGen LLabel LPlaces LSwap SAgree LAgree SKey LKey LJoin SManual STags LTags SCounter LCounter.

Theorem C184_check_refuted : forall fs prog words on files outs,
  understood (options CheckInstructions) words on files ->
  (forall x, In x ["verbose"; "count"; "print-opcodes"; "unused"]%string -> ~ In (lit x) on) ->
  files <> [] -> ~ In [] files -> Forall2 (source fs) files outs ->
  exists k, forall v, (k <= e_fuel v)%nat -> exists faults,
    command v fs CheckInstructions prog words = (concat faults ++ [OutL (error_count (zlen faults))], Exit 0, fs) /\
    forall x m, In x (concat outs) -> ~ starred_line (text_of x) -> ~ remark_line (text_of x) ->
      In m INSTRUCTIONS -> command_group (text_of x) m -> counter_named (text_of x) -> exists ls, In ls faults /\ mnemonic_fault x ls.
Proof. exact (@C184_check_refuted_pf). Qed.
Print Assumptions C184_check_refuted.

Example C184_check_refuted_ex : let fs := fun f => if eqb f (lit "p.arg") then
      Some (lit "                   TX          SX             Y" ++ [10] ++ lit "                   TX           X             Y") else None in
  printed (fst (fst (command sample_env fs CheckInstructions (lit "x.py") [lit "p.arg"]))) =
    [lit "*** ERROR: Invalid instruction ""TX          S"":"; lit "File p.arg, line 1:                    TX          SX             Y"; lit "1 error encountered."] /\
  command_group (lit "                   TX          SX             Y") (lit "TX") /\ counter_named (lit "                   TX          SX             Y") /\ In (lit "TX") INSTRUCTIONS.
Proof. split; [vm_compute; reflexivity|]. split; [exists 10%nat; split; reflexivity|]. split; [left; reflexivity|]. apply inb_In. vm_compute. reflexivity. Qed.

Theorem C184_list_refuted : forall fs prog words on details m files outs,
  understood (options ListInstructions) words on (m :: files) -> ~ In (lit "verbose") on -> turned_on on "details" details ->
  In m INSTRUCTIONS -> ~ In [] files -> Forall2 (source fs) files outs ->
  exists k, forall v, (k <= e_fuel v)%nat -> exists ys,
    command v fs ListInstructions prog words = (map OutL ys, Exit 0, fs) /\ picked (line_found m details) (concat outs) ys /\
    forall x, In x (concat outs) -> ~ remark_line (text_of x) -> command_group (text_of x) m -> counter_named (text_of x) -> forall y, ~ line_found m details x y.
Proof. exact (@C184_list_refuted_pf). Qed.
Print Assumptions C184_list_refuted.

Example C184_list_refuted_ex : let fs := fun f => if eqb f (lit "p.arg") then
      Some (lit "                   TX          SX             Y" ++ [10] ++ lit "                   TX           Z") else None in
  printed (fst (fst (command sample_env fs ListInstructions (lit "x.py") [lit "TX"; lit "p.arg"]))) = [lit "                   TX           Z"].
Proof. vm_compute. reflexivity. Qed.

Theorem C184_check_partial : forall fs fs' prog words prog' words' on on' files files' outs outs',
  understood (options CheckInstructions) words on files -> understood (options CheckInstructions) words' on' files' ->
  (forall x, In x ["verbose"; "count"; "print-opcodes"; "unused"]%string -> ~ In (lit x) on /\ ~ In (lit x) on') ->
  files <> [] -> ~ In [] files -> files' <> [] -> ~ In [] files' -> Forall2 (source fs) files outs -> Forall2 (source fs') files' outs' ->
  Forall2 same_instruction (concat outs) (concat outs') ->
  exists k, forall v, (k <= e_fuel v)%nat -> exists faults faults',
    command v fs CheckInstructions prog words = (concat faults ++ [OutL (error_count (zlen faults))], Exit 0, fs) /\
    command v fs' CheckInstructions prog' words' = (concat faults' ++ [OutL (error_count (zlen faults'))], Exit 0, fs') /\
    zlen faults = zlen faults' /\
    Forall2 (fun ls ls' => exists x x' m, same_instruction x x' /\ has_mnemonic x m /\ has_mnemonic x' m /\ mnemonic_fault x ls /\ mnemonic_fault x' ls') faults faults'.
Proof. exact (@C184_check_partial_pf). Qed.
Print Assumptions C184_check_partial.

Example C184_check_partial_ex : let x := lit "                   DX,M1       SA             B" in let y := lit "                   DX,M1       CA             B" in
  let fs := fun l : str => fun f => if eqb f (lit "p.arg") then Some l else None in
  same_instruction (lit "p.arg", 1, x) (lit "p.arg", 1, y) /\
  printed (fst (fst (command sample_env (fs x) CheckInstructions (lit "x.py") [lit "p.arg"]))) =
    [lit "*** ERROR: Invalid instruction ""DX"":"; lit "File p.arg, line 1: " ++ x; lit "1 error encountered."] /\
  printed (fst (fst (command sample_env (fs y) CheckInstructions (lit "x.py") [lit "p.arg"]))) =
    [lit "*** ERROR: Invalid instruction ""DX"":"; lit "File p.arg, line 1: " ++ y; lit "1 error encountered."].
Proof.
  cbv zeta. split; [|split; vm_compute; reflexivity]. right. split.
  - split; [reflexivity|]. exists (lit "                   DX,M1       "), 83, 67, (lit "A             B"). repeat split; [left; reflexivity|right; left; reflexivity].
  - do 2 right. left. reflexivity.
Qed.

Theorem C184_list_partial : forall fs fs' prog words prog' words' on on' details m files files' outs outs',
  understood (options ListInstructions) words on (m :: files) -> understood (options ListInstructions) words' on' (m :: files') ->
  ~ In (lit "verbose") on -> ~ In (lit "verbose") on' -> turned_on on "details" details -> turned_on on' "details" details ->
  In m INSTRUCTIONS -> ~ In [] files -> ~ In [] files' -> Forall2 (source fs) files outs -> Forall2 (source fs') files' outs' ->
  Forall2 same_instruction (concat outs) (concat outs') ->
  exists k, forall v, (k <= e_fuel v)%nat -> exists ys ys',
    command v fs ListInstructions prog words = (map OutL ys, Exit 0, fs) /\
    command v fs' ListInstructions prog' words' = (map OutL ys', Exit 0, fs') /\
    picked (line_found m details) (concat outs) ys /\ picked (line_found m details) (concat outs') ys' /\
    Forall2 (fun y y' => exists x x', In x (concat outs) /\ In x' (concat outs') /\ same_instruction x x' /\ line_found m details x y /\ line_found m details x' y') ys ys'.
Proof. exact (@C184_list_partial_pf). Qed.
Print Assumptions C184_list_partial.

Example C184_list_partial_ex : let x := lit "                   DA,M1       SA             B" in let y := lit "                   DA,M1       CA             B" in
  let fs := fun l : str => fun f => if eqb f (lit "p.arg") then Some l else None in
  printed (fst (fst (command sample_env (fs x) ListInstructions (lit "x.py") [lit "DA"; lit "p.arg"]))) = [x] /\
  printed (fst (fst (command sample_env (fs y) ListInstructions (lit "x.py") [lit "DA"; lit "p.arg"]))) = [y].
Proof. split; vm_compute; reflexivity. Qed.
