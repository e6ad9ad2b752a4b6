(** Property theorems; generated from LTools.v by meta/genp.py. *)
From Verif Require Import Py LPy LSort MInstructions LInstructions MCards SCards LCards LDeck MSymbols SSymbols LSymBuild LSymQuery MTools STools LTools.

Theorem C87_accounts : forall pct fuel fs o args cs s out,
  all_cards fuel fs args cs -> check_instructions pct fuel fs o args = Ok (s, out) ->
  ci_lines s = zlen cs /\
  count_of instr_card cs (ci_instrs s) /\
  count_of (fun c => ~ starred c /\ exists m, instr_is c m /\ ~ In m INSTRUCTIONS) cs (ci_errs s) /\
  (forall m n, dget (ci_tab s) m = Some n -> count_of (fun c => ~ starred c /\ instr_is c m) cs n) /\
  (forall m, In m INSTRUCTIONS <-> dget (ci_tab s) m <> None) /\
  (exists a, count_of (fun c => starred c /\ instr_card c) cs a /\
    ci_instrs s = a + ci_errs s + sum_counts (ci_tab s)) /\
  exists pre, out = pre ++ [if ci_errs s =? 1 then lit "1 error encountered." else str_of_Z (ci_errs s) ++ lit " errors encountered."].
Proof. exact (@C87_accounts_pf). Qed.
Print Assumptions C87_accounts.

Example C87_accounts_ex : exists s out,
  check_instructions (fun _ _ => []) 2
    (fun f => if eqb f (lit "a") then Some (lit "                   TX,A         B" ++ [10] ++ lit "       *           TX           B" ++ [10] ++
       lit "                   FOO" ++ [10] ++ lit "R      *REMARK" ++ [10]) else None)
    (mkciopts false false true false false false) [lit "a"] = Ok (s, out) /\
  ci_lines s = 4 /\ ci_instrs s = 3 /\ ci_errs s = 1 /\ dget (ci_tab s) (lit "TX") = Some 1 /\
  last out [] = lit "1 error encountered.".
Proof. eexists. eexists. split; [vm_compute; reflexivity|]. vm_compute. auto. Qed.

Theorem C87_invalid_option : forall pct pct' fuel fs o o' args s out s' out',
  check_instructions pct fuel fs o args = Ok (s, out) -> check_instructions pct' fuel fs o' args = Ok (s', out') ->
  ci_errs s = ci_errs s' /\ ci_instrs s = ci_instrs s' /\ ci_lines s = ci_lines s' /\
  forall m, dget (ci_tab s) m = dget (ci_tab s') m.
Proof. exact (@C87_invalid_option_pf). Qed.
Print Assumptions C87_invalid_option.

Example C87_invalid_option_ex :
  let fs := fun f => if eqb f (lit "a") then Some (lit "                   FOO" ++ [10]) else None in
  exists s out s' out',
  check_instructions (fun _ _ => []) 2 fs (mkciopts false false true false false false) [lit "a"] = Ok (s, out) /\
  check_instructions (fun _ _ => []) 2 fs (mkciopts false true false true false false) [lit "a"] = Ok (s', out') /\
  ci_errs s = 1 /\ ci_errs s' = 1.
Proof. do 4 eexists. split; [vm_compute; reflexivity|]. split; [vm_compute; reflexivity|]. split; reflexivity. Qed.

Theorem C87_total : forall pct fuel fs o args cs, args <> [] -> all_cards fuel fs args cs -> o_count o = false ->
  exists s out, check_instructions pct fuel fs o args = Ok (s, out).
Proof. exact (@C87_total_pf). Qed.
Print Assumptions C87_total.

Example C87_total_ex : exists s out,
  check_instructions (fun _ _ => []) 1 (fun f => Some []) (mkciopts true false true true true true) [lit "a"; lit "b"] = Ok (s, out).
Proof. eexists. eexists. vm_compute. reflexivity. Qed.

Theorem C99_count_refuted : forall pct fuel fs o args cs, args <> [] -> all_cards fuel fs args cs ->
  o_count o = true -> o_unused o = false -> (forall c, In c cs -> ~ instr_card c) ->
  check_instructions pct fuel fs o args = Err ZeroDivisionError.
Proof. exact (@C99_count_refuted_pf). Qed.
Print Assumptions C99_count_refuted.

Example C99_count_refuted_ex :
  check_instructions (fun _ _ => []) 1 (fun f => Some (lit "R      *ONLY A REMARK" ++ [10]))
    (mkciopts false true false false false false) [lit "a"] = Err ZeroDivisionError.
Proof. vm_compute. reflexivity. Qed.

Theorem C99_count_partial : forall pct fuel fs o args cs total, all_cards fuel fs args cs ->
  o_count o = true -> count_of instr_card cs total -> total <> 0 ->
  exists s out pre rows unused err,
    check_instructions pct fuel fs o args = Ok (s, out) /\
    out = pre ++ [10 :: lit "Source lines: " ++ str_of_Z (zlen cs); 10 :: lit "Instruction Frequencies:";
                  freq_line (lit "Total") total (lit "100.00")] ++
          map (fun r => freq_line (fst r) (snd r) (pct (snd r) total)) rows ++ unused ++ [err] /\
    NoDup (map fst rows) /\
    (forall m n, In (m, n) rows <-> In m INSTRUCTIONS /\ frequency cs m n /\ (o_unused o = true -> n <> 0)) /\
    (o_sort o = true -> StronglySorted by_frequency rows) /\
    (o_sort o = false -> StronglySorted (fun a b => str_lt (fst a) (fst b)) rows) /\
    (o_unused o = false -> unused = []) /\
    (o_unused o = true -> exists names, unused = (10 :: lit "Unused Instructions:") :: names /\
       StronglySorted str_lt names /\ forall m, In m names <-> In m INSTRUCTIONS /\ frequency cs m 0).
Proof. exact (@C99_count_partial_pf). Qed.
Print Assumptions C99_count_partial.

Example C99_count_partial_ex : exists s out,
  check_instructions (fun a b => lit " 50.00") 2
    (fun f => if eqb f (lit "a") then Some (lit "                   TX,A         B" ++ [10] ++ lit "                   BA           B" ++ [10]) else None)
    (mkciopts false true false false true true) [lit "a"] = Ok (s, out) /\
  firstn 5 out = [10 :: lit "Source lines: 2"; 10 :: lit "Instruction Frequencies:"; lit "Total         2  100.00%";
                  lit "BA            1   50.00%"; lit "TX            1   50.00%"] /\
  nth 5 out [] = 10 :: lit "Unused Instructions:".
Proof. eexists. eexists. split; [vm_compute; reflexivity|]. split; reflexivity. Qed.

Theorem C88_list : forall fuel fs details opcode m files cs,
  mnemonic_of opcode m -> In m INSTRUCTIONS -> all_cards fuel fs files cs ->
  exists out, list_instructions fuel fs details (opcode :: files) = Ok out /\ picked (li_shows opcode details) cs out.
Proof. exact (@C88_list_pf). Qed.
Print Assumptions C88_list.

Example C88_list_ex :
  let fs := fun f => if eqb f (lit "a") then Some (lit "                   TX , A       B" ++ [10] ++ lit "       *           TX           B" ++ [10] ++
       lit "                   TX           C" ++ [10] ++ lit "                   TXX          C" ++ [10]) else None in
  list_instructions 2 fs false [lit "TX"; lit "a"] = Ok [lit "                   TX , A       B"; lit "                   TX           C"] /\
  list_instructions 2 fs false [lit "TX,"; lit "a"] = Ok [lit "                   TX , A       B"].
Proof. vm_compute. auto. Qed.

Theorem C88_unknown : forall fuel fs details opcode m files,
  mnemonic_of opcode m -> ~ In m INSTRUCTIONS -> list_instructions fuel fs details (opcode :: files) = Err SystemExit.
Proof. exact (@C88_unknown_pf). Qed.
Print Assumptions C88_unknown.

Example C88_unknown_ex : list_instructions 1 (fun _ => None) true [lit "FOO,A"; lit "a"] = Err SystemExit.
Proof. vm_compute. reflexivity. Qed.
