(** Property theorems; generated from LOrder.v by meta/genp.py. *)
From Verif Require Import Py LPy MInstruction MCards SCards LCards LDeck MSymbols SSymbols MInstructions MTools STools LTools MDiag MDump MVerbose SVerbose LVerbose SOrder LOrder.

Theorem C146_order : forall pct fuel fs v o files files' css, files <> [] -> Permutation files files' -> Forall2 (source_cards fuel fs) files css ->
  exists ls ls' report r, check_instructions_run pct fuel fs v o files = (ls ++ report, r) /\ files_report fuel fs v (o_print o) files ls /\
    check_instructions_run pct fuel fs v o files' = (ls' ++ report, r) /\ files_report fuel fs v (o_print o) files' ls'.
Proof. exact (@C146_order_pf). Qed.
Print Assumptions C146_order.

Example C146_order_ex : let fs := fun f => if eqb f (lit "a") then Some (lit "                   WA") else if eqb f (lit "b") then Some (lit "                   FOO") else None in
  let run := check_instructions_run (fun _ _ => lit " 50.00") 2 fs true (mkciopts false true false false true true) in
  let '(ls, r) := run [lit "a"; lit "b"; lit "a"] in let '(ls', r') := run [lit "b"; lit "a"; lit "a"] in
  skipn 5 ls = skipn 5 ls' /\ r = r' /\ nth 8 ls (OutL []) = OutL (lit "WA            2   50.00%") /\
  nth 1 ls (OutL []) = OutL (lit "Reading b...") /\ nth 0 ls' (OutL []) = OutL (lit "Reading b...").
Proof. vm_compute. repeat split; reflexivity. Qed.
