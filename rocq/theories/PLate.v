(** Property theorems; generated from LLate.v by meta/genp.py. *)
From Verif Require Import Py LPy MInstruction MInstructions MSymbols MDiag MContext LLate.

Theorem C95_stopped_partial : forall parseable complete a x maxPasses xs rest,
  a_context a = Some x -> 1 <= maxPasses -> zlen xs < zlen (x_records x) ->
  a_records a = Some (map Some xs ++ rest)%list -> (rest = [] \/ exists l, rest = None :: l) ->
  fst (asm_resolve parseable complete a maxPasses) =
  mkasm (a_verbose a) (a_symtab a) (a_context a)
        (Some (map (fun y => if parseable y then x_current x else Some y) xs ++ rest)%list)
        (a_errors a) (Some 1) (a_srcfile a) (a_linenum a).
Proof. exact (@C95_stopped_partial_pf). Qed.
Print Assumptions C95_stopped_partial.

Example C95_stopped_partial_ex :
  a_records (fst (asm_resolve (fun x => x =? 1) (fun x => x =? 1)
    (mkasm false [] (Some (mkactx [Some 1; Some 2; None] (Some 2) true)) (Some [Some 1; Some 3; None; Some 1]) (Some 7) None None None) 10))
  = Some [Some 2; Some 3; None; Some 1].
Proof.
  rewrite (C95_stopped_partial _ _ _ (mkactx [Some 1; Some 2; None] (Some 2) true) 10 [1; 3] [None; Some 1]);
    try reflexivity; try discriminate. right. eexists. reflexivity.
Qed.

Theorem C114_failed : forall extract upper fuel fs,
  (forall complexOnly args e,
     snd (check_symbols_run extract upper fuel fs complexOnly args) = Err e ->
     Forall on_stderr (fst (check_symbols_run extract upper fuel fs complexOnly args))) /\
  (forall begin end_ fuzzy exact args,
     Forall on_stderr (fst (find_symbols_run extract upper fuel fs begin end_ fuzzy exact args))).
Proof. exact (@C114_failed_pf). Qed.
Print Assumptions C114_failed.

Example C114_failed_ex :
  let fs := fun f : str => if eqb f (lit "p.a") then Some [] else None in
  let r := check_symbols_run (fun _ _ _ => []) (fun s => s) 2 fs false [lit "p.a"; lit "q.a"] in
  snd r = Err SystemExit /\ In (built_line (lit "p.a") 0) (fst r) /\ Forall on_stderr (fst r).
Proof.
  split; [reflexivity|]. split; [vm_compute; auto|]. eapply (proj1 (C114_failed _ _ _ _)). reflexivity.
Qed.

Theorem C44_no_opcode : forall m,
  (~ In m (map fst OPCODES) ->
     (forall s k, make_masked_opcode m s k = Err KeyError) /\ (forall p, make_peripheral_opcode m p = Err KeyError) /\
     (forall s a b c, make_unmasked_opcode m s a b c = Err KeyError /\ make_print_opcode m s a b c = Err KeyError)) /\
  (forall o, dget OPCODES m = Some o ->
     (o_b7 o = None \/ o_op o = None ->
        (forall s k, make_masked_opcode m s k = Err TypeError) /\ (forall p, make_peripheral_opcode m p = Err TypeError) /\
        (forall s a b c, make_print_opcode m s a b c = Err TypeError)) /\
     (o_b23 o = None \/ o_op o = None -> forall s a b c, make_unmasked_opcode m s a b c = Err TypeError)).
Proof. exact (@C44_no_opcode_pf). Qed.
Print Assumptions C44_no_opcode.

Example C44_no_opcode_ex :
  make_masked_opcode (lit "XX") 0 1 = Err KeyError /\ make_masked_opcode (lit "S") 0 1 = Err TypeError /\
  make_unmasked_opcode (lit "RF") 0 0 0 0 = Err TypeError.
Proof.
  repeat split; reflexivity.
Qed.
