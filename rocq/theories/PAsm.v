(** Property theorems; generated from LAsm.v by meta/genp.py. *)
From Verif Require Import Py LPy MCards SCards MSymbols SSymbols MTools STools LTools LToolSym MDiag SDiag LDiag MContext SContext LAsm.

Theorem C95_resolve_refuted : forall upper parseable complete a maxPasses, reach_asm upper parseable complete a ->
  asm_resolve parseable complete a maxPasses = (a, Err AttributeError).
Proof. exact (@C95_resolve_refuted_pf). Qed.
Print Assumptions C95_resolve_refuted.

Example C95_resolve_refuted_ex :
  snd (asm_resolve (fun _ => true) (fun _ => true) (fst (asm_assemble (fun _ => Some []) (asm_new false) (lit "p.a"))) 10) = Err AttributeError.
Proof. reflexivity. Qed.

Theorem C95_bound_partial : forall parseable complete a x recs xs maxPasses o,
  a_context a = Some x -> a_records a = Some recs -> usable recs xs (length (x_records x)) ->
  snd (asm_resolve parseable complete a maxPasses) = Ok o ->
  0 <= passes_made o <= Z.min 3 (Z.max 0 maxPasses).
Proof. exact (@C95_bound_partial_pf). Qed.
Print Assumptions C95_bound_partial.

Example C95_bound_partial_ex :
  snd (asm_resolve (fun _ => true) (fun x => x =? 1) (mkasm false [] (Some (mkactx [Some 1; Some 2] (Some 2) true)) (Some [Some 1; Some 2]) (Some 0) None None None) 10) = Ok (NoProgress 3).
Proof. reflexivity. Qed.

Theorem C95_first_partial : forall parseable complete a x recs xs maxPasses,
  a_context a = Some x -> a_records a = Some recs -> usable recs xs (length (x_records x)) -> 1 <= maxPasses ->
  (snd (asm_resolve parseable complete a maxPasses) = Ok (AllComplete 1) <-> forall r, In r xs -> ~ incomplete parseable complete r).
Proof. exact (@C95_first_partial_pf). Qed.
Print Assumptions C95_first_partial.

Example C95_first_partial_ex :
  snd (asm_resolve (fun x => x <? 3) (fun x => x =? 1) (mkasm false [] (Some (mkactx [Some 1; Some 3] None true)) (Some [Some 1; Some 3]) None None None None) 10) = Ok (AllComplete 1).
Proof. reflexivity. Qed.

Theorem C95_success_refuted : forall parseable complete a x recs xs maxPasses r y,
  a_context a = Some x -> a_records a = Some recs -> usable recs xs (length (x_records x)) -> 2 <= maxPasses ->
  In r xs -> incomplete parseable complete r -> x_current x = Some y -> ~ incomplete parseable complete y ->
  snd (asm_resolve parseable complete a maxPasses) = Ok (AllComplete 2).
Proof. exact (@C95_success_refuted_pf). Qed.
Print Assumptions C95_success_refuted.

Example C95_success_refuted_ex :
  snd (asm_resolve (fun _ => true) (fun x => x =? 1) (mkasm false [] (Some (mkactx [Some 5; Some 2] (Some 1) true)) (Some [Some 5; Some 2]) (Some 0) None None None) 10) = Ok (AllComplete 2).
Proof. reflexivity. Qed.

Theorem C95_stuck_partial : forall parseable complete a x recs xs maxPasses o,
  a_context a = Some x -> a_records a = Some recs -> usable recs xs (length (x_records x)) ->
  snd (asm_resolve parseable complete a maxPasses) = Ok o ->
  (exists k, o = NoProgress k) \/ (exists k, o = GaveUp k /\ 1 <= maxPasses) -> exists r, In r xs /\ incomplete parseable complete r.
Proof. exact (@C95_stuck_partial_pf). Qed.
Print Assumptions C95_stuck_partial.

Example C95_stuck_partial_ex :
  snd (asm_resolve (fun _ => true) (fun x => x =? 1) (mkasm false [] (Some (mkactx [Some 5; Some 2] (Some 2) true)) (Some [Some 5; Some 2]) (Some 0) None None None) 10) = Ok (NoProgress 2).
Proof. reflexivity. Qed.

Theorem C95_effect_partial : forall parseable complete a maxPasses a' r, asm_resolve parseable complete a maxPasses = (a', r) ->
  (a_verbose a' = a_verbose a /\ a_symtab a' = a_symtab a /\ a_context a' = a_context a /\
   a_srcfile a' = a_srcfile a /\ a_linenum a' = a_linenum a) /\
  (forall o, r = Ok o -> 0 <= passes_made o <= Z.max 0 maxPasses /\
     (passes_made o = 0 -> a' = a) /\ (passes_made o <> 0 -> a_passnum a' = Some (passes_made o)) /\
     ((forall n, o <> NoProgress n) -> a_errors a' = a_errors a)).
Proof. exact (@C95_effect_partial_pf). Qed.
Print Assumptions C95_effect_partial.

Example C95_effect_partial_ex :
  a_passnum (fst (asm_resolve (fun _ => true) (fun x => x =? 1) (mkasm false [] (Some (mkactx [Some 5; Some 2] (Some 2) true)) (Some [Some 5; Some 2]) (Some 0) None None None) 10)) = Some 2.
Proof. reflexivity. Qed.

Theorem C95_errors_partial : forall parseable complete a x recs xs maxPasses a' k,
  a_context a = Some x -> a_records a = Some recs -> usable recs xs (length (x_records x)) ->
  asm_resolve parseable complete a maxPasses = (a', Ok (NoProgress k)) ->
  exists e, a_errors a = Some e /\ a_errors a' = Some (e + zlen (filter parseable xs)).
Proof. exact (@C95_errors_partial_pf). Qed.
Print Assumptions C95_errors_partial.

Example C95_errors_partial_ex :
  a_errors (fst (asm_resolve (fun _ => true) (fun x => x =? 1) (mkasm false [] (Some (mkactx [Some 1; Some 2] (Some 2) true)) (Some [Some 1; Some 2]) (Some 7) None None None) 10)) = Some 9.
Proof. reflexivity. Qed.

Theorem C95_unfit_partial : forall parseable complete a x maxPasses, a_context a = Some x -> 1 <= maxPasses ->
  (a_records a = None -> snd (asm_resolve parseable complete a maxPasses) =
     if zlen (x_records x) =? 0 then Ok (AllComplete 1) else Err AttributeError) /\
  (forall xs, a_records a = Some (map Some xs) -> zlen xs < zlen (x_records x) ->
     snd (asm_resolve parseable complete a maxPasses) = Err IndexError) /\
  (forall xs rest, a_records a = Some (map Some xs ++ None :: rest) -> zlen xs < zlen (x_records x) ->
     snd (asm_resolve parseable complete a maxPasses) = Err AttributeError).
Proof. exact (@C95_unfit_partial_pf). Qed.
Print Assumptions C95_unfit_partial.

Example C95_unfit_partial_ex :
  snd (asm_resolve (fun _ => true) (fun x => x =? 1) (mkasm false [] (Some (mkactx [Some 1; Some 2] (Some 2) true)) (Some [Some 1]) (Some 7) None None None) 10) = Err IndexError.
Proof. reflexivity. Qed.

Theorem C106_create : forall upper fuel fs verbose files css, Forall2 (source_cards fuel fs) files css -> plain_names files ->
  exists a, creates upper fuel fs (asm_new verbose) files a /\
    (forall s, In s (dkeys (a_symtab a)) <-> is_defined upper css s) /\
    (forall t s u k e, get4 (a_symtab a) t s u k = Some e <-> defined_as upper files css t s u k e) /\
    a_verbose a = verbose /\ a_errors a = None.
Proof. exact (@C106_create_pf). Qed.
Print Assumptions C106_create.

Example C106_create_ex :
  let fs := fun f => if eqb f (lit "p.a") then Some (lit "        A          DEC          1" ++ [10])
                     else if eqb f (lit "q.a") then Some (lit "        B          DEC          1" ++ [10]) else None in
  let a1 := fst (asm_create_symtab (fun s => s) 2 fs (asm_new true) (lit "p.a")) in
  let a2 := fst (asm_create_symtab (fun s => s) 2 fs a1 (lit "q.a")) in
  dkeys (a_symtab a2) = [lit "A"; lit "B"].
Proof. vm_compute. reflexivity. Qed.

Theorem C113_create_partial : forall upper fuel fs a f a' e,
  asm_create_symtab upper fuel fs a f = (a', Err e) -> ~ (exists cs, source_cards fuel fs f cs) -> a' = a.
Proof. exact (@C113_create_partial_pf). Qed.
Print Assumptions C113_create_partial.

Example C113_create_partial_ex :
  let fs := fun f => if eqb f (lit "p.a") then Some (lit "        A          DEC          1" ++ [10]) else None in
  let a1 := fst (asm_create_symtab (fun s => s) 2 fs (asm_new true) (lit "p.a")) in
  asm_create_symtab (fun s => s) 2 fs a1 (lit "q.a") = (a1, Err SystemExit).
Proof. vm_compute. reflexivity. Qed.

Theorem C107_assemble : forall fs a srcfile, exists a' r, asm_assemble fs a srcfile = (a', r) /\
  (r = Ok tt <-> fs srcfile <> None) /\ (fs srcfile = None -> r = Err OSError) /\
  a_symtab a' = a_symtab a /\ a_errors a' = a_errors a /\ a_records a' = a_records a /\ a_context a' = a_context a /\
  a_srcfile a' = Some srcfile /\ a_linenum a' = Some 0.
Proof. exact (@C107_assemble_pf). Qed.
Print Assumptions C107_assemble.

Example C107_assemble_ex :
  snd (asm_assemble (fun _ => None) (asm_new false) (lit "p.a")) = Err OSError /\ a_srcfile (fst (asm_assemble (fun _ => Some (lit "X")) (asm_new false) (lit "p.a"))) = Some (lit "p.a").
Proof. split; reflexivity. Qed.
