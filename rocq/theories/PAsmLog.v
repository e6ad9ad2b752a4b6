(** Property theorems; generated from LAsmLog.v by meta/genp.py. *)
From Verif Require Import Py LPy MInstruction MCards SCards LCards LDeck MSymbols SSymbols LSymBuild MInstructions MTools STools LTools LToolSym MDiag SDiag LDiag MDump SDump LDump MVerbose SVerbose LVerbose STranscript LTranscript MOptions SOptions MProcess SProcess LProcess SEnds LEnds SSource LSource STextSym LTextSym SReport LReport SUnread LUnread MContext SContext LAsm MAsmLog SAsmLog LAsmLog.

Theorem C164_resolve : forall parseable complete srcline secs1 secs2 a x recs xs maxPasses,
  a_context a = Some x -> a_records a = Some recs -> usable recs xs (length (x_records x)) ->
  exists said a' r, asm_resolve_run parseable complete srcline secs1 secs2 a maxPasses =
      ([LDebug (lit "Symbol resolution: " ++ secs1 ++ lit " seconds");
        LDebug (lit "Updating " ++ str_of_Z (zlen xs) ++ lit " parser records...")] ++ said ++
       match r with Ok _ => if a_verbose a then [Printed (OutL (lit "Pass 2: " ++ secs2 ++ lit " seconds"))] else [] | Err _ => [] end, (a', r)) /\
    asm_resolve parseable complete a maxPasses = (a', r) /\
    resolve_told parseable complete srcline (x_current x) (a_errors a) (x_error x) maxPasses xs said r.
Proof. exact (@C164_resolve_pf). Qed.
Print Assumptions C164_resolve.

Example C164_resolve_ex :
  asm_resolve_run (fun r => r <? 9) (fun r => r =? 1) (fun r => lit "L" ++ str_of_Z r) (lit "0.00") (lit "0.01")
    (mkasm true [] (Some (mkactx [Some 1; Some 2; Some 9] (Some 3) true)) (Some [Some 1; Some 2; Some 9]) (Some 0) None None None) 10 =
  ([LDebug (lit "Symbol resolution: 0.00 seconds"); LDebug (lit "Updating 3 parser records...");
    LDebug (lit "resolve: L1"); LDebug (lit "resolve: L2"); LInfo (lit "1 incomplete parser records");
    LDebug (lit "resolve: L3"); LDebug (lit "resolve: L3"); LInfo (lit "2 incomplete parser records");
    LDebug (lit "resolve: L3"); LDebug (lit "resolve: L3"); LInfo (lit "2 incomplete parser records");
    RecordError 3 (lit "undefined symbol"); RecordError 3 (lit "undefined symbol");
    ContextError (lit "no progress resolving parser records, 2 undefined records"); Printed (OutL (lit "Pass 2: 0.01 seconds"))],
   (mkasm true [] (Some (mkactx [Some 1; Some 2; Some 9] (Some 3) true)) (Some [Some 3; Some 3; Some 9]) (Some 2) (Some 3) None None, Ok (NoProgress 3))).
Proof. vm_compute. reflexivity. Qed.

Theorem C164_alone : forall upper parseable complete srcline secs1 secs2 a maxPasses, reach_asm upper parseable complete a ->
  asm_resolve_run parseable complete srcline secs1 secs2 a maxPasses =
    ([LDebug (lit "Symbol resolution: " ++ secs1 ++ lit " seconds")], (a, Err AttributeError)).
Proof. exact (@C164_alone_pf). Qed.
Print Assumptions C164_alone.

Example C164_alone_ex : reach_asm (fun s => s) (fun _ => true) (fun _ => true) (asm_new true) /\
  fst (asm_resolve_run (fun _ => true) (fun _ => true) (fun _ => []) (lit "0.00") (lit "0.01") (asm_new true) 10) = [LDebug (lit "Symbol resolution: 0.00 seconds")].
Proof. split; [constructor|vm_compute; reflexivity]. Qed.

Theorem C164_create : forall fs files outs, ~ In [] files -> plain_names files -> Forall2 (source fs) files outs ->
  exists k, forall upper rep card_rep fuel verbose, (k <= fuel)%nat -> exists ls a,
    creates_say upper rep card_rep fuel fs (asm_new verbose) files ls a /\ creates upper fuel fs (asm_new verbose) files a /\
    processed fs upper rep verbose files outs ls.
Proof. exact (@C164_create_pf). Qed.
Print Assumptions C164_create.

Example C164_create_ex : Forall2 (source sample) [lit "a.arg"] [sample_lines] /\
  fst (asm_create_run (e_upper sample_env) (fun s => s) (fun _ => lit "?") 3 sample (asm_new true) (lit "a.arg")) =
    [LInfo (lit "Processing a.arg"); Printed (OutL (lit "Reading a.arg...")); Printed (OutL (lit "Skipping meta-comment, file a.arg, line 1"));
     Printed (OutL (lit "Reading inc...")); Printed (ErrL (lit "*** ERROR: Symbol x is ill-formed (case)!"));
     Printed (ErrL (lit "Current definition: {'file': inc, 'line': 2, 'lognum': None, 'tagtype': None, 'card': ?}"))].
Proof. split; [constructor; [exact sample_ok|constructor]|vm_compute; reflexivity]. Qed.

Theorem C164_unread : forall upper rep card_rep fuel fs a f,
  (exists out, source fs f out) \/
  exists log msg st e, gives_up fs fuel f log msg st /\ ends_as (Err e : res unit) st /\
    asm_create_run upper rep card_rep fuel fs a f =
      (LInfo (lit "Processing " ++ f) :: map Printed ((if a_verbose a then log else []) ++ msg), (a, Err e)).
Proof. exact (@C164_unread_pf). Qed.
Print Assumptions C164_unread.

Example C164_unread_ex :
  let fs := fun f => if eqb f (lit "p.a") then Some (lit "        A          DEC          1" ++ [10] ++ lit "$ gone" ++ [10]) else None in
  asm_create_run (fun s => s) (fun s => s) (fun _ => lit "?") 3 fs (asm_new true) (lit "p.a") =
    ([LInfo (lit "Processing p.a"); Printed (OutL (lit "Reading p.a...")); Printed (ErrL (lit "File ""gone"" does not exist"))], (asm_new true, Err SystemExit)).
Proof. vm_compute. reflexivity. Qed.

Theorem C164_assemble : forall fs a f,
  (forall content ls, fs f = Some content -> text_lines content ls -> exists a', asm_assemble_run fs a f =
     ([LInfo (lit "Assembling " ++ f); LDebug (lit "assemble: file " ++ f ++ lit ", lines " ++ str_of_Z (zlen ls))], (a', Ok tt)) /\
     asm_assemble fs a f = (a', Ok tt)) /\
  (fs f = None -> exists a', asm_assemble_run fs a f = ([LInfo (lit "Assembling " ++ f)], (a', Err OSError)) /\ asm_assemble fs a f = (a', Err OSError)).
Proof. exact (@C164_assemble_pf). Qed.
Print Assumptions C164_assemble.

Example C164_assemble_ex :
  fst (asm_assemble_run (fun _ => Some (lit "A" ++ [10] ++ lit "B")) (asm_new false) (lit "p.a")) =
    [LInfo (lit "Assembling p.a"); LDebug (lit "assemble: file p.a, lines 2")].
Proof. vm_compute. reflexivity. Qed.

Theorem C164_parse : forall a label opcode operands i,
  asm_parse_run a label opcode operands =
    ([LInfoAt 7 (lit "parse: label='" ++ label ++ lit "' opcode='" ++ opcode ++ lit "' operands=" ++ operands)], (a, Ok tt)) /\
  asm_parse_record_run a i = ([], (a, Ok RNone)).
Proof. exact (@C164_parse_pf). Qed.
Print Assumptions C164_parse.

Example C164_parse_ex :
  fst (asm_parse_run (asm_new false) (lit "A") (lit "DA") (lit "['B']")) = [LInfoAt 7 (lit "parse: label='A' opcode='DA' operands=['B']")].
Proof. vm_compute. reflexivity. Qed.

Theorem C163_only_partial : forall parseable complete srcline secs1 secs2 a x recs xs maxPasses r s,
  a_context a = Some x -> a_records a = Some recs -> usable recs xs (length (x_records x)) ->
  In (RecordError r s) (fst (asm_resolve_run parseable complete srcline secs1 secs2 a maxPasses)) ->
  x_current x = Some r /\ s = lit "undefined symbol" /\ incomplete parseable complete r /\ 2 <= maxPasses /\
  exists r', In r' xs /\ incomplete parseable complete r'.
Proof. exact (@C163_only_partial_pf). Qed.
Print Assumptions C163_only_partial.

Example C163_only_partial_ex :
  In (RecordError 2 (lit "undefined symbol")) (fst (asm_resolve_run (fun _ => true) (fun _ => false) (fun _ => []) [] []
    (mkasm false [] (Some (mkactx [Some 2] (Some 2) true)) (Some [Some 2]) (Some 0) None None None) 10)).
Proof. vm_compute. tauto. Qed.

Theorem C163_blame_refuted : forall parseable complete srcline secs1 secs2 a x recs xs maxPasses r s,
  a_context a = Some x -> a_records a = Some recs -> usable recs xs (length (x_records x)) ->
  In r xs -> incomplete parseable complete r -> x_current x <> Some r ->
  ~ In (RecordError r s) (fst (asm_resolve_run parseable complete srcline secs1 secs2 a maxPasses)).
Proof. exact (@C163_blame_refuted_pf). Qed.
Print Assumptions C163_blame_refuted.

Example C163_blame_refuted_ex :
  snd (asm_resolve (fun _ => true) (fun _ => false) (mkasm false [] (Some (mkactx [Some 1; Some 2] (Some 3) true)) (Some [Some 1; Some 2]) (Some 0) None None None) 10) = Ok (NoProgress 2) /\
  ~ In (RecordError 1 (lit "undefined symbol")) (fst (asm_resolve_run (fun _ => true) (fun _ => false) (fun _ => []) [] []
    (mkasm false [] (Some (mkactx [Some 1; Some 2] (Some 3) true)) (Some [Some 1; Some 2]) (Some 0) None None None) 10)).
Proof.
  split; [reflexivity|]. apply C163_blame_refuted with (x := mkactx [Some 1; Some 2] (Some 3) true) (recs := [Some 1; Some 2]) (xs := [1; 2]);
    try reflexivity; [split; reflexivity|left; reflexivity|split; reflexivity|discriminate].
Qed.

Theorem C163_times_refuted : forall parseable complete srcline secs1 secs2 a x recs xs maxPasses y e r,
  a_context a = Some x -> a_records a = Some recs -> usable recs xs (length (x_records x)) -> 3 <= maxPasses ->
  x_current x = Some y -> incomplete parseable complete y -> a_errors a = Some e -> In r xs -> incomplete parseable complete r ->
  exists pre post, fst (asm_resolve_run parseable complete srcline secs1 secs2 a maxPasses) =
      pre ++ repeat (RecordError y (lit "undefined symbol")) (length (filter parseable xs)) ++ post /\
    forall z s, ~ In (RecordError z s) (pre ++ post).
Proof. exact (@C163_times_refuted_pf). Qed.
Print Assumptions C163_times_refuted.

Example C163_times_refuted_ex :
  fst (asm_resolve_run (fun _ => true) (fun r => r =? 1) (fun _ => []) [] []
    (mkasm false [] (Some (mkactx [Some 1; Some 2] (Some 2) false)) (Some [Some 1; Some 2]) (Some 0) None None None) 3) =
  [LDebug (lit "Symbol resolution:  seconds"); LDebug (lit "Updating 2 parser records..."); LDebug (lit "resolve: "); LDebug (lit "resolve: ");
   LInfo (lit "1 incomplete parser records"); LDebug (lit "resolve: "); LDebug (lit "resolve: "); LInfo (lit "2 incomplete parser records");
   LDebug (lit "resolve: "); LDebug (lit "resolve: "); LInfo (lit "2 incomplete parser records");
   RecordError 2 (lit "undefined symbol"); RecordError 2 (lit "undefined symbol")].
Proof. vm_compute. reflexivity. Qed.
