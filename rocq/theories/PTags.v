(** Property theorems; generated from LTags.v by meta/genp.py. *)
From Verif Require Import Py LPy MInstruction MCards SCards LCards LDeck MSymbols SSymbols LSymBuild LSymQuery MRegisters SRegisters MInstructions MTools STools LTools LToolSym MDiag SDiag LDiag MDump SDump MVerbose SVerbose LVerbose SOrder LOrder STranscript LTranscript MOptions SOptions LOptions MProcess SProcess LProcess SEnds LEnds SSource LSource SFound STextSym LTextSym SIdle LIdle SReport LReport SUnread LUnread SSwap SLabel LGen LLabel LPlaces LSwap SAgree LAgree SKey LKey LJoin SManual STags LTags.

Theorem C177_tags_partial : forall fs f seg out, f <> [] -> segment_of f seg -> ~ is_kind seg -> source fs f out -> all_ascii out ->
  exists k, forall upper fuel, (k <= fuel)%nat -> raises upper -> exists tab n,
    build_symbol_table upper fuel fs f [] = Ok (tab, n) /\
    (forall m, count_of (fun x => ~ starred_line (text_of x) /\ exists s, label_of (text_of x) s /\
                 (~ manual_tag s \/ link_or_out s \/ forall op, ~ operation_of (text_of x) op)) out m -> n <= m) /\
    (forall x s op t, In x out -> has_operation (text_of x) op -> label_of (text_of x) s -> manual_tag s -> ~ link_or_out s -> tag_name s t ->
       exists ss kind e, get4 tab t seg ss kind = Some e).
Proof. exact (@C177_tags_partial_pf). Qed.
Print Assumptions C177_tags_partial.

Example C177_tags_partial_ex : let up := map (fun c => if (97 <=? c) && (c <=? 122) then c - 32 else c) in
  source tagged (lit "p.arg") tagged_lines /\ manual_tag (lit "LOOP1") /\ manual_tag (lit "F,M1") /\ manual_tag (lit "Z,X3") /\
  exists tab, build_symbol_table up 2 tagged (lit "p.arg") [] = Ok (tab, 2) /\
    dkeys tab = [lit "LOOP1"; lit "M1"; lit "X3"; lit "1234"] /\ get4 tab (lit "M1") (lit "p") (lit "1") (lit "simple") <> None.
Proof.
  split; [exact tagged_ok|]. split; [apply mt_symbolic; apply symbolic_computes; reflexivity|].
  split; [apply (mt_mask 70); [cbn; auto|apply symbolic_computes; reflexivity]|].
  split; [apply mt_register; left; vm_compute; tauto|].
  eexists. split; [vm_compute; reflexivity|]. split; [reflexivity|vm_compute; discriminate].
Qed.

Theorem C177_links_refuted : forall fs f seg out, f <> [] -> segment_of f seg -> ~ is_kind seg -> source fs f out -> all_ascii out ->
  exists k, forall upper fuel, (k <= fuel)%nat -> raises upper -> exists tab n,
    build_symbol_table upper fuel fs f [] = Ok (tab, n) /\
    forall m, count_of (fun x => ~ starred_line (text_of x) /\ exists s, label_of (text_of x) s /\ manual_tag s /\ link_or_out s) out m -> m <= n.
Proof. exact (@C177_links_refuted_pf). Qed.
Print Assumptions C177_links_refuted.

Example C177_links_refuted_ex : manual_tag (lit "L,NEXT") /\ link_or_out (lit "L,NEXT") /\ manual_tag (lit "X,") /\
  label_of (text_of (lit "p.arg", 4, lit "        L,NEXT     TX" ++ [10])) (lit "L,NEXT").
Proof.
  split; [apply (mt_link (lit "NEXT")); apply symbolic_computes; reflexivity|]. split; [exists 76, (lit "NEXT"); cbn; auto|]. split; [exact mt_out|].
  split; [intros (c & E & I); injection E as <-; cbn in I; intuition discriminate|].
  exists (lit "L,NEXT"). split; [apply strip_ex; reflexivity|split; [discriminate|reflexivity]].
Qed.

Theorem C177_illegal_refuted : forall fs f seg out, f <> [] -> segment_of f seg -> ~ is_kind seg -> source fs f out -> all_ascii out ->
  (forall x s, In x out -> ~ starred_line (text_of x) -> label_of (text_of x) s ->
     ~ In 44 s /\ (forall c, In c s -> ~ small c) /\ (Forall digit s \/ 8 < zlen s \/ In 43 s) /\ exists op, operation_of (text_of x) op) ->
  (forall x s, In x out -> ~ starred_line (text_of x) -> label_of (text_of x) s -> ~ manual_tag s) /\
  exists k, forall upper fuel, (k <= fuel)%nat -> raises upper -> exists tab,
    build_symbol_table upper fuel fs f [] = Ok (tab, 0).
Proof. exact (@C177_illegal_refuted_pf). Qed.
Print Assumptions C177_illegal_refuted.

Example C177_illegal_refuted_ex : let up := map (fun c => if (97 <=? c) && (c <=? 122) then c - 32 else c) in
  ~ manual_tag (lit "1234") /\ ~ manual_tag (lit "A+B") /\
  exists tab, build_symbol_table up 2 (fun f => if eqb f (lit "q") then Some (lit "        1234       TX" ++ [10] ++ lit "        A+B        DA") else None) (lit "q") [] = Ok (tab, 0) /\
    dkeys tab = [lit "1234"; lit "A+B"].
Proof.
  split; [apply not_manual; [vm_compute; intuition discriminate|left; repeat (constructor; [split; intros E; vm_compute in E; discriminate E|]); constructor]|].
  split; [apply not_manual; [vm_compute; intuition discriminate|right; right; vm_compute; tauto]|].
  eexists. split; vm_compute; reflexivity.
Qed.

Theorem C178_unnumbered_refuted : forall fs f seg out a x b y post, f <> [] -> segment_of f seg -> ~ is_kind seg -> source fs f out ->
  out = a ++ x :: b ++ y :: post -> has_operation (text_of x) (lit "SETLOC") ->
  (forall z op, In z (b ++ [y]) -> has_operation (text_of z) op -> ~ exists r, op = lit "SETLOC" ++ r) ->
  (forall n, manual_subsegment (a ++ x :: b ++ [y]) n -> lit "0" <> [48 + n]) /\
  exists k, forall upper fuel, (k <= fuel)%nat -> exists tab n,
    build_symbol_table upper fuel fs f [] = Ok (tab, n) /\
    forall tag kind tt, line_defines upper (text_of y) tag kind tt -> exists e, get4 tab tag seg (lit "0") kind = Some e.
Proof. exact (@C178_unnumbered_refuted_pf). Qed.
Print Assumptions C178_unnumbered_refuted.

Example C178_unnumbered_refuted_ex : let fs := fun f => if eqb f (lit "p.arg") then
      Some (lit "                   SETLOC,2" ++ [10] ++ lit "        A          TX" ++ [10] ++ lit "                   SETLOC       512" ++ [10] ++ lit "        B          TX") else None in
  exists tab, build_symbol_table (fun s => s) 2 fs (lit "p.arg") [] = Ok (tab, 0) /\
    get4 tab (lit "A") (lit "p") (lit "2") (lit "simple") <> None /\
    get4 tab (lit "B") (lit "p") (lit "2") (lit "simple") = None /\ get4 tab (lit "B") (lit "p") (lit "0") (lit "simple") <> None.
Proof. eexists. split; [vm_compute; reflexivity|]. split; [vm_compute; discriminate|]. split; [vm_compute; reflexivity|vm_compute; discriminate]. Qed.

Theorem C178_common_refuted : forall fs f seg out a x b y post m, f <> [] -> segment_of f seg -> ~ is_kind seg -> source fs f out ->
  out = a ++ x :: b ++ y :: post -> 1 <= m <= 7 -> has_operation (text_of x) (lit "SETLOC," ++ [48 + m; 67]) ->
  (forall z op, In z (b ++ [y]) -> has_operation (text_of z) op -> ~ exists r, no_blanks op = lit "SETLOC" ++ r) ->
  manual_subsegment (a ++ x :: b ++ [y]) m /\
  exists k, forall upper fuel, (k <= fuel)%nat -> exists tab n,
    build_symbol_table upper fuel fs f [] = Ok (tab, n) /\
    forall tag kind tt, line_defines upper (text_of y) tag kind tt -> exists e, get4 tab tag seg [48 + m; 67] kind = Some e.
Proof. exact (@C178_common_refuted_pf). Qed.
Print Assumptions C178_common_refuted.

Example C178_common_refuted_ex : let fs := fun f => if eqb f (lit "p.arg") then
      Some (lit "                   SETLOC,2C" ++ [10] ++ lit "        A          TX" ++ [10] ++ lit "                   SETLOC,2" ++ [10] ++ lit "        A          DA") else None in
  exists tab, build_symbol_table (fun s => s) 2 fs (lit "p.arg") [] = Ok (tab, 0) /\
    get4 tab (lit "A") (lit "p") (lit "2C") (lit "simple") <> None /\ get4 tab (lit "A") (lit "p") (lit "2") (lit "simple") <> None.
Proof. eexists. split; [vm_compute; reflexivity|]. split; vm_compute; discriminate. Qed.

Theorem C178_subsegment_partial : forall fs f seg out, f <> [] -> segment_of f seg -> ~ is_kind seg -> source fs f out ->
  (forall x op, In x out -> has_operation (text_of x) op -> (exists r, no_blanks op = lit "SETLOC" ++ r) ->
     exists n, 1 <= n <= 7 /\ op = lit "SETLOC," ++ [48 + n]) ->
  exists k, forall upper fuel, (k <= fuel)%nat -> exists tab n,
    build_symbol_table upper fuel fs f [] = Ok (tab, n) /\
    forall tag sg ss kind, get4 tab tag sg ss kind <> None <->
      sg = seg /\ exists pre x post tt m, out = pre ++ x :: post /\ line_defines upper (text_of x) tag kind tt /\
        manual_subsegment (pre ++ [x]) m /\ ss = [48 + m].
Proof. exact (@C178_subsegment_partial_pf). Qed.
Print Assumptions C178_subsegment_partial.

Example C178_subsegment_partial_ex : let fs := fun f => if eqb f (lit "p.arg") then
      Some (lit "        A          TX" ++ [10] ++ lit "                   SETLOC,3" ++ [10] ++ lit "        B          DA") else None in
  exists tab, build_symbol_table (fun s => s) 2 fs (lit "p.arg") [] = Ok (tab, 0) /\
    get4 tab (lit "A") (lit "p") (lit "1") (lit "simple") <> None /\ get4 tab (lit "B") (lit "p") (lit "3") (lit "simple") <> None.
Proof. eexists. split; [vm_compute; reflexivity|]. split; vm_compute; discriminate. Qed.

Theorem C179_tas_refuted : forall fs f seg out, f <> [] -> segment_of f seg -> ~ is_kind seg -> source fs f out ->
  exists k, forall upper fuel, (k <= fuel)%nat -> exists tab n,
    build_symbol_table upper fuel fs f [] = Ok (tab, n) /\
    (forall x s tag tt, In x out -> has_operation (text_of x) (lit "TAS") -> label_of (text_of x) s -> well_formed upper s tt tag ->
       exists ss e, get4 tab tag seg ss (lit "simple") = Some e) /\
    (forall tag sg ss e, get4 tab tag sg ss (lit "complex") = Some e ->
       exists x s tt, In x out /\ has_operation (text_of x) (lit "ASSIGN") /\ label_of (text_of x) s /\ well_formed upper s tt tag).
Proof. exact (@C179_tas_refuted_pf). Qed.
Print Assumptions C179_tas_refuted.

Example C179_tas_refuted_ex : let fs := fun f => if eqb f (lit "p.arg") then
      Some (lit "        DATA       TAS          3,0" ++ [10] ++ lit "        DATA       TAS          N,R1,1") else None in
  exists tab, build_symbol_table (fun s => s) 2 fs (lit "p.arg") [] = Ok (tab, 0) /\
    get4 tab (lit "DATA") (lit "p") (lit "1") (lit "simple") <> None /\ get4 tab (lit "DATA") (lit "p") (lit "1") (lit "complex") = None.
Proof. eexists. split; [vm_compute; reflexivity|]. split; [vm_compute; discriminate|vm_compute; reflexivity]. Qed.

Theorem C179_complex_partial : forall fs f seg out, f <> [] -> segment_of f seg -> ~ is_kind seg -> source fs f out ->
  (forall x, In x out -> ~ has_operation (text_of x) (lit "TAS")) ->
  exists k, forall upper fuel, (k <= fuel)%nat -> exists tab n,
    build_symbol_table upper fuel fs f [] = Ok (tab, n) /\
    forall tag, 
      ((exists ss, get4 tab tag seg ss (lit "complex") <> None) <->
       exists x s tt op, In x out /\ has_operation (text_of x) op /\ assigns_complex op /\ label_of (text_of x) s /\ well_formed upper s tt tag) /\
      ((exists ss, get4 tab tag seg ss (lit "simple") <> None) <->
       exists x s tt op, In x out /\ has_operation (text_of x) op /\ ~ assigns_complex op /\ label_of (text_of x) s /\ well_formed upper s tt tag).
Proof. exact (@C179_complex_partial_pf). Qed.
Print Assumptions C179_complex_partial.

Example C179_complex_partial_ex : let fs := fun f => if eqb f (lit "p.arg") then
      Some (lit "        PAY        ASSIGN       3,5" ++ [10] ++ lit "        PAY        RESERVE      10") else None in
  exists tab, build_symbol_table (fun s => s) 2 fs (lit "p.arg") [] = Ok (tab, 0) /\
    get4 tab (lit "PAY") (lit "p") (lit "1") (lit "simple") <> None /\ get4 tab (lit "PAY") (lit "p") (lit "1") (lit "complex") <> None.
Proof. eexists. split; [vm_compute; reflexivity|]. split; vm_compute; discriminate. Qed.

Theorem C180_check_refuted : forall fs prog words on files outs,
  understood (options CheckInstructions) words on files ->
  (forall x, In x ["verbose"; "count"; "print-opcodes"; "unused"]%string -> ~ In (lit x) on) ->
  files <> [] -> ~ In [] files -> Forall2 (source fs) files outs ->
  exists k, forall v, (k <= e_fuel v)%nat -> exists faults,
    command v fs CheckInstructions prog words = (concat faults ++ [OutL (error_count (zlen faults))], Exit 0, fs) /\
    forall x m, In x (concat outs) -> has_mnemonic x m -> In 32 m ->
      exists ls, In ls faults /\ mnemonic_fault x ls.
Proof. exact (@C180_check_refuted_pf). Qed.
Print Assumptions C180_check_refuted.

Example C180_check_refuted_ex : let fs := fun f => if eqb f (lit "p.arg") then Some (lit "                   D A,M1       X             Y" ++ [10] ++ lit "                   DA, M1       X") else None in
  printed (fst (fst (command sample_env fs CheckInstructions (lit "x.py") [lit "p.arg"]))) =
    [lit "*** ERROR: Invalid instruction ""D A"":"; lit "File p.arg, line 1:                    D A,M1       X             Y"; lit "1 error encountered."] /\
  no_blanks (lit "D A") = lit "DA" /\ In (lit "DA") MANUAL_CODES.
Proof. split; [vm_compute; reflexivity|]. split; [reflexivity|]. left. reflexivity. Qed.

Theorem C180_list_partial : forall fs fs' prog words prog' words' on details opcode m files outs outs',
  understood (options ListInstructions) words on (opcode :: files) -> understood (options ListInstructions) words' on (opcode :: files) ->
  ~ In (lit "verbose") on -> turned_on on "details" details -> mnemonic_of opcode m -> In m MANUAL_CODES -> ~ In [] files ->
  Forall2 (source fs) files outs -> Forall2 (source fs') files outs' -> Forall2 (Forall2 same_operation) outs outs' ->
  exists k, forall v, (k <= e_fuel v)%nat -> exists ys ys',
    command v fs ListInstructions prog words = (map OutL ys, Exit 0, fs) /\
    command v fs' ListInstructions prog' words' = (map OutL ys', Exit 0, fs') /\
    picked (line_found opcode details) (concat outs) ys /\ picked (line_found opcode details) (concat outs') ys' /\
    Forall2 (fun y y' => exists x x', In x (concat outs) /\ In x' (concat outs') /\ fst x = fst x' /\ same_operation x x' /\
                           line_found opcode details x y /\ line_found opcode details x' y') ys ys'.
Proof. exact (@C180_list_partial_pf). Qed.
Print Assumptions C180_list_partial.

Example C180_list_partial_ex : let fs := fun f => if eqb f (lit "p.arg") then Some (lit "                   D A, M 1     X             Y") else None in
  printed (fst (fst (command sample_env fs ListInstructions (lit "x.py") [lit "DA"; lit "p.arg"]))) = [lit "                   D A, M 1     X             Y"] /\
  printed (fst (fst (command sample_env fs ListInstructions (lit "x.py") [lit "DA,M1"; lit "p.arg"]))) = [lit "                   D A, M 1     X             Y"].
Proof. split; vm_compute; reflexivity. Qed.

Theorem C181_codes_partial : forall fs prog words on files outs,
  understood (options CheckInstructions) words on files ->
  (forall x, In x ["verbose"; "count"; "print-opcodes"; "unused"]%string -> ~ In (lit x) on) ->
  files <> [] -> ~ In [] files -> Forall2 (source fs) files outs ->
  exists k, forall v, (k <= e_fuel v)%nat -> exists faults,
    command v fs CheckInstructions prog words = (concat faults ++ [OutL (error_count (zlen faults))], Exit 0, fs) /\
    picked mnemonic_fault (concat outs) faults /\
    (faults = [] <-> forall x m, In x (concat outs) -> has_mnemonic x m -> In m MANUAL_CODES \/ In m MORE_CODES).
Proof. exact (@C181_codes_partial_pf). Qed.
Print Assumptions C181_codes_partial.

Example C181_codes_partial_ex : let fs := fun f => if eqb f (lit "p.arg") then Some (lit "        A          MASKBASE" ++ [10] ++ lit "                   FBAU         X             Y" ++ [10] ++ lit "                   SETLOC,3     X") else None in
  printed (fst (fst (command sample_env fs CheckInstructions (lit "x.py") [lit "p.arg"]))) = [lit "0 errors encountered."].
Proof. vm_compute; reflexivity. Qed.

Theorem C181_calls_refuted : forall fs prog words on files outs,
  understood (options CheckInstructions) words on files ->
  (forall x, In x ["verbose"; "count"; "print-opcodes"; "unused"]%string -> ~ In (lit x) on) ->
  files <> [] -> ~ In [] files -> Forall2 (source fs) files outs ->
  exists k, forall v, (k <= e_fuel v)%nat -> exists faults,
    command v fs CheckInstructions prog words = (concat faults ++ [OutL (error_count (zlen faults))], Exit 0, fs) /\
    forall x m, In x (concat outs) -> has_mnemonic x m -> In m OTHER_CODES ->
      exists ls, In ls faults /\ mnemonic_fault x ls.
Proof. exact (@C181_calls_refuted_pf). Qed.
Print Assumptions C181_calls_refuted.

Example C181_calls_refuted_ex : let fs := fun f => if eqb f (lit "p.arg") then Some (lit "                   L,SORT       X             Y") else None in
  printed (fst (fst (command sample_env fs CheckInstructions (lit "x.py") [lit "p.arg"]))) =
    [lit "*** ERROR: Invalid instruction ""L"":"; lit "File p.arg, line 1:                    L,SORT       X             Y"; lit "1 error encountered."].
Proof. vm_compute; reflexivity. Qed.
