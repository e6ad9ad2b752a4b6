(** Property theorems; generated from LToolSym.v by meta/genp.py. *)
From Verif Require Import Py LPy LSort MInstructions LInstructions MCards SCards LCards LDeck MSymbols SSymbols LSymBuild LSymQuery MTools STools LTools LToolSym.

Theorem C100_total : forall upper fuel fs complexOnly files css, files <> [] ->
  Forall2 (source_cards fuel fs) files css -> plain_names files ->
  exists ns syms total, check_symbols upper fuel fs complexOnly files = Ok (ns, syms, total) /\
    Forall2 (count_of (label_error upper)) css ns /\
    total = fold_right Z.add 0 ns + zlen syms /\
    StronglySorted str_lt syms /\
    forall s, In s syms <-> complexOnly = true /\
      (exists seg ss e, defined_as upper files css s seg ss (lit "complex") e) /\
      ~ (exists seg ss e, defined_as upper files css s seg ss (lit "simple") e).
Proof. exact (@C100_total_pf). Qed.
Print Assumptions C100_total.

Example C100_total_ex :
  let fs := fun f => if eqb f (lit "p.a") then Some (lit "        A          ASSIGN       1" ++ [10] ++ lit "        b          DEC          1" ++ [10])
                     else if eqb f (lit "q.a") then Some (lit "        L,X        DEC          1" ++ [10] ++ lit "        C          DEC" ++ [10]) else None in
  let up := map (fun c => if (97 <=? c) && (c <=? 122) then c - 32 else c) in
  check_symbols up 2 fs true [lit "p.a"; lit "q.a"] = Ok ([1; 1], [lit "A"], 3).
Proof. vm_compute. reflexivity. Qed.

Theorem C101_default_refuted : forall extract upper fuel fs exact symbol files css,
  files <> [] -> Forall2 (source_cards fuel fs) files css -> plain_names files ->
  ~ is_defined upper css symbol -> (exists p q, is_defined upper css (p ++ symbol ++ q)) ->
  find_symbols extract upper fuel fs false false false exact (symbol :: files) = Ok FNone.
Proof. exact (@C101_default_refuted_pf). Qed.
Print Assumptions C101_default_refuted.

Example C101_default_refuted_ex :
  find_symbols (fun _ _ _ => []) (fun s => s) 2
    (fun f => if eqb f (lit "p.a") then Some (lit "        TABLE1     DEC          1" ++ [10]) else None)
    false false false false [lit "TABLE"; lit "p.a"] = Ok FNone.
Proof. vm_compute. reflexivity. Qed.

Theorem C101_match_partial : forall extract upper fuel fs begin end_ exact symbol files css,
  files <> [] -> Forall2 (source_cards fuel fs) files css -> plain_names files ->
  (begin && end_ = false -> exact && (begin || end_) = false ->
   exists r, find_symbols extract upper fuel fs begin end_ false exact (symbol :: files) = Ok r /\
     (begin || end_ = false -> match r with FDefs _ => is_defined upper css symbol | FNone => ~ is_defined upper css symbol | FList _ => False end) /\
     (begin || end_ = true -> exists l, r = FList l /\ StronglySorted str_lt l /\
        forall s, In s l <-> is_defined upper css s /\
          ((begin = true /\ exists r, s = symbol ++ r) \/ (end_ = true /\ exists r, s = r ++ symbol)))) /\
  (begin && end_ = true \/ exact && (begin || end_) = true ->
   find_symbols extract upper fuel fs begin end_ false exact (symbol :: files) = Err SystemExit).
Proof. exact (@C101_match_partial_pf). Qed.
Print Assumptions C101_match_partial.

Example C101_match_partial_ex :
  find_symbols (fun _ _ _ => []) (fun s => s) 2
    (fun f => if eqb f (lit "p.a") then Some (lit "        TABLE1     DEC          1" ++ [10] ++ lit "        XTABLE     DEC" ++ [10]) else None)
    true false false false [lit "TAB"; lit "p.a"] = Ok (FList [lit "TABLE1"]).
Proof. vm_compute. reflexivity. Qed.

Theorem C89_total_partial : forall upper fuel fs files css, files <> [] ->
  Forall2 (source_cards fuel fs) files css -> plain_names files ->
  exists ns invalid total,
    parse_tool upper fuel fs files = Ok (zlen (concat css), total) /\
    Forall2 (count_of (label_error upper)) css ns /\
    count_of (fun c => ~ starred c /\ exists m, instr_is c m /\ ~ In m INSTRUCTIONS) (concat css) invalid /\
    total = last ns 0 + invalid /\
    ((forall a, ns = a ++ [last ns 0] -> fold_right Z.add 0 a = 0) -> total = fold_right Z.add 0 ns + invalid).
Proof. exact (@C89_total_partial_pf). Qed.
Print Assumptions C89_total_partial.

Example C89_total_partial_ex :
  let fs := fun f => if eqb f (lit "p.a") then Some (lit "        b          DEC          1" ++ [10] ++ lit "                   FOO" ++ [10]) else None in
  let up := map (fun c => if (97 <=? c) && (c <=? 122) then c - 32 else c) in
  parse_tool up 2 fs [lit "p.a"] = Ok (2, 2).
Proof. vm_compute. reflexivity. Qed.

Theorem C89_total_refuted : forall upper fuel fs files css f cs, files <> [] ->
  Forall2 (source_cards fuel fs) (files ++ [f]) (css ++ [cs]) -> plain_names (files ++ [f]) ->
  (exists c, In c (concat css) /\ label_error upper c) ->
  exists ns invalid lines total,
    Forall2 (count_of (label_error upper)) (css ++ [cs]) ns /\
    count_of (fun c => ~ starred c /\ exists m, instr_is c m /\ ~ In m INSTRUCTIONS) (concat (css ++ [cs])) invalid /\
    parse_tool upper fuel fs (files ++ [f]) = Ok (lines, total) /\
    total < fold_right Z.add 0 ns + invalid.
Proof. exact (@C89_total_refuted_pf). Qed.
Print Assumptions C89_total_refuted.

Example C89_total_refuted_ex :
  let fs := fun f => if eqb f (lit "p.a") then Some (lit "        b          DEC          1" ++ [10]) else Some [] in
  let up := map (fun c => if (97 <=? c) && (c <=? 122) then c - 32 else c) in
  parse_tool up 2 fs [lit "p.a"] = Ok (1, 1) /\ parse_tool up 2 fs [lit "p.a"; lit "q.a"] = Ok (1, 0).
Proof. vm_compute. auto. Qed.

Theorem C102_list : forall upper fuel fs files css, files <> [] ->
  Forall2 (source_cards fuel fs) files css -> plain_names files ->
  exists out ns es,
    list_symbols upper fuel fs files = Ok (out, fold_right Z.add 0 ns) /\
    Forall2 (count_of (label_error upper)) css ns /\
    rendered (None, None, None) es out /\
    StronglySorted (fun x y => key_lt (fst x) (fst y)) es /\
    forall t s u k e, In ((t, s, u, k), e) es <-> defined_as upper files css t s u k e.
Proof. exact (@C102_list_pf). Qed.
Print Assumptions C102_list.

Example C102_list_ex :
  let fs := fun f => if eqb f (lit "p.a") then Some (lit "        B          DEC          1" ++ [10] ++ lit "        A          ASSIGN       1" ++ [10] ++
                                                     lit "                   SETLOC,2" ++ [10] ++ lit "        A          DEC" ++ [10]) else None in
  list_symbols (fun s => s) 2 fs [lit "p.a"] =
  Ok ([lit "A"; lit "  Segment: p"; lit "    Subsegment: 1";
       lit "        <complex>   p:2                                                 A          ASSIGN       1";
       lit "    Subsegment: 2";
       lit "        <simple>    p:4                                                 A          DEC";
       lit "B"; lit "  Segment: p"; lit "    Subsegment: 1";
       lit "        <simple>    p:1                                                 B          DEC          1"], 0).
Proof. vm_compute. reflexivity. Qed.
