(** Property theorems; generated from LQuiet.v by meta/genp.py. *)
From Verif Require Import Py LPy MCards SCards LCards LDeck MSymbols SSymbols LSymBuild LSymQuery MInstructions MTools STools LTools LToolSym LListTool MDiag SDiag LDiag MDump SDump LDump MVerbose SVerbose LVerbose LQuiet.

Theorem C131_list_instructions : forall fuel fs details args,
  match list_instructions fuel fs details args with
  | Ok out => list_instructions_run fuel fs false details args = (map OutL out, Ok tt)
  | Err e => snd (list_instructions_run fuel fs false details args) = Err e
  end.
Proof. exact (@C131_list_instructions_pf). Qed.
Print Assumptions C131_list_instructions.

Example C131_list_instructions_ex :
  let fs := fun f => if eqb f (lit "a") then Some (lit "# x" ++ [10] ++ lit "       *           TX           B" ++ [10] ++
                                                   lit "                   TX           C" ++ [10]) else None in
  list_instructions 2 fs false [lit "TX"; lit "a"] = Ok [lit "                   TX           C"] /\
  list_instructions_run 2 fs false false [lit "TX"; lit "a"] = ([OutL (lit "                   TX           C")], Ok tt).
Proof. vm_compute. auto. Qed.

Theorem C131_check_instructions : forall pct fuel fs o args,
  match check_instructions pct fuel fs o args with
  | Ok (s, out) => check_instructions_run pct fuel fs false o args = (map OutL out, Ok tt)
  | Err e => snd (check_instructions_run pct fuel fs false o args) = Err e
  end.
Proof. exact (@C131_check_instructions_pf). Qed.
Print Assumptions C131_check_instructions.

Example C131_check_instructions_ex :
  let fs := fun f => if eqb f (lit "a") then Some (lit "# x" ++ [10] ++ lit "                   FOO" ++ [10]) else None in
  let o := mkciopts false false false false false false in
  check_instructions_run (fun _ _ => []) 2 fs false o [lit "a"] =
    ([OutL (lit "*** ERROR: Invalid instruction ""FOO"":"); OutL (lit "File a, line 2:                    FOO");
      OutL (lit "1 error encountered.")], Ok tt) /\
  option_map zlen (match check_instructions (fun _ _ => []) 2 fs o [lit "a"] with Ok (_, out) => Some out | Err _ => None end) = Some 3.
Proof. vm_compute. auto. Qed.

Theorem C131_symbols : forall extract upper rep card_rep fuel fs begin end_ fuzzy exact complexOnly args,
  match check_symbols upper fuel fs complexOnly args with
  | Ok _ => exists short out, check_symbols_verbose extract upper rep card_rep fuel fs false complexOnly args = (out, Ok tt) /\
              check_symbols_run extract upper fuel fs complexOnly args = (short, Ok tt) /\ with_dumps short out
  | Err e => snd (check_symbols_verbose extract upper rep card_rep fuel fs false complexOnly args) = Err e
  end /\
  match find_symbols extract upper fuel fs begin end_ fuzzy exact args with
  | Ok d => exists short out answer r,
              find_symbols_verbose extract upper rep card_rep fuel fs false begin end_ fuzzy exact args = (out ++ answer, Ok r) /\
              find_symbols_run extract upper fuel fs begin end_ fuzzy exact args = (short, Ok r) /\ with_dumps short out /\
              (r = None /\ answer = [] /\ (d = FNone \/ d = FDefs [] \/ d = FList []) \/
               r = Some d /\ answer = [OutL (found_text rep card_rep d)])
  | Err e => snd (find_symbols_verbose extract upper rep card_rep fuel fs false begin end_ fuzzy exact args) = Err e
  end.
Proof. exact (@C131_symbols_pf). Qed.
Print Assumptions C131_symbols.

Example C131_symbols_ex :
  let fs := fun f => if eqb f (lit "p.a") then Some (lit "        ALPHA      DEC          1" ++ [10]) else None in
  find_symbols_verbose (fun _ _ _ => []) (fun s => s) quoted a_card 2 fs false false false false false [lit "BETA"; lit "p.a"] =
    find_symbols_run (fun _ _ _ => []) (fun s => s) 2 fs false false false false [lit "BETA"; lit "p.a"] /\
  find_symbols (fun _ _ _ => []) (fun s => s) 2 fs false false false false [lit "BETA"; lit "p.a"] = Ok FNone.
Proof. vm_compute. auto. Qed.

Theorem C131_list_symbols : forall upper rep card_rep fuel fs args,
  match list_symbols upper fuel fs args with
  | Ok (out, n) => exists faults blocks, zlen faults = n /\ Forall2 block_of faults blocks /\
      list_symbols_run upper rep card_rep fuel fs false args =
      (map ErrL (concat blocks) ++ map OutL out ++ (if 0 <? n then [ErrL (str_of_Z n ++ lit " errors found")] else []), Ok tt)
  | Err e => snd (list_symbols_run upper rep card_rep fuel fs false args) = Err e
  end.
Proof. exact (@C131_list_symbols_pf). Qed.
Print Assumptions C131_list_symbols.

Example C131_list_symbols_ex :
  let fs := fun f => if eqb f (lit "p.a") then Some (lit "        A,B,C,D    DEC          1" ++ [10]) else None in
  list_symbols (fun s => s) 2 fs [lit "p.a"] = Ok ([], 1) /\ zlen (fst (list_symbols_run (fun s => s) quoted a_card 2 fs false [lit "p.a"])) = 3.
Proof. vm_compute. auto. Qed.

Theorem C131_parse : forall upper rep card_rep fuel fs args,
  match parse_tool upper fuel fs args with
  | Ok (lines, errs) => exists faults, parse_run upper rep card_rep fuel fs false false args =
      (faults ++ [OutL (10 :: lit "Source lines: " ++ str_of_Z lines);
                  OutL (if errs =? 1 then lit "1 error encountered." else str_of_Z errs ++ lit " errors encountered.")], Ok tt)
  | Err e => snd (parse_run upper rep card_rep fuel fs false false args) = Err e
  end.
Proof. exact (@C131_parse_pf). Qed.
Print Assumptions C131_parse.

Example C131_parse_ex :
  let fs := fun f => if eqb f (lit "p.a") then Some (lit "                   FOO" ++ [10]) else None in
  parse_tool (fun s => s) 2 fs [lit "p.a"] = Ok (1, 1) /\ zlen (fst (parse_run (fun s => s) quoted a_card 2 fs false false [lit "p.a"])) = 5.
Proof. vm_compute. auto. Qed.

Theorem C131_listing : forall fuel fs args,
  match listing fuel fs args with
  | Ok fs' => listing_run fuel fs false args = (([], Ok tt), fs')
  | Err e => snd (fst (listing_run fuel fs false args)) = Err e
  end.
Proof. exact (@C131_listing_pf). Qed.
Print Assumptions C131_listing.

Example C131_listing_ex :
  let fs := fun f => if eqb f (lit "p.a") then Some (lit "                   FOO" ++ [10]) else None in
  fst (listing_run 2 fs false [lit "p.a"]) = ([], Ok tt) /\ snd (listing_run 2 fs false [lit "p.a"]) (lit "p.lst") <> None.
Proof. vm_compute. split; [reflexivity|discriminate]. Qed.
