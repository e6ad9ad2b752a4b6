(** Property theorems; generated from LProcess.v by meta/genp.py. *)
From Verif Require Import Py LPy LSort MInstruction MCards SCards LCards LDeck MSymbols SSymbols LSymBuild LSymQuery MInstructions MTools STools LGen LTools LToolSym LListTool MDiag SDiag LDiag MDump SDump LDump MVerbose SVerbose LVerbose LQuiet STranscript LTranscript MOptions SOptions LOptions MProcess SProcess LProcess.

Theorem C142_refused : forall v fs t prog words reason, wrong_line fs t words reason ->
  command v fs t prog words = (refused t prog reason, Exit 2, fs).
Proof. exact (@C142_refused_pf). Qed.
Print Assumptions C142_refused.

Example C142_refused_ex :
  let v := mkenv (fun _ _ => []) (fun _ _ _ => []) (fun s => s) (fun s => s) (fun _ => []) 3 (fun _ => [OutL (lit "help")]) in let fs := fun f => if eqb f (lit "f") then Some (lit "# Pages: 1-2") else None in
  let says t reason := [ErrL (lit "Usage: x.py " ++ lit (calling t)); ErrL []; ErrL (lit "x.py: error: " ++ lit reason)] in
  command v fs FindSymbols (lit "x.py") [lit "-v"; lit "--e"; lit "X"] =
    ([ErrL (lit "Usage: x.py [options] symbol filename [filename]..."); ErrL [];
      ErrL (lit "x.py: error: ambiguous option: --e (--end, --exact?)")], Exit 2, fs) /\
  command v fs FindSymbols (lit "x.py") [lit "-bx"; lit "X"] = (says FindSymbols "Conflicting options!"%string, Exit 2, fs) /\
  command v fs FindSymbols (lit "x.py") [lit "-b"; lit "X"] =
    (says FindSymbols "usage: %prog [options] symbol filename [filename]..."%string, Exit 2, fs) /\
  command v fs Parse (lit "x.py") [lit "-dzv"; lit "f"] = (says Parse "no such option: -z"%string, Exit 2, fs) /\
  command v fs Parse (lit "x.py") [lit "--debug=3"; lit "f"] = (says Parse "--debug option does not take a value"%string, Exit 2, fs) /\
  command v fs ListInstructions (lit "x.py") [lit "FOO,X"; lit "f"] = (says ListInstructions "ERROR: invalid opcode ""FOO,X"""%string, Exit 2, fs) /\
  command v fs Genpages (lit "x.py") [lit "f"] = (says Genpages "Cannot determine log section!"%string, Exit 2, fs) /\
  command v fs Genpages (lit "x.py") [lit "g"] = (says Genpages "Filename g does not exist!"%string, Exit 2, fs) /\
  wrong_line fs FindSymbols [lit "X"; lit "--e=1"] (lit "ambiguous option: --e (--end, --exact?)").
Proof.
  cbv zeta. do 8 (split; [vm_compute; reflexivity|]). left. apply wo_arg; [right; intros r; discriminate|]. apply wo_word.
  apply (ww_ambiguous _ (lit "e") (lit "=1") [lit "--end"; lit "--exact"]).
  - cbn. intuition discriminate.
  - right. eexists. reflexivity.
  - discriminate.
  - intros (f & I & E). cbn in I. intuition (subst f; discriminate).
  - split.
    + repeat constructor; try discriminate; reflexivity.
    + intros w. split.
      * intros [<-|[<-|[]]].
        -- exists (lit "end"). split; [exists (mkflag 101 (lit "end")); split; [cbn; auto 12|reflexivity]|]. split; [eexists; reflexivity|reflexivity].
        -- exists (lit "exact"). split; [exists (mkflag 120 (lit "exact")); split; [cbn; auto 12|reflexivity]|]. split; [eexists; reflexivity|reflexivity].
      * intros (l & (f & I & <-) & (r & E) & ->). cbn in I. intuition (subst f; try discriminate; cbn; auto).
  - reflexivity.
Qed.

Theorem C142_help : forall v fs t prog words, asks_help (options t) words ->
  command v fs t prog words = (e_help v t, Exit 0, fs).
Proof. exact (@C142_help_pf). Qed.
Print Assumptions C142_help.

Example C142_help_ex : let v := mkenv (fun _ _ => []) (fun _ _ _ => []) (fun s => s) (fun s => s) (fun _ => []) 3 (fun _ => [OutL (lit "help")]) in
  command v (fun _ => None) Listing (lit "x.py") [lit "f"; lit "-vh"; lit "-z"] = ([OutL (lit "help")], Exit 0, fun _ => None) /\
  asks_help (options Listing) [lit "f"; lit "-vh"; lit "-z"].
Proof.
  split; [vm_compute; reflexivity|]. apply ah_arg; [right; intros r; discriminate|]. apply (ah_letter _ 104 [118] [lit "verbose"] []); [discriminate| |].
  - repeat constructor. eexists. split; [right; left; reflexivity|]. split; reflexivity.
  - eexists. split; [left; reflexivity|]. split; reflexivity.
Qed.

Theorem C142_starts : forall v fs t prog words on args, understood (options t) words on args -> (forall reason, ~ misuse fs t on args reason) ->
  exists ls st fs', command v fs t prog words = (ls, st, fs') /\ runs v fs on args t ls st fs'.
Proof. exact (@C142_starts_pf). Qed.
Print Assumptions C142_starts.

Example C142_starts_ex : let v := mkenv (fun _ _ => []) (fun _ _ _ => []) (fun s => s) (fun s => s) (fun _ => []) 3 (fun _ => [OutL (lit "help")]) in let fs := fun f => if eqb f (lit "f") then Some (lit "                   FOO") else None in
  exists on args, understood (options Parse) [lit "f"; lit "--deb"] on args /\ (forall reason, ~ misuse fs Parse on args reason) /\
  fst (command v fs Parse (lit "x.py") [lit "f"; lit "--deb"]) =
    ([ErrL (lit "f: 0 errors encountered building symbol table."); OutL (lit "f 1                    FOO");
      OutL (lit "*** ERROR: Invalid instruction ""FOO"":"); OutL (lit "File f, line 1:                    FOO");
      OutL (10 :: lit "Source lines: 1"); OutL (lit "1 error encountered.")], Exit 0).
Proof.
  cbv zeta. exists [lit "debug"], [lit "f"]. split; [|split].
  - apply ud_arg; [right; intros r; discriminate|]. apply (ud_opt _ _ [lit "debug"]); [|intros [H|[]]; discriminate|constructor].
    apply ow_name; [discriminate|cbn; intuition discriminate|]. apply nm_abbrev.
    + intros (f & I & E). cbn in I. intuition (subst f; discriminate).
    + eexists. split; [right; left; reflexivity|reflexivity].
    + eexists. reflexivity.
    + intros l (f & I & <-) (r & E). cbn in I. intuition (subst f; try discriminate; reflexivity).
  - intros m M. inversion M.
  - vm_compute. reflexivity.
Qed.

Theorem C142_only : forall v fs t prog words ls fs', command v fs t prog words = (ls, Exit 2, fs') ->
  exists reason, wrong_line fs t words reason /\ ls = refused t prog reason /\ fs' = fs.
Proof. exact (@C142_only_pf). Qed.
Print Assumptions C142_only.

Example C142_only_ex : let v := mkenv (fun _ _ => []) (fun _ _ _ => []) (fun s => s) (fun s => s) (fun _ => []) 3 (fun _ => [OutL (lit "help")]) in let fs := fun f => if eqb f (lit "f") then Some (lit "R 1") else None in
  snd (fst (command v fs Genlines (lit "x.py") [lit "1"; lit "2"])) = Exit 0 /\
  snd (fst (command v fs Genlines (lit "x.py") [lit "1"; lit "2000000"])) = Exit 2 /\
  snd (fst (command v fs Genlines (lit "x.py") [lit "1"; lit "x"])) = Died ValueError /\
  snd (fst (command v fs ListSymbols (lit "x.py") [lit "f"; lit "g"])) = Exit 1 /\
  snd (fst (command v fs ListSymbols (lit "x.py") [lit "f"])) = Exit 0.
Proof. vm_compute. repeat split. Qed.

Theorem C143_success_partial : forall v fs t prog words on args css, reads_only t -> understood (options t) words on args ->
  (forall reason, ~ misuse fs t on args reason) -> Forall2 (source_cards (e_fuel v) fs) (sources t args) css -> (keeps_table t -> plain_names (sources t args)) ->
  (t = CheckInstructions -> In (lit "count") on -> exists c, In c (concat css) /\ instr_card c) ->
  exists ls, command v fs t prog words = (ls, Exit 0, fs).
Proof. exact (@C143_success_partial_pf). Qed.
Print Assumptions C143_success_partial.

Example C143_success_partial_ex : let v := mkenv (fun _ _ => []) (fun _ _ _ => []) (fun s => s) (fun s => s) (fun _ => []) 3 (fun _ => [OutL (lit "help")]) in
  let fs := fun f => if eqb f (lit "f") then Some (lit "                   DA    X") else None in
  snd (fst (command v fs CheckInstructions (lit "x.py") [lit "-c"; lit "f"])) = Exit 0 /\
  snd (fst (command v fs CheckInstructions (lit "x.py") [lit "-c"; lit "e"])) = Exit 1 /\
  fst (command v (fun _ => Some []) CheckInstructions (lit "x.py") [lit "-c"; lit "f"]) =
    ([OutL (10 :: lit "Source lines: 0"); OutL (10 :: lit "Instruction Frequencies:"); OutL (ci_row (lit "Total") 0 (lit "100.00"))],
     Died ZeroDivisionError) /\
  map (fun t => snd (fst (command v fs t (lit "x.py") [lit "DA"; lit "f"]))) [FindSymbols; ListInstructions] = [Exit 0; Exit 0] /\
  map (fun t => snd (fst (command v fs t (lit "x.py") [lit "f"]))) [CheckSymbols; ListSymbols; Parse] = [Exit 0; Exit 0; Exit 0].
Proof. vm_compute. repeat split. Qed.

Theorem C143_unreadable_partial : forall v fs t prog words on args pre css f post e, reads_only t -> understood (options t) words on args ->
  (forall reason, ~ misuse fs t on args reason) -> sources t args = pre ++ f :: post ->
  Forall2 (source_cards (e_fuel v) fs) pre css -> (keeps_table t -> plain_names pre) -> load (e_fuel v) fs f = Err e ->
  exists ls st, command v fs t prog words = (ls, st, fs) /\ ends_as (Err e : res unit) st.
Proof. exact (@C143_unreadable_partial_pf). Qed.
Print Assumptions C143_unreadable_partial.

Example C143_unreadable_partial_ex : let v := mkenv (fun _ _ => []) (fun _ _ _ => []) (fun s => s) (fun s => s) (fun _ => []) 3 (fun _ => [OutL (lit "help")]) in
  let fs := fun f => if eqb f (lit "f") then Some (lit "                   DA    X") else if eqb f (lit "self") then Some (lit "$self") else None in
  let ends name := map (fun t => snd (fst (command v fs t (lit "x.py") [lit "DA"; lit "f"; lit name; lit "f"]))) [FindSymbols; ListInstructions] ++
    map (fun t => snd (fst (command v fs t (lit "x.py") [lit "f"; lit name; lit "f"]))) [CheckInstructions; CheckSymbols; ListSymbols; Parse] in
  ends "g"%string = [Exit 1; Exit 1; Exit 1; Exit 1; Exit 1; Exit 1] /\
  ends "self"%string = [Died RecursionError; Died RecursionError; Died RecursionError; Died RecursionError; Died RecursionError; Died RecursionError] /\
  ends "f"%string = [Exit 0; Exit 0; Exit 0; Exit 0; Exit 0; Exit 0].
Proof. vm_compute. repeat split. Qed.

Theorem C143_instructions_refuted : forall v fs prog words on files css n, understood (options CheckInstructions) words on files -> files <> [] ->
  Forall2 (source_cards (e_fuel v) fs) files css -> (In (lit "count") on -> exists c, In c (concat css) /\ instr_card c) ->
  count_of (fun c => ~ starred c /\ exists m, instr_is c m /\ ~ In m INSTRUCTIONS) (concat css) n ->
  exists ls, command v fs CheckInstructions prog words = (ls ++ [OutL (error_count n)], Exit 0, fs).
Proof. exact (@C143_instructions_refuted_pf). Qed.
Print Assumptions C143_instructions_refuted.

Example C143_instructions_refuted_ex : let v := mkenv (fun _ _ => []) (fun _ _ _ => []) (fun s => s) (fun s => s) (fun _ => []) 3 (fun _ => [OutL (lit "help")]) in
  let fs := fun f => if eqb f (lit "f") then Some (lit "                   FOO" ++ [10] ++ lit "                   BAR") else None in
  fst (command v fs CheckInstructions (lit "x.py") [lit "f"]) =
    ([OutL (lit "*** ERROR: Invalid instruction ""FOO"":"); OutL (lit "File f, line 1:                    FOO");
      OutL (lit "*** ERROR: Invalid instruction ""BAR"":"); OutL (lit "File f, line 2:                    BAR");
      OutL (error_count 2)], Exit 0).
Proof. vm_compute. reflexivity. Qed.

Theorem C143_symbols_refuted : forall v fs prog words on verbose files css, understood (options CheckSymbols) words on files -> files <> [] ->
  turned_on on "verbose" verbose -> Forall2 (source_cards (e_fuel v) fs) files css -> plain_names files ->
  exists mss tables rest, command v fs CheckSymbols prog words = (tables ++ rest, Exit 0, fs) /\
    tables_said (e_upper v) (e_rep v) (e_card_rep v) (e_fuel v) fs verbose true files mss tables.
Proof. exact (@C143_symbols_refuted_pf). Qed.
Print Assumptions C143_symbols_refuted.

Example C143_symbols_refuted_ex : let v := mkenv (fun _ _ => []) (fun _ _ _ => []) (fun s => s) (fun s => s) (fun _ => []) 3 (fun _ => [OutL (lit "help")]) in
  let fs := fun f => if eqb f (lit "f") then Some (lit "        A          ASSIGN       1" ++ [10] ++ lit "        A,B,C,D    DEC          1") else None in
  fst (command v fs CheckSymbols (lit "x.py") [lit "-c"; lit "f"]) =
    ([ErrL (lit "*** ERROR: Symbol A,B,C,D is illegal, too many commas!");
      ErrL (lit "Current definition: {'file': f, 'line': 2, 'lognum': None, 'tagtype':  , 'card': }");
      ErrL (lit "f: 1 errors encountered building symbol table.");
      ErrL (lit "ERROR: symbol ""A"" has a complex assignment, but no simple assignment!"); ErrL []; ErrL (lit "Undefined symbols:");
      ErrL (lit "  A - No matches!"); ErrL (lit "1 errors checking symbol table.")], Exit 0).
Proof. vm_compute. reflexivity. Qed.

Theorem C143_listing_partial : forall v fs prog words on verbose files ls fs', understood (options Listing) words on files -> turned_on on "verbose" verbose ->
  (command v fs Listing prog words = (ls, Exit 0, fs') -> listings (e_fuel v) verbose fs files ls fs') /\
  (command v fs Listing prog words = (ls, Exit 1, fs') ->
    exists pre f post l1 log m, files = pre ++ f :: post /\ listings (e_fuel v) verbose fs pre l1 fs' /\ stops_at fs' f log m /\
      ls = l1 ++ (if verbose then log else []) ++ [ErrL m]).
Proof. exact (@C143_listing_partial_pf). Qed.
Print Assumptions C143_listing_partial.

Example C143_listing_partial_ex : let v := mkenv (fun _ _ => []) (fun _ _ _ => []) (fun s => s) (fun s => s) (fun _ => []) 3 (fun _ => [OutL (lit "help")]) in
  let fs := fun f => if eqb f (lit "a.arg") then Some (lit "R 1") else None in
  fst (command v fs Listing (lit "x.py") [lit "-v"; lit "a.arg"; lit "b.arg"]) =
    ([OutL (lit "Reading a.arg..."); OutL (lit "Wrote listing file to a.lst"); ErrL (lit "ERROR: File ""b.arg"" does not exist!")], Exit 1) /\
  fst (command v fs Listing (lit "x.py") [lit "a.arg"]) = ([], Exit 0) /\
  snd (command v fs Listing (lit "x.py") [lit "a.arg"; lit "b.arg"]) (lit "a.lst") <> None.
Proof. vm_compute. split; [reflexivity|]. split; [reflexivity|discriminate]. Qed.
