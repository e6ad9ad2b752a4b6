(** Property theorems; generated from LSource.v by meta/genp.py. *)
From Verif Require Import Py LPy MInstruction MCards SCards LCards LDeck MSymbols SSymbols LSymBuild MInstructions MTools STools LTools LToolSym LListTool MDiag SDiag LQuiet MDump MVerbose SVerbose LVerbose STranscript LTranscript MOptions SOptions LOptions MProcess SProcess LProcess SEnds LEnds SSource LSource.

Theorem C147_faults : forall fs prog words on files outs,
  understood (options CheckInstructions) words on files ->
  (forall x, In x ["verbose"; "count"; "print-opcodes"; "unused"]%string -> ~ In (lit x) on) ->
  files <> [] -> ~ In [] files -> Forall2 (source fs) files outs ->
  exists k, forall v, (k <= e_fuel v)%nat -> exists faults,
    command v fs CheckInstructions prog words = (concat faults ++ [OutL (error_count (zlen faults))], Exit 0, fs) /\
    picked mnemonic_fault (concat outs) faults.
Proof. exact (@C147_faults_pf). Qed.
Print Assumptions C147_faults.

Example C147_faults_ex : let v := mkenv (fun _ _ => lit " 50.00") (fun _ _ _ => []) (fun s => map (fun c => if (97 <=? c) && (c <=? 122) then c - 32 else c) s) (fun s => s) (fun _ => []) 3 (fun _ => []) in
  Forall2 (source sample) [lit "a.arg"] [sample_lines] /\ understood (options CheckInstructions) [lit "a.arg"] [] [lit "a.arg"] /\
  fst (command v sample CheckInstructions (lit "x.py") [lit "a.arg"]) =
    ([OutL (lit "*** ERROR: Invalid instruction ""FOO"":"); OutL (lit "File a.arg, line 6:   12    A          FOO");
      OutL (lit "1 error encountered.")], Exit 0).
Proof.
  split; [constructor; [exact sample_ok|constructor]|]. split; [apply ud_arg; [right; intros r; discriminate|constructor]|]. vm_compute. reflexivity.
Qed.

Theorem C147_count : forall fs prog words on files outs total,
  understood (options CheckInstructions) words on files -> In (lit "count") on ->
  (forall x, In x ["verbose"; "print-opcodes"; "unused"]%string -> ~ In (lit x) on) ->
  files <> [] -> ~ In [] files -> Forall2 (source fs) files outs ->
  count_of (fun x => exists m, mnemonic_at (text_of x) m) (concat outs) total -> total <> 0 ->
  exists k, forall v, (k <= e_fuel v)%nat -> exists faults rows,
    command v fs CheckInstructions prog words =
      (concat faults ++
       [OutL (10 :: lit "Source lines: " ++ str_of_Z (zlen (concat outs))); OutL (10 :: lit "Instruction Frequencies:");
        OutL (freq_line (lit "Total") total (lit "100.00"))] ++
       map (fun r => OutL (freq_line (fst r) (snd r) (e_pct v (snd r) total))) rows ++
       [OutL (error_count (zlen faults))], Exit 0, fs) /\
    picked mnemonic_fault (concat outs) faults /\
    NoDup (map fst rows) /\
    (forall m n, In (m, n) rows <->
       In m INSTRUCTIONS /\ count_of (fun x => ~ starred_line (text_of x) /\ mnemonic_at (text_of x) m) (concat outs) n) /\
    (In (lit "sort") on -> StronglySorted by_frequency rows) /\
    (~ In (lit "sort") on -> StronglySorted (fun a b => str_lt (fst a) (fst b)) rows).
Proof. exact (@C147_count_pf). Qed.
Print Assumptions C147_count.

Example C147_count_ex : let v := mkenv (fun _ _ => lit " 50.00") (fun _ _ _ => []) (fun s => map (fun c => if (97 <=? c) && (c <=? 122) then c - 32 else c) s) (fun s => s) (fun _ => []) 3 (fun _ => []) in
  Forall2 (source sample) [lit "a.arg"] [sample_lines] /\ understood (options CheckInstructions) [lit "-c"; lit "a.arg"] [lit "count"] [lit "a.arg"] /\
  firstn 5 (fst (fst (command v sample CheckInstructions (lit "x.py") [lit "-c"; lit "a.arg"]))) =
    [OutL (lit "*** ERROR: Invalid instruction ""FOO"":"); OutL (lit "File a.arg, line 6:   12    A          FOO");
     OutL (10 :: lit "Source lines: 6"); OutL (10 :: lit "Instruction Frequencies:"); OutL (lit "Total         4  100.00%")] /\
  In (OutL (lit "DA            1   50.00%")) (fst (fst (command v sample CheckInstructions (lit "x.py") [lit "-c"; lit "a.arg"]))).
Proof.
  split; [constructor; [exact sample_ok|constructor]|]. split.
  - apply (ud_opt _ _ [lit "count"]).
    + apply (ow_letters _ 99 []); [discriminate|]. constructor; [|constructor]. eexists. split; [right; right; left; reflexivity|]. split; reflexivity.
    + cbn. intuition discriminate.
    + apply ud_arg; [right; intros r; discriminate|constructor].
  - split; [vm_compute; reflexivity|]. vm_compute. tauto.
Qed.

Theorem C148_found : forall fs prog words on details opcode m files outs,
  understood (options ListInstructions) words on (opcode :: files) -> ~ In (lit "verbose") on -> turned_on on "details" details ->
  mnemonic_of opcode m -> In m INSTRUCTIONS -> ~ In [] files -> Forall2 (source fs) files outs ->
  exists k, forall v, (k <= e_fuel v)%nat -> exists ys,
    command v fs ListInstructions prog words = (map OutL ys, Exit 0, fs) /\ picked (line_found opcode details) (concat outs) ys.
Proof. exact (@C148_found_pf). Qed.
Print Assumptions C148_found.

Example C148_found_ex : let v := mkenv (fun _ _ => lit " 50.00") (fun _ _ _ => []) (fun s => map (fun c => if (97 <=? c) && (c <=? 122) then c - 32 else c) s) (fun s => s) (fun _ => []) 3 (fun _ => []) in
  Forall2 (source sample) [lit "a.arg"] [sample_lines] /\ mnemonic_of (lit "DA") (lit "DA") /\ In (lit "DA") INSTRUCTIONS /\
  fst (command v sample ListInstructions (lit "x.py") [lit "DA"; lit "a.arg"]) = ([OutL (lit "        A          DA,B         1")], Exit 0).
Proof.
  split; [constructor; [exact sample_ok|constructor]|]. split; [left; split; [cbn; intuition discriminate|reflexivity]|].
  split; [apply inb_In; vm_compute; reflexivity|]. vm_compute. reflexivity.
Qed.

Theorem C149_listing : forall fs prog words on f out, understood (options Listing) words on [f] -> ~ In (lit "verbose") on ->
  f <> [] -> source fs f out ->
  exists k, forall v, (k <= e_fuel v)%nat -> exists name fs', list_name f name /\
    command v fs Listing prog words = ([], Exit 0, fs') /\
    fs' name = Some (concat (map listed out)) /\ forall g, g <> name -> fs' g = fs g.
Proof. exact (@C149_listing_pf). Qed.
Print Assumptions C149_listing.

Example C149_listing_ex : let v := mkenv (fun _ _ => lit " 50.00") (fun _ _ _ => []) (fun s => map (fun c => if (97 <=? c) && (c <=? 122) then c - 32 else c) s) (fun s => s) (fun _ => []) 3 (fun _ => []) in
  source sample (lit "a.arg") sample_lines /\ list_name (lit "a.arg") (lit "a.lst") /\
  snd (command v sample Listing (lit "x.py") [lit "a.arg"]) (lit "a.lst") = Some (concat (map listed sample_lines)) /\
  listed (lit "inc", 2, lit "        x" ++ [10]) =
    lit "inc                                                              2              x" ++ [10].
Proof.
  split; [exact sample_ok|]. split; [left; exists (lit "a"), (lit "arg"); repeat split; cbn; intuition discriminate|]. split; vm_compute; reflexivity.
Qed.

Theorem C150_table : forall fs f seg out, f <> [] -> segment_of f seg -> ~ is_kind seg -> source fs f out ->
  exists k, forall upper fuel, (k <= fuel)%nat -> exists tab n,
    build_symbol_table upper fuel fs f [] = Ok (tab, n) /\
    count_of (fun x => label_fault upper (text_of x)) out n /\
    (forall tag ss kind x tt, latest upper out tag ss kind x tt -> exists e, get4 tab tag seg ss kind = Some e /\ made_from x tt e) /\
    (forall tag sg ss kind e, get4 tab tag sg ss kind = Some e -> sg = seg /\ exists x tt, latest upper out tag ss kind x tt /\ made_from x tt e).
Proof. exact (@C150_table_pf). Qed.
Print Assumptions C150_table.

Example C150_table_ex : let up := map (fun c => if (97 <=? c) && (c <=? 122) then c - 32 else c) in
  source sample (lit "a.arg") sample_lines /\ segment_of (lit "a.arg") (lit "a") /\
  exists tab e, build_symbol_table up 3 sample (lit "a.arg") [] = Ok (tab, 1) /\
    get4 tab (lit "A") (lit "a") (lit "1") (lit "simple") = Some e /\ e_line e = 6 /\ e_lognum e = RStr (lit "12") /\
    get4 tab (lit "N") (lit "a") (lit "1") (lit "complex") <> None /\
    latest up sample_lines (lit "A") (lit "1") (lit "simple") (lit "a.arg", 6, lit "  12    A          FOO") (lit " ").
Proof.
  intros up. split; [exact sample_ok|]. split; [right; exists (lit "arg"); split; [reflexivity|cbn; intuition discriminate]|].
  eexists. eexists. split; [vm_compute; reflexivity|]. split; [vm_compute; reflexivity|]. split; [reflexivity|]. split; [reflexivity|]. split; [vm_compute; discriminate|].
  exists (firstn 5 sample_lines), []. split; [reflexivity|].
  assert (NR : ~ remark_line (lit "  12    A          FOO")) by (intros (c & E & I); injection E as <-; cbn in I; intuition discriminate).
  split; [split; [discriminate|]; exists (lit "A"), (lit "FOO"); split; [split; [exact NR|exists (lit "A"); split; [apply strip_ex; reflexivity|split; [discriminate|reflexivity]]]|];
    split; [split; [reflexivity|left; repeat split; cbn; intuition discriminate]|]; split; [split; [exact NR|split; [apply strip_ex; reflexivity|discriminate]]|];
    right; split; [discriminate|reflexivity]|].
  split; [|intros a y b t E; destruct a; discriminate E]. left. split; [|reflexivity].
  intros x u I (_ & r & (_ & T & _) & _). apply strip_ex in T. repeat (destruct I as [<-|I]; [vm_compute in T; discriminate T|]). destruct I.
Qed.

Theorem C151_parse : forall fs prog words on f seg out n bad, understood (options Parse) words on [f] ->
  ~ In (lit "verbose") on -> ~ In (lit "debug") on -> f <> [] -> segment_of f seg -> ~ is_kind seg -> source fs f out ->
  count_of (fun x => exists ls, mnemonic_fault x ls) out bad ->
  exists k, forall v, (k <= e_fuel v)%nat -> count_of (fun x => label_fault (e_upper v) (text_of x)) out n ->
    exists said, command v fs Parse prog words =
      (said ++ [OutL (10 :: lit "Source lines: " ++ str_of_Z (zlen out)); OutL (error_count (n + bad))], Exit 0, fs).
Proof. exact (@C151_parse_pf). Qed.
Print Assumptions C151_parse.

Example C151_parse_ex : let v := mkenv (fun _ _ => lit " 50.00") (fun _ _ _ => []) (fun s => map (fun c => if (97 <=? c) && (c <=? 122) then c - 32 else c) s) (fun s => s) (fun _ => []) 3 (fun _ => []) in
  source sample (lit "a.arg") sample_lines /\
  (exists said, fst (command v sample Parse (lit "x.py") [lit "a.arg"]) =
    (said ++ [OutL (10 :: lit "Source lines: 6"); OutL (lit "2 errors encountered.")], Exit 0)) /\
  label_fault (e_upper v) (lit "        x" ++ [10]).
Proof.
  intros v. split; [exact sample_ok|]. split.
  - vm_compute. match goal with |- exists s, (?l, _) = _ => exists (firstn (List.length l - 2) l) end. reflexivity.
  - split; [discriminate|]. exists (lit "x"). split; [split; [intros (c & E & I); injection E as <-; cbn in I; intuition discriminate|]|].
    + exists (lit "x"). split; [apply strip_ex; reflexivity|split; [discriminate|reflexivity]].
    + left. intros a b [E _]. discriminate E.
Qed.
