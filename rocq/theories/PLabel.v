(** Property theorems; generated from LLabel.v by meta/genp.py. *)
From Verif Require Import Py LPy MCards SCards LCards LDeck MSymbols SSymbols LSymBuild MInstructions MTools STools LTools LToolSym MDiag MVerbose SVerbose MOptions SOptions MProcess SProcess SEnds LEnds SSource LSource SLabel LLabel.

Theorem C158_case : forall upper s, raises upper -> ascii s -> (upper s = s <-> forall c, In c s -> ~ small c).
Proof. exact (@C158_case_pf). Qed.
Print Assumptions C158_case.

Example C158_case_ex : let up := map (fun c => if (97 <=? c) && (c <=? 122) then c - 32 else c) in
  raises up /\ ascii (lit "LOOP.1") /\ up (lit "LOOP.1") = lit "LOOP.1" /\ up (lit "LOoP.1") <> lit "LOoP.1".
Proof.
  split; [intros s _; reflexivity|]. split; [repeat (constructor; [split; [intros E; vm_compute in E; discriminate E|vm_compute; reflexivity]|]); constructor|]. split; [reflexivity|discriminate].
Qed.

Theorem C158_table : forall fs f seg out, f <> [] -> segment_of f seg -> ~ is_kind seg -> source fs f out -> all_ascii out ->
  exists k, forall upper fuel, (k <= fuel)%nat -> raises upper -> exists tab n,
    build_symbol_table upper fuel fs f [] = Ok (tab, n) /\
    count_of (fun x => label_mistake (text_of x)) out n /\
    (forall tag ss kind x tt, last_label out tag ss kind x tt -> exists e, get4 tab tag seg ss kind = Some e /\ made_from x tt e) /\
    (forall tag sg ss kind e, get4 tab tag sg ss kind = Some e -> sg = seg /\ exists x tt, last_label out tag ss kind x tt /\ made_from x tt e).
Proof. exact (@C158_table_pf). Qed.
Print Assumptions C158_table.

Example C158_table_ex : let up := map (fun c => if (97 <=? c) && (c <=? 122) then c - 32 else c) in
  source sample (lit "a.arg") sample_lines /\ all_ascii sample_lines /\
  (exists tab, build_symbol_table up 3 sample (lit "a.arg") [] = Ok (tab, 1)) /\ label_mistake (lit "        x" ++ [10]).
Proof.
  intros up. split; [exact sample_ok|]. split.
  { intros x I. unfold ascii. repeat (destruct I as [<-|I]; [repeat (constructor; [split; [intros E; vm_compute in E; discriminate E|vm_compute; reflexivity]|]); constructor|]). destruct I. }
  split; [eexists; vm_compute; reflexivity|].
  split; [discriminate|]. exists (lit "x"). split; [split; [intros (c & E & I); injection E as <-; cbn in I; intuition discriminate|]|].
  - exists (lit "x"). split; [apply strip_ex; reflexivity|split; [discriminate|reflexivity]].
  - left. apply (mk_small _ 120); [left; reflexivity|]. unfold small. lia.
Qed.

Theorem C158_parse : forall fs prog words on f seg out n bad, understood (options Parse) words on [f] ->
  ~ In (lit "verbose") on -> ~ In (lit "debug") on -> f <> [] -> segment_of f seg -> ~ is_kind seg -> source fs f out -> all_ascii out ->
  count_of (fun x => exists ls, mnemonic_fault x ls) out bad -> count_of (fun x => label_mistake (text_of x)) out n ->
  exists k, forall v, (k <= e_fuel v)%nat -> raises (e_upper v) ->
    exists said, command v fs Parse prog words =
      (said ++ [OutL (10 :: lit "Source lines: " ++ str_of_Z (zlen out)); OutL (error_count (n + bad))], Exit 0, fs).
Proof. exact (@C158_parse_pf). Qed.
Print Assumptions C158_parse.

Example C158_parse_ex : let v := mkenv (fun _ _ => lit " 50.00") (fun _ _ _ => []) (fun s => map (fun c => if (97 <=? c) && (c <=? 122) then c - 32 else c) s) (fun s => s) (fun _ => []) 3 (fun _ => []) in
  raises (e_upper v) /\ source sample (lit "a.arg") sample_lines /\
  exists said, fst (command v sample Parse (lit "x.py") [lit "a.arg"]) =
    (said ++ [OutL (10 :: lit "Source lines: 6"); OutL (lit "2 errors encountered.")], Exit 0).
Proof.
  intros v. split; [intros s _; reflexivity|]. split; [exact sample_ok|].
  vm_compute. match goal with |- exists s, (?l, _) = _ => exists (firstn (List.length l - 2) l) end. reflexivity.
Qed.
