(** Property theorems; generated from LDump.v by meta/genp.py. *)
From Verif Require Import Py LPy MCards SCards LInstructions LCards LDeck MSymbols SSymbols LSymBuild LSymQuery MTools STools LTools LToolSym MDiag SDiag LDiag MDump SDump LDump.

Theorem C135_blocks : forall upper rep card_rep fuel fs filename tab ms tab' r,
  build_table_run upper fuel fs filename tab = (ms, tab', r) ->
  exists blocks, Forall2 block_of ms blocks /\ dump_table_run upper rep card_rep fuel fs filename tab = (concat blocks, tab', r).
Proof. exact (@C135_blocks_pf). Qed.
Print Assumptions C135_blocks.

Example C135_blocks_ex :
  let fs := fun f : str => Some (lit "        A          DEC          1" ++ [10] ++ lit "        A          HEX" ++ [10] ++ lit "        Q,A        DEC") in
  fst (fst (dump_table_run (fun s => s) (fun s => [39] ++ s ++ [39]) (fun _ => lit "<card>") 1 fs (lit "simple.arg") [])) =
  [lit "*** ERROR: Symbol A is multiply-defined!";
   lit "Previous definitions: {'simple': {'file': 'simple.arg', 'line': 1, 'lognum': None, 'tagtype': ' ', 'card': <card>}}";
   lit "Current definition: {'file': 'simple.arg', 'line': 2, 'lognum': None, 'tagtype': ' ', 'card': <card>}"; lit "command: HEX";
   lit "*** ERROR: Symbol Q,A is ill-formed (tag prefix)!";
   lit "Current definition: {'file': 'simple.arg', 'line': 3, 'lognum': None, 'tagtype': ' ', 'card': <card>}"].
Proof. vm_compute. reflexivity. Qed.

Theorem C135_dumps : forall upper rep card_rep fuel fs filename seg cs tab,
  segment_of filename seg -> ~ is_kind seg -> plain_table tab -> source_cards fuel fs filename cs ->
  exists ls tab' n, dump_table_run upper rep card_rep fuel fs filename tab = (ls, tab', Ok n) /\ dumped upper rep card_rep cs ls.
Proof. exact (@C135_dumps_pf). Qed.
Print Assumptions C135_dumps.

Example C135_dumps_ex :
  let fs := fun f : str => Some (lit "        A          DEC          1" ++ [10] ++ lit "#1" ++ [10] ++ lit " 12     F,A") in
  fst (fst (dump_table_run (fun s => s) (fun s => [39] ++ s ++ [39]) (fun _ => lit "<card>") 1 fs (lit "p.arg") [])) =
  [lit "*** ERROR: Symbol F,A has no operation!";
   lit "Current definition: {'file': 'p.arg', 'line': 3, 'lognum': '12', 'tagtype': 'F', 'card': <card>}"].
Proof. vm_compute. reflexivity. Qed.

Theorem C135_multiple : forall upper rep card_rep seg (tab : symtab) n c cs tag kind tagtype (sg : segs) (ss : subsegs) (ks : kinds) (defs : subsegs) op,
  proper_card c -> defines upper c tag kind tagtype -> card_get c "operation" = Ok (RStr op) -> op <> lit "EQUALS" ->
  (forall s, ~ setloc c s) -> dget tab tag = Some sg -> dget sg seg = Some ss -> dget sg kind = Some defs ->
  forall subseg, dget ss subseg = Some ks ->
  exists items d ls st r, Forall2 (entry_item rep card_rep) ks items /\ definition_text rep card_rep c (Some tagtype) d /\
    dump_run upper rep card_rep seg (subseg, tab, n) cs = (ls, st, r) /\
    dump_run upper rep card_rep seg (subseg, tab, n - 1) (c :: cs) =
      ([lit "*** ERROR: Symbol " ++ tag ++ lit " is multiply-defined!"; lit "Previous definitions: " ++ dict_text items;
        lit "Current definition: " ++ d; lit "command: " ++ op] ++ ls, st, r).
Proof. exact (@C135_multiple_pf). Qed.
Print Assumptions C135_multiple.

Example C135_multiple_ex :
  let fs := fun f : str => Some (lit "        A          DEC" ++ [10] ++ lit "        A          ASSIGN" ++ [10] ++ lit "        A          HEX") in
  nth 1 (fst (fst (dump_table_run (fun s => s) (fun s => [39] ++ s ++ [39]) (fun _ => lit "<card>") 1 fs (lit "simple.arg") []))) [] =
   lit "Previous definitions: {'simple': {'file': 'simple.arg', 'line': 1, 'lognum': None, 'tagtype': ' ', 'card': <card>}, 'complex': {'file': 'simple.arg', 'line': 2, 'lognum': None, 'tagtype': ' ', 'card': <card>}}".
Proof. vm_compute. reflexivity. Qed.
