(** Property theorems; generated from LFound.v by meta/genp.py. *)
From Verif Require Import Py LPy MCards SCards LCards LDeck MSymbols SSymbols LSymBuild LSymQuery MTools STools LTools LToolSym MDiag SDiag LDiag MDump SDump LDump MVerbose SVerbose LVerbose STranscript LTranscript SFound LFound.

Theorem C141_definitions : forall extract upper rep card_rep fuel fs v exact symbol files css, files <> [] ->
  Forall2 (source_cards fuel fs) files css -> plain_names files -> is_defined upper css symbol ->
  exists tables mss l ds t r,
    find_symbols_verbose extract upper rep card_rep fuel fs v false false false exact (symbol :: files) = (tables ++ [OutL t], Ok r) /\
    tables_said upper rep card_rep fuel fs v true files mss tables /\
    all_made upper symbol files css l /\ answer_from l ds /\ answer_text rep card_rep ds t.
Proof. exact (@C141_definitions_pf). Qed.
Print Assumptions C141_definitions.

Example C141_definitions_ex :
  let fs := fun f => if eqb f (lit "q.a") then Some (lit "        B          ASSIGN       1" ++ [10] ++ lit "                   SETLOC,7" ++ [10] ++ lit "        F,B        DEC          1")
                     else if eqb f (lit "p.a") then Some (lit "        B          DEC          1" ++ [10] ++ lit "        B          DEC          2") else None in
  fst (find_symbols_verbose (fun _ _ _ => []) (fun s => s) quoted a_card 2 fs false false false false true [lit "B"; lit "q.a"; lit "p.a"]) =
    [ErrL (lit "q.a: 0 errors encountered building symbol table."); ErrL (lit "p.a: 0 errors encountered building symbol table.");
     OutL (lit "{'q': {'1': {'complex': {'file': 'q.a', 'line': 1, 'lognum': None, 'tagtype': ' ', 'card': <card>}}, "
        ++ lit "'7': {'simple': {'file': 'q.a', 'line': 3, 'lognum': None, 'tagtype': 'F', 'card': <card>}}}, "
        ++ lit "'p': {'1': {'simple': {'file': 'p.a', 'line': 2, 'lognum': None, 'tagtype': ' ', 'card': <card>}}}}")].
Proof. vm_compute. reflexivity. Qed.

Theorem C141_determined : forall upper rep card_rep symbol files css l ds t l' ds' t',
  all_made upper symbol files css l -> answer_from l ds -> answer_text rep card_rep ds t ->
  all_made upper symbol files css l' -> answer_from l' ds' -> answer_text rep card_rep ds' t' -> l = l' /\ ds = ds' /\ t = t'.
Proof. exact (@C141_determined_pf). Qed.
Print Assumptions C141_determined.

Example C141_determined_ex : forall e1 e2 e3 : tabent,
  answer_from [(lit "q", (lit "1", (lit "simple", e1))); (lit "p", (lit "1", (lit "complex", e2))); (lit "q", (lit "1", (lit "simple", e3)))]
    [(lit "q", [(lit "1", [(lit "simple", e3)])]); (lit "p", [(lit "1", [(lit "complex", e2)])])].
Proof.
  intros e1 e2 e3. split; [reflexivity|]. intros k v [[= <- <-]|[[= <- <-]|[]]]; (split; [reflexivity|]); intros k v [[= <- <-]|[]];
    (split; [reflexivity|]); intros k v [[= <- <-]|[]]; [exists [e1]|exists []]; reflexivity.
Qed.

Theorem C141_names : forall extract upper rep card_rep fuel fs v begin end_ symbol files css, files <> [] ->
  Forall2 (source_cards fuel fs) files css -> plain_names files -> begin = negb end_ ->
  exists tables mss names r,
    find_symbols_verbose extract upper rep card_rep fuel fs v begin end_ false false (symbol :: files) =
      (tables ++ (if zlen names =? 0 then [] else [OutL (names_text rep names)]), Ok r) /\
    tables_said upper rep card_rep fuel fs v true files mss tables /\
    StronglySorted str_lt names /\
    forall s, In s names <-> is_defined upper css s /\
      ((begin = true /\ exists r, s = symbol ++ r) \/ (end_ = true /\ exists r, s = r ++ symbol)).
Proof. exact (@C141_names_pf). Qed.
Print Assumptions C141_names.

Example C141_names_ex :
  let fs := fun f => if eqb f (lit "q.a") then Some (lit "        BC         DEC          1" ++ [10] ++ lit "        BA         ASSIGN       1" ++ [10] ++ lit "        AB         DEC          1") else None in
  fst (find_symbols_verbose (fun _ _ _ => []) (fun s => s) quoted a_card 2 fs false true false false false [lit "B"; lit "q.a"]) =
    [ErrL (lit "q.a: 0 errors encountered building symbol table."); OutL (lit "['BA', 'BC']")] /\
  fst (find_symbols_verbose (fun _ _ _ => []) (fun s => s) quoted a_card 2 fs false false true false false [lit "X"; lit "q.a"]) =
    [ErrL (lit "q.a: 0 errors encountered building symbol table.")].
Proof. vm_compute. auto. Qed.

Theorem C141_fuzzy : forall extract upper rep card_rep fuel fs v symbol files css, files <> [] ->
  Forall2 (source_cards fuel fs) files css -> plain_names files ->
  exists tables mss choices r, let names := map fst (extract symbol choices 10) in
    find_symbols_verbose extract upper rep card_rep fuel fs v false false true false (symbol :: files) =
      (tables ++ (if zlen names =? 0 then [] else [OutL (names_text rep names)]), Ok r) /\
    tables_said upper rep card_rep fuel fs v true files mss tables /\
    chosen_among upper files css choices.
Proof. exact (@C141_fuzzy_pf). Qed.
Print Assumptions C141_fuzzy.

Example C141_fuzzy_ex :
  let fs := fun f => if eqb f (lit "q.a") then Some (lit "        BC         DEC          1" ++ [10] ++ lit "        BA         ASSIGN       1" ++ [10] ++ lit "        AB         DEC          1") else None in
  fst (find_symbols_verbose (fun _ cs _ => map (fun c => (c, 1)) cs) (fun s => s) quoted a_card 2 fs false false false true false [lit "B"; lit "q.a"]) =
    [ErrL (lit "q.a: 0 errors encountered building symbol table."); OutL (lit "['AB', 'BC']")].
Proof. vm_compute. reflexivity. Qed.
