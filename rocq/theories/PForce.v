(** Property theorems; generated from LForce.v by meta/genp.py. *)
From Verif Require Import Py LPy MInstructions MCards SCards LCards LDeck MSymbols SSymbols LSymBuild LSymQuery MTools STools LTools LToolSym SClash LClash SForce LForce.

Theorem C194_definitions : forall upper fuel fs files css, Forall2 (source_cards fuel fs) files css ->
  exists ds, files_defs upper files css ds /\ forall ds', files_defs upper files css ds' -> ds' = ds.
Proof. exact (@C194_definitions_pf). Qed.
Print Assumptions C194_definitions.

Theorem C194_list : forall upper fuel fs files css ds, files <> [] -> Forall2 (source_cards fuel fs) files css -> files_defs upper files css ds ->
  (harmless ds -> exists out es n r,
     list_symbols upper fuel fs files = Ok (out, n + r) /\ count_of (label_error upper) (concat css) n /\ refusals ds r /\
     rendered (None, None, None) es out /\ StronglySorted (fun x y => key_lt (fst x) (fst y)) es /\
     forall t s u k e, In ((t, s, u, k), e) es <-> in_force ds t s u k e) /\
  (forall e, list_symbols upper fuel fs files = Err e <-> dies_of ds e).
Proof. exact (@C194_list_pf). Qed.
Print Assumptions C194_list.

Example C194_list_ex :
  let fs := fun f => if eqb f (lit "simple.a") then Some (lit "        A          DEC          1" ++ [10] ++ lit "        A          DEC          2" ++ [10] ++
                                                     lit "        A          ASSIGN       1" ++ [10]) else None in
  list_symbols (fun s => s) 2 fs [lit "simple.a"] =
  Ok ([lit "A"; lit "  Segment: simple"; lit "    Subsegment: 1";
       lit "        <complex>   simple:3                                            A          ASSIGN       1";
       lit "        <simple>    simple:1                                            A          DEC          1"], 1).
Proof. vm_compute. reflexivity. Qed.

Theorem C194_check : forall upper fuel fs complexOnly files css ds, files <> [] -> Forall2 (source_cards fuel fs) files css -> files_defs upper files css ds ->
  (harmless ds -> exists ns syms n r,
     check_symbols upper fuel fs complexOnly files = Ok (ns, syms, n + r + zlen syms) /\
     count_of (label_error upper) (concat css) n /\ refusals ds r /\ fold_right Z.add 0 ns = n + r /\
     StronglySorted str_lt syms /\
     forall s, In s syms <-> complexOnly = true /\ (exists seg ss e, in_force ds s seg ss (lit "complex") e) /\
       ~ (exists seg ss e, in_force ds s seg ss (lit "simple") e)) /\
  (forall e, check_symbols upper fuel fs complexOnly files = Err e <-> dies_of ds e).
Proof. exact (@C194_check_pf). Qed.
Print Assumptions C194_check.

Example C194_check_ex :
  let fs := fun f => if eqb f (lit "simple.a") then Some (lit "        A          DEC          1" ++ [10] ++ lit "        A          EQUALS       1" ++ [10])
                     else if eqb f (lit "complex.a") then Some (lit "        B          ASSIGN       1" ++ [10] ++ lit "        B          ASSIGN       2" ++ [10]) else None in
  check_symbols (fun s => s) 2 fs true [lit "simple.a"] = Err KeyError /\
  check_symbols (fun s => s) 2 fs true [lit "complex.a"] = Ok ([1], [lit "B"], 2).
Proof. vm_compute. auto. Qed.

Theorem C194_find : forall extract upper fuel fs begin end_ exact symbol files css ds,
  files <> [] -> Forall2 (source_cards fuel fs) files css -> files_defs upper files css ds ->
  begin && end_ = false -> exact && (begin || end_) = false ->
  let found := find_symbols extract upper fuel fs begin end_ false exact (symbol :: files) in
  let defined s := exists d, In d ds /\ sd_tag d = s in
  (harmless ds -> exists r, found = Ok r /\
     (begin || end_ = false -> match r with
        | FDefs sg => defined symbol /\ forall seg ss k e, get3 sg seg ss k = Some e <-> in_force ds symbol seg ss k e
        | FNone => ~ defined symbol
        | FList _ => False
        end) /\
     (begin || end_ = true -> exists l, r = FList l /\ StronglySorted str_lt l /\
        forall s, In s l <-> defined s /\
          ((begin = true /\ exists r, s = symbol ++ r) \/ (end_ = true /\ exists r, s = r ++ symbol)))) /\
  (forall e, found = Err e <-> dies_of ds e).
Proof. exact (@C194_find_pf). Qed.
Print Assumptions C194_find.

Example C194_find_ex :
  let fs := fun f => if eqb f (lit "simple.a") then Some (lit "        A1         DEC          1" ++ [10] ++ lit "        A1         DEC          2" ++ [10]) else None in
  match find_symbols (fun _ _ _ => []) (fun s => s) 2 fs false false false false [lit "A1"; lit "simple.a"] with
  | Ok (FDefs sg) => option_map e_line (get3 sg (lit "simple") (lit "1") (lit "simple")) = Some 1
  | _ => False
  end /\
  find_symbols (fun _ _ _ => []) (fun s => s) 2 fs true false false false [lit "A"; lit "simple.a"] = Ok (FList [lit "A1"]).
Proof. vm_compute. auto. Qed.

Theorem C194_plain : forall upper files css ds, files_defs upper files css ds -> plain_names files ->
  (forall pre d post, ds = pre ++ d :: post -> ~ refused pre d) /\ harmless ds.
Proof. exact (@C194_plain_pf). Qed.
Print Assumptions C194_plain.

Example C194_plain_ex :
  let d line := mksdef (lit "A") (lit "p") (lit "1") (lit "simple") (lit " ") (mkcard line [] None 1 false None) in
  ~ refused [d (lit "x")] (d (lit "y")).
Proof. intros d [_ (x & [<-|[]] & _ & E)]. discriminate E. Qed.
