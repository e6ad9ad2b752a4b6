(** Property theorems; generated from LSymQuery.v by meta/genp.py. *)
From Verif Require Import Py LPy LSort MCards MSymbols SSymbols LCards LSymClass LSymQuery.

Theorem C81_complex_only : forall tab complexOnly, dict_ok tab ->
  StronglySorted str_lt (check_symtab tab complexOnly) /\
  forall s, In s (check_symtab tab complexOnly) <->
    (complexOnly = true /\ has_kind tab s (lit "complex") /\ ~ has_kind tab s (lit "simple")).
Proof. exact (@C81_complex_only_pf). Qed.
Print Assumptions C81_complex_only.

Example C81_complex_only_ex : forall e : tabent,
  check_symtab [(lit "B", [(lit "p", [(lit "1", [(lit "complex", e)])])]);
                (lit "C", [(lit "p", [(lit "1", [(lit "complex", e)])]); (lit "q", [(lit "0", [(lit "simple", e)])])]);
                (lit "A", [(lit "q", [(lit "1", [(lit "complex", e)])])]);
                (lit "D", [(lit "q", [(lit "1", [(lit "simple", e)])])])] true = [lit "A"; lit "B"].
Proof. intros e. reflexivity. Qed.

Theorem C82_absolute_refuted : forall e : tabent, exists tab, plain_table tab /\ dict_ok tab /\
  has_kind tab (lit "B") (lit "simple") /\ ~ In (lit "B") (get_absolute tab).
Proof. exact (@C82_absolute_refuted_pf). Qed.
Print Assumptions C82_absolute_refuted.

Example C82_absolute_refuted_ex :
  let fs := fun f : str => Some (if eqb f (lit "p.x") then lit "        A          DEC" ++ [10] ++ lit "        B          ASSIGN"
                                 else lit "        B          DEC") in
  exists t1 t2, build_symbol_table (fun s => s) 1 fs (lit "p.x") [] = Ok (t1, 0) /\
    build_symbol_table (fun s => s) 1 fs (lit "q.x") t1 = Ok (t2, 0) /\
    has_kind t2 (lit "B") (lit "simple") /\ get_absolute t2 = [lit "A"].
Proof.
  do 2 eexists. split; [vm_compute; reflexivity|]. split; [vm_compute; reflexivity|].
  split; [|vm_compute; reflexivity]. exists (lit "q"), (lit "1"). eexists. vm_compute. reflexivity.
Qed.

Theorem C82_absolute_partial : forall tab, dict_ok tab ->
  StronglySorted str_lt (get_absolute tab) /\
  forall s, In s (get_absolute tab) <->
    (exists seg, first_seg tab s seg /\ has_kind_in tab s seg (lit "simple")) \/
    (has_kind tab s (lit "simple") /\ forall s', str_lt s' s -> ~ has_kind tab s' (lit "simple")).
Proof. exact (@C82_absolute_partial_pf). Qed.
Print Assumptions C82_absolute_partial.

Example C82_absolute_partial_ex : forall e : tabent,
  get_absolute [(lit "B", [(lit "q", [(lit "1", [(lit "simple", e)])]); (lit "p", [(lit "1", [(lit "complex", e)])])]);
                (lit "C", [(lit "p", [(lit "1", [(lit "complex", e)]); (lit "2", [(lit "simple", e)])])]);
                (lit "A", [(lit "q", [(lit "1", [(lit "complex", e)])])])] = [lit "B"; lit "C"].
Proof. intros e. reflexivity. Qed.

Theorem C83_exact : forall extract tab name symtype,
  match find_symbol extract tab name symtype false false false with
  | FDefs sg => dget tab name = Some sg /\ (forall k, symtype = Some k -> has_kind tab name k)
  | FNone => dget tab name = None \/ exists k, symtype = Some k /\ ~ has_kind tab name k
  | FList _ => False
  end.
Proof. exact (@C83_exact_pf). Qed.
Print Assumptions C83_exact.

Example C83_exact_ex : forall (e : tabent) extract,
  let tab := [(lit "A", [(lit "p", [(lit "1", [(lit "simple", e)])])])] in
  find_symbol extract tab (lit "A") (Some (lit "simple")) false false false = FDefs [(lit "p", [(lit "1", [(lit "simple", e)])])] /\
  find_symbol extract tab (lit "A") (Some (lit "complex")) false false false = FNone /\
  find_symbol extract tab (lit "B") None false false false = FNone.
Proof. intros e extract. repeat split. Qed.

Theorem C83_begin_end : forall extract tab name symtype begin end_ fuzzy, dict_ok tab -> begin || end_ = true ->
  exists l, find_symbol extract tab name symtype begin end_ fuzzy = FList l /\
    StronglySorted (fun a b => str_leb a b = true) l /\
    (begin && end_ = false -> StronglySorted str_lt l) /\
    forall s, In s l <-> (In s (dkeys tab) /\
      ((begin = true /\ exists r, s = name ++ r) \/ (end_ = true /\ exists r, s = r ++ name))).
Proof. exact (@C83_begin_end_pf). Qed.
Print Assumptions C83_begin_end.

Example C83_begin_end_ex : forall extract,
  let tab := [(lit "SAB", []); (lit "AB", []); (lit "ABAB", []); (lit "X", []); (lit "ABC", [])] in
  find_symbol extract tab (lit "AB") None true false false = FList [lit "AB"; lit "ABAB"; lit "ABC"] /\
  find_symbol extract tab (lit "AB") None false true false = FList [lit "AB"; lit "ABAB"; lit "SAB"] /\
  find_symbol extract tab (lit "AB") None true true true =
    FList [lit "AB"; lit "AB"; lit "ABAB"; lit "ABAB"; lit "ABC"; lit "SAB"].
Proof. intros extract. repeat split. Qed.

Theorem C83_fuzzy : forall extract tab name symtype, dict_ok tab ->
  (forall n choices k x, In x (extract n choices k) -> In (fst x) choices) ->
  exists l, find_symbol extract tab name symtype false false true = FList l /\
    (forall s, In s l -> has_kind tab s (lit "simple")) /\
    ((forall n choices k, (List.length (extract n choices k) <= Z.to_nat k)%nat) -> (List.length l <= 10)%nat).
Proof. exact (@C83_fuzzy_pf). Qed.
Print Assumptions C83_fuzzy.

Example C83_fuzzy_ex : forall e : tabent,
  find_symbol (fun n ch k => map (fun c => (c, 90)) (firstn (Z.to_nat k) ch))
    [(lit "A", [(lit "p", [(lit "1", [(lit "simple", e)])])]); (lit "B", [(lit "p", [(lit "1", [(lit "complex", e)])])])]
    (lit "AA") None false false true = FList [lit "A"].
Proof. intros e. reflexivity. Qed.

Theorem C97_print : forall h, let t := st_run h in
  exists names es us, StronglySorted str_lt names /\ (forall n, In n names <-> st_lookup t n <> None) /\
    Forall2 (fun n e => st_lookup t n = Some e) names es /\
    Forall2 (fun n e => st_lookup t n = Some e) (t_undefs t) us /\
    st_print t = Ok (OText (10 :: lit "Defined symbols:" ++ [10]) :: map OEntry es ++
      match us with [] => [] | _ => OText (10 :: lit "Undefined symbols:" ++ [10]) :: map OEntry us end) /\
    st_print_undefs t =
      Ok (OText (10 :: lit "Undefined symbols: " ++ str_of_Z (st_num_undefs t) ++ [10]) :: map OEntry us).
Proof. exact (@C97_print_pf). Qed.
Print Assumptions C97_print.

Example C97_print_ex :
  let t := st_run [OpAdd (lit "B") None 1 None None None None; OpAdd (lit "A") None 2 (Some 5) (Some (lit "absolute")) None None] in
  st_print t = Ok [OText (10 :: lit "Defined symbols:" ++ [10]);
    OEntry (ste_new (lit "A") (Some 5) (Some (lit "absolute")) None 2 None None);
    OEntry (ste_new (lit "B") None None None 1 None None);
    OText (10 :: lit "Undefined symbols:" ++ [10]); OEntry (ste_new (lit "B") None None None 1 None None)].
Proof. vm_compute. reflexivity. Qed.
