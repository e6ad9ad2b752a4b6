(** Property theorems; generated from LSymClass.v by meta/genp.py. *)
From Verif Require Import Py LPy MCards MSymbols SSymbols LSort LSymClass.

Theorem C70_lookup : forall h n,
  (forall o, first_add h n o -> exists e, st_lookup (st_run h) n = Some e /\ entry_of o e) /\
  ((forall o, In o h -> ~ adds n o) -> st_lookup (st_run h) n = None).
Proof. exact (@C70_lookup_pf). Qed.
Print Assumptions C70_lookup.

Example C70_lookup_ex :
  let h := [OpAdd (lit "A") None 3 (Some 7) (Some (lit "absolute")) None None; OpPrune;
            OpAdd (lit "A") None 9 (Some 8) None None None] in
  first_add h (lit "A") (OpAdd (lit "A") None 3 (Some 7) (Some (lit "absolute")) None None) /\
  option_map s_absolute (st_lookup (st_run h) (lit "A")) = Some (Some 7).
Proof.
  split; [|reflexivity]. exists [], [OpPrune; OpAdd (lit "A") None 9 (Some 8) None None None].
  split; [reflexivity|]. split; [split; [discriminate|reflexivity]|]. intros o [].
Qed.

Theorem C70_count : forall h, exists names, NoDup names /\
  (forall n, In n names <-> exists o, In o h /\ adds n o) /\ st_num (st_run h) = zlen names.
Proof. exact (@C70_count_pf). Qed.
Print Assumptions C70_count.

Example C70_count_ex :
  st_num (st_run [OpAdd (lit "A") None 3 None None None None; OpAdd (lit "B") None 4 None None None None;
                  OpAdd (lit "A") None 5 None None None None; OpAdd [] None 6 None None None None]) = 2.
Proof. reflexivity. Qed.

Theorem C71_undefines : forall h, t_undefs (st_run h) = undef_names [] h.
Proof. exact (@C71_undefines_pf). Qed.
Print Assumptions C71_undefines.

Example C71_undefines_ex :
  t_undefs (st_run [OpAdd (lit "B") None 1 None None None None; OpAdd (lit "A") None 2 None None None None;
                    OpAdd (lit "C") None 3 (Some 1) None None None; OpResolve 5; OpAdd (lit "A") None 4 (Some 9) None None None;
                    OpPrune]) = [lit "B"; lit "A"].
Proof. reflexivity. Qed.

Theorem C71_undefines_In : forall h n, NoDup (t_undefs (st_run h)) /\
  (In n (t_undefs (st_run h)) <-> exists f l k s u, first_add h n (OpAdd n f l None k s u)).
Proof. exact (@C71_undefines_In_pf). Qed.
Print Assumptions C71_undefines_In.

Example C71_undefines_In_ex :
  first_add [OpAdd (lit "B") None 1 None None None None; OpAdd (lit "B") None 2 (Some 5) None None None] (lit "B")
    (OpAdd (lit "B") None 1 None None None None).
Proof.
  exists [], [OpAdd (lit "B") None 2 (Some 5) None None None]. split; [reflexivity|].
  split; [split; [discriminate|reflexivity]|intros o []].
Qed.

Theorem C72_update_refuted : forall t n v k, n <> [] ->
  st_update t n v k = (t, Err AttributeError) /\
  (forall e, st_lookup t n = Some e -> ste_value e = Err AttributeError).
Proof. exact (@C72_update_refuted_pf). Qed.
Print Assumptions C72_update_refuted.

Example C72_update_refuted_ex :
  let t := st_run [OpAdd (lit "A") None 1 None None None None] in
  st_lookup t (lit "A") <> None /\ snd (st_update t (lit "A") (Some 5) None) = Err AttributeError.
Proof. split; [discriminate|reflexivity]. Qed.

Theorem C73_resolve : forall t n, undefs_known t ->
  exists t' evs, st_resolve t n = Ok (t', evs) /\ t_symbols t' = t_symbols t /\
    subseq (t_undefs t') (t_undefs t) /\ zlen (passes evs) <= Z.max 0 n.
Proof. exact (@C73_resolve_pf). Qed.
Print Assumptions C73_resolve.

Example C73_resolve_ex :
  let e := ste_new (lit "A") (Some 1) None None 0 None None in
  let t := mkst [(lit "A", e); (lit "B", e)] [lit "A"; lit "B"] in
  undefs_known t /\ exists evs, st_resolve t 10 = Ok (mkst (t_symbols t) [], evs) /\ zlen (passes evs) = 3.
Proof.
  cbv zeta. split; [intros s [<-|[<-|[]]]; discriminate|]. eexists. split; reflexivity.
Qed.

Theorem C73_resolve_reachable : forall h n,
  st_resolve (st_run h) n =
  Ok (st_run h, if n <=? 0 then []
                else match t_undefs (st_run h) with
                     | [] => [EvPass 0 0; EvResolved]
                     | u => EvPass 0 (zlen u) :: map EvAttempt u ++ [EvNoProgress (zlen u)]
                     end).
Proof. exact (@C73_resolve_reachable_pf). Qed.
Print Assumptions C73_resolve_reachable.

Example C73_resolve_reachable_ex :
  exists t, st_resolve (st_run [OpAdd (lit "B") None 1 None None None None]) 10 =
    Ok (t, [EvPass 0 1; EvAttempt (lit "B"); EvNoProgress 1]).
Proof. eexists. reflexivity. Qed.

Theorem C74_prune_refuted : forall syms x y r ex ey, NoDup (x :: y :: r) ->
  dget syms x = Some ex -> isValid ex = true -> dget syms y = Some ey -> isValid ey = true ->
  undefs_known (mkst syms (x :: y :: r)) ->
  exists u, st_prune (mkst syms (x :: y :: r)) = Ok (mkst syms u) /\ In y u /\ has_value (mkst syms u) y.
Proof. exact (@C74_prune_refuted_pf). Qed.
Print Assumptions C74_prune_refuted.

Example C74_prune_refuted_ex :
  let e := ste_new (lit "A") (Some 1) None None 0 None None in
  st_prune (mkst [(lit "A", e); (lit "B", e)] [lit "A"; lit "B"]) = Ok (mkst [(lit "A", e); (lit "B", e)] [lit "B"]).
Proof. reflexivity. Qed.

Theorem C74_prune_partial : forall t, undefs_known t ->
  exists t', st_prune t = Ok t' /\ t_symbols t' = t_symbols t /\ subseq (t_undefs t') (t_undefs t) /\
    (forall s, In s (t_undefs t) -> ~ has_value t s -> In s (t_undefs t')) /\
    (no_neighbours (has_value t) (t_undefs t) -> forall s, In s (t_undefs t') -> ~ has_value t s).
Proof. exact (@C74_prune_partial_pf). Qed.
Print Assumptions C74_prune_partial.

Example C74_prune_partial_ex :
  let e := ste_new (lit "A") (Some 1) None None 0 None None in
  let f := ste_new (lit "B") None None None 0 None None in
  st_prune (mkst [(lit "A", e); (lit "B", f); (lit "C", e)] [lit "A"; lit "B"; lit "C"]) =
  Ok (mkst [(lit "A", e); (lit "B", f); (lit "C", e)] [lit "B"]).
Proof. reflexivity. Qed.

Theorem C75_kinds : forall name value symtype file line segment subsegment refs,
  let e := fold_left addReference refs (ste_new name value symtype file line segment subsegment) in
  isMultiple e = false /\
  (isValid e = true <-> value <> None) /\
  (isAbsolute e = true <-> value <> None /\ symtype = Some (lit "absolute")) /\
  (isComplex e = true <-> value <> None /\ symtype <> Some (lit "absolute")) /\
  s_refs e = refs.
Proof. exact (@C75_kinds_pf). Qed.
Print Assumptions C75_kinds.

Example C75_kinds_ex :
  isAbsolute (ste_new (lit "A") (Some 0) (Some (lit "absolute")) None 0 None None) = true /\
  isComplex (ste_new (lit "A") (Some 0) (Some (lit "simple")) None 0 None None) = true.
Proof. split; reflexivity. Qed.
