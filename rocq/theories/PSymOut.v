(** Property theorems; generated from LSymOut.v by meta/genp.py. *)
From Verif Require Import Py LPy MCards MSymbols SSymbols LSymClass MDiag MVerbose MSymOut SSymOut LSymOut.

Theorem C132_prune : forall t, undefs_known t -> exists t' l,
  prune_out t = ([says_pruning (zlen (t_undefs t))] ++ map says_removing l ++ [says_removed (zlen l)], Ok t') /\
  st_prune t = Ok t' /\ subseq l (t_undefs t) /\ (forall s, In s l -> has_value t s) /\ Permutation (l ++ t_undefs t') (t_undefs t).
Proof. exact (@C132_prune_pf). Qed.
Print Assumptions C132_prune.

Example C132_prune_ex :
  let e := ste_new (lit "A") (Some 1) None None 0 None None in
  let f := ste_new (lit "B") None None None 0 None None in
  fst (prune_out (mkst [(lit "A", e); (lit "B", f); (lit "C", e)] [lit "A"; lit "B"; lit "C"])) =
  map (fun s => OutL (lit s)) ["Pruning undefined symbols list (3 undefs)"; "Removing A from undefined symbols list";
    "Removing C from undefined symbols list"; "Removed 2 symbols from undef list"]%string.
Proof. reflexivity. Qed.

Theorem C132_resolve : forall t n,
  match st_resolve t n with
  | Ok (t', evs) => exists ls, resolve_out t n = (ls, Ok t') /\ subseq (map event_line evs) ls
  | Err e => snd (resolve_out t n) = Err e
  end.
Proof. exact (@C132_resolve_pf). Qed.
Print Assumptions C132_resolve.

Example C132_resolve_ex :
  let e := ste_new (lit "A") (Some 1) None None 0 None None in
  fst (resolve_out (mkst [(lit "A", e)] [lit "A"]) 10) =
  map (fun s => OutL (lit s)) ["Symbol pass 0: 1 undefined symbols"; "Attempting to resolve symbol ""A"""; "Pruning undefined symbols list (1 undefs)";
    "Removing A from undefined symbols list"; "Removed 1 symbols from undef list"; "Symbol pass 1: 0 undefined symbols"; "All symbols resolved!"]%string.
Proof. reflexivity. Qed.

Theorem C132_history : forall h, exists ls, run_out st_new h = (ls, st_run h) /\ transcript [] h ls.
Proof. exact (@C132_history_pf). Qed.
Print Assumptions C132_history.

Example C132_history_ex :
  fst (run_out st_new [OpAdd (lit "A") None 1 None None None None; OpAdd (lit "A") None 2 (Some 5) None None None; OpResolve 10; OpPrune]) =
  map (fun s => OutL (lit s)) ["ERROR: Symbol ""A"" already defined!"; "Symbol pass 0: 1 undefined symbols"; "Attempting to resolve symbol ""A""";
    "Pruning undefined symbols list (1 undefs)"; "Removed 0 symbols from undef list"; "ERROR: No progress resolving symbols, 1 undefined symbols";
    "Pruning undefined symbols list (1 undefs)"; "Removed 0 symbols from undef list"]%string.
Proof. reflexivity. Qed.

Theorem C132_unique : forall pre h a b, transcript pre h a -> transcript pre h b -> a = b.
Proof. exact (@C132_unique_pf). Qed.
Print Assumptions C132_unique.

Example C132_unique_ex : exists ls, transcript [] [OpAdd (lit "A") None 1 None None None None; OpPrune] ls /\ zlen ls = 2.
Proof.
  exists ([] ++ [says_pruning 1; says_removed 0] ++ []). split; [|reflexivity]. constructor; [apply says_new; intros o []|].
  constructor; [exact (says_prune [OpAdd (lit "A") None 1 None None None None])|constructor].
Qed.
