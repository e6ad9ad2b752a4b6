(** What the methods of class SymbolTable in /repo/h800/symbol_table.py print. *)
From Coq Require Import ZArith List Bool.
From Verif Require Import Py MCards MSymbols SSymbols MDiag MVerbose.

(** symbol_table.py:91-92 *)
Definition already_line (name : str) : line := OutL (lit "ERROR: Symbol """ ++ name ++ lit """ already defined!").
(** symbol_table.py:88-98 add *)
Definition add_out (t : symtable) (name : str) (file : option str) (line : Z) (value : option Z)
                   (symtype segment subsegment : option str) : io symtable :=
  let '(t', dup) := st_add t name file line value symtype segment subsegment in
  (if dup then [already_line name] else [], Ok t').

(** symbol_table.py:131-137 *)
Definition pruning_line (n : Z) : line := OutL (lit "Pruning undefined symbols list (" ++ str_of_Z n ++ lit " undefs)").
Definition removing_line (s : str) : line := OutL (lit "Removing " ++ s ++ lit " from undefined symbols list").
Definition removed_line (n : Z) : line := OutL (lit "Removed " ++ str_of_Z n ++ lit " symbols from undef list").
(** symbol_table.py:128-138 pruneUndefines; the loop is that of MSymbols.prune_loop *)
Fixpoint prune_loop_out (fuel : nat) (syms : dict str ste) (undefs : list str) (i : nat) : io (list str) :=
  match fuel with
  | O => ([], Ok undefs)
  | S f =>
      match nth_error undefs i with
      | None => ([], Ok undefs)
      | Some symbol =>
          io_bind ([], dindex syms symbol) (fun entry =>
          if isValid entry
          then io_bind ([removing_line symbol], Ok tt) (fun _ => prune_loop_out f syms (firstn i undefs ++ skipn (S i) undefs) (S i))
          else prune_loop_out f syms undefs (S i))
      end
  end.
Definition prune_out (t : symtable) : io symtable :=
  let n := zlen (t_undefs t) in
  io_bind ([pruning_line n], Ok tt) (fun _ =>
  io_bind (prune_loop_out (List.length (t_undefs t)) (t_symbols t) (t_undefs t) 0) (fun u =>
  ([removed_line (n - zlen u)], Ok (mkst (t_symbols t) u)))).

(** symbol_table.py:113-125 *)
Definition pass_line (i n : Z) : line := OutL (lit "Symbol pass " ++ str_of_Z i ++ lit ": " ++ str_of_Z n ++ lit " undefined symbols").
Definition resolved_line : line := OutL (lit "All symbols resolved!").
Definition attempt_line (s : str) : line := OutL (lit "Attempting to resolve symbol """ ++ s ++ lit """").
Definition stuck_line (n : Z) : line :=
  OutL (lit "ERROR: No progress resolving symbols, " ++ str_of_Z n ++ lit " undefined symbols").
(** symbol_table.py:110-126 resolve *)
Fixpoint resolve_loop_out (passes : nat) (i : Z) (t : symtable) (prev n : Z) : io symtable :=
  match passes with
  | O => ([], Ok t)
  | S p =>
      io_bind ([pass_line i n], Ok tt) (fun _ =>
      if n =? 0 then ([resolved_line], Ok t)
      else
        io_bind (map attempt_line (t_undefs t), Ok tt) (fun _ =>
        io_bind (prune_out t) (fun t' =>
        let n' := zlen (t_undefs t') in
        if n' =? prev then ([stuck_line n'], Ok t')
        else resolve_loop_out p (i + 1) t' n' n')))
  end.
Definition resolve_out (t : symtable) (maxPasses : Z) : io symtable :=
  let n := zlen (t_undefs t) in resolve_loop_out (Z.to_nat maxPasses) 0 t n n.

(** A history of calls on a new table, exceptions caught by the caller: all that is printed, and the table *)
Definition step_out (t : symtable) (o : stop) : list line * symtable :=
  let keep (x : io symtable) := (fst x, match snd x with Ok t' => t' | Err _ => t end) in
  match o with
  | OpAdd n f l v k s u => keep (add_out t n f l v k s u)
  | OpUpdate n v k => ([], fst (st_update t n v k))
  | OpPrune => keep (prune_out t)
  | OpResolve n => keep (resolve_out t n)
  | OpLookup n => ([], t)
  end.
Fixpoint run_out (t : symtable) (h : list stop) : list line * symtable :=
  match h with
  | [] => ([], t)
  | o :: r => let '(ls, t') := step_out t o in let '(ls', t2) := run_out t' r in (ls ++ ls', t2)
  end.
