(** Specification of what class SymbolTable prints. *)
From Coq Require Export Permutation.
From Coq Require Import ZArith List Bool.
From Verif Require Import Py MCards MSymbols SSymbols MDiag MVerbose MSymOut.

(** the texts *)
Definition says_already (n : str) : line := OutL (lit "ERROR: Symbol """ ++ n ++ lit """ already defined!").
Definition says_pruning (n : Z) : line := OutL (lit "Pruning undefined symbols list (" ++ str_of_Z n ++ lit " undefs)").
Definition says_removing (s : str) : line := OutL (lit "Removing " ++ s ++ lit " from undefined symbols list").
Definition says_removed (n : Z) : line := OutL (lit "Removed " ++ str_of_Z n ++ lit " symbols from undef list").
Definition says_pass (i n : Z) : line := OutL (lit "Symbol pass " ++ str_of_Z i ++ lit ": " ++ str_of_Z n ++ lit " undefined symbols").
Definition says_resolved : line := OutL (lit "All symbols resolved!").
Definition says_attempt (s : str) : line := OutL (lit "Attempting to resolve symbol """ ++ s ++ lit """").
Definition says_no_progress (n : Z) : line := OutL (lit "ERROR: No progress resolving symbols, " ++ str_of_Z n ++ lit " undefined symbols").
(** what call [o] prints after the calls [pre] on a new table *)
Inductive says (pre : list stop) : stop -> list line -> Prop :=
| says_new n f l v k s u : (forall o, In o pre -> ~ adds n o) -> says pre (OpAdd n f l v k s u) []
| says_again n f l v k s u o : In o pre -> adds n o -> says pre (OpAdd n f l v k s u) [says_already n]
| says_update n v k : says pre (OpUpdate n v k) []
| says_lookup n : says pre (OpLookup n) []
| says_prune : says pre OpPrune [says_pruning (zlen (undef_names [] pre)); says_removed 0]
| says_no_pass n : n <= 0 -> says pre (OpResolve n) []
| says_all n : 0 < n -> undef_names [] pre = [] -> says pre (OpResolve n) [says_pass 0 0; says_resolved]
| says_stuck n : 0 < n -> undef_names [] pre <> [] ->
    says pre (OpResolve n) ([says_pass 0 (zlen (undef_names [] pre))] ++ map says_attempt (undef_names [] pre) ++
      [says_pruning (zlen (undef_names [] pre)); says_removed 0; says_no_progress (zlen (undef_names [] pre))]).
(** what the calls [h] print after the calls [pre] *)
Inductive transcript : list stop -> list stop -> list line -> Prop :=
| tr_nil pre : transcript pre [] []
| tr_cons pre o h ls ls' : says pre o ls -> transcript (pre ++ [o]) h ls' -> transcript pre (o :: h) (ls ++ ls').
(** the text of an event of resolve *)
Definition event_line (e : event) : line :=
  match e with
  | EvPass i n => says_pass i n | EvResolved => says_resolved | EvAttempt s => says_attempt s | EvNoProgress n => says_no_progress n
  end.
