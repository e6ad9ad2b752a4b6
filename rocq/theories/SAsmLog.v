(** What the assembler says while it works. *)
From Verif Require Import Py MCards SCards MSymbols SSymbols MInstructions MTools STools MDiag MVerbose SVerbose SEnds SSource STextSym SReport MProcess SUnread MContext SContext MAsmLog.

(** createSymbolTable called for the files in order, each call returning; what has been said *)
Inductive creates_say (upper rep : str -> str) (card_rep : card -> str) (fuel : nat) (fs : fsys) : asm -> list str -> list event -> asm -> Prop :=
| cs_nil a : creates_say upper rep card_rep fuel fs a [] [] a
| cs_cons a f said a1 r ls a2 : asm_create_run upper rep card_rep fuel fs a f = (said, (a1, Ok tt)) ->
    creates_say upper rep card_rep fuel fs a1 r ls a2 -> creates_say upper rep card_rep fuel fs a (f :: r) (said ++ ls) a2.
(** the log of these calls in terms of the text of the files *)
Inductive processed (fs : fsys) (upper rep : str -> str) (verbose : bool) : list str -> list (list srcline) -> list event -> Prop :=
| pr_nil : processed fs upper rep verbose [] [] []
| pr_file f files out outs log blocks ls : read_log fs f log -> picked (label_block upper rep) out blocks -> processed fs upper rep verbose files outs ls ->
    processed fs upper rep verbose (f :: files) (out :: outs)
      (LInfo (lit "Processing " ++ f) :: map Printed ((if verbose then log else []) ++ concat blocks) ++ ls).

(** *** resolve *)
Section Resolve.
Variables (parseable complete : Z -> bool) (srcline : Z -> str).
(** what one pass over the records says *)
Definition looked (xs : list Z) (ls : list event) : Prop :=
  exists n, count_of (incomplete parseable complete) xs n /\
    ls = map (fun r => LDebug (lit "resolve: " ++ srcline r)) (filter parseable xs) ++ [LInfo (str_of_Z n ++ lit " incomplete parser records")].
(** every parseable record replaced by [y] *)
Definition replaced (y : Z) (xs ys : list Z) : Prop :=
  Forall2 (fun x x' => (parseable x = true /\ x' = y) \/ (parseable x = false /\ x' = x)) xs ys.
(** [m] times the record [y] is blamed, then the context; the assembler counts the errors if it has a counter,
    and the context must know how to report *)
Inductive blamed (y m : Z) (counter : option Z) (reports : bool) (k : Z) : list event -> res outcome -> Prop :=
| bl_all e : counter = Some e -> reports = true -> blamed y m counter reports k
    (repeat (RecordError y (lit "undefined symbol")) (Z.to_nat m) ++
     [ContextError (lit "no progress resolving parser records, " ++ str_of_Z m ++ lit " undefined records")]) (Ok (NoProgress k))
| bl_records e : counter = Some e -> reports = false -> blamed y m counter reports k
    (repeat (RecordError y (lit "undefined symbol")) (Z.to_nat m)) (Err AttributeError)
| bl_one : counter = None -> blamed y m counter reports k [RecordError y (lit "undefined symbol")] (Err AttributeError).
(** the whole course: the passes allowed, the records, the current record of the context *)
Inductive resolve_told (current : option Z) (counter : option Z) (reports : bool) (maxPasses : Z) (xs : list Z) : list event -> res outcome -> Prop :=
| rt_none : maxPasses <= 0 -> resolve_told current counter reports maxPasses xs [] (Ok (GaveUp 0))
| rt_first l : 1 <= maxPasses -> (forall r, In r xs -> ~ incomplete parseable complete r) -> looked xs l ->
    resolve_told current counter reports maxPasses xs (l ++ [LInfo (lit "All parser records complete")]) (Ok (AllComplete 1))
| rt_one r l : maxPasses = 1 -> In r xs -> incomplete parseable complete r -> looked xs l ->
    resolve_told current counter reports maxPasses xs l (Ok (GaveUp 1))
| rt_lost r l : 2 <= maxPasses -> In r xs -> incomplete parseable complete r -> current = None -> looked xs l ->
    resolve_told current counter reports maxPasses xs l (Err AttributeError)
| rt_second r y ys l l' : 2 <= maxPasses -> In r xs -> incomplete parseable complete r -> current = Some y -> ~ incomplete parseable complete y ->
    looked xs l -> replaced y xs ys -> looked ys l' ->
    resolve_told current counter reports maxPasses xs (l ++ l' ++ [LInfo (lit "All parser records complete")]) (Ok (AllComplete 2))
| rt_all r y ys l l' bl res : 2 <= maxPasses -> In r xs -> incomplete parseable complete r -> current = Some y -> incomplete parseable complete y ->
    (forall r', In r' xs -> parseable r' = true -> complete r' = false) ->
    looked xs l -> replaced y xs ys -> looked ys l' -> blamed y (zlen (filter parseable xs)) counter reports 2 bl res ->
    resolve_told current counter reports maxPasses xs (l ++ l' ++ bl) res
| rt_two r r' y ys l l' : maxPasses = 2 -> In r xs -> incomplete parseable complete r -> current = Some y -> incomplete parseable complete y ->
    In r' xs -> parseable r' = true -> complete r' = true -> looked xs l -> replaced y xs ys -> looked ys l' ->
    resolve_told current counter reports maxPasses xs (l ++ l') (Ok (GaveUp 2))
| rt_some r r' y ys l l' bl res : 3 <= maxPasses -> In r xs -> incomplete parseable complete r -> current = Some y -> incomplete parseable complete y ->
    In r' xs -> parseable r' = true -> complete r' = true ->
    looked xs l -> replaced y xs ys -> looked ys l' -> blamed y (zlen (filter parseable xs)) counter reports 3 bl res ->
    resolve_told current counter reports maxPasses xs (l ++ l' ++ l' ++ bl) res.
End Resolve.
