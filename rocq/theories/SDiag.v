(** Specification of the messages about symbols. *)
From Coq Require Import Sorted.
From Verif Require Import Py MCards MSymbols SSymbols MTools STools MDiag.

(** what is to be said about the label of a card, and when *)
Inductive complaint (upper : str -> str) (c : card) : str -> Prop :=
| cp_case s : label_text c s -> upper s <> s ->
    complaint upper c (lit "*** ERROR: Symbol " ++ s ++ lit " is ill-formed (case)!")
| cp_commas s x y z : label_text c s -> upper s = s -> s = x ++ 44 :: y ++ 44 :: z ->
    complaint upper c (lit "*** ERROR: Symbol " ++ s ++ lit " is illegal, too many commas!")
| cp_prefix s p t : label_text c s -> upper s = s -> s = p ++ 44 :: t -> ~ In 44 p -> ~ In 44 t ->
    ~ In p (map lit ["B"; "F"; "L"; "S"; "X"; "Z"]%string) ->
    complaint upper c (lit "*** ERROR: Symbol " ++ s ++ lit " is ill-formed (tag prefix)!")
| cp_unsupported s p t : label_text c s -> upper s = s -> s = p ++ 44 :: t -> ~ In 44 t ->
    In p (map lit ["L"; "X"]%string) ->
    complaint upper c (lit "*** ERROR: Symbol " ++ s ++ lit " has unsupported tag prefix!")
| cp_no_operation s tagtype tag : label_text c s -> well_formed upper s tagtype tag ->
    card_get c "operation" = Ok RNone ->
    complaint upper c (lit "*** ERROR: Symbol " ++ s ++ lit " has no operation!").
(** the complaint about a symbol whose kind is the name of one of its segments *)
Definition multiple (tag : str) : str := lit "*** ERROR: Symbol " ++ tag ++ lit " is multiply-defined!".
(** [ms] are the messages about the cards, in the order of the cards: one for every card with a
    faulty label, none for the others *)
Inductive reported (upper : str -> str) : list card -> list str -> Prop :=
| rp_nil : reported upper [] []
| rp_bad c cs m ms : ~ starred c -> complaint upper c m -> reported upper cs ms -> reported upper (c :: cs) (m :: ms)
| rp_good c cs ms : (starred c \/ forall m, ~ complaint upper c m) -> reported upper cs ms -> reported upper (c :: cs) ms.

(** what is printed while several files are read: the messages about each file and their number *)
Fixpoint file_reports (files : list str) (mss : list (list str)) : list line :=
  match files, mss with
  | f :: fr, ms :: mr =>
      map ErrL ms ++ [ErrL (f ++ lit ": " ++ str_of_Z (zlen ms) ++ lit " errors encountered building symbol table.")] ++
      file_reports fr mr
  | _, _ => []
  end.
(** the line about an undefined symbol, given the suggestions for it *)
Inductive suggested (s : str) : list str -> line -> Prop :=
| sg_some ms : ms <> [] -> suggested s ms (OutL (lit "  " ++ s ++ lit " - Possible matches: " ++ join (lit " ") ms))
| sg_none : suggested s [] (ErrL (lit "  " ++ s ++ lit " - No matches!")).
(** the part of the report about undefined symbols *)
Inductive undefined_part (choose : str -> list str) : list str -> list line -> Prop :=
| up_none : undefined_part choose [] []
| up_some syms ls : syms <> [] -> Forall2 (fun s l => suggested s (choose s) l) syms ls ->
    undefined_part choose syms
      ([ErrL []; ErrL (lit "Undefined symbols:")] ++ ls ++
       [ErrL (str_of_Z (zlen syms) ++ lit " errors checking symbol table.")]).
Definition total_part (files : list str) (n : Z) (ls : list line) : Prop :=
  (zlen files <= 1 /\ ls = []) \/
  (1 < zlen files /\ ls = [ErrL (lit "Total: " ++ str_of_Z n ++ lit " errors encountered.")]).

(** the names among which similar ones are looked for, in order: the least symbol with a simple definition and those that have one
    in the least of their segments *)
Definition chosen_among (upper : str -> str) (files : list str) (css : list (list card)) (choices : list str) : Prop :=
  StronglySorted str_lt choices /\
  forall s, In s choices <->
    (exists seg ss e, defined_as upper files css s seg ss (lit "simple") e /\
       forall seg' ss' k' e', defined_as upper files css s seg' ss' k' e' -> str_leb seg seg' = true) \/
    ((exists seg ss e, defined_as upper files css s seg ss (lit "simple") e) /\
     forall s', str_lt s' s -> ~ exists seg ss e, defined_as upper files css s' seg ss (lit "simple") e).
