(** Everything the tools that build a symbol table print, for files of any names: C195. *)
From Verif Require Import Py MCards MSymbols SSymbols MDiag SDump SVerbose SFound SForce.

(** the definitions of [sym] that are not refused, in order, each with its segment, subsegment, kind and entry *)
Inductive accepted (sym : str) : list sdef -> list (str * (str * (str * tabent))) -> Prop :=
| ac_nil : accepted sym [] []
| ac_take ds d l e : accepted sym ds l -> sd_tag d = sym -> ~ refused ds d -> entry_from (sd_card d) (sd_type d) e ->
    accepted sym (ds ++ [d]) (l ++ [(sd_seg d, (sd_sub d, (sd_kind d, e)))])
| ac_skip ds d l : accepted sym ds l -> sd_tag d <> sym \/ refused ds d -> accepted sym (ds ++ [d]) l.
(** the text of the definitions in force in the subsegment of [x], by kind *)
Definition previous (rep : str -> str) (card_rep : card -> str) (before : list sdef) (x : sdef) (t : str) : Prop :=
  exists l ks items, accepted (sd_tag x) before l /\
    grouped (fun es e => exists b, es = b ++ [e]) (under (sd_sub x) (under (sd_seg x) l)) ks /\
    Forall2 (entry_item rep card_rep) ks items /\ t = dict_text items.
(** what is printed about the cards of a file, the definitions they make and the number of complaints; [before] are
    the definitions of the files before *)
Inductive cards_said (upper rep : str -> str) (card_rep : card -> str) (before : list sdef) (seg s0 : str) :
    list card -> list sdef -> list str -> Z -> Prop :=
| cs_nil : cards_said upper rep card_rep before seg s0 [] [] [] 0
| cs_fault cs d ls n c m ty t : cards_said upper rep card_rep before seg s0 cs d ls n ->
    ~ starred c -> described upper c m ty -> definition_text rep card_rep c ty t ->
    cards_said upper rep card_rep before seg s0 (cs ++ [c]) d (ls ++ [m; lit "Current definition: " ++ t]) (n + 1)
| cs_quiet cs d ls n c : cards_said upper rep card_rep before seg s0 cs d ls n ->
    (starred c \/ forall m ty, ~ described upper c m ty) -> (forall tag kind tt, ~ defines upper c tag kind tt) ->
    cards_said upper rep card_rep before seg s0 (cs ++ [c]) d ls n
| cs_taken cs d ls n c tag kind tt ss : cards_said upper rep card_rep before seg s0 cs d ls n ->
    defines upper c tag kind tt -> current_subseg s0 (cs ++ [c]) ss -> ~ refused (before ++ d) (mksdef tag seg ss kind tt c) ->
    cards_said upper rep card_rep before seg s0 (cs ++ [c]) (d ++ [mksdef tag seg ss kind tt c]) ls n
| cs_refused cs d ls n c tag kind tt ss op p t : cards_said upper rep card_rep before seg s0 cs d ls n ->
    defines upper c tag kind tt -> current_subseg s0 (cs ++ [c]) ss -> refused (before ++ d) (mksdef tag seg ss kind tt c) ->
    card_get c "operation" = Ok (RStr op) -> op <> lit "EQUALS" ->
    previous rep card_rep (before ++ d) (mksdef tag seg ss kind tt c) p -> definition_text rep card_rep c (Some tt) t ->
    cards_said upper rep card_rep before seg s0 (cs ++ [c]) (d ++ [mksdef tag seg ss kind tt c])
      (ls ++ [lit "*** ERROR: Symbol " ++ tag ++ lit " is multiply-defined!"; lit "Previous definitions: " ++ p;
              lit "Current definition: " ++ t; lit "command: " ++ op]) (n + 1).
(** and about several files, with the numbers of complaints if [counts] *)
Inductive files_said (upper rep : str -> str) (card_rep : card -> str) (fuel : nat) (fs : fsys) (verbose counts : bool) :
    list str -> list sdef -> list line -> list Z -> Prop :=
| fs_nil : files_said upper rep card_rep fuel fs verbose counts [] [] [] []
| fs_file files ds ls ns f seg log cs d out n : files_said upper rep card_rep fuel fs verbose counts files ds ls ns ->
    read_log fs f log -> source_cards fuel fs f cs -> segment_of f seg ->
    cards_said upper rep card_rep ds seg (lit "1") cs d out n ->
    files_said upper rep card_rep fuel fs verbose counts (files ++ [f]) (ds ++ d)
      (ls ++ (if verbose then log else []) ++ map ErrL out ++
       (if counts then [ErrL (f ++ lit ": " ++ str_of_Z n ++ lit " errors encountered building symbol table.")] else []))
      (ns ++ [n]).
(** what is printed before the exception [e] of the first refused EQUALS *)
Definition broken (upper rep : str -> str) (card_rep : card -> str) (fuel : nat) (fs : fsys) (verbose counts : bool)
    (files : list str) (out : list line) (e : exn) : Prop :=
  exists pre f post ds ls ns seg log cs c cs' d said n tag kind tt ss,
    files = pre ++ f :: post /\ files_said upper rep card_rep fuel fs verbose counts pre ds ls ns /\
    read_log fs f log /\ source_cards fuel fs f (cs ++ c :: cs') /\ segment_of f seg /\
    cards_said upper rep card_rep ds seg (lit "1") cs d said n /\
    defines upper c tag kind tt /\ current_subseg (lit "1") (cs ++ [c]) ss /\ fatal_at (ds ++ d) (mksdef tag seg ss kind tt c) e /\
    out = ls ++ (if verbose then log else []) ++ map ErrL said.
(** the names that check-symbols and find-symbols --fuzzy choose from *)
Definition candidates (ds : list sdef) (choices : list str) : Prop :=
  StronglySorted str_lt choices /\
  forall s, In s choices <->
    (exists seg ss e, in_force ds s seg ss (lit "simple") e /\
       forall seg' ss' k' e', in_force ds s seg' ss' k' e' -> str_leb seg seg' = true) \/
    ((exists seg ss e, in_force ds s seg ss (lit "simple") e) /\
     forall s', str_lt s' s -> ~ exists seg ss e, in_force ds s' seg ss (lit "simple") e).
(** files for the examples, and what is said about them *)
Definition clash_files : fsys := fun f =>
  if eqb f (lit "simple.a") then Some (lit "        A          DEC          1" ++ [10] ++ lit "        A          DEC          2" ++ [10])
  else if eqb f (lit "simple.b") then Some (lit "        A          EQUALS       1" ++ [10] ++ lit "        A,         DEC          1" ++ [10])
  else if eqb f (lit "complex.a") then Some (lit "        C          ASSIGN       1" ++ [10]) else None.
Definition clash_said : list line :=
  [ErrL (lit "*** ERROR: Symbol A is multiply-defined!");
   ErrL (lit "Previous definitions: {'simple': {'file': 'simple.a', 'line': 1, 'lognum': None, 'tagtype': ' ', 'card': <card>}}");
   ErrL (lit "Current definition: {'file': 'simple.a', 'line': 2, 'lognum': None, 'tagtype': ' ', 'card': <card>}");
   ErrL (lit "command: DEC")].
