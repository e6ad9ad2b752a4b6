(** What the scripts do as commands: their exit status, and what they say about a wrong command line. *)
From Coq Require Export Sorting.Sorted.
From Verif Require Import Py MCards SCards MSymbols SSymbols MInstructions MTools STools MDiag MVerbose SVerbose MOptions SOptions MProcess.

(** how a script is called, after its name *)
Definition calling (t : tool) : string :=
  match t with
  | CheckInstructions | CheckSymbols | ListSymbols | Listing | Parse => "filename [filename]..."
  | FindSymbols => "[options] symbol filename [filename]..."
  | ListInstructions => "opcode filename [filename]..."
  | Genlines => "start end [step] [startcol] [endcol]"
  | Genpages => "filename"
  end.
(** the options of a script, letter and name *)
Definition options (t : tool) : list flag :=
  map (fun x => mkflag (fst x) (lit (snd x)))
    match t with
    | CheckInstructions => [(97, "all"); (99, "count"); (105, "invalid"); (112, "print-opcodes"); (115, "sort"); (117, "unused"); (118, "verbose")]
    | CheckSymbols => [(118, "verbose"); (99, "complex")]
    | FindSymbols => [(98, "begin"); (68, "details"); (101, "end"); (102, "fuzzy"); (118, "verbose"); (120, "exact")]
    | ListInstructions => [(68, "details"); (118, "verbose")]
    | ListSymbols | Listing => [(118, "verbose")]
    | Parse => [(100, "debug"); (118, "verbose")]
    | Genlines | Genpages => []
    end%string.
(** the message about a wrong command line: how to call the script, and the reason *)
Definition refused (t : tool) (prog reason : str) : list line :=
  [ErrL (lit "Usage: " ++ prog ++ lit " " ++ lit (calling t)); ErrL []; ErrL (prog ++ lit ": error: " ++ reason)].

(** *** wrong options *)
(** the names that begin with [t], in alphabetical order and with their dashes *)
Definition candidates (opts : list flag) (t : str) (ws : list str) : Prop :=
  StronglySorted str_lt ws /\ forall w, In w ws <-> exists l, declared opts l /\ (exists r, l = t ++ r) /\ w = lit "--" ++ l.
(** the first thing wrong in an option word *)
Inductive wrong_word (opts : list flag) : str -> str -> Prop :=
| ww_letter cs ls c more : hd 0 (cs ++ [c]) <> 45 -> Forall2 (letter_of opts) cs ls -> ~ In (lit "help") ls -> (forall l, ~ letter_of opts c l) ->
    wrong_word opts (45 :: cs ++ c :: more) (lit "no such option: -" ++ [c])
| ww_unknown t rest : ~ In 61 t -> (rest = [] \/ exists r, rest = 61 :: r) -> t ++ rest <> [] ->
    (forall l, declared opts l -> ~ exists r, l = t ++ r) ->
    wrong_word opts (45 :: 45 :: t ++ rest) (lit "no such option: --" ++ t)
| ww_ambiguous t rest ws : ~ In 61 t -> (rest = [] \/ exists r, rest = 61 :: r) -> t ++ rest <> [] ->
    ~ declared opts t -> candidates opts t ws -> 1 < zlen ws ->
    wrong_word opts (45 :: 45 :: t ++ rest) (lit "ambiguous option: --" ++ t ++ lit " (" ++ join (lit ", ") ws ++ lit "?)")
| ww_value t l r : ~ In 61 t -> names opts t l ->
    wrong_word opts (45 :: 45 :: t ++ 61 :: r) (lit "--" ++ l ++ lit " option does not take a value").
(** the first wrong option word of a command line, before any "--" and any request for help *)
Inductive wrong_options (opts : list flag) : list str -> str -> Prop :=
| wo_word w r m : wrong_word opts w m -> wrong_options opts (w :: r) m
| wo_arg w r m : plain_word w -> wrong_options opts r m -> wrong_options opts (w :: r) m
| wo_opt w ls r m : option_word opts w ls -> ~ In (lit "help") ls -> wrong_options opts r m -> wrong_options opts (w :: r) m.

(** *** wrong arguments *)
(** two different ways of matching are asked for *)
Definition conflicting (on : list str) : Prop :=
  exists l l', l <> l' /\ In l [lit "begin"; lit "end"; lit "fuzzy"; lit "exact"] /\ In l' [lit "begin"; lit "end"; lit "fuzzy"; lit "exact"] /\
    In l on /\ In l' on.
(** every "# Pages:" line can be understood, and every "# Filename:" line names a file *)
Definition page_lines_ok (lines : list str) : Prop := forall x, In x lines -> pages_line x -> exists a b, pages_are x a b.
Inductive misuse (fs : fsys) : tool -> list str -> list str -> str -> Prop :=
| mu_no_file t on : In t [CheckInstructions; CheckSymbols; ListSymbols; Listing; Parse; Genpages] -> misuse fs t on [] (lit "usage: %prog filename")
| mu_conflict on args : conflicting on -> misuse fs FindSymbols on args (lit "Conflicting options!")
| mu_find on args : ~ conflicting on -> zlen args < 2 -> misuse fs FindSymbols on args (lit "usage: %prog [options] symbol filename [filename]...")
| mu_no_opcode on : misuse fs ListInstructions on [] (lit "usage: %prog filename [filename]...")
| mu_opcode on opcode m files : mnemonic_of opcode m -> ~ In m INSTRUCTIONS ->
    misuse fs ListInstructions on (opcode :: files) (lit "ERROR: invalid opcode """ ++ opcode ++ lit """")
| mu_numbers on args : zlen args < 2 -> misuse fs Genlines on args (lit "Start and End numbers must be supplied!")
| mu_digits on a b rest : 6 < zlen a \/ 6 < zlen b -> misuse fs Genlines on (a :: b :: rest) (lit "Number of digits cannot be greater than 6!")
| mu_missing on f rest : fs f = None -> misuse fs Genpages on (f :: rest) (lit "Filename " ++ f ++ lit " does not exist!")
| mu_section on f rest content : fs f = Some content -> page_lines_ok (readlines content) ->
    (forall x, In x (readlines content) -> ~ l_line x /\ ~ name_line x) ->
    misuse fs Genpages on (f :: rest) (lit "Cannot determine log section!")
| mu_pages on f rest content sec c8 a b : fs f = Some content -> page_lines_ok (readlines content) ->
    section_is (readlines content) sec c8 -> page_numbers (readlines content) a b -> b < a ->
    misuse fs Genpages on (f :: rest) (lit "Invalid page numbers!").
(** a wrong command line and the reason given *)
Definition wrong_line (fs : fsys) (t : tool) (words : list str) (reason : str) : Prop :=
  wrong_options (options t) words reason \/ exists on args, understood (options t) words on args /\ misuse fs t on args reason.

(** *** a command line without mistakes *)
Inductive ends_as {A} : res A -> ending -> Prop :=
| ea_ok x : ends_as (Ok x) (Exit 0)
| ea_exit : ends_as (Err SystemExit) (Exit 1)
| ea_died e : e <> SystemExit -> ends_as (Err e) (Died e).
(** what a script does with the options [on] and the arguments [args]: the lines printed, the end and the files afterwards *)
Inductive runs (v : env) (fs : fsys) (on args : list str) : tool -> list line -> ending -> fsys -> Prop :=
| rn_check_instructions verbose o ls r st : turned_on on "verbose" verbose ->
    turned_on on "all" (o_all o) -> turned_on on "count" (o_count o) -> turned_on on "invalid" (o_invalid o) ->
    turned_on on "print-opcodes" (o_print o) -> turned_on on "sort" (o_sort o) -> turned_on on "unused" (o_unused o) ->
    check_instructions_run (e_pct v) (e_fuel v) fs verbose o args = (ls, r) -> ends_as r st ->
    runs v fs on args CheckInstructions ls st fs
| rn_check_symbols verbose complex ls r st : turned_on on "verbose" verbose -> turned_on on "complex" complex ->
    check_symbols_verbose (e_extract v) (e_upper v) (e_rep v) (e_card_rep v) (e_fuel v) fs verbose complex args = (ls, r) -> ends_as r st ->
    runs v fs on args CheckSymbols ls st fs
| rn_find_symbols verbose b e f x ls r st : turned_on on "verbose" verbose ->
    turned_on on "begin" b -> turned_on on "end" e -> turned_on on "fuzzy" f -> turned_on on "exact" x ->
    find_symbols_verbose (e_extract v) (e_upper v) (e_rep v) (e_card_rep v) (e_fuel v) fs verbose b e f x args = (ls, r) -> ends_as r st ->
    runs v fs on args FindSymbols ls st fs
| rn_list_instructions verbose details ls r st : turned_on on "verbose" verbose -> turned_on on "details" details ->
    list_instructions_run (e_fuel v) fs verbose details args = (ls, r) -> ends_as r st ->
    runs v fs on args ListInstructions ls st fs
| rn_list_symbols verbose ls r st : turned_on on "verbose" verbose ->
    list_symbols_run (e_upper v) (e_rep v) (e_card_rep v) (e_fuel v) fs verbose args = (ls, r) -> ends_as r st ->
    runs v fs on args ListSymbols ls st fs
| rn_listing verbose ls r st fs' : turned_on on "verbose" verbose ->
    listing_run (e_fuel v) fs verbose args = ((ls, r), fs') -> ends_as r st ->
    runs v fs on args Listing ls st fs'
| rn_parse verbose debug ls r st : turned_on on "verbose" verbose -> turned_on on "debug" debug ->
    parse_run (e_upper v) (e_rep v) (e_card_rep v) (e_fuel v) fs verbose debug args = (ls, r) -> ends_as r st ->
    runs v fs on args Parse ls st fs
| rn_genlines out : genlines args = Ok out -> runs v fs on args Genlines (map OutL out) (Exit 0) fs
| rn_genlines_bad e : genlines args = Err e -> runs v fs on args Genlines [] (Died e) fs
| rn_genpages f rest content more fs' : args = f :: rest -> fs f = Some content -> genpages (e_fuel v) content = Ok more ->
    fs' f = Some (content ++ more) -> (forall g, g <> f -> fs' g = fs g) -> runs v fs on args Genpages [] (Exit 0) fs'
| rn_genpages_bad f rest content e : args = f :: rest -> fs f = Some content -> genpages (e_fuel v) content = Err e ->
    runs v fs on args Genpages [] (Died e) fs.

(** *** the exit status *)
(** the source files among the arguments *)
Definition sources (t : tool) (args : list str) : list str :=
  match t with
  | FindSymbols | ListInstructions => tl args
  | _ => args
  end.
(** the scripts that read sources and write nothing *)
Definition reads_only (t : tool) : Prop :=
  In t [CheckInstructions; CheckSymbols; FindSymbols; ListInstructions; ListSymbols; Parse].
(** those that make a symbol table *)
Definition keeps_table (t : tool) : Prop := In t [CheckSymbols; FindSymbols; ListSymbols; Parse].
