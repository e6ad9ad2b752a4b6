(** The symbol tools as commands, for sources of any names: C196. *)
From Verif Require Import Py MInstructions MCards SCards MSymbols SSymbols MTools STools MDiag SDiag SDump MVerbose SVerbose STranscript SFound SForce MOptions SOptions MProcess SProcess SEnds SSource STextSym SReport SUnread SSaid.

(** the tools that make a symbol table, and whether they print the number of complaints of each file *)
Definition prints_counts (t : tool) (counts : bool) : Prop :=
  In (t, counts) [(CheckSymbols, true); (FindSymbols, true); (Parse, true); (ListSymbols, false)].
(** what a tool prints after its table is made: [css] are the cards of the sources, [ds] the definitions, [ns] the numbers
    of complaints *)
Inductive closing (v : env) (fs : fsys) (on : list str) (verbose : bool) (css : list (list card)) (ds : list sdef) (ns : list Z) :
    tool -> list str -> list line -> Prop :=
| cl_list files out es : rendered (None, None, None) es out -> StronglySorted (fun x y => key_lt (fst x) (fst y)) es ->
    (forall t s u k e, In ((t, s, u, k), e) es <-> in_force ds t s u k e) ->
    closing v fs on verbose css ds ns ListSymbols files
      (map OutL out ++ (if fold_right Z.add 0 ns =? 0 then [] else [ErrL (str_of_Z (fold_right Z.add 0 ns) ++ lit " errors found")]))
| cl_check files complex syms choices part total : turned_on on "complex" complex -> StronglySorted str_lt syms ->
    (forall s, In s syms <-> complex = true /\ (exists seg ss e, in_force ds s seg ss (lit "complex") e) /\
       ~ (exists seg ss e, in_force ds s seg ss (lit "simple") e)) ->
    candidates ds choices -> undefined_part (fun s => map fst (e_extract v s choices 10)) syms part ->
    total_part files (fold_right Z.add 0 ns + zlen syms) total ->
    closing v fs on verbose css ds ns CheckSymbols files
      (map (fun s => ErrL (lit "ERROR: symbol """ ++ s ++ lit """ has a complex assignment, but no simple assignment!")) syms ++ part ++ total)
| cl_found symbol files d l a t : turned_on on "begin" false -> turned_on on "end" false -> turned_on on "fuzzy" false ->
    In d ds -> sd_tag d = symbol -> accepted symbol ds l -> answer_from l a -> answer_text (e_rep v) (e_card_rep v) a t ->
    closing v fs on verbose css ds ns FindSymbols (symbol :: files) [OutL t]
| cl_unknown symbol files : turned_on on "begin" false -> turned_on on "end" false -> turned_on on "fuzzy" false ->
    (forall d, In d ds -> sd_tag d <> symbol) ->
    closing v fs on verbose css ds ns FindSymbols (symbol :: files) [ErrL (lit "ERROR: Undefined symbol """ ++ symbol ++ lit """!")]
| cl_names symbol files names : In (lit "begin") on \/ In (lit "end") on -> StronglySorted str_lt names ->
    (forall s, In s names <-> (exists d, In d ds /\ sd_tag d = s) /\
       (In (lit "begin") on /\ (exists r, s = symbol ++ r) \/ In (lit "end") on /\ (exists r, s = r ++ symbol))) ->
    closing v fs on verbose css ds ns FindSymbols (symbol :: files) (if zlen names =? 0 then [] else [OutL (names_text (e_rep v) names)])
| cl_similar symbol files choices names : In (lit "fuzzy") on -> candidates ds choices -> names = map fst (e_extract v symbol choices 10) ->
    closing v fs on verbose css ds ns FindSymbols (symbol :: files) (if zlen names =? 0 then [] else [OutL (names_text (e_rep v) names)])
| cl_parse files debug n before k ls : turned_on on "debug" debug -> ns = before ++ [n] ->
    count_of (fun c => ~ starred c /\ exists m, instr_is c m /\ ~ In m INSTRUCTIONS) (concat css) k ->
    files_report (e_fuel v) fs verbose debug files ls ->
    closing v fs on verbose css ds ns Parse files
      (ls ++ [OutL (10 :: lit "Source lines: " ++ str_of_Z (zlen (concat css))); OutL (error_count (n + k))]).
(** all goes well *)
Definition completes (v : env) (fs : fsys) (on : list str) (verbose counts : bool) (t : tool) (args : list str) (ls : list line) : Prop :=
  exists css ds ns tables rest, Forall2 (source_cards (e_fuel v) fs) (sources t args) css /\ files_defs (e_upper v) (sources t args) css ds /\
    harmless ds /\ files_said (e_upper v) (e_rep v) (e_card_rep v) (e_fuel v) fs verbose counts (sources t args) ds tables ns /\
    closing v fs on verbose css ds ns t args rest /\ ls = tables ++ rest.
(** a source cannot be read, and nothing went wrong before *)
Definition unread (v : env) (fs : fsys) (verbose counts : bool) (files : list str) (ls : list line) (st : ending) : Prop :=
  exists pre f post css ds ns tables log msg, files = pre ++ f :: post /\ Forall2 (source_cards (e_fuel v) fs) pre css /\
    files_defs (e_upper v) pre css ds /\ harmless ds /\
    files_said (e_upper v) (e_rep v) (e_card_rep v) (e_fuel v) fs verbose counts pre ds tables ns /\
    gives_up fs (e_fuel v) f log msg st /\ ls = tables ++ (if verbose then log else []) ++ msg.
