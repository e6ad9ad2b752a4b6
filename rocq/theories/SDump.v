(** Specification of the dumps that follow the messages about symbols. *)
From Verif Require Import Py MCards MSymbols SSymbols SDiag.

(** a dict as Python shows it, from the texts of its keys and values *)
Fixpoint items_text (items : list (str * str)) : str :=
  match items with
  | [] => []
  | [(k, v)] => k ++ lit ": " ++ v
  | (k, v) :: r => k ++ lit ": " ++ v ++ lit ", " ++ items_text r
  end.
Definition dict_text (items : list (str * str)) : str := [123] ++ items_text items ++ [125].
(** a value that may be None *)
Definition none_or (rep : str -> str) (o : option str) (t : str) : Prop :=
  match o with None => t = lit "None" | Some s => t = rep s end.
(** the definition a card makes, with the given tag type (None before it is known) *)
Definition definition_text (rep : str -> str) (card_rep : card -> str) (c : card) (tagtype : option str) (t : str) : Prop :=
  exists lognum f l g,
    ((card_get c "lognum" = Ok RNone /\ lognum = None) \/ exists s, card_get c "lognum" = Ok (RStr s) /\ lognum = Some s) /\
    none_or rep (c_filename c) f /\ none_or rep lognum l /\ none_or rep tagtype g /\
    t = dict_text [(lit "'file'", f); (lit "'line'", str_of_Z (c_linenum c)); (lit "'lognum'", l); (lit "'tagtype'", g);
                   (lit "'card'", card_rep c)].
(** the complaint about the label of a card, and the tag type known when it is made *)
Inductive described (upper : str -> str) (c : card) : str -> option str -> Prop :=
| ds_case s : label_text c s -> upper s <> s ->
    described upper c (lit "*** ERROR: Symbol " ++ s ++ lit " is ill-formed (case)!") None
| ds_commas s x y z : label_text c s -> upper s = s -> s = x ++ 44 :: y ++ 44 :: z ->
    described upper c (lit "*** ERROR: Symbol " ++ s ++ lit " is illegal, too many commas!") (Some (lit " "))
| ds_prefix s p t : label_text c s -> upper s = s -> s = p ++ 44 :: t -> ~ In 44 p -> ~ In 44 t ->
    ~ In p (map lit ["B"; "F"; "L"; "S"; "X"; "Z"]%string) ->
    described upper c (lit "*** ERROR: Symbol " ++ s ++ lit " is ill-formed (tag prefix)!") (Some (lit " "))
| ds_unsupported s p t : label_text c s -> upper s = s -> s = p ++ 44 :: t -> ~ In 44 t ->
    In p (map lit ["L"; "X"]%string) ->
    described upper c (lit "*** ERROR: Symbol " ++ s ++ lit " has unsupported tag prefix!") (Some (lit " "))
| ds_no_operation s tagtype tag : label_text c s -> well_formed upper s tagtype tag ->
    card_get c "operation" = Ok RNone ->
    described upper c (lit "*** ERROR: Symbol " ++ s ++ lit " has no operation!") (Some tagtype).
(** the lines about the cards: two for every card with a faulty label, none for the others *)
Inductive dumped (upper rep : str -> str) (card_rep : card -> str) : list card -> list str -> Prop :=
| dp_nil : dumped upper rep card_rep [] []
| dp_bad c cs m ty d ls : ~ starred c -> described upper c m ty -> definition_text rep card_rep c ty d ->
    dumped upper rep card_rep cs ls -> dumped upper rep card_rep (c :: cs) (m :: (lit "Current definition: " ++ d) :: ls)
| dp_good c cs ls : (starred c \/ forall m, ~ complaint upper c m) ->
    dumped upper rep card_rep cs ls -> dumped upper rep card_rep (c :: cs) ls.
(** the lines that belong to one message *)
Definition block_of (m : str) (ls : list str) : Prop :=
  (exists d, ls = [m; lit "Current definition: " ++ d]) \/
  (exists tag p d cmd, m = multiple tag /\
     ls = [m; lit "Previous definitions: " ++ p; lit "Current definition: " ++ d; lit "command: " ++ cmd]).
(** the definition shown for an entry of a table *)
Definition entry_item (rep : str -> str) (card_rep : card -> str) (x : str * tabent) (kv : str * str) : Prop :=
  fst kv = rep (fst x) /\
  exists f l g, none_or rep (e_file (snd x)) f /\
    match e_lognum (snd x) with RNone => l = lit "None" | RStr s => l = rep s | RInt n => l = str_of_Z n end /\
    g = rep (e_tagtype (snd x)) /\
    snd kv = dict_text [(lit "'file'", f); (lit "'line'", str_of_Z (e_line (snd x))); (lit "'lognum'", l); (lit "'tagtype'", g);
                        (lit "'card'", card_rep (e_card (snd x)))].
