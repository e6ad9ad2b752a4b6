(** Specification of symbol tables. *)
From Coq Require Export Sorted.
From Verif Require Import Py MCards MSymbols.

(** *** class SymbolTable *)
Inductive stop :=
| OpAdd (name : str) (file : option str) (line : Z) (value : option Z) (symtype segment subsegment : option str)
| OpUpdate (name : str) (value : option Z) (symtype : option str)
| OpPrune
| OpResolve (maxPasses : Z)
| OpLookup (name : str).
Definition st_step (t : symtable) (o : stop) : symtable :=
  match o with
  | OpAdd n f l v k s u => fst (st_add t n f l v k s u)
  | OpUpdate n v k => fst (st_update t n v k)
  | OpPrune => match st_prune t with Ok t' => t' | Err _ => t end
  | OpResolve n => match st_resolve t n with Ok (t', _) => t' | Err _ => t end
  | OpLookup n => t
  end.
Definition st_run (h : list stop) : symtable := fold_left st_step h st_new.

Definition adds (n : str) (o : stop) : Prop :=
  n <> [] /\ match o with OpAdd m _ _ _ _ _ _ => m = n | _ => False end.
(** [o] is the first operation of the history that adds [n] *)
Definition first_add (h : list stop) (n : str) (o : stop) : Prop :=
  exists pre post, h = pre ++ o :: post /\ adds n o /\ forall o', In o' pre -> ~ adds n o'.
(** the entry holds what was passed to add *)
Definition entry_of (o : stop) (e : ste) : Prop :=
  match o with
  | OpAdd n f l v k s u =>
      s_name e = n /\ s_file e = f /\ s_line e = l /\ s_symtype e = k /\ s_segment e = s /\
      s_subsegment e = u /\ s_refs e = [] /\
      (k = Some (lit "absolute") -> s_absolute e = v /\ s_complex e = None) /\
      (k <> Some (lit "absolute") -> s_complex e = v /\ s_absolute e = None)
  | _ => False
  end.
(** names added without a value, at their first addition, in order *)
Fixpoint undef_names (seen : list str) (h : list stop) : list str :=
  match h with
  | [] => []
  | OpAdd n _ _ v _ _ _ :: r =>
      if (match n with [] => true | _ => false end) || existsb (fun m => eqb m n) seen then undef_names seen r
      else match v with
           | None => n :: undef_names (n :: seen) r
           | Some _ => undef_names (n :: seen) r
           end
  | _ :: r => undef_names seen r
  end.
Definition passes (evs : list event) : list event :=
  filter (fun e => match e with EvPass _ _ => true | _ => false end) evs.
(** the undefined list mentions only symbols of the table *)
Definition undefs_known (t : symtable) : Prop := forall s, In s (t_undefs t) -> dget (t_symbols t) s <> None.
Definition has_value (t : symtable) (s : str) : Prop :=
  exists e, dget (t_symbols t) s = Some e /\ (s_absolute e <> None \/ s_complex e <> None).
Inductive subseq {A} : list A -> list A -> Prop :=
| ss_nil l : subseq [] l
| ss_take x l l' : subseq l l' -> subseq (x :: l) (x :: l')
| ss_skip x l l' : subseq l l' -> subseq l (x :: l').
(** no two neighbours of the list both satisfy [P] *)
Definition no_neighbours {A} (P : A -> Prop) (l : list A) : Prop :=
  forall pre x y post, l = pre ++ x :: y :: post -> ~ (P x /\ P y).
Definition str_lt (a b : str) : Prop := str_leb a b = true /\ a <> b.

(** *** buildSymbolTable *)
Definition get4 (tab : symtab) (tag seg ss kind : str) : option tabent :=
  match dget tab tag with
  | Some sg => match dget sg seg with
               | Some u => match dget u ss with Some ks => dget ks kind | None => None end
               | None => None
               end
  | None => None
  end.
Definition starred (c : card) : Prop := card_get c "column8" = Ok (RStr (lit "*")).
(** every attribute read is there; true of every card in an ARGUS deck *)
Definition proper_card (c : card) : Prop :=
  forall x, In x ["column8"; "operation"; "label"; "lognum"]%string ->
    exists v, card_get c x = Ok v /\ match v with RInt _ => False | RStr s => s <> [] | RNone => True end.
(** the card starts subsegment [s] *)
Definition setloc (c : card) (s : str) : Prop :=
  ~ starred c /\
  exists r, let op := lit "SETLOC" ++ r in
    card_get c "operation" = Ok (RStr op) /\
    ((~ In 44 op /\ s = lit "0") \/
     (exists a b, op = a ++ 44 :: b /\ ~ In 44 a /\ ~ In 44 b /\ s = strip b) \/
     (exists a b d, op = a ++ 44 :: b ++ 44 :: d /\ ~ In 44 a /\ ~ In 44 b /\ s = strip b)).
(** the subsegment after the cards [cs], which is [s0] at the beginning *)
Inductive current_subseg (s0 : str) : list card -> str -> Prop :=
| cs_none cs : (forall c s, In c cs -> ~ setloc c s) -> current_subseg s0 cs s0
| cs_last a c b s : setloc c s -> (forall c' s', In c' b -> ~ setloc c' s') ->
    current_subseg s0 (a ++ c :: b) s.
(** a label without its blanks *)
Definition label_text (c : card) (s : str) : Prop :=
  exists l, card_get c "label" = Ok (RStr l) /\ s = filter (fun x => negb (x =? 32)) (strip l).
(** well-formed label text: tag type and tag *)
Definition well_formed (upper : str -> str) (s tagtype tag : str) : Prop :=
  upper s = s /\
  ((~ In 44 s /\ tagtype = lit " " /\ tag = s) \/
   (s = tagtype ++ 44 :: tag /\ ~ In 44 tag /\ In tagtype (map lit ["B"; "F"; "S"; "Z"]%string))).
(** the card defines [tag] *)
Definition defines (upper : str -> str) (c : card) (tag kind tagtype : str) : Prop :=
  ~ starred c /\
  exists s op, label_text c s /\ well_formed upper s tagtype tag /\
    card_get c "operation" = Ok (RStr op) /\
    ((op = lit "ASSIGN" /\ kind = lit "complex") \/ (op <> lit "ASSIGN" /\ kind = lit "simple")).
(** the card has a label that is an error *)
Definition label_error (upper : str -> str) (c : card) : Prop :=
  ~ starred c /\
  exists s, label_text c s /\
    ((forall tagtype tag, ~ well_formed upper s tagtype tag) \/ card_get c "operation" = Ok RNone).
(** [n] elements of the list satisfy [P] *)
Inductive count_of {A} (P : A -> Prop) : list A -> Z -> Prop :=
| cn_nil : count_of P [] 0
| cn_yes x l n : P x -> count_of P l n -> count_of P (x :: l) (n + 1)
| cn_no x l n : ~ P x -> count_of P l n -> count_of P (x :: l) n.
(** the entry made from a card *)
Definition entry_from (c : card) (tagtype : str) (e : tabent) : Prop :=
  e_file e = c_filename c /\ e_line e = c_linenum c /\ card_get c "lognum" = Ok (e_lognum e) /\
  e_tagtype e = tagtype /\ e_card e = c.
(** no segment of the table is called "simple" or "complex" *)
Definition is_kind (s : str) : Prop := s = lit "simple" \/ s = lit "complex".
Definition plain_table (tab : symtab) : Prop :=
  forall tag sg s, dget tab tag = Some sg -> is_kind s -> dget sg s = None.

(** *** queries *)
Definition has_kind (tab : symtab) (s kind : str) : Prop := exists seg ss e, get4 tab s seg ss kind = Some e.
(** a Python dictionary has no duplicate keys *)
Definition dict_ok {V} (d : dict str V) : Prop := NoDup (dkeys d).

(** *** definitions made by a list of cards *)
(** [c] is the last card that defines [tag], [kind] while the subsegment is [ss] *)
Definition last_def (upper : str -> str) (s0 : str) (cs : list card) (tag ss kind : str) (c : card) (tagtype : str) : Prop :=
  exists pre post, cs = pre ++ c :: post /\ defines upper c tag kind tagtype /\
    current_subseg s0 (pre ++ [c]) ss /\
    forall a c' b t', post = a ++ c' :: b -> defines upper c' tag kind t' ->
      ~ current_subseg s0 (pre ++ c :: a ++ [c']) ss.
Definition never_def (upper : str -> str) (s0 : str) (cs : list card) (tag ss kind : str) : Prop :=
  forall pre c post t, cs = pre ++ c :: post -> defines upper c tag kind t ->
    ~ current_subseg s0 (pre ++ [c]) ss.
(** the file name up to its first dot *)
Definition segment_of (filename seg : str) : Prop :=
  (~ In 46 filename /\ seg = filename) \/ (exists r, filename = seg ++ 46 :: r /\ ~ In 46 seg).
(** the cards read from the file *)
Definition source_cards (fuel : nat) (fs : fsys) (filename : str) (cs : list card) : Prop :=
  exists d sec c8, argus_deck_new fuel fs None (Some filename) 120 [1; 2; 8; 9; 20; 33; 47; 61; 76; 81] ArgusCls
                     = Ok (d, sec, c8) /\ cs = d_cards d.

(** *** queries, continued *)
(** the least segment of a symbol *)
Definition first_seg (tab : symtab) (s seg : str) : Prop :=
  exists sg, dget tab s = Some sg /\ In seg (dkeys sg) /\ forall x, In x (dkeys sg) -> str_leb seg x = true.
Definition has_kind_in (tab : symtab) (s seg kind : str) : Prop := exists ss e, get4 tab s seg ss kind = Some e.
