(** Model of /repo/h800/symbol_table.py.
    Symbol names are strings, symbol values integers or None.  Error and progress
    messages of buildSymbolTable and checkSymbolTable are left out; those of the
    class SymbolTable are modelled as events. *)
From Verif Require Import Py MCards.

(** *** class SymbolTableEntry *)
(** symbol_table.py:14-27 *)
Record ste := mkste {
  s_name : str; s_absolute : option Z; s_complex : option Z; s_symtype : option str;
  s_file : option str; s_line : Z; s_segment : option str; s_subsegment : option str; s_refs : list str
}.
Definition opt_str_is (o : option str) (s : string) : bool :=
  match o with Some t => eqb t (lit s) | None => false end.
Definition ste_new (name : str) (value : option Z) (symtype : option str) (file : option str) (line : Z)
                   (segment subsegment : option str) : ste :=
  if opt_str_is symtype "absolute"
  then mkste name value None symtype file line segment subsegment []
  else mkste name None value symtype file line segment subsegment [].
(** symbol_table.py:33-35 reads an attribute that is never set *)
Definition ste_value (e : ste) : res Z := Err AttributeError.
(** symbol_table.py:57-68 *)
Definition isSome {A} (o : option A) : bool := match o with Some _ => true | None => false end.
Definition isAbsolute (e : ste) : bool := isSome (s_absolute e).
Definition isComplex (e : ste) : bool := isSome (s_complex e).
Definition isValid (e : ste) : bool := isSome (s_absolute e) || isSome (s_complex e).
Definition isMultiple (e : ste) : bool := isAbsolute e && isComplex e.
(** symbol_table.py:70-71 *)
Definition addReference (e : ste) (ref : str) : ste :=
  mkste (s_name e) (s_absolute e) (s_complex e) (s_symtype e) (s_file e) (s_line e) (s_segment e)
        (s_subsegment e) (s_refs e ++ [ref]).

(** *** class SymbolTable *)
(** symbol_table.py:76-78 *)
Record symtable := mkst { t_symbols : dict str ste; t_undefs : list str }.
Definition st_new : symtable := mkst [] [].

(** symbol_table.py:88-98; the boolean tells whether "already defined" is printed *)
Definition st_add (t : symtable) (name : str) (file : option str) (line : Z) (value : option Z)
                  (symtype segment subsegment : option str) : symtable * bool :=
  match name with
  | [] => (t, false)
  | _ =>
      if dmem (t_symbols t) name then (t, true)
      else (mkst (dset (t_symbols t) name (ste_new name value symtype file line segment subsegment))
                 (match value with None => t_undefs t ++ [name] | Some _ => t_undefs t end), false)
  end.
(** symbol_table.py:100-108: SymbolTable has no attribute context, and the property
    value of an entry has no setter *)
Definition st_update (t : symtable) (name : str) (value : option Z) (symtype : option str)
                     : symtable * res unit :=
  match name with
  | [] => (t, Ok tt)
  | _ => (t, Err AttributeError)
  end.

(** symbol_table.py:128-138 pruneUndefines.  The loop enumerates the list it deletes
    from, so position [i] is looked up in the shortened list; [fuel] is the length
    of the list. *)
Fixpoint prune_loop (fuel : nat) (syms : dict str ste) (undefs : list str) (i : nat) : res (list str) :=
  match fuel with
  | O => Ok undefs
  | S f =>
      match nth_error undefs i with
      | None => Ok undefs
      | Some symbol =>
          do entry <- dindex syms symbol;
          if isValid entry
          then prune_loop f syms (firstn i undefs ++ skipn (S i) undefs) (S i)
          else prune_loop f syms undefs (S i)
      end
  end.
Definition st_prune (t : symtable) : res symtable :=
  do u <- prune_loop (List.length (t_undefs t)) (t_symbols t) (t_undefs t) 0;
  Ok (mkst (t_symbols t) u).

(** symbol_table.py:110-126 resolve, with what it prints itself *)
Inductive event := EvPass (i n : Z) | EvResolved | EvAttempt (s : str) | EvNoProgress (n : Z).
Fixpoint resolve_loop (passes : nat) (i : Z) (t : symtable) (prev n : Z) : res (symtable * list event) :=
  match passes with
  | O => Ok (t, [])
  | S p =>
      if n =? 0 then Ok (t, [EvPass i n; EvResolved])
      else
        do t' <- st_prune t;
        let n' := zlen (t_undefs t') in
        let evs := EvPass i n :: map EvAttempt (t_undefs t) in
        if n' =? prev then Ok (t', evs ++ [EvNoProgress n'])
        else do r <- resolve_loop p (i + 1) t' n' n'; Ok (fst r, evs ++ snd r)
  end.
Definition st_resolve (t : symtable) (maxPasses : Z) : res (symtable * list event) :=
  let n := zlen (t_undefs t) in resolve_loop (Z.to_nat maxPasses) 0 t n n.

(** symbol_table.py:140-150 *)
Definition st_num (t : symtable) : Z := zlen (dkeys (t_symbols t)).
Definition st_num_undefs (t : symtable) : Z := zlen (t_undefs t).
Definition st_lookup (t : symtable) (name : str) : option ste := dget (t_symbols t) name.

(** symbol_table.py:152-175 printTable and printUndefs: the lines printed, an entry
    being printed as its default representation *)
Inductive outline := OText (s : str) | OEntry (e : ste).
Definition nl (s : string) : outline := OText (10 :: lit s ++ [10]).
Definition st_print (t : symtable) : res (list outline) :=
  do defs <- mapr (fun s => do e <- dindex (t_symbols t) s; Ok (OEntry e)) (sorted (dkeys (t_symbols t)));
  do und <- mapr (fun s => do e <- dindex (t_symbols t) s; Ok (OEntry e)) (t_undefs t);
  Ok ((nl "Defined symbols:" :: defs) ++
      (if 0 <? zlen (t_undefs t) then nl "Undefined symbols:" :: und else [])).
Definition st_print_undefs (t : symtable) : res (list outline) :=
  do und <- mapr (fun s => do e <- dindex (t_symbols t) s; Ok (OEntry e)) (t_undefs t);
  Ok (OText (10 :: lit "Undefined symbols: " ++ str_of_Z (zlen (t_undefs t)) ++ [10]) :: und).

(** *** buildSymbolTable *)
(** symbol_table.py:197-203, 212, 237 an entry; tagtype is ' ' or the prefix *)
Record tabent := mkent {
  e_file : option str; e_line : Z; e_lognum : rval; e_tagtype : str; e_card : card
}.
(** tag -> segment -> subsegment -> kind -> entry *)
Definition kinds := dict str tabent.
Definition subsegs := dict str kinds.
Definition segs := dict str subsegs.
Definition symtab := dict str segs.

Definition TAG_PREFIXES : list str := map lit ["B"; "F"; "L"; "S"; "X"; "Z"]%string.

(** symbol_table.py:204-251 the tag type and the tag of a label, None if it is an error.
    [upper] is str.upper *)
Definition label_tag (upper : str -> str) (label : str) : option (str * str) :=
  let s := remove_char 32 (strip label) in
  if negb (eqb (upper s) s) then None
  else if has_char 44 s then
    if 1 <? count_char 44 s then None
    else
      let p := nth 0 (split_on 44 s) [] in
      let n := nth 1 (split_on 44 s) [] in
      if negb (inb p TAG_PREFIXES) then None
      else if inb p (map lit ["L"; "X"]%string) then None
      else Some (p, n)
  else Some (lit " ", s).

(** symbol_table.py:267-299: the table and the number of errors added *)
Definition insert_def (tab : symtab) (seg subseg tag kind : str) (command : str) (e : tabent)
                      : res (symtab * Z) :=
  match dget tab tag with
  | None => Ok (dset tab tag [(seg, [(subseg, [(kind, e)])])], 0)
  | Some sg =>
      match dget sg seg with
      | None => Ok (dset tab tag (dset sg seg [(subseg, [(kind, e)])]), 0)
      | Some ss =>
          match dget ss subseg with
          | None => Ok (dset tab tag (dset sg seg (dset ss subseg [(kind, e)])), 0)
          | Some ks =>
              match dget sg kind with
              | None => Ok (dset tab tag (dset sg seg (dset ss subseg (dset ks kind e))), 0)
              | Some prev =>
                  if eqb command (lit "EQUALS")
                  then match dget prev (lit "card") with
                       | None => Err KeyError
                       | Some _ => Err AttributeError
                       end
                  else Ok (tab, 1)
              end
          end
      end
  end.

(** symbol_table.py:189-194 *)
Definition next_subseg (subseg : str) (command : rval) : res str :=
  match command with
  | RNone => Ok subseg
  | RInt n => if n =? 0 then Ok subseg else Err AttributeError
  | RStr s =>
      if negb (eqb s []) && startswith s (lit "SETLOC")
      then Ok (if has_char 44 s then strip (nth 1 (split_on 44 s) []) else lit "0")
      else Ok subseg
  end.

(** symbol_table.py:185-299 one card *)
Definition bstate := (str * symtab * Z)%type.
Definition build_card (upper : str -> str) (seg : str) (st : bstate) (c : card) : res bstate :=
  let '(subseg, tab, errs) := st in
  do c8 <- card_get c "column8";
  if is_str c8 "*" then Ok st
  else
    do command <- card_get c "operation";
    do subseg <- next_subseg subseg command;
    do label <- card_get c "label";
    match label with
    | RNone => Ok (subseg, tab, errs)
    | RInt n => if n =? 0 then Ok (subseg, tab, errs) else Err AttributeError
    | RStr [] => Ok (subseg, tab, errs)
    | RStr l =>
        do lognum <- card_get c "lognum";
        match label_tag upper l with
        | None => Ok (subseg, tab, errs + 1)
        | Some (tagtype, tag) =>
            match command with
            | RNone => Ok (subseg, tab, errs + 1)
            | RInt _ => Err AttributeError
            | RStr cmd =>
                let kind := if eqb cmd (lit "ASSIGN") then lit "complex" else lit "simple" in
                do r <- insert_def tab seg subseg tag kind cmd
                          (mkent (c_filename c) (c_linenum c) lognum tagtype c);
                Ok (subseg, fst r, errs + snd r)
            end
        end
    end.
Fixpoint build_cards (upper : str -> str) (seg : str) (st : bstate) (cs : list card) : res bstate :=
  match cs with
  | [] => Ok st
  | c :: r => do st' <- build_card upper seg st c; build_cards upper seg st' r
  end.
(** symbol_table.py:178-300; arguscard.py:13-14 the default layout *)
Definition build_symbol_table (upper : str -> str) (fuel : nat) (fs : fsys) (filename : str)
                              (tab : symtab) : res (symtab * Z) :=
  let seg := nth 0 (split_on 46 filename) [] in
  do d <- argus_deck_new fuel fs None (Some filename) DEFAULT_WIDTH DEFAULT_FIELDS ArgusCls;
  do st <- build_cards upper seg (lit "1", tab, 0) (d_cards (fst (fst d)));
  Ok (snd (fst st), snd st).

(** *** queries *)
Definition get_keys {V} (d : dict str V) : list str := sorted (dkeys d).
Definition sub {V} (d : dict str (dict str V)) (k : str) : dict str V :=
  match dget d k with Some v => v | None => [] end.
(** symbol_table.py:308-313: is [kind] among the kinds of some segment and subsegment *)
Definition found_kind (sg : segs) (kind : str) : bool :=
  existsb (fun seg => existsb (fun ss => dmem (sub (sub sg seg) ss) kind) (get_keys (sub sg seg))) (get_keys sg).
(** symbol_table.py:303-320; the errors printed are left out *)
Definition check_symtab (tab : symtab) (complexOnly : bool) : list str :=
  sorted (filter (fun s => negb (found_kind (sub tab s) (lit "simple")) &&
                           (complexOnly && found_kind (sub tab s) (lit "complex"))) (get_keys tab)).

(** symbol_table.py:323-336; [found] is never reset *)
Fixpoint abs_segs (sg : segs) (segl : list str) (found : bool) : bool * bool :=
  match segl with
  | [] => (false, found)
  | seg :: r =>
      let hit := existsb (fun ss => dmem (sub (sub sg seg) ss) (lit "simple")) (get_keys (sub sg seg)) in
      if hit || found then (hit, true) else abs_segs sg r found
  end.
Fixpoint abs_syms (tab : symtab) (syms : list str) (found : bool) : list str :=
  match syms with
  | [] => []
  | s :: r =>
      let '(hit, found) := abs_segs (sub tab s) (get_keys (sub tab s)) found in
      if hit then s :: abs_syms tab r found else abs_syms tab r found
  end.
Definition get_absolute (tab : symtab) : list str := abs_syms tab (get_keys tab) false.

(** symbol_table.py:339-374.  [extract] is fuzzywuzzy's process.extract, whose results
    are pairs of a choice and a score *)
Inductive found_def := FNone | FDefs (sg : segs) | FList (l : list str).
Definition find_symbol (extract : str -> list str -> Z -> list (str * Z)) (tab : symtab) (name : str)
                       (symtype : option str) (begin end_ fuzzy : bool) : found_def :=
  if negb begin && negb end_ && negb fuzzy then
    match dget tab name with
    | None => FNone
    | Some sg =>
        match symtype with
        | None => FDefs sg
        | Some k => if found_kind sg k then FDefs sg else FNone
        end
    end
  else if begin || end_ then
    FList (flat_map (fun s => (if begin && startswith s name then [s] else []) ++
                              (if end_ && endswith s name then [s] else [])) (get_keys tab))
  else FList (map fst (extract name (get_absolute tab) 10)).
