(** Model of the messages printed by h800/symbol_table.py and by the tools that build a
    symbol table, and of what a failing build leaves behind.  A message is one printed
    line; the dumps of dictionaries ("Current definition", "Previous definitions", and
    the "command" line that follows them) are left out here; MDump.v has them. *)
From Verif Require Import Py MCards MSymbols.

(** symbol_table.py:204-205, 215-216, 223-224, 230-231: the first line printed for a label
    text [s], None if the label is accepted *)
Definition error_text (s : str) (why : string) : str := lit "*** ERROR: Symbol " ++ s ++ lit why.
Definition label_message (upper : str -> str) (s : str) : option str :=
  if negb (eqb (upper s) s) then Some (error_text s " is ill-formed (case)!")
  else if has_char 44 s then
    if 1 <? count_char 44 s then Some (error_text s " is illegal, too many commas!")
    else
      let p := nth 0 (split_on 44 s) [] in
      if negb (inb p TAG_PREFIXES) then Some (error_text s " is ill-formed (tag prefix)!")
      else if inb p (map lit ["L"; "X"]%string) then Some (error_text s " has unsupported tag prefix!")
      else None
  else None.

(** symbol_table.py:185-299 the message of one card, None if nothing is printed *)
Definition card_message (upper : str -> str) (seg : str) (st : bstate) (c : card) : option str :=
  let '(subseg, tab, _) := st in
  match card_get c "column8", card_get c "operation", card_get c "label", card_get c "lognum" with
  | Ok c8, Ok command, Ok (RStr (x :: l)), Ok lognum =>
      if is_str c8 "*" then None
      else
        match next_subseg subseg command with
        | Err _ => None
        | Ok subseg =>
            let s := remove_char 32 (strip (x :: l)) in
            match label_tag upper (x :: l) with
            | None => label_message upper s
            | Some (tagtype, tag) =>
                match command with
                | RNone => Some (error_text s " has no operation!")
                | RInt _ => None
                | RStr cmd =>
                    let kind := if eqb cmd (lit "ASSIGN") then lit "complex" else lit "simple" in
                    match insert_def tab seg subseg tag kind cmd
                            (mkent (c_filename c) (c_linenum c) lognum tagtype c) with
                    | Ok (_, n) => if n =? 0 then None else Some (error_text tag " is multiply-defined!")
                    | Err _ => None
                    end
                end
            end
        end
  | _, _, _, _ => None
  end.
(** symbol_table.py:185-299 the loop over the cards: the messages printed and the state that
    is left, also when a card raises an exception *)
Fixpoint build_run (upper : str -> str) (seg : str) (st : bstate) (cs : list card) : list str * bstate * res unit :=
  match cs with
  | [] => ([], st, Ok tt)
  | c :: r =>
      let m := match card_message upper seg st c with Some m => [m] | None => [] end in
      match build_card upper seg st c with
      | Err e => (m, st, Err e)
      | Ok st' => let '(ms, st2, x) := build_run upper seg st' r in (m ++ ms, st2, x)
      end
  end.
(** symbol_table.py:178-300: messages, the caller's table afterwards, the result.  The table is
    modified in place. *)
Definition build_table_run (upper : str -> str) (fuel : nat) (fs : fsys) (filename : str) (tab : symtab)
                           : list str * symtab * res Z :=
  let seg := nth 0 (split_on 46 filename) [] in
  match argus_deck_new fuel fs None (Some filename) DEFAULT_WIDTH DEFAULT_FIELDS ArgusCls with
  | Err e => ([], tab, Err e)
  | Ok (d, _, _) =>
      let '(ms, st, r) := build_run upper seg (lit "1", tab, 0) (d_cards d) in
      (ms, snd (fst st), match r with Ok _ => Ok (snd st) | Err e => Err e end)
  end.

(** symbol_table.py:316-319 *)
Definition check_message (s : str) : str :=
  lit "ERROR: symbol """ ++ s ++ lit """ has a complex assignment, but no simple assignment!".

(** *** check-symbols.py:32-59: the lines printed, in order, on either stream *)
Inductive line := OutL (s : str) | ErrL (s : str).
Definition built_line (filename : str) (n : Z) : line :=
  ErrL (filename ++ lit ": " ++ str_of_Z n ++ lit " errors encountered building symbol table.").
(** check-symbols.py:34-39 and find-symbols.py:63-68 *)
Fixpoint build_all_run (upper : str -> str) (fuel : nat) (fs : fsys) (args : list str) (tab : symtab) (tot : Z)
                       : list line * res (symtab * Z) :=
  match args with
  | [] => ([], Ok (tab, tot))
  | f :: r =>
      let '(ms, tab', x) := build_table_run upper fuel fs f tab in
      match x with
      | Err e => (map ErrL ms, Err e)
      | Ok n =>
          let '(ls, y) := build_all_run upper fuel fs r tab' (tot + n) in
          (map ErrL ms ++ built_line f n :: ls, y)
      end
  end.
(** check-symbols.py:47-53 *)
Definition suggestion_line (s : str) (d : found_def) : line :=
  match d with
  | FList (m :: ms) => OutL (lit "  " ++ s ++ lit " - Possible matches: " ++ join (lit " ") (m :: ms))
  | _ => ErrL (lit "  " ++ s ++ lit " - No matches!")
  end.
Definition check_symbols_run (extract : str -> list str -> Z -> list (str * Z)) (upper : str -> str) (fuel : nat)
    (fs : fsys) (complexOnly : bool) (args : list str) : list line * res unit :=
  match args with
  | [] => ([], Err SystemExit)
  | _ =>
      let '(ls, x) := build_all_run upper fuel fs args [] 0 in
      match x with
      | Err e => (ls, Err e)
      | Ok (tab, tot) =>
          let syms := check_symtab tab complexOnly in
          let und :=
            match syms with
            | [] => []
            | _ => ErrL [] :: ErrL (lit "Undefined symbols:") ::
                   map (fun s => suggestion_line s (find_symbol extract tab s None false false true)) syms ++
                   [ErrL (str_of_Z (zlen syms) ++ lit " errors checking symbol table.")]
            end in
          let total :=
            if 1 <? zlen args then [ErrL (lit "Total: " ++ str_of_Z (tot + zlen syms) ++ lit " errors encountered.")] else [] in
          (ls ++ map (fun s => ErrL (check_message s)) syms ++ und ++ total, Ok tt)
      end
  end.

(** *** find-symbols.py:54-75: the lines printed before the result, and the result if it is
    printed; symbol_table.py:354 the message of findSymbolDef *)
Definition undefined_message (name : str) : line := ErrL (lit "ERROR: Undefined symbol """ ++ name ++ lit """!").
Definition find_symbols_run (extract : str -> list str -> Z -> list (str * Z)) (upper : str -> str) (fuel : nat) (fs : fsys)
    (begin end_ fuzzy exact : bool) (args : list str) : list line * res (option found_def) :=
  if (begin && exact) || (end_ && exact) || (begin && end_) || (fuzzy && (begin || end_ || exact)) then ([], Err SystemExit)
  else match args with
       | symbol :: f :: r =>
           let '(ls, x) := build_all_run upper fuel fs (f :: r) [] 0 in
           match x with
           | Err e => (ls, Err e)
           | Ok (tab, _) =>
               match find_symbol extract tab symbol None begin end_ fuzzy with
               | FNone => (ls ++ [undefined_message symbol], Ok None)
               | FDefs [] => (ls, Ok None)
               | FList [] => (ls, Ok None)
               | d => (ls, Ok (Some d))
               end
           end
       | _ => ([], Err SystemExit)
       end.
