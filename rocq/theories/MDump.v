(** Model of everything buildSymbolTable prints on stderr (h800/symbol_table.py:178-300),
    with the dumps of dictionaries that MDiag.v leaves out.  [rep] is repr of a string and
    [card_rep] repr of a card (which shows its address). *)
From Verif Require Import Py MCards MSymbols MDiag.

(** str of the value of a card's field in a dict *)
Definition rep_val (rep : str -> str) (v : rval) : str :=
  match v with RNone => lit "None" | RStr s => rep s | RInt n => str_of_Z n end.
Definition rep_opt (rep : str -> str) (o : option str) : str :=
  match o with None => lit "None" | Some s => rep s end.
(** symbol_table.py:197-203 str(symtabEntry); the tag type is None until line 212 *)
Definition entry_text (rep : str -> str) (card_rep : card -> str) (file : option str) (line : Z) (lognum : rval)
                      (tagtype : option str) (c : card) : str :=
  lit "{'file': " ++ rep_opt rep file ++ lit ", 'line': " ++ str_of_Z line ++ lit ", 'lognum': " ++ rep_val rep lognum ++
  lit ", 'tagtype': " ++ rep_opt rep tagtype ++ lit ", 'card': " ++ card_rep c ++ lit "}".
(** str of the dict of the definitions in a subsegment *)
Definition kinds_text (rep : str -> str) (card_rep : card -> str) (ks : kinds) : str :=
  lit "{" ++ join (lit ", ") (map (fun x => rep (fst x) ++ lit ": " ++
     entry_text rep card_rep (e_file (snd x)) (e_line (snd x)) (e_lognum (snd x)) (Some (e_tagtype (snd x))) (e_card (snd x))) ks) ++ lit "}".

(** symbol_table.py:205-236 the two lines about a label text [s], given the text of the entry
    for a tag type; None if the label is accepted *)
Definition label_lines (upper : str -> str) (s : str) (entry : option str -> str) : option (list str) :=
  if negb (eqb (upper s) s)
  then Some [error_text s " is ill-formed (case)!"; lit "Current definition: " ++ entry None]
  else if has_char 44 s then
    if 1 <? count_char 44 s
    then Some [error_text s " is illegal, too many commas!"; lit "Current definition: " ++ entry (Some (lit " "))]
    else
      let p := nth 0 (split_on 44 s) [] in
      if negb (inb p TAG_PREFIXES)
      then Some [error_text s " is ill-formed (tag prefix)!"; lit "Current definition: " ++ entry (Some (lit " "))]
      else if inb p (map lit ["L"; "X"]%string)
      then Some [error_text s " has unsupported tag prefix!"; lit "Current definition: " ++ entry (Some (lit " "))]
      else None
  else None.

(** symbol_table.py:185-299 the lines printed for one card *)
Definition card_lines (upper rep : str -> str) (card_rep : card -> str) (seg : str) (st : bstate) (c : card) : list str :=
  let '(subseg, tab, _) := st in
  match card_get c "column8", card_get c "operation", card_get c "label", card_get c "lognum" with
  | Ok c8, Ok command, Ok (RStr (x :: l)), Ok lognum =>
      if is_str c8 "*" then []
      else
        match next_subseg subseg command with
        | Err _ => []
        | Ok subseg =>
            let s := remove_char 32 (strip (x :: l)) in
            let entry t := entry_text rep card_rep (c_filename c) (c_linenum c) lognum t c in
            match label_lines upper s entry with
            | Some ls => ls
            | None =>
                match label_tag upper (x :: l) with
                | None => []
                | Some (tagtype, tag) =>
                    match command with
                    | RNone => [error_text s " has no operation!"; lit "Current definition: " ++ entry (Some tagtype)]
                    | RInt _ => []
                    | RStr cmd =>
                        let kind := if eqb cmd (lit "ASSIGN") then lit "complex" else lit "simple" in
                        match insert_def tab seg subseg tag kind cmd
                                (mkent (c_filename c) (c_linenum c) lognum tagtype c) with
                        | Ok (_, n) =>
                            if n =? 0 then []
                            else [error_text tag " is multiply-defined!";
                                  lit "Previous definitions: " ++ kinds_text rep card_rep (sub (sub (sub tab tag) seg) subseg);
                                  lit "Current definition: " ++ entry (Some tagtype);
                                  lit "command: " ++ cmd]
                        | Err _ => []
                        end
                    end
                end
            end
        end
  | _, _, _, _ => []
  end.
(** symbol_table.py:185-299 the loop, as MDiag.build_run *)
Fixpoint dump_run (upper rep : str -> str) (card_rep : card -> str) (seg : str) (st : bstate) (cs : list card)
                  : list str * bstate * res unit :=
  match cs with
  | [] => ([], st, Ok tt)
  | c :: r =>
      let m := card_lines upper rep card_rep seg st c in
      match build_card upper seg st c with
      | Err e => (m, st, Err e)
      | Ok st' => let '(ms, st2, x) := dump_run upper rep card_rep seg st' r in (m ++ ms, st2, x)
      end
  end.
(** symbol_table.py:178-300 *)
Definition dump_table_run (upper rep : str -> str) (card_rep : card -> str) (fuel : nat) (fs : fsys) (filename : str) (tab : symtab)
                          : list str * symtab * res Z :=
  let seg := nth 0 (split_on 46 filename) [] in
  match argus_deck_new fuel fs None (Some filename) DEFAULT_WIDTH DEFAULT_FIELDS ArgusCls with
  | Err e => ([], tab, Err e)
  | Ok (d, _, _) =>
      let '(ms, st, r) := dump_run upper rep card_rep seg (lit "1", tab, 0) (d_cards d) in
      (ms, snd (fst st), match r with Ok _ => Ok (snd st) | Err e => Err e end)
  end.
