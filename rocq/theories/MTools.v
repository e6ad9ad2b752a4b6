(** Model of the scripts in /repo/tools.  Each takes the parsed options and the
    positional arguments; optparse is modelled in MOptions.v (parser.error is
    SystemExit here).  Output is a list of lines.  The option --verbose is taken to be
    off.  [upper] is str.upper, [pct a b] the text of "%6.2f" of 100*a/b. *)
From Verif Require Import Py MInstructions MCards MSymbols.

(** int(s) for a string whose digits are ASCII *)
Definition is_digit (c : Z) : bool := (48 <=? c) && (c <=? 57).
Fixpoint int_digits (prev : bool) (acc : Z) (s : str) : res Z :=
  match s with
  | [] => if prev then Ok acc else Err ValueError
  | c :: r =>
      if is_digit c then int_digits true (10 * acc + (c - 48)) r
      else if (c =? 95) && prev then int_digits false acc r
      else Err ValueError
  end.
Definition py_int (s : str) : res Z :=
  match strip s with
  | [] => Err ValueError
  | c :: r =>
      if c =? 43 then int_digits false 0 r
      else if c =? 45 then do n <- int_digits false 0 r; Ok (- n)
      else int_digits false 0 (c :: r)
  end.
(** range(a, b, s) *)
Definition py_range_step (a b s : Z) : res (list Z) :=
  if s =? 0 then Err ValueError
  else
    let n := if 0 <? s then (b - a + s - 1) / s else (a - b - s - 1) / (- s) in
    Ok (map (fun i => a + Z.of_nat i * s) (seq 0 (Z.to_nat n))).
(** "{num:0{width}}" *)
Definition fmt_0w (w n : Z) : str :=
  if n <? 0 then 45 :: pad_left 48 (w - 1) (numeral 10 (- n)) else pad_left 48 w (numeral 10 n).
(** print(a, b, c) and "%-48s %6d %s" *)
Definition opt_name (o : option str) : str := match o with Some s => s | None => lit "None" end.
Definition str_of_rval (v : rval) : str :=
  match v with RNone => lit "None" | RStr s => s | RInt n => str_of_Z n end.
Definition truthy (v : rval) : bool :=
  match v with RNone => false | RStr s => negb (eqb s []) | RInt n => negb (n =? 0) end.

(** *** genlines.py:26-76 *)
Definition nth_int (args : list str) (i : nat) (default : Z) : res Z :=
  match nth_error args i with Some s => py_int s | None => Ok default end.
Definition genlines (args : list str) : res (list str) :=
  match args with
  | a0 :: a1 :: _ =>
      if 6 <? zlen a0 then Err SystemExit
      else if 6 <? zlen a1 then Err SystemExit
      else
        do start <- py_int a0;
        do end_ <- py_int a1;
        let numdigits := zlen (str_of_Z end_) in
        if 6 <? numdigits then Err SystemExit
        else
          let width := if numdigits <? 4 then 4 else numdigits in
          let width := if width <? zlen a1 then zlen a1 else width in
          do step <- nth_int args 2 1;
          do startcol <- nth_int args 3 2;
          do endcol <- nth_int args 4 7;
          do r <- py_range_step start (end_ + step) step;
          Ok (map (fun i => repeat_char (startcol - 1) 32 ++ fmt_0w width i ++
                            repeat_char (endcol + 2 - startcol - width) 32) r)
  | _ => Err SystemExit
  end.

(** *** genpages.py:19-79.  [content] is the file's content; the result is what is
    appended to it *)
Definition gp_state := (option str * rval * option (Z * Z))%type.
Definition gp_line (st : gp_state) (line : str) : res gp_state :=
  let '(sec, col8, rng) := st in
  do s <- (match sec with
           | None =>
               if startswith line (lit "# Filename: ") then
                 do w <- py_index (split_ws line) 2;
                 let w := strip w in
                 let w := if has_char 46 w then nth 0 (split_on 46 w) [] else w in
                 Ok (Some (map (fun c => if c =? 95 then 32 else c) w), RStr (lit "@"))
               else Ok (sec, col8)
           | Some _ => Ok (sec, col8)
           end);
  do rng <- (if startswith line (lit "# Pages: ") then
               do w <- py_index (split_ws line) 2;
               let w := strip w in
               if has_char 45 w then
                 do a <- py_int (nth 0 (split_on 45 w) []);
                 do b <- py_int (nth 1 (split_on 45 w) []);
                 Ok (Some (a, b))
               else do a <- py_int w; Ok (Some (a, a))
             else Ok rng);
  Ok (fst s, snd s, rng).
Fixpoint gp_lines (st : gp_state) (lines : list str) : res gp_state :=
  match lines with
  | [] => Ok st
  | l :: r => do st <- gp_line st l; gp_lines st r
  end.
Definition gp_page (col8 sec : str) (start pagenum : Z) : str :=
  let own := pad_left 32 4 (str_of_Z (pagenum - start + 1)) in
  [10] ++ (lit "# Page " ++ str_of_Z pagenum ++ [10]) ++
  (lit "#      " ++ col8 ++ pad_right 32 72 sec ++ lit " USER'S OWN PAGE NO." ++ own ++ lit "        PAGE" ++ own ++ [10]) ++
  [10].
Definition genpages (fuel : nat) (content : str) : res str :=
  let inlines := readlines content in
  do d <- argus_deck_new fuel (fun _ => None) (Some inlines) None DEFAULT_WIDTH DEFAULT_FIELDS ArgusCls;
  let '(_, sec, col8) := d in
  do st <- gp_lines (sec, col8, None) inlines;
  let '(sec, col8, rng) := st in
  match sec with
  | None => Err SystemExit
  | Some sec =>
      match rng with
      | None => Err UnboundLocalError
      | Some (a, b) =>
          if b <? a then Err SystemExit
          else
            let c8 := str_of_rval col8 in
            Ok ([10] ++ (lit "L      " ++ c8 ++ sec ++ [10]) ++
                concat (map (gp_page c8 sec a) (py_range a (b + 1))))
      end
  end.

(** the decks read by the other tools *)
Definition load (fuel : nat) (fs : fsys) (filename : str) : res (list card) :=
  do d <- argus_deck_new fuel fs None (Some filename) DEFAULT_WIDTH DEFAULT_FIELDS ArgusCls;
  Ok (d_cards (fst (fst d))).
Definition fold_r {S A} (f : S -> A -> res S) : list A -> S -> res S :=
  fix go l s := match l with [] => Ok s | x :: r => do s' <- f s x; go r s' end.

(** *** check-instructions.py *)
Record ciopts := mkciopts { o_all : bool; o_count : bool; o_invalid : bool; o_print : bool; o_sort : bool; o_unused : bool }.
Record cistate := mkci { ci_lines : Z; ci_instrs : Z; ci_tab : dict str Z; ci_errs : Z; ci_out : list str }.
Definition card_pos (c : card) : str :=
  opt_name (c_filename c) ++ [32] ++ str_of_Z (c_linenum c) ++ [32] ++ remove_char 10 (c_line c).
Definition ci_error (i : rval) (c : card) : list str :=
  [lit "*** ERROR: Invalid instruction """ ++ str_of_rval i ++ lit """:";
   lit "File " ++ opt_name (c_filename c) ++ lit ", line " ++ str_of_Z (c_linenum c) ++ lit ": " ++ c_line c].
(** check-instructions.py:74-100 *)
Definition ci_card (o : ciopts) (s : cistate) (c : card) : res cistate :=
  let s := mkci (ci_lines s + 1) (ci_instrs s) (ci_tab s) (ci_errs s) (ci_out s) in
  do i <- card_get c "instruction";
  if negb (truthy i) then Ok s
  else
    let s := mkci (ci_lines s) (ci_instrs s + 1) (ci_tab s) (ci_errs s)
                  (ci_out s ++ (if o_print o then [card_pos c] else [])) in
    do c8 <- card_get c "column8";
    if is_str c8 "*" then Ok s
    else
      match i with
      | RStr m =>
          match dget (ci_tab s) m with
          | None => Ok (mkci (ci_lines s) (ci_instrs s) (ci_tab s) (ci_errs s + 1) (ci_out s ++ ci_error i c))
          | Some n =>
              let s := mkci (ci_lines s) (ci_instrs s) (dset (ci_tab s) m (n + 1)) (ci_errs s) (ci_out s) in
              if (o_all o || o_invalid o) && negb (inb m INSTRUCTIONS)
              then Ok (mkci (ci_lines s) (ci_instrs s) (ci_tab s) (ci_errs s + 1) (ci_out s ++ ci_error i c))
              else Ok s
          end
      | _ => Ok (mkci (ci_lines s) (ci_instrs s) (ci_tab s) (ci_errs s + 1) (ci_out s ++ ci_error i c))
      end.
(** check-instructions.py:64-73 *)
Definition ci_init : cistate := mkci 0 0 (fold_left (fun d m => dset d m 0) INSTRUCTIONS []) 0 [].
Definition ci_file (fuel : nat) (fs : fsys) (o : ciopts) (s : cistate) (f : str) : res cistate :=
  do cs <- load fuel fs f; fold_r (ci_card o) cs s.
(** check-instructions.py:105, 111-113 *)
Definition ci_row (name : str) (n : Z) (p : str) : str :=
  pad_right 32 8 name ++ [32] ++ pad_left 32 6 (str_of_Z n) ++ lit "  " ++ p ++ lit "%".
(** check-instructions.py:106-107: a stable sort by descending frequency *)
Definition freq_sorted (tab : dict str Z) : dict str Z := sort_by (fun a b => snd b <=? snd a) tab.
Definition ci_rows (pct : Z -> Z -> str) (o : ciopts) (total : Z) (rows : list (str * Z)) : res (list str) :=
  mapr (fun r => if total =? 0 then Err ZeroDivisionError
                 else Ok (ci_row (fst r) (snd r) (pct (snd r) total)))
       (filter (fun r => (o_unused o && negb (snd r =? 0)) || negb (o_unused o)) rows).
Definition by_name (tab : dict str Z) : list (str * Z) :=
  map (fun m => (m, match dget tab m with Some n => n | None => 0 end)) (sorted (dkeys tab)).
Definition ci_report (pct : Z -> Z -> str) (o : ciopts) (s : cistate) : res (list str) :=
  do counts <- (if o_count o then
                  do rows <- ci_rows pct o (ci_instrs s) (if o_sort o then freq_sorted (ci_tab s) else by_name (ci_tab s));
                  Ok ([10 :: lit "Source lines: " ++ str_of_Z (ci_lines s);
                       10 :: lit "Instruction Frequencies:";
                       ci_row (lit "Total") (ci_instrs s) (lit "100.00")] ++ rows)
                else Ok []);
  let unused := if o_unused o then
                  (10 :: lit "Unused Instructions:") :: map fst (filter (fun r => snd r =? 0) (by_name (ci_tab s)))
                else [] in
  Ok (ci_out s ++ counts ++ unused ++
      [if ci_errs s =? 1 then lit "1 error encountered." else str_of_Z (ci_errs s) ++ lit " errors encountered."]).
(** check-instructions.py:57-130: the state after reading and the output *)
Definition check_instructions (pct : Z -> Z -> str) (fuel : nat) (fs : fsys) (o : ciopts) (args : list str)
                              : res (cistate * list str) :=
  match args with
  | [] => Err SystemExit
  | _ =>
      do s <- fold_r (ci_file fuel fs o) args ci_init;
      do out <- ci_report pct o s;
      Ok (s, out)
  end.

(** *** list-instructions.py:31-62 *)
Definition li_match (opcode : str) (operation : str) : bool :=
  let i := remove_char 32 (strip operation) in
  let i := if has_char 44 i && negb (has_char 44 opcode) then nth 0 (split_on 44 i) [] else i in
  eqb i opcode || (endswith opcode (lit ",") && startswith i opcode).
Definition li_card (opcode : str) (details : bool) (out : list str) (c : card) : res (list str) :=
  do op <- card_get c "operation";
  if negb (truthy op) then Ok out
  else
    do c8 <- card_get c "column8";
    if is_str c8 "*" then Ok out
    else match op with
         | RStr s =>
             if li_match opcode s
             then Ok (out ++ [if details
                              then pad_right 32 48 (opt_name (c_filename c)) ++ [32] ++
                                   pad_left 32 6 (str_of_Z (c_linenum c)) ++ [32] ++ c_line c
                              else c_line c])
             else Ok out
         | _ => Err AttributeError
         end.
Definition list_instructions (fuel : nat) (fs : fsys) (details : bool) (args : list str) : res (list str) :=
  match args with
  | [] => Err SystemExit
  | opcode :: files =>
      let command := if has_char 44 opcode then nth 0 (split_on 44 opcode) [] else opcode in
      if negb (inb command INSTRUCTIONS) then Err SystemExit
      else fold_r (fun out f => do cs <- load fuel fs f; fold_r (li_card opcode details) cs out) files []
  end.

(** *** parse.py:32-81 with --debug off: the number of source lines and of errors *)
Definition parse_card (s : Z * Z) (c : card) : res (Z * Z) :=
  let '(lines, errs) := s in
  do i <- card_get c "instruction";
  if negb (truthy i) then Ok (lines + 1, errs)
  else
    do c8 <- card_get c "column8";
    if is_str c8 "*" then Ok (lines + 1, errs)
    else match i with
         | RStr m => if inb m INSTRUCTIONS then Ok (lines + 1, errs) else Ok (lines + 1, errs + 1)
         | _ => Ok (lines + 1, errs + 1)
         end.
Definition parse_tool (upper : str -> str) (fuel : nat) (fs : fsys) (args : list str) : res (Z * Z) :=
  match args with
  | [] => Err SystemExit
  | _ =>
      do t <- fold_r (fun s f => build_symbol_table upper fuel fs f (fst s)) args ([], 0);
      fold_r (fun s f => do cs <- load fuel fs f; fold_r parse_card cs s) args (0, snd t)
  end.

(** *** listing.py:25-46: the file system with the listings written *)
Definition listfile (filename : str) : str :=
  join (lit ".") (removelast (split_on 46 filename)) ++ lit ".lst".
Definition listing_line (c : card) : res str :=
  match c_filename c with
  | None => Err TypeError
  | Some f => Ok (pad_right 32 64 f ++ [32] ++ pad_right 32 6 (str_of_Z (c_linenum c)) ++ [32] ++ remove_char 10 (c_line c))
  end.
Definition fs_write (fs : fsys) (f content : str) : fsys := fun g => if eqb g f then Some content else fs g.
Definition listing_file (fuel : nat) (fs : fsys) (filename : str) : res fsys :=
  do cs <- load fuel fs filename;
  do ls <- mapr listing_line cs;
  Ok (fs_write fs (listfile filename) (concat (map (fun l => l ++ [10]) ls))).
Definition listing (fuel : nat) (fs : fsys) (args : list str) : res fsys :=
  match args with
  | [] => Err SystemExit
  | _ => fold_r (listing_file fuel) args fs
  end.

(** *** check-symbols.py:30-61: the number of errors of each file, the complex-only
    symbols reported and the total *)
Definition build_all (upper : str -> str) (fuel : nat) (fs : fsys) (args : list str) : res (symtab * list Z) :=
  fold_r (fun s f => do r <- build_symbol_table upper fuel fs f (fst s); Ok (fst r, snd s ++ [snd r])) args ([], []).
Definition check_symbols (upper : str -> str) (fuel : nat) (fs : fsys) (complexOnly : bool) (args : list str)
                         : res (list Z * list str * Z) :=
  match args with
  | [] => Err SystemExit
  | _ =>
      do t <- build_all upper fuel fs args;
      let syms := check_symtab (fst t) complexOnly in
      Ok (snd t, syms, fold_left Z.add (snd t) 0 + zlen syms)
  end.

(** *** find-symbols.py:54-75: what findSymbolDef returns, which is printed *)
Definition find_symbols (extract : str -> list str -> Z -> list (str * Z)) (upper : str -> str) (fuel : nat) (fs : fsys)
                        (begin end_ fuzzy exact : bool) (args : list str) : res found_def :=
  if (begin && exact) || (end_ && exact) || (begin && end_) || (fuzzy && (begin || end_ || exact)) then Err SystemExit
  else match args with
       | symbol :: f :: r =>
           do t <- build_all upper fuel fs (f :: r);
           Ok (find_symbol extract (fst t) symbol None begin end_ fuzzy)
       | _ => Err SystemExit
       end.

(** *** list-symbols.py:25-54: the lines printed *)
Definition ls_def (kind : str) (e : tabent) : res str :=
  match e_file e with
  | None => Err AttributeError
  | Some f =>
      Ok (lit "        " ++ pad_right 32 9 (lit "<" ++ kind ++ lit ">") ++ [32] ++ pad_left 32 1 (e_tagtype e) ++ [32] ++
          pad_right 32 38 (nth 0 (split_on 46 f) [] ++ lit ":" ++ str_of_Z (e_line e)) ++ lit "      " ++ card_str (e_card e))
  end.
Definition ls_each {V} (d : dict str V) (f : str -> V -> res (list str)) : res (list str) :=
  do ls <- mapr (fun k => do v <- dindex d k; f k v) (get_keys d); Ok (concat ls).
Definition ls_table (tab : symtab) : res (list str) :=
  ls_each tab (fun sym sg =>
    do r <- ls_each sg (fun seg u =>
      do r <- ls_each u (fun ss ks =>
        do r <- ls_each ks (fun kind e => do l <- ls_def kind e; Ok [l]);
        Ok ((lit "    Subsegment: " ++ ss) :: r));
      Ok ((lit "  Segment: " ++ seg) :: r));
    Ok (sym :: r)).
Definition list_symbols (upper : str -> str) (fuel : nat) (fs : fsys) (args : list str) : res (list str * Z) :=
  match args with
  | [] => Err SystemExit
  | _ =>
      do t <- build_all upper fuel fs args;
      do out <- ls_table (fst t);
      Ok (out, fold_left Z.add (snd t) 0)
  end.
