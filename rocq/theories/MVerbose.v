(** What the command line tools print, in order, with and without --verbose, also when they
    end with an exception.  Lines on either stream are one sequence.  The text of
    sys.exit(text) is printed; the usage message of optparse is in MProcess.v, the traceback of an
    unhandled exception is not modelled.  [rep] is repr of a string and [card_rep] repr of a card. *)
From Coq Require Import ZArith List Bool.
From Verif Require Import Py MInstruction MCards MSymbols MInstructions MTools MDiag MDump.

(** the lines printed so far and the result *)
Definition io (A : Type) := (list line * res A)%type.
Definition io_bind {A B} (x : io A) (k : A -> io B) : io B :=
  match x with
  | (ls, Ok a) => let '(ls', r) := k a in (ls ++ ls', r)
  | (ls, Err e) => (ls, Err e)
  end.
Definition io_fold {S A} (f : S -> A -> io S) : list A -> S -> io S :=
  fix go l s := match l with [] => ([], Ok s) | x :: r => io_bind (f s x) (go r) end.
(** if verbose: print(s) *)
Definition tell (v : bool) (s : str) : list line := if v then [OutL s] else [].
(** sys.exit(text) *)
Definition exit_with {A} (s : str) : io A := ([ErrL s], Err SystemExit).

(** punchcard.py:191-192, 196-198 *)
Definition reading (f : str) : str := lit "Reading " ++ f ++ lit "...".
Definition skipping (f : str) (i : Z) : str :=
  lit "Skipping meta-comment, file " ++ f ++ lit ", line " ++ str_of_Z i.
(** punchcard.py:183-219 _readSource with recurse=True; [fuel] bounds the depth of nested includes *)
Fixpoint read_run (fuel : nat) (k : cardclass) (width : Z) (fields : list Z) (fs : fsys) (v : bool)
                  (filename : str) : io (list card) :=
  match fuel with
  | O => ([], Err RecursionError)
  | S fuel =>
      match fs filename with
      | None => exit_with (lit "ERROR: File """ ++ filename ++ lit """ does not exist!")
      | Some content =>
          io_bind (tell v (reading filename), Ok tt) (fun _ =>
          (fix loop (i : Z) (lines : list str) : io (list card) :=
             match lines with
             | [] => ([], Ok [])
             | line :: rest =>
                 if startswith line (lit "#") then
                   io_bind (tell v (skipping filename i), Ok tt) (fun _ => loop (i + 1) rest)
                 else if startswith line (lit "$") then
                   io_bind ([], py_index (split_ws (py_slice line (Some 1) None)) 0) (fun incname =>
                   match fs incname with
                   | None => exit_with (lit "File """ ++ incname ++ lit """ does not exist")
                   | Some _ =>
                       io_bind (read_run fuel k width fields fs v incname) (fun ic =>
                       io_bind (loop (i + 1) rest) (fun t => ([], Ok (ic ++ t))))
                   end)
                 else
                   io_bind ([], card_new k line width fields (Some filename) i) (fun c =>
                   io_bind (loop (i + 1) rest) (fun t => ([], Ok (c :: t))))
             end) 1 (readlines content))
      end
  end.
(** punchcard.py:139-148 a deck from lines; the file name is None or "" there *)
Fixpoint lines_run (k : cardclass) (width : Z) (fields : list Z) (v : bool) (file : option str) (i : Z)
                   (lines : list str) : io (list card) :=
  match lines with
  | [] => ([], Ok [])
  | line :: rest =>
      if startswith line (lit "#") then
        io_bind (tell v (skipping (opt_name file) i), Ok tt) (fun _ => lines_run k width fields v file (i + 1) rest)
      else io_bind ([], card_new k line width fields file i) (fun c =>
           io_bind (lines_run k width fields v file (i + 1) rest) (fun t => ([], Ok (c :: t))))
  end.
(** punchcard.py:126-155, arguscard.py:119-133 Deck: after the cards are read nothing is printed *)
Definition deck_run (fuel : nat) (fs : fsys) (v : bool) (lines : option (list str)) (file : option str)
                    (width : Z) (fields : list Z) (k : cardclass) : io (deck * option str * rval) :=
  ((match file with
    | Some (x :: r) => fst (read_run fuel k width fields fs v (x :: r))
    | _ => match lines with
           | Some ls => fst (lines_run k width fields v file 1 ls)
           | None => match file with
                     | None => [ErrL (lit "ERROR: no input supplied to class constructor!")]
                     | Some _ => []
                     end
           end
    end),
   argus_deck_new fuel fs lines file width fields k).
Definition load_run (fuel : nat) (fs : fsys) (v : bool) (f : str) : io (list card) :=
  io_bind (deck_run fuel fs v None (Some f) DEFAULT_WIDTH DEFAULT_FIELDS ArgusCls)
          (fun d => ([], Ok (d_cards (fst (fst d))))).

(** the message about a card with "*" in column 8: check-instructions.py:81-84, parse.py:62-65,
    list-instructions.py:47-50; only for cards with an instruction or operation *)
Definition star_lines (v : bool) (show : card -> str) (c : card) : list line :=
  match card_get c "column8" with
  | Ok x => if is_str x "*" then tell v (lit "Skipping card with * in column 8:") ++ tell v (show c) else []
  | Err _ => []
  end.

(** *** check-instructions.py:71-100.  The lines of a card are those ci_card adds, and the
    message about the "*", after which nothing else is printed for the card. *)
Definition without_out (s : cistate) : cistate := mkci (ci_lines s) (ci_instrs s) (ci_tab s) (ci_errs s) [].
Definition ci_card_run (v : bool) (o : ciopts) (s : cistate) (c : card) : io cistate :=
  match ci_card o (without_out s) c with
  | Err e => ([], Err e)
  | Ok s' =>
      (map OutL (ci_out s') ++
       match card_get c "instruction" with
       | Ok i => if truthy i then star_lines v card_pos c else []
       | Err _ => []
       end, Ok (without_out s'))
  end.
(** check-instructions.py:102-130; the head of the frequency table is printed before the division *)
Definition ci_report_run (pct : Z -> Z -> str) (o : ciopts) (s : cistate) : io unit :=
  match ci_report pct o (without_out s) with
  | Ok out => (map OutL out, Ok tt)
  | Err e =>
      ([OutL (10 :: lit "Source lines: " ++ str_of_Z (ci_lines s));
        OutL (10 :: lit "Instruction Frequencies:");
        OutL (ci_row (lit "Total") (ci_instrs s) (lit "100.00"))], Err e)
  end.
Definition check_instructions_run (pct : Z -> Z -> str) (fuel : nat) (fs : fsys) (v : bool) (o : ciopts)
                                  (args : list str) : io unit :=
  match args with
  | [] => ([], Err SystemExit)
  | _ =>
      io_bind (io_fold (fun s f => io_bind (load_run fuel fs v f) (fun cs => io_fold (ci_card_run v o) cs s)) args ci_init)
              (ci_report_run pct o)
  end.

(** *** list-instructions.py:42-62 *)
Definition li_pos (c : card) : str :=
  pad_right 32 48 (opt_name (c_filename c)) ++ [32] ++ pad_left 32 6 (str_of_Z (c_linenum c)) ++ [32] ++ c_line c.
Definition li_card_run (v : bool) (opcode : str) (details : bool) (c : card) : io unit :=
  match li_card opcode details [] c with
  | Err e => ([], Err e)
  | Ok out =>
      (map OutL out ++
       match card_get c "operation" with
       | Ok op => if truthy op then star_lines v li_pos c else []
       | Err _ => []
       end, Ok tt)
  end.
Definition list_instructions_run (fuel : nat) (fs : fsys) (v details : bool) (args : list str) : io unit :=
  match args with
  | [] => ([], Err SystemExit)
  | opcode :: files =>
      let command := if has_char 44 opcode then nth 0 (split_on 44 opcode) [] else opcode in
      if negb (inb command INSTRUCTIONS) then ([], Err SystemExit)
      else io_fold (fun _ f => io_bind (load_run fuel fs v f)
                                       (fun cs => io_fold (fun _ c => li_card_run v opcode details c) cs tt)) files tt
  end.

(** *** symbol_table.py:178-300 buildSymbolTable, and the loops over the files *)
Definition build_verbose (upper rep : str -> str) (card_rep : card -> str) (fuel : nat) (fs : fsys) (v : bool) (tab : symtab) (f : str) : io (symtab * Z) :=
  let '(ms, tab', r) := dump_table_run upper rep card_rep fuel fs f tab in
  (fst (load_run fuel fs v f) ++ map ErrL ms, match r with Ok n => Ok (tab', n) | Err e => Err e end).
(** check-symbols.py:36-42, find-symbols.py:64-70, parse.py:46-50: table, total and the last count;
    list-symbols.py:33-36 does not print the counts *)
Definition build_files_run (upper rep : str -> str) (card_rep : card -> str) (fuel : nat) (fs : fsys) (v counts : bool) (args : list str) : io (symtab * Z * Z) :=
  io_fold (fun s f =>
    io_bind (build_verbose upper rep card_rep fuel fs v (fst (fst s)) f) (fun r =>
    ((if counts then [built_line f (snd r)] else []), Ok (fst r, snd (fst s) + snd r, snd r)))) args ([], 0, 0).

(** *** parse.py:36-81 *)
Definition parse_card_run (v debug : bool) (s : Z * Z) (c : card) : io (Z * Z) :=
  match parse_card s c with
  | Err e => ([], Err e)
  | Ok s' =>
      (match card_get c "instruction" with
       | Ok i =>
           if truthy i then
             tell debug (card_pos c) ++ star_lines v card_pos c ++
             (if snd s' =? snd s then [] else map OutL (ci_error i c))
           else []
       | Err _ => []
       end, Ok s')
  end.
Definition parse_run (upper rep : str -> str) (card_rep : card -> str) (fuel : nat) (fs : fsys) (v debug : bool) (args : list str) : io unit :=
  match args with
  | [] => ([], Err SystemExit)
  | _ =>
      io_bind (build_files_run upper rep card_rep fuel fs v true args) (fun t =>
      io_bind (io_fold (fun s f => io_bind (load_run fuel fs v f) (fun cs => io_fold (parse_card_run v debug) cs s)) args (0, snd t))
              (fun s => ([OutL (10 :: lit "Source lines: " ++ str_of_Z (fst s));
                          OutL (if snd s =? 1 then lit "1 error encountered." else str_of_Z (snd s) ++ lit " errors encountered.")],
                         Ok tt)))
  end.

(** *** check-symbols.py:34-61 *)
Definition check_symbols_verbose (extract : str -> list str -> Z -> list (str * Z)) (upper rep : str -> str) (card_rep : card -> str) (fuel : nat)
    (fs : fsys) (v complexOnly : bool) (args : list str) : io unit :=
  match args with
  | [] => ([], Err SystemExit)
  | _ =>
      io_bind (build_files_run upper rep card_rep fuel fs v true args) (fun t =>
      let '(tab, tot, _) := t in
      let syms := check_symtab tab complexOnly in
      (map (fun s => ErrL (check_message s)) syms ++
       match syms with
       | [] => []
       | _ => ErrL [] :: ErrL (lit "Undefined symbols:") ::
              map (fun s => suggestion_line s (find_symbol extract tab s None false false true)) syms ++
              [ErrL (str_of_Z (zlen syms) ++ lit " errors checking symbol table.")]
       end ++
       (if 1 <? zlen args then [ErrL (lit "Total: " ++ str_of_Z (tot + zlen syms) ++ lit " errors encountered.")] else []),
       Ok tt))
  end.

(** *** find-symbols.py:54-79; the result that is printed is returned as well *)
(** str of a list of strings *)
Definition list_text (rep : str -> str) (l : list str) : str := lit "[" ++ join (lit ", ") (map rep l) ++ lit "]".
(** str of the definitions of a symbol, a dict of dicts of dicts *)
Definition found_text (rep : str -> str) (card_rep : card -> str) (d : found_def) : str :=
  match d with
  | FNone => lit "None"
  | FList l => list_text rep l
  | FDefs sg =>
      lit "{" ++ join (lit ", ") (map (fun x => rep (fst x) ++ lit ": " ++
        lit "{" ++ join (lit ", ") (map (fun y => rep (fst y) ++ lit ": " ++ kinds_text rep card_rep (snd y)) (snd x)) ++ lit "}") sg) ++ lit "}"
  end.
Definition find_symbols_verbose (extract : str -> list str -> Z -> list (str * Z)) (upper rep : str -> str) (card_rep : card -> str) (fuel : nat) (fs : fsys)
    (v begin end_ fuzzy exact : bool) (args : list str) : io (option found_def) :=
  if (begin && exact) || (end_ && exact) || (begin && end_) || (fuzzy && (begin || end_ || exact)) then ([], Err SystemExit)
  else match args with
       | symbol :: f :: r =>
           io_bind (build_files_run upper rep card_rep fuel fs v true (f :: r)) (fun t =>
           match find_symbol extract (fst (fst t)) symbol None begin end_ fuzzy with
           | FNone => ([undefined_message symbol], Ok None)
           | FDefs [] => ([], Ok None)
           | FList [] => ([], Ok None)
           | d => ([OutL (found_text rep card_rep d)], Ok (Some d))
           end)
       | _ => ([], Err SystemExit)
       end.

(** *** list-symbols.py:30-54; a table built by buildSymbolTable is always printed completely (C91) *)
Definition list_symbols_run (upper rep : str -> str) (card_rep : card -> str) (fuel : nat) (fs : fsys) (v : bool) (args : list str) : io unit :=
  match args with
  | [] => ([], Err SystemExit)
  | _ =>
      io_bind (build_files_run upper rep card_rep fuel fs v false args) (fun t =>
      let '(tab, tot, _) := t in
      match ls_table tab with
      | Err e => ([], Err e)
      | Ok out => (map OutL out ++ (if tot >? 0 then [ErrL (str_of_Z tot ++ lit " errors found")] else []), Ok tt)
      end)
  end.

(** *** listing.py:30-49: lines, result and the files afterwards *)
Definition listing_one (fuel : nat) (fs : fsys) (v : bool) (f : str) : io fsys :=
  io_bind (load_run fuel fs v f) (fun cs =>
  match mapr listing_line cs with
  | Err e => ([], Err e)
  | Ok ls => (tell v (lit "Wrote listing file to " ++ listfile f),
              Ok (fs_write fs (listfile f) (concat (map (fun l => l ++ [10]) ls))))
  end).
Fixpoint listing_files (fuel : nat) (fs : fsys) (v : bool) (args : list str) : io unit * fsys :=
  match args with
  | [] => (([], Ok tt), fs)
  | f :: r =>
      match listing_one fuel fs v f with
      | (ls, Err e) => ((ls, Err e), fs)
      | (ls, Ok fs') => let '((ls', x), fs2) := listing_files fuel fs' v r in ((ls ++ ls', x), fs2)
      end
  end.
Definition listing_run (fuel : nat) (fs : fsys) (v : bool) (args : list str) : io unit * fsys :=
  match args with
  | [] => (([], Err SystemExit), fs)
  | _ => listing_files fuel fs v args
  end.

(** *** instruction.py:71-72 the line that making an Instruction prints *)
(** str() of an int or None *)
Definition opt_text (o : option Z) : str := match o with Some z => str_of_Z z | None => lit "None" end.
(** instructions.py:130-132 repr() of the namedtuple Opcode; strings are assumed to need no
    escapes and no double quotes, as those of the table OPCODES *)
Definition opcode_text (o : opcode) : str :=
  lit "Opcode(m='" ++ o_m o ++ lit "', c='" ++ o_c o ++ lit "', b23=" ++ opt_text (o_b23 o) ++ lit ", b7=" ++ opt_text (o_b7 o) ++
  lit ", op=" ++ opt_text (o_op o) ++ lit ", type='" ++ o_type o ++ lit "')".
(** instruction.py:69-126 Instruction.__init__ with what it prints *)
Definition instr_run (o : opcode) (x : iargs) : io instr :=
  ([OutL (lit "opcode:" ++ opcode_text o ++ lit " sequence:" ++ opt_text (sequence x) ++ lit " mask:" ++ opt_text (mask x) ++
          lit " a=" ++ opt_text (arg_a x) ++ lit " b=" ++ opt_text (arg_b x) ++ lit " c=" ++ opt_text (arg_c x) ++
          lit " paddr=" ++ opt_text (paddr x))], instr_new o x).
(** instructions.py:447-897 calling a class: the arguments Instruction.__init__ gets *)
Definition class_args (c : str) (k : kwargs) : res (opcode * iargs) :=
  match dget CLASSES c with
  | None => Err NameError
  | Some (sig, m) =>
      do o <- dindex OPCODES m;
      match sig with
      | SigMaskableOpt | SigMaskable =>
          do _ <- no_param (kw_paddr k);
          do s <- (match sig with SigMaskable => required | _ => default_none end) (kw_sequence k);
          do mk <- default_none (kw_mask k);
          do a <- default_none (kw_a k); do b <- default_none (kw_b k); do c <- default_none (kw_c k);
          Ok (o, mkiargs s mk a b c None)
      | SigUnmasked =>
          do _ <- no_param (kw_paddr k); do _ <- no_param (kw_mask k);
          do s <- required (kw_sequence k);
          do a <- required (kw_a k); do b <- required (kw_b k); do c <- required (kw_c k);
          Ok (o, mkiargs s None a b c None)
      | SigPeripheral =>
          do _ <- no_param (kw_sequence k); do _ <- no_param (kw_mask k);
          do _ <- no_param (kw_a k); do _ <- no_param (kw_b k); do _ <- no_param (kw_c k);
          do p <- required (kw_paddr k);
          Ok (o, mkiargs None None None None None p)
      | SigSimulator =>
          do _ <- no_param (kw_paddr k); do _ <- no_param (kw_mask k);
          do _ <- no_param (kw_a k); do _ <- no_param (kw_b k); do _ <- no_param (kw_c k);
          do s <- required (kw_sequence k);
          Ok (o, mkiargs s None None None None None)
      | SigProceed =>
          do _ <- no_param (kw_sequence k); do _ <- no_param (kw_mask k);
          do _ <- no_param (kw_a k); do _ <- no_param (kw_b k); do _ <- no_param (kw_c k);
          do _ <- no_param (kw_paddr k);
          Ok (o, mkiargs (Some 0) None (Some 0) (Some 0) (Some 0) None)
      end
  end.
Definition class_run (c : str) (k : kwargs) : io instr :=
  match class_args c k with
  | Ok (o, x) => instr_run o x
  | Err e => ([], Err e)
  end.
