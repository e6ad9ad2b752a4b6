(** The scripts in /repo/tools as commands: everything they print, how they end and the files they
    leave behind, for every command line.  Not modelled: the text of --help, which depends on
    the terminal ([help] below is arbitrary), and tracebacks. *)
From Verif Require Import Py MCards MSymbols MInstructions MTools MDiag MDump MVerbose MOptions.

(** how a script ends: with an exit status, or with a traceback *)
Inductive ending := Exit (status : Z) | Died (e : exn).
Definition proc := (list line * ending * fsys)%type.

(** *** optparse, with the reasons for a refusal *)
Inductive said (A : Type) := Bad (msg : str) | Helped | Going (a : A).
Arguments Bad {A} msg. Arguments Helped {A}. Arguments Going {A} a.
(** optparse.py BadOptionError.__str__, AmbiguousOptionError.__str__ and the text in _process_long_opt *)
Definition no_such (opt : str) : str := lit "no such option: " ++ opt.
Definition ambiguous (opt : str) (possibilities : list str) : str :=
  lit "ambiguous option: " ++ opt ++ lit " (" ++ join (lit ", ") possibilities ++ lit "?)".
Definition no_value (opt : str) : str := opt ++ lit " option does not take a value".
(** optparse.py OptionParser._process_short_opts *)
Fixpoint short_said (opts : list flag) (letters : str) (on : list str) : said (list str) :=
  match letters with
  | [] => Going on
  | c :: r =>
      match find (fun f => f_short f =? c) (HELP :: opts) with
      | None => Bad (no_such (lit "-" ++ [c]))
      | Some f => if eqb (f_long f) (lit "help") then Helped else short_said opts r (on ++ [f_long f])
      end
  end.
(** optparse.py _match_abbrev *)
Definition match_said (opts : list flag) (name : str) : said str :=
  let words := map f_long (HELP :: opts) in
  if inb name words then Going name
  else match filter (fun w => startswith w name) words with
       | [w] => Going w
       | [] => Bad (no_such (lit "--" ++ name))
       | ws => Bad (ambiguous (lit "--" ++ name) (sorted (map (fun w => lit "--" ++ w) ws)))
       end.
(** optparse.py OptionParser._process_long_opt *)
Definition long_said (opts : list flag) (body : str) (on : list str) : said (list str) :=
  match match_said opts (nth 0 (split_on 61 body) []) with
  | Bad m => Bad m
  | Helped => Helped
  | Going l =>
      if has_char 61 body then Bad (no_value (lit "--" ++ l))
      else if eqb l (lit "help") then Helped else Going (on ++ [l])
  end.
(** optparse.py OptionParser._process_args, parse_args *)
Fixpoint words_said (opts : list flag) (words : list str) (on : list str) (args : list str) : said (list str * list str) :=
  match words with
  | [] => Going (on, args)
  | w :: r =>
      if eqb w (lit "--") then Going (on, args ++ r)
      else if startswith w (lit "--") then
        match long_said opts (skipn 2 w) on with
        | Going on' => words_said opts r on' args
        | Bad m => Bad m
        | Helped => Helped
        end
      else if startswith w (lit "-") && (1 <? zlen w) then
        match short_said opts (skipn 1 w) on with
        | Going on' => words_said opts r on' args
        | Bad m => Bad m
        | Helped => Helped
        end
      else words_said opts r on (args ++ [w])
  end.
(** optparse.py OptionParser.set_usage: "usage: " at the beginning is dropped *)
Definition set_usage (s : str) : str := if startswith s (lit "usage: ") then skipn 7 s else s.
(** optparse.py OptionParser.expand_prog_name: s.replace("%prog", name) *)
Fixpoint expand_prog (prog s : str) : str :=
  match s with
  | 37 :: 112 :: 114 :: 111 :: 103 :: r => prog ++ expand_prog prog r
  | c :: r => c :: expand_prog prog r
  | [] => []
  end.
(** optparse.py OptionParser.error: print_usage (a line, and an empty one since the text ends with a newline) and the reason, on stderr *)
Definition refusal (prog usage msg : str) : list line :=
  [ErrL (lit "Usage: " ++ expand_prog prog (set_usage usage)); ErrL []; ErrL (prog ++ lit ": error: " ++ msg)].

(** *** the scripts *)
Inductive tool := CheckInstructions | CheckSymbols | FindSymbols | ListInstructions | ListSymbols | Listing | Parse | Genlines | Genpages.
(** the argument of OptionParser: check-instructions.py:21, check-symbols.py:19, find-symbols.py:21-22, list-instructions.py:19,
    list-symbols.py:19, listing.py:19, parse.py:21, genlines.py:27, genpages.py:20 *)
Definition usage_of (t : tool) : str :=
  match t with
  | FindSymbols => lit "usage: %prog [options] symbol filename [filename]..."
  | ListInstructions => lit "usage: %prog opcode filename [filename]..."
  | Genlines => lit "usage: %prog start end [step] [startcol] [endcol]"
  | Genpages => lit "usage: %prog filename"
  | _ => lit "usage: %prog filename [filename]..."
  end.
Definition opts_of (t : tool) : list flag :=
  match t with
  | CheckInstructions => CHECK_INSTRUCTIONS_OPTS
  | CheckSymbols => CHECK_SYMBOLS_OPTS
  | FindSymbols => FIND_SYMBOLS_OPTS
  | ListInstructions => LIST_INSTRUCTIONS_OPTS
  | ListSymbols => VERBOSE_OPTS
  | Listing => VERBOSE_OPTS
  | Parse => PARSE_OPTS
  | Genlines => []
  | Genpages => []
  end.
(** what the scripts check before they start; the texts are not expanded by optparse.
    check-instructions.py:58-60, check-symbols.py:31-33, find-symbols.py:55-60, list-instructions.py:31-40,
    list-symbols.py:26-28, listing.py:26-28, parse.py:33-35, genlines.py:29-31, genpages.py:22-24 *)
Definition wrong_args (t : tool) (has : string -> bool) (args : list str) : option str :=
  match t with
  | FindSymbols =>
      if (has "begin"%string && has "exact"%string) || (has "end"%string && has "exact"%string) || (has "begin"%string && has "end"%string) ||
         (has "fuzzy"%string && (has "begin"%string || has "end"%string || has "exact"%string))
      then Some (lit "Conflicting options!")
      else if zlen args <? 2 then Some (lit "usage: %prog [options] symbol filename [filename]...") else None
  | ListInstructions =>
      match args with
      | [] => Some (lit "usage: %prog filename [filename]...")
      | opcode :: _ =>
          if inb (nth 0 (split_on 44 opcode) []) INSTRUCTIONS then None
          else Some (lit "ERROR: invalid opcode """ ++ opcode ++ lit """")
      end
  | Genlines => if zlen args <? 2 then Some (lit "Start and End numbers must be supplied!") else None
  | _ => match args with [] => Some (lit "usage: %prog filename") | _ => None end
  end.
(** genpages.py:54-63 which of the two *)
Definition genpages_reason (fuel : nat) (content : str) : str :=
  match (do d <- argus_deck_new fuel (fun _ => None) (Some (readlines content)) None DEFAULT_WIDTH DEFAULT_FIELDS ArgusCls;
         let '(_, sec, col8) := d in gp_lines (sec, col8, None) (readlines content)) with
  | Ok (Some _, _, _) => lit "Invalid page numbers!"
  | _ => lit "Cannot determine log section!"
  end.
Record env := mkenv {
  e_pct : Z -> Z -> str; e_extract : str -> list str -> Z -> list (str * Z); e_upper : str -> str;
  e_rep : str -> str; e_card_rep : card -> str; e_fuel : nat; e_help : tool -> list line }.
(** sys.exit with a text prints it and gives status 1 *)
Definition finish {A} (r : io A) (fs : fsys) : proc :=
  (fst r, match snd r with Ok _ => Exit 0 | Err SystemExit => Exit 1 | Err e => Died e end, fs).
Definition body_of (v : env) (fs : fsys) (t : tool) (prog : str) (has : string -> bool) (args : list str) : proc :=
  match t with
  | CheckInstructions =>
      finish (check_instructions_run (e_pct v) (e_fuel v) fs (has "verbose"%string)
        (mkciopts (has "all"%string) (has "count"%string) (has "invalid"%string) (has "print-opcodes"%string) (has "sort"%string) (has "unused"%string)) args) fs
  | CheckSymbols =>
      finish (check_symbols_verbose (e_extract v) (e_upper v) (e_rep v) (e_card_rep v) (e_fuel v) fs (has "verbose"%string) (has "complex"%string) args) fs
  | FindSymbols =>
      finish (find_symbols_verbose (e_extract v) (e_upper v) (e_rep v) (e_card_rep v) (e_fuel v) fs (has "verbose"%string) (has "begin"%string)
        (has "end"%string) (has "fuzzy"%string) (has "exact"%string) args) fs
  | ListInstructions => finish (list_instructions_run (e_fuel v) fs (has "verbose"%string) (has "details"%string) args) fs
  | ListSymbols => finish (list_symbols_run (e_upper v) (e_rep v) (e_card_rep v) (e_fuel v) fs (has "verbose"%string) args) fs
  | Listing => let r := listing_run (e_fuel v) fs (has "verbose"%string) args in finish (fst r) (snd r)
  | Parse => finish (parse_run (e_upper v) (e_rep v) (e_card_rep v) (e_fuel v) fs (has "verbose"%string) (has "debug"%string) args) fs
  | Genlines =>
      match genlines args with
      | Ok out => (map OutL out, Exit 0, fs)
      | Err SystemExit => (refusal prog (usage_of Genlines) (lit "Number of digits cannot be greater than 6!"), Exit 2, fs)
      | Err e => ([], Died e, fs)
      end
  | Genpages =>
      match args with
      | [] => ([], Exit 0, fs)
      | f :: _ =>
          match fs f with
          | None => (refusal prog (usage_of Genpages) (lit "Filename " ++ f ++ lit " does not exist!"), Exit 2, fs)
          | Some content =>
              match genpages (e_fuel v) content with
              | Ok more => ([], Exit 0, fs_write fs f (content ++ more))
              | Err SystemExit => (refusal prog (usage_of Genpages) (genpages_reason (e_fuel v) content), Exit 2, fs)
              | Err e => ([], Died e, fs)
              end
          end
      end
  end.
(** the script [t], called [prog], with the words of the command line *)
Definition command (v : env) (fs : fsys) (t : tool) (prog : str) (words : list str) : proc :=
  match words_said (opts_of t) words [] [] with
  | Bad m => (refusal prog (usage_of t) m, Exit 2, fs)
  | Helped => (e_help v t, Exit 0, fs)
  | Going (on, args) =>
      let has := fun s => inb (lit s) on in
      match wrong_args t has args with
      | Some m => (refusal prog (usage_of t) m, Exit 2, fs)
      | None => body_of v fs t prog has args
      end
  end.
