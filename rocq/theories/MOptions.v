(** The command lines of the scripts in /repo/tools.  Python's optparse is modelled for what
    the scripts use: options without a value (action='store_true', default=False), the
    option -h/--help that OptionParser adds, and positional arguments anywhere
    between them.  A usage error is exit status 2, help is exit status 0; the texts that
    optparse prints are in MProcess.v.  genpages writes to the file it reads. *)
From Verif Require Import Py MCards MSymbols MInstructions MTools MDiag MVerbose.

Record flag := mkflag { f_short : Z; f_long : str }.
(** what becomes of a command line: exit with a usage error, exit after printing the help, or go on *)
Inductive launch (A : Type) := Usage | Help | Started (a : A).
Arguments Usage {A}. Arguments Help {A}. Arguments Started {A} a.

(** optparse.py OptionParser._add_help_option *)
Definition HELP : flag := mkflag 104 (lit "help").
(** optparse.py OptionParser._process_short_opts: the letters behind the dash; help acts at once *)
Fixpoint short_opts (opts : list flag) (letters : str) (on : list str) : launch (list str) :=
  match letters with
  | [] => Started on
  | c :: r =>
      match find (fun f => f_short f =? c) (HELP :: opts) with
      | None => Usage
      | Some f => if eqb (f_long f) (lit "help") then Help else short_opts opts r (on ++ [f_long f])
      end
  end.
(** optparse.py _match_abbrev: the name itself or the only one it is a prefix of *)
Definition match_long (opts : list flag) (name : str) : option str :=
  let words := map f_long (HELP :: opts) in
  if inb name words then Some name
  else match filter (fun w => startswith w name) words with
       | [w] => Some w
       | _ => None
       end.
(** optparse.py OptionParser._process_long_opt; with an equals sign it is an error whether or
    not the name is known, no option takes a value *)
Definition long_opt (opts : list flag) (body : str) (on : list str) : launch (list str) :=
  if has_char 61 body then Usage
  else match match_long opts body with
       | None => Usage
       | Some l => if eqb l (lit "help") then Help else Started (on ++ [l])
       end.
(** optparse.py OptionParser._process_args with interspersed arguments, and parse_args *)
Fixpoint parse_words (opts : list flag) (words : list str) (on : list str) (args : list str) : launch (list str * list str) :=
  match words with
  | [] => Started (on, args)
  | w :: r =>
      if eqb w (lit "--") then Started (on, args ++ r)
      else if startswith w (lit "--") then
        match long_opt opts (skipn 2 w) on with
        | Started on' => parse_words opts r on' args
        | Usage => Usage
        | Help => Help
        end
      else if startswith w (lit "-") && (1 <? zlen w) then
        match short_opts opts (skipn 1 w) on with
        | Started on' => parse_words opts r on' args
        | Usage => Usage
        | Help => Help
        end
      else parse_words opts r on (args ++ [w])
  end.
Definition main_with {A} (opts : list flag) (words : list str) (body : (string -> bool) -> list str -> A) : launch A :=
  match parse_words opts words [] [] with
  | Started (on, args) => Started (body (fun s => inb (lit s) on) args)
  | Usage => Usage
  | Help => Help
  end.
Definition fl (c : string) (l : string) : flag := mkflag (hd 0 (lit c)) (lit l).

(** check-instructions.py:21-56, 57-134 *)
Definition CHECK_INSTRUCTIONS_OPTS : list flag :=
  [fl "a" "all"; fl "c" "count"; fl "i" "invalid"; fl "p" "print-opcodes"; fl "s" "sort"; fl "u" "unused"; fl "v" "verbose"].
Definition check_instructions_main (pct : Z -> Z -> str) (fuel : nat) (fs : fsys) (words : list str) : launch (io unit) :=
  main_with CHECK_INSTRUCTIONS_OPTS words (fun has args =>
    check_instructions_run pct fuel fs (has "verbose"%string)
      (mkciopts (has "all"%string) (has "count"%string) (has "invalid"%string) (has "print-opcodes"%string) (has "sort"%string) (has "unused"%string)) args).
(** check-symbols.py:19-61 *)
Definition CHECK_SYMBOLS_OPTS : list flag := [fl "v" "verbose"; fl "c" "complex"].
Definition check_symbols_main (extract : str -> list str -> Z -> list (str * Z)) (upper rep : str -> str) (card_rep : card -> str) (fuel : nat) (fs : fsys)
    (words : list str) : launch (io unit) :=
  main_with CHECK_SYMBOLS_OPTS words (fun has args =>
    check_symbols_verbose extract upper rep card_rep fuel fs (has "verbose"%string) (has "complex"%string) args).
(** find-symbols.py:21-75; --details is accepted and not used *)
Definition FIND_SYMBOLS_OPTS : list flag :=
  [fl "b" "begin"; fl "D" "details"; fl "e" "end"; fl "f" "fuzzy"; fl "v" "verbose"; fl "x" "exact"].
Definition find_symbols_main (extract : str -> list str -> Z -> list (str * Z)) (upper rep : str -> str) (card_rep : card -> str) (fuel : nat) (fs : fsys)
    (words : list str) : launch (io (option found_def)) :=
  main_with FIND_SYMBOLS_OPTS words (fun has args =>
    find_symbols_verbose extract upper rep card_rep fuel fs (has "verbose"%string) (has "begin"%string) (has "end"%string) (has "fuzzy"%string)
      (has "exact"%string) args).
(** list-instructions.py:19-62 *)
Definition LIST_INSTRUCTIONS_OPTS : list flag := [fl "D" "details"; fl "v" "verbose"].
Definition list_instructions_main (fuel : nat) (fs : fsys) (words : list str) : launch (io unit) :=
  main_with LIST_INSTRUCTIONS_OPTS words (fun has args =>
    list_instructions_run fuel fs (has "verbose"%string) (has "details"%string) args).
(** list-symbols.py:19-54, listing.py:19-49 *)
Definition VERBOSE_OPTS : list flag := [fl "v" "verbose"].
Definition list_symbols_main (upper rep : str -> str) (card_rep : card -> str) (fuel : nat) (fs : fsys) (words : list str) : launch (io unit) :=
  main_with VERBOSE_OPTS words (fun has args => list_symbols_run upper rep card_rep fuel fs (has "verbose"%string) args).
Definition listing_main (fuel : nat) (fs : fsys) (words : list str) : launch (io unit * fsys) :=
  main_with VERBOSE_OPTS words (fun has args => listing_run fuel fs (has "verbose"%string) args).
(** parse.py:21-81 *)
Definition PARSE_OPTS : list flag := [fl "d" "debug"; fl "v" "verbose"].
Definition parse_main (upper rep : str -> str) (card_rep : card -> str) (fuel : nat) (fs : fsys) (words : list str) : launch (io unit) :=
  main_with PARSE_OPTS words (fun has args => parse_run upper rep card_rep fuel fs (has "verbose"%string) (has "debug"%string) args).
(** genlines.py:27-76 *)
Definition genlines_main (words : list str) : launch (res (list str)) :=
  main_with [] words (fun _ args => genlines args).
(** genpages.py:20-79: the result and the files afterwards *)
Definition genpages_run (fuel : nat) (fs : fsys) (args : list str) : res unit * fsys :=
  match args with
  | [] => (Err SystemExit, fs)
  | f :: _ =>
      match fs f with
      | None => (Err SystemExit, fs)
      | Some content =>
          match genpages fuel content with
          | Err e => (Err e, fs)
          | Ok more => (Ok tt, fs_write fs f (content ++ more))
          end
      end
  end.
Definition genpages_main (fuel : nat) (fs : fsys) (words : list str) : launch (res unit * fsys) :=
  main_with [] words (fun _ args => genpages_run fuel fs args).
