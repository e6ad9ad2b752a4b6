(** Property theorems; generated from LOptions.v by meta/genp.py. *)
From Verif Require Import Py LPy MCards LCards LDeck MSymbols MInstructions MTools STools LGen LTools MDiag MVerbose SVerbose MOptions SOptions LOptions.

Theorem C123_understood : forall opts words on args, proper_flags opts ->
  (parse_words opts words [] [] = Started (on, args) <-> understood opts words on args).
Proof. exact (@C123_understood_pf). Qed.
Print Assumptions C123_understood.

Example C123_understood_ex :
  parse_words CHECK_INSTRUCTIONS_OPTS [lit "a"; lit "-cs"; lit "b"; lit "--verb"; lit "-"; lit "--"; lit "-u"] [] [] =
    Started ([lit "count"; lit "sort"; lit "verbose"], [lit "a"; lit "b"; lit "-"; lit "-u"]) /\
  parse_words CHECK_INSTRUCTIONS_OPTS [lit "--no"] [] [] = Usage /\ parse_words CHECK_INSTRUCTIONS_OPTS [lit "--count=1"] [] [] = Usage.
Proof. vm_compute. auto. Qed.

Theorem C123_help : forall opts words, proper_flags opts -> (parse_words opts words [] [] = Help <-> asks_help opts words).
Proof. exact (@C123_help_pf). Qed.
Print Assumptions C123_help.

Example C123_help_ex :
  parse_words PARSE_OPTS [lit "-vh"; lit "--zzz"] [] [] = Help /\ parse_words PARSE_OPTS [lit "--zzz"; lit "-h"] [] [] = Usage /\
  parse_words PARSE_OPTS [lit "--he"] [] [] = Help.
Proof. vm_compute. auto. Qed.

Theorem C123_usage : forall opts words, proper_flags opts ->
  (parse_words opts words [] [] = Usage <-> (forall on args, ~ understood opts words on args) /\ ~ asks_help opts words).
Proof. exact (@C123_usage_pf). Qed.
Print Assumptions C123_usage.

Example C123_usage_ex : parse_words FIND_SYMBOLS_OPTS [lit "X"; lit "--e"] [] [] = Usage /\
  parse_words FIND_SYMBOLS_OPTS [lit "X"; lit "--en"] [] [] = Started ([lit "end"], [lit "X"]).
Proof. vm_compute. auto. Qed.

Theorem C124_position : forall opts a w ls b, proper_flags opts -> option_word opts w ls -> ~ In (lit "help") ls -> ~ In (lit "--") a ->
  (forall on args, understood opts (a ++ b) on args ->
     exists on', understood opts (a ++ w :: b) on' args /\ Permutation on' (ls ++ on)) /\
  (forall on' args, understood opts (a ++ w :: b) on' args ->
     exists on, understood opts (a ++ b) on args /\ Permutation on' (ls ++ on)).
Proof. exact (@C124_position_pf). Qed.
Print Assumptions C124_position.

Example C124_position_ex :
  parse_words PARSE_OPTS [lit "x"; lit "-v"; lit "y"; lit "-d"] [] [] = Started ([lit "verbose"; lit "debug"], [lit "x"; lit "y"]) /\
  parse_words PARSE_OPTS [lit "-d"; lit "x"; lit "y"; lit "-v"] [] [] = Started ([lit "debug"; lit "verbose"], [lit "x"; lit "y"]).
Proof. vm_compute. auto. Qed.

Theorem C124_arguments : forall opts words, Forall plain_word words ->
  forall rest, (~ In (lit "--") rest -> parse_words opts words [] [] = Started ([], words)) /\
    parse_words opts (words ++ lit "--" :: rest) [] [] = Started ([], words ++ rest).
Proof. exact (@C124_arguments_pf). Qed.
Print Assumptions C124_arguments.

Example C124_arguments_ex :
  parse_words [] [lit "1000"; lit "--"; lit "100"; lit "-50"] [] [] = Started ([], [lit "1000"; lit "100"; lit "-50"]) /\
  parse_words [] [lit "1000"; lit "100"; lit "-50"] [] [] = Usage.
Proof. vm_compute. auto. Qed.

Theorem C125_check_instructions : forall pct fuel fs words on args, understood CHECK_INSTRUCTIONS_OPTS words on args ->
  exists v o, check_instructions_main pct fuel fs words = Started (check_instructions_run pct fuel fs v o args) /\
    turned_on on "verbose" v /\ turned_on on "all" (o_all o) /\ turned_on on "count" (o_count o) /\ turned_on on "invalid" (o_invalid o) /\
    turned_on on "print-opcodes" (o_print o) /\ turned_on on "sort" (o_sort o) /\ turned_on on "unused" (o_unused o).
Proof. exact (@C125_check_instructions_pf). Qed.
Print Assumptions C125_check_instructions.

Example C125_check_instructions_ex :
  check_instructions_main (fun _ _ => []) 2 (fun _ => Some (lit "                   FOO")) [lit "--print"; lit "f"] =
    Started ([OutL (lit "f 1                    FOO"); OutL (lit "*** ERROR: Invalid instruction ""FOO"":");
              OutL (lit "File f, line 1:                    FOO"); OutL (lit "1 error encountered.")], Ok tt).
Proof. vm_compute. reflexivity. Qed.

Theorem C125_symbol_tools : forall extract upper rep card_rep fuel fs words on args,
  (understood CHECK_SYMBOLS_OPTS words on args -> exists v c,
     check_symbols_main extract upper rep card_rep fuel fs words = Started (check_symbols_verbose extract upper rep card_rep fuel fs v c args) /\
     turned_on on "verbose" v /\ turned_on on "complex" c) /\
  (understood FIND_SYMBOLS_OPTS words on args -> exists v b e f x,
     find_symbols_main extract upper rep card_rep fuel fs words = Started (find_symbols_verbose extract upper rep card_rep fuel fs v b e f x args) /\
     turned_on on "verbose" v /\ turned_on on "begin" b /\ turned_on on "end" e /\ turned_on on "fuzzy" f /\ turned_on on "exact" x) /\
  (understood VERBOSE_OPTS words on args -> exists v,
     list_symbols_main upper rep card_rep fuel fs words = Started (list_symbols_run upper rep card_rep fuel fs v args) /\ turned_on on "verbose" v).
Proof. exact (@C125_symbol_tools_pf). Qed.
Print Assumptions C125_symbol_tools.

Example C125_symbol_tools_ex :
  find_symbols_main (fun _ _ _ => []) (fun s => s) quoted a_card 2 (fun _ => Some (lit "        ALPHA      DEC          1")) [lit "BETA"; lit "-x"; lit "f.a"] =
    Started ([ErrL (lit "f.a: 0 errors encountered building symbol table."); ErrL (lit "ERROR: Undefined symbol ""BETA""!")], Ok None) /\
  find_symbols_main (fun _ _ _ => []) (fun s => s) quoted a_card 2 (fun _ => None) [lit "-xf"; lit "BETA"; lit "f.a"] = Started ([], Err SystemExit).
Proof. vm_compute. auto. Qed.

Theorem C125_other_tools : forall upper rep card_rep fuel fs words on args,
  (understood LIST_INSTRUCTIONS_OPTS words on args -> exists v d,
     list_instructions_main fuel fs words = Started (list_instructions_run fuel fs v d args) /\
     turned_on on "verbose" v /\ turned_on on "details" d) /\
  (understood VERBOSE_OPTS words on args -> exists v,
     listing_main fuel fs words = Started (listing_run fuel fs v args) /\ turned_on on "verbose" v) /\
  (understood PARSE_OPTS words on args -> exists v d,
     parse_main upper rep card_rep fuel fs words = Started (parse_run upper rep card_rep fuel fs v d args) /\ turned_on on "verbose" v /\ turned_on on "debug" d) /\
  (understood [] words on args -> genlines_main words = Started (genlines args) /\ genpages_main fuel fs words = Started (genpages_run fuel fs args)).
Proof. exact (@C125_other_tools_pf). Qed.
Print Assumptions C125_other_tools.

Example C125_other_tools_ex :
  parse_main (fun s => s) quoted a_card 2 (fun _ => Some (lit "R")) [lit "-v"; lit "f.a"] =
    Started ([OutL (lit "Reading f.a..."); ErrL (lit "f.a: 0 errors encountered building symbol table."); OutL (lit "Reading f.a...");
              OutL (10 :: lit "Source lines: 1"); OutL (lit "0 errors encountered.")], Ok tt).
Proof. vm_compute. reflexivity. Qed.

Theorem C126_countdown_refuted : forall a b s start end_ step rest, decimal a start -> decimal b end_ -> decimal s step ->
  genlines_main (a :: b :: (45 :: s) :: rest) = Usage.
Proof. exact (@C126_countdown_refuted_pf). Qed.
Print Assumptions C126_countdown_refuted.

Example C126_countdown_refuted_ex : genlines_main [lit "1000"; lit "100"; lit "-100"] = Usage.
Proof. vm_compute. reflexivity. Qed.

Theorem C126_countdown_partial : forall a0 a1 s rest start end_ step sc ec,
  decimal a0 start -> decimal a1 end_ -> zlen a0 <= 6 -> zlen a1 <= 6 -> decimal s step -> 1 <= step ->
  opt_arg rest 0 2 sc -> opt_arg rest 1 7 ec ->
  exists out, genlines_main (lit "--" :: a0 :: a1 :: (45 :: s) :: rest) = Started (Ok out) /\
    forall k, let n := start - Z.of_nat k * step in
      match nth_error out k with
      | None => n <= end_ - step
      | Some line => end_ - step < n /\ (0 <= n -> exists t, shows_number line sc n t /\ (n < 10 ^ Z.max 4 (zlen a1) -> zlen t = Z.max 4 (zlen a1)))
      end.
Proof. exact (@C126_countdown_partial_pf). Qed.
Print Assumptions C126_countdown_partial.

Example C126_countdown_partial_ex : genlines_main [lit "--"; lit "30"; lit "10"; lit "-15"] = Started (Ok [lit " 0030   "; lit " 0015   "; lit " 0000   "]).
Proof. vm_compute. reflexivity. Qed.

Theorem C126_zero_partial : forall a0 a1 s rest start end_ sc ec, decimal a0 start -> decimal a1 end_ -> zlen a0 <= 6 -> zlen a1 <= 6 ->
  decimal s 0 -> opt_arg rest 0 2 sc -> opt_arg rest 1 7 ec ->
  genlines (a0 :: a1 :: s :: rest) = Err ValueError.
Proof. exact (@C126_zero_partial_pf). Qed.
Print Assumptions C126_zero_partial.

Example C126_zero_partial_ex : genlines_main [lit "1"; lit "5"; lit "0"] = Started (Err ValueError).
Proof. vm_compute. reflexivity. Qed.

Theorem C127_append : forall fuel fs args r fs', genpages_run fuel fs args = (r, fs') ->
  match r with
  | Ok _ => exists f rest content more, args = f :: rest /\ fs f = Some content /\ genpages fuel content = Ok more /\
              fs' f = Some (content ++ more) /\ forall g, g <> f -> fs' g = fs g
  | Err _ => forall g, fs' g = fs g
  end.
Proof. exact (@C127_append_pf). Qed.
Print Assumptions C127_append.

Example C127_append_ex :
  let fs := fun g : str => if eqb g (lit "f") then Some (lit "L      *MAIN" ++ [10] ++ lit "# Pages: 3" ++ [10]) else None in
  let after := snd (genpages_run 0 fs [lit "f"]) in
  option_map (fun c => (startswith c (lit "L      *MAIN" ++ [10] ++ lit "# Pages: 3" ++ [10] ++ [10] ++ lit "L      *MAIN"), zlen c)) (after (lit "f")) = Some (true, 170) /\
  after (lit "g") = None /\ snd (genpages_run 0 fs [lit "g"]) (lit "f") = fs (lit "f").
Proof. vm_compute. auto. Qed.

Theorem C127_refused : forall fuel fs args,
  args = [] \/ (exists f rest, args = f :: rest /\ fs f = None) -> genpages_run fuel fs args = (Err SystemExit, fs).
Proof. exact (@C127_refused_pf). Qed.
Print Assumptions C127_refused.

Example C127_refused_ex : genpages_main 0 (fun _ => None) [lit "f"] = Started (Err SystemExit, fun _ => None).
Proof. reflexivity. Qed.

Theorem C130_no_files : forall pct extract upper rep card_rep fuel fs words on,
  (understood CHECK_INSTRUCTIONS_OPTS words on [] -> check_instructions_main pct fuel fs words = Started ([], Err SystemExit)) /\
  (understood CHECK_SYMBOLS_OPTS words on [] -> check_symbols_main extract upper rep card_rep fuel fs words = Started ([], Err SystemExit)) /\
  (understood LIST_INSTRUCTIONS_OPTS words on [] -> list_instructions_main fuel fs words = Started ([], Err SystemExit)) /\
  (understood VERBOSE_OPTS words on [] -> list_symbols_main upper rep card_rep fuel fs words = Started ([], Err SystemExit) /\
     listing_main fuel fs words = Started ([], Err SystemExit, fs)) /\
  (understood PARSE_OPTS words on [] -> parse_main upper rep card_rep fuel fs words = Started ([], Err SystemExit)) /\
  (understood [] words on [] -> genlines_main words = Started (Err SystemExit) /\ genpages_main fuel fs words = Started (Err SystemExit, fs)).
Proof. exact (@C130_no_files_pf). Qed.
Print Assumptions C130_no_files.

Example C130_no_files_ex : parse_main (fun s => s) quoted a_card 1 (fun _ => None) [lit "-v"; lit "--debug"] = Started ([], Err SystemExit) /\
  parse_main (fun s => s) quoted a_card 1 (fun _ => None) [lit "--de=1"] = Usage /\ parse_main (fun s => s) quoted a_card 1 (fun _ => None) [lit "--he"] = Help.
Proof. vm_compute. auto. Qed.

Theorem C130_find : forall extract upper rep card_rep fuel fs words on args, understood FIND_SYMBOLS_OPTS words on args ->
  zlen args < 2 \/ (exists l l', l <> l' /\ In l [lit "begin"; lit "end"; lit "fuzzy"; lit "exact"] /\ In l' [lit "begin"; lit "end"; lit "fuzzy"; lit "exact"] /\
    In l on /\ In l' on) ->
  find_symbols_main extract upper rep card_rep fuel fs words = Started ([], Err SystemExit).
Proof. exact (@C130_find_pf). Qed.
Print Assumptions C130_find.

Example C130_find_ex : find_symbols_main (fun _ _ _ => []) (fun s => s) quoted a_card 1 (fun _ => None) [lit "-bx"; lit "A"; lit "f"] = Started ([], Err SystemExit) /\
  find_symbols_main (fun _ _ _ => []) (fun s => s) quoted a_card 1 (fun _ => None) [lit "A"; lit "-v"] = Started ([], Err SystemExit).
Proof. vm_compute. auto. Qed.

Theorem C130_opcode : forall fuel fs words on opcode m files, understood LIST_INSTRUCTIONS_OPTS words on (opcode :: files) ->
  mnemonic_of opcode m -> ~ In m INSTRUCTIONS -> list_instructions_main fuel fs words = Started ([], Err SystemExit).
Proof. exact (@C130_opcode_pf). Qed.
Print Assumptions C130_opcode.

Example C130_opcode_ex : list_instructions_main 1 (fun _ => None) [lit "FOO"; lit "f"] = Started ([], Err SystemExit).
Proof. vm_compute. reflexivity. Qed.
