(** Specification of what the tools print: progress messages, errors about files, reports. *)
From Verif Require Import Py MInstruction MCards SCards MSymbols SSymbols MInstructions MTools STools MDiag SDiag SDump MVerbose.

(** *** --verbose *)
(** the messages that --verbose adds *)
Inductive progress : list line -> Prop :=
| pg_reading f : progress [OutL (lit "Reading " ++ f ++ lit "...")]
| pg_comment f i : progress [OutL (lit "Skipping meta-comment, file " ++ f ++ lit ", line " ++ str_of_Z i)]
| pg_star t : progress [OutL (lit "Skipping card with * in column 8:"); OutL t]
| pg_wrote f : progress [OutL (lit "Wrote listing file to " ++ f)].
(** [quiet] is [verbose] without some of the progress messages *)
Inductive thinned : list line -> list line -> Prop :=
| th_nil : thinned [] []
| th_keep x verbose quiet : thinned verbose quiet -> thinned (x :: verbose) (x :: quiet)
| th_drop p verbose quiet : progress p -> thinned verbose quiet -> thinned (p ++ verbose) quiet.
Definition only_adds {A} (verbose quiet : list line * res A) : Prop :=
  thinned (fst verbose) (fst quiet) /\ snd verbose = snd quiet.

(** *** reading a source file *)
(** the progress messages of reading a file, and of its lines from number [i] on *)
Inductive read_log (fs : fsys) : str -> list line -> Prop :=
| rl_file f content ls : fs f = Some content -> lines_log fs f 1 (readlines content) ls ->
    read_log fs f (OutL (lit "Reading " ++ f ++ lit "...") :: ls)
with lines_log (fs : fsys) : str -> Z -> list str -> list line -> Prop :=
| ll_nil f i : lines_log fs f i [] []
| ll_comment f i line rest ls : comment_line line -> lines_log fs f (i + 1) rest ls ->
    lines_log fs f i (line :: rest)
      (OutL (lit "Skipping meta-comment, file " ++ f ++ lit ", line " ++ str_of_Z i) :: ls)
| ll_include f i line inc rest l1 l2 : include_of line inc -> read_log fs inc l1 -> lines_log fs f (i + 1) rest l2 ->
    lines_log fs f i (line :: rest) (l1 ++ l2)
| ll_card f i line rest ls : ~ comment_line line -> ~ (exists r, line = lit "$" ++ r) -> lines_log fs f (i + 1) rest ls ->
    lines_log fs f i (line :: rest) ls.
(** reading [f] comes upon a file that does not exist: the progress messages until then and the message
    about it *)
Inductive stops_at (fs : fsys) : str -> list line -> str -> Prop :=
| sa_here f : fs f = None -> stops_at fs f [] (lit "ERROR: File """ ++ f ++ lit """ does not exist!")
| sa_include f content pre line post inc ls : fs f = Some content -> readlines content = pre ++ line :: post ->
    lines_log fs f 1 pre ls -> include_of line inc -> fs inc = None ->
    stops_at fs f (OutL (lit "Reading " ++ f ++ lit "...") :: ls) (lit "File """ ++ inc ++ lit """ does not exist")
| sa_inside f content pre line post inc ls ls' m : fs f = Some content -> readlines content = pre ++ line :: post ->
    lines_log fs f 1 pre ls -> include_of line inc -> fs inc <> None -> stops_at fs inc ls' m ->
    stops_at fs f (OutL (lit "Reading " ++ f ++ lit "...") :: ls ++ ls') m.

(** *** reports about instructions *)
(** a card's position and text, as printed by --print, --debug and --verbose *)
Definition position (c : card) (t : str) : Prop :=
  exists f, c_filename c = Some f /\ t = f ++ [32] ++ str_of_Z (c_linenum c) ++ [32] ++ filter (fun x => negb (x =? 10)) (c_line c).
Definition complains (c : card) (m : str) (ls : list line) : Prop :=
  exists f, c_filename c = Some f /\
    ls = [OutL (lit "*** ERROR: Invalid instruction """ ++ m ++ lit """:");
          OutL (lit "File " ++ f ++ lit ", line " ++ str_of_Z (c_linenum c) ++ lit ": " ++ c_line c)].
(** the lines about one card: its position if asked for, the note about the "*" with --verbose, and
    the complaint about an unknown mnemonic *)
Inductive card_report (verbose show : bool) (c : card) : list line -> Prop :=
| cr_other : ~ instr_card c -> card_report verbose show c []
| cr_star t : instr_card c -> starred c -> position c t ->
    card_report verbose show c
      ((if show then [OutL t] else []) ++
       (if verbose then [OutL (lit "Skipping card with * in column 8:"); OutL t] else []))
| cr_valid m t : instr_is c m -> ~ starred c -> In m INSTRUCTIONS -> position c t ->
    card_report verbose show c (if show then [OutL t] else [])
| cr_invalid m t ls : instr_is c m -> ~ starred c -> ~ In m INSTRUCTIONS -> position c t -> complains c m ls ->
    card_report verbose show c ((if show then [OutL t] else []) ++ ls).
(** the lines about the files: what is said while each is read, then what is said about its cards *)
Inductive files_report (fuel : nat) (fs : fsys) (verbose show : bool) : list str -> list line -> Prop :=
| fr_nil : files_report fuel fs verbose show [] []
| fr_file f files log cs lss ls : read_log fs f log -> source_cards fuel fs f cs ->
    Forall2 (card_report verbose show) cs lss -> files_report fuel fs verbose show files ls ->
    files_report fuel fs verbose show (f :: files) ((if verbose then log else []) ++ concat lss ++ ls).
(** what is said while the symbol tables of the files are built: how each file is read, the complaints about it with
    the definitions they are about, and their number *)
Inductive tables_report (upper rep : str -> str) (card_rep : card -> str) (fuel : nat) (fs : fsys) (verbose : bool) : list str -> list line -> Prop :=
| tr_nil : tables_report upper rep card_rep fuel fs verbose [] []
| tr_file f files log cs ms ds ls : read_log fs f log -> source_cards fuel fs f cs -> reported upper cs ms ->
    dumped upper rep card_rep cs ds ->
    tables_report upper rep card_rep fuel fs verbose files ls ->
    tables_report upper rep card_rep fuel fs verbose (f :: files)
      ((if verbose then log else []) ++ map ErrL ds ++
       ErrL (f ++ lit ": " ++ str_of_Z (zlen ms) ++ lit " errors encountered building symbol table.") :: ls).
(** the mnemonics that do not occur, if asked for *)
Inductive unused_part (cs : list card) : bool -> list str -> Prop :=
| un_none : unused_part cs false []
| un_list ms : StronglySorted str_lt ms -> (forall m, In m ms <-> In m INSTRUCTIONS /\ frequency cs m 0) ->
    unused_part cs true ((10 :: lit "Unused Instructions:") :: ms).
Definition error_count (n : Z) : str :=
  if n =? 1 then lit "1 error encountered." else str_of_Z n ++ lit " errors encountered.".

(** *** the line that making an Instruction prints *)
(** a number is shown in decimal, with a minus sign if it is negative and without leading zeros *)
Inductive shown : option Z -> str -> Prop :=
| sh_none : shown None (lit "None")
| sh_int z t : signed t z -> (forall r, t = 48 :: r -> r = []) -> (forall r, t <> 45 :: 48 :: r) -> shown (Some z) t.
Inductive instruction_line (o : opcode) (x : iargs) : str -> Prop :=
| il b23 b7 op s m a b c p : shown (o_b23 o) b23 -> shown (o_b7 o) b7 -> shown (o_op o) op ->
    shown (sequence x) s -> shown (mask x) m -> shown (arg_a x) a -> shown (arg_b x) b -> shown (arg_c x) c -> shown (paddr x) p ->
    instruction_line o x
      (lit "opcode:Opcode(m='" ++ o_m o ++ lit "', c='" ++ o_c o ++ lit "', b23=" ++ b23 ++ lit ", b7=" ++ b7 ++ lit ", op=" ++ op ++
       lit ", type='" ++ o_type o ++ lit "') sequence:" ++ s ++ lit " mask:" ++ m ++ lit " a=" ++ a ++ lit " b=" ++ b ++
       lit " c=" ++ c ++ lit " paddr=" ++ p).

(** *** the lines that follow the messages of buildSymbolTable *)
(** the second list is the first with the lines that belong to some of the messages added *)
Inductive with_dumps : list line -> list line -> Prop :=
| wd_nil : with_dumps [] []
| wd_keep x a b : with_dumps a b -> with_dumps (x :: a) (x :: b)
| wd_block m ls a b : block_of m ls -> with_dumps a b -> with_dumps (ErrL m :: a) (map ErrL ls ++ b).
(** for examples: strings and cards as Python may show them *)
Definition quoted (s : str) : str := [39] ++ s ++ [39].
Definition a_card (c : card) : str := lit "<card>".
