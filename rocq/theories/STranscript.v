(** Specification of everything list-instructions, listing, check-symbols, find-symbols and list-symbols print. *)
From Verif Require Import Py MCards SCards MSymbols SSymbols MInstructions MTools STools MDiag SDiag SDump MVerbose SVerbose.

(** *** list-instructions *)
(** the lines about one card; [opcode] is what is searched for *)
Inductive find_report (verbose details : bool) (opcode : str) (c : card) : list line -> Prop :=
| fd_none op : card_get c "operation" = Ok op -> (op = RNone \/ op = RStr []) -> find_report verbose details opcode c []
| fd_star op t : card_get c "operation" = Ok (RStr op) -> op <> [] -> starred c -> li_text true c t ->
    find_report verbose details opcode c
      (if verbose then [OutL (lit "Skipping card with * in column 8:"); OutL t] else [])
| fd_found y : li_shows opcode details c y -> find_report verbose details opcode c [OutL y]
| fd_other op : card_get c "operation" = Ok (RStr op) -> op <> [] -> ~ starred c -> (forall y, ~ li_shows opcode details c y) ->
    find_report verbose details opcode c [].
(** the lines about the files: what is said while each is read, then what is said about its cards *)
Inductive files_found (fuel : nat) (fs : fsys) (verbose details : bool) (opcode : str) : list str -> list line -> Prop :=
| ff_nil : files_found fuel fs verbose details opcode [] []
| ff_file f files log cs lss ls : read_log fs f log -> source_cards fuel fs f cs ->
    Forall2 (find_report verbose details opcode) cs lss -> files_found fuel fs verbose details opcode files ls ->
    files_found fuel fs verbose details opcode (f :: files) ((if verbose then log else []) ++ concat lss ++ ls).

(** *** listing *)
(** from the files [fs], the listings of [files] are written one after the other, which leads to [fs'] *)
Inductive listings (fuel : nat) (verbose : bool) : fsys -> list str -> list line -> fsys -> Prop :=
| lg_nil fs : listings fuel verbose fs [] [] fs
| lg_file fs f name files log cs ys ls fs1 fs' : read_log fs f log -> source_cards fuel fs f cs -> list_name f name ->
    Forall2 list_line cs ys -> fs1 name = Some (concat ys) -> (forall g, g <> name -> fs1 g = fs g) ->
    listings fuel verbose fs1 files ls fs' ->
    listings fuel verbose fs (f :: files)
      ((if verbose then log ++ [OutL (lit "Wrote listing file to " ++ name)] else []) ++ ls) fs'.

(** *** the tools that build a symbol table *)
(** what is said while the symbol tables of the files are built: how each file is read, the complaints about it, which are
    [mss], with the definitions they are about, and if [counts] their number *)
Inductive tables_said (upper rep : str -> str) (card_rep : card -> str) (fuel : nat) (fs : fsys) (verbose counts : bool) :
    list str -> list (list str) -> list line -> Prop :=
| ts_nil : tables_said upper rep card_rep fuel fs verbose counts [] [] []
| ts_file f files log cs ms ds mss ls : read_log fs f log -> source_cards fuel fs f cs -> reported upper cs ms ->
    dumped upper rep card_rep cs ds ->
    tables_said upper rep card_rep fuel fs verbose counts files mss ls ->
    tables_said upper rep card_rep fuel fs verbose counts (f :: files) (ms :: mss)
      ((if verbose then log else []) ++ map ErrL ds ++
       (if counts then [ErrL (f ++ lit ": " ++ str_of_Z (zlen ms) ++ lit " errors encountered building symbol table.")] else []) ++ ls).
