(** Everything the tools print, with all their options, in terms of the text of the sources. *)
From Coq Require Import Sorted.
From Verif Require Import Py MCards SCards MSymbols SSymbols MInstructions MTools STools MDiag SDump MVerbose SVerbose SEnds SSource SFound STextSym.

(** file, number and text of a line *)
Definition place (x : srcline) : str := let '(f, i, _) := x in f ++ [32] ++ str_of_Z i ++ [32] ++ shown_text x.
Definition skipping (t : str) : list line := [OutL (lit "Skipping card with * in column 8:"); OutL t].

(** *** check-instructions and parse *)
(** what is said about a line; [show]: the lines with a mnemonic are shown *)
Inductive line_report (verbose show : bool) (x : srcline) : list line -> Prop :=
| lr_none : (forall m, ~ mnemonic_at (text_of x) m) -> line_report verbose show x []
| lr_star m : mnemonic_at (text_of x) m -> starred_line (text_of x) ->
    line_report verbose show x ((if show then [OutL (place x)] else []) ++ (if verbose then skipping (place x) else []))
| lr_known m : mnemonic_at (text_of x) m -> ~ starred_line (text_of x) -> In m INSTRUCTIONS ->
    line_report verbose show x (if show then [OutL (place x)] else [])
| lr_fault ls : mnemonic_fault x ls -> line_report verbose show x ((if show then [OutL (place x)] else []) ++ ls).
(** what is said about the lines of the files; with --verbose also how each file is read *)
Inductive lines_told (fs : fsys) (verbose : bool) (P : srcline -> list line -> Prop) : list str -> list (list srcline) -> list line -> Prop :=
| lt_nil : lines_told fs verbose P [] [] []
| lt_file f files out outs log lss ls : read_log fs f log -> Forall2 P out lss -> lines_told fs verbose P files outs ls ->
    lines_told fs verbose P (f :: files) (out :: outs) ((if verbose then log else []) ++ concat lss ++ ls).
(** how many of the lines have the mnemonic and no asterisk *)
Definition occurs (lines : list srcline) (m : str) (n : Z) : Prop :=
  count_of (fun x => ~ starred_line (text_of x) /\ mnemonic_at (text_of x) m) lines n.
(** the mnemonics that do not occur, if asked for *)
Definition unused_text (lines : list srcline) (wanted : bool) (l : list str) : Prop :=
  if wanted then exists ms, l = (10 :: lit "Unused Instructions:") :: ms /\ StronglySorted str_lt ms /\
                            forall m, In m ms <-> In m INSTRUCTIONS /\ occurs lines m 0
  else l = [].

(** *** list-instructions *)
Inductive search_report (verbose details : bool) (opcode : str) (x : srcline) : list line -> Prop :=
| sr_none : (forall op, ~ operation_of (text_of x) op) -> search_report verbose details opcode x []
| sr_star op t : operation_of (text_of x) op -> starred_line (text_of x) ->
    t = (let '(f, i, _) := x in pad_right 32 48 f ++ [32] ++ pad_left 32 6 (str_of_Z i) ++ [32] ++ shown_text x) ->
    search_report verbose details opcode x (if verbose then skipping t else [])
| sr_found y : line_found opcode details x y -> search_report verbose details opcode x [OutL y]
| sr_other op : operation_of (text_of x) op -> ~ starred_line (text_of x) -> (forall y, ~ line_found opcode details x y) ->
    search_report verbose details opcode x [].

(** *** the symbol tools *)
(** what is said about the labels of the files, [ns] complaints about each; [counts]: these numbers are told *)
Inductive labels_told (fs : fsys) (upper rep : str -> str) (verbose counts : bool) :
    list str -> list (list srcline) -> list Z -> list line -> Prop :=
| lb_nil : labels_told fs upper rep verbose counts [] [] [] []
| lb_file f files out outs log blocks ns ls : read_log fs f log -> picked (label_block upper rep) out blocks ->
    labels_told fs upper rep verbose counts files outs ns ls ->
    labels_told fs upper rep verbose counts (f :: files) (out :: outs) (zlen blocks :: ns)
      ((if verbose then log else []) ++ concat blocks ++
       (if counts then [ErrL (f ++ lit ": " ++ str_of_Z (zlen blocks) ++ lit " errors encountered building symbol table.")] else []) ++ ls).
Definition total_of (ns : list Z) : Z := fold_right Z.add 0 ns.

(** *** find-symbols *)
(** the subsegment after a line *)
Definition next_subseg (u : str) (x : srcline) (u' : str) : Prop :=
  line_setloc (text_of x) u' \/ ((forall s, ~ line_setloc (text_of x) s) /\ u' = u).
(** the lines that define [sym], in order, with subsegment, kind and type of the tag; [u] is the subsegment before *)
Inductive given (upper : str -> str) (sym : str) : str -> list srcline -> list (str * (str * (srcline * str))) -> Prop :=
| gv_nil u : given upper sym u [] []
| gv_def u x out u' kind tagtype l : next_subseg u x u' -> line_defines upper (text_of x) sym kind tagtype ->
    given upper sym u' out l -> given upper sym u (x :: out) ((u', (kind, (x, tagtype))) :: l)
| gv_skip u x out u' l : next_subseg u x u' -> (forall kind tagtype, ~ line_defines upper (text_of x) sym kind tagtype) ->
    given upper sym u' out l -> given upper sym u (x :: out) l.
(** those of all files, with the segment *)
Inductive all_given (upper : str -> str) (sym : str) : list str -> list (list srcline) -> list (str * (str * (str * (srcline * str)))) -> Prop :=
| ag_nil : all_given upper sym [] [] []
| ag_file f out files outs seg l r : segment_of f seg -> given upper sym (lit "1") out l -> all_given upper sym files outs r ->
    all_given upper sym (f :: files) (out :: outs) (map (fun d => (seg, d)) l ++ r).
(** collected by segment, subsegment and kind; of several the last one counts *)
Definition collected : list (str * (str * (str * (srcline * str)))) -> list (str * list (str * list (str * (srcline * str)))) -> Prop :=
  grouped (grouped (grouped (fun es e => exists before, es = before ++ [e]))).
(** how a definition is shown; [r] is the text of the card itself *)
Definition definition_shown (rep : str -> str) (d : srcline * str) (t : str) : Prop :=
  let '((f, i, line), tagtype) := d in
  exists lognum l r,
    ((lognum = None /\ shows (columns line 2 7) RNone) \/ exists s, lognum = Some s /\ shows (columns line 2 7) (RStr s)) /\
    none_or rep lognum l /\
    t = lit "{'file': " ++ rep f ++ lit ", 'line': " ++ str_of_Z i ++ lit ", 'lognum': " ++ l ++ lit ", 'tagtype': " ++ rep tagtype ++
        lit ", 'card': " ++ r ++ lit "}".
(** the whole answer: nested dicts *)
Definition answer_shown (rep : str -> str) : list (str * list (str * list (str * (srcline * str)))) -> str -> Prop :=
  dict_shown rep (dict_shown rep (dict_shown rep (definition_shown rep))).
