(** What the assembler says while it works: h800/assembler.py.  The loggers info and debug, print, and the
    methods error of records and context are outside the package; a call of one of them is an event. *)
From Coq Require Import ZArith List Bool.
From Verif Require Import Py MCards MSymbols MTools MDiag MDump MVerbose MContext.

Inductive event :=
| LInfo (s : str)                   (* info(s) *)
| LInfoAt (level : Z) (s : str)     (* info(level, s) *)
| LDebug (s : str)                  (* debug(s) *)
| Printed (l : line)                (* print *)
| RecordError (r : Z) (s : str)     (* record.error(s) *)
| ContextError (s : str).           (* context.error(s, source=False, count=False) *)

(** assembler.py:16-19 createSymbolTable *)
Definition asm_create_run (upper rep : str -> str) (card_rep : card -> str) (fuel : nat) (fs : fsys) (a : asm) (srcfile : str)
                          : list event * (asm * res unit) :=
  (LInfo (lit "Processing " ++ srcfile) ::
     map Printed (fst (build_verbose upper rep card_rep fuel fs (a_verbose a) (a_symtab a) srcfile)),
   asm_create_symtab upper fuel fs a srcfile).
(** assembler.py:21-31 assemble *)
Definition asm_assemble_run (fs : fsys) (a : asm) (srcfile : str) : list event * (asm * res unit) :=
  (LInfo (lit "Assembling " ++ srcfile) ::
     match fs srcfile with
     | None => []
     | Some content => [LDebug (lit "assemble: file " ++ srcfile ++ lit ", lines " ++ str_of_Z (zlen (readlines content)))]
     end,
   asm_assemble fs a srcfile).
(** assembler.py:33-40 parse; [operands] is the text of the third argument *)
Definition asm_parse_run (a : asm) (label opcode operands : str) : list event * (asm * res unit) :=
  ([LInfoAt 7 (lit "parse: label='" ++ label ++ lit "' opcode='" ++ opcode ++ lit "' operands=" ++ operands)], (a, Ok tt)).
(** assembler.py:42-47 parseRecord: None *)
Definition asm_parse_record_run (a : asm) (recordIndex : Z) : list event * (asm * res rval) := ([], (a, Ok RNone)).

(** assembler.py:49-94 resolve; [srcline] gives the text of a record's line, [secs1] and [secs2] the times *)
Section Resolve.
Variables (parseable complete : Z -> bool) (srcline : Z -> str).
(** assembler.py:67-74 one pass over the first [n] records *)
Fixpoint pass_said (n : nat) (recs : list (option Z)) : list event :=
  match n with
  | O => []
  | S n =>
      match recs with
      | [] | None :: _ => []
      | Some x :: r => (if parseable x then [LDebug (lit "resolve: " ++ srcline x)] else []) ++ pass_said n r
      end
  end.
Definition incomplete_said (n : Z) : event := LInfo (str_of_Z n ++ lit " incomplete parser records").
Definition undefined_said (r : Z) : event := RecordError r (lit "undefined symbol").
(** assembler.py:61-90 the passes, with what becomes of the assembler *)
Fixpoint passes_run (k : nat) (i : Z) (x : actx) (prev : Z) (a : asm) : list event * (asm * res outcome) :=
  match k with
  | O => ([], (a, Ok (GaveUp i)))
  | S k =>
      match a_records a with
      | None =>
          (match x_records x with [] => [incomplete_said 0; LInfo (lit "All parser records complete")] | _ => [] end,
           (mkasm (a_verbose a) (a_symtab a) (a_context a) None (a_errors a) (Some (i + 1)) (a_srcfile a) (a_linenum a),
            match x_records x with [] => Ok (AllComplete (i + 1)) | _ => Err AttributeError end))
      | Some recs =>
          let '(recs', r) := pass_loop parseable complete (x_current x) (length (x_records x)) [] recs [] in
          let said := pass_said (length (x_records x)) recs in
          let a1 := with_pass a (i + 1) recs' (a_errors a) in
          match r with
          | Err e => (said, (a1, Err e))
          | Ok undefs =>
              let n := zlen undefs in
              let said := said ++ [incomplete_said n] in
              if n =? 0 then (said ++ [LInfo (lit "All parser records complete")], (a1, Ok (AllComplete (i + 1))))
              else if n =? prev then
                match a_errors a with
                | None => (said ++ map undefined_said (firstn 1 undefs), (a1, Err AttributeError))
                | Some e =>
                    let a2 := with_pass a (i + 1) recs' (Some (e + n)) in
                    let said := said ++ map undefined_said undefs in
                    if x_error x then
                      (said ++ [ContextError (lit "no progress resolving parser records, " ++ str_of_Z n ++ lit " undefined records")],
                       (a2, Ok (NoProgress (i + 1))))
                    else (said, (a2, Err AttributeError))
                end
              else let '(later, ar) := passes_run k (i + 1) x n a1 in (said ++ later, ar)
          end
      end
  end.
Definition asm_resolve_run (secs1 secs2 : str) (a : asm) (maxPasses : Z) : list event * (asm * res outcome) :=
  let head := LDebug (lit "Symbol resolution: " ++ secs1 ++ lit " seconds") in
  match a_context a with
  | None => ([head], (a, Err AttributeError))
  | Some x =>
      let '(said, (a', r)) := passes_run (Z.to_nat maxPasses) 0 x 0 a in
      (head :: LDebug (lit "Updating " ++ str_of_Z (zlen (x_records x)) ++ lit " parser records...") :: said ++
         match r with
         | Ok _ => if a_verbose a then [Printed (OutL (lit "Pass 2: " ++ secs2 ++ lit " seconds"))] else []
         | Err _ => []
         end, (a', r))
  end.
End Resolve.
