(** Model of h800/charset.py, h800/context.py and h800/assembler.py. *)
From Coq Require Import ZArith List Bool.
From Verif Require Import Py MCards MSymbols MDiag.

(** *** charset.py:8-73 CHARSET: code -> character, [None] for the one code without a character *)
Definition CHARSET : dict Z (option Z) :=
  let c k x := (k, Some x) in
  [ c 0 48; c 1 49; c 2 50; c 3 51; c 4 52; c 5 53; c 6 54; c 7 55; c 8 56; c 9 57;
    c 10 39; c 11 61; c 12 58; c 13 32; c 14 32; c 15 38; c 16 43;
    c 17 65; c 18 66; c 19 67; c 20 68; c 21 69; c 22 70; c 23 71; c 24 72; c 25 73;
    c 26 59; c 27 46; c 28 41; c 29 37; c 30 9608; c 31 32; c 32 45;
    c 33 74; c 34 75; c 35 76; c 36 77; c 37 78; c 38 79; c 39 80; c 40 81; c 41 82;
    c 42 35; c 43 36; (44, None); c 45 34; c 46 32; c 47 32; c 48 32; c 49 47;
    c 50 83; c 51 84; c 52 85; c 53 86; c 54 87; c 55 88; c 56 89; c 57 90;
    c 58 64; c 59 44; c 60 40; c 61 10; c 62 32; c 63 32 ].

(** *** Python objects with attributes.  A value is None, a bool, an int, a string or a
    reference; a reference points to an instance (a dict of attributes) or to a list.
    Attribute access on an instance looks at the instance only; the classes involved
    define no data attributes. *)
Inductive pv := PNone | PBool (b : bool) | PInt (n : Z) | PStr (s : str) | PRef (r : Z).
Inductive pyobj := Inst (attrs : dict str pv) | Lst (items : list pv).
Definition heap := dict Z pyobj.
Definition getattr (h : heap) (r : Z) (name : str) : res pv :=
  match dget h r with
  | Some (Inst a) => match dget a name with Some v => Ok v | None => Err AttributeError end
  | _ => Err AttributeError
  end.
(** plain instances accept every attribute *)
Definition setattr (h : heap) (r : Z) (name : str) (v : pv) : heap * res unit :=
  match dget h r with
  | Some (Inst a) => (dset h r (Inst (dset a name v)), Ok tt)
  | _ => (h, Err AttributeError)
  end.
(** the address of a new object *)
Definition fresh (h : heap) : Z := 1 + fold_right Z.max 0 (dkeys h).
(** statements in sequence: stops at the first exception, keeping what was done before *)
Definition then_ {A B} (x : heap * res A) (k : heap -> A -> heap * res B) : heap * res B :=
  match x with (h, Ok a) => k h a | (h, Err e) => (h, Err e) end.
(** dst.name = src.name for the names in order *)
Fixpoint copy_attrs (names : list str) (src dst : Z) (h : heap) : heap * res unit :=
  match names with
  | [] => (h, Ok tt)
  | n :: r =>
      match getattr h src n with
      | Err e => (h, Err e)
      | Ok v => then_ (setattr h dst n v) (fun h _ => copy_attrs r src dst h)
      end
  end.
Fixpoint set_attrs (kvs : list (str * pv)) (dst : Z) (h : heap) : heap * res unit :=
  match kvs with
  | [] => (h, Ok tt)
  | (n, v) :: r => then_ (setattr h dst n v) (fun h _ => set_attrs r dst h)
  end.

(** context.py:27-71 Context(listfile, binfile, options, logLevel, logfile): SymbolTable
    (line 37) is not defined in the module, so everything behind it is unreachable. *)
Definition context_new (h : heap) (listfile binfile options logLevel logfile : pv) : heap * res Z :=
  let self := fresh h in
  let h := dset h self (Inst []) in
  let attr_of_options h name :=
    match options with
    | PRef o => getattr h o name
    | _ => Err AttributeError
    end in
  then_ (setattr h self (lit "options") options) (fun h _ =>
  match attr_of_options h (lit "verbose") with
  | Err e => (h, Err e)
  | Ok v =>
      then_ (setattr h self (lit "verbose") v) (fun h _ =>
      match attr_of_options h (lit "debug") with
      | Err e => (h, Err e)
      | Ok d =>
          then_ (set_attrs [(lit "debug", d); (lit "logfile", logfile); (lit "assembler", PNone);
                            (lit "listfile", listfile); (lit "binfile", binfile); (lit "srcfile", PNone)] self h)
                (fun h _ => (h, Err NameError))
      end)
  end).
(** context.py:100-110 reset: [code] becomes a new empty list *)
Definition context_reset (h : heap) (self : Z) : heap * res unit :=
  then_ (set_attrs [(lit "linenum", PInt 0); (lit "global_linenum", PInt 0)] self h) (fun h _ =>
  let l := fresh h in
  let h := dset h l (Lst []) in
  set_attrs [(lit "code", PRef l); (lit "srcline", PNone); (lit "currentRecord", PNone); (lit "previousRecord", PNone);
             (lit "addSymbol", PBool true); (lit "reparse", PBool false); (lit "loc", PInt 0); (lit "bank", PInt 0)] self h).
(** context.py:112-121 load *)
Definition context_load (h : heap) (self record : Z) : heap * res unit :=
  copy_attrs [lit "linenum"; lit "global_linenum"; lit "code"; lit "srcline"; lit "loc"; lit "bank"; lit "coloc";
              lit "errorMsg"; lit "warningMsg"] record self h.
(** context.py:123-132 save *)
Definition context_save (h : heap) (self record : Z) : heap * res unit :=
  copy_attrs [lit "linenum"; lit "global_linenum"; lit "code"; lit "srcline"; lit "loc"; lit "coloc"; lit "bank";
              lit "errorMsg"; lit "warningMsg"] self record h.
(** context.py:73-98 __str__: RecordType (line 85) is not defined in the module, so the text is
    never completed; before that, the attributes are formatted in turn, with %d for the line numbers *)
Fixpoint str_attrs (h : heap) (self : Z) (l : list (str * bool)) : res unit :=
  match l with
  | [] => Err NameError
  | (n, num) :: r =>
      do v <- getattr h self n;
      if num then match v with PInt _ | PBool _ => str_attrs h self r | _ => Err TypeError end
      else str_attrs h self r
  end.
Definition context_str (h : heap) (self : Z) : res unit :=
  str_attrs h self
    [(lit "options", false); (lit "logfile", false); (lit "listfile", false); (lit "binfile", false); (lit "srcfile", false);
     (lit "linenum", true); (lit "global_linenum", true); (lit "code", false); (lit "srcline", false); (lit "currentRecord", false)].
(** truth of a value *)
Definition truth (h : heap) (v : pv) : bool :=
  match v with
  | PNone => false
  | PBool b => b
  | PInt n => negb (n =? 0)
  | PStr s => match s with [] => false | _ => true end
  | PRef r => match dget h r with Some (Lst []) => false | _ => true end
  end.
(** context.py:134-146 setLoc and setCoLoc; [attr] is "loc" or "coloc".  memmap, error and log
    are not defined by the class; when a caller adds them, memmap.isValid is the function
    [valid] and error and log are assumed to change nothing.  The message needs an int. *)
Definition context_set_loc (attr : str) (valid : pv -> Z -> bool) (h : heap) (self : Z) (address : Z) : heap * res unit :=
  match getattr h self (lit "memmap") with
  | Err e => (h, Err e)
  | Ok m =>
      let rest :=
        match getattr h self (lit "reparse") with
        | Err e => (h, Err e)
        | Ok v =>
            if truth h v then (h, Ok tt)
            else match getattr h self (lit "log") with
                 | Err e => (h, Err e)
                 | Ok _ =>
                     match getattr h self attr with
                     | Err e => (h, Err e)
                     | Ok (PInt _) | Ok (PBool _) => setattr h self attr (PInt address)
                     | Ok _ => (h, Err TypeError)
                     end
                 end
        end in
      if valid m address then rest
      else match getattr h self (lit "error") with Err e => (h, Err e) | Ok _ => rest end
  end.
(** what the rest of the program does with a code list: context.code.append(x) *)
Definition list_append (h : heap) (l : Z) (x : pv) : heap :=
  match dget h l with Some (Lst xs) => dset h l (Lst (xs ++ [x])) | _ => h end.

(** *** assembler.py.  A parser record is only known by its identity; its methods isParseable
    and isComplete are functions of the identity. *)
Record actx := mkactx {
  x_records : list (option Z);     (* context.records; None is the object None *)
  x_current : option Z;            (* context.currentRecord *)
  x_error : bool                   (* has the context a method error *)
}.
(** attributes that __init__ does not set are optional *)
Record asm := mkasm {
  a_verbose : bool; a_symtab : symtab;
  a_context : option actx; a_records : option (list (option Z)); a_errors : option Z; a_passnum : option Z;
  a_srcfile : option str; a_linenum : option Z
}.
(** assembler.py:12-14 *)
Definition asm_new (verbose : bool) : asm := mkasm verbose [] None None None None None None.
(** assembler.py:16-19: the error count of buildSymbolTable is dropped; the table is modified in
    place, so a failing call keeps what it had recorded *)
Definition asm_create_symtab (upper : str -> str) (fuel : nat) (fs : fsys) (a : asm) (srcfile : str) : asm * res unit :=
  let '(_, tab, r) := build_table_run upper fuel fs srcfile (a_symtab a) in
  (mkasm (a_verbose a) tab (a_context a) (a_records a) (a_errors a) (a_passnum a) (a_srcfile a) (a_linenum a),
   match r with Ok _ => Ok tt | Err e => Err e end).
(** assembler.py:21-31: reads the file and does nothing with its lines *)
Definition asm_assemble (fs : fsys) (a : asm) (srcfile : str) : asm * res unit :=
  let a := mkasm (a_verbose a) (a_symtab a) (a_context a) (a_records a) (a_errors a) (a_passnum a) (Some srcfile) (Some 0) in
  match fs srcfile with None => (a, Err OSError) | Some _ => (a, Ok tt) end.

(** assembler.py:49-94 resolve *)
Section Resolve.
Variables (parseable complete : Z -> bool).
(** assembler.py:67-78 the loop over the records in one pass: the new record list, the
    incomplete records in order, and whether it raised.  [n] records are visited starting at
    index [j] of [recs]. *)
Fixpoint pass_loop (current : option Z) (n : nat) (done : list (option Z)) (recs : list (option Z)) (undefs : list Z)
                   : list (option Z) * res (list Z) :=
  match n with
  | O => (done ++ recs, Ok undefs)
  | S n =>
      match recs with
      | [] => (done, Err IndexError)
      | None :: r => (done ++ None :: r, Err AttributeError)
      | Some x :: r =>
          if parseable x then pass_loop current n (done ++ [current]) r (if complete x then undefs else undefs ++ [x])
          else pass_loop current n (done ++ [Some x]) r undefs
      end
  end.
(** how resolve ended: after [n] passes without an incomplete record, after [n] passes without
    progress, or because the [n] allowed passes are used up *)
Inductive outcome := AllComplete (n : Z) | NoProgress (n : Z) | GaveUp (n : Z).
Definition with_pass (a : asm) (n : Z) (recs : list (option Z)) (errors : option Z) : asm :=
  mkasm (a_verbose a) (a_symtab a) (a_context a) (Some recs) errors (Some n) (a_srcfile a) (a_linenum a).
(** assembler.py:61-90 the passes: [k] of them left, [i] made *)
Fixpoint passes (k : nat) (i : Z) (x : actx) (prev : Z) (a : asm) : asm * res outcome :=
  match k with
  | O => (a, Ok (GaveUp i))
  | S k =>
      match a_records a with
      | None =>
          (mkasm (a_verbose a) (a_symtab a) (a_context a) None (a_errors a) (Some (i + 1)) (a_srcfile a) (a_linenum a),
           match x_records x with [] => Ok (AllComplete (i + 1)) | _ => Err AttributeError end)
      | Some recs =>
          let '(recs', r) := pass_loop (x_current x) (length (x_records x)) [] recs [] in
          let a1 := with_pass a (i + 1) recs' (a_errors a) in
          match r with
          | Err e => (a1, Err e)
          | Ok undefs =>
              let n := zlen undefs in
              if n =? 0 then (a1, Ok (AllComplete (i + 1)))
              else if n =? prev then
                match a_errors a with
                | None => (a1, Err AttributeError)
                | Some e =>
                    let a2 := with_pass a (i + 1) recs' (Some (e + n)) in
                    if x_error x then (a2, Ok (NoProgress (i + 1))) else (a2, Err AttributeError)
                end
              else passes k (i + 1) x n a1
          end
      end
  end.
Definition asm_resolve (a : asm) (maxPasses : Z) : asm * res outcome :=
  match a_context a with
  | None => (a, Err AttributeError)
  | Some x => passes (Z.to_nat maxPasses) 0 x 0 a
  end.
End Resolve.
