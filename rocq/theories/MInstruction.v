(** Model of /repo/h800/instruction.py.  Arguments are ints or None (bools are
    ints).  The debugging print of lines 71-72 is in MVerbose.v. *)
From Verif Require Import Py MBitField MWord.

(** instructions.py:104-132 the namedtuple Opcode.  A type of None is not
    modelled (the default is "unmasked"). *)
Record opcode := mkopcode {
  o_m : str; o_c : str; o_b23 : option Z; o_b7 : option Z; o_op : option Z; o_type : str
}.

(** instruction.py:69-70 the optional arguments of Instruction.__init__ *)
Record iargs := mkiargs {
  sequence : option Z; mask : option Z; arg_a : option Z; arg_b : option Z; arg_c : option Z;
  paddr : option Z
}.

(** instruction.py:73-88 the attributes the methods use; `pseudo` is never read *)
Record instr := mkinstr { i_opcode : opcode; i_args : iargs; i_data : bf }.

Definition given {A} (o : option A) : bool := match o with Some _ => true | None => false end.
(** instruction.py:135, 148, 151, 154  `x not in (0, 1, True, False)` *)
Definition not_bit (x : Z) : bool := negb ((x =? 0) || (x =? 1)).
(** instruction.py:147-155 *)
Definition check_bit (o : option Z) : res unit :=
  match o with
  | Some x => if not_bit x then Err ValueError else Ok tt
  | None => Ok tt
  end.
(** instruction.py:145, 162, 166, 169, 171 a value out of 0..hi *)
Definition check_hi (o : option Z) (hi : Z) : res unit :=
  match o with
  | Some x => if (x <? 0) || (x >? hi) then Err ValueError else Ok tt
  | None => Ok tt
  end.

(** instruction.py:129-172 _check *)
Definition instr_check (o : opcode) (x : iargs) : res unit :=
  do _ <- (match sequence x with
           | Some s =>
               if match paddr x with Some p => negb (p =? 0) | None => false end then Err ValueError
               else if not_bit s then Err ValueError else Ok tt
           | None => Ok tt
           end);
  do _ <- (match mask x with
           | Some _ =>
               if negb (eqb (o_type o) (lit "maskable")) then Err ValueError
               else if given (arg_a x) || given (arg_b x) || given (arg_c x) || given (paddr x)
               then Err ValueError
               else check_hi (mask x) 31
           | None => Ok tt
           end);
  do _ <- check_bit (arg_a x);
  do _ <- check_bit (arg_b x);
  do _ <- check_bit (arg_c x);
  do _ <- (match paddr x with
           | Some _ =>
               if given (sequence x) || given (mask x) || given (arg_a x) || given (arg_b x)
                  || given (arg_c x)
               then Err ValueError
               else check_hi (paddr x) 63
           | None => Ok tt
           end);
  do _ <- check_hi (o_b7 o) 1;
  do _ <- check_hi (o_b23 o) 3;
  match o_op o with
  | None => Err TypeError
  | Some op => check_hi (Some op) 31
  end.

(** an item assignment that must succeed for the constructor to go on *)
Definition put (k : key) (v : Z) (b : bf) : res bf :=
  match bf_setitem b k v with
  | (b', Ok _) => Ok b'
  | (_, Err e) => Err e
  end.
(** `if v is not None: data[k] = v` *)
Definition put_opt (k : key) (v : option Z) (b : bf) : res bf :=
  match v with Some x => put k x b | None => Ok b end.
(** `1 if x else 0` *)
Definition as_bit (o : option Z) : option Z :=
  match o with Some x => Some (if x =? 0 then 0 else 1) | None => None end.
Definition range (s e : Z) : key := Slice (Some s) (Some e).

(** instruction.py:95-100 is bit 7 stored? *)
Definition uses_bit7 (o : opcode) (x : iargs) : bool :=
  inb (o_type o) (map lit ["maskable"; "peripheral"; "print"]%string)
  && ((eqb (o_type o) (lit "maskable") && given (mask x)) || negb (eqb (o_type o) (lit "maskable"))).

(** instruction.py:69-126 Instruction.__init__ *)
Definition instr_new (o : opcode) (x : iargs) : res instr :=
  do d <- bf_new 0 12 3 0;
  do _ <- instr_check o x;
  do d <- put_opt (Idx 1) (sequence x) d;
  do d <- (if uses_bit7 o x then put_opt (Idx 7) (o_b7 o) d else Ok d);
  do d <- (match mask x with
           | Some m => put (range 2 6) m d
           | None => put_opt (range 2 3) (o_b23 o) d
           end);
  do d <- put_opt (Idx 4) (as_bit (arg_a x)) d;
  do d <- put_opt (Idx 5) (as_bit (arg_b x)) d;
  do d <- put_opt (Idx 6) (as_bit (arg_c x)) d;
  do d <- put_opt (range 1 6) (paddr x) d;
  match o_op o with
  | None => Err TypeError
  | Some op => do d <- put (range 8 12) op d; Ok (mkinstr o x d)
  end.

(** instruction.py:174-177 *)
Definition instr_value (i : instr) : Z := bf_value (i_data i).

(** instruction.py:180-207 the subclasses fix which arguments can be passed *)
Definition general_masked (o : opcode) (s m : option Z) : res instr :=
  instr_new o (mkiargs s m None None None None).
Definition general_unmasked (o : opcode) (s a b c : option Z) : res instr :=
  instr_new o (mkiargs s None a b c None).
Definition peripheral (o : opcode) (p : option Z) : res instr :=
  instr_new o (mkiargs None None None None None p).
Definition simulator (o : opcode) (s : option Z) : res instr :=
  instr_new o (mkiargs s None None None None None).
Definition scientific (o : opcode) (s a b c : option Z) : res instr :=
  instr_new o (mkiargs s None a b c None).

(** instruction.py:210-216 Constant, a Word; the mnemonic is dropped *)
Definition constant_new (mnemonic : str) (data : Z) : res word :=
  if (data <? 0) || (data >? 2 ^ 48 - 1) then Err ValueError else word_new data.

(** instruction.py:219-228 PseudoInstruction and AssemblyControl:
    `super().__init__(mnemonic=..., ...)` names a parameter Instruction.__init__
    does not have, and `opcode` is missing: a TypeError whatever the arguments *)
Definition pseudo_new (mnemonic : str) (a b c : option Z) : res instr := Err TypeError.
Definition assembly_control_new (mnemonic : str) (a b c : option Z) : res instr :=
  pseudo_new mnemonic a b c.
