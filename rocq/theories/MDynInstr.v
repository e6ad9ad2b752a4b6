(** Model of Instruction in /repo/h800/instruction.py for arguments of any type, on top of
    [MDyn.v].  The opcode is a row of the table, whose numbers are ints or None. *)
From Verif Require Import Py MBitField MInstruction MDyn.

(** instruction.py:69-70 the arguments; None is Python's *)
Record targs := mktargs {
  t_sequence : option val; t_mask : option val; t_a : option val; t_b : option val; t_c : option val;
  t_paddr : option val
}.
(** instruction.py:135, 148, 151, 154 *)
Definition tnot_bit (v : val) : bool := negb (veq v 0 || veq v 1).
(** instruction.py:147-155 *)
Definition tcheck_bit (o : option val) : tres unit :=
  match o with
  | Some v => if tnot_bit v then TErr (PyExn ValueError) else TOk tt
  | None => TOk tt
  end.
(** instruction.py:145, 162 `v < 0 or v > hi` *)
Definition tcheck_hi (v : val) (hi : Z) : tres unit :=
  try l <- vlt v (VI 0);
  if l : bool then TErr (PyExn ValueError)
  else try g <- vgt v (VI hi);
       if g : bool then TErr (PyExn ValueError) else TOk tt.
(** instruction.py:129-172 _check *)
Definition tinstr_check (o : opcode) (x : targs) : tres unit :=
  try _ <- (match t_sequence x with
            | Some s =>
                if match t_paddr x with Some p => truth p | None => false end then TErr (PyExn ValueError)
                else if tnot_bit s then TErr (PyExn ValueError) else TOk tt
            | None => TOk tt
            end);
  try _ <- (match t_mask x with
            | Some m =>
                if negb (Py.eqb (o_type o) (lit "maskable")) then TErr (PyExn ValueError)
                else if given (t_a x) || given (t_b x) || given (t_c x) || given (t_paddr x)
                then TErr (PyExn ValueError)
                else tcheck_hi m 31
            | None => TOk tt
            end);
  try _ <- tcheck_bit (t_a x);
  try _ <- tcheck_bit (t_b x);
  try _ <- tcheck_bit (t_c x);
  try _ <- (match t_paddr x with
            | Some p =>
                if given (t_sequence x) || given (t_mask x) || given (t_a x) || given (t_b x)
                   || given (t_c x)
                then TErr (PyExn ValueError)
                else tcheck_hi p 63
            | None => TOk tt
            end);
  try _ <- lift (check_hi (o_b7 o) 1);
  try _ <- lift (check_hi (o_b23 o) 3);
  match o_op o with
  | None => TErr (PyExn TypeError)
  | Some op => lift (check_hi (Some op) 31)
  end.
(** instruction.py:92-125 `data[k] = v`, if v is given *)
Definition tput (A : farith) (k : tkey) (v : val) (b : tf) : tres tf :=
  match tf_setitem A b k v with
  | (b', TOk _) => TOk b'
  | (_, TErr e) => TErr e
  end.
Definition tput_opt (A : farith) (k : tkey) (v : option val) (b : tf) : tres tf :=
  match v with Some x => tput A k x b | None => TOk b end.
(** `1 if x else 0` *)
Definition tas_bit (o : option val) : option val :=
  match o with Some v => Some (VI (if truth v then 1 else 0)) | None => None end.
Definition num (o : option Z) : option val := match o with Some z => Some (VI z) | None => None end.
(** instruction.py:95-100 is bit 7 stored? *)
Definition tuses_bit7 (o : opcode) (x : targs) : bool :=
  inb (o_type o) (map lit ["maskable"; "peripheral"; "print"]%string)
  && ((Py.eqb (o_type o) (lit "maskable") && given (t_mask x)) || negb (Py.eqb (o_type o) (lit "maskable"))).
(** instruction.py:69-126 Instruction.__init__: the field [data] *)
Definition tinstr_new (A : farith) (o : opcode) (x : targs) : tres tf :=
  try d <- tf_new A (VI 0) (VI 12) (VI 3) (VI 0);
  try _ <- tinstr_check o x;
  try d <- tput_opt A (TIdx (VI 1)) (t_sequence x) d;
  try d <- (if tuses_bit7 o x then tput_opt A (TIdx (VI 7)) (num (o_b7 o)) d else TOk d);
  try d <- (match t_mask x with
            | Some m => tput A (TSlice (VI 2) (VI 6)) m d
            | None => tput_opt A (TSlice (VI 2) (VI 3)) (num (o_b23 o)) d
            end);
  try d <- tput_opt A (TIdx (VI 4)) (tas_bit (t_a x)) d;
  try d <- tput_opt A (TIdx (VI 5)) (tas_bit (t_b x)) d;
  try d <- tput_opt A (TIdx (VI 6)) (tas_bit (t_c x)) d;
  try d <- tput_opt A (TSlice (VI 1) (VI 6)) (t_paddr x) d;
  match o_op o with
  | None => TErr (PyExn TypeError)
  | Some op => tput A (TSlice (VI 8) (VI 12)) (VI op) d
  end.
