(** Model of Register, and of the look-up in RegisterGroup and Registers, in
    /repo/h800/registers.py for arguments of any type, on top of [MDyn.v].  Names are
    texts or None. *)
From Verif Require Import Py MBitField MRegisters MDyn.

(** registers.py:94-96 *)
Record treg := mktreg { tr_data : tf; tr_name : option str; tr_width : val }.

(** registers.py:84-85, 104-106 the range test *)
Definition treg_check (A : farith) (width data : val) : tres unit :=
  try l <- vlt data (VI 0);
  if l : bool then raise_d width
  else
    try p <- vpow2 A width;
    try top <- vsub A p (VI 1);
    try g <- vgt data top;
    if g : bool then raise_d width else TOk tt.
(** registers.py:83-96 Register.__init__ *)
Definition treg_new (A : farith) (data : val) (name : option str) (width : val) : tres treg :=
  try _ <- treg_check A width data;
  if bad_name name then TErr (PyExn ValueError)
  else if negb (veq width 16) && negb (veq width 24) then raise_d width
  else
    try b <- tf_new A (VI 0) width (VI 3) (VI 0);
    match tf_setitem A b (TSlice (VI 1) width) data with
    | (b', TOk _) => TOk (mktreg b' name width)
    | (_, TErr e) => TErr e
    end.
Definition treg_with (r : treg) (b : tf) : treg := mktreg b (tr_name r) (tr_width r).
(** registers.py:102-107 value setter *)
Definition treg_set_value (A : farith) (r : treg) (v : val) : treg * tres unit :=
  match treg_check A (tr_width r) v with
  | TErr e => (r, TErr e)
  | TOk _ =>
      let '(b, x) := tf_setitem A (tr_data r) (TSlice (VI 1) (tr_width r)) v in
      (treg_with r b, x)
  end.
(** registers.py:117-127 items *)
Definition treg_getitem (A : farith) (r : treg) (k : tkey) : tres val := tf_getitem A (tr_data r) k.
Definition treg_setitem (A : farith) (r : treg) (k : tkey) (v : val) : treg * tres unit :=
  let '(b, x) := tf_setitem A (tr_data r) k v in (treg_with r b, x).

(** registers.py:154-164 RegisterGroup.__getitem__ with a key that is neither a slice nor a
    str: 0 to 31 pass, and the dictionary finds the number it is equal to *)
Definition tgroup_getitem (g : group) (v : val) : tres nat :=
  try l <- vlt v (VI 0);
  if l : bool then raise_d v
  else
    try h <- vge v (VI (zlen REGISTERS));
    if h : bool then raise_d v
    else
      match find (fun kv => match fst kv with DI i => veq v i | DS _ => false end) (g_registers g) with
      | Some kv => TOk (snd kv)
      | None => TErr (PyExn KeyError)
      end.
(** registers.py:214-222 Registers.__getitem__ with a key that is neither a slice nor a tuple
    (a tuple would be taken apart by the % of the message) *)
Definition tregs_getitem (rs : registers) (v : val) : tres nat :=
  match v with
  | VI i => if (i <? 0) || (i >=? NUM_GROUPS) then TErr (PyExn ValueError)
            else lift (dindex (rs_registers rs) i)
  | _ => TErr (PyExn ValueError)
  end.
