(** BitField objects of negative width (bitfield.py).  2 ** width is then a float,
    and so is _maxval = 2 ** width - 1, a number from -1 to -1/2.  Floats have 53 bits, so
    it is -1.0 for widths below -53.  Widths too large for a float (10 ** 400) are left out. *)
From Verif Require Import Py MBitField MProto.

(** what _value can be: an int, or the float _maxval (after set()) *)
Inductive nval := NInt (v : Z) | NMax.
Record nbf := mknbf { n_width : Z; n_value : nval; n_numbering : scheme; n_order : border }.

(** bitfield.py:104-122 __init__ for width < 0: no int below 0 is greater than _maxval, every other is *)
Definition nbf_new (value width numbering order : Z) : res nbf :=
  if value >=? 0 then Err ValueError
  else match scheme_of numbering with
       | None => Err ValueError
       | Some n => match order_of order with None => Err ValueError | Some o => Ok (mknbf width (NInt value) n o) end
       end.
Definition n_with (b : nbf) (v : nval) : nbf := mknbf (n_width b) v (n_numbering b) (n_order b).
(** bitfield.py:144-147 value: int() cuts the fraction off *)
Definition nbf_value (b : nbf) : Z :=
  match n_value b with NInt v => v | NMax => if n_width b <? -53 then -1 else 0 end.
(** bitfield.py:191-211 _rindex: as for other widths *)
Definition n_rindex (b : nbf) (index : Z) : Z := rindex (mkbf (n_width b) 0 0 (n_numbering b) (n_order b)) index.
(** bitfield.py:273-277 _checkIndex; a missing index is a TypeError *)
Definition n_checkIndex (b : nbf) (index : option Z) : res Z :=
  match index with
  | None => Err TypeError
  | Some i => let r := n_rindex b i in if (r <? 0) || (r >=? n_width b) then Err ValueError else Ok i
  end.
(** bitfield.py:343-396 __getitem__ and __setitem__ begin with _checkIndex of the index, or of the start of the range, which
    never succeeds (C168); [Err AssertionError] stands for the rest *)
Definition n_item (b : nbf) (k : key) : res Z :=
  match k with
  | Idx i => do _ <- n_checkIndex b (Some i); Err AssertionError
  | Slice s _ => do _ <- n_checkIndex b s; Err AssertionError
  end.
(** bitfield.py:149-153, 313-320 the setter of value *)
Definition n_set_value (b : nbf) (value : Z) : nbf * res unit :=
  if n_width b <? 0 then (b, Err ValueError) else (b, Err AssertionError).
(** bitfield.py:411-425 set and clear *)
Definition n_all (b : nbf) (index : option Z) (v : nval) : nbf * res unit :=
  match index with
  | Some i => if i =? 0 then (n_with b v, Ok tt) else (b, do _ <- n_checkIndex b (Some i); Err AssertionError)
  | None => (n_with b v, Ok tt)
  end.
Definition n_step (b : nbf) (o : bf_op) : nbf * res unit :=
  match o with
  | OpItem k v => (b, do _ <- n_item b k; Ok tt)
  | OpValue v => n_set_value b v
  | OpSet i => n_all b i NMax
  | OpClear i => n_all b i (NInt 0)
  end.
Definition n_run (b : nbf) (ops : list bf_op) : nbf := fold_left (fun b o => fst (n_step b o)) ops b.
(** bitfield.py:155-177 *)
Definition n_indices (b : nbf) : list Z := map (vindex (mkbf (n_width b) 0 0 (n_numbering b) (n_order b))) (py_range 0 (n_width b)).
Definition n_lsb (b : nbf) : res Z :=
  match n_order b with LSB_LEFT => py_index (n_indices b) 0 | MSB_LEFT => py_index (n_indices b) (-1) end.
Definition n_msb (b : nbf) : res Z :=
  match n_order b with MSB_LEFT => py_index (n_indices b) 0 | LSB_LEFT => py_index (n_indices b) (-1) end.
(** bitfield.py:427-459: every test begins with _checkIndex or _checkRange *)
Definition n_isBit (b : nbf) (i v : Z) : res bool := do _ <- n_checkIndex b (Some i); Err AssertionError.
Definition n_isRange (b : nbf) (s e : option Z) (v : Z) : res bool := do _ <- n_checkIndex b s; Err AssertionError.
(** bitfield.py:398-405: len() wants a number from 0 on, int() and the uses of __index__ an int *)
Definition n_len (b : nbf) : res Z := if n_width b <? 0 then Err ValueError else Ok (n_width b).
Definition n_int (b : nbf) : res Z := match n_value b with NInt v => Ok v | NMax => Err TypeError end.
(** bool(b) goes through __len__ *)
Definition n_bool (b : nbf) : res bool := do n <- n_len b; Ok (truth n).
(** bitfield.py:407-409: bin() of a float is a TypeError; then '{:0>-3}' is no format *)
Definition n_repr (b : nbf) : res str :=
  match n_value b with NMax => Err TypeError | NInt _ => if n_width b <? 0 then Err ValueError else Ok [] end.
