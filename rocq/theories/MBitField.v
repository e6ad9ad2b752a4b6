(** Model of /repo/h800/bitfield.py (class BitField).
    Ints are unbounded [Z]; [Z.land]/[Z.lor]/[Z.shiftl]/[Z.shiftr] agree with
    Python's operators, negative operands included.  Only int arguments are
    modelled (no floats, bools are ints).  An index key is [Idx i], a slice key
    [Slice s e] where a missing bound is [None]; the slice step, which the code
    ignores, is left out. *)
From Verif Require Import Py.

(** bitfield.py:95-98, numbering schemes *)
Inductive scheme := LSB_0 | LSB_1 | MSB_0 | MSB_1.
(** bitfield.py:101-102, orders.  MSB_LEFT = LSB_RIGHT = 0, LSB_LEFT = MSB_RIGHT = 1 *)
Inductive border := MSB_LEFT | LSB_LEFT.

(** bitfield.py:117-119, numbering membership test *)
Definition scheme_of (n : Z) : option scheme :=
  if n =? 0 then Some LSB_0 else if n =? 1 then Some LSB_1
  else if n =? 2 then Some MSB_0 else if n =? 3 then Some MSB_1 else None.
(** bitfield.py:121-122, order membership test *)
Definition order_of (n : Z) : option border :=
  if n =? 0 then Some MSB_LEFT else if n =? 1 then Some LSB_LEFT else None.
(** bitfield.py:95-102, the int constants the properties return *)
Definition scheme_num (s : scheme) : Z :=
  match s with LSB_0 => 0 | LSB_1 => 1 | MSB_0 => 2 | MSB_1 => 3 end.
Definition order_num (o : border) : Z :=
  match o with MSB_LEFT => 0 | LSB_LEFT => 1 end.

(** bitfield.py:104-122, the instance attributes *)
Record bf := mkbf {
  bf_width : Z; bf_maxval : Z; bf_value : Z; bf_numbering : scheme; bf_order : border
}.

(** bitfield.py:104-122 __init__.  For width < 0 Python's maxval is a float in
    [-1, -1/2]; 2^width - 1 = -1 here gives the same comparison with an int.
    The theorems assume width >= 0. *)
Definition bf_new (value width numbering order : Z) : res bf :=
  if width >? 64 then Err ValueError
  else
    let maxval := 2 ^ width - 1 in
    if value >? maxval then Err ValueError
    else match scheme_of numbering with
         | None => Err ValueError
         | Some n =>
             match order_of order with
             | None => Err ValueError
             | Some o => Ok (mkbf width maxval value n o)
             end
         end.

Definition with_value (b : bf) (v : Z) : bf :=
  mkbf (bf_width b) (bf_maxval b) v (bf_numbering b) (bf_order b).

(** bitfield.py:191-211 _rindex (width argument never passed) *)
Definition rindex (b : bf) (index : Z) : Z :=
  let width := bf_width b in
  match bf_order b with
  | MSB_LEFT =>
      match bf_numbering b with
      | LSB_0 => width - (index + 1)
      | LSB_1 => width - index
      | MSB_0 => index
      | MSB_1 => index - 1
      end
  | LSB_LEFT =>
      match bf_numbering b with
      | LSB_0 => index
      | LSB_1 => index - 1
      | MSB_0 => width - (index + 1)
      | MSB_1 => width - index
      end
  end.

(** bitfield.py:226-246 _vindex *)
Definition vindex (b : bf) (index : Z) : Z :=
  let width := bf_width b in
  match bf_order b with
  | MSB_LEFT =>
      match bf_numbering b with
      | LSB_0 => width - (index + 1)
      | LSB_1 => width - index
      | MSB_0 => index
      | MSB_1 => index + 1
      end
  | LSB_LEFT =>
      match bf_numbering b with
      | LSB_0 => index
      | LSB_1 => index + 1
      | MSB_0 => width - (index + 1)
      | MSB_1 => width - index
      end
  end.

(** bitfield.py:155-161 indices *)
Definition bf_indices (b : bf) : list Z :=
  map (vindex b) (py_range 0 (bf_width b)).

(** bitfield.py:163-169 lsb; an empty list raises IndexError *)
Definition bf_lsb (b : bf) : res Z :=
  match bf_order b with
  | LSB_LEFT => py_index (bf_indices b) 0
  | MSB_LEFT => py_index (bf_indices b) (-1)
  end.
(** bitfield.py:171-177 msb *)
Definition bf_msb (b : bf) : res Z :=
  match bf_order b with
  | MSB_LEFT => py_index (bf_indices b) 0
  | LSB_LEFT => py_index (bf_indices b) (-1)
  end.

(** bitfield.py:248-257 _shift *)
Definition shift (b : bf) (index : Z) : Z :=
  match bf_order b with
  | MSB_LEFT => bf_width b - index - 1
  | LSB_LEFT => index
  end.

(** bitfield.py:259-264 _lsbIndex *)
Definition lsbIndex (b : bf) (s e : Z) : Z :=
  match bf_order b with MSB_LEFT => Z.max s e | LSB_LEFT => Z.min s e end.

(** bitfield.py:273-277 _checkIndex; None + 1 or None < 0 is a TypeError *)
Definition checkIndex (b : bf) (index : option Z) : res Z :=
  match index with
  | None => Err TypeError
  | Some i =>
      let r := rindex b i in
      if (r <? 0) || (r >=? bf_width b) then Err ValueError else Ok i
  end.

(** bitfield.py:279-305 _checkRange; returns the two (now known) ints *)
Definition checkRange (b : bf) (s e : option Z) : res (Z * Z) :=
  do s' <- checkIndex b s;
  do e' <- checkIndex b e;
  match bf_order b, bf_numbering b with
  | MSB_LEFT, LSB_0 | MSB_LEFT, LSB_1 =>
      if s' <? e' then Err ValueError else Ok (s', e')
  | MSB_LEFT, _ =>
      if s' >? e' then Err ValueError else Ok (s', e')
  | LSB_LEFT, LSB_0 | LSB_LEFT, LSB_1 =>
      if s' >? e' then Err ValueError else Ok (s', e')
  | LSB_LEFT, _ =>
      if s' <? e' then Err ValueError else Ok (s', e')
  end.

(** bitfield.py:307-311 _getRange *)
Definition getRange (b : bf) (s e : option Z) : res (Z * Z) :=
  do (s', e') <- checkRange b s e;
  Ok (rindex b s', rindex b e').

(** bitfield.py:313-320 _checkValue with an explicit width *)
Definition checkValue (b : bf) (value width : Z) : res unit :=
  if (width <? 0) || (width >? bf_maxval b) then Err ValueError
  else if value >? 2 ^ width then Err ValueError
  else Ok tt.

(** bitfield.py:322-333 _bitmask.  2 ** negative would be a float and the shift
    a TypeError; unreachable, since the range check gives rend >= rstart. *)
Definition bitmask (b : bf) (s e : option Z) : res Z :=
  do (rstart, rend) <- getRange b s e;
  let width := rend - rstart + 1 in
  let sh := if width =? bf_width b then 0 else shift b rend in
  if width <? 0 then Err TypeError else py_shl (2 ^ width - 1) sh.

Inductive key := Idx (i : Z) | Slice (s e : option Z).

(** bitfield.py:343-364 __getitem__ *)
Definition bf_getitem (b : bf) (k : key) : res Z :=
  match k with
  | Slice s e =>
      do (rstart, rend) <- getRange b s e;
      do m <- bitmask b s e;
      let sh := shift b (lsbIndex b rstart rend) in
      py_shr (Z.land (bf_value b) m) sh
  | Idx i =>
      do _ <- checkIndex b (Some i);
      let sh := shift b (rindex b i) in
      do x <- py_shr (bf_value b) sh;
      Ok (Z.land x 1)
  end.

(** bitfield.py:366-396 __setitem__, the new value *)
Definition bf_setitem_value (b : bf) (k : key) (value : Z) : res Z :=
  match k with
  | Slice s e =>
      do (rstart, rend) <- getRange b s e;
      let width := rend - rstart + 1 in
      do _ <- checkValue b value width;
      do m <- bitmask b s e;
      let sh := shift b (lsbIndex b rstart rend) in
      do x <- py_shl value sh;
      Ok (Z.lor (Z.land (bf_value b) (bf_maxval b - m)) x)
  | Idx i =>
      do _ <- checkIndex b (Some i);
      do _ <- checkValue b value 1;
      let sh := shift b (rindex b i) in
      do one <- py_shl 1 sh;
      if value =? 1 then do x <- py_shl value sh; Ok (Z.lor (bf_value b) x)
      else Ok (Z.land (bf_value b) (bf_maxval b - one))
  end.

(** bitfield.py:366-396 __setitem__ *)
Definition bf_setitem (b : bf) (k : key) (value : Z) : bf * res unit :=
  match bf_setitem_value b k value with
  | Ok v => (with_value b v, Ok tt)
  | Err e => (b, Err e)
  end.

(** bitfield.py:149-153 value setter *)
Definition bf_set_value (b : bf) (value : Z) : bf * res unit :=
  match checkValue b value (bf_width b) with
  | Ok _ => (with_value b value, Ok tt)
  | Err e => (b, Err e)
  end.

(** bitfield.py:411-417 set; `if index:` is false for None and for 0 *)
Definition bf_set (b : bf) (index : option Z) : bf * res unit :=
  match index with
  | Some i =>
      if i =? 0 then (with_value b (bf_maxval b), Ok tt)
      else match checkIndex b (Some i) with
           | Ok _ => bf_setitem b (Idx i) 1
           | Err e => (b, Err e)
           end
  | None => (with_value b (bf_maxval b), Ok tt)
  end.

(** bitfield.py:419-425 clear *)
Definition bf_clear (b : bf) (index : option Z) : bf * res unit :=
  match index with
  | Some i =>
      if i =? 0 then (with_value b 0, Ok tt)
      else match checkIndex b (Some i) with
           | Ok _ => bf_setitem b (Idx i) 0
           | Err e => (b, Err e)
           end
  | None => (with_value b 0, Ok tt)
  end.

(** bitfield.py:427-430 isBit *)
Definition bf_isBit (b : bf) (i v : Z) : res bool :=
  do _ <- checkIndex b (Some i);
  do x <- bf_getitem b (Idx i);
  Ok (x =? v).
(** bitfield.py:432-434 isBitSet *)
Definition bf_isBitSet (b : bf) (i : Z) : res bool := bf_isBit b i 1.
(** bitfield.py:436-438 isBitClr *)
Definition bf_isBitClr (b : bf) (i : Z) : res bool :=
  do x <- bf_isBitSet b i; Ok (negb x).

(** bitfield.py:440-451 isRange *)
Definition bf_isRange (b : bf) (s e : option Z) (v : Z) : res bool :=
  do _ <- checkRange b s e;
  if negb ((v =? 0) || (v =? 1)) then Err ValueError
  else
    do sub <- bf_getitem b (Slice s e);
    do m <- bitmask b s e;
    if v =? 0 then Ok (sub =? 0) else Ok (sub =? m).
(** bitfield.py:453-455 isRangeSet *)
Definition bf_isRangeSet (b : bf) (s e : option Z) : res bool := bf_isRange b s e 1.
(** bitfield.py:457-459 isRangeClr *)
Definition bf_isRangeClr (b : bf) (s e : option Z) : res bool :=
  do x <- bf_isRangeSet b s e; Ok (negb x).

(** bitfield.py:407-409 __repr__: '{:0>W}'.format(bin(value)[2:]) *)
Definition bf_repr (b : bf) : str :=
  pad_left 48 (bf_width b) (py_slice (py_bin (bf_value b)) (Some 2) None).

(** Mutating calls of a history; [OpValue v] is b.value = v. *)
Inductive bf_op :=
| OpItem (k : key) (v : Z) | OpValue (v : Z)
| OpSet (i : option Z) | OpClear (i : option Z).
Definition bf_step (b : bf) (o : bf_op) : bf * res unit :=
  match o with
  | OpItem k v => bf_setitem b k v
  | OpValue v => bf_set_value b v
  | OpSet i => bf_set b i
  | OpClear i => bf_clear b i
  end.
(** A history: failing calls are caught by the caller and the object lives on. *)
Definition bf_run (b : bf) (ops : list bf_op) : bf :=
  fold_left (fun b o => fst (bf_step b o)) ops b.
