(** The rest of /repo/h800/bitfield.py for fields of any type: indices, lsb, msb, len, bool and
    repr, on top of [MDyn.v].  Left out: repr of a field whose width is a float, which shows the
    text of that float. *)
From Verif Require Import Py MBitField MDyn.
Open Scope Z_scope.

(** bitfield.py:226-246 _vindex of a field of w bits *)
Definition tvindex (b : tf) (w i : Z) : Z :=
  match tf_order b, tf_numbering b with
  | MSB_LEFT, LSB_0 | LSB_LEFT, MSB_0 => w - (i + 1)
  | MSB_LEFT, LSB_1 | LSB_LEFT, MSB_1 => w - i
  | MSB_LEFT, MSB_0 | LSB_LEFT, LSB_0 => i
  | MSB_LEFT, MSB_1 | LSB_LEFT, LSB_1 => i + 1
  end.
(** bitfield.py:155-161 indices: range() takes ints only *)
Definition tf_indices (b : tf) : tres (list Z) :=
  match tf_width b with
  | VI w => TOk (map (tvindex b w) (py_range 0 w))
  | _ => TErr (PyExn TypeError)
  end.
(** bitfield.py:163-169 lsb and 171-177 msb *)
Definition tf_lsb (b : tf) : tres Z :=
  try l <- tf_indices b;
  lift (match tf_order b with LSB_LEFT => py_index l 0 | MSB_LEFT => py_index l (-1) end).
Definition tf_msb (b : tf) : tres Z :=
  try l <- tf_indices b;
  lift (match tf_order b with MSB_LEFT => py_index l 0 | LSB_LEFT => py_index l (-1) end).
(** bitfield.py:398-399 __len__ as len() calls it: the result must be an int, and not negative *)
Definition tf_len (b : tf) : tres Z :=
  match tf_width b with
  | VI w => if w <? 0 then TErr (PyExn ValueError) else TOk w
  | _ => TErr (PyExn TypeError)
  end.
(** bool(): the class has __len__ and no __bool__ *)
Definition tf_bool (b : tf) : tres bool := try n <- tf_len b; TOk (negb (n =? 0)).
(** bitfield.py:407-409 __repr__ of a field of w bits: bin() takes ints only *)
Definition tf_repr (b : tf) (w : Z) : tres str :=
  match tf_value b with
  | VI z => if w <? 0 then TErr (PyExn ValueError)
            else TOk (pad_left 48 w (py_slice (py_bin z) (Some 2) None))
  | _ => TErr (PyExn TypeError)
  end.
