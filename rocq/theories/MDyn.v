(** Model of /repo/h800/bitfield.py and of Word in /repo/h800/word.py for arguments
    of any type.  [MBitField.v] has ints only; here the methods are transcribed again
    over values that carry their type, so that a wrong type shows where Python notices
    it.  [MDynRead.v] has the properties indices, lsb and msb and __repr__.  Left out: a width so far
    below zero that it cannot be converted to a float. *)
From Coq Require Export QArith.
From Verif Require Import Py MBitField.
Open Scope Z_scope.

(** A float: a finite one is a rational number *)
Inductive fl := Fin (q : Q) | Inf (neg : bool) | NaN.
(** A value: an int (a bool is one), a float, or an object of another built-in type
    (None, str, bytes, tuple, list, dict, set), of which only the truth value matters *)
Inductive val := VI (z : Z) | VF (f : fl) | VO (truthy : bool).

Inductive texn := PyExn (e : exn) | OverflowError.
Inductive tres (A : Type) := TOk (a : A) | TErr (e : texn).
Arguments TOk {A} a.
Arguments TErr {A} e.
Definition tbind {A B} (r : tres A) (f : A -> tres B) : tres B :=
  match r with TOk a => f a | TErr e => TErr e end.
Notation "'try' x <- r ; k" := (tbind r (fun x => k))
  (at level 200, x pattern, r at level 100, k at level 200).
Definition lift {A} (r : res A) : tres A :=
  match r with Ok a => TOk a | Err e => TErr (PyExn e) end.

(** Float arithmetic, rounding included, is arbitrary: nothing depends on its results.
    [fa_pow2 x] is 2 ** x. *)
Record farith := mkfa {
  fa_of_int : Z -> fl; fa_add : fl -> fl -> fl; fa_sub : fl -> fl -> fl; fa_pow2 : fl -> fl
}.

(** Python compares an int with a float exactly; comparisons with a NaN are false *)
Definition fcmp (a b : fl) : option comparison :=
  match a, b with
  | NaN, _ | _, NaN => None
  | Fin p, Fin q => Some (Qcompare p q)
  | Inf x, Inf y => Some (match x, y with
                          | true, false => Lt | false, true => Gt | _, _ => Eq end)
  | Inf x, Fin _ => Some (if x then Lt else Gt)
  | Fin _, Inf y => Some (if y then Gt else Lt)
  end.
Definition vcmp (a b : val) : tres (option comparison) :=
  match a, b with
  | VI x, VI y => TOk (Some (x ?= y))
  | VI x, VF g => TOk (fcmp (Fin (inject_Z x)) g)
  | VF f, VI y => TOk (fcmp f (Fin (inject_Z y)))
  | VF f, VF g => TOk (fcmp f g)
  | _, _ => TErr (PyExn TypeError)
  end.
Definition vlt (a b : val) : tres bool :=
  try c <- vcmp a b; TOk (match c with Some Lt => true | _ => false end).
Definition vgt (a b : val) : tres bool :=
  try c <- vcmp a b; TOk (match c with Some Gt => true | _ => false end).
Definition vge (a b : val) : tres bool :=
  try c <- vcmp a b; TOk (match c with Some Gt | Some Eq => true | _ => false end).
(** v == n for an int n; never raises *)
Definition veq (a : val) (n : Z) : bool :=
  match vcmp a (VI n) with TOk (Some Eq) => true | _ => false end.
(** the truth value *)
Definition truth (a : val) : bool :=
  match a with VO t => t | VI z => negb (z =? 0) | VF _ => negb (veq a 0) end.

Definition arith (A : farith) (fi : Z -> Z -> Z) (ff : fl -> fl -> fl) (a b : val) : tres val :=
  match a, b with
  | VI x, VI y => TOk (VI (fi x y))
  | VI x, VF g => TOk (VF (ff (fa_of_int A x) g))
  | VF f, VI y => TOk (VF (ff f (fa_of_int A y)))
  | VF f, VF g => TOk (VF (ff f g))
  | _, _ => TErr (PyExn TypeError)
  end.
Definition vadd (A : farith) : val -> val -> tres val := arith A Z.add (fa_add A).
Definition vsub (A : farith) : val -> val -> tres val := arith A Z.sub (fa_sub A).
(** 2 ** v: a float if v is a float or negative *)
Definition vpow2 (A : farith) (v : val) : tres val :=
  match v with
  | VI z => if z <? 0 then TOk (VF (fa_pow2 A (fa_of_int A z))) else TOk (VI (2 ^ z))
  | VF f => TOk (VF (fa_pow2 A f))
  | VO _ => TErr (PyExn TypeError)
  end.
(** <<, >>, & and | are for ints *)
Definition bitop (op : Z -> Z -> res Z) (a b : val) : tres val :=
  match a, b with
  | VI x, VI y => try z <- lift (op x y); TOk (VI z)
  | _, _ => TErr (PyExn TypeError)
  end.
Definition vshl : val -> val -> tres val := bitop py_shl.
Definition vshr : val -> val -> tres val := bitop py_shr.
Definition vand : val -> val -> tres val := bitop (fun x y => Ok (Z.land x y)).
Definition vor : val -> val -> tres val := bitop (fun x y => Ok (Z.lor x y)).
(** int(v): a float is cut towards zero.  Texts never get here. *)
Definition vint (v : val) : tres Z :=
  match v with
  | VI z => TOk z
  | VF (Fin q) => TOk (Z.quot (Qnum q) (Zpos (Qden q)))
  | VF (Inf _) => TErr OverflowError
  | VF NaN => TErr (PyExn ValueError)
  | VO _ => TErr (PyExn TypeError)
  end.
(** raise ValueError("... %d ..." % v): formatting an infinity fails first *)
Definition raise_d {A} (v : val) : tres A :=
  match v with
  | VF (Inf _) => TErr OverflowError
  | VO _ => TErr (PyExn TypeError)
  | _ => TErr (PyExn ValueError)
  end.
(** max(a, b) and min(a, b): the first unless the second is greater (less) *)
Definition vmax (a b : val) : tres val := try g <- vgt b a; TOk (if g then b else a).
Definition vmin (a b : val) : tres val := try g <- vlt b a; TOk (if g then b else a).

(** bitfield.py:104-122 the attributes.  The numbering and the order are kept as the
    constants they are equal to. *)
Record tf := mktf {
  tf_width : val; tf_maxval : val; tf_value : val; tf_numbering : scheme; tf_order : border
}.
Definition tf_with (b : tf) (v : val) : tf :=
  mktf (tf_width b) (tf_maxval b) v (tf_numbering b) (tf_order b).

(** bitfield.py:117-119, 121-122 the membership tests: `in` compares with == *)
Definition vscheme (v : val) : option scheme :=
  if veq v 0 then Some LSB_0 else if veq v 1 then Some LSB_1
  else if veq v 2 then Some MSB_0 else if veq v 3 then Some MSB_1 else None.
Definition vorder (v : val) : option border :=
  if veq v 0 then Some MSB_LEFT else if veq v 1 then Some LSB_LEFT else None.

(** bitfield.py:104-122 __init__ *)
Definition tf_new (A : farith) (value width numbering order : val) : tres tf :=
  try w <- vgt width (VI 64);
  if w : bool then TErr (PyExn ValueError)
  else
    try p <- vpow2 A width;
    try maxval <- vsub A p (VI 1);
    try g <- vgt value maxval;
    if g : bool then TErr (PyExn ValueError)
    else match vscheme numbering with
         | None => TErr (PyExn ValueError)
         | Some n =>
             match vorder order with
             | None => TErr (PyExn ValueError)
             | Some o => TOk (mktf width maxval value n o)
             end
         end.

(** bitfield.py:191-211 _rindex *)
Definition trindex (A : farith) (b : tf) (i : val) : tres val :=
  match tf_order b, tf_numbering b with
  | MSB_LEFT, LSB_0 | LSB_LEFT, MSB_0 => try x <- vadd A i (VI 1); vsub A (tf_width b) x
  | MSB_LEFT, LSB_1 | LSB_LEFT, MSB_1 => vsub A (tf_width b) i
  | MSB_LEFT, MSB_0 | LSB_LEFT, LSB_0 => TOk i
  | MSB_LEFT, MSB_1 | LSB_LEFT, LSB_1 => vsub A i (VI 1)
  end.
(** bitfield.py:248-257 _shift *)
Definition tshift (A : farith) (b : tf) (i : val) : tres val :=
  match tf_order b with
  | MSB_LEFT => try x <- vsub A (tf_width b) i; vsub A x (VI 1)
  | LSB_LEFT => TOk i
  end.
(** bitfield.py:259-264 _lsbIndex *)
Definition tlsbIndex (b : tf) (s e : val) : tres val :=
  match tf_order b with MSB_LEFT => vmax s e | LSB_LEFT => vmin s e end.
(** bitfield.py:273-277 _checkIndex *)
Definition tcheckIndex (A : farith) (b : tf) (i : val) : tres unit :=
  try r <- trindex A b i;
  try l <- vlt r (VI 0);
  if l : bool then raise_d (tf_width b)
  else try g <- vge r (tf_width b);
       if g : bool then raise_d (tf_width b) else TOk tt.
(** bitfield.py:279-305 _checkRange *)
Definition tcheckRange (A : farith) (b : tf) (s e : val) : tres unit :=
  try _ <- tcheckIndex A b s;
  try _ <- tcheckIndex A b e;
  try bad <- (match tf_order b, tf_numbering b with
              | MSB_LEFT, LSB_0 | MSB_LEFT, LSB_1 => vlt s e
              | MSB_LEFT, _ => vgt s e
              | LSB_LEFT, LSB_0 | LSB_LEFT, LSB_1 => vgt s e
              | LSB_LEFT, _ => vlt s e
              end);
  if bad : bool then TErr (PyExn ValueError) else TOk tt.
(** bitfield.py:307-311 _getRange *)
Definition tgetRange (A : farith) (b : tf) (s e : val) : tres (val * val) :=
  try _ <- tcheckRange A b s e;
  try rs <- trindex A b s;
  try re <- trindex A b e;
  TOk (rs, re).
(** bitfield.py:313-320 _checkValue with the width given *)
Definition tcheckValue (A : farith) (b : tf) (value width : val) : tres unit :=
  try l <- vlt width (VI 0);
  if l : bool then raise_d (tf_width b)
  else
    try g <- vgt width (tf_maxval b);
    if g : bool then raise_d (tf_width b)
    else
      try p <- vpow2 A width;
      try big <- vgt value p;
      if big : bool then raise_d width else TOk tt.
(** rend - rstart + 1 *)
Definition trange_width (A : farith) (rs re : val) : tres val :=
  try d <- vsub A re rs; vadd A d (VI 1).
(** a == b for two numbers *)
Definition vsame (a b : val) : bool :=
  match vcmp a b with TOk (Some Eq) => true | _ => false end.
(** bitfield.py:322-333 _bitmask *)
Definition tbitmask (A : farith) (b : tf) (s e : val) : tres val :=
  try _ <- tcheckRange A b s e;
  try (rs, re) <- tgetRange A b s e;
  try width <- trange_width A rs re;
  try sh <- (if vsame width (tf_width b) then TOk (VI 0) else tshift A b re);
  try p <- vpow2 A width;
  try m <- vsub A p (VI 1);
  vshl m sh.

Inductive tkey := TIdx (i : val) | TSlice (s e : val).

(** bitfield.py:343-364 __getitem__ *)
Definition tf_getitem (A : farith) (b : tf) (k : tkey) : tres val :=
  match k with
  | TSlice s e =>
      try _ <- tcheckRange A b s e;
      try (rs, re) <- tgetRange A b s e;
      try m <- tbitmask A b s e;
      try l <- tlsbIndex b rs re;
      try sh <- tshift A b l;
      try x <- vand (tf_value b) m;
      vshr x sh
  | TIdx i =>
      try _ <- tcheckIndex A b i;
      try r <- trindex A b i;
      try sh <- tshift A b r;
      try x <- vshr (tf_value b) sh;
      vand x (VI 1)
  end.
(** bitfield.py:366-396 __setitem__, the new value *)
Definition tf_setitem_value (A : farith) (b : tf) (k : tkey) (value : val) : tres val :=
  match k with
  | TSlice s e =>
      try _ <- tcheckRange A b s e;
      try (rs, re) <- tgetRange A b s e;
      try width <- trange_width A rs re;
      try _ <- tcheckValue A b value width;
      try m <- tbitmask A b s e;
      try l <- tlsbIndex b rs re;
      try sh <- tshift A b l;
      try rest <- vsub A (tf_maxval b) m;
      try old <- vand (tf_value b) rest;
      try new <- vshl value sh;
      vor old new
  | TIdx i =>
      try _ <- tcheckIndex A b i;
      try _ <- tcheckValue A b value (VI 1);
      try r <- trindex A b i;
      try sh <- tshift A b r;
      try one <- vshl (VI 1) sh;
      if veq value 1
      then try x <- vshl value sh; vor (tf_value b) x
      else try one' <- vshl (VI 1) sh;
           try rest <- vsub A (tf_maxval b) one';
           vand (tf_value b) rest
  end.
Definition assign (b : tf) (r : tres val) : tf * tres unit :=
  match r with TOk v => (tf_with b v, TOk tt) | TErr e => (b, TErr e) end.
Definition tf_setitem (A : farith) (b : tf) (k : tkey) (value : val) : tf * tres unit :=
  assign b (tf_setitem_value A b k value).
(** bitfield.py:144-147 value, and 401-405 __int__ and __index__ as int() calls them *)
Definition tf_get_value (b : tf) : tres Z := vint (tf_value b).
Definition tf_int (b : tf) : tres Z :=
  match tf_value b with VI z => TOk z | _ => TErr (PyExn TypeError) end.
(** bitfield.py:149-153 value setter *)
Definition tf_set_value (A : farith) (b : tf) (value : val) : tf * tres unit :=
  assign b (try _ <- tcheckValue A b value (tf_width b);
            try z <- vint value; TOk (VI z)).
(** bitfield.py:411-417 set and 419-425 clear; no argument is None *)
Definition tf_set (A : farith) (b : tf) (i : val) : tf * tres unit :=
  if truth i
  then match tcheckIndex A b i with
       | TOk _ => tf_setitem A b (TIdx i) (VI 1) | TErr e => (b, TErr e) end
  else (tf_with b (tf_maxval b), TOk tt).
Definition tf_clear (A : farith) (b : tf) (i : val) : tf * tres unit :=
  if truth i
  then match tcheckIndex A b i with
       | TOk _ => tf_setitem A b (TIdx i) (VI 0) | TErr e => (b, TErr e) end
  else (tf_with b (VI 0), TOk tt).
(** bitfield.py:427-438 isBit, isBitSet, isBitClr: the bit is an int, so == with the
    value given never raises *)
Definition tf_isBit (A : farith) (b : tf) (i value : val) : tres bool :=
  try _ <- tcheckIndex A b i;
  try x <- tf_getitem A b (TIdx i);
  TOk (vsame x value).
Definition tf_isBitSet (A : farith) (b : tf) (i : val) : tres bool := tf_isBit A b i (VI 1).
Definition tf_isBitClr (A : farith) (b : tf) (i : val) : tres bool :=
  try x <- tf_isBitSet A b i; TOk (negb x).
(** bitfield.py:440-459 isRange, isRangeSet, isRangeClr; int(bitmask) is bitmask *)
Definition tf_isRange (A : farith) (b : tf) (s e value : val) : tres bool :=
  try _ <- tcheckRange A b s e;
  if negb (veq value 0 || veq value 1) then TErr (PyExn ValueError)
  else
    try sub <- tf_getitem A b (TSlice s e);
    try m <- tbitmask A b s e;
    if veq value 0 then TOk (veq sub 0) else TOk (vsame sub m).
Definition tf_isRangeSet (A : farith) (b : tf) (s e : val) : tres bool := tf_isRange A b s e (VI 1).
Definition tf_isRangeClr (A : farith) (b : tf) (s e : val) : tres bool :=
  try x <- tf_isRangeSet A b s e; TOk (negb x).

(** The calls that change a field *)
Inductive top :=
| TItem (k : tkey) (v : val) | TValue (v : val) | TSet (i : val) | TClear (i : val).
Definition tf_step (A : farith) (b : tf) (o : top) : tf * tres unit :=
  match o with
  | TItem k v => tf_setitem A b k v
  | TValue v => tf_set_value A b v
  | TSet i => tf_set A b i
  | TClear i => tf_clear A b i
  end.
(** A history: the caller catches the exceptions *)
Definition tf_run (A : farith) (b : tf) (ops : list top) : tf :=
  fold_left (fun b o => fst (tf_step A b o)) ops b.

(** word.py:40, 53 the range test *)
Definition tword_check (v : val) : tres unit :=
  try l <- vlt v (VI 0);
  if l : bool then TErr (PyExn ValueError)
  else try g <- vgt v (VI (2 ^ 48 - 1));
       if g : bool then TErr (PyExn ValueError) else TOk tt.
(** word.py:39-45 Word.__init__ *)
Definition tword_new (A : farith) (data : val) : tres tf :=
  try _ <- tword_check data;
  try b <- tf_new A (VI 0) (VI 48) (VI 3) (VI 0);
  match tf_setitem A b (TSlice (VI 1) (VI 48)) data with
  | (b', TOk _) => TOk b'
  | (_, TErr e) => TErr e
  end.
(** word.py:51-55 value setter; the getter is [tf_int] *)
Definition tword_set_value (A : farith) (w : tf) (v : val) : tf * tres unit :=
  match tword_check v with
  | TOk _ => tf_set_value A w v
  | TErr e => (w, TErr e)
  end.
