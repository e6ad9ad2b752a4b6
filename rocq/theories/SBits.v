(** Specification of bit numbering, independent of the implementation.
    The words "LSB 0" etc. are those of bitfield.py lines 95-98:
    LSB_0: bit 0 is the least significant;  LSB_1: bit 1 is the least significant;
    MSB_0: bit 0 is the most significant;   MSB_1: bit 1 is the most significant. *)
From Verif Require Import Py MBitField.

(** Power of two that bit [i] of a [W]-bit field counts for. *)
Definition weight (n : scheme) (W i : Z) : Z :=
  match n with
  | LSB_0 => i
  | LSB_1 => i - 1
  | MSB_0 => (W - 1) - i
  | MSB_1 => (W - 1) - (i - 1)
  end.

(** The indices a [W]-bit field has. *)
Definition valid_index (n : scheme) (W i : Z) : Prop :=
  match n with
  | LSB_0 | MSB_0 => 0 <= i <= W - 1
  | LSB_1 | MSB_1 => 1 <= i <= W
  end.

(** A range is written left to right: on an MSB-left field its first bit is the
    more significant one, on an LSB-left field the less significant one. *)
Definition valid_range (o : border) (n : scheme) (W s e : Z) : Prop :=
  valid_index n W s /\ valid_index n W e /\
  match o with
  | MSB_LEFT => weight n W e <= weight n W s
  | LSB_LEFT => weight n W s <= weight n W e
  end.

(** Weight of the least significant bit of a range, and its number of bits. *)
Definition range_lo (n : scheme) (W s e : Z) : Z := Z.min (weight n W s) (weight n W e).
Definition range_size (n : scheme) (W s e : Z) : Z := Z.abs (weight n W s - weight n W e) + 1.

(** Bit of weight [k] of a number, as 0/1; and the number made of the [n] bits
    of weight [lo], [lo+1], ... *)
Definition bit_at (v k : Z) : Z := (v / 2 ^ k) mod 2.
Definition bits_at (v lo n : Z) : Z := (v / 2 ^ lo) mod 2 ^ n.

(** [v'] is [v] with bit [k] replaced by [x]. *)
Definition bit_replaced (v v' k x : Z) : Prop :=
  bit_at v' k = x /\ forall j, 0 <= j -> j <> k -> bit_at v' j = bit_at v j.

(** [v'] is [v] with the [n] bits from weight [lo] up replaced by the number [x]. *)
Definition bits_replaced (v v' lo n x : Z) : Prop :=
  bits_at v' lo n = x /\
  forall j, 0 <= j -> ~ (lo <= j < lo + n) -> bit_at v' j = bit_at v j.

(** Numbers representable in [n] bits. *)
Definition fits (n v : Z) : Prop := 0 <= v < 2 ^ n.

(** A field object whose attributes are consistent: every successfully
    constructed object is, and stays so (see C01, C17). *)
Definition wf (b : bf) : Prop :=
  0 <= bf_width b <= 64 /\ bf_maxval b = 2 ^ bf_width b - 1.

(** An assigned number fits the place it is assigned to.  Calls on invalid
    indices or ranges are unconstrained: they are rejected. *)
Definition op_fits (b : bf) (o : bf_op) : Prop :=
  match o with
  | OpItem (Idx _) v => v = 0 \/ v = 1
  | OpItem (Slice (Some s) (Some e)) v =>
      valid_range (bf_order b) (bf_numbering b) (bf_width b) s e ->
      fits (range_size (bf_numbering b) (bf_width b) s e) v
  | OpItem (Slice _ _) _ => True
  | OpValue v => fits (bf_width b) v
  | OpSet _ | OpClear _ => True
  end.

(** The array-of-bits view: [a k] is the bit of weight [k], 0 <= k < W. *)
Definition arr := Z -> bool.
(** The number spelled by [n] consecutive bits from weight [lo]. *)
Fixpoint number (a : arr) (lo : Z) (n : nat) : Z :=
  match n with
  | O => 0
  | S n' => (if a lo then 1 else 0) + 2 * number a (lo + 1) n'
  end.
Definition arr_upd (a : arr) (k : Z) (x : bool) : arr :=
  fun j => if j =? k then x else a j.
Definition arr_fill (a : arr) (lo n v : Z) : arr :=
  fun j => if (lo <=? j) && (j <? lo + n) then Z.odd (v / 2 ^ (j - lo)) else a j.

(** A field of [W] bits seen as an array of bits: what each call should do.
    [None] = the call raises. *)
Definition in_dom (n : scheme) (W i : Z) : bool :=
  match n with
  | LSB_0 | MSB_0 => (0 <=? i) && (i <=? W - 1)
  | LSB_1 | MSB_1 => (1 <=? i) && (i <=? W)
  end.
(** MSB-left ranges: both ends are bits of the field, more significant first *)
Definition in_range (n : scheme) (W s e : Z) : bool :=
  in_dom n W s && in_dom n W e && (weight n W e <=? weight n W s).

Inductive call :=
| Write (o : bf_op) | ReadItem (k : key) | ReadValue | ReadBit (i v : Z).

Definition arr_write (n : scheme) (W : Z) (a : arr) (o : bf_op) : option arr :=
  match o with
  | OpItem (Idx i) v =>
      if in_dom n W i then Some (arr_upd a (weight n W i) (v =? 1)) else None
  | OpItem (Slice (Some s) (Some e)) v =>
      if in_range n W s e
      then Some (arr_fill a (weight n W e) (weight n W s - weight n W e + 1) v)
      else None
  | OpItem (Slice _ _) _ => None
  | OpValue v => Some (arr_fill a 0 W v)
  | OpSet None => Some (fun _ => true)
  | OpClear None => Some (fun _ => false)
  | OpSet (Some i) => if in_dom n W i then Some (arr_upd a (weight n W i) true) else None
  | OpClear (Some i) => if in_dom n W i then Some (arr_upd a (weight n W i) false) else None
  end.
Definition arr_call (n : scheme) (W : Z) (a : arr) (c : call) : arr * option Z :=
  match c with
  | Write o => match arr_write n W a o with Some a' => (a', Some 0) | None => (a, None) end
  | ReadItem (Idx i) =>
      (a, if in_dom n W i then Some (if a (weight n W i) then 1 else 0) else None)
  | ReadItem (Slice (Some s) (Some e)) =>
      (a, if in_range n W s e
          then Some (number a (weight n W e) (Z.to_nat (weight n W s - weight n W e + 1)))
          else None)
  | ReadItem (Slice _ _) => (a, None)
  | ReadValue => (a, Some (number a 0 (Z.to_nat W)))
  | ReadBit i v =>
      (a, if in_dom n W i
          then Some (if (if a (weight n W i) then 1 else 0) =? v then 1 else 0) else None)
  end.
Fixpoint arr_trace (n : scheme) (W : Z) (a : arr) (cs : list call) : list (option Z) :=
  match cs with
  | [] => []
  | c :: cs' => let '(a', out) := arr_call n W a c in out :: arr_trace n W a' cs'
  end.

(** The same calls made on the object. *)
Definition obs (r : res Z) : option Z := match r with Ok x => Some x | Err _ => None end.
Definition bf_call (b : bf) (c : call) : bf * option Z :=
  match c with
  | Write o =>
      let '(b', r) := bf_step b o in
      (b', match r with Ok _ => Some 0 | Err _ => None end)
  | ReadItem k => (b, obs (bf_getitem b k))
  | ReadValue => (b, Some (bf_value b))
  | ReadBit i v =>
      (b, match bf_isBit b i v with Ok t => Some (if t then 1 else 0) | Err _ => None end)
  end.
Fixpoint bf_trace (b : bf) (cs : list call) : list (option Z) :=
  match cs with
  | [] => []
  | c :: cs' => let '(b', out) := bf_call b c in out :: bf_trace b' cs'
  end.

(** Assigned numbers fit; set/clear are not given the index 0 (see C12). *)
Definition call_ok (b : bf) (c : call) : Prop :=
  match c with
  | Write (OpSet (Some i)) | Write (OpClear (Some i)) => i <> 0
  | Write o => op_fits b o
  | _ => True
  end.

(** The number a list of characters '0'..'9' spells in a base. *)
Definition spelled (base : Z) (s : str) : Z :=
  fold_left (fun acc c => acc * base + (c - 48)) s 0.

(** The layout tables of bitfield.py:14-81: the labels from left to right of a
    field of [W] bits ... *)
Definition upto (W first : Z) : list Z := map (fun k => first + Z.of_nat k) (seq 0 (Z.to_nat W)).
Definition layout (o : border) (n : scheme) (W : Z) : list Z :=
  match o, n with
  | MSB_LEFT, LSB_0 => rev (upto W 0)     (* N-1 ... 1 0 *)
  | MSB_LEFT, LSB_1 => rev (upto W 1)     (* N ... 2 1 *)
  | MSB_LEFT, MSB_0 => upto W 0           (* 0 1 ... N-1 *)
  | MSB_LEFT, MSB_1 => upto W 1           (* 1 2 ... N *)
  | LSB_LEFT, LSB_0 => upto W 0
  | LSB_LEFT, LSB_1 => upto W 1
  | LSB_LEFT, MSB_0 => rev (upto W 0)
  | LSB_LEFT, MSB_1 => rev (upto W 1)
  end.
(** ... and the significance of the bit at position [p] from the left. *)
Definition pos_weight (o : border) (W p : Z) : Z :=
  match o with MSB_LEFT => W - 1 - p | LSB_LEFT => p end.

(** the bits of a range, by weight *)
Definition in_bits (b : bf) (s e k : Z) : Prop :=
  range_lo (bf_numbering b) (bf_width b) s e <= k <
  range_lo (bf_numbering b) (bf_width b) s e + range_size (bf_numbering b) (bf_width b) s e.
