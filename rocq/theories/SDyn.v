(** What calls with arguments of any type should do, in terms of calls with ints. *)
From Verif Require Import Py MBitField MDyn.
Open Scope Z_scope.

(** A field that holds an int, an int key, a missing bound and a call with ints, seen as
    a field, key, argument and call of any type; None is a false object *)
Definition of_bf (b : bf) : tf :=
  mktf (VI (bf_width b)) (VI (bf_maxval b)) (VI (bf_value b)) (bf_numbering b) (bf_order b).
Definition of_opt (o : option Z) : val := match o with Some z => VI z | None => VO false end.
Definition of_key (k : key) : tkey :=
  match k with Idx i => TIdx (VI i) | Slice s e => TSlice (of_opt s) (of_opt e) end.
Definition of_op (o : bf_op) : top :=
  match o with
  | OpItem k v => TItem (of_key k) (VI v)
  | OpValue v => TValue (VI v)
  | OpSet i => TSet (of_opt i)
  | OpClear i => TClear (of_opt i)
  end.
Definition of_res {A B} (f : A -> B) (r : res A) : tres B :=
  match r with Ok a => TOk (f a) | Err e => TErr (PyExn e) end.
Definition of_out (p : bf * res unit) : tf * tres unit :=
  (of_bf (fst p), of_res (fun x => x) (snd p)).

Definition is_int (v : val) : bool := match v with VI _ => true | _ => false end.
Definition int_key (k : tkey) : bool :=
  match k with TIdx i => is_int i | TSlice s e => is_int s && is_int e end.

(** f > n for a float f and an int n *)
Definition above (f : fl) (n : Z) : bool :=
  match f with Fin q => negb (Qle_bool q (inject_Z n)) | Inf neg => negb neg | NaN => false end.
(** f = n *)
Definition equals (f : fl) (n : Z) : bool :=
  match f with Fin q => Qeq_bool q (inject_Z n) | _ => false end.
(** f is q or less, f is more than q *)
Definition at_most (f : fl) (q : Q) : Prop :=
  match f with Fin p => (p <= q)%Q | Inf neg => neg = true | NaN => False end.
Definition exceeds (f : fl) (q : Q) : Prop :=
  match f with Fin p => (q < p)%Q | Inf neg => neg = false | NaN => False end.
(** f < g *)
Definition less (f g : fl) : Prop := exists q, at_most f q /\ exceeds g q.
(** the number that an int or a float is *)
Definition number (v : val) (f : fl) : Prop :=
  match v with VI z => f = Fin (inject_Z z) | VF g => f = g | VO _ => False end.
(** the whole part of q *)
Definition whole (q : Q) (z : Z) : Prop :=
  (0 <= q -> inject_Z z <= q /\ q < inject_Z (z + 1))%Q /\
  (q <= 0 -> q <= inject_Z z /\ inject_Z (z - 1) < q)%Q.
(** a false argument: 0, 0.0, None, an empty text, ... *)
Definition falsy (v : val) : bool :=
  match v with VI z => z =? 0 | VF f => equals f 0 | VO t => negb t end.

(** Which call with ints a call on a field of W bits amounts to; None if it is refused *)
Inductive amounts (W : Z) : top -> option bf_op -> Prop :=
| A_int o : amounts W (of_op o) (Some o)
| A_bit_cleared i f : above f 2 = false -> equals f 1 = false ->
    amounts W (TItem (TIdx (VI i)) (VF f)) (Some (OpItem (Idx i) 0))
| A_bit_refused i f : above f 2 = true \/ equals f 1 = true ->
    amounts W (TItem (TIdx (VI i)) (VF f)) None
| A_bit_object i t : amounts W (TItem (TIdx (VI i)) (VO t)) None
| A_slice_value s e v : is_int v = false -> amounts W (TItem (TSlice s e) v) None
| A_key k v : int_key k = false -> amounts W (TItem k v) None
| A_whole q z : whole q z -> above (Fin q) (2 ^ W) = false ->
    amounts W (TValue (VF (Fin q))) (Some (OpValue z))
| A_large q : above (Fin q) (2 ^ W) = true -> amounts W (TValue (VF (Fin q))) None
| A_infinite neg : amounts W (TValue (VF (Inf neg))) None
| A_nan : amounts W (TValue (VF NaN)) None
| A_value_object t : amounts W (TValue (VO t)) None
| A_set_all v : falsy v = true -> amounts W (TSet v) (Some (OpSet None))
| A_set_refused v : is_int v = false -> falsy v = false -> amounts W (TSet v) None
| A_clear_all v : falsy v = true -> amounts W (TClear v) (Some (OpClear None))
| A_clear_refused v : is_int v = false -> falsy v = false -> amounts W (TClear v) None.

(** a history of calls and the calls with ints it amounts to *)
Inductive amounts_all (W : Z) : list top -> list bf_op -> Prop :=
| AA_nil : amounts_all W [] []
| AA_call o o' os os' : amounts W o (Some o') -> amounts_all W os os' -> amounts_all W (o :: os) (o' :: os')
| AA_refused o os os' : amounts W o None -> amounts_all W os os' -> amounts_all W (o :: os) os'.

(** the exceptions for an argument of the wrong type or out of range *)
Definition wrong (e : texn) : Prop := e = PyExn TypeError \/ e = PyExn ValueError.
Definition fails {A} (r : tres A) : Prop := exists e, r = TErr e /\ wrong e.
(** or an infinity cannot be converted *)
Definition refuses {A} (r : tres A) : Prop :=
  exists e, r = TErr e /\ (wrong e \/ e = OverflowError).

(** a call all of whose arguments are ints *)
Definition int_call (o : top) : bool :=
  match o with
  | TItem k v => int_key k && is_int v
  | TValue v | TSet v | TClear v => is_int v
  end.
(** the field of a word: 48 bits, bit 1 to the left *)
Definition a_word (b : bf) : Prop :=
  bf_width b = 48 /\ bf_maxval b = 2 ^ 48 - 1 /\ bf_numbering b = MSB_1 /\ bf_order b = MSB_LEFT.
