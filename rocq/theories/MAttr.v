(** The attributes of the ARGUS card class, arguscard.py:52-117, and the subscripts of fields, registers and memory as
    Python passes them, with a step. *)
From Verif Require Import Py MBitField MWord MMemory MRegisters MCards.

(** arguscard.py:52-110: the properties and the entries of the record they return *)
Definition CARD_ATTRIBUTES : dict str str :=
  [(lit "column1", lit "column1"); (lit "lognum", lit "lognum"); (lit "column8", lit "column8");
   (lit "label", lit "label"); (lit "location", lit "label"); (lit "operation", lit "operation");
   (lit "operand1", lit "operand1"); (lit "addressa", lit "operand1");
   (lit "operand2", lit "operand2"); (lit "addressb", lit "operand2");
   (lit "operand3", lit "operand3"); (lit "addressc", lit "operand3");
   (lit "sequence", lit "misc"); (lit "remarks", lit "remarks"); (lit "instruction", lit "instruction")].
(** arguscard.py:52-110 the value of a property; other attributes than those of the base class do not exist *)
Definition card_attr (c : card) (name : str) : res rval :=
  match dget CARD_ATTRIBUTES name with
  | Some k => do r <- card_record c; dindex r k
  | None => Err AttributeError
  end.
(** arguscard.py:112-117 parse does nothing *)
Definition card_parse (c : card) : card * res unit := (c, Ok tt).

(** A subscript: an index or slice(start, stop, step) *)
Inductive subscript := At (i : Z) | Range (start stop step : option Z).
(** What the classes look at: key.start and key.stop, never key.step.
    bitfield.py:343-396, registers.py:117-127, memory.py:47-61, 98-105, 125-132 *)
Definition looked_at (s : subscript) : key :=
  match s with At i => Idx i | Range a b _ => Slice a b end.
(** bitfield.py:343-364 and 366-396 *)
Definition field_sub (b : bf) (s : subscript) : res Z := bf_getitem b (looked_at s).
Definition field_sub_set (b : bf) (s : subscript) (x : Z) : bf * res unit := bf_setitem b (looked_at s) x.
(** registers.py:117-121 and 123-127 *)
Definition reg_sub (r : register) (s : subscript) : res Z := reg_getitem r (looked_at s).
Definition reg_sub_set (r : register) (s : subscript) (x : Z) : register * res unit := reg_setitem r (looked_at s) x.
(** memory.py:47-54 and 56-61 *)
Definition bank_sub (m : bank) (s : subscript) : res (list Z) := bank_getitem m (looked_at s).
Definition bank_sub_set (m : bank) (s : subscript) (x : Z) : bank * res unit := bank_setitem m (looked_at s) x.
(** memory.py:98-105 and 125-132, as bank numbers *)
Definition module_sub (m : mmodule) (s : subscript) : res (list Z) := module_getitem m (looked_at s).
(** registers.py:154-172 and 214-230: the keys of register groups and of the register file; every slice is refused *)
Definition group_key (s : subscript) : gkey := match s with At i => KI i | Range _ _ _ => KSlice end.
