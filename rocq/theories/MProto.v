(** Python's protocols on the bit-addressable classes: what [len], [int],
    [bool], [for], [in], [reversed] and [repr] do with a BitField, a Register, a
    MemoryBank, a memory module and the register file.  The interpreter's side
    (the data model) is modelled here; the methods it calls are those of
    MBitField, MMemory and MRegisters. *)
From Verif Require Import Py MBitField MMemory MRegisters.

(** bitfield.py:398-405 __len__, __int__, __index__ *)
Definition bf_len (b : bf) : Z := bf_width b.
Definition bf_int (b : bf) : Z := bf_value b.
Definition bf_index (b : bf) : Z := bf_value b.
(** bool(x) for a class with __len__ and without __bool__ (BitField, Register,
    MemoryBank, the modules, RegisterGroup, Registers) *)
Definition truth (len : Z) : bool := negb (len =? 0).

(** How a loop ended: normally, with an exception, or not yet (out of fuel). *)
Inductive ending := Finished | Raised (e : exn) | Running.

(** [for x in obj] for a class with __getitem__ and without __iter__ (BitField,
    Register, MemoryModule, ExpansionMemoryModule): the interpreter asks for the
    items 0, 1, 2, ... until IndexError or StopIteration; any other exception
    leaves the loop.  The result lists the items the loop body saw. *)
Fixpoint seq_for {A} (get : Z -> res A) (fuel : nat) (i : Z) : list A * ending :=
  match fuel with
  | O => ([], Running)
  | S f =>
      match get i with
      | Ok x => let '(l, e) := seq_for get f (i + 1) in (x :: l, e)
      | Err IndexError | Err StopIteration => ([], Finished)
      | Err e => ([], Raised e)
      end
  end.
(** list(obj) *)
Definition seq_list {A} (get : Z -> res A) (fuel : nat) : option (res (list A)) :=
  match seq_for get fuel 0 with
  | (l, Finished) => Some (Ok l)
  | (_, Raised e) => Some (Err e)
  | (_, Running) => None
  end.
(** x in obj: the same items, until one is equal *)
Fixpoint seq_in {A} (eq : A -> bool) (get : Z -> res A) (fuel : nat) (i : Z) : option (res bool) :=
  match fuel with
  | O => None
  | S f =>
      match get i with
      | Ok y => if eq y then Some (Ok true) else seq_in eq get f (i + 1)
      | Err IndexError | Err StopIteration => Some (Ok false)
      | Err e => Some (Err e)
      end
  end.
(** list(reversed(obj)) for a class with __len__ and __getitem__: the items
    len-1, ..., 1, 0 *)
Fixpoint seq_reversed {A} (get : Z -> res A) (n : nat) : res (list A) :=
  match n with
  | O => Ok []
  | S m =>
      match get (Z.of_nat m) with
      | Ok x => do l <- seq_reversed get m; Ok (x :: l)
      | Err IndexError | Err StopIteration => Ok []
      | Err e => Err e
      end
  end.

(** bitfield.py:343-364 and registers.py:117-121 called with an int *)
Definition bf_item (b : bf) (i : Z) : res Z := bf_getitem b (Idx i).
Definition reg_item (r : register) (i : Z) : res Z := reg_getitem r (Idx i).
(** memory.py:104-105, 131-132: the reference to a bank is its key *)
Definition module_item (m : mmodule) (i : Z) : res Z := do _ <- dindex (mm_data m) i; Ok i.
(** memory.py:57-58 *)
Definition bank_item (m : bank) (i : Z) : res Z := cell_get m i.
(** registers.py:159-162: the reference to the register *)
Definition group_item (g : group) (i : Z) : res nat := group_getitem g (KI i).

(** x in bank: MemoryBank has __iter__ (itself) and __next__, so membership
    draws Word objects (memory.py:70-74) and compares each with x.  Word defines
    no __eq__: a Word equals only itself, never an int. *)
Inductive operand := OInt (v : Z) | OWord (a : Z).
Definition word_eq (ref : Z) (x : operand) : bool :=
  match x with OInt _ => false | OWord a => a =? ref end.
Fixpoint bank_in (fuel : nat) (m : bank) (x : operand) : bank * option bool :=
  match fuel with
  | O => (m, None)
  | S f =>
      match bank_next m with
      | (m', Ok ref) => if word_eq ref x then (m', Some true) else bank_in f m' x
      | (m', Err _) => (m', Some false)
      end
  end.

(** registers.py:245-249 Registers.__repr__ *)
Fixpoint groups_repr (h : heap) (l : list (Z * nat)) : res str :=
  match l with
  | [] => Ok []
  | (k, g) :: r =>
      do t <- group_repr h g;
      do rest <- groups_repr h r;
      Ok (lit "[" ++ str_of_Z k ++ lit "] " ++ t ++ [10] ++ rest)
  end.
Definition registers_repr (h : heap) (rs : registers) : res str := groups_repr h (rs_registers rs).
