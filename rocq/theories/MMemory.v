(** Model of /repo/h800/memory.py.
    A Word object lives in exactly one cell of one bank and is never replaced,
    so a reference to it (what __next__ returns) is modelled by the address of
    its cell, and a write through the reference by [bank_ref_write].  Likewise
    a reference to a bank of a module is its bank number.  Keys are ints. *)
From Verif Require Import Py MBitField MWord.

(** memory.py:10-11 *)
Definition MEMORY_WIDTH : Z := 48.
Definition BANK_SIZE : Z := 2048.

Record bank := mkbank { mb_data : dict Z word; mb_width : Z; mb_current : Z }.

(** memory.py:13-18 MemoryBank.__init__ *)
Definition bank_new : res bank :=
  do w <- word_new 0;
  Ok (mkbank (fold_left (fun d addr => dset d addr w) (py_range 0 BANK_SIZE) [])
             MEMORY_WIDTH 0).

(** memory.py:43-45 *)
Definition bank_width (m : bank) : Z := mb_width m.

(** memory.py:54 self._data[key].value *)
Definition cell_get (m : bank) (key : Z) : res Z :=
  do w <- dindex (mb_data m) key; Ok (word_value w).

(** memory.py:61 self._data[key].value = value *)
Definition cell_set (m : bank) (key value : Z) : bank * res unit :=
  match dindex (mb_data m) key with
  | Err e => (m, Err e)
  | Ok w =>
      let '(w', r) := word_set_value w value in
      (mkbank (dset (mb_data m) key w') (mb_width m) (mb_current m), r)
  end.

(** A loop over addresses that stops at the first exception *)
Fixpoint cells_get (m : bank) (addrs : list Z) : res (list Z) :=
  match addrs with
  | [] => Ok []
  | a :: r => do x <- cell_get m a; do xs <- cells_get m r; Ok (x :: xs)
  end.
Fixpoint cells_set (m : bank) (addrs : list Z) (value : Z) : bank * res unit :=
  match addrs with
  | [] => (m, Ok tt)
  | a :: r =>
      match cell_set m a value with
      | (m', Ok _) => cells_set m' r value
      | (m', Err e) => (m', Err e)
      end
  end.

(** memory.py:47-54 __getitem__; range(None, ...) is a TypeError.  The
    single-int result is a one-element list here. *)
Definition bank_getitem (m : bank) (k : key) : res (list Z) :=
  match k with
  | Slice (Some s) (Some e) => cells_get m (py_range s e)
  | Slice _ _ => Err TypeError
  | Idx i => do x <- cell_get m i; Ok [x]
  end.

(** memory.py:56-61 __setitem__ *)
Definition bank_setitem (m : bank) (k : key) (value : Z) : bank * res unit :=
  match k with
  | Slice (Some s) (Some e) => cells_set m (py_range s e) value
  | Slice _ _ => (m, Err TypeError)
  | Idx i => cell_set m i value
  end.

(** memory.py:63-64 __len__ *)
Definition bank_len (m : bank) : Z := zlen (mb_data m).

(** memory.py:66-74 __iter__ (returns self) and __next__; the result is the
    reference to the Word in that cell.  A missing key would be a KeyError. *)
Definition bank_next (m : bank) : bank * res Z :=
  if mb_current m >=? zlen (mb_data m) then (m, Err StopIteration)
  else
    let m' := mkbank (mb_data m) (mb_width m) (mb_current m + 1) in
    (m', do _ <- dindex (mb_data m) (mb_current m); Ok (mb_current m)).

(** `for w in bank:` run to the end without touching the bank: the references
    visited.  [fuel] bounds the number of rounds. *)
Fixpoint bank_loop (fuel : nat) (m : bank) : bank * res (list Z) :=
  match fuel with
  | O => (m, Err RecursionError)
  | S f =>
      match bank_next m with
      | (m', Ok a) =>
          let '(m2, r) := bank_loop f m' in (m2, do l <- r; Ok (a :: l))
      | (m', Err StopIteration) => (m', Ok [])
      | (m', Err e) => (m', Err e)
      end
  end.

(** word.py:51-55 through a reference obtained by iteration *)
Definition bank_ref_write (m : bank) (ref value : Z) : bank * res unit :=
  cell_set m ref value.

(** memory.py:76-80 __repr__ *)
Definition bank_repr (m : bank) : str :=
  fold_left (fun text kv => text ++ lit "0o" ++ pad_left 48 16 (numeral 8 (word_value (snd kv))) ++ lit " ")
            (mb_data m) [].

(** memory.py:82-84 clear *)
Definition bank_clear (m : bank) : bank * res unit := cells_set m (dkeys (mb_data m)) 0.

(** memory.py:20-26 *)
Definition bank_checkValue (m : bank) (value : Z) : res unit :=
  if (value <? 0) || (value >? 2 ^ mb_width m - 1) then Err ValueError else Ok tt.
Definition bank_checkAddress (address : Z) : res unit :=
  if (address <? 0) || (address >? 2047) then Err ValueError else Ok tt.
(** memory.py:28-41 the functions value(self, address, parity=False) and
    value(self, address, value, parity=False) behind the property, with the
    positional arguments after self.  A Word has neither __int__ nor __setitem__
    (word.py:37-60), so the last step is a TypeError. *)
Definition value_fget (m : bank) (args : list Z) : res Z :=
  match args with
  | [a] | [a; _] => do _ <- bank_checkAddress a; do _ <- dindex (mb_data m) a; Err TypeError
  | _ => Err TypeError
  end.
Definition value_fset (m : bank) (args : list Z) : res unit :=
  match args with
  | [a; v] | [a; v; _] => do _ <- bank_checkAddress a; do _ <- bank_checkValue m v; do _ <- dindex (mb_data m) a; Err TypeError
  | _ => Err TypeError
  end.
(** reading bank.value calls the getter with self alone; bank.value = x calls the
    setter with self and x *)
Definition bank_value_get (m : bank) : res Z := value_fget m [].
Definition bank_value_set (m : bank) (x : Z) : bank * res unit := (m, value_fset m [x]).

(** Calls on a bank *)
Inductive mcall :=
| MGet (k : key) | MSet (k : key) (v : Z) | MClear | MLen | MNext
| MRef (ref v : Z).
Definition unit_out (p : bank * res unit) : bank * res (list Z) :=
  let '(m, r) := p in (m, do _ <- r; Ok []).
Definition bank_call (m : bank) (c : mcall) : bank * res (list Z) :=
  match c with
  | MGet k => (m, bank_getitem m k)
  | MSet k v => unit_out (bank_setitem m k v)
  | MClear => unit_out (bank_clear m)
  | MLen => (m, Ok [bank_len m])
  | MNext => let '(m', r) := bank_next m in (m', do a <- r; Ok [a])
  | MRef a v => unit_out (bank_ref_write m a v)
  end.
Fixpoint bank_trace (m : bank) (cs : list mcall) : list (res (list Z)) :=
  match cs with
  | [] => []
  | c :: cs' => let '(m', o) := bank_call m c in o :: bank_trace m' cs'
  end.
Definition bank_run (m : bank) (cs : list mcall) : bank :=
  fold_left (fun m c => fst (bank_call m c)) cs m.

(** memory.py:87-96, 114-123 MemoryModule (NUM_BANKS = 4) and
    ExpansionMemoryModule (NUM_BANKS = 8): [mm_banks] is the class constant. *)
Record mmodule := mkmmodule { mm_banks : Z; mm_data : dict Z bank }.
Definition module_new (num_banks : Z) : res mmodule :=
  do b <- bank_new;
  Ok (mkmmodule num_banks (fold_left (fun d i => dset d i b) (py_range 0 num_banks) [])).
Definition memory_module : res mmodule := module_new 4.
Definition expansion_module : res mmodule := module_new 8.

(** memory.py:98-105, 125-132 __getitem__: the reference to a bank is its key *)
Fixpoint module_refs (d : dict Z bank) (keys : list Z) : res (list Z) :=
  match keys with
  | [] => Ok []
  | i :: r => do _ <- dindex d i; do l <- module_refs d r; Ok (i :: l)
  end.
Definition module_getitem (m : mmodule) (k : key) : res (list Z) :=
  match k with
  | Slice (Some s) (Some e) => module_refs (mm_data m) (py_range s e)
  | Slice _ _ => Err TypeError
  | Idx i => do _ <- dindex (mm_data m) i; Ok [i]
  end.
(** memory.py:107-108, 134-135 *)
Definition module_len (m : mmodule) : Z := zlen (mm_data m).
(** memory.py:110-111, 137-138 size *)
Definition module_size (m : mmodule) : res Z :=
  do b <- dindex (mm_data m) 0; Ok (mm_banks m * bank_len b).

(** m[i] followed by a call on that bank *)
Definition module_call (m : mmodule) (i : Z) (c : mcall) : mmodule * res (list Z) :=
  match dindex (mm_data m) i with
  | Err e => (m, Err e)
  | Ok b =>
      let '(b', r) := bank_call b c in
      (mkmmodule (mm_banks m) (dset (mm_data m) i b'), r)
  end.
Definition module_run (m : mmodule) (cs : list (Z * mcall)) : mmodule :=
  fold_left (fun m ic => fst (module_call m (fst ic) (snd ic))) cs m.
