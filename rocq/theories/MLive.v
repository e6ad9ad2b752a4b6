(** Words reached by iterating over a bank, and their public attribute data.
    word.py:42 makes data a plain attribute holding the BitField, so a program may
    use every operation of a field on it.  Replacing the attribute itself is not modelled. *)
From Verif Require Import Py MBitField MWord MMemory.

(** word.py:42, bitfield.py:149-153, 366-396, 411-425: an operation on w.data where w is
    the Word in cell [ref] of the bank (memory.py:66-74 hands it out) *)
Definition cell_field (m : bank) (ref : Z) (o : bf_op) : bank * res unit :=
  match dindex (mb_data m) ref with
  | Err e => (m, Err e)
  | Ok w => let '(w', r) := bf_step w o in (mkbank (dset (mb_data m) ref w') (mb_width m) (mb_current m), r)
  end.
(** bitfield.py:343-364 on w.data *)
Definition cell_item (m : bank) (ref : Z) (k : key) : res (list Z) :=
  do w <- dindex (mb_data m) ref; do x <- bf_getitem w k; Ok [x].

(** The calls of MMemory.v, and operations on the field of a word *)
Inductive lcall := Plain (c : mcall) | Field (ref : Z) (o : bf_op) | Item (ref : Z) (k : key).
Definition bank_lcall (m : bank) (c : lcall) : bank * res (list Z) :=
  match c with
  | Plain c => bank_call m c
  | Field ref o => unit_out (cell_field m ref o)
  | Item ref k => (m, cell_item m ref k)
  end.
Fixpoint bank_ltrace (m : bank) (cs : list lcall) : list (res (list Z)) :=
  match cs with
  | [] => []
  | c :: cs' => let '(m', o) := bank_lcall m c in o :: bank_ltrace m' cs'
  end.
Definition bank_lrun (m : bank) (cs : list lcall) : bank :=
  fold_left (fun m c => fst (bank_lcall m c)) cs m.

(** word.py:63-104 an InstructionWord whose data is used as well *)
Inductive iw_lop := Set_ (o : iw_op) | Data (o : bf_op).
Definition iw_lstep (w : iword) (o : iw_lop) : iword * res unit :=
  match o with
  | Set_ o => iw_step w o
  | Data o => let '(d, r) := bf_step (iw_data w) o in (iw_with_data w d, r)
  end.
Definition iw_lrun (w : iword) (ops : list iw_lop) : iword :=
  fold_left (fun w o => fst (iw_lstep w o)) ops w.
