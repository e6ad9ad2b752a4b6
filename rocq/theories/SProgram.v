(** A program: instructions of any classes, put at places of a memory module. *)
From Verif Require Import Py MBitField MWord MMemory MInstruction MInstructions.

(** an instruction of a program: the bank and the address where it stands, its class with the arguments, and its three address groups *)
Record placed := mkplaced { p_bank : Z; p_addr : Z; p_class : str; p_args : kwargs; p_a : Z; p_b : Z; p_c : Z }.
Definition place_of (p : placed) : Z * Z := (p_bank p, p_addr p).
(** a place of a module with n banks, and groups of twelve bits *)
Definition fits (n : Z) (p : placed) : Prop :=
  0 <= p_bank p < n /\ 0 <= p_addr p < 2048 /\ 0 <= p_a p < 4096 /\ 0 <= p_b p < 4096 /\ 0 <= p_c p < 4096.
(** the 48 bits made from an instruction: the class gives the command code, the instruction word the number *)
Definition assembled (p : placed) (v : Z) : Prop :=
  exists i w, class_call (p_class p) (p_args p) = Ok i /\ iw_new (instr_value i) (p_a p) (p_b p) (p_c p) = Ok w /\ v = iw_value w.
(** the assignment module[bank][address] = v *)
Definition storing (p : placed) (c : Z * mcall) : Prop := exists v, assembled p v /\ c = (p_bank p, MSet (Idx (p_addr p)) v).
(** a call that does not assign to the address *)
Definition spares (c : mcall) (a : Z) : Prop :=
  match c with
  | MSet (Idx i) _ | MRef i _ => i <> a
  | MSet (Slice (Some lo) (Some hi)) _ => ~ (lo <= a < hi)
  | MClear => False
  | _ => True
  end.
