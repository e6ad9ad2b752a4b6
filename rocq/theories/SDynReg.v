(** Registers with arguments of any type. *)
From Verif Require Import Py MBitField MRegisters MDyn SDyn MDynReg.

Definition of_reg (r : register) : treg := mktreg (of_bf (r_data r)) (r_name r) (VI (r_width r)).
Definition of_reg_out (p : register * res unit) : treg * tres unit :=
  (of_reg (fst p), of_res (fun x => x) (snd p)).
(** A list of assignments to the value of a register *)
Definition treg_assigns (A : farith) (r : treg) (vs : list val) : treg :=
  fold_left (fun r v => fst (treg_set_value A r v)) vs r.
Definition reg_assigns (r : register) (vs : list Z) : register :=
  fold_left (fun r v => fst (reg_set_value r v)) vs r.
(** The ints among the values *)
Definition the_ints (vs : list val) : list Z :=
  flat_map (fun v => match v with VI z => [z] | _ => [] end) vs.
