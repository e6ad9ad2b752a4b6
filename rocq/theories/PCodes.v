(** Property theorems; generated from LCodes.v by meta/genp.py. *)
From Verif Require Import Py LPy MBitField MInstruction MInstructions SInstruction LInstruction LInstructions SManual LManual SCodes LCodes.

Theorem C187_made : forall c sg m k i, In (c, (sg, m)) CLASSES -> class_call c k = Ok i ->
  exists pat, In (m, pat) machine_rows /\ shows_plainly pat (instr_value i) /\ (mask_row pat <-> with_mask k).
Proof. exact (@C187_made_pf). Qed.
Print Assumptions C187_made.

(** masked DA: columns S MMMMM 1 00001 *)
Example C187_made_ex :
  match call_masked "DecimalAdd" 1 19 with
  | Ok i => instr_value i = 3297 /\ In (lit "DA", lit "SMMMMM100001") machine_rows /\ shows_plainly (lit "SMMMMM100001") (instr_value i)
  | Err _ => False
  end.
Proof. split; [vm_compute; reflexivity|]. split; [vm_compute; tauto|]. apply plainly_spec. vm_compute. reflexivity. Qed.

Theorem C187_codes_partial : forall m pat v, In (m, pat) machine_rows -> shows_plainly pat v ->
  exists c sg k i, In (c, (sg, m)) CLASSES /\ class_call c k = Ok i /\ instr_value i = v /\ (mask_row pat <-> with_mask k).
Proof. exact (@C187_codes_partial_pf). Qed.
Print Assumptions C187_codes_partial.

(** code 4141 octal, the columns S MMMMM 1 00001 of DA with mask 1 and the cosequence counter *)
Example C187_codes_partial_ex :
  In (lit "DA", lit "SMMMMM100001") machine_rows /\ shows_plainly (lit "SMMMMM100001") 2145 /\
  match call_masked "DecimalAdd" 1 1 with Ok i => instr_value i = 2145 | Err _ => False end.
Proof. split; [vm_compute; tauto|]. split; [apply plainly_spec|]; vm_compute; reflexivity. Qed.

Theorem C187_simulator_refuted : forall v pat, In (lit "S", pat) machine_rows -> shows pat v -> v <> 7 -> v <> 2055 ->
  forall c sg m k i, In (c, (sg, m)) CLASSES -> class_call c k = Ok i -> instr_value i <> v.
Proof. exact (@C187_simulator_refuted_pf). Qed.
Print Assumptions C187_simulator_refuted.

(** the simulator instruction for address 27 octal *)
Example C187_simulator_refuted_ex :
  In (lit "S", lit "0XXXXXXXX111") machine_rows /\ shows (lit "0XXXXXXXX111") 23 /\
  match call_simulator 0 with Ok i => instr_value i = 7 | Err _ => False end.
Proof. split; [vm_compute; tauto|]. split; [apply shows_spec|]; vm_compute; reflexivity. Qed.
