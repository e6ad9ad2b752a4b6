(** Property theorems; generated from LManual.v by meta/genp.py. *)
From Verif Require Import Py LPy MInstruction MInstructions SInstruction LInstruction LInstructions MContext SManual LManual.

Theorem C174_operation_code : forall c1 sg1 m1 k1 i1 c2 sg2 m2 k2 i2,
  In (c1, (sg1, m1)) CLASSES -> In (c2, (sg2, m2)) CLASSES ->
  class_call c1 k1 = Ok i1 -> class_call c2 k2 = Ok i2 ->
  (operation_code (instr_value i1) = operation_code (instr_value i2) <-> same_machine_instruction m1 k1 m2 k2).
Proof. exact (@C174_operation_code_pf). Qed.
Print Assumptions C174_operation_code.

(** DA with a mask and without: 41 of six bits, 201 of eight; the operands do not matter *)
Example C174_operation_code_ex :
  match call_masked "DecimalAdd" 1 19, call_masked "DecimalAdd" 0 7, call_unmasked "DecimalAdd" 1 1 0 1, call_unmasked "MultipleTransfer" 1 1 0 1 with
  | Ok i, Ok j, Ok k, Ok l =>
      operation_code (instr_value i) = (6, 33) /\ operation_code (instr_value j) = (6, 33) /\
      operation_code (instr_value k) = (8, 129) /\ operation_code (instr_value l) = (8, 16)
  | _, _, _, _ => False
  end.
Proof. vm_compute. auto. Qed.

Theorem C174_number_of_bits : forall c sg m k i, In (c, (sg, m)) CLASSES -> class_call c k = Ok i ->
  (fst (operation_code (instr_value i)) = 3 <-> m = lit "S") /\
  (fst (operation_code (instr_value i)) = 6 <-> with_mask k \/ a_print m \/ a_peripheral m) /\
  (fst (operation_code (instr_value i)) = 8 <-> m <> lit "S" /\ ~ with_mask k /\ ~ a_print m /\ ~ a_peripheral m).
Proof. exact (@C174_number_of_bits_pf). Qed.
Print Assumptions C174_number_of_bits.

Example C174_number_of_bits_ex :
  match call_simulator 1, call_peripheral "Rewind" 9, call_unmasked "PrintOctal" 0 1 1 1, call_unmasked "FloatingDecimalAdd" 1 1 1 1 with
  | Ok i, Ok j, Ok k, Ok l =>
      fst (operation_code (instr_value i)) = 3 /\ fst (operation_code (instr_value j)) = 6 /\
      fst (operation_code (instr_value k)) = 6 /\ fst (operation_code (instr_value l)) = 8
  | _, _, _, _ => False
  end.
Proof. vm_compute. auto. Qed.

Theorem C175_asterisk_refuted : In (44, 42) TABLE_I /\ dget CHARSET 44 = Some None /\ forall k, dget CHARSET k <> Some (Some 42).
Proof. exact (@C175_asterisk_refuted_pf). Qed.
Print Assumptions C175_asterisk_refuted.

Example C175_asterisk_refuted_ex : dget CHARSET 43 = Some (Some 36) /\ dget CHARSET 44 = Some None /\ dget CHARSET 45 = Some (Some 34).
Proof. repeat split; reflexivity. Qed.

Theorem C175_characters_partial : forall k x, x <> 42 -> (dget CHARSET k = Some (Some x) <-> In (k, x) TABLE_I).
Proof. exact (@C175_characters_partial_pf). Qed.
Print Assumptions C175_characters_partial.

Example C175_characters_partial_ex : In (50, 83) TABLE_I /\ dget CHARSET 50 = Some (Some 83) /\ In (12, 58) TABLE_I.
Proof. vm_compute. tauto. Qed.

Theorem C176_mask : forall c sg m, In (c, (sg, m)) CLASSES ->
  ((exists k i, with_mask k /\ class_call c k = Ok i) <-> field_instruction m).
Proof. exact (@C176_mask_pf). Qed.
Print Assumptions C176_mask.

Example C176_mask_ex : (exists i, class_call (lit "Superimpose") masked_call = Ok i) /\ class_call (lit "Substitute") masked_call = Err TypeError.
Proof. split; [eexists; vm_compute; reflexivity|vm_compute; reflexivity]. Qed.
