(** Property theorems; generated from LInstructions.v by meta/genp.py. *)
From Verif Require Import Py LPy MBitField SBits LBits LBitField MWord SWord LWord MInstruction MInstructions SInstruction LInstruction LInstructions.

Theorem C42_masked_encoding : forall c m s k,
  In (c, m) maskable_classes ->
  (is_bit s /\ 0 <= k <= 31 ->
     exists i op, call_masked c s k = Ok i /\ opnum m op /\ 0 <= op <= 31 /\
       instr_value i = s * 2048 + k * 64 + 32 + op /\
       make_masked_opcode (lit m) s k = Ok (instr_value i)) /\
  (~ (is_bit s /\ 0 <= k <= 31) -> call_masked c s k = Err ValueError).
Proof. exact (@C42_masked_encoding_pf). Qed.
Print Assumptions C42_masked_encoding.

(** BinaryAdd(sequence=1, mask=0o21).value is 0o6151; mask 32 and sequence 2 are rejected *)
Example C42_example :
  In ("BinaryAdd", "BA")%string maskable_classes /\
  match call_masked "BinaryAdd" 1 17 with Ok i => instr_value i = 3177 | Err _ => False end /\
  call_masked "BinaryAdd" 0 32 = Err ValueError /\ call_masked "CheckParity" 2 0 = Err ValueError.
Proof. split; [left; reflexivity|]. vm_compute. auto. Qed.

Theorem C43_unmasked_encoding : forall c m s a b d,
  In (c, m) (maskable_classes ++ unmasked_classes) ->
  (is_bit s /\ is_bit a /\ is_bit b /\ is_bit d ->
     exists i op b23, call_unmasked c s a b d = Ok i /\ opnum m op /\ 0 <= op <= 31 /\
       bits23 m b23 /\ 0 <= b23 <= 3 /\
       instr_value i = s * 2048 + b23 * 512 + a * 256 + b * 128 + d * 64 + op /\
       make_unmasked_opcode (lit m) s a b d = Ok (instr_value i)) /\
  (~ (is_bit s /\ is_bit a /\ is_bit b /\ is_bit d) -> call_unmasked c s a b d = Err ValueError).
Proof. exact (@C43_unmasked_encoding_pf). Qed.
Print Assumptions C43_unmasked_encoding.

(** FloatingDecimalMultiply(1, 1, 0, 1) is 0o7525; an a of 2 is rejected *)
Example C43_example :
  match call_unmasked "FloatingDecimalMultiply" 1 1 0 1 with Ok i => instr_value i = 3925 | Err _ => False end /\
  match call_unmasked "NotEqualAlphabetic" 0 1 1 1 with Ok i => instr_value i = 1484 | Err _ => False end /\
  call_unmasked "FloatingDecimalMultiply" 1 2 0 1 = Err ValueError.
Proof. vm_compute. auto. Qed.

Theorem C44_peripheral_encoding : forall c m p,
  In (c, m) peripheral_classes ->
  (0 <= p <= 63 ->
     exists i op, call_peripheral c p = Ok i /\ opnum m op /\ 0 <= op <= 31 /\
       instr_value i = p * 64 + 32 + op /\ make_peripheral_opcode (lit m) p = Ok (instr_value i)) /\
  (~ 0 <= p <= 63 -> call_peripheral c p = Err ValueError).
Proof. exact (@C44_peripheral_encoding_pf). Qed.
Print Assumptions C44_peripheral_encoding.

(** ReadForward(0o77) is 0o7772 *)
Example C44_example :
  match call_peripheral "ReadForward" 63 with Ok i => instr_value i = 4090 | Err _ => False end /\
  call_peripheral "Rewind" 64 = Err ValueError /\ call_peripheral "Rewind" (-1) = Err ValueError.
Proof. vm_compute. auto. Qed.

Theorem C44_print_encoding : forall c m s a b d,
  In (c, m) print_classes ->
  (is_bit s /\ is_bit a /\ is_bit b /\ is_bit d ->
     exists i op, call_unmasked c s a b d = Ok i /\ opnum m op /\ 0 <= op <= 31 /\
       instr_value i = s * 2048 + a * 256 + b * 128 + d * 64 + 32 + op /\
       make_print_opcode (lit m) s a b d = Ok (instr_value i)) /\
  (~ (is_bit s /\ is_bit a /\ is_bit b /\ is_bit d) -> call_unmasked c s a b d = Err ValueError).
Proof. exact (@C44_print_encoding_pf). Qed.
Print Assumptions C44_print_encoding.

Example C44_print_example :
  match call_unmasked "PrintOctal" 1 0 1 1 with Ok i => instr_value i = 2278 | Err _ => False end.
Proof. vm_compute. reflexivity. Qed.

Theorem C44_simulator_encoding : forall s,
  (is_bit s -> exists i, call_simulator s = Ok i /\ instr_value i = s * 2048 + 7) /\
  (~ is_bit s -> call_simulator s = Err ValueError).
Proof. exact (@C44_simulator_encoding_pf). Qed.
Print Assumptions C44_simulator_encoding.

Example C44_simulator_example :
  match call_simulator 1 with Ok i => instr_value i = 2055 | Err _ => False end /\
  call_simulator 2 = Err ValueError.
Proof. vm_compute. auto. Qed.

Theorem C45_fields_read_back : forall o x i,
  instr_new o x = Ok i ->
  let v := instr_value i in
  0 <= v < 4096 /\
  (exists op, o_op o = Some op /\ cbits v 8 12 = op) /\
  (forall s, sequence x = Some s -> cbits v 1 1 = s) /\
  (forall m, mask x = Some m -> cbits v 2 6 = m) /\
  (forall a, arg_a x = Some a -> cbits v 4 4 = a) /\
  (forall b, arg_b x = Some b -> cbits v 5 5 = b) /\
  (forall c, arg_c x = Some c -> cbits v 6 6 = c) /\
  (forall p, paddr x = Some p -> cbits v 1 6 = p) /\
  (forall b, o_b23 o = Some b -> mask x = None -> paddr x = None -> cbits v 2 3 = b) /\
  cbits v 7 7 = (if carries_bit7 o x then zero_or (o_b7 o) else 0) /\
  (paddr x = None -> (sequence x = None -> cbits v 1 1 = 0) /\
     (mask x = None -> (o_b23 o = None -> cbits v 2 3 = 0) /\ (arg_a x = None -> cbits v 4 4 = 0) /\
        (arg_b x = None -> cbits v 5 5 = 0) /\ (arg_c x = None -> cbits v 6 6 = 0))).
Proof. exact (@C45_fields_read_back_pf). Qed.
Print Assumptions C45_fields_read_back.

Example C45_example : exists i,
  instr_new (mkopcode (lit "X") (lit "X") (Some 3) (Some 1) (Some 21) (lit "unmasked"))
    (mkiargs (Some 1) None None (Some 1) None None) = Ok i /\
  instr_value i = 3733 /\ cbits 3733 2 3 = 3 /\ cbits 3733 5 5 = 1 /\ cbits 3733 8 12 = 21.
Proof. eexists. split; [vm_compute; reflexivity|]. vm_compute. auto. Qed.

Theorem C45_data_slices : forall o x i s e,
  instr_new o x = Ok i -> 1 <= s -> s <= e -> e <= 12 ->
  bf_getitem (i_data i) (range s e) = Ok (cbits (instr_value i) s e).
Proof. exact (@C45_data_slices_pf). Qed.
Print Assumptions C45_data_slices.

(** the mask of a masked instruction is data[2:6] *)
Example C45_slices_example :
  match call_masked "WordAdd" 0 19 with
  | Ok i => bf_getitem (i_data i) (range 2 6) = Ok 19 | Err _ => False end.
Proof. vm_compute. reflexivity. Qed.

Theorem C46_argument_checks : forall o x op,
  o_op o = Some op ->
  (acceptable o x -> exists i, instr_new o x = Ok i /\ instr_value i = code o x) /\
  (~ acceptable o x -> instr_new o x = Err ValueError).
Proof. exact (@C46_argument_checks_pf). Qed.
Print Assumptions C46_argument_checks.

(** a mask with an A bit is rejected, a mask alone accepted *)
Definition C46_o := mkopcode (lit "BA") (lit "BinaryAdd") (Some 2) (Some 1) (Some 9) (lit "maskable").
Example C46_example :
  ~ acceptable C46_o (mkiargs (Some 0) (Some 3) (Some 0) None None None) /\
  acceptable C46_o (mkiargs (Some 0) (Some 3) None None None None).
Proof.
  split.
  - intros [_ [_ [H|(_ & H & _)]] _ _]; cbn in H; discriminate.
  - split; cbn; unfold absent, type_is; cbn; try lia; split; try lia; auto.
    right. repeat split.
Qed.

Theorem C136_forms : forall o op s m a b c p, o_op o = Some op ->
  makes (general_masked o s m)
        (fits o /\ within s 1 /\ within m 31 /\ (m = None \/ type_is o "maskable"))
        (2048 * zero_or s + match m with Some m => 64 * m + 32 * zero_or (o_b7 o) | None => 512 * zero_or (o_b23 o) + selects o end + op) /\
  makes (general_unmasked o s a b c)
        (fits o /\ within s 1 /\ within a 1 /\ within b 1 /\ within c 1)
        (2048 * zero_or s + 512 * zero_or (o_b23 o) + 256 * zero_or a + 128 * zero_or b + 64 * zero_or c + selects o + op) /\
  makes (scientific o s a b c)
        (fits o /\ within s 1 /\ within a 1 /\ within b 1 /\ within c 1)
        (2048 * zero_or s + 512 * zero_or (o_b23 o) + 256 * zero_or a + 128 * zero_or b + 64 * zero_or c + selects o + op) /\
  makes (peripheral o p)
        (fits o /\ within p 63)
        (match p with Some p => 64 * p | None => 512 * zero_or (o_b23 o) end + selects o + op) /\
  makes (simulator o s)
        (fits o /\ within s 1)
        (2048 * zero_or s + 512 * zero_or (o_b23 o) + selects o + op).
Proof. exact (@C136_forms_pf). Qed.
Print Assumptions C136_forms.

Example C136_forms_ex :
  let o := mkopcode (lit "BA") (lit "BinaryAdd") (Some 2) (Some 1) (Some 9) (lit "maskable") in
  (exists i, general_masked o (Some 1) (Some 3) = Ok i /\ instr_value i = 2048 + 3 * 64 + 32 + 9) /\
  (exists i, scientific o None (Some 1) None None = Ok i /\ instr_value i = 2 * 512 + 256 + 9) /\
  peripheral o (Some 64) = Err ValueError.
Proof. split; [eexists; split; vm_compute; reflexivity|]. split; [eexists; split; vm_compute; reflexivity|]. vm_compute. reflexivity. Qed.

Theorem C47_paddr_everywhere_refuted : forall m o p,
  In (m, o) OPCODES -> 0 <= p <= 63 ->
  exists i, peripheral o (Some p) = Ok i /\
    instr_new o (mkiargs None None None None None (Some p)) = Ok i.
Proof. exact (@C47_paddr_everywhere_refuted_pf). Qed.
Print Assumptions C47_paddr_everywhere_refuted.

(** Peripheral(OPCODES["BM"], 5) is accepted although BM (binary multiply) is an
    unmasked arithmetic instruction, and builds the code of BM with A and C active *)
Example C47_witness :
  match dget OPCODES (lit "BM") with
  | Some o => o_type o = lit "unmasked" /\
      match peripheral o (Some 5), call_unmasked "BinaryMultiply" 0 1 0 1 with
      | Ok i, Ok j => instr_value i = instr_value j
      | _, _ => False
      end
  | None => False
  end.
Proof. vm_compute. auto. Qed.

Theorem C47_classes_reject_paddr_partial : forall c sg m k,
  In (c, (sg, m)) CLASSES -> sg <> SigPeripheral -> kw_paddr k <> None ->
  class_call c k = Err TypeError.
Proof. exact (@C47_classes_reject_paddr_partial_pf). Qed.
Print Assumptions C47_classes_reject_paddr_partial.

Example C47_partial_example :
  class_call (lit "BinaryMultiply") (mkkw (arg 0) None (arg 0) (arg 0) (arg 0) (arg 5)) = Err TypeError.
Proof. vm_compute. reflexivity. Qed.

Theorem C48_same_code_refuted : forall s a b d,
  is_bit s -> is_bit a -> is_bit b -> is_bit d ->
  exists i j, call_unmasked "NotEqualAlphabetic" s a b d = Ok i /\
              call_unmasked "FloatingNotEqualNormalized" s a b d = Ok j /\
              instr_value i = instr_value j.
Proof. exact (@C48_same_code_refuted_pf). Qed.
Print Assumptions C48_same_code_refuted.

(** both are 0o2014 *)
Example C48_witness :
  match call_unmasked "NotEqualAlphabetic" 0 0 0 0, call_unmasked "FloatingNotEqualNormalized" 0 0 0 0 with
  | Ok i, Ok j => instr_value i = 1036 /\ instr_value j = 1036
  | _, _ => False
  end.
Proof. vm_compute. auto. Qed.

Theorem C48_distinct_codes_partial : forall c1 sg1 m1 k1 i1 c2 sg2 m2 k2 i2,
  In (c1, (sg1, m1)) CLASSES -> In (c2, (sg2, m2)) CLASSES -> m1 <> m2 ->
  class_call c1 k1 = Ok i1 -> class_call c2 k2 = Ok i2 ->
  ~ (In m1 (map lit ["PRA"; "PRD"; "PRO"]%string) /\ In m2 (map lit ["PRA"; "PRD"; "PRO"]%string)) ->
  ~ (m1 = lit "NA" /\ m2 = lit "FNN" /\ forall m, kw_mask k1 <> Some (Some m)) ->
  ~ (m1 = lit "FNN" /\ m2 = lit "NA" /\ forall m, kw_mask k2 <> Some (Some m)) ->
  instr_value i1 <> instr_value i2.
Proof. exact (@C48_distinct_codes_partial_pf). Qed.
Print Assumptions C48_distinct_codes_partial.

(** the two floating adds differ although only their opcodes do *)
Example C48_example :
  match call_unmasked "FloatingBinaryAdd" 1 0 1 0, call_unmasked "FloatingDecimalAdd" 1 0 1 0 with
  | Ok i, Ok j => instr_value i = 2689 /\ instr_value j = 2705
  | _, _ => False
  end.
Proof. vm_compute. auto. Qed.

Theorem C49_injective_masked : forall c m s k s' k' i i',
  In (c, m) maskable_classes ->
  call_masked c s k = Ok i -> call_masked c s' k' = Ok i' -> instr_value i = instr_value i' ->
  s = s' /\ k = k'.
Proof. exact (@C49_injective_masked_pf). Qed.
Print Assumptions C49_injective_masked.

Example C49_injective_masked_ex : In ("BinaryAdd"%string, "BA"%string) maskable_classes /\
  match call_masked "BinaryAdd" 0 19, call_masked "BinaryAdd" 1 19, call_masked "BinaryAdd" 1 18 with
  | Ok i, Ok j, Ok k => instr_value i = 1257 /\ instr_value j = 3305 /\ instr_value k = 3241
  | _, _, _ => False
  end.
Proof. split; [cbn; tauto|]. vm_compute. auto. Qed.

Theorem C49_injective_unmasked : forall c m s a b d s' a' b' d' i i',
  In (c, m) (maskable_classes ++ unmasked_classes ++ print_classes) ->
  call_unmasked c s a b d = Ok i -> call_unmasked c s' a' b' d' = Ok i' ->
  instr_value i = instr_value i' -> s = s' /\ a = a' /\ b = b' /\ d = d'.
Proof. exact (@C49_injective_unmasked_pf). Qed.
Print Assumptions C49_injective_unmasked.

Example C49_injective_unmasked_ex : match call_unmasked "BinaryAdd" 0 1 1 1, call_unmasked "BinaryAdd" 0 1 1 0 with
  | Ok i, Ok j => instr_value i <> instr_value j
  | _, _ => False
  end.
Proof. vm_compute. discriminate. Qed.

Theorem C49_injective_peripheral : forall c m p p' i i',
  In (c, m) peripheral_classes ->
  call_peripheral c p = Ok i -> call_peripheral c p' = Ok i' -> instr_value i = instr_value i' -> p = p'.
Proof. exact (@C49_injective_peripheral_pf). Qed.
Print Assumptions C49_injective_peripheral.

Example C49_example :
  match call_peripheral "Rewind" 1, call_peripheral "Rewind" 2 with
  | Ok i, Ok j => instr_value i = 98 /\ instr_value j = 162
  | _, _ => False
  end.
Proof. vm_compute. auto. Qed.

Theorem C50_tables_disjoint : INSTRUCTIONS = dkeys OPCODES ++ CONTROL_INSTRUCTIONS ++ DATA_CONSTANTS ++ CONTROL_CONSTANTS
                 ++ EXTENDED_INSTRUCTIONS ++ MISC_INSTRUCTIONS ++ ARGUS_INSTRUCTIONS /\
  NoDup INSTRUCTIONS.
Proof. exact (@C50_tables_disjoint_pf). Qed.
Print Assumptions C50_tables_disjoint.

Example C50_tables_disjoint_ex : In (lit "BA") (dkeys OPCODES) /\ ~ In (lit "BA") MISC_INSTRUCTIONS.
Proof. split; [apply inb_In; vm_compute; reflexivity|]. rewrite <- inb_In. vm_compute. discriminate. Qed.

Theorem C50_opcode_fields : forall m o,
  In (m, o) OPCODES ->
  o_m o = m /\ within (o_b7 o) 1 /\ within (o_b23 o) 3 /\ (exists op, o_op o = Some op /\ 0 <= op <= 31) /\
  In (o_type o) (map lit ["maskable"; "unmasked"; "peripheral"; "print"; "simulator"]%string).
Proof. exact (@C50_opcode_fields_pf). Qed.
Print Assumptions C50_opcode_fields.

Example C50_example : List.length INSTRUCTIONS = 110%nat /\ In (lit "SETLOC") INSTRUCTIONS.
Proof. split; [vm_compute; reflexivity|]. apply inb_In. vm_compute. reflexivity. Qed.

Theorem C51_class_name_refuted : exists o, In (lit "TS", o) OPCODES /\ o_c o = lit "TransferAndChangeSequence" /\
    (forall k, class_call (o_c o) k = Err NameError) /\ ~ In (o_c o) (dkeys CLASSES).
Proof. exact (@C51_class_name_refuted_pf). Qed.
Print Assumptions C51_class_name_refuted.

Example C51_class_name_refuted_ex : class_call (lit "TransferAndChangeSequence") (mkkw (Some (Some 1)) None None None None None) = Err NameError.
Proof. vm_compute. reflexivity. Qed.

Theorem C51_class_names_partial : forall m o,
  In (m, o) OPCODES -> m <> lit "TS" -> exists sg, In (o_c o, (sg, m)) CLASSES.
Proof. exact (@C51_class_names_partial_pf). Qed.
Print Assumptions C51_class_names_partial.

Example C51_example : In (lit "BinaryAdd", (SigMaskableOpt, lit "BA")) CLASSES /\ List.length OPCODES = 64%nat.
Proof. split; [left; reflexivity|vm_compute; reflexivity]. Qed.

Theorem C53_controls_refuted : forall c mn a b d,
  In c control_classes -> control_call (lit c) mn a b d = Err TypeError.
Proof. exact (@C53_controls_refuted_pf). Qed.
Print Assumptions C53_controls_refuted.

(** SetLocationCounter("SETLOC", 1, 2, 3) *)
Example C53_witness :
  In "SetLocationCounter"%string control_classes /\
  control_call (lit "SetLocationCounter") (lit "SETLOC") (Some 1) (Some 2) (Some 3) = Err TypeError.
Proof. split; [do 6 right; left; reflexivity|vm_compute; reflexivity]. Qed.

Theorem C54_constants : forall c data,
  In c constant_classes ->
  (0 <= data < 2 ^ 48 -> exists w, constant_call (lit c) data = Ok w /\ word_value w = data) /\
  (~ 0 <= data < 2 ^ 48 -> constant_call (lit c) data = Err ValueError).
Proof. exact (@C54_constants_pf). Qed.
Print Assumptions C54_constants.

Example C54_example :
  In "OctalConstant"%string constant_classes /\
  constant_call (lit "OctalConstant") 281474976710656 = Err ValueError /\
  match constant_call (lit "OctalConstant") 83 with Ok w => word_value w = 83 | Err _ => False end.
Proof. split; [repeat (first [left; reflexivity|right])|]. vm_compute. auto. Qed.

Theorem C55_word_decodes : forall o x i a b c,
  instr_new o x = Ok i -> 0 <= a < 4096 -> 0 <= b < 4096 -> 0 <= c < 4096 ->
  exists w, iw_new (instr_value i) a b c = Ok w /\
    iw_get w Command = Ok (instr_value i) /\
    iw_value w / 2 ^ 36 = instr_value i /\
    (exists op, o_op o = Some op /\ (iw_value w / 2 ^ 36) mod 32 = op) /\
    (forall s, sequence x = Some s -> iw_value w / 2 ^ 47 = s) /\
    (forall m, mask x = Some m -> (iw_value w / 2 ^ 42) mod 32 = m) /\
    (forall p, paddr x = Some p -> iw_value w / 2 ^ 42 = p) /\
    (forall v, arg_a x = Some v -> (iw_value w / 2 ^ 44) mod 2 = v) /\
    (forall v, arg_b x = Some v -> (iw_value w / 2 ^ 43) mod 2 = v) /\
    (forall v, arg_c x = Some v -> (iw_value w / 2 ^ 42) mod 2 = v).
Proof. exact (@C55_word_decodes_pf). Qed.
Print Assumptions C55_word_decodes.

Example C55_example :
  match call_masked "BinaryAdd" 1 17 with
  | Ok i => match iw_new (instr_value i) 1 2 3 with
            | Ok w => iw_value w = 218321794375683 /\ (iw_value w / 2 ^ 42) mod 32 = 17 | Err _ => False end
  | Err _ => False
  end.
Proof. vm_compute. auto. Qed.

Theorem C96_masked_diagram : forall c m s k i,
  In (c, m) maskable_classes -> call_masked c s k = Ok i ->
  exists pat, documented m "masked" = Some pat /\
    instr_value i = diagram pat (mkops s k 0 0 0 0).
Proof. exact (@C96_masked_diagram_pf). Qed.
Print Assumptions C96_masked_diagram.

(** "smmmmm101001" with s=1, m=10001 is 1 10001 101001 *)
Example C96_example :
  documented "BA" "masked" = Some (lit "smmmmm101001") /\
  diagram (lit "smmmmm101001") (mkops 1 17 0 0 0 0) = 3177.
Proof. vm_compute. auto. Qed.

Theorem C96_unmasked_diagram : forall c m s a b d i,
  call_unmasked c s a b d = Ok i ->
  (In (c, m) maskable_classes ->
     exists pat, documented m "unmasked" = Some pat /\ instr_value i = diagram pat (mkops s 0 a b d 0)) /\
  (In (c, m) (unmasked_classes ++ print_classes) ->
     exists pat, documented m "" = Some pat /\ instr_value i = diagram pat (mkops s 0 a b d 0)).
Proof. exact (@C96_unmasked_diagram_pf). Qed.
Print Assumptions C96_unmasked_diagram.

Example C96_unmasked_example :
  documented "FDM" "" = Some (lit "s11abc010101") /\
  diagram (lit "s11abc010101") (mkops 1 0 1 0 1 0) = 3925.
Proof. vm_compute. auto. Qed.

Theorem C96_other_diagrams : (forall c m p i, In (c, m) peripheral_classes -> call_peripheral c p = Ok i ->
     exists pat, documented m "" = Some pat /\ instr_value i = diagram pat (mkops 0 0 0 0 0 p)) /\
  (forall s i, call_simulator s = Ok i ->
     exists pat, documented "S" (if s =? 0 then "direct" else "indexed") = Some pat /\
       instr_value i = diagram pat (mkops 0 0 0 0 0 0)) /\
  (exists i pat, call_proceed = Ok i /\ documented "PR" "" = Some pat /\
     instr_value i = diagram pat (mkops 0 0 0 0 0 0)).
Proof. exact (@C96_other_diagrams_pf). Qed.
Print Assumptions C96_other_diagrams.

Example C96_peripheral_example :
  documented "RF" "" = Some (lit "pppppp111010") /\ diagram (lit "pppppp111010") (mkops 0 0 0 0 0 63) = 4090.
Proof. vm_compute. auto. Qed.
