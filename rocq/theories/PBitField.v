(** Property theorems; generated from LBitField.v by meta/genp.py. *)
From Verif Require Import Py MBitField SBits LPy LBits LBitField.

Theorem C01_constructor : forall value width numbering order, 0 <= width ->
  (bf_new value width numbering order = Err ValueError <->
     width > 64 \/ value > 2 ^ width - 1 \/ ~ (0 <= numbering <= 3) \/
     ~ (order = 0 \/ order = 1)) /\
  (forall e, bf_new value width numbering order = Err e -> e = ValueError) /\
  (forall b, bf_new value width numbering order = Ok b ->
     bf_value b = value /\ bf_width b = width /\ bf_maxval b = 2 ^ width - 1 /\
     scheme_num (bf_numbering b) = numbering /\ order_num (bf_order b) = order).
Proof. exact (@C01_constructor_pf). Qed.
Print Assumptions C01_constructor.

Example C01_example :
  (exists b, bf_new 200 8 3 0 = Ok b /\ bf_value b = 200 /\ bf_maxval b = 255) /\
  bf_new 256 8 3 0 = Err ValueError /\ bf_new 0 65 0 0 = Err ValueError.
Proof. split; [eexists; repeat split|split; reflexivity]. Qed.

Theorem C01_constructed_wf : forall value width numbering order b,
  0 <= width -> bf_new value width numbering order = Ok b -> wf b.
Proof. exact (@C01_constructed_wf_pf). Qed.
Print Assumptions C01_constructed_wf.

Example C01_constructed_wf_ex : exists b, bf_new 130 8 0 1 = Ok b /\ wf b /\ bf_width b = 8.
Proof. eexists. split; [vm_compute; reflexivity|]. split; [|reflexivity]. split; [cbn; lia|reflexivity]. Qed.

Theorem C02_constructor_range_refuted : forall value width numbering order,
  0 <= width <= 64 -> 0 <= numbering <= 3 -> 0 <= order <= 1 -> value < 0 ->
  exists b, bf_new value width numbering order = Ok b /\ bf_value b = value.
Proof. exact (@C02_constructor_range_refuted_pf). Qed.
Print Assumptions C02_constructor_range_refuted.

(** the default layout (width 8, LSB 0, MSB right) with value -1 *)
Example C02_refuted_witness : exists b, bf_new (-1) 8 0 1 = Ok b /\ bf_value b = -1.
Proof. eexists; split; reflexivity. Qed.

Theorem C02_constructor_upper_bound_partial : forall value width numbering order b,
  0 <= width -> bf_new value width numbering order = Ok b -> bf_value b <= bf_maxval b.
Proof. exact (@C02_constructor_upper_bound_partial_pf). Qed.
Print Assumptions C02_constructor_upper_bound_partial.

Example C02_constructor_upper_bound_partial_ex : exists b, bf_new 255 8 3 0 = Ok b /\ bf_maxval b = 255 /\ bf_new 256 8 3 0 = Err ValueError.
Proof. eexists. split; [vm_compute; reflexivity|]. split; reflexivity. Qed.

Theorem C03_bit_read : forall b i,
  (valid_index (bf_numbering b) (bf_width b) i ->
   bf_getitem b (Idx i) =
   Ok (bit_at (bf_value b) (weight (bf_numbering b) (bf_width b) i))) /\
  (~ valid_index (bf_numbering b) (bf_width b) i ->
   bf_getitem b (Idx i) = Err ValueError).
Proof. exact (@C03_bit_read_pf). Qed.
Print Assumptions C03_bit_read.

Example C03_example :
  let b := mkbf 8 255 130 MSB_1 MSB_LEFT in
  bf_getitem b (Idx 1) = Ok 1 /\ bf_getitem b (Idx 7) = Ok 1 /\
  bf_getitem b (Idx 8) = Ok 0 /\ bf_getitem b (Idx 0) = Err ValueError.
Proof. repeat split. Qed.

Theorem C03_weight_is_layout : forall o n W p i,
  0 <= p < W -> nth_error (layout o n W) (Z.to_nat p) = Some i ->
  valid_index n W i /\ weight n W i = pos_weight o W p.
Proof. exact (@C03_weight_is_layout_pf). Qed.
Print Assumptions C03_weight_is_layout.

Example C03_layout_example : layout LSB_LEFT MSB_1 4 = [4; 3; 2; 1] /\ layout MSB_LEFT MSB_1 3 = [1; 2; 3].
Proof. split; reflexivity. Qed.

Theorem C04_bit_write : forall b i x,
  wf b -> fits (bf_width b) (bf_value b) ->
  valid_index (bf_numbering b) (bf_width b) i -> x = 0 \/ x = 1 ->
  let '(b', r) := bf_setitem b (Idx i) x in
  r = Ok tt /\
  bit_replaced (bf_value b) (bf_value b') (weight (bf_numbering b) (bf_width b) i) x /\
  bf_getitem b' (Idx i) = Ok x.
Proof. exact (@C04_bit_write_pf). Qed.
Print Assumptions C04_bit_write.

Example C04_bit_write_ex : let b := mkbf 8 255 130 MSB_1 MSB_LEFT in
  valid_index MSB_1 8 4 /\ bf_value (fst (bf_setitem b (Idx 4) 1)) = 146 /\ bf_getitem (fst (bf_setitem b (Idx 4) 1)) (Idx 4) = Ok 1.
Proof. cbv zeta. split; [split; cbn; lia|]. split; reflexivity. Qed.

Theorem C04_bit_write_invalid : forall b i x,
  ~ valid_index (bf_numbering b) (bf_width b) i ->
  bf_setitem b (Idx i) x = (b, Err ValueError).
Proof. exact (@C04_bit_write_invalid_pf). Qed.
Print Assumptions C04_bit_write_invalid.

Example C04_example :
  let b := mkbf 8 255 130 LSB_0 LSB_LEFT in
  wf b /\ fits 8 130 /\ valid_index LSB_0 8 1 /\
  bf_value (fst (bf_setitem b (Idx 1) 0)) = 128 /\ bf_setitem b (Idx 8) 1 = (b, Err ValueError).
Proof. unfold wf, fits; simpl; repeat split; lia. Qed.

Theorem C05_slice_read_msb_left : forall b, bf_order b = MSB_LEFT ->
  (forall s e, valid_range (bf_order b) (bf_numbering b) (bf_width b) s e ->
     bf_getitem b (Slice (Some s) (Some e)) =
     Ok (bits_at (bf_value b) (weight (bf_numbering b) (bf_width b) e)
           (weight (bf_numbering b) (bf_width b) s
            - weight (bf_numbering b) (bf_width b) e + 1))) /\
  (forall s e, ~ valid_range (bf_order b) (bf_numbering b) (bf_width b) s e ->
     bf_getitem b (Slice (Some s) (Some e)) = Err ValueError) /\
  (forall s e, s = None \/ e = None -> exists x, bf_getitem b (Slice s e) = Err x).
Proof. exact (@C05_slice_read_msb_left_pf). Qed.
Print Assumptions C05_slice_read_msb_left.

Example C05_example :
  let b := mkbf 8 255 154 MSB_1 MSB_LEFT in   (* 1001 1010 *)
  valid_range MSB_LEFT MSB_1 8 4 7 /\ bf_getitem b (Slice (Some 4) (Some 7)) = Ok 13 /\
  ~ valid_range MSB_LEFT MSB_1 8 7 4 /\ bf_getitem b (Slice (Some 7) (Some 4)) = Err ValueError.
Proof. unfold valid_range; cbn; repeat split; lia. Qed.

Theorem C06_slice_write_msb_left : forall b s e x,
  bf_order b = MSB_LEFT -> wf b -> fits (bf_width b) (bf_value b) ->
  valid_range (bf_order b) (bf_numbering b) (bf_width b) s e ->
  let lo := weight (bf_numbering b) (bf_width b) e in
  let n := weight (bf_numbering b) (bf_width b) s - lo + 1 in
  0 <= x < 2 ^ n ->
  let '(b', r) := bf_setitem b (Slice (Some s) (Some e)) x in
  r = Ok tt /\ bits_replaced (bf_value b) (bf_value b') lo n x /\
  bf_getitem b' (Slice (Some s) (Some e)) = Ok x.
Proof. exact (@C06_slice_write_msb_left_pf). Qed.
Print Assumptions C06_slice_write_msb_left.

Example C06_example :
  let b := mkbf 8 255 154 MSB_1 MSB_LEFT in
  wf b /\ fits 8 154 /\ valid_range MSB_LEFT MSB_1 8 4 7 /\
  bf_value (fst (bf_setitem b (Slice (Some 4) (Some 7)) 2)) = 132.
Proof. unfold wf, fits, valid_range; cbn; repeat split; lia. Qed.

Theorem C07_slice_lsb_left_edge_partial : forall b s e,
  bf_order b = LSB_LEFT ->
  valid_range (bf_order b) (bf_numbering b) (bf_width b) s e ->
  let lo := weight (bf_numbering b) (bf_width b) s in
  let n := weight (bf_numbering b) (bf_width b) e - lo + 1 in
  n = 1 \/ n = bf_width b ->
  bf_getitem b (Slice (Some s) (Some e)) = Ok (bits_at (bf_value b) lo n) /\
  (forall x, wf b -> fits (bf_width b) (bf_value b) -> 0 <= x < 2 ^ n ->
   let '(b', r) := bf_setitem b (Slice (Some s) (Some e)) x in
   r = Ok tt /\ bits_replaced (bf_value b) (bf_value b') lo n x /\
   bf_getitem b' (Slice (Some s) (Some e)) = Ok x).
Proof. exact (@C07_slice_lsb_left_edge_partial_pf). Qed.
Print Assumptions C07_slice_lsb_left_edge_partial.

Example C07_slice_lsb_left_edge_partial_ex : let b := mkbf 8 255 130 LSB_0 LSB_LEFT in
  valid_range LSB_LEFT LSB_0 8 0 7 /\ bf_getitem b (Slice (Some 0) (Some 7)) = Ok 130 /\ bf_getitem b (Slice (Some 1) (Some 1)) = Ok 1 /\
  bf_value (fst (bf_setitem b (Slice (Some 0) (Some 7)) 77)) = 77.
Proof. cbv zeta. split; [vm_compute; intuition discriminate|]. vm_compute. auto. Qed.

Theorem C07_slice_read_lsb_left_exact : forall b s e,
  bf_order b = LSB_LEFT ->
  valid_range (bf_order b) (bf_numbering b) (bf_width b) s e ->
  let hi := weight (bf_numbering b) (bf_width b) e in
  let n := hi - weight (bf_numbering b) (bf_width b) s + 1 in
  1 < n < bf_width b ->
  bf_getitem b (Slice (Some s) (Some e)) = Ok (bits_at (bf_value b) hi n * 2 ^ (n - 1)).
Proof. exact (@C07_slice_read_lsb_left_exact_pf). Qed.
Print Assumptions C07_slice_read_lsb_left_exact.

Example C07_slice_read_lsb_left_exact_ex : let b := mkbf 8 255 176 LSB_0 LSB_LEFT in
  valid_range LSB_LEFT LSB_0 8 1 4 /\ bits_at 176 4 4 = 11 /\ bf_getitem b (Slice (Some 1) (Some 4)) = Ok (11 * 8).
Proof. cbv zeta. split; [vm_compute; intuition discriminate|]. vm_compute. auto. Qed.

Theorem C07_slice_read_lsb_left_refuted : forall b s e,
  bf_order b = LSB_LEFT -> wf b -> bf_value b = bf_maxval b ->
  valid_range (bf_order b) (bf_numbering b) (bf_width b) s e ->
  let lo := weight (bf_numbering b) (bf_width b) s in
  let n := weight (bf_numbering b) (bf_width b) e - lo + 1 in
  1 < n < bf_width b ->
  bf_getitem b (Slice (Some s) (Some e)) <> Ok (bits_at (bf_value b) lo n).
Proof. exact (@C07_slice_read_lsb_left_refuted_pf). Qed.
Print Assumptions C07_slice_read_lsb_left_refuted.

(** bits 0..3 of the default 8-bit field holding 255 should read 15; the code gives 120 *)
Example C07_refuted_witness :
  let b := mkbf 8 255 255 LSB_0 LSB_LEFT in
  wf b /\ valid_range LSB_LEFT LSB_0 8 0 3 /\
  bf_getitem b (Slice (Some 0) (Some 3)) = Ok 120 /\ bits_at 255 0 4 = 15.
Proof. unfold wf, valid_range; cbn; repeat split; lia. Qed.

Theorem C07_slice_write_lsb_left_refuted : forall b s e,
  bf_order b = LSB_LEFT -> wf b -> bf_value b = bf_maxval b ->
  valid_range (bf_order b) (bf_numbering b) (bf_width b) s e ->
  let lo := weight (bf_numbering b) (bf_width b) s in
  let n := weight (bf_numbering b) (bf_width b) e - lo + 1 in
  1 < n < bf_width b ->
  let '(b', r) := bf_setitem b (Slice (Some s) (Some e)) 0 in
  r = Ok tt /\ bits_at (bf_value b') lo n <> 0.
Proof. exact (@C07_slice_write_lsb_left_refuted_pf). Qed.
Print Assumptions C07_slice_write_lsb_left_refuted.

Example C07_slice_write_lsb_left_refuted_ex : let b := mkbf 8 255 255 LSB_0 LSB_LEFT in
  valid_range LSB_LEFT LSB_0 8 1 4 /\ snd (bf_setitem b (Slice (Some 1) (Some 4)) 0) = Ok tt /\
  bits_at (bf_value (fst (bf_setitem b (Slice (Some 1) (Some 4)) 0))) 1 4 = 7.
Proof. cbv zeta. split; [vm_compute; intuition discriminate|]. vm_compute. auto. Qed.

Theorem C08_oversize_rejected_partial : forall b v,
  (forall s e, valid_range (bf_order b) (bf_numbering b) (bf_width b) s e ->
     2 ^ range_size (bf_numbering b) (bf_width b) s e < v ->
     bf_setitem b (Slice (Some s) (Some e)) v = (b, Err ValueError)) /\
  (forall i, valid_index (bf_numbering b) (bf_width b) i -> 2 < v ->
     bf_setitem b (Idx i) v = (b, Err ValueError)) /\
  (2 ^ bf_width b < v -> bf_set_value b v = (b, Err ValueError)).
Proof. exact (@C08_oversize_rejected_partial_pf). Qed.
Print Assumptions C08_oversize_rejected_partial.

Example C08_oversize_rejected_partial_ex : let b := mkbf 8 255 0 MSB_1 MSB_LEFT in
  bf_setitem b (Slice (Some 5) (Some 8)) 17 = (b, Err ValueError) /\ bf_setitem b (Idx 1) 3 = (b, Err ValueError) /\
  bf_set_value b 257 = (b, Err ValueError).
Proof. vm_compute. auto. Qed.

Theorem C08_misfit_accepted_refuted : forall b v, wf b ->
  (forall s e, valid_range (bf_order b) (bf_numbering b) (bf_width b) s e ->
     v < 0 \/ v = 2 ^ range_size (bf_numbering b) (bf_width b) s e ->
     snd (bf_setitem b (Slice (Some s) (Some e)) v) = Ok tt) /\
  (forall i, valid_index (bf_numbering b) (bf_width b) i -> v < 0 \/ v = 2 ->
     snd (bf_setitem b (Idx i) v) = Ok tt) /\
  (v < 0 \/ v = 2 ^ bf_width b ->
     snd (bf_set_value b v) = Ok tt /\ bf_value (fst (bf_set_value b v)) = v).
Proof. exact (@C08_misfit_accepted_refuted_pf). Qed.
Print Assumptions C08_misfit_accepted_refuted.

(** 8-bit field: b.value = 256 is accepted; so is b[1:4] = 16 on an MSB-left field,
    where it spills into the bit left of the range *)
Example C08_refuted_witness :
  let b := mkbf 8 255 0 MSB_1 MSB_LEFT in
  wf b /\ bf_value (fst (bf_set_value b 256)) = 256 /\
  snd (bf_set_value b 256) = Ok tt /\
  bf_value (fst (bf_setitem b (Slice (Some 5) (Some 8)) 16)) = 16 /\
  bf_getitem (fst (bf_setitem b (Slice (Some 5) (Some 8)) 16)) (Idx 4) = Ok 1.
Proof. unfold wf; cbn; repeat split; lia. Qed.

Theorem C10_rejected_no_effect : forall b o b' e,
  bf_step b o = (b', Err e) -> b' = b.
Proof. exact (@C10_rejected_no_effect_pf). Qed.
Print Assumptions C10_rejected_no_effect.

Example C10_example :
  let b := mkbf 8 255 154 MSB_1 MSB_LEFT in
  bf_step b (OpItem (Slice (Some 7) (Some 4)) 3) = (b, Err ValueError) /\
  bf_step b (OpItem (Slice (Some 4) None) 3) = (b, Err TypeError) /\
  bf_step b (OpValue 300) = (b, Err ValueError).
Proof. repeat split. Qed.

Theorem C17_geometry_immutable : forall b ops,
  let b' := bf_run b ops in
  bf_width b' = bf_width b /\ bf_maxval b' = bf_maxval b /\
  bf_numbering b' = bf_numbering b /\ bf_order b' = bf_order b /\
  bf_indices b' = bf_indices b /\ bf_lsb b' = bf_lsb b /\ bf_msb b' = bf_msb b.
Proof. exact (@C17_geometry_immutable_pf). Qed.
Print Assumptions C17_geometry_immutable.

Example C17_example :
  let b := mkbf 8 255 154 MSB_1 MSB_LEFT in
  let b' := bf_run b [OpValue 7; OpItem (Idx 1) 1; OpItem (Idx 9) 1; OpClear None] in
  bf_value b' = 0 /\ bf_indices b' = [1; 2; 3; 4; 5; 6; 7; 8].
Proof. split; reflexivity. Qed.

Theorem C09_value_in_range : forall ops b,
  wf b -> fits (bf_width b) (bf_value b) -> Forall (op_fits b) ops ->
  0 <= bf_value (bf_run b ops) <= bf_maxval b.
Proof. exact (@C09_value_in_range_pf). Qed.
Print Assumptions C09_value_in_range.

Example C09_example :
  let b := mkbf 8 255 154 LSB_0 LSB_LEFT in
  let ops := [OpItem (Slice (Some 0) (Some 3)) 15; OpValue 255; OpItem (Slice (Some 4) (Some 7)) 9;
              OpItem (Idx 30) 1; OpSet (Some 3); OpItem (Slice (Some 3) None) 77] in
  wf b /\ fits 8 154 /\ Forall (op_fits b) ops /\ bf_value (bf_run b ops) = 255.
Proof.
  cbv zeta. split; [|split; [|split; [|vm_compute; reflexivity]]].
  - split; [cbn; lia|reflexivity].
  - unfold fits. lia.
  - repeat constructor; cbn; unfold valid_range, range_size, fits; cbn; lia.
Qed.

Theorem C11_set_clear : forall b, wf b ->
  (forall k, 0 <= k < bf_width b ->
     bit_at (bf_value (fst (bf_set b None))) k = 1 /\
     bit_at (bf_value (fst (bf_clear b None))) k = 0) /\
  fits (bf_width b) (bf_value (fst (bf_set b None))) /\
  fits (bf_width b) (bf_value (fst (bf_clear b None))) /\
  (forall i, i <> 0 -> valid_index (bf_numbering b) (bf_width b) i ->
     fits (bf_width b) (bf_value b) ->
     snd (bf_set b (Some i)) = Ok tt /\ snd (bf_clear b (Some i)) = Ok tt /\
     bit_replaced (bf_value b) (bf_value (fst (bf_set b (Some i))))
                  (weight (bf_numbering b) (bf_width b) i) 1 /\
     bit_replaced (bf_value b) (bf_value (fst (bf_clear b (Some i))))
                  (weight (bf_numbering b) (bf_width b) i) 0).
Proof. exact (@C11_set_clear_pf). Qed.
Print Assumptions C11_set_clear.

Example C11_example :
  let b := mkbf 8 255 154 MSB_1 MSB_LEFT in
  wf b /\ bf_value (fst (bf_set b (Some 2))) = 218 /\ bf_value (fst (bf_clear b (Some 1))) = 26.
Proof. unfold wf; cbn; repeat split; lia. Qed.

Theorem C12_set_clear_index0_refuted : forall b,
  wf b -> valid_index (bf_numbering b) (bf_width b) 0 -> 1 < bf_width b ->
  (bf_value b = 0 ->
   ~ bit_replaced (bf_value b) (bf_value (fst (bf_set b (Some 0))))
       (weight (bf_numbering b) (bf_width b) 0) 1) /\
  (bf_value b = bf_maxval b ->
   ~ bit_replaced (bf_value b) (bf_value (fst (bf_clear b (Some 0))))
       (weight (bf_numbering b) (bf_width b) 0) 0).
Proof. exact (@C12_set_clear_index0_refuted_pf). Qed.
Print Assumptions C12_set_clear_index0_refuted.

Example C12_refuted_witness :
  let b := mkbf 8 255 0 LSB_0 LSB_LEFT in
  wf b /\ valid_index LSB_0 8 0 /\ bf_value (fst (bf_set b (Some 0))) = 255.
Proof. unfold wf; cbn; repeat split; lia. Qed.

Theorem C13_indices_lsb_msb : forall b, 0 <= bf_width b ->
  bf_indices b = layout (bf_order b) (bf_numbering b) (bf_width b) /\
  NoDup (bf_indices b) /\
  (forall i, In i (bf_indices b) <-> valid_index (bf_numbering b) (bf_width b) i) /\
  (1 <= bf_width b ->
     (exists l, bf_lsb b = Ok l /\ bf_getitem b (Idx l) = Ok (bf_value b mod 2)) /\
     (exists m, bf_msb b = Ok m /\
        bf_getitem b (Idx m) = Ok ((bf_value b / 2 ^ (bf_width b - 1)) mod 2))).
Proof. exact (@C13_indices_lsb_msb_pf). Qed.
Print Assumptions C13_indices_lsb_msb.

Example C13_example :
  let b := mkbf 4 15 8 LSB_1 MSB_LEFT in
  bf_indices b = [4; 3; 2; 1] /\ bf_lsb b = Ok 1 /\ bf_msb b = Ok 4 /\ bf_getitem b (Idx 4) = Ok 1.
Proof. repeat split. Qed.

Theorem C14_isBit : forall b i v,
  (valid_index (bf_numbering b) (bf_width b) i ->
   let x := bit_at (bf_value b) (weight (bf_numbering b) (bf_width b) i) in
   bf_isBit b i v = Ok (x =? v) /\ bf_isBitSet b i = Ok (x =? 1) /\
   bf_isBitClr b i = Ok (x =? 0)) /\
  (~ valid_index (bf_numbering b) (bf_width b) i ->
   bf_isBit b i v = Err ValueError /\ bf_isBitSet b i = Err ValueError /\
   bf_isBitClr b i = Err ValueError).
Proof. exact (@C14_isBit_pf). Qed.
Print Assumptions C14_isBit.

Example C14_example :
  let b := mkbf 8 255 154 MSB_1 MSB_LEFT in
  bf_isBitSet b 1 = Ok true /\ bf_isBitClr b 2 = Ok true /\ bf_isBit b 0 1 = Err ValueError.
Proof. repeat split. Qed.

Theorem C15_isRangeSet_partial : forall b s e,
  valid_range (bf_order b) (bf_numbering b) (bf_width b) s e ->
  (bf_order b = MSB_LEFT /\ weight (bf_numbering b) (bf_width b) e = 0) \/
  range_size (bf_numbering b) (bf_width b) s e = bf_width b ->
  exists t, bf_isRangeSet b (Some s) (Some e) = Ok t /\
            bf_isRange b (Some s) (Some e) 1 = Ok t /\
            (t = true <-> forall k, in_bits b s e k -> bit_at (bf_value b) k = 1).
Proof. exact (@C15_isRangeSet_partial_pf). Qed.
Print Assumptions C15_isRangeSet_partial.

Example C15_isRangeSet_partial_ex : let b := mkbf 8 255 247 MSB_1 MSB_LEFT in
  valid_range MSB_LEFT MSB_1 8 6 8 /\ weight MSB_1 8 8 = 0 /\
  bf_isRangeSet b (Some 6) (Some 8) = Ok true /\ bf_isRangeSet b (Some 5) (Some 8) = Ok false.
Proof. cbv zeta. split; [vm_compute; intuition discriminate|]. vm_compute. auto. Qed.

Theorem C15_isRangeSet_refuted : forall b s e,
  bf_order b = MSB_LEFT ->
  valid_range (bf_order b) (bf_numbering b) (bf_width b) s e ->
  weight (bf_numbering b) (bf_width b) e <> 0 ->
  bf_isRangeSet b (Some s) (Some e) = Ok false.
Proof. exact (@C15_isRangeSet_refuted_pf). Qed.
Print Assumptions C15_isRangeSet_refuted.

(** all bits of an 8-bit field are 1, yet isRangeSet(1,4) is False *)
Example C15_refuted_witness :
  let b := mkbf 8 255 255 MSB_1 MSB_LEFT in
  valid_range MSB_LEFT MSB_1 8 1 4 /\ weight MSB_1 8 4 <> 0 /\
  (forall k, in_bits b 1 4 k -> bit_at 255 k = 1) /\
  bf_isRangeSet b (Some 1) (Some 4) = Ok false /\ bf_isRangeSet b (Some 5) (Some 8) = Ok true.
Proof.
  unfold valid_range, in_bits, range_lo, range_size; cbn. repeat split; try lia.
  intros k Hk. assert (k = 4 \/ k = 5 \/ k = 6 \/ k = 7) as [-> | [-> | [-> | ->]]] by lia; reflexivity.
Qed.

Theorem C16_isRange_zero_partial : forall b s e,
  bf_order b = MSB_LEFT ->
  valid_range (bf_order b) (bf_numbering b) (bf_width b) s e ->
  exists t, bf_isRange b (Some s) (Some e) 0 = Ok t /\
            (t = true <-> forall k, in_bits b s e k -> bit_at (bf_value b) k = 0) /\
            (t = true -> bf_isRangeClr b (Some s) (Some e) = Ok true).
Proof. exact (@C16_isRange_zero_partial_pf). Qed.
Print Assumptions C16_isRange_zero_partial.

Example C16_isRange_zero_partial_ex : let b := mkbf 8 255 200 MSB_1 MSB_LEFT in
  valid_range MSB_LEFT MSB_1 8 3 4 /\ bf_isRange b (Some 3) (Some 4) 0 = Ok true /\ bf_isRange b (Some 3) (Some 5) 0 = Ok false.
Proof. cbv zeta. split; [vm_compute; intuition discriminate|]. vm_compute. auto. Qed.

Theorem C16_isRangeClr_refuted : forall b s e,
  bf_order b = MSB_LEFT ->
  valid_range (bf_order b) (bf_numbering b) (bf_width b) s e ->
  (exists k, in_bits b s e k /\ bit_at (bf_value b) k = 0) ->
  bf_isRangeClr b (Some s) (Some e) = Ok true.
Proof. exact (@C16_isRangeClr_refuted_pf). Qed.
Print Assumptions C16_isRangeClr_refuted.

(** isRangeClr(1,8) of 254 is True although seven of the eight bits are 1 *)
Example C16_refuted_witness :
  let b := mkbf 8 255 254 MSB_1 MSB_LEFT in
  valid_range MSB_LEFT MSB_1 8 1 8 /\ (in_bits b 1 8 0 /\ bit_at 254 0 = 0) /\
  (in_bits b 1 8 1 /\ bit_at 254 1 = 1) /\ bf_isRangeClr b (Some 1) (Some 8) = Ok true.
Proof. unfold valid_range, in_bits, range_lo, range_size; cbn. repeat split; lia. Qed.

Theorem C18_repr : forall b,
  1 <= bf_width b -> fits (bf_width b) (bf_value b) ->
  zlen (bf_repr b) = bf_width b /\
  Forall (fun c => c = 48 \/ c = 49) (bf_repr b) /\
  spelled 2 (bf_repr b) = bf_value b.
Proof. exact (@C18_repr_pf). Qed.
Print Assumptions C18_repr.

Example C18_example : bf_repr (mkbf 8 255 5 MSB_1 MSB_LEFT) = lit "00000101".
Proof. reflexivity. Qed.

Theorem C19_array_of_bits : forall b cs a,
  wf b -> bf_order b = MSB_LEFT -> fits (bf_width b) (bf_value b) ->
  (forall k, 0 <= k < bf_width b -> a k = Z.odd (bf_value b / 2 ^ k)) ->
  Forall (call_ok b) cs ->
  bf_trace b cs = arr_trace (bf_numbering b) (bf_width b) a cs.
Proof. exact (@C19_array_of_bits_pf). Qed.
Print Assumptions C19_array_of_bits.

Example C19_example :
  let b := mkbf 8 255 154 MSB_1 MSB_LEFT in
  let cs := [Write (OpItem (Slice (Some 1) (Some 4)) 5); ReadItem (Slice (Some 3) (Some 6));
             Write (OpSet (Some 8)); ReadValue; ReadItem (Idx 9); Write (OpItem (Slice (Some 4) (Some 2)) 1);
             ReadBit 1 0] in
  wf b /\ fits 8 154 /\ Forall (call_ok b) cs /\
  bf_trace b cs = [Some 0; Some 6; Some 0; Some 91; None; None; Some 1].
Proof.
  cbv zeta. split; [|split; [|split; [|vm_compute; reflexivity]]].
  - split; [cbn; lia|reflexivity].
  - unfold fits. lia.
  - repeat constructor; cbn; try lia; unfold valid_range, range_size, fits; cbn; lia.
Qed.
