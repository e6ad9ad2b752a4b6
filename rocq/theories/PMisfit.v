(** Property theorems; generated from LMisfit.v by meta/genp.py. *)
From Verif Require Import Py MBitField SBits LBits LBitField MWord SWord LWord SMisfit LMisfit.

Theorem C02_constructor_exact : forall value width numbering order, 0 <= width ->
  ((exists b, bf_new value width numbering order = Ok b) <-> width <= 64 /\ 0 <= numbering <= 3 /\ 0 <= order <= 1 /\ value <= 2 ^ width - 1) /\
  (forall b, bf_new value width numbering order = Ok b -> bf_value b = value).
Proof. exact (@C02_constructor_exact_pf). Qed.
Print Assumptions C02_constructor_exact.

Example C02_constructor_exact_ex : bf_new 255 8 0 0 = Ok (mkbf 8 255 255 LSB_0 MSB_LEFT) /\ bf_new 256 8 0 0 = Err ValueError /\
  bf_new (-300) 8 0 0 = Ok (mkbf 8 255 (-300) LSB_0 MSB_LEFT) /\ bf_new 0 65 0 0 = Err ValueError.
Proof. vm_compute. auto. Qed.

Theorem C07_slice_write_lsb_left_exact : forall b s e x, bf_order b = LSB_LEFT -> wf b -> fits (bf_width b) (bf_value b) ->
  valid_range (bf_order b) (bf_numbering b) (bf_width b) s e ->
  let lo := weight (bf_numbering b) (bf_width b) s in
  let hi := weight (bf_numbering b) (bf_width b) e in
  let n := hi - lo + 1 in
  1 < n < bf_width b -> x <= 2 ^ n ->
  exists v', bf_setitem b (Slice (Some s) (Some e)) x = (with_value b v', Ok tt) /\
    bits_merged (bf_value b) v' (bf_width b) hi n x lo.
Proof. exact (@C07_slice_write_lsb_left_exact_pf). Qed.
Print Assumptions C07_slice_write_lsb_left_exact.

Example C07_slice_write_lsb_left_exact_ex : let b := mkbf 8 255 255 LSB_0 LSB_LEFT in
  bf_value (fst (bf_setitem b (Slice (Some 1) (Some 4)) 0)) = 15 /\ bf_value (fst (bf_setitem b (Slice (Some 4) (Some 7)) 5)) = 127 /\
  bf_value (fst (bf_setitem (mkbf 8 255 0 LSB_0 LSB_LEFT) (Slice (Some 1) (Some 4)) 9)) = 18.
Proof. vm_compute. auto. Qed.

Theorem C08_slice_exact : forall b s e x, wf b -> valid_range (bf_order b) (bf_numbering b) (bf_width b) s e ->
  let n := range_size (bf_numbering b) (bf_width b) s e in
  let lo := range_lo (bf_numbering b) (bf_width b) s e in
  bf_order b = MSB_LEFT \/ n = 1 \/ n = bf_width b ->
  (2 ^ n < x -> bf_setitem b (Slice (Some s) (Some e)) x = (b, Err ValueError)) /\
  (x <= 2 ^ n -> exists v', bf_setitem b (Slice (Some s) (Some e)) x = (with_value b v', Ok tt) /\
    bits_merged (bf_value b) v' (bf_width b) lo n x lo).
Proof. exact (@C08_slice_exact_pf). Qed.
Print Assumptions C08_slice_exact.

Example C08_slice_exact_ex : let b := mkbf 8 255 1 MSB_1 MSB_LEFT in
  bf_value (fst (bf_setitem b (Slice (Some 5) (Some 7)) 8)) = 17 /\ bf_value (fst (bf_setitem b (Slice (Some 5) (Some 7)) (-3))) = -5 /\
  bits_merged 1 17 8 1 3 8 1 /\ bits_merged 1 (-5) 8 1 3 (-3) 1 /\ snd (bf_setitem b (Slice (Some 5) (Some 7)) 9) = Err ValueError.
Proof.
  cbv zeta. split; [vm_compute; reflexivity|]. split; [vm_compute; reflexivity|].
  assert (V : valid_range MSB_LEFT MSB_1 8 5 7) by (vm_compute; intuition discriminate).
  assert (W : wf (mkbf 8 255 1 MSB_1 MSB_LEFT)) by (vm_compute; intuition discriminate).
  split; [|split; [|vm_compute; reflexivity]].
  - destruct (proj2 (C08_slice_exact (mkbf 8 255 1 MSB_1 MSB_LEFT) 5 7 8 W V (or_introl eq_refl)) ltac:(vm_compute; discriminate)) as (v' & E & M).
    replace 17 with v'; [exact M|]. vm_compute in E. injection E as <-. reflexivity.
  - destruct (proj2 (C08_slice_exact (mkbf 8 255 1 MSB_1 MSB_LEFT) 5 7 (-3) W V (or_introl eq_refl)) ltac:(vm_compute; discriminate)) as (v' & E & M).
    replace (-5) with v'; [exact M|]. vm_compute in E. injection E as <-. reflexivity.
Qed.

Theorem C08_bit_exact : forall b i x, wf b -> valid_index (bf_numbering b) (bf_width b) i ->
  let w := weight (bf_numbering b) (bf_width b) i in
  (2 < x -> bf_setitem b (Idx i) x = (b, Err ValueError)) /\
  (x <= 2 -> exists v', bf_setitem b (Idx i) x = (with_value b v', Ok tt) /\
    bit_at v' w = (if x =? 1 then 1 else 0) /\
    forall k, 0 <= k -> k <> w -> bit_at v' k = if x =? 1 then bit_at (bf_value b) k else kept_bit (bf_value b) (bf_width b) k).
Proof. exact (@C08_bit_exact_pf). Qed.
Print Assumptions C08_bit_exact.

Example C08_bit_exact_ex : let b := mkbf 8 255 (-1) LSB_0 MSB_LEFT in
  bf_value (fst (bf_setitem b (Idx 3) 2)) = 247 /\ bf_value (fst (bf_setitem b (Idx 3) (-7))) = 247 /\ bf_value (fst (bf_setitem b (Idx 3) 1)) = -1 /\
  bf_setitem b (Idx 3) 3 = (b, Err ValueError).
Proof. vm_compute. auto. Qed.

Theorem C12_index0_exact : forall b, bf_set b (Some 0) = (with_value b (bf_maxval b), Ok tt) /\ bf_clear b (Some 0) = (with_value b 0, Ok tt).
Proof. exact (@C12_index0_exact_pf). Qed.
Print Assumptions C12_index0_exact.

Example C12_index0_exact_ex : let b := mkbf 8 255 6 LSB_0 MSB_LEFT in
  bf_value (fst (bf_set b (Some 0))) = 255 /\ bf_value (fst (bf_clear b (Some 0))) = 0.
Proof. vm_compute. auto. Qed.

Theorem C23_set_exact : forall w f x, (exists c a b c' w0 ops, iw_new c a b c' = Ok w0 /\ w = iw_run w0 ops) -> x <= 4096 ->
  snd (iw_set w f x) = Ok tt /\
  bits_merged (iw_value w) (iw_value (fst (iw_set w f x))) 48 (field_place f) 12 x (field_place f).
Proof. exact (@C23_set_exact_pf). Qed.
Print Assumptions C23_set_exact.

Example C23_set_exact_ex : exists w, iw_new 0 1 2 3 = Ok w /\ iw_value (fst (iw_set w FB 4096)) = 2 ^ 24 + 3 /\
  iw_value (fst (iw_set w FB (-1))) = 3 - 4096 /\ iw_value (fst (iw_set w Command 4096)) = 2 ^ 48 + 2 ^ 24 + 2 * 4096 + 3.
Proof. eexists. split; [vm_compute; reflexivity|]. vm_compute. auto. Qed.
