(** Property theorems; generated from LProto.v by meta/genp.py. *)
From Verif Require Import Py MBitField SBits LPy LBits LBitField MWord LWord MMemory SMemory LMemory MRegisters SRegisters LRegisters LRegHeap SCursor SOwn LOwn MProto SProto LProto.

Theorem C108_list_refuted : forall b, wf b ->
  (forall fuel, (Z.to_nat (bf_width b) < fuel)%nat -> seq_list (bf_item b) fuel = Some (Err ValueError)) /\
  (forall r fuel, r_data r = b -> (Z.to_nat (bf_width b) < fuel)%nat ->
     seq_list (reg_item r) fuel = Some (Err ValueError)).
Proof. exact (@C108_list_refuted_pf). Qed.
Print Assumptions C108_list_refuted.

Example C108_list_witness :
  seq_list (bf_item (mkbf 8 255 5 LSB_0 LSB_LEFT)) 9 = Some (Err ValueError) /\
  seq_for (bf_item (mkbf 8 255 5 LSB_0 LSB_LEFT)) 9 0 = ([1; 0; 1; 0; 0; 0; 0; 0], Raised ValueError).
Proof. split; reflexivity. Qed.

Theorem C108_for_partial : forall b fuel, wf b -> (Z.to_nat (bf_width b) < fuel)%nat ->
  (first_index (bf_numbering b) = 0 ->
     seq_for (bf_item b) fuel 0 = (map (bit_no b) (upto 0 (bf_width b)), Raised ValueError)) /\
  (first_index (bf_numbering b) = 1 -> seq_for (bf_item b) fuel 0 = ([], Raised ValueError)).
Proof. exact (@C108_for_partial_pf). Qed.
Print Assumptions C108_for_partial.

Example C108_for_example :
  seq_for (bf_item (mkbf 4 15 3 MSB_0 MSB_LEFT)) 5 0 = ([0; 0; 1; 1], Raised ValueError) /\
  seq_for (bf_item (mkbf 4 15 3 MSB_1 MSB_LEFT)) 5 0 = ([], Raised ValueError).
Proof. split; reflexivity. Qed.

Theorem C108_in_partial : forall b x fuel, wf b -> (Z.to_nat (bf_width b) < fuel)%nat ->
  (first_index (bf_numbering b) = 0 ->
     seq_in (fun y => y =? x) (bf_item b) fuel 0 =
     Some (if existsb (fun i => bit_no b i =? x) (upto 0 (bf_width b)) then Ok true else Err ValueError)) /\
  (first_index (bf_numbering b) = 1 -> seq_in (fun y => y =? x) (bf_item b) fuel 0 = Some (Err ValueError)).
Proof. exact (@C108_in_partial_pf). Qed.
Print Assumptions C108_in_partial.

Example C108_in_example :
  seq_in (fun y => y =? 1) (bf_item (mkbf 4 15 2 LSB_0 MSB_LEFT)) 5 0 = Some (Ok true) /\
  seq_in (fun y => y =? 1) (bf_item (mkbf 4 15 0 LSB_0 MSB_LEFT)) 5 0 = Some (Err ValueError).
Proof. split; reflexivity. Qed.

Theorem C108_reversed_partial : forall b, wf b ->
  (first_index (bf_numbering b) = 0 ->
     seq_reversed (bf_item b) (Z.to_nat (bf_len b)) = Ok (rev (map (bit_no b) (upto 0 (bf_width b))))) /\
  (first_index (bf_numbering b) = 1 -> 1 <= bf_width b ->
     seq_reversed (bf_item b) (Z.to_nat (bf_len b)) = Err ValueError).
Proof. exact (@C108_reversed_partial_pf). Qed.
Print Assumptions C108_reversed_partial.

Example C108_reversed_example :
  seq_reversed (bf_item (mkbf 4 15 3 MSB_0 MSB_LEFT)) 4 = Ok [1; 1; 0; 0] /\
  seq_reversed (bf_item (mkbf 4 15 3 MSB_1 MSB_LEFT)) 4 = Err ValueError.
Proof. split; reflexivity. Qed.

Theorem C110_truth_refuted : forall b, wf b -> 1 <= bf_width b ->
  truth (bf_len b) = true /\ truth (bf_len (with_value b 0)) = true /\ bf_int (with_value b 0) = 0.
Proof. exact (@C110_truth_refuted_pf). Qed.
Print Assumptions C110_truth_refuted.

Example C110_truth_witness : truth (bf_len (mkbf 8 255 0 LSB_0 LSB_LEFT)) = true.
Proof. reflexivity. Qed.

Theorem C110_len_int_partial : forall v W n o b ops, bf_new v W n o = Ok b -> 0 <= W ->
  bf_len (bf_run b ops) = W /\ bf_int (bf_run b ops) = bf_value (bf_run b ops) /\
  bf_index (bf_run b ops) = bf_value (bf_run b ops) /\ bf_int b = v.
Proof. exact (@C110_len_int_partial_pf). Qed.
Print Assumptions C110_len_int_partial.

Example C110_len_int_example : let b := mkbf 8 255 5 LSB_0 LSB_LEFT in
  (bf_len b, bf_int (bf_run b [OpValue 9]), bf_index b) = (8, 9, 5).
Proof. reflexivity. Qed.

Theorem C109_text_determined : forall w v s t,
  octal_text w v s -> octal_text w v t -> s = t.
Proof. exact (@C109_text_determined_pf). Qed.
Print Assumptions C109_text_determined.

Example C109_text_example : octal_text 6 (8 ^ 6) (lit "0o1000000") /\ octal_text 6 8 (lit "0o000010") /\ octal_text 6 (-8) (lit "0o-00010").
Proof.
  split; [exists (lit "1000000")|split; [exists (lit "000010")|exists (lit "00010")]]; (split; [reflexivity|]);
    (split; [apply Forall_forall; intros c Hc; cbn in Hc; lia|]); (split; [reflexivity|]); (split; [vm_compute; congruence|]);
    intros H; vm_compute in H |- *; congruence.
Qed.

Theorem C109_value_determined : forall w v w' v' s, octal_text w v s -> octal_text w' v' s -> v = v'.
Proof. exact (@C109_value_determined_pf). Qed.
Print Assumptions C109_value_determined.

Example C109_value_determined_ex : forall v, octal_text 6 v (lit "0o-00010") -> v = -8.
Proof.
  intros v H. apply (C109_value_determined 6 v 6 (-8) (lit "0o-00010") H).
  exact (proj2 (proj2 C109_text_example)).
Qed.

Theorem C109_register_repr : forall r,
  octal_text 6 (reg_value r) (reg_repr r) /\ (- 8 ^ 5 < reg_value r < 8 ^ 6 <-> zlen (reg_repr r) = 8).
Proof. exact (@C109_register_repr_pf). Qed.
Print Assumptions C109_register_repr.

Example C109_register_example :
  match register_new 511 None 24 with
  | Ok r => reg_repr r = lit "0o000777" /\ reg_repr (fst (reg_set_value r 16777215)) = lit "0o77777777"
  | Err _ => False
  end.
Proof. vm_compute. split; reflexivity. Qed.

Theorem C109_bank_repr : forall m, reachable m ->
  exists words, bank_repr m = flat_map (fun t => t ++ lit " ") words /\ zlen words = 2048 /\
    forall a, 0 <= a < 2048 -> exists t v, nth_error words (Z.to_nat a) = Some t /\
      bank_getitem m (Idx a) = Ok [v] /\ octal_text 16 v t /\ zlen t = 18.
Proof. exact (@C109_bank_repr_pf). Qed.
Print Assumptions C109_bank_repr.

Example C109_bank_example :
  match bank_new with
  | Ok m => firstn 38 (bank_repr (fst (bank_setitem m (Idx 1) (2 ^ 48 - 1)))) =
            lit "0o0000000000000000 0o7777777777777777 "
  | Err _ => False
  end.
Proof. rewrite bank_new_value. vm_compute. reflexivity. Qed.

Theorem C109_file_repr : forall h W h' rs cs, registers_new h W = (h', Ok rs) ->
  let st := regs_run (h', rs) cs in
  exists text : Z -> Z -> str,
    let line k := flat_map (fun i => text k i ++ lit " ") (upto 0 32) in
    (forall k i, 0 <= k < 8 -> 0 <= i < 32 -> exists v,
       snd (regs_call st (Reach (AtGroup (KI k)) (AtReg (KI i)) AValue)) = Ok v /\ octal_text 6 v (text k i)) /\
    (forall k g, registers_getitem (snd st) (KI k) = Ok g -> group_repr (fst st) g = Ok (line k)) /\
    registers_repr (fst st) (snd st) =
      Ok (flat_map (fun k => lit "[" ++ [48 + k] ++ lit "] " ++ line k ++ [10]) (upto 0 8)).
Proof. exact (@C109_file_repr_pf). Qed.
Print Assumptions C109_file_repr.

Example C109_file_example :
  match registers_new heap0 16 with
  | (h, Ok rs) =>
      let '(h1, rs1) := regs_run (h, rs) [Reach (AtGroup (KI 0)) (AtReg (KS (lit "AU2"))) (ASetValue 8)] in
      match registers_repr h1 rs1 with
      | Ok s => firstn 22 s = lit "[0] 0o000000 0o000010 " /\ zlen s = 8 * (4 + 32 * 9 + 1)
      | Err _ => False
      end
  | _ => False
  end.
Proof. vm_compute. split; reflexivity. Qed.

Theorem C111_module_list_refuted : forall n m cs fuel, n = 4 \/ n = 8 -> module_new n = Ok m ->
  (Z.to_nat n < fuel)%nat ->
  seq_list (module_item (module_run m cs)) fuel = Some (Err KeyError).
Proof. exact (@C111_module_list_refuted_pf). Qed.
Print Assumptions C111_module_list_refuted.

Example C111_module_list_witness :
  match memory_module with Ok m => seq_list (module_item m) 5 = Some (Err KeyError) | Err _ => False end.
Proof.
  unfold memory_module. destruct (C30_modules_pf 4) as (m & b & E & _); [left; reflexivity|]. rewrite E.
  apply (C111_module_list_refuted 4 m [] 5); [left; reflexivity|exact E|vm_compute; lia].
Qed.

Theorem C111_module_for_partial : forall n m cs fuel, n = 4 \/ n = 8 -> module_new n = Ok m ->
  (Z.to_nat n < fuel)%nat ->
  let m' := module_run m cs in
  seq_for (module_item m') fuel 0 = (upto 0 n, Raised KeyError) /\
  seq_reversed (module_item m') (Z.to_nat (module_len m')) = Ok (rev (upto 0 n)).
Proof. exact (@C111_module_for_partial_pf). Qed.
Print Assumptions C111_module_for_partial.

Example C111_module_for_example :
  match expansion_module with
  | Ok m => seq_for (module_item m) 9 0 = ([0; 1; 2; 3; 4; 5; 6; 7], Raised KeyError)
  | Err _ => False
  end.
Proof.
  unfold expansion_module. destruct (C30_modules_pf 8) as (m & b & E & _); [right; reflexivity|]. rewrite E.
  apply (C111_module_for_partial 8 m [] 9); [right; reflexivity|exact E|vm_compute; lia].
Qed.

Theorem C111_in_bank_refuted : forall m v, reachable m ->
  let '(m', r) := bank_in enough m (OInt v) in
  r = Some false /\ snd (bank_loop enough m') = Ok [] /\
  (forall a, bank_getitem m' (Idx a) = bank_getitem m (Idx a)).
Proof. exact (@C111_in_bank_refuted_pf). Qed.
Print Assumptions C111_in_bank_refuted.

Example C111_in_bank_witness : exists m, reachable m /\ bank_getitem m (Idx 3) = Ok [7] /\
  snd (bank_in enough m (OInt 7)) = Some false.
Proof.
  destruct C25_bank_is_array_pf as (m & E & _ & G).
  exists (bank_run m [MSet (Idx 3) 7]).
  assert (R : reachable (bank_run m [MSet (Idx 3) 7])) by (exists m, [MSet (Idx 3) 7]; auto).
  split; [exact R|]. split.
  - exact (G [MSet (Idx 3) 7] 3 ltac:(lia)).
  - assert (H := C111_in_bank_refuted _ 7 R). destruct (bank_in enough _ _). apply H.
Qed.

Theorem C111_bank_partial : forall m, reachable m ->
  (forall a, exists k, 0 <= k <= 2048 /\ snd (bank_in enough m (OWord a)) = Some ((k <=? a) && (a <? 2048)) /\
     snd (bank_loop enough m) = Ok (upto k 2048)) /\
  seq_reversed (bank_item m) (Z.to_nat (bank_len m)) =
    (do vs <- bank_getitem m (Slice (Some 0) (Some 2048)); Ok (rev vs)).
Proof. exact (@C111_bank_partial_pf). Qed.
Print Assumptions C111_bank_partial.

Example C111_bank_example :
  match bank_new with
  | Ok m => let m' := fst (bank_setitem m (Idx 3) 7) in
            (do vs <- seq_reversed (bank_item m') (Z.to_nat (bank_len m')); Ok (nth_error vs 2044)) = Ok (Some 7)
  | Err _ => False
  end.
Proof. rewrite bank_new_value. vm_compute. reflexivity. Qed.

Theorem C111_group_reversed_partial : forall h W h' rs cs k g gr, registers_new h W = (h', Ok rs) ->
  let '(h1, rs1) := regs_run (h', rs) cs in
  registers_getitem rs1 (KI k) = Ok g -> deref (h_groups h1) g = Ok gr ->
  exists rr, seq_reversed (group_item gr) (Z.to_nat (group_len gr)) = Ok rr /\ zlen rr = 32 /\
    forall i, 0 <= i < 32 -> exists r, nth_error rr (Z.to_nat (31 - i)) = Some r /\ group_getitem gr (KI i) = Ok r.
Proof. exact (@C111_group_reversed_partial_pf). Qed.
Print Assumptions C111_group_reversed_partial.

Example C111_group_reversed_example :
  match registers_new heap0 16 with
  | (h, Ok rs) =>
      match deref (h_groups h) 0 with
      | Ok gr => (do l <- seq_reversed (group_item gr) 32; Ok (firstn 3 l)) = Ok [31%nat; 30%nat; 29%nat]
      | Err _ => False
      end
  | _ => False
  end.
Proof. vm_compute. reflexivity. Qed.
