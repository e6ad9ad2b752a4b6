(** Memory as an array of words, and registers that address it: C185, C186. *)
From Verif Require Import Py LPy MBitField SBits LBits LBitField MWord LWord MMemory SMemory LMemory MRegisters SRegisters LRegisters LProgram SFlat.
#[local] Arguments Z.add : simpl never.
#[local] Arguments Z.sub : simpl never.
#[local] Arguments Z.mul : simpl never.
#[local] Arguments Z.pow : simpl never.
#[local] Arguments Z.div : simpl never.
#[local] Arguments Z.modulo : simpl never.

Lemma flat_app n cs c : flat_run n (cs ++ [c]) = flat_step n (flat_run n cs) c.
Proof. unfold flat_run. rewrite fold_left_app. reflexivity. Qed.
Lemma in_bank n a : flat_addr n a = true <-> 0 <= a / 2048 < n.
Proof.
  unfold flat_addr. rewrite andb_true_iff, Z.leb_le, Z.ltb_lt. pose proof (Z.div_mod a 2048 ltac:(lia)). pose proof (Z.mod_pos_bound a 2048 ltac:(lia)). lia.
Qed.
Lemma flat_cells n cs i s : 0 <= i < n -> 0 <= s < 2048 -> cells (smem_run smem_new (calls_to i (map at_address cs))) s = flat_run n cs (i * 2048 + s).
Proof.
  intros I S0. induction cs as [|c cs IH] using rev_ind; [reflexivity|]. rewrite map_app, calls_app, flat_app. cbn [map]. unfold smem_run. rewrite fold_left_app.
  change (fold_left (fun s c => fst (smem_call s c)) ?l smem_new) with (smem_run smem_new l). set (m := smem_run smem_new _) in *.
  destruct c as [a|a v]; unfold calls_to; cbn [at_address filter fst map flat_step].
  - destruct (a / 2048 =? i); cbn [map fold_left snd smem_call fst]; exact IH.
  - pose proof (Z.div_mod a 2048 ltac:(lia)) as D. pose proof (Z.mod_pos_bound a 2048 ltac:(lia)) as B.
    destruct (Z.eqb_spec (a / 2048) i) as [E|E]; cbn [map fold_left snd].
    + rewrite (proj2 (in_bank n a)) by lia. cbn [smem_call]. unfold good_addr at 1. rewrite (proj2 (Z.leb_le 0 (a mod 2048))), (proj2 (Z.ltb_lt (a mod 2048) 2048)) by lia. cbn [andb negb].
      destruct (good_value v); cbn [negb fst cells]; [|exact IH]. unfold store.
      destruct (Z.eqb_spec (i * 2048 + s) a) as [F|F].
      * destruct (Z.leb_spec (a mod 2048) s), (Z.ltb_spec s (a mod 2048 + 1)); try lia. reflexivity.
      * destruct (Z.leb_spec (a mod 2048) s), (Z.ltb_spec s (a mod 2048 + 1)); try lia; exact IH.
    + rewrite IH. destruct (flat_addr n a && good_value v); [|reflexivity]. destruct (Z.eqb_spec (i * 2048 + s) a) as [F|F]; [|reflexivity].
      destruct E. subst a. rewrite Z.add_comm, Z.div_add by lia. rewrite Z.div_small by lia. lia.
Qed.
Lemma C185_array_pf : forall n, n = 4 \/ n = 8 -> exists m, module_new n = Ok m /\
  forall cs c, let m' := module_run m (map at_address cs) in
    module_size m' = Ok (n * 2048) /\
    snd (module_call m' (fst (at_address c)) (snd (at_address c))) = flat_result n (flat_run n cs) c.
Proof.
  intros n Hn. destruct (C30_modules_pf n Hn) as (m & b & E & EB & H). exists m. split; [exact E|]. intros cs c. cbv zeta.
  destruct (H (map at_address cs)) as (_ & SZ & _ & DI & DO). split; [exact SZ|]. destruct bank_new_MR as (b' & EB' & MR0). rewrite EB in EB'. injection EB' as <-.
  assert (HR : forall i, MR (bank_run b (calls_to i (map at_address cs))) (smem_run smem_new (calls_to i (map at_address cs)))) by (intros i; apply run_simulates; exact MR0).
  assert (IN : forall a, flat_addr n a = true -> snd (module_call (module_run m (map at_address cs)) (fst (at_address c)) (snd (at_address c))) = 
                 snd (smem_call (smem_run smem_new (calls_to (fst (at_address c)) (map at_address cs))) (snd (at_address c))) \/ fst (at_address c) <> a / 2048).
  { intros a F. destruct (Z.eq_dec (fst (at_address c)) (a / 2048)) as [Q|Q]; [|right; exact Q]. left. apply in_bank in F. unfold module_call. rewrite DI by lia.
    destruct (call_simulates _ _ (snd (at_address c)) (HR (fst (at_address c)))) as (S1 & _).
    destruct (bank_call _ _) as [b1 r1]. cbn [snd] in *. exact S1. }
  assert (OUT : forall a, flat_addr n a = false -> fst (at_address c) = a / 2048 -> snd (module_call (module_run m (map at_address cs)) (fst (at_address c)) (snd (at_address c))) = Err KeyError).
  { intros a F Q. rewrite DO; [reflexivity|]. rewrite Q. intros X. apply in_bank in X. congruence. }
  destruct c as [a|a v]; cbn [flat_result]; pose proof (Z.mod_pos_bound a 2048 ltac:(lia)) as B; pose proof (Z.div_mod a 2048 ltac:(lia)) as D.
  - destruct (flat_addr n a) eqn:F; [|exact (OUT a F eq_refl)]. destruct (IN a F) as [Q|Q]; [|destruct Q; reflexivity]. rewrite Q. cbn [at_address fst snd smem_call].
    unfold good_addr. rewrite (proj2 (Z.leb_le 0 (a mod 2048))), (proj2 (Z.ltb_lt (a mod 2048) 2048)) by lia. cbn [andb]. apply in_bank in F.
    rewrite (flat_cells n cs) by lia. do 3 f_equal. lia.
  - destruct (flat_addr n a) eqn:F; [|exact (OUT a F eq_refl)]. destruct (IN a F) as [Q|Q]; [|destruct Q; reflexivity]. rewrite Q. cbn [at_address fst snd smem_call negb].
    unfold good_addr. rewrite (proj2 (Z.leb_le 0 (a mod 2048))), (proj2 (Z.ltb_lt (a mod 2048) 2048)) by lia. cbn [andb negb]. destruct (good_value v); reflexivity.
Qed.
(*@ Example C185_array_ex : match module_new 4 with
  | Ok m => let m' := module_run m (map at_address [FSet 8191 7; FSet 6144 5; FSet 8192 1; FSet 2047 (2 ^ 48)]) in
      map (fun c => snd (module_call m' (fst (at_address c)) (snd (at_address c)))) [FGet 8191; FGet 6144; FGet 8192; FGet 2047; FGet (-1); FSet 0 (-1)] =
      [Ok [7]; Ok [5]; Err KeyError; Ok [0]; Err KeyError; Err ValueError]
  | Err _ => False
  end.
Proof. destruct (C185_array 4 (or_introl eq_refl)) as (m & E & H). rewrite E. cbv zeta.
  etransitivity; [apply map_ext; intros c; exact (proj2 (H _ c))|]. vm_compute. reflexivity. Qed. @*)

(** *** registers *)
Lemma C186_address_pf : forall data name W r0 xs,
  register_new data name W = Ok r0 -> Forall (act_fits W) xs ->
  let r := reg_run r0 xs in let a := reg_value r mod 2 ^ 15 in
  0 <= a < 16 * 2048 /\
  reg_getitem r (Slice (Some (W - 14)) (Some (W - 11))) = Ok (a / 2048) /\
  reg_getitem r (Slice (Some (W - 10)) (Some W)) = Ok (a mod 2048) /\
  reg_getitem r (Idx (W - 15)) = Ok (reg_value r / 2 ^ 15 mod 2).
Proof.
  intros data name W r0 xs E F. cbv zeta. assert (HW : W = 16 \/ W = 24).
  { destruct (C33_constructor_pf data name W) as (X & _ & _). destruct (Z.eq_dec W 16) as [|N1]; [left; assumption|]. destruct (Z.eq_dec W 24) as [|N2]; [right; assumption|].
    assert (Q : register_new data name W = Err ValueError) by (apply X; intros (_ & _ & [Y|Y]); contradiction). rewrite E in Q. discriminate. }
  destruct (C34_register_bits_pf data name W r0 xs E F) as (V & BI & _ & SL & _). set (v := reg_value _) in *. clearbody v.
  rewrite SL, SL, BI by lia. unfold bits_at, bit_at. replace (W - (W - 11)) with 11 by lia. replace (W - 11 - (W - 14) + 1) with 4 by lia. replace (W - W) with 0 by lia. replace (W - (W - 10) + 1) with 11 by lia. replace (W - (W - 15)) with 15 by lia.
  change (2 ^ 15) with 32768. change (2 ^ 11) with 2048. change (2 ^ 4) with 16. change (2 ^ 0) with 1. rewrite Z.div_1_r.
  pose proof (Z.mod_pos_bound v 32768 ltac:(lia)) as B. split; [lia|]. split; [|split; [|reflexivity]]; f_equal.
  - change 32768 with (2048 * 16). rewrite Z.rem_mul_r by lia. symmetry. rewrite Z.add_comm, Z.mul_comm, Z.div_add_l by lia. rewrite (Z.div_small (v mod 2048)) by (apply Z.mod_pos_bound; lia). lia.
  - change 32768 with (2048 * 16). rewrite Z.rem_mul_r by lia. rewrite Z.mul_comm, Z.mod_add by lia. rewrite Z.mod_mod by lia. reflexivity.
Qed.
(*@ Example C186_address_ex : match register_new 0 None 16 with
  | Ok r0 => let r := reg_run r0 [ASetValue (2 ^ 15 + 5 * 2048 + 77)] in
      reg_getitem r (Slice (Some 2) (Some 5)) = Ok 5 /\ reg_getitem r (Slice (Some 6) (Some 16)) = Ok 77 /\ reg_getitem r (Idx 1) = Ok 1
  | Err _ => False end.
Proof. vm_compute. auto. Qed. @*)

(** *** register words *)
Lemma C186_stored_pf : forall data name W r0 xs,
  register_new data name W = Ok r0 -> Forall (act_fits W) xs ->
  let r := reg_run r0 xs in
  exists w, word_new (reg_value r) = Ok w /\ word_value w = reg_value r /\
    (forall i, 1 <= i <= 48 - W -> bf_getitem w (Idx i) = Ok 0) /\
    (forall i, 48 - W < i <= 48 -> bf_getitem w (Idx i) = reg_getitem r (Idx (i - (48 - W)))) /\
    bf_getitem w (Slice (Some (49 - W)) (Some 48)) = Ok (reg_value r).
Proof.
  intros data name W r0 xs E F. cbv zeta. assert (HW : W = 16 \/ W = 24).
  { destruct (C33_constructor_pf data name W) as (X & _ & _). destruct (Z.eq_dec W 16) as [|N1]; [left; assumption|]. destruct (Z.eq_dec W 24) as [|N2]; [right; assumption|].
    assert (Q : register_new data name W = Err ValueError) by (apply X; intros (_ & _ & [Y|Y]); contradiction). rewrite E in Q. discriminate. }
  destruct (C34_register_bits_pf data name W r0 xs E F) as (V & BI & _ & SL & _). set (r := reg_run r0 xs) in *. set (v := reg_value r) in *.
  assert (VV : 0 <= v < 2 ^ 48) by (assert (2 ^ W < 2 ^ 48) by (apply Z.pow_lt_mono_r; lia); lia).
  assert (WB : forall i, 1 <= i <= 48 -> bf_getitem (wbits v) (Idx i) = Ok (bit_at v (48 - i))).
  { intros i Hi. rewrite (proj1 (C03_bit_read_pf (wbits v) i)); cbn [wbits bf_numbering bf_width bf_value]; [unfold weight; do 2 f_equal; lia|unfold valid_index; lia]. }
  exists (wbits v). split; [apply word_new_ok; exact VV|]. split; [reflexivity|]. split; [|split].
  - intros i Hi. rewrite WB by lia. unfold bit_at. rewrite Z.div_small; [reflexivity|]. split; [lia|]. apply (Z.lt_le_trans _ (2 ^ W)); [lia|]. apply Z.pow_le_mono_r; lia.
  - intros i Hi. rewrite WB, BI by lia. do 2 f_equal. lia.
  - destruct HW as [-> | ->]; rewrite (proj1 (C05_slice_read_msb_left_pf (wbits v) eq_refl) _ _); try (cbn [wbits bf_order bf_numbering bf_width]; unfold valid_range, valid_index, weight; lia);
      cbn [wbits bf_numbering bf_width bf_value]; unfold weight, bits_at; change (48 - 48) with 0; change (2 ^ 0) with 1; rewrite Z.div_1_r; f_equal; apply Z.mod_small; exact V.
Qed.
(*@ Example C186_stored_ex : match register_new 0 None 16 with
  | Ok r0 => let r := reg_run r0 [ASetValue (2 ^ 15 + 5)] in
      match word_new (reg_value r) with
      | Ok w => bf_getitem w (Idx 33) = Ok 1 /\ bf_getitem w (Idx 32) = Ok 0 /\ bf_getitem w (Idx 46) = reg_getitem r (Idx 14)
      | Err _ => False end
  | Err _ => False end.
Proof. vm_compute. auto. Qed. @*)
Lemma C186_loaded_pf : forall u w data name W r0 xs,
  word_new u = Ok w -> register_new data name W = Ok r0 -> Forall (act_fits W) xs ->
  exists x r, bf_getitem w (Slice (Some (49 - W)) (Some 48)) = Ok x /\ reg_set_value (reg_run r0 xs) x = (r, Ok tt) /\
    reg_value r = u mod 2 ^ W /\ forall i, 1 <= i <= W -> reg_getitem r (Idx i) = bf_getitem w (Idx (i + (48 - W))).
Proof.
  intros u w data name W r0 xs EU E F. assert (HW : W = 16 \/ W = 24).
  { destruct (C33_constructor_pf data name W) as (X & _ & _). destruct (Z.eq_dec W 16) as [|N1]; [left; assumption|]. destruct (Z.eq_dec W 24) as [|N2]; [right; assumption|].
    assert (Q : register_new data name W = Err ValueError) by (apply X; intros (_ & _ & [Y|Y]); contradiction). rewrite E in Q. discriminate. }
  assert (VU : 0 <= u < 2 ^ 48).
  { destruct (Z_le_dec 0 u) as [A|A], (Z_lt_dec u (2 ^ 48)) as [B|B]; try lia; rewrite (proj1 (proj2 (C20_word_values_pf u) ltac:(lia))) in EU; discriminate. }
  rewrite word_new_ok in EU by exact VU. injection EU as <-.
  assert (P : 0 < 2 ^ W) by (apply Z.pow_pos_nonneg; lia).
  exists (u mod 2 ^ W). destruct (C33_value_setter_pf data name W r0 xs (u mod 2 ^ W) E) as (SV & _).
  specialize (SV (Z.mod_pos_bound _ _ P)). destruct (reg_set_value (reg_run r0 xs) (u mod 2 ^ W)) as [r o] eqn:EQ. destruct SV as (-> & RV & _). exists r.
  split.
  { destruct HW as [-> | ->]; rewrite (proj1 (C05_slice_read_msb_left_pf (wbits u) eq_refl) _ _); try (cbn [wbits bf_order bf_numbering bf_width]; unfold valid_range, valid_index, weight; lia);
      cbn [wbits bf_numbering bf_width bf_value]; unfold weight, bits_at; change (48 - 48) with 0; change (2 ^ 0) with 1; rewrite Z.div_1_r; reflexivity. }
  split; [reflexivity|]. split; [exact RV|]. intros i Hi.
  assert (EA : reg_run r0 (xs ++ [ASetValue (u mod 2 ^ W)]) = r).
  { unfold reg_run. rewrite fold_left_app. cbn [fold_left]. change (fold_left (fun r x => fst (act x r)) xs r0) with (reg_run r0 xs). unfold act. rewrite EQ. reflexivity. }
  rewrite (proj1 (C03_bit_read_pf (wbits u) (i + (48 - W)))) by (cbn [wbits bf_numbering bf_width]; unfold valid_index; lia).
  destruct (C34_register_bits_pf data name W r0 (xs ++ [ASetValue (u mod 2 ^ W)]) E) as (_ & BI & _); [apply Forall_app; split; [exact F|constructor; [exact I|constructor]]|].
  rewrite EA, RV in BI. rewrite BI by exact Hi. f_equal. cbn [wbits bf_numbering bf_width bf_value]. unfold weight, bit_at.
  replace (48 - 1 - (i + (48 - W) - 1)) with (W - i) by lia.
  rewrite <- !Z.testbit_spec' by lia. f_equal. rewrite Z.mod_pow2_bits_low by lia. reflexivity.
Qed.
(*@ Example C186_loaded_ex : match word_new (2 ^ 47 + 2 ^ 15 + 9), register_new 0 None 16 with
  | Ok w, Ok r0 => bf_getitem w (Slice (Some 33) (Some 48)) = Ok (2 ^ 15 + 9) /\
      reg_value (fst (reg_set_value r0 (2 ^ 15 + 9))) = (2 ^ 47 + 2 ^ 15 + 9) mod 2 ^ 16 /\ reg_getitem (fst (reg_set_value r0 (2 ^ 15 + 9))) (Idx 1) = bf_getitem w (Idx 33)
  | _, _ => False end.
Proof. vm_compute. auto. Qed. @*)
