(** Property theorems; generated from LFlat.v by meta/genp.py. *)
From Verif Require Import Py LPy MBitField SBits LBits LBitField MWord LWord MMemory SMemory LMemory MRegisters SRegisters LRegisters LProgram SFlat LFlat.

Theorem C185_array : forall n, n = 4 \/ n = 8 -> exists m, module_new n = Ok m /\
  forall cs c, let m' := module_run m (map at_address cs) in
    module_size m' = Ok (n * 2048) /\
    snd (module_call m' (fst (at_address c)) (snd (at_address c))) = flat_result n (flat_run n cs) c.
Proof. exact (@C185_array_pf). Qed.
Print Assumptions C185_array.

Example C185_array_ex : match module_new 4 with
  | Ok m => let m' := module_run m (map at_address [FSet 8191 7; FSet 6144 5; FSet 8192 1; FSet 2047 (2 ^ 48)]) in
      map (fun c => snd (module_call m' (fst (at_address c)) (snd (at_address c)))) [FGet 8191; FGet 6144; FGet 8192; FGet 2047; FGet (-1); FSet 0 (-1)] =
      [Ok [7]; Ok [5]; Err KeyError; Ok [0]; Err KeyError; Err ValueError]
  | Err _ => False
  end.
Proof. destruct (C185_array 4 (or_introl eq_refl)) as (m & E & H). rewrite E. cbv zeta.
  etransitivity; [apply map_ext; intros c; exact (proj2 (H _ c))|]. vm_compute. reflexivity. Qed.

Theorem C186_address : forall data name W r0 xs,
  register_new data name W = Ok r0 -> Forall (act_fits W) xs ->
  let r := reg_run r0 xs in let a := reg_value r mod 2 ^ 15 in
  0 <= a < 16 * 2048 /\
  reg_getitem r (Slice (Some (W - 14)) (Some (W - 11))) = Ok (a / 2048) /\
  reg_getitem r (Slice (Some (W - 10)) (Some W)) = Ok (a mod 2048) /\
  reg_getitem r (Idx (W - 15)) = Ok (reg_value r / 2 ^ 15 mod 2).
Proof. exact (@C186_address_pf). Qed.
Print Assumptions C186_address.

Example C186_address_ex : match register_new 0 None 16 with
  | Ok r0 => let r := reg_run r0 [ASetValue (2 ^ 15 + 5 * 2048 + 77)] in
      reg_getitem r (Slice (Some 2) (Some 5)) = Ok 5 /\ reg_getitem r (Slice (Some 6) (Some 16)) = Ok 77 /\ reg_getitem r (Idx 1) = Ok 1
  | Err _ => False end.
Proof. vm_compute. auto. Qed.

Theorem C186_stored : forall data name W r0 xs,
  register_new data name W = Ok r0 -> Forall (act_fits W) xs ->
  let r := reg_run r0 xs in
  exists w, word_new (reg_value r) = Ok w /\ word_value w = reg_value r /\
    (forall i, 1 <= i <= 48 - W -> bf_getitem w (Idx i) = Ok 0) /\
    (forall i, 48 - W < i <= 48 -> bf_getitem w (Idx i) = reg_getitem r (Idx (i - (48 - W)))) /\
    bf_getitem w (Slice (Some (49 - W)) (Some 48)) = Ok (reg_value r).
Proof. exact (@C186_stored_pf). Qed.
Print Assumptions C186_stored.

Example C186_stored_ex : match register_new 0 None 16 with
  | Ok r0 => let r := reg_run r0 [ASetValue (2 ^ 15 + 5)] in
      match word_new (reg_value r) with
      | Ok w => bf_getitem w (Idx 33) = Ok 1 /\ bf_getitem w (Idx 32) = Ok 0 /\ bf_getitem w (Idx 46) = reg_getitem r (Idx 14)
      | Err _ => False end
  | Err _ => False end.
Proof. vm_compute. auto. Qed.

Theorem C186_loaded : forall u w data name W r0 xs,
  word_new u = Ok w -> register_new data name W = Ok r0 -> Forall (act_fits W) xs ->
  exists x r, bf_getitem w (Slice (Some (49 - W)) (Some 48)) = Ok x /\ reg_set_value (reg_run r0 xs) x = (r, Ok tt) /\
    reg_value r = u mod 2 ^ W /\ forall i, 1 <= i <= W -> reg_getitem r (Idx i) = bf_getitem w (Idx (i + (48 - W))).
Proof. exact (@C186_loaded_pf). Qed.
Print Assumptions C186_loaded.

Example C186_loaded_ex : match word_new (2 ^ 47 + 2 ^ 15 + 9), register_new 0 None 16 with
  | Ok w, Ok r0 => bf_getitem w (Slice (Some 33) (Some 48)) = Ok (2 ^ 15 + 9) /\
      reg_value (fst (reg_set_value r0 (2 ^ 15 + 9))) = (2 ^ 47 + 2 ^ 15 + 9) mod 2 ^ 16 /\ reg_getitem (fst (reg_set_value r0 (2 ^ 15 + 9))) (Idx 1) = bf_getitem w (Idx 33)
  | _, _ => False end.
Proof. vm_compute. auto. Qed.
