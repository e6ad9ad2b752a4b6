(** Property theorems; generated from LProgram.v by meta/genp.py. *)
From Verif Require Import Py LPy MBitField MWord LWord MMemory SMemory LMemory MInstruction MInstructions SInstruction LInstruction LInstructions SManual LManual SProgram LProgram.

Theorem C183_read_back : forall n, n = 4 \/ n = 8 -> exists m, module_new n = Ok m /\
  forall before prog stores after, Forall (fits n) prog -> NoDup (map place_of prog) -> Forall2 storing prog stores ->
    (forall p c, In p prog -> In (p_bank p, c) after -> spares c (p_addr p)) ->
    forall p, In p prog -> exists v i w0 w, assembled p v /\
      snd (module_call (module_run m (before ++ stores ++ after)) (p_bank p) (MGet (Idx (p_addr p)))) = Ok [v] /\
      class_call (p_class p) (p_args p) = Ok i /\ iw_new 0 0 0 0 = Ok w0 /\ iw_set_value w0 v = (w, Ok tt) /\
      iw_get w Command = Ok (instr_value i) /\ iw_get w FA = Ok (p_a p) /\ iw_get w FB = Ok (p_b p) /\ iw_get w FC = Ok (p_c p).
Proof. exact (@C183_read_back_pf). Qed.
Print Assumptions C183_read_back.

Example C183_read_back_ex :
  let p := mkplaced 1 100 (lit "DecimalAdd") (mkkw (arg 1) (arg 19) None None None None) 1 2 3 in
  let q := mkplaced 3 2047 (lit "MultipleTransfer") (mkkw (arg 1) None (arg 1) (arg 0) (arg 1) None) 4095 0 7 in
  match module_new 4, call_masked "DecimalAdd" 1 19, call_unmasked "MultipleTransfer" 1 1 0 1 with
  | Ok m, Ok i, Ok j =>
      let v := instr_value i * 2 ^ 36 + 2 ^ 24 + 2 * 2 ^ 12 + 3 in
      let u := instr_value j * 2 ^ 36 + 4095 * 2 ^ 24 + 7 in
      Forall (fits 4) [p; q] /\ NoDup (map place_of [p; q]) /\
      Forall2 storing [p; q] [(1, MSet (Idx 100) v); (3, MSet (Idx 2047) u)] /\
      snd (module_call (module_run m [(1, MClear); (1, MSet (Idx 100) v); (3, MSet (Idx 2047) u); (3, MSet (Idx 100) 5); (1, MGet (Idx 100)); (0, MClear)]) 1 (MGet (Idx 100))) = Ok [v] /\
      snd (module_call (module_run m [(1, MClear); (1, MSet (Idx 100) v); (3, MSet (Idx 2047) u); (3, MSet (Idx 100) 5); (1, MGet (Idx 100)); (0, MClear)]) 3 (MGet (Idx 2047))) = Ok [u]
  | _, _, _ => False
  end.
Proof.
  cbv zeta. destruct (C30_modules_pf 4) as (m & b & M & B & H); [left; reflexivity|]. rewrite M.
  destruct C25_bank_is_array_pf as (b1 & B1 & _ & G). rewrite B in B1. injection B1 as <-.
  destruct (call_masked "DecimalAdd" 1 19) as [i|] eqn:I; [|vm_compute in I; discriminate].
  destruct (call_unmasked "MultipleTransfer" 1 1 0 1) as [j|] eqn:J; [|vm_compute in J; discriminate].
  assert (A1 : 0 <= instr_value i < 4096) by (vm_compute in I; injection I as <-; vm_compute; split; congruence).
  assert (A2 : 0 <= instr_value j < 4096) by (vm_compute in J; injection J as <-; vm_compute; split; congruence).
  split; [repeat (constructor; [unfold fits; cbn [p_bank p_addr p_a p_b p_c]; lia|]); constructor|].
  split; [constructor; [intros [X|[]]; discriminate X|constructor; [intros []|constructor]]|].
  split.
  { repeat (constructor; [eexists; split; [|reflexivity]|]); [| |constructor].
    - destruct (C21_instruction_word_packing_pf (instr_value i) 1 2 3) as (w & E & V & _); [lia..|]. exists i, w. split; [exact I|]. split; [exact E|]. rewrite V. lia.
    - destruct (C21_instruction_word_packing_pf (instr_value j) 4095 0 7) as (w & E & V & _); [lia..|]. exists j, w. split; [exact J|]. split; [exact E|]. rewrite V. lia. }
  vm_compute in I, J. injection I as <-. injection J as <-. unfold module_call.
  split; match goal with |- context [module_run m ?cs] => destruct (H cs) as (_ & _ & _ & D & _) end;
    [rewrite (D 1) by lia|rewrite (D 3) by lia]; cbn [bank_call snd]; rewrite G by lia; vm_compute; reflexivity.
Qed.

Theorem C183_decoded : forall n p q v m1 sg1 m2 sg2, fits n p -> fits n q -> assembled p v -> assembled q v ->
  In (p_class p, (sg1, m1)) CLASSES -> In (p_class q, (sg2, m2)) CLASSES ->
  p_a p = p_a q /\ p_b p = p_b q /\ p_c p = p_c q /\ same_machine_instruction m1 (p_args p) m2 (p_args q).
Proof. exact (@C183_decoded_pf). Qed.
Print Assumptions C183_decoded.

Example C183_decoded_ex :
  let p := mkplaced 1 100 (lit "DecimalAdd") (mkkw (arg 1) (arg 19) None None None None) 1 2 3 in
  let q := mkplaced 3 2047 (lit "MultipleTransfer") (mkkw (arg 1) None (arg 1) (arg 0) (arg 1) None) 1 2 3 in
  exists v u, assembled p v /\ assembled q u /\ v <> u.
Proof.
  cbv zeta. destruct (call_masked "DecimalAdd" 1 19) as [i|] eqn:I; [|vm_compute in I; discriminate].
  destruct (call_unmasked "MultipleTransfer" 1 1 0 1) as [j|] eqn:J; [|vm_compute in J; discriminate].
  assert (A1 : 0 <= instr_value i < 4096) by (vm_compute in I; injection I as <-; vm_compute; split; congruence).
  assert (A2 : 0 <= instr_value j < 4096) by (vm_compute in J; injection J as <-; vm_compute; split; congruence).
  assert (N : instr_value i <> instr_value j) by (vm_compute in I, J; injection I as <-; injection J as <-; vm_compute; congruence).
  destruct (C21_instruction_word_packing_pf (instr_value i) 1 2 3) as (w & E & V & _); [lia..|].
  destruct (C21_instruction_word_packing_pf (instr_value j) 1 2 3) as (w' & E' & V' & _); [lia..|].
  exists (iw_value w), (iw_value w'). split; [exists i, w; auto|]. split; [exists j, w'; auto|]. rewrite V, V'. intros X. apply N. lia.
Qed.
