(** What a loop or clear() reaches after any history (C29). *)
From Coq Require Import Lia.
From Verif Require Import Py MBitField SBits MRegisters SRegisters MMemory SMemory SCursor LPy LRegisters LRegHeap LMemory.
#[local] Arguments Z.add : simpl never.
#[local] Arguments Z.sub : simpl never.
#[local] Arguments Z.mul : simpl never.
#[local] Arguments Z.pow : simpl never.

(** ** C29 *)
Lemma cursor_steps cs : forall s, 0 <= cursor s <= 2048 ->
  cursor (smem_run s cs) = Z.min 2048 (cursor s + steps cs).
Proof.
  induction cs as [|c cs IH]; intros s Hs.
  - cbn [smem_run fold_left]. unfold steps. cbn [filter]. change (zlen (@nil mcall)) with 0. lia.
  - change (smem_run s (c :: cs)) with (smem_run (fst (smem_call s c)) cs).
    assert (D : cursor (fst (smem_call s c)) = Z.min 2048 (cursor s + steps [c])).
    { unfold steps. destruct c as [[|[] []]|[|[] []]| | | |]; cbn [smem_call filter];
        try change (zlen (@nil mcall)) with 0; try change (zlen [MNext]) with 1;
        repeat match goal with |- context [if ?b then _ else _] => destruct b eqn:? end; cbn [fst cursor]; lia. }
    rewrite IH by (rewrite D; unfold steps; pose proof (zlen_nonneg (filter (fun c => match c with MNext => true | _ => false end) [c])); lia).
    rewrite D. assert (E : steps (c :: cs) = steps [c] + steps cs).
    { unfold steps. cbn [filter]. destruct c; rewrite ?zlen_cons; try change (zlen (@nil mcall)) with 0; lia. }
    rewrite E. assert (0 <= steps cs) by apply zlen_nonneg. lia.
Qed.
Lemma C29_loop_exact_pf : exists m, bank_new = Ok m /\
  forall cs, snd (bank_loop enough (bank_run m cs)) = Ok (interval (Z.min 2048 (steps cs)) 2048).
Proof.
  destruct bank_new_MR as (m & E & HR). exists m. split; [exact E|]. intros cs.
  assert (HR' := run_simulates cs _ _ HR).
  assert (C : cursor (smem_run smem_new cs) = Z.min 2048 (steps cs)).
  { rewrite cursor_steps by (cbn [smem_new cursor]; lia). reflexivity. }
  assert (0 <= steps cs) by apply zlen_nonneg.
  destruct (loop_from _ _ HR' _ enough eq_refl) as (m' & -> & _).
  - rewrite C. unfold enough. lia.
  - cbn [snd]. rewrite C. reflexivity.
Qed.
(*@ Example C29_loop_exact_ex : match bank_new with
  | Ok m => snd (bank_loop enough (bank_run m (MSet (Idx 3) 7 :: List.repeat MNext 2046))) = Ok [2046; 2047]
  | Err _ => False
  end.
Proof. destruct C29_loop_exact as (m & E & L). rewrite E, L. vm_compute. reflexivity. Qed. @*)

