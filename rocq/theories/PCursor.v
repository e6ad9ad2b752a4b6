(** Property theorems; generated from LCursor.v by meta/genp.py. *)
From Verif Require Import Py MBitField SBits MRegisters SRegisters MMemory SMemory SCursor LPy LRegisters LRegHeap LMemory LCursor.

Theorem C29_loop_exact : exists m, bank_new = Ok m /\
  forall cs, snd (bank_loop enough (bank_run m cs)) = Ok (interval (Z.min 2048 (steps cs)) 2048).
Proof. exact (@C29_loop_exact_pf). Qed.
Print Assumptions C29_loop_exact.

Example C29_loop_exact_ex : match bank_new with
  | Ok m => snd (bank_loop enough (bank_run m (MSet (Idx 3) 7 :: List.repeat MNext 2046))) = Ok [2046; 2047]
  | Err _ => False
  end.
Proof. destruct C29_loop_exact as (m & E & L). rewrite E, L. vm_compute. reflexivity. Qed.
