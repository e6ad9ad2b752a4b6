(** Property theorems; generated from LFaults.v by meta/genp.py. *)
From Verif Require Import Py LPy MBitField SBits LBitField MRegisters SRegisters LRegisters LRegHeap MMemory SMemory SCursor SOwn LOwn SFaults LFaults.

Theorem C145_read : forall b k x, bf_getitem b k = Err x -> key_fault (bf_numbering b) (bf_width b) k x.
Proof. exact (@C145_read_pf). Qed.
Print Assumptions C145_read.

Example C145_read_ex : let b := mkbf 8 255 200 MSB_1 MSB_LEFT in
  bf_getitem b (Slice (Some 3) None) = Err TypeError /\ bf_getitem b (Slice (Some 9) None) = Err ValueError /\ bf_getitem b (Idx 9) = Err ValueError /\
  ~ key_fault MSB_1 8 (Slice (Some 3) None) ValueError.
Proof. cbv zeta. repeat (split; [vm_compute; reflexivity|]). intros F. inversion F as [| | | |s N]. apply N. cbn. lia. Qed.

Theorem C145_write : forall b o x, wf b -> snd (bf_step b o) = Err x -> op_fault (bf_numbering b) (bf_width b) o x.
Proof. exact (@C145_write_pf). Qed.
Print Assumptions C145_write.

Example C145_write_ex : let b := mkbf 8 255 200 LSB_0 LSB_LEFT in wf b /\
  snd (bf_step b (OpItem (Slice None (Some 9)) 3)) = Err TypeError /\ snd (bf_step b (OpSet (Some 9))) = Err ValueError /\ snd (bf_step b (OpValue 257)) = Err ValueError.
Proof. cbv zeta. split; [unfold wf; cbn; lia|]. vm_compute. auto. Qed.

Theorem C145_range_test : forall b s e v x, bf_isRange b s e v = Err x ->
  key_fault (bf_numbering b) (bf_width b) (Slice s e) x.
Proof. exact (@C145_range_test_pf). Qed.
Print Assumptions C145_range_test.

Example C145_range_test_ex : let b := mkbf 8 255 200 MSB_1 MSB_LEFT in
  bf_isRange b (Some 3) (Some 2) 0 = Err ValueError /\ bf_isRange b (Some 3) (Some 4) 2 = Err ValueError /\ bf_isRange b (Some 3) None 0 = Err TypeError.
Proof. vm_compute. auto. Qed.

Theorem C145_range_value : forall b s e v, v <> 0 -> v <> 1 -> exists x, bf_isRange b s e v = Err x.
Proof. exact (@C145_range_value_pf). Qed.
Print Assumptions C145_range_value.

Example C145_range_value_ex : bf_isRange (mkbf 8 255 200 MSB_1 MSB_LEFT) (Some 3) (Some 4) (-1) = Err ValueError.
Proof. reflexivity. Qed.

Theorem C145_registers : forall h W h' rs cs c e, registers_new h W = (h', Ok rs) ->
  snd (regs_call (regs_run (h', rs) cs) c) = Err e -> call_fault W (places_after cs) c e.
Proof. exact (@C145_registers_pf). Qed.
Print Assumptions C145_registers.

Example C145_registers_ex : match registers_new heap0 16 with
  | (h, Ok rs) =>
      let on cs c := snd (regs_call (regs_run (h, rs) cs) c) in
      on [ClearAll] (Reach NextGroup NextReg AValue) = Err StopIteration /\
      on [ClearGroup (AtGroup (KI 3))] (Reach (AtGroup (KI 3)) NextReg AValue) = Err StopIteration /\
      on [] (Reach (AtGroup (KS (lit "X"))) NextReg AValue) = Err ValueError /\ on [] (Len (AtGroup KSlice)) = Err ValueError /\
      on [] (Reach (AtGroup (KI 3)) (AtReg (KS (lit "AU1"))) (AItem (Slice (Some 3) None))) = Err TypeError
  | _ => False
  end.
Proof. vm_compute. repeat split; reflexivity. Qed.
