(** Property theorems; generated from LOwn.v by meta/genp.py. *)
From Verif Require Import Py MBitField SBits LPy LBits LBitField MRegisters SRegisters LRegisters LRegHeap MMemory SMemory SCursor SOwn LOwn.

Theorem C192_own_life : forall h W h' rs cs, registers_new h W = (h', Ok rs) ->
  let st := regs_run (h', rs) cs in
  (forall g r x k i, target (places_after cs) g r = Some (k, i) ->
     exists n r0, nth_error reg_names (Z.to_nat i) = Some n /\ register_new 0 (Some n) W = Ok r0 /\
       snd (regs_call st (Reach g r x)) = snd (act x (reg_run r0 (own at_start cs k i)))) /\
  (forall g r x, target (places_after cs) g r = None ->
     snd (regs_call st (Reach g r x)) = Err ValueError \/ snd (regs_call st (Reach g r x)) = Err StopIteration).
Proof. exact (@C192_own_life_pf). Qed.
Print Assumptions C192_own_life.

Example C192_own_life_ex : match registers_new heap0 16 with
  | (h, Ok rs) =>
      let at_ k i := Reach (AtGroup (KI k)) (AtReg (KI i)) in
      let cs := [at_ 3 5 (ASetItem (Slice (Some 13) (Some 16)) (-3)); at_ 3 6 (ASetValue 9); Reach (AtGroup (KI 3)) NextReg (ASetValue 7);
                 at_ 3 5 (ASetItem (Idx 1) 5); ClearGroup (AtGroup (KI 3)); at_ 3 5 (ASetItem (Slice (Some 1) (Some 4)) (-2)); ClearAll] in
      snd (regs_call (regs_run (h, rs) cs) (at_ 3 5 AValue)) = Ok (-8192) /\
      snd (regs_call (regs_run (h, rs) cs) (at_ 3 0 AValue)) = Ok 7 /\
      own at_start cs 3 5 = [ASetItem (Slice (Some 13) (Some 16)) (-3); ASetItem (Idx 1) 5; AClear; ASetItem (Slice (Some 1) (Some 4)) (-2)] /\
      own at_start cs 3 0 = [ASetValue 7] /\ own at_start cs 2 9 = [AClear]
  | _ => False
  end.
Proof. vm_compute. repeat split; reflexivity. Qed.

Theorem C192_no_spill : forall h W h' rs cs k i x k' i' y, registers_new h W = (h', Ok rs) ->
  0 <= k' < 8 -> 0 <= i' < 32 -> (k, i) <> (k', i') ->
  let at_ k i := Reach (AtGroup (KI k)) (AtReg (KI i)) in
  let st := regs_run (h', rs) cs in
  snd (regs_call (fst (regs_call st (at_ k i x))) (at_ k' i' y)) = snd (regs_call st (at_ k' i' y)) /\
      (forall n, (n < List.length (h_regs h))%nat -> deref (h_regs (fst st)) n = deref (h_regs h) n).
Proof. exact (@C192_no_spill_pf). Qed.
Print Assumptions C192_no_spill.

Example C192_no_spill_ex : match registers_new heap0 24 with
  | (h, Ok rs) => regs_trace (h, rs) [Reach (AtGroup (KI 3)) (AtReg (KI 5)) (ASetItem (Slice (Some 1) (Some 2)) (-1000));
                                      Reach (AtGroup (KI 3)) (AtReg (KI 4)) AValue; Reach (AtGroup (KI 3)) (AtReg (KI 6)) AValue;
                                      Reach (AtGroup (KI 3)) (AtReg (KI 5)) AValue] = [Ok 0; Ok 0; Ok 0; Ok (-4194304000)]
  | _ => False
  end.
Proof. vm_compute. reflexivity. Qed.

Theorem C38_clear_exact : forall h W h' rs cs, registers_new h W = (h', Ok rs) ->
  let st := regs_run (h', rs) cs in
  let p := places_after cs in
  let at_ k i := Reach (AtGroup (KI k)) (AtReg (KI i)) AValue in
  (forall k i, 0 <= k < 8 -> 0 <= i < 32 ->
     snd (regs_call (fst (regs_call st ClearAll)) (at_ k i)) =
     if (in_file p <=? k) && (in_group p k <=? i) then Ok 0 else snd (regs_call st (at_ k i))) /\
  (forall k j i, 0 <= k < 8 -> 0 <= j < 8 -> 0 <= i < 32 ->
     snd (regs_call (fst (regs_call st (ClearGroup (AtGroup (KI k))))) (at_ j i)) =
     if (j =? k) && (in_group p k <=? i) then Ok 0 else snd (regs_call st (at_ j i))).
Proof. exact (@C38_clear_exact_pf). Qed.
Print Assumptions C38_clear_exact.

Example C38_clear_exact_ex : match registers_new heap0 24 with
  | (h, Ok rs) => regs_trace (h, rs) [Reach (AtGroup (KI 3)) NextReg (ASetValue 77); Reach (AtGroup (KI 3)) (AtReg (KI 1)) (ASetValue 78);
                                      ClearGroup (AtGroup (KI 3)); Reach (AtGroup (KI 3)) (AtReg (KI 0)) AValue;
                                      Reach (AtGroup (KI 3)) (AtReg (KI 1)) AValue] = [Ok 0; Ok 0; Ok 0; Ok 77; Ok 0]
  | _ => False
  end /\ in_group (places_after [Reach (AtGroup (KI 3)) NextReg (ASetValue 77)]) 3 = 1.
Proof. vm_compute. auto. Qed.

Theorem C38_first_clear_partial : forall h W h' rs cs, registers_new h W = (h', Ok rs) ->
  Forall no_iter cs ->
  let st := regs_run (h', rs) cs in
  (forall k i, 0 <= k < 8 -> 0 <= i < 32 ->
     snd (regs_call (fst (regs_call st ClearAll)) (Reach (AtGroup (KI k)) (AtReg (KI i)) AValue)) = Ok 0) /\
  (forall k i, 0 <= k < 8 -> 0 <= i < 32 ->
     snd (regs_call (fst (regs_call st (ClearGroup (AtGroup (KI k)))))
                    (Reach (AtGroup (KI k)) (AtReg (KI i)) AValue)) = Ok 0) /\
  (forall k j i, 0 <= k < 8 -> 0 <= j < 8 -> j <> k -> 0 <= i < 32 ->
     snd (regs_call (fst (regs_call st (ClearGroup (AtGroup (KI k)))))
                    (Reach (AtGroup (KI j)) (AtReg (KI i)) AValue)) =
     snd (regs_call st (Reach (AtGroup (KI j)) (AtReg (KI i)) AValue))).
Proof. exact (@C38_first_clear_partial_pf). Qed.
Print Assumptions C38_first_clear_partial.

Example C38_first_clear_partial_ex : match registers_new heap0 24 with
  | (h, Ok rs) => regs_trace (h, rs) [Reach (AtGroup (KI 3)) (AtReg (KI 5)) (ASetValue 77); Reach (AtGroup (KI 4)) (AtReg (KI 5)) (ASetValue 78);
                                      ClearGroup (AtGroup (KI 3)); Reach (AtGroup (KI 3)) (AtReg (KI 5)) AValue;
                                      Reach (AtGroup (KI 4)) (AtReg (KI 5)) AValue] = [Ok 0; Ok 0; Ok 0; Ok 0; Ok 78]
  | _ => False
  end.
Proof. vm_compute. reflexivity. Qed.

Theorem C38_second_clear_refuted : forall h W h' rs cs k i v, registers_new h W = (h', Ok rs) ->
  0 <= k < 8 -> 0 <= i < 32 -> 0 <= v < 2 ^ W ->
  let at_ := Reach (AtGroup (KI k)) (AtReg (KI i)) in
  (let st := regs_run (h', rs) (cs ++ [ClearAll; at_ (ASetValue v); ClearAll]) in
   snd (regs_call st (at_ AValue)) = Ok v) /\
  (let c := ClearGroup (AtGroup (KI k)) in
   let st := regs_run (h', rs) (cs ++ [c; at_ (ASetValue v); c]) in
   snd (regs_call st (at_ AValue)) = Ok v).
Proof. exact (@C38_second_clear_refuted_pf). Qed.
Print Assumptions C38_second_clear_refuted.

Example C38_refuted_witness :
  let at_ k i := Reach (AtGroup (KI k)) (AtReg (KI i)) in
  match registers_new heap0 16 with
  | (h, Ok rs) => regs_trace (h, rs) [at_ 3 5 (ASetValue 1); ClearAll; at_ 3 5 AValue;
                                      at_ 3 5 (ASetValue 2); ClearAll; at_ 3 5 AValue]
                  = [Ok 0; Ok 0; Ok 0; Ok 0; Ok 0; Ok 2]
  | _ => False
  end.
Proof. vm_compute. reflexivity. Qed.

Theorem C40_loop_exact : forall h W h' rs cs, registers_new h W = (h', Ok rs) ->
  let '(h1, rs1) := regs_run (h', rs) cs in
  let p := places_after cs in
  (exists gs, snd (registers_loop 9 rs1) = Ok gs /\
     visits_from (in_file p) 8 gs (fun k => registers_getitem rs1 (KI k))) /\
  (forall k g gr, registers_getitem rs1 (KI k) = Ok g -> deref (h_groups h1) g = Ok gr ->
     exists rr, snd (group_loop 33 h1 g) = Ok rr /\
       visits_from (in_group p k) 32 rr (fun i => group_getitem gr (KI i))).
Proof. exact (@C40_loop_exact_pf). Qed.
Print Assumptions C40_loop_exact.

Example C40_loop_exact_ex : match registers_new heap0 16 with
  | (h, Ok rs) => snd (registers_loop 9 (snd (regs_run (h, rs) [Len NextGroup; Len NextGroup]))) = Ok [2;3;4;5;6;7]%nat /\
                  in_file (places_after [Len NextGroup; Len NextGroup]) = 2
  | _ => False
  end.
Proof. vm_compute. auto. Qed.

Theorem C40_first_loop_partial : forall h W h' rs cs, registers_new h W = (h', Ok rs) ->
  Forall no_iter cs ->
  let '(h1, rs1) := regs_run (h', rs) cs in
  (exists gs, snd (registers_loop 9 rs1) = Ok gs /\
     visits_in_order 8 gs (fun k => registers_getitem rs1 (KI k))) /\
  (forall k g gr, registers_getitem rs1 (KI k) = Ok g -> deref (h_groups h1) g = Ok gr ->
     exists rr, snd (group_loop 33 h1 g) = Ok rr /\
       visits_in_order 32 rr (fun i => group_getitem gr (KI i))).
Proof. exact (@C40_first_loop_partial_pf). Qed.
Print Assumptions C40_first_loop_partial.

Example C40_first_loop_partial_ex : match registers_new heap0 16 with
  | (h, Ok rs) => snd (registers_loop 9 rs) = Ok [0;1;2;3;4;5;6;7]%nat /\
                  match snd (group_loop 33 h 2%nat) with Ok l => zlen l = 32 | Err _ => False end
  | _ => False
  end.
Proof. vm_compute. auto. Qed.

Theorem C40_second_loop_refuted : forall h W h' rs cs, registers_new h W = (h', Ok rs) ->
  let '(h1, rs1) := regs_run (h', rs) cs in
  snd (registers_loop 9 (fst (registers_loop 9 rs1))) = Ok [] /\
  (forall k g, registers_getitem rs1 (KI k) = Ok g ->
     snd (group_loop 33 (fst (group_loop 33 h1 g)) g) = Ok []).
Proof. exact (@C40_second_loop_refuted_pf). Qed.
Print Assumptions C40_second_loop_refuted.

Example C40_refuted_witness :
  match registers_new heap0 24 with
  | (h, Ok rs) =>
      (snd (registers_loop 9 rs), snd (registers_loop 9 (fst (registers_loop 9 rs))))
      = (Ok [0;1;2;3;4;5;6;7]%nat, Ok [])
  | _ => False
  end.
Proof. vm_compute. reflexivity. Qed.
