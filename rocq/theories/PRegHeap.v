(** Property theorems; generated from LRegHeap.v by meta/genp.py. *)
From Verif Require Import Py MBitField SBits LPy LBits LBitField MRegisters SRegisters LRegisters LRegHeap.

Theorem C35_lookup : forall h W, W = 16 \/ W = 24 ->
  exists h' g gr, group_new h W = (h', Ok g) /\ deref (h_groups h') g = Ok gr /\
  group_len gr = 32 /\
  (forall n i, 0 <= i < 32 -> registerName i = Ok n ->
     exists r reg, group_getitem gr (KS n) = Ok r /\ group_getitem gr (KI i) = Ok r /\
       deref (h_regs h') r = Ok reg /\ r_name reg = Some n /\ reg_value reg = 0 /\ reg_len reg = W) /\
  (forall i j r, group_getitem gr (KI i) = Ok r -> group_getitem gr (KI j) = Ok r -> i = j) /\
  (forall i, ~ (0 <= i < 32) -> group_getitem gr (KI i) = Err ValueError) /\
  (forall n, ~ In n reg_names -> group_getitem gr (KS n) = Err ValueError) /\
  group_getitem gr KSlice = Err ValueError.
Proof. exact (@C35_lookup_pf). Qed.
Print Assumptions C35_lookup.

Example C35_example :
  match group_new heap0 16 with
  | (h, Ok g) => match deref (h_groups h) g with
                 | Ok gr => group_getitem gr (KS (lit "MXR")) = Ok 7%nat /\ group_getitem gr (KI 7) = Ok 7%nat /\
                            group_getitem gr (KI 32) = Err ValueError
                 | Err _ => False
                 end
  | _ => False
  end.
Proof. vm_compute. repeat split; reflexivity. Qed.

Theorem C36_alias_lookup_refuted : forall n, In n alias_names ->
  good_name (Some n) /\ (exists i, registerNumber n = Ok i) /\
  forall gr, group_getitem gr (KS n) = Err ValueError.
Proof. exact (@C36_alias_lookup_refuted_pf). Qed.
Print Assumptions C36_alias_lookup_refuted.

Example C36_refuted_witness :
  match group_new heap0 16 with
  | (h, Ok g) => match deref (h_groups h) g with
                 | Ok gr => group_getitem gr (KS (lit "RAC")) = Err ValueError /\ registerNumber (lit "RAC") = Ok 28
                 | Err _ => False
                 end
  | _ => False
  end.
Proof. vm_compute. repeat split; reflexivity. Qed.

Theorem C36_register_names_partial : forall h W, W = 16 \/ W = 24 ->
  exists h' g gr, group_new h W = (h', Ok g) /\ deref (h_groups h') g = Ok gr /\
  forall n, In n reg_names -> exists i, registerNumber n = Ok i /\
    exists r, group_getitem gr (KS n) = Ok r /\ group_getitem gr (KI i) = Ok r.
Proof. exact (@C36_register_names_partial_pf). Qed.
Print Assumptions C36_register_names_partial.

Example C36_register_names_partial_ex : match group_new heap0 16 with
  | (h, Ok g) => match deref (h_groups h) g with
                 | Ok gr => registerNumber (lit "CSH") = Ok 5 /\ group_getitem gr (KS (lit "CSH")) = group_getitem gr (KI 5)
                 | Err _ => False
                 end
  | _ => False
  end.
Proof. vm_compute. auto. Qed.

Theorem C37_assignment_refuted : forall h W h' g gr, group_new h W = (h', Ok g) ->
  deref (h_groups h') g = Ok gr -> forall r,
  (forall n, In n reg_names ->
     snd (group_setitem gr (KS n) r) = Ok tt /\
     (forall k, group_getitem (fst (group_setitem gr (KS n) r)) k = group_getitem gr k) /\
     group_len (fst (group_setitem gr (KS n) r)) = 33) /\
  (forall i, group_setitem gr (KI i) r = (gr, Err KeyError)).
Proof. exact (@C37_assignment_refuted_pf). Qed.
Print Assumptions C37_assignment_refuted.

Example C37_refuted_witness :
  match group_new heap0 16 with
  | (h, Ok g) => match deref (h_groups h) g with
                 | Ok gr => let '(gr', x) := group_setitem gr (KS (lit "X0")) 100%nat in
                            x = Ok tt /\ group_getitem gr' (KS (lit "X0")) = Ok 8%nat /\ group_len gr' = 33 /\
                            snd (group_setitem gr (KI 8) 100%nat) = Err KeyError
                 | Err _ => False
                 end
  | _ => False
  end.
Proof. vm_compute. repeat split; reflexivity. Qed.

Theorem C39_independent_cells : forall h W, W = 16 \/ W = 24 ->
  exists h' rs, registers_new h W = (h', Ok rs) /\
  forall cs, Forall (rcall_fits W) cs ->
    map obs (regs_trace (h', rs) cs) = s_trace W sregs_new cs /\
    (forall n, (n < List.length (h_regs h))%nat ->
       deref (h_regs (fst (regs_run (h', rs) cs))) n = deref (h_regs h) n).
Proof. exact (@C39_independent_cells_pf). Qed.
Print Assumptions C39_independent_cells.

Example C39_independent_cells_ex : match registers_new heap0 16 with
  | (h, Ok rs) => regs_trace (h, rs) [Reach (AtGroup (KI 3)) (AtReg (KI 5)) (ASetValue 77); Reach (AtGroup (KI 4)) (AtReg (KI 5)) AValue;
                                      Reach (AtGroup (KI 3)) (AtReg (KI 5)) AValue] = [Ok 0; Ok 0; Ok 77]
  | _ => False
  end.
Proof. vm_compute. reflexivity. Qed.

Theorem C39_bad_width : forall h W, ~ (W = 16 \/ W = 24) -> registers_new h W = (h, Err ValueError).
Proof. exact (@C39_bad_width_pf). Qed.
Print Assumptions C39_bad_width.

Example C39_example :
  let at_ k i := Reach (AtGroup (KI k)) (AtReg i) in
  match registers_new heap0 16 with
  | (h, Ok rs) =>
      regs_trace (h, rs)
        [at_ 3 (KI 5) (ASetValue 77); at_ 3 (KS (lit "CSH")) AValue; at_ 2 (KI 5) AValue;
         at_ 3 (KS (lit "CSH")) (ASetItem (Slice (Some 1) (Some 4)) 15);
         at_ 3 (KI 5) AValue; Reach NextGroup NextReg (ASetValue 9); at_ 0 (KS (lit "AU1")) AValue;
         at_ 8 (KI 5) AValue; at_ 1 (KI 0) (ASetValue 65536); ClearAll; at_ 3 (KI 5) AValue; at_ 0 (KI 0) AValue; LenAll]
      = [Ok 0; Ok 77; Ok 0; Ok 0; Ok 61517; Ok 0; Ok 9; Err ValueError; Err ValueError; Ok 0; Ok 0; Ok 9; Ok 8]
  | _ => False
  end.
Proof. vm_compute. reflexivity. Qed.

Theorem C41_any_int_accepted_refuted : forall h W h' rs i g, registers_new h W = (h', Ok rs) ->
  ~ (0 <= i < 8) ->
  let '(rs', x) := registers_setitem rs (KI i) g in
  x = Ok tt /\ registers_len rs' = 9 /\ registers_getitem rs' (KI i) = Err ValueError.
Proof. exact (@C41_any_int_accepted_refuted_pf). Qed.
Print Assumptions C41_any_int_accepted_refuted.

Example C41_any_int_accepted_refuted_ex : match registers_new heap0 24 with
  | (h, Ok rs) => let '(rs', x) := registers_setitem rs (KI 8) 0%nat in
                  x = Ok tt /\ registers_len rs' = 9 /\ registers_getitem rs' (KI 8) = Err ValueError
  | _ => False
  end.
Proof. vm_compute. auto. Qed.

Theorem C41_valid_keys_partial : forall h W h' rs g, registers_new h W = (h', Ok rs) ->
  (forall s, registers_setitem rs (KS s) g = (rs, Err ValueError)) /\
  registers_setitem rs KSlice g = (rs, Err ValueError) /\
  forall i, 0 <= i < 8 ->
  let '(rs', x) := registers_setitem rs (KI i) g in
  x = Ok tt /\ registers_len rs' = 8 /\ registers_getitem rs' (KI i) = Ok g /\
  forall j, j <> i -> registers_getitem rs' (KI j) = registers_getitem rs (KI j).
Proof. exact (@C41_valid_keys_partial_pf). Qed.
Print Assumptions C41_valid_keys_partial.

Example C41_refuted_witness :
  match registers_new heap0 24 with
  | (h, Ok rs) => let '(rs', x) := registers_setitem rs (KI (-5)) 0%nat in (x, registers_len rs') = (Ok tt, 9)
  | _ => False
  end.
Proof. vm_compute. reflexivity. Qed.
