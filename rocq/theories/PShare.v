(** Property theorems; generated from LShare.v by meta/genp.py. *)
From Verif Require Import Py MBitField SBits LPy LBits LBitField MRegisters SRegisters LRegisters LRegHeap MProto SProto LProto MShare SShare LShare.

Theorem C193_shared : forall h W h' rs cs, registers_new h W = (h', Ok rs) ->
  file_trace (h', rs) cs = store_trace (store_new W) cs /\
  (forall n, (n < List.length (h_regs h))%nat -> deref (h_regs (fst (file_run (h', rs) cs))) n = deref (h_regs h) n).
Proof. exact (@C193_shared_pf). Qed.
Print Assumptions C193_shared.

Example C193_shared_ex : match registers_new heap0 16 with
  | (h, Ok rs) =>
      let at_ k i a := Plain (Reach (AtGroup (KI k)) (AtReg (KI i)) a) in
      file_trace (h, rs) [at_ 3 5 (ASetValue 77); GiveGroup (KI 0) (AtGroup (KI 3)); at_ 0 5 AValue; at_ 0 5 (ASetValue 78); at_ 3 5 AValue;
                          GiveNew (KI 3) 24; at_ 3 5 AValue; at_ 3 5 (ASetValue 100000); at_ 0 5 AValue; GiveGroup (KI 12) (AtGroup (KI 3));
                          Plain LenAll; at_ 12 5 AValue; Plain ClearAll; at_ 0 5 AValue; at_ 0 5 (ASetValue 100000)]
      = [Ok 0; Ok 0; Ok 77; Ok 0; Ok 78; Ok 0; Ok 0; Ok 0; Ok 78; Ok 0; Ok 9; Err ValueError; Ok 0; Ok 0; Err ValueError]
  | _ => False
  end.
Proof. vm_compute. reflexivity. Qed.

Theorem C193_no_copy : forall h W h' rs cs k j, registers_new h W = (h', Ok rs) -> 0 <= k < 8 -> 0 <= j < 8 ->
  let st := file_run (h', rs) (cs ++ [GiveGroup (KI k) (AtGroup (KI j))]) in
  (forall r a, file_call st (Plain (Reach (AtGroup (KI k)) r a)) = file_call st (Plain (Reach (AtGroup (KI j)) r a))) /\
  (forall i v, 0 <= i < 32 -> snd (file_call st (Plain (Reach (AtGroup (KI k)) (AtReg (KI i)) (ASetValue v)))) = Ok 0 ->
     snd (file_call (fst (file_call st (Plain (Reach (AtGroup (KI k)) (AtReg (KI i)) (ASetValue v))))) (read_at j i)) = Ok v) /\
  (forall m i, 0 <= m < 8 -> 0 <= i < 32 -> m <> k ->
     snd (file_call st (read_at m i)) = snd (file_call (file_run (h', rs) cs) (read_at m i))).
Proof. exact (@C193_no_copy_pf). Qed.
Print Assumptions C193_no_copy.

Example C193_no_copy_ex : match registers_new heap0 16 with
  | (h, Ok rs) =>
      let st := file_run (h, rs) [Plain (Reach (AtGroup (KI 1)) (AtReg (KS (lit "X2"))) (ASetValue 5)); GiveGroup (KI 6) (AtGroup (KI 1))] in
      file_trace st [read_at 6 10; Plain (Reach (AtGroup (KI 6)) (AtReg (KI 10)) (ASetItem (Idx 1) 1)); read_at 1 10; read_at 2 10] = [Ok 5; Ok 0; Ok 32773; Ok 0]
  | _ => False
  end.
Proof. vm_compute. reflexivity. Qed.

Theorem C193_new_group : forall h W h' rs cs k w, registers_new h W = (h', Ok rs) -> 0 <= k < 8 ->
  let st := file_run (h', rs) cs in
  let st2 := fst (file_call st (GiveNew (KI k) w)) in
  (w = 16 \/ w = 24 -> snd (file_call st (GiveNew (KI k) w)) = Ok 0 /\
     (forall i, 0 <= i < 32 -> snd (file_call st2 (read_at k i)) = Ok 0) /\
     (forall i v, 0 <= i < 32 -> snd (file_call st2 (Plain (Reach (AtGroup (KI k)) (AtReg (KI i)) (ASetValue v)))) =
                                 if (0 <=? v) && (v <? 2 ^ w) then Ok 0 else Err ValueError)) /\
  (w <> 16 -> w <> 24 -> file_call st (GiveNew (KI k) w) = (st, Err ValueError)) /\
  (forall m i, 0 <= m < 8 -> 0 <= i < 32 -> m <> k -> snd (file_call st2 (read_at m i)) = snd (file_call st (read_at m i))).
Proof. exact (@C193_new_group_pf). Qed.
Print Assumptions C193_new_group.

Example C193_new_group_ex : match registers_new heap0 16 with
  | (h, Ok rs) =>
      let st := file_run (h, rs) [Plain (Reach (AtGroup (KI 1)) (AtReg (KI 10)) (ASetValue 5)); GiveGroup (KI 6) (AtGroup (KI 1)); GiveNew (KI 1) 24] in
      file_trace st [read_at 1 10; read_at 6 10; Plain (Reach (AtGroup (KI 1)) (AtReg (KI 10)) (ASetValue 70000)); read_at 6 10; GiveNew (KI 1) 17] =
        [Ok 0; Ok 5; Ok 0; Ok 5; Err ValueError]
  | _ => False
  end.
Proof. vm_compute. reflexivity. Qed.

Theorem C193_given_register : forall h W h' rs cs k name j i, registers_new h W = (h', Ok rs) -> 0 <= k < 8 -> 0 <= j < 8 -> 0 <= i < 32 ->
  let st := file_run (h', rs) cs in
  let give key := GiveReg (AtGroup (KI k)) key (AtGroup (KI j)) (AtReg (KI i)) in
  snd (file_call st (give (KS name))) = Ok 0 /\
  (forall g r a, snd (file_call (fst (file_call st (give (KS name)))) (Plain (Reach g r a))) = snd (file_call st (Plain (Reach g r a)))) /\
  (forall n, file_call st (give (KI n)) = (st, Err KeyError)).
Proof. exact (@C193_given_register_pf). Qed.
Print Assumptions C193_given_register.

Example C193_given_register_ex : match registers_new heap0 16 with
  | (h, Ok rs) =>
      let st := file_run (h, rs) [Plain (Reach (AtGroup (KI 1)) (AtReg (KI 10)) (ASetValue 5))] in
      let give n := GiveReg (AtGroup (KI 2)) (KS n) (AtGroup (KI 1)) (AtReg (KS (lit "X2"))) in
      file_trace st [give (lit "X3"); read_at 2 11; read_at 2 10; Plain (Len (AtGroup (KI 2))); give (lit "X3"); Plain (Len (AtGroup (KI 2)));
                     give (lit "RAC"); Plain (Len (AtGroup (KI 2))); GiveReg (AtGroup (KI 2)) (KI 11) (AtGroup (KI 1)) (AtReg (KI 10))] =
        [Ok 0; Ok 0; Ok 0; Ok 33; Ok 0; Ok 33; Ok 0; Ok 34; Err KeyError]
  | _ => False
  end.
Proof. vm_compute. reflexivity. Qed.

Theorem C193_printed : forall h W h' rs cs, registers_new h W = (h', Ok rs) ->
  let st := file_run (h', rs) cs in
  let f := fst (store_run (store_new W) cs) in let g := snd (store_run (store_new W) cs) in
  exists lines, registers_repr (fst st) (snd st) = Ok (concat lines) /\
    Forall2 (fun kn x => exists t, x = lit "[" ++ str_of_Z (fst kn) ++ lit "] " ++ t ++ [10] /\ group_line g (snd kn) t)
      (map (fun k => (k, holds f k)) [0; 1; 2; 3; 4; 5; 6; 7] ++ beside f) lines.
Proof. exact (@C193_printed_pf). Qed.
Print Assumptions C193_printed.

Example C193_printed_ex : match registers_new heap0 16 with
  | (h, Ok rs) =>
      let st := file_run (h, rs) [Plain (Reach (AtGroup (KI 7)) (AtReg (KI 0)) (ASetValue 511)); GiveReg (AtGroup (KI 0)) (KS (lit "S")) (AtGroup (KI 7)) (AtReg (KI 0));
                                  GiveGroup (KI (-12)) (AtGroup (KI 7))] in
      match registers_repr (fst st) (snd st) with
      | Ok s => firstn 14 s = lit "[0] 0o000000 0" /\ firstn 14 (skipn (4 + 32 * 9) s) = lit "0o000777 " ++ [10] ++ lit "[1] " /\
                firstn 14 (skipn (8 * (4 + 32 * 9 + 1) + 9) s) = lit "[-12] 0o000777"
      | Err _ => False
      end
  | _ => False
  end.
Proof. vm_compute. repeat split; reflexivity. Qed.
