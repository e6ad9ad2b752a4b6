(** Property theorems; generated from LMemory.v by meta/genp.py. *)
From Verif Require Import Py MBitField MWord MMemory SMemory LPy LWord LMemory.

Theorem C25_bank_is_array : exists m, bank_new = Ok m /\
  (forall cs, bank_trace m cs = smem_trace smem_new cs) /\
  (forall cs i, 0 <= i < 2048 ->
     bank_getitem (bank_run m cs) (Idx i) = Ok [cells (smem_run smem_new cs) i]).
Proof. exact (@C25_bank_is_array_pf). Qed.
Print Assumptions C25_bank_is_array.

Example C25_example :
  match bank_new with
  | Ok m => bank_trace m [MSet (Idx 5) 7; MSet (Slice (Some 4) (Some 7)) 9; MSet (Idx 5) 8; MNext;
                          MRef 0 3; MGet (Slice (Some 0) (Some 8)); MClear; MGet (Idx 5); MGet (Idx 2048)]
            = [Ok []; Ok []; Ok []; Ok [0]; Ok []; Ok [3; 0; 0; 0; 9; 8; 9; 0]; Ok []; Ok [0]; Err KeyError]
  | Err _ => False
  end.
Proof. destruct C25_bank_is_array as (m & E & T & _). rewrite E, T. vm_compute. reflexivity. Qed.

Theorem C25_width : forall m, reachable m -> bank_width m = 48.
Proof. exact (@C25_width_pf). Qed.
Print Assumptions C25_width.

Example C25_width_ex : forall m, bank_new = Ok m -> bank_width (bank_run m [MSet (Idx 5) 7; MClear]) = 48.
Proof. intros m E. apply C25_width. exists m, [MSet (Idx 5) 7; MClear]. split; [exact E|reflexivity]. Qed.

Theorem C26_bad_addresses_values : forall m i v, reachable m ->
  (bank_getitem m (Idx i) = Err KeyError <-> ~ (0 <= i < 2048)) /\
  (forall e, bank_getitem m (Idx i) = Err e -> e = KeyError) /\
  (snd (bank_setitem m (Idx i) v) = Err KeyError <-> ~ (0 <= i < 2048)) /\
  (snd (bank_setitem m (Idx i) v) = Err ValueError <->
     0 <= i < 2048 /\ ~ (0 <= v < 2 ^ 48)) /\
  (forall e, snd (bank_setitem m (Idx i) v) = Err e ->
     (e = KeyError \/ e = ValueError) /\
     forall j, bank_getitem (fst (bank_setitem m (Idx i) v)) (Idx j) = bank_getitem m (Idx j)).
Proof. exact (@C26_bad_addresses_values_pf). Qed.
Print Assumptions C26_bad_addresses_values.

Example C26_example :
  match bank_new with
  | Ok m => bank_trace m [MSet (Idx 2047) 5; MSet (Idx 2047) (2 ^ 48); MSet (Idx (-1)) 5; MGet (Idx 2047)]
            = [Ok []; Err ValueError; Err KeyError; Ok [5]]
  | Err _ => False
  end.
Proof. destruct C25_bank_is_array as (m & E & T & _). rewrite E, T. vm_compute. reflexivity. Qed.

Theorem C27_slices : forall m lo hi v, reachable m -> 0 <= lo -> hi <= 2048 ->
  (exists xs, bank_getitem m (Slice (Some lo) (Some hi)) = Ok xs /\
     zlen xs = Z.max 0 (hi - lo) /\
     forall k, 0 <= k < hi - lo ->
       exists x, nth_error xs (Z.to_nat k) = Some x /\ bank_getitem m (Idx (lo + k)) = Ok [x]) /\
  (0 <= v < 2 ^ 48 ->
   let '(m', r) := bank_setitem m (Slice (Some lo) (Some hi)) v in
   r = Ok tt /\
   forall a, bank_getitem m' (Idx a) =
             if (lo <=? a) && (a <? hi) then Ok [v] else bank_getitem m (Idx a)).
Proof. exact (@C27_slices_pf). Qed.
Print Assumptions C27_slices.

Example C27_example :
  match bank_new with
  | Ok m => bank_trace m [MSet (Slice (Some 3) (Some 6)) 1; MGet (Slice (Some 2) (Some 7)); MGet (Slice (Some 9) (Some 9))]
            = [Ok []; Ok [0; 1; 1; 1; 0]; Ok []]
  | Err _ => False
  end.
Proof. destruct C25_bank_is_array as (m & E & T & _). rewrite E, T. vm_compute. reflexivity. Qed.

Theorem C28_failing_slice_refuted : forall m lo hi v, reachable m ->
  0 <= lo < 2048 -> 2048 < hi -> 0 <= v < 2 ^ 48 ->
  let '(m', r) := bank_setitem m (Slice (Some lo) (Some hi)) v in
  r = Err KeyError /\ forall a, lo <= a < 2048 -> bank_getitem m' (Idx a) = Ok [v].
Proof. exact (@C28_failing_slice_refuted_pf). Qed.
Print Assumptions C28_failing_slice_refuted.

Example C28_refuted_witness :
  match bank_new with
  | Ok m => bank_trace m [MSet (Slice (Some 2046) (Some 2049)) 5; MGet (Slice (Some 2045) (Some 2048))]
            = [Err KeyError; Ok [0; 5; 5]]
  | Err _ => False
  end.
Proof. destruct C25_bank_is_array as (m & E & T & _). rewrite E, T. vm_compute. reflexivity. Qed.

Theorem C28_failing_slice_partial : forall m lo hi v, reachable m ->
  ~ (0 <= lo < 2048 /\ 2048 < hi /\ 0 <= v < 2 ^ 48) ->
  forall e, snd (bank_setitem m (Slice (Some lo) (Some hi)) v) = Err e ->
  forall a, bank_getitem (fst (bank_setitem m (Slice (Some lo) (Some hi)) v)) (Idx a)
            = bank_getitem m (Idx a).
Proof. exact (@C28_failing_slice_partial_pf). Qed.
Print Assumptions C28_failing_slice_partial.

Example C28_failing_slice_partial_ex : match bank_new with
  | Ok m => snd (bank_setitem m (Slice (Some 2048) (Some 2049)) 1) = Err KeyError /\ snd (bank_setitem m (Slice (Some 0) (Some 2)) (2 ^ 60)) = Err ValueError
  | Err _ => False
  end.
Proof. rewrite bank_new_value. vm_compute. auto. Qed.

Theorem C29_first_loop_partial : exists m, bank_new = Ok m /\
  forall cs, Forall (fun c => c <> MNext) cs ->
  snd (bank_loop enough (bank_run m cs)) = Ok (interval 0 2048).
Proof. exact (@C29_first_loop_partial_pf). Qed.
Print Assumptions C29_first_loop_partial.

Example C29_first_loop_partial_ex : match bank_new with
  | Ok m => match snd (bank_loop enough (bank_run m [MSet (Idx 3) 7])) with Ok l => firstn 3 l = [0; 1; 2] /\ zlen l = 2048 | Err _ => False end
  | Err _ => False
  end.
Proof. destruct C29_first_loop_partial as (m & E & L). rewrite E, L by (constructor; [discriminate|constructor]). vm_compute. auto. Qed.

Theorem C29_later_loops_refuted : forall m, reachable m ->
  let m1 := fst (bank_loop enough m) in
  (forall cs, snd (bank_loop enough (bank_run m1 cs)) = Ok []) /\
  bank_loop enough m1 = (m1, Ok []).
Proof. exact (@C29_later_loops_refuted_pf). Qed.
Print Assumptions C29_later_loops_refuted.

Example C29_refuted_witness :
  match bank_new with
  | Ok m => let m1 := fst (bank_loop enough m) in
            (zlen match snd (bank_loop enough m) with Ok l => l | Err _ => [] end,
             snd (bank_loop enough m1)) = (2048, Ok [])
  | Err _ => False
  end.
Proof.
  destruct C29_first_loop_partial as (m & E & L). rewrite E.
  assert (L0 := L [] (Forall_nil _)). change (bank_run m []) with m in L0.
  destruct (C29_later_loops_refuted m) as [_ R]; [exists m, []; auto|].
  cbv zeta. rewrite R, L0. reflexivity.
Qed.

Theorem C30_modules : forall n, n = 4 \/ n = 8 ->
  exists m b, module_new n = Ok m /\ bank_new = Ok b /\
  forall cs,
    let m' := module_run m cs in
    module_len m' = n /\ module_size m' = Ok (n * 2048) /\
    (forall i, module_getitem m' (Idx i) = if (0 <=? i) && (i <? n) then Ok [i] else Err KeyError) /\
    (forall i, 0 <= i < n -> dindex (mm_data m') i = Ok (bank_run b (calls_to i cs))) /\
    (forall i c, ~ (0 <= i < n) -> module_call m' i c = (m', Err KeyError)).
Proof. exact (@C30_modules_pf). Qed.
Print Assumptions C30_modules.

Example C30_example :
  match memory_module with
  | Ok m => let m' := module_run m [(0, MSet (Idx 3) 7); (1, MSet (Idx 3) 9); (4, MSet (Idx 3) 1)] in
            (snd (module_call m' 0 (MGet (Idx 3))), snd (module_call m' 1 (MGet (Idx 3))),
             snd (module_call m' 2 (MGet (Idx 3))), module_size m') = (Ok [7], Ok [9], Ok [0], Ok 8192)
  | Err _ => False
  end.
Proof.
  destruct (C30_modules 4) as (m & b & E1 & E2 & H); [left; reflexivity|]. unfold memory_module. rewrite E1.
  destruct C25_bank_is_array as (b1 & E3 & _ & G). rewrite E2 in E3. injection E3 as <-.
  set (cs := [(0, MSet (Idx 3) 7); (1, MSet (Idx 3) 9); (4, MSet (Idx 3) 1)]).
  destruct (H cs) as (_ & H2 & _ & H4 & _). cbv zeta. rewrite H2. unfold module_call.
  rewrite (H4 0), (H4 1), (H4 2) by lia. cbn [bank_call snd].
  rewrite !G by lia. reflexivity.
Qed.

Theorem C30_classes : exists m e, memory_module = Ok m /\ expansion_module = Ok e /\
  forall cs,
    module_len (module_run m cs) = 4 /\ module_size (module_run m cs) = Ok 8192 /\
    module_len (module_run e cs) = 8 /\ module_size (module_run e cs) = Ok 16384 /\
    (forall i, module_getitem (module_run m cs) (Idx i) = if (0 <=? i) && (i <? 4) then Ok [i] else Err KeyError) /\
    (forall i, module_getitem (module_run e cs) (Idx i) = if (0 <=? i) && (i <? 8) then Ok [i] else Err KeyError).
Proof. exact (@C30_classes_pf). Qed.
Print Assumptions C30_classes.

Example C30_classes_ex : forall e, expansion_module = Ok e ->
  module_getitem (module_run e [(7, MSet (Idx 3) 7); (9, MClear)]) (Idx 7) = Ok [7].
Proof.
  intros e E. destruct C30_classes as (m & e' & _ & E' & H). rewrite E in E'. injection E' as <-.
  destruct (H [(7, MSet (Idx 3) 7); (9, MClear)]) as (_ & _ & _ & _ & _ & X). rewrite X. reflexivity.
Qed.

Theorem C30_slices : forall n, n = 4 \/ n = 8 -> exists m, module_new n = Ok m /\
  forall cs s e,
    (0 <= s -> s <= e <= n -> exists is, module_getitem (module_run m cs) (Slice (Some s) (Some e)) = Ok is /\
       zlen is = e - s /\ forall k, 0 <= k < e - s -> nth_error is (Z.to_nat k) = Some (s + k)) /\
    (e <= s -> module_getitem (module_run m cs) (Slice (Some s) (Some e)) = Ok []) /\
    (s < e -> s < 0 \/ n < e -> module_getitem (module_run m cs) (Slice (Some s) (Some e)) = Err KeyError).
Proof. exact (@C30_slices_pf). Qed.
Print Assumptions C30_slices.

Example C30_slices_ex : match expansion_module with
  | Ok m => module_getitem m (Slice (Some 2) (Some 5)) = Ok [2; 3; 4] /\ module_getitem m (Slice (Some 6) (Some 9)) = Err KeyError /\
            module_getitem m (Slice (Some (-1)) (Some 2)) = Err KeyError /\ module_getitem m (Slice (Some 9) (Some 3)) = Ok []
  | Err _ => False
  end.
Proof. unfold expansion_module, module_new. rewrite bank_new_value. vm_compute. auto. Qed.

Theorem C30_open_slice : forall m s e, s = None \/ e = None -> module_getitem m (Slice s e) = Err TypeError.
Proof. exact (@C30_open_slice_pf). Qed.
Print Assumptions C30_open_slice.

Example C30_open_slice_ex : match memory_module with
  | Ok m => module_getitem m (Slice None (Some 2)) = Err TypeError /\ module_getitem m (Slice (Some 0) (Some 2)) = Ok [0; 1]
  | Err _ => False
  end.
Proof. unfold memory_module, module_new. rewrite bank_new_value. vm_compute. auto. Qed.

Theorem C31_value_property_refuted : forall m x,
  bank_value_get m = Err TypeError /\ bank_value_set m x = (m, Err TypeError).
Proof. exact (@C31_value_property_refuted_pf). Qed.
Print Assumptions C31_value_property_refuted.

Example C31_value_property_refuted_ex : match bank_new with Ok m => bank_value_get m = Err TypeError /\ snd (bank_value_set m 5) = Err TypeError | Err _ => False end.
Proof. rewrite bank_new_value. vm_compute. auto. Qed.

Theorem C31_functions_refuted : forall m a v p, reachable m ->
  (0 <= a < 2048 -> value_fget m [a] = Err TypeError /\ value_fget m [a; p] = Err TypeError /\
     (0 <= v < 2 ^ 48 -> value_fset m [a; v] = Err TypeError /\ value_fset m [a; v; p] = Err TypeError) /\
     (~ (0 <= v < 2 ^ 48) -> value_fset m [a; v] = Err ValueError)) /\
  (~ (0 <= a < 2048) -> value_fget m [a] = Err ValueError /\ value_fset m [a; v] = Err ValueError).
Proof. exact (@C31_functions_refuted_pf). Qed.
Print Assumptions C31_functions_refuted.

Example C31_functions_refuted_ex : match bank_new with
  | Ok m => value_fget m [5] = Err TypeError /\ value_fset m [5; 2 ^ 48] = Err ValueError /\ value_fget m [2048] = Err ValueError
  | Err _ => False
  end.
Proof. rewrite bank_new_value. vm_compute. auto. Qed.
