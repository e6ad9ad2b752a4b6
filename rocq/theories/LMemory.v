(** Proofs about the memory model. *)
From Verif Require Import Py MBitField MWord MMemory SMemory LPy LWord.
From Coq Require Import ZifyBool.

Opaque py_range.

Definition MR (m : bank) (s : smem) : Prop :=
  dkeys (mb_data m) = py_range 0 2048 /\ mb_width m = 48 /\
  mb_current m = cursor s /\ 0 <= cursor s <= 2048 /\
  forall a, 0 <= a < 2048 ->
    dget (mb_data m) a = Some (wbits (cells s a)) /\ 0 <= cells s a < 2 ^ 48.

Lemma word_set_value_bad w v : ~ (0 <= v < 2 ^ 48) -> word_set_value w v = (w, Err ValueError).
Proof. intros H. unfold word_set_value. rewrite word_check_err by exact H. reflexivity. Qed.

Lemma bank_new_MR : exists m, bank_new = Ok m /\ MR m smem_new.
Proof.
  unfold bank_new. rewrite word_new_ok by lia. cbn [bind]. eexists. split; [reflexivity|].
  pose proof (fold_dset_fresh (fun x : Z => x) (fun _ : Z => wbits 0 : word) (py_range 0 BANK_SIZE) []) as F.
  cbv beta in F. rewrite F; clear F.
  2:{ rewrite map_id. apply py_range_NoDup. }
  2:{ intros x _ []. }
  cbn [app]. split; [|split; [|split; [|split]]]; cbn [mb_data mb_width mb_current cursor smem_new].
  - unfold dkeys. rewrite map_map. apply map_id.
  - reflexivity.
  - reflexivity.
  - lia.
  - intros a Ha. split; [|cbn; lia]. apply In_dget.
    + unfold dkeys. rewrite map_map, map_id. apply py_range_NoDup.
    + apply in_map_iff. exists a. split; [reflexivity|]. apply py_range_In. unfold BANK_SIZE. lia.
Qed.

(** the value itself; used to compute with fresh banks *)
Lemma bank_new_value : bank_new = Ok (mkbank (map (fun a => (a, wbits 0 : word)) (py_range 0 2048)) 48 0).
Proof.
  unfold bank_new. rewrite word_new_ok by lia. cbn [bind].
  pose proof (fold_dset_fresh (fun x : Z => x) (fun _ : Z => wbits 0 : word) (py_range 0 BANK_SIZE) []) as F.
  cbv beta in F. rewrite F; [reflexivity|rewrite map_id; apply py_range_NoDup|intros x _ []].
Qed.

Lemma MR_dindex_ok m s a : MR m s -> 0 <= a < 2048 ->
  dindex (mb_data m) a = Ok (wbits (cells s a)).
Proof. intros (_ & _ & _ & _ & H) Ha. unfold dindex. destruct (H a Ha) as [-> _]. reflexivity. Qed.
Lemma MR_dindex_err m s a : MR m s -> ~ (0 <= a < 2048) -> dindex (mb_data m) a = Err KeyError.
Proof.
  intros (H & _) Ha. unfold dindex.
  assert (E : dget (mb_data m) a = None).
  { apply dget_None. rewrite H, py_range_In. lia. }
  rewrite E. reflexivity.
Qed.

Lemma MR_ext m c c' k : MR m (mksmem c k) -> (forall a, 0 <= a < 2048 -> c a = c' a) ->
  MR m (mksmem c' k).
Proof.
  intros (H1 & H2 & H3 & H4 & H5) E. repeat (split; [assumption|]).
  intros a Ha. specialize (H5 a Ha). cbn in *. rewrite <- E by exact Ha. exact H5.
Qed.

Lemma MR_cell_set m s a v : MR m s ->
  exists m', cell_set m a v =
    (m', if negb (good_addr a) then Err KeyError else
         if negb (good_value v) then Err ValueError else Ok tt) /\
    MR m' (if good_addr a && good_value v
           then mksmem (store (cells s) a (a + 1) v) (cursor s) else s).
Proof.
  intros HR. unfold cell_set. destruct (good_addr a) eqn:GA; cbn [negb andb].
  - assert (Ha : 0 <= a < 2048) by (unfold good_addr in GA; lia).
    rewrite (MR_dindex_ok _ _ _ HR Ha).
    destruct HR as (H1 & H2 & H3 & H4 & H5).
    destruct (good_value v) eqn:GV; cbn [negb].
    + rewrite word_set_value_ok by (unfold good_value in GV; lia).
      eexists. split; [reflexivity|].
      split; [|split; [|split; [|split]]]; cbn [mb_data mb_width mb_current cursor cells]; try assumption.
      * rewrite dkeys_dset. unfold dmem. destruct (H5 a Ha) as [-> _]. exact H1.
      * intros b Hb. rewrite dget_dset. unfold store. cbn [eqb EqB_Z].
        destruct (Z.eqb_spec a b) as [->|N].
        -- destruct (Z.leb_spec b b), (Z.ltb_spec b (b + 1)); try lia. cbn [andb].
           split; [reflexivity|]. unfold good_value in GV. lia.
        -- destruct (Z.leb_spec a b), (Z.ltb_spec b (a + 1)); try lia; cbn [andb]; apply H5; exact Hb.
    + rewrite word_set_value_bad by (unfold good_value in GV; lia).
      eexists. split; [reflexivity|]. rewrite dset_same by apply H5, Ha.
      destruct m; repeat (split; [assumption|]). exact H5.
  - rewrite (MR_dindex_err _ _ a HR) by (unfold good_addr in GA; lia).
    eexists. split; [reflexivity|]. exact HR.
Qed.

Lemma MR_cells_get m s : MR m s -> forall n lo hi, Z.to_nat (hi - lo) = n ->
  cells_get m (py_range lo hi) =
    if hi <=? lo then Ok []
    else if (0 <=? lo) && (hi <=? 2048) then Ok (map (cells s) (interval lo hi))
    else Err KeyError.
Proof.
  intros HR. induction n as [|n IH]; intros lo hi Hn.
  - rewrite py_range_nil by lia. destruct (Z.leb_spec hi lo); [reflexivity|lia].
  - rewrite py_range_cons by lia. destruct (Z.leb_spec hi lo); [lia|].
    cbn [cells_get]. unfold cell_get.
    destruct (Z.leb_spec 0 lo) as [L|L]; cbn [andb].
    + destruct (Z_lt_dec lo 2048) as [U|U].
      * rewrite (MR_dindex_ok _ _ lo HR) by lia. cbn [bind]. rewrite IH by lia.
        destruct (Z.leb_spec hi (lo + 1)).
        -- replace hi with (lo + 1) by lia. destruct (Z.leb_spec (lo + 1) 2048); [|lia].
           cbn [bind]. unfold interval. replace (Z.to_nat (lo + 1 - lo)) with 1%nat by lia.
           cbn [seq map]. rewrite Z.add_0_r. reflexivity.
        -- destruct (Z.leb_spec 0 (lo + 1)); [|lia]. cbn [andb].
           destruct (Z.leb_spec hi 2048); [|reflexivity]. cbn [bind]. f_equal.
           unfold interval. replace (Z.to_nat (hi - lo)) with (S (Z.to_nat (hi - (lo + 1)))) by lia.
           cbn [seq map]. rewrite Z.add_0_r. f_equal.
           rewrite <- seq_shift, !map_map. apply map_ext. intros i. f_equal. lia.
      * rewrite (MR_dindex_err _ _ lo HR) by lia. cbn [bind].
        destruct (Z.leb_spec hi 2048); [lia|reflexivity].
    + rewrite (MR_dindex_err _ _ lo HR) by lia. reflexivity.
Qed.

Lemma MR_cells_set v : forall n lo hi m s, MR m s -> Z.to_nat (hi - lo) = n ->
  exists m', cells_set m (py_range lo hi) v =
    (m', if hi <=? lo then Ok tt
         else if negb (good_addr lo) then Err KeyError
         else if negb (good_value v) then Err ValueError
         else if hi <=? 2048 then Ok tt else Err KeyError) /\
    MR m' (if negb (hi <=? lo) && good_addr lo && good_value v
           then mksmem (store (cells s) lo hi v) (cursor s) else s).
Proof.
  induction n as [|n IH]; intros lo hi m s HR Hn.
  - rewrite py_range_nil by lia. destruct (Z.leb_spec hi lo); [|lia]. cbn. eauto.
  - rewrite py_range_cons by lia. destruct (Z.leb_spec hi lo); [lia|]. cbn [negb andb].
    cbn [cells_set]. destruct (MR_cell_set m s lo v HR) as (m' & -> & HR').
    destruct (good_addr lo) eqn:GA; cbn [negb andb] in *; [|eauto].
    destruct (good_value v) eqn:GV; cbn [negb andb] in *; [|eauto].
    destruct (IH (lo + 1) hi m' _ HR' ltac:(lia)) as (m2 & -> & HR2).
    cbn [cursor cells] in HR2.
    exists m2. split.
    + f_equal. unfold good_addr in *.
      destruct (Z.leb_spec hi (lo + 1)), (Z.leb_spec hi 2048); try lia; try reflexivity.
      * destruct (Z.leb_spec 0 (lo + 1)), (Z.ltb_spec (lo + 1) 2048); try lia. reflexivity.
      * destruct ((0 <=? lo + 1) && (lo + 1 <? 2048)); reflexivity.
    + destruct (negb (hi <=? lo + 1) && good_addr (lo + 1) && true) eqn:E.
      * eapply MR_ext; [exact HR2|]. intros a Ha. unfold store.
        destruct (Z.leb_spec (lo + 1) a), (Z.ltb_spec a hi), (Z.leb_spec lo a), (Z.ltb_spec a (lo + 1));
          cbn [andb]; try reflexivity; lia.
      * eapply MR_ext; [exact HR2|]. intros a Ha. unfold store.
        destruct (Z.ltb_spec a hi), (Z.leb_spec lo a), (Z.ltb_spec a (lo + 1));
          cbn [andb]; try reflexivity; try lia.
        (* a >= lo + 1, a < hi, but the tail was not written: lo + 1 > 2047 *)
        exfalso. unfold good_addr in *. lia.
Qed.

Lemma store_all f v : forall a, 0 <= a < 2048 -> store f 0 2048 v a = v.
Proof.
  intros a Ha. unfold store. destruct (Z.leb_spec 0 a), (Z.ltb_spec a 2048); try lia. reflexivity.
Qed.

Lemma call_simulates m s c : MR m s ->
  snd (bank_call m c) = snd (smem_call s c) /\ MR (fst (bank_call m c)) (fst (smem_call s c)).
Proof.
  intros HR. destruct c as [k|k v| | | |a v].
  - cbn [bank_call]. destruct k as [i|lo hi].
    + cbn [bank_getitem smem_call fst snd]. split; [|exact HR]. unfold cell_get.
      destruct (good_addr i) eqn:G; unfold good_addr in G.
      * rewrite (MR_dindex_ok _ _ i HR) by lia. reflexivity.
      * rewrite (MR_dindex_err _ _ i HR) by lia. reflexivity.
    + destruct lo as [lo|], hi as [hi|]; cbn [bank_getitem smem_call fst snd]; auto.
      split; [|exact HR]. apply (MR_cells_get _ _ HR _ _ _ eq_refl).
  - cbn [bank_call]. destruct k as [i|lo hi].
    + cbn [bank_setitem smem_call]. destruct (MR_cell_set m s i v HR) as (m' & -> & HR').
      cbn [unit_out]. destruct (good_addr i), (good_value v); cbn [negb andb bind fst snd] in *; auto.
    + destruct lo as [lo|], hi as [hi|]; cbn [bank_setitem smem_call unit_out fst snd bind]; auto.
      destruct (MR_cells_set v _ lo hi m s HR eq_refl) as (m' & -> & HR').
      cbn [unit_out]. destruct (hi <=? lo), (good_addr lo), (good_value v), (hi <=? 2048);
        cbn [negb andb bind fst snd] in *; auto.
  - cbn [bank_call smem_call]. unfold bank_clear.
    assert (K := HR). destruct K as (K & _). rewrite K.
    destruct (MR_cells_set 0 _ 0 2048 m s HR eq_refl) as (m' & -> & HR').
    cbn [unit_out]. split; [reflexivity|]. cbn [fst].
    change (negb (2048 <=? 0) && good_addr 0 && good_value 0) with true in HR'. cbv iota in HR'.
    eapply MR_ext; [exact HR'|]. intros a Ha. apply store_all. exact Ha.
  - cbn [bank_call smem_call fst snd]. split; [|exact HR]. unfold bank_len.
    assert (K := HR). destruct K as (K & _).
    assert (E : zlen (mb_data m) = zlen (dkeys (mb_data m)))
      by (unfold zlen, dkeys; rewrite map_length; reflexivity).
    rewrite E, K, py_range_length. reflexivity.
  - cbn [bank_call smem_call]. unfold bank_next.
    assert (E : zlen (mb_data m) = 2048).
    { assert (K := HR). destruct K as (K & _).
      assert (E : zlen (mb_data m) = zlen (dkeys (mb_data m)))
        by (unfold zlen, dkeys; rewrite map_length; reflexivity).
      rewrite E, K, py_range_length. reflexivity. }
    rewrite E. assert (H := HR). destruct H as (H1 & H2 & H3 & H4 & H5). rewrite H3.
    destruct (Z.geb_spec (cursor s) 2048), (Z.ltb_spec (cursor s) 2048); try lia.
    + cbn. auto.
    + rewrite (MR_dindex_ok _ _ (cursor s) HR) by lia. cbn [bind fst snd].
      split; [reflexivity|]. repeat (split; [first [assumption|cbn [mb_current cursor]; lia]|]).
      exact H5.
  - cbn [bank_call smem_call]. unfold bank_ref_write.
    destruct (MR_cell_set m s a v HR) as (m' & -> & HR').
    cbn [unit_out]. destruct (good_addr a), (good_value v); cbn [negb andb bind fst snd] in *; auto.
Qed.

Lemma trace_simulates cs : forall m s, MR m s -> bank_trace m cs = smem_trace s cs.
Proof.
  induction cs as [|c cs IH]; intros m s HR; [reflexivity|].
  destruct (call_simulates m s c HR) as [E HR']. cbn [bank_trace smem_trace].
  destruct (bank_call m c), (smem_call s c). cbn in E, HR'. subst. f_equal. apply IH. exact HR'.
Qed.
Lemma run_simulates cs : forall m s, MR m s -> MR (bank_run m cs) (smem_run s cs).
Proof.
  induction cs as [|c cs IH]; intros m s HR; [exact HR|].
  cbn [bank_run smem_run fold_left]. apply IH. apply call_simulates. exact HR.
Qed.

Lemma C25_bank_is_array_pf : exists m, bank_new = Ok m /\
  (forall cs, bank_trace m cs = smem_trace smem_new cs) /\
  (forall cs i, 0 <= i < 2048 ->
     bank_getitem (bank_run m cs) (Idx i) = Ok [cells (smem_run smem_new cs) i]).
Proof.
  destruct bank_new_MR as (m & E & HR). exists m. split; [exact E|]. split.
  - intros cs. apply trace_simulates. exact HR.
  - intros cs i Hi. assert (HR' := run_simulates cs _ _ HR).
    destruct (call_simulates _ _ (MGet (Idx i)) HR') as [H _]. cbn [bank_call smem_call fst snd] in H.
    rewrite H. unfold good_addr. destruct (Z.leb_spec 0 i), (Z.ltb_spec i 2048); try lia. reflexivity.
Qed.
(*@
Example C25_example :
  match bank_new with
  | Ok m => bank_trace m [MSet (Idx 5) 7; MSet (Slice (Some 4) (Some 7)) 9; MSet (Idx 5) 8; MNext;
                          MRef 0 3; MGet (Slice (Some 0) (Some 8)); MClear; MGet (Idx 5); MGet (Idx 2048)]
            = [Ok []; Ok []; Ok []; Ok [0]; Ok []; Ok [3; 0; 0; 0; 9; 8; 9; 0]; Ok []; Ok [0]; Err KeyError]
  | Err _ => False
  end.
Proof. destruct C25_bank_is_array as (m & E & T & _). rewrite E, T. vm_compute. reflexivity. Qed.
@*)

(** A bank reached by some history from a new one. *)
Definition reachable (m : bank) : Prop := exists m0 cs, bank_new = Ok m0 /\ m = bank_run m0 cs.
Lemma reachable_MR m : reachable m -> exists s, MR m s.
Proof.
  intros (m0 & cs & E & ->). destruct bank_new_MR as (m1 & E1 & HR).
  rewrite E in E1. injection E1 as <-. eexists. apply run_simulates. exact HR.
Qed.

(** *** the width of a bank *)
Lemma C25_width_pf : forall m, reachable m -> bank_width m = 48.
Proof. intros m H. destruct (reachable_MR m H) as (s & _ & W & _). exact W. Qed.
(*@ Example C25_width_ex : forall m, bank_new = Ok m -> bank_width (bank_run m [MSet (Idx 5) 7; MClear]) = 48.
Proof. intros m E. apply C25_width. exists m, [MSet (Idx 5) 7; MClear]. split; [exact E|reflexivity]. Qed. @*)

Lemma C26_bad_addresses_values_pf : forall m i v, reachable m ->
  (bank_getitem m (Idx i) = Err KeyError <-> ~ (0 <= i < 2048)) /\
  (forall e, bank_getitem m (Idx i) = Err e -> e = KeyError) /\
  (snd (bank_setitem m (Idx i) v) = Err KeyError <-> ~ (0 <= i < 2048)) /\
  (snd (bank_setitem m (Idx i) v) = Err ValueError <->
     0 <= i < 2048 /\ ~ (0 <= v < 2 ^ 48)) /\
  (forall e, snd (bank_setitem m (Idx i) v) = Err e ->
     (e = KeyError \/ e = ValueError) /\
     forall j, bank_getitem (fst (bank_setitem m (Idx i) v)) (Idx j) = bank_getitem m (Idx j)).
Proof.
  intros m i v Hm. destruct (reachable_MR m Hm) as [s HR].
  assert (GET : forall m s j, MR m s ->
    bank_getitem m (Idx j) = if good_addr j then Ok [cells s j] else Err KeyError).
  { intros m1 s1 j HR1. destruct (call_simulates _ _ (MGet (Idx j)) HR1) as [H _]. exact H. }
  destruct (MR_cell_set m s i v HR) as (m' & E & HR'). cbn [bank_setitem].
  rewrite E. cbn [snd fst]. rewrite (GET _ _ i HR).
  unfold good_addr, good_value in *.
  split; [|split; [|split; [|split]]].
  - destruct ((0 <=? i) && (i <? 2048)) eqn:B; split; intros; try discriminate; try lia; reflexivity.
  - destruct ((0 <=? i) && (i <? 2048)); congruence.
  - destruct ((0 <=? i) && (i <? 2048)) eqn:B; cbn [negb].
    + destruct ((0 <=? v) && (v <? 2 ^ 48)); cbn [negb]; split; intros; try discriminate; lia.
    + split; intros; try lia; reflexivity.
  - destruct ((0 <=? i) && (i <? 2048)) eqn:B; cbn [negb].
    + destruct ((0 <=? v) && (v <? 2 ^ 48)) eqn:C; cbn [negb]; split; intros; try discriminate; try lia; reflexivity.
    + split; intros; try discriminate; lia.
  - intros e He. split.
    + destruct ((0 <=? i) && (i <? 2048)), ((0 <=? v) && (v <? 2 ^ 48)); cbn [negb] in He;
        try discriminate; injection He as <-; auto.
    + intros j. rewrite (GET _ _ j HR), (GET _ _ j HR').
      destruct ((0 <=? i) && (i <? 2048)), ((0 <=? v) && (v <? 2 ^ 48)); cbn [negb andb] in *;
        try discriminate; reflexivity.
Qed.
(*@
Example C26_example :
  match bank_new with
  | Ok m => bank_trace m [MSet (Idx 2047) 5; MSet (Idx 2047) (2 ^ 48); MSet (Idx (-1)) 5; MGet (Idx 2047)]
            = [Ok []; Err ValueError; Err KeyError; Ok [5]]
  | Err _ => False
  end.
Proof. destruct C25_bank_is_array as (m & E & T & _). rewrite E, T. vm_compute. reflexivity. Qed.
@*)

Lemma C27_slices_pf : forall m lo hi v, reachable m -> 0 <= lo -> hi <= 2048 ->
  (exists xs, bank_getitem m (Slice (Some lo) (Some hi)) = Ok xs /\
     zlen xs = Z.max 0 (hi - lo) /\
     forall k, 0 <= k < hi - lo ->
       exists x, nth_error xs (Z.to_nat k) = Some x /\ bank_getitem m (Idx (lo + k)) = Ok [x]) /\
  (0 <= v < 2 ^ 48 ->
   let '(m', r) := bank_setitem m (Slice (Some lo) (Some hi)) v in
   r = Ok tt /\
   forall a, bank_getitem m' (Idx a) =
             if (lo <=? a) && (a <? hi) then Ok [v] else bank_getitem m (Idx a)).
Proof.
  intros m lo hi v Hm Hl Hh. destruct (reachable_MR m Hm) as [s HR].
  assert (GET : forall m s j, MR m s ->
    bank_getitem m (Idx j) = if good_addr j then Ok [cells s j] else Err KeyError).
  { intros m1 s1 j HR1. destruct (call_simulates _ _ (MGet (Idx j)) HR1) as [H _]. exact H. }
  split.
  - destruct (call_simulates _ _ (MGet (Slice (Some lo) (Some hi))) HR) as [H _].
    cbn [bank_call smem_call snd] in H. rewrite H. destruct (Z.leb_spec hi lo).
    + exists []. split; [reflexivity|]. split; [cbn; lia|]. intros; lia.
    + destruct (Z.leb_spec 0 lo), (Z.leb_spec hi 2048); try lia. cbn [andb].
      eexists. split; [reflexivity|]. split.
      * unfold zlen, interval. rewrite !map_length, seq_length. lia.
      * intros k Hk. exists (cells s (lo + k)). split.
        -- unfold interval. rewrite map_map, nth_error_map.
           rewrite (nth_error_nth' _ O) by (rewrite seq_length; lia).
           rewrite seq_nth by lia. cbn. do 2 f_equal. lia.
        -- rewrite (GET _ _ _ HR). unfold good_addr.
           destruct (Z.leb_spec 0 (lo + k)), (Z.ltb_spec (lo + k) 2048); try lia. reflexivity.
  - intros Hv. cbn [bank_setitem].
    destruct (MR_cells_set v _ lo hi m s HR eq_refl) as (m' & -> & HR').
    unfold good_addr, good_value in HR'. split.
    + destruct (Z.leb_spec hi lo); [reflexivity|]. unfold good_addr, good_value.
      destruct (Z.leb_spec 0 lo), (Z.ltb_spec lo 2048), (Z.leb_spec 0 v), (Z.ltb_spec v (2 ^ 48)),
        (Z.leb_spec hi 2048); try lia. reflexivity.
    + intros a. rewrite (GET _ _ a HR), (GET _ _ a HR').
      destruct (Z.leb_spec hi lo); cbn [negb andb].
      * destruct (Z.leb_spec lo a), (Z.ltb_spec a hi); try lia; reflexivity.
      * destruct (Z.leb_spec 0 lo), (Z.ltb_spec lo 2048), (Z.leb_spec 0 v), (Z.ltb_spec v (2 ^ 48));
          try lia. cbn [andb cells]. unfold store, good_addr.
        destruct (Z.leb_spec lo a), (Z.ltb_spec a hi), (Z.leb_spec 0 a), (Z.ltb_spec a 2048);
          try lia; reflexivity.
Qed.
(*@
Example C27_example :
  match bank_new with
  | Ok m => bank_trace m [MSet (Slice (Some 3) (Some 6)) 1; MGet (Slice (Some 2) (Some 7)); MGet (Slice (Some 9) (Some 9))]
            = [Ok []; Ok [0; 1; 1; 1; 0]; Ok []]
  | Err _ => False
  end.
Proof. destruct C25_bank_is_array as (m & E & T & _). rewrite E, T. vm_compute. reflexivity. Qed.
@*)

Lemma C28_failing_slice_refuted_pf : forall m lo hi v, reachable m ->
  0 <= lo < 2048 -> 2048 < hi -> 0 <= v < 2 ^ 48 ->
  let '(m', r) := bank_setitem m (Slice (Some lo) (Some hi)) v in
  r = Err KeyError /\ forall a, lo <= a < 2048 -> bank_getitem m' (Idx a) = Ok [v].
Proof.
  intros m lo hi v Hm Hl Hh Hv. destruct (reachable_MR m Hm) as [s HR]. cbn [bank_setitem].
  destruct (MR_cells_set v _ lo hi m s HR eq_refl) as (m' & -> & HR').
  unfold good_addr, good_value in *. split.
  - destruct (Z.leb_spec hi lo); [lia|].
    destruct (Z.leb_spec 0 lo), (Z.ltb_spec lo 2048), (Z.leb_spec 0 v), (Z.ltb_spec v (2 ^ 48)),
        (Z.leb_spec hi 2048); try lia. reflexivity.
  - intros a Ha.
    destruct (call_simulates _ _ (MGet (Idx a)) HR') as [H _]. cbn [bank_call smem_call snd fst] in H.
    rewrite H. unfold good_addr. destruct (Z.leb_spec 0 a), (Z.ltb_spec a 2048); try lia. cbn [andb].
    destruct (Z.leb_spec hi lo); [lia|].
    destruct (Z.leb_spec 0 lo), (Z.ltb_spec lo 2048), (Z.leb_spec 0 v), (Z.ltb_spec v (2 ^ 48));
      try lia. cbn [negb andb cells]. unfold store.
    destruct (Z.leb_spec lo a), (Z.ltb_spec a hi); try lia. reflexivity.
Qed.
(*@
Example C28_refuted_witness :
  match bank_new with
  | Ok m => bank_trace m [MSet (Slice (Some 2046) (Some 2049)) 5; MGet (Slice (Some 2045) (Some 2048))]
            = [Err KeyError; Ok [0; 5; 5]]
  | Err _ => False
  end.
Proof. destruct C25_bank_is_array as (m & E & T & _). rewrite E, T. vm_compute. reflexivity. Qed.
@*)
Lemma C28_failing_slice_partial_pf : forall m lo hi v, reachable m ->
  ~ (0 <= lo < 2048 /\ 2048 < hi /\ 0 <= v < 2 ^ 48) ->
  forall e, snd (bank_setitem m (Slice (Some lo) (Some hi)) v) = Err e ->
  forall a, bank_getitem (fst (bank_setitem m (Slice (Some lo) (Some hi)) v)) (Idx a)
            = bank_getitem m (Idx a).
Proof.
  intros m lo hi v Hm N e He a. destruct (reachable_MR m Hm) as [s HR]. cbn [bank_setitem] in *.
  destruct (MR_cells_set v _ lo hi m s HR eq_refl) as (m' & E & HR'). rewrite E in *.
  cbn [fst snd] in *. unfold good_addr, good_value in *.
  destruct (call_simulates _ _ (MGet (Idx a)) HR') as [H _]. cbn [bank_call smem_call snd fst] in H.
  destruct (call_simulates _ _ (MGet (Idx a)) HR) as [H' _]. cbn [bank_call smem_call snd fst] in H'.
  rewrite H, H'.
  destruct (Z.leb_spec hi lo); [discriminate|]. cbn [negb andb] in *.
  destruct ((0 <=? lo) && (lo <? 2048)) eqn:B; cbn [negb andb] in *; [|reflexivity].
  destruct ((0 <=? v) && (v <? 2 ^ 48)) eqn:C; cbn [negb andb] in *; [|reflexivity].
  destruct (Z.leb_spec hi 2048); [discriminate|]. lia.
Qed.
(*@ Example C28_failing_slice_partial_ex : match bank_new with
  | Ok m => snd (bank_setitem m (Slice (Some 2048) (Some 2049)) 1) = Err KeyError /\ snd (bank_setitem m (Slice (Some 0) (Some 2)) (2 ^ 60)) = Err ValueError
  | Err _ => False
  end.
Proof. rewrite bank_new_value. vm_compute. auto. Qed. @*)

(** ** Iteration *)
Lemma loop_from m s : MR m s -> forall n fuel, Z.to_nat (2048 - cursor s) = n -> (n < fuel)%nat ->
  exists m', bank_loop fuel m = (m', Ok (interval (cursor s) 2048)) /\
             MR m' (mksmem (cells s) 2048).
Proof.
  intros HR n. revert m s HR. induction n as [|n IH]; intros m s HR fuel Hn Hf;
    (destruct fuel as [|fuel]; [lia|]); cbn [bank_loop];
    destruct (call_simulates m s MNext HR) as [E HR']; cbn [bank_call smem_call] in E, HR';
    destruct (bank_next m) as [m1 r] eqn:N;
    assert (H := HR); destruct H as (_ & _ & _ & HC & _).
  - destruct (Z.ltb_spec (cursor s) 2048); [lia|]. cbn [fst snd] in *.
    destruct r as [a|e]; cbn [bind] in E; [discriminate|]. injection E as ->.
    exists m1. split.
    + unfold interval. replace (Z.to_nat (2048 - cursor s)) with O by lia. reflexivity.
    + destruct s as [c k]. cbn [cursor cells] in *. replace 2048 with k by lia. exact HR'.
  - destruct (Z.ltb_spec (cursor s) 2048); [|lia]. cbn [fst snd] in *.
    destruct r as [a|e]; cbn [bind] in E; [|discriminate]. injection E as ->.
    destruct (IH m1 _ HR' fuel) as (m2 & -> & HR2); cbn [cursor]; try lia.
    exists m2. split; [|exact HR2]. cbn [bind]. do 2 f_equal. unfold interval.
    replace (Z.to_nat (2048 - cursor s)) with (S (Z.to_nat (2048 - (cursor s + 1)))) by lia.
    cbn [seq map]. rewrite Z.add_0_r. f_equal.
    rewrite <- seq_shift, map_map. apply map_ext. intros i. lia.
Qed.

(** fuel enough for any loop over a bank: one round per cell and the last test *)
Definition enough : nat := Z.to_nat 2049.

Lemma C29_first_loop_partial_pf : exists m, bank_new = Ok m /\
  forall cs, Forall (fun c => c <> MNext) cs ->
  snd (bank_loop enough (bank_run m cs)) = Ok (interval 0 2048).
Proof.
  destruct bank_new_MR as (m & E & HR). exists m. split; [exact E|]. intros cs HN.
  assert (HR' := run_simulates cs _ _ HR).
  assert (C : forall s, cursor (smem_run s cs) = cursor s).
  { clear - HN. induction cs as [|c cs IH]; intros s; [reflexivity|].
    inversion HN as [|x l H1 H2]; subst. cbn [smem_run fold_left].
    specialize (IH H2 (fst (smem_call s c))). unfold smem_run in IH. rewrite IH.
    destruct c as [[|[] []]|[|[] []]| | | |]; cbn [smem_call]; try contradiction;
      repeat match goal with |- context [if ?b then _ else _] => destruct b end; reflexivity. }
  destruct (loop_from _ _ HR' _ enough eq_refl) as (m' & -> & _).
  - rewrite C. unfold enough. cbn [cursor smem_new]. lia.
  - cbn [snd]. rewrite C. reflexivity.
Qed.
(*@ Example C29_first_loop_partial_ex : match bank_new with
  | Ok m => match snd (bank_loop enough (bank_run m [MSet (Idx 3) 7])) with Ok l => firstn 3 l = [0; 1; 2] /\ zlen l = 2048 | Err _ => False end
  | Err _ => False
  end.
Proof. destruct C29_first_loop_partial as (m & E & L). rewrite E, L by (constructor; [discriminate|constructor]). vm_compute. auto. Qed. @*)
Lemma C29_later_loops_refuted_pf : forall m, reachable m ->
  let m1 := fst (bank_loop enough m) in
  (forall cs, snd (bank_loop enough (bank_run m1 cs)) = Ok []) /\
  bank_loop enough m1 = (m1, Ok []).
Proof.
  intros m Hm. destruct (reachable_MR m Hm) as [s HR]. cbv zeta.
  assert (H := HR). destruct H as (_ & _ & _ & HC & _).
  destruct (loop_from _ _ HR _ enough eq_refl) as (m1 & E1 & HR1).
  { unfold enough. lia. }
  rewrite E1. cbn [fst].
  assert (C : forall cs s, cursor s = 2048 -> cursor (smem_run s cs) = 2048).
  { clear. induction cs as [|c cs IH]; intros s Hs; [exact Hs|].
    cbn [smem_run fold_left]. apply IH.
    destruct c as [[|[] []]|[|[] []]| | | |]; cbn [smem_call]; try exact Hs;
      try (rewrite Hs; exact Hs);
      repeat match goal with |- context [if ?b then _ else _] => destruct b end; exact Hs. }
  assert (N : forall m s, MR m s -> cursor s = 2048 -> bank_next m = (m, Err StopIteration)).
  { intros m2 s2 (K & _ & K2 & _) Hc. unfold bank_next.
    assert (L : zlen (mb_data m2) = zlen (dkeys (mb_data m2)))
      by (unfold zlen, dkeys; rewrite map_length; reflexivity).
    rewrite L, K, py_range_length, K2, Hc. reflexivity. }
  assert (S : exists f, enough = S f).
  { exists (Z.to_nat 2048). unfold enough. lia. }
  destruct S as [f Ef]. rewrite Ef. split.
  - intros cs. assert (HR2 := run_simulates cs _ _ HR1). cbn [bank_loop].
    rewrite (N _ _ HR2) by (apply C; reflexivity). reflexivity.
  - cbn [bank_loop]. rewrite (N _ _ HR1) by reflexivity. reflexivity.
Qed.
(*@
Example C29_refuted_witness :
  match bank_new with
  | Ok m => let m1 := fst (bank_loop enough m) in
            (zlen match snd (bank_loop enough m) with Ok l => l | Err _ => [] end,
             snd (bank_loop enough m1)) = (2048, Ok [])
  | Err _ => False
  end.
Proof.
  destruct C29_first_loop_partial as (m & E & L). rewrite E.
  assert (L0 := L [] (Forall_nil _)). change (bank_run m []) with m in L0.
  destruct (C29_later_loops_refuted m) as [_ R]; [exists m, []; auto|].
  cbv zeta. rewrite R, L0. reflexivity.
Qed.
@*)

(** ** Modules *)
Lemma bank_len_run b cs : bank_new = Ok b -> bank_len (bank_run b cs) = 2048.
Proof.
  intros E. destruct bank_new_MR as (m1 & E1 & HR). rewrite E in E1. injection E1 as <-.
  assert (HR' := run_simulates cs _ _ HR).
  destruct (call_simulates _ _ MLen HR') as [H _]. cbn in H. congruence.
Qed.

Lemma C30_modules_pf : forall n, n = 4 \/ n = 8 ->
  exists m b, module_new n = Ok m /\ bank_new = Ok b /\
  forall cs,
    let m' := module_run m cs in
    module_len m' = n /\ module_size m' = Ok (n * 2048) /\
    (forall i, module_getitem m' (Idx i) = if (0 <=? i) && (i <? n) then Ok [i] else Err KeyError) /\
    (forall i, 0 <= i < n -> dindex (mm_data m') i = Ok (bank_run b (calls_to i cs))) /\
    (forall i c, ~ (0 <= i < n) -> module_call m' i c = (m', Err KeyError)).
Proof.
  intros n Hn. destruct bank_new_MR as (b & Eb & _).
  unfold module_new. rewrite Eb. cbn [bind]. eexists. exists b. split; [reflexivity|].
  split; [reflexivity|].
  pose proof (fold_dset_fresh (fun x : Z => x) (fun _ : Z => b) (py_range 0 n) []) as F.
  cbv beta in F. rewrite F; clear F.
  2:{ rewrite map_id. apply py_range_NoDup. }
  2:{ intros x _ []. }
  cbn [app].
  (* invariant: keys and banks *)
  assert (INV : forall cs d,
    dkeys d = py_range 0 n ->
    let m' := module_run (mkmmodule n d) cs in
    mm_banks m' = n /\ dkeys (mm_data m') = py_range 0 n /\
    forall i x, dget d i = Some x -> dget (mm_data m') i = Some (bank_run x (calls_to i cs))).
  { induction cs as [|[j c] cs IH]; intros d K.
    - cbn. auto.
    - cbn [module_run fold_left fst snd]. cbv zeta.
      assert (ST : exists d', fst (module_call (mkmmodule n d) j c) = mkmmodule n d' /\
               dkeys d' = py_range 0 n /\
               forall i x, dget d i = Some x ->
                 dget d' i = Some (if j =? i then fst (bank_call x c) else x)).
      { unfold module_call. cbn [mm_data mm_banks]. unfold dindex.
        destruct (dget d j) as [x0|] eqn:G.
        - destruct (bank_call x0 c) as [b' r] eqn:BC. cbn [fst]. eexists. split; [reflexivity|]. split.
          + rewrite dkeys_dset. unfold dmem. rewrite G. exact K.
          + intros i x Gi. rewrite dget_dset. cbn [eqb EqB_Z].
            destruct (Z.eqb_spec j i) as [->|]; [|exact Gi].
            rewrite G in Gi. injection Gi as ->. rewrite BC. reflexivity.
        - cbn [fst]. exists d. split; [reflexivity|]. split; [exact K|].
          intros i x Gi. destruct (Z.eqb_spec j i) as [->|]; [congruence|exact Gi]. }
      destruct ST as (d' & -> & K' & G'). specialize (IH d' K'). cbv zeta in IH.
      unfold module_run in IH. destruct IH as (I1 & I2 & I3).
      split; [exact I1|]. split; [exact I2|]. intros i x Gi.
      rewrite (I3 i _ (G' i x Gi)). f_equal. unfold calls_to. cbn [filter fst].
      destruct (Z.eqb_spec j i); reflexivity. }
  intros cs. set (d0 := map (fun x => (x, b)) (py_range 0 n)).
  assert (K0 : dkeys d0 = py_range 0 n).
  { unfold d0, dkeys. rewrite map_map. apply map_id. }
  destruct (INV cs d0 K0) as (I1 & I2 & I3). cbv zeta in I1, I2, I3 |- *.
  set (m' := module_run (mkmmodule n d0) cs) in *.
  assert (G0 : forall i, 0 <= i < n -> dget d0 i = Some b).
  { intros i Hi. apply In_dget; [rewrite K0; apply py_range_NoDup|].
    apply in_map_iff. exists i. split; [reflexivity|]. apply py_range_In. lia. }
  assert (GI : forall i, 0 <= i < n -> dindex (mm_data m') i = Ok (bank_run b (calls_to i cs))).
  { intros i Hi. unfold dindex. rewrite (I3 i b (G0 i Hi)). reflexivity. }
  assert (GE : forall i, ~ (0 <= i < n) -> dindex (mm_data m') i = Err KeyError).
  { intros i Hi. unfold dindex.
    assert (E : dget (mm_data m') i = None) by (apply dget_None; rewrite I2, py_range_In; lia).
    rewrite E. reflexivity. }
  split; [|split; [|split; [|split]]].
  - unfold module_len.
    assert (E : zlen (mm_data m') = zlen (dkeys (mm_data m')))
      by (unfold zlen, dkeys; rewrite map_length; reflexivity).
    rewrite E, I2, py_range_length. lia.
  - unfold module_size. rewrite (GI 0) by lia. cbn [bind]. rewrite I1, bank_len_run by exact Eb.
    reflexivity.
  - intros i. unfold module_getitem. destruct ((0 <=? i) && (i <? n)) eqn:B.
    + rewrite GI by lia. reflexivity.
    + rewrite GE by lia. reflexivity.
  - exact GI.
  - intros i c Hi. unfold module_call. rewrite GE by exact Hi. reflexivity.
Qed.
(*@
Example C30_example :
  match memory_module with
  | Ok m => let m' := module_run m [(0, MSet (Idx 3) 7); (1, MSet (Idx 3) 9); (4, MSet (Idx 3) 1)] in
            (snd (module_call m' 0 (MGet (Idx 3))), snd (module_call m' 1 (MGet (Idx 3))),
             snd (module_call m' 2 (MGet (Idx 3))), module_size m') = (Ok [7], Ok [9], Ok [0], Ok 8192)
  | Err _ => False
  end.
Proof.
  destruct (C30_modules 4) as (m & b & E1 & E2 & H); [left; reflexivity|]. unfold memory_module. rewrite E1.
  destruct C25_bank_is_array as (b1 & E3 & _ & G). rewrite E2 in E3. injection E3 as <-.
  set (cs := [(0, MSet (Idx 3) 7); (1, MSet (Idx 3) 9); (4, MSet (Idx 3) 1)]).
  destruct (H cs) as (_ & H2 & _ & H4 & _). cbv zeta. rewrite H2. unfold module_call.
  rewrite (H4 0), (H4 1), (H4 2) by lia. cbn [bank_call snd].
  rewrite !G by lia. reflexivity.
Qed.
@*)

(** the two classes of modules *)
Lemma C30_classes_pf : exists m e, memory_module = Ok m /\ expansion_module = Ok e /\
  forall cs,
    module_len (module_run m cs) = 4 /\ module_size (module_run m cs) = Ok 8192 /\
    module_len (module_run e cs) = 8 /\ module_size (module_run e cs) = Ok 16384 /\
    (forall i, module_getitem (module_run m cs) (Idx i) = if (0 <=? i) && (i <? 4) then Ok [i] else Err KeyError) /\
    (forall i, module_getitem (module_run e cs) (Idx i) = if (0 <=? i) && (i <? 8) then Ok [i] else Err KeyError).
Proof.
  destruct (C30_modules_pf 4) as (m & b & E & _ & H); [left; reflexivity|].
  destruct (C30_modules_pf 8) as (m' & b' & E' & _ & H'); [right; reflexivity|].
  exists m, m'. split; [exact E|]. split; [exact E'|]. intros cs.
  destruct (H cs) as (A1 & A2 & A3 & _). destruct (H' cs) as (B1 & B2 & B3 & _).
  repeat split; assumption.
Qed.
(*@ Example C30_classes_ex : forall e, expansion_module = Ok e ->
  module_getitem (module_run e [(7, MSet (Idx 3) 7); (9, MClear)]) (Idx 7) = Ok [7].
Proof.
  intros e E. destruct C30_classes as (m & e' & _ & E' & H). rewrite E in E'. injection E' as <-.
  destruct (H [(7, MSet (Idx 3) 7); (9, MClear)]) as (_ & _ & _ & _ & _ & X). rewrite X. reflexivity.
Qed. @*)

(** a slice of a module: the banks from the first number to before the second *)
Lemma module_refs_ok d n : (forall i, dindex d i = Err KeyError \/ exists b, dindex d i = Ok b) -> (forall i, (exists b, dindex d i = Ok b) <-> 0 <= i < n) ->
  forall l, module_refs d l = if forallb (fun i => (0 <=? i) && (i <? n)) l then Ok l else Err KeyError.
Proof.
  intros D G. induction l as [|i l IH]; [reflexivity|]. cbn [module_refs forallb]. destruct ((0 <=? i) && (i <? n)) eqn:B; cbn [andb].
  - destruct (proj2 (G i)) as (b & E); [lia|]. rewrite E. cbn [bind]. rewrite IH. destruct (forallb _ l); reflexivity.
  - destruct (D i) as [E|(b & E)]; [rewrite E; reflexivity|]. assert (0 <= i < n) by (apply G; eauto). lia.
Qed.
Lemma C30_slices_pf : forall n, n = 4 \/ n = 8 -> exists m, module_new n = Ok m /\
  forall cs s e,
    (0 <= s -> s <= e <= n -> exists is, module_getitem (module_run m cs) (Slice (Some s) (Some e)) = Ok is /\
       zlen is = e - s /\ forall k, 0 <= k < e - s -> nth_error is (Z.to_nat k) = Some (s + k)) /\
    (e <= s -> module_getitem (module_run m cs) (Slice (Some s) (Some e)) = Ok []) /\
    (s < e -> s < 0 \/ n < e -> module_getitem (module_run m cs) (Slice (Some s) (Some e)) = Err KeyError).
Proof.
  intros n Hn. destruct (C30_modules_pf n Hn) as (m & b & E & _ & H). exists m. split; [exact E|]. intros cs s e.
  destruct (H cs) as (_ & _ & G & D & _). cbv zeta in G, D. set (m' := module_run m cs) in *. unfold module_getitem in *.
  assert (NI : forall i, ~ 0 <= i < n -> dindex (mm_data m') i = Err KeyError).
  { intros i Hi. specialize (G i). destruct (dindex (mm_data m') i) as [x|x]; cbn [bind] in G.
    - destruct ((0 <=? i) && (i <? n)) eqn:B; [lia|discriminate G].
    - destruct ((0 <=? i) && (i <? n)) eqn:B; [lia|]. injection G as ->. reflexivity. }
  assert (R : forall l, module_refs (mm_data m') l = if forallb (fun i => (0 <=? i) && (i <? n)) l then Ok l else Err KeyError).
  { apply module_refs_ok.
    - intros i. destruct (Z_le_dec 0 i); [destruct (Z_lt_dec i n)|]; [right; eexists; apply D; lia|left; apply NI; lia|left; apply NI; lia].
    - intros i. split; [|intros Hi; eexists; apply D; exact Hi]. intros (x & X).
      destruct (Z_le_dec 0 i); [destruct (Z_lt_dec i n); [lia|]|]; rewrite NI in X by lia; discriminate X. }
  rewrite R. split; [|split].
  - intros H1 H2. exists (py_range s e). split; [|split].
    + replace (forallb _ (py_range s e)) with true; [reflexivity|]. symmetry. apply forallb_forall. intros i I. apply py_range_In in I. lia.
    + rewrite py_range_length. lia.
    + intros k K. apply py_range_nth. lia.
  - intros L. rewrite py_range_nil by lia. reflexivity.
  - intros L O. replace (forallb _ (py_range s e)) with false; [reflexivity|]. symmetry. apply not_true_iff_false. rewrite forallb_forall. intros A.
    destruct O as [O|O]; [specialize (A s)|specialize (A (e - 1))]; rewrite py_range_In in A; specialize (A ltac:(lia)); lia.
Qed.
(*@ Example C30_slices_ex : match expansion_module with
  | Ok m => module_getitem m (Slice (Some 2) (Some 5)) = Ok [2; 3; 4] /\ module_getitem m (Slice (Some 6) (Some 9)) = Err KeyError /\
            module_getitem m (Slice (Some (-1)) (Some 2)) = Err KeyError /\ module_getitem m (Slice (Some 9) (Some 3)) = Ok []
  | Err _ => False
  end.
Proof. unfold expansion_module, module_new. rewrite bank_new_value. vm_compute. auto. Qed. @*)
Lemma C30_open_slice_pf : forall m s e, s = None \/ e = None -> module_getitem m (Slice s e) = Err TypeError.
Proof. intros m [s|] [e|] [H|H]; try discriminate; reflexivity. Qed.
(*@ Example C30_open_slice_ex : match memory_module with
  | Ok m => module_getitem m (Slice None (Some 2)) = Err TypeError /\ module_getitem m (Slice (Some 0) (Some 2)) = Ok [0; 1]
  | Err _ => False
  end.
Proof. unfold memory_module, module_new. rewrite bank_new_value. vm_compute. auto. Qed. @*)

Lemma C31_value_property_refuted_pf : forall m x,
  bank_value_get m = Err TypeError /\ bank_value_set m x = (m, Err TypeError).
Proof. intros m x. split; reflexivity. Qed.
(*@ Example C31_value_property_refuted_ex : match bank_new with Ok m => bank_value_get m = Err TypeError /\ snd (bank_value_set m 5) = Err TypeError | Err _ => False end.
Proof. rewrite bank_new_value. vm_compute. auto. Qed. @*)
Lemma C31_functions_refuted_pf : forall m a v p, reachable m ->
  (0 <= a < 2048 -> value_fget m [a] = Err TypeError /\ value_fget m [a; p] = Err TypeError /\
     (0 <= v < 2 ^ 48 -> value_fset m [a; v] = Err TypeError /\ value_fset m [a; v; p] = Err TypeError) /\
     (~ (0 <= v < 2 ^ 48) -> value_fset m [a; v] = Err ValueError)) /\
  (~ (0 <= a < 2048) -> value_fget m [a] = Err ValueError /\ value_fset m [a; v] = Err ValueError).
Proof.
  intros m a v p R. pose proof (C25_width_pf m R) as W. destruct (reachable_MR m R) as [s M]. unfold bank_width in W.
  unfold value_fget, value_fset, bank_checkAddress, bank_checkValue. rewrite W. change (2 ^ 48) with 281474976710656.
  split.
  - intros A. rewrite (MR_dindex_ok m s a M A).
    destruct (Z.ltb_spec a 0); [lia|]. rewrite Z.gtb_ltb. destruct (Z.ltb_spec 2047 a); [lia|]. cbn [orb bind].
    split; [reflexivity|]. split; [reflexivity|]. split; intros V; rewrite Z.gtb_ltb;
      destruct (Z.ltb_spec v 0); try lia; destruct (Z.ltb_spec (281474976710656 - 1) v); try lia; cbn [orb bind]; auto.
  - intros A. rewrite Z.gtb_ltb. destruct (Z.ltb_spec a 0); [split; reflexivity|]. destruct (Z.ltb_spec 2047 a); [split; reflexivity|lia].
Qed.
(*@ Example C31_functions_refuted_ex : match bank_new with
  | Ok m => value_fget m [5] = Err TypeError /\ value_fset m [5; 2 ^ 48] = Err ValueError /\ value_fget m [2048] = Err ValueError
  | Err _ => False
  end.
Proof. rewrite bank_new_value. vm_compute. auto. Qed. @*)
