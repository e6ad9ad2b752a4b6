(** Proofs about banks whose words are used through their field: C166, C167. *)
From Verif Require Import Py LPy MBitField SBits LBits LBitField MWord SWord LWord MMemory SMemory LMemory MLive SLive.
From Coq Require Import ZifyBool.

Opaque py_range.

Definition MW (m : bank) (s : smem) : Prop :=
  dkeys (mb_data m) = py_range 0 2048 /\ mb_width m = 48 /\
  mb_current m = cursor s /\ 0 <= cursor s <= 2048 /\
  forall a, 0 <= a < 2048 -> dget (mb_data m) a = Some (field48 (cells s a)).
Lemma MR_MW m s : MR m s -> MW m s.
Proof. intros (A & B & C & D & E). repeat (split; [assumption|]). intros a H. apply E. exact H. Qed.
Lemma set_ok v x : 0 <= x < 2 ^ 48 -> word_set_value (field48 v) x = (field48 x, Ok tt).
Proof. exact (word_set_value_ok v x). Qed.
Lemma MW_dindex_ok m s a : MW m s -> 0 <= a < 2048 ->
  dindex (mb_data m) a = Ok (field48 (cells s a)).
Proof. intros (_ & _ & _ & _ & H) Ha. unfold dindex. rewrite (H a Ha). reflexivity. Qed.
Lemma MW_dindex_err m s a : MW m s -> ~ (0 <= a < 2048) -> dindex (mb_data m) a = Err KeyError.
Proof.
  intros (H & _) Ha. unfold dindex.
  assert (E : dget (mb_data m) a = None).
  { apply dget_None. rewrite H, py_range_In. lia. }
  rewrite E. reflexivity.
Qed.

Lemma MW_ext m c c' k : MW m (mksmem c k) -> (forall a, 0 <= a < 2048 -> c a = c' a) ->
  MW m (mksmem c' k).
Proof.
  intros (H1 & H2 & H3 & H4 & H5) E. repeat (split; [assumption|]).
  intros a Ha. specialize (H5 a Ha). cbn in *. rewrite <- E by exact Ha. exact H5.
Qed.

Lemma MW_cell_set m s a v : MW m s ->
  exists m', cell_set m a v =
    (m', if negb (good_addr a) then Err KeyError else
         if negb (good_value v) then Err ValueError else Ok tt) /\
    MW m' (if good_addr a && good_value v
           then mksmem (store (cells s) a (a + 1) v) (cursor s) else s).
Proof.
  intros HR. unfold cell_set. destruct (good_addr a) eqn:GA; cbn [negb andb].
  - assert (Ha : 0 <= a < 2048) by (unfold good_addr in GA; lia).
    rewrite (MW_dindex_ok _ _ _ HR Ha).
    destruct HR as (H1 & H2 & H3 & H4 & H5).
    destruct (good_value v) eqn:GV; cbn [negb].
    + rewrite set_ok by (unfold good_value in GV; lia).
      eexists. split; [reflexivity|].
      split; [|split; [|split; [|split]]]; cbn [mb_data mb_width mb_current cursor cells]; try assumption.
      * rewrite dkeys_dset. unfold dmem. rewrite (H5 a Ha). exact H1.
      * intros b Hb. rewrite dget_dset. unfold store. cbn [eqb EqB_Z].
        destruct (Z.eqb_spec a b) as [->|N].
        -- destruct (Z.leb_spec b b), (Z.ltb_spec b (b + 1)); try lia. cbn [andb]. reflexivity.
        -- destruct (Z.leb_spec a b), (Z.ltb_spec b (a + 1)); try lia; cbn [andb]; apply H5; exact Hb.
    + rewrite word_set_value_bad by (unfold good_value in GV; lia).
      eexists. split; [reflexivity|]. rewrite dset_same by apply H5, Ha.
      destruct m; repeat (split; [assumption|]). exact H5.
  - rewrite (MW_dindex_err _ _ a HR) by (unfold good_addr in GA; lia).
    eexists. split; [reflexivity|]. exact HR.
Qed.

Lemma MW_cells_get m s : MW m s -> forall n lo hi, Z.to_nat (hi - lo) = n ->
  cells_get m (py_range lo hi) =
    if hi <=? lo then Ok []
    else if (0 <=? lo) && (hi <=? 2048) then Ok (map (cells s) (interval lo hi))
    else Err KeyError.
Proof.
  intros HR. induction n as [|n IH]; intros lo hi Hn.
  - rewrite py_range_nil by lia. destruct (Z.leb_spec hi lo); [reflexivity|lia].
  - rewrite py_range_cons by lia. destruct (Z.leb_spec hi lo); [lia|].
    cbn [cells_get]. unfold cell_get.
    destruct (Z.leb_spec 0 lo) as [L|L]; cbn [andb].
    + destruct (Z_lt_dec lo 2048) as [U|U].
      * rewrite (MW_dindex_ok _ _ lo HR) by lia. cbn [bind]. rewrite IH by lia.
        destruct (Z.leb_spec hi (lo + 1)).
        -- replace hi with (lo + 1) by lia. destruct (Z.leb_spec (lo + 1) 2048); [|lia].
           cbn [bind]. unfold interval. replace (Z.to_nat (lo + 1 - lo)) with 1%nat by lia.
           cbn [seq map]. rewrite Z.add_0_r. reflexivity.
        -- destruct (Z.leb_spec 0 (lo + 1)); [|lia]. cbn [andb].
           destruct (Z.leb_spec hi 2048); [|reflexivity]. cbn [bind]. f_equal.
           unfold interval. replace (Z.to_nat (hi - lo)) with (S (Z.to_nat (hi - (lo + 1)))) by lia.
           cbn [seq map]. rewrite Z.add_0_r. f_equal.
           rewrite <- seq_shift, !map_map. apply map_ext. intros i. f_equal. lia.
      * rewrite (MW_dindex_err _ _ lo HR) by lia. cbn [bind].
        destruct (Z.leb_spec hi 2048); [lia|reflexivity].
    + rewrite (MW_dindex_err _ _ lo HR) by lia. reflexivity.
Qed.

Lemma MW_cells_set v : forall n lo hi m s, MW m s -> Z.to_nat (hi - lo) = n ->
  exists m', cells_set m (py_range lo hi) v =
    (m', if hi <=? lo then Ok tt
         else if negb (good_addr lo) then Err KeyError
         else if negb (good_value v) then Err ValueError
         else if hi <=? 2048 then Ok tt else Err KeyError) /\
    MW m' (if negb (hi <=? lo) && good_addr lo && good_value v
           then mksmem (store (cells s) lo hi v) (cursor s) else s).
Proof.
  induction n as [|n IH]; intros lo hi m s HR Hn.
  - rewrite py_range_nil by lia. destruct (Z.leb_spec hi lo); [|lia]. cbn. eauto.
  - rewrite py_range_cons by lia. destruct (Z.leb_spec hi lo); [lia|]. cbn [negb andb].
    cbn [cells_set]. destruct (MW_cell_set m s lo v HR) as (m' & -> & HR').
    destruct (good_addr lo) eqn:GA; cbn [negb andb] in *; [|eauto].
    destruct (good_value v) eqn:GV; cbn [negb andb] in *; [|eauto].
    destruct (IH (lo + 1) hi m' _ HR' ltac:(lia)) as (m2 & -> & HR2).
    cbn [cursor cells] in HR2.
    exists m2. split.
    + f_equal. unfold good_addr in *.
      destruct (Z.leb_spec hi (lo + 1)), (Z.leb_spec hi 2048); try lia; try reflexivity.
      * destruct (Z.leb_spec 0 (lo + 1)), (Z.ltb_spec (lo + 1) 2048); try lia. reflexivity.
      * destruct ((0 <=? lo + 1) && (lo + 1 <? 2048)); reflexivity.
    + destruct (negb (hi <=? lo + 1) && good_addr (lo + 1) && true) eqn:E.
      * eapply MW_ext; [exact HR2|]. intros a Ha. unfold store.
        destruct (Z.leb_spec (lo + 1) a), (Z.ltb_spec a hi), (Z.leb_spec lo a), (Z.ltb_spec a (lo + 1));
          cbn [andb]; try reflexivity; lia.
      * eapply MW_ext; [exact HR2|]. intros a Ha. unfold store.
        destruct (Z.ltb_spec a hi), (Z.leb_spec lo a), (Z.ltb_spec a (lo + 1));
          cbn [andb]; try reflexivity; try lia.
        (* a >= lo + 1, a < hi, but the tail was not written: lo + 1 > 2047 *)
        exfalso. unfold good_addr in *. lia.
Qed.

Lemma store_every f v : forall a, 0 <= a < 2048 -> store f 0 2048 v a = v.
Proof.
  intros a Ha. unfold store. destruct (Z.leb_spec 0 a), (Z.ltb_spec a 2048); try lia. reflexivity.
Qed.

Lemma call_sim m s c : MW m s ->
  snd (bank_call m c) = snd (smem_call s c) /\ MW (fst (bank_call m c)) (fst (smem_call s c)).
Proof.
  intros HR. destruct c as [k|k v| | | |a v].
  - cbn [bank_call]. destruct k as [i|lo hi].
    + cbn [bank_getitem smem_call fst snd]. split; [|exact HR]. unfold cell_get.
      destruct (good_addr i) eqn:G; unfold good_addr in G.
      * rewrite (MW_dindex_ok _ _ i HR) by lia. reflexivity.
      * rewrite (MW_dindex_err _ _ i HR) by lia. reflexivity.
    + destruct lo as [lo|], hi as [hi|]; cbn [bank_getitem smem_call fst snd]; auto.
      split; [|exact HR]. apply (MW_cells_get _ _ HR _ _ _ eq_refl).
  - cbn [bank_call]. destruct k as [i|lo hi].
    + cbn [bank_setitem smem_call]. destruct (MW_cell_set m s i v HR) as (m' & -> & HR').
      cbn [unit_out]. destruct (good_addr i), (good_value v); cbn [negb andb bind fst snd] in *; auto.
    + destruct lo as [lo|], hi as [hi|]; cbn [bank_setitem smem_call unit_out fst snd bind]; auto.
      destruct (MW_cells_set v _ lo hi m s HR eq_refl) as (m' & -> & HR').
      cbn [unit_out]. destruct (hi <=? lo), (good_addr lo), (good_value v), (hi <=? 2048);
        cbn [negb andb bind fst snd] in *; auto.
  - cbn [bank_call smem_call]. unfold bank_clear.
    assert (K := HR). destruct K as (K & _). rewrite K.
    destruct (MW_cells_set 0 _ 0 2048 m s HR eq_refl) as (m' & -> & HR').
    cbn [unit_out]. split; [reflexivity|]. cbn [fst].
    change (negb (2048 <=? 0) && good_addr 0 && good_value 0) with true in HR'. cbv iota in HR'.
    eapply MW_ext; [exact HR'|]. intros a Ha. apply store_every. exact Ha.
  - cbn [bank_call smem_call fst snd]. split; [|exact HR]. unfold bank_len.
    assert (K := HR). destruct K as (K & _).
    assert (E : zlen (mb_data m) = zlen (dkeys (mb_data m)))
      by (unfold zlen, dkeys; rewrite map_length; reflexivity).
    rewrite E, K, py_range_length. reflexivity.
  - cbn [bank_call smem_call]. unfold bank_next.
    assert (E : zlen (mb_data m) = 2048).
    { assert (K := HR). destruct K as (K & _).
      assert (E : zlen (mb_data m) = zlen (dkeys (mb_data m)))
        by (unfold zlen, dkeys; rewrite map_length; reflexivity).
      rewrite E, K, py_range_length. reflexivity. }
    rewrite E. assert (H := HR). destruct H as (H1 & H2 & H3 & H4 & H5). rewrite H3.
    destruct (Z.geb_spec (cursor s) 2048), (Z.ltb_spec (cursor s) 2048); try lia.
    + cbn. auto.
    + rewrite (MW_dindex_ok _ _ (cursor s) HR) by lia. cbn [bind fst snd].
      split; [reflexivity|]. repeat (split; [first [assumption|cbn [mb_current cursor]; lia]|]).
      exact H5.
  - cbn [bank_call smem_call]. unfold bank_ref_write.
    destruct (MW_cell_set m s a v HR) as (m' & -> & HR').
    cbn [unit_out]. destruct (good_addr a), (good_value v); cbn [negb andb bind fst snd] in *; auto.
Qed.

Lemma step_field48 v o : fst (bf_step (field48 v) o) = field48 (bf_value (fst (bf_step (field48 v) o))).
Proof.
  destruct (step_geometry (field48 v) o) as (A & B & C & D). destruct (fst (bf_step (field48 v) o)) as [w x y n q].
  cbn in A, B, C, D |- *. subst. reflexivity.
Qed.
Lemma lcall_sim m s c : MW m s ->
  snd (bank_lcall m c) = snd (live_call s c) /\ MW (fst (bank_lcall m c)) (fst (live_call s c)).
Proof.
  intros HR. destruct c as [c|a o|a k].
  - exact (call_sim m s c HR).
  - cbn [bank_lcall live_call]. unfold cell_field. destruct (good_addr a) eqn:G; unfold good_addr in G; cbn [negb].
    + assert (Ha : 0 <= a < 2048) by lia. rewrite (MW_dindex_ok _ _ a HR Ha). assert (GE := step_field48 (cells s a) o).
      destruct (bf_step (field48 (cells s a)) o) as [b r]. cbn [fst] in GE. cbn [unit_out fst snd]. split; [reflexivity|].
      destruct HR as (H1 & H2 & H3 & H4 & H5).
      split; [|split; [|split; [|split]]]; cbn [mb_data mb_width mb_current cursor cells]; try assumption.
      * rewrite dkeys_dset. unfold dmem. rewrite (H5 a Ha). exact H1.
      * intros x Hx. rewrite dget_dset. unfold store. cbn [eqb EqB_Z]. destruct (Z.eqb_spec a x) as [->|N].
        -- destruct (Z.leb_spec x x), (Z.ltb_spec x (x + 1)); try lia. cbn [andb]. rewrite GE at 1. reflexivity.
        -- destruct (Z.leb_spec a x), (Z.ltb_spec x (a + 1)); try lia; cbn [andb]; apply H5; exact Hx.
    + rewrite (MW_dindex_err _ _ a HR) by lia. split; [reflexivity|exact HR].
  - cbn [bank_lcall live_call fst snd]. split; [|exact HR]. unfold cell_item. destruct (good_addr a) eqn:G; unfold good_addr in G; cbn [negb].
    + rewrite (MW_dindex_ok _ _ a HR) by lia. reflexivity.
    + rewrite (MW_dindex_err _ _ a HR) by lia. reflexivity.
Qed.
Lemma ltrace_sim cs : forall m s, MW m s -> bank_ltrace m cs = live_trace s cs.
Proof.
  induction cs as [|c cs IH]; intros m s HR; [reflexivity|].
  destruct (lcall_sim m s c HR) as [E HR']. cbn [bank_ltrace live_trace].
  destruct (bank_lcall m c), (live_call s c). cbn in E, HR'. subst. f_equal. apply IH. exact HR'.
Qed.
Lemma lrun_sim cs : forall m s, MW m s -> MW (bank_lrun m cs) (live_run s cs).
Proof.
  induction cs as [|c cs IH]; intros m s HR; [exact HR|].
  cbn [bank_lrun live_run fold_left]. apply IH. apply lcall_sim. exact HR.
Qed.
(** a bank after any history, of its words' fields too *)
Definition used (m : bank) : Prop := exists m0 cs, bank_new = Ok m0 /\ m = bank_lrun m0 cs.
Lemma used_MW m : used m -> exists s, MW m s.
Proof.
  intros (m0 & cs & E & ->). destruct bank_new_MR as (m1 & E1 & HR). rewrite E in E1. injection E1 as <-.
  eexists. apply lrun_sim. exact (MR_MW _ _ HR).
Qed.

(** *** C166 *)
Lemma C166_cells_pf : exists m, bank_new = Ok m /\ forall cs, bank_ltrace m cs = live_trace smem_new cs.
Proof. destruct bank_new_MR as (m & E & HR). exists m. split; [exact E|]. intros cs. apply ltrace_sim. exact (MR_MW _ _ HR). Qed.
(*@ Example C166_cells_ex :
  match bank_new with
  | Ok m => bank_ltrace m [Plain MNext; Field 0 (OpItem (Slice (Some 1) (Some 12)) 5); Plain (MGet (Idx 0)); Field 0 (OpItem (Idx 48) 1);
                           Item 0 (Slice (Some 45) (Some 48)); Plain (MSet (Idx 0) 6); Item 0 (Idx 46); Field 0 (OpItem (Idx 49) 1);
                           Field 0 (OpSet None); Plain (MGet (Slice (Some 0) (Some 2)))]
            = [Ok [0]; Ok []; Ok [5 * 2 ^ 36]; Ok []; Ok [1]; Ok []; Ok [1]; Err ValueError; Ok []; Ok [2 ^ 48 - 1; 0]]
  | Err _ => False
  end.
Proof. destruct C166_cells as (m & E & T). rewrite E, T. vm_compute. reflexivity. Qed. @*)
Lemma C166_frame_pf : forall m a o, used m -> 0 <= a < 2048 -> exists v,
  bank_getitem m (Idx a) = Ok [v] /\
  bank_getitem (fst (bank_lcall m (Field a o))) (Idx a) = Ok [bf_value (fst (bf_step (field48 v) o))] /\
  (snd (bank_lcall m (Field a o)) = Ok [] <-> snd (bf_step (field48 v) o) = Ok tt) /\
  (forall e, snd (bank_lcall m (Field a o)) = Err e <-> snd (bf_step (field48 v) o) = Err e) /\
  (forall k, snd (bank_lcall m (Item a k)) = (do x <- bf_getitem (field48 v) k; Ok [x])) /\
  forall b, b <> a -> bank_getitem (fst (bank_lcall m (Field a o))) (Idx b) = bank_getitem m (Idx b).
Proof.
  intros m a o U Ha. destruct (used_MW m U) as (s & HR). exists (cells s a).
  assert (G : forall m s b, MW m s -> bank_getitem m (Idx b) = if good_addr b then Ok [cells s b] else Err KeyError).
  { clear. intros m s b HR. exact (proj1 (call_sim m s (MGet (Idx b)) HR)). }
  assert (GA : forall b, good_addr b = true <-> 0 <= b < 2048) by (intros b; unfold good_addr; lia).
  destruct (lcall_sim m s (Field a o) HR) as [E HR'].
  cbn [live_call] in E, HR'. rewrite (proj2 (GA a) Ha) in E, HR'. cbn [negb] in E, HR'.
  assert (I := proj1 (lcall_sim m s (Item a (Idx 0)) HR)).
  destruct (bf_step (field48 (cells s a)) o) as [w r] eqn:ST. cbn [fst snd] in E, HR'.
  split; [rewrite (G _ _ _ HR), (proj2 (GA a) Ha); reflexivity|].
  split. { rewrite (G _ _ _ HR'), (proj2 (GA a) Ha). cbn [cells]. unfold store. destruct (Z.leb_spec a a), (Z.ltb_spec a (a + 1)); try lia. reflexivity. }
  split. { rewrite E. destruct r as [[]|e]; cbn [bind]; split; intros X; try reflexivity; discriminate X. }
  split. { intros e. rewrite E. destruct r as [[]|e']; cbn [bind]; split; intros X; try discriminate X; injection X as ->; reflexivity. }
  split. { intros k. rewrite (proj1 (lcall_sim m s (Item a k) HR)). cbn [live_call snd]. rewrite (proj2 (GA a) Ha). reflexivity. }
  intros b N. rewrite (G _ _ _ HR'), (G _ _ _ HR). destruct (good_addr b); [|reflexivity]. cbn [cells]. unfold store.
  destruct (Z.leb_spec a b), (Z.ltb_spec b (a + 1)); try lia; reflexivity.
Qed.
(*@ Example C166_frame_ex : match bank_new with
  | Ok m => let m1 := fst (bank_lcall m (Field 7 (OpItem (Idx 1) 1))) in
            bank_getitem m1 (Idx 7) = Ok [2 ^ 47] /\ bank_getitem m1 (Idx 8) = Ok [0] /\ bank_getitem m1 (Idx 6) = Ok [0]
  | Err _ => False
  end.
Proof. rewrite bank_new_value. vm_compute. auto. Qed. @*)
Lemma C166_groups_pf : forall c a b d ops w f, iw_new c a b d = Ok w ->
  iw_get (iw_lrun w ops) f = Ok ((iw_value (iw_lrun w ops) / 2 ^ group_lo f) mod 4096) /\
  word_value (iw_data (iw_lrun w ops)) = iw_value (iw_lrun w ops).
Proof.
  intros c a b d ops w f N. split; [|reflexivity].
  assert (W : exists v, iw_data (iw_lrun w ops) = field48 v).
  { assert (I : forall x, iw_data x = field48 (bf_value (iw_data x)) -> forall ops, exists v, iw_data (iw_lrun x ops) = field48 v).
    { clear. intros x H ops. revert x H. induction ops as [|o ops IH]; intros x H; [eauto|]. cbn [iw_lrun fold_left]. apply IH.
      assert (T : forall o, fst (bf_step (iw_data x) o) = field48 (bf_value (fst (bf_step (iw_data x) o)))) by (intros q; rewrite H; apply step_field48).
      destruct o as [[g v|v]|o].
      - cbn [iw_lstep iw_step]. unfold iw_set. assert (D : iw_data (iw_shadow x g v) = iw_data x) by (destruct x, g; reflexivity). rewrite D.
        specialize (T (OpItem (field_key g) v)). cbn [bf_step] in T. destruct (bf_setitem (iw_data x) (field_key g) v) as [y r]. cbn [fst] in T |- *.
        destruct (iw_shadow x g v). exact T.
      - cbn [iw_lstep iw_step]. unfold iw_set_value, word_set_value. specialize (T (OpValue v)). cbn [bf_step] in T.
        destruct (word_check v); [destruct (bf_set_value (iw_data x) v) as [y r]; cbn [fst] in T |- *; destruct x; exact T|]. cbn [fst]. destruct x. exact H.
      - cbn [iw_lstep]. specialize (T o). destruct (bf_step (iw_data x) o) as [y r]. cbn [fst] in T |- *. destruct x. exact T. }
    apply I. clear I f ops.
    assert (J : forall x g v y, iw_data x = field48 (bf_value (iw_data x)) -> iw_init_field x g v = Ok y -> iw_data y = field48 (bf_value (iw_data y))).
    { clear. intros x g v y H E. unfold iw_init_field in E. assert (T := step_field48 (bf_value (iw_data x)) (OpItem (field_key g) v)). rewrite <- H in T. cbn [bf_step] in T.
      destruct (bf_setitem (iw_data x) (field_key g) v) as [z [u|e]]; [|discriminate E]. injection E as <-. cbn [fst] in T. destruct x, g; exact T. }
    unfold iw_new in N. rewrite word_new_ok in N by lia. cbn [bind] in N.
    destruct (iw_init_field _ Command c) as [w1|] eqn:E1; [|discriminate N]. cbn [bind] in N.
    destruct (iw_init_field w1 FA a) as [w2|] eqn:E2; [|discriminate N]. cbn [bind] in N.
    destruct (iw_init_field w2 FB b) as [w3|] eqn:E3; [|discriminate N]. cbn [bind] in N.
    assert (H1 := fun q => J _ _ _ _ q E1). assert (H2 := J _ _ _ _ (H1 eq_refl) E2). assert (H3 := J _ _ _ _ H2 E3). exact (J _ _ _ _ H3 N). }
  destruct W as (v & W). unfold iw_get, iw_value. rewrite W. change (field48 v) with (wbits v).
  destruct f; cbn [field_key group_lo]; rewrite wslice_get by lia; reflexivity.
Qed.
(*@ Example C166_groups_ex : match iw_new 1 2 3 4 with
  | Ok w => let w1 := iw_lrun w [Data (OpItem (Slice (Some 11) (Some 14)) 15); Set_ (SetField FC 9); Data (OpClear (Some 26))] in
            (iw_get w1 Command, iw_get w1 FA, iw_get w1 FB, iw_get w1 FC) = (Ok 3, Ok (2 ^ 11 + 2 ^ 10 + 2), Ok 3, Ok 9)
  | Err _ => False
  end.
Proof. vm_compute. reflexivity. Qed. @*)

(** *** C167 *)
Lemma C167_any_refuted_pf : forall m a v, used m -> 0 <= a < 2048 -> v <= 2 ^ 48 ->
  snd (bank_lcall m (Field a (OpValue v))) = Ok [] /\
  bank_getitem (fst (bank_lcall m (Field a (OpValue v)))) (Idx a) = Ok [v].
Proof.
  intros m a v U Ha Hv. destruct (C166_frame_pf m a (OpValue v) U Ha) as (u & _ & B & C & _).
  assert (E : bf_step (field48 u) (OpValue v) = (with_value (field48 u) v, Ok tt)).
  { cbn [bf_step]. apply set_value_ok; [apply (wbits_wf u)|exact Hv]. }
  rewrite E in B, C. split; [apply C; reflexivity|exact B].
Qed.
(*@ Example C167_any_refuted_ex : match bank_new with
  | Ok m => bank_ltrace m [Plain MNext; Field 0 (OpValue (-5)); Plain (MGet (Idx 0)); Plain (MSet (Idx 0) (-5)); Field 0 (OpValue (2 ^ 48)); Plain (MGet (Idx 0))]
            = [Ok [0]; Ok []; Ok [-5]; Err ValueError; Ok []; Ok [2 ^ 48]]
  | Err _ => False
  end.
Proof. destruct C166_cells_pf as (m & E & T). rewrite E, T. vm_compute. reflexivity. Qed. @*)
Lemma C167_fits_partial_pf : forall m0 cs a v, bank_new = Ok m0 -> Forall lcall_fits cs ->
  bank_getitem (bank_lrun m0 cs) (Idx a) = Ok [v] -> 0 <= a < 2048 /\ 0 <= v < 2 ^ 48.
Proof.
  intros m0 cs a v E F G. destruct bank_new_MR as (m1 & E1 & HR). rewrite E in E1. injection E1 as <-.
  assert (R : (forall a, 0 <= cells (live_run smem_new cs) a < 2 ^ 48)).
  { assert (I : forall s, (forall a, 0 <= cells s a < 2 ^ 48) -> forall a, 0 <= cells (live_run s cs) a < 2 ^ 48).
    { clear - F. induction F as [|c cs H _ IH]; intros s HS; [exact HS|]. cbn [live_run fold_left]. apply IH. clear IH cs. intros a.
      assert (ST : forall lo hi x, 0 <= x < 2 ^ 48 -> 0 <= store (cells s) lo hi x a < 2 ^ 48).
      { intros lo hi x Hx. unfold store. destruct (_ && _); [exact Hx|apply HS]. }
      destruct c as [c|b o|b k]; cbn [live_call fst]; [|destruct (negb (good_addr b)); [apply HS|]|apply HS].
      - destruct c as [[i|[lo|] [hi|]]|[i|[lo|] [hi|]] v| | | |r v]; cbn [smem_call fst];
          repeat match goal with |- context [if ?x then _ else _] => destruct x eqn:? end; cbn [fst cells]; try apply HS; try lia;
          apply ST; unfold good_value in *; lia.
      - assert (W := @step_fits (field48 (cells s b)) o). cbn [lcall_fits] in H.
        destruct (bf_step (field48 (cells s b)) o) as [w r]. cbn [fst cells] in W |- *. apply ST.
        apply W; [apply (wbits_wf (cells s b))|exact (HS b)|]. exact H. }
    apply I. intros b. cbn. lia. }
  assert (Q := proj1 (call_sim _ _ (MGet (Idx a)) (lrun_sim cs _ _ (MR_MW _ _ HR)))). cbn [bank_call smem_call snd] in Q. rewrite G in Q.
  destruct (good_addr a) eqn:GA; [|discriminate Q]. injection Q as ->. unfold good_addr in GA. split; [lia|apply R].
Qed.
(*@ Example C167_fits_partial_ex : match bank_new with
  | Ok m => let cs := [Field 3 (OpItem (Slice (Some 1) (Some 48)) (2 ^ 48 - 1)); Plain (MSet (Idx 3) (2 ^ 48)); Field 3 (OpClear (Some 48))] in
            Forall lcall_fits cs /\ bank_getitem (bank_lrun m cs) (Idx 3) = Ok [2 ^ 48 - 2]
  | Err _ => False
  end.
Proof.
  rewrite bank_new_value.
  cbv zeta. split; [apply Forall_cons; [intros _; vm_compute; split; [discriminate|reflexivity]|apply Forall_cons; [exact I|apply Forall_cons; [exact I|apply Forall_nil]]]|].
  vm_compute. reflexivity.
Qed. @*)
