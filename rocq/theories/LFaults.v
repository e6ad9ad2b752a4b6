From Coq Require Import ZArith List Bool Lia.
From Verif Require Import Py LPy MBitField SBits LBitField MRegisters SRegisters LRegisters LRegHeap MMemory SMemory SCursor SOwn LOwn SFaults.
#[local] Arguments Z.add : simpl never.
#[local] Arguments Z.sub : simpl never.
#[local] Arguments Z.mul : simpl never.
#[local] Arguments Z.pow : simpl never.

Lemma range_open b s e x : s = None \/ e = None -> checkRange b s e = Err x -> key_fault (bf_numbering b) (bf_width b) (Slice s e) x.
Proof.
  intros O H. unfold checkRange in H. destruct s as [s|]; [|cbn in H; injection H as <-; constructor].
  destruct e as [e|]; [destruct O; discriminate|].
  destruct (valid_index_dec (bf_numbering b) (bf_width b) s) as [V|V].
  - rewrite (checkIndex_ok b s V) in H. cbn in H. injection H as <-. constructor. exact V.
  - rewrite (checkIndex_err b s V) in H. cbn in H. injection H as <-. constructor. exact V.
Qed.
Lemma range_fails b s e : s = None \/ e = None -> exists x, checkRange b s e = Err x /\ key_fault (bf_numbering b) (bf_width b) (Slice s e) x.
Proof. intros O. destruct (checkRange_none b O) as (x & E). exists x. split; [exact E|exact (range_open b s e x O E)]. Qed.
Lemma C145_read_pf : forall b k x, bf_getitem b k = Err x -> key_fault (bf_numbering b) (bf_width b) k x.
Proof.
  intros b [i|[s|] [e|]] x H.
  - destruct (valid_index_dec (bf_numbering b) (bf_width b) i) as [V|V].
    + rewrite (getitem_bit b i V) in H. discriminate.
    + rewrite (getitem_bit_err b i V) in H. injection H as <-. constructor.
  - destruct (vrange_dec b s e) as [V|V].
    + rewrite (getitem_slice_raw V) in H. discriminate.
    + rewrite (getitem_slice_err V) in H. injection H as <-. constructor.
  - destruct (range_fails b (Some s) None) as (y & E & F); [auto|]. unfold bf_getitem, getRange in H. rewrite E in H. cbn in H. congruence.
  - destruct (range_fails b None (Some e)) as (y & E & F); [auto|]. unfold bf_getitem, getRange in H. rewrite E in H. cbn in H. congruence.
  - destruct (range_fails b None None) as (y & E & F); [auto|]. unfold bf_getitem, getRange in H. rewrite E in H. cbn in H. congruence.
Qed.
(*@ Example C145_read_ex : let b := mkbf 8 255 200 MSB_1 MSB_LEFT in
  bf_getitem b (Slice (Some 3) None) = Err TypeError /\ bf_getitem b (Slice (Some 9) None) = Err ValueError /\ bf_getitem b (Idx 9) = Err ValueError /\
  ~ key_fault MSB_1 8 (Slice (Some 3) None) ValueError.
Proof. cbv zeta. repeat (split; [vm_compute; reflexivity|]). intros F. inversion F as [| | | |s N]. apply N. cbn. lia. Qed. @*)
Lemma setitem_fault b k v x : wf b -> snd (bf_setitem b k v) = Err x -> key_fault (bf_numbering b) (bf_width b) k x.
Proof.
  intros WF. destruct k as [i|[s|] [e|]]; intros H.
  - destruct (valid_index_dec (bf_numbering b) (bf_width b) i) as [V|V].
    + destruct (Z_le_gt_dec v 2) as [L|L].
      * rewrite (setitem_bit_raw i WF V L) in H. discriminate.
      * rewrite (setitem_bit_big b i V) in H by lia. injection H as <-. constructor.
    + rewrite (setitem_bit_err b i v V) in H. injection H as <-. constructor.
  - destruct (vrange_dec b s e) as [V|V].
    + destruct (Z_le_gt_dec v (2 ^ range_size (bf_numbering b) (bf_width b) s e)) as [L|L].
      * rewrite (setitem_slice_raw WF V L) in H. discriminate.
      * rewrite (setitem_slice_big V) in H by lia. injection H as <-. constructor.
    + rewrite (setitem_slice_err v V) in H. injection H as <-. constructor.
  - destruct (range_fails b (Some s) None) as (y & E & F); [auto|]. unfold bf_setitem, bf_setitem_value, getRange in H. rewrite E in H. cbn in H. congruence.
  - destruct (range_fails b None (Some e)) as (y & E & F); [auto|]. unfold bf_setitem, bf_setitem_value, getRange in H. rewrite E in H. cbn in H. congruence.
  - destruct (range_fails b None None) as (y & E & F); [auto|]. unfold bf_setitem, bf_setitem_value, getRange in H. rewrite E in H. cbn in H. congruence.
Qed.
Lemma idx_fault n W i x : key_fault n W (Idx i) x -> x = ValueError.
Proof. intros F. inversion F. reflexivity. Qed.
Lemma C145_write_pf : forall b o x, wf b -> snd (bf_step b o) = Err x -> op_fault (bf_numbering b) (bf_width b) o x.
Proof.
  intros b o x WF H. destruct o as [k v|v|[i|]|[i|]]; cbn [bf_step op_fault] in *.
  - exact (setitem_fault b k v x WF H).
  - unfold bf_set_value, checkValue in H. destruct (_ || _); [cbn in H; congruence|]. destruct (v >? _); cbn in H; congruence.
  - unfold bf_set in H. destruct (i =? 0); [discriminate|]. destruct (checkIndex b (Some i)) as [j|y] eqn:E.
    + apply setitem_fault in H; [|exact WF]. exact (idx_fault _ _ _ _ H).
    + cbn in H. unfold checkIndex in E. destruct (_ || _); congruence.
  - discriminate.
  - unfold bf_clear in H. destruct (i =? 0); [discriminate|]. destruct (checkIndex b (Some i)) as [j|y] eqn:E.
    + apply setitem_fault in H; [|exact WF]. exact (idx_fault _ _ _ _ H).
    + cbn in H. unfold checkIndex in E. destruct (_ || _); congruence.
  - discriminate.
Qed.
(*@ Example C145_write_ex : let b := mkbf 8 255 200 LSB_0 LSB_LEFT in wf b /\
  snd (bf_step b (OpItem (Slice None (Some 9)) 3)) = Err TypeError /\ snd (bf_step b (OpSet (Some 9))) = Err ValueError /\ snd (bf_step b (OpValue 257)) = Err ValueError.
Proof. cbv zeta. split; [unfold wf; cbn; lia|]. vm_compute. auto. Qed. @*)
Lemma C145_range_test_pf : forall b s e v x, bf_isRange b s e v = Err x ->
  key_fault (bf_numbering b) (bf_width b) (Slice s e) x.
Proof.
  intros b s e v x H. unfold bf_isRange in H. destruct (checkRange b s e) as [p|y] eqn:E.
  - cbn [bind] in H. destruct s as [s|], e as [e|]; try (destruct (range_fails b (Some s) None) as (y & E' & F); [auto|congruence]);
      try (destruct (range_fails b None (Some e)) as (y & E' & F); [auto|congruence]); try (destruct (range_fails b None None) as (y & E' & F); [auto|congruence]).
    destruct (negb _); [injection H as <-; constructor|]. destruct (vrange_dec b s e) as [V|V]; [|rewrite (checkRange_err V) in E; discriminate].
    rewrite (getitem_slice_raw V), (bitmask_ok V) in H. cbn [bind] in H. destruct (v =? 0); discriminate.
  - cbn [bind] in H. injection H as <-. destruct s as [s|], e as [e|]; [|apply range_open; auto..].
    destruct (vrange_dec b s e) as [V|V]; [rewrite (checkRange_ok V) in E; discriminate|]. rewrite (checkRange_err V) in E. injection E as <-. constructor.
Qed.
(*@ Example C145_range_test_ex : let b := mkbf 8 255 200 MSB_1 MSB_LEFT in
  bf_isRange b (Some 3) (Some 2) 0 = Err ValueError /\ bf_isRange b (Some 3) (Some 4) 2 = Err ValueError /\ bf_isRange b (Some 3) None 0 = Err TypeError.
Proof. vm_compute. auto. Qed. @*)
Lemma C145_range_value_pf : forall b s e v, v <> 0 -> v <> 1 -> exists x, bf_isRange b s e v = Err x.
Proof.
  intros b s e v A B. unfold bf_isRange. destruct (checkRange b s e) as [p|y]; [|eexists; reflexivity]. cbn [bind].
  destruct (negb _) eqn:N; [eexists; reflexivity|]. destruct (Z.eqb_spec v 0), (Z.eqb_spec v 1); try contradiction. discriminate N.
Qed.
(*@ Example C145_range_value_ex : bf_isRange (mkbf 8 255 200 MSB_1 MSB_LEFT) (Some 3) (Some 4) (-1) = Err ValueError.
Proof. reflexivity. Qed. @*)

(** *** the register file *)
Lemma act_fault_ok W r x e : good_width W -> geom W r -> snd (act x r) = Err e -> act_fault W x e.
Proof.
  intros HW [RW [u0 Eu]] H. assert (WF : wf (r_data r)) by (rewrite Eu; apply rbits_wf; exact HW).
  assert (H3 : bf_numbering (r_data r) = MSB_1) by (rewrite Eu; reflexivity). assert (H4 : bf_width (r_data r) = W) by (rewrite Eu; reflexivity).
  destruct x as [|v|k|k v|]; cbn [act act_fault snd] in *.
  - discriminate.
  - unfold unit_z, reg_set_value, reg_check in H. destruct (_ || _); [cbn in H; congruence|].
    destruct (bf_setitem (r_data r) _ v) as [b' [u|y]] eqn:E; cbn in H; [discriminate|]. injection H as <-.
    pose proof (setitem_fault (r_data r) (Slice (Some 1) (Some (r_width r))) v y WF) as F. rewrite E in F. specialize (F eq_refl). inversion F. reflexivity.
  - apply C145_read_pf in H. rewrite H3, H4 in H. exact H.
  - unfold unit_z, reg_setitem in H. destruct (bf_setitem (r_data r) k v) as [b' [u|y]] eqn:E; cbn in H; [discriminate|]. injection H as <-.
    pose proof (setitem_fault (r_data r) k v y WF) as F. rewrite E in F. specialize (F eq_refl). rewrite H3, H4 in F. exact F.
  - unfold unit_z, reg_clear, bf_clear in H. discriminate.
Qed.
Lemma call_fault_ok W R0 gb st p c x e : good_width W -> XR W R0 gb st p c -> (forall k i, geom W (c k i)) ->
  snd (regs_call st x) = Err e -> call_fault W p x e.
Proof.
  intros HW HR HG H. assert (S := xcall W HW R0 gb st p c x HR). destruct (regs_call st x) as [st' o]. destruct S as [S _].
  cbn [snd] in H. rewrite S in H. clear S HR st st'. destruct x as [g r a|g| |g|]; cbn [answer call_fault] in *.
  - destruct (target p g r) as [[k i]|] eqn:T.
    + assert (D : snd (place_group p g) <> None). { unfold target in T. destruct (place_group p g) as [p1 [k'|]]; cbn [snd]; [discriminate|discriminate T]. }
      destruct (snd (place_group p g)); [|contradiction]. apply (act_fault_ok W (c k i) a e HW (HG k i) H).
    + destruct (snd (place_group p g)), g, r; injection H as <-; reflexivity.
  - destruct (snd (place_group p g)), g; try discriminate H; injection H as <-; reflexivity.
  - discriminate H.
  - destruct (snd (place_group p g)), g; try discriminate H; injection H as <-; reflexivity.
  - discriminate H.
Qed.
Lemma C145_registers_pf : forall h W h' rs cs c e, registers_new h W = (h', Ok rs) ->
  snd (regs_call (regs_run (h', rs) cs) c) = Err e -> call_fault W (places_after cs) c e.
Proof.
  intros h W h' rs cs c e N H. assert (HW := registers_new_width _ _ _ _ N).
  apply (call_fault_ok W _ _ _ _ _ c e HW (history_XR h W h' rs cs N)); [|exact H].
  intros k i. apply run_geom; [exact HW|]. split; [reflexivity|exists 0; reflexivity].
Qed.
(*@ Example C145_registers_ex : match registers_new heap0 16 with
  | (h, Ok rs) =>
      let on cs c := snd (regs_call (regs_run (h, rs) cs) c) in
      on [ClearAll] (Reach NextGroup NextReg AValue) = Err StopIteration /\
      on [ClearGroup (AtGroup (KI 3))] (Reach (AtGroup (KI 3)) NextReg AValue) = Err StopIteration /\
      on [] (Reach (AtGroup (KS (lit "X"))) NextReg AValue) = Err ValueError /\ on [] (Len (AtGroup KSlice)) = Err ValueError /\
      on [] (Reach (AtGroup (KI 3)) (AtReg (KS (lit "AU1"))) (AItem (Slice (Some 3) None))) = Err TypeError
  | _ => False
  end.
Proof. vm_compute. repeat split; reflexivity. Qed. @*)
