(** The register file after any history, also one that assigns numbers that do not fit (C38, C40, C192). *)
From Verif Require Import Py MBitField SBits LPy LBits LBitField MRegisters SRegisters LRegisters LRegHeap MMemory SMemory SCursor SOwn.
From Coq Require Import ZifyBool.
#[local] Arguments Z.add : simpl never.
#[local] Arguments Z.sub : simpl never.
#[local] Arguments Z.mul : simpl never.
#[local] Arguments Z.pow : simpl never.
Opaque py_range.

Definition cells_ := Z -> Z -> register.
Section Own.
Context (W : Z) (HW : good_width W) (R0 : list register) (gb : nat).
Notation rid := (rid R0).
Notation gid := (gid gb).

Definition XR (st : rstate) (p : places) (c : cells_) : Prop :=
  let '(h, rs) := st in
  rs_registers rs = map (fun k => (k, gid k)) (py_range 0 8) /\
  rs_current rs = in_file p /\ 0 <= in_file p <= 8 /\
  (forall k, 0 <= k < 8 ->
     nth_error (h_groups h) (gid k) = Some (mkgroup W (gdict (rid k 0)) (in_group p k)) /\
     0 <= in_group p k <= 32) /\
  (forall k i, 0 <= k < 8 -> 0 <= i < 32 ->
     nth_error (h_regs h) (rid k i) = Some (c k i) /\ geom W (c k i)) /\
  (forall n, (n < List.length R0)%nat -> nth_error (h_regs h) n = nth_error R0 n).

Lemma XR_ext st p c p' c' : XR st p c ->
  in_file p' = in_file p -> (forall k, 0 <= k < 8 -> in_group p' k = in_group p k) ->
  (forall k i, 0 <= k < 8 -> 0 <= i < 32 -> c' k i = c k i) -> XR st p' c'.
Proof.
  destruct st as [h rs]. intros (H1 & H2 & H3 & H4 & H5 & H6) E1 E2 E3.
  split; [exact H1|]. rewrite E1. split; [exact H2|]. split; [exact H3|]. split; [|split].
  - intros k Hk. rewrite E2 by exact Hk. apply H4; exact Hk.
  - intros k i Hk Hi. rewrite E3 by assumption. apply H5; assumption.
  - exact H6.
Qed.

Lemma xgroup h rs p c g : XR (h, rs) p c ->
  let '(rs', r) := find_group rs g in
  let '(p', o) := place_group p g in
  XR (h, rs') p' c /\ in_group p' = in_group p /\
  match o with Some k => 0 <= k < 8 /\ r = Ok (gid k) | None => r = Err (match g with NextGroup => StopIteration | _ => ValueError end) end.
Proof.
  intros HR. assert (H := HR). destruct H as (H1 & H2 & H3 & H4 & H5 & H6).
  destruct g as [[k|n|]|]; cbn [find_group place_group registers_getitem].
  - split; [exact HR|]. split; [reflexivity|]. unfold dindex, NUM_GROUPS. rewrite H1, rs_dget.
    destruct ((0 <=? k) && (k <? 8)) eqn:E; destruct ((k <? 0) || (k >=? 8)) eqn:F; try lia; [|reflexivity].
    split; [lia|reflexivity].
  - auto.
  - auto.
  - unfold registers_next, NUM_GROUPS. rewrite H2.
    destruct (Z.geb_spec (in_file p) 8), (Z.ltb_spec (in_file p) 8); try lia; [auto|].
    split; [|split; [reflexivity|]].
    + split; [exact H1|]. cbn [rs_current in_file in_group]. split; [reflexivity|]. split; [lia|].
      split; [exact H4|split; [exact H5|exact H6]].
    + unfold dindex. rewrite H1, rs_dget. destruct ((0 <=? in_file p) && (in_file p <? 8)) eqn:E; [|lia].
      split; [lia|reflexivity].
Qed.

Lemma xnext h rs p c k : XR (h, rs) p c -> 0 <= k < 8 ->
  let '(h', r) := heap_group_next h (gid k) in
  r = (if in_group p k <? 32 then Ok (rid k (in_group p k)) else Err StopIteration) /\
  XR (h', rs) (mkplaces (set1 (in_group p) k (Z.min 32 (in_group p k + 1))) (in_file p)) c.
Proof.
  intros HR Hk. assert (H := HR). destruct H as (H1 & H2 & H3 & H4 & H5 & H6).
  destruct (H4 k Hk) as [G HC]. unfold heap_group_next. rewrite (deref_some _ _ _ G).
  unfold group_next. cbn [g_current g_width g_registers]. rewrite REGISTERS_len.
  assert (X : forall x, x = Z.min 32 (in_group p k + 1) ->
    XR (with_groups h (upd (h_groups h) (gid k) (mkgroup W (gdict (rid k 0)) x)), rs)
       (mkplaces (set1 (in_group p) k (Z.min 32 (in_group p k + 1))) (in_file p)) c).
  { intros x ->. split; [exact H1|]. cbn [in_file in_group]. split; [exact H2|]. split; [exact H3|].
    split; [|split; [exact H5|exact H6]].
    intros j Hj. cbn [with_groups h_groups]. unfold set1. destruct (Z.eqb_spec j k) as [->|N].
    - erewrite nth_upd_eq by exact G. split; [reflexivity|lia].
    - rewrite nth_upd_ne by (unfold LRegHeap.gid; lia). apply H4; exact Hj. }
  destruct (Z.geb_spec (in_group p k) 32) as [L|L]; destruct (Z.ltb_spec (in_group p k) 32); try lia.
  - split; [reflexivity|]. apply X. lia.
  - unfold dindex. rewrite gdict_get. destruct ((0 <=? in_group p k) && (in_group p k <? 32)) eqn:E; [|lia].
    split; [f_equal; unfold LRegHeap.rid; lia|]. apply X. lia.
Qed.

(** one action on one register *)
Definition put (c : cells_) (k i : Z) (r : register) : cells_ := set1 c k (set1 (c k) i r).
Lemma xact h rs p c k i x : XR (h, rs) p c -> 0 <= k < 8 -> 0 <= i < 32 ->
  let '(h', r) := on_reg h (rid k i) (act x) in
  r = snd (act x (c k i)) /\ XR (h', rs) p (put c k i (fst (act x (c k i)))).
Proof.
  intros HR Hk Hi. assert (H := HR). destruct H as (H1 & H2 & H3 & H4 & H5 & H6).
  destruct (H5 k i Hk Hi) as [Er G]. unfold on_reg. rewrite (deref_some _ _ _ Er).
  destruct (act_geom W x _ HW G) as [G' _]. destruct (act x (c k i)) as [r' y]. cbn [fst snd] in *.
  split; [reflexivity|]. split; [exact H1|]. split; [exact H2|]. split; [exact H3|]. split; [exact H4|]. cbn [with_regs h_regs].
  split.
  - intros k' i' Hk' Hi'. unfold put, set1.
    destruct (Z.eqb_spec k' k) as [->|N]; [destruct (Z.eqb_spec i' i) as [->|N]|].
    + split; [|exact G']. erewrite nth_upd_eq by exact Er. reflexivity.
    + rewrite nth_upd_ne; [apply H5; assumption|]. intros E. apply rid_inj in E; try assumption. lia.
    + rewrite nth_upd_ne; [apply H5; assumption|]. intros E. apply rid_inj in E; try assumption. lia.
  - intros n Hn. rewrite nth_upd_ne by (unfold LRegHeap.rid; lia). apply H6. exact Hn.
Qed.

Lemma on_reg_clear h r : on_reg h r (act AClear) = let '(h2, x) := on_reg h r reg_clear in (h2, do _ <- x; Ok 0).
Proof.
  unfold on_reg. destruct (deref (h_regs h) r); [|reflexivity]. cbn [act]. unfold unit_z. destruct (reg_clear a). reflexivity.
Qed.
Lemma act_clear_ok r : snd (act AClear r) = Ok 0.
Proof. cbn [act]. unfold unit_z, reg_clear, bf_clear. reflexivity. Qed.

Lemma xclear_loop k : 0 <= k < 8 -> forall n fuel h rs p c, XR (h, rs) p c ->
  Z.to_nat (32 - in_group p k) = n -> (n < fuel)%nat ->
  exists h', group_clear_loop fuel h (gid k) = (h', Ok tt) /\
    XR (h', rs) (mkplaces (set1 (in_group p) k 32) (in_file p))
       (fun k' i' => if (k =? k') && (in_group p k' <=? i') then fst (act AClear (c k' i')) else c k' i').
Proof.
  intros Hk. induction n as [|n IH]; intros fuel h rs p c HR Hn Hf; (destruct fuel as [|fuel]; [lia|]);
    cbn [group_clear_loop]; assert (N := xnext h rs p c k HR Hk);
    assert (H := HR); destruct H as (H1 & H2 & H3 & H4 & H5 & H6); destruct (H4 k Hk) as [G HC];
    destruct (heap_group_next h (gid k)) as [h1 r]; destruct N as [-> HR1]; destruct (Z.ltb_spec (in_group p k) 32); try lia.
  - exists h1. split; [reflexivity|]. eapply XR_ext; [exact HR1|reflexivity| |].
    + intros j Hj. cbn [in_group]. unfold set1. destruct (j =? k); lia.
    + intros k' i' Hk' Hi'. destruct ((k =? k') && (in_group p k' <=? i')) eqn:E; [|reflexivity].
      assert (k' = k) by lia. subst. lia.
  - assert (A := xact h1 rs _ _ k (in_group p k) AClear HR1 Hk ltac:(lia)). rewrite on_reg_clear in A.
    destruct (on_reg h1 (rid k (in_group p k)) reg_clear) as [h2 x]. destruct A as [A1 A2]. rewrite act_clear_ok in A1.
    destruct x as [[]|e]; [|discriminate].
    edestruct (IH fuel h2 rs _ _ A2) as (h' & E & HR').
    + cbn [in_group]. unfold set1. rewrite Z.eqb_refl. lia.
    + lia.
    + exists h'. split; [exact E|]. eapply XR_ext; [exact HR'|reflexivity| |]; cbn [in_group]; unfold put, set1.
      * intros j Hj. destruct (j =? k); reflexivity.
      * intros k' i' Hk' Hi'. destruct (Z.eqb_spec k k') as [<-|N'].
        -- rewrite !Z.eqb_refl. cbn [andb].
           destruct (Z.leb_spec (in_group p k) i'), (Z.leb_spec (Z.min 32 (in_group p k + 1)) i'), (Z.eqb_spec i' (in_group p k));
             subst; try lia; reflexivity.
        -- destruct (Z.eqb_spec k' k); [lia|]. reflexivity.
Qed.
Lemma xgroup_clear h rs p c k : XR (h, rs) p c -> 0 <= k < 8 ->
  exists h', group_clear h (gid k) = (h', Ok tt) /\
    XR (h', rs) (mkplaces (set1 (in_group p) k 32) (in_file p))
       (fun k' i' => if (k =? k') && (in_group p k' <=? i') then fst (act AClear (c k' i')) else c k' i').
Proof.
  intros HR Hk. apply (xclear_loop k Hk _ _ h rs p c HR eq_refl).
  assert (H := HR). destruct H as (_ & _ & _ & H4 & _). destruct (H4 k Hk) as [_ HC].
  change (S (List.length REGISTERS)) with 33%nat. lia.
Qed.
Lemma xclear_all : forall n fuel h rs p c, XR (h, rs) p c ->
  Z.to_nat (8 - in_file p) = n -> (n < fuel)%nat ->
  exists h' rs', registers_clear_loop fuel h rs = (h', rs', Ok tt) /\
    XR (h', rs') (mkplaces (fun k => if in_file p <=? k then 32 else in_group p k) 8)
       (fun k i => if (in_file p <=? k) && (in_group p k <=? i) then fst (act AClear (c k i)) else c k i).
Proof.
  induction n as [|n IH]; intros fuel h rs p c HR Hn Hf; (destruct fuel as [|fuel]; [lia|]);
    cbn [registers_clear_loop]; assert (H := HR); destruct H as (H1 & H2 & H3 & H4 & H5 & H6);
    assert (N := xgroup h rs p c NextGroup HR); cbn [find_group place_group] in N;
    unfold registers_next in *; unfold NUM_GROUPS in *; rewrite H2 in *.
  - destruct (Z.geb_spec (in_file p) 8) as [L|L]; [|lia].
    exists h, rs. split; [reflexivity|]. eapply XR_ext; [exact HR| | |]; cbn [in_file in_group].
    + lia.
    + intros k Hk. destruct (Z.leb_spec (in_file p) k); [lia|reflexivity].
    + intros k i Hk Hi. destruct (Z.leb_spec (in_file p) k); [lia|reflexivity].
  - destruct (Z.geb_spec (in_file p) 8) as [L|L]; [lia|]. destruct (Z.ltb_spec (in_file p) 8); [|lia].
    destruct N as [HR1 [_ [HK EG]]]. rewrite EG.
    destruct (xgroup_clear _ _ _ _ _ HR1 HK) as (h2 & -> & HR2). cbn [in_group in_file] in HR2.
    edestruct (IH fuel _ _ _ _ HR2) as (h' & rs' & E & HR').
    + cbn [in_file]. lia.
    + lia.
    + exists h', rs'. split; [exact E|]. eapply XR_ext; [exact HR'|reflexivity| |];
        cbn [in_group in_file]; unfold set1.
      * intros k Hk. destruct (Z.leb_spec (in_file p) k), (Z.leb_spec (in_file p + 1) k), (Z.eqb_spec k (in_file p));
          try lia; reflexivity.
      * intros k i Hk Hi.
        destruct (Z.eq_dec k (in_file p)) as [->|N'].
        -- rewrite !Z.eqb_refl, Z.leb_refl. destruct (Z.leb_spec (in_file p + 1) (in_file p)); [lia|]. reflexivity.
        -- destruct (Z.eqb_spec k (in_file p)); [lia|]. destruct (Z.eqb_spec (in_file p) k); [lia|].
           destruct (Z.leb_spec (in_file p) k), (Z.leb_spec (in_file p + 1) k); try lia; reflexivity.
Qed.

Definition then_due (p : places) (x : rcall) (c : cells_) : cells_ := fun k i => reg_run (c k i) (due p x k i).
Definition answer (p : places) (c : cells_) (x : rcall) : res Z :=
  match x with
  | Reach g r a =>
      match target p g r with
      | Some (k, i) => snd (act a (c k i))
      | None => Err (match snd (place_group p g), g, r with
                     | None, NextGroup, _ | Some _, _, NextReg => StopIteration
                     | _, _, _ => ValueError end)
      end
  | ClearGroup g => match snd (place_group p g), g with Some _, _ => Ok 0 | None, NextGroup => Err StopIteration | None, _ => Err ValueError end
  | Len g => match snd (place_group p g), g with Some _, _ => Ok 32 | None, NextGroup => Err StopIteration | None, _ => Err ValueError end
  | ClearAll => Ok 0
  | LenAll => Ok 8
  end.
Lemma xcall st p c x : XR st p c ->
  let '(st', o) := regs_call st x in
  o = answer p c x /\ XR st' (place p x) (then_due p x c).
Proof.
  destruct st as [h rs]. intros HR. destruct x as [g r a|g| |g|]; cbn [regs_call place answer].
  - unfold then_due. cbn [due]. unfold target. assert (N := xgroup h rs p c g HR). destruct (find_group rs g) as [rs1 r1].
    destruct (place_group p g) as [p1 [k|]]; destruct N as (HR1 & PG & N); cbn [snd].
    2:{ subst r1. split; [destruct g; reflexivity|]. destruct r; exact HR1. }
    destruct N as [Hk ->]. rewrite <- PG.
    assert (H := HR1). destruct H as (H1 & H2 & H3 & H4 & H5 & H6). destruct (H4 k Hk) as [G HC].
    assert (RI : forall i, (rid k 0 + Z.to_nat i)%nat = rid k i) by (intros; unfold LRegHeap.rid; lia).
    assert (FIN : forall h2 p2 i, 0 <= i < 32 -> XR (h2, rs1) p2 c ->
      let '(st', o) := let '(h3, x) := on_reg h2 (rid k i) (act a) in ((h3, rs1), x) in
      o = snd (act a (c k i)) /\ XR st' p2 (fun k0 i0 => reg_run (c k0 i0) (if (k =? k0) && (i =? i0) then [a] else []))).
    { intros h2 p2 i Hi HR2. assert (A := xact h2 rs1 p2 c k i a HR2 Hk Hi). destruct (on_reg h2 (rid k i) (act a)) as [h3 y].
      destruct A as [A1 A2]. split; [exact A1|]. eapply XR_ext; [exact A2|reflexivity|reflexivity|].
      intros k' i' _ _. unfold put, set1. rewrite (Z.eqb_sym k' k).
      destruct (Z.eqb_spec k k') as [<-|]; [rewrite (Z.eqb_sym i' i); destruct (Z.eqb_spec i i') as [<-|]|]; reflexivity. }
    destruct r as [[i|n|]|]; cbn [find_reg].
    + rewrite (deref_some _ _ _ G). cbn [bind]. rewrite group_getitem_new.
      destruct ((0 <=? i) && (i <? 32)) eqn:E; [|split; [reflexivity|exact HR1]].
      rewrite RI. apply FIN; [lia|exact HR1].
    + rewrite (deref_some _ _ _ G). cbn [bind]. rewrite group_getitem_new.
      destruct (position n reg_names) as [i|] eqn:E; cbn [option_map]; [|split; [reflexivity|exact HR1]].
      apply position_nth in E. rewrite reg_names_len in E. rewrite RI. apply FIN; [lia|exact HR1].
    + rewrite (deref_some _ _ _ G). cbn [bind]. rewrite group_getitem_new. split; [reflexivity|exact HR1].
    + assert (N := xnext h rs1 p1 c k HR1 Hk). destruct (heap_group_next h (gid k)) as [h2 r2]. destruct N as [-> HR2].
      destruct (Z.ltb_spec (in_group p1 k) 32); [|split; [reflexivity|exact HR2]]. apply FIN; [lia|exact HR2].
  - unfold then_due. cbn [due]. assert (N := xgroup h rs p c g HR). destruct (find_group rs g) as [rs1 r1].
    destruct (place_group p g) as [p1 [k|]]; destruct N as (HR1 & PG & N); cbn [snd].
    2:{ subst r1. split; [destruct g; reflexivity|exact HR1]. }
    destruct N as [Hk ->]. destruct (xgroup_clear h rs1 p1 c k HR1 Hk) as (h2 & -> & HR2).
    split; [destruct g; reflexivity|]. rewrite <- PG. eapply XR_ext; [exact HR2|reflexivity|reflexivity|].
    intros k' i' _ _. cbv beta. destruct ((k =? k') && (in_group p1 k' <=? i')); reflexivity.
  - unfold registers_clear. destruct (xclear_all _ (S (Z.to_nat NUM_GROUPS)) h rs p c HR eq_refl) as (h' & rs' & -> & HR').
    + destruct HR as (_ & _ & H3 & _). change (S (Z.to_nat NUM_GROUPS)) with 9%nat. lia.
    + split; [reflexivity|]. eapply XR_ext; [exact HR'|reflexivity|reflexivity|].
      intros k i _ _. unfold then_due. cbn [due]. cbv beta. destruct ((in_file p <=? k) && (in_group p k <=? i)); reflexivity.
  - assert (N := xgroup h rs p c g HR). destruct (find_group rs g) as [rs1 r1].
    destruct (place_group p g) as [p1 [k|]]; destruct N as (HR1 & PG & N); cbn [snd fst].
    2:{ subst r1. split; [destruct g; reflexivity|exact HR1]. }
    destruct N as [Hk ->]. split; [|exact HR1]. destruct HR1 as (_ & _ & _ & H4 & _).
    destruct (H4 k Hk) as [E _]. rewrite (deref_some _ _ _ E). cbn [bind]. unfold group_len.
    cbn [g_registers]. rewrite gdict_len. destruct g; reflexivity.
  - split; [|exact HR]. destruct HR as (H1 & _). unfold registers_len. rewrite H1.
    unfold zlen. rewrite map_length. reflexivity.
Qed.
Lemma xrun cs : forall st p c, XR st p c ->
  XR (regs_run st cs) (fold_left place cs p) (fun k i => reg_run (c k i) (own p cs k i)).
Proof.
  induction cs as [|x cs IH]; intros st p c HR; [exact HR|].
  assert (S := xcall st p c x HR). cbn [regs_run fold_left own]. destruct (regs_call st x) as [st' o].
  destruct S as [_ HR']. specialize (IH _ _ _ HR'). eapply XR_ext; [exact IH|reflexivity|reflexivity|].
  intros k i _ _. unfold then_due, reg_run. apply fold_left_app.
Qed.
End Own.

(** a fresh register of the file *)
Definition fresh (W : Z) : cells_ := fun k i => mkreg (rbits W 0) (nth_error reg_names (Z.to_nat i)) W.
Lemma registers_new_width h W h' rs : registers_new h W = (h', Ok rs) -> good_width W.
Proof.
  intros E. destruct (Z.eq_dec W 16); [left; assumption|]. destruct (Z.eq_dec W 24); [right; assumption|].
  rewrite registers_new_err in E by (unfold good_width; lia). discriminate.
Qed.
Lemma registers_new_XR h W h' rs : registers_new h W = (h', Ok rs) ->
  XR W (h_regs h) (List.length (h_groups h)) (h', rs) at_start (fresh W).
Proof.
  intros E. assert (HW := registers_new_width _ _ _ _ E).
  assert (X : exists h1 rs1, registers_new h W = (h1, Ok rs1) /\ XR W (h_regs h) (List.length (h_groups h)) (h1, rs1) at_start (fresh W));
    [clear E|destruct X as (h1 & rs1 & E1 & X); rewrite E in E1; injection E1 as <- <-; exact X].
  unfold registers_new, NUM_GROUPS. rewrite (registers_fill_ok W HW 8 h [] 0); [|lia|reflexivity|intros k []].
  do 2 eexists. split; [reflexivity|]. cbn [app].
  split; [|split; [|split; [|split; [|split]]]]; cbn [rs_registers rs_current at_start in_file in_group h_regs h_groups].
  - unfold gid. apply map_ext. intros k. rewrite Z.sub_0_r. reflexivity.
  - reflexivity.
  - lia.
  - intros k Hk. split; [|lia]. unfold gid. rewrite nth_error_app2 by lia.
    replace (_ + Z.to_nat k - _)%nat with (Z.to_nat k) by lia.
    rewrite nth_error_map. rewrite py_range_nth by lia. cbn [option_map].
    do 3 f_equal. unfold rid. lia.
  - intros k i Hk Hi. unfold fresh.
    destruct (nth_error reg_names (Z.to_nat i)) as [n|] eqn:E.
    2:{ apply nth_error_None in E. change (List.length reg_names) with 32%nat in E. lia. }
    split; [|split; [reflexivity|exists 0; reflexivity]].
    unfold rid. rewrite nth_error_app2 by lia.
    replace (_ + 32 * Z.to_nat k + Z.to_nat i - _)%nat
      with (List.length (new_regs W) * Z.to_nat k + Z.to_nat i)%nat
      by (change (List.length (new_regs W)) with 32%nat; lia).
    rewrite nth_copies.
    + unfold new_regs. rewrite nth_error_map, E. reflexivity.
    + lia.
    + change (List.length (new_regs W)) with 32%nat. lia.
  - intros n Hn. apply nth_error_app1. exact Hn.
Qed.
Lemma history_XR h W h' rs cs : registers_new h W = (h', Ok rs) ->
  XR W (h_regs h) (List.length (h_groups h)) (regs_run (h', rs) cs) (places_after cs)
     (fun k i => reg_run (fresh W k i) (own at_start cs k i)).
Proof. intros E. apply xrun; [apply (registers_new_width _ _ _ _ E)|]. apply registers_new_XR, E. Qed.
Lemma xread W R0 gb st p c k i x : good_width W -> XR W R0 gb st p c -> 0 <= k < 8 -> 0 <= i < 32 ->
  snd (regs_call st (Reach (AtGroup (KI k)) (AtReg (KI i)) x)) = snd (act x (c k i)).
Proof.
  intros HW HR Hk Hi. assert (S := xcall W HW R0 gb st p c (Reach (AtGroup (KI k)) (AtReg (KI i)) x) HR).
  destruct (regs_call st _) as [st' o]. destruct S as [S _]. cbn [answer] in S. unfold target in S. cbn [place_group] in S.
  destruct ((0 <=? k) && (k <? 8)) eqn:B1; [|lia]. destruct ((0 <=? i) && (i <? 32)) eqn:B2; [|lia]. exact S.
Qed.

(** ** C192 *)
Lemma C192_own_life_pf : forall h W h' rs cs, registers_new h W = (h', Ok rs) ->
  let st := regs_run (h', rs) cs in
  (forall g r x k i, target (places_after cs) g r = Some (k, i) ->
     exists n r0, nth_error reg_names (Z.to_nat i) = Some n /\ register_new 0 (Some n) W = Ok r0 /\
       snd (regs_call st (Reach g r x)) = snd (act x (reg_run r0 (own at_start cs k i)))) /\
  (forall g r x, target (places_after cs) g r = None ->
     snd (regs_call st (Reach g r x)) = Err ValueError \/ snd (regs_call st (Reach g r x)) = Err StopIteration).
Proof.
  intros h W h' rs cs E st. assert (HW := registers_new_width _ _ _ _ E). assert (HR := history_XR h W h' rs cs E).
  fold st in HR. split.
  - intros g r x k i T. assert (S := xcall W HW _ _ st _ _ (Reach g r x) HR).
    destruct (regs_call st (Reach g r x)) as [st' o]. destruct S as [S _]. cbn [answer] in S. rewrite T in S. cbn [snd].
    assert (B : 0 <= i < 32).
    { unfold target in T. destruct st as [h1 rs1]. destruct HR as (_ & _ & H3 & H4 & _).
      destruct (place_group (places_after cs) g) as [p1 [k'|]] eqn:PG; [|discriminate].
      assert (Hk : 0 <= k' < 8).
      { destruct g as [[j|n|]|]; cbn [place_group] in PG; try discriminate.
        - destruct ((0 <=? j) && (j <? 8)) eqn:B; [|discriminate]. injection PG as _ <-. lia.
        - destruct (Z.ltb_spec (in_file (places_after cs)) 8); [|discriminate]. injection PG as _ <-. lia. }
      destruct r as [[j|n|]|].
      - destruct ((0 <=? j) && (j <? 32)) eqn:B; [|discriminate]. injection T as _ <-. lia.
      - destruct (position n reg_names) as [j|] eqn:P; [|discriminate]. injection T as _ <-.
        apply position_nth in P. rewrite reg_names_len in P. lia.
      - discriminate.
      - destruct (Z.ltb_spec (in_group (places_after cs) k') 32); [|discriminate]. injection T as _ <-.
        destruct (H4 k' Hk). lia. }
    destruct (nth_error reg_names (Z.to_nat i)) as [n|] eqn:N.
    2:{ apply nth_error_None in N. change (List.length reg_names) with 32%nat in N. lia. }
    exists n, (fresh W k i). split; [reflexivity|]. split; [|exact S].
    unfold fresh. rewrite N. apply register_new_ok; [exact HW|destruct HW as [->| ->]; (split; [lia|reflexivity])|].
    apply good_name_reg. apply nth_error_In in N. exact N.
  - intros g r x T. assert (S := xcall W HW _ _ st _ _ (Reach g r x) HR).
    destruct (regs_call st (Reach g r x)) as [st' o]. destruct S as [S _]. cbn [answer] in S. rewrite T in S. cbn [snd].
    subst o. destruct (snd (place_group (places_after cs) g)), g, r; auto.
Qed.
(*@ Example C192_own_life_ex : match registers_new heap0 16 with
  | (h, Ok rs) =>
      let at_ k i := Reach (AtGroup (KI k)) (AtReg (KI i)) in
      let cs := [at_ 3 5 (ASetItem (Slice (Some 13) (Some 16)) (-3)); at_ 3 6 (ASetValue 9); Reach (AtGroup (KI 3)) NextReg (ASetValue 7);
                 at_ 3 5 (ASetItem (Idx 1) 5); ClearGroup (AtGroup (KI 3)); at_ 3 5 (ASetItem (Slice (Some 1) (Some 4)) (-2)); ClearAll] in
      snd (regs_call (regs_run (h, rs) cs) (at_ 3 5 AValue)) = Ok (-8192) /\
      snd (regs_call (regs_run (h, rs) cs) (at_ 3 0 AValue)) = Ok 7 /\
      own at_start cs 3 5 = [ASetItem (Slice (Some 13) (Some 16)) (-3); ASetItem (Idx 1) 5; AClear; ASetItem (Slice (Some 1) (Some 4)) (-2)] /\
      own at_start cs 3 0 = [ASetValue 7] /\ own at_start cs 2 9 = [AClear]
  | _ => False
  end.
Proof. vm_compute. repeat split; reflexivity. Qed. @*)
Lemma own_app cs cs' k i : forall p, own p (cs ++ cs') k i = own p cs k i ++ own (fold_left place cs p) cs' k i.
Proof. induction cs as [|c cs IH]; intros p; [reflexivity|]. cbn [app own fold_left]. rewrite IH, app_assoc. reflexivity. Qed.
Lemma C192_no_spill_pf : forall h W h' rs cs k i x k' i' y, registers_new h W = (h', Ok rs) ->
  0 <= k' < 8 -> 0 <= i' < 32 -> (k, i) <> (k', i') ->
  let at_ k i := Reach (AtGroup (KI k)) (AtReg (KI i)) in
  let st := regs_run (h', rs) cs in
  snd (regs_call (fst (regs_call st (at_ k i x))) (at_ k' i' y)) = snd (regs_call st (at_ k' i' y)) /\
      (forall n, (n < List.length (h_regs h))%nat -> deref (h_regs (fst st)) n = deref (h_regs h) n).
Proof.
  intros h W h' rs cs k i x k' i' y E Hk Hi NE at_ st. assert (HW := registers_new_width _ _ _ _ E).
  assert (HR := history_XR h W h' rs cs E). fold st in HR. split.
  - assert (S := xcall W HW _ _ st _ _ (at_ k i x) HR). destruct (regs_call st (at_ k i x)) as [st' o]. destruct S as [_ HR'].
    cbn [fst]. unfold at_. rewrite (xread W _ _ _ _ _ k' i' y HW HR' Hk Hi), (xread W _ _ _ _ _ k' i' y HW HR Hk Hi).
    unfold then_due, at_. cbn [due]. unfold target. cbn [place_group].
    destruct ((0 <=? k) && (k <? 8)); [|reflexivity]. destruct ((0 <=? i) && (i <? 32)); [|reflexivity].
    destruct ((k =? k') && (i =? i')) eqn:B; [|reflexivity]. exfalso. apply NE. f_equal; lia.
  - destruct st as [h1 rs1]. destruct HR as (_ & _ & _ & _ & _ & H6). intros n Hn. cbn [fst]. unfold deref. rewrite H6 by exact Hn. reflexivity.
Qed.
(*@ Example C192_no_spill_ex : match registers_new heap0 24 with
  | (h, Ok rs) => regs_trace (h, rs) [Reach (AtGroup (KI 3)) (AtReg (KI 5)) (ASetItem (Slice (Some 1) (Some 2)) (-1000));
                                      Reach (AtGroup (KI 3)) (AtReg (KI 4)) AValue; Reach (AtGroup (KI 3)) (AtReg (KI 6)) AValue;
                                      Reach (AtGroup (KI 3)) (AtReg (KI 5)) AValue] = [Ok 0; Ok 0; Ok 0; Ok (-4194304000)]
  | _ => False
  end.
Proof. vm_compute. reflexivity. Qed. @*)

(** ** C38 *)
Lemma no_iter_places cs : forall p, Forall no_iter cs -> fold_left place cs p = p.
Proof.
  induction cs as [|c cs IH]; intros p F; [reflexivity|]. inversion F as [|y l F1 F2]; subst. cbn [fold_left].
  assert (E : place p c = p); [|rewrite E; apply IH, F2].
  destruct c as [[[k|k|]|] [i|] x|[]| |[[k|k|]|]|]; cbn [no_iter] in F1; try contradiction; cbn [place place_group fst]; try reflexivity.
  destruct ((0 <=? k) && (k <? 8)); reflexivity.
Qed.
Lemma C38_clear_exact_pf : forall h W h' rs cs, registers_new h W = (h', Ok rs) ->
  let st := regs_run (h', rs) cs in
  let p := places_after cs in
  let at_ k i := Reach (AtGroup (KI k)) (AtReg (KI i)) AValue in
  (forall k i, 0 <= k < 8 -> 0 <= i < 32 ->
     snd (regs_call (fst (regs_call st ClearAll)) (at_ k i)) =
     if (in_file p <=? k) && (in_group p k <=? i) then Ok 0 else snd (regs_call st (at_ k i))) /\
  (forall k j i, 0 <= k < 8 -> 0 <= j < 8 -> 0 <= i < 32 ->
     snd (regs_call (fst (regs_call st (ClearGroup (AtGroup (KI k))))) (at_ j i)) =
     if (j =? k) && (in_group p k <=? i) then Ok 0 else snd (regs_call st (at_ j i))).
Proof.
  intros h W h' rs cs E st p at_. assert (HW := registers_new_width _ _ _ _ E).
  assert (HR := history_XR h W h' rs cs E). fold st p in HR. split.
  - intros k i Hk Hi. unfold at_. assert (S := xcall W HW _ _ st p _ ClearAll HR).
    destruct (regs_call st ClearAll) as [st' o]. destruct S as [_ HR']. cbn [fst].
    rewrite (xread W _ _ _ _ _ k i AValue HW HR' Hk Hi), (xread W _ _ _ _ _ k i AValue HW HR Hk Hi).
    unfold then_due. cbn [due]. destruct ((in_file p <=? k) && (in_group p k <=? i)); reflexivity.
  - intros k j i Hk Hj Hi. unfold at_. assert (S := xcall W HW _ _ st p _ (ClearGroup (AtGroup (KI k))) HR).
    destruct (regs_call st (ClearGroup (AtGroup (KI k)))) as [st' o]. destruct S as [_ HR']. cbn [fst].
    rewrite (xread W _ _ _ _ _ j i AValue HW HR' Hj Hi), (xread W _ _ _ _ _ j i AValue HW HR Hj Hi).
    unfold then_due. cbn [due place_group]. destruct ((0 <=? k) && (k <? 8)) eqn:B; [|lia].
    destruct (Z.eqb_spec k j) as [<-|N]; [rewrite Z.eqb_refl|destruct (Z.eqb_spec j k); [lia|]]; cbn [andb]; [|reflexivity].
    destruct (in_group p k <=? i); reflexivity.
Qed.
(*@ Example C38_clear_exact_ex : match registers_new heap0 24 with
  | (h, Ok rs) => regs_trace (h, rs) [Reach (AtGroup (KI 3)) NextReg (ASetValue 77); Reach (AtGroup (KI 3)) (AtReg (KI 1)) (ASetValue 78);
                                      ClearGroup (AtGroup (KI 3)); Reach (AtGroup (KI 3)) (AtReg (KI 0)) AValue;
                                      Reach (AtGroup (KI 3)) (AtReg (KI 1)) AValue] = [Ok 0; Ok 0; Ok 0; Ok 77; Ok 0]
  | _ => False
  end /\ in_group (places_after [Reach (AtGroup (KI 3)) NextReg (ASetValue 77)]) 3 = 1.
Proof. vm_compute. auto. Qed. @*)
Lemma C38_first_clear_partial_pf : forall h W h' rs cs, registers_new h W = (h', Ok rs) ->
  Forall no_iter cs ->
  let st := regs_run (h', rs) cs in
  (forall k i, 0 <= k < 8 -> 0 <= i < 32 ->
     snd (regs_call (fst (regs_call st ClearAll)) (Reach (AtGroup (KI k)) (AtReg (KI i)) AValue)) = Ok 0) /\
  (forall k i, 0 <= k < 8 -> 0 <= i < 32 ->
     snd (regs_call (fst (regs_call st (ClearGroup (AtGroup (KI k)))))
                    (Reach (AtGroup (KI k)) (AtReg (KI i)) AValue)) = Ok 0) /\
  (forall k j i, 0 <= k < 8 -> 0 <= j < 8 -> j <> k -> 0 <= i < 32 ->
     snd (regs_call (fst (regs_call st (ClearGroup (AtGroup (KI k)))))
                    (Reach (AtGroup (KI j)) (AtReg (KI i)) AValue)) =
     snd (regs_call st (Reach (AtGroup (KI j)) (AtReg (KI i)) AValue))).
Proof.
  intros h W h' rs cs E NI st. destruct (C38_clear_exact_pf h W h' rs cs E) as [A B].
  unfold places_after in A, B. rewrite (no_iter_places cs _ NI) in A, B. cbn [at_start in_file in_group] in A, B. fold st in A, B.
  split; [|split].
  - intros k i Hk Hi. rewrite A by assumption. destruct ((0 <=? k) && (0 <=? i)) eqn:C; [reflexivity|lia].
  - intros k i Hk Hi. rewrite B by assumption. rewrite Z.eqb_refl. destruct (Z.leb_spec 0 i); [reflexivity|lia].
  - intros k j i Hk Hj N Hi. rewrite B by assumption. destruct (Z.eqb_spec j k); [lia|reflexivity].
Qed.
(*@ Example C38_first_clear_partial_ex : match registers_new heap0 24 with
  | (h, Ok rs) => regs_trace (h, rs) [Reach (AtGroup (KI 3)) (AtReg (KI 5)) (ASetValue 77); Reach (AtGroup (KI 4)) (AtReg (KI 5)) (ASetValue 78);
                                      ClearGroup (AtGroup (KI 3)); Reach (AtGroup (KI 3)) (AtReg (KI 5)) AValue;
                                      Reach (AtGroup (KI 4)) (AtReg (KI 5)) AValue] = [Ok 0; Ok 0; Ok 0; Ok 0; Ok 78]
  | _ => False
  end.
Proof. vm_compute. reflexivity. Qed. @*)
(** after any history, a cleared, rewritten and cleared register keeps its value *)
Lemma C38_second_clear_refuted_pf : forall h W h' rs cs k i v, registers_new h W = (h', Ok rs) ->
  0 <= k < 8 -> 0 <= i < 32 -> 0 <= v < 2 ^ W ->
  let at_ := Reach (AtGroup (KI k)) (AtReg (KI i)) in
  (let st := regs_run (h', rs) (cs ++ [ClearAll; at_ (ASetValue v); ClearAll]) in
   snd (regs_call st (at_ AValue)) = Ok v) /\
  (let c := ClearGroup (AtGroup (KI k)) in
   let st := regs_run (h', rs) (cs ++ [c; at_ (ASetValue v); c]) in
   snd (regs_call st (at_ AValue)) = Ok v).
Proof.
  intros h W h' rs cs k i v E Hk Hi Hv at_. assert (HW := registers_new_width _ _ _ _ E).
  assert (G : forall r, geom W r -> snd (act AValue (fst (act (ASetValue v) r))) = Ok v).
  { intros r Gr. cbn [act]. rewrite (reg_set_value_geom W) by assumption.
    destruct ((0 <=? v) && (v <? 2 ^ W)) eqn:B; [|lia]. reflexivity. }
  assert (GC : forall st p c, XR W (h_regs h) (List.length (h_groups h)) st p c -> geom W (c k i)).
  { intros [h1 rs1] p c (_ & _ & _ & _ & H5 & _). apply H5; assumption. }
  assert (B1 : (0 <=? k) && (k <? 8) = true) by lia.
  assert (B2 : (0 <=? i) && (i <? 32) = true) by lia.
  assert (KEEP : forall c, (c = ClearAll \/ c = ClearGroup (AtGroup (KI k))) ->
    snd (regs_call (regs_run (h', rs) (cs ++ [c; at_ (ASetValue v); c])) (at_ AValue)) = Ok v).
  { intros c Hc. unfold regs_run. rewrite fold_left_app. fold (regs_run (h', rs) cs).
    assert (HR := history_XR h W h' rs cs E). set (st := regs_run (h', rs) cs) in *. set (p := places_after cs) in *.
    cbn [fold_left]. assert (S := xcall W HW _ _ st p _ c HR).
    destruct (regs_call st c) as [st1 o1]. destruct S as [_ HR1]. cbn [fst].
    assert (S := xcall W HW _ _ st1 _ _ (at_ (ASetValue v)) HR1).
    destruct (regs_call st1 (at_ (ASetValue v))) as [st2 o2]. destruct S as [_ HR2]. cbn [fst].
    assert (S := xcall W HW _ _ st2 _ _ c HR2).
    destruct (regs_call st2 c) as [st3 o3]. destruct S as [_ HR3]. cbn [fst].
    unfold at_. rewrite (xread W _ _ _ _ _ k i AValue HW HR3 Hk Hi).
    assert (D : due (place (place p c) (at_ (ASetValue v))) c k i = []).
    { unfold at_. destruct Hc as [->| ->]; cbn [place place_group due fst]; rewrite B1; cbn [in_file in_group].
      - destruct (Z.leb_spec 8 k); [lia|reflexivity].
      - unfold set1. rewrite Z.eqb_refl. destruct (Z.leb_spec 32 i); [lia|]. reflexivity. }
    unfold then_due at 1. rewrite D. cbn [reg_run fold_left].
    unfold then_due at 1. unfold at_ at 1. cbn [due]. unfold target. cbn [place_group]. rewrite B1, B2, !Z.eqb_refl. cbn [andb reg_run fold_left].
    apply G. eapply GC, HR1. }
  split; [apply (KEEP ClearAll)|apply (KEEP (ClearGroup (AtGroup (KI k))))]; auto.
Qed.
(*@
Example C38_refuted_witness :
  let at_ k i := Reach (AtGroup (KI k)) (AtReg (KI i)) in
  match registers_new heap0 16 with
  | (h, Ok rs) => regs_trace (h, rs) [at_ 3 5 (ASetValue 1); ClearAll; at_ 3 5 AValue;
                                      at_ 3 5 (ASetValue 2); ClearAll; at_ 3 5 AValue]
                  = [Ok 0; Ok 0; Ok 0; Ok 0; Ok 0; Ok 2]
  | _ => False
  end.
Proof. vm_compute. reflexivity. Qed.
@*)

(** ** C40 *)
Lemma xloop W R0 gb rs k : 0 <= k < 8 -> forall n fuel h p c, XR W R0 gb (h, rs) p c ->
  Z.to_nat (32 - in_group p k) = n -> (n < fuel)%nat ->
  exists h', group_loop fuel h (gid gb k) = (h', Ok (map (rid R0 k) (py_range (in_group p k) 32))) /\
    XR W R0 gb (h', rs) (mkplaces (set1 (in_group p) k 32) (in_file p)) c.
Proof.
  intros Hk. induction n as [|n IH]; intros fuel h p c HR Hn Hf; (destruct fuel as [|fuel]; [lia|]);
    cbn [group_loop]; assert (N := xnext W R0 gb h rs p c k HR Hk);
    assert (H := HR); destruct H as (H1 & H2 & H3 & H4 & H5 & H6); destruct (H4 k Hk) as [G HC];
    destruct (heap_group_next h (gid gb k)) as [h1 r]; destruct N as [-> HR1]; destruct (Z.ltb_spec (in_group p k) 32); try lia.
  - exists h1. rewrite py_range_nil by lia. split; [reflexivity|].
    eapply XR_ext; [exact HR1|reflexivity| |reflexivity].
    intros j Hj. cbn [in_group]. unfold set1. destruct (j =? k); lia.
  - edestruct (IH fuel h1 _ _ HR1) as (h' & E & HR').
    + cbn [in_group]. unfold set1. rewrite Z.eqb_refl. lia.
    + lia.
    + cbn [in_group] in E. unfold set1 at 1 in E. rewrite Z.eqb_refl in E.
      replace (Z.min 32 (in_group p k + 1)) with (in_group p k + 1) in E by lia. rewrite E. cbn [bind].
      exists h'. split.
      * rewrite (py_range_cons (in_group p k)) by lia. reflexivity.
      * eapply XR_ext; [exact HR'|reflexivity| |reflexivity].
        intros j Hj. cbn [in_group]. unfold set1. destruct (j =? k); reflexivity.
Qed.
Lemma xfile_loop W R0 gb h : forall n fuel rs p c, XR W R0 gb (h, rs) p c ->
  Z.to_nat (8 - in_file p) = n -> (n < fuel)%nat ->
  exists rs', registers_loop fuel rs = (rs', Ok (map (gid gb) (py_range (in_file p) 8))) /\
    XR W R0 gb (h, rs') (mkplaces (in_group p) 8) c.
Proof.
  induction n as [|n IH]; intros fuel rs p c HR Hn Hf; (destruct fuel as [|fuel]; [lia|]);
    cbn [registers_loop]; assert (N := xgroup W R0 gb h rs p c NextGroup HR);
    assert (H := HR); destruct H as (H1 & H2 & H3 & H4 & H5 & H6); cbn [find_group place_group] in N;
    unfold registers_next in *; unfold NUM_GROUPS in *; rewrite H2 in *;
    destruct (Z.geb_spec (in_file p) 8) as [L|L]; try lia.
  - exists rs. rewrite py_range_nil by lia. split; [reflexivity|].
    eapply XR_ext; [exact HR| |reflexivity|reflexivity]. cbn [in_file]. lia.
  - destruct (Z.ltb_spec (in_file p) 8); [|lia].
    destruct N as [HR1 [_ [HK EG]]]. rewrite EG.
    edestruct (IH fuel _ _ _ HR1) as (rs' & E & HR').
    + cbn [in_file]. lia.
    + lia.
    + rewrite E. cbn [bind in_file]. exists rs'. split; [|exact HR'].
      rewrite (py_range_cons (in_file p)) by lia. reflexivity.
Qed.
Lemma file_getitem W R0 gb h rs p c k : XR W R0 gb (h, rs) p c ->
  registers_getitem rs (KI k) = if (0 <=? k) && (k <? 8) then Ok (gid gb k) else Err ValueError.
Proof.
  intros (H1 & _). cbn [registers_getitem]. unfold NUM_GROUPS, dindex. rewrite H1, rs_dget.
  destruct ((0 <=? k) && (k <? 8)) eqn:B; destruct ((k <? 0) || (k >=? 8)) eqn:B2; try lia; reflexivity.
Qed.
Lemma C40_loop_exact_pf : forall h W h' rs cs, registers_new h W = (h', Ok rs) ->
  let '(h1, rs1) := regs_run (h', rs) cs in
  let p := places_after cs in
  (exists gs, snd (registers_loop 9 rs1) = Ok gs /\
     visits_from (in_file p) 8 gs (fun k => registers_getitem rs1 (KI k))) /\
  (forall k g gr, registers_getitem rs1 (KI k) = Ok g -> deref (h_groups h1) g = Ok gr ->
     exists rr, snd (group_loop 33 h1 g) = Ok rr /\
       visits_from (in_group p k) 32 rr (fun i => group_getitem gr (KI i))).
Proof.
  intros h W h' rs cs E. assert (HR := history_XR h W h' rs cs E). set (p := places_after cs) in *.
  destruct (regs_run (h', rs) cs) as [h1 rs1]. cbv zeta.
  assert (GI := fun k => file_getitem _ _ _ _ _ _ _ k HR).
  assert (H := HR). destruct H as (H1 & H2 & H3 & H4 & H5 & H6).
  split.
  - destruct (xfile_loop W _ _ h1 _ 9 rs1 p _ HR eq_refl ltac:(lia)) as (rs' & -> & _). cbn [snd].
    eexists. split; [reflexivity|]. split.
    + unfold zlen. rewrite map_length. fold (zlen (py_range (in_file p) 8)). rewrite py_range_length. lia.
    + intros k Hk. rewrite nth_error_map, py_range_nth by lia. cbn [option_map].
      eexists. split; [reflexivity|]. rewrite GI. destruct ((0 <=? in_file p + k) && (in_file p + k <? 8)) eqn:B; [|lia].
      reflexivity.
  - intros k g gr Eg Er. rewrite GI in Eg. destruct ((0 <=? k) && (k <? 8)) eqn:B; [|discriminate].
    injection Eg as <-. assert (Hk : 0 <= k < 8) by lia. destruct (H4 k Hk) as [G HC].
    rewrite (deref_some _ _ _ G) in Er. injection Er as <-.
    destruct (xloop W _ _ rs1 k Hk _ 33 h1 p _ HR eq_refl ltac:(lia)) as (h2 & -> & _).
    cbn [snd]. eexists. split; [reflexivity|]. split.
    + unfold zlen. rewrite map_length. fold (zlen (py_range (in_group p k) 32)). rewrite py_range_length. lia.
    + intros i Hi. rewrite nth_error_map, py_range_nth by lia. cbn [option_map].
      eexists. split; [reflexivity|]. rewrite group_getitem_new.
      destruct ((0 <=? in_group p k + i) && (in_group p k + i <? 32)) eqn:B2; [|lia]. f_equal. unfold rid. lia.
Qed.
(*@ Example C40_loop_exact_ex : match registers_new heap0 16 with
  | (h, Ok rs) => snd (registers_loop 9 (snd (regs_run (h, rs) [Len NextGroup; Len NextGroup]))) = Ok [2;3;4;5;6;7]%nat /\
                  in_file (places_after [Len NextGroup; Len NextGroup]) = 2
  | _ => False
  end.
Proof. vm_compute. auto. Qed. @*)
Lemma C40_first_loop_partial_pf : forall h W h' rs cs, registers_new h W = (h', Ok rs) ->
  Forall no_iter cs ->
  let '(h1, rs1) := regs_run (h', rs) cs in
  (exists gs, snd (registers_loop 9 rs1) = Ok gs /\
     visits_in_order 8 gs (fun k => registers_getitem rs1 (KI k))) /\
  (forall k g gr, registers_getitem rs1 (KI k) = Ok g -> deref (h_groups h1) g = Ok gr ->
     exists rr, snd (group_loop 33 h1 g) = Ok rr /\
       visits_in_order 32 rr (fun i => group_getitem gr (KI i))).
Proof.
  intros h W h' rs cs E NI. assert (L := C40_loop_exact_pf h W h' rs cs E).
  unfold places_after in L. rewrite (no_iter_places cs _ NI) in L. destruct (regs_run (h', rs) cs) as [h1 rs1].
  cbn [at_start in_file in_group] in L. destruct L as [L1 L2]. split; [exact L1|exact L2].
Qed.
(*@ Example C40_first_loop_partial_ex : match registers_new heap0 16 with
  | (h, Ok rs) => snd (registers_loop 9 rs) = Ok [0;1;2;3;4;5;6;7]%nat /\
                  match snd (group_loop 33 h 2%nat) with Ok l => zlen l = 32 | Err _ => False end
  | _ => False
  end.
Proof. vm_compute. auto. Qed. @*)
Lemma C40_second_loop_refuted_pf : forall h W h' rs cs, registers_new h W = (h', Ok rs) ->
  let '(h1, rs1) := regs_run (h', rs) cs in
  snd (registers_loop 9 (fst (registers_loop 9 rs1))) = Ok [] /\
  (forall k g, registers_getitem rs1 (KI k) = Ok g ->
     snd (group_loop 33 (fst (group_loop 33 h1 g)) g) = Ok []).
Proof.
  intros h W h' rs cs E. assert (HR := history_XR h W h' rs cs E). set (p := places_after cs) in *.
  destruct (regs_run (h', rs) cs) as [h1 rs1].
  assert (GI := fun k => file_getitem _ _ _ _ _ _ _ k HR).
  assert (H := HR). destruct H as (H1 & H2 & H3 & H4 & H5 & H6).
  split.
  - destruct (xfile_loop W _ _ h1 _ 9 rs1 p _ HR eq_refl ltac:(lia)) as (rs' & -> & HR2). cbn [fst].
    destruct (xfile_loop W _ _ h1 _ 9 rs' _ _ HR2 eq_refl ltac:(cbn [in_file]; lia)) as (rs2 & -> & _).
    cbn [snd in_file]. rewrite py_range_nil by lia. reflexivity.
  - intros k g Eg. rewrite GI in Eg. destruct ((0 <=? k) && (k <? 8)) eqn:B; [|discriminate]. injection Eg as <-.
    assert (Hk : 0 <= k < 8) by lia. destruct (H4 k Hk) as [_ HC].
    destruct (xloop W _ _ rs1 k Hk _ 33 h1 p _ HR eq_refl ltac:(lia)) as (h2 & -> & HR2).
    cbn [fst].
    destruct (xloop W _ _ rs1 k Hk _ 33 h2 _ _ HR2 eq_refl) as (h3 & -> & _).
    + cbn [in_group]. unfold set1. rewrite Z.eqb_refl. lia.
    + cbn [snd in_group]. unfold set1. rewrite Z.eqb_refl, py_range_nil by lia. reflexivity.
Qed.
(*@
Example C40_refuted_witness :
  match registers_new heap0 24 with
  | (h, Ok rs) =>
      (snd (registers_loop 9 rs), snd (registers_loop 9 (fst (registers_loop 9 rs))))
      = (Ok [0;1;2;3;4;5;6;7]%nat, Ok [])
  | _ => False
  end.
Proof. vm_compute. reflexivity. Qed.
@*)
