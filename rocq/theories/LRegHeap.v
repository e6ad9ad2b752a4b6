(** Proofs about register groups and the whole register file. *)
From Verif Require Import Py MBitField SBits LPy LBits LBitField MRegisters SRegisters LRegisters.
From Coq Require Import ZifyBool.
#[local] Arguments Z.add : simpl never.
#[local] Arguments Z.sub : simpl never.
#[local] Arguments Z.mul : simpl never.
#[local] Arguments Z.pow : simpl never.
Opaque py_range.

(** ** Lists as heaps *)
Lemma nth_upd {A} (l : list A) : forall n m x,
  nth_error (upd l n x) m =
  if Nat.eqb n m then match nth_error l m with Some _ => Some x | None => None end else nth_error l m.
Proof.
  induction l as [|y l IH]; intros [|n] [|m] x; cbn; try reflexivity.
  - destruct (Nat.eqb n m); reflexivity.
  - apply IH.
Qed.
Lemma nth_upd_eq {A} (l : list A) n x y : nth_error l n = Some y -> nth_error (upd l n x) n = Some x.
Proof. intros E. rewrite nth_upd, Nat.eqb_refl, E. reflexivity. Qed.
Lemma nth_upd_ne {A} (l : list A) n m x : n <> m -> nth_error (upd l n x) m = nth_error l m.
Proof. intros N. rewrite nth_upd. apply Nat.eqb_neq in N. rewrite N. reflexivity. Qed.
Lemma deref_some {A} (l : list A) n x : nth_error l n = Some x -> deref l n = Ok x.
Proof. intros E. unfold deref. rewrite E. reflexivity. Qed.

(** ** Construction *)
Definition gdict (base : nat) : dict dkey nat :=
  map (fun i => (DI i, (base + Z.to_nat i)%nat)) (py_range 0 32).
Definition new_regs (W : Z) : list register :=
  map (fun n => mkreg (rbits W 0) (Some n) W) reg_names.

Lemma good_name_reg n : In n reg_names -> bad_name (Some n) = false.
Proof. intros I. apply bad_name_spec. right; left; exact I. Qed.

Lemma REGISTERS_dindex n i : position n reg_names = Some i -> dindex REGISTERS n = Ok i.
Proof.
  intros P. unfold dindex. rewrite REGISTERS_tab, tab_dget, P. cbn [option_map]. reflexivity.
Qed.
Lemma REGISTERS_dmem n : dmem REGISTERS n = match position n reg_names with Some _ => true | None => false end.
Proof. unfold dmem. rewrite REGISTERS_tab, tab_dget. destruct (position n reg_names); reflexivity. Qed.
Lemma REGISTERS_len : zlen REGISTERS = 32. Proof. reflexivity. Qed.

Lemma group_fill_ok W : good_width W -> forall l h d a,
  0 <= a ->
  (forall j n, nth_error l j = Some n -> position n reg_names = Some (a + Z.of_nat j)) ->
  (forall k, In k (dkeys d) -> exists i, k = DI i /\ i < a) ->
  group_fill h d l W =
  (with_regs h (h_regs h ++ map (fun n => mkreg (rbits W 0) (Some n) W) l),
   Ok (d ++ map (fun i => (DI i, (List.length (h_regs h) + Z.to_nat (i - a))%nat))
                (py_range a (a + zlen l)))).
Proof.
  intros HW. induction l as [|n l IH]; intros h d a Ha Hp Hd; cbn [group_fill].
  - cbn [map]. rewrite !app_nil_r. rewrite py_range_nil by (unfold zlen; cbn; lia).
    cbn [map]. rewrite app_nil_r. destruct h; reflexivity.
  - assert (P := Hp O n eq_refl). rewrite Z.add_0_r in P.
    rewrite (REGISTERS_dindex _ _ P).
    rewrite register_new_ok; [|exact HW|destruct HW as [->| ->]; (split; [lia|reflexivity])|].
    2:{ apply good_name_reg. apply position_nth in P. eapply nth_error_In. apply P. }
    rewrite (IH _ _ (a + 1)).
    + cbn [h_regs with_regs map]. rewrite <- app_assoc. cbn [app]. f_equal. f_equal.
      rewrite dset_fresh by (intros I; destruct (Hd _ I) as (i & E & L); injection E as <-; lia).
      rewrite <- app_assoc. f_equal. cbn [app].
      rewrite zlen_cons. replace (a + 1 + zlen l) with (a + (1 + zlen l)) by lia.
      rewrite (py_range_cons a) by (assert (L := zlen_nonneg l); lia). cbn [map]. f_equal.
      * do 2 f_equal. lia.
      * apply map_ext_in. intros i Hi. apply py_range_In in Hi. f_equal.
        rewrite app_length. cbn [List.length]. lia.
    + lia.
    + intros j m E. rewrite (Hp (S j) m E). f_equal. lia.
    + intros k I. rewrite dkeys_dset in I.
      assert (M : dmem d (DI a) = false).
      { destruct (dmem d (DI a)) eqn:M; [|reflexivity]. apply dget_In in M.
        destruct (Hd _ M) as (i & E & L). injection E as <-. lia. }
      rewrite M in I. apply in_app_or in I. destruct I as [I|[<-|[]]].
      * destruct (Hd _ I) as (i & -> & L). exists i. split; [reflexivity|lia].
      * exists a. split; [reflexivity|lia].
Qed.

Lemma group_new_ok h W : good_width W ->
  group_new h W = (mkheap (h_regs h ++ new_regs W)
                          (h_groups h ++ [mkgroup W (gdict (List.length (h_regs h))) 0]),
                   Ok (List.length (h_groups h))).
Proof.
  intros HW. unfold group_new.
  replace (dkeys REGISTERS) with reg_names by reflexivity.
  rewrite (group_fill_ok W HW reg_names h [] 0).
  - cbn [h_groups h_regs with_regs with_groups app]. unfold with_groups. cbn [h_regs h_groups].
    rewrite reg_names_len. unfold gdict, new_regs.
    rewrite (map_ext_in _ (fun i => (DI i, (List.length (h_regs h) + Z.to_nat i)%nat))); [reflexivity|].
    intros i _. rewrite Z.sub_0_r. reflexivity.
  - lia.
  - intros j n E. apply nth_position; [apply reg_names_NoDup|lia|]. 
    replace (Z.to_nat (0 + Z.of_nat j)) with j by lia. exact E.
  - intros k [].
Qed.
Lemma group_new_err h W : ~ good_width W -> group_new h W = (h, Err ValueError).
Proof.
  intros HW. unfold group_new.
  assert (K : exists l, dkeys REGISTERS = lit "AU1" :: l) by (eexists; reflexivity).
  destruct K as [l ->]. cbn [group_fill].
  assert (D : dindex REGISTERS (lit "AU1") = Ok 0) by reflexivity. rewrite D.
  destruct (register_new 0 (Some (lit "AU1")) W) as [r|e] eqn:E.
  - apply register_new_inv in E. exfalso. apply HW. apply E.
  - apply C33_constructor_pf in E. subst. reflexivity.
Qed.

Lemma gdict_get base i : dget (gdict base) (DI i) =
  if (0 <=? i) && (i <? 32) then Some (base + Z.to_nat i)%nat else None.
Proof.
  destruct ((0 <=? i) && (i <? 32)) eqn:E.
  - apply In_dget.
    + unfold gdict, dkeys. rewrite map_map. cbn [fst].
      apply FinFun.Injective_map_NoDup; [|apply py_range_NoDup]. intros x y [=]. assumption.
    + unfold gdict. apply in_map_iff. exists i. split; [reflexivity|]. apply py_range_In. lia.
  - apply dget_None. unfold gdict, dkeys. rewrite map_map. cbn [fst].
    intros I. apply in_map_iff in I. destruct I as (j & [= ->] & I). apply py_range_In in I. lia.
Qed.
Lemma gdict_len base : zlen (gdict base) = 32.
Proof. unfold gdict, zlen. rewrite map_length. apply (py_range_length 0 32). Qed.

Lemma group_getitem_new W base c k :
  group_getitem (mkgroup W (gdict base) c) k =
  match (match k with KI i => if (0 <=? i) && (i <? 32) then Some i else None
                 | KS n => position n reg_names | KSlice => None end) with
  | Some i => Ok (base + Z.to_nat i)%nat
  | None => Err ValueError
  end.
Proof.
  destruct k as [i|n|]; cbn [group_getitem g_registers]; [| |reflexivity].
  - rewrite REGISTERS_len. unfold dindex. rewrite gdict_get.
    destruct ((0 <=? i) && (i <? 32)) eqn:E.
    + destruct ((i <? 0) || (i >=? 32)) eqn:F; [lia|reflexivity].
    + destruct ((i <? 0) || (i >=? 32)) eqn:F; [reflexivity|lia].
  - rewrite REGISTERS_dmem. destruct (position n reg_names) as [i|] eqn:P; cbn [negb]; [|reflexivity].
    rewrite (REGISTERS_dindex _ _ P). cbn [bind]. unfold dindex. rewrite gdict_get.
    apply position_nth in P. rewrite reg_names_len in P.
    destruct ((0 <=? i) && (i <? 32)) eqn:E; [reflexivity|lia].
Qed.

(** ** C35 - C37 *)
Lemma C35_lookup_pf : forall h W, W = 16 \/ W = 24 ->
  exists h' g gr, group_new h W = (h', Ok g) /\ deref (h_groups h') g = Ok gr /\
  group_len gr = 32 /\
  (forall n i, 0 <= i < 32 -> registerName i = Ok n ->
     exists r reg, group_getitem gr (KS n) = Ok r /\ group_getitem gr (KI i) = Ok r /\
       deref (h_regs h') r = Ok reg /\ r_name reg = Some n /\ reg_value reg = 0 /\ reg_len reg = W) /\
  (forall i j r, group_getitem gr (KI i) = Ok r -> group_getitem gr (KI j) = Ok r -> i = j) /\
  (forall i, ~ (0 <= i < 32) -> group_getitem gr (KI i) = Err ValueError) /\
  (forall n, ~ In n reg_names -> group_getitem gr (KS n) = Err ValueError) /\
  group_getitem gr KSlice = Err ValueError.
Proof.
  intros h W HW. do 3 eexists. split; [apply group_new_ok; exact HW|].
  split.
  { cbn [h_groups]. apply deref_some. rewrite nth_error_app2 by lia. rewrite Nat.sub_diag. reflexivity. }
  split; [apply gdict_len|]. split; [|split; [|split; [|split]]].
  - intros n i Hi E. assert (P := E). apply registerName_iff in P.
    exists (List.length (h_regs h) + Z.to_nat i)%nat, (mkreg (rbits W 0) (Some n) W).
    rewrite !group_getitem_new, P. destruct ((0 <=? i) && (i <? 32)) eqn:B; [|lia].
    repeat (split; [reflexivity|]). cbn [h_regs]. split; [|repeat split].
    apply deref_some. rewrite nth_error_app2 by lia.
    replace (List.length (h_regs h) + Z.to_nat i - List.length (h_regs h))%nat with (Z.to_nat i) by lia.
    unfold new_regs. rewrite nth_error_map. apply position_nth in P. destruct P as [_ ->]. reflexivity.
  - intros i j r. rewrite !group_getitem_new.
    destruct ((0 <=? i) && (i <? 32)) eqn:B1, ((0 <=? j) && (j <? 32)) eqn:B2; try discriminate.
    intros [= <-] [=]. lia.
  - intros i Hi. rewrite group_getitem_new. destruct ((0 <=? i) && (i <? 32)) eqn:B; [lia|reflexivity].
  - intros n Hn. rewrite group_getitem_new. apply position_None in Hn. rewrite Hn. reflexivity.
  - reflexivity.
Qed.
(*@
Example C35_example :
  match group_new heap0 16 with
  | (h, Ok g) => match deref (h_groups h) g with
                 | Ok gr => group_getitem gr (KS (lit "MXR")) = Ok 7%nat /\ group_getitem gr (KI 7) = Ok 7%nat /\
                            group_getitem gr (KI 32) = Err ValueError
                 | Err _ => False
                 end
  | _ => False
  end.
Proof. vm_compute. repeat split; reflexivity. Qed.
@*)

Lemma C36_alias_lookup_refuted_pf : forall n, In n alias_names ->
  good_name (Some n) /\ (exists i, registerNumber n = Ok i) /\
  forall gr, group_getitem gr (KS n) = Err ValueError.
Proof.
  intros n I. split; [right; right; exact I|]. split.
  - rewrite registerNumber_spec. unfold number_of. destruct (position n reg_names); [eauto|].
    destruct (position n alias_names) eqn:P; [eexists; reflexivity|]. apply position_None in P. contradiction.
  - intros gr. cbn [group_getitem]. rewrite REGISTERS_dmem.
    assert (N : position n reg_names = None).
    { cbn in I. destruct I as [<-|[<-|[<-|[<-|[]]]]]; reflexivity. }
    rewrite N. reflexivity.
Qed.
(*@
Example C36_refuted_witness :
  match group_new heap0 16 with
  | (h, Ok g) => match deref (h_groups h) g with
                 | Ok gr => group_getitem gr (KS (lit "RAC")) = Err ValueError /\ registerNumber (lit "RAC") = Ok 28
                 | Err _ => False
                 end
  | _ => False
  end.
Proof. vm_compute. repeat split; reflexivity. Qed.
@*)
Lemma C36_register_names_partial_pf : forall h W, W = 16 \/ W = 24 ->
  exists h' g gr, group_new h W = (h', Ok g) /\ deref (h_groups h') g = Ok gr /\
  forall n, In n reg_names -> exists i, registerNumber n = Ok i /\
    exists r, group_getitem gr (KS n) = Ok r /\ group_getitem gr (KI i) = Ok r.
Proof.
  intros h W HW. destruct (C35_lookup_pf h W HW) as (h' & g & gr & E1 & E2 & _ & E3 & _).
  exists h', g, gr. split; [exact E1|]. split; [exact E2|]. intros n I.
  destruct (position n reg_names) as [i|] eqn:P; [|apply position_None in P; contradiction].
  exists i. split.
  - rewrite registerNumber_spec. unfold number_of. rewrite P. reflexivity.
  - assert (B := P). apply position_nth in B. rewrite reg_names_len in B.
    apply registerName_iff in P. destruct (E3 n i (proj1 B) P) as (r & reg & H1 & H2 & _). eauto.
Qed.
(*@ Example C36_register_names_partial_ex : match group_new heap0 16 with
  | (h, Ok g) => match deref (h_groups h) g with
                 | Ok gr => registerNumber (lit "CSH") = Ok 5 /\ group_getitem gr (KS (lit "CSH")) = group_getitem gr (KI 5)
                 | Err _ => False
                 end
  | _ => False
  end.
Proof. vm_compute. auto. Qed. @*)

Lemma getitem_after_set gr s r k :
  group_getitem (fst (group_setitem gr (KS s) r)) k = group_getitem gr k.
Proof.
  destruct k as [i|n|]; cbn [group_setitem fst group_getitem g_registers]; [| |reflexivity];
    unfold dindex; cbn [bind].
  - rewrite dget_dset. reflexivity.
  - destruct (dget REGISTERS n); cbn [bind]; [|reflexivity]. rewrite dget_dset. reflexivity.
Qed.
Lemma C37_assignment_refuted_pf : forall h W h' g gr, group_new h W = (h', Ok g) ->
  deref (h_groups h') g = Ok gr -> forall r,
  (forall n, In n reg_names ->
     snd (group_setitem gr (KS n) r) = Ok tt /\
     (forall k, group_getitem (fst (group_setitem gr (KS n) r)) k = group_getitem gr k) /\
     group_len (fst (group_setitem gr (KS n) r)) = 33) /\
  (forall i, group_setitem gr (KI i) r = (gr, Err KeyError)).
Proof.
  intros h W h' g gr E D r.
  assert (HW : good_width W).
  { destruct (Z.eq_dec W 16); [left; assumption|]. destruct (Z.eq_dec W 24); [right; assumption|].
    rewrite group_new_err in E by (unfold good_width; lia). discriminate. }
  rewrite group_new_ok in E by exact HW. injection E as <- <-.
  cbn [h_groups] in D. unfold deref in D. rewrite nth_error_app2, Nat.sub_diag in D by lia.
  cbn in D. injection D as <-.
  split; [|reflexivity]. intros n I. split; [reflexivity|]. split.
  - intros k. apply getitem_after_set.
  - cbn [group_setitem fst]. unfold group_len. cbn [g_registers]. rewrite dset_len.
    assert (M : dmem (gdict (List.length (h_regs h))) (DS n) = false).
    { destruct (dmem _ _) eqn:M; [|reflexivity]. apply dget_In in M. unfold gdict, dkeys in M.
      rewrite map_map in M. apply in_map_iff in M. destruct M as (j & [=] & _). }
    rewrite M, gdict_len. reflexivity.
Qed.
(*@
Example C37_refuted_witness :
  match group_new heap0 16 with
  | (h, Ok g) => match deref (h_groups h) g with
                 | Ok gr => let '(gr', x) := group_setitem gr (KS (lit "X0")) 100%nat in
                            x = Ok tt /\ group_getitem gr' (KS (lit "X0")) = Ok 8%nat /\ group_len gr' = 33 /\
                            snd (group_setitem gr (KI 8) 100%nat) = Err KeyError
                 | Err _ => False
                 end
  | _ => False
  end.
Proof. vm_compute. repeat split; reflexivity. Qed.
@*)

(** ** The whole register file *)
Section File.
Context (W : Z) (HW : good_width W) (R0 : list register).
Let rb := List.length R0.
Context (gb : nat).

Definition rid (k i : Z) : nat := (rb + 32 * Z.to_nat k + Z.to_nat i)%nat.
Definition gid (k : Z) : nat := (gb + Z.to_nat k)%nat.

Definition RR (st : rstate) (s : sregs) : Prop :=
  let '(h, rs) := st in
  rs_registers rs = map (fun k => (k, gid k)) (py_range 0 8) /\
  rs_current rs = rcur s /\ 0 <= rcur s <= 8 /\
  (forall k, 0 <= k < 8 ->
     nth_error (h_groups h) (gid k) = Some (mkgroup W (gdict (rid k 0)) (gcur s k)) /\
     0 <= gcur s k <= 32) /\
  (forall k i, 0 <= k < 8 -> 0 <= i < 32 ->
     exists r, nth_error (h_regs h) (rid k i) = Some r /\ RB W r (scell s k i)) /\
  (forall n, (n < rb)%nat -> nth_error (h_regs h) n = nth_error R0 n).

Lemma rid_inj k i k' i' : 0 <= k < 8 -> 0 <= i < 32 -> 0 <= k' < 8 -> 0 <= i' < 32 ->
  rid k i = rid k' i' -> k = k' /\ i = i'.
Proof. unfold rid. lia. Qed.

Lemma RB_ext r a a' : RB W r a -> (forall j, 0 <= j < W -> a' j = a j) -> RB W r a'.
Proof.
  intros [E (H1 & H2 & H3 & H4 & H5 & H6)] X. split; [exact E|].
  repeat (split; [assumption|]). intros j Hj. rewrite X by exact Hj. apply H6. exact Hj.
Qed.
Lemma RR_ext st s s' : RR st s ->
  rcur s' = rcur s ->
  (forall k, 0 <= k < 8 -> gcur s' k = gcur s k) ->
  (forall k i j, 0 <= k < 8 -> 0 <= i < 32 -> scell s' k i j = scell s k i j) ->
  RR st s'.
Proof.
  destruct st as [h rs]. intros (H1 & H2 & H3 & H4 & H5 & H6) E1 E2 E3.
  split; [exact H1|]. rewrite E1. split; [exact H2|]. split; [exact H3|]. split; [|split].
  - intros k Hk. rewrite E2 by exact Hk. apply H4; exact Hk.
  - intros k i Hk Hi. destruct (H5 k i Hk Hi) as (r & Hr & HB). exists r. split; [exact Hr|].
    eapply RB_ext; [exact HB|]. intros j Hj. apply E3; assumption.
  - exact H6.
Qed.

Lemma rs_dget k :
  dget (map (fun k => (k, gid k)) (py_range 0 8)) k =
  if (0 <=? k) && (k <? 8) then Some (gid k) else None.
Proof using gb.
  clear.
  destruct ((0 <=? k) && (k <? 8)) eqn:E.
  - apply In_dget.
    + unfold dkeys. rewrite map_map. cbn [fst]. rewrite map_id. apply py_range_NoDup.
    + apply in_map_iff. exists k. split; [reflexivity|]. apply py_range_In. lia.
  - apply dget_None. unfold dkeys. rewrite map_map. cbn [fst]. rewrite map_id, py_range_In. lia.
Qed.

Definition ogid (o : option Z) (r : res nat) : Prop :=
  match o with
  | Some k => 0 <= k < 8 /\ r = Ok (gid k)
  | None => exists e, r = Err e
  end.

Lemma group_sim h rs s p : RR (h, rs) s ->
  let '(rs', r) := find_group rs p in
  let '(s', o) := s_group s p in
  RR (h, rs') s' /\ ogid o r.
Proof.
  intros HR. assert (H := HR). destruct H as (H1 & H2 & H3 & H4 & H5 & H6).
  destruct p as [[k|n|]|]; cbn [find_group s_group registers_getitem].
  - split; [exact HR|]. unfold dindex, NUM_GROUPS. rewrite H1, rs_dget.
    destruct ((0 <=? k) && (k <? 8)) eqn:E; destruct ((k <? 0) || (k >=? 8)) eqn:F; try lia; cbn [ogid].
    + split; [lia|reflexivity].
    + eexists; reflexivity.
  - split; [exact HR|]. eexists; reflexivity.
  - split; [exact HR|]. eexists; reflexivity.
  - unfold registers_next, NUM_GROUPS. rewrite H2.
    destruct (Z.geb_spec (rcur s) 8), (Z.ltb_spec (rcur s) 8); try lia.
    + split; [exact HR|]. eexists; reflexivity.
    + split.
      * split; [exact H1|]. cbn [rs_current rcur gcur scell]. split; [reflexivity|]. split; [lia|].
        split; [exact H4|split; [exact H5|exact H6]].
      * unfold dindex. rewrite H1, rs_dget.
        destruct ((0 <=? rcur s) && (rcur s <? 8)) eqn:E; [|lia]. cbn [ogid]. split; [lia|reflexivity].
Qed.

Definition orid (k : Z) (o : option Z) (r : res nat) : Prop :=
  match o with
  | Some i => 0 <= i < 32 /\ r = Ok (rid k i)
  | None => exists e, r = Err e
  end.

Lemma next_sim h rs s k : RR (h, rs) s -> 0 <= k < 8 ->
  let '(h', r) := heap_group_next h (gid k) in
  (gcur s k < 32 -> r = Ok (rid k (gcur s k)) /\
     RR (h', rs) (mksregs (scell s) (set1 (gcur s) k (gcur s k + 1)) (rcur s))) /\
  (32 <= gcur s k -> r = Err StopIteration /\ RR (h', rs) s).
Proof.
  intros HR Hk. assert (H := HR). destruct H as (H1 & H2 & H3 & H4 & H5 & H6).
  destruct (H4 k Hk) as [G HC]. unfold heap_group_next. rewrite (deref_some _ _ _ G).
  unfold group_next. cbn [g_current g_width g_registers]. rewrite REGISTERS_len.
  destruct (Z.geb_spec (gcur s k) 32) as [L|L].
  - split; [lia|]. intros _. split; [reflexivity|].
    split; [exact H1|]. split; [exact H2|]. split; [exact H3|]. split; [|split; [exact H5|exact H6]].
    intros j Hj. cbn [with_groups h_groups]. split; [|apply H4; exact Hj].
    destruct (Z.eq_dec j k) as [->|N].
    + erewrite nth_upd_eq by exact G. reflexivity.
    + rewrite nth_upd_ne by (unfold gid; lia). apply H4; exact Hj.
  - split; [|lia]. intros _. unfold dindex. rewrite gdict_get.
    destruct ((0 <=? gcur s k) && (gcur s k <? 32)) eqn:E; [|lia].
    split; [f_equal; unfold rid; lia|].
    split; [exact H1|]. cbn [rcur gcur scell]. split; [exact H2|]. split; [exact H3|]. split; [|split; [exact H5|exact H6]].
    intros j Hj. cbn [with_groups h_groups]. unfold set1. destruct (Z.eqb_spec j k) as [->|N].
    + erewrite nth_upd_eq by exact G. split; [reflexivity|lia].
    + rewrite nth_upd_ne by (unfold gid; lia). apply H4; exact Hj.
Qed.

Lemma reg_sim h rs s k p : RR (h, rs) s -> 0 <= k < 8 ->
  let '(h', r) := find_reg h (gid k) p in
  let '(s', o) := s_reg s k p in
  RR (h', rs) s' /\ orid k o r.
Proof.
  intros HR Hk. assert (H := HR). destruct H as (H1 & H2 & H3 & H4 & H5 & H6).
  destruct (H4 k Hk) as [G HC].
  assert (RI : forall i, (rid k 0 + Z.to_nat i)%nat = rid k i) by (intros; unfold rid; lia).
  destruct p as [[i|n|]|]; cbn [find_reg s_reg].
  - rewrite (deref_some _ _ _ G). cbn [bind]. rewrite group_getitem_new. split; [exact HR|].
    destruct ((0 <=? i) && (i <? 32)) eqn:E; cbn [orid]; [|eexists; reflexivity].
    split; [lia|]. rewrite RI. reflexivity.
  - rewrite (deref_some _ _ _ G). cbn [bind]. rewrite group_getitem_new. split; [exact HR|].
    destruct (position n reg_names) as [i|] eqn:P; cbn [orid]; [|eexists; reflexivity].
    apply position_nth in P. rewrite reg_names_len in P. split; [lia|]. rewrite RI. reflexivity.
  - rewrite (deref_some _ _ _ G). cbn [bind]. rewrite group_getitem_new. split; [exact HR|].
    eexists; reflexivity.
  - assert (N := next_sim h rs s k HR Hk). destruct (heap_group_next h (gid k)) as [h' r].
    destruct N as [N1 N2]. destruct (Z.ltb_spec (gcur s k) 32) as [L|L].
    + destruct (N1 L) as [-> N]. split; [exact N|]. cbn [orid]. split; [lia|reflexivity].
    + destruct (N2 L) as [-> N]. split; [exact N|]. eexists; reflexivity.
Qed.

Definition with_cell (s : sregs) (k i : Z) (a : arr) : sregs :=
  mksregs (set1 (scell s) k (set1 (scell s k) i a)) (gcur s) (rcur s).

Lemma on_reg_sim h rs s k i x : RR (h, rs) s -> 0 <= k < 8 -> 0 <= i < 32 -> act_fits W x ->
  let '(h', r) := on_reg h (rid k i) (act x) in
  let '(a, o) := s_act W (scell s k i) x in
  obs r = o /\ RR (h', rs) (with_cell s k i a).
Proof.
  intros HR Hk Hi F. assert (H := HR). destruct H as (H1 & H2 & H3 & H4 & H5 & H6).
  destruct (H5 k i Hk Hi) as (r & Er & HB). unfold on_reg. rewrite (deref_some _ _ _ Er).
  destruct (act_sim W r _ x HW HB F) as [A1 A2].
  destruct (act x r) as [r' y], (s_act W (scell s k i) x) as [a o]. cbn [fst snd] in *.
  split; [exact A1|].
  split; [exact H1|]. split; [exact H2|]. split; [exact H3|]. split; [exact H4|]. cbn [with_regs h_regs].
  split.
  - intros k' i' Hk' Hi'. cbn [with_cell scell]. unfold set1.
    destruct (Z.eqb_spec k' k) as [->|N]; [destruct (Z.eqb_spec i' i) as [->|N]|].
    + exists r'. split; [|exact A2]. erewrite nth_upd_eq by exact Er. reflexivity.
    + rewrite nth_upd_ne; [apply H5; assumption|]. intros E. apply rid_inj in E; try assumption. lia.
    + rewrite nth_upd_ne; [apply H5; assumption|]. intros E. apply rid_inj in E; try assumption. lia.
  - intros n Hn. rewrite nth_upd_ne by (unfold rid; lia). apply H6. exact Hn.
Qed.

Lemma clear_loop_sim k : 0 <= k < 8 -> forall n fuel h rs s, RR (h, rs) s ->
  Z.to_nat (32 - gcur s k) = n -> (n < fuel)%nat ->
  exists h', group_clear_loop fuel h (gid k) = (h', Ok tt) /\ RR (h', rs) (s_clear s k).
Proof.
  intros Hk. induction n as [|n IH]; intros fuel h rs s HR Hn Hf; (destruct fuel as [|fuel]; [lia|]);
    cbn [group_clear_loop]; assert (N := next_sim h rs s k HR Hk);
    assert (H := HR); destruct H as (H1 & H2 & H3 & H4 & H5 & H6); destruct (H4 k Hk) as [G HC];
    destruct (heap_group_next h (gid k)) as [h1 r]; destruct N as [N1 N2].
  - destruct N2 as [-> HR1]; [lia|]. exists h1. split; [reflexivity|].
    eapply RR_ext; [exact HR1| | |]; cbn [s_clear rcur gcur scell].
    + reflexivity.
    + intros j Hj. unfold set1. destruct (Z.eqb_spec j k) as [->|]; [lia|reflexivity].
    + intros k' i' j Hk' Hi'. destruct ((k' =? k) && (gcur s k <=? i')) eqn:E; [lia|reflexivity].
  - destruct N1 as [-> HR1]; [lia|].
    assert (A := on_reg_sim h1 rs _ k (gcur s k) AClear HR1 Hk ltac:(lia) I).
    cbn [act] in A.
    assert (OR : forall h r, on_reg h r (fun r => unit_z (reg_clear r)) =
                 let '(h2, x) := on_reg h r reg_clear in (h2, do _ <- x; Ok 0)).
    { clear. intros h r. unfold on_reg. destruct (deref (h_regs h) r); [|reflexivity].
      unfold unit_z. destruct (reg_clear a). reflexivity. }
    change (act AClear) with (fun r => unit_z (reg_clear r)) in A. rewrite OR in A.
    destruct (on_reg h1 (rid k (gcur s k)) reg_clear) as [h2 x].
    cbn [s_act] in A. destruct A as [A1 A2].
    destruct x as [[]|e]; [|discriminate].
    edestruct (IH fuel h2 rs _ A2) as (h' & E & HR').
    + cbn [with_cell gcur]. unfold set1. rewrite Z.eqb_refl. lia.
    + lia.
    + exists h'. split; [exact E|]. eapply RR_ext; [exact HR'| | |];
        cbn [s_clear with_cell rcur gcur scell]; unfold set1.
      * reflexivity.
      * intros j Hj. destruct (j =? k); reflexivity.
      * intros k' i' j Hk' Hi'. rewrite Z.eqb_refl.
        destruct (Z.eqb_spec k' k) as [->|]; cbn [andb]; [|reflexivity].
        destruct (Z.leb_spec (gcur s k) i'), (Z.leb_spec (gcur s k + 1) i'), (Z.eqb_spec i' (gcur s k));
          try lia; reflexivity.
Qed.
Lemma group_clear_sim h rs s k : RR (h, rs) s -> 0 <= k < 8 ->
  exists h', group_clear h (gid k) = (h', Ok tt) /\ RR (h', rs) (s_clear s k).
Proof.
  intros HR Hk. apply (clear_loop_sim k Hk _ _ h rs s HR eq_refl).
  assert (H := HR). destruct H as (_ & _ & _ & H4 & _). destruct (H4 k Hk) as [_ HC].
  change (S (List.length REGISTERS)) with 33%nat. lia.
Qed.

Lemma clear_all_sim : forall n fuel h rs s, RR (h, rs) s ->
  Z.to_nat (8 - rcur s) = n -> (n < fuel)%nat ->
  exists h' rs', registers_clear_loop fuel h rs = (h', rs', Ok tt) /\ RR (h', rs') (s_clear_all s).
Proof.
  induction n as [|n IH]; intros fuel h rs s HR Hn Hf; (destruct fuel as [|fuel]; [lia|]);
    cbn [registers_clear_loop]; assert (H := HR); destruct H as (H1 & H2 & H3 & H4 & H5 & H6);
    assert (N := group_sim h rs s NextGroup HR); cbn [find_group s_group] in N;
    unfold registers_next in *; unfold NUM_GROUPS in *; rewrite H2 in *.
  - destruct (Z.geb_spec (rcur s) 8) as [L|L]; [|lia].
    exists h, rs. split; [reflexivity|]. eapply RR_ext; [exact HR| | |]; cbn [s_clear_all rcur gcur scell].
    + lia.
    + intros k Hk. destruct (Z.leb_spec (rcur s) k); [lia|reflexivity].
    + intros k i j Hk Hi. destruct (Z.leb_spec (rcur s) k); [lia|reflexivity].
  - destruct (Z.geb_spec (rcur s) 8) as [L|L]; [lia|]. destruct (Z.ltb_spec (rcur s) 8); [|lia].
    destruct N as [HR1 [HK EG]]. rewrite EG.
    destruct (group_clear_sim _ _ _ _ HR1 HK) as (h2 & -> & HR2).
    edestruct (IH fuel _ _ _ HR2) as (h' & rs' & E & HR').
    + cbn [s_clear rcur]. lia.
    + lia.
    + exists h', rs'. split; [exact E|]. eapply RR_ext; [exact HR'| | |];
        cbn [s_clear_all s_clear rcur gcur scell]; unfold set1.
      * reflexivity.
      * intros k Hk. destruct (Z.leb_spec (rcur s) k), (Z.leb_spec (rcur s + 1) k), (Z.eqb_spec k (rcur s));
          try lia; reflexivity.
      * intros k i j Hk Hi.
        destruct (Z.leb_spec (rcur s) k), (Z.leb_spec (rcur s + 1) k), (Z.eqb_spec k (rcur s));
          try lia; cbn [andb]; subst; try reflexivity.
Qed.

Lemma regs_call_sim st s c : RR st s -> rcall_fits W c ->
  let '(st', o) := regs_call st c in
  let '(s', o') := s_call W s c in
  obs o = o' /\ RR st' s'.
Proof.
  destruct st as [h rs]. intros HR F. destruct c as [gp rp x|gp| |gp|]; cbn [regs_call s_call].
  - assert (G := group_sim h rs s gp HR). destruct (find_group rs gp) as [rs1 r1].
    destruct (s_group s gp) as [s1 [k|]]; destruct G as [HR1 G]; cbn [ogid] in G.
    + destruct G as [Hk ->]. assert (Q := reg_sim h rs1 s1 k rp HR1 Hk).
      destruct (find_reg h (gid k) rp) as [h2 r2]. destruct (s_reg s1 k rp) as [s2 [i|]];
        destruct Q as [HR2 Q]; cbn [orid] in Q.
      * destruct Q as [Hi ->]. assert (A := on_reg_sim h2 rs1 s2 k i x HR2 Hk Hi F).
        destruct (on_reg h2 (rid k i) (act x)) as [h3 y]. destruct (s_act W (scell s2 k i) x) as [a o].
        exact A.
      * destruct Q as [e ->]. split; [reflexivity|exact HR2].
    + destruct G as [e ->]. split; [reflexivity|exact HR1].
  - assert (G := group_sim h rs s gp HR). destruct (find_group rs gp) as [rs1 r1].
    destruct (s_group s gp) as [s1 [k|]]; destruct G as [HR1 G]; cbn [ogid] in G.
    + destruct G as [Hk ->]. destruct (group_clear_sim h rs1 s1 k HR1 Hk) as (h2 & -> & HR2).
      split; [reflexivity|exact HR2].
    + destruct G as [e ->]. split; [reflexivity|exact HR1].
  - unfold registers_clear. destruct (clear_all_sim _ (S (Z.to_nat NUM_GROUPS)) h rs s HR eq_refl) as (h' & rs' & -> & HR').
    + destruct HR as (_ & _ & H3 & _). change (S (Z.to_nat NUM_GROUPS)) with 9%nat. lia.
    + split; [reflexivity|exact HR'].
  - assert (G := group_sim h rs s gp HR). destruct (find_group rs gp) as [rs1 r1].
    destruct (s_group s gp) as [s1 [k|]]; destruct G as [HR1 G]; cbn [ogid] in G.
    + destruct G as [Hk ->]. split; [|exact HR1]. destruct HR1 as (_ & _ & _ & H4 & _).
      destruct (H4 k Hk) as [E _]. rewrite (deref_some _ _ _ E). cbn [bind obs]. unfold group_len.
      cbn [g_registers]. rewrite gdict_len. reflexivity.
    + destruct G as [e ->]. split; [reflexivity|exact HR1].
  - split; [|exact HR]. destruct HR as (H1 & _). cbn [obs]. unfold registers_len. rewrite H1.
    unfold zlen. rewrite map_length. reflexivity.
Qed.
Lemma regs_trace_sim cs : forall st s, RR st s -> Forall (rcall_fits W) cs ->
  map obs (regs_trace st cs) = s_trace W s cs.
Proof.
  induction cs as [|c cs IH]; intros st s HR F; [reflexivity|].
  inversion F as [|y l F1 F2]; subst. assert (S := regs_call_sim st s c HR F1).
  cbn [regs_trace s_trace]. destruct (regs_call st c) as [st' o], (s_call W s c) as [s' o'].
  destruct S as [E HR']. cbn [map]. f_equal; [exact E|]. apply IH; assumption.
Qed.
Lemma regs_run_sim cs : forall st s, RR st s -> Forall (rcall_fits W) cs ->
  RR (regs_run st cs) (s_run W s cs).
Proof.
  induction cs as [|c cs IH]; intros st s HR F; [exact HR|].
  inversion F as [|y l F1 F2]; subst. assert (S := regs_call_sim st s c HR F1).
  cbn [regs_run s_run fold_left]. destruct (regs_call st c) as [st' o], (s_call W s c) as [s' o'].
  destruct S as [E HR']. apply IH; assumption.
Qed.
End File.

(** *** Construction of the register file *)
Lemma registers_fill_ok W : good_width W -> forall n h d a,
  0 <= a -> Z.to_nat (8 - a) = n ->
  (forall k, In k (dkeys d) -> k < a) ->
  registers_fill h d (py_range a 8) W =
  (mkheap (h_regs h ++ concat (repeat (new_regs W) n))
          (h_groups h ++ map (fun k => mkgroup W (gdict (List.length (h_regs h) + 32 * Z.to_nat (k - a))) 0) (py_range a 8)),
   Ok (d ++ map (fun k => (k, (List.length (h_groups h) + Z.to_nat (k - a))%nat)) (py_range a 8))).
Proof.
  intros HW. induction n as [|n IH]; intros h d a Ha Hn Hd.
  - rewrite py_range_nil by lia. cbn. rewrite !app_nil_r. destruct h; reflexivity.
  - rewrite py_range_cons by lia. cbn [registers_fill]. rewrite group_new_ok by exact HW.
    rewrite IH.
    + cbn [h_regs h_groups repeat concat map]. rewrite <- !app_assoc. cbn [app].
      rewrite !app_length. change (List.length (new_regs W)) with 32%nat. cbn [List.length].
      f_equal; f_equal.
      * f_equal. f_equal.
        -- f_equal. f_equal. lia.
        -- apply map_ext_in. intros k Hk. apply py_range_In in Hk. do 2 f_equal. lia.
      * rewrite dset_fresh by (intros I; apply Hd in I; lia). rewrite <- app_assoc. cbn [app].
        f_equal. f_equal.
        -- f_equal. lia.
        -- apply map_ext_in. intros k Hk. apply py_range_In in Hk. f_equal. lia.
    + lia.
    + lia.
    + intros k I. rewrite dset_fresh in I by (intros J; apply Hd in J; lia).
      unfold dkeys in I. rewrite map_app in I. apply in_app_or in I. destruct I as [I|[<-|[]]].
      * apply Hd in I. lia.
      * cbn. lia.
Qed.

Lemma nth_copies {A} (l : list A) n : forall k i, (k < n)%nat -> (i < List.length l)%nat ->
  nth_error (concat (repeat l n)) (List.length l * k + i) = nth_error l i.
Proof.
  induction n as [|n IH]; intros k i Hk Hi; [lia|]. cbn [repeat concat]. destruct k as [|k].
  - rewrite Nat.mul_0_r. apply nth_error_app1. exact Hi.
  - rewrite nth_error_app2 by lia. rewrite <- (IH k i) by lia. f_equal. lia.
Qed.

Lemma registers_new_ok h W : good_width W ->
  exists h' rs, registers_new h W = (h', Ok rs) /\
    RR W (h_regs h) (List.length (h_groups h)) (h', rs) sregs_new.
Proof.
  intros HW. unfold registers_new, NUM_GROUPS. rewrite (registers_fill_ok W HW 8 h [] 0); [|lia|reflexivity|intros k []].
  do 2 eexists. split; [reflexivity|]. cbn [app].
  split; [|split; [|split; [|split; [|split]]]]; cbn [rs_registers rs_current rcur gcur scell sregs_new h_regs h_groups].
  - unfold gid. apply map_ext. intros k. rewrite Z.sub_0_r. reflexivity.
  - reflexivity.
  - lia.
  - intros k Hk. split; [|lia]. unfold gid. rewrite nth_error_app2 by lia.
    replace (_ + Z.to_nat k - _)%nat with (Z.to_nat k) by lia.
    rewrite nth_error_map. rewrite py_range_nth by lia. cbn [option_map].
    do 3 f_equal. unfold rid. lia.
  - intros k i Hk Hi. 
    destruct (nth_error reg_names (Z.to_nat i)) as [n|] eqn:E.
    2:{ apply nth_error_None in E. change (List.length reg_names) with 32%nat in E. lia. }
    exists (mkreg (rbits W 0) (Some n) W). split.
    + unfold rid. rewrite nth_error_app2 by lia.
      replace (_ + 32 * Z.to_nat k + Z.to_nat i - _)%nat
        with (List.length (new_regs W) * Z.to_nat k + Z.to_nat i)%nat
        by (change (List.length (new_regs W)) with 32%nat; lia).
      rewrite nth_copies.
      * unfold new_regs. rewrite nth_error_map, E. reflexivity.
      * lia.
      * change (List.length (new_regs W)) with 32%nat. lia.
    + split; [reflexivity|]. cbn [r_data].
      assert (H0 : 0 <= 0 < 2 ^ W) by (destruct HW as [->| ->]; (split; [lia|reflexivity])).
      destruct (R_new W 0 HW H0) as (H1 & H2 & H3 & H4 & H5 & H6).
      repeat (split; [assumption|]). intros j Hj. rewrite <- H6 by exact Hj. rewrite Z.testbit_0_l. reflexivity.
  - intros n Hn. apply nth_error_app1. exact Hn.
Qed.
Lemma registers_new_err h W : ~ good_width W -> registers_new h W = (h, Err ValueError).
Proof.
  intros HW. unfold registers_new. rewrite py_range_cons by (unfold NUM_GROUPS; lia).
  cbn [registers_fill]. rewrite group_new_err by exact HW. reflexivity.
Qed.

Lemma C39_independent_cells_pf : forall h W, W = 16 \/ W = 24 ->
  exists h' rs, registers_new h W = (h', Ok rs) /\
  forall cs, Forall (rcall_fits W) cs ->
    map obs (regs_trace (h', rs) cs) = s_trace W sregs_new cs /\
    (forall n, (n < List.length (h_regs h))%nat ->
       deref (h_regs (fst (regs_run (h', rs) cs))) n = deref (h_regs h) n).
Proof.
  intros h W HW. destruct (registers_new_ok h W HW) as (h' & rs & E & HR).
  exists h', rs. split; [exact E|]. intros cs F. split.
  - eapply regs_trace_sim; eassumption.
  - intros n Hn. assert (HR' := regs_run_sim W HW _ _ cs _ _ HR F).
    destruct (regs_run (h', rs) cs) as [h2 rs2]. destruct HR' as (_ & _ & _ & _ & _ & H6).
    cbn [fst]. unfold deref. rewrite H6 by exact Hn. reflexivity.
Qed.
(*@ Example C39_independent_cells_ex : match registers_new heap0 16 with
  | (h, Ok rs) => regs_trace (h, rs) [Reach (AtGroup (KI 3)) (AtReg (KI 5)) (ASetValue 77); Reach (AtGroup (KI 4)) (AtReg (KI 5)) AValue;
                                      Reach (AtGroup (KI 3)) (AtReg (KI 5)) AValue] = [Ok 0; Ok 0; Ok 77]
  | _ => False
  end.
Proof. vm_compute. reflexivity. Qed. @*)
Lemma C39_bad_width_pf : forall h W, ~ (W = 16 \/ W = 24) -> registers_new h W = (h, Err ValueError).
Proof. exact registers_new_err. Qed.
(*@
Example C39_example :
  let at_ k i := Reach (AtGroup (KI k)) (AtReg i) in
  match registers_new heap0 16 with
  | (h, Ok rs) =>
      regs_trace (h, rs)
        [at_ 3 (KI 5) (ASetValue 77); at_ 3 (KS (lit "CSH")) AValue; at_ 2 (KI 5) AValue;
         at_ 3 (KS (lit "CSH")) (ASetItem (Slice (Some 1) (Some 4)) 15);
         at_ 3 (KI 5) AValue; Reach NextGroup NextReg (ASetValue 9); at_ 0 (KS (lit "AU1")) AValue;
         at_ 8 (KI 5) AValue; at_ 1 (KI 0) (ASetValue 65536); ClearAll; at_ 3 (KI 5) AValue; at_ 0 (KI 0) AValue; LenAll]
      = [Ok 0; Ok 77; Ok 0; Ok 0; Ok 61517; Ok 0; Ok 9; Err ValueError; Err ValueError; Ok 0; Ok 0; Ok 9; Ok 8]
  | _ => False
  end.
Proof. vm_compute. reflexivity. Qed.
@*)


Lemma read_cell W st s R0 gb k i : good_width W -> RR W R0 gb st s -> 0 <= k < 8 -> 0 <= i < 32 ->
  snd (regs_call st (Reach (AtGroup (KI k)) (AtReg (KI i)) AValue)) =
  Ok (number (scell s k i) 0 (Z.to_nat W)).
Proof.
  intros HW HR Hk Hi.
  assert (S := regs_call_sim W HW R0 gb st s (Reach (AtGroup (KI k)) (AtReg (KI i)) AValue) HR I).
  destruct (regs_call st _) as [st' o] eqn:E. cbn [s_call s_group s_reg] in S.
  destruct ((0 <=? k) && (k <? 8)) eqn:B1; [|lia].
  destruct ((0 <=? i) && (i <? 32)) eqn:B2; [|lia].
  cbn [s_act] in S. destruct S as [S _]. cbn [snd]. unfold obs in S. destruct o; [|discriminate]. congruence.
Qed.

Lemma number_fill a v : forall n lo, 0 <= v -> 0 <= lo ->
  forall hi, lo + Z.of_nat n <= hi ->
  number (arr_fill a 0 hi v) lo n = (v / 2 ^ lo) mod 2 ^ Z.of_nat n.
Proof.
  induction n as [|n IH]; intros lo Hv Hlo hi Hh.
  - cbn [number]. change (2 ^ Z.of_nat 0) with 1. rewrite Z.mod_1_r. reflexivity.
  - cbn [number]. rewrite (IH (lo + 1)) by lia. unfold arr_fill.
    destruct ((0 <=? lo) && (lo <? 0 + hi)) eqn:B; [|lia]. rewrite Z.sub_0_r.
    rewrite Nat2Z.inj_succ, (Z.pow_add_r 2 lo 1) by lia. rewrite Z.pow_succ_r by lia.
    change (2 ^ 1) with 2.
    assert (P : 0 < 2 ^ lo) by (apply Z.pow_pos_nonneg; lia).
    assert (Q : 0 < 2 ^ Z.of_nat n) by (apply Z.pow_pos_nonneg; lia).
    rewrite <- Z.div_div by lia. set (x := v / 2 ^ lo).
    rewrite (Z.rem_mul_r x 2 (2 ^ Z.of_nat n)) by lia.
    rewrite <- (Z.bit0_mod x), Z.bit0_odd. destruct (Z.odd x); cbn [Z.b2z]; lia.
Qed.

(** ** C41 *)
Lemma C41_any_int_accepted_refuted_pf : forall h W h' rs i g, registers_new h W = (h', Ok rs) ->
  ~ (0 <= i < 8) ->
  let '(rs', x) := registers_setitem rs (KI i) g in
  x = Ok tt /\ registers_len rs' = 9 /\ registers_getitem rs' (KI i) = Err ValueError.
Proof.
  intros h W h' rs i g E Hi.
  assert (HW : good_width W).
  { destruct (Z.eq_dec W 16); [left; assumption|]. destruct (Z.eq_dec W 24); [right; assumption|].
    rewrite registers_new_err in E by (unfold good_width; lia). discriminate. }
  destruct (registers_new_ok h W HW) as (h1 & rs1 & E1 & HR). rewrite E in E1. injection E1 as <- <-.
  destruct HR as (H1 & _). cbn [registers_setitem].
  split; [reflexivity|]. split.
  - unfold registers_len. cbn [rs_registers]. rewrite dset_len.
    assert (M : dmem (rs_registers rs) i = false).
    { unfold dmem. rewrite H1, rs_dget. destruct ((0 <=? i) && (i <? 8)) eqn:B; [lia|reflexivity]. }
    rewrite M, H1. unfold zlen. rewrite map_length.
    assert (L := py_range_length 0 8). unfold zlen in L. rewrite L. reflexivity.
  - cbn [registers_getitem]. unfold NUM_GROUPS. destruct ((i <? 0) || (i >=? 8)) eqn:B; [reflexivity|lia].
Qed.
(*@ Example C41_any_int_accepted_refuted_ex : match registers_new heap0 24 with
  | (h, Ok rs) => let '(rs', x) := registers_setitem rs (KI 8) 0%nat in
                  x = Ok tt /\ registers_len rs' = 9 /\ registers_getitem rs' (KI 8) = Err ValueError
  | _ => False
  end.
Proof. vm_compute. auto. Qed. @*)
Lemma C41_valid_keys_partial_pf : forall h W h' rs g, registers_new h W = (h', Ok rs) ->
  (forall s, registers_setitem rs (KS s) g = (rs, Err ValueError)) /\
  registers_setitem rs KSlice g = (rs, Err ValueError) /\
  forall i, 0 <= i < 8 ->
  let '(rs', x) := registers_setitem rs (KI i) g in
  x = Ok tt /\ registers_len rs' = 8 /\ registers_getitem rs' (KI i) = Ok g /\
  forall j, j <> i -> registers_getitem rs' (KI j) = registers_getitem rs (KI j).
Proof.
  intros h W h' rs g E.
  assert (HW : good_width W).
  { destruct (Z.eq_dec W 16); [left; assumption|]. destruct (Z.eq_dec W 24); [right; assumption|].
    rewrite registers_new_err in E by (unfold good_width; lia). discriminate. }
  destruct (registers_new_ok h W HW) as (h1 & rs1 & E1 & HR). rewrite E in E1. injection E1 as <- <-.
  destruct HR as (H1 & _).
  split; [reflexivity|]. split; [reflexivity|]. intros i Hi. cbn [registers_setitem].
  split; [reflexivity|]. split; [|split].
  - unfold registers_len. cbn [rs_registers]. rewrite dset_len.
    assert (M : dmem (rs_registers rs) i = true).
    { unfold dmem. rewrite H1, rs_dget. destruct ((0 <=? i) && (i <? 8)) eqn:B; [reflexivity|lia]. }
    rewrite M, H1. unfold zlen. rewrite map_length. apply (py_range_length 0 8).
  - cbn [registers_getitem]. unfold NUM_GROUPS. destruct ((i <? 0) || (i >=? 8)) eqn:B; [lia|].
    unfold dindex. cbn [rs_registers]. rewrite dget_dset_eq. reflexivity.
  - intros j N. cbn [registers_getitem]. unfold dindex. cbn [rs_registers].
    rewrite dget_dset_ne by exact N. reflexivity.
Qed.
(*@
Example C41_refuted_witness :
  match registers_new heap0 24 with
  | (h, Ok rs) => let '(rs', x) := registers_setitem rs (KI (-5)) 0%nat in (x, registers_len rs') = (Ok tt, 9)
  | _ => False
  end.
Proof. vm_compute. reflexivity. Qed.
@*)
