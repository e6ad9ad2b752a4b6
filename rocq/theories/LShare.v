(** Groups assigned to places of a register file (C193). *)
From Verif Require Import Py MBitField SBits LPy LBits LBitField MRegisters SRegisters LRegisters LRegHeap MProto SProto LProto MShare SShare.
From Coq Require Import ZifyBool.
#[local] Arguments Z.add : simpl never.
#[local] Arguments Z.sub : simpl never.
#[local] Arguments Z.mul : simpl never.
#[local] Arguments Z.pow : simpl never.
Opaque py_range.

(** ** Dictionaries in two parts *)
Lemma dget_two {K V} `{EqB K} (d d' : dict K V) x : dget (d ++ d') x = match dget d x with Some v => Some v | None => dget d' x end.
Proof. induction d as [|[y v] d IH]; [reflexivity|]. cbn [app dget]. destruct (eqb y x); [reflexivity|exact IH]. Qed.
Lemma dset_two_r {K V} `{EqB K} (d d' : dict K V) k v : dget d k = None -> dset (d ++ d') k v = d ++ dset d' k v.
Proof.
  induction d as [|[x w] d IH]; intros N; [reflexivity|]. cbn [dget app dset] in *.
  destruct (eqb x k); [discriminate|]. rewrite IH by exact N. reflexivity.
Qed.
Lemma dset_two_l {K V} `{EqB K} (d d' : dict K V) k v w : dget d k = Some w -> dset (d ++ d') k v = dset d k v ++ d'.
Proof.
  induction d as [|[x u] d IH]; intros N; [discriminate|]. cbn [dget app dset] in *.
  destruct (eqb x k); [reflexivity|]. rewrite IH by exact N. reflexivity.
Qed.
Lemma dget_map {A V} (f : A -> V) (g : A -> Z) (l : list A) k : ~ In k (map g l) -> dget (map (fun x => (g x, f x)) l) k = None.
Proof. intros N. apply dget_None. unfold dkeys. rewrite map_map. exact N. Qed.
Lemma dset_values {V V'} (F : V -> V') (d : dict Z V) k v :
  dset (map (fun e => (fst e, F (snd e))) d) k (F v) = map (fun e => (fst e, F (snd e))) (dset d k v).
Proof.
  induction d as [|[x w] d IH]; [reflexivity|]. cbn [map dset fst snd]. destruct (eqb x k); [reflexivity|].
  cbn [map fst snd]. rewrite IH. reflexivity.
Qed.
Lemma dset_line {V} (F : Z -> V) k v : forall l, NoDup l -> In k l ->
  dset (map (fun x => (x, F x)) l) k v = map (fun x => (x, set1 F k v x)) l.
Proof.
  induction l as [|x l IH]; intros ND I; [destruct I|]. inversion ND as [|? ? NI ND']; subst. cbn [map dset]. unfold set1 at 1.
  change (eqb x k) with (x =? k). destruct (Z.eqb_spec x k) as [->|N].
  - f_equal. apply map_ext_in. intros y Hy. unfold set1. destruct (Z.eqb_spec y k); [congruence|reflexivity].
  - f_equal. apply IH; [exact ND'|]. destruct I; [congruence|assumption].
Qed.

Lemma upd_length {A} (l : list A) : forall n x, List.length (upd l n x) = List.length l.
Proof. induction l as [|y l IH]; intros [|n] x; cbn; try reflexivity. f_equal. apply IH. Qed.
Lemma upd_same {A} (l : list A) : forall n x, nth_error l n = Some x -> upd l n x = l.
Proof. induction l as [|y l IH]; intros [|n] x E; cbn in *; try reflexivity; [congruence|]. f_equal. apply IH, E. Qed.
(** ** The simulation *)
Definition newreg (W i : Z) : register := mkreg (rbits W 0) (nth_error reg_names (Z.to_nat i)) W.
Definition cur (g : gstore) (n i : Z) : register := reg_run (newreg (wide g n) i) (life g n i).
Section Share.
Context (R0 : list register) (gb : nat).
Notation rid := (rid R0).
Notation gid := (gid gb).
Definition tagged (e : str * (Z * Z)) : dkey * nat := (DS (fst e), rid (fst (snd e)) (snd (snd e))).
Definition GR (h : heap) (g : gstore) : Prop :=
  0 <= made g /\
  List.length (h_groups h) = (gb + Z.to_nat (made g))%nat /\
  List.length (h_regs h) = (List.length R0 + 32 * Z.to_nat (made g))%nat /\
  (forall n, 0 <= n < made g ->
     nth_error (h_groups h) (gid n) = Some (mkgroup (wide g n) (gdict (rid n 0) ++ map tagged (tags g n)) (passed g n)) /\
     0 <= passed g n <= 32 /\ good_width (wide g n) /\
     Forall (fun e => 0 <= fst (snd e) < made g /\ 0 <= snd (snd e) < 32) (tags g n)) /\
  (forall n i, 0 <= n < made g -> 0 <= i < 32 -> nth_error (h_regs h) (rid n i) = Some (cur g n i)) /\
  (forall n, made g <= n -> passed g n = 0 /\ tags g n = [] /\ forall i, 0 <= i < 32 -> life g n i = []) /\
  (forall n, (n < List.length R0)%nat -> nth_error (h_regs h) n = nth_error R0 n).
Definition FR (rs : registers) (f : shelf) (m : Z) : Prop :=
  rs_registers rs = map (fun k => (k, gid (holds f k))) (py_range 0 8) ++ map (fun e => (fst e, gid (snd e))) (beside f) /\
  rs_current rs = turned f /\ 0 <= turned f <= 8 /\
  (forall k, 0 <= k < 8 -> 0 <= holds f k < m) /\ Forall (fun e => 0 <= snd e < m) (beside f).

Lemma GR_ext h g g' : GR h g -> made g' = made g -> (forall n, wide g' n = wide g n) -> (forall n, passed g' n = passed g n) ->
  (forall n, tags g' n = tags g n) -> (forall n i, 0 <= i < 32 -> life g' n i = life g n i) -> GR h g'.
Proof.
  intros (H1 & H2 & H3 & H4 & H5 & H6 & H7) E1 E2 E3 E4 E5.
  split; [|split; [|split; [|split; [|split; [|split]]]]]; rewrite ?E1; try assumption.
  - intros n Hn. rewrite E2, E3, E4. apply H4; exact Hn.
  - intros n i Hn Hi. unfold cur. rewrite E2, E5 by exact Hi. apply H5; assumption.
  - intros n Hn. rewrite E3, E4. destruct (H6 n Hn) as (A & B & C). split; [exact A|]. split; [exact B|].
    intros i Hi. rewrite E5 by exact Hi. apply C, Hi.
Qed.
Lemma rid_one n i m j : 0 <= n -> 0 <= i < 32 -> 0 <= m -> 0 <= j < 32 -> rid n i = rid m j -> n = m /\ i = j.
Proof. unfold LRegHeap.rid. lia. Qed.
Lemma newreg_geom W i : good_width W -> geom W (newreg W i).
Proof. intros HW. split; [reflexivity|]. exists 0. reflexivity. Qed.
Lemma cur_geom g n i : good_width (wide g n) -> geom (wide g n) (cur g n i).
Proof. intros HW. apply (run_geom (wide g n)); [exact HW|]. apply newreg_geom, HW. Qed.
Lemma newreg_made W i : good_width W -> 0 <= i < 32 -> register_new 0 (nth_error reg_names (Z.to_nat i)) W = Ok (newreg W i).
Proof.
  intros HW Hi. unfold newreg. destruct (nth_error reg_names (Z.to_nat i)) as [s|] eqn:N.
  2:{ apply nth_error_None in N. change (List.length reg_names) with 32%nat in N. lia. }
  apply register_new_ok; [exact HW|destruct HW as [->| ->]; (split; [lia|reflexivity])|].
  apply good_name_reg. apply nth_error_In in N. exact N.
Qed.
Lemma answer_cur g n i a : good_width (wide g n) -> 0 <= i < 32 ->
  answer_of (wide g n) i (life g n i) a = snd (act a (cur g n i)).
Proof. intros HW Hi. unfold answer_of. rewrite newreg_made by assumption. reflexivity. Qed.

Lemma holds_get f k : dget (map (fun k => (k, gid (holds f k))) (py_range 0 8)) k = if (0 <=? k) && (k <? 8) then Some (gid (holds f k)) else None.
Proof.
  destruct ((0 <=? k) && (k <? 8)) eqn:E.
  - apply In_dget.
    + unfold dkeys. rewrite map_map. cbn [fst]. rewrite map_id. apply py_range_NoDup.
    + apply in_map_iff. exists k. split; [reflexivity|]. apply py_range_In. lia.
  - apply dget_None. unfold dkeys. rewrite map_map. cbn [fst]. rewrite map_id. intros I. apply py_range_In in I. lia.
Qed.
Lemma pick_group_ok rs f m p : FR rs f m ->
  let '(rs', r) := find_group rs p in let '(f', o) := pick_group f p in
  FR rs' f' m /\ match o with Ok n => 0 <= n < m /\ r = Ok (gid n) | Err e => r = Err e end.
Proof.
  intros HR. assert (H := HR). destruct H as (H1 & H2 & H3 & H4 & H5).
  destruct p as [[k|n|]|]; cbn [find_group pick_group registers_getitem].
  - split; [exact HR|]. unfold dindex, NUM_GROUPS. rewrite H1, dget_two, holds_get.
    destruct ((0 <=? k) && (k <? 8)) eqn:E; destruct ((k <? 0) || (k >=? 8)) eqn:F; try lia; [|reflexivity].
    split; [apply H4; lia|reflexivity].
  - auto.
  - auto.
  - unfold registers_next, NUM_GROUPS. rewrite H2.
    destruct (Z.geb_spec (turned f) 8), (Z.ltb_spec (turned f) 8); try lia; [auto|].
    split.
    + split; [exact H1|]. cbn [rs_current turned holds beside]. split; [reflexivity|]. split; [lia|]. split; assumption.
    + unfold dindex. rewrite H1, dget_two, holds_get. destruct ((0 <=? turned f) && (turned f <? 8)) eqn:E; [|lia].
      split; [apply H4; lia|reflexivity].
Qed.
Lemma put_group_ok rs f m k n : FR rs f m -> 0 <= n < m ->
  let '(rs', r) := registers_setitem rs k (gid n) in let '(f', o) := put_group f k n in
  FR rs' f' m /\ (do _ <- r; Ok 0) = o.
Proof.
  intros HR Hn. assert (H := HR). destruct H as (H1 & H2 & H3 & H4 & H5).
  destruct k as [k|s|]; cbn [registers_setitem put_group]; [|auto|auto]. split; [|reflexivity].
  destruct ((0 <=? k) && (k <? 8)) eqn:E.
  - split; [|split; [exact H2|split; [exact H3|split; [|exact H5]]]]; cbn [rs_registers holds beside].
    + rewrite H1. erewrite dset_two_l by (rewrite holds_get, E; reflexivity). f_equal.
      rewrite (dset_line (fun k => gid (holds f k))); [|apply py_range_NoDup|apply py_range_In; lia].
      apply map_ext. intros x. unfold set1. destruct (x =? k); reflexivity.
    + intros j Hj. unfold set1. destruct (j =? k); [exact Hn|apply H4, Hj].
  - split; [|split; [exact H2|split; [exact H3|split; [exact H4|]]]]; cbn [rs_registers holds beside].
    + rewrite H1. rewrite dset_two_r by (rewrite holds_get, E; reflexivity). f_equal. apply (dset_values gid).
    + rewrite Forall_forall in *. intros [x y] I. cbn [snd].
      assert (D : forall d : dict Z Z, In (x, y) (dset d k n) -> y = n \/ In (x, y) d).
      { clear. induction d as [|[a b] d IH]; cbn [dset]; [intros [[= _ <-]|[]]; auto|].
        destruct (eqb a k); intros [E|I]; [injection E as _ <-; auto|right; right; exact I|right; left; exact E|].
        destruct (IH I); [auto|right; right; assumption]. }
      destruct (D _ I) as [->|I']; [exact Hn|]. apply (H5 _ I').
Qed.

Lemma tagged_get t i : dget (map tagged t) (DI i) = None.
Proof. induction t as [|[s x] t IH]; [reflexivity|]. cbn [map dget tagged fst snd]. exact IH. Qed.
Lemma group_find W n t c k : group_getitem (mkgroup W (gdict (rid n 0) ++ map tagged t) c) k = group_getitem (mkgroup W (gdict (rid n 0)) c) k.
Proof.
  destruct k as [i|s|]; cbn [group_getitem g_registers]; [| |reflexivity].
  - unfold dindex. rewrite dget_two, tagged_get. destruct (dget _ (DI i)); reflexivity.
  - destruct (negb (dmem REGISTERS s)); [reflexivity|]. destruct (dindex REGISTERS s) as [i|e]; cbn [bind]; [|reflexivity].
    unfold dindex. rewrite dget_two, tagged_get. destruct (dget _ (DI i)); reflexivity.
Qed.
Lemma next_ok h g n : GR h g -> 0 <= n < made g ->
  let '(h', r) := heap_group_next h (gid n) in let '(g', o) := pick_reg g n NextReg in
  GR h' g' /\ match o with Ok i => i = passed g n /\ 0 <= i < 32 /\ r = Ok (rid n i) | Err e => r = Err e end.
Proof.
  intros HR Hn. assert (H := HR). destruct H as (H1 & H2 & H3 & H4 & H5 & H6 & H7).
  destruct (H4 n Hn) as (G & HC & HW & HT). unfold heap_group_next. rewrite (deref_some _ _ _ G).
  unfold group_next. cbn [g_current g_width g_registers pick_reg]. rewrite REGISTERS_len.
  destruct (Z.geb_spec (passed g n) 32) as [L|L]; destruct (Z.ltb_spec (passed g n) 32); try lia.
  - split; [|reflexivity]. rewrite upd_same by exact G. destruct h. exact HR.
  - split.
    + split; [exact H1|]. cbn [made pass]. split; [|split; [exact H3|split; [|split; [exact H5|split; [|exact H7]]]]].
      * cbn [with_groups h_groups]. rewrite upd_length. exact H2.
      * intros j Hj. cbn [with_groups h_groups wide passed tags pass]. unfold set1. destruct (Z.eqb_spec j n) as [->|N].
        -- erewrite nth_upd_eq by exact G. split; [reflexivity|]. split; [lia|]. split; assumption.
        -- rewrite nth_upd_ne by (unfold LRegHeap.gid; lia). apply H4; exact Hj.
      * intros j Hj. cbn [passed tags life pass made] in *. unfold set1. destruct (Z.eqb_spec j n); [lia|]. apply H6, Hj.
    + split; [reflexivity|]. split; [lia|]. unfold dindex. rewrite dget_two, gdict_get.
      destruct ((0 <=? passed g n) && (passed g n <? 32)) eqn:E; [|lia]. f_equal. unfold LRegHeap.rid. lia.
Qed.
Lemma pick_reg_ok h g n p : GR h g -> 0 <= n < made g ->
  let '(h', r) := find_reg h (gid n) p in let '(g', o) := pick_reg g n p in
  GR h' g' /\ made g' = made g /\ wide g' = wide g /\ life g' = life g /\
  match o with Ok i => 0 <= i < 32 /\ r = Ok (rid n i) | Err e => r = Err e end.
Proof.
  intros HR Hn. assert (H := HR). destruct H as (H1 & H2 & H3 & H4 & H5 & H6 & H7).
  destruct (H4 n Hn) as (G & HC & HW & HT).
  assert (RI : forall i, (rid n 0 + Z.to_nat i)%nat = rid n i) by (intros; unfold LRegHeap.rid; lia).
  destruct p as [k|]; cbn [find_reg].
  - rewrite (deref_some _ _ _ G). cbn [bind]. rewrite group_find, group_getitem_new.
    destruct k as [i|s|]; cbn [pick_reg]; (split; [exact HR|]); (split; [reflexivity|]); (split; [reflexivity|]); (split; [reflexivity|]).
    + destruct ((0 <=? i) && (i <? 32)) eqn:E; [|reflexivity]. rewrite RI. split; [lia|reflexivity].
    + destruct (position s reg_names) as [i|] eqn:E; [|reflexivity]. apply position_nth in E. rewrite reg_names_len in E.
      rewrite RI. split; [lia|reflexivity].
    + reflexivity.
  - assert (N := next_ok h g n HR Hn). destruct (heap_group_next h (gid n)) as [h' r].
    destruct (pick_reg g n NextReg) as [g' o] eqn:P. destruct N as [N1 N2]. split; [exact N1|].
    cbn [pick_reg] in P. assert (Q : made g' = made g /\ wide g' = wide g /\ life g' = life g).
    { destruct (passed g n <? 32); injection P as <- _; auto. }
    destruct Q as (Q1 & Q2 & Q3). repeat (split; [assumption|]). destruct o as [i|e]; [|exact N2]. destruct N2 as (_ & A & B). auto.
Qed.
Lemma act_ok h g n i a : GR h g -> 0 <= n < made g -> 0 <= i < 32 ->
  let '(h', r) := on_reg h (rid n i) (act a) in
  r = snd (act a (cur g n i)) /\ GR h' (done_to g n i a).
Proof.
  intros HR Hn Hi. assert (H := HR). destruct H as (H1 & H2 & H3 & H4 & H5 & H6 & H7).
  assert (Er := H5 n i Hn Hi). unfold on_reg. rewrite (deref_some _ _ _ Er).
  destruct (act a (cur g n i)) as [r' y] eqn:EA. cbn [fst snd].
  split; [reflexivity|]. split; [exact H1|]. cbn [made done_to]. split; [exact H2|].
  split; [cbn [with_regs h_regs]; rewrite upd_length; exact H3|]. split; [exact H4|]. cbn [with_regs h_regs].
  split; [|split].
  - intros m j Hm Hj. unfold cur. cbn [wide life done_to]. unfold set1. destruct (Z.eqb_spec m n) as [->|N]; [destruct (Z.eqb_spec j i) as [->|N]|].
    + erewrite nth_upd_eq by exact Er. f_equal. unfold reg_run. rewrite fold_left_app. cbn [fold_left].
      fold (reg_run (newreg (wide g n) i) (life g n i)). fold (cur g n i). rewrite EA. reflexivity.
    + rewrite nth_upd_ne; [apply H5; assumption|]. intros E. apply rid_one in E; lia.
    + rewrite nth_upd_ne; [apply H5; assumption|]. intros E. apply rid_one in E; lia.
  - intros m Hm. cbn [passed tags life done_to]. unfold set1. destruct (Z.eqb_spec m n); [lia|]. apply H6, Hm.
  - intros m Hm. rewrite nth_upd_ne by (unfold LRegHeap.rid; lia). apply H7, Hm.
Qed.
Lemma on_clear h r : on_reg h r (act AClear) = let '(h2, x) := on_reg h r reg_clear in (h2, do _ <- x; Ok 0).
Proof. unfold on_reg. destruct (deref (h_regs h) r); [|reflexivity]. cbn [act]. unfold unit_z. destruct (reg_clear a). reflexivity. Qed.
Lemma clear_loop_ok n : forall c fuel h g, GR h g -> 0 <= n < made g ->
  Z.to_nat (32 - passed g n) = c -> (c < fuel)%nat ->
  exists h', group_clear_loop fuel h (gid n) = (h', Ok tt) /\ GR h' (cleared g (Z.eqb n)).
Proof.
  induction c as [|c IH]; intros fuel h g HR Hn Hc Hf; (destruct fuel as [|fuel]; [lia|]); cbn [group_clear_loop];
    assert (N := next_ok h g n HR Hn); assert (H := HR); destruct H as (_ & _ & _ & H4 & _); destruct (H4 n Hn) as (_ & HC & _);
    destruct (heap_group_next h (gid n)) as [h1 r]; cbn [pick_reg] in N; destruct (Z.ltb_spec (passed g n) 32); try lia.
  - destruct N as [N ->]. exists h1. split; [reflexivity|]. eapply GR_ext; [exact N| | | | |]; intros; cbn [made wide passed tags life cleared]; try reflexivity.
    + destruct (Z.eqb_spec n n0) as [<-|]; [lia|reflexivity].
    + destruct (Z.eqb_spec n n0) as [<-|]; [|reflexivity]. destruct (Z.leb_spec (passed g n) i); [lia|reflexivity].
  - destruct N as (HR1 & _ & Hi & ->).
    assert (A := act_ok h1 _ n (passed g n) AClear HR1 Hn Hi). rewrite on_clear in A.
    destruct (on_reg h1 (rid n (passed g n)) reg_clear) as [h2 x]. destruct A as [A1 A2].
    assert (CO : forall r, snd (act AClear r) = Ok 0) by reflexivity. rewrite CO in A1.
    destruct x as [[]|e]; [|discriminate].
    destruct (IH fuel h2 _ A2) as (h' & E & HR').
    + exact Hn.
    + cbn [passed done_to pass]. unfold set1. rewrite Z.eqb_refl. lia.
    + lia.
    + exists h'. split; [exact E|]. eapply GR_ext; [exact HR'| | | | |]; intros; cbn [made wide passed tags life cleared done_to pass]; unfold set1; try reflexivity.
      * rewrite (Z.eqb_sym n0 n). destruct (n =? n0); reflexivity.
      * rewrite (Z.eqb_sym n0 n). destruct (Z.eqb_spec n n0) as [<-|]; [|reflexivity]. cbn [andb].
        destruct (Z.eqb_spec i (passed g n)) as [->|N].
        -- destruct (Z.leb_spec (passed g n) (passed g n)); [|lia]. destruct (Z.leb_spec (passed g n + 1) (passed g n)); [lia|reflexivity].
        -- destruct (Z.leb_spec (passed g n) i), (Z.leb_spec (passed g n + 1) i); try lia; reflexivity.
Qed.
Lemma clear_group_ok h g n : GR h g -> 0 <= n < made g ->
  exists h', group_clear h (gid n) = (h', Ok tt) /\ GR h' (cleared g (Z.eqb n)).
Proof.
  intros HR Hn. eapply clear_loop_ok; [exact HR|exact Hn|reflexivity|].
  destruct HR as (_ & _ & _ & H4 & _). destruct (H4 n Hn) as (_ & HC & _). change (S (List.length REGISTERS)) with 33%nat. lia.
Qed.
Definition due_now (f : shelf) (n : Z) : bool := existsb (fun k => (turned f <=? k) && (holds f k =? n)) [0; 1; 2; 3; 4; 5; 6; 7].
Lemma clear_all_ok : forall c fuel h rs f g, GR h g -> FR rs f (made g) ->
  Z.to_nat (8 - turned f) = c -> (c < fuel)%nat ->
  exists h' rs', registers_clear_loop fuel h rs = (h', rs', Ok tt) /\
    GR h' (cleared g (due_now f)) /\ FR rs' (mkshelf (holds f) (beside f) 8) (made g).
Proof.
  induction c as [|c IH]; intros fuel h rs f g HG HF Hc Hf; (destruct fuel as [|fuel]; [lia|]); cbn [registers_clear_loop];
    assert (N := pick_group_ok rs f (made g) NextGroup HF); assert (H := HF); destruct H as (H1 & H2 & H3 & H4 & H5);
    cbn [find_group pick_group] in N; destruct (registers_next rs) as [rs1 r]; destruct (Z.ltb_spec (turned f) 8); try lia.
  - destruct N as [N ->]. exists h, rs1. split; [reflexivity|]. split.
    + eapply GR_ext; [exact HG| | | | |]; intros; cbn [made wide passed tags life cleared]; try reflexivity;
        (replace (due_now f n) with false; [reflexivity|]); symmetry; unfold due_now; cbn [existsb];
        repeat (match goal with |- context [turned f <=? ?k] => destruct (Z.leb_spec (turned f) k); [lia|] end); reflexivity.
    + destruct N as (N1 & N2 & N3 & N4 & N5). split; [exact N1|]. split; [cbn [turned]; lia|]. split; [cbn [turned]; lia|]. split; assumption.
  - destruct N as (HF1 & Hn & ->). destruct (clear_group_ok h g _ HG Hn) as (h1 & -> & HG1).
    destruct (IH fuel h1 rs1 _ _ HG1 HF1) as (h' & rs' & E & HG2 & HF2).
    + cbn [turned]. lia.
    + lia.
    + exists h', rs'. split; [exact E|]. split; [|exact HF2].
      assert (D : forall n, due_now f n = (holds f (turned f) =? n) || due_now (mkshelf (holds f) (beside f) (turned f + 1)) n).
      { intros n. unfold due_now. cbn [turned holds].
        assert (T : turned f = 0 \/ turned f = 1 \/ turned f = 2 \/ turned f = 3 \/ turned f = 4 \/ turned f = 5 \/ turned f = 6 \/ turned f = 7) by lia.
        repeat destruct T as [T|T]; rewrite !T; reflexivity. }
      eapply GR_ext; [exact HG2| | | | |]; intros; cbn [made wide passed tags life cleared]; try reflexivity; rewrite D.
      * destruct (_ =? n), (due_now _ n); reflexivity.
      * destruct (Z.eqb_spec (holds f (turned f)) n) as [E1|E1]; cbn [orb andb].
        -- destruct (due_now _ n) eqn:E2; cbn [andb]; [|reflexivity]. destruct (Z.leb_spec 32 i); [lia|reflexivity].
        -- reflexivity.
Qed.

Lemma FR_more rs f m m' : m <= m' -> FR rs f m -> FR rs f m'.
Proof.
  intros L (H1 & H2 & H3 & H4 & H5). split; [exact H1|]. split; [exact H2|]. split; [exact H3|]. split.
  - intros k Hk. specialize (H4 k Hk). lia.
  - eapply Forall_impl; [|exact H5]. intros e He. cbv beta in *. lia.
Qed.
Lemma make_ok h g W : good_width W -> GR h g ->
  exists h', group_new h W = (h', Ok (gid (made g))) /\ GR h' (make_group g W).
Proof.
  intros HW (H1 & H2 & H3 & H4 & H5 & H6 & H7). rewrite group_new_ok by exact HW. eexists. split.
  - f_equal. f_equal. rewrite H2. reflexivity.
  - assert (LN : List.length (new_regs W) = 32%nat) by reflexivity.
    split; [cbn [made make_group]; lia|]. cbn [h_groups h_regs made make_group].
    split; [rewrite app_length, H2; cbn [List.length]; lia|].
    split; [rewrite app_length, H3, LN; lia|]. split; [|split; [|split]].
    + intros n Hn. cbn [wide passed tags make_group]. unfold set1. destruct (Z.eqb_spec n (made g)) as [->|N].
      * destruct (H6 (made g) ltac:(lia)) as (A & B & C). rewrite A, B. split; [|split; [lia|split; [exact HW|constructor]]].
        rewrite nth_error_app2 by (unfold LRegHeap.gid; lia). replace (gid (made g) - _)%nat with 0%nat by (unfold LRegHeap.gid; lia).
        cbn [nth_error map]. rewrite app_nil_r. do 3 f_equal. unfold LRegHeap.rid. lia.
      * destruct (H4 n ltac:(lia)) as (A & B & C & D). split; [|split; [exact B|split; [exact C|]]].
        -- rewrite nth_error_app1; [exact A|]. unfold LRegHeap.gid. lia.
        -- eapply Forall_impl; [|exact D]. intros e He. cbv beta in *. lia.
    + intros n i Hn Hi. unfold cur. cbn [wide life make_group]. unfold set1. destruct (Z.eqb_spec n (made g)) as [->|N].
      * destruct (H6 (made g) ltac:(lia)) as (A & B & C). rewrite C by exact Hi. cbn [reg_run fold_left].
        rewrite nth_error_app2 by (unfold LRegHeap.rid; lia). replace (rid (made g) i - _)%nat with (Z.to_nat i) by (unfold LRegHeap.rid; lia).
        unfold new_regs. rewrite nth_error_map. unfold newreg. destruct (nth_error reg_names (Z.to_nat i)) as [s|] eqn:E; [reflexivity|].
        apply nth_error_None in E. change (List.length reg_names) with 32%nat in E. lia.
      * rewrite nth_error_app1; [apply H5; lia|]. unfold LRegHeap.rid. lia.
    + intros n Hn. cbn [passed tags life make_group made] in *. apply H6. lia.
    + intros n Hn. rewrite nth_error_app1; [apply H7, Hn|]. lia.
Qed.
Lemma tag_set t s n i : dset (map tagged t) (DS s) (rid n i) = map tagged (dset t s (n, i)).
Proof.
  induction t as [|[x y] t IH]; [reflexivity|]. cbn [map dset tagged fst snd].
  change (eqb (DS x) (DS s)) with (eqb x s). destruct (eqb x s); [reflexivity|]. cbn [map tagged fst snd]. f_equal. exact IH.
Qed.
Lemma put_reg_ok h g n k m i : GR h g -> 0 <= n < made g -> 0 <= m < made g -> 0 <= i < 32 ->
  let '(h', r) := heap_group_set h (gid n) k (rid m i) in let '(g', o) := put_reg g n k m i in
  GR h' g' /\ made g' = made g /\ (do _ <- r; Ok 0) = o.
Proof.
  intros HR Hn Hm Hi. assert (H := HR). destruct H as (H1 & H2 & H3 & H4 & H5 & H6 & H7).
  destruct (H4 n Hn) as (G & HC & HW & HT). unfold heap_group_set. rewrite (deref_some _ _ _ G).
  destruct k as [j|s|]; cbn [group_setitem put_reg].
  - rewrite upd_same by exact G. destruct h. auto.
  - split; [|auto]. cbn [g_width g_registers g_current].
    split; [exact H1|]. cbn [made]. split; [cbn [with_groups h_groups]; rewrite upd_length; exact H2|].
    split; [exact H3|]. split; [|split; [exact H5|split; [|exact H7]]].
    + intros j Hj. cbn [with_groups h_groups wide passed tags]. unfold set1. destruct (Z.eqb_spec j n) as [->|N].
      * erewrite nth_upd_eq by exact G. split; [|split; [exact HC|split; [exact HW|]]].
        -- do 2 f_equal. rewrite dset_two_r; [f_equal; apply tag_set|]. apply dget_None. unfold gdict, dkeys. rewrite map_map. cbn [fst].
           intros I. apply in_map_iff in I. destruct I as (x & E & _). discriminate.
        -- rewrite Forall_forall in *. intros e I.
           assert (D : forall t : dict str (Z * Z), In e (dset t s (m, i)) -> snd e = (m, i) \/ In e t).
           { clear. induction t as [|[a b] t IH]; cbn [dset]; [intros [<-|[]]; auto|].
             destruct (eqb a s); intros [<-|I]; [auto|right; right; exact I|right; left; reflexivity|].
             destruct (IH I); [auto|right; right; assumption]. }
           destruct (D _ I) as [->|I']; [cbn [fst snd]; lia|]. apply (HT _ I').
      * rewrite nth_upd_ne by (unfold LRegHeap.gid; lia). apply H4; exact Hj.
    + intros j Hj. cbn [passed tags life]. unfold set1. destruct (Z.eqb_spec j n); [cbn [made] in Hj; lia|]. apply H6, Hj.
  - rewrite upd_same by exact G. destruct h. auto.
Qed.

Definition SR (st : rstate) (s : store) : Prop := GR (fst st) (snd s) /\ FR (snd st) (fst s) (made (snd s)).
Lemma plain_ok st s c : SR st s ->
  let '(st', r) := regs_call st c in let '(s', o) := store_call s (Plain c) in r = o /\ SR st' s'.
Proof.
  destruct st as [h rs], s as [f g]. intros [HG HF]. cbn [fst snd] in HG, HF.
  assert (PG := fun p => pick_group_ok rs f (made g) p HF).
  destruct c as [gp rp a|gp| |gp|]; cbn [regs_call store_call].
  - specialize (PG gp). destruct (find_group rs gp) as [rs1 r1]. destruct (pick_group f gp) as [f1 [n|e]]; destruct PG as [HF1 PG].
    2:{ subst r1. split; [reflexivity|split; assumption]. }
    destruct PG as [Hn ->]. assert (PR := pick_reg_ok h g n rp HG Hn). destruct (find_reg h (gid n) rp) as [h1 r2].
    destruct (pick_reg g n rp) as [g1 [i|e]]; destruct PR as (HG1 & M1 & W1 & L1 & PR).
    2:{ subst r2. split; [reflexivity|]. split; [exact HG1|]. cbn [fst snd]. rewrite M1. exact HF1. }
    destruct PR as [Hi ->]. rewrite <- M1 in Hn. assert (A := act_ok h1 g1 n i a HG1 Hn Hi).
    destruct (on_reg h1 (rid n i) (act a)) as [h2 x]. destruct A as [-> HG2]. split.
    + rewrite <- answer_cur; [rewrite W1, L1; reflexivity| |exact Hi]. destruct HG1 as (_ & _ & _ & H4 & _). apply (H4 n Hn).
    + split; [exact HG2|]. cbn [fst snd made done_to]. rewrite M1. exact HF1.
  - specialize (PG gp). destruct (find_group rs gp) as [rs1 r1]. destruct (pick_group f gp) as [f1 [n|e]]; destruct PG as [HF1 PG].
    2:{ subst r1. split; [reflexivity|split; assumption]. }
    destruct PG as [Hn ->]. destruct (clear_group_ok h g n HG Hn) as (h2 & -> & HG2). split; [reflexivity|]. split; [exact HG2|exact HF1].
  - unfold registers_clear. destruct (clear_all_ok _ (S (Z.to_nat NUM_GROUPS)) h rs f g HG HF eq_refl) as (h' & rs' & -> & HG2 & HF2).
    + destruct HF as (_ & _ & H3 & _). change (S (Z.to_nat NUM_GROUPS)) with 9%nat. lia.
    + split; [reflexivity|]. split; [exact HG2|exact HF2].
  - specialize (PG gp). destruct (find_group rs gp) as [rs1 r1]. destruct (pick_group f gp) as [f1 [n|e]]; destruct PG as [HF1 PG].
    2:{ subst r1. split; [reflexivity|split; assumption]. }
    destruct PG as [Hn ->]. split; [|split; [exact HG|exact HF1]]. destruct HG as (_ & _ & _ & H4 & _). destruct (H4 n Hn) as (G & _).
    rewrite (deref_some _ _ _ G). cbn [bind]. unfold group_len. cbn [g_registers]. rewrite zlen_app, gdict_len. unfold zlen. rewrite map_length. reflexivity.
  - split; [|split; assumption]. destruct HF as (H1 & _). unfold registers_len. rewrite H1, zlen_app. unfold zlen. rewrite !map_length. reflexivity.
Qed.
Lemma call_ok st s c : SR st s ->
  let '(st', r) := file_call st c in let '(s', o) := store_call s c in r = o /\ SR st' s'.
Proof.
  destruct c as [c|k from|k w|gp k fg fr].
  - intros HR. assert (P := plain_ok st s c HR). destruct st as [h rs]. exact P.
  - destruct st as [h rs], s as [f g]. intros [HG HF]. cbn [fst snd] in HG, HF. cbn [file_call store_call].
    assert (PG := pick_group_ok rs f (made g) from HF). destruct (find_group rs from) as [rs1 r1].
    destruct (pick_group f from) as [f1 [n|e]]; destruct PG as [HF1 PG].
    2:{ subst r1. split; [reflexivity|split; assumption]. }
    destruct PG as [Hn ->]. assert (P := put_group_ok rs1 f1 (made g) k n HF1 Hn).
    destruct (registers_setitem rs1 k (gid n)) as [rs2 x]. destruct (put_group f1 k n) as [f2 o]. destruct P as [HF2 <-].
    split; [reflexivity|]. split; assumption.
  - destruct st as [h rs], s as [f g]. intros [HG HF]. cbn [fst snd] in HG, HF. cbn [file_call store_call].
    destruct ((w =? 16) || (w =? 24)) eqn:B.
    + destruct (make_ok h g w ltac:(unfold good_width; lia) HG) as (h1 & -> & HG1).
      assert (HM : 0 <= made g < made g + 1) by (destruct HG as [HM _]; lia).
      assert (HF' : FR rs f (made g + 1)) by (apply (FR_more _ _ (made g)); [lia|exact HF]).
      assert (P := put_group_ok rs f (made g + 1) k (made g) HF' HM).
      destruct (registers_setitem rs k (gid (made g))) as [rs2 x]. destruct (put_group f k (made g)) as [f2 o]. destruct P as [HF2 <-].
      split; [reflexivity|]. split; assumption.
    + rewrite group_new_err by (unfold good_width; lia). split; [reflexivity|]. split; assumption.
  - destruct st as [h rs], s as [f g]. intros [HG HF]. cbn [fst snd] in HG, HF. cbn [file_call store_call].
    assert (PG := pick_group_ok rs f (made g) fg HF). destruct (find_group rs fg) as [rs1 r1].
    destruct (pick_group f fg) as [f1 [m|e]]; destruct PG as [HF1 PG].
    2:{ subst r1. split; [reflexivity|split; assumption]. }
    destruct PG as [Hm ->]. assert (PR := pick_reg_ok h g m fr HG Hm). destruct (find_reg h (gid m) fr) as [h1 r2].
    destruct (pick_reg g m fr) as [g1 [i|e]]; destruct PR as (HG1 & M1 & W1 & L1 & PR).
    2:{ subst r2. split; [reflexivity|]. split; [exact HG1|]. cbn [fst snd]. rewrite M1. exact HF1. }
    destruct PR as [Hi ->]. rewrite <- M1 in HF1, Hm. assert (PG := pick_group_ok rs1 f1 (made g1) gp HF1).
    destruct (find_group rs1 gp) as [rs2 r3]. destruct (pick_group f1 gp) as [f2 [n|e]]; destruct PG as [HF2 PG].
    2:{ subst r3. split; [reflexivity|split; assumption]. }
    destruct PG as [Hn ->]. assert (P := put_reg_ok h1 g1 n k m i HG1 Hn Hm Hi).
    destruct (heap_group_set h1 (gid n) k (rid m i)) as [h2 x]. destruct (put_reg g1 n k m i) as [g2 o]. destruct P as (HG2 & M2 & <-).
    split; [reflexivity|]. split; [exact HG2|]. cbn [fst snd]. rewrite M2. exact HF2.
Qed.
Lemma trace_ok cs : forall st s, SR st s -> file_trace st cs = store_trace s cs /\ SR (file_run st cs) (store_run s cs).
Proof.
  induction cs as [|c cs IH]; intros st s HR; [auto|]. cbn [file_trace store_trace]. unfold file_run, store_run. cbn [fold_left].
  assert (C := call_ok st s c HR). destruct (file_call st c) as [st' r]. destruct (store_call s c) as [s' o]. destruct C as [-> HR'].
  destruct (IH st' s' HR') as [-> A]. auto.
Qed.
End Share.

Lemma new_SR h W h' rs : registers_new h W = (h', Ok rs) -> SR (h_regs h) (List.length (h_groups h)) (h', rs) (store_new W).
Proof.
  intros E. assert (HW : good_width W).
  { destruct (Z.eq_dec W 16); [left; assumption|]. destruct (Z.eq_dec W 24); [right; assumption|].
    rewrite registers_new_err in E by (unfold good_width; lia). discriminate. }
  assert (X : exists h1 rs1, registers_new h W = (h1, Ok rs1) /\ SR (h_regs h) (List.length (h_groups h)) (h1, rs1) (store_new W));
    [clear E|destruct X as (h1 & rs1 & E1 & X); rewrite E in E1; injection E1 as <- <-; exact X].
  unfold registers_new, NUM_GROUPS. rewrite (registers_fill_ok W HW 8 h [] 0); [|lia|reflexivity|intros k []].
  do 2 eexists. split; [reflexivity|]. cbn [app].
  assert (LN : List.length (new_regs W) = 32%nat) by reflexivity.
  split; cbn [fst snd store_new].
  - split; [cbn [made]; lia|]. cbn [made h_groups h_regs].
    split; [rewrite app_length, map_length; f_equal; assert (L := py_range_length 0 8); unfold zlen in L; lia|].
    split.
    { rewrite app_length. f_equal. }
    split; [|split; [|split]].
    + intros n Hn. cbn [wide passed tags map]. rewrite app_nil_r. split; [|split; [lia|split; [exact HW|constructor]]].
      unfold gid. rewrite nth_error_app2 by lia. replace (_ + Z.to_nat n - _)%nat with (Z.to_nat n) by lia.
      rewrite nth_error_map, py_range_nth by lia. cbn [option_map]. do 3 f_equal. unfold rid. lia.
    + intros n i Hn Hi. unfold cur. cbn [wide life reg_run fold_left]. unfold rid. rewrite nth_error_app2 by lia.
      replace (_ + 32 * Z.to_nat n + Z.to_nat i - _)%nat with (List.length (new_regs W) * Z.to_nat n + Z.to_nat i)%nat by (rewrite LN; lia).
      rewrite nth_copies by (rewrite ?LN; lia). unfold new_regs, newreg. rewrite nth_error_map.
      destruct (nth_error reg_names (Z.to_nat i)) as [s|] eqn:N; [reflexivity|].
      apply nth_error_None in N. change (List.length reg_names) with 32%nat in N. lia.
    + intros n Hn. cbn [passed tags life]. auto.
    + intros n Hn. apply nth_error_app1. exact Hn.
  - split; [|split; [reflexivity|split; [cbn [turned]; lia|split; [|constructor]]]]; cbn [rs_registers holds beside].
    + cbn [map]. rewrite app_nil_r. unfold gid. apply map_ext. intros k. rewrite Z.sub_0_r. reflexivity.
    + intros k Hk. cbn [made]. exact Hk.
Qed.

(** ** C193 *)
Lemma C193_shared_pf : forall h W h' rs cs, registers_new h W = (h', Ok rs) ->
  file_trace (h', rs) cs = store_trace (store_new W) cs /\
  (forall n, (n < List.length (h_regs h))%nat -> deref (h_regs (fst (file_run (h', rs) cs))) n = deref (h_regs h) n).
Proof.
  intros h W h' rs cs E. destruct (trace_ok _ _ cs _ _ (new_SR h W h' rs E)) as [A B]. split; [exact A|].
  destruct B as [(_ & _ & _ & _ & _ & _ & H7) _]. intros n Hn. unfold deref. rewrite H7 by exact Hn. reflexivity.
Qed.
(*@ Example C193_shared_ex : match registers_new heap0 16 with
  | (h, Ok rs) =>
      let at_ k i a := Plain (Reach (AtGroup (KI k)) (AtReg (KI i)) a) in
      file_trace (h, rs) [at_ 3 5 (ASetValue 77); GiveGroup (KI 0) (AtGroup (KI 3)); at_ 0 5 AValue; at_ 0 5 (ASetValue 78); at_ 3 5 AValue;
                          GiveNew (KI 3) 24; at_ 3 5 AValue; at_ 3 5 (ASetValue 100000); at_ 0 5 AValue; GiveGroup (KI 12) (AtGroup (KI 3));
                          Plain LenAll; at_ 12 5 AValue; Plain ClearAll; at_ 0 5 AValue; at_ 0 5 (ASetValue 100000)]
      = [Ok 0; Ok 0; Ok 77; Ok 0; Ok 78; Ok 0; Ok 0; Ok 0; Ok 78; Ok 0; Ok 9; Err ValueError; Ok 0; Ok 0; Err ValueError]
  | _ => False
  end.
Proof. vm_compute. reflexivity. Qed. @*)
Lemma run_snoc st cs c : file_run st (cs ++ [c]) = fst (file_call (file_run st cs) c).
Proof. unfold file_run. rewrite fold_left_app. reflexivity. Qed.
Lemma run_SR h W h' rs cs : registers_new h W = (h', Ok rs) ->
  SR (h_regs h) (List.length (h_groups h)) (file_run (h', rs) cs) (store_run (store_new W) cs).
Proof. intros E. apply trace_ok, new_SR, E. Qed.
Lemma place_reads R0 gb st f g k i a : SR R0 gb st (f, g) -> 0 <= k < 8 -> 0 <= i < 32 ->
  snd (file_call st (Plain (Reach (AtGroup (KI k)) (AtReg (KI i)) a))) = snd (act a (cur g (holds f k) i)) /\
  SR R0 gb (fst (file_call st (Plain (Reach (AtGroup (KI k)) (AtReg (KI i)) a)))) (f, done_to g (holds f k) i a) /\
  good_width (wide g (holds f k)).
Proof.
  intros HR Hk Hi. assert (C := call_ok R0 gb st (f, g) (Plain (Reach (AtGroup (KI k)) (AtReg (KI i)) a)) HR).
  cbn [store_call pick_group pick_reg] in C. destruct (file_call st _) as [st' r].
  destruct ((0 <=? k) && (k <? 8)) eqn:B1; [|lia]. destruct ((0 <=? i) && (i <? 32)) eqn:B2; [|lia]. destruct C as [-> C]. cbn [fst snd].
  assert (HW : good_width (wide g (holds f k))).
  { destruct HR as [(_ & _ & _ & H4 & _) (_ & _ & _ & F4 & _)]. apply (H4 (holds f k)). apply F4, Hk. }
  split; [apply answer_cur; assumption|]. split; assumption.
Qed.
Lemma C193_no_copy_pf : forall h W h' rs cs k j, registers_new h W = (h', Ok rs) -> 0 <= k < 8 -> 0 <= j < 8 ->
  let st := file_run (h', rs) (cs ++ [GiveGroup (KI k) (AtGroup (KI j))]) in
  (forall r a, file_call st (Plain (Reach (AtGroup (KI k)) r a)) = file_call st (Plain (Reach (AtGroup (KI j)) r a))) /\
  (forall i v, 0 <= i < 32 -> snd (file_call st (Plain (Reach (AtGroup (KI k)) (AtReg (KI i)) (ASetValue v)))) = Ok 0 ->
     snd (file_call (fst (file_call st (Plain (Reach (AtGroup (KI k)) (AtReg (KI i)) (ASetValue v))))) (read_at j i)) = Ok v) /\
  (forall m i, 0 <= m < 8 -> 0 <= i < 32 -> m <> k ->
     snd (file_call st (read_at m i)) = snd (file_call (file_run (h', rs) cs) (read_at m i))).
Proof.
  intros h W h' rs cs k j E Hk Hj st. assert (HR := run_SR h W h' rs cs E).
  assert (HR2 := run_SR h W h' rs (cs ++ [GiveGroup (KI k) (AtGroup (KI j))]) E). fold st in HR2.
  unfold store_run in HR2. rewrite fold_left_app in HR2. fold (store_run (store_new W) cs) in HR2.
  destruct (store_run (store_new W) cs) as [f g]. cbn [fold_left store_call pick_group put_group] in HR2.
  destruct ((0 <=? j) && (j <? 8)) eqn:B1; [|lia]. destruct ((0 <=? k) && (k <? 8)) eqn:B2; [|lia]. cbn [fst] in HR2.
  set (f2 := mkshelf _ _ _) in HR2.
  assert (HH : holds f2 k = holds f2 j).
  { cbn [f2 holds]. unfold set1. rewrite Z.eqb_refl. destruct (j =? k); reflexivity. }
  split; [|split].
  - intros r a. destruct st as [h2 rs2]. cbn [file_call regs_call find_group registers_getitem]. unfold NUM_GROUPS, dindex.
    destruct ((k <? 0) || (k >=? 8)) eqn:B3; [lia|]. destruct ((j <? 0) || (j >=? 8)) eqn:B4; [lia|].
    destruct HR2 as [_ (F1 & _)]. cbn [snd fst] in F1. rewrite F1, !dget_two, !holds_get, B1, B2, HH. reflexivity.
  - intros i v Hi. destruct (place_reads _ _ _ _ _ k i (ASetValue v) HR2 Hk Hi) as (A1 & A2 & A3). rewrite A1.
    intros V. destruct (place_reads _ _ _ _ _ j i AValue A2 Hj Hi) as (C1 & _ & _). unfold read_at. rewrite C1.
    unfold cur. cbn [wide life done_to]. rewrite HH. unfold set1. rewrite !Z.eqb_refl. unfold reg_run. rewrite fold_left_app. cbn [fold_left].
    rewrite HH in V, A3. fold (reg_run (newreg (wide g (holds f2 j)) i) (life g (holds f2 j) i)). fold (cur g (holds f2 j) i).
    cbn [act snd] in V |- *. assert (G := cur_geom g (holds f2 j) i A3).
    rewrite (reg_set_value_geom (wide g (holds f2 j))) in * by assumption.
    destruct ((0 <=? v) && (v <? 2 ^ wide g (holds f2 j))); [reflexivity|discriminate].
  - intros m i Hm Hi N. unfold read_at. destruct (place_reads _ _ _ _ _ m i AValue HR2 Hm Hi) as (-> & _).
    destruct (place_reads _ _ _ _ _ m i AValue HR Hm Hi) as (-> & _).
    cbn [f2 holds]. unfold set1. destruct (Z.eqb_spec m k); [lia|]. reflexivity.
Qed.
(*@ Example C193_no_copy_ex : match registers_new heap0 16 with
  | (h, Ok rs) =>
      let st := file_run (h, rs) [Plain (Reach (AtGroup (KI 1)) (AtReg (KS (lit "X2"))) (ASetValue 5)); GiveGroup (KI 6) (AtGroup (KI 1))] in
      file_trace st [read_at 6 10; Plain (Reach (AtGroup (KI 6)) (AtReg (KI 10)) (ASetItem (Idx 1) 1)); read_at 1 10; read_at 2 10] = [Ok 5; Ok 0; Ok 32773; Ok 0]
  | _ => False
  end.
Proof. vm_compute. reflexivity. Qed. @*)
Lemma C193_new_group_pf : forall h W h' rs cs k w, registers_new h W = (h', Ok rs) -> 0 <= k < 8 ->
  let st := file_run (h', rs) cs in
  let st2 := fst (file_call st (GiveNew (KI k) w)) in
  (w = 16 \/ w = 24 -> snd (file_call st (GiveNew (KI k) w)) = Ok 0 /\
     (forall i, 0 <= i < 32 -> snd (file_call st2 (read_at k i)) = Ok 0) /\
     (forall i v, 0 <= i < 32 -> snd (file_call st2 (Plain (Reach (AtGroup (KI k)) (AtReg (KI i)) (ASetValue v)))) =
                                 if (0 <=? v) && (v <? 2 ^ w) then Ok 0 else Err ValueError)) /\
  (w <> 16 -> w <> 24 -> file_call st (GiveNew (KI k) w) = (st, Err ValueError)) /\
  (forall m i, 0 <= m < 8 -> 0 <= i < 32 -> m <> k -> snd (file_call st2 (read_at m i)) = snd (file_call st (read_at m i))).
Proof.
  intros h W h' rs cs k w E Hk st st2. assert (HR := run_SR h W h' rs cs E). fold st in HR. clearbody st.
  destruct (store_run (store_new W) cs) as [f g].
  assert (C := call_ok _ _ _ _ (GiveNew (KI k) w) HR). cbn [store_call put_group] in C. unfold st2.
  destruct ((w =? 16) || (w =? 24)) eqn:B1.
  - destruct ((0 <=? k) && (k <? 8)) eqn:B2; [|lia]. destruct (file_call st (GiveNew (KI k) w)) as [st' r]. destruct C as [-> C]. cbn [fst snd] in *.
    split; [|split].
    + intros _. split; [reflexivity|].
      assert (CU : forall i, 0 <= i < 32 -> cur (make_group g w) (set1 (holds f) k (made g) k) i = newreg w i).
      { intros i Hi. unfold cur, make_group, set1. cbn [wide life]. rewrite !Z.eqb_refl.
        destruct HR as [(_ & _ & _ & _ & _ & H6 & _) _]. cbn [snd] in H6. destruct (H6 (made g) ltac:(lia)) as (_ & _ & L). rewrite L by exact Hi. reflexivity. }
      split.
      * intros i Hi. destruct (place_reads _ _ _ _ _ k i AValue C Hk Hi) as (A & _). unfold read_at. rewrite A. cbn [holds]. rewrite CU by exact Hi. reflexivity.
      * intros i v Hi. destruct (place_reads _ _ _ _ _ k i (ASetValue v) C Hk Hi) as (A & _). rewrite A. cbn [holds]. rewrite CU by exact Hi.
        assert (HW : good_width w) by (unfold good_width; lia).
        cbn [act]. rewrite (reg_set_value_geom w) by (try apply newreg_geom; exact HW).
        destruct ((0 <=? v) && (v <? 2 ^ w)); reflexivity.
    + intros; lia.
    + intros m i Hm Hi N. destruct (place_reads _ _ _ _ _ m i AValue C Hm Hi) as (A & _). destruct (place_reads _ _ _ _ _ m i AValue HR Hm Hi) as (A' & _).
      unfold read_at. rewrite A, A'. cbn [holds]. unfold set1, cur, make_group. cbn [wide life]. destruct (Z.eqb_spec m k); [lia|].
      unfold set1. destruct (Z.eqb_spec (holds f m) (made g)) as [X|]; [|reflexivity].
      destruct HR as [_ (_ & _ & _ & F4 & _)]. cbn [fst snd] in F4. specialize (F4 m Hm). lia.
  - assert (X : file_call st (GiveNew (KI k) w) = (st, Err ValueError)).
    { destruct st as [h1 rs1]. cbn [file_call]. rewrite group_new_err by (unfold good_width; lia). reflexivity. }
    rewrite X. cbn [fst snd]. split; [intros; lia|]. split; [auto|]. auto.
Qed.
(*@ Example C193_new_group_ex : match registers_new heap0 16 with
  | (h, Ok rs) =>
      let st := file_run (h, rs) [Plain (Reach (AtGroup (KI 1)) (AtReg (KI 10)) (ASetValue 5)); GiveGroup (KI 6) (AtGroup (KI 1)); GiveNew (KI 1) 24] in
      file_trace st [read_at 1 10; read_at 6 10; Plain (Reach (AtGroup (KI 1)) (AtReg (KI 10)) (ASetValue 70000)); read_at 6 10; GiveNew (KI 1) 17] =
        [Ok 0; Ok 5; Ok 0; Ok 5; Err ValueError]
  | _ => False
  end.
Proof. vm_compute. reflexivity. Qed. @*)
Lemma C193_given_register_pf : forall h W h' rs cs k name j i, registers_new h W = (h', Ok rs) -> 0 <= k < 8 -> 0 <= j < 8 -> 0 <= i < 32 ->
  let st := file_run (h', rs) cs in
  let give key := GiveReg (AtGroup (KI k)) key (AtGroup (KI j)) (AtReg (KI i)) in
  snd (file_call st (give (KS name))) = Ok 0 /\
  (forall g r a, snd (file_call (fst (file_call st (give (KS name)))) (Plain (Reach g r a))) = snd (file_call st (Plain (Reach g r a)))) /\
  (forall n, file_call st (give (KI n)) = (st, Err KeyError)).
Proof.
  intros h W h' rs cs k name j i E Hk Hj Hi st give. assert (HR := run_SR h W h' rs cs E). fold st in HR. clearbody st.
  destruct (store_run (store_new W) cs) as [f g].
  assert (B1 : (0 <=? k) && (k <? 8) = true) by lia. assert (B2 : (0 <=? j) && (j <? 8) = true) by lia. assert (B3 : (0 <=? i) && (i <? 32) = true) by lia.
  assert (C := call_ok _ _ _ _ (give (KS name)) HR). cbn [store_call give pick_group pick_reg put_reg] in C. rewrite B1, B2, B3 in C.
  split; [|split].
  - destruct (file_call st (give (KS name))) as [st' r]. destruct C as [-> _]. reflexivity.
  - intros gp rp a. destruct (file_call st (give (KS name))) as [st' r]. destruct C as [_ C]. cbn [fst].
    assert (X := call_ok _ _ _ _ (Plain (Reach gp rp a)) HR). assert (Y := call_ok _ _ _ _ (Plain (Reach gp rp a)) C).
    destruct (file_call st (Plain (Reach gp rp a))) as [s1 r1]. destruct (file_call st' (Plain (Reach gp rp a))) as [s2 r2]. cbn [snd].
    cbn [store_call] in X, Y. destruct (pick_group f gp) as [f1 [n|e]].
    2:{ destruct X as [-> _]. destruct Y as [-> _]. reflexivity. }
    destruct rp as [[x|x|]|]; cbn [pick_reg passed pass] in X, Y.
    + destruct ((0 <=? x) && (x <? 32)); destruct X as [-> _]; destruct Y as [-> _]; reflexivity.
    + destruct (position x reg_names); destruct X as [-> _]; destruct Y as [-> _]; reflexivity.
    + destruct X as [-> _]. destruct Y as [-> _]. reflexivity.
    + destruct (passed g n <? 32); destruct X as [-> _]; destruct Y as [-> _]; reflexivity.
  - intros n. destruct st as [h2 rs2]. destruct HR as [HG HF]. cbn [fst snd] in HG, HF. unfold give. cbn [file_call].
    assert (P := pick_group_ok _ rs2 f (made g) (AtGroup (KI j)) HF). cbn [pick_group] in P. rewrite B2 in P.
    destruct (find_group rs2 (AtGroup (KI j))) as [rs3 r3] eqn:F3. cbn [find_group] in F3. injection F3 as <- _. destruct P as (_ & Hm & ->).
    assert (Q := pick_reg_ok _ _ h2 g (holds f j) (AtReg (KI i)) HG Hm). cbn [pick_reg] in Q. rewrite B3 in Q.
    destruct (find_reg h2 (gid (List.length (h_groups h)) (holds f j)) (AtReg (KI i))) as [h3 r4] eqn:F4. cbn [find_reg] in F4. injection F4 as <- _.
    destruct Q as (_ & _ & _ & _ & _ & ->).
    assert (P := pick_group_ok _ rs2 f (made g) (AtGroup (KI k)) HF). cbn [pick_group] in P. rewrite B1 in P.
    destruct (find_group rs2 (AtGroup (KI k))) as [rs3 r3] eqn:F3. cbn [find_group] in F3. injection F3 as <- _. destruct P as (_ & Hn & ->).
    destruct HG as (_ & _ & _ & H4 & _). destruct (H4 _ Hn) as (G & _). unfold heap_group_set. rewrite (deref_some _ _ _ G). cbn [group_setitem].
    rewrite upd_same by exact G. destruct h2. reflexivity.
Qed.
(*@ Example C193_given_register_ex : match registers_new heap0 16 with
  | (h, Ok rs) =>
      let st := file_run (h, rs) [Plain (Reach (AtGroup (KI 1)) (AtReg (KI 10)) (ASetValue 5))] in
      let give n := GiveReg (AtGroup (KI 2)) (KS n) (AtGroup (KI 1)) (AtReg (KS (lit "X2"))) in
      file_trace st [give (lit "X3"); read_at 2 11; read_at 2 10; Plain (Len (AtGroup (KI 2))); give (lit "X3"); Plain (Len (AtGroup (KI 2)));
                     give (lit "RAC"); Plain (Len (AtGroup (KI 2))); GiveReg (AtGroup (KI 2)) (KI 11) (AtGroup (KI 1)) (AtReg (KI 10))] =
        [Ok 0; Ok 0; Ok 0; Ok 33; Ok 0; Ok 33; Ok 0; Ok 34; Err KeyError]
  | _ => False
  end.
Proof. vm_compute. reflexivity. Qed. @*)
(** the whole file printed: a line for each place, also those beside 0-7 *)
Lemma C193_printed_pf : forall h W h' rs cs, registers_new h W = (h', Ok rs) ->
  let st := file_run (h', rs) cs in
  let f := fst (store_run (store_new W) cs) in let g := snd (store_run (store_new W) cs) in
  exists lines, registers_repr (fst st) (snd st) = Ok (concat lines) /\
    Forall2 (fun kn x => exists t, x = lit "[" ++ str_of_Z (fst kn) ++ lit "] " ++ t ++ [10] /\ group_line g (snd kn) t)
      (map (fun k => (k, holds f k)) [0; 1; 2; 3; 4; 5; 6; 7] ++ beside f) lines.
Proof.
  intros h W h' rs cs E st f g. assert (HR := run_SR h W h' rs cs E). fold st in HR. unfold f, g. clear f g.
  destruct (store_run (store_new W) cs) as [f g]. cbn [fst snd]. destruct st as [h1 rs1]. destruct HR as [HG HF]. cbn [fst snd] in *.
  assert (GL : forall n, 0 <= n < made g -> exists t, group_repr h1 (gid (List.length (h_groups h)) n) = Ok t /\ group_line g n t).
  { intros n Hn. assert (H := HG). destruct H as (_ & _ & _ & H4 & H5 & _). destruct (H4 n Hn) as (G & _ & _ & HT).
    unfold group_repr. rewrite (deref_some _ _ _ G). cbn [bind g_registers].
    set (refs := map (pair n) (upto 0 32) ++ map snd (tags g n)).
    assert (RF : Forall (fun mi => 0 <= fst mi < made g /\ 0 <= snd mi < 32) refs).
    { unfold refs. apply Forall_app. split.
      - apply Forall_forall. intros mi I. apply in_map_iff in I. destruct I as (i & <- & I). apply upto_In in I. cbn [fst snd]. lia.
      - apply Forall_forall. intros mi I. apply in_map_iff in I. destruct I as (e & <- & I). rewrite Forall_forall in HT. apply (HT e I). }
    exists (flat_map (fun x => x ++ lit " ") (map (fun mi => reg_repr (cur g (fst mi) (snd mi))) refs)). split.
    - rewrite (regs_repr_map h1 _ (map (fun mi => cur g (fst mi) (snd mi)) refs)).
      + f_equal. rewrite !flat_map_concat_map, !map_map. reflexivity.
      + rewrite !map_map. transitivity (map (fun mi => nth_error (h_regs h1) (rid (h_regs h) (fst mi) (snd mi))) refs).
        * unfold refs. rewrite !map_app, !map_map. f_equal.
          unfold gdict. rewrite py_range_upto by lia. rewrite !map_map. apply map_ext_in. intros i I. apply upto_In in I. cbn [fst snd].
          f_equal. unfold rid. lia.
        * apply map_ext_in. intros mi I. rewrite Forall_forall in RF. apply H5; apply (RF mi I).
    - exists (map (fun mi => reg_repr (cur g (fst mi) (snd mi))) refs). split; [reflexivity|]. fold refs.
      clear -RF H4. induction RF as [|mi l [A B] RF IH]; constructor; [|exact IH].
      exists (reg_value (cur g (fst mi) (snd mi))). split.
      + rewrite answer_cur; [reflexivity| |exact B]. apply (H4 _ A).
      + apply fmt_oct_text. lia. }
  destruct HF as (F1 & _ & _ & F4 & F5). unfold registers_repr. rewrite F1.
  assert (G : forall l, Forall (fun kn => 0 <= snd kn < made g) l ->
    exists lines, groups_repr h1 (map (fun kn => (fst kn, gid (List.length (h_groups h)) (snd kn))) l) = Ok (concat lines) /\
      Forall2 (fun kn x => exists t, x = lit "[" ++ str_of_Z (fst kn) ++ lit "] " ++ t ++ [10] /\ group_line g (snd kn) t) l lines).
  { induction 1 as [|[k n] l Hn F IH]; [exists []; split; [reflexivity|constructor]|]. cbn [map groups_repr fst snd] in *.
    destruct (GL n Hn) as (t & -> & L). destruct IH as (lines & -> & IH). cbn [bind].
    exists ((lit "[" ++ str_of_Z k ++ lit "] " ++ t ++ [10]) :: lines). split.
    - cbn [concat]. rewrite <- !app_assoc. reflexivity.
    - constructor; [exists t; auto|exact IH]. }
  destruct (G (map (fun k => (k, holds f k)) [0; 1; 2; 3; 4; 5; 6; 7] ++ beside f)) as (lines & A & B).
  - apply Forall_app. split; [|exact F5]. apply Forall_forall. intros kn I. apply in_map_iff in I. destruct I as (k & <- & I). apply F4.
    cbn [In] in I. lia.
  - exists lines. split; [|exact B]. rewrite <- A. f_equal.
Qed.
(*@ Example C193_printed_ex : match registers_new heap0 16 with
  | (h, Ok rs) =>
      let st := file_run (h, rs) [Plain (Reach (AtGroup (KI 7)) (AtReg (KI 0)) (ASetValue 511)); GiveReg (AtGroup (KI 0)) (KS (lit "S")) (AtGroup (KI 7)) (AtReg (KI 0));
                                  GiveGroup (KI (-12)) (AtGroup (KI 7))] in
      match registers_repr (fst st) (snd st) with
      | Ok s => firstn 14 s = lit "[0] 0o000000 0" /\ firstn 14 (skipn (4 + 32 * 9) s) = lit "0o000777 " ++ [10] ++ lit "[1] " /\
                firstn 14 (skipn (8 * (4 + 32 * 9 + 1) + 9) s) = lit "[-12] 0o000777"
      | Err _ => False
      end
  | _ => False
  end.
Proof. vm_compute. repeat split; reflexivity. Qed. @*)
