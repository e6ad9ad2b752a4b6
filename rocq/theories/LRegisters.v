(** Proofs about register names and single registers. *)
From Verif Require Import Py MBitField SBits LPy LBits LBitField MRegisters SRegisters.
From Coq Require Import ZifyBool.
#[local] Arguments Z.add : simpl never.
#[local] Arguments Z.sub : simpl never.
#[local] Arguments Z.mul : simpl never.
#[local] Arguments Z.pow : simpl never.

(** ** Names *)
Fixpoint tab (l : list str) (a : Z) : dict str Z :=
  match l with [] => [] | s :: r => (s, a) :: tab r (a + 1) end.
Lemma REGISTERS_tab : REGISTERS = tab reg_names 0.
Proof. reflexivity. Qed.
Lemma ALIASES_tab : ALIASES = tab alias_names 28.
Proof. reflexivity. Qed.

Lemma tab_dget l : forall a s, dget (tab l a) s = option_map (fun n => a + n) (position s l).
Proof.
  induction l as [|x l IH]; intros a s; [reflexivity|]. cbn [tab dget position].
  destruct (eqb x s); [cbn [option_map]; f_equal; lia|]. rewrite IH.
  destruct (position s l); cbn [option_map]; [f_equal; lia|reflexivity].
Qed.
Lemma tab_first l : forall a n,
  first_name (tab l a) n =
  if (a <=? n) && (n <? a + zlen l) then nth_error l (Z.to_nat (n - a)) else None.
Proof.
  induction l as [|x l IH]; intros a n; cbn [tab first_name].
  - destruct ((a <=? n) && _); [|reflexivity].
    destruct (Z.to_nat (n - a)); reflexivity.
  - rewrite zlen_cons. destruct (Z.eqb_spec a n) as [->|N].
    + replace (Z.to_nat (n - n)) with O by lia. cbn.
      destruct ((n <=? n) && (n <? n + (1 + zlen l))) eqn:E; [reflexivity|].
      assert (L := zlen_nonneg l). lia.
    + rewrite IH. destruct ((a + 1 <=? n) && (n <? a + 1 + zlen l)) eqn:E,
        ((a <=? n) && (n <? a + (1 + zlen l))) eqn:F; try lia; [|reflexivity].
      replace (Z.to_nat (n - a)) with (S (Z.to_nat (n - (a + 1)))) by lia. reflexivity.
Qed.

Lemma position_nth {A} `{EqB A} (l : list A) : forall x n,
  position x l = Some n -> 0 <= n < zlen l /\ nth_error l (Z.to_nat n) = Some x.
Proof.
  induction l as [|y l IH]; intros x n; cbn [position]; [discriminate|].
  rewrite zlen_cons. assert (L := zlen_nonneg l). destruct (eqb y x) eqn:E.
  - intros [= <-]. apply eqb_ok in E. subst. split; [lia|reflexivity].
  - destruct (position x l) as [m|] eqn:P; [|discriminate]. cbn. intros [= <-].
    destruct (IH _ _ P) as [B N]. split; [lia|].
    replace (Z.to_nat (1 + m)) with (S (Z.to_nat m)) by lia. exact N.
Qed.
Lemma nth_position {A} `{EqB A} (l : list A) : NoDup l -> forall x n,
  0 <= n -> nth_error l (Z.to_nat n) = Some x -> position x l = Some n.
Proof.
  induction l as [|y l IH]; intros ND x n Hn; cbn [position].
  - destruct (Z.to_nat n); discriminate.
  - inversion ND as [|z l' N1 N2]; subst. destruct (Z.eq_dec n 0) as [->|Nz].
    + cbn. intros [= ->]. rewrite eqb_refl. reflexivity.
    + replace (Z.to_nat n) with (S (Z.to_nat (n - 1))) by lia. cbn [nth_error]. intros E.
      rewrite eqb_neq by (intros ->; apply nth_error_In in E; contradiction).
      rewrite (IH N2 x (n - 1)) by (auto; lia). cbn. f_equal. lia.
Qed.
Lemma position_None {A} `{EqB A} (l : list A) : forall x, position x l = None <-> ~ In x l.
Proof.
  induction l as [|y l IH]; intros x; cbn [position In].
  - split; [intros _ []|reflexivity].
  - destruct (eqb y x) eqn:E.
    + apply eqb_ok in E. split; [discriminate|]. intros N. exfalso. apply N. left. exact E.
    + destruct (position x l) as [m|] eqn:P; cbn.
      * split; [discriminate|]. intros N. exfalso. destruct (position_nth l x m P) as [_ Q].
        apply N. right. eapply nth_error_In. exact Q.
      * split; [|reflexivity]. intros _ [->|I]; [rewrite eqb_refl in E; discriminate|].
        apply IH in I; [exact I|exact P].
Qed.

Fixpoint nodupb (l : list str) : bool :=
  match l with [] => true | x :: r => negb (inb x r) && nodupb r end.
Lemma nodupb_ok l : nodupb l = true -> NoDup l.
Proof.
  induction l as [|x l IH]; cbn; [constructor|]. rewrite andb_true_iff, negb_true_iff.
  intros [E F]. constructor; [apply inb_false; exact E|apply IH; exact F].
Qed.
Lemma reg_names_NoDup : NoDup reg_names.
Proof. apply nodupb_ok. vm_compute. reflexivity. Qed.
Lemma alias_names_NoDup : NoDup (reg_names ++ alias_names).
Proof. apply nodupb_ok. vm_compute. reflexivity. Qed.
Lemma reg_names_len : zlen reg_names = 32. Proof. reflexivity. Qed.

Lemma registerNumber_spec s :
  registerNumber s = match number_of s with Some n => Ok n | None => Err ValueError end.
Proof.
  unfold registerNumber, number_of, dmem, dindex. rewrite REGISTERS_tab, ALIASES_tab, !tab_dget.
  destruct (position s reg_names); cbn [option_map]; [reflexivity|].
  destruct (position s alias_names); reflexivity.
Qed.
Lemma registerName_spec n :
  registerName n = if (0 <=? n) && (n <? 32)
                   then match nth_error reg_names (Z.to_nat n) with Some s => Ok s | None => Err ValueError end
                   else Err ValueError.
Proof.
  unfold registerName. rewrite REGISTERS_tab, tab_first, reg_names_len. change (0 + 32) with 32.
  rewrite Z.sub_0_r. destruct ((0 <=? n) && (n <? 32)); reflexivity.
Qed.

Lemma registerName_iff n s : registerName n = Ok s <-> position s reg_names = Some n.
Proof.
  rewrite registerName_spec. split.
  - destruct ((0 <=? n) && (n <? 32)) eqn:E; [|discriminate].
    destruct (nth_error reg_names (Z.to_nat n)) eqn:F; [|discriminate]. intros [= ->].
    apply nth_position; [apply reg_names_NoDup|lia|exact F].
  - intros P. apply position_nth in P. destruct P as [B ->]. rewrite reg_names_len in B.
    destruct ((0 <=? n) && (n <? 32)) eqn:E; [reflexivity|lia].
Qed.

Lemma C32_names_pf :
  (forall s n, registerNumber s = Ok n <-> number_of s = Some n) /\
  (forall s, In s reg_names \/ In s alias_names \/ registerNumber s = Err ValueError) /\
  (forall n, 0 <= n < 32 -> exists s, registerName n = Ok s) /\
  (forall n, ~ (0 <= n < 32) -> registerName n = Err ValueError /\ registerAlias n = Err ValueError) /\
  (forall n s, registerName n = Ok s <-> In s reg_names /\ registerNumber s = Ok n) /\
  (forall n, 0 <= n < 28 -> registerAlias n = registerName n) /\
  (forall n s, 28 <= n < 32 -> registerAlias n = Ok s <-> In s alias_names /\ registerNumber s = Ok n) /\
  (forall n s, registerAlias n = Ok s -> registerNumber s = Ok n).
Proof.
  assert (A : forall n, registerAlias n =
    if (28 <=? n) && (n <? 32)
    then match nth_error alias_names (Z.to_nat (n - 28)) with Some s => Ok s | None => registerName n end
    else registerName n).
  { intros n. unfold registerAlias, registerName. rewrite ALIASES_tab, tab_first.
    change (28 + zlen alias_names) with 32. destruct ((28 <=? n) && (n <? 32)); [|reflexivity].
    destruct (nth_error alias_names (Z.to_nat (n - 28))); reflexivity. }
  assert (P1 : forall s, registerNumber s = match number_of s with Some n => Ok n | None => Err ValueError end)
    by exact registerNumber_spec.
  assert (AL : forall n s, 28 <= n < 32 ->
     nth_error alias_names (Z.to_nat (n - 28)) = Some s <-> In s alias_names /\ registerNumber s = Ok n).
  { intros n s Hn. assert (ND := alias_names_NoDup).
    assert (NDA : NoDup alias_names) by (apply nodupb_ok; vm_compute; reflexivity).
    rewrite P1. unfold number_of. split.
    - intros E. assert (I := nth_error_In _ _ E). split; [exact I|].
      assert (N : position s reg_names = None).
      { apply position_None. intros J. apply in_split in I. destruct I as (l1 & l2 & EA).
        rewrite EA in ND. rewrite app_assoc in ND. apply NoDup_remove_2 in ND. apply ND.
        rewrite !in_app_iff. auto. }
      rewrite N. rewrite (nth_position alias_names NDA s (n - 28)) by (auto; lia). cbn. f_equal. lia.
    - intros [I E].
      assert (N : position s reg_names = None).
      { apply position_None. intros J. apply in_split in I. destruct I as (l1 & l2 & EA).
        rewrite EA in ND. rewrite app_assoc in ND. apply NoDup_remove_2 in ND. apply ND.
        rewrite !in_app_iff. auto. }
      rewrite N in E. destruct (position s alias_names) as [m|] eqn:P; cbn in E; [|discriminate].
      assert (n = 28 + m) by congruence. subst n.
      replace (28 + m - 28) with m by lia. apply position_nth in P. apply P. }
  assert (B : forall n s, registerName n = Ok s <-> In s reg_names /\ registerNumber s = Ok n).
  { intros n s. rewrite registerName_iff, P1. unfold number_of. split.
    - intros E. rewrite E. split; [|reflexivity].
      apply position_nth in E. eapply nth_error_In. apply E.
    - intros [I E]. destruct (position s reg_names) eqn:P; [congruence|].
      apply position_None in P. contradiction. }
  split; [|split; [|split; [|split; [|split; [|split; [|split]]]]]].
  - intros s n. rewrite P1. destruct (number_of s); split; congruence.
  - intros s. rewrite P1. unfold number_of.
    destruct (position s reg_names) eqn:P.
    + left. apply position_nth in P. eapply nth_error_In. apply P.
    + right. destruct (position s alias_names) eqn:Q; [left|right; reflexivity].
      apply position_nth in Q. eapply nth_error_In. apply Q.
  - intros n Hn. rewrite registerName_spec.
    destruct ((0 <=? n) && (n <? 32)) eqn:E; [|lia].
    destruct (nth_error reg_names (Z.to_nat n)) eqn:F; [eauto|].
    apply nth_error_None in F. assert (R := reg_names_len). unfold zlen in R. lia.
  - intros n Hn. rewrite A, registerName_spec.
    destruct ((0 <=? n) && (n <? 32)) eqn:E; [lia|].
    destruct ((28 <=? n) && (n <? 32)) eqn:F; [lia|]. auto.
  - exact B.
  - intros n Hn. rewrite A. destruct ((28 <=? n) && (n <? 32)) eqn:F; [lia|reflexivity].
  - intros n s Hn. rewrite A. destruct ((28 <=? n) && (n <? 32)) eqn:F; [|lia].
    rewrite <- AL by exact Hn. destruct (nth_error alias_names (Z.to_nat (n - 28))) eqn:G.
    + split; congruence.
    + apply nth_error_None in G. change (List.length alias_names) with 4%nat in G. lia.
  - intros n s. rewrite A. destruct ((28 <=? n) && (n <? 32)) eqn:F.
    + destruct (nth_error alias_names (Z.to_nat (n - 28))) eqn:G.
      * intros [= ->]. apply AL in G; [apply G|lia].
      * intros E. apply B in E. apply E.
    + intros E. apply B in E. apply E.
Qed.
(*@
Example C32_example :
  registerNumber (lit "X3") = Ok 11 /\ registerName 30 = Ok (lit "S6") /\
  registerAlias 30 = Ok (lit "WAC") /\ registerNumber (lit "WAC") = Ok 30 /\
  registerNumber (lit "X9") = Err ValueError /\ registerName 32 = Err ValueError.
Proof. vm_compute. repeat split; reflexivity. Qed.
@*)

(** ** Registers *)
Definition rbits (W v : Z) : bf := mkbf W (2 ^ W - 1) v MSB_1 MSB_LEFT.
Definition good_width (W : Z) : Prop := W = 16 \/ W = 24.
Definition geom (W : Z) (r : register) : Prop :=
  r_width r = W /\ exists v, r_data r = rbits W v.

Lemma rbits_wf W v : good_width W -> wf (rbits W v).
Proof. intros [->| ->]; unfold wf, rbits; cbn; lia. Qed.
Lemma reg_check_ok W v : 0 <= v < 2 ^ W -> reg_check W v = Ok tt.
Proof. intros H. unfold reg_check. destruct ((v <? 0) || (v >? 2 ^ W - 1)) eqn:E; [lia|reflexivity]. Qed.
Lemma reg_check_err W v : ~ (0 <= v < 2 ^ W) -> reg_check W v = Err ValueError.
Proof. intros H. unfold reg_check. destruct ((v <? 0) || (v >? 2 ^ W - 1)) eqn:E; [reflexivity|lia]. Qed.

Lemma full_write W v x : good_width W -> 0 <= x < 2 ^ W ->
  bf_setitem (rbits W v) (Slice (Some 1) (Some W)) x = (rbits W x, Ok tt).
Proof.
  intros HW Hx. assert (1 <= W) by (destruct HW; lia).
  assert (VR : vrange (rbits W v) 1 W).
  { unfold vrange, valid_range, valid_index, weight, rbits; cbn [bf_order bf_numbering bf_width]. lia. }
  assert (RS : range_size MSB_1 W 1 W = W) by (unfold range_size, weight; lia).
  assert (RL : range_lo MSB_1 W 1 W = 0) by (unfold range_lo, weight; lia).
  rewrite (@setitem_slice_raw (rbits W v) 1 W x (rbits_wf W v HW) VR).
  - rewrite (@mask_shift_msb (rbits W v) 1 W eq_refl VR). unfold rbits in *. cbn [bf_numbering bf_width bf_value with_value bf_maxval bf_order].
    unfold with_value. cbn [bf_numbering bf_width bf_value bf_maxval bf_order].
    rewrite RS, RL, !Z.shiftl_0_r, Z.sub_diag, Z.land_0_r, Z.lor_0_l. reflexivity.
  - unfold rbits. cbn [bf_numbering bf_width]. rewrite RS. lia.
Qed.

Lemma bf_new_reg W : good_width W -> bf_new 0 W 3 0 = Ok (rbits W 0).
Proof. intros [->| ->]; reflexivity. Qed.

Lemma register_new_ok W v name : good_width W -> 0 <= v < 2 ^ W -> bad_name name = false ->
  register_new v name W = Ok (mkreg (rbits W v) name W).
Proof.
  intros HW Hv Hn. unfold register_new. rewrite reg_check_ok by exact Hv. cbn [bind]. rewrite Hn.
  assert (E : negb (W =? 16) && negb (W =? 24) = false) by (destruct HW as [->| ->]; reflexivity).
  rewrite E, bf_new_reg by exact HW. cbn [bind]. rewrite full_write by assumption. reflexivity.
Qed.

(** names a register may carry: none, empty, or one of the 36 *)
Definition good_name (name : option str) : Prop :=
  match name with None => True | Some n => n = [] \/ In n reg_names \/ In n alias_names end.
Lemma bad_name_spec name : bad_name name = false <-> good_name name.
Proof.
  destruct name as [[|c n]|]; cbn [bad_name good_name]; try tauto.
  assert (E : REGISTER_NAMES = reg_names ++ alias_names) by reflexivity.
  rewrite negb_false_iff, inb_In, E, in_app_iff. split; [tauto|]. intros [H|H]; [discriminate|exact H].
Qed.

Lemma reg_set_value_geom W r v : good_width W -> geom W r ->
  reg_set_value r v = if (0 <=? v) && (v <? 2 ^ W)
                      then (mkreg (rbits W v) (r_name r) W, Ok tt) else (r, Err ValueError).
Proof.
  intros HW [EW [u Eu]]. unfold reg_set_value. rewrite EW.
  destruct ((0 <=? v) && (v <? 2 ^ W)) eqn:E.
  - rewrite reg_check_ok by lia. rewrite Eu, full_write by (auto; lia).
    unfold reg_with. rewrite EW. reflexivity.
  - rewrite reg_check_err by lia. reflexivity.
Qed.

Lemma setitem_geom W u k v : exists u' x, bf_setitem (rbits W u) k v = (rbits W u', x).
Proof.
  destruct (bf_setitem (rbits W u) k v) as [b x] eqn:E. apply setitem_cases in E.
  destruct E as [(e & -> & ->)|(v' & _ & -> & ->)]; do 2 eexists; reflexivity.
Qed.

Lemma act_geom W x r : good_width W -> geom W r ->
  geom W (fst (act x r)) /\ r_name (fst (act x r)) = r_name r.
Proof.
  intros HW G. assert (G' := G). destruct G' as [EW [u Eu]]. destruct x as [|v|k|k v|]; cbn [act fst].
  - auto.
  - rewrite (reg_set_value_geom W) by assumption.
    destruct ((0 <=? v) && (v <? 2 ^ W)); cbn [unit_z fst]; [|auto].
    split; [split; [reflexivity|eexists; reflexivity]|reflexivity].
  - auto.
  - unfold reg_setitem. rewrite Eu. destruct (setitem_geom W u k v) as (u' & y & ->).
    cbn [unit_z fst]. split; [split; [exact EW|exists u'; reflexivity]|reflexivity].
  - unfold reg_clear. rewrite Eu. cbn [bf_clear unit_z fst].
    split; [split; [exact EW|exists 0; reflexivity]|reflexivity].
Qed.
Lemma run_geom W xs : good_width W -> forall r, geom W r ->
  geom W (reg_run r xs) /\ r_name (reg_run r xs) = r_name r.
Proof.
  intros HW. induction xs as [|x xs IH]; intros r G; [auto|].
  cbn [reg_run fold_left]. destruct (act_geom W x r HW G) as [G1 N1].
  destruct (IH _ G1) as [G2 N2]. split; [exact G2|]. unfold reg_run in N2. congruence.
Qed.

Lemma register_new_inv v name W r : register_new v name W = Ok r ->
  good_width W /\ 0 <= v < 2 ^ W /\ good_name name /\ r = mkreg (rbits W v) name W.
Proof.
  intros E.
  destruct (Z_le_dec 0 v) as [H1|H1], (Z_lt_dec v (2 ^ W)) as [H2|H2];
    try (unfold register_new in E; rewrite reg_check_err in E by lia; discriminate).
  destruct (bad_name name) eqn:B.
  { unfold register_new in E. rewrite reg_check_ok in E by lia. cbn [bind] in E. rewrite B in E. discriminate. }
  assert (HW : good_width W).
  { unfold register_new in E. rewrite reg_check_ok in E by lia. cbn [bind] in E. rewrite B in E.
    unfold good_width. destruct (Z.eqb_spec W 16), (Z.eqb_spec W 24); auto. discriminate. }
  rewrite register_new_ok in E by (auto; lia).
  split; [exact HW|]. split; [lia|]. split; [apply bad_name_spec; exact B|congruence].
Qed.

Lemma C33_constructor_pf : forall data name width,
  (register_new data name width = Err ValueError <->
     ~ (0 <= data < 2 ^ width /\ good_name name /\ (width = 16 \/ width = 24))) /\
  (forall e, register_new data name width = Err e -> e = ValueError) /\
  (forall r, register_new data name width = Ok r ->
     reg_value r = data /\ r_name r = name /\ reg_len r = width).
Proof.
  intros v name W.
  assert (D : (exists r, register_new v name W = Ok r) \/ register_new v name W = Err ValueError).
  { destruct (Z_le_dec 0 v) as [H1|H1], (Z_lt_dec v (2 ^ W)) as [H2|H2];
      try (right; unfold register_new; rewrite reg_check_err by lia; reflexivity).
    destruct (bad_name name) eqn:B.
    { right. unfold register_new. rewrite reg_check_ok by lia. cbn [bind]. rewrite B. reflexivity. }
    destruct (Z.eqb_spec W 16) as [E1|E1], (Z.eqb_spec W 24) as [E2|E2];
      try (left; eexists; apply register_new_ok; [unfold good_width; tauto|split; assumption|exact B]).
    right. unfold register_new. rewrite reg_check_ok by lia. cbn [bind]. rewrite B.
    apply Z.eqb_neq in E1, E2. rewrite E1, E2. reflexivity. }
  split; [|split].
  - destruct D as [[r E]|E].
    + rewrite E. split; [discriminate|]. intros N. exfalso. apply N.
      apply register_new_inv in E. destruct E as (H1 & H2 & H3 & _). auto.
    + rewrite E. split; [|reflexivity]. intros _ (H1 & H2 & H3).
      apply bad_name_spec in H2. rewrite register_new_ok in E by assumption. discriminate.
  - intros e E. destruct D as [[r F]|F]; congruence.
  - intros r E. apply register_new_inv in E. destruct E as (_ & _ & _ & ->). repeat split.
Qed.
(*@ Example C33_constructor_ex : match register_new 65535 (Some (lit "RAC")) 16 with
  | Ok r => reg_value r = 65535 /\ r_name r = Some (lit "RAC") /\ reg_len r = 16
  | Err _ => False
  end /\ register_new (-1) None 24 = Err ValueError.
Proof. vm_compute. auto. Qed. @*)
Lemma C33_value_setter_pf : forall data name width r0 xs v,
  register_new data name width = Ok r0 ->
  let r := reg_run r0 xs in
  (0 <= v < 2 ^ width ->
     let '(r', x) := reg_set_value r v in
     x = Ok tt /\ reg_value r' = v /\ r_name r' = name /\ reg_len r' = width) /\
  (~ (0 <= v < 2 ^ width) -> reg_set_value r v = (r, Err ValueError)).
Proof.
  intros u name W r0 xs v E. apply register_new_inv in E. destruct E as (HW & _ & _ & ->). cbv zeta.
  assert (G0 : geom W (mkreg (rbits W u) name W)) by (split; [reflexivity|exists u; reflexivity]).
  destruct (run_geom W xs HW _ G0) as [G N].
  rewrite (reg_set_value_geom W) by assumption. split; intros H.
  - destruct ((0 <=? v) && (v <? 2 ^ W)) eqn:B; [|lia]. repeat split. exact N.
  - destruct ((0 <=? v) && (v <? 2 ^ W)) eqn:B; [lia|]. reflexivity.
Qed.
(*@
Example C33_example :
  match register_new 65535 (Some (lit "RAC")) 16 with
  | Ok r => reg_value r = 65535 /\
            reg_value (fst (reg_set_value r 9)) = 9 /\ snd (reg_set_value r 65536) = Err ValueError
  | Err _ => False
  end /\
  register_new 65536 None 16 = Err ValueError /\ register_new 1 (Some (lit "Q")) 24 = Err ValueError /\
  register_new 1 None 20 = Err ValueError.
Proof. vm_compute. repeat split; reflexivity. Qed.
@*)

(** ** Bits of a register *)
Definition RB (W : Z) (r : register) (a : arr) : Prop :=
  r_width r = W /\ R MSB_1 W (r_data r) a.

Lemma R_rbits W b a : R MSB_1 W b a -> b = rbits W (bf_value b).
Proof.
  intros ((_ & M) & O & N & EW & _). destruct b as [w m v n o]. cbn in *. subst. reflexivity.
Qed.
Lemma R_new W v : good_width W -> 0 <= v < 2 ^ W -> R MSB_1 W (rbits W v) (Z.testbit v).
Proof.
  intros HW Hv. split; [apply rbits_wf; exact HW|]. repeat (split; [reflexivity|]).
  split; [exact Hv|]. intros k Hk. reflexivity.
Qed.

Lemma act_sim W r a x : good_width W -> RB W r a -> act_fits W x ->
  match snd (act x r) with Ok z => Some z | Err _ => None end = snd (s_act W a x) /\
  RB W (fst (act x r)) (fst (s_act W a x)).
Proof.
  intros HW [EW HR] F. assert (EB := R_rbits _ _ _ HR).
  assert (OP : forall k v, op_fits (mkbf W (2 ^ W - 1) 0 MSB_1 MSB_LEFT) (OpItem k v) ->
               call_ok (r_data r) (Write (OpItem k v))).
  { intros k v. rewrite EB. cbn [call_ok]. intros H; exact H. }
  destruct x as [|v|k|k v|]; cbn [act s_act fst snd].
  - destruct (@call_sim MSB_1 W (r_data r) a ReadValue HR I) as [E _]. cbn in E.
    split; [exact E|split; assumption].
  - rewrite (reg_set_value_geom W); [|exact HW|split; [exact EW|exists (bf_value (r_data r)); exact EB]].
    destruct ((0 <=? v) && (v <? 2 ^ W)) eqn:B; cbn [unit_z fst snd bind].
    + split; [reflexivity|]. split; [reflexivity|]. cbn [r_data].
      assert (Hv : 0 <= v < 2 ^ W) by lia.
      destruct (R_new W v HW Hv) as (H1 & H2 & H3 & H4 & H5 & H6).
      repeat (split; [assumption|]). intros j Hj. unfold arr_fill.
      destruct ((0 <=? j) && (j <? 0 + W)) eqn:C; [|lia]. rewrite Z.sub_0_r. cbn [rbits bf_value].
      rewrite Z.testbit_odd, Z.shiftr_div_pow2 by lia. reflexivity.
    + split; [reflexivity|split; assumption].
  - destruct (@call_sim MSB_1 W (r_data r) a (ReadItem k) HR I) as [E _]. cbn [bf_call snd] in E.
    unfold reg_getitem. unfold obs in E. split; [exact E|].
    split; [exact EW|]. destruct k as [i|[s|] [e|]]; exact HR.
  - destruct (@call_sim MSB_1 W (r_data r) a (Write (OpItem k v)) HR (OP k v F)) as [E H].
    cbn [bf_call bf_step] in E, H. unfold reg_setitem.
    destruct (bf_setitem (r_data r) k v) as [b y]. cbn [fst snd unit_z] in *.
    split; [rewrite <- E; destruct y; reflexivity|]. split; [exact EW|]. exact H.
  - unfold reg_clear, bf_clear. cbn [unit_z fst snd bind]. split; [reflexivity|]. split; [exact EW|].
    cbn [reg_with r_data]. eapply R_with; [exact HR| |].
    + unfold fits. destruct HW as [->| ->]; lia.
    + intros j Hj. rewrite Z.testbit_0_l. reflexivity.
Qed.

Lemma run_RB W xs : good_width W -> forall r a, RB W r a -> Forall (act_fits W) xs ->
  exists a', RB W (reg_run r xs) a'.
Proof.
  intros HW. induction xs as [|x xs IH]; intros r a HR F; [exists a; exact HR|].
  inversion F as [|y l F1 F2]; subst. cbn [reg_run fold_left].
  destruct (act_sim W r a x HW HR F1) as [_ H]. exact (IH _ _ H F2).
Qed.

Lemma C34_register_bits_pf : forall data name W r0 xs,
  register_new data name W = Ok r0 -> Forall (act_fits W) xs ->
  let r := reg_run r0 xs in
  0 <= reg_value r < 2 ^ W /\
  (forall i, 1 <= i <= W -> reg_getitem r (Idx i) = Ok (bit_at (reg_value r) (W - i))) /\
  (forall i, ~ (1 <= i <= W) -> reg_getitem r (Idx i) = Err ValueError /\
                                forall x, reg_setitem r (Idx i) x = (r, Err ValueError)) /\
  (forall s e, 1 <= s <= e -> e <= W ->
     reg_getitem r (Slice (Some s) (Some e)) = Ok (bits_at (reg_value r) (W - e) (e - s + 1))) /\
  (forall i x, 1 <= i <= W -> x = 0 \/ x = 1 ->
     let '(r', o) := reg_setitem r (Idx i) x in
     o = Ok tt /\ bit_replaced (reg_value r) (reg_value r') (W - i) x) /\
  (forall s e x, 1 <= s <= e -> e <= W -> 0 <= x < 2 ^ (e - s + 1) ->
     let '(r', o) := reg_setitem r (Slice (Some s) (Some e)) x in
     o = Ok tt /\ bits_replaced (reg_value r) (reg_value r') (W - e) (e - s + 1) x).
Proof.
  intros u name W r0 xs E F. apply register_new_inv in E. destruct E as (HW & Hu & _ & ->). cbv zeta.
  assert (HR0 : RB W (mkreg (rbits W u) name W) (Z.testbit u))
    by (split; [reflexivity|apply R_new; assumption]).
  destruct (run_RB W xs HW _ _ HR0 F) as [a [EW HR]].
  set (r := reg_run _ xs) in *. clearbody r. clear HR0.
  assert (EB := R_rbits _ _ _ HR). assert (HV := HR). destruct HV as (_ & _ & _ & _ & HV & _).
  unfold fits in HV. fold (reg_value r) in EB, HV.
  assert (WF := rbits_wf W (reg_value r) HW).
  assert (VI : forall i, valid_index (bf_numbering (rbits W (reg_value r))) (bf_width (rbits W (reg_value r))) i
               <-> 1 <= i <= W) by (intros i; cbn; tauto).
  assert (VR : forall s e, 1 <= s <= e -> e <= W -> vrange (rbits W (reg_value r)) s e).
  { intros s e H1 H2. unfold vrange, valid_range, valid_index, weight; cbn [rbits bf_order bf_numbering bf_width]. lia. }
  assert (RS : forall s e, 1 <= s <= e -> range_size MSB_1 W s e = e - s + 1)
    by (intros; unfold range_size, weight; lia).
  assert (RL : forall s e, 1 <= s <= e -> range_lo MSB_1 W s e = W - e)
    by (intros; unfold range_lo, weight; lia).
  assert (ES : forall k x, reg_setitem r k x =
            let '(b, y) := bf_setitem (rbits W (reg_value r)) k x in (reg_with r b, y)).
  { intros k x. unfold reg_setitem. rewrite <- EB. reflexivity. }
  split; [exact HV|]. split; [|split; [|split; [|split]]].
  - intros i Hi. unfold reg_getitem. rewrite EB. rewrite getitem_bit by (apply VI; exact Hi).
    cbn [rbits bf_value bf_numbering bf_width weight]. do 2 f_equal. lia.
  - intros i Hi. split.
    + unfold reg_getitem. rewrite EB. apply getitem_bit_err. rewrite VI. exact Hi.
    + intros x. rewrite ES.
      rewrite C04_bit_write_invalid_pf by (rewrite VI; exact Hi).
      unfold reg_with. rewrite <- EB. destruct r; reflexivity.
  - intros s e H1 H2. unfold reg_getitem. rewrite EB.
    rewrite (@getitem_slice_msb (rbits W (reg_value r)) s e eq_refl (VR s e H1 H2)). cbn [rbits bf_value bf_numbering bf_width].
    rewrite RS, RL by exact H1. reflexivity.
  - intros i x Hi Hx. rewrite ES.
    destruct (@setitem_bit (rbits W (reg_value r)) i x WF) as (v' & -> & B & _); [apply VI; exact Hi|exact Hx|exact HV|].
    split; [reflexivity|]. cbn [rbits bf_value bf_numbering bf_width weight] in B.
    replace (W - i) with (W - 1 - (i - 1)) by lia. exact B.
  - intros s e x H1 H2 Hx. rewrite ES.
    destruct (@setitem_slice_edge (rbits W (reg_value r)) s e x WF (VR s e H1 H2)) as (v' & -> & B & _).
    + apply mask_shift_msb; [reflexivity|apply VR; assumption].
    + exact HV.
    + cbn [rbits bf_numbering bf_width]. rewrite RS by exact H1. exact Hx.
    + split; [reflexivity|]. cbn [rbits bf_value bf_numbering bf_width] in B.
      rewrite RS, RL in B by exact H1. exact B.
Qed.
(*@
Example C34_example :
  match register_new 5 (Some (lit "X0")) 16 with
  | Ok r0 =>
      let r := reg_run r0 [ASetItem (Idx 1) 1; ASetItem (Slice (Some 9) (Some 12)) 9; ASetItem (Idx 17) 1] in
      reg_value r = 32768 + 9 * 16 + 5 /\ reg_getitem r (Slice (Some 9) (Some 16)) = Ok 149
  | Err _ => False
  end /\
  Forall (act_fits 16) [ASetItem (Idx 1) 1; ASetItem (Slice (Some 9) (Some 12)) 9; ASetItem (Idx 17) 1].
Proof.
  split; [vm_compute; split; reflexivity|].
  repeat constructor; cbn; unfold fits, range_size, weight; lia.
Qed.
@*)
