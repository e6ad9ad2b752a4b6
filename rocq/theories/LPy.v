(** Lemmas on the Python run time fragment. *)
From Coq Require Import FinFun.
From Verif Require Import Py.

Lemma zlen_app {A} (a b : list A) : zlen (a ++ b) = zlen a + zlen b.
Proof. unfold zlen. rewrite app_length. lia. Qed.
Lemma zlen_nonneg {A} (l : list A) : 0 <= zlen l.
Proof. unfold zlen. lia. Qed.
Lemma zlen_cons {A} (x : A) l : zlen (x :: l) = 1 + zlen l.
Proof. unfold zlen. cbn [List.length]. lia. Qed.

(** ** range *)
Lemma py_range_length a b : zlen (py_range a b) = Z.max 0 (b - a).
Proof. unfold zlen, py_range. rewrite map_length, seq_length. lia. Qed.

Lemma py_range_In a b x : In x (py_range a b) <-> a <= x < b.
Proof.
  unfold py_range. rewrite in_map_iff. split.
  - intros (i & <- & Hi). apply in_seq in Hi. lia.
  - intros H. exists (Z.to_nat (x - a)). split; [lia|]. apply in_seq. lia.
Qed.

Lemma py_range_NoDup a b : NoDup (py_range a b).
Proof.
  unfold py_range. apply Injective_map_NoDup; [|apply seq_NoDup].
  intros i j H. lia.
Qed.

Lemma py_range_nil a b : b <= a -> py_range a b = [].
Proof. intros H. unfold py_range. replace (Z.to_nat (b - a)) with O by lia. reflexivity. Qed.

Lemma py_range_cons a b : a < b -> py_range a b = a :: py_range (a + 1) b.
Proof.
  intros H. unfold py_range.
  replace (Z.to_nat (b - a)) with (S (Z.to_nat (b - (a + 1)))) by lia.
  cbn [seq map]. f_equal; [lia|].
  rewrite <- seq_shift, map_map. apply map_ext. intros i. lia.
Qed.

Lemma py_range_snoc a b : a <= b -> py_range a (b + 1) = py_range a b ++ [b].
Proof.
  intros H. unfold py_range.
  replace (Z.to_nat (b + 1 - a)) with (Z.to_nat (b - a) + 1)%nat by lia.
  rewrite seq_app, map_app. cbn [seq map plus]. do 2 f_equal. lia.
Qed.

Lemma py_range_nth a b i : 0 <= i < b - a -> nth_error (py_range a b) (Z.to_nat i) = Some (a + i).
Proof.
  intros H. unfold py_range.
  rewrite nth_error_map.
  rewrite (nth_error_nth' _ O) by (rewrite seq_length; lia).
  rewrite seq_nth by lia. cbn. f_equal. lia.
Qed.

(** ** dicts *)
Section Dict.
  Context {K V : Type} `{EqB K}.
  Implicit Types (d : dict K V) (k : K).

  Lemma eqb_refl k : eqb k k = true.
  Proof. apply eqb_ok. reflexivity. Qed.
  Lemma eqb_neq a b : a <> b -> eqb a b = false.
  Proof. intros N. destruct (eqb a b) eqn:E; [|reflexivity]. apply eqb_ok in E. contradiction. Qed.
  Lemma eqb_sym a b : eqb a b = eqb b a.
  Proof.
    destruct (eqb a b) eqn:E, (eqb b a) eqn:F; try reflexivity.
    - apply eqb_ok in E. subst. rewrite eqb_refl in F. discriminate.
    - apply eqb_ok in F. subst. rewrite eqb_refl in E. discriminate.
  Qed.
  Lemma eq_dec_b (a b : K) : a = b \/ a <> b.
  Proof.
    destruct (eqb a b) eqn:E; [left; apply eqb_ok; exact E|right].
    intros ->. rewrite eqb_refl in E. discriminate.
  Qed.

  Lemma dget_dset_eq d k v : dget (dset d k v) k = Some v.
  Proof.
    induction d as [|[k' v'] d IH]; simpl.
    - rewrite eqb_refl. reflexivity.
    - destruct (eqb k' k) eqn:E; simpl; rewrite E; auto.
  Qed.
  Lemma dget_dset_ne d k k2 v : k2 <> k -> dget (dset d k v) k2 = dget d k2.
  Proof.
    intros N. induction d as [|[k' v'] d IH]; simpl.
    - rewrite eqb_neq by congruence. reflexivity.
    - destruct (eqb k' k) eqn:E; simpl.
      + apply eqb_ok in E. subst k'. rewrite eqb_neq by congruence. reflexivity.
      + rewrite IH. reflexivity.
  Qed.
  Lemma dget_dset d k k2 v :
    dget (dset d k v) k2 = if eqb k k2 then Some v else dget d k2.
  Proof.
    destruct (eqb k k2) eqn:E.
    - apply eqb_ok in E. subst. apply dget_dset_eq.
    - apply dget_dset_ne. intros ->. rewrite eqb_refl in E. discriminate.
  Qed.
  Lemma dkeys_dset d k v :
    dkeys (dset d k v) = if dmem d k then dkeys d else dkeys d ++ [k].
  Proof.
    unfold dmem. induction d as [|[k' v'] d IH]; simpl; [reflexivity|].
    destruct (eqb k' k) eqn:E; simpl.
    - reflexivity.
    - unfold dkeys in *. rewrite IH. destruct (dget d k); reflexivity.
  Qed.
  Lemma dget_In d k : dmem d k = true <-> In k (dkeys d).
  Proof.
    unfold dmem. induction d as [|[k' v'] d IH]; simpl.
    - split; [discriminate|tauto].
    - destruct (eqb k' k) eqn:E.
      + apply eqb_ok in E. split; auto.
      + rewrite IH. split; [auto|]. intros [->|I]; [|auto].
        rewrite eqb_refl in E. discriminate.
  Qed.
  Lemma dget_None d k : dget d k = None <-> ~ In k (dkeys d).
  Proof.
    rewrite <- dget_In. unfold dmem. destruct (dget d k); split; intros; congruence.
  Qed.
  Lemma dget_Some_In d k v : dget d k = Some v -> In (k, v) d.
  Proof.
    induction d as [|[k' v'] d IH]; simpl; [discriminate|].
    destruct (eqb k' k) eqn:E.
    - intros [= <-]. apply eqb_ok in E. subst. auto.
    - auto.
  Qed.
  Lemma In_dget d k v : NoDup (dkeys d) -> In (k, v) d -> dget d k = Some v.
  Proof.
    induction d as [|[k' v'] d IH]; simpl; [tauto|].
    intros ND. inversion ND as [|x l NI ND' ]; subst. intros [[= -> ->]|I].
    - rewrite eqb_refl. reflexivity.
    - rewrite eqb_neq; [auto|]. intros ->. apply NI. apply (in_map fst) in I. exact I.
  Qed.
  Lemma dset_NoDup d k v : NoDup (dkeys d) -> NoDup (dkeys (dset d k v)).
  Proof.
    intros ND. rewrite dkeys_dset. destruct (dmem d k) eqn:E; [exact ND|].
    apply NoDup_Add with (a := k) (l := dkeys d).
    - clear. induction (dkeys d) as [|x l IH]; simpl; constructor; assumption.
    - split; [exact ND|]. rewrite <- dget_In. congruence.
  Qed.
  Lemma dset_len d k v :
    zlen (dset d k v) = if dmem d k then zlen d else zlen d + 1.
  Proof.
    assert (A : zlen (dset d k v) = zlen (dkeys (dset d k v)))
      by (unfold zlen, dkeys; rewrite map_length; reflexivity).
    assert (B : zlen d = zlen (dkeys d))
      by (unfold zlen, dkeys; rewrite map_length; reflexivity).
    rewrite A, B, dkeys_dset. destruct (dmem d k); [reflexivity|].
    rewrite zlen_app. reflexivity.
  Qed.
  Lemma dset_same d k v : dget d k = Some v -> dset d k v = d.
  Proof.
    induction d as [|[k' v'] d IH]; simpl; [discriminate|].
    destruct (eqb k' k); intros E; [congruence|]. rewrite IH by exact E. reflexivity.
  Qed.
End Dict.

Lemma inb_In {A} `{EqB A} (x : A) l : inb x l = true <-> In x l.
Proof.
  unfold inb. rewrite existsb_exists. split.
  - intros (y & I & E). apply eqb_ok in E. subst. exact I.
  - intros I. exists x. split; [exact I|apply eqb_refl].
Qed.
Lemma inb_false {A} `{EqB A} (x : A) l : inb x l = false <-> ~ In x l.
Proof. rewrite <- inb_In. destruct (inb x l); split; congruence. Qed.

(** ** slices *)
Lemma py_slice_from {A} (l : list A) i :
  0 <= i -> py_slice l (Some i) None = skipn (Z.to_nat i) l.
Proof.
  intros Hi. unfold py_slice, slice_bound.
  destruct (Z.ltb_spec i 0); [lia|].
  assert (L := zlen_nonneg l).
  assert (E : skipn (Z.to_nat (Z.min i (zlen l))) l = skipn (Z.to_nat i) l).
  { destruct (Z_le_dec i (zlen l)).
    - f_equal. lia.
    - rewrite !skipn_all2; [reflexivity| |]; unfold zlen in *; lia. }
  rewrite E. apply firstn_all2. rewrite skipn_length. unfold zlen in *. lia.
Qed.

Lemma py_slice_range {A} (l : list A) i j :
  0 <= i -> i <= j ->
  py_slice l (Some i) (Some j) = firstn (Z.to_nat (j - i)) (skipn (Z.to_nat i) l).
Proof.
  intros Hi Hj. unfold py_slice, slice_bound.
  destruct (Z.ltb_spec i 0); [lia|]. destruct (Z.ltb_spec j 0); [lia|].
  assert (L := zlen_nonneg l).
  destruct (Z_le_dec (zlen l) i).
  - rewrite (skipn_all2 (n := Z.to_nat i)) by (unfold zlen in *; lia).
    rewrite skipn_all2 by (unfold zlen in *; lia).
    rewrite !firstn_nil. reflexivity.
  - replace (Z.min i (zlen l)) with i by lia.
    destruct (Z_le_dec j (zlen l)).
    + replace (Z.min j (zlen l)) with j by lia. reflexivity.
    + rewrite !firstn_all2; [reflexivity| |]; rewrite skipn_length; unfold zlen in *; lia.
Qed.

(** ** numerals *)
Definition dig (b c : Z) : Prop := 48 <= c < 48 + b.

Definition spell (base : Z) (acc : Z) (s : str) : Z :=
  fold_left (fun acc c => acc * base + (c - 48)) s acc.

Lemma digits_of_spell b fuel : 2 <= b -> forall n acc x,
  0 <= n -> n < 2 ^ Z.of_nat fuel -> (0 < fuel)%nat ->
  x = 0 -> spell b x (digits_of b fuel n acc) = spell b n acc.
Proof.
  intros Hb. induction fuel as [|f IH]; intros n acc x Hn Hlt Hf Hx; [lia|].
  cbn [digits_of]. destruct (Z.eqb_spec (n / b) 0) as [E|E].
  - subst x. cbn [spell fold_left]. fold (spell b). unfold spell.
    f_equal. rewrite (Z.mod_small n b); [lia|].
    apply Z.div_small_iff in E; lia.
  - assert (Hdiv : n / b <= n / 2).
    { apply Z.div_le_compat_l; lia. }
    assert (Hpos : 0 <= n / b) by (apply Z.div_pos; lia).
    rewrite Nat2Z.inj_succ, Z.pow_succ_r in Hlt by lia.
    assert (n / 2 < 2 ^ Z.of_nat f) by (apply Z.div_lt_upper_bound; lia).
    destruct f as [|f].
    + change (2 ^ Z.of_nat 0) with 1 in *. lia.
    + rewrite IH by lia. cbn [spell fold_left]. unfold spell. f_equal.
      rewrite (Z.mul_comm (n / b)). assert (D := Z.div_mod n b). lia.
Qed.

Lemma digits_of_dig b fuel : 2 <= b -> forall n acc,
  0 <= n -> Forall (dig b) acc -> Forall (dig b) (digits_of b fuel n acc).
Proof.
  intros Hb. induction fuel as [|f IH]; intros n acc Hn Ha; cbn [digits_of]; [exact Ha|].
  assert (M := Z.mod_pos_bound n b ltac:(lia)).
  assert (Forall (dig b) ((48 + n mod b) :: acc)) by (constructor; [unfold dig; lia|exact Ha]).
  destruct (n / b =? 0); [assumption|]. apply IH; [apply Z.div_pos; lia|assumption].
Qed.

Lemma digits_of_length b fuel : 2 <= b -> forall n acc W,
  0 <= n < b ^ W -> 1 <= W ->
  zlen (digits_of b fuel n acc) <= W + zlen acc.
Proof.
  intros Hb. induction fuel as [|f IH]; intros n acc W Hn HW; cbn [digits_of]; [lia|].
  destruct (Z.eqb_spec (n / b) 0) as [E|E].
  - rewrite zlen_cons. lia.
  - assert (W <> 1).
    { intros ->. rewrite Z.pow_1_r in Hn. apply E. apply Z.div_small. lia. }
    assert (L := IH (n / b) ((48 + n mod b) :: acc) (W - 1)).
    rewrite zlen_cons in L.
    assert (n / b < b ^ (W - 1)).
    { apply Z.div_lt_upper_bound; [lia|].
      rewrite <- Z.pow_succ_r by lia. replace (Z.succ (W - 1)) with W by lia. lia. }
    assert (0 <= n / b) by (apply Z.div_pos; lia).
    specialize (L ltac:(lia) ltac:(lia)). lia.
Qed.

Lemma numeral_fuel n : 0 <= n -> n < 2 ^ Z.of_nat (S (Z.to_nat (Z.log2 n))).
Proof.
  intros Hn. assert (L := Z.log2_nonneg n).
  rewrite Nat2Z.inj_succ, Z2Nat.id by lia.
  destruct (Z.eq_dec n 0) as [->|N]; [reflexivity|].
  apply Z.log2_spec. lia.
Qed.

Lemma numeral_spell b n : 2 <= b -> 0 <= n -> spell b 0 (numeral b n) = n.
Proof.
  intros Hb Hn. unfold numeral. rewrite digits_of_spell; try lia; [reflexivity|].
  apply numeral_fuel; exact Hn.
Qed.
Lemma numeral_dig b n : 2 <= b -> 0 <= n -> Forall (dig b) (numeral b n).
Proof. intros Hb Hn. apply digits_of_dig; auto. Qed.
Lemma numeral_length b n W : 2 <= b -> 0 <= n < b ^ W -> 1 <= W -> zlen (numeral b n) <= W.
Proof.
  intros Hb Hn HW. assert (L := digits_of_length b (S (Z.to_nat (Z.log2 n))) Hb n [] W Hn HW).
  change (zlen (@nil Z)) with 0 in L. unfold numeral. lia.
Qed.

Lemma spell_app b x s t : spell b x (s ++ t) = spell b (spell b x s) t.
Proof. unfold spell. apply fold_left_app. Qed.
Lemma spell_zeros b n : spell b 0 (repeat 48 n) = 0.
Proof. induction n; [reflexivity|]. cbn [repeat]. unfold spell in *. cbn. rewrite IHn. reflexivity. Qed.
Lemma spell_inj_len b : 2 <= b -> forall s t x y,
  List.length s = List.length t -> Forall (dig b) s -> Forall (dig b) t ->
  spell b x s = spell b y t -> x = y /\ s = t.
Proof.
  intros Hb. induction s as [|c s IH] using rev_ind; intros t x y HL Hs Ht E.
  - destruct t; [auto|discriminate].
  - destruct t as [|d t] using rev_ind; [rewrite app_length in HL; simpl in HL; lia|].
    clear IHt. rewrite !app_length in HL. simpl in HL.
    rewrite !spell_app in E. apply Forall_app in Hs, Ht.
    destruct Hs as [Hs Hc], Ht as [Ht Hd]. inversion Hc; inversion Hd; subst.
    unfold dig in *.
    set (p := spell b x s) in *. set (q := spell b y t) in *.
    change (p * b + (c - 48) = q * b + (d - 48)) in E.
    destruct (Z.div_mod_unique b p q (c - 48) (d - 48)) as [Epq Ecd]; try lia.
    assert (c = d) as -> by lia.
    destruct (IH t x y ltac:(lia) Hs Ht Epq) as [-> ->]. auto.
Qed.

Lemma dset_fresh {K V} `{EqB K} (d : dict K V) k v :
  ~ In k (dkeys d) -> dset d k v = d ++ [(k, v)].
Proof.
  induction d as [|[k' v'] d IH]; cbn; [reflexivity|]. intros N.
  rewrite eqb_neq by tauto. rewrite IH by tauto. reflexivity.
Qed.
Lemma fold_dset_fresh {A K V} `{EqB K} (f : A -> K) (g : A -> V) (xs : list A) : forall d : dict K V,
  NoDup (map f xs) -> (forall x, In x xs -> ~ In (f x) (dkeys d)) ->
  fold_left (fun d x => dset d (f x) (g x)) xs d = d ++ map (fun x => (f x, g x)) xs.
Proof.
  induction xs as [|x xs IH]; intros d ND F; cbn [fold_left map]; [symmetry; apply app_nil_r|].
  inversion ND as [|y l N1 N2]; subst.
  rewrite dset_fresh by (apply F; left; reflexivity).
  rewrite IH; [rewrite <- app_assoc; reflexivity|exact N2|].
  intros z Hz. unfold dkeys. rewrite map_app. intros I. apply in_app_or in I. destruct I as [I|I].
  - apply (F z); [right; exact Hz|exact I].
  - cbn in I. destruct I as [I|[]]. apply N1. rewrite I. apply in_map. exact Hz.
Qed.
