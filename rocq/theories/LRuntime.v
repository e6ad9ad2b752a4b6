(** The fragment of the Python run time in Py.v against the descriptions of the Python library: each function is
    related to a description that does not use it.  These theorems reduce what has to be trusted about Py.v; they
    are not properties of /repo. *)
From Coq Require Import ZArith List Bool Lia Permutation Sorted.
From Verif Require Import Py LPy LSort MCards SCards LCards MSymbols LSymBuild MTools STools LListTool.
#[local] Arguments Z.add : simpl never.
#[local] Arguments Z.sub : simpl never.
#[local] Arguments Z.mul : simpl never.
#[local] Arguments Z.pow : simpl never.

(** *** l[i]: from the front, or with a negative number from the end *)
Theorem rt_index : forall A (l : list A) i r, py_index l i = r <->
  (exists a x b, l = a ++ x :: b /\ (i = zlen a \/ i = - zlen b - 1) /\ r = Ok x) \/
  ((i < - zlen l \/ zlen l <= i) /\ r = Err IndexError).
Proof.
  intros A l i r.
  assert (F : forall a x b, l = a ++ x :: b -> i = zlen a \/ i = - zlen b - 1 -> py_index l i = Ok x).
  { intros a x b -> D. unfold py_index. rewrite zlen_app, zlen_cons. pose proof (zlen_nonneg a). pose proof (zlen_nonneg b).
    assert (K : (if i <? 0 then i + (zlen a + (1 + zlen b)) else i) = zlen a) by (destruct (Z.ltb_spec i 0); lia).
    rewrite K. destruct (Z.ltb_spec (zlen a) 0); [lia|]. destruct (Z.leb_spec (zlen a + (1 + zlen b)) (zlen a)); [lia|]. cbn [orb].
    unfold zlen. rewrite Nat2Z.id, nth_error_app2 by lia. rewrite Nat.sub_diag. reflexivity. }
  assert (G : i < - zlen l \/ zlen l <= i -> py_index l i = Err IndexError).
  { intros D. unfold py_index. pose proof (zlen_nonneg l). destruct (Z.ltb_spec i 0).
    - destruct (Z.ltb_spec (i + zlen l) 0); [reflexivity|lia].
    - destruct (Z.ltb_spec i 0); [lia|]. destruct (Z.leb_spec (zlen l) i); [reflexivity|lia]. }
  assert (C : (i < - zlen l \/ zlen l <= i) \/ exists a x b, l = a ++ x :: b /\ (i = zlen a \/ i = - zlen b - 1)).
  { assert (D : i < - zlen l \/ zlen l <= i \/ - zlen l <= i < zlen l) by lia.
    destruct D as [D|[D|D]]; auto. right.
    set (k := if i <? 0 then i + zlen l else i). assert (K : 0 <= k < zlen l) by (unfold k; destruct (Z.ltb_spec i 0); lia).
    destruct (nth_error l (Z.to_nat k)) as [x|] eqn:N; [|apply nth_error_None in N; unfold zlen in K; lia].
    apply nth_error_split in N. destruct N as (a & b & -> & La). exists a, x, b. split; [reflexivity|].
    assert (Q : zlen a = k) by (unfold zlen in *; lia). unfold k in Q. rewrite zlen_app, zlen_cons in Q. destruct (Z.ltb_spec i 0); lia. }
  split.
  - intros <-. destruct C as [C|(a & x & b & E & D)]; [right; auto|left]. exists a, x, b. eauto.
  - intros [(a & x & b & E & D & ->)|[D ->]]; eauto.
Qed.
Example rt_index_ex : py_index (lit "abc") (-1) = Ok 99 /\ py_index (lit "abc") 3 = Err IndexError /\ py_index (lit "abc") (-4) = Err IndexError.
Proof. repeat split. Qed.

(** *** l[i:j] *)
(** the place where a list of [n] items is cut for a bound *)
Definition cut (n i p : Z) : Prop :=
  (0 <= i <= n /\ p = i) \/ (n < i /\ p = n) \/ (- n <= i < 0 /\ p = n + i) \/ (i < - n /\ p = 0).
Definition cut_opt (n default : Z) (i : option Z) (p : Z) : Prop :=
  match i with None => p = default | Some i => cut n i p end.
Lemma bound_cut n i : 0 <= n -> cut n i (slice_bound n i).
Proof. intros H. unfold cut, slice_bound. destruct (Z.ltb_spec i 0); lia. Qed.
Theorem rt_slice : forall A (l : list A) i j, exists lo hi, cut_opt (zlen l) 0 i lo /\ cut_opt (zlen l) (zlen l) j hi /\
  (lo <= hi -> exists a b, l = a ++ py_slice l i j ++ b /\ zlen a = lo /\ zlen b = zlen l - hi) /\
  (hi <= lo -> py_slice l i j = []).
Proof.
  intros A l i j. pose proof (zlen_nonneg l) as N.
  set (lo := match i with None => 0 | Some i => slice_bound (zlen l) i end).
  set (hi := match j with None => zlen l | Some j => slice_bound (zlen l) j end).
  assert (CL : cut_opt (zlen l) 0 i lo) by (destruct i; [apply bound_cut; exact N|reflexivity]).
  assert (CH : cut_opt (zlen l) (zlen l) j hi) by (destruct j; [apply bound_cut; exact N|reflexivity]).
  exists lo, hi. split; [exact CL|]. split; [exact CH|].
  assert (BL : 0 <= lo <= zlen l) by (destruct i; cbn in CL; unfold cut in CL; lia).
  assert (BH : 0 <= hi <= zlen l) by (destruct j; cbn in CH; unfold cut in CH; lia).
  change (py_slice l i j) with (firstn (Z.to_nat (hi - lo)) (skipn (Z.to_nat lo) l)). split.
  - intros L. exists (firstn (Z.to_nat lo) l), (skipn (Z.to_nat (hi - lo)) (skipn (Z.to_nat lo) l)).
    split; [rewrite firstn_skipn; symmetry; apply firstn_skipn|]. unfold zlen in *. rewrite firstn_length, !skipn_length. split; lia.
  - intros L. replace (Z.to_nat (hi - lo)) with 0%nat by lia. reflexivity.
Qed.
Example rt_slice_ex : py_slice (lit "abcdef") (Some 1) (Some (-2)) = lit "bcd" /\ py_slice (lit "abcdef") (Some (-9)) (Some 2) = lit "ab" /\
  py_slice (lit "abcdef") (Some 4) (Some 2) = [] /\ py_slice (lit "abcdef") None None = lit "abcdef".
Proof. repeat split. Qed.

(** *** dict *)
Theorem rt_dict_get : forall K V (E : EqB K) (d : dict K V) k v k',
  dget (dset d k v) k = Some v /\ (k' <> k -> dget (dset d k v) k' = dget d k').
Proof.
  intros K V E d k v k'. induction d as [|[k0 v0] d [IH1 IH2]]; cbn [dset dget].
  - split; [rewrite (proj2 (eqb_ok k k) eq_refl); reflexivity|]. intros N. destruct (eqb k k') eqn:Q; [apply eqb_ok in Q; congruence|reflexivity].
  - destruct (eqb k0 k) eqn:Q; cbn [dget].
    + apply eqb_ok in Q. subst k0. rewrite (proj2 (eqb_ok k k) eq_refl). split; [reflexivity|].
      intros N. destruct (eqb k k') eqn:Q; [apply eqb_ok in Q; congruence|reflexivity].
    + rewrite Q. split; [exact IH1|]. intros N. destruct (eqb k0 k'); [reflexivity|exact (IH2 N)].
Qed.
(** a new key comes last, an old one stays where it is *)
Theorem rt_dict_order : forall K V (E : EqB K) (d : dict K V) k v,
  (In k (dkeys d) -> dkeys (dset d k v) = dkeys d) /\ (~ In k (dkeys d) -> dset d k v = d ++ [(k, v)]).
Proof.
  intros K V E d k v. induction d as [|[k0 v0] d [IH1 IH2]]; cbn [dset dkeys map In fst].
  - split; [intros []|reflexivity].
  - destruct (eqb k0 k) eqn:Q.
    + apply eqb_ok in Q. subst k0. split; [reflexivity|]. intros N. destruct N. left. reflexivity.
    + assert (k0 <> k) by (intros ->; rewrite (proj2 (eqb_ok k k) eq_refl) in Q; discriminate). split.
      * intros [I|I]; [contradiction|]. cbn [map fst]. f_equal. apply IH1. exact I.
      * intros N. cbn [app]. f_equal. apply IH2. intros I. apply N. right. exact I.
Qed.
Theorem rt_dict_in : forall K V (E : EqB K) (d : dict K V) k,
  (dmem d k = true <-> In k (dkeys d)) /\ (forall v, dindex d k = Ok v -> In (k, v) d) /\ (dindex d k = Err KeyError <-> ~ In k (dkeys d)) /\
  (forall e, dindex d k = Err e -> e = KeyError).
Proof.
  intros K V E d k. unfold dmem, dindex.
  assert (G : match dget d k with Some v => In (k, v) d | None => ~ In k (dkeys d) end).
  { induction d as [|[k0 v0] d IH]; cbn [dget dkeys map In fst]; [tauto|]. destruct (eqb k0 k) eqn:Q.
    - apply eqb_ok in Q. subst. left. reflexivity.
    - destruct (dget d k); [right; exact IH|]. intros [->|I]; [rewrite (proj2 (eqb_ok k k) eq_refl) in Q; discriminate|exact (IH I)]. }
  assert (IK : forall v, In (k, v) d -> In k (dkeys d)) by (intros v I; apply (in_map fst) in I; exact I).
  destruct (dget d k) as [v|].
  - split; [split; eauto|]. split; [intros w [= <-]; exact G|]. split; [|discriminate].
    split; [discriminate|]. intros N. destruct (N (IK v G)).
  - split; [split; [discriminate|tauto]|]. split; [discriminate|]. split; [tauto|]. intros e [= <-]. reflexivity.
Qed.
Example rt_dict_ex : dset [(lit "a", 1); (lit "b", 2)] (lit "a") 3 = [(lit "a", 3); (lit "b", 2)] /\
  dset [(lit "a", 1); (lit "b", 2)] (lit "c") 3 = [(lit "a", 1); (lit "b", 2); (lit "c", 3)].
Proof. split; reflexivity. Qed.

(** *** range(a, b), << and >> *)
Theorem rt_range : forall a b i x, nth_error (py_range a b) i = Some x <-> x = a + Z.of_nat i /\ x < b.
Proof.
  intros a b i x. destruct (Z.lt_ge_cases (Z.of_nat i) (b - a)) as [L|G].
  - pose proof (py_range_nth a b (Z.of_nat i) ltac:(lia)) as P. rewrite Nat2Z.id in P. rewrite P. split; [intros [= <-]; lia|intros [-> _]; reflexivity].
  - pose proof (py_range_length a b) as P. assert (N : nth_error (py_range a b) i = None) by (apply nth_error_None; unfold zlen in P; lia).
    rewrite N. split; [discriminate|]. intros [-> ?]. lia.
Qed.
Theorem rt_shift : forall x n,
  (0 <= n -> py_shl x n = Ok (x * 2 ^ n) /\ py_shr x n = Ok (x / 2 ^ n)) /\ (n < 0 -> py_shl x n = Err ValueError /\ py_shr x n = Err ValueError).
Proof.
  intros x n. unfold py_shl, py_shr. destruct (Z.ltb_spec n 0) as [L|G].
  - split; [lia|auto].
  - split; [|lia]. intros _. rewrite Z.shiftl_mul_pow2, Z.shiftr_div_pow2 by lia. auto.
Qed.
Example rt_range_ex : py_range (-1) 3 = [-1; 0; 1; 2] /\ py_shr (-5) 1 = Ok (-3) /\ py_shl 3 (-1) = Err ValueError.
Proof. repeat split. Qed.

(** *** s.strip() and s.split() *)
Theorem rt_strip : forall s t, strip s = t <-> trimmed s t.
Proof.
  intros s t. split; [intros <-; apply strip_trimmed|]. intros H. eapply trimmed_unique; [apply strip_trimmed|exact H].
Qed.
Inductive words : str -> list str -> Prop :=
| wo_nil p : blank p -> words p []
| wo_cons p w rest l : blank p -> w <> [] -> Forall (fun c => ~ white c) w -> (rest = [] \/ exists c r, rest = c :: r /\ white c) ->
    words rest l -> words (p ++ w ++ rest) (w :: l).
Lemma words_ok s l : words s l -> split_ws s = l.
Proof.
  assert (W : forall w, Forall (fun c => ~ white c) w -> forall cur r, w <> [] \/ cur <> [] ->
            (r = [] \/ exists c t, r = c :: t /\ white c) -> split_ws_aux cur (w ++ r) = (rev cur ++ w) :: split_ws_aux [] r).
  { induction 1 as [|c w H F IH]; intros cur r N R.
    - destruct N as [N|N]; [contradiction|]. rewrite app_nil_r. destruct cur as [|x cur]; [contradiction|].
      destruct R as [->|(c & t & -> & S)]; cbn [app split_ws_aux]; [reflexivity|]. apply white_ok in S. rewrite S. reflexivity.
    - cbn [app split_ws_aux]. rewrite (proj2 (not_white c) H). rewrite (IH (c :: cur) r); [|right; discriminate|exact R].
      cbn [rev]. rewrite <- app_assoc. reflexivity. }
  unfold split_ws. induction 1 as [p B|p w rest l B N F R H IH].
  - rewrite <- (app_nil_r p), split_ws_blank by exact B. reflexivity.
  - rewrite split_ws_blank by exact B. rewrite (W w F [] rest); [|auto|exact R]. rewrite IH. reflexivity.
Qed.
Lemma words_total : forall n s, (List.length s <= n)%nat -> exists l, words s l.
Proof.
  induction n as [|n IH]; intros s L.
  - destruct s; [|cbn in L; lia]. exists []. constructor. constructor.
  - destruct (split_ws s) as [|w rest] eqn:E.
    + destruct (strip_trimmed s) as (pre & post & H1 & B1 & B2 & H3 & _). destruct (strip s) as [|c r] eqn:ES.
      * exists []. constructor. rewrite H1. apply blank_app. auto.
      * exfalso. unfold split_ws in E. rewrite H1, split_ws_blank in E by exact B1. cbn [app split_ws_aux] in E.
        rewrite (proj2 (not_white c) (H3 c r eq_refl)) in E.
        assert (Q : forall u cur, cur <> [] -> split_ws_aux cur u <> []).
        { induction u as [|d u IHu]; intros cur N; cbn [split_ws_aux]; [destruct cur; [contradiction|discriminate]|].
          destruct (is_space d); [destruct cur; [contradiction|discriminate]|apply IHu; discriminate]. }
        apply (Q (r ++ post) [c]) in E; [exact E|discriminate].
    + pose proof (proj2 (first_word_ok s w) (ex_intro _ rest E)) as (p & q & -> & B & N & F & Q).
      destruct (IH q) as [l H].
      { rewrite !app_length in L. destruct w; [contradiction|]. cbn in L. lia. }
      exists (w :: l). constructor; assumption.
Qed.
Theorem rt_words : forall s l, split_ws s = l <-> words s l.
Proof.
  intros s l. split; [|apply words_ok]. intros <-. destruct (words_total (List.length s) s ltac:(lia)) as [l H]. pose proof (words_ok s l H) as E.
  rewrite E. exact H.
Qed.
Example rt_words_ex : split_ws (lit "  ab  c ") = [lit "ab"; lit "c"] /\ strip (9 :: lit " a b " ++ [10]) = lit "a b".
Proof. split; reflexivity. Qed.

(** *** s.split(c) and c.join(l) *)
Theorem rt_split : forall c s l, split_on c s = l <-> l <> [] /\ Forall (fun p => ~ In c p) l /\ join [c] l = s.
Proof.
  intros c s l. split.
  - intros <-. split; [apply split_nonempty|]. split; [|apply join_split].
    induction s as [|x s IH]; cbn [split_on]; [repeat constructor; intros []|]. destruct (Z.eqb_spec x c) as [->|N]; [constructor; [intros []|exact IH]|].
    destruct (split_on c s) as [|h t]; [constructor; [|constructor]; intros [?|[]]; contradiction|]. inversion IH; subst.
    constructor; [|assumption]. intros [?|?]; contradiction.
  - intros (N & F & <-). clear -N F. induction F as [|p l NP F IH]; [contradiction|]. destruct l as [|q l].
    + cbn [join]. apply split_no. exact NP.
    + change (join [c] (p :: q :: l)) with (p ++ c :: join [c] (q :: l)). rewrite split_yes by exact NP. f_equal. apply IH. discriminate.
Qed.
Example rt_split_ex : split_on 44 (lit "a,,b") = [lit "a"; []; lit "b"] /\ split_on 44 [] = [[]].
Proof. split; reflexivity. Qed.

(** *** prefixes, suffixes and characters *)
Theorem rt_startswith : forall s p, startswith s p = true <-> exists r, s = p ++ r.
Proof.
  intros s p. revert s. induction p as [|y p IH]; intros s.
  - split; [exists s; reflexivity|]. destruct s; reflexivity.
  - destruct s as [|x s]; cbn [startswith]; [split; [discriminate|intros [r E]; discriminate E]|]. rewrite andb_true_iff, Z.eqb_eq, IH. split.
    + intros [-> [r ->]]. exists r. reflexivity.
    + intros [r E]. injection E as -> ->. eauto.
Qed.
Theorem rt_endswith : forall s p, endswith s p = true <-> exists r, s = r ++ p.
Proof.
  intros s p. unfold endswith. rewrite rt_startswith. split.
  - intros [r E]. exists (rev r). apply (f_equal (@rev Z)) in E. rewrite rev_app_distr, !rev_involutive in E. exact E.
  - intros [r ->]. exists (rev r). apply rev_app_distr.
Qed.
Theorem rt_chars : forall c s, (has_char c s = true <-> In c s) /\ count_char c s = Z.of_nat (count_occ Z.eq_dec s c) /\
  ~ In c (remove_char c s) /\ (forall x, x <> c -> count_occ Z.eq_dec (remove_char c s) x = count_occ Z.eq_dec s x).
Proof.
  intros c s. unfold has_char, count_char, remove_char. split; [|split; [|split]].
  - rewrite existsb_exists. split; [intros (x & I & E); apply Z.eqb_eq in E; subst; exact I|]. intros I. exists c. split; [exact I|apply Z.eqb_refl].
  - unfold zlen. f_equal. induction s as [|x s IH]; [reflexivity|]. cbn [filter count_occ].
    destruct (Z.eqb_spec c x) as [->|N]; destruct (Z.eq_dec x _) as [Q|Q]; cbn [List.length]; congruence.
  - intros I. apply filter_In in I. destruct I as [_ I]. rewrite Z.eqb_refl in I. discriminate.
  - intros x N. induction s as [|y s IH]; [reflexivity|]. cbn [filter count_occ].
    destruct (Z.eqb_spec y c) as [->|M]; cbn [negb count_occ]; [destruct (Z.eq_dec c x); [congruence|exact IH]|destruct (Z.eq_dec y x); congruence].
Qed.
Example rt_chars_ex : endswith (lit "a.argus") (lit ".argus") = true /\ remove_char 10 (lit "a" ++ [10] ++ lit "b" ++ [10]) = lit "ab" /\ count_char 97 (lit "banana") = 3.
Proof. repeat split. Qed.

(** *** the order of strings and sorted() *)
Theorem rt_leb : forall a b, str_leb a b = true <->
  (exists r, b = a ++ r) \/ (exists p x y a' b', a = p ++ x :: a' /\ b = p ++ y :: b' /\ x < y).
Proof.
  induction a as [|x a IH]; intros b; cbn [str_leb].
  - split; [left; exists b; reflexivity|reflexivity].
  - destruct b as [|y b].
    + split; [discriminate|]. intros [[r E]|(p & u & v & a' & b' & E & E' & L)]; [discriminate E|destruct p; discriminate E'].
    + rewrite orb_true_iff, andb_true_iff, Z.ltb_lt, Z.eqb_eq, IH. split.
      * intros [L|[-> [[r ->]|(p & u & v & a' & b' & -> & -> & L)]]].
        -- right. exists [], x, y, a, b. auto.
        -- left. exists r. reflexivity.
        -- right. exists (y :: p), u, v, a', b'. auto.
      * intros [[r E]|(p & u & v & a' & b' & E & E' & L)].
        -- injection E as -> ->. right. split; [reflexivity|]. left. exists r. reflexivity.
        -- destruct p as [|z p]; injection E as -> ->; injection E' as -> ->; [left; exact L|]. right. split; [reflexivity|]. right. exists p, u, v, a', b'. auto.
Qed.
(** for any total order: the same items, in order, and those that compare equal in the order they had *)
Theorem rt_sort : forall A (le : A -> A -> bool), (forall x y, le x y = true \/ le y x = true) ->
  (forall x y z, le x y = true -> le y z = true -> le x z = true) ->
  forall l, Permutation l (sort_by le l) /\ StronglySorted (fun a b => le a b = true) (sort_by le l) /\
    forall x, filter (fun y => le x y && le y x) (sort_by le l) = filter (fun y => le x y && le y x) l.
Proof.
  intros A le total trans l. split; [apply sort_perm|]. split; [apply sort_sorted; assumption|]. intros x.
  assert (I : forall z m, filter (fun y => le x y && le y x) (insert_by le z m) = filter (fun y => le x y && le y x) (z :: m)).
  { intros z m. induction m as [|y m IH]; [reflexivity|]. cbn [insert_by]. destruct (le z y) eqn:Q; [reflexivity|].
    cbn [filter]. rewrite IH. cbn [filter]. destruct (le x y && le y x) eqn:Y; [|reflexivity]. destruct (le x z && le z x) eqn:Zx; [|reflexivity].
    apply andb_true_iff in Y, Zx. destruct Y as [Y1 Y2], Zx as [Z1 Z2]. rewrite (trans z x y Z2 Y1) in Q. discriminate. }
  induction l as [|z l IH]; [reflexivity|]. cbn [sort_by]. rewrite I. cbn [filter]. rewrite IH. reflexivity.
Qed.
Lemma leb_total : forall a b, str_leb a b = true \/ str_leb b a = true.
Proof.
  induction a as [|x a IH]; intros [|y b]; cbn [str_leb]; auto.
  destruct (Z.ltb_spec x y); [left; reflexivity|]. destruct (Z.ltb_spec y x); [right; reflexivity|].
  assert (x = y) as -> by lia. rewrite Z.eqb_refl. exact (IH b).
Qed.
Lemma leb_trans : forall a b c, str_leb a b = true -> str_leb b c = true -> str_leb a c = true.
Proof.
  induction a as [|x a IH]; intros [|y b] [|z c]; cbn [str_leb]; try discriminate; auto.
  rewrite !orb_true_iff, !andb_true_iff, !Z.ltb_lt, !Z.eqb_eq. intros [L|[-> L]] [M|[-> M]]; [left; lia|left; lia|left; exact M|right; eauto].
Qed.
Theorem rt_sorted : forall l, Permutation l (sorted l) /\ StronglySorted (fun a b => str_leb a b = true) (sorted l).
Proof.
  intros l. destruct (rt_sort str str_leb leb_total leb_trans l) as (P & S & _). split; assumption.
Qed.
Example rt_sort_ex : sorted [lit "b"; lit "ab"; lit "a"; lit "B"] = [lit "B"; lit "a"; lit "ab"; lit "b"] /\
  sort_by (fun x y => snd x <=? snd y) [(lit "p", 2); (lit "q", 1); (lit "r", 2); (lit "s", 1)] = [(lit "q", 1); (lit "s", 1); (lit "p", 2); (lit "r", 2)].
Proof. split; reflexivity. Qed.

(** *** str(n) and bin(n): the only numeral of [n] without leading zeros *)
Definition digits (b : Z) (t : str) (n : Z) : Prop :=
  t <> [] /\ Forall (fun c => 48 <= c < 48 + b) t /\ fold_left (fun a c => b * a + (c - 48)) t 0 = n /\ (forall r, t = 48 :: r -> r = []).
Lemma digits_numeral b n : 2 <= b -> 0 <= n -> digits b (numeral b n) n.
Proof.
  intros B H. split; [|split; [|split]].
  - intros E. pose proof (numeral_spell b n B H) as S. rewrite E in S. cbn in S. subst n. unfold numeral in E. cbn [digits_of Z.log2 Z.to_nat] in E.
    destruct (0 / b =? 0); discriminate E.
  - apply (numeral_dig b n B H).
  - rewrite <- (numeral_spell b n B H) at 2. unfold spell. generalize 0. induction (numeral b n) as [|c s IH]; intros a; [reflexivity|].
    cbn [fold_left]. rewrite IH. f_equal. lia.
  - assert (D : forall fuel n acc, 0 < n < 2 ^ Z.of_nat fuel -> forall r, digits_of b fuel n acc <> 48 :: r).
    { clear n H. induction fuel as [|f IH]; intros n acc H r; [change (2 ^ Z.of_nat 0) with 1 in H; lia|]. cbn [digits_of].
      destruct (Z.eqb_spec (n / b) 0) as [E|E].
      - intros X. injection X as X _. apply Z.div_small_iff in E; [|lia]. rewrite Z.mod_small in X by lia. lia.
      - apply IH. assert (0 <= n / b) by (apply Z.div_pos; lia). rewrite Nat2Z.inj_succ, Z.pow_succ_r in H by lia.
        assert (n / b <= n / 2) by (apply Z.div_le_compat_l; lia). assert (n / 2 < 2 ^ Z.of_nat f) by (apply Z.div_lt_upper_bound; lia). lia. }
    intros r E. destruct (Z.eq_dec n 0) as [->|N].
    + unfold numeral in E. cbn [digits_of Z.log2 Z.to_nat] in E. rewrite Z.div_0_l in E by lia. cbn in E. injection E; intros; subst; reflexivity.
    + apply D in E; [destruct E|]. split; [lia|apply numeral_fuel; lia].
Qed.
Lemma digits_unique b n t u : 2 <= b -> digits b t n -> digits b u n -> t = u.
Proof.
  intros B (N & F & V & Z0) (N' & F' & V' & Z0').
  assert (S : forall s a, fold_left (fun a c => b * a + (c - 48)) s a = spell b a s)
    by (induction s as [|c s IH]; intros a; [reflexivity|]; cbn [fold_left]; rewrite IH; unfold spell; cbn [fold_left]; f_equal; lia).
  rewrite S in V, V'. clear S.
  assert (P : forall x m y, List.length y = (List.length x + m)%nat -> Forall (dig b) x -> Forall (dig b) y -> spell b 0 x = spell b 0 y -> y = repeat 48 m ++ x).
  { intros x m y L Fx Fy E. assert (Q : spell b 0 (repeat 48 m ++ x) = spell b 0 y) by (rewrite spell_app, spell_zeros; exact E).
    symmetry. apply (spell_inj_len b B (repeat 48 m ++ x) y 0 0); [rewrite app_length, repeat_length; lia|apply Forall_app; split; [apply Forall_forall; intros c I; apply repeat_spec in I; unfold dig; lia|exact Fx]|exact Fy|exact Q]. }
  destruct (Nat.le_ge_cases (List.length t) (List.length u)) as [L|L].
  - pose proof (P t (List.length u - List.length t)%nat u ltac:(lia) F F' ltac:(lia)) as E.
    destruct (List.length u - List.length t)%nat as [|m] eqn:M; [symmetry; exact E|]. cbn [repeat app] in E. apply Z0' in E.
    destruct t; [contradiction|destruct m; discriminate E].
  - pose proof (P u (List.length t - List.length u)%nat t ltac:(lia) F' F ltac:(lia)) as E.
    destruct (List.length t - List.length u)%nat as [|m] eqn:M; [exact E|]. cbn [repeat app] in E. apply Z0 in E.
    destruct u; [contradiction|destruct m; discriminate E].
Qed.
Theorem rt_str : forall n t, str_of_Z n = t <-> (0 <= n /\ digits 10 t n) \/ (n < 0 /\ exists u, t = 45 :: u /\ digits 10 u (- n)).
Proof.
  intros n t. unfold str_of_Z. destruct (Z.ltb_spec n 0).
  - pose proof (digits_numeral 10 (- n) ltac:(lia) ltac:(lia)) as D. split; [intros <-; right; split; [lia|]; eauto|].
    intros [[? _]|[_ (u & -> & U)]]; [lia|]. f_equal. eapply digits_unique; [|exact D|exact U]. lia.
  - pose proof (digits_numeral 10 n ltac:(lia) ltac:(lia)) as D. split; [intros <-; left; split; [lia|exact D]|].
    intros [[_ U]|[? _]]; [|lia]. eapply digits_unique; [|exact D|exact U]. lia.
Qed.
Theorem rt_bin : forall n t, py_bin n = t <->
  (0 <= n /\ exists u, t = lit "0b" ++ u /\ digits 2 u n) \/ (n < 0 /\ exists u, t = lit "-0b" ++ u /\ digits 2 u (- n)).
Proof.
  intros n t. unfold py_bin. destruct (Z.ltb_spec n 0).
  - pose proof (digits_numeral 2 (- n) ltac:(lia) ltac:(lia)) as D. split; [intros <-; right; split; [lia|]; eauto|].
    intros [[? _]|[_ (u & -> & U)]]; [lia|]. f_equal. eapply digits_unique; [|exact D|exact U]. lia.
  - pose proof (digits_numeral 2 n ltac:(lia) ltac:(lia)) as D. split; [intros <-; left; split; [lia|]; eauto|].
    intros [[_ (u & -> & U)]|[? _]]; [|lia]. f_equal. eapply digits_unique; [|exact D|exact U]. lia.
Qed.
Example rt_str_ex : str_of_Z (-120) = lit "-120" /\ str_of_Z 0 = lit "0" /\ py_bin 10 = lit "0b1010".
Proof. repeat split. Qed.

(** *** padding to a width *)
Theorem rt_pad : forall c w s t,
  (pad_left c w s = t <-> exists k, t = repeat c k ++ s /\ zlen t = Z.max w (zlen s)) /\
  (pad_right c w s = t <-> exists k, t = s ++ repeat c k /\ zlen t = Z.max w (zlen s)).
Proof.
  intros c w s t. unfold pad_left, pad_right, repeat_char. split; split.
  - intros <-. exists (Z.to_nat (w - zlen s)). split; [reflexivity|]. rewrite zlen_app. unfold zlen at 1. rewrite repeat_length. lia.
  - intros (k & -> & L). rewrite zlen_app in L. unfold zlen at 1 in L. rewrite repeat_length in L. do 2 f_equal. lia.
  - intros <-. exists (Z.to_nat (w - zlen s)). split; [reflexivity|]. rewrite zlen_app. unfold zlen at 2. rewrite repeat_length. lia.
  - intros (k & -> & L). rewrite zlen_app in L. unfold zlen at 2 in L. rewrite repeat_length in L. do 2 f_equal. lia.
Qed.
Example rt_pad_ex : pad_left 48 4 (lit "17") = lit "0017" /\ pad_right 32 4 (lit "toolong") = lit "toolong".
Proof. split; reflexivity. Qed.
