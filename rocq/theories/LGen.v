From Coq Require Import ZArith List Bool Lia.
From Verif Require Import Py LPy MCards SCards LInstructions LCards LDeck MSymbols SSymbols LSymBuild MTools STools.
#[local] Arguments Z.add : simpl never.
#[local] Arguments Z.sub : simpl never.
#[local] Arguments Z.mul : simpl never.
#[local] Arguments Z.pow : simpl never.

(** *** numerals *)
Lemma spell_fold s : forall a, fold_left (fun a c => 10 * a + (c - 48)) s a = spell 10 a s.
Proof.
  induction s as [|c s IH]; intros a; [reflexivity|]. cbn [fold_left]. rewrite IH. unfold spell. cbn [fold_left].
  f_equal. lia.
Qed.
Lemma int_digits_ok s : Forall (fun c => 48 <= c <= 57) s -> forall p a, (s <> [] \/ p = true) ->
  int_digits p a s = Ok (fold_left (fun a c => 10 * a + (c - 48)) s a).
Proof.
  induction 1 as [|c s H F IH]; intros p a N.
  - destruct N as [N| ->]; [contradiction|reflexivity].
  - cbn [int_digits fold_left]. unfold is_digit.
    replace ((48 <=? c) && (c <=? 57)) with true by (symmetry; apply andb_true_iff; lia). apply IH. auto.
Qed.
Lemma digit_not_space c : 48 <= c <= 57 -> ~ white c.
Proof.
  intros H. apply not_white. unfold is_space.
  repeat match goal with |- context [if ?b then _ else _] => destruct b eqn:? end;
    repeat (apply orb_false_iff; split); try (apply Z.eqb_neq; lia); try reflexivity;
    try (apply andb_false_iff; lia).
Qed.
Lemma strip_digits s : Forall (fun c => 48 <= c <= 57) s -> strip s = s.
Proof.
  intros F. apply (trimmed_unique s); [apply strip_trimmed|]. exists [], []. rewrite app_nil_r.
  split; [reflexivity|]. split; [constructor|]. split; [constructor|]. rewrite Forall_forall in F. split.
  - intros c r ->. apply digit_not_space. apply F. left. reflexivity.
  - intros c r ->. apply digit_not_space. apply F. apply in_or_app. right. left. reflexivity.
Qed.
Lemma py_int_decimal s n : decimal s n -> py_int s = Ok n.
Proof.
  intros (N & F & E). unfold py_int. rewrite (strip_digits s F). destruct s as [|c s]; [contradiction|].
  inversion F as [|? ? H _]; subst.
  destruct (Z.eqb_spec c 43); [lia|]. destruct (Z.eqb_spec c 45); [lia|].
  apply int_digits_ok; [exact F|left; discriminate].
Qed.
Lemma grouped_digits u d : grouped u d -> Forall (fun c => 48 <= c <= 57) d /\ d <> [] /\ zlen d <= zlen u.
Proof.
  induction 1 as [c H|c s d H G (F & N & L)|c s d H G (F & N & L)]; rewrite ?zlen_cons in *; (split; [constructor; auto|]; split; [discriminate|lia]).
Qed.
Lemma grouped_int u d : grouped u d -> forall p a, int_digits p a u = Ok (fold_left (fun a c => 10 * a + (c - 48)) d a).
Proof.
  assert (D : forall c, 48 <= c <= 57 -> is_digit c = true) by (intros c H; unfold is_digit; apply andb_true_iff; lia).
  induction 1 as [c H|c s d H G IH|c s d H G IH]; intros p a; cbn [int_digits fold_left]; rewrite (D c H); [reflexivity|apply IH|].
  change (is_digit 95) with false. cbn [Z.eqb andb]. change (95 =? 95) with true. cbn [andb]. apply IH.
Qed.
Lemma int_grouped u : forall p a n, int_digits p a u = Ok n ->
  (p = true /\ u = [] /\ n = a) \/
  (exists d, (grouped u d \/ (p = true /\ exists v, u = 95 :: v /\ grouped v d)) /\ n = fold_left (fun a c => 10 * a + (c - 48)) d a).
Proof.
  induction u as [|c u IH]; intros p a n E; cbn [int_digits] in E.
  - left. destruct p; [|discriminate]. split; [reflexivity|]. split; [reflexivity|congruence].
  - right. destruct (is_digit c) eqn:DC.
    + assert (H : 48 <= c <= 57) by (unfold is_digit in DC; apply andb_prop in DC; lia).
      destruct (IH _ _ _ E) as [(_ & -> & ->)|(d & G & ->)].
      * exists [c]. split; [left; constructor; exact H|reflexivity].
      * exists (c :: d). split; [|reflexivity]. left. destruct G as [G|(_ & v & -> & G)]; constructor; assumption.
    + destruct ((c =? 95) && p) eqn:U; [|discriminate]. apply andb_prop in U. destruct U as [U ->]. apply Z.eqb_eq in U. subst c.
      destruct (IH _ _ _ E) as [(X & _)|(d & [G|(X & _)] & ->)]; [discriminate| |discriminate].
      exists d. split; [|reflexivity]. right. split; [reflexivity|]. exists u. auto.
Qed.
Lemma int_error u : forall p a e, int_digits p a u = Err e -> e = ValueError.
Proof.
  induction u as [|c u IH]; intros p a e E; cbn [int_digits] in E; [destruct p; [discriminate|congruence]|].
  destruct (is_digit c); [eapply IH; exact E|]. destruct ((c =? 95) && p); [eapply IH; exact E|congruence].
Qed.
Lemma py_int_text s n : py_int s = Ok n <-> int_text s n.
Proof.
  split.
  - unfold py_int. pose proof (strip_trimmed s) as T. destruct (strip s) as [|c r] eqn:E; [discriminate|]. intros H.
    assert (K : forall u m, int_digits false 0 u = Ok m -> exists d, grouped u d /\ decimal d m).
    { intros u m X. destruct (int_grouped u _ _ _ X) as [(Y & _)|(d & [G|(Y & _)] & ->)]; [discriminate| |discriminate].
      exists d. split; [exact G|]. destruct (grouped_digits _ _ G) as (F & N & _). split; [exact N|]. split; [exact F|reflexivity]. }
    destruct (Z.eqb_spec c 43) as [->|N1].
    + destruct (K _ _ H) as (d & G & D). exists (43 :: r), r, d, n. auto 10.
    + destruct (Z.eqb_spec c 45) as [->|N2].
      * destruct (int_digits false 0 r) as [m|] eqn:R; cbn [bind] in H; [|discriminate].
        destruct (K _ _ R) as (d & G & D). exists (45 :: r), r, d, m. split; [exact T|]. split; [exact G|]. split; [exact D|]. right. split; [reflexivity|congruence].
      * destruct (K _ _ H) as (d & G & D). exists (c :: r), (c :: r), d, n. auto 10.
  - intros (t & u & d & m & T & G & D & C). unfold py_int. rewrite (trimmed_unique _ _ _ (strip_trimmed s) T).
    assert (I : int_digits false 0 u = Ok m) by (rewrite (grouped_int u d G); destruct D as (_ & _ & ->); reflexivity).
    destruct C as [[[-> | ->] ->]|[-> ->]].
    + destruct G as [c H|c s' d' H G|c s' d' H G]; destruct (Z.eqb_spec c 43); try lia; destruct (Z.eqb_spec c 45); try lia; exact I.
    + change (43 =? 43) with true. exact I.
    + change (45 =? 43) with false. change (45 =? 45) with true. cbv iota. rewrite I. reflexivity.
Qed.
Lemma py_int_error s e : py_int s = Err e -> e = ValueError.
Proof.
  unfold py_int. destruct (strip s) as [|c r]; [congruence|]. destruct (c =? 43); [apply int_error|].
  destruct (c =? 45); [|apply int_error]. destruct (int_digits false 0 r) as [m|e'] eqn:R; cbn [bind]; intros E; [discriminate|].
  injection E as <-. eapply int_error. exact R.
Qed.
Lemma spell_bound s : Forall (fun c => 48 <= c <= 57) s -> forall a, 0 <= a ->
  0 <= spell 10 a s < (a + 1) * 10 ^ zlen s.
Proof.
  induction 1 as [|c s H F IH]; intros a A.
  - unfold spell. cbn [fold_left]. change (zlen (@nil Z)) with 0. rewrite Z.pow_0_r. lia.
  - specialize (IH (a * 10 + (c - 48)) ltac:(lia)). unfold spell in *. cbn [fold_left]. rewrite zlen_cons.
    rewrite (Z.add_comm 1), Z.pow_add_r by (pose proof (zlen_nonneg s); lia). change (10 ^ 1) with 10.
    assert (0 < 10 ^ zlen s) by (apply Z.pow_pos_nonneg; [lia|apply zlen_nonneg]). nia.
Qed.
Lemma decimal_bound s n : decimal s n -> 0 <= n < 10 ^ zlen s.
Proof.
  intros (N & F & <-). rewrite spell_fold. pose proof (spell_bound s F 0 ltac:(lia)). lia.
Qed.
Lemma decimal_len s n : decimal s n -> 1 <= zlen s.
Proof. intros (N & _). destruct s; [contradiction|]. rewrite zlen_cons. pose proof (zlen_nonneg s). lia. Qed.
Lemma numeral_nonempty n : 0 <= n -> numeral 10 n <> [].
Proof.
  intros H E. pose proof (numeral_spell 10 n ltac:(lia) H) as S. rewrite E in S. cbn in S. subst n.
  vm_compute in E. discriminate.
Qed.
Lemma fmt_decimal w n : 0 <= n -> decimal (fmt_0w w n) n /\ (1 <= w -> n < 10 ^ w -> zlen (fmt_0w w n) = w).
Proof.
  intros H. unfold fmt_0w. destruct (Z.ltb_spec n 0); [lia|]. unfold pad_left, repeat_char. split.
  - split; [|split].
    + intros E. apply app_eq_nil in E. destruct E as [_ E]. exact (numeral_nonempty n H E).
    + apply Forall_app. split; [apply Forall_forall; intros c I; apply repeat_spec in I; lia|].
      eapply Forall_impl; [|apply (numeral_dig 10 n); lia]. intros c D. unfold dig in D. lia.
    + rewrite spell_fold, spell_app, spell_zeros. apply numeral_spell; lia.
  - intros W L. rewrite zlen_app. unfold zlen at 1. rewrite repeat_length.
    pose proof (numeral_length 10 n w ltac:(lia) ltac:(lia) ltac:(lia)). lia.
Qed.

(** *** C85 *)
Lemma genlines_eq a0 a1 rest start end_ step sc ec :
  decimal a0 start -> decimal a1 end_ -> zlen a0 <= 6 -> zlen a1 <= 6 ->
  opt_arg rest 0 1 step -> opt_arg rest 1 2 sc -> opt_arg rest 2 7 ec -> 1 <= step ->
  genlines (a0 :: a1 :: rest) =
  Ok (map (fun i => repeat_char (sc - 1) 32 ++ fmt_0w (Z.max 4 (zlen a1)) (start + Z.of_nat i * step) ++
                    repeat_char (ec + 2 - sc - Z.max 4 (zlen a1)) 32)
          (seq 0 (Z.to_nat ((end_ + step - start + step - 1) / step)))).
Proof.
  intros D0 D1 L0 L1 O1 O2 O3 S. unfold genlines.
  destruct (Z.ltb_spec 6 (zlen a0)); [lia|]. destruct (Z.ltb_spec 6 (zlen a1)); [lia|].
  rewrite (py_int_decimal _ _ D0), (py_int_decimal _ _ D1). cbn [bind].
  assert (B := decimal_bound _ _ D1). assert (LL := decimal_len _ _ D1).
  assert (NL : 1 <= zlen (str_of_Z end_) <= zlen a1).
  { unfold str_of_Z. destruct (Z.ltb_spec end_ 0); [lia|].
    pose proof (numeral_length 10 end_ (zlen a1) ltac:(lia) B LL).
    pose proof (numeral_nonempty end_ ltac:(lia)) as NE. destruct (numeral 10 end_) as [|x l]; [contradiction|].
    rewrite zlen_cons in *. pose proof (zlen_nonneg l). lia. }
  destruct (Z.ltb_spec 6 (zlen (str_of_Z end_))); [lia|].
  assert (W : (if (if zlen (str_of_Z end_) <? 4 then 4 else zlen (str_of_Z end_)) <? zlen a1 then zlen a1
               else if zlen (str_of_Z end_) <? 4 then 4 else zlen (str_of_Z end_)) = Z.max 4 (zlen a1)).
  { destruct (Z.ltb_spec (zlen (str_of_Z end_)) 4); destruct (Z.ltb_spec 4 (zlen a1));
      try (destruct (Z.ltb_spec (zlen (str_of_Z end_)) (zlen a1))); lia. }
  cbv zeta. rewrite W. clear W.
  assert (NI : forall i d n, opt_arg rest i d n -> nth_int (a0 :: a1 :: rest) (2 + i)%nat d = Ok n).
  { intros i d n. unfold opt_arg, nth_int. cbn [nth_error Nat.add]. destruct (nth_error rest i) as [s|].
    - apply py_int_decimal.
    - intros ->. reflexivity. }
  assert (N1 := NI _ _ _ O1). assert (N2 := NI _ _ _ O2). assert (N3 := NI _ _ _ O3). cbn [Nat.add] in N1, N2, N3.
  rewrite N1, N2, N3. cbn [bind]. unfold py_range_step.
  destruct (Z.eqb_spec step 0); [lia|]. destruct (Z.ltb_spec 0 step); [|lia]. cbn [bind].
  rewrite map_map. reflexivity.
Qed.
Lemma nth_error_seq n k : nth_error (seq 0 n) k = if (k <? n)%nat then Some k else None.
Proof.
  destruct (Nat.ltb_spec k n) as [L|L].
  - rewrite (nth_error_nth' _ O) by (rewrite seq_length; lia). rewrite seq_nth by lia. reflexivity.
  - apply nth_error_None. rewrite seq_length. exact L.
Qed.
Lemma C85_genlines_pf : forall a0 a1 rest start end_ step sc ec,
  decimal a0 start -> decimal a1 end_ -> zlen a0 <= 6 -> zlen a1 <= 6 ->
  opt_arg rest 0 1 step -> opt_arg rest 1 2 sc -> opt_arg rest 2 7 ec -> 1 <= step ->
  exists out, genlines (a0 :: a1 :: rest) = Ok out /\
    forall k, match nth_error out k with
              | None => end_ + step <= start + Z.of_nat k * step
              | Some line =>
                  let n := start + Z.of_nat k * step in let w := Z.max 4 (zlen a1) in
                  n < end_ + step /\
                  exists t, shows_number line sc n t /\ (n < 10 ^ w -> zlen t = w) /\
                    (n < 10 ^ w -> 1 <= sc -> w <= ec + 2 - sc -> zlen line = ec + 1)
              end.
Proof.
  intros a0 a1 rest start end_ step sc ec D0 D1 L0 L1 O1 O2 O3 S.
  rewrite (genlines_eq _ _ _ _ _ _ _ _ D0 D1 L0 L1 O1 O2 O3 S). eexists. split; [reflexivity|].
  set (w := Z.max 4 (zlen a1)).
  assert (B0 := decimal_bound _ _ D0).
  intros k. rewrite nth_error_map, nth_error_seq.
  set (N := (end_ + step - start + step - 1) / step).
  assert (HN : step * N <= end_ + step - start + step - 1 < step * N + step).
  { unfold N. pose proof (Z.div_mod (end_ + step - start + step - 1) step ltac:(lia)).
    pose proof (Z.mod_pos_bound (end_ + step - start + step - 1) step ltac:(lia)). lia. }
  destruct (Nat.ltb_spec k (Z.to_nat N)) as [K|K]; cbn [option_map].
  - cbv zeta. assert (Z.of_nat k + 1 <= N) by lia. split; [nia|].
    assert (P : 0 <= start + Z.of_nat k * step) by nia.
    destruct (fmt_decimal w (start + Z.of_nat k * step) P) as [DT LT].
    exists (fmt_0w w (start + Z.of_nat k * step)).
    split; [exists (Z.to_nat (ec + 2 - sc - w)); split; [reflexivity|exact DT]|].
    split; [intros X; apply LT; [unfold w; lia|exact X]|].
    intros X SC EC. rewrite !zlen_app, LT by (try exact X; unfold w; lia). unfold zlen, repeat_char. rewrite !repeat_length. lia.
  - assert (N <= Z.of_nat k) by lia. nia.
Qed.
(*@ Example C85_genlines_ex :
  genlines [lit "8"; lit "12"; lit "2"] = Ok [lit " 0008   "; lit " 0010   "; lit " 0012   "].
Proof. vm_compute. reflexivity. Qed. @*)

(** *** C86 *)
Lemma C86_beyond_refuted_pf : forall a0 a1 rest start end_ step sc ec,
  decimal a0 start -> decimal a1 end_ -> zlen a0 <= 6 -> zlen a1 <= 6 ->
  opt_arg rest 0 1 step -> opt_arg rest 1 2 sc -> opt_arg rest 2 7 ec -> 1 <= step ->
  start <= end_ -> (end_ - start) mod step <> 0 ->
  exists out line n t, genlines (a0 :: a1 :: rest) = Ok out /\ In line out /\ shows_number line sc n t /\ end_ < n.
Proof.
  intros a0 a1 rest start end_ step sc ec D0 D1 L0 L1 O1 O2 O3 S LE M.
  destruct (C85_genlines_pf _ _ _ _ _ _ _ _ D0 D1 L0 L1 O1 O2 O3 S) as (out & E & H).
  specialize (H (Z.to_nat ((end_ - start) / step + 1))).
  pose proof (Z.div_mod (end_ - start) step ltac:(lia)) as DM.
  pose proof (Z.mod_pos_bound (end_ - start) step ltac:(lia)) as MB.
  assert (0 <= (end_ - start) / step) by (apply Z.div_pos; lia).
  rewrite Z2Nat.id in H by lia.
  destruct (nth_error out (Z.to_nat ((end_ - start) / step + 1))) as [line|] eqn:EN; [|nia].
  destruct H as (_ & t & SH & _). exists out, line, (start + ((end_ - start) / step + 1) * step), t.
  split; [exact E|]. split; [eapply nth_error_In; exact EN|]. split; [exact SH|nia].
Qed.
(*@ Example C86_beyond_refuted_ex :
  genlines [lit "1"; lit "10"; lit "4"] = Ok [lit " 0001   "; lit " 0005   "; lit " 0009   "; lit " 0013   "].
Proof. vm_compute. reflexivity. Qed. @*)
Lemma C86_beyond_partial_pf : forall a0 a1 rest start end_ step sc ec,
  decimal a0 start -> decimal a1 end_ -> zlen a0 <= 6 -> zlen a1 <= 6 ->
  opt_arg rest 0 1 step -> opt_arg rest 1 2 sc -> opt_arg rest 2 7 ec -> 1 <= step ->
  start <= end_ -> (end_ - start) mod step = 0 ->
  exists out, genlines (a0 :: a1 :: rest) = Ok out /\
    (forall line, In line out -> exists n t, shows_number line sc n t /\ start <= n <= end_) /\
    (forall n, start <= n <= end_ -> (n - start) mod step = 0 -> exists line t, In line out /\ shows_number line sc n t) /\
    zlen out = (end_ - start) / step + 1.
Proof.
  intros a0 a1 rest start end_ step sc ec D0 D1 L0 L1 O1 O2 O3 S LE M.
  destruct (C85_genlines_pf _ _ _ _ _ _ _ _ D0 D1 L0 L1 O1 O2 O3 S) as (out & E & H).
  pose proof (Z.div_mod (end_ - start) step ltac:(lia)) as DM. rewrite M, Z.add_0_r in DM.
  assert (Q : 0 <= (end_ - start) / step) by (apply Z.div_pos; lia).
  set (q := (end_ - start) / step) in *.
  exists out. split; [exact E|]. split; [|split].
  - intros line I. apply In_nth_error in I. destruct I as (k & EK). specialize (H k). rewrite EK in H.
    destruct H as (LT & t & SH & _). exists (start + Z.of_nat k * step), t. split; [exact SH|].
    assert (Z.of_nat k < q + 1) by nia. nia.
  - intros n R MN. pose proof (Z.div_mod (n - start) step ltac:(lia)) as DN. rewrite MN, Z.add_0_r in DN.
    assert (0 <= (n - start) / step) by (apply Z.div_pos; lia). set (j := (n - start) / step) in *.
    specialize (H (Z.to_nat j)). rewrite Z2Nat.id in H by lia.
    destruct (nth_error out (Z.to_nat j)) as [line|] eqn:EN; [|nia].
    destruct H as (_ & t & SH & _). exists line, t. split; [eapply nth_error_In; exact EN|].
    replace n with (start + j * step) by nia. exact SH.
  - assert (A := H (Z.to_nat q)). assert (B := H (Z.to_nat (q + 1))). rewrite !Z2Nat.id in A, B by lia.
    destruct (nth_error out (Z.to_nat q)) eqn:EA; [|nia].
    destruct (nth_error out (Z.to_nat (q + 1))) eqn:EB; [destruct B; nia|].
    assert (nth_error out (Z.to_nat q) <> None) as X by congruence. apply nth_error_Some in X.
    apply nth_error_None in EB. unfold zlen. lia.
Qed.
(*@ Example C86_beyond_partial_ex :
  genlines [lit "0005"; lit "00011"; lit "3"; lit "1"; lit "5"] = Ok [lit "00005 "; lit "00008 "; lit "00011 "].
Proof. vm_compute. reflexivity. Qed. @*)

(** *** C128, C129 *)
Lemma C128_int_pf : forall s n, py_int s = Ok n <-> int_text s n.
Proof. exact py_int_text. Qed.
(*@ Example C128_int_ex : py_int (lit " -1_000 ") = Ok (-1000) /\ py_int (lit "1__0") = Err ValueError /\ py_int (lit "- 1") = Err ValueError.
Proof. vm_compute. auto. Qed. @*)
Lemma C128_rejected_pf : forall s e, py_int s = Err e <-> (forall n, ~ int_text s n) /\ e = ValueError.
Proof.
  intros s e. split.
  - intros E. split; [|eapply py_int_error; exact E]. intros n T. apply py_int_text in T. congruence.
  - intros [N ->]. destruct (py_int s) as [n|e'] eqn:E; [destruct (N n); apply py_int_text; exact E|]. f_equal. eapply py_int_error. exact E.
Qed.
(*@ Example C128_rejected_ex : py_int (lit "") = Err ValueError /\ py_int (lit "0x10") = Err ValueError /\ py_int (lit "1_") = Err ValueError.
Proof. vm_compute. auto. Qed. @*)
Lemma int_bound s n : int_text s n -> 1 <= zlen (str_of_Z n) <= zlen s.
Proof.
  intros (t & u & d & m & (pre & post & -> & _) & G & D & C).
  destruct (grouped_digits _ _ G) as (_ & _ & L). assert (B := decimal_bound _ _ D). assert (LD := decimal_len _ _ D).
  pose proof (zlen_nonneg pre). pose proof (zlen_nonneg post). rewrite !zlen_app.
  assert (NM : forall k, 0 <= k < 10 ^ zlen d -> 1 <= zlen (numeral 10 k) <= zlen d).
  { intros k K. split; [|apply numeral_length; lia]. pose proof (numeral_nonempty k ltac:(lia)) as NE.
    destruct (numeral 10 k) as [|x l]; [contradiction|]. rewrite zlen_cons. pose proof (zlen_nonneg l). lia. }
  unfold str_of_Z. destruct C as [[[-> | ->] ->]|[-> ->]]; rewrite ?zlen_cons.
  - destruct (Z.ltb_spec m 0); [lia|]. specialize (NM m B). lia.
  - destruct (Z.ltb_spec m 0); [lia|]. specialize (NM m B). lia.
  - destruct (Z.ltb_spec (- m) 0); rewrite ?zlen_cons; [rewrite Z.opp_involutive; specialize (NM m B); lia|].
    specialize (NM (- m) ltac:(lia)). lia.
Qed.
Lemma int_arg_ok (a0 a1 : str) (rest : list str) i d n : int_arg rest i d n <-> nth_int (a0 :: a1 :: rest) (2 + i)%nat d = Ok n.
Proof.
  unfold int_arg, nth_int. cbn [nth_error Nat.add]. destruct (nth_error rest i) as [s|]; [symmetry; apply py_int_text|].
  split; [intros ->; reflexivity|congruence].
Qed.
Lemma nth_int_error args i d e : nth_int args i d = Err e -> e = ValueError.
Proof. unfold nth_int. destruct (nth_error args i); [apply py_int_error|discriminate]. Qed.
Lemma genlines_form (a0 a1 : str) (rest : list str) : zlen a0 <= 6 -> zlen a1 <= 6 ->
  genlines (a0 :: a1 :: rest) =
  (do start <- py_int a0; do end_ <- py_int a1; do step <- nth_int (a0 :: a1 :: rest) 2 1;
   do sc <- nth_int (a0 :: a1 :: rest) 3 2; do ec <- nth_int (a0 :: a1 :: rest) 4 7;
   do r <- py_range_step start (end_ + step) step;
   Ok (map (fun i => repeat_char (sc - 1) 32 ++ fmt_0w (Z.max 4 (zlen a1)) i ++ repeat_char (ec + 2 - sc - Z.max 4 (zlen a1)) 32) r)).
Proof.
  intros L0 L1. unfold genlines. destruct (Z.ltb_spec 6 (zlen a0)); [lia|]. destruct (Z.ltb_spec 6 (zlen a1)); [lia|].
  destruct (py_int a0) as [start|]; cbn [bind]; [|reflexivity]. destruct (py_int a1) as [end_|] eqn:E; cbn [bind]; [|reflexivity].
  assert (NL := int_bound _ _ (proj1 (py_int_text _ _) E)).
  destruct (Z.ltb_spec 6 (zlen (str_of_Z end_))); [lia|].
  assert (W : (if (if zlen (str_of_Z end_) <? 4 then 4 else zlen (str_of_Z end_)) <? zlen a1 then zlen a1
               else if zlen (str_of_Z end_) <? 4 then 4 else zlen (str_of_Z end_)) = Z.max 4 (zlen a1)).
  { destruct (Z.ltb_spec (zlen (str_of_Z end_)) 4); destruct (Z.ltb_spec 4 (zlen a1));
      try (destruct (Z.ltb_spec (zlen (str_of_Z end_)) (zlen a1))); lia. }
  cbv zeta. rewrite W. reflexivity.
Qed.
Lemma numeral_neg w n : 0 <= n -> decimal (pad_left 48 w (numeral 10 n)) n /\ zlen (pad_left 48 w (numeral 10 n)) = Z.max w (zlen (numeral 10 n)).
Proof.
  intros H. pose proof (fmt_decimal w n H) as [D _]. unfold fmt_0w in D. destruct (Z.ltb_spec n 0); [lia|]. split; [exact D|].
  unfold pad_left, repeat_char. rewrite zlen_app. unfold zlen at 1. rewrite repeat_length. lia.
Qed.
Lemma fmt_signed w n : signed (fmt_0w w n) n /\ zlen (fmt_0w w n) = Z.max w (zlen (str_of_Z n)).
Proof.
  unfold fmt_0w, str_of_Z. destruct (Z.ltb_spec n 0).
  - destruct (numeral_neg (w - 1) (- n) ltac:(lia)) as [D L]. split; [right; eexists; split; [reflexivity|]; auto|].
    rewrite !zlen_cons, L. lia.
  - destruct (numeral_neg w n H) as [D L]. split; [left; exact D|exact L].
Qed.
Lemma C129_genlines_pf : forall (a0 a1 : str) (rest : list str) start end_ step sc ec,
  int_text a0 start -> int_text a1 end_ -> zlen a0 <= 6 -> zlen a1 <= 6 ->
  int_arg rest 0 1 step -> int_arg rest 1 2 sc -> int_arg rest 2 7 ec -> step <> 0 ->
  exists out, genlines (a0 :: a1 :: rest) = Ok out /\
    forall k, let n := start + Z.of_nat k * step in let w := Z.max 4 (zlen a1) in
      match nth_error out k with
      | None => (0 < step -> end_ + step <= n) /\ (step < 0 -> n <= end_ + step)
      | Some line => (0 < step -> n < end_ + step) /\ (step < 0 -> end_ + step < n) /\
          exists t, line = repeat 32 (Z.to_nat (sc - 1)) ++ t ++ repeat 32 (Z.to_nat (ec + 2 - sc - w)) /\ signed t n /\
            zlen t = Z.max w (zlen (str_of_Z n))
      end.
Proof.
  intros a0 a1 rest start end_ step sc ec I0 I1 L0 L1 O1 O2 O3 S. rewrite (genlines_form _ _ _ L0 L1).
  apply py_int_text in I0, I1. apply (int_arg_ok a0 a1) in O1, O2, O3. cbn [Nat.add] in O1, O2, O3.
  rewrite I0, I1, O1, O2, O3. cbn [bind]. unfold py_range_step. destruct (Z.eqb_spec step 0); [contradiction|]. cbn [bind].
  eexists. split; [reflexivity|]. intros k. cbv zeta. set (w := Z.max 4 (zlen a1)). set (n0 := start + Z.of_nat k * step). rewrite !nth_error_map, nth_error_seq.
  set (N := if 0 <? step then _ else _).
  assert (HN : (0 < step -> step * N <= end_ + step - start + step - 1 < step * N + step) /\
               (step < 0 -> - step * N <= start - (end_ + step) - step - 1 < - step * N - step)).
  { unfold N. clear N. destruct (Z.ltb_spec 0 step); split; intros H1; try (exfalso; lia).
    - pose proof (Z.div_mod (end_ + step - start + step - 1) step ltac:(lia)).
      pose proof (Z.mod_pos_bound (end_ + step - start + step - 1) step ltac:(lia)). lia.
    - pose proof (Z.div_mod (start - (end_ + step) - step - 1) (- step) ltac:(lia)).
      pose proof (Z.mod_pos_bound (start - (end_ + step) - step - 1) (- step) ltac:(lia)). lia. }
  clearbody N. destruct HN as [HP HM].
  destruct (Nat.ltb_spec k (Z.to_nat N)) as [K|K]; cbn [option_map].
  - assert (Z.of_nat k + 1 <= N) by lia. split; [intros P; specialize (HP P); unfold n0; nia|].
    split; [intros P; specialize (HM P); unfold n0; nia|].
    destruct (fmt_signed w n0) as [G1 G2]. exists (fmt_0w w n0). split; [reflexivity|]. auto.
  - split; intros P; [specialize (HP P)|specialize (HM P)]; unfold n0; nia.
Qed.
(*@ Example C129_genlines_ex :
  genlines [lit "2"; lit "-3"; lit "-2"] = Ok [lit " 0002   "; lit " 0000   "; lit " -002   "; lit " -004   "] /\
  genlines [lit "1_0"; lit " +12 "; lit "1"; lit "1"; lit "9"] = Ok [lit "00010     "; lit "00011     "; lit "00012     "].
Proof. vm_compute. auto. Qed. @*)
Lemma C129_rejected_pf : forall args : list str,
  match genlines args with
  | Ok _ => exists a0 a1 rest, args = a0 :: a1 :: rest /\ zlen a0 <= 6 /\ zlen a1 <= 6 /\ ~ bad_numbers a0 a1 rest
  | Err e => (e = SystemExit /\ (zlen args < 2 \/ exists a0 a1 rest, args = a0 :: a1 :: rest /\ (6 < zlen a0 \/ 6 < zlen a1))) \/
             (e = ValueError /\ exists a0 a1 rest, args = a0 :: a1 :: rest /\ zlen a0 <= 6 /\ zlen a1 <= 6 /\ bad_numbers a0 a1 rest)
  end.
Proof.
  intros args. destruct args as [|a0 [|a1 rest]]; [left; split; [reflexivity|left; reflexivity]..|].
  destruct (Z.ltb_spec 6 (zlen a0)) as [H|L0].
  { replace (genlines (a0 :: a1 :: rest)) with (@Err (list str) SystemExit); [left; split; [reflexivity|]; right; exists a0, a1, rest; auto|].
    unfold genlines. destruct (Z.ltb_spec 6 (zlen a0)); [reflexivity|lia]. }
  destruct (Z.ltb_spec 6 (zlen a1)) as [H|L1].
  { replace (genlines (a0 :: a1 :: rest)) with (@Err (list str) SystemExit); [left; split; [reflexivity|]; right; exists a0, a1, rest; auto|].
    unfold genlines. destruct (Z.ltb_spec 6 (zlen a0)); [reflexivity|]. destruct (Z.ltb_spec 6 (zlen a1)); [reflexivity|lia]. }
  rewrite (genlines_form _ _ _ L0 L1).
  assert (BAD : forall (B : Prop) e, B -> e = ValueError -> (B -> bad_numbers a0 a1 rest) ->
     (e = SystemExit /\ (zlen (a0 :: a1 :: rest) < 2 \/ exists a b r, a0 :: a1 :: rest = a :: b :: r /\ (6 < zlen a \/ 6 < zlen b))) \/
     (e = ValueError /\ exists a b r, a0 :: a1 :: rest = a :: b :: r /\ zlen a <= 6 /\ zlen b <= 6 /\ bad_numbers a b r)).
  { intros B e b E C. right. split; [exact E|]. exists a0, a1, rest. auto. }
  destruct (py_int a0) as [start|e] eqn:I0; cbn [bind].
  2:{ destruct (proj1 (C128_rejected_pf _ _) I0) as [N E]. apply (BAD _ e N E). intros _. left. exact N. }
  destruct (py_int a1) as [end_|e] eqn:I1; cbn [bind].
  2:{ destruct (proj1 (C128_rejected_pf _ _) I1) as [N E]. apply (BAD _ e N E). intros _. right. left. exact N. }
  assert (OA : forall i d, (exists n, nth_int (a0 :: a1 :: rest) (2 + i)%nat d = Ok n /\ forall m, int_arg rest i d m <-> m = n) \/
     (nth_int (a0 :: a1 :: rest) (2 + i)%nat d = Err ValueError /\ forall m, ~ int_arg rest i d m)).
  { intros i d. destruct (nth_int (a0 :: a1 :: rest) (2 + i)%nat d) as [n|e] eqn:E.
    - left. exists n. split; [reflexivity|]. intros m. rewrite (int_arg_ok a0 a1), E. split; [congruence|intros ->; reflexivity].
    - right. split; [f_equal; eapply nth_int_error; exact E|]. intros m X. apply (int_arg_ok a0 a1) in X. congruence. }
  destruct (OA 0%nat 1) as [(step & E1 & U1)|[E1 N]]; cbn [Nat.add] in E1; rewrite E1; cbn [bind].
  2:{ apply (BAD _ _ N eq_refl). intros _. unfold bad_numbers. auto 6. }
  destruct (OA 1%nat 2) as [(sc & E2 & U2)|[E2 N]]; cbn [Nat.add] in E2; rewrite E2; cbn [bind].
  2:{ apply (BAD _ _ N eq_refl). intros _. unfold bad_numbers. auto 6. }
  destruct (OA 2%nat 7) as [(ec & E3 & U3)|[E3 N]]; cbn [Nat.add] in E3; rewrite E3; cbn [bind].
  2:{ apply (BAD _ _ N eq_refl). intros _. unfold bad_numbers. auto 8. }
  unfold py_range_step. destruct (Z.eqb_spec step 0) as [Z0|NZ]; cbn [bind].
  - apply (BAD _ _ (proj2 (U1 0) (eq_sym Z0)) eq_refl). intros _. unfold bad_numbers. rewrite (U1 0). auto 9.
  - exists a0, a1, rest. split; [reflexivity|]. split; [exact L0|]. split; [exact L1|].
    apply py_int_text in I0, I1. intros [B|[B|[B|[B|[B|B]]]]].
    + exact (B _ I0). 
    + exact (B _ I1).
    + apply (B step). apply U1. reflexivity.
    + apply (B sc). apply U2. reflexivity.
    + apply (B ec). apply U3. reflexivity.
    + apply U1 in B. congruence.
Qed.
(*@ Example C129_rejected_ex :
  genlines [lit "1"] = Err SystemExit /\ genlines [lit "0000001"; lit "2"] = Err SystemExit /\ genlines [lit "1"; lit "0000002"] = Err SystemExit /\
  genlines [lit "1"; lit "2"; lit "0"] = Err ValueError /\ genlines [lit "1"; lit "2"; lit "x"] = Err ValueError.
Proof. vm_compute. auto. Qed. @*)

(** *** words *)
Lemma strip_word w : Forall (fun c => ~ white c) w -> strip w = w.
Proof.
  intros F. apply (trimmed_unique w); [apply strip_trimmed|]. exists [], []. rewrite app_nil_r.
  split; [reflexivity|]. split; [constructor|]. split; [constructor|]. rewrite Forall_forall in F. split.
  - intros c r ->. apply F. left. reflexivity.
  - intros c r ->. apply F. apply in_or_app. right. left. reflexivity.
Qed.
Lemma index2 (a b : str) (l : list str) : py_index (a :: b :: l) 2 = match l with w :: _ => Ok w | [] => Err IndexError end.
Proof.
  unfold py_index. cbn [Z.ltb Z.compare]. rewrite !zlen_cons. destruct l as [|w l]; [reflexivity|].
  rewrite zlen_cons. pose proof (zlen_nonneg l). destruct (Z.leb_spec (1 + (1 + (1 + zlen l))) 2); [lia|]. reflexivity.
Qed.
Definition gp_name (line : str) : res (option str * rval) :=
  do w <- py_index (split_ws line) 2;
  let w := strip w in
  let w := if has_char 46 w then nth 0 (split_on 46 w) [] else w in
  Ok (Some (map (fun c => if c =? 95 then 32 else c) w), RStr (lit "@")).
Definition gp_rng (line : str) : res (option (Z * Z)) :=
  do w <- py_index (split_ws line) 2;
  let w := strip w in
  if has_char 45 w then
    do a <- py_int (nth 0 (split_on 45 w) []);
    do b <- py_int (nth 1 (split_on 45 w) []);
    Ok (Some (a, b))
  else do a <- py_int w; Ok (Some (a, a)).
Lemma gp_line_eq sec c8 rng line : gp_line (sec, c8, rng) line =
  (do s <- (match sec with
           | None => if startswith line (lit "# Filename: ") then gp_name line else Ok (sec, c8)
           | Some _ => Ok (sec, c8)
           end);
   do rng <- (if startswith line (lit "# Pages: ") then gp_rng line else Ok rng);
   Ok (fst s, snd s, rng)).
Proof. reflexivity. Qed.
Lemma name_words r : split_ws (lit "# Filename: " ++ r) = lit "#" :: lit "Filename:" :: split_ws r.
Proof. reflexivity. Qed.
Lemma pages_words r : split_ws (lit "# Pages: " ++ r) = lit "#" :: lit "Pages:" :: split_ws r.
Proof. reflexivity. Qed.
Lemma first_word_nonspace s w : first_word s w -> Forall (fun c => ~ white c) w.
Proof. intros (p & q & _ & _ & _ & F & _). exact F. Qed.
Lemma segment_first w : segment_of w (if has_char 46 w then nth 0 (split_on 46 w) [] else w).
Proof.
  destruct (has_char 46 w) eqn:H.
  - apply has_char_In in H. destruct (first_split 46 w H) as (a & b & -> & N). rewrite split_yes by exact N.
    right. exists b. auto.
  - left. split; [|reflexivity]. intros I. apply has_char_In in I. congruence.
Qed.
Lemma segment_unique w t t' : segment_of w t -> segment_of w t' -> t = t'.
Proof.
  intros [[N ->]|(r & -> & N)] [[N' ->]|(r' & E & N')]; try reflexivity.
  - destruct N. rewrite E. apply in_or_app. right. left. reflexivity.
  - destruct N'. apply in_or_app. right. left. reflexivity.
  - assert (X : split_on 46 (t ++ 46 :: r) = split_on 46 (t' ++ 46 :: r')) by (rewrite E; reflexivity).
    rewrite !split_yes in X by assumption. congruence.
Qed.
Lemma gp_name_ok line sec : section_name line sec -> gp_name line = Ok (Some sec, RStr (lit "@")).
Proof.
  intros (r & w & t & -> & W & S & ->). unfold gp_name. rewrite name_words, index2.
  destruct (proj1 (first_word_ok _ _) W) as (rest & ->). cbn [bind]. cbv zeta.
  rewrite (strip_word w (first_word_nonspace _ _ W)).
  rewrite (segment_unique w _ t (segment_first w) S). reflexivity.
Qed.
Lemma Ok_inv {A} (u v : A) : Ok u = Ok v -> v = u.
Proof. intros [= ->]. reflexivity. Qed.
Lemma gp_name_inv r x : gp_name (lit "# Filename: " ++ r) = Ok x ->
  exists sec, section_name (lit "# Filename: " ++ r) sec /\ x = (Some sec, RStr (lit "@")).
Proof.
  unfold gp_name. rewrite name_words, index2. destruct (split_ws r) as [|w rest] eqn:E; [discriminate|].
  cbn [bind]. cbv zeta. intros H. assert (W : first_word r w) by (apply first_word_ok; eauto).
  rewrite (strip_word w (first_word_nonspace _ _ W)) in H.
  eexists. split; [exists r, w; eexists; split; [reflexivity|]; split; [exact W|]; split; [apply segment_first|reflexivity]|].
  apply Ok_inv in H. exact H.
Qed.
Lemma gp_rng_ok line a b : pages_are line a b -> gp_rng line = Ok (Some (a, b)).
Proof.
  intros (r & w & -> & W & R). unfold gp_rng. rewrite pages_words, index2.
  destruct (proj1 (first_word_ok _ _) W) as (rest & ->). cbn [bind]. cbv zeta.
  rewrite (strip_word w (first_word_nonspace _ _ W)).
  destruct R as [(N & E & ->)|(x & y & D & NX & NY & EX & EY)].
  - destruct (has_char 45 w) eqn:H; [apply has_char_In in H; contradiction|]. apply py_int_text in E. rewrite E. reflexivity.
  - apply py_int_text in EX, EY. destruct D as [-> | (z & ->)]; rewrite (proj2 (has_char_In 45 _)) by (apply in_or_app; right; left; reflexivity);
      [rewrite split_second by assumption | rewrite split_second' by assumption];
      rewrite split_yes by exact NX; cbn [nth]; rewrite EX; cbn [bind]; rewrite EY; reflexivity.
Qed.
Lemma gp_rng_inv r x : gp_rng (lit "# Pages: " ++ r) = Ok x ->
  exists a b, pages_are (lit "# Pages: " ++ r) a b /\ x = Some (a, b).
Proof.
  unfold gp_rng. rewrite pages_words, index2. destruct (split_ws r) as [|w rest] eqn:E; [discriminate|].
  cbn [bind]. cbv zeta. intros H. assert (W : first_word r w) by (apply first_word_ok; eauto).
  rewrite (strip_word w (first_word_nonspace _ _ W)) in H.
  destruct (has_char 45 w) eqn:HC.
  - apply has_char_In in HC. destruct (first_split 45 w HC) as (u & v & EW & NU).
    rewrite EW, split_yes in H by exact NU. cbn [nth] in H.
    destruct (py_int u) as [a|] eqn:EA; cbn [bind] in H; [|discriminate].
    destruct (py_int (nth 0 (split_on 45 v) [])) as [b|] eqn:EB; cbn [bind] in H; [|discriminate].
    exists a, b. split; [|congruence]. exists r, w. split; [reflexivity|]. split; [exact W|]. right.
    destruct (in_dec Z.eq_dec 45 v) as [I|I].
    + destruct (first_split 45 v I) as (y & z & -> & NY). rewrite split_yes in EB by exact NY. cbn [nth] in EB.
      exists u, y. split; [right; eauto|]. rewrite <- !py_int_text. auto.
    + rewrite split_no in EB by exact I. cbn [nth] in EB. exists u, v. split; [left; exact EW|]. rewrite <- !py_int_text. auto.
  - destruct (py_int w) as [a|] eqn:EA; cbn [bind] in H; [|discriminate]. exists a, a. split; [|congruence].
    exists r, w. split; [reflexivity|]. split; [exact W|]. left. rewrite <- py_int_text. split; [|auto].
    intros I. apply has_char_In in I. congruence.
Qed.

(** *** the lines *)
Definition named (lines : list str) (sec : str) : Prop :=
  exists pre l post, lines = pre ++ l :: post /\ section_name l sec /\ forall x, In x pre -> ~ name_line x.
Lemma name_dec line : startswith line (lit "# Filename: ") = true <-> name_line line.
Proof. apply startswith_app. Qed.
Lemma pages_dec line : startswith line (lit "# Pages: ") = true <-> pages_line line.
Proof. apply startswith_app. Qed.
Lemma gp_lines_inv lines : forall sec c8 rng sec' c8' rng', gp_lines (sec, c8, rng) lines = Ok (sec', c8', rng') ->
  (match sec with
   | Some _ => sec' = sec /\ c8' = c8
   | None => (sec' = None /\ c8' = c8) \/ (exists s, sec' = Some s /\ c8' = RStr (lit "@") /\ named lines s)
   end) /\
  (rng' = rng /\ (forall x, In x lines -> ~ pages_line x) \/ exists a b, rng' = Some (a, b) /\ page_numbers lines a b).
Proof.
  induction lines as [|l lines IH]; intros sec c8 rng sec' c8' rng' H.
  - cbn [gp_lines] in H. injection H as <- <- <-. split; [destruct sec; auto|]. left. split; [reflexivity|]. intros x [].
  - cbn [gp_lines] in H. rewrite gp_line_eq in H.
    assert (RNG : forall rng1, (if startswith l (lit "# Pages: ") then gp_rng l else Ok rng) = Ok rng1 ->
       (rng' = rng1 /\ (forall x, In x lines -> ~ pages_line x) \/ exists a b, rng' = Some (a, b) /\ page_numbers lines a b) ->
       (rng' = rng /\ (forall x, In x (l :: lines) -> ~ pages_line x) \/
        exists a b, rng' = Some (a, b) /\ page_numbers (l :: lines) a b)).
    { intros rng1 R [[E N]|(a & b & E & pre & l0 & post & -> & P & N)].
      - destruct (startswith l (lit "# Pages: ")) eqn:SP.
        + destruct (proj1 (pages_dec l) SP) as (r & ->). apply gp_rng_inv in R. destruct R as (a & b & P & ->).
          right. exists a, b. split; [exact E|]. exists [], (lit "# Pages: " ++ r), lines. auto.
        + left. split; [congruence|]. intros x [<-|I]; [|auto]. intros X. apply pages_dec in X. congruence.
      - right. exists a, b. split; [exact E|]. exists (l :: pre), l0, post. auto. }
    destruct sec as [s|].
    + cbn [bind] in H. destruct (if startswith l (lit "# Pages: ") then gp_rng l else Ok rng) as [rng1|] eqn:R;
        cbn [bind fst snd] in H; [|discriminate].
      destruct (IH _ _ _ _ _ _ H) as [A B]. split; [exact A|]. exact (RNG _ eq_refl B).
    + destruct (startswith l (lit "# Filename: ")) eqn:SN.
      * destruct (proj1 (name_dec l) SN) as (r & EL).
        destruct (gp_name l) as [y|] eqn:GN; cbn [bind] in H; [|discriminate].
        rewrite EL in GN. apply gp_name_inv in GN. destruct GN as (s & SS & ->). rewrite <- EL in SS. cbn [fst snd] in H.
        destruct (if startswith l (lit "# Pages: ") then gp_rng l else Ok rng) as [rng1|] eqn:R;
          cbn [bind fst snd] in H; [|discriminate].
        destruct (IH _ _ _ _ _ _ H) as [[-> ->] B]. split; [|exact (RNG _ eq_refl B)].
        right. exists s. split; [reflexivity|]. split; [reflexivity|]. exists [], l, lines. split; [reflexivity|]. split; [exact SS|].
        intros x [].
      * cbn [bind] in H. destruct (if startswith l (lit "# Pages: ") then gp_rng l else Ok rng) as [rng1|] eqn:R;
          cbn [bind fst snd] in H; [|discriminate].
        destruct (IH _ _ _ _ _ _ H) as [A B]. split; [|exact (RNG _ eq_refl B)].
        destruct A as [A|(s & -> & -> & pre & l0 & post & -> & S & N)]; [left; exact A|]. right. exists s.
        split; [reflexivity|]. split; [reflexivity|]. exists (l :: pre), l0, post. split; [reflexivity|]. split; [exact S|].
        intros x [<-|I]; [|auto]. intros X. apply name_dec in X. congruence.
Qed.
Lemma gp_lines_total lines : forall sec c8 rng,
  (forall x, In x lines -> pages_line x -> exists a b, pages_are x a b) ->
  (match sec with Some _ => True | None => (forall x, In x lines -> ~ name_line x) \/ exists s, named lines s end) ->
  exists st, gp_lines (sec, c8, rng) lines = Ok st.
Proof.
  induction lines as [|l lines IH]; intros sec c8 rng P N; [eexists; reflexivity|].
  cbn [gp_lines]. rewrite gp_line_eq.
  assert (R : exists rng1, (if startswith l (lit "# Pages: ") then gp_rng l else Ok rng) = Ok rng1).
  { destruct (startswith l (lit "# Pages: ")) eqn:SP; [|eauto]. apply pages_dec in SP.
    destruct (P l (or_introl eq_refl) SP) as (a & b & PA). rewrite (gp_rng_ok _ _ _ PA). eauto. }
  destruct R as (rng1 & R).
  assert (P' : forall x, In x lines -> pages_line x -> exists a b, pages_are x a b) by (intros x I; apply P; right; exact I).
  destruct sec as [s|].
  - cbn [bind]. rewrite R. cbn [bind fst snd]. apply IH; [exact P'|exact I].
  - destruct (startswith l (lit "# Filename: ")) eqn:SN.
    + apply name_dec in SN. destruct N as [N|(s & pre & l0 & post & E & S & N)].
      * destruct (N l (or_introl eq_refl) SN).
      * destruct pre as [|x pre]; [|injection E as <- _; destruct (N l (or_introl eq_refl) SN)].
        injection E as <- <-. rewrite (gp_name_ok _ _ S). cbn [bind]. rewrite R. cbn [bind fst snd].
        apply IH; [exact P'|exact I].
    + cbn [bind]. rewrite R. cbn [bind fst snd]. apply IH; [exact P'|].
      destruct N as [N|(s & pre & l0 & post & E & S & N)]; [left; intros x I; apply N; right; exact I|].
      destruct pre as [|x pre].
      * exfalso. injection E as <- _. destruct S as (r & w & t & EL & _).
        assert (X : name_line l) by (exists r; exact EL). apply name_dec in X. congruence.
      * injection E as <- ->. right. exists s, pre, l0, post. split; [reflexivity|]. split; [exact S|].
        intros y I. apply N. right. exact I.
Qed.

(** *** the log section of the lines *)
Lemma remove_filter s : remove_char 10 s = filter (fun c => negb (c =? 10)) s.
Proof.
  unfold remove_char. apply filter_ext. intros c. first [reflexivity | rewrite Z.eqb_sym; reflexivity].
Qed.
Lemma l_field line : rstr (stripped (field_text line 120 [1; 2; 8; 9; 20; 33; 47; 61; 76; 81] 0)) = RStr (lit "L") <-> l_line line.
Proof.
  change (field_text line 120 [1; 2; 8; 9; 20; 33; 47; 61; 76; 81] 0) with (columns line 1 1). unfold l_line. split.
  - intros H. destruct (stripped (columns line 1 1)) as [t|] eqn:E; [|discriminate]. cbn [rstr] in H.
    assert (t = lit "L") by congruence. subst t. apply stripped_Some in E. destruct E as [(p & q & E & _) _].
    destruct line as [|c line]; [destruct p; discriminate|]. change (columns (c :: line) 1 1) with [c] in E.
    destruct p as [|x p]; [|injection E as _ E; destruct p; discriminate]. injection E as -> _. exists line. reflexivity.
  - intros (r & ->). reflexivity.
Qed.
Lemma l_not_comment r : startswith (lit "L" ++ r) (lit "#") = false.
Proof. reflexivity. Qed.
Definition l_section (lines : list str) (sec : str) (c8 : rval) : Prop :=
  exists pre l post, lines = pre ++ l :: post /\ l_line l /\ (forall x, In x pre -> ~ l_line x) /\
     trimmed (columns (filter (fun c => negb (c =? 10)) l) 9 81) sec /\ shows (columns l 8 8) c8.
Lemma argus_card line fn i c : startswith line (lit "#") = false ->
  card_new ArgusCls line 120 [1; 2; 8; 9; 20; 33; 47; 61; 76; 81] fn i = Ok c ->
  c_line c = remove_char 10 line /\
  card_get c "column1" = Ok (rstr (stripped (field_text line 120 [1; 2; 8; 9; 20; 33; 47; 61; 76; 81] 0))) /\
  card_get c "column8" = Ok (rstr (stripped (columns line 8 8))).
Proof.
  intros C H. apply comment_false in C. cbn [card_new] in H. rewrite (argus_ok _ _ _ _ _ C default_layout) in H.
  injection H as <-. split; [reflexivity|]. split; getf; destruct (is_remark _); reflexivity.
Qed.
Lemma log_section_lines lines : forall i cs,
  read_lines ArgusCls 120 [1; 2; 8; 9; 20; 33; 47; 61; 76; 81] None i lines = Ok cs ->
  forall o, log_section cs = Ok o ->
  match o with
  | None => forall x, In x lines -> ~ l_line x
  | Some (s, c8) => l_section lines s c8
  end.
Proof.
  induction lines as [|l lines IH]; intros i cs H o E.
  - injection H as <-. cbn in E. injection E as <-. intros x [].
  - cbn [read_lines] in H. destruct (startswith l (lit "#")) eqn:C.
    + specialize (IH _ _ H o E). assert (NL : ~ l_line l) by (intros (r & ->); rewrite l_not_comment in C; discriminate).
      destruct o as [[s c8]|].
      * destruct IH as (pre & l0 & post & -> & L & N & T). exists (l :: pre), l0, post. split; [reflexivity|].
        split; [exact L|]. split; [|exact T]. intros x [<-|I]; auto.
      * intros x [<-|I]; auto.
    + destruct (card_new ArgusCls l 120 [1; 2; 8; 9; 20; 33; 47; 61; 76; 81] None i) as [c|] eqn:EC; cbn [bind] in H; [|discriminate].
      destruct (read_lines ArgusCls 120 [1; 2; 8; 9; 20; 33; 47; 61; 76; 81] None (i + 1) lines) as [cs'|] eqn:ER;
        cbn [bind] in H; [|discriminate]. injection H as <-.
      destruct (argus_card _ _ _ _ C EC) as (CL & C1 & C8). cbn [log_section] in E. unfold card_get in C1, C8.
      destruct (card_record c) as [rec|]; cbn [bind] in *; [|discriminate]. rewrite C1, C8 in E. cbn [bind] in E.
      destruct (is_str _ "L") eqn:IL.
      * apply is_str_ok in IL. apply l_field in IL. cbn [bind] in E. injection E as <-.
        exists [], l, lines. split; [reflexivity|]. split; [exact IL|]. split; [intros x []|]. split.
        -- rewrite CL, remove_filter. unfold columns. rewrite py_slice_range by lia. apply strip_trimmed.
        -- apply shows_stripped.
      * assert (NL : ~ l_line l).
        { intros X. apply l_field in X. rewrite X in IL. discriminate. }
        specialize (IH _ _ ER o E). destruct o as [[s c8]|].
        -- destruct IH as (pre & l0 & post & -> & L & N & T). exists (l :: pre), l0, post. split; [reflexivity|].
           split; [exact L|]. split; [|exact T]. intros x [<-|I]; auto.
        -- intros x [<-|I]; auto.
Qed.
Lemma shows_eq f v : shows f v <-> v = rstr (stripped f).
Proof.
  split; [|intros ->; apply shows_stripped]. intros [(B & ->)|(t & T & N & ->)].
  - rewrite (proj2 (stripped_None f) B). reflexivity.
  - rewrite (proj2 (stripped_Some f t) (conj T N)). reflexivity.
Qed.
Lemma first_unique (P : str -> Prop) : forall pre l post pre' l' post', pre ++ l :: post = pre' ++ l' :: post' ->
  P l -> P l' -> (forall x, In x pre -> ~ P x) -> (forall x, In x pre' -> ~ P x) -> l = l'.
Proof.
  induction pre as [|x pre IH]; intros l post [|x' pre'] l' post' E L L' N N'; cbn [app] in E.
  - congruence.
  - injection E as -> _. destruct (N' x' (or_introl eq_refl) L).
  - injection E as -> _. destruct (N l' (or_introl eq_refl) L').
  - injection E as -> E. eapply IH; [exact E|assumption|assumption| |]; intros y I; [apply N|apply N']; right; exact I.
Qed.
Lemma last_unique (P : str -> Prop) pre l post pre' l' post' : pre ++ l :: post = pre' ++ l' :: post' ->
  P l -> P l' -> (forall x, In x post -> ~ P x) -> (forall x, In x post' -> ~ P x) -> l = l'.
Proof.
  intros E L L' N N'. apply (first_unique P (rev post) l (rev pre) (rev post') l' (rev pre')); try assumption.
  - apply (f_equal (@rev _)) in E. rewrite !rev_app_distr in E. cbn [rev] in E. rewrite <- !app_assoc in E. exact E.
  - intros x I. apply N. apply in_rev. exact I.
  - intros x I. apply N'. apply in_rev. exact I.
Qed.
Lemma name_is_line l sec : section_name l sec -> name_line l.
Proof. intros (r & w & t & -> & _). exists r. reflexivity. Qed.
Lemma pages_is_line l a b : pages_are l a b -> pages_line l.
Proof. intros (r & w & -> & _). exists r. reflexivity. Qed.
Lemma section_unique lines sec c8 sec' c8' : section_is lines sec c8 -> section_is lines sec' c8' -> sec = sec' /\ c8 = c8'.
Proof.
  intros [(pre & l & post & -> & L & N & T & S)|(N & -> & pre & l & post & -> & S & F)]
    [(pre' & l' & post' & E' & L' & N' & T' & S')|(N' & -> & pre' & l' & post' & E' & S' & F')].
  - rewrite <- (first_unique l_line _ _ _ _ _ _ E' L L' N N') in T', S'. split; [eapply trimmed_unique; eassumption|].
    apply shows_eq in S, S'. congruence.
  - exfalso. apply (N' l); [apply in_or_app; right; left; reflexivity|exact L].
  - exfalso. apply (N l'); [rewrite E'; apply in_or_app; right; left; reflexivity|exact L'].
  - split; [|reflexivity].
    rewrite <- (first_unique name_line _ _ _ _ _ _ E' (name_is_line _ _ S) (name_is_line _ _ S') F F') in S'.
    apply gp_name_ok in S, S'. congruence.
Qed.
Lemma pages_unique lines a b a' b' : page_numbers lines a b -> page_numbers lines a' b' -> a = a' /\ b = b'.
Proof.
  intros (pre & l & post & -> & P & N) (pre' & l' & post' & E & P' & N').
  rewrite <- (last_unique pages_line _ _ _ _ _ _ E (pages_is_line _ _ _ P) (pages_is_line _ _ _ P') N N') in P'.
  apply gp_rng_ok in P, P'. rewrite P in P'. split; congruence.
Qed.
Lemma log_lines fuel fs lines : exists d o,
  argus_deck_new fuel fs (Some lines) None DEFAULT_WIDTH DEFAULT_FIELDS ArgusCls =
    Ok (d, match o with Some (s, _) => Some s | None => None end, match o with Some (_, c8) => c8 | None => RNone end) /\
  match o with
  | None => forall x, In x lines -> ~ l_line x
  | Some (s, c8) => l_section lines s c8
  end.
Proof.
  destruct (C68_log_section_total_pf fuel fs lines DEFAULT_WIDTH DEFAULT_FIELDS default_layout) as (d & sec & col8 & E).
  assert (E' := E). unfold argus_deck_new in E. unfold deck_new in E.
  destruct (read_lines ArgusCls DEFAULT_WIDTH DEFAULT_FIELDS None 1 lines) as [cs|] eqn:ER; cbn [bind] in E; [|discriminate].
  destruct (mapr _ cs) as [all|]; cbn [bind] in E; [|discriminate]. cbn [d_cards] in E.
  destruct (log_section cs) as [o|] eqn:EL; cbn [bind] in E; [|discriminate].
  exists d, o. split; [|exact (log_section_lines lines 1 cs ER o EL)].
  rewrite E'. destruct o as [[s c8]|]; congruence.
Qed.
Lemma genpages_cases fuel content :
  (exists sec c8 a b, section_is (readlines content) sec c8 /\ page_numbers (readlines content) a b /\ a <= b /\
     genpages fuel content = Ok ([10] ++ (lit "L      " ++ str_of_rval c8 ++ sec ++ [10]) ++
                concat (map (gp_page (str_of_rval c8) sec a) (py_range a (b + 1))))) \/
  (exists e, genpages fuel content = Err e /\
     forall sec c8 a b, section_is (readlines content) sec c8 -> page_numbers (readlines content) a b ->
       (forall x, In x (readlines content) -> pages_line x -> exists a' b', pages_are x a' b') -> b < a).
Proof.
  unfold genpages. set (lines := readlines content). clearbody lines.
  destruct (log_lines fuel (fun _ => None) lines) as (d & o & -> & HO). cbn [bind]. cbv zeta.
  set (sec0 := match o with Some (s, _) => Some s | None => None end).
  set (c80 := match o with Some (_, c8) => c8 | None => RNone end).
  destruct (gp_lines (sec0, c80, None) lines) as [[[sec c8] rng]|e] eqn:EG; cbn [bind].
  - destruct (gp_lines_inv _ _ _ _ _ _ _ EG) as [A B].
    assert (SEC : match sec with Some s => section_is lines s c8 | None => forall s v, ~ section_is lines s v end).
    { unfold sec0, c80 in A. destruct o as [[s v]|].
      - destruct A as [-> ->]. left. exact HO.
      - destruct A as [(-> & _)|(s & -> & -> & NM)]; [|right; auto].
        destruct (gp_lines_inv _ _ _ _ _ _ _ EG) as [_ _].
        intros s v [(pre & l & post & -> & L & _)|(N & -> & pre & l & post & -> & S & F)].
        + apply (HO l); [apply in_or_app; right; left; reflexivity|exact L].
        + clear - EG S. unfold sec0, c80 in EG. revert EG. generalize (@None (Z * Z)) as r0. generalize RNone as v0.
          induction pre as [|x pre IH]; intros v0 r0 EG; cbn [app gp_lines] in EG; rewrite gp_line_eq in EG.
          * rewrite (proj2 (name_dec l) (name_is_line _ _ S)), (gp_name_ok _ _ S) in EG. cbn [bind fst snd] in EG.
            destruct (if startswith l (lit "# Pages: ") then gp_rng l else Ok r0) as [r1|]; cbn [bind] in EG; [|discriminate].
            apply gp_lines_inv in EG. destruct EG as [[EG _] _]. discriminate.
          * destruct (startswith x (lit "# Filename: ")) eqn:SX.
            -- destruct (proj1 (name_dec x) SX) as (r & EX). destruct (gp_name x) as [y|] eqn:GN; cbn [bind] in EG; [|discriminate].
               rewrite EX in GN. apply gp_name_inv in GN. destruct GN as (s' & _ & ->). cbn [fst snd] in EG.
               destruct (if startswith x (lit "# Pages: ") then gp_rng x else Ok r0) as [r1|]; cbn [bind] in EG; [|discriminate].
               apply gp_lines_inv in EG. destruct EG as [[EG _] _]. discriminate.
            -- cbn [bind fst snd] in EG.
               destruct (if startswith x (lit "# Pages: ") then gp_rng x else Ok r0) as [r1|]; cbn [bind] in EG; [|discriminate].
               exact (IH _ _ EG). }
    destruct sec as [s|].
    + destruct B as [(-> & NP)|(a & b & -> & PN)].
      * right. eexists. split; [reflexivity|]. intros s' v a b _ (pre & l & post & -> & P & _). exfalso.
        apply (NP l); [apply in_or_app; right; left; reflexivity|exact (pages_is_line _ _ _ P)].
      * destruct (Z.ltb_spec b a).
        -- right. eexists. split; [reflexivity|]. intros s' v a' b' _ PN' _.
           destruct (pages_unique _ _ _ _ _ PN PN'). lia.
        -- left. exists s, c8, a, b. auto.
    + right. eexists. split; [reflexivity|]. intros s' v a b X. destruct (SEC _ _ X).
  - right. exists e. split; [reflexivity|]. intros s v a b SI PN WF. exfalso.
    destruct (gp_lines_total lines sec0 c80 None WF) as (st & E).
    + unfold sec0. destruct o as [[s0 v0]|]; [exact I|]. right. exists s.
      destruct SI as [(pre & l & post & -> & L & _)|(_ & _ & NM)]; [|exact NM].
      destruct (HO l ltac:(apply in_or_app; right; left; reflexivity) L).
    + congruence.
Qed.
Lemma gp_pages c8 sec a b : a <= b ->
  zlen (map (gp_page c8 sec a) (py_range a (b + 1))) = b - a + 1 /\
  forall k p, nth_error (map (gp_page c8 sec a) (py_range a (b + 1))) k = Some p ->
    p = page_block c8 sec (a + Z.of_nat k) (Z.of_nat k + 1).
Proof.
  intros H. split.
  - assert (M : forall A B (f : A -> B) l, zlen (map f l) = zlen l) by (intros; unfold zlen; rewrite map_length; reflexivity).
    rewrite M, py_range_length. lia.
  - intros k p E. rewrite nth_error_map in E.
    destruct (nth_error (py_range a (b + 1)) k) as [x|] eqn:EX; [|discriminate]. cbn [option_map] in E.
    assert (x = a + Z.of_nat k).
    { unfold py_range in EX. rewrite nth_error_map in EX. destruct (nth_error (seq 0 _) k) as [i|] eqn:EI; [|discriminate].
      cbn [option_map] in EX. rewrite nth_error_seq in EI. destruct (k <? _)%nat; [|discriminate]. congruence. }
    subst x. assert (p = gp_page c8 sec a (a + Z.of_nat k)) as -> by congruence.
    unfold gp_page, page_block. cbv zeta. replace (a + Z.of_nat k - a + 1) with (Z.of_nat k + 1) by lia.
    rewrite <- !app_assoc. reflexivity.
Qed.

(** *** C91 *)
Lemma C91_genpages_pf : forall fuel content sec c8 a b,
  section_is (readlines content) sec c8 -> page_numbers (readlines content) a b -> a <= b ->
  (forall x, In x (readlines content) -> pages_line x -> exists a' b', pages_are x a' b') ->
  exists pages, genpages fuel content = Ok ([10] ++ lit "L      " ++ c8_text c8 ++ sec ++ [10] ++ concat pages) /\
    zlen pages = b - a + 1 /\
    forall k p, nth_error pages k = Some p -> p = page_block (c8_text c8) sec (a + Z.of_nat k) (Z.of_nat k + 1).
Proof.
  intros fuel content sec c8 a b S P L W.
  destruct (genpages_cases fuel content) as [(sec' & c8' & a' & b' & S' & P' & _ & E)|(e & _ & H)].
  - destruct (section_unique _ _ _ _ _ S S') as [<- <-]. destruct (pages_unique _ _ _ _ _ P P') as [<- <-].
    destruct (gp_pages (str_of_rval c8) sec a b L) as [G1 G2]. eexists. rewrite E. split; [|split; [exact G1|exact G2]].
    rewrite <- !app_assoc. reflexivity.
  - specialize (H _ _ _ _ S P W). lia.
Qed.
(*@ Example C91_genpages_ex :
  genpages 0 (lit "# Filename: AB_C.argus" ++ [10] ++ lit "# Pages: 17-18" ++ [10] ++ lit "R      *HELLO" ++ [10]) =
  Ok ([10] ++ lit "L      @AB C" ++ [10] ++ page_block (lit "@") (lit "AB C") 17 1 ++ page_block (lit "@") (lit "AB C") 18 2).
Proof. vm_compute. reflexivity. Qed. @*)
Lemma C91_genpages_only_pf : forall fuel content out, genpages fuel content = Ok out ->
  exists sec c8 a b, section_is (readlines content) sec c8 /\ page_numbers (readlines content) a b /\ a <= b /\
    exists pages, out = [10] ++ lit "L      " ++ c8_text c8 ++ sec ++ [10] ++ concat pages /\
      zlen pages = b - a + 1 /\
      forall k p, nth_error pages k = Some p -> p = page_block (c8_text c8) sec (a + Z.of_nat k) (Z.of_nat k + 1).
Proof.
  intros fuel content out H.
  destruct (genpages_cases fuel content) as [(sec & c8 & a & b & S & P & L & E)|(e & E & _)]; [|congruence].
  exists sec, c8, a, b. split; [exact S|]. split; [exact P|]. split; [exact L|].
  destruct (gp_pages (str_of_rval c8) sec a b L) as [G1 G2]. eexists.
  rewrite E in H. apply Ok_inv in H. rewrite H. split; [|split; [exact G1|exact G2]].
  rewrite <- !app_assoc. reflexivity.
Qed.
(*@ Example C91_genpages_only_ex :
  genpages 0 (lit "L      *MAIN SECTION" ++ [10] ++ lit "# Pages: 3" ++ [10]) =
    Ok ([10] ++ lit "L      *MAIN SECTION" ++ [10] ++ page_block (lit "*") (lit "MAIN SECTION") 3 1) /\
  genpages 0 (lit "L      *MAIN SECTION" ++ [10]) = Err UnboundLocalError /\
  genpages 0 (lit "# Pages: 3" ++ [10]) = Err SystemExit.
Proof. vm_compute. auto. Qed. @*)
Lemma gp_lines_none lines : forall v r c8 rng, gp_lines (None, v, r) lines = Ok (None, c8, rng) -> forall x, In x lines -> ~ name_line x.
Proof.
  induction lines as [|l lines IH]; intros v r c8 rng E x I; [destruct I|]. cbn [gp_lines] in E. rewrite gp_line_eq in E.
  destruct (startswith l (lit "# Filename: ")) eqn:SX.
  - exfalso. destruct (proj1 (name_dec l) SX) as (t & EX). destruct (gp_name l) as [y|] eqn:GN; cbn [bind] in E; [|discriminate].
    rewrite EX in GN. apply gp_name_inv in GN. destruct GN as (s' & _ & ->). cbn [fst snd] in E.
    destruct (if startswith l (lit "# Pages: ") then gp_rng l else Ok r) as [r1|]; cbn [bind] in E; [|discriminate].
    apply gp_lines_inv in E. destruct E as [[E _] _]. discriminate.
  - cbn [bind fst snd] in E. destruct (if startswith l (lit "# Pages: ") then gp_rng l else Ok r) as [r1|]; cbn [bind] in E; [|discriminate].
    destruct I as [<-|I]; [|exact (IH _ _ _ _ E x I)]. intros N. apply name_dec in N. congruence.
Qed.
Lemma C91_failures_pf : forall fuel content,
  (forall x, In x (readlines content) -> pages_line x -> exists a b, pages_are x a b) ->
  ((forall x, In x (readlines content) -> ~ l_line x /\ ~ name_line x) -> genpages fuel content = Err SystemExit) /\
  (forall sec c8, section_is (readlines content) sec c8 ->
     ((forall x, In x (readlines content) -> ~ pages_line x) -> genpages fuel content = Err UnboundLocalError) /\
     (forall a b, page_numbers (readlines content) a b -> b < a -> genpages fuel content = Err SystemExit)).
Proof.
  intros fuel content. unfold genpages. set (lines := readlines content). clearbody lines. intros WF.
  destruct (log_lines fuel (fun _ => None) lines) as (d & o & -> & HO). cbn [bind]. cbv zeta.
  split; [|intros sec c8 SI].
  - intros N. destruct o as [[s v]|].
    { destruct HO as (pre & l & post & -> & L & _). destruct (N l ltac:(apply in_or_app; right; left; reflexivity)) as [X _]. contradiction. }
    destruct (gp_lines_total lines None RNone None WF) as ([[sec c8] rng] & E); [left; intros x I; exact (proj2 (N x I))|].
    rewrite E. cbn [bind]. destruct (gp_lines_inv _ _ _ _ _ _ _ E) as [[[-> _]|(s & _ & _ & pre & l & post & -> & SN & _)] _]; [reflexivity|].
    destruct (N l ltac:(apply in_or_app; right; left; reflexivity)) as [_ X]. destruct (X (name_is_line _ _ SN)).
  - set (sec0 := match o with Some (s, _) => Some s | None => None end). set (c80 := match o with Some (_, c8) => c8 | None => RNone end).
    assert (G : exists s v rng, gp_lines (sec0, c80, None) lines = Ok (Some s, v, rng) /\
       (rng = None /\ (forall x, In x lines -> ~ pages_line x) \/ exists a b, rng = Some (a, b) /\ page_numbers lines a b)).
    { assert (NM : o = None -> named lines sec).
      { intros ->. destruct SI as [(pre & l & post & -> & L & _)|(_ & _ & NM)]; [|exact NM].
        destruct (HO l ltac:(apply in_or_app; right; left; reflexivity) L). }
      destruct (gp_lines_total lines sec0 c80 None WF) as ([[s v] rng] & E).
      { unfold sec0. destruct o as [[s v]|]; [exact I|]. right. exists sec. exact (NM eq_refl). }
      destruct (gp_lines_inv _ _ _ _ _ _ _ E) as [A B]. destruct s as [s|]; [exists s, v, rng; auto|]. exfalso.
      unfold sec0, c80 in E, A. destruct o as [[s0 v0]|]; [destruct A; discriminate|].
      destruct (NM eq_refl) as (pre & l & post & EL & SN & _). apply (gp_lines_none _ _ _ _ _ E l); [|exact (name_is_line _ _ SN)].
      rewrite EL. apply in_or_app. right. left. reflexivity. }
    destruct G as (s & v & rng & -> & R). cbn [bind]. split.
    + intros NP. destruct R as [[-> _]|(a & b & _ & pre & l & post & -> & P & _)]; [reflexivity|].
      destruct (NP l ltac:(apply in_or_app; right; left; reflexivity) (pages_is_line _ _ _ P)).
    + intros a b PN L. destruct R as [[_ NP]|(a' & b' & -> & PN')].
      * destruct PN as (pre & l & post & -> & P & _). destruct (NP l ltac:(apply in_or_app; right; left; reflexivity) (pages_is_line _ _ _ P)).
      * destruct (pages_unique _ _ _ _ _ PN PN') as [<- <-]. destruct (Z.ltb_spec b a); [reflexivity|lia].
Qed.
(*@ Example C91_failures_ex :
  genpages 0 (lit "R      *HELLO" ++ [10] ++ lit "# Pages: 3" ++ [10]) = Err SystemExit /\
  genpages 0 (lit "L      *MAIN SECTION" ++ [10]) = Err UnboundLocalError /\
  genpages 0 (lit "L      *MAIN SECTION" ++ [10] ++ lit "# Pages: 4-3" ++ [10]) = Err SystemExit.
Proof. vm_compute. auto. Qed. @*)
Lemma gp_lines_error lines : forall sec c8 rng e, gp_lines (sec, c8, rng) lines = Err e -> malformed lines e.
Proof.
  induction lines as [|l lines IH]; intros sec c8 rng e E; [discriminate|]. cbn [gp_lines] in E. rewrite gp_line_eq in E.
  assert (UP : forall e, malformed lines e -> malformed (l :: lines) e).
  { intros e' [(-> & x & r & I & R)|(-> & r & w & I & R)]; [left|right]; (split; [reflexivity|]); [exists x, r|exists r, w]; (split; [right; exact I|exact R]). }
  assert (NW : forall r, split_ws r = [] -> forall w, ~ first_word r w) by (intros r X w W; apply first_word_ok in W; destruct W as (t & W); congruence).
  destruct (match sec with Some _ => Ok (sec, c8) | None => if startswith l (lit "# Filename: ") then gp_name l else Ok (sec, c8) end) as [y|e1] eqn:EN; cbn [bind] in E.
  - destruct (if startswith l (lit "# Pages: ") then gp_rng l else Ok rng) as [r1|e2] eqn:ER; cbn [bind] in E; [apply UP; eapply IH; exact E|].
    injection E as <-. destruct (startswith l (lit "# Pages: ")) eqn:SX; [|discriminate].
    destruct (proj1 (pages_dec l) SX) as (r & ->). assert (ER' := ER). unfold gp_rng in ER. rewrite pages_words, index2 in ER.
    destruct (split_ws r) as [|w rest] eqn:W.
    + left. cbn [bind] in ER. split; [congruence|]. exists (lit "# Pages: " ++ r), r. split; [left; reflexivity|]. split; [left; reflexivity|exact (NW r W)].
    + right. cbn [bind] in ER. cbv zeta in ER.
      assert (FW : first_word r w) by (apply first_word_ok; eauto). rewrite (strip_word w (first_word_nonspace _ _ FW)) in ER. split.
      * destruct (has_char 45 w); [destruct (py_int (nth 0 (split_on 45 w) [])) as [a|e3] eqn:A|destruct (py_int w) as [a|e3] eqn:A];
          cbn [bind] in ER; [destruct (py_int (nth 1 (split_on 45 w) [])) as [b|e3] eqn:B; cbn [bind] in ER; [discriminate|]| |discriminate|];
          injection ER as <-; eapply py_int_error; eassumption.
      * exists r, w. split; [left; reflexivity|]. split; [exact FW|]. intros a b PR.
        rewrite (gp_rng_ok (lit "# Pages: " ++ r) a b) in ER'; [discriminate|]. exists r, w. auto.
  - injection E as <-. destruct sec; [discriminate|]. destruct (startswith l (lit "# Filename: ")) eqn:SX; [|discriminate].
    destruct (proj1 (name_dec l) SX) as (r & ->). unfold gp_name in EN. rewrite name_words, index2 in EN.
    destruct (split_ws r) as [|w rest] eqn:W; [|discriminate]. left. cbn [bind] in EN. split; [congruence|].
    exists (lit "# Filename: " ++ r), r. split; [left; reflexivity|]. split; [right; reflexivity|exact (NW r W)].
Qed.
Lemma C91_malformed_pf : forall fuel content e, genpages fuel content = Err e ->
  e = SystemExit \/ e = UnboundLocalError \/ malformed (readlines content) e.
Proof.
  intros fuel content e. unfold genpages. set (lines := readlines content). clearbody lines.
  destruct (log_lines fuel (fun _ => None) lines) as (d & o & -> & HO). cbn [bind]. cbv zeta. intros E.
  destruct (gp_lines (_, _, None) lines) as [[[s v] rng]|e'] eqn:G; cbn [bind] in E.
  - destruct s as [s|]; [|left; congruence]. destruct rng as [[a b]|]; [|right; left; congruence]. destruct (b <? a); [left; congruence|discriminate].
  - right. right. injection E as <-. eapply gp_lines_error. exact G.
Qed.
(*@ Example C91_malformed_ex :
  genpages 0 (lit "# Pages: " ++ [10]) = Err IndexError /\ genpages 0 (lit "# Filename:  " ++ [10] ++ lit "# Pages: 3" ++ [10]) = Err IndexError /\
  genpages 0 (lit "# Pages: 3-" ++ [10]) = Err ValueError /\ genpages 0 (lit "# Pages: iii" ++ [10]) = Err ValueError.
Proof. vm_compute. auto. Qed. @*)

(** *** C98 *)
Lemma universal_app (x : str) : ~ In 13 x -> forall y, universal_newlines (x ++ y) = x ++ universal_newlines y.
Proof.
  induction x as [|c x IH]; intros N y; [reflexivity|]. cbn [app universal_newlines].
  destruct (Z.eqb_spec c 13); [subst; destruct N; left; reflexivity|]. rewrite IH by (intros I; apply N; right; exact I).
  reflexivity.
Qed.
Lemma lines_app (x : str) : ~ In 10 x -> forall y, lines_of (x ++ 10 :: y) = (x ++ [10]) :: lines_of y.
Proof.
  induction x as [|c x IH]; intros N y; [reflexivity|]. cbn [app lines_of].
  destruct (Z.eqb_spec c 10); [subst; destruct N; left; reflexivity|]. rewrite IH by (intros I; apply N; right; exact I).
  reflexivity.
Qed.
Lemma universal_no13 s : ~ In 13 (universal_newlines s).
Proof.
  induction s as [|c s IH]; [intros []|]. cbn [universal_newlines]. destruct (Z.eqb_spec c 13) as [E|E].
  - destruct s as [|x s']; [intros [X|[]]; discriminate|]. destruct (x =? 10); [exact IH|].
    intros [X|X]; [discriminate|exact (IH X)].
  - intros [X|X]; [congruence|exact (IH X)].
Qed.
Lemma lines_chars s : forall l c, In l (lines_of s) -> In c l -> In c s.
Proof.
  induction s as [|x s IH]; intros l c I J; [destruct I|]. cbn [lines_of] in I. destruct (Z.eqb_spec x 10).
  - destruct I as [<-|I]; [destruct J as [<-|[]]; left; congruence|right; exact (IH _ _ I J)].
  - destruct (lines_of s) as [|h t].
    + destruct I as [<-|[]]. destruct J as [<-|[]]. left. reflexivity.
    + destruct I as [<-|I].
      * destruct J as [<-|J]; [left; reflexivity|right; apply (IH h); [left; reflexivity|exact J]].
      * right. apply (IH l); [right; exact I|exact J].
Qed.
Lemma readlines_no13 content l : In l (readlines content) -> ~ In 13 l.
Proof. intros I J. exact (universal_no13 content (lines_chars _ _ _ I J)). Qed.
Lemma trimmed_In (s t : str) c : trimmed s t -> In c t -> In c s.
Proof. intros (p & q & -> & _) I. apply in_or_app. right. apply in_or_app. left. exact I. Qed.
Lemma columns_In (s : str) a b c : In c (columns s a b) -> In c s.
Proof.
  unfold columns. intros I. rewrite <- (firstn_skipn (Z.to_nat (a - 1)) s). apply in_or_app. right.
  rewrite <- (firstn_skipn (Z.to_nat (b - a + 1)) (skipn (Z.to_nat (a - 1)) s)). apply in_or_app. left. exact I.
Qed.
Lemma trimmed_self s t : trimmed s t -> trimmed t t.
Proof.
  intros (p & q & _ & _ & _ & A & B). exists [], []. rewrite app_nil_r. split; [reflexivity|].
  split; [constructor|]. split; [constructor|]. auto.
Qed.
Lemma l_section_sec content sec c8 : l_section (readlines content) sec c8 ->
  ~ In 10 sec /\ ~ In 13 sec /\ (List.length sec <= 73)%nat /\ trimmed sec sec.
Proof.
  intros (pre & l & post & E & L & N & T & S).
  assert (I : forall c, In c sec -> In c (filter (fun c => negb (c =? 10)) l)).
  { intros c I. eapply columns_In. eapply trimmed_In; eassumption. }
  split; [intros J; apply I in J; apply filter_In in J; destruct J as [_ J]; discriminate|].
  split.
  - intros J. apply I in J. apply filter_In in J. destruct J as [J _]. revert J.
    apply (readlines_no13 content). rewrite E. apply in_or_app. right. left. reflexivity.
  - split; [|eapply trimmed_self; exact T].
    destruct T as (p & q & ET & _). apply (f_equal (@List.length _)) in ET. rewrite !app_length in ET.
    unfold columns in ET. rewrite firstn_length in ET. lia.
Qed.
Lemma reread (c : Z) (t rest : str) : c <> 10 -> c <> 13 -> ~ white c -> ~ In 10 t -> ~ In 13 t ->
  readlines ([10] ++ lit "L      " ++ [c] ++ t ++ [10] ++ rest) =
    ([10] : str) :: ((lit "L      " ++ c :: t ++ [10]) : str) :: readlines rest /\
  forall sec, trimmed (firstn 73 t) sec ->
    section_is (readlines ([10] ++ lit "L      " ++ [c] ++ t ++ [10] ++ rest)) sec (RStr [c]).
Proof.
  intros N10 N13 NS T10 T13.
  assert (RL : readlines ([10] ++ lit "L      " ++ [c] ++ t ++ [10] ++ rest) =
    ([10] : str) :: ((lit "L      " ++ c :: t ++ [10]) : str) :: readlines rest).
  { unfold readlines.
    replace ([10] ++ lit "L      " ++ [c] ++ t ++ [10] ++ rest) with (([10] ++ lit "L      " ++ [c] ++ t ++ [10]) ++ rest)
      by (rewrite <- !app_assoc; reflexivity).
    rewrite universal_app.
    2:{ intros I. apply in_app_or in I. destruct I as [[I|[]]|I]; [discriminate|].
        apply in_app_or in I. destruct I as [I|I]; [vm_compute in I; repeat (destruct I as [I|I]; [discriminate|]); exact I|].
        apply in_app_or in I. destruct I as [[I|[]]|I]; [congruence|].
        apply in_app_or in I. destruct I as [I|[I|[]]]; [exact (T13 I)|discriminate]. }
    rewrite <- !app_assoc. cbn [app]. cbn [lines_of]. rewrite Z.eqb_refl. f_equal.
    replace (lit "L      " ++ c :: t ++ 10 :: universal_newlines rest)
      with ((lit "L      " ++ c :: t) ++ 10 :: universal_newlines rest) by (rewrite <- app_assoc; reflexivity).
    rewrite lines_app; [rewrite <- app_assoc; reflexivity|].
    intros I. apply in_app_or in I. destruct I as [I|[I|I]]; [vm_compute in I; repeat (destruct I as [I|I]; [discriminate|]); exact I|congruence|exact (T10 I)]. }
  split; [exact RL|]. intros sec T. rewrite RL. left.
  exists [[10]], (lit "L      " ++ c :: t ++ [10]), (readlines rest). split; [reflexivity|].
  split; [exists (lit "      " ++ c :: t ++ [10]); reflexivity|]. split; [intros x [<-|[]] (r & X); discriminate|]. split.
  - assert (F : filter (fun x => negb (x =? 10)) (lit "L      " ++ c :: t ++ [10]) = lit "L      " ++ c :: t).
    { assert (G : filter (fun x => negb (x =? 10)) t = t).
      { clear - T10. induction t as [|x t IH]; [reflexivity|]. cbn [filter].
        destruct (Z.eqb_spec x 10); [subst; destruct T10; left; reflexivity|]. cbn [negb]. rewrite IH; [reflexivity|].
        intros I. apply T10. right. exact I. }
      rewrite filter_app. cbn [filter]. rewrite filter_app, G. destruct (Z.eqb_spec c 10); [contradiction|].
      cbn [filter negb Z.eqb]. rewrite app_nil_r. reflexivity. }
    rewrite F. change (columns (lit "L      " ++ c :: t) 9 81) with (firstn 73 t). exact T.
  - change (columns (lit "L      " ++ c :: t ++ [10]) 8 8) with [c]. right. exists [c]. split; [|split; [discriminate|reflexivity]].
    exists [], []. split; [reflexivity|]. split; [constructor|]. split; [constructor|]. split.
    + intros x r E. congruence.
    + intros x r E. destruct r as [|y r]; [|destruct r; discriminate]. cbn [app] in E. congruence.
Qed.
Lemma C98_reread_refuted_pf : forall fuel content out sec,
  genpages fuel content = Ok out -> section_is (readlines content) sec RNone ->
  ~ section_is (readlines out) sec RNone /\ exists sec', section_is (readlines out) sec' (RStr (lit "N")).
Proof.
  intros fuel content out sec E S. destruct (C91_genpages_only_pf _ _ _ E) as (sec' & c8 & a & b & S' & _ & _ & pages & -> & _).
  destruct (section_unique _ _ _ _ _ S S') as [<- <-]. clear S'.
  destruct S as [S|(_ & X & _)]; [|discriminate]. destruct (l_section_sec _ _ _ S) as (A & B & _).
  assert (G : exists sec', section_is (readlines ([10] ++ lit "L      " ++ c8_text RNone ++ sec ++ [10] ++ concat pages)) sec' (RStr (lit "N"))).
  { exists (strip (firstn 73 (lit "one" ++ sec))).
    replace ([10] ++ lit "L      " ++ c8_text RNone ++ sec ++ [10] ++ concat pages)
      with ([10] ++ lit "L      " ++ [78] ++ (lit "one" ++ sec) ++ [10] ++ concat pages) by (rewrite <- app_assoc; reflexivity).
    change (lit "N") with [78]. apply reread; try discriminate; [apply not_white; reflexivity| | |apply strip_trimmed].
    - intros I. apply in_app_or in I. destruct I as [I|I]; [|exact (A I)]. vm_compute in I. repeat (destruct I as [I|I]; [discriminate|]). exact I.
    - intros I. apply in_app_or in I. destruct I as [I|I]; [|exact (B I)]. vm_compute in I. repeat (destruct I as [I|I]; [discriminate|]). exact I. }
  split; [|exact G]. intros X. destruct G as (s & G). destruct (section_unique _ _ _ _ _ X G). discriminate.
Qed.
(*@ Example C98_reread_refuted_ex :
  exists pages, genpages 0 (lit "L       MAIN" ++ [10] ++ lit "# Pages: 3" ++ [10]) =
    Ok ([10] ++ lit "L      NoneMAIN" ++ [10] ++ pages).
Proof. eexists. vm_compute. reflexivity. Qed. @*)
Lemma C98_reread_partial_pf : forall fuel content out pre l post sec c,
  readlines content = pre ++ l :: post -> l_line l -> (forall x, In x pre -> ~ l_line x) ->
  columns l 8 8 = [c] -> ~ white c ->
  trimmed (columns (filter (fun c => negb (c =? 10)) l) 9 81) sec ->
  genpages fuel content = Ok out ->
  section_is (readlines out) sec (RStr [c]) /\ section_is (readlines content) sec (RStr [c]).
Proof.
  intros fuel content out pre l post sec c EL L N C NS T E.
  assert (SH : shows (columns l 8 8) (RStr [c])).
  { rewrite C. apply shows_eq. unfold stripped. rewrite strip_word by (constructor; [exact NS|constructor]). reflexivity. }
  assert (LS : l_section (readlines content) sec (RStr [c])) by (exists pre, l, post; auto).
  assert (S : section_is (readlines content) sec (RStr [c])) by (left; exact LS).
  split; [|exact S].
  destruct (C91_genpages_only_pf _ _ _ E) as (sec' & c8 & a & b & S' & _ & _ & pages & -> & _).
  destruct (section_unique _ _ _ _ _ S S') as [<- <-]. clear S'.
  destruct (l_section_sec _ _ _ LS) as (A & B & LEN & TS).
  apply reread; try assumption.
  - intros ->. apply NS, white_ok. reflexivity.
  - intros ->. apply NS, white_ok. reflexivity.
  - rewrite firstn_all2 by exact LEN. exact TS.
Qed.
(*@ Example C98_reread_partial_ex :
  exists pages, genpages 0 (lit "L      * MAIN LOOP " ++ [10] ++ lit "# Pages: 3" ++ [10]) =
    Ok ([10] ++ lit "L      *MAIN LOOP" ++ [10] ++ pages).
Proof. eexists. vm_compute. reflexivity. Qed. @*)
