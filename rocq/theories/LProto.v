(** Proofs about Python's protocols on fields, memory and registers. *)
From Verif Require Import Py MBitField SBits LPy LBits LBitField MWord LWord MMemory SMemory LMemory MRegisters SRegisters LRegisters LRegHeap SCursor SOwn LOwn MProto SProto.
From Coq Require Import ZifyBool.
#[local] Arguments Z.add : simpl never.
#[local] Arguments Z.sub : simpl never.
#[local] Arguments Z.mul : simpl never.
#[local] Arguments Z.pow : simpl never.
Opaque py_range.

(** ** The sequence protocol, generically *)
Lemma upto_nil lo hi : hi <= lo -> upto lo hi = [].
Proof. intros H. unfold upto. replace (Z.to_nat (hi - lo)) with O by lia. reflexivity. Qed.
Lemma upto_cons lo hi : lo < hi -> upto lo hi = lo :: upto (lo + 1) hi.
Proof.
  intros H. unfold upto. replace (Z.to_nat (hi - lo)) with (S (Z.to_nat (hi - (lo + 1)))) by lia.
  cbn [seq map]. rewrite Z.add_0_r. f_equal. rewrite <- seq_shift, map_map. apply map_ext. intros; lia.
Qed.
Lemma upto_In lo hi i : In i (upto lo hi) <-> lo <= i < hi.
Proof.
  unfold upto. rewrite in_map_iff. split.
  - intros (k & <- & H). apply in_seq in H. lia.
  - intros H. exists (Z.to_nat (i - lo)). split; [lia|]. apply in_seq. lia.
Qed.
Lemma upto_snoc n : upto 0 (Z.of_nat (S n)) = upto 0 (Z.of_nat n) ++ [Z.of_nat n].
Proof.
  unfold upto. rewrite !Z.sub_0_r, !Nat2Z.id, seq_S, map_app. cbn [map]. reflexivity.
Qed.

Section Seq.
Context {A : Type} (get : Z -> res A) (val : Z -> A) (n : Z) (e : exn).
Hypothesis good : forall i, 0 <= i < n -> get i = Ok (val i).
Hypothesis bad : get (Z.max 0 n) = Err e.
Hypothesis stops : e <> IndexError /\ e <> StopIteration.

Lemma seq_for_ok : forall k i fuel, 0 <= i -> Z.to_nat (n - i) = k -> i <= Z.max 0 n -> (k < fuel)%nat ->
  seq_for get fuel i = (map val (upto i n), Raised e).
Proof using good bad stops.
  induction k as [|k IH]; intros i fuel Hi Hk Hm Hf; (destruct fuel as [|fuel]; [lia|]); cbn [seq_for].
  - assert (E : i = Z.max 0 n) by lia. rewrite E, bad. rewrite upto_nil by lia.
    destruct stops as [S1 S2]. destruct e; try reflexivity; contradiction.
  - rewrite good by lia. rewrite IH by lia. rewrite (upto_cons i n) by lia. reflexivity.
Qed.
Lemma seq_in_ok (eq : A -> bool) : forall k i fuel, 0 <= i -> Z.to_nat (n - i) = k -> i <= Z.max 0 n -> (k < fuel)%nat ->
  seq_in eq get fuel i = Some (if existsb (fun j => eq (val j)) (upto i n) then Ok true else Err e).
Proof using good bad stops.
  induction k as [|k IH]; intros i fuel Hi Hk Hm Hf; (destruct fuel as [|fuel]; [lia|]); cbn [seq_in].
  - assert (E : i = Z.max 0 n) by lia. rewrite E, bad. rewrite upto_nil by lia.
    destruct stops as [S1 S2]. cbn [existsb]. destruct e; try reflexivity; contradiction.
  - rewrite good by lia. rewrite (upto_cons i n) by lia. cbn [existsb].
    destruct (eq (val i)); [reflexivity|]. cbn [orb]. apply IH; lia.
Qed.
End Seq.
Lemma seq_reversed_ok {A} (get : Z -> res A) (val : Z -> A) n :
  (forall i, 0 <= i < Z.of_nat n -> get i = Ok (val i)) ->
  seq_reversed get n = Ok (rev (map val (upto 0 (Z.of_nat n)))).
Proof.
  induction n as [|n IH]; intros H; cbn [seq_reversed]; [reflexivity|].
  rewrite H by lia. rewrite IH by (intros; apply H; lia). cbn [bind].
  rewrite upto_snoc, map_app, rev_app_distr. reflexivity.
Qed.

(** ** C108: iterating a field *)
Lemma bf_item_ok b i : valid_index (bf_numbering b) (bf_width b) i -> bf_item b i = Ok (bit_no b i).
Proof. intros H. apply getitem_bit. exact H. Qed.
Lemma bf_item_err b i : ~ valid_index (bf_numbering b) (bf_width b) i -> bf_item b i = Err ValueError.
Proof. intros H. apply getitem_bit_err. exact H. Qed.
Lemma field_seq b : wf b ->
  let n := if first_index (bf_numbering b) =? 0 then bf_width b else 0 in
  0 <= n <= bf_width b /\
  (forall i, 0 <= i < n -> bf_item b i = Ok (bit_no b i)) /\ bf_item b (Z.max 0 n) = Err ValueError.
Proof.
  intros [[H1 H2] _] n. unfold n.
  destruct (bf_numbering b) eqn:N; cbn [first_index Z.eqb]; (split; [lia|split]);
    try (intros i Hi; first [lia|apply bf_item_ok; rewrite N; cbn [valid_index]; lia]);
    apply bf_item_err; rewrite N; cbn [valid_index]; lia.
Qed.
Lemma VE_stops : ValueError <> IndexError /\ ValueError <> StopIteration.
Proof. split; discriminate. Qed.
Lemma KE_stops : KeyError <> IndexError /\ KeyError <> StopIteration.
Proof. split; discriminate. Qed.

Lemma C108_list_refuted_pf : forall b, wf b ->
  (forall fuel, (Z.to_nat (bf_width b) < fuel)%nat -> seq_list (bf_item b) fuel = Some (Err ValueError)) /\
  (forall r fuel, r_data r = b -> (Z.to_nat (bf_width b) < fuel)%nat ->
     seq_list (reg_item r) fuel = Some (Err ValueError)).
Proof.
  intros b Hw. destruct (field_seq b Hw) as (H0 & H1 & H2).
  assert (G : forall fuel, (Z.to_nat (bf_width b) < fuel)%nat -> seq_list (bf_item b) fuel = Some (Err ValueError)).
  { intros fuel Hf. unfold seq_list.
    rewrite (seq_for_ok _ _ _ _ H1 H2 VE_stops _ 0 fuel ltac:(lia) eq_refl) by lia. reflexivity. }
  split; [exact G|]. intros r fuel <- Hf. apply G. exact Hf.
Qed.
(*@
Example C108_list_witness :
  seq_list (bf_item (mkbf 8 255 5 LSB_0 LSB_LEFT)) 9 = Some (Err ValueError) /\
  seq_for (bf_item (mkbf 8 255 5 LSB_0 LSB_LEFT)) 9 0 = ([1; 0; 1; 0; 0; 0; 0; 0], Raised ValueError).
Proof. split; reflexivity. Qed.
@*)

Lemma C108_for_partial_pf : forall b fuel, wf b -> (Z.to_nat (bf_width b) < fuel)%nat ->
  (first_index (bf_numbering b) = 0 ->
     seq_for (bf_item b) fuel 0 = (map (bit_no b) (upto 0 (bf_width b)), Raised ValueError)) /\
  (first_index (bf_numbering b) = 1 -> seq_for (bf_item b) fuel 0 = ([], Raised ValueError)).
Proof.
  intros b fuel Hw Hf. destruct (field_seq b Hw) as (H0 & H1 & H2).
  split; intros F; rewrite F in H0, H1, H2; cbn [Z.eqb Pos.eqb] in H0, H1, H2;
    rewrite (seq_for_ok _ _ _ _ H1 H2 VE_stops _ 0 fuel ltac:(lia) eq_refl) by lia; reflexivity.
Qed.
(*@
Example C108_for_example :
  seq_for (bf_item (mkbf 4 15 3 MSB_0 MSB_LEFT)) 5 0 = ([0; 0; 1; 1], Raised ValueError) /\
  seq_for (bf_item (mkbf 4 15 3 MSB_1 MSB_LEFT)) 5 0 = ([], Raised ValueError).
Proof. split; reflexivity. Qed.
@*)

Lemma C108_in_partial_pf : forall b x fuel, wf b -> (Z.to_nat (bf_width b) < fuel)%nat ->
  (first_index (bf_numbering b) = 0 ->
     seq_in (fun y => y =? x) (bf_item b) fuel 0 =
     Some (if existsb (fun i => bit_no b i =? x) (upto 0 (bf_width b)) then Ok true else Err ValueError)) /\
  (first_index (bf_numbering b) = 1 -> seq_in (fun y => y =? x) (bf_item b) fuel 0 = Some (Err ValueError)).
Proof.
  intros b x fuel Hw Hf. destruct (field_seq b Hw) as (H0 & H1 & H2).
  split; intros F; rewrite F in H0, H1, H2; cbn [Z.eqb Pos.eqb] in H0, H1, H2;
    rewrite (seq_in_ok _ _ _ _ H1 H2 VE_stops (fun y => y =? x) _ 0 fuel ltac:(lia) eq_refl) by lia; reflexivity.
Qed.
(*@
Example C108_in_example :
  seq_in (fun y => y =? 1) (bf_item (mkbf 4 15 2 LSB_0 MSB_LEFT)) 5 0 = Some (Ok true) /\
  seq_in (fun y => y =? 1) (bf_item (mkbf 4 15 0 LSB_0 MSB_LEFT)) 5 0 = Some (Err ValueError).
Proof. split; reflexivity. Qed.
@*)

Lemma C108_reversed_partial_pf : forall b, wf b ->
  (first_index (bf_numbering b) = 0 ->
     seq_reversed (bf_item b) (Z.to_nat (bf_len b)) = Ok (rev (map (bit_no b) (upto 0 (bf_width b))))) /\
  (first_index (bf_numbering b) = 1 -> 1 <= bf_width b ->
     seq_reversed (bf_item b) (Z.to_nat (bf_len b)) = Err ValueError).
Proof.
  intros b Hw. destruct (field_seq b Hw) as (H0 & H1 & H2). destruct Hw as [[W0 W1] _]. unfold bf_len.
  split; intros F; rewrite F in H0, H1, H2; cbn [Z.eqb Pos.eqb] in H0, H1, H2.
  - rewrite (seq_reversed_ok _ (bit_no b)); rewrite Z2Nat.id by lia; [reflexivity|exact H1].
  - intros W2. assert (V : forall i, 1 <= i <= bf_width b -> bf_item b i = Ok (bit_no b i)).
    { intros i Hi. apply bf_item_ok. destruct (bf_numbering b); cbn [first_index] in F; try lia; exact Hi. }
    assert (Z0 : bf_item b 0 = Err ValueError) by exact H2. clear H0 H1 H2.
    assert (G : forall k, (k <= Z.to_nat (bf_width b))%nat -> (1 <= k)%nat -> seq_reversed (bf_item b) k = Err ValueError).
    { induction k as [|k IH]; intros K1 K2; [lia|]. cbn [seq_reversed].
      destruct k as [|k]; [change (Z.of_nat 0) with 0; rewrite Z0; reflexivity|].
      rewrite V by lia. rewrite IH by lia. reflexivity. }
    apply G; lia.
Qed.
(*@
Example C108_reversed_example :
  seq_reversed (bf_item (mkbf 4 15 3 MSB_0 MSB_LEFT)) 4 = Ok [1; 1; 0; 0] /\
  seq_reversed (bf_item (mkbf 4 15 3 MSB_1 MSB_LEFT)) 4 = Err ValueError.
Proof. split; reflexivity. Qed.
@*)

(** ** C110: len, int and truth value *)
Lemma C110_truth_refuted_pf : forall b, wf b -> 1 <= bf_width b ->
  truth (bf_len b) = true /\ truth (bf_len (with_value b 0)) = true /\ bf_int (with_value b 0) = 0.
Proof.
  intros b _ H. unfold truth, bf_len, bf_int. destruct (Z.eqb_spec (bf_width b) 0); [lia|].
  cbn [with_value bf_width bf_value]. destruct (Z.eqb_spec (bf_width b) 0); [lia|]. split; [reflexivity|split; reflexivity].
Qed.
(*@
Example C110_truth_witness : truth (bf_len (mkbf 8 255 0 LSB_0 LSB_LEFT)) = true.
Proof. reflexivity. Qed.
@*)
Lemma C110_len_int_partial_pf : forall v W n o b ops, bf_new v W n o = Ok b -> 0 <= W ->
  bf_len (bf_run b ops) = W /\ bf_int (bf_run b ops) = bf_value (bf_run b ops) /\
  bf_index (bf_run b ops) = bf_value (bf_run b ops) /\ bf_int b = v.
Proof.
  intros v W n o b ops E HW. destruct (run_geometry ops b) as (G & _).
  unfold bf_len, bf_int, bf_index. split; [|split; [reflexivity|split; [reflexivity|]]].
  - rewrite G. revert E. unfold bf_new. destruct (W >? 64); [discriminate|].
    cbv zeta. destruct (v >? 2 ^ W - 1); [discriminate|].
    destruct (scheme_of n), (order_of o); try discriminate. intros E. injection E as <-. reflexivity.
  - revert E. unfold bf_new. destruct (W >? 64); [discriminate|].
    cbv zeta. destruct (v >? 2 ^ W - 1); [discriminate|].
    destruct (scheme_of n), (order_of o); try discriminate. intros E. injection E as <-. reflexivity.
Qed.
(*@
Example C110_len_int_example : let b := mkbf 8 255 5 LSB_0 LSB_LEFT in
  (bf_len b, bf_int (bf_run b [OpValue 9]), bf_index b) = (8, 9, 5).
Proof. reflexivity. Qed.
@*)

(** ** C109: octal text forms *)
Lemma digits_of_head b : 2 <= b -> forall fuel n acc, 0 < n < 2 ^ Z.of_nat fuel ->
  exists c t, digits_of b fuel n acc = c :: t /\ c <> 48.
Proof.
  intros Hb. induction fuel as [|f IH]; intros n acc Hn.
  - change (2 ^ Z.of_nat 0) with 1 in Hn. lia.
  - cbn [digits_of]. destruct (Z.eqb_spec (n / b) 0) as [E|E].
    + eexists _, _. split; [reflexivity|]. assert (D := Z.div_mod n b ltac:(lia)). rewrite E in D.
      assert (n mod b = n) by lia. lia.
    + apply IH. assert (0 <= n / b) by (apply Z.div_pos; lia). split; [lia|].
      rewrite Nat2Z.inj_succ, Z.pow_succ_r in Hn by lia. apply Z.div_lt_upper_bound; [lia|].
      set (p := 2 ^ Z.of_nat f) in *. nia.
Qed.
Lemma padded_digits w v : 0 <= v -> 1 <= w \/ 0 < v ->
  let ds := pad_left 48 w (numeral 8 v) in
  Forall (fun c => 48 <= c <= 55) ds /\ spelled 8 ds = v /\ w <= zlen ds /\ (w < zlen ds -> hd_error ds <> Some 48).
Proof.
  intros Hv Hw. cbv zeta.
  assert (D := @numeral_dig 8 v ltac:(lia) Hv).
  assert (S1 := @numeral_spell 8 v ltac:(lia) Hv).
  unfold pad_left, repeat_char. split; [|split; [|split]].
  - apply Forall_app. split.
    + apply Forall_forall. intros c Hc. apply repeat_spec in Hc. lia.
    + eapply Forall_impl; [|exact D]. unfold dig. intros; lia.
  - change (spelled 8) with (spell 8 0). rewrite spell_app, spell_zeros. exact S1.
  - rewrite zlen_app. unfold zlen at 1. rewrite repeat_length. lia.
  - rewrite zlen_app. unfold zlen at 1. rewrite repeat_length. intros L.
    replace (Z.to_nat (w - zlen (numeral 8 v))) with O by lia. cbn [repeat app].
    destruct (Z.eq_dec v 0) as [->|N].
    + exfalso. change (zlen (numeral 8 0)) with 1 in L. lia.
    + assert (V : 0 < v) by lia. assert (T : 2 <= 8) by lia. unfold numeral.
      destruct (digits_of_head 8 T _ v [] (conj V (numeral_fuel v Hv))) as (c & t & -> & Hc).
      cbn [hd_error]. congruence.
Qed.
Lemma fmt_oct_text w v : 1 <= w -> octal_text w v (lit "0o" ++ fmt_oct w v).
Proof.
  intros Hw. unfold fmt_oct, octal_text. cbv zeta. destruct (Z.ltb_spec v 0) as [N|N].
  - destruct (padded_digits (w - 1) (- v) ltac:(lia) ltac:(right; lia)) as (A & B & C & D).
    exists (pad_left 48 (w - 1) (numeral 8 (- v))). split; [reflexivity|]. split; [exact A|]. split; [rewrite B; lia|]. rewrite zlen_app. change (zlen (lit "-")) with 1.
    split; [lia|]. intros L. apply D. lia.
  - destruct (padded_digits w v N ltac:(left; exact Hw)) as (A & B & C & D).
    exists (pad_left 48 w (numeral 8 v)). split; [reflexivity|]. split; [exact A|]. split; [rewrite B; lia|]. cbn [app]. split; [exact C|exact D].
Qed.
Lemma digits_unique w v d1 d2 : Forall (fun c => 48 <= c <= 55) d1 -> Forall (fun c => 48 <= c <= 55) d2 ->
  spelled 8 d1 = v -> spelled 8 d2 = v -> w <= zlen d1 -> w <= zlen d2 ->
  (w < zlen d1 -> hd_error d1 <> Some 48) -> (w < zlen d2 -> hd_error d2 <> Some 48) -> d1 = d2.
Proof.
  intros F1 F2 S1 S2 L1 L2 N1 N2.
  assert (DG : forall d, Forall (fun c => 48 <= c <= 55) d -> Forall (dig 8) d).
  { intros d. apply Forall_impl. unfold dig. intros; lia. }
  apply DG in F1, F2. change (spelled 8) with (spell 8 0) in S1, S2.
  assert (LB : forall d, Forall (dig 8) d -> forall x, 0 <= x -> x * 8 ^ zlen d <= spell 8 x d < (x + 1) * 8 ^ zlen d).
  { induction d as [|c d IH]; intros F x Hx.
    - change (zlen (@nil Z)) with 0. change (spell 8 x []) with x. rewrite Z.pow_0_r. lia.
    - assert (Hc := Forall_inv F). apply Forall_inv_tail in F. unfold dig in Hc.
      change (spell 8 x (c :: d)) with (spell 8 (x * 8 + (c - 48)) d).
      specialize (IH F (x * 8 + (c - 48)) ltac:(lia)). rewrite zlen_cons.
      rewrite Z.pow_add_r by (try lia; apply zlen_nonneg). change (8 ^ 1) with 8.
      assert (0 < 8 ^ zlen d) by (apply Z.pow_pos_nonneg; [lia|apply zlen_nonneg]). nia. }
  assert (LT : forall a b, Forall (dig 8) a -> Forall (dig 8) b -> w <= zlen a -> zlen a < zlen b ->
               (w < zlen b -> hd_error b <> Some 48) -> spell 8 0 a = spell 8 0 b -> False).
  { intros a b Fa Fb La Lb Hb E. specialize (Hb ltac:(lia)).
    destruct b as [|c b]; [change (zlen (@nil Z)) with 0 in Lb; assert (H := zlen_nonneg a); lia|].
    cbn [hd_error] in Hb. assert (Hc := Forall_inv Fb). apply Forall_inv_tail in Fb. unfold dig in Hc.
    rewrite zlen_cons in Lb. change (spell 8 0 (c :: b)) with (spell 8 (0 * 8 + (c - 48)) b) in E.
    assert (Ha := LB a Fa 0 ltac:(lia)). assert (Hbb := LB b Fb (0 * 8 + (c - 48)) ltac:(lia)).
    assert (c <> 48) by congruence.
    assert (8 ^ zlen a <= 8 ^ zlen b) by (apply Z.pow_le_mono_r; lia).
    assert (0 < 8 ^ zlen b) by (apply Z.pow_pos_nonneg; [lia|apply zlen_nonneg]). nia. }
  destruct (Z.lt_trichotomy (zlen d1) (zlen d2)) as [L|[L|L]].
  - exfalso. apply (LT d1 d2); auto. congruence.
  - apply (spell_inj_len 8 ltac:(lia) d1 d2 0 0); auto; [unfold zlen in L; lia|congruence].
  - exfalso. apply (LT d2 d1); auto. congruence.
Qed.

Lemma octal_unique w v s t : octal_text w v s -> octal_text w v t -> s = t.
Proof.
  unfold octal_text. cbv zeta. intros (d1 & -> & F1 & S1 & L1 & N1) (d2 & -> & F2 & S2 & L2 & N2). do 2 f_equal.
  rewrite zlen_app in L1. rewrite zlen_app in L2. rewrite zlen_app in N1. rewrite zlen_app in N2.
  match type of L1 with w <= ?x + _ => set (n := x) in *; clearbody n end.
  apply (digits_unique (w - n) (Z.abs v)); try assumption; try lia; intros H; [apply N1|apply N2]; lia.
Qed.

Lemma C109_text_determined_pf : forall w v s t,
  octal_text w v s -> octal_text w v t -> s = t.
Proof. intros w v s t. apply octal_unique. Qed.
(*@
Example C109_text_example : octal_text 6 (8 ^ 6) (lit "0o1000000") /\ octal_text 6 8 (lit "0o000010") /\ octal_text 6 (-8) (lit "0o-00010").
Proof.
  split; [exists (lit "1000000")|split; [exists (lit "000010")|exists (lit "00010")]]; (split; [reflexivity|]);
    (split; [apply Forall_forall; intros c Hc; cbn in Hc; lia|]); (split; [reflexivity|]); (split; [vm_compute; congruence|]);
    intros H; vm_compute in H |- *; congruence.
Qed.
@*)

Lemma C109_value_determined_pf : forall w v w' v' s, octal_text w v s -> octal_text w' v' s -> v = v'.
Proof.
  unfold octal_text. cbv zeta. intros w v w' v' s (d1 & -> & F1 & S1 & _) (d2 & E & F2 & S2 & _). apply app_inv_head in E.
  destruct (Z.ltb_spec v 0) as [N|N], (Z.ltb_spec v' 0) as [N'|N']; change (lit "-") with [45] in E; cbn [app] in E.
  - injection E as ->. lia.
  - subst d2. apply Forall_inv in F2. lia.
  - subst d1. apply Forall_inv in F1. lia.
  - subst d2. lia.
Qed.
(*@ Example C109_value_determined_ex : forall v, octal_text 6 v (lit "0o-00010") -> v = -8.
Proof.
  intros v H. apply (C109_value_determined 6 v 6 (-8) (lit "0o-00010") H).
  exact (proj2 (proj2 C109_text_example)).
Qed. @*)

Lemma numeral_upto v w : 0 <= v -> 1 <= w -> zlen (numeral 8 v) <= w -> v < 8 ^ w.
Proof.
  intros H Hw N. assert (S1 := @numeral_spell 8 v ltac:(lia) H). assert (D := @numeral_dig 8 v ltac:(lia) H).
  assert (B : forall d x, Forall (dig 8) d -> 0 <= x -> spell 8 x d < (x + 1) * 8 ^ zlen d).
  { clear. induction d as [|c d IH]; intros x F Hx.
    - change (zlen (@nil Z)) with 0. change (spell 8 x []) with x. rewrite Z.pow_0_r. lia.
    - assert (Hc := Forall_inv F). apply Forall_inv_tail in F. unfold dig in Hc.
      change (spell 8 x (c :: d)) with (spell 8 (x * 8 + (c - 48)) d).
      specialize (IH (x * 8 + (c - 48)) F ltac:(lia)). rewrite zlen_cons.
      rewrite Z.pow_add_r by (try lia; apply zlen_nonneg). change (8 ^ 1) with 8.
      assert (0 < 8 ^ zlen d) by (apply Z.pow_pos_nonneg; [lia|apply zlen_nonneg]). nia. }
  specialize (B _ 0 D ltac:(lia)). rewrite S1 in B.
  assert (8 ^ zlen (numeral 8 v) <= 8 ^ w) by (apply Z.pow_le_mono_r; lia). lia.
Qed.
Lemma C109_register_repr_pf : forall r,
  octal_text 6 (reg_value r) (reg_repr r) /\ (- 8 ^ 5 < reg_value r < 8 ^ 6 <-> zlen (reg_repr r) = 8).
Proof.
  intros r. assert (T := fmt_oct_text 6 (reg_value r) ltac:(lia)). split; [exact T|].
  unfold reg_repr. rewrite zlen_app. change (zlen (lit "0o")) with 2.
  unfold fmt_oct, pad_left, repeat_char. assert (P5 := eq_refl : 8 ^ 5 = 32768). assert (P6 := eq_refl : 8 ^ 6 = 262144).
  destruct (Z.ltb_spec (reg_value r) 0).
  - rewrite zlen_cons, zlen_app. unfold zlen at 1. rewrite repeat_length. split; intros L.
    + assert (N := @numeral_length 8 (- reg_value r) 5 ltac:(lia) ltac:(lia) ltac:(lia)). lia.
    + assert (N := numeral_upto (- reg_value r) 5 ltac:(lia) ltac:(lia) ltac:(lia)). lia.
  - rewrite zlen_app. unfold zlen at 1. rewrite repeat_length. split; intros L.
    + assert (N := @numeral_length 8 (reg_value r) 6 ltac:(lia) ltac:(lia) ltac:(lia)). lia.
    + assert (N := numeral_upto (reg_value r) 6 ltac:(lia) ltac:(lia) ltac:(lia)). lia.
Qed.
(*@
Example C109_register_example :
  match register_new 511 None 24 with
  | Ok r => reg_repr r = lit "0o000777" /\ reg_repr (fst (reg_set_value r 16777215)) = lit "0o77777777"
  | Err _ => False
  end.
Proof. vm_compute. split; reflexivity. Qed.
@*)

Lemma C109_bank_repr_pf : forall m, reachable m ->
  exists words, bank_repr m = flat_map (fun t => t ++ lit " ") words /\ zlen words = 2048 /\
    forall a, 0 <= a < 2048 -> exists t v, nth_error words (Z.to_nat a) = Some t /\
      bank_getitem m (Idx a) = Ok [v] /\ octal_text 16 v t /\ zlen t = 18.
Proof.
  intros m HR0. destruct (reachable_MR m HR0) as (s & HR).
  exists (map (fun kv => lit "0o" ++ pad_left 48 16 (numeral 8 (word_value (snd kv)))) (mb_data m)).
  split; [|split].
  - unfold bank_repr.
    assert (G : forall l acc, fold_left (fun text (kv : Z * word) => text ++ lit "0o" ++
                   pad_left 48 16 (numeral 8 (word_value (snd kv))) ++ lit " ") l acc =
                acc ++ flat_map (fun t => t ++ lit " ")
                  (map (fun kv : Z * word => lit "0o" ++ pad_left 48 16 (numeral 8 (word_value (snd kv)))) l)).
    { induction l as [|kv l IH]; intros acc; cbn [fold_left map flat_map]; [rewrite app_nil_r; reflexivity|].
      rewrite IH. rewrite <- !app_assoc. reflexivity. }
    apply (G _ []).
  - destruct HR as (K & _). unfold zlen. rewrite map_length.
    assert (E : List.length (dkeys (mb_data m)) = List.length (mb_data m)) by apply map_length.
    rewrite <- E, K. apply (py_range_length 0 2048).
  - intros a Ha. destruct HR as (K & _ & _ & _ & H). destruct (H a Ha) as [G B].
    assert (NE : nth_error (mb_data m) (Z.to_nat a) = Some (a, wbits (cells s a))).
    { assert (N1 : nth_error (dkeys (mb_data m)) (Z.to_nat a) = Some a)
        by (rewrite K, py_range_nth by lia; f_equal; lia).
      unfold dkeys in N1. rewrite nth_error_map in N1.
      destruct (nth_error (mb_data m) (Z.to_nat a)) as [[k w]|] eqn:E; [|discriminate].
      cbn [option_map fst] in N1. injection N1 as ->. f_equal. f_equal.
      assert (NDK : NoDup (dkeys (mb_data m))) by (rewrite K; apply py_range_NoDup).
      assert (I1 := In_dget _ _ _ NDK (nth_error_In _ _ E)). rewrite G in I1. congruence. }
    eexists _, (cells s a). rewrite nth_error_map, NE. cbn [option_map snd]. split; [reflexivity|].
    split; [|].
    { cbn [bank_getitem]. unfold cell_get, dindex. rewrite G. reflexivity. }
    change (word_value (wbits (cells s a))) with (cells s a).
    assert (T := fmt_oct_text 16 (cells s a) ltac:(lia)). unfold fmt_oct in T.
    destruct (Z.ltb_spec (cells s a) 0) as [L|L]; [lia|]. split; [exact T|].
    assert (N := @numeral_length 8 (cells s a) 16 ltac:(lia) ltac:(lia) ltac:(lia)).
    rewrite zlen_app. change (zlen (lit "0o")) with 2. unfold pad_left, repeat_char. rewrite zlen_app.
    unfold zlen at 1. rewrite repeat_length. lia.
Qed.
(*@
Example C109_bank_example :
  match bank_new with
  | Ok m => firstn 38 (bank_repr (fst (bank_setitem m (Idx 1) (2 ^ 48 - 1)))) =
            lit "0o0000000000000000 0o7777777777777777 "
  | Err _ => False
  end.
Proof. rewrite bank_new_value. vm_compute. reflexivity. Qed.
@*)

(** *** the register file *)
Lemma regs_repr_map h refs : forall rl, map (fun r => nth_error (h_regs h) r) refs = map Some rl ->
  regs_repr h refs = Ok (flat_map (fun r => reg_repr r ++ lit " ") rl).
Proof.
  induction refs as [|r refs IH]; intros [|x rl] E; cbn [map] in E; try discriminate; [reflexivity|].
  injection E as E1 E2. cbn [regs_repr flat_map]. rewrite (deref_some _ _ _ E1). cbn [bind].
  rewrite (IH _ E2). cbn [bind]. rewrite <- app_assoc. reflexivity.
Qed.

(** the text of group [k] in a state related to the array view *)
Lemma group_text W R0 gb h rs p c k : XR W R0 gb (h, rs) p c -> 0 <= k < 8 ->
  group_repr h (gid gb k) = Ok (flat_map (fun i => reg_repr (c k i) ++ lit " ") (py_range 0 32)).
Proof.
  intros (H1 & H2 & H3 & H4 & H5 & H6) Hk. destruct (H4 k Hk) as [G _].
  unfold group_repr. rewrite (deref_some _ _ _ G). cbn [bind g_registers].
  rewrite (flat_map_concat_map (fun i => reg_repr (c k i) ++ lit " ")), <- (map_map (c k) (fun r => reg_repr r ++ lit " ")), <- flat_map_concat_map.
  apply regs_repr_map. unfold gdict. rewrite !map_map. cbn [snd]. apply map_ext_in. intros i Hi. apply py_range_In in Hi.
  destruct (H5 k i Hk ltac:(lia)) as [E _]. rewrite <- E. f_equal. unfold rid. lia.
Qed.
Lemma upto_length lo hi : lo <= hi -> zlen (upto lo hi) = hi - lo.
Proof. intros H. unfold zlen, upto. rewrite map_length, seq_length. lia. Qed.
Lemma py_range_upto n : 0 <= n -> py_range 0 n = upto 0 n.
Proof.
  intros H. pattern n. apply natlike_ind; [reflexivity| |exact H].
  intros x Hx IH. rewrite <- Z.add_1_r, py_range_snoc by lia. rewrite IH.
  assert (E := upto_snoc (Z.to_nat x)). rewrite Nat2Z.inj_succ, Z2Nat.id in E by lia.
  rewrite Z.add_1_r, E. reflexivity.
Qed.

Lemma C109_file_repr_pf : forall h W h' rs cs, registers_new h W = (h', Ok rs) ->
  let st := regs_run (h', rs) cs in
  exists text : Z -> Z -> str,
    let line k := flat_map (fun i => text k i ++ lit " ") (upto 0 32) in
    (forall k i, 0 <= k < 8 -> 0 <= i < 32 -> exists v,
       snd (regs_call st (Reach (AtGroup (KI k)) (AtReg (KI i)) AValue)) = Ok v /\ octal_text 6 v (text k i)) /\
    (forall k g, registers_getitem (snd st) (KI k) = Ok g -> group_repr (fst st) g = Ok (line k)) /\
    registers_repr (fst st) (snd st) =
      Ok (flat_map (fun k => lit "[" ++ [48 + k] ++ lit "] " ++ line k ++ [10]) (upto 0 8)).
Proof.
  intros h W h' rs cs E st. assert (HW := registers_new_width _ _ _ _ E). assert (HR1 := history_XR h W h' rs cs E). fold st in HR1.
  set (c := fun k i => reg_run (fresh W k i) (own at_start cs k i)) in HR1.
  exists (fun k i => reg_repr (c k i)). cbv zeta.
  set (line := fun k : Z => flat_map (fun i : Z => reg_repr (c k i) ++ lit " ") (upto 0 32)).
  clearbody st. destruct st as [h2 rs2]. cbn [fst snd].
  assert (GT : forall k, 0 <= k < 8 -> group_repr h2 (gid (List.length (h_groups h)) k) = Ok (line k)).
  { intros k Hk. rewrite (group_text W _ _ h2 rs2 _ c k HR1 Hk). rewrite py_range_upto by lia. reflexivity. }
  split; [|split].
  - intros k i Hk Hi. eexists. split; [apply (xread W _ _ _ _ _ k i AValue HW HR1 Hk Hi)|].
    apply fmt_oct_text. lia.
  - intros k g Eg. rewrite (file_getitem _ _ _ _ _ _ _ k HR1) in Eg.
    destruct ((0 <=? k) && (k <? 8)) eqn:B2; [|discriminate]. injection Eg as <-. apply GT. lia.
  - assert (H := HR1). destruct H as (H1 & _). unfold registers_repr. rewrite H1.
    rewrite (py_range_upto 8) by lia.
    assert (G : forall l, (forall k, In k l -> 0 <= k < 8) ->
      groups_repr h2 (map (fun k => (k, gid (List.length (h_groups h)) k)) l) =
      Ok (flat_map (fun k => lit "[" ++ [48 + k] ++ lit "] " ++ line k ++ [10]) l)).
    { induction l as [|k l IH]; intros HL; [reflexivity|]. cbn [map groups_repr flat_map].
      rewrite GT by (apply HL; left; reflexivity). cbn [bind].
      rewrite IH by (intros; apply HL; right; assumption). cbn [bind].
      replace (str_of_Z k) with [48 + k].
      - rewrite <- !app_assoc. reflexivity.
      - assert (Hk : 0 <= k < 8) by (apply HL; left; reflexivity).
        assert (C : k = 0 \/ k = 1 \/ k = 2 \/ k = 3 \/ k = 4 \/ k = 5 \/ k = 6 \/ k = 7) by lia.
        repeat destruct C as [->|C]; try subst k; reflexivity. }
    apply G. intros k Hk. apply upto_In in Hk. lia.
Qed.
(*@
Example C109_file_example :
  match registers_new heap0 16 with
  | (h, Ok rs) =>
      let '(h1, rs1) := regs_run (h, rs) [Reach (AtGroup (KI 0)) (AtReg (KS (lit "AU2"))) (ASetValue 8)] in
      match registers_repr h1 rs1 with
      | Ok s => firstn 22 s = lit "[0] 0o000000 0o000010 " /\ zlen s = 8 * (4 + 32 * 9 + 1)
      | Err _ => False
      end
  | _ => False
  end.
Proof. vm_compute. split; reflexivity. Qed.
@*)

(** ** C111: iterating modules; membership in a bank *)
Lemma module_seq n m cs : n = 4 \/ n = 8 -> module_new n = Ok m ->
  let m' := module_run m cs in
  module_len m' = n /\
  (forall i, 0 <= i < n -> module_item m' i = Ok i) /\ module_item m' (Z.max 0 n) = Err KeyError.
Proof.
  intros Hn E m'. destruct (C30_modules_pf n Hn) as (m1 & b & E1 & _ & G).
  rewrite E in E1. injection E1 as <-. destruct (G cs) as (G1 & _ & G3 & G4 & _). fold m' in G1, G3, G4.
  split; [exact G1|]. split.
  - intros i Hi. unfold module_item. rewrite G4 by exact Hi. reflexivity.
  - unfold module_item. specialize (G3 (Z.max 0 n)). cbn [module_getitem] in G3.
    destruct ((0 <=? Z.max 0 n) && (Z.max 0 n <? n)) eqn:B; [lia|].
    destruct (dindex (mm_data m') (Z.max 0 n)); [discriminate|]. cbn [bind] in *. congruence.
Qed.
Lemma C111_module_list_refuted_pf : forall n m cs fuel, n = 4 \/ n = 8 -> module_new n = Ok m ->
  (Z.to_nat n < fuel)%nat ->
  seq_list (module_item (module_run m cs)) fuel = Some (Err KeyError).
Proof.
  intros n m cs fuel Hn E Hf. destruct (module_seq n m cs Hn E) as (_ & H1 & H2).
  unfold seq_list. rewrite (seq_for_ok _ _ _ _ H1 H2 KE_stops _ 0 fuel ltac:(lia) eq_refl) by lia. reflexivity.
Qed.
(*@
Example C111_module_list_witness :
  match memory_module with Ok m => seq_list (module_item m) 5 = Some (Err KeyError) | Err _ => False end.
Proof.
  unfold memory_module. destruct (C30_modules_pf 4) as (m & b & E & _); [left; reflexivity|]. rewrite E.
  apply (C111_module_list_refuted 4 m [] 5); [left; reflexivity|exact E|vm_compute; lia].
Qed.
@*)
Lemma C111_module_for_partial_pf : forall n m cs fuel, n = 4 \/ n = 8 -> module_new n = Ok m ->
  (Z.to_nat n < fuel)%nat ->
  let m' := module_run m cs in
  seq_for (module_item m') fuel 0 = (upto 0 n, Raised KeyError) /\
  seq_reversed (module_item m') (Z.to_nat (module_len m')) = Ok (rev (upto 0 n)).
Proof.
  intros n m cs fuel Hn E Hf m'. destruct (module_seq n m cs Hn E) as (H0 & H1 & H2). fold m' in H0, H1, H2.
  split.
  - rewrite (seq_for_ok _ _ _ _ H1 H2 KE_stops _ 0 fuel ltac:(lia) eq_refl) by lia.
    rewrite map_id. reflexivity.
  - rewrite H0. rewrite (seq_reversed_ok _ (fun i => i)); rewrite Z2Nat.id by lia; [|exact H1].
    rewrite map_id. reflexivity.
Qed.
(*@
Example C111_module_for_example :
  match expansion_module with
  | Ok m => seq_for (module_item m) 9 0 = ([0; 1; 2; 3; 4; 5; 6; 7], Raised KeyError)
  | Err _ => False
  end.
Proof.
  unfold expansion_module. destruct (C30_modules_pf 8) as (m & b & E & _); [right; reflexivity|]. rewrite E.
  apply (C111_module_for_partial 8 m [] 9); [right; reflexivity|exact E|vm_compute; lia].
Qed.
@*)

(** draws from a bank until a Word is [x] *)
Lemma bank_in_sim x m s : MR m s -> forall n fuel, Z.to_nat (2048 - cursor s) = n -> (n < fuel)%nat ->
  exists m', bank_in fuel m x =
    (m', Some (match x with OWord a => (cursor s <=? a) && (a <? 2048) | OInt _ => false end)) /\
    MR m' (mksmem (cells s) (match x with
                             | OWord a => if (cursor s <=? a) && (a <? 2048) then a + 1 else 2048
                             | OInt _ => 2048 end)).
Proof.
  intros HR n. revert m s HR. induction n as [|n IH]; intros m s HR fuel Hn Hf;
    (destruct fuel as [|fuel]; [lia|]); cbn [bank_in];
    destruct (call_simulates m s MNext HR) as [E HR']; cbn [bank_call smem_call] in E, HR';
    destruct (bank_next m) as [m1 r] eqn:N;
    assert (H := HR); destruct H as (_ & _ & _ & HC & _).
  - destruct (Z.ltb_spec (cursor s) 2048); [lia|]. cbn [fst snd] in *.
    destruct r as [a|e]; cbn [bind] in E; [discriminate|].
    exists m1. destruct s as [c k]. cbn [cursor cells] in *. assert (k = 2048) by lia. subst k.
    split.
    + destruct x as [v|a]; [reflexivity|]. destruct ((2048 <=? a) && (a <? 2048)) eqn:B; [lia|reflexivity].
    + destruct x as [v|a]; [exact HR'|].
      destruct ((2048 <=? a) && (a <? 2048)) eqn:B; [lia|exact HR'].
  - destruct (Z.ltb_spec (cursor s) 2048); [|lia]. cbn [fst snd] in *.
    destruct r as [a|e]; cbn [bind] in E; [|discriminate]. injection E as ->.
    destruct (word_eq (cursor s) x) eqn:W.
    + destruct x as [v|a]; cbn [word_eq] in W; [discriminate|]. apply Z.eqb_eq in W. subst a.
      exists m1. destruct ((cursor s <=? cursor s) && (cursor s <? 2048)) eqn:B; [|lia].
      split; [reflexivity|exact HR'].
    + destruct (IH m1 _ HR' fuel) as (m2 & -> & HR2); cbn [cursor cells] in *; try lia.
      exists m2. destruct x as [v|a]; [split; [reflexivity|exact HR2]|].
      cbn [word_eq] in W. apply Z.eqb_neq in W.
      assert (BE : (cursor s + 1 <=? a) && (a <? 2048) = (cursor s <=? a) && (a <? 2048)) by lia.
      rewrite BE in *. split; [reflexivity|exact HR2].
Qed.
Lemma C111_in_bank_refuted_pf : forall m v, reachable m ->
  let '(m', r) := bank_in enough m (OInt v) in
  r = Some false /\ snd (bank_loop enough m') = Ok [] /\
  (forall a, bank_getitem m' (Idx a) = bank_getitem m (Idx a)).
Proof.
  intros m v HR0. destruct (reachable_MR m HR0) as (s & HR).
  assert (HC : 0 <= cursor s <= 2048) by apply HR.
  destruct (bank_in_sim (OInt v) m s HR _ enough eq_refl ltac:(unfold enough; lia)) as (m' & -> & HR').
  split; [reflexivity|]. split.
  - destruct (loop_from m' _ HR' _ enough eq_refl) as (m2 & -> & _); [cbn [cursor]; unfold enough; lia|reflexivity].
  - intros a. destruct (call_simulates _ _ (MGet (Idx a)) HR) as [A _].
    destruct (call_simulates _ _ (MGet (Idx a)) HR') as [B _].
    cbn [bank_call smem_call snd cells] in A, B. rewrite A, B. reflexivity.
Qed.
(*@
Example C111_in_bank_witness : exists m, reachable m /\ bank_getitem m (Idx 3) = Ok [7] /\
  snd (bank_in enough m (OInt 7)) = Some false.
Proof.
  destruct C25_bank_is_array_pf as (m & E & _ & G).
  exists (bank_run m [MSet (Idx 3) 7]).
  assert (R : reachable (bank_run m [MSet (Idx 3) 7])) by (exists m, [MSet (Idx 3) 7]; auto).
  split; [exact R|]. split.
  - exact (G [MSet (Idx 3) 7] 3 ltac:(lia)).
  - assert (H := C111_in_bank_refuted _ 7 R). destruct (bank_in enough _ _). apply H.
Qed.
@*)
Lemma C111_bank_partial_pf : forall m, reachable m ->
  (forall a, exists k, 0 <= k <= 2048 /\ snd (bank_in enough m (OWord a)) = Some ((k <=? a) && (a <? 2048)) /\
     snd (bank_loop enough m) = Ok (upto k 2048)) /\
  seq_reversed (bank_item m) (Z.to_nat (bank_len m)) =
    (do vs <- bank_getitem m (Slice (Some 0) (Some 2048)); Ok (rev vs)).
Proof.
  intros m HR0. destruct (reachable_MR m HR0) as (s & HR).
  assert (HC : 0 <= cursor s <= 2048) by apply HR. split.
  - intros a. exists (cursor s). split; [exact HC|].
    destruct (bank_in_sim (OWord a) m s HR _ enough eq_refl ltac:(unfold enough; lia)) as (m' & -> & _).
    destruct (loop_from m _ HR _ enough eq_refl) as (m2 & -> & _); [unfold enough; lia|].
    split; reflexivity.
  - destruct (call_simulates _ _ MLen HR) as [A _]. cbn [bank_call smem_call snd] in A.
    assert (L : bank_len m = 2048) by congruence. rewrite L.
    destruct (call_simulates _ _ (MGet (Slice (Some 0) (Some 2048))) HR) as [B _].
    cbn [bank_call smem_call snd] in B.
    change (2048 <=? 0) with false in B. change ((0 <=? 0) && (2048 <=? 2048)) with true in B. cbv iota in B.
    rewrite B. cbn [bind].
    assert (RO := seq_reversed_ok (bank_item m) (cells s) (Z.to_nat 2048)). rewrite Z2Nat.id in RO by lia.
    rewrite RO; [reflexivity|]. intros i Hi. unfold bank_item, cell_get.
    rewrite (MR_dindex_ok _ _ _ HR Hi). reflexivity.
Qed.
(*@
Example C111_bank_example :
  match bank_new with
  | Ok m => let m' := fst (bank_setitem m (Idx 3) 7) in
            (do vs <- seq_reversed (bank_item m') (Z.to_nat (bank_len m')); Ok (nth_error vs 2044)) = Ok (Some 7)
  | Err _ => False
  end.
Proof. rewrite bank_new_value. vm_compute. reflexivity. Qed.
@*)

Lemma C111_group_reversed_partial_pf : forall h W h' rs cs k g gr, registers_new h W = (h', Ok rs) ->
  let '(h1, rs1) := regs_run (h', rs) cs in
  registers_getitem rs1 (KI k) = Ok g -> deref (h_groups h1) g = Ok gr ->
  exists rr, seq_reversed (group_item gr) (Z.to_nat (group_len gr)) = Ok rr /\ zlen rr = 32 /\
    forall i, 0 <= i < 32 -> exists r, nth_error rr (Z.to_nat (31 - i)) = Some r /\ group_getitem gr (KI i) = Ok r.
Proof.
  intros h W h' rs cs k g gr E. assert (HR1 := history_XR h W h' rs cs E). set (p := places_after cs) in *.
  destruct (regs_run (h', rs) cs) as [h1 rs1].
  assert (H := HR1). destruct H as (H1 & H2 & H3 & H4 & H5 & H6).
  intros Eg Er. cbn [registers_getitem] in Eg. unfold NUM_GROUPS, dindex in Eg. rewrite H1, rs_dget in Eg.
  destruct ((k <? 0) || (k >=? 8)) eqn:B; [discriminate|].
  destruct ((0 <=? k) && (k <? 8)) eqn:B2; [|discriminate]. injection Eg as <-.
  destruct (H4 k ltac:(lia)) as [G _]. rewrite (deref_some _ _ _ G) in Er. injection Er as <-.
  unfold group_len. cbn [g_registers]. rewrite gdict_len.
  assert (GI : forall i, 0 <= i < 32 ->
    group_item (mkgroup W (gdict (rid (h_regs h) k 0)) (in_group p k)) i = Ok (rid (h_regs h) k i)).
  { intros i Hi. unfold group_item. rewrite group_getitem_new.
    destruct ((0 <=? i) && (i <? 32)) eqn:B3; [|lia]. f_equal. unfold rid. lia. }
  eexists. split.
  - apply (seq_reversed_ok _ (rid (h_regs h) k)). intros i Hi. apply GI. lia.
  - rewrite Z2Nat.id by lia. split; [unfold zlen; rewrite rev_length, map_length; apply (upto_length 0 32); lia|].
    intros i Hi. exists (rid (h_regs h) k i). split; [|apply (GI i Hi)].
    assert (C : exists n, Z.to_nat i = n /\ (n < 32)%nat) by (eexists; split; [reflexivity|lia]).
    destruct C as (n & Cn & Ln). replace i with (Z.of_nat n) by lia.
    replace (Z.to_nat (31 - Z.of_nat n)) with (31 - n)%nat by lia.
    clear - Ln. do 32 (destruct n as [|n]; [reflexivity|]). lia.
Qed.
(*@
Example C111_group_reversed_example :
  match registers_new heap0 16 with
  | (h, Ok rs) =>
      match deref (h_groups h) 0 with
      | Ok gr => (do l <- seq_reversed (group_item gr) 32; Ok (firstn 3 l)) = Ok [31%nat; 30%nat; 29%nat]
      | Err _ => False
      end
  | _ => False
  end.
Proof. vm_compute. reflexivity. Qed.
@*)
