(** Proofs about the Word model. *)
From Verif Require Import Py MBitField SBits LBits LBitField MWord SWord.
From Coq Require Import ZifyBool.

Definition wbits (v : Z) : bf := mkbf 48 (2 ^ 48 - 1) v MSB_1 MSB_LEFT.
Lemma wbits_wf v : wf (wbits v). Proof. unfold wf, wbits; cbn; lia. Qed.

Lemma word_check_ok v : 0 <= v < 2 ^ 48 -> word_check v = Ok tt.
Proof. intros H. unfold word_check. destruct ((v <? 0) || (v >? 2 ^ 48 - 1)) eqn:E; [lia|reflexivity]. Qed.
Lemma word_check_err v : ~ (0 <= v < 2 ^ 48) -> word_check v = Err ValueError.
Proof. intros H. unfold word_check. destruct ((v <? 0) || (v >? 2 ^ 48 - 1)) eqn:E; [reflexivity|lia]. Qed.

Lemma wrange v s e : s <= e ->
  range_size (bf_numbering (wbits v)) (bf_width (wbits v)) s e = e - s + 1 /\
  range_lo (bf_numbering (wbits v)) (bf_width (wbits v)) s e = 48 - e.
Proof.
  intros H. unfold range_lo, range_size, weight, wbits. cbn [bf_order bf_numbering bf_width]. lia.
Qed.

(** A slice write on a 48-bit MSB-1 field *)
Lemma wslice v s e x :
  0 <= v < 2 ^ 48 -> 1 <= s -> s <= e -> e <= 48 -> 0 <= x < 2 ^ (e - s + 1) ->
  exists v', bf_setitem (wbits v) (Slice (Some s) (Some e)) x = (wbits v', Ok tt) /\
             0 <= v' < 2 ^ 48 /\ bits_replaced v v' (48 - e) (e - s + 1) x.
Proof.
  intros Hv H1 H2 H3 Hx.
  assert (VR : vrange (wbits v) s e).
  { unfold vrange, valid_range, valid_index, weight, wbits; cbn [bf_order bf_numbering bf_width]. lia. }
  destruct (wrange v s e H2) as [RS RL].
  destruct (@setitem_slice_edge (wbits v) s e x (wbits_wf v) VR) as (v' & E & Hr & Hf).
  - apply mask_shift_msb; [reflexivity|exact VR].
  - exact Hv.
  - rewrite RS. exact Hx.
  - rewrite RS, RL in Hr. exists v'. split; [exact E|]. split; [exact Hf|exact Hr].
Qed.
Lemma wslice_get v s e :
  1 <= s -> s <= e -> e <= 48 ->
  bf_getitem (wbits v) (Slice (Some s) (Some e)) = Ok (bits_at v (48 - e) (e - s + 1)).
Proof.
  intros H1 H2 H3.
  assert (VR : vrange (wbits v) s e).
  { unfold vrange, valid_range, valid_index, weight, wbits; cbn [bf_order bf_numbering bf_width]. lia. }
  rewrite (@getitem_slice_msb (wbits v) s e eq_refl VR).
  destruct (wrange v s e H2) as [-> ->]. reflexivity.
Qed.

Lemma word_new_ok v : 0 <= v < 2 ^ 48 -> word_new v = Ok (wbits v).
Proof.
  intros H. unfold word_new. rewrite word_check_ok by exact H. cbn [bind].
  change (bf_new 0 48 3 0) with (Ok (wbits 0)). cbn [bind].
  destruct (@wslice 0 1 48 v) as (v' & -> & Hf & Hr); try lia.
  destruct Hr as [Hr _]. change (48 - 48) with 0 in Hr. change (48 - 1 + 1) with 48 in Hr.
  rewrite (@bits_at_full v' 48 Hf) in Hr. subst. reflexivity.
Qed.

Lemma word_set_value_ok v x : 0 <= x < 2 ^ 48 -> word_set_value (wbits v) x = (wbits x, Ok tt).
Proof.
  intros H. unfold word_set_value. rewrite word_check_ok by exact H.
  rewrite (@set_value_ok (wbits v) x (wbits_wf v)); [reflexivity|]. cbn [wbits bf_width]. lia.
Qed.

(** Every Word that can exist: constructed, then assigned to. *)
Definition is_word (w : word) : Prop := exists v, w = wbits v /\ 0 <= v < 2 ^ 48.

Lemma C20_word_values_pf : forall v,
  (0 <= v < 2 ^ 48 ->
     (exists w, word_new v = Ok w /\ word_value w = v) /\
     (forall u w ops, word_new u = Ok w ->
        let w1 := fold_left (fun w x => fst (word_set_value w x)) ops w in
        let '(w', r) := word_set_value w1 v in r = Ok tt /\ word_value w' = v)) /\
  (~ (0 <= v < 2 ^ 48) ->
     word_new v = Err ValueError /\
     (forall w, word_set_value w v = (w, Err ValueError))).
Proof.
  intros v. split; intros H.
  - split.
    + exists (wbits v). split; [apply word_new_ok; exact H|reflexivity].
    + intros u w ops E.
      assert (Hu : 0 <= u < 2 ^ 48).
      { destruct (Z_le_dec 0 u), (Z_lt_dec u (2 ^ 48)); try lia;
          (unfold word_new in E; rewrite word_check_err in E by lia; discriminate). }
      rewrite word_new_ok in E by exact Hu. injection E as <-. cbv zeta.
      assert (W : forall u, exists u', fold_left (fun w x => fst (word_set_value w x)) ops (wbits u) = wbits u').
      { clear. induction ops as [|x ops IH]; intros u; [exists u; reflexivity|].
        cbn [fold_left]. destruct (Z_le_dec 0 x), (Z_lt_dec x (2 ^ 48));
          [rewrite word_set_value_ok by lia; apply IH| | |];
          (unfold word_set_value at 2; rewrite word_check_err by lia; apply IH). }
      destruct (W u) as [u' ->].
      rewrite word_set_value_ok by exact H. split; reflexivity.
  - split.
    + unfold word_new. rewrite word_check_err by exact H. reflexivity.
    + intros w. unfold word_set_value. rewrite word_check_err by exact H. reflexivity.
Qed.
(*@
Example C20_example :
  (exists w, word_new 281474976710655 = Ok w /\ word_value w = 281474976710655) /\
  word_new 281474976710656 = Err ValueError /\ word_new (-1) = Err ValueError.
Proof. split; [eexists; repeat (apply conj); vm_compute; reflexivity|split; vm_compute; reflexivity]. Qed.
@*)

(** what each field reads *)
Lemma iw_get_digit d f x a b c :
  0 <= d < 2 ^ 48 -> iw_get (mkiword (wbits d) x a b c) f = Ok (digit f d).
Proof.
  intros H. unfold iw_get. cbn [iw_data]. destruct f; cbn [field_key]; rewrite wslice_get by lia;
    unfold bits_at, digit; cbn [Z.sub Z.add Z.opp Z.pos_sub Pos.add Pos.succ Pos.pred_double Pos.sub].
  - change (48 - 12) with 36. change (12 - 1 + 1) with 12. rewrite Z.mod_small; [reflexivity|].
    split; [apply Z.div_pos; lia|]. apply Z.div_lt_upper_bound; [lia|].
    change (2 ^ 36 * 2 ^ 12) with (2 ^ 48). lia.
  - reflexivity.
  - reflexivity.
  - change (48 - 48) with 0. change (2 ^ 0) with 1. rewrite Z.div_1_r. reflexivity.
Qed.

Definition field_lo (f : field) : Z := match f with Command => 36 | FA => 24 | FB => 12 | FC => 0 end.
Lemma digit_bits f v : 0 <= v < 2 ^ 48 -> digit f v = bits_at v (field_lo f) 12.
Proof.
  intros H. unfold bits_at. destruct f; cbn [digit field_lo].
  - rewrite Z.mod_small; [reflexivity|].
    split; [apply Z.div_pos; lia|]. apply Z.div_lt_upper_bound; [lia|].
    change (2 ^ 36 * 2 ^ 12) with (2 ^ 48). lia.
  - reflexivity.
  - reflexivity.
  - change (2 ^ 0) with 1. rewrite Z.div_1_r. reflexivity.
Qed.
Lemma field_set d f x : 0 <= d < 2 ^ 48 -> 0 <= x < 4096 ->
  exists d', bf_setitem (wbits d) (field_key f) x = (wbits d', Ok tt) /\ 0 <= d' < 2 ^ 48 /\
             forall g, digit g d' = if same_field f g then x else digit g d.
Proof.
  intros Hd Hx.
  assert (S : exists d', bf_setitem (wbits d) (field_key f) x = (wbits d', Ok tt) /\
             0 <= d' < 2 ^ 48 /\ bits_replaced d d' (field_lo f) 12 x).
  { destruct f; cbn [field_key field_lo].
    - destruct (@wslice d 1 12 x) as (d' & A & B & C); try lia. exists d'; auto.
    - destruct (@wslice d 13 24 x) as (d' & A & B & C); try lia. exists d'; auto.
    - destruct (@wslice d 25 36 x) as (d' & A & B & C); try lia. exists d'; auto.
    - destruct (@wslice d 37 48 x) as (d' & A & B & C); try lia. exists d'; auto. }
  destruct S as (d' & E & Hd' & R1 & R2). exists d'. split; [exact E|]. split; [exact Hd'|].
  intros g. rewrite !digit_bits by assumption. destruct (same_field f g) eqn:SF.
  - assert (f = g) by (destruct f, g; try discriminate; reflexivity). subst g. exact R1.
  - apply Z.bits_inj'. intros j Hj.
    assert (0 <= field_lo g) by (destruct g; cbn; lia).
    rewrite !testbit_bits_at by lia. destruct (Z.ltb_spec j 12); [|reflexivity]. cbn [andb].
    assert (N : ~ (field_lo f <= j + field_lo g < field_lo f + 12)).
    { destruct f, g; cbn in SF |- *; try discriminate; lia. }
    specialize (R2 (j + field_lo g) ltac:(lia) N).
    rewrite !bit_at_testbit in R2 by lia.
    destruct (Z.testbit d' _), (Z.testbit d _); cbn in R2; congruence.
Qed.

Lemma digits_pack v : 0 <= v < 2 ^ 48 ->
  v = digit Command v * 2 ^ 36 + digit FA v * 2 ^ 24 + digit FB v * 2 ^ 12 + digit FC v.
Proof.
  intros H. cbn [digit].
  assert (D2 : v / 2 ^ 24 = v / 2 ^ 12 / 2 ^ 12) by (rewrite Z.div_div by lia; reflexivity).
  assert (D3 : v / 2 ^ 36 = v / 2 ^ 12 / 2 ^ 12 / 2 ^ 12) by (rewrite !Z.div_div by lia; reflexivity).
  rewrite D2, D3. clear D2 D3 H.
  assert (E1 := Z.div_mod v (2 ^ 12) ltac:(lia)).
  set (q1 := v / 2 ^ 12) in *.
  assert (E2 := Z.div_mod q1 (2 ^ 12) ltac:(lia)).
  set (q2 := q1 / 2 ^ 12) in *.
  assert (E3 := Z.div_mod q2 (2 ^ 12) ltac:(lia)).
  set (q3 := q2 / 2 ^ 12) in *.
  change (v mod 4096) with (v mod 2 ^ 12). change (q1 mod 4096) with (q1 mod 2 ^ 12).
  change (q2 mod 4096) with (q2 mod 2 ^ 12).
  set (r1 := v mod 2 ^ 12) in *. set (r2 := q1 mod 2 ^ 12) in *. set (r3 := q2 mod 2 ^ 12) in *.
  clearbody q1 q2 q3 r1 r2 r3.
  change (2 ^ 36) with 68719476736. change (2 ^ 24) with 16777216. change (2 ^ 12) with 4096 in *.
  lia.
Qed.

(** the registers of an instruction word *)
Definition IR (w : iword) (r : regs) : Prop :=
  exists d x a b c, w = mkiword (wbits d) x a b c /\ 0 <= d < 2 ^ 48 /\ forall f, r f = digit f d.

Lemma IR_get w r f : IR w r -> iw_get w f = Ok (r f).
Proof.
  intros (d & x & a & b & c & -> & H & E). rewrite iw_get_digit by exact H. rewrite E. reflexivity.
Qed.
Lemma IR_value w r : IR w r -> iw_value w = packed r.
Proof.
  intros (d & x & a & b & c & -> & H & E). unfold packed. rewrite !E.
  cbn [iw_value iw_data wbits bf_value]. apply digits_pack. exact H.
Qed.
Lemma shadow_form d x a b c f v :
  exists x' a' b' c', iw_shadow (mkiword d x a b c) f v = mkiword d x' a' b' c'.
Proof. destruct f; cbn; repeat eexists. Qed.
Lemma IR_init w r f v : IR w r -> 0 <= v < 4096 ->
  exists w', iw_init_field w f v = Ok w' /\ IR w' (regs_step r (SetField f v)).
Proof.
  intros (d & x & a & b & c & -> & H & E) Hv. unfold iw_init_field. cbn [iw_data].
  destruct (field_set d f v H Hv) as (d' & -> & Hd' & Ed). cbn [iw_with_data].
  destruct (shadow_form (wbits d') x a b c f v) as (x' & a' & b' & c' & ->).
  eexists. split; [reflexivity|]. exists d', x', a', b', c'. split; [reflexivity|].
  split; [exact Hd'|]. intros g. cbn [regs_step]. rewrite Ed, E. reflexivity.
Qed.
Lemma IR_set w r f v : IR w r -> 0 <= v < 4096 ->
  snd (iw_set w f v) = Ok tt /\ IR (fst (iw_set w f v)) (regs_step r (SetField f v)).
Proof.
  intros (d & x & a & b & c & -> & H & E) Hv. unfold iw_set.
  destruct (shadow_form (wbits d) x a b c f v) as (x' & a' & b' & c' & ->). cbn [iw_data].
  destruct (field_set d f v H Hv) as (d' & -> & Hd' & Ed). cbn.
  split; [reflexivity|]. exists d', x', a', b', c'. split; [reflexivity|].
  split; [exact Hd'|]. intros g. rewrite Ed, E. reflexivity.
Qed.
Lemma IR_set_value w r v : IR w r -> 
  snd (iw_set_value w v) = (if (0 <=? v) && (v <? 2 ^ 48) then Ok tt else Err ValueError) /\
  IR (fst (iw_set_value w v)) (regs_step r (SetValue v)).
Proof.
  intros (d & x & a & b & c & -> & H & E). unfold iw_set_value. cbn [iw_data regs_step].
  destruct ((0 <=? v) && (v <? 2 ^ 48)) eqn:B.
  - rewrite word_set_value_ok by lia. cbn. split; [reflexivity|].
    exists v, x, a, b, c. split; [reflexivity|]. split; [lia|]. reflexivity.
  - unfold word_set_value. rewrite word_check_err by lia. cbn. split; [reflexivity|].
    exists d, x, a, b, c. auto.
Qed.

Lemma iw_new_IR x a b c :
  0 <= x < 4096 -> 0 <= a < 4096 -> 0 <= b < 4096 -> 0 <= c < 4096 ->
  exists w, iw_new x a b c = Ok w /\
    IR w (fun f => match f with Command => x | FA => a | FB => b | FC => c end).
Proof.
  intros Hx Ha Hb Hc. unfold iw_new. rewrite word_new_ok by lia. cbn [bind].
  set (w0 := mkiword (wbits 0) 0 0 0 0).
  assert (R0 : IR w0 (fun _ => 0)).
  { exists 0, 0, 0, 0, 0. split; [reflexivity|]. split; [lia|]. intros f; destruct f; reflexivity. }
  destruct (IR_init _ _ Command x R0 Hx) as (w1 & -> & R1). cbn [bind].
  destruct (IR_init _ _ FA a R1 Ha) as (w2 & -> & R2). cbn [bind].
  destruct (IR_init _ _ FB b R2 Hb) as (w3 & -> & R3). cbn [bind].
  destruct (IR_init _ _ FC c R3 Hc) as (w4 & -> & R4).
  exists w4. split; [reflexivity|].
  destruct R4 as (d & y & a' & b' & c' & -> & Hd & E).
  exists d, y, a', b', c'. split; [reflexivity|]. split; [exact Hd|].
  intros f. rewrite <- E. destruct f; reflexivity.
Qed.

Lemma C21_instruction_word_packing_pf : forall command a b c,
  0 <= command < 4096 -> 0 <= a < 4096 -> 0 <= b < 4096 -> 0 <= c < 4096 ->
  exists w, iw_new command a b c = Ok w /\
    iw_value w = command * 2 ^ 36 + a * 2 ^ 24 + b * 2 ^ 12 + c /\
    iw_get w Command = Ok command /\ iw_get w FA = Ok a /\
    iw_get w FB = Ok b /\ iw_get w FC = Ok c.
Proof.
  intros x a b c Hx Ha Hb Hc. destruct (iw_new_IR x a b c Hx Ha Hb Hc) as (w & E & HR).
  exists w. split; [exact E|]. split; [exact (IR_value _ _ HR)|].
  rewrite !(IR_get _ _ _ HR). auto.
Qed.
(*@
Example C21_example : exists w, iw_new 11 1 2 3 = Ok w /\ iw_value w = 755931029507.
Proof. eexists; repeat (apply conj); vm_compute; reflexivity. Qed.
@*)
Lemma C21_value_digits_pf : forall command a b c v,
  0 <= command < 4096 -> 0 <= a < 4096 -> 0 <= b < 4096 -> 0 <= c < 4096 ->
  0 <= v < 2 ^ 48 ->
  exists w, iw_new command a b c = Ok w /\
  let w' := fst (iw_set_value w v) in
  iw_get w' Command = Ok (v / 2 ^ 36) /\ iw_get w' FA = Ok ((v / 2 ^ 24) mod 4096) /\
  iw_get w' FB = Ok ((v / 2 ^ 12) mod 4096) /\ iw_get w' FC = Ok (v mod 4096).
Proof.
  intros x a b c v Hx Ha Hb Hc Hv. destruct (iw_new_IR x a b c Hx Ha Hb Hc) as (w & E & HR).
  exists w. split; [exact E|]. cbv zeta.
  destruct (IR_set_value w _ v HR) as [_ HR'].
  rewrite !(IR_get _ _ _ HR'). cbn [regs_step].
  destruct ((0 <=? v) && (v <? 2 ^ 48)) eqn:B; [|lia]. auto.
Qed.
(*@ Example C21_value_digits_ex : match iw_new 0 0 0 0 with
  | Ok w => map (iw_get (fst (iw_set_value w (2 ^ 36 * 7 + 2 ^ 24 * 8 + 2 ^ 12 * 9 + 10)))) [Command; FA; FB; FC] = [Ok 7; Ok 8; Ok 9; Ok 10]
  | Err _ => False
  end.
Proof. vm_compute. reflexivity. Qed. @*)

Lemma iw_run_IR ops : forall w r, IR w r -> Forall iw_op_fits ops ->
  IR (iw_run w ops) (fold_left regs_step ops r).
Proof.
  induction ops as [|o ops IH]; intros w r HR Ho; [exact HR|].
  inversion Ho as [|y l H1 H2]; subst. cbn [iw_run fold_left]. apply IH; [|exact H2].
  destruct o as [f v|v]; cbn [iw_step].
  - apply IR_set; [exact HR|exact H1].
  - apply IR_set_value. exact HR.
Qed.

Lemma C22_fields_independent_pf : forall command a b c ops,
  0 <= command < 4096 -> 0 <= a < 4096 -> 0 <= b < 4096 -> 0 <= c < 4096 ->
  Forall iw_op_fits ops ->
  exists w, iw_new command a b c = Ok w /\
    let r := fold_left regs_step ops
      (fun f => match f with Command => command | FA => a | FB => b | FC => c end) in
    (forall f, iw_get (iw_run w ops) f = Ok (r f)) /\ iw_value (iw_run w ops) = packed r.
Proof.
  intros x a b c ops Hx Ha Hb Hc Ho. destruct (iw_new_IR x a b c Hx Ha Hb Hc) as (w & E & HR).
  exists w. split; [exact E|]. assert (HR' := iw_run_IR ops w _ HR Ho).
  cbv zeta. split; [intros f; apply IR_get; exact HR'|apply IR_value; exact HR'].
Qed.
(*@
Definition C22_ops := [SetField FA 100; SetValue 755931029507; SetField FC 4095; SetValue (-5)].
Example C22_example :
  Forall iw_op_fits C22_ops /\
  match iw_new 1 2 3 4 with
  | Ok w => map (iw_get (iw_run w C22_ops)) [Command; FA; FB; FC] = [Ok 11; Ok 1; Ok 2; Ok 4095]
  | Err _ => False
  end.
Proof. split; [repeat constructor; cbn; lia|]. vm_compute. reflexivity. Qed.
@*)

(** C23: 4096 (and negatives) get through *)
Lemma C23_misfit_rejected_refuted_pf :
  (exists w, iw_new 0 4096 0 0 = Ok w /\ iw_get w Command = Ok 1 /\ iw_get w FA = Ok 0) /\
  (exists w, iw_new 0 0 0 0 = Ok w /\ iw_value (fst (iw_set w Command 4096)) = 2 ^ 48) /\
  (exists w, iw_new 0 0 0 (-1) = Ok w /\ iw_value w = -1) /\
  (exists w, iw_new 0 0 0 0 = Ok w /\ snd (iw_set w FB 4096) = Ok tt /\
             iw_get (fst (iw_set w FB 4096)) FA = Ok 1).
Proof.
  split; [|split; [|split]]; eexists; (split; [vm_compute; reflexivity|]);
    repeat (apply conj); vm_compute; reflexivity.
Qed.
(*@ Example C23_misfit_rejected_refuted_ex : match iw_new 0 4096 0 0 with Ok w => iw_get w Command = Ok 1 /\ iw_value w = 2 ^ 36 | Err _ => False end.
Proof. vm_compute. auto. Qed. @*)
Lemma C23_oversize_rejected_partial_pf : forall w f v,
  (exists c a b c' w0 ops, iw_new c a b c' = Ok w0 /\ w = iw_run w0 ops) -> 4096 < v ->
  snd (iw_set w f v) = Err ValueError /\
  (forall g, iw_get (fst (iw_set w f v)) g = iw_get w g) /\
  iw_value (fst (iw_set w f v)) = iw_value w.
Proof.
  intros w f v (x & a & b & c & w0 & ops & E & Ew) Hv.
  assert (T : forall p q r, same_geometry p q -> same_geometry q r -> same_geometry p r).
  { intros p q r (A1 & A2 & A3 & A4) (B1 & B2 & B3 & B4). unfold same_geometry.
    rewrite B1, B2, B3, B4. auto. }
  assert (GW0 : same_geometry (wbits 0) (iw_data w0)).
  { unfold iw_new in E. rewrite word_new_ok in E by lia. cbn [bind] in E.
    assert (S : forall w1 w2 g y, iw_init_field w1 g y = Ok w2 -> same_geometry (iw_data w1) (iw_data w2)).
    { intros w1 w2 g y H. unfold iw_init_field in H.
      assert (SG := step_geometry (iw_data w1) (OpItem (field_key g) y)). cbn [bf_step] in SG.
      destruct (bf_setitem (iw_data w1) (field_key g) y) as [d r]. destruct r; [|discriminate].
      injection H as <-. destruct w1, g; exact SG. }
    destruct (iw_init_field (mkiword (wbits 0) 0 0 0 0) Command x) as [w1|] eqn:E1; [|discriminate].
    cbn [bind] in E. destruct (iw_init_field w1 FA a) as [w2|] eqn:E2; [|discriminate].
    cbn [bind] in E. destruct (iw_init_field w2 FB b) as [w3|] eqn:E3; [|discriminate].
    cbn [bind] in E. apply S in E1, E2, E3, E.
    eapply T; [exact E1|]. eapply T; [exact E2|]. eapply T; [exact E3|]. exact E. }
  assert (ST : forall w1 o, same_geometry (iw_data w1) (iw_data (fst (iw_step w1 o)))).
  { clear. intros [d x a b c] [f v|v]; cbn [iw_step].
    - unfold iw_set. destruct (shadow_form d x a b c f v) as (x' & a' & b' & c' & ->). cbn [iw_data].
      assert (SG := step_geometry d (OpItem (field_key f) v)). cbn [bf_step] in SG.
      destruct (bf_setitem d (field_key f) v). exact SG.
    - unfold iw_set_value, word_set_value. cbn [iw_data].
      assert (SG := step_geometry d (OpValue v)). cbn [bf_step] in SG.
      destruct (word_check v); [|repeat split]. destruct (bf_set_value d v). exact SG. }
  assert (GW : same_geometry (wbits 0) (iw_data w)).
  { subst w. clear - GW0 ST T. revert w0 GW0. induction ops as [|o ops IH]; intros w0 G; [exact G|].
    apply IH. eapply T; [exact G|apply ST]. }
  clear Ew E. destruct w as [d x' a' b' c']. cbn [iw_data] in GW.
  assert (F : forall x a b c, bf_setitem (iw_data (iw_shadow (mkiword d x a b c) f v)) (field_key f) v
              = (d, Err ValueError)).
  { intros. destruct (shadow_form d x0 a0 b0 c0 f v) as (? & ? & ? & ? & ->). cbn [iw_data].
    destruct GW as (G1 & G2 & G3 & G4). cbn in G1, G3, G4.
    destruct f; cbn [field_key]; apply setitem_slice_big;
      unfold vrange, valid_range, range_size; rewrite ?G1, ?G3, ?G4; cbn; lia. }
  unfold iw_set. rewrite F.
  destruct (shadow_form d x' a' b' c' f v) as (? & ? & ? & ? & ->).
  split; [reflexivity|]. split; [|reflexivity]. intros g. reflexivity.
Qed.
(*@
Example C23_partial_example :
  exists w, iw_new 1 2 3 4 = Ok w /\ snd (iw_set w FA 4097) = Err ValueError.
Proof. eexists; repeat (apply conj); vm_compute; reflexivity. Qed.
@*)

Lemma C24_rejected_write_unobservable_pf : forall w o w' e,
  iw_step w o = (w', Err e) ->
  iw_value w' = iw_value w /\ forall f, iw_get w' f = iw_get w f.
Proof.
  intros w o w' e H.
  assert (D : iw_data w' = iw_data w).
  { destruct o as [f v|v]; cbn [iw_step] in H.
    - unfold iw_set in H. destruct w as [d x a b c].
      destruct (shadow_form d x a b c f v) as (x' & a' & b' & c' & E). rewrite E in H.
      cbn [iw_data] in H.
      destruct (bf_setitem d (field_key f) v) as [d' r] eqn:S.
      injection H as <- ->. apply setitem_cases in S.
      destruct S as [(e' & _ & ->)|(v' & _ & Q & _)]; [reflexivity|discriminate].
    - unfold iw_set_value, word_set_value in H. destruct w as [d x a b c]. cbn [iw_data] in H.
      destruct (word_check v); [|injection H as <- _; reflexivity].
      unfold bf_set_value in H. destruct (checkValue d v (bf_width d)); injection H as <- He.
      + discriminate.
      + reflexivity. }
  unfold iw_value, iw_get. rewrite D. auto.
Qed.
(*@
Example C24_example :
  exists w, iw_new 1 2 3 4 = Ok w /\ snd (iw_step w (SetField FA 5000)) = Err ValueError /\
            snd (iw_step w (SetValue (2 ^ 48))) = Err ValueError.
Proof. eexists; repeat (apply conj); vm_compute; reflexivity. Qed.
@*)
