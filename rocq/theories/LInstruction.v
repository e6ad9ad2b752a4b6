From Coq Require Import ZArith List Bool Lia.
From Verif Require Import Py LPy MBitField SBits LBits LBitField MWord SWord LWord MInstruction MInstructions SInstruction.
#[local] Arguments Z.add : simpl never.
#[local] Arguments Z.sub : simpl never.
#[local] Arguments Z.mul : simpl never.
#[local] Arguments Z.pow : simpl never.

(** *** Writing a field adds the difference *)
Lemma replaced_sum v v' lo n x :
  0 <= lo -> 0 <= n -> bits_replaced v v' lo n x ->
  v' = v + (x - bits_at v lo n) * 2 ^ lo.
Proof.
  intros Hl Hn [H1 H2].
  assert (P : 0 < 2 ^ lo) by (apply Z.pow_pos_nonneg; lia).
  assert (Q : 0 < 2 ^ n) by (apply Z.pow_pos_nonneg; lia).
  assert (L : v' mod 2 ^ lo = v mod 2 ^ lo).
  { apply Z.bits_inj'. intros j Hj. destruct (Z.ltb_spec j lo) as [Hj'|Hj'].
    - rewrite !Z.mod_pow2_bits_low by lia. specialize (H2 j Hj ltac:(lia)).
      rewrite !bit_at_testbit in H2 by lia. now apply Z.b2z_inj in H2.
    - rewrite !Z.mod_pow2_bits_high by lia. reflexivity. }
  assert (H : v' / 2 ^ (lo + n) = v / 2 ^ (lo + n)).
  { apply Z.bits_inj'. intros j Hj. rewrite !Z.div_pow2_bits by lia.
    specialize (H2 (j + (lo + n)) ltac:(lia) ltac:(lia)).
    rewrite !bit_at_testbit in H2 by lia. now apply Z.b2z_inj in H2. }
  assert (D : forall u, u = (u / 2 ^ (lo + n) * 2 ^ n + bits_at u lo n) * 2 ^ lo + u mod 2 ^ lo).
  { intros u. unfold bits_at. rewrite Z.pow_add_r, <- Z.div_div by lia.
    pose proof (Z.div_mod u (2 ^ lo) ltac:(lia)) as E1.
    pose proof (Z.div_mod (u / 2 ^ lo) (2 ^ n) ltac:(lia)) as E2.
    set (q := u / 2 ^ lo) in *.
    rewrite (Z.mul_comm (q / 2 ^ n)), <- E2, Z.mul_comm. exact E1. }
  pose proof (D v) as Dv. pose proof (D v') as Dv'. rewrite L, H, H1 in Dv'.
  clear - Dv Dv'. set (B := bits_at v lo n) in *. set (M := v mod 2 ^ lo) in *.
  set (A := v / 2 ^ (lo + n)) in *. clearbody A B M. rewrite Dv', Dv. ring.
Qed.

Definition ibits (v : Z) : bf := mkbf 12 4095 v MSB_1 MSB_LEFT.

Lemma ibits_wf v : wf (ibits v). Proof. unfold wf, ibits; cbn; lia. Qed.
Lemma put_range v s e x :
  0 <= v < 4096 -> 1 <= s -> s <= e -> e <= 12 -> 0 <= x < 2 ^ (e - s + 1) ->
  put (range s e) x (ibits v) =
    Ok (ibits (v + (x - bits_at v (12 - e) (e - s + 1)) * 2 ^ (12 - e))) /\
  0 <= v + (x - bits_at v (12 - e) (e - s + 1)) * 2 ^ (12 - e) < 4096.
Proof.
  intros Hv H1 H2 H3 Hx.
  assert (VR : vrange (ibits v) s e).
  { unfold vrange, valid_range, valid_index, weight, ibits; cbn [bf_order bf_numbering bf_width]. lia. }
  assert (RS : range_size MSB_1 12 s e = e - s + 1) by (unfold range_size, weight; lia).
  assert (RL : range_lo MSB_1 12 s e = 12 - e) by (unfold range_lo, weight; lia).
  destruct (@setitem_slice_edge (ibits v) s e x (ibits_wf v) VR (@mask_shift_msb (ibits v) s e eq_refl VR))
    as (v' & E & R & F).
  { exact Hv. } { cbn [ibits bf_numbering bf_width]. rewrite RS. exact Hx. }
  cbn [ibits bf_numbering bf_width bf_value] in R, F. rewrite RS, RL in R.
  apply replaced_sum in R; [|lia|lia]. unfold put, range. rewrite E. rewrite <- R.
  split; [reflexivity|exact F].
Qed.
Lemma put_idx v i x :
  0 <= v < 4096 -> 1 <= i <= 12 -> x = 0 \/ x = 1 ->
  put (Idx i) x (ibits v) = Ok (ibits (v + (x - bits_at v (12 - i) 1) * 2 ^ (12 - i))) /\
  0 <= v + (x - bits_at v (12 - i) 1) * 2 ^ (12 - i) < 4096.
Proof.
  intros Hv Hi Hx.
  destruct (@setitem_bit (ibits v) i x (ibits_wf v)) as (v' & E & R & F); auto.
  cbn [ibits bf_numbering bf_width bf_value] in R, F. unfold weight in R.
  replace (12 - 1 - (i - 1)) with (12 - i) in R by lia.
  assert (R' : bits_replaced v v' (12 - i) 1 x).
  { destruct R as [R1 R2]. split; [rewrite bits_at_bit by lia; exact R1|].
    intros j Hj Hn. apply R2; lia. }
  apply replaced_sum in R'; [|lia|lia]. unfold put. rewrite E, <- R'.
  split; [reflexivity|exact F].
Qed.

Lemma uses_carries o x : uses_bit7 o x = carries_bit7 o x.
Proof.
  unfold uses_bit7, carries_bit7, given, inb. cbn [map existsb].
  rewrite (eqb_sym (lit "peripheral")), (eqb_sym (lit "print")).
  destruct (eqb (o_type o) (lit "maskable")) eqn:M.
  - apply eqb_ok in M. rewrite M. destruct (mask x); reflexivity.
  - rewrite (eqb_sym (lit "maskable")), M. cbn [orb negb andb].
    rewrite andb_true_r, !orb_false_r. reflexivity.
Qed.
Lemma check_hi_ok o hi : within o hi -> check_hi o hi = Ok tt.
Proof.
  destruct o as [x|]; cbn; [|reflexivity]. intros H.
  destruct ((x <? 0) || (x >? hi)) eqn:E; [lia|reflexivity].
Qed.
Lemma check_hi_err o hi : ~ within o hi -> check_hi o hi = Err ValueError.
Proof.
  destruct o as [x|]; cbn; [|tauto]. intros H.
  destruct ((x <? 0) || (x >? hi)) eqn:E; [reflexivity|lia].
Qed.
Lemma check_bit_hi o : check_bit o = check_hi o 1.
Proof.
  destruct o as [x|]; cbn; [|reflexivity]. unfold not_bit.
  destruct ((x <? 0) || (x >? 1)) eqn:E, (negb ((x =? 0) || (x =? 1))) eqn:F; try reflexivity; lia.
Qed.

(** the checks accept exactly the acceptable arguments *)
Lemma within_dec o hi : {within o hi} + {~ within o hi}.
Proof.
  destruct o as [x|]; [|left; exact I]. cbn.
  destruct (Z_le_dec 0 x), (Z_le_dec x hi); [left|right|right|right]; lia.
Qed.
Lemma check_spec o x :
  match instr_check o x with
  | Ok _ => acceptable o x /\ exists op, o_op o = Some op
  | Err e => (o_op o <> None -> ~ acceptable o x /\ e = ValueError) /\
             (o_op o = None -> e = ValueError \/ e = TypeError)
  end.
Proof.
  unfold instr_check.
  destruct x as [s m a b c p]; cbn [sequence mask arg_a arg_b arg_c paddr].
  assert (X : forall e : exn, e = ValueError -> forall P : Prop, ~ P ->
            (o_op o <> None -> ~ P /\ e = ValueError) /\ (o_op o = None -> e = ValueError \/ e = TypeError))
    by (intros e -> P NP; split; [intros _; tauto|intros _; tauto]).
  destruct (within_dec s 1) as [Hs|Hs].
  2:{ destruct s as [s|]; [|cbn in Hs; tauto].
      assert (Q : not_bit s = true) by (cbn in Hs; unfold not_bit; lia).
      rewrite Q. destruct p as [p|]; [destruct (negb (p =? 0))|]; cbn [bind];
        (apply X; [reflexivity|]); intros [[B _] _ _ _]; exact (Hs B). }
  assert (Es : (match s with
           | Some s0 =>
               if match p with Some p0 => negb (p0 =? 0) | None => false end then Err ValueError
               else if not_bit s0 then Err ValueError else Ok tt
           | None => Ok tt
           end) = if given s && match p with Some p0 => negb (p0 =? 0) | None => false end
                  then Err ValueError else Ok tt).
  { destruct s as [s|]; [|reflexivity]. cbn [given andb].
    assert (Q : not_bit s = false) by (cbn in Hs; unfold not_bit; lia). rewrite Q. reflexivity. }
  rewrite Es. clear Es.
  destruct (given s && match p with Some p0 => negb (p0 =? 0) | None => false end) eqn:Gs; cbn [bind].
  { apply X; [reflexivity|]. intros [_ _ [_ [P|[P _]]] _]; cbn in P.
    - subst p. rewrite andb_false_r in Gs. discriminate.
    - unfold absent in P. subst s. discriminate. }
  clear Gs.
  destruct m as [m|]; cbn [bind].
  { destruct (eqb (o_type o) (lit "maskable")) eqn:T; cbn [negb bind].
    2:{ apply X; [reflexivity|]. intros [_ [_ [P|[P _]]] _ _]; [discriminate P|].
        unfold type_is in P. rewrite P, eqb_refl in T. discriminate. }
    destruct (given a || given b || given c || given p) eqn:G; cbn [bind].
    { apply X; [reflexivity|]. intros [_ [_ [P|(_ & P1 & P2 & P3 & P4)]] _ _]; [discriminate P|].
      cbn in P1, P2, P3, P4. unfold absent in *. subst. discriminate. }
    destruct a, b, c, p; try discriminate G.
    destruct (within_dec (Some m) 31) as [Hm|Hm];
      [rewrite check_hi_ok by exact Hm|rewrite check_hi_err by exact Hm]; cbn [bind check_bit].
    2:{ apply X; [reflexivity|]. intros [_ [P _] _ _]. exact (Hm P). }
    destruct (within_dec (o_b7 o) 1) as [H7|H7];
      [rewrite check_hi_ok by exact H7|rewrite check_hi_err by exact H7]; cbn [bind].
    2:{ apply X; [reflexivity|]. intros [_ _ _ [P _]]. exact (H7 P). }
    destruct (within_dec (o_b23 o) 3) as [H23|H23];
      [rewrite check_hi_ok by exact H23|rewrite check_hi_err by exact H23]; cbn [bind].
    2:{ apply X; [reflexivity|]. intros [_ _ _ [_ [P _]]]. exact (H23 P). }
    destruct (o_op o) as [op|] eqn:O; [|split; [congruence|tauto]].
    destruct (within_dec (Some op) 31) as [Ho|Ho];
      [rewrite check_hi_ok by exact Ho|rewrite check_hi_err by exact Ho].
    2:{ apply X; [reflexivity|]. intros [_ _ _ [_ [_ P]]]. rewrite O in P. exact (Ho P). }
    split; [|eauto]. apply eqb_ok in T.
    split; unfold absent, type_is; cbn [sequence mask arg_a arg_b arg_c paddr]; cbn [within] in *.
    - tauto.
    - split; [exact Hm|]. right; tauto.
    - tauto.
    - rewrite O. split; [exact H7|]. split; [exact H23|exact Ho]. }
  rewrite !check_bit_hi.
  destruct (within_dec a 1) as [Ha|Ha];
    [rewrite check_hi_ok by exact Ha|rewrite check_hi_err by exact Ha]; cbn [bind].
  2:{ apply X; [reflexivity|]. intros [(_ & P & _) _ _ _]. exact (Ha P). }
  destruct (within_dec b 1) as [Hb|Hb];
    [rewrite check_hi_ok by exact Hb|rewrite check_hi_err by exact Hb]; cbn [bind].
  2:{ apply X; [reflexivity|]. intros [(_ & _ & P & _) _ _ _]. exact (Hb P). }
  destruct (within_dec c 1) as [Hc|Hc];
    [rewrite check_hi_ok by exact Hc|rewrite check_hi_err by exact Hc]; cbn [bind].
  2:{ apply X; [reflexivity|]. intros [(_ & _ & _ & P) _ _ _]. exact (Hc P). }
  assert (T : forall r : res unit, r = Ok tt ->
     match (do _ <- r; do _ <- check_hi (o_b7 o) 1; do _ <- check_hi (o_b23 o) 3;
            match o_op o with None => Err TypeError | Some op => check_hi (Some op) 31 end) with
     | Ok _ => within (o_b7 o) 1 /\ within (o_b23 o) 3 /\ within (o_op o) 31 /\ exists op, o_op o = Some op
     | Err e => (o_op o <> None -> ~ (within (o_b7 o) 1 /\ within (o_b23 o) 3 /\ within (o_op o) 31)
                                   /\ e = ValueError) /\
                (o_op o = None -> e = ValueError \/ e = TypeError)
     end).
  { intros r ->. cbn [bind].
    destruct (within_dec (o_b7 o) 1) as [H7|H7];
      [rewrite check_hi_ok by exact H7|rewrite check_hi_err by exact H7]; cbn [bind].
    2:{ apply X; [reflexivity|cbn [within] in *; tauto]. }
    destruct (within_dec (o_b23 o) 3) as [H23|H23];
      [rewrite check_hi_ok by exact H23|rewrite check_hi_err by exact H23]; cbn [bind].
    2:{ apply X; [reflexivity|cbn [within] in *; tauto]. }
    destruct (o_op o) as [op|] eqn:O; [|split; [congruence|tauto]].
    destruct (within_dec (Some op) 31) as [Ho|Ho];
      [rewrite check_hi_ok by exact Ho|rewrite check_hi_err by exact Ho].
    2:{ apply X; [reflexivity|cbn [within] in *; tauto]. }
    eauto. }
  destruct p as [p|].
  - destruct (given s || given None || given a || given b || given c) eqn:G; cbn [bind].
    { apply X; [reflexivity|]. intros [_ _ [_ [P|(P1 & _ & P3 & P4 & P5)]] _]; [discriminate P|].
      cbn in P1, P3, P4, P5. unfold absent in *. subst. discriminate. }
    destruct (within_dec (Some p) 63) as [Hp|Hp].
    2:{ rewrite check_hi_err by exact Hp. cbn [bind]. apply X; [reflexivity|].
        intros [_ _ [P _] _]. exact (Hp P). }
    specialize (T (check_hi (Some p) 63) (check_hi_ok _ _ Hp)).
    destruct (do _ <- check_hi (Some p) 63; do _ <- check_hi (o_b7 o) 1; do _ <- check_hi (o_b23 o) 3;
            match o_op o with None => Err TypeError | Some op => check_hi (Some op) 31 end) as [u|e].
    + destruct T as (T1 & T2 & T3 & T4). split; [|exact T4].
      destruct s, a, b, c; try discriminate G.
      split; unfold absent, type_is; cbn [sequence mask arg_a arg_b arg_c paddr]; cbn [within] in *;
        [tauto|tauto| |tauto]. split; [exact Hp|]. right; tauto.
    + destruct T as [T1 T2]. split; [|exact T2]. intros N. destruct (T1 N) as [T3 ->].
      split; [|reflexivity]. intros [_ _ _ P]. exact (T3 P).
  - specialize (T (Ok tt) eq_refl).
    destruct (do _ <- Ok tt; do _ <- check_hi (o_b7 o) 1; do _ <- check_hi (o_b23 o) 3;
            match o_op o with None => Err TypeError | Some op => check_hi (Some op) 31 end) as [u|e].
    + destruct T as (T1 & T2 & T3 & T4). split; [|exact T4].
      split; unfold absent, type_is; cbn [sequence mask arg_a arg_b arg_c paddr]; cbn [within] in *; tauto.
    + destruct T as [T1 T2]. split; [|exact T2]. intros N. destruct (T1 N) as [T3 ->].
      split; [|reflexivity]. intros [_ _ _ P]. exact (T3 P).
Qed.

(** *** What the constructor builds *)
#[local] Ltac Zify.zify_post_hook ::= Z.to_euclidean_division_equations.
Lemma put_opt_idx v i o :
  0 <= v < 4096 -> 1 <= i <= 12 -> within o 1 -> bits_at v (12 - i) 1 = 0 ->
  put_opt (Idx i) o (ibits v) = Ok (ibits (v + zero_or o * 2 ^ (12 - i))) /\
  0 <= v + zero_or o * 2 ^ (12 - i) < 4096.
Proof.
  intros Hv Hi Ho B. destruct o as [x|]; cbn [put_opt zero_or within] in *.
  - destruct (put_idx v i x Hv Hi ltac:(lia)) as [P Q]. rewrite B, Z.sub_0_r in *. auto.
  - rewrite Z.mul_0_l, Z.add_0_r. auto.
Qed.
Lemma as_bit_same o : within o 1 -> as_bit o = o.
Proof.
  destruct o as [x|]; cbn; [|reflexivity]. intros H.
  destruct (Z.eqb_spec x 0); f_equal; lia.
Qed.
Lemma bits_at_sum v lo n hi low :
  0 <= lo -> 0 <= n -> v = hi * 2 ^ (lo + n) + low -> 0 <= low < 2 ^ lo -> bits_at v lo n = 0.
Proof.
  intros Hl Hn -> H. unfold bits_at.
  assert (P : 0 < 2 ^ lo) by (apply Z.pow_pos_nonneg; lia).
  assert (Q : 0 < 2 ^ n) by (apply Z.pow_pos_nonneg; lia).
  rewrite Z.pow_add_r by lia.
  replace (hi * (2 ^ lo * 2 ^ n) + low) with (low + (hi * 2 ^ n) * 2 ^ lo) by ring.
  rewrite Z.div_add, Z.div_small by lia. rewrite Z.add_0_l. apply Z.mod_mul. lia.
Qed.
Lemma zero_or_within o hi : 0 <= hi -> within o hi -> 0 <= zero_or o <= hi.
Proof. destruct o; cbn; lia. Qed.

Lemma instr_new_ok o x op :
  acceptable o x -> o_op o = Some op ->
  instr_new o x = Ok (mkinstr o x (ibits (code o x))) /\ 0 <= code o x < 4096.
Proof.
  intros A O. pose proof (check_spec o x) as C. unfold instr_new.
  change (bf_new 0 12 3 0) with (Ok (ibits 0)). cbn [bind].
  destruct (instr_check o x) as [u|e]. 2:{ destruct C as [C _].
    destruct (C ltac:(congruence)) as [C' _]. contradiction. }
  cbn [bind]. clear C u. destruct A as [(As & Aa & Ab & Ac) [Am Am'] [Ap Ap'] (A7 & A23 & Ao)].
  rewrite O in *. cbn [within] in Ao.
  change (bf_new 0 12 3 0) with (Ok (ibits 0)). cbn [bind].
  rewrite uses_carries. unfold code. rewrite O. cbn [zero_or].
  set (t := carries_bit7 o x). clearbody t.
  destruct x as [s m a b c p]; cbn [sequence mask arg_a arg_b arg_c paddr] in *.
  pose proof (zero_or_within s 1 ltac:(lia) As) as Zs.
  destruct (put_opt_idx 0 1 s ltac:(lia) ltac:(lia) As eq_refl) as [E1 F1].
  rewrite E1. cbn [bind]. clear E1. rewrite Z.add_0_l in *. change (2 ^ (12 - 1)) with 2048 in *.
  set (b7 := if t then zero_or (o_b7 o) else 0).
  pose proof (zero_or_within _ 1 ltac:(lia) A7) as Z7.
  assert (B7 : 0 <= b7 <= 1) by (unfold b7; destruct t; lia).
  assert (E7 : (if t then put_opt (Idx 7) (o_b7 o) (ibits (zero_or s * 2048)) else
                Ok (ibits (zero_or s * 2048))) = Ok (ibits (zero_or s * 2048 + b7 * 32))).
  { unfold b7. destruct t; [|rewrite Z.mul_0_l, Z.add_0_r; reflexivity].
    destruct (put_opt_idx (zero_or s * 2048) 7 (o_b7 o) F1 ltac:(lia) A7) as [E _].
    - apply (@bits_at_sum _ _ _ (zero_or s * 32) 0); lia.
    - exact E. }
  rewrite E7. cbn [bind]. clear E7.
  replace (if t then 32 * zero_or (o_b7 o) else 0) with (32 * b7) by (unfold b7; destruct t; lia).
  clearbody b7. clear Z7 A7 t.
  assert (W : forall v, 0 <= v < 4096 -> v mod 32 = 0 ->
     (do d <- put (range 8 12) op (ibits v); Ok (mkinstr o (mkiargs s m a b c p) d)) =
     Ok (mkinstr o (mkiargs s m a b c p) (ibits (v + op))) /\ 0 <= v + op < 4096).
  { intros v Hv H32. destruct (put_range v 8 12 op Hv ltac:(lia) ltac:(lia) ltac:(lia)) as [E F].
    { change (2 ^ (12 - 8 + 1)) with 32. lia. }
    assert (B : bits_at v (12 - 12) (12 - 8 + 1) = 0)
      by (unfold bits_at; change (2 ^ (12 - 12)) with 1; change (2 ^ (12 - 8 + 1)) with 32; lia).
    rewrite B in E, F. rewrite E. cbn [bind].
    replace (v + (op - 0) * 2 ^ (12 - 12)) with (v + op) in * by (change (2 ^ (12 - 12)) with 1; lia).
    auto. }
  destruct m as [m|].
  - destruct Am' as [Am'|(_ & -> & -> & -> & ->)]; [discriminate|]. cbn [within] in Am.
    destruct (put_range (zero_or s * 2048 + b7 * 32) 2 6 m) as [E F]; try lia.
    rewrite (@bits_at_sum _ (12 - 6) (6 - 2 + 1) (zero_or s) (b7 * 32)) in E, F by lia.
    rewrite E. clear E. cbn [bind put_opt as_bit].
    replace (zero_or s * 2048 + b7 * 32 + (m - 0) * 2 ^ (12 - 6))
      with (2048 * zero_or s + 64 * m + 32 * b7) in * by (change (2 ^ (12 - 6)) with 64; lia).
    apply W; lia.
  - assert (E23 : put_opt (range 2 3) (o_b23 o) (ibits (zero_or s * 2048 + b7 * 32)) =
              Ok (ibits (2048 * zero_or s + 512 * zero_or (o_b23 o) + 32 * b7))).
    { destruct (o_b23 o) as [y|]; cbn [put_opt zero_or within] in *.
      - destruct (put_range (zero_or s * 2048 + b7 * 32) 2 3 y) as [E _]; try lia.
        rewrite (@bits_at_sum _ (12 - 3) (3 - 2 + 1) (zero_or s) (b7 * 32)) in E by lia.
        rewrite E. do 2 f_equal. change (2 ^ (12 - 3)) with 512. lia.
      - do 2 f_equal. lia. }
    rewrite E23. clear E23. cbn [bind]. rewrite !as_bit_same by assumption.
    pose proof (zero_or_within _ 3 ltac:(lia) A23) as Z23. clear A23. set (u := zero_or (o_b23 o)) in *. clearbody u.
    pose proof (zero_or_within _ 1 ltac:(lia) Aa) as Za.
    pose proof (zero_or_within _ 1 ltac:(lia) Ab) as Zb.
    pose proof (zero_or_within _ 1 ltac:(lia) Ac) as Zc.
    destruct (put_opt_idx (2048 * zero_or s + 512 * u + 32 * b7) 4 a) as [E F]; try lia; try assumption.
    { apply (@bits_at_sum _ _ _ (4 * zero_or s + u) (32 * b7)); lia. }
    rewrite E. clear E. cbn [bind]. change (2 ^ (12 - 4)) with 256 in *.
    match type of F with 0 <= ?v < _ =>
      destruct (put_opt_idx v 5 b F) as [E F2]; [lia|assumption| |] end.
    { apply (@bits_at_sum _ _ _ (8 * zero_or s + 2 * u + zero_or a) (32 * b7)); lia. }
    rewrite E. clear E F. cbn [bind]. change (2 ^ (12 - 5)) with 128 in *.
    match type of F2 with 0 <= ?v < _ =>
      destruct (put_opt_idx v 6 c F2) as [E F]; [lia|assumption| |] end.
    { apply (@bits_at_sum _ _ _ (16 * zero_or s + 4 * u + 2 * zero_or a + zero_or b) (32 * b7)); lia. }
    rewrite E. clear E F2. cbn [bind]. change (2 ^ (12 - 6)) with 64 in *.
    destruct p as [p|].
    + destruct Ap' as [Ap'|(-> & _ & -> & -> & ->)]; [discriminate|]. cbn [within put_opt zero_or] in *.
      match type of F with 0 <= ?v < _ => replace v with (512 * u + 32 * b7) in * by lia end.
      destruct (put_range (512 * u + 32 * b7) 1 6 p F) as [E F2]; try lia.
      assert (B : bits_at (512 * u + 32 * b7) (12 - 6) (6 - 1 + 1) = 8 * u)
        by (unfold bits_at; change (2 ^ (12 - 6)) with 64; change (2 ^ (6 - 1 + 1)) with 64; lia).
      rewrite B in E, F2. rewrite E. cbn [bind]. change (2 ^ (12 - 6)) with 64 in *.
      replace (512 * u + 32 * b7 + (p - 8 * u) * 64) with (64 * p + 32 * b7) in * by lia.
      apply W; lia.
    + cbn [put_opt bind].
      match type of F with 0 <= ?v < _ => replace v with
        (2048 * zero_or s + (512 * u + 256 * zero_or a + 128 * zero_or b + 64 * zero_or c) + 32 * b7) in * by lia end.
      apply W; lia.
Qed.

Lemma instr_new_err o x op :
  ~ acceptable o x -> o_op o = Some op -> instr_new o x = Err ValueError.
Proof.
  intros N O. pose proof (check_spec o x) as C. unfold instr_new.
  change (bf_new 0 12 3 0) with (Ok (ibits 0)). cbn [bind].
  destruct (instr_check o x) as [u|e].
  - destruct C as [C _]. contradiction.
  - destruct C as [C _]. destruct (C ltac:(congruence)) as [_ ->]. reflexivity.
Qed.
