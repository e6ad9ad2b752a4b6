(** The instruction classes make the command codes of the reference manual. *)
From Verif Require Import Py LPy MBitField MInstruction MInstructions SInstruction LInstruction LInstructions SManual LManual SCodes.
#[local] Arguments Z.add : simpl never.
#[local] Arguments Z.sub : simpl never.
#[local] Arguments Z.mul : simpl never.
#[local] Arguments Z.pow : simpl never.

(** *** deciding whether a code shows a pattern *)
Definition bit_at (v : Z) (j : nat) : Z := cbits v (Z.of_nat j + 1) (Z.of_nat j + 1).
Definition column_ok (plain : bool) (v : Z) (j : nat) (c : Z) : bool :=
  (negb (c =? 48) || (bit_at v j =? 0)) && (negb (c =? 49) || (bit_at v j =? 1)) && (negb (plain && (c =? 88)) || (bit_at v j =? 0)).
Fixpoint columns_ok (plain : bool) (v : Z) (j : nat) (pat : str) : bool :=
  match pat with [] => true | c :: r => column_ok plain v j c && columns_ok plain v (S j) r end.
Definition showsb (plain : bool) (pat : str) (v : Z) : bool := (0 <=? v) && (v <? 4096) && columns_ok plain v 0 pat.

Lemma columns_spec plain v pat : forall j, columns_ok plain v j pat = true <->
  forall n c, nth_error pat n = Some c -> column_ok plain v (j + n) c = true.
Proof.
  induction pat as [|x r IH]; intros j; cbn [columns_ok].
  - split; [intros _ n c H; destruct n; discriminate|reflexivity].
  - rewrite andb_true_iff, IH. split.
    + intros [H1 H2] [|n] c; cbn [nth_error].
      * intros [= <-]. rewrite Nat.add_0_r. exact H1.
      * intros E. replace (j + S n)%nat with (S j + n)%nat by lia. exact (H2 n c E).
    + intros H. split.
      * specialize (H 0%nat x eq_refl). rewrite Nat.add_0_r in H. exact H.
      * intros n c E. replace (S j + n)%nat with (j + S n)%nat by lia. exact (H (S n) c E).
Qed.
Lemma column_spec plain v j c : column_ok plain v j c = true <->
  (c = 48 -> bit_at v j = 0) /\ (c = 49 -> bit_at v j = 1) /\ (plain = true -> c = 88 -> bit_at v j = 0).
Proof.
  unfold column_ok. rewrite !andb_true_iff, !orb_true_iff, !negb_true_iff, !Z.eqb_eq, !Z.eqb_neq, andb_false_iff, Z.eqb_neq.
  destruct plain; destruct (Z.eq_dec c 48), (Z.eq_dec c 49), (Z.eq_dec c 88); intuition congruence.
Qed.
Lemma shows_spec pat v : showsb false pat v = true <-> shows pat v.
Proof.
  unfold showsb, shows. rewrite !andb_true_iff, Z.leb_le, Z.ltb_lt, columns_spec.
  split; intros [H1 H2]; (split; [exact H1|]); intros n c E; specialize (H2 n c E); cbn [Nat.add] in *.
  - apply column_spec in H2. unfold bit_at in H2. tauto.
  - apply column_spec. unfold bit_at. intuition discriminate.
Qed.
Lemma plainly_spec pat v : showsb true pat v = true <-> shows_plainly pat v.
Proof.
  unfold shows_plainly. rewrite <- shows_spec. unfold showsb. rewrite !andb_true_iff, !columns_spec. cbn [Nat.add].
  split.
  - intros [H1 H2]. split; [split; [exact H1|]|]; intros n.
    + intros c E. specialize (H2 n c E). rewrite column_spec in *. intuition discriminate.
    + intros E. specialize (H2 n 88 E). apply column_spec in H2. unfold bit_at in H2. tauto.
  - intros [[H1 H2] H3]. split; [exact H1|]. intros n c E. specialize (H2 n c E). rewrite column_spec in *.
    split; [tauto|]. split; [tauto|]. intros _ ->. exact (H3 n E).
Qed.

(** *** all accepted arguments *)
Definition bits3 : list (option Z) := [None; Some 0; Some 1].
Definition upto (hi : nat) : list (option Z) := map (fun n => Some (Z.of_nat n)) (seq 0 (S hi)).
Definition plain_args : list iargs :=
  flat_map (fun s => flat_map (fun a => flat_map (fun b => map (fun c => mkiargs s None a b c None) bits3) bits3) bits3) bits3.
Definition mask_args : list iargs := flat_map (fun s => map (fun m => mkiargs s m None None None None) (upto 31)) bits3.
Definition all_args (sg : signature) : list iargs :=
  match sg with
  | SigMaskableOpt | SigMaskable => plain_args ++ mask_args
  | SigUnmasked => plain_args
  | SigPeripheral => map (fun p => mkiargs None None None None None p) (None :: upto 63)
  | SigSimulator => map (fun s => mkiargs s None None None None None) bits3
  | SigProceed => [mkiargs (Some 0) None (Some 0) (Some 0) (Some 0) None]
  end.
Lemma in_bits3 o : within o 1 -> In o bits3.
Proof. unfold bits3. destruct o as [x|]; cbn [within In]; [|auto]. intros H. assert (x = 0 \/ x = 1) as [->| ->] by lia; auto. Qed.
Lemma in_upto o hi x : o = Some x -> within o (Z.of_nat hi) -> In o (upto hi).
Proof.
  intros -> H. cbn [within] in H. unfold upto. apply in_map_iff. exists (Z.to_nat x). split; [rewrite Z2Nat.id by lia; reflexivity|].
  apply in_seq. lia.
Qed.
Lemma in_plain s a b c : within s 1 -> within a 1 -> within b 1 -> within c 1 -> In (mkiargs s None a b c None) plain_args.
Proof.
  intros S A B C. unfold plain_args. apply in_flat_map. exists s. split; [apply in_bits3, S|].
  apply in_flat_map. exists a. split; [apply in_bits3, A|]. apply in_flat_map. exists b. split; [apply in_bits3, B|].
  apply in_map_iff. exists c. split; [reflexivity|apply in_bits3, C].
Qed.
Lemma in_masked s x : within s 1 -> within (Some x) 31 -> In (mkiargs s (Some x) None None None None) mask_args.
Proof.
  intros S M. unfold mask_args. apply in_flat_map. exists s.
  split; [apply in_bits3, S|]. apply in_map_iff. exists (Some x). split; [reflexivity|]. apply (in_upto _ 31 x eq_refl M).
Qed.
#[local] Opaque plain_args mask_args.
Lemma call_args c sg m k i : In (c, (sg, m)) CLASSES -> class_call c k = Ok i ->
  exists o x, dget OPCODES m = Some o /\ instr_new o x = Ok i /\ In x (all_args sg) /\ mask x = match kw_mask k with Some v => v | None => None end.
Proof.
  intros H C.
  assert (D : dget CLASSES c = Some (sg, m)) by (apply In_dget; [exact classes_NoDup|assumption]).
  unfold class_call in C. rewrite D in C. unfold dindex in C.
  destruct (dget OPCODES m) as [o|] eqn:O; [|discriminate]. cbn [bind] in C. exists o.
  destruct k as [ks km ka kb kc kp]; cbn [kw_sequence kw_mask kw_a kw_b kw_c kw_paddr] in *.
  assert (Q : forall s mk a b d, instr_new o (mkiargs s mk a b d None) = Ok i -> In (mkiargs s mk a b d None) (plain_args ++ mask_args)).
  { intros s mk a b d E. destruct (instr_new_cases _ _ _ E) as ([(As & Aa & Ab & Ac) [Am Am'] _ _] & _).
    cbn [sequence mask arg_a arg_b arg_c paddr] in *. apply in_or_app. destruct mk as [x|].
    - right. destruct Am' as [X|(_ & -> & -> & -> & _)]; [discriminate X|]. apply in_masked; assumption.
    - left. apply in_plain; assumption. }
  assert (Q' : forall s a b d, instr_new o (mkiargs s None a b d None) = Ok i -> In (mkiargs s None a b d None) plain_args).
  { intros s a b d E. destruct (instr_new_cases _ _ _ E) as ([(As & Aa & Ab & Ac) _ _ _] & _). apply in_plain; assumption. }
  destruct sg; destruct kp; cbn [no_param default_none required bind] in C; try discriminate;
    destruct ks; cbn [no_param default_none required bind] in C; try discriminate;
    destruct km; cbn [no_param default_none required bind] in C; try discriminate;
    destruct ka; cbn [no_param default_none required bind] in C; try discriminate;
    destruct kb; cbn [no_param default_none required bind] in C; try discriminate;
    destruct kc; cbn [no_param default_none required bind] in C; try discriminate;
    (eexists; split; [reflexivity|]; split; [exact C|]; cbn [mask all_args]; split; [|reflexivity]);
    try (exact (Q _ _ _ _ _ C)); try (exact (Q' _ _ _ _ C)).
  - apply in_map_iff. eexists. split; [reflexivity|]. destruct (instr_new_cases _ _ _ C) as ([_ _ [Ap _] _] & _). cbn [paddr] in Ap.
    destruct o0 as [p|]; [right; apply (in_upto _ 63 p eq_refl Ap)|left; reflexivity].
  - apply in_map_iff. eexists. split; [reflexivity|]. destruct (instr_new_cases _ _ _ C) as ([(As & _) _ _ _] & _). apply in_bits3, As.
  - left. reflexivity.
Qed.

(** *** C187 *)
Definition maskedb (pat : str) : bool := inb 77 pat.
Definition rows_of (m : str) : list str := map snd (filter (fun r => eqb (fst r) m) machine_rows).
Lemma rows_of_In m pat : In pat (rows_of m) <-> In (m, pat) machine_rows.
Proof.
  unfold rows_of. rewrite in_map_iff. split.
  - intros ((a, b) & <- & H). apply filter_In in H. destruct H as [H E]. cbn [fst snd] in *. apply eqb_ok in E. subst a. exact H.
  - intros H. exists (m, pat). split; [reflexivity|]. apply filter_In. split; [exact H|apply eqb_refl].
Qed.
Definition made_ok (e : str * (signature * str)) : bool :=
  match dget OPCODES (snd (snd e)) with
  | None => true
  | Some o => let rows := rows_of (snd (snd e)) in
      forallb (fun x => let v := code o x in existsb (fun pat => Bool.eqb (maskedb pat) (given (mask x)) && showsb true pat v) rows) (all_args (fst (snd e)))
  end.
Lemma all_made : forallb made_ok CLASSES = true.
Proof. vm_compute. reflexivity. Qed.

#[local] Opaque machine_rows.
Lemma C187_made_pf : forall c sg m k i, In (c, (sg, m)) CLASSES -> class_call c k = Ok i ->
  exists pat, In (m, pat) machine_rows /\ shows_plainly pat (instr_value i) /\ (mask_row pat <-> with_mask k).
Proof.
  intros c sg m k i H C. destruct (call_args _ _ _ _ _ H C) as (o & x & O & I & X & M).
  destruct (instr_new_cases _ _ _ I) as (_ & _ & -> & _). unfold instr_value. cbn [i_data ibits bf_value].
  pose proof (in_table _ _ _ all_made H) as T. unfold made_ok in T. cbn [fst snd] in T. rewrite O in T. cbv zeta in T.
  apply (in_table _ _ _ T) in X. clear T. cbv beta in X. apply existsb_exists in X. destruct X as (pat & R & Q).
  apply andb_prop in Q. destruct Q as [Q1 Q2]. exists pat. split; [exact (proj1 (rows_of_In _ _) R)|]. split; [exact (proj1 (plainly_spec _ _) Q2)|].
  apply eqb_prop in Q1. rewrite M in Q1. rewrite <- given_mask, <- Q1. unfold mask_row, maskedb. symmetry. apply inb_In.
Qed.
(*@
(** masked DA: columns S MMMMM 1 00001 *)
Example C187_made_ex :
  match call_masked "DecimalAdd" 1 19 with
  | Ok i => instr_value i = 3297 /\ In (lit "DA", lit "SMMMMM100001") machine_rows /\ shows_plainly (lit "SMMMMM100001") (instr_value i)
  | Err _ => False
  end.
Proof. split; [vm_compute; reflexivity|]. split; [vm_compute; tauto|]. apply plainly_spec. vm_compute. reflexivity. Qed.
@*)

(** the arguments for a code of a row *)
Definition column_is (pat : str) (j : nat) (c : Z) : bool := match nth_error pat j with Some x => x =? c | None => false end.
Definition kw_for (sg : signature) (masked : bool) (v : Z) : kwargs :=
  let b j := arg (bit_at v j) in
  match sg with
  | SigMaskableOpt | SigMaskable => if masked then mkkw (b 0%nat) (arg (cbits v 2 6)) None None None None else mkkw (b 0%nat) None (b 3%nat) (b 4%nat) (b 5%nat) None
  | SigUnmasked => mkkw (b 0%nat) None (b 3%nat) (b 4%nat) (b 5%nat) None
  | SigPeripheral => mkkw None None None None None (arg (cbits v 1 6))
  | SigSimulator => mkkw (b 0%nat) None None None None None
  | SigProceed => mkkw None None None None None None
  end.
(** the codes that show the columns, with zeros for X *)
Definition choices (c : Z) : list Z := if (c =? 48) || (c =? 88) then [0] else if c =? 49 then [1] else [0; 1].
Fixpoint codes_of (pat : str) : list Z :=
  match pat with [] => [0] | c :: r => flat_map (fun d => map (fun w => d * 2 ^ zlen r + w) (codes_of r)) (choices c) end.
Lemma codes_of_In pat : forall v, 0 <= v < 2 ^ zlen pat ->
  (forall n c, nth_error pat n = Some c -> In ((v / 2 ^ (zlen pat - 1 - Z.of_nat n)) mod 2) (choices c)) -> In v (codes_of pat).
Proof.
  induction pat as [|x r IH]; intros v V H.
  - change (2 ^ zlen (@nil Z)) with 1 in V. left. lia.
  - cbn [codes_of]. rewrite zlen_cons in V, H. pose proof (zlen_nonneg r) as L.
    replace (1 + zlen r) with (Z.succ (zlen r)) in V by lia. rewrite Z.pow_succ_r in V by lia.
    assert (P : 0 < 2 ^ zlen r) by (apply Z.pow_pos_nonneg; lia).
    apply in_flat_map. exists (v / 2 ^ zlen r). split.
    + specialize (H 0%nat x eq_refl). replace (1 + zlen r - 1 - Z.of_nat 0) with (zlen r) in H by lia.
      rewrite Z.mod_small in H; [exact H|]. split; [apply Z.div_pos; lia|apply Z.div_lt_upper_bound; lia].
    + apply in_map_iff. exists (v mod 2 ^ zlen r). split; [pose proof (Z.div_mod v (2 ^ zlen r) ltac:(lia)); lia|].
      apply IH; [apply Z.mod_pos_bound; lia|]. intros n c E. specialize (H (S n) c E).
      assert (N : (n < length r)%nat) by (apply nth_error_Some; congruence).
      assert (N' : Z.of_nat n < zlen r) by (unfold zlen; lia).
      replace (1 + zlen r - 1 - Z.of_nat (S n)) with (zlen r - 1 - Z.of_nat n) in H by lia.
      rewrite <- Z.testbit_spec' in * by lia. rewrite Z.mod_pow2_bits_low by lia. exact H.
Qed.
Lemma plainly_codes pat v : zlen pat = 12 -> shows_plainly pat v -> In v (codes_of pat).
Proof.
  intros L [[V H] HX]. apply codes_of_In; rewrite L; [exact V|]. intros n c E.
  assert (N : (n < length pat)%nat) by (apply nth_error_Some; congruence).
  specialize (H n c E). specialize (HX n). rewrite E in HX. unfold cbits in *.
  replace (Z.of_nat n + 1 - (Z.of_nat n + 1) + 1) with 1 in * by lia. change (2 ^ 1) with 2 in *.
  replace (12 - (Z.of_nat n + 1)) with (12 - 1 - Z.of_nat n) in * by lia.
  unfold choices. destruct (Z.eqb_spec c 48) as [->|A]; cbn [orb].
  { left. symmetry. apply H. reflexivity. }
  destruct (Z.eqb_spec c 88) as [->|B].
  { left. symmetry. apply HX. reflexivity. }
  destruct (Z.eqb_spec c 49) as [->|D].
  { left. symmetry. apply H. reflexivity. }
  pose proof (Z.mod_pos_bound (v / 2 ^ (12 - 1 - Z.of_nat n)) 2 ltac:(lia)). cbn [In]. lia.
Qed.
Definition row_ok (r : str * str) : bool :=
  (zlen (snd r) =? 12) &&
  match find (fun e => eqb (snd (snd e)) (fst r)) CLASSES with
  | None => false
  | Some e =>
      forallb (fun v =>
        match class_call (fst e) (kw_for (fst (snd e)) (maskedb (snd r)) v) with
        | Ok i => instr_value i =? v
        | Err _ => false
        end && Bool.eqb (maskedb (snd r)) (given (kw_mask (kw_for (fst (snd e)) (maskedb (snd r)) v)))) (codes_of (snd r))
  end.
Lemma rows_ok : forallb row_ok machine_rows = true.
Proof. vm_compute. reflexivity. Qed.

Lemma C187_codes_partial_pf : forall m pat v, In (m, pat) machine_rows -> shows_plainly pat v ->
  exists c sg k i, In (c, (sg, m)) CLASSES /\ class_call c k = Ok i /\ instr_value i = v /\ (mask_row pat <-> with_mask k).
Proof.
  intros m pat v R P. pose proof (in_table _ _ _ rows_ok R) as T. unfold row_ok in T. cbn [fst snd] in T.
  apply andb_prop in T. destruct T as [L T]. apply Z.eqb_eq in L.
  destruct (find (fun e => eqb (snd (snd e)) m) CLASSES) as [(c, (sg, m'))|] eqn:F; [|discriminate T].
  apply find_some in F. destruct F as [F E]. cbn [fst snd] in *. apply eqb_ok in E. subst m'.
  pose proof (in_table _ _ v T (plainly_codes pat v L P)) as Q.
  cbv beta in Q. apply andb_prop in Q. destruct Q as [Q1 Q2].
  destruct (class_call c (kw_for sg (maskedb pat) v)) as [i|] eqn:C; [|discriminate Q1]. apply Z.eqb_eq in Q1.
  exists c, sg, (kw_for sg (maskedb pat) v), i. split; [exact F|]. split; [exact C|]. split; [exact Q1|].
  apply eqb_prop in Q2. unfold mask_row. rewrite <- (inb_In 77 pat). change (inb 77 pat) with (maskedb pat).
  unfold with_mask. rewrite Q2 at 1. clear. unfold kw_for, arg. destruct sg, (maskedb pat); cbn [kw_mask given];
    (split; [intros H; first [discriminate H|eauto]|intros [x H]; first [discriminate H|reflexivity]]).
Qed.
(*@
(** code 4141 octal, the columns S MMMMM 1 00001 of DA with mask 1 and the cosequence counter *)
Example C187_codes_partial_ex :
  In (lit "DA", lit "SMMMMM100001") machine_rows /\ shows_plainly (lit "SMMMMM100001") 2145 /\
  match call_masked "DecimalAdd" 1 1 with Ok i => instr_value i = 2145 | Err _ => False end.
Proof. split; [vm_compute; tauto|]. split; [apply plainly_spec|]; vm_compute; reflexivity. Qed.
@*)

(** a simulator instruction with an address: no class makes it *)
Lemma simulator_codes : forallb (fun e => match dget OPCODES (snd (snd e)) with
    | None => true
    | Some o => forallb (fun x => let v := code o x in negb (v mod 8 =? 7) || (v =? 7) || (v =? 2055)) (all_args (fst (snd e)))
    end) CLASSES = true.
Proof. vm_compute. reflexivity. Qed.
Lemma simulator_rows : forallb (fun r => negb (eqb (fst r) (lit "S")) || column_is (snd r) 9 49 && column_is (snd r) 10 49 && column_is (snd r) 11 49) machine_rows = true.
Proof. vm_compute. reflexivity. Qed.
Lemma column_is_ok pat j c : column_is pat j c = true -> nth_error pat j = Some c.
Proof. unfold column_is. destruct (nth_error pat j); [|discriminate]. intros H. apply Z.eqb_eq in H. congruence. Qed.
Lemma C187_simulator_refuted_pf : forall v pat, In (lit "S", pat) machine_rows -> shows pat v -> v <> 7 -> v <> 2055 ->
  forall c sg m k i, In (c, (sg, m)) CLASSES -> class_call c k = Ok i -> instr_value i <> v.
Proof.
  intros v pat R [V S] N1 N2 c sg m k i H C E.
  pose proof (in_table _ _ _ simulator_rows R) as T. cbn [fst snd] in T. rewrite eqb_refl in T. cbn [negb orb] in T.
  apply andb_prop in T. destruct T as [T T3]. apply andb_prop in T. destruct T as [T1 T2].
  pose proof (proj2 (S _ _ (column_is_ok _ _ _ T1)) eq_refl) as B1. pose proof (proj2 (S _ _ (column_is_ok _ _ _ T2)) eq_refl) as B2.
  pose proof (proj2 (S _ _ (column_is_ok _ _ _ T3)) eq_refl) as B3. clear S T1 T2 T3.
  assert (M : v mod 8 = 7).
  { unfold cbits in B1, B2, B3.
    replace (12 - (Z.of_nat 9 + 1)) with 2 in B1 by lia. replace (12 - (Z.of_nat 10 + 1)) with 1 in B2 by lia. replace (12 - (Z.of_nat 11 + 1)) with 0 in B3 by lia.
    replace (Z.of_nat 9 + 1 - (Z.of_nat 9 + 1) + 1) with 1 in B1 by lia. replace (Z.of_nat 10 + 1 - (Z.of_nat 10 + 1) + 1) with 1 in B2 by lia.
    replace (Z.of_nat 11 + 1 - (Z.of_nat 11 + 1) + 1) with 1 in B3 by lia.
    change (2 ^ 2) with 4 in B1. change (2 ^ 1) with 2 in *. change (2 ^ 0) with 1 in B3. lia. }
  destruct (call_args _ _ _ _ _ H C) as (o & x & O & I & X & _).
  destruct (instr_new_cases _ _ _ I) as (_ & _ & -> & _). unfold instr_value in E. cbn [i_data ibits bf_value] in E.
  pose proof (in_table _ _ _ simulator_codes H) as T. cbn [fst snd] in T. rewrite O in T.
  apply (in_table _ _ _ T) in X. cbv beta zeta in X. rewrite E in X. rewrite M in X. cbn [Z.eqb] in X.
  rewrite !orb_true_iff, !Z.eqb_eq in X. destruct X as [[X|X]|X]; [discriminate X|contradiction|contradiction].
Qed.
(*@
(** the simulator instruction for address 27 octal *)
Example C187_simulator_refuted_ex :
  In (lit "S", lit "0XXXXXXXX111") machine_rows /\ shows (lit "0XXXXXXXX111") 23 /\
  match call_simulator 0 with Ok i => instr_value i = 7 | Err _ => False end.
Proof. split; [vm_compute; tauto|]. split; [apply shows_spec|]; vm_compute; reflexivity. Qed.
@*)
