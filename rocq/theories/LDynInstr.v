(** Instructions with arguments of any type. *)
From Verif Require Import Py LPy MBitField MInstruction MDyn SDyn LDyn MDynInstr SDynInstr.

Lemma equals_unique f z n : equals f z = true -> equals f n = (z =? n).
Proof.
  destruct f as [q| |]; cbn [equals]; try discriminate. intros H. apply Qeq_bool_iff in H.
  destruct (Z.eqb_spec z n) as [->|N]; [now apply Qeq_bool_iff|].
  apply not_true_iff_false. rewrite Qeq_bool_iff, H. intros E. apply N. revert E. unfold Qeq; cbn. lia.
Qed.
Lemma encoded_given f v r : encoded f v r -> given v = given r.
Proof. destruct v; cbn; [intros [_ H]; destruct r; [reflexivity|congruence]|intros ->; reflexivity]. Qed.
Lemma flag_equals v z : flag_of v = Some z -> v = VI z \/ exists f, v = VF f /\ equals f z = true.
Proof.
  destruct v as [x|f|t]; cbn; [intros [= ->]; now left| |discriminate].
  destruct (equals f 0) eqn:E0; [intros [= <-]; right; eauto|].
  destruct (equals f 1) eqn:E1; [intros [= <-]; right; eauto|discriminate].
Qed.
Lemma sequence_equals v z : sequence_of v = Some z -> v = VI z \/ exists f, v = VF f /\ equals f z = true /\ z = 0.
Proof.
  destruct v as [x|f|t]; cbn; [intros [= ->]; now left| |discriminate].
  destruct (equals f 0) eqn:E0; [intros [= <-]; right; eauto|discriminate].
Qed.
Lemma not_bit_equals v z : v = VI z \/ (exists f, v = VF f /\ equals f z = true) -> tnot_bit v = not_bit z.
Proof.
  unfold tnot_bit, not_bit. intros [->|[f [-> H]]]; [now rewrite !veq_int|].
  now rewrite !equals_spec, !(equals_unique f z) by assumption.
Qed.
Lemma truth_equals v z : v = VI z \/ (exists f, v = VF f /\ equals f z = true) -> truth v = negb (z =? 0).
Proof.
  rewrite truth_spec. intros [->|[f [-> H]]]; cbn [falsy]; [reflexivity|].
  now rewrite (equals_unique f z).
Qed.
Lemma check_bit_flag v r : encoded flag_of v r -> tcheck_bit v = of_res (fun x => x) (check_bit r).
Proof.
  destruct v as [v|]; cbn [encoded]; [|intros ->; reflexivity]. intros [H N]. destruct r as [z|]; [|congruence].
  cbn [tcheck_bit check_bit]. rewrite (not_bit_equals v z) by (apply flag_equals; assumption).
  destruct (not_bit z); reflexivity.
Qed.
Lemma as_bit_flag v r : encoded flag_of v r -> tas_bit v = num (as_bit r).
Proof.
  destruct v as [v|]; cbn [encoded]; [|intros ->; reflexivity]. intros [H N]. destruct r as [z|]; [|congruence].
  cbn [tas_bit as_bit num]. rewrite (truth_equals v z) by (apply flag_equals; assumption).
  destruct (z =? 0); reflexivity.
Qed.
Lemma check_hi_int z hi : tcheck_hi (VI z) hi = of_res (fun x => x) (check_hi (Some z) hi).
Proof.
  unfold tcheck_hi, check_hi. rewrite vlt_int, vgt_int. cbn [tbind].
  destruct (z <? 0); [reflexivity|]. cbn [orb]. destruct (z >? hi); reflexivity.
Qed.
Lemma tput_int A k v b : tput A (of_key k) (VI v) (of_bf b) = of_res of_bf (put k v b).
Proof. unfold tput, put. rewrite tsetitem_int. destruct (bf_setitem b k v) as [b' [u|e]]; reflexivity. Qed.
Lemma tput_num A k v b : tput_opt A (of_key k) (num v) (of_bf b) = of_res of_bf (put_opt k v b).
Proof. destruct v as [z|]; [apply tput_int|reflexivity]. Qed.
Lemma tput_sequence A v r b : encoded sequence_of v r ->
  tput_opt A (TIdx (VI 1)) v (of_bf b) = of_res of_bf (put_opt (Idx 1) r b).
Proof.
  destruct v as [v|]; cbn [encoded]; [|intros ->; reflexivity]. intros [H N]. destruct r as [z|]; [|congruence].
  destruct (sequence_equals v z H) as [->|[f [-> [E ->]]]]; [apply (tput_int A (Idx 1))|].
  cbn [tput_opt put_opt]. unfold tput, put.
  assert (tf_setitem A (of_bf b) (TIdx (VI 1)) (VF f) = of_out (bf_setitem b (Idx 1) 0)) as ->.
  { apply (proj1 (proj2 (C199_calls_partial_pf A b (TItem (TIdx (VI 1)) (VF f)))) (OpItem (Idx 1) 0)).
    apply A_bit_cleared; [|now rewrite (equals_unique f 0)].
    destruct f as [q| |]; try discriminate. cbn in E |- *. apply Qeq_bool_iff in E.
    rewrite negb_false_iff. apply Qle_bool_iff. rewrite E. discriminate. }
  destruct (bf_setitem b (Idx 1) 0) as [b' [u|e]]; reflexivity.
Qed.
Lemma tput_number A s e v r b : encoded number_of v r ->
  tput_opt A (TSlice (VI s) (VI e)) v (of_bf b) = of_res of_bf (put_opt (range s e) r b).
Proof.
  destruct v as [v|]; cbn [encoded]; [|intros ->; reflexivity]. intros [H N].
  destruct v as [z| |]; cbn in H; [|congruence|congruence]. subst r. apply (tput_int A (range s e)).
Qed.
Lemma check_encoded o x y : encodes x y -> tinstr_check o x = of_res (fun u => u) (instr_check o y).
Proof.
  intros (S & M & EA & EB & EC & P). unfold tinstr_check, instr_check.
  rewrite (check_bit_flag _ _ EA), (check_bit_flag _ _ EB), (check_bit_flag _ _ EC).
  rewrite (encoded_given _ _ _ EA), (encoded_given _ _ _ EB), (encoded_given _ _ _ EC), (encoded_given _ _ _ P),
          (encoded_given _ _ _ M), (encoded_given _ _ _ S).
  assert (F1 : (match t_sequence x with
            | Some s =>
                if match t_paddr x with Some p => truth p | None => false end then TErr (PyExn ValueError)
                else if tnot_bit s then TErr (PyExn ValueError) else TOk tt
            | None => TOk tt
            end) = of_res (fun u => u) (match sequence y with
           | Some s =>
               if match paddr y with Some p => negb (p =? 0) | None => false end then Err ValueError
               else if not_bit s then Err ValueError else Ok tt
           | None => Ok tt
           end)).
  { destruct (t_sequence x) as [s|]; cbn [encoded] in S; [|rewrite S; reflexivity].
    destruct S as [S N]. destruct (sequence y) as [z|]; [|congruence].
    assert ((match t_paddr x with Some p => truth p | None => false end) =
            (match paddr y with Some p => negb (p =? 0) | None => false end)) as ->.
    { destruct (t_paddr x) as [p|]; cbn [encoded] in P; [|rewrite P; reflexivity].
      destruct P as [P NP]. destruct (paddr y) as [w|]; [|congruence].
      destruct p as [p| |]; try discriminate. injection P as ->. reflexivity. }
    rewrite (not_bit_equals s z) by (destruct (sequence_equals s z S) as [->|[f [-> [E _]]]]; eauto).
    destruct (match paddr y with Some p => negb (p =? 0) | None => false end); [reflexivity|].
    destruct (not_bit z); reflexivity. }
  rewrite F1. clear F1.
  match goal with |- tbind (of_res _ ?r) _ = _ => destruct r; cbn [of_res tbind bind]; [|reflexivity] end.
  assert (F2 : (match t_mask x with
            | Some m =>
                if negb (Py.eqb (o_type o) (lit "maskable")) then TErr (PyExn ValueError)
                else if given (arg_a y) || given (arg_b y) || given (arg_c y) || given (paddr y)
                then TErr (PyExn ValueError)
                else tcheck_hi m 31
            | None => TOk tt
            end) = of_res (fun u => u) (match mask y with
           | Some _ =>
               if negb (Py.eqb (o_type o) (lit "maskable")) then Err ValueError
               else if given (arg_a y) || given (arg_b y) || given (arg_c y) || given (paddr y)
               then Err ValueError
               else check_hi (mask y) 31
           | None => Ok tt
           end)).
  { destruct (t_mask x) as [m|]; cbn [encoded] in M; [|rewrite M; reflexivity].
    destruct M as [M NM]. destruct (mask y) as [w|]; [|congruence]. destruct m as [m| |]; try discriminate. injection M as ->.
    destruct (negb (Py.eqb (o_type o) (lit "maskable"))); [reflexivity|].
    destruct (_ || _ || _ || _); [reflexivity|]. apply check_hi_int. }
  rewrite F2. clear F2.
  match goal with |- tbind (of_res _ ?r) _ = _ => destruct r; cbn [of_res tbind bind]; [|reflexivity] end.
  destruct (check_bit (arg_a y)); cbn [of_res tbind bind]; [|reflexivity].
  destruct (check_bit (arg_b y)); cbn [of_res tbind bind]; [|reflexivity].
  destruct (check_bit (arg_c y)); cbn [of_res tbind bind]; [|reflexivity].
  assert (F3 : (match t_paddr x with
            | Some p =>
                if given (sequence y) || given (mask y) || given (arg_a y) || given (arg_b y) || given (arg_c y)
                then TErr (PyExn ValueError)
                else tcheck_hi p 63
            | None => TOk tt
            end) = of_res (fun u => u) (match paddr y with
           | Some _ =>
               if given (sequence y) || given (mask y) || given (arg_a y) || given (arg_b y)
                  || given (arg_c y)
               then Err ValueError
               else check_hi (paddr y) 63
           | None => Ok tt
           end)).
  { destruct (t_paddr x) as [m|]; cbn [encoded] in P; [|rewrite P; reflexivity].
    destruct P as [P NP]. destruct (paddr y) as [w|]; [|congruence]. destruct m as [m| |]; try discriminate. injection P as ->.
    destruct (_ || _ || _ || _ || _); [reflexivity|]. apply check_hi_int. }
  rewrite F3. clear F3.
  match goal with |- tbind (of_res _ ?r) _ = _ => destruct r; cbn [of_res tbind bind]; [|reflexivity] end.
  destruct (check_hi (o_b7 o) 1); cbn [lift tbind bind]; [|reflexivity].
  destruct (check_hi (o_b23 o) 3); cbn [lift tbind bind]; [|reflexivity].
  destruct (o_op o) as [op|]; [|reflexivity]. destruct (check_hi (Some op) 31); reflexivity.
Qed.
(** Arguments that are encoded give the instruction made with these ints. *)
Lemma C202_encoded_pf : forall A o x y, encodes x y ->
  tinstr_new A o x = of_res (fun i => of_bf (i_data i)) (instr_new o y).
Proof.
  intros A o x y H. unfold tinstr_new, instr_new. rewrite tnew_int by lia.
  destruct (bf_new 0 12 3 0) as [d|e]; cbn [of_res tbind bind]; [|reflexivity].
  rewrite (check_encoded o x y H). destruct (instr_check o y); cbn [of_res tbind bind]; [|reflexivity].
  destruct H as (S & M & EA & EB & EC & P).
  rewrite (tput_sequence A _ _ d S). destruct (put_opt (Idx 1) (sequence y) d) as [d1|]; cbn [of_res tbind bind]; [|reflexivity].
  assert (tuses_bit7 o x = uses_bit7 o y) as -> by (unfold tuses_bit7, uses_bit7; now rewrite (encoded_given _ _ _ M)).
  change (TIdx (VI 7)) with (of_key (Idx 7)). rewrite tput_num.
  assert ((if uses_bit7 o y then of_res of_bf (put_opt (Idx 7) (o_b7 o) d1) else TOk (of_bf d1)) =
          of_res of_bf (if uses_bit7 o y then put_opt (Idx 7) (o_b7 o) d1 else Ok d1)) as -> by (destruct (uses_bit7 o y); reflexivity).
  destruct (if uses_bit7 o y then put_opt (Idx 7) (o_b7 o) d1 else Ok d1) as [d2|]; cbn [of_res tbind bind]; [|reflexivity].
  assert ((match t_mask x with
            | Some m => tput A (TSlice (VI 2) (VI 6)) m (of_bf d2)
            | None => tput_opt A (TSlice (VI 2) (VI 3)) (num (o_b23 o)) (of_bf d2)
            end) = of_res of_bf (match mask y with
           | Some m => put (range 2 6) m d2
           | None => put_opt (range 2 3) (o_b23 o) d2
           end)) as ->.
  { assert (T := tput_number A 2 6 _ _ d2 M). assert (G := encoded_given _ _ _ M).
    destruct (t_mask x) as [m|], (mask y) as [w|]; try discriminate G; [exact T|].
    change (TSlice (VI 2) (VI 3)) with (of_key (range 2 3)). apply tput_num. }
  destruct (match mask y with Some m => _ | None => _ end) as [d3|]; cbn [of_res tbind bind]; [|reflexivity].
  rewrite (as_bit_flag _ _ EA), (as_bit_flag _ _ EB), (as_bit_flag _ _ EC).
  change (TIdx (VI 4)) with (of_key (Idx 4)). rewrite tput_num.
  destruct (put_opt (Idx 4) (as_bit (arg_a y)) d3) as [d4|]; cbn [of_res tbind bind]; [|reflexivity].
  change (TIdx (VI 5)) with (of_key (Idx 5)). rewrite tput_num.
  destruct (put_opt (Idx 5) (as_bit (arg_b y)) d4) as [d5|]; cbn [of_res tbind bind]; [|reflexivity].
  change (TIdx (VI 6)) with (of_key (Idx 6)). rewrite tput_num.
  destruct (put_opt (Idx 6) (as_bit (arg_c y)) d5) as [d6|]; cbn [of_res tbind bind]; [|reflexivity].
  rewrite (tput_number A 1 6 _ _ d6 P).
  destruct (put_opt (range 1 6) (paddr y) d6) as [d7|]; cbn [of_res tbind bind]; [|reflexivity].
  destruct (o_op o) as [op|]; [|reflexivity].
  change (TSlice (VI 8) (VI 12)) with (of_key (range 8 12)). rewrite tput_int.
  destruct (put (range 8 12) op d7); reflexivity.
Qed.
Lemma encoded_try f v : (forall u, v = Some u -> f u <> None) ->
  encoded f v (match v with Some u => f u | None => None end).
Proof. destruct v as [u|]; cbn; intros H; [split; [reflexivity|now apply H]|reflexivity]. Qed.
Lemma check_bit_ok v : tcheck_bit v = TOk tt -> forall u, v = Some u -> flag_of u <> None.
Proof.
  intros H u ->. cbn in H. unfold tnot_bit in H. destruct u as [z|f|t]; cbn [flag_of]; [discriminate| |discriminate H].
  rewrite !equals_spec in H. destruct (equals f 0); [discriminate|]. destruct (equals f 1); [discriminate|discriminate H].
Qed.
Lemma tput_slice_ok A s e v b d : tput A (TSlice s e) v (of_bf b) = TOk d -> number_of v <> None.
Proof.
  intros H. destruct (is_int v) eqn:I; [destruct v; discriminate|]. exfalso.
  destruct (setitem_slice_dyn A b s e v I) as [x [E _]]. unfold tput, tf_setitem in H. rewrite E in H. discriminate H.
Qed.
Lemma ok_res {X Y} (f : X -> Y) r d : of_res f r = TOk d -> exists x, d = f x.
Proof. destruct r; cbn; [intros [= <-]; eauto|discriminate]. Qed.
Lemma made_encoded : forall A o x d, tinstr_new A o x = TOk d -> exists y, encodes x y.
Proof.
  intros A o x d. unfold tinstr_new. rewrite tnew_int by lia.
  destruct (bf_new 0 12 3 0) as [d0|e]; cbn [of_res tbind]; [|discriminate].
  destruct (tinstr_check o x) as [[]|] eqn:C; cbn [tbind]; [|discriminate].
  unfold tinstr_check in C.
  match type of C with tbind ?r _ = _ => destruct r as [[]|] eqn:C1; cbn [tbind] in C; [|discriminate] end.
  match type of C with tbind ?r _ = _ => destruct r as [[]|] eqn:C2; cbn [tbind] in C; [|discriminate] end.
  destruct (tcheck_bit (t_a x)) as [[]|] eqn:CA; cbn [tbind] in C; [|discriminate].
  destruct (tcheck_bit (t_b x)) as [[]|] eqn:CB; cbn [tbind] in C; [|discriminate].
  destruct (tcheck_bit (t_c x)) as [[]|] eqn:CC; cbn [tbind] in C; [|discriminate]. clear C C2.
  assert (EA := encoded_try _ _ (check_bit_ok _ CA)). assert (EB := encoded_try _ _ (check_bit_ok _ CB)).
  assert (EC := encoded_try _ _ (check_bit_ok _ CC)).
  destruct (tput_opt A (TIdx (VI 1)) (t_sequence x) (of_bf d0)) as [d1|] eqn:P1; cbn [tbind]; [|discriminate].
  assert (ES : encoded sequence_of (t_sequence x) (match t_sequence x with Some u => sequence_of u | None => None end)).
  { apply encoded_try. intros u U. rewrite U in C1, P1.
    destruct (match t_paddr x with Some p => truth p | None => false end); [discriminate|].
    unfold tnot_bit in C1. destruct u as [z|f|t]; cbn [sequence_of]; [discriminate| |discriminate C1].
    rewrite !equals_spec in C1. destruct (equals f 0) eqn:E0; [discriminate|].
    destruct (equals f 1) eqn:E1; [|discriminate C1]. exfalso.
    destruct (proj2 (proj2 (C199_calls_partial_pf A d0 (TItem (TIdx (VI 1)) (VF f)))))
      as [_ [x' [R _]]]; [apply A_bit_refused; now right|].
    cbn [tput_opt] in P1. unfold tput in P1. cbn [tf_step] in R.
    destruct (tf_setitem A (of_bf d0) (TIdx (VI 1)) (VF f)) as [b' r]. cbn [snd] in R. subst r. discriminate P1. }
  rewrite (tput_sequence A _ _ d0 ES) in P1. apply ok_res in P1 as [b1 ->].
  destruct (if tuses_bit7 o x then _ else _) as [d2|] eqn:P2; cbn [tbind]; [|discriminate].
  assert (exists b2, d2 = of_bf b2) as [b2 ->].
  { change (TIdx (VI 7)) with (of_key (Idx 7)) in P2. rewrite tput_num in P2.
    destruct (tuses_bit7 o x); [now apply ok_res in P2|injection P2 as <-; eauto]. }
  destruct (match t_mask x with Some m => _ | None => _ end) as [d3|] eqn:P3; cbn [tbind]; [|discriminate].
  assert (EM : encoded number_of (t_mask x) (match t_mask x with Some u => number_of u | None => None end)).
  { apply encoded_try. intros u U. rewrite U in P3. now apply tput_slice_ok in P3. }
  assert (exists b3, d3 = of_bf b3) as [b3 ->].
  { assert (T := tput_number A 2 6 _ _ b2 EM). destruct (t_mask x) as [m|].
    - cbn [tput_opt] in T. rewrite T in P3. now apply ok_res in P3.
    - change (TSlice (VI 2) (VI 3)) with (of_key (range 2 3)) in P3. rewrite tput_num in P3. now apply ok_res in P3. }
  rewrite (as_bit_flag _ _ EA), (as_bit_flag _ _ EB), (as_bit_flag _ _ EC).
  change (TIdx (VI 4)) with (of_key (Idx 4)). rewrite tput_num.
  destruct (put_opt (Idx 4) _ b3) as [b4|]; cbn [of_res tbind]; [|discriminate].
  change (TIdx (VI 5)) with (of_key (Idx 5)). rewrite tput_num.
  destruct (put_opt (Idx 5) _ b4) as [b5|]; cbn [of_res tbind]; [|discriminate].
  change (TIdx (VI 6)) with (of_key (Idx 6)). rewrite tput_num.
  destruct (put_opt (Idx 6) _ b5) as [b6|]; cbn [of_res tbind]; [|discriminate].
  destruct (tput_opt A (TSlice (VI 1) (VI 6)) (t_paddr x) (of_bf b6)) as [d7|] eqn:P7; cbn [tbind]; [|discriminate].
  intros _. assert (EP : encoded number_of (t_paddr x) (match t_paddr x with Some u => number_of u | None => None end)).
  { apply encoded_try. intros u U. rewrite U in P7. now apply tput_slice_ok in P7. }
  eexists (mkiargs _ _ _ _ _ _). exact (conj ES (conj EM (conj EA (conj EB (conj EC EP))))).
Qed.
(** Only arguments that are encoded make an instruction: everything else is refused. *)
Lemma C202_refused_pf : forall A o x,
  (exists y i, encodes x y /\ instr_new o y = Ok i /\ tinstr_new A o x = TOk (of_bf (i_data i))) \/
  (exists e, tinstr_new A o x = TErr e).
Proof.
  intros A o x. destruct (tinstr_new A o x) as [d|e] eqn:E; [left|right; eauto].
  destruct (made_encoded A o x d E) as [y H]. assert (F := C202_encoded_pf A o x y H). rewrite E in F.
  destruct (instr_new o y) as [i|] eqn:EI; cbn [of_res] in F; [|discriminate F]. injection F as ->. exists y, i. auto.
Qed.
(** What is encoded for an argument is equal to it, and ints are encoded as they are. *)
Lemma C202_equal_pf :
  (forall v z, flag_of v = Some z \/ sequence_of v = Some z \/ number_of v = Some z ->
     v = VI z \/ exists f, v = VF f /\ equals f z = true) /\
  (forall y y', encodes (mktargs (num (sequence y)) (num (mask y)) (num (arg_a y)) (num (arg_b y)) (num (arg_c y))
                                 (num (paddr y))) y' <-> y' = y).
Proof.
  split.
  - intros v z [H|[H|H]]; [now apply flag_equals| |].
    + destruct (sequence_equals v z H) as [->|[f [-> [E _]]]]; eauto.
    + destruct v; try discriminate. injection H as ->. now left.
  - intros [s m a b c p] [s' m' a' b' c' p']. unfold encodes. cbn [t_sequence t_mask t_a t_b t_c t_paddr sequence mask arg_a arg_b arg_c paddr].
    assert (N : forall f o r, (forall z, f (VI z) = Some z) -> (encoded f (num o) r <-> r = o)).
    { intros f [z|] r H; cbn [num encoded]; [|reflexivity]. rewrite H. split; [intros [<- _]; reflexivity|intros ->; split; [reflexivity|discriminate]]. }
    rewrite !N by reflexivity. split; [intros (-> & -> & -> & -> & -> & ->); reflexivity|intros [= -> -> -> -> -> ->]; auto 9].
Qed.
(*@
(** BA with the sequence bit 0.0 and the A bit 1.0 is BA with 0 and 1; a mask of 3.0, a
    sequence bit of 1.0 and an A bit of None's kin, a text, are refused. *)
Example C202_encoded_ex : forall A, let o := mkopcode (lit "BA") (lit "BinaryAdd") (Some 2) (Some 1) (Some 9) (lit "maskable") in
  exists i, instr_new o (mkiargs (Some 0) None (Some 1) (Some 0) (Some 1) None) = Ok i /\
  tinstr_new A o (mktargs (Some (VF (Fin (inject_Z 0)))) None (Some (VF (Fin (inject_Z 1)))) (Some (VI 0)) (Some (VI 1)) None)
  = TOk (of_bf (i_data i)) /\ instr_value i = 1024 + 256 + 64 + 9.
Proof.
  intros A o. eexists. split; [reflexivity|]. split; [|reflexivity].
  rewrite (C202_encoded A o _ (mkiargs (Some 0) None (Some 1) (Some 0) (Some 1) None)); [reflexivity|].
  repeat split; try reflexivity; discriminate.
Qed.
Example C202_refused_ex : forall A, let o := mkopcode (lit "BA") (lit "BinaryAdd") (Some 2) (Some 1) (Some 9) (lit "maskable") in
  tinstr_new A o (mktargs (Some (VI 0)) (Some (VF (Fin (inject_Z 3)))) None None None None) = TErr (PyExn TypeError) /\
  tinstr_new A o (mktargs (Some (VF (Fin (inject_Z 1)))) None None None None None) = TErr (PyExn TypeError) /\
  tinstr_new A o (mktargs (Some (VI 0)) None (Some (VO true)) None None None) = TErr (PyExn ValueError).
Proof. intros A o. repeat split; reflexivity. Qed.
Example C202_equal_ex : flag_of (VF (Fin (2 # 2))) = Some 1 /\ flag_of (VF (Fin (1 # 2))) = None /\ sequence_of (VF (Fin (2 # 2))) = None.
Proof. repeat split; reflexivity. Qed.
@*)
