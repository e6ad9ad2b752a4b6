From Coq Require Import ZArith List Bool Lia.
From Verif Require Import Py LPy MCards SCards MSymbols SSymbols MTools STools LTools LToolSym MDiag SDiag LDiag MContext SContext.
#[local] Arguments Z.add : simpl never.
#[local] Arguments Z.sub : simpl never.
#[local] Arguments Z.mul : simpl never.
#[local] Arguments Z.pow : simpl never.

(** *** C95 resolve *)
Lemma reach_context upper parseable complete a : reach_asm upper parseable complete a -> a_context a = None.
Proof.
  induction 1 as [v|fuel fs a f _ IH|fs a f _ IH|a n _ IH]; [reflexivity|..].
  - unfold asm_create_symtab. destruct (build_table_run upper fuel fs f (a_symtab a)) as [[ms tab] r]; exact IH.
  - unfold asm_assemble. destruct (fs f); exact IH.
  - unfold asm_resolve. rewrite IH. exact IH.
Qed.
Lemma C95_resolve_refuted_pf : forall upper parseable complete a maxPasses, reach_asm upper parseable complete a ->
  asm_resolve parseable complete a maxPasses = (a, Err AttributeError).
Proof. intros upper parseable complete a n R. unfold asm_resolve. rewrite (reach_context _ _ _ _ R). reflexivity. Qed.
(*@ Example C95_resolve_refuted_ex :
  snd (asm_resolve (fun _ => true) (fun _ => true) (fst (asm_assemble (fun _ => Some []) (asm_new false) (lit "p.a"))) 10) = Err AttributeError.
Proof. reflexivity. Qed. @*)

Section Passes.
Variables (parseable complete : Z -> bool).
Let inc x := parseable x && negb (complete x).
Lemma inc_ok x : inc x = true <-> incomplete parseable complete x.
Proof. unfold inc, incomplete. rewrite andb_true_iff, negb_true_iff. reflexivity. Qed.
Lemma pass_some cur : forall xs done rest und, 
  pass_loop parseable complete cur (length xs) done (map Some xs ++ rest) und =
  (done ++ map (fun x => if parseable x then cur else Some x) xs ++ rest, Ok (und ++ filter inc xs)).
Proof.
  induction xs as [|x xs IH]; intros done rest und.
  - cbn [length pass_loop map filter app]. rewrite !app_nil_r. reflexivity.
  - cbn [length pass_loop map filter app]. unfold inc at 1. destruct (parseable x).
    + rewrite IH. rewrite <- !app_assoc. destruct (complete x); cbn [andb negb]; [reflexivity|]. rewrite <- app_assoc. reflexivity.
    + rewrite IH. rewrite <- !app_assoc. reflexivity.
Qed.
Lemma pass_none : forall xs done rest und, (exists x, In x xs /\ parseable x = true) ->
  exists recs, pass_loop parseable complete None (length xs) done (map (fun x => if parseable x then None else Some x) xs ++ rest) und =
  (recs, Err AttributeError).
Proof.
  induction xs as [|x xs IH]; intros done rest und (y & I & P); [destruct I|].
  cbn [length pass_loop map app]. destruct (parseable x) eqn:PX; [eexists; reflexivity|].
  rewrite PX. apply IH. destruct I as [->|I]; [congruence|]. exists y. auto.
Qed.
Lemma usable_split recs xs n : usable recs xs n -> recs = map Some xs ++ skipn n recs /\ length xs = n.
Proof. intros [E L]. split; [|exact L]. rewrite <- E. symmetry. apply firstn_skipn. Qed.
Definition swap (y x : Z) : Z := if parseable x then y else x.
Lemma swap_filter y xs : zlen (filter inc (map (swap y) xs)) = if inc y then zlen (filter parseable xs) else 0.
Proof.
  induction xs as [|x xs IH]; [destruct (inc y); reflexivity|]. cbn [map filter].
  assert (E : inc (swap y x) = if parseable x then inc y else false).
  { unfold swap. destruct (parseable x) eqn:P; [reflexivity|]. unfold inc. rewrite P. reflexivity. }
  rewrite E. destruct (parseable x); [|exact IH]. destruct (inc y); [|exact IH]. rewrite !zlen_cons. lia.
Qed.
Lemma swap_again y xs : map (swap y) (map (swap y) xs) = map (swap y) xs.
Proof.
  rewrite map_map. apply map_ext. intros x. unfold swap. destruct (parseable x) eqn:P; [|rewrite P; reflexivity].
  destruct (parseable y); reflexivity.
Qed.
Lemma swap_some y xs : map (fun x => if parseable x then Some y else Some x) xs = map Some (map (swap y) xs).
Proof. rewrite map_map. apply map_ext. intros x. unfold swap. destruct (parseable x); reflexivity. Qed.

Definition stuck (x : actx) (a : asm) (k : Z) : res outcome :=
  match a_errors a with
  | Some _ => if x_error x then Ok (NoProgress k) else Err AttributeError
  | None => Err AttributeError
  end.
Lemma passes_S k i x prev a recs xs : a_records a = Some recs -> usable recs xs (length (x_records x)) ->
  let n := zlen (filter inc xs) in
  exists a1, a_records a1 = Some (map (fun z => if parseable z then x_current x else Some z) xs ++ skipn (length (x_records x)) recs) /\
    a_errors a1 = a_errors a /\
    (n = 0 -> passes parseable complete (S k) i x prev a = (a1, Ok (AllComplete (i + 1)))) /\
    (n <> 0 -> n = prev -> snd (passes parseable complete (S k) i x prev a) = stuck x a (i + 1) /\
       forall e, a_errors a = Some e -> a_errors (fst (passes parseable complete (S k) i x prev a)) = Some (e + n)) /\
    (n <> 0 -> n <> prev -> passes parseable complete (S k) i x prev a = passes parseable complete k (i + 1) x n a1).
Proof.
  intros R U. destruct (usable_split _ _ _ U) as [ER LR]. cbv zeta.
  exists (with_pass a (i + 1) (map (fun z => if parseable z then x_current x else Some z) xs ++ skipn (length (x_records x)) recs) (a_errors a)).
  split; [reflexivity|]. split; [reflexivity|].
  assert (E : pass_loop parseable complete (x_current x) (length (x_records x)) [] recs [] =
    (map (fun z => if parseable z then x_current x else Some z) xs ++ skipn (length (x_records x)) recs, Ok (filter inc xs))).
  { rewrite ER at 1. rewrite <- LR. rewrite pass_some. reflexivity. }
  cbn [passes]. rewrite R. destruct (pass_loop _ _ _ _ _ _ _) as [recs' r]. 
  assert (recs' = map (fun z => if parseable z then x_current x else Some z) xs ++ skipn (length (x_records x)) recs) by congruence.
  assert (r = Ok (filter inc xs)) by congruence. subst recs' r.
  split; [|split].
  - intros ->. reflexivity.
  - intros N NP. subst prev. rewrite (proj2 (Z.eqb_neq _ _) N), Z.eqb_refl. unfold stuck. destruct (a_errors a) as [e|]; [|split; [reflexivity|discriminate]].
    destruct (x_error x); (split; [reflexivity|]); intros e' EE; cbn [fst with_pass a_errors]; congruence.
  - intros N NP. rewrite (proj2 (Z.eqb_neq _ _) N), (proj2 (Z.eqb_neq _ _) NP). reflexivity.
Qed.
Lemma usable_map (y : Z) (recs : list (option Z)) (xs : list Z) n : usable recs xs n ->
  usable (map (fun z => if parseable z then Some y else Some z) xs ++ skipn n recs) (map (swap y) xs) n.
Proof.
  intros [E L]. rewrite swap_some. split; [|rewrite map_length; exact L].
  rewrite firstn_app, !map_length, L, Nat.sub_diag. cbn [firstn]. rewrite app_nil_r. apply firstn_all2.
  rewrite !map_length. lia.
Qed.
(** every possible course of resolve *)
Lemma resolve_cases a x recs xs maxPasses : a_context a = Some x -> a_records a = Some recs ->
  usable recs xs (length (x_records x)) ->
  let n := zlen (filter inc xs) in let m := zlen (filter parseable xs) in
  snd (asm_resolve parseable complete a maxPasses) =
  if maxPasses <=? 0 then Ok (GaveUp 0) else
  if n =? 0 then Ok (AllComplete 1) else
  if maxPasses =? 1 then Ok (GaveUp 1) else
  match x_current x with
  | None => Err AttributeError
  | Some y =>
      if negb (inc y) then Ok (AllComplete 2) else
      if m =? n then stuck x a 2 else
      if maxPasses =? 2 then Ok (GaveUp 2) else stuck x a 3
  end.
Proof.
  intros C R U. cbv zeta. unfold asm_resolve. rewrite C. destruct (Z.leb_spec maxPasses 0) as [L0|L0].
  { replace (Z.to_nat maxPasses) with 0%nat by lia. reflexivity. }
  destruct (Z.to_nat maxPasses) as [|k] eqn:EK; [lia|].
  destruct (passes_S k 0 x 0 a recs xs R U) as (a1 & R1 & E1 & P1 & _ & P3). cbv zeta in *.
  destruct (Z.eqb_spec (zlen (filter inc xs)) 0) as [N0|N0].
  { rewrite (P1 N0). reflexivity. }
  rewrite (P3 N0 N0). set (n := zlen (filter inc xs)) in *. clear P1 P3.
  destruct (Z.eqb_spec maxPasses 1) as [L1|L1].
  { assert (k = 0)%nat by lia. subst k. reflexivity. }
  destruct k as [|k]; [lia|].
  assert (EX : exists z, In z xs /\ parseable z = true).
  { destruct (filter inc xs) as [|z l] eqn:EF; [destruct N0; unfold n; rewrite ?EF; reflexivity|].
    assert (I : In z (filter inc xs)) by (rewrite EF; left; reflexivity). apply filter_In in I. destruct I as [I J].
    exists z. split; [exact I|]. unfold inc in J. apply andb_true_iff in J. tauto. }
  destruct (x_current x) as [y|] eqn:CY.
  2:{ cbn [passes]. rewrite R1. destruct U as [_ LU]. rewrite <- LU at 1. rewrite CY.
      destruct (pass_none xs [] (skipn (length (x_records x)) recs) [] EX) as (rr & ->). reflexivity. }
  assert (U1 := usable_map y recs xs _ U).
  destruct (passes_S k (0 + 1) x n a1 _ _ R1 U1) as (a2 & R2 & E2 & Q1 & Q2 & Q3). cbv zeta in *.
  rewrite swap_filter in Q1, Q2, Q3. destruct (inc y) eqn:IY; cbn [negb].
  2:{ rewrite (Q1 eq_refl). reflexivity. }
  set (m := zlen (filter parseable xs)) in *.
  assert (M0 : m <> 0).
  { destruct EX as (z & I & P). assert (J : In z (filter parseable xs)) by (apply filter_In; auto).
    unfold m. destruct (filter parseable xs) as [|w l]; [destruct J|]. rewrite zlen_cons. pose proof (zlen_nonneg l). lia. }
  destruct (Z.eqb_spec m n) as [MN|MN].
  { rewrite (proj1 (Q2 M0 MN)). unfold stuck. rewrite E1. reflexivity. }
  rewrite (Q3 M0 MN). destruct (Z.eqb_spec maxPasses 2) as [L2|L2].
  { assert (k = 0)%nat by lia. subst k. reflexivity. }
  destruct k as [|k]; [lia|].
  rewrite CY in R2.
  assert (U2 := usable_map y _ _ _ U1). rewrite swap_again in U2.
  assert (R2' : a_records a2 = Some (map (fun z => if parseable z then Some y else Some z) (map (swap y) xs) ++
     skipn (length (x_records x)) (map (fun z => if parseable z then Some y else Some z) xs ++ skipn (length (x_records x)) recs))) by exact R2.
  destruct (passes_S k (0 + 1 + 1) x m a2 _ _ R2' U2) as (a3 & _ & _ & _ & T2 & _). cbv zeta in *.
  rewrite swap_filter, IY in T2. rewrite (proj1 (T2 M0 eq_refl)). unfold stuck. rewrite E2, E1. reflexivity.
Qed.
End Passes.

Lemma C95_bound_partial_pf : forall parseable complete a x recs xs maxPasses o,
  a_context a = Some x -> a_records a = Some recs -> usable recs xs (length (x_records x)) ->
  snd (asm_resolve parseable complete a maxPasses) = Ok o ->
  0 <= passes_made o <= Z.min 3 (Z.max 0 maxPasses).
Proof.
  intros parseable complete a x recs xs n o C R U H. rewrite (resolve_cases parseable complete a x recs xs n C R U) in H. cbv zeta in H.
  unfold stuck in H.
  repeat match type of H with
  | context [if ?b then _ else _] => destruct b eqn:?
  | context [match ?b with Some _ => _ | None => _ end] => destruct b eqn:?
  end; try discriminate; injection H as <-; cbn [passes_made]; lia.
Qed.
(*@ Example C95_bound_partial_ex :
  snd (asm_resolve (fun _ => true) (fun x => x =? 1) (mkasm false [] (Some (mkactx [Some 1; Some 2] (Some 2) true)) (Some [Some 1; Some 2]) (Some 0) None None None) 10) = Ok (NoProgress 3).
Proof. reflexivity. Qed. @*)
Lemma C95_first_partial_pf : forall parseable complete a x recs xs maxPasses,
  a_context a = Some x -> a_records a = Some recs -> usable recs xs (length (x_records x)) -> 1 <= maxPasses ->
  (snd (asm_resolve parseable complete a maxPasses) = Ok (AllComplete 1) <-> forall r, In r xs -> ~ incomplete parseable complete r).
Proof.
  intros parseable complete a x recs xs n C R U L. rewrite (resolve_cases parseable complete a x recs xs n C R U). cbv zeta.
  rewrite (proj2 (Z.leb_gt n 0)) by lia.
  destruct (Z.eqb_spec (zlen (filter (fun x => parseable x && negb (complete x)) xs)) 0) as [N|N].
  - split; [|reflexivity]. intros _ r I J. apply inc_ok in J.
    assert (K : In r (filter (fun x => parseable x && negb (complete x)) xs)) by (apply filter_In; auto).
    destruct (filter _ xs) as [|w l]; [destruct K|]. rewrite zlen_cons in N. pose proof (zlen_nonneg l). lia.
  - split.
    + intros H. exfalso. unfold stuck in H.
      repeat match type of H with
      | context [if ?b then _ else _] => destruct b eqn:?
      | context [match ?b with Some _ => _ | None => _ end] => destruct b eqn:?
      end; discriminate.
    + intros H. exfalso. destruct (filter (fun x => parseable x && negb (complete x)) xs) as [|w l] eqn:EF; [apply N; reflexivity|].
      assert (K : In w (filter (fun x => parseable x && negb (complete x)) xs)) by (rewrite EF; left; reflexivity).
      apply filter_In in K. destruct K as [K J]. apply (H w K). apply inc_ok. exact J.
Qed.
(*@ Example C95_first_partial_ex :
  snd (asm_resolve (fun x => x <? 3) (fun x => x =? 1) (mkasm false [] (Some (mkactx [Some 1; Some 3] None true)) (Some [Some 1; Some 3]) None None None None) 10) = Ok (AllComplete 1).
Proof. reflexivity. Qed. @*)
(** the records are replaced by the current record of the context, so the second pass no longer sees the incomplete ones *)
Lemma C95_success_refuted_pf : forall parseable complete a x recs xs maxPasses r y,
  a_context a = Some x -> a_records a = Some recs -> usable recs xs (length (x_records x)) -> 2 <= maxPasses ->
  In r xs -> incomplete parseable complete r -> x_current x = Some y -> ~ incomplete parseable complete y ->
  snd (asm_resolve parseable complete a maxPasses) = Ok (AllComplete 2).
Proof.
  intros parseable complete a x recs xs n r y C R U L I J CY NY. rewrite (resolve_cases parseable complete a x recs xs n C R U). cbv zeta.
  rewrite (proj2 (Z.leb_gt n 0)) by lia. apply inc_ok in J.
  assert (K : In r (filter (fun x => parseable x && negb (complete x)) xs)) by (apply filter_In; auto).
  destruct (Z.eqb_spec (zlen (filter (fun x => parseable x && negb (complete x)) xs)) 0) as [N|N].
  { destruct (filter _ xs) as [|w l]; [destruct K|]. rewrite zlen_cons in N. pose proof (zlen_nonneg l). lia. }
  rewrite (proj2 (Z.eqb_neq n 1)) by lia. rewrite CY.
  destruct (parseable y && negb (complete y)) eqn:E; [|reflexivity]. destruct (NY (proj1 (inc_ok _ _ _) E)).
Qed.
(*@ Example C95_success_refuted_ex :
  snd (asm_resolve (fun _ => true) (fun x => x =? 1) (mkasm false [] (Some (mkactx [Some 5; Some 2] (Some 1) true)) (Some [Some 5; Some 2]) (Some 0) None None None) 10) = Ok (AllComplete 2).
Proof. reflexivity. Qed. @*)
Lemma C95_stuck_partial_pf : forall parseable complete a x recs xs maxPasses o,
  a_context a = Some x -> a_records a = Some recs -> usable recs xs (length (x_records x)) ->
  snd (asm_resolve parseable complete a maxPasses) = Ok o ->
  (exists k, o = NoProgress k) \/ (exists k, o = GaveUp k /\ 1 <= maxPasses) -> exists r, In r xs /\ incomplete parseable complete r.
Proof.
  intros parseable complete a x recs xs n o C R U H D. rewrite (resolve_cases parseable complete a x recs xs n C R U) in H. cbv zeta in H.
  destruct (Z.leb_spec n 0) as [L|L].
  { assert (o = GaveUp 0) by congruence. subst o. destruct D as [(k & D)|(k & D & D')]; [discriminate|lia]. }
  destruct (Z.eqb_spec (zlen (filter (fun x => parseable x && negb (complete x)) xs)) 0) as [N|N].
  { assert (o = AllComplete 1) by congruence. subst o. destruct D as [(k & D)|(k & D & D')]; discriminate. }
  destruct (filter (fun x => parseable x && negb (complete x)) xs) as [|w l] eqn:EF; [destruct N; reflexivity|].
  assert (K : In w (filter (fun x => parseable x && negb (complete x)) xs)) by (rewrite EF; left; reflexivity).
  apply filter_In in K. destruct K as [K J]. exists w. split; [exact K|]. apply inc_ok. exact J.
Qed.
(*@ Example C95_stuck_partial_ex :
  snd (asm_resolve (fun _ => true) (fun x => x =? 1) (mkasm false [] (Some (mkactx [Some 5; Some 2] (Some 2) true)) (Some [Some 5; Some 2]) (Some 0) None None None) 10) = Ok (NoProgress 2).
Proof. reflexivity. Qed. @*)

(** what resolve changes, whatever the records are *)
Lemma passes_effect parseable complete : forall k i x prev a a' r, passes parseable complete k i x prev a = (a', r) ->
  (a_verbose a' = a_verbose a /\ a_symtab a' = a_symtab a /\ a_context a' = a_context a /\
   a_srcfile a' = a_srcfile a /\ a_linenum a' = a_linenum a) /\
  (forall o, r = Ok o -> i <= passes_made o <= i + Z.of_nat k /\ (passes_made o = i -> a' = a) /\
     (passes_made o <> i -> a_passnum a' = Some (passes_made o)) /\
     ((forall n, o <> NoProgress n) -> a_errors a' = a_errors a)).
Proof.
  induction k as [|k IH]; intros i x prev a a' r H; cbn [passes] in H.
  { assert (a' = a) by congruence. subst a'. split; [repeat split|]. intros o E. assert (o = GaveUp i) by congruence. subst o.
    cbn [passes_made]. split; [lia|]. split; [reflexivity|]. split; [congruence|reflexivity]. }
  destruct (a_records a) as [recs|] eqn:R.
  2:{ split; [|].
      - assert (E := f_equal fst H). cbn [fst] in E. subst a'. repeat split.
      - intros o E. assert (EA := f_equal fst H). assert (ER := f_equal snd H). cbn [fst snd] in EA, ER. subst a' r.
        destruct (x_records x); [|discriminate]. assert (o = AllComplete (i + 1)) by congruence. subst o.
        cbn [passes_made a_passnum a_errors]. split; [lia|]. split; [lia|]. split; reflexivity. }
  destruct (pass_loop parseable complete (x_current x) (length (x_records x)) [] recs []) as [recs' [undefs|e]] eqn:EL.
  2:{ assert (EA := f_equal fst H). assert (ER := f_equal snd H). cbn [fst snd] in EA, ER. subst a' r. split; [repeat split|discriminate]. }
  cbv zeta in H. destruct (zlen undefs =? 0).
  { assert (EA := f_equal fst H). assert (ER := f_equal snd H). cbn [fst snd] in EA, ER. subst a' r. split; [repeat split|].
    intros o E. assert (o = AllComplete (i + 1)) by congruence. subst o. cbn [passes_made with_pass a_passnum a_errors].
    split; [lia|]. split; [lia|]. split; reflexivity. }
  destruct (zlen undefs =? prev).
  { destruct (a_errors a) as [e|].
    2:{ assert (EA := f_equal fst H). assert (ER := f_equal snd H). cbn [fst snd] in EA, ER. subst a' r. split; [repeat split|discriminate]. }
    destruct (x_error x); assert (EA := f_equal fst H); assert (ER := f_equal snd H); cbn [fst snd] in EA, ER; subst a' r;
      (split; [repeat split|]); [|discriminate].
    intros o E. assert (o = NoProgress (i + 1)) by congruence. subst o. cbn [passes_made with_pass a_passnum a_errors].
    split; [lia|]. split; [lia|]. split; [reflexivity|]. intros X. destruct (X (i + 1) eq_refl). }
  destruct (IH _ _ _ _ _ _ H) as [F G]. cbn [with_pass a_verbose a_symtab a_context a_srcfile a_linenum a_passnum a_errors] in F, G.
  split; [exact F|]. intros o E. destruct (G o E) as (B & G1 & G2 & G3). split; [lia|]. split; [lia|]. split; [|exact G3].
  intros _. destruct (Z.eq_dec (passes_made o) (i + 1)) as [Q|Q]; [|apply G2; exact Q]. rewrite (G1 Q), Q. reflexivity.
Qed.
Lemma C95_effect_partial_pf : forall parseable complete a maxPasses a' r, asm_resolve parseable complete a maxPasses = (a', r) ->
  (a_verbose a' = a_verbose a /\ a_symtab a' = a_symtab a /\ a_context a' = a_context a /\
   a_srcfile a' = a_srcfile a /\ a_linenum a' = a_linenum a) /\
  (forall o, r = Ok o -> 0 <= passes_made o <= Z.max 0 maxPasses /\
     (passes_made o = 0 -> a' = a) /\ (passes_made o <> 0 -> a_passnum a' = Some (passes_made o)) /\
     ((forall n, o <> NoProgress n) -> a_errors a' = a_errors a)).
Proof.
  intros parseable complete a n a' r H. unfold asm_resolve in H. destruct (a_context a) as [x|] eqn:C.
  - destruct (passes_effect _ _ _ _ _ _ _ _ _ H) as [F G]. split; [rewrite <- C; exact F|]. intros o E.
    destruct (G o E) as (B & G'). split; [lia|exact G'].
  - assert (a' = a) by congruence. assert (r = Err AttributeError) by congruence. subst a' r. split; [|discriminate]. auto.
Qed.
(*@ Example C95_effect_partial_ex :
  a_passnum (fst (asm_resolve (fun _ => true) (fun x => x =? 1) (mkasm false [] (Some (mkactx [Some 5; Some 2] (Some 2) true)) (Some [Some 5; Some 2]) (Some 0) None None None) 10)) = Some 2.
Proof. reflexivity. Qed. @*)
Lemma C95_errors_partial_pf : forall parseable complete a x recs xs maxPasses a' k,
  a_context a = Some x -> a_records a = Some recs -> usable recs xs (length (x_records x)) ->
  asm_resolve parseable complete a maxPasses = (a', Ok (NoProgress k)) ->
  exists e, a_errors a = Some e /\ a_errors a' = Some (e + zlen (filter parseable xs)).
Proof.
  intros parseable complete a x recs xs maxPasses a' k C R U H.
  assert (HC := resolve_cases parseable complete a x recs xs maxPasses C R U). cbv zeta in HC. rewrite H in HC. cbn [snd] in HC.
  unfold asm_resolve in H. rewrite C in H.
  destruct (Z.leb_spec maxPasses 0) as [L0|L0]; [discriminate|].
  destruct (Z.to_nat maxPasses) as [|k1] eqn:EK; [lia|].
  destruct (passes_S parseable complete k1 0 x 0 a recs xs R U) as (a1 & R1 & E1 & P1 & _ & P3). cbv zeta in *.
  destruct (Z.eqb_spec (zlen (filter (fun x => parseable x && negb (complete x)) xs)) 0) as [N0|N0]; [discriminate|].
  rewrite (P3 N0 N0) in H. set (n := zlen (filter (fun x => parseable x && negb (complete x)) xs)) in *. clear P1 P3.
  destruct (Z.eqb_spec maxPasses 1) as [L1|L1]; [discriminate|].
  destruct k1 as [|k1]; [lia|]. destruct (x_current x) as [y|] eqn:CY; [|discriminate].
  destruct (parseable y && negb (complete y)) eqn:IY; cbn [negb] in HC; [|discriminate].
  assert (U1 := usable_map parseable complete y recs xs _ U).
  destruct (passes_S parseable complete k1 (0 + 1) x n a1 _ _ R1 U1) as (a2 & R2 & E2 & Q1 & Q2 & Q3). cbv zeta in *.
  rewrite (swap_filter parseable complete), IY in Q1, Q2, Q3. set (m := zlen (filter parseable xs)) in *.
  assert (M0 : m <> 0).
  { intros M0. rewrite (Q1 M0) in H. congruence. }
  destruct (Z.eqb_spec m n) as [MN|MN].
  - destruct (Q2 M0 MN) as (_ & Q2'). destruct (a_errors a) as [e|] eqn:EE; [|unfold stuck in HC; rewrite EE in HC; discriminate].
    exists e. split; [reflexivity|]. specialize (Q2' e E1). rewrite H in Q2'. exact Q2'.
  - rewrite (Q3 M0 MN) in H. destruct (Z.eqb_spec maxPasses 2) as [L2|L2]; [discriminate|].
    destruct k1 as [|k1]; [lia|]. rewrite CY in R2.
    assert (U2 := usable_map parseable complete y _ _ _ U1). rewrite (swap_again parseable) in U2.
    assert (R2' : a_records a2 = Some (map (fun z => if parseable z then Some y else Some z) (map (swap parseable y) xs) ++
       skipn (length (x_records x)) (map (fun z => if parseable z then Some y else Some z) xs ++ skipn (length (x_records x)) recs))) by exact R2.
    destruct (passes_S parseable complete k1 (0 + 1 + 1) x m a2 _ _ R2' U2) as (a3 & _ & _ & _ & T2 & _). cbv zeta in *.
    rewrite (swap_filter parseable complete), IY in T2. destruct (T2 M0 eq_refl) as (_ & T2').
    destruct (a_errors a) as [e|] eqn:EE; [|unfold stuck in HC; rewrite EE in HC; discriminate].
    exists e. split; [reflexivity|]. specialize (T2' e (eq_trans E2 E1)). rewrite H in T2'. exact T2'.
Qed.
(*@ Example C95_errors_partial_ex :
  a_errors (fst (asm_resolve (fun _ => true) (fun x => x =? 1) (mkasm false [] (Some (mkactx [Some 1; Some 2] (Some 2) true)) (Some [Some 1; Some 2]) (Some 7) None None None) 10)) = Some 9.
Proof. reflexivity. Qed. @*)
(** record lists that do not fit the context *)
Lemma pass_short parseable complete cur : forall xs n done und, (length xs < n)%nat ->
  snd (pass_loop parseable complete cur n done (map Some xs) und) = Err IndexError.
Proof.
  induction xs as [|x xs IH]; intros n done und L; (destruct n as [|n]; [cbn [length] in L; lia|]); cbn [pass_loop map]; [reflexivity|].
  cbn [length] in L. destruct (parseable x); apply IH; lia.
Qed.
Lemma pass_hole parseable complete cur : forall xs n done rest und, (length xs < n)%nat ->
  snd (pass_loop parseable complete cur n done (map Some xs ++ None :: rest) und) = Err AttributeError.
Proof.
  induction xs as [|x xs IH]; intros n done rest und L; (destruct n as [|n]; [cbn [length] in L; lia|]); cbn [pass_loop map app]; [reflexivity|].
  cbn [length] in L. destruct (parseable x); apply IH; lia.
Qed.
Lemma C95_unfit_partial_pf : forall parseable complete a x maxPasses, a_context a = Some x -> 1 <= maxPasses ->
  (a_records a = None -> snd (asm_resolve parseable complete a maxPasses) =
     if zlen (x_records x) =? 0 then Ok (AllComplete 1) else Err AttributeError) /\
  (forall xs, a_records a = Some (map Some xs) -> zlen xs < zlen (x_records x) ->
     snd (asm_resolve parseable complete a maxPasses) = Err IndexError) /\
  (forall xs rest, a_records a = Some (map Some xs ++ None :: rest) -> zlen xs < zlen (x_records x) ->
     snd (asm_resolve parseable complete a maxPasses) = Err AttributeError).
Proof.
  intros parseable complete a x n C L. unfold asm_resolve. rewrite C. destruct (Z.to_nat n) as [|k] eqn:EK; [lia|].
  cbn [passes]. split; [|split].
  - intros ->. destruct (x_records x) as [|z l]; [reflexivity|]. rewrite zlen_cons. pose proof (zlen_nonneg l).
    rewrite (proj2 (Z.eqb_neq (1 + zlen l) 0)) by lia. reflexivity.
  - intros xs -> LT. unfold zlen in LT.
    assert (E := pass_short parseable complete (x_current x) xs (length (x_records x)) [] [] ltac:(lia)).
    destruct (pass_loop _ _ _ _ _ _ _) as [recs' r]. cbn [snd] in E. subst r. reflexivity.
  - intros xs rest -> LT. unfold zlen in LT.
    assert (E := pass_hole parseable complete (x_current x) xs (length (x_records x)) [] rest [] ltac:(lia)).
    destruct (pass_loop _ _ _ _ _ _ _) as [recs' r]. cbn [snd] in E. subst r. reflexivity.
Qed.
(*@ Example C95_unfit_partial_ex :
  snd (asm_resolve (fun _ => true) (fun x => x =? 1) (mkasm false [] (Some (mkactx [Some 1; Some 2] (Some 2) true)) (Some [Some 1]) (Some 7) None None None) 10) = Err IndexError.
Proof. reflexivity. Qed. @*)

(** *** C106 createSymbolTable *)
Lemma creates_build upper fuel fs files : forall tab0 ns0 tab ns a,
  fold_r (fun s f => do r <- build_symbol_table upper fuel fs f (fst s); Ok (fst r, snd s ++ [snd r])) files (tab0, ns0) = Ok (tab, ns) ->
  a_symtab a = tab0 -> exists a', creates upper fuel fs a files a' /\ a_symtab a' = tab /\
    a_verbose a' = a_verbose a /\ a_context a' = a_context a /\ a_records a' = a_records a /\ a_errors a' = a_errors a.
Proof.
  induction files as [|f files IH]; intros tab0 ns0 tab ns a H E.
  - cbn [fold_r] in H. exists a. split; [constructor|]. split; [congruence|]. auto.
  - cbn [fold_r fst snd] in H. destruct (build_symbol_table upper fuel fs f tab0) as [[t1 n1]|e] eqn:EB; cbn [bind] in H; [|discriminate].
    cbn [fst snd] in H.
    destruct (IH t1 (ns0 ++ [n1]) tab ns (mkasm (a_verbose a) t1 (a_context a) (a_records a) (a_errors a) (a_passnum a) (a_srcfile a) (a_linenum a)) H eq_refl)
      as (a' & C & T & V). exists a'. split; [|split; [exact T|exact V]].
    econstructor; [|exact C]. unfold asm_create_symtab. pose proof (table_run upper fuel fs f tab0) as TR. rewrite EB in TR.
    destruct TR as (ms & TR & _). rewrite E, TR. reflexivity.
Qed.
Lemma C106_create_pf : forall upper fuel fs verbose files css, Forall2 (source_cards fuel fs) files css -> plain_names files ->
  exists a, creates upper fuel fs (asm_new verbose) files a /\
    (forall s, In s (dkeys (a_symtab a)) <-> is_defined upper css s) /\
    (forall t s u k e, get4 (a_symtab a) t s u k = Some e <-> defined_as upper files css t s u k e) /\
    a_verbose a = verbose /\ a_errors a = None.
Proof.
  intros upper fuel fs v files css F PN. destruct (build_files upper fuel fs files css F PN) as (tab & ns & E & _ & _ & _ & K & G).
  destruct (creates_build upper fuel fs files _ _ _ _ (asm_new v) E eq_refl) as (a & C & T & V & _ & _ & X).
  exists a. split; [exact C|]. rewrite T. split; [exact K|]. split; [exact G|]. split; [exact V|exact X].
Qed.
(*@ Example C106_create_ex :
  let fs := fun f => if eqb f (lit "p.a") then Some (lit "        A          DEC          1" ++ [10])
                     else if eqb f (lit "q.a") then Some (lit "        B          DEC          1" ++ [10]) else None in
  let a1 := fst (asm_create_symtab (fun s => s) 2 fs (asm_new true) (lit "p.a")) in
  let a2 := fst (asm_create_symtab (fun s => s) 2 fs a1 (lit "q.a")) in
  dkeys (a_symtab a2) = [lit "A"; lit "B"].
Proof. vm_compute. reflexivity. Qed. @*)

Lemma C113_create_partial_pf : forall upper fuel fs a f a' e,
  asm_create_symtab upper fuel fs a f = (a', Err e) -> ~ (exists cs, source_cards fuel fs f cs) -> a' = a.
Proof.
  intros upper fuel fs a f a' e H N. unfold asm_create_symtab in H.
  destruct (build_table_run upper fuel fs f (a_symtab a)) as [[ms tab] r] eqn:E. destruct r as [n|x]; [discriminate|].
  assert (EA := f_equal fst H). cbn [fst] in EA. subst a'.
  destruct (C113_left_partial_pf _ _ _ _ _ _ _ _ E) as [(_ & _ & ->)|(seg & cs & _ & _ & _ & _ & SC & _)]; [|destruct N; eauto].
  destruct a; reflexivity.
Qed.
(*@ Example C113_create_partial_ex :
  let fs := fun f => if eqb f (lit "p.a") then Some (lit "        A          DEC          1" ++ [10]) else None in
  let a1 := fst (asm_create_symtab (fun s => s) 2 fs (asm_new true) (lit "p.a")) in
  asm_create_symtab (fun s => s) 2 fs a1 (lit "q.a") = (a1, Err SystemExit).
Proof. vm_compute. reflexivity. Qed. @*)

(** *** C107 assemble *)
Lemma C107_assemble_pf : forall fs a srcfile, exists a' r, asm_assemble fs a srcfile = (a', r) /\
  (r = Ok tt <-> fs srcfile <> None) /\ (fs srcfile = None -> r = Err OSError) /\
  a_symtab a' = a_symtab a /\ a_errors a' = a_errors a /\ a_records a' = a_records a /\ a_context a' = a_context a /\
  a_srcfile a' = Some srcfile /\ a_linenum a' = Some 0.
Proof.
  intros fs a f. unfold asm_assemble. destruct (fs f) as [content|]; do 2 eexists; (split; [reflexivity|]).
  - split; [split; [discriminate|reflexivity]|]. split; [discriminate|]. repeat split.
  - split; [split; [discriminate|intros X; contradiction]|]. split; [reflexivity|]. repeat split.
Qed.
(*@ Example C107_assemble_ex :
  snd (asm_assemble (fun _ => None) (asm_new false) (lit "p.a")) = Err OSError /\ a_srcfile (fst (asm_assemble (fun _ => Some (lit "X")) (asm_new false) (lit "p.a"))) = Some (lit "p.a").
Proof. split; reflexivity. Qed. @*)
