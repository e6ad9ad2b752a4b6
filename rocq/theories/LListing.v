From Coq Require Import ZArith List Bool Lia Permutation Sorted.
From Verif Require Import Py LPy LSort MInstruction MInstructions SInstruction LInstruction LInstructions SListing.
#[local] Arguments Z.add : simpl never.
#[local] Arguments Z.sub : simpl never.
#[local] Arguments Z.mul : simpl never.
#[local] Arguments Z.pow : simpl never.

Lemma collect_ok l : (forall r, In r l -> exists x, r = Ok x) ->
  exists out, collect l = Ok out /\ forall k, In k out <-> In (Ok k) l.
Proof.
  induction l as [|r l IH]; intros H.
  - exists []. split; [reflexivity|]. intros k. cbn. tauto.
  - destruct (H r (or_introl eq_refl)) as [x ->].
    destruct IH as (out & E & I); [intros q Q; apply H; right; exact Q|].
    exists (x :: out). cbn [collect bind]. rewrite E. split; [reflexivity|].
    intros k. cbn [In]. rewrite I. split; intros [Q|Q]; auto; left; congruence.
Qed.
Lemma bits2_In s : In s bits2 <-> is_bit s.
Proof. unfold bits2. rewrite py_range_In. unfold is_bit. lia. Qed.

Lemma make_ok m o : dget OPCODES m = Some o -> 
  (forall b7 op, o_b7 o = Some b7 -> o_op o = Some op ->
     (forall s k, exists v, make_masked_opcode m s k = Ok v) /\
     (forall p, exists v, make_peripheral_opcode m p = Ok v) /\
     (forall s a b c, exists v, make_print_opcode m s a b c = Ok v)) /\
  (forall b23 op, o_b23 o = Some b23 -> o_op o = Some op ->
     (forall s a b c, exists v, make_unmasked_opcode m s a b c = Ok v)).
Proof.
  intros D. unfold make_masked_opcode, make_peripheral_opcode, make_print_opcode, make_unmasked_opcode, dindex.
  rewrite D. cbn [bind]. split.
  - intros b7 op -> ->. cbn [need bind]. repeat split; intros; eauto.
  - intros b23 op -> ->. cbn [need bind]. eauto.
Qed.

Definition complete_opcode (o : opcode) : bool :=
  given (o_op o) &&
  (eqb (o_type o) (lit "unmasked") && given (o_b23 o)
   || inb (o_type o) (map lit ["maskable"; "peripheral"; "print"]%string) && given (o_b7 o)
   || eqb (o_type o) (lit "simulator")).
Lemma opcodes_complete : forallb (fun mo => complete_opcode (snd mo)) OPCODES = true.
Proof. vm_compute. reflexivity. Qed.

Lemma gen_codes_ok m o : In (m, o) OPCODES ->
  exists l, gen_codes (m, o) = Ok l /\ forall k, In k l <-> produces m k.
Proof.
  intros I. pose proof (In_dget OPCODES m o opcodes_NoDup I) as D.
  pose proof (in_table _ _ _ opcodes_complete I) as C. cbn [snd] in C. unfold complete_opcode in C.
  destruct (make_ok m o D) as [M1 M2].
  destruct (o_op o) as [op|]; [|discriminate]. cbn [given andb] in C.
  assert (U : forall k, produces m k <->
    (type_is o "maskable" /\ (exists s x, is_bit s /\ 0 <= x <= 31 /\ make_masked_opcode m s x = Ok k) \/
     type_is o "unmasked" /\ (exists s a b c, is_bit s /\ is_bit a /\ is_bit b /\ is_bit c /\
                                make_unmasked_opcode m s a b c = Ok k) \/
     type_is o "peripheral" /\ (exists p, 0 <= p <= 63 /\ make_peripheral_opcode m p = Ok k) \/
     type_is o "print" /\ m = lit "PRD" /\
        (exists s a b c, is_bit s /\ is_bit a /\ is_bit b /\ is_bit c /\ make_print_opcode m s a b c = Ok k) \/
     type_is o "simulator" /\ (exists s, is_bit s /\ k = 7 + 2048 * s))).
  { intros k. split.
    - intros (o' & I' & P). pose proof (In_dget OPCODES m o' opcodes_NoDup I') as D'.
      assert (o' = o) by congruence. subst o'. exact P.
    - intros P. exists o. auto. }
  unfold gen_codes. unfold type_is in U.
  assert (Q4 : forall f : Z -> Z -> Z -> Z -> res Z, (forall s a b c, exists v, f s a b c = Ok v) ->
    exists l, collect (flat_map (fun i => flat_map (fun j => flat_map (fun k =>
             map (fun l => f i j k l) bits2) bits2) bits2) bits2) = Ok l /\
      forall k, In k l <-> exists s a b c, is_bit s /\ is_bit a /\ is_bit b /\ is_bit c /\ f s a b c = Ok k).
  { intros f F. edestruct collect_ok as (l & E & J); [|exists l; split; [exact E|]].
    - intros r R. apply in_flat_map in R. destruct R as (s & _ & R). apply in_flat_map in R.
      destruct R as (a & _ & R). apply in_flat_map in R. destruct R as (b & _ & R).
      apply in_map_iff in R. destruct R as (c & R & _). destruct (F s a b c) as [v V].
      exists v. congruence.
    - intros k. rewrite J. split.
      + intros R. apply in_flat_map in R. destruct R as (s & Is & R). apply in_flat_map in R.
        destruct R as (a & Ia & R). apply in_flat_map in R. destruct R as (b & Ib & R).
        apply in_map_iff in R. destruct R as (c & R & Ic).
        apply bits2_In in Is, Ia, Ib, Ic. exists s, a, b, c. auto.
      + intros (s & a & b & c & Is & Ia & Ib & Ic & R). apply bits2_In in Is, Ia, Ib, Ic.
        apply in_flat_map. exists s. split; [exact Is|]. apply in_flat_map. exists a. split; [exact Ia|].
        apply in_flat_map. exists b. split; [exact Ib|]. apply in_map_iff. exists c. auto. }
  assert (T : o_type o = lit "unmasked" /\ given (o_b23 o) = true \/
    (o_type o = lit "maskable" \/ o_type o = lit "peripheral" \/ o_type o = lit "print") /\ given (o_b7 o) = true \/
    o_type o = lit "simulator").
  { unfold inb in C. cbn [map existsb] in C. rewrite !orb_true_iff, !andb_true_iff, !orb_true_iff, !eqb_ok in C.
    intuition congruence. }
  assert (L : forall a b : string, lit a = lit b -> eqb (lit a) (lit b) = true).
  { intros a b ->. apply eqb_refl. }
  destruct T as [[T G]|[[[T|[T|T]] G]|T]]; rewrite T in U |- *;
    repeat match goal with |- context [eqb (lit ?a) (lit ?b)] =>
      let v := eval vm_compute in (eqb (lit a) (lit b)) in
      change (eqb (lit a) (lit b)) with v end; cbv iota.
  - destruct (o_b23 o) as [b23|]; [|discriminate].
    destruct (Q4 (make_unmasked_opcode m)) as (l & E & J); [exact (M2 b23 op eq_refl eq_refl)|].
    exists l. split; [exact E|]. intros k. rewrite J, U. split; [intros Q; right; left; auto|].
    intros [[Q _]|[[_ Q]|[[Q _]|[[Q _]|[Q _]]]]]; try discriminate Q; exact Q.
  - destruct (o_b7 o) as [b7|]; [|discriminate]. destruct (M1 b7 op eq_refl eq_refl) as (M3 & _ & _).
    edestruct collect_ok as (l & E & J); [|exists l; split; [exact E|]].
    + intros r R. apply in_flat_map in R. destruct R as (s & _ & R). apply in_map_iff in R.
      destruct R as (x & R & _). destruct (M3 s x) as [v V]. exists v. congruence.
    + intros k. rewrite J, U. split.
      * intros R. left. split; [reflexivity|]. apply in_flat_map in R. destruct R as (s & Is & R).
        apply in_map_iff in R. destruct R as (x & R & Ix). apply bits2_In in Is. apply py_range_In in Ix.
        exists s, x. split; [exact Is|]. split; [lia|exact R].
      * intros [[_ (s & x & Is & Ix & R)]|[[Q _]|[[Q _]|[[Q _]|[Q _]]]]]; try discriminate Q.
        apply bits2_In in Is. apply in_flat_map. exists s. split; [exact Is|]. apply in_map_iff.
        exists x. split; [exact R|]. apply py_range_In. lia.
  - destruct (o_b7 o) as [b7|]; [|discriminate]. destruct (M1 b7 op eq_refl eq_refl) as (_ & M3 & _).
    edestruct collect_ok as (l & E & J); [|exists l; split; [exact E|]].
    + intros r R. apply in_map_iff in R. destruct R as (x & R & _). destruct (M3 x) as [v V].
      exists v. congruence.
    + intros k. rewrite J, U. split.
      * intros R. apply in_map_iff in R. destruct R as (x & R & Ix). apply py_range_In in Ix.
        right; right; left. split; [reflexivity|]. exists x. split; [lia|exact R].
      * intros [[Q _]|[[Q _]|[[_ (p & Ip & R)]|[[Q _]|[Q _]]]]]; try discriminate Q.
        apply in_map_iff. exists p. split; [exact R|]. apply py_range_In. lia.
  - destruct (o_b7 o) as [b7|]; [|discriminate]. destruct (M1 b7 op eq_refl eq_refl) as (_ & _ & M3).
    destruct (eqb m (lit "PRD")) eqn:PR.
    + apply eqb_ok in PR.
      destruct (Q4 (make_print_opcode m) M3) as (l & E & J).
      exists l. split; [exact E|]. intros k. rewrite J, U.
      split; [intros Q; right; right; right; left; auto|].
      intros [[Q _]|[[Q _]|[[Q _]|[(_ & _ & Q)|[Q _]]]]]; try discriminate Q; exact Q.
    + exists []. split; [reflexivity|]. intros k. rewrite U. split; [intros []|].
      intros [[Q _]|[[Q _]|[[Q _]|[(_ & Q & _)|[Q _]]]]]; try discriminate Q.
      rewrite Q, eqb_refl in PR. discriminate.
  - exists [7; 2055]. split; [reflexivity|]. intros k. rewrite U. cbn [In]. split.
    + intros R. do 4 right. split; [reflexivity|]. unfold is_bit.
      destruct R as [<-|[<-|[]]]; [exists 0|exists 1]; split; lia.
    + intros [[Q _]|[[Q _]|[[Q _]|[(Q & _)|[_ (s & Is & Q)]]]]]; try discriminate Q.
      unfold is_bit in Is. lia.
Qed.

Lemma all_codes_ok d : (forall m o, In (m, o) d -> In (m, o) OPCODES) ->
  exists out, all_codes d = Ok out /\
    (forall m l, In (m, l) out -> exists o, In (m, o) d /\ forall k, In k l <-> produces m k) /\
    (forall m o, In (m, o) d -> exists l, In (m, l) out).
Proof.
  induction d as [|[m o] d IH]; intros H.
  - exists []. split; [reflexivity|]. split; intros ? ? [].
  - destruct (gen_codes_ok m o) as (l & E & J); [apply H; left; reflexivity|].
    destruct IH as (out & E' & I1 & I2); [intros; apply H; right; assumption|].
    exists ((m, l) :: out). cbn [all_codes]. rewrite E. cbn [bind]. rewrite E'. cbn [bind fst].
    split; [reflexivity|]. split.
    + intros m' l' [[= <- <-]|I].
      * exists o. split; [left; reflexivity|exact J].
      * destruct (I1 _ _ I) as (o' & I' & J'). exists o'. split; [right; exact I'|exact J'].
    + intros m' o' [[= <- <-]|I].
      * exists l. left. reflexivity.
      * destruct (I2 _ _ I) as (l' & I'). exists l'. right. exact I'.
Qed.

(** the dict code -> mnemonic *)
Lemma fold_dset_const (m : str) vs : forall mp : dict Z str,
  NoDup (dkeys mp) ->
  let mp' := fold_left (fun mp v => dset mp v m) vs mp in
  NoDup (dkeys mp') /\
  forall k, (In k vs -> dget mp' k = Some m) /\ (~ In k vs -> dget mp' k = dget mp k).
Proof.
  induction vs as [|v vs IH]; intros mp ND; cbn [fold_left]; cbv zeta.
  - split; [exact ND|]. intros k. split; [intros []|reflexivity].
  - destruct (IH (dset mp v m)) as [N' J]; [apply dset_NoDup; exact ND|]. split; [exact N'|].
    intros k. destruct (J k) as [J1 J2].
    destruct (in_dec Z.eq_dec k vs) as [I|I].
    + split; [intros _; apply J1; exact I|]. intros NI. exfalso. apply NI. right. exact I.
    + rewrite J2 by exact I. split.
      * intros [->|Q]; [|contradiction]. rewrite dget_dset_eq. reflexivity.
      * intros NI. rewrite dget_dset_ne; [reflexivity|]. intros ->. apply NI. left. reflexivity.
Qed.
Lemma opmap_ok (d : dict str (list Z)) : forall mp : dict Z str, NoDup (dkeys mp) ->
  let mp' := fold_left (fun mp ml => fold_left (fun mp v => dset mp v (fst ml)) (sort_by Z.leb (snd ml)) mp) d mp in
  NoDup (dkeys mp') /\
  (forall k m, dget mp' k = Some m -> dget mp k = Some m \/ exists l, In (m, l) d /\ In k l) /\
  (forall k, (exists m l, In (m, l) d /\ In k l) \/ dget mp k <> None -> dget mp' k <> None).
Proof.
  induction d as [|[m l] d IH]; intros mp ND; cbn [fold_left]; cbv zeta.
  - split; [exact ND|]. split; [auto|]. intros k [(m & l & [] & _)|H]; exact H.
  - cbn [fst snd]. destruct (fold_dset_const m (sort_by Z.leb l) mp ND) as [N1 J1].
    destruct (IH _ N1) as (N2 & J2 & J3). split; [exact N2|]. split.
    + intros k m' H. destruct (J2 k m' H) as [H'|(l' & I & K)].
      * destruct (J1 k) as [A B]. destruct (in_dec Z.eq_dec k (sort_by Z.leb l)) as [I|I].
        -- rewrite A in H' by exact I. injection H' as <-. right. exists l. split; [left; reflexivity|].
           apply sort_In in I. exact I.
        -- rewrite B in H' by exact I. auto.
      * right. exists l'. split; [right; exact I|exact K].
    + intros k H. apply J3. destruct H as [(m' & l' & [[= <- <-]|I] & K)|H].
      * right. destruct (J1 k) as [A _]. rewrite A; [discriminate|]. apply sort_In. exact K.
      * left. eauto.
      * right. destruct (J1 k) as [A B]. destruct (in_dec Z.eq_dec k (sort_by Z.leb l)) as [I|I];
          [rewrite A by exact I; discriminate|rewrite B by exact I; exact H].
Qed.

Lemma listing_ok mp ks : (forall k, In k ks -> dget mp k <> None) ->
  exists es, listing mp ks = Ok (concat (map line es)) /\ map fst es = ks /\
    forall k m, In (k, m) es -> dget mp k = Some m.
Proof.
  induction ks as [|k ks IH]; intros H.
  - exists []. split; [reflexivity|]. split; [reflexivity|]. intros ? ? [].
  - destruct IH as (es & E & F & G); [intros q Q; apply H; right; exact Q|].
    destruct (dget mp k) as [m|] eqn:D; [|exfalso; exact (H k (or_introl eq_refl) D)].
    exists ((k, m) :: es). cbn [listing]. unfold dindex. rewrite D. cbn [bind]. rewrite E. cbn [bind].
    split; [|split].
    + cbn [map concat]. unfold line at 2. cbn [fst snd]. rewrite <- !app_assoc. reflexivity.
    + cbn [map fst]. rewrite F. reflexivity.
    + intros k' m' [[= <- <-]|I]; [exact D|exact (G _ _ I)].
Qed.

Lemma C52_listing_sound_complete_sorted_pf :
  exists es : list (Z * str),
    print_instructions = Ok (concat (map line es)) /\
    StronglySorted Z.lt (map fst es) /\
    (forall k, In k (map fst es) <-> exists m, produces m k) /\
    (forall k m, In (k, m) es -> produces m k).
Proof.
  unfold print_instructions.
  destruct (all_codes_ok OPCODES) as (d & E & I1 & I2); [auto|]. rewrite E. cbn [bind].
  destruct (opmap_ok d [] ltac:(constructor)) as (N & J1 & J2). cbv zeta. fold (opmap_of d) in N, J1, J2.
  destruct (listing_ok (opmap_of d) (sort_by Z.leb (dkeys (opmap_of d)))) as (es & L & F & G).
  { intros k K. apply sort_In in K. intros Q. apply dget_None in Q. contradiction. }
  exists es. split; [exact L|]. rewrite F. split; [apply zsort_lt; exact N|].
  assert (P : forall k m, dget (opmap_of d) k = Some m -> produces m k).
  { intros k m H. destruct (J1 k m H) as [Q|(l & I & K)]; [discriminate|].
    destruct (I1 _ _ I) as (o & _ & J). apply J. exact K. }
  split.
  - intros k. rewrite sort_In. split.
    + intros H. destruct (dget (opmap_of d) k) as [m|] eqn:D; [exists m; apply P; exact D|].
      apply dget_None in D. contradiction.
    + intros [m H]. assert (Q : dget (opmap_of d) k <> None).
      { apply J2. left. destruct H as (o & I & H). destruct (I2 _ _ I) as (l & Il).
        exists m, l. split; [exact Il|]. destruct (I1 _ _ Il) as (o' & I' & J). apply J. exists o. auto. }
      destruct (dget (opmap_of d) k) as [m'|] eqn:D; [|congruence].
      apply dget_Some_In in D. apply in_map_iff. exists (k, m'). auto.
  - intros k m I. apply P. exact (G _ _ I).
Qed.
(*@
(** 0o0001 is listed, as FBAE; 0o0002 is no command code *)
Example C52_example : produces (lit "FBAE") 1.
Proof.
  exists (mkopcode (lit "FBAE") (lit "FloatingBinaryAddExtendedPrecision") (Some 0) (Some 0) (Some 1) (lit "unmasked")).
  split; [apply dget_Some_In; vm_compute; reflexivity|]. right; left. split; [reflexivity|].
  exists 0, 0, 0, 0. unfold is_bit. repeat split; auto.
Qed.
@*)

Lemma C52_listing_is_opcodes_txt_pf : print_instructions = Ok (lit opcodes_txt).
Proof. vm_compute. reflexivity. Qed.
(*@
Example C52_file_example : zlen (lit opcodes_txt) = 19458 /\ count_char 10 (lit opcodes_txt) = 1890.
Proof. vm_compute. auto. Qed.
@*)
