(** Programs in memory: C183. *)
From Verif Require Import Py LPy MBitField MWord LWord MMemory SMemory LMemory MInstruction MInstructions SInstruction LInstruction LInstructions SManual LManual SProgram.
#[local] Arguments Z.add : simpl never.
#[local] Arguments Z.sub : simpl never.
#[local] Arguments Z.mul : simpl never.
#[local] Arguments Z.pow : simpl never.

Lemma class_value c k i : class_call c k = Ok i -> 0 <= instr_value i < 4096.
Proof.
  intros H. destruct (dget CLASSES c) as [[sg m]|] eqn:D; [|unfold class_call in H; rewrite D in H; discriminate].
  apply dget_Some_In in D. destruct (class_call_cases _ _ _ _ _ D H) as (o & x & _ & N & _).
  exact (proj1 (C45_fields_read_back_pf o x i N)).
Qed.
Lemma assembled_value p v : 0 <= p_a p < 4096 -> 0 <= p_b p < 4096 -> 0 <= p_c p < 4096 -> assembled p v ->
  exists i, class_call (p_class p) (p_args p) = Ok i /\ 0 <= instr_value i < 4096 /\ v = instr_value i * 2 ^ 36 + p_a p * 2 ^ 24 + p_b p * 2 ^ 12 + p_c p.
Proof.
  intros A B C (i & w & CC & E & ->). exists i. split; [exact CC|]. pose proof (class_value _ _ _ CC) as R. split; [exact R|].
  destruct (C21_instruction_word_packing_pf _ _ _ _ R A B C) as (w' & E' & V & _). rewrite E in E'. injection E' as <-. exact V.
Qed.
Lemma digits x a b c : 0 <= x < 4096 -> 0 <= a < 4096 -> 0 <= b < 4096 -> 0 <= c < 4096 ->
  let v := x * 2 ^ 36 + a * 2 ^ 24 + b * 2 ^ 12 + c in
  0 <= v < 2 ^ 48 /\ v / 2 ^ 36 = x /\ (v / 2 ^ 24) mod 4096 = a /\ (v / 2 ^ 12) mod 4096 = b /\ v mod 4096 = c.
Proof.
  intros X A B C. cbv zeta. change (2 ^ 48) with 281474976710656. change (2 ^ 36) with 68719476736. change (2 ^ 24) with 16777216. change (2 ^ 12) with 4096.
  split; [lia|]. set (v := _ + _).
  assert (E1 : v / 4096 = x * 16777216 + a * 4096 + b) by (symmetry; apply (Z.div_unique_pos v 4096 _ c); subst v; lia).
  assert (E2 : v / 16777216 = x * 4096 + a) by (symmetry; apply (Z.div_unique_pos v 16777216 _ (b * 4096 + c)); subst v; lia).
  assert (E3 : v / 68719476736 = x) by (symmetry; apply (Z.div_unique_pos v 68719476736 _ (a * 16777216 + b * 4096 + c)); subst v; lia).
  rewrite E1, E2, E3. split; [reflexivity|]. split; [|split].
  - symmetry. apply (Z.mod_unique_pos _ _ x); lia.
  - symmetry. apply (Z.mod_unique_pos _ _ (x * 4096 + a)); lia.
  - symmetry. apply (Z.mod_unique_pos _ _ (x * 16777216 + a * 4096 + b)); subst v; lia.
Qed.
Lemma spares_cell c a s : spares c a -> cells (fst (smem_call s c)) a = cells s a.
Proof.
  assert (ST : forall f lo hi v, ~ (lo <= a < hi) -> store f lo hi v a = f a).
  { intros f lo hi v N. unfold store. destruct (Z.leb_spec lo a), (Z.ltb_spec a hi); cbn [andb]; try reflexivity. lia. }
  destruct c as [[i|[lo|] [hi|]]|[i|[lo|] [hi|]] v| | | |i v]; cbn [spares smem_call]; intros H; try reflexivity; try contradiction.
  - destruct (negb (good_addr i)); [reflexivity|]. destruct (negb (good_value v)); [reflexivity|]. cbn [fst cells]. apply ST. lia.
  - destruct (hi <=? lo); [reflexivity|]. destruct (negb (good_addr lo)); [reflexivity|]. destruct (negb (good_value v)); [reflexivity|]. cbn [fst cells]. apply ST. lia.
  - destruct (cursor s <? 2048); reflexivity.
  - destruct (negb (good_addr i)); [reflexivity|]. destruct (negb (good_value v)); [reflexivity|]. cbn [fst cells]. apply ST. lia.
Qed.
Lemma spares_run cs a : forall s, Forall (fun c => spares c a) cs -> cells (smem_run s cs) a = cells s a.
Proof.
  unfold smem_run. induction cs as [|c cs IH]; intros s F; [reflexivity|]. inversion F; subst. cbn [fold_left]. rewrite IH by assumption. apply spares_cell. assumption.
Qed.
Lemma calls_app i a b : calls_to i (a ++ b) = calls_to i a ++ calls_to i b.
Proof. unfold calls_to. rewrite filter_app, map_app. reflexivity. Qed.
Lemma calls_In i cs c : In c (calls_to i cs) <-> In (i, c) cs.
Proof.
  unfold calls_to. rewrite in_map_iff. split.
  - intros ([j d] & <- & I). apply filter_In in I. destruct I as [I E]. cbn [fst] in E. apply Z.eqb_eq in E. subst j. exact I.
  - intros I. exists (i, c). split; [reflexivity|]. apply filter_In. split; [exact I|]. cbn [fst]. apply Z.eqb_refl.
Qed.

Lemma C183_read_back_pf : forall n, n = 4 \/ n = 8 -> exists m, module_new n = Ok m /\
  forall before prog stores after, Forall (fits n) prog -> NoDup (map place_of prog) -> Forall2 storing prog stores ->
    (forall p c, In p prog -> In (p_bank p, c) after -> spares c (p_addr p)) ->
    forall p, In p prog -> exists v i w0 w, assembled p v /\
      snd (module_call (module_run m (before ++ stores ++ after)) (p_bank p) (MGet (Idx (p_addr p)))) = Ok [v] /\
      class_call (p_class p) (p_args p) = Ok i /\ iw_new 0 0 0 0 = Ok w0 /\ iw_set_value w0 v = (w, Ok tt) /\
      iw_get w Command = Ok (instr_value i) /\ iw_get w FA = Ok (p_a p) /\ iw_get w FB = Ok (p_b p) /\ iw_get w FC = Ok (p_c p).
Proof.
  intros n Hn. destruct (C30_modules_pf n Hn) as (m & b & E & EB & H). exists m. split; [exact E|].
  destruct C25_bank_is_array_pf as (b' & EB' & _ & G). rewrite EB in EB'. injection EB' as <-.
  intros before prog stores after FI ND ST SP p I.
  pose proof (proj1 (Forall_forall _ _) FI p I) as (RB & RA & Ra & Rb & Rc).
  (* the store of p, and those before and after it *)
  assert (X : exists s1 s2 v, stores = s1 ++ (p_bank p, MSet (Idx (p_addr p)) v) :: s2 /\ assembled p v /\ Forall (fun c => spares c (p_addr p)) (calls_to (p_bank p) s2)).
  { clear - ND ST I. induction ST as [|q c prog stores S0 ST IH]; [destruct I|]. cbn [map] in ND. inversion ND as [|? ? N ND']; subst. destruct I as [->|I].
    - destruct S0 as (v & A & ->). exists [], stores, v. split; [reflexivity|]. split; [exact A|]. apply Forall_forall. intros c J. apply calls_In in J.
      assert (Q : exists q, In q prog /\ storing q (p_bank p, c)).
      { clear - ST J. induction ST as [|q d prog stores S0 _ IH]; [destruct J|]. destruct J as [->|J]; [exists q; split; [left; reflexivity|exact S0]|].
        destruct (IH J) as (r & R & S). exists r. split; [right; exact R|exact S]. }
      destruct Q as (q & J' & w & _ & Q). injection Q as QB ->. cbn [spares]. intros QA. apply N. apply in_map_iff. exists q. split; [|exact J'].
      unfold place_of. congruence.
    - destruct (IH ND' I) as (s1 & s2 & v & -> & A). exists (c :: s1), s2, v. split; [reflexivity|exact A]. }
  destruct X as (s1 & s2 & v & -> & A & F2).
  destruct (assembled_value p v Ra Rb Rc A) as (i & CC & Ri & V). destruct (digits _ _ _ _ Ri Ra Rb Rc) as (RV & D1 & D2 & D3 & D4). rewrite <- V in RV, D1, D2, D3, D4.
  destruct (C21_value_digits_pf 0 0 0 0 v) as (w0 & W0 & GS); try lia. cbv zeta in GS.
  destruct (iw_new_IR 0 0 0 0) as (w0' & W0' & IR0); try lia. rewrite W0 in W0'. injection W0' as <-.
  destruct (IR_set_value w0 _ v IR0) as [OKV _].
  exists v, i, w0, (fst (iw_set_value w0 v)). split; [exact A|]. split.
  - set (cs := before ++ _). destruct (H cs) as (_ & _ & _ & DI & _). unfold module_call. rewrite (DI _ RB). cbn [bank_call].
    rewrite (G (calls_to (p_bank p) cs) _ RA). cbn [snd]. do 2 f_equal.
    subst cs. rewrite calls_app, <- app_assoc, calls_app, <- app_comm_cons.
    replace (calls_to (p_bank p) ((p_bank p, MSet (Idx (p_addr p)) v) :: s2 ++ after)) with (MSet (Idx (p_addr p)) v :: calls_to (p_bank p) s2 ++ calls_to (p_bank p) after)
      by (rewrite <- calls_app; unfold calls_to; cbn [filter fst]; rewrite Z.eqb_refl; reflexivity).
    unfold smem_run. rewrite !fold_left_app. cbn [fold_left]. rewrite <- fold_left_app. change (fold_left (fun s c => fst (smem_call s c)) ?l ?s) with (smem_run s l).
    rewrite spares_run.
    + cbn [smem_call]. unfold good_addr, good_value. rewrite (proj2 (Z.leb_le 0 (p_addr p))), (proj2 (Z.ltb_lt (p_addr p) 2048)), (proj2 (Z.leb_le 0 v)), (proj2 (Z.ltb_lt v (2 ^ 48))) by lia.
      cbn [andb negb fst cells]. unfold store. rewrite Z.leb_refl, (proj2 (Z.ltb_lt (p_addr p) (p_addr p + 1))) by lia. reflexivity.
    + apply Forall_app. split; [exact F2|]. apply Forall_forall. intros c J. apply calls_In in J. exact (SP p c I J).
  - split; [exact CC|]. split; [exact W0|]. rewrite D1, D2, D3, D4 in GS. destruct (iw_set_value w0 v) as [w r]. cbn [fst snd] in *. split; [|exact GS].
    rewrite OKV, (proj2 (Z.leb_le 0 v)), (proj2 (Z.ltb_lt v (2 ^ 48))) by lia. reflexivity.
Qed.
(*@ Example C183_read_back_ex :
  let p := mkplaced 1 100 (lit "DecimalAdd") (mkkw (arg 1) (arg 19) None None None None) 1 2 3 in
  let q := mkplaced 3 2047 (lit "MultipleTransfer") (mkkw (arg 1) None (arg 1) (arg 0) (arg 1) None) 4095 0 7 in
  match module_new 4, call_masked "DecimalAdd" 1 19, call_unmasked "MultipleTransfer" 1 1 0 1 with
  | Ok m, Ok i, Ok j =>
      let v := instr_value i * 2 ^ 36 + 2 ^ 24 + 2 * 2 ^ 12 + 3 in
      let u := instr_value j * 2 ^ 36 + 4095 * 2 ^ 24 + 7 in
      Forall (fits 4) [p; q] /\ NoDup (map place_of [p; q]) /\
      Forall2 storing [p; q] [(1, MSet (Idx 100) v); (3, MSet (Idx 2047) u)] /\
      snd (module_call (module_run m [(1, MClear); (1, MSet (Idx 100) v); (3, MSet (Idx 2047) u); (3, MSet (Idx 100) 5); (1, MGet (Idx 100)); (0, MClear)]) 1 (MGet (Idx 100))) = Ok [v] /\
      snd (module_call (module_run m [(1, MClear); (1, MSet (Idx 100) v); (3, MSet (Idx 2047) u); (3, MSet (Idx 100) 5); (1, MGet (Idx 100)); (0, MClear)]) 3 (MGet (Idx 2047))) = Ok [u]
  | _, _, _ => False
  end.
Proof.
  cbv zeta. destruct (C30_modules_pf 4) as (m & b & M & B & H); [left; reflexivity|]. rewrite M.
  destruct C25_bank_is_array_pf as (b1 & B1 & _ & G). rewrite B in B1. injection B1 as <-.
  destruct (call_masked "DecimalAdd" 1 19) as [i|] eqn:I; [|vm_compute in I; discriminate].
  destruct (call_unmasked "MultipleTransfer" 1 1 0 1) as [j|] eqn:J; [|vm_compute in J; discriminate].
  assert (A1 : 0 <= instr_value i < 4096) by (vm_compute in I; injection I as <-; vm_compute; split; congruence).
  assert (A2 : 0 <= instr_value j < 4096) by (vm_compute in J; injection J as <-; vm_compute; split; congruence).
  split; [repeat (constructor; [unfold fits; cbn [p_bank p_addr p_a p_b p_c]; lia|]); constructor|].
  split; [constructor; [intros [X|[]]; discriminate X|constructor; [intros []|constructor]]|].
  split.
  { repeat (constructor; [eexists; split; [|reflexivity]|]); [| |constructor].
    - destruct (C21_instruction_word_packing_pf (instr_value i) 1 2 3) as (w & E & V & _); [lia..|]. exists i, w. split; [exact I|]. split; [exact E|]. rewrite V. lia.
    - destruct (C21_instruction_word_packing_pf (instr_value j) 4095 0 7) as (w & E & V & _); [lia..|]. exists j, w. split; [exact J|]. split; [exact E|]. rewrite V. lia. }
  vm_compute in I, J. injection I as <-. injection J as <-. unfold module_call.
  split; match goal with |- context [module_run m ?cs] => destruct (H cs) as (_ & _ & _ & D & _) end;
    [rewrite (D 1) by lia|rewrite (D 3) by lia]; cbn [bank_call snd]; rewrite G by lia; vm_compute; reflexivity.
Qed.
@*)

Lemma C183_decoded_pf : forall n p q v m1 sg1 m2 sg2, fits n p -> fits n q -> assembled p v -> assembled q v ->
  In (p_class p, (sg1, m1)) CLASSES -> In (p_class q, (sg2, m2)) CLASSES ->
  p_a p = p_a q /\ p_b p = p_b q /\ p_c p = p_c q /\ same_machine_instruction m1 (p_args p) m2 (p_args q).
Proof.
  intros n p q v m1 sg1 m2 sg2 (_ & _ & Ra & Rb & Rc) (_ & _ & Qa & Qb & Qc) A B C1 C2.
  destruct (assembled_value p v Ra Rb Rc A) as (i & CC & Ri & V), (assembled_value q v Qa Qb Qc B) as (j & CC' & Rj & V').
  destruct (digits _ _ _ _ Ri Ra Rb Rc) as (_ & D1 & D2 & D3 & D4). destruct (digits _ _ _ _ Rj Qa Qb Qc) as (_ & E1 & E2 & E3 & E4).
  rewrite <- V in D1, D2, D3, D4. rewrite <- V' in E1, E2, E3, E4.
  split; [congruence|]. split; [congruence|]. split; [congruence|].
  apply (proj1 (C174_operation_code_pf _ _ _ _ _ _ _ _ _ _ C1 C2 CC CC')). congruence.
Qed.
(*@ Example C183_decoded_ex :
  let p := mkplaced 1 100 (lit "DecimalAdd") (mkkw (arg 1) (arg 19) None None None None) 1 2 3 in
  let q := mkplaced 3 2047 (lit "MultipleTransfer") (mkkw (arg 1) None (arg 1) (arg 0) (arg 1) None) 1 2 3 in
  exists v u, assembled p v /\ assembled q u /\ v <> u.
Proof.
  cbv zeta. destruct (call_masked "DecimalAdd" 1 19) as [i|] eqn:I; [|vm_compute in I; discriminate].
  destruct (call_unmasked "MultipleTransfer" 1 1 0 1) as [j|] eqn:J; [|vm_compute in J; discriminate].
  assert (A1 : 0 <= instr_value i < 4096) by (vm_compute in I; injection I as <-; vm_compute; split; congruence).
  assert (A2 : 0 <= instr_value j < 4096) by (vm_compute in J; injection J as <-; vm_compute; split; congruence).
  assert (N : instr_value i <> instr_value j) by (vm_compute in I, J; injection I as <-; injection J as <-; vm_compute; congruence).
  destruct (C21_instruction_word_packing_pf (instr_value i) 1 2 3) as (w & E & V & _); [lia..|].
  destruct (C21_instruction_word_packing_pf (instr_value j) 1 2 3) as (w' & E' & V' & _); [lia..|].
  exists (iw_value w), (iw_value w'). split; [exists i, w; auto|]. split; [exists j, w'; auto|]. rewrite V, V'. intros X. apply N. lia.
Qed.
@*)
