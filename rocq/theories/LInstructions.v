From Coq Require Import ZArith List Bool Lia.
From Verif Require Import Py LPy MBitField SBits LBits LBitField MWord SWord LWord MInstruction MInstructions SInstruction LInstruction.
#[local] Arguments Z.add : simpl never.
#[local] Arguments Z.sub : simpl never.
#[local] Arguments Z.mul : simpl never.
#[local] Arguments Z.pow : simpl never.

(** *** Table look-ups, decided once *)
Definition opt_is (o : option Z) (x : Z) : bool := match o with Some y => y =? x | None => false end.
Definition opt_in (o : option Z) (hi : Z) : bool :=
  match o with Some y => (0 <=? y) && (y <=? hi) | None => false end.
Definition sig_kind (s : signature) : Z :=
  match s with SigMaskableOpt | SigMaskable => 0 | SigUnmasked => 1 | SigPeripheral => 2
             | SigSimulator => 3 | SigProceed => 4 end.
Definition entry (kind : Z) (ty : string) (ok : opcode -> bool) (cm : string * string) : bool :=
  match dget CLASSES (lit (fst cm)), dget OPCODES (lit (snd cm)) with
  | Some (sg, m), Some o =>
      (sig_kind sg =? kind) && eqb m (lit (snd cm)) && eqb (o_type o) (lit ty) && opt_in (o_op o) 31 && ok o
  | _, _ => false
  end.
Lemma entry_ok kind ty ok cm : entry kind ty ok cm = true ->
  exists sg o op, dget CLASSES (lit (fst cm)) = Some (sg, lit (snd cm)) /\
    dget OPCODES (lit (snd cm)) = Some o /\ sig_kind sg = kind /\ o_type o = lit ty /\
    o_op o = Some op /\ 0 <= op <= 31 /\ ok o = true.
Proof.
  unfold entry. destruct (dget CLASSES _) as [[sg m]|]; [|discriminate].
  destruct (dget OPCODES _) as [o|]; [|discriminate]. intros H.
  repeat (apply andb_prop in H; destruct H as [H ?]).
  apply Z.eqb_eq in H. apply eqb_ok in H3, H2. subst m.
  destruct (o_op o) as [op|] eqn:O; [|discriminate].
  exists sg, o, op. cbn in H1. split; [reflexivity|]. split; [reflexivity|].
  split; [exact H|]. split; [exact H2|]. split; [exact O|]. split; [lia|assumption].
Qed.
Definition ok_maskable (o : opcode) := opt_is (o_b7 o) 1 && opt_is (o_b23 o) 2.
Definition ok_unmasked (o : opcode) := opt_is (o_b7 o) 0 && opt_in (o_b23 o) 3.
Definition ok_periph (o : opcode) := opt_is (o_b7 o) 1 && match o_b23 o with None => true | _ => false end.
Lemma maskable_table : forallb (entry 0 "maskable" ok_maskable) maskable_classes = true.
Proof. vm_compute. reflexivity. Qed.
Lemma unmasked_table : forallb (entry 1 "unmasked" ok_unmasked) unmasked_classes = true.
Proof. vm_compute. reflexivity. Qed.
Lemma print_table : forallb (entry 1 "print" ok_periph) print_classes = true.
Proof. vm_compute. reflexivity. Qed.
Lemma peripheral_table : forallb (entry 2 "peripheral" ok_periph) peripheral_classes = true.
Proof. vm_compute. reflexivity. Qed.

Lemma in_table {A} (f : A -> bool) l x : forallb f l = true -> In x l -> f x = true.
Proof. intros H I. rewrite forallb_forall in H. exact (H x I). Qed.
Lemma opt_is_eq o x : opt_is o x = true -> o = Some x.
Proof. destruct o; cbn; [|discriminate]. intros H. apply Z.eqb_eq in H. congruence. Qed.
Lemma opt_in_eq o hi : opt_in o hi = true -> exists x, o = Some x /\ 0 <= x <= hi.
Proof. destruct o; cbn; [|discriminate]. intros H. eexists. split; [reflexivity|lia]. Qed.

Lemma maskable_facts c m : In (c, m) maskable_classes ->
  exists sg o op, dget CLASSES (lit c) = Some (sg, lit m) /\ dget OPCODES (lit m) = Some o /\
    sig_kind sg = 0 /\ o_type o = lit "maskable" /\ o_op o = Some op /\ 0 <= op <= 31 /\
    o_b7 o = Some 1 /\ o_b23 o = Some 2.
Proof.
  intros H. apply (in_table _ _ _ maskable_table) in H.
  destruct (entry_ok _ _ _ _ H) as (sg & o & op & H1 & H2 & H3 & H4 & H5 & H6 & H7).
  apply andb_prop in H7. destruct H7 as [H7 H8]. apply opt_is_eq in H7, H8.
  exists sg, o, op. auto 10.
Qed.
Lemma unmasked_facts c m : In (c, m) unmasked_classes ->
  exists sg o op b23, dget CLASSES (lit c) = Some (sg, lit m) /\ dget OPCODES (lit m) = Some o /\
    sig_kind sg = 1 /\ o_type o = lit "unmasked" /\ o_op o = Some op /\ 0 <= op <= 31 /\
    o_b7 o = Some 0 /\ o_b23 o = Some b23 /\ 0 <= b23 <= 3.
Proof.
  intros H. apply (in_table _ _ _ unmasked_table) in H.
  destruct (entry_ok _ _ _ _ H) as (sg & o & op & H1 & H2 & H3 & H4 & H5 & H6 & H7).
  apply andb_prop in H7. destruct H7 as [H7 H8]. apply opt_is_eq in H7.
  destruct (opt_in_eq _ _ H8) as (b23 & H9 & H10). exists sg, o, op, b23. auto 10.
Qed.
Lemma periph_facts kind ty c m l :
  forallb (entry kind ty ok_periph) l = true -> In (c, m) l ->
  exists sg o op, dget CLASSES (lit c) = Some (sg, lit m) /\ dget OPCODES (lit m) = Some o /\
    sig_kind sg = kind /\ o_type o = lit ty /\ o_op o = Some op /\ 0 <= op <= 31 /\
    o_b7 o = Some 1 /\ o_b23 o = None.
Proof.
  intros T H. apply (in_table _ _ _ T) in H.
  destruct (entry_ok _ _ _ _ H) as (sg & o & op & H1 & H2 & H3 & H4 & H5 & H6 & H7).
  apply andb_prop in H7. destruct H7 as [H7 H8]. apply opt_is_eq in H7.
  exists sg, o, op. destruct (o_b23 o); [discriminate|]. auto 10.
Qed.

Lemma acceptable_dec o x : acceptable o x \/ ~ acceptable o x.
Proof.
  assert (D : forall q h, within q h \/ ~ within q h) by (intros q h; destruct (within_dec q h); auto).
  assert (E : forall q : option Z, q = None \/ q <> None) by (intros [?|]; [right|left]; congruence).
  assert (T : type_is o "maskable" \/ ~ type_is o "maskable").
  { unfold type_is. destruct (eqb (o_type o) (lit "maskable")) eqn:T.
    - left. apply eqb_ok. exact T.
    - right. intros H. rewrite H, eqb_refl in T. discriminate. }
  destruct (D (sequence x) 1); [|right; intros [A B C F]; tauto].
  destruct (D (arg_a x) 1); [|right; intros [A B C F]; tauto].
  destruct (D (arg_b x) 1); [|right; intros [A B C F]; tauto].
  destruct (D (arg_c x) 1); [|right; intros [A B C F]; tauto].
  destruct (D (mask x) 31); [|right; intros [A B C F]; tauto].
  destruct (D (paddr x) 63); [|right; intros [A B C F]; tauto].
  destruct (D (o_b7 o) 1); [|right; intros [A B C F]; tauto].
  destruct (D (o_b23 o) 3); [|right; intros [A B C F]; tauto].
  destruct (D (o_op o) 31); [|right; intros [A B C F]; tauto].
  assert (M : (mask x = None \/
     type_is o "maskable" /\ absent (arg_a x) /\ absent (arg_b x) /\ absent (arg_c x) /\ absent (paddr x))
     \/ ~ (mask x = None \/
     type_is o "maskable" /\ absent (arg_a x) /\ absent (arg_b x) /\ absent (arg_c x) /\ absent (paddr x))).
  { unfold absent. destruct (E (mask x)), (E (arg_a x)), (E (arg_b x)), (E (arg_c x)), (E (paddr x)); tauto. }
  assert (P : (paddr x = None \/
     absent (sequence x) /\ absent (mask x) /\ absent (arg_a x) /\ absent (arg_b x) /\ absent (arg_c x))
     \/ ~ (paddr x = None \/
     absent (sequence x) /\ absent (mask x) /\ absent (arg_a x) /\ absent (arg_b x) /\ absent (arg_c x))).
  { unfold absent. destruct (E (mask x)), (E (arg_a x)), (E (arg_b x)), (E (arg_c x)), (E (paddr x)), (E (sequence x)); tauto. }
  destruct M as [M|M]; [|right; intros [A B C F]; tauto].
  destruct P as [P|P]; [|right; intros [A B C F]; tauto].
  left. split; tauto.
Qed.

(** *** C42-C44 *)
Lemma call_maskable sg c m o k :
  dget CLASSES (lit c) = Some (sg, lit m) -> dget OPCODES (lit m) = Some o -> sig_kind sg = 0 ->
  forall s, kw_sequence k = Some s -> kw_paddr k = None ->
  let d q := match q with Some v => v | None => None end in
  class_call (lit c) k = instr_new o (mkiargs s (d (kw_mask k)) (d (kw_a k)) (d (kw_b k)) (d (kw_c k)) None).
Proof.
  intros H1 H2 H3 s Hs Hp d. unfold class_call. rewrite H1. unfold dindex. rewrite H2. cbn [bind].
  destruct sg; try discriminate H3; rewrite Hp, Hs; reflexivity.
Qed.
Lemma carries_maskable o x : o_type o = lit "maskable" -> carries_bit7 o x = given (mask x).
Proof. intros T. unfold carries_bit7. rewrite T. destruct (mask x); reflexivity. Qed.

Lemma C42_masked_encoding_pf : forall c m s k,
  In (c, m) maskable_classes ->
  (is_bit s /\ 0 <= k <= 31 ->
     exists i op, call_masked c s k = Ok i /\ opnum m op /\ 0 <= op <= 31 /\
       instr_value i = s * 2048 + k * 64 + 32 + op /\
       make_masked_opcode (lit m) s k = Ok (instr_value i)) /\
  (~ (is_bit s /\ 0 <= k <= 31) -> call_masked c s k = Err ValueError).
Proof.
  intros c m s k H.
  destruct (maskable_facts _ _ H) as (sg & o & op & H1 & H2 & H3 & H4 & H5 & H6 & H7 & H8).
  unfold call_masked. rewrite (call_maskable _ _ _ _ _ H1 H2 H3 (Some s)) by reflexivity.
  cbn [kw_mask kw_a kw_b kw_c arg].
  set (x := mkiargs (Some s) (Some k) None None None None).
  assert (A : acceptable o x <-> is_bit s /\ 0 <= k <= 31).
  { split.
    - intros [(A1 & _) (A2 & _) _ _]. cbn in A1, A2. unfold is_bit. lia.
    - intros [B K]. unfold is_bit in B. split; unfold x; cbn [sequence mask arg_a arg_b arg_c paddr within].
      + lia.
      + split; [lia|]. right. unfold type_is, absent. tauto.
      + tauto.
      + rewrite H5, H7, H8. cbn. lia. }
  split.
  - intros B. apply A in B. destruct (instr_new_ok o x op B H5) as [E F]. rewrite E.
    eexists _, op. split; [reflexivity|]. split; [exists o; auto|]. split; [exact H6|].
    unfold instr_value. cbn [i_data]. cbn [ibits bf_value].
    unfold code. rewrite (carries_maskable _ _ H4). cbn [x sequence mask paddr given zero_or].
    rewrite H7, H5. cbn [zero_or]. split; [lia|].
    unfold make_masked_opcode, dindex. rewrite H2. cbn [bind]. rewrite H7, H5. cbn [need bind].
    f_equal; try lia.
  - intros B. apply (@instr_new_err o x op); [|exact H5]. intros Q. apply B, A, Q.
Qed.
(*@
(** BinaryAdd(sequence=1, mask=0o21).value is 0o6151; mask 32 and sequence 2 are rejected *)
Example C42_example :
  In ("BinaryAdd", "BA")%string maskable_classes /\
  match call_masked "BinaryAdd" 1 17 with Ok i => instr_value i = 3177 | Err _ => False end /\
  call_masked "BinaryAdd" 0 32 = Err ValueError /\ call_masked "CheckParity" 2 0 = Err ValueError.
Proof. split; [left; reflexivity|]. vm_compute. auto. Qed.
@*)

Lemma call_sig_unmasked sg c m o s a b d :
  dget CLASSES (lit c) = Some (sg, lit m) -> dget OPCODES (lit m) = Some o -> sig_kind sg = 0 \/ sig_kind sg = 1 ->
  call_unmasked c s a b d = instr_new o (mkiargs (Some s) None (Some a) (Some b) (Some d) None).
Proof.
  intros H1 H2 H3. unfold call_unmasked, class_call. rewrite H1. unfold dindex. rewrite H2. cbn [bind].
  destruct sg, H3; try discriminate; reflexivity.
Qed.
Lemma unmasked_call c m sg o op s a b d :
  dget CLASSES (lit c) = Some (sg, lit m) -> dget OPCODES (lit m) = Some o ->
  sig_kind sg = 0 \/ sig_kind sg = 1 -> o_op o = Some op -> 0 <= op <= 31 ->
  within (o_b7 o) 1 -> within (o_b23 o) 3 ->
  (is_bit s /\ is_bit a /\ is_bit b /\ is_bit d ->
     exists i, call_unmasked c s a b d = Ok i /\
       instr_value i = code o (mkiargs (Some s) None (Some a) (Some b) (Some d) None)) /\
  (~ (is_bit s /\ is_bit a /\ is_bit b /\ is_bit d) -> call_unmasked c s a b d = Err ValueError).
Proof.
  intros H1 H2 H3 H5 H6 H7 H8. rewrite (call_sig_unmasked _ _ _ _ _ _ _ _ H1 H2 H3).
  set (x := mkiargs (Some s) None (Some a) (Some b) (Some d) None).
  assert (A : acceptable o x <-> is_bit s /\ is_bit a /\ is_bit b /\ is_bit d).
  { split.
    - intros [A1 _ _ _]. cbn in A1. unfold is_bit. lia.
    - intros B. unfold is_bit in B.
      split; unfold x; cbn [sequence mask arg_a arg_b arg_c paddr within]; try tauto; [lia|].
      rewrite H5. cbn [within]. tauto. }
  split.
  - intros B. apply A in B. destruct (instr_new_ok o x op B H5) as [E F]. rewrite E.
    eexists. split; reflexivity.
  - intros B. apply (@instr_new_err o x op); [|exact H5]. intros Q. apply B, A, Q.
Qed.

Lemma C43_unmasked_encoding_pf : forall c m s a b d,
  In (c, m) (maskable_classes ++ unmasked_classes) ->
  (is_bit s /\ is_bit a /\ is_bit b /\ is_bit d ->
     exists i op b23, call_unmasked c s a b d = Ok i /\ opnum m op /\ 0 <= op <= 31 /\
       bits23 m b23 /\ 0 <= b23 <= 3 /\
       instr_value i = s * 2048 + b23 * 512 + a * 256 + b * 128 + d * 64 + op /\
       make_unmasked_opcode (lit m) s a b d = Ok (instr_value i)) /\
  (~ (is_bit s /\ is_bit a /\ is_bit b /\ is_bit d) -> call_unmasked c s a b d = Err ValueError).
Proof.
  intros c m s a b d H.
  assert (F : exists sg o op b23, dget CLASSES (lit c) = Some (sg, lit m) /\ dget OPCODES (lit m) = Some o /\
    (sig_kind sg = 0 \/ sig_kind sg = 1) /\ o_op o = Some op /\ 0 <= op <= 31 /\
    within (o_b7 o) 1 /\ o_b23 o = Some b23 /\ 0 <= b23 <= 3 /\
    forall x, mask x = None -> carries_bit7 o x = false).
  { apply in_app_or in H. destruct H as [H|H].
    - destruct (maskable_facts _ _ H) as (sg & o & op & H1 & H2 & H3 & H4 & H5 & H6 & H7 & H8).
      exists sg, o, op, 2. rewrite H7. cbn [within].
      do 2 (split; [assumption|]). split; [auto|]. do 2 (split; [assumption|]). split; [lia|].
      split; [assumption|]. split; [lia|].
      intros x Hx. rewrite (carries_maskable _ _ H4), Hx. reflexivity.
    - destruct (unmasked_facts _ _ H) as (sg & o & op & b23 & H1 & H2 & H3 & H4 & H5 & H6 & H7 & H8 & H9).
      exists sg, o, op, b23. rewrite H7. cbn [within].
      do 2 (split; [assumption|]). split; [auto|]. do 2 (split; [assumption|]). split; [lia|].
      split; [assumption|]. split; [lia|].
      intros x Hx. unfold carries_bit7. rewrite H4. reflexivity. }
  destruct F as (sg & o & op & b23 & H1 & H2 & H3 & H5 & H6 & H7 & H8 & H9 & H10).
  destruct (unmasked_call c m sg o op s a b d H1 H2 H3 H5 H6 H7) as [U1 U2].
  { rewrite H8. exact H9. }
  split; [|exact U2]. intros B. destruct (U1 B) as (i & E & V).
  exists i, op, b23. split; [exact E|]. split; [exists o; auto|]. split; [exact H6|].
  split; [exists o; auto|]. split; [exact H9|]. rewrite V. unfold code. rewrite H10 by reflexivity.
  cbn [sequence mask arg_a arg_b arg_c paddr zero_or]. rewrite H5, H8. cbn [zero_or].
  split; [lia|]. unfold make_unmasked_opcode, dindex. rewrite H2. cbn [bind]. rewrite H8, H5. cbn [need bind].
  f_equal; try lia.
Qed.
(*@
(** FloatingDecimalMultiply(1, 1, 0, 1) is 0o7525; an a of 2 is rejected *)
Example C43_example :
  match call_unmasked "FloatingDecimalMultiply" 1 1 0 1 with Ok i => instr_value i = 3925 | Err _ => False end /\
  match call_unmasked "NotEqualAlphabetic" 0 1 1 1 with Ok i => instr_value i = 1484 | Err _ => False end /\
  call_unmasked "FloatingDecimalMultiply" 1 2 0 1 = Err ValueError.
Proof. vm_compute. auto. Qed.
@*)

Lemma C44_peripheral_encoding_pf : forall c m p,
  In (c, m) peripheral_classes ->
  (0 <= p <= 63 ->
     exists i op, call_peripheral c p = Ok i /\ opnum m op /\ 0 <= op <= 31 /\
       instr_value i = p * 64 + 32 + op /\ make_peripheral_opcode (lit m) p = Ok (instr_value i)) /\
  (~ 0 <= p <= 63 -> call_peripheral c p = Err ValueError).
Proof.
  intros c m p H.
  destruct (periph_facts _ _ _ _ _ peripheral_table H) as (sg & o & op & H1 & H2 & H3 & H4 & H5 & H6 & H7 & H8).
  assert (C : call_peripheral c p = instr_new o (mkiargs None None None None None (Some p))).
  { unfold call_peripheral, class_call. rewrite H1. unfold dindex. rewrite H2. cbn [bind].
    destruct sg; try discriminate H3; reflexivity. }
  rewrite C. clear C. set (x := mkiargs None None None None None (Some p)).
  assert (A : acceptable o x <-> 0 <= p <= 63).
  { split.
    - intros [_ _ (A & _) _]. exact A.
    - intros B. split; unfold x; cbn [sequence mask arg_a arg_b arg_c paddr within]; try tauto.
      + unfold absent. tauto.
      + rewrite H5, H7, H8. cbn. lia. }
  split.
  - intros B. apply A in B. destruct (instr_new_ok o x op B H5) as [E F]. rewrite E.
    eexists _, op. split; [reflexivity|]. split; [exists o; auto|]. split; [exact H6|].
    unfold instr_value. cbn [i_data]. cbn [ibits bf_value].
    unfold code, carries_bit7. rewrite H4. cbn [x sequence mask paddr zero_or].
    change (eqb (lit "peripheral") (lit "peripheral")) with true. cbn [orb].
    rewrite H7, H5. cbn [zero_or]. split; [lia|].
    unfold make_peripheral_opcode, dindex. rewrite H2. cbn [bind]. rewrite H7, H5. cbn [need bind].
    f_equal; try lia.
  - intros B. apply (@instr_new_err o x op); [|exact H5]. intros Q. apply B, A, Q.
Qed.
(*@
(** ReadForward(0o77) is 0o7772 *)
Example C44_example :
  match call_peripheral "ReadForward" 63 with Ok i => instr_value i = 4090 | Err _ => False end /\
  call_peripheral "Rewind" 64 = Err ValueError /\ call_peripheral "Rewind" (-1) = Err ValueError.
Proof. vm_compute. auto. Qed.
@*)

Lemma C44_print_encoding_pf : forall c m s a b d,
  In (c, m) print_classes ->
  (is_bit s /\ is_bit a /\ is_bit b /\ is_bit d ->
     exists i op, call_unmasked c s a b d = Ok i /\ opnum m op /\ 0 <= op <= 31 /\
       instr_value i = s * 2048 + a * 256 + b * 128 + d * 64 + 32 + op /\
       make_print_opcode (lit m) s a b d = Ok (instr_value i)) /\
  (~ (is_bit s /\ is_bit a /\ is_bit b /\ is_bit d) -> call_unmasked c s a b d = Err ValueError).
Proof.
  intros c m s a b d H.
  destruct (periph_facts _ _ _ _ _ print_table H) as (sg & o & op & H1 & H2 & H3 & H4 & H5 & H6 & H7 & H8).
  destruct (unmasked_call c m sg o op s a b d H1 H2 (or_intror H3) H5 H6) as [U1 U2].
  { rewrite H7. cbn. lia. } { rewrite H8. exact I. }
  split; [|exact U2]. intros B. destruct (U1 B) as (i & E & V).
  exists i, op. split; [exact E|]. split; [exists o; auto|]. split; [exact H6|].
  rewrite V. unfold code, carries_bit7. rewrite H4.
  cbn [sequence mask arg_a arg_b arg_c paddr zero_or].
  change (eqb (lit "print") (lit "print")) with true. rewrite orb_true_r. cbn [orb].
  rewrite H5, H7, H8. cbn [zero_or]. split; [lia|].
  unfold make_print_opcode, dindex. rewrite H2. cbn [bind]. rewrite H7, H5. cbn [need bind]. f_equal; try lia.
Qed.
(*@
Example C44_print_example :
  match call_unmasked "PrintOctal" 1 0 1 1 with Ok i => instr_value i = 2278 | Err _ => False end.
Proof. vm_compute. reflexivity. Qed.
@*)

Lemma C44_simulator_encoding_pf : forall s,
  (is_bit s -> exists i, call_simulator s = Ok i /\ instr_value i = s * 2048 + 7) /\
  (~ is_bit s -> call_simulator s = Err ValueError).
Proof.
  intros s.
  set (o := mkopcode (lit "S") (lit "Simulator") None None (Some 7) (lit "simulator")).
  set (x := mkiargs (Some s) None None None None None).
  assert (C : call_simulator s = instr_new o x).
  { assert (C1 : dget CLASSES (lit "Simulator") = Some (SigSimulator, lit "S")) by (vm_compute; reflexivity).
    assert (C2 : dget OPCODES (lit "S") = Some o) by (vm_compute; reflexivity).
    unfold call_simulator, class_call. rewrite C1. unfold dindex. rewrite C2. reflexivity. }
  rewrite C. clear C.
  assert (A : acceptable o x <-> is_bit s).
  { split.
    - intros [(A & _) _ _ _]. cbn in A. unfold is_bit. lia.
    - intros B. unfold is_bit in B. split; unfold x, o;
        cbn [sequence mask arg_a arg_b arg_c paddr within o_b7 o_b23 o_op]; try tauto; lia. }
  split.
  - intros B. apply A in B. destruct (instr_new_ok o x 7 B eq_refl) as [E F]. rewrite E.
    eexists. split; [reflexivity|]. unfold instr_value; cbn [i_data]. cbn [ibits bf_value].
    change (code o x) with (2048 * s + (512 * 0 + 256 * 0 + 128 * 0 + 64 * 0) + 0 + 7). lia.
  - intros B. apply (@instr_new_err o x 7); [|reflexivity]. intros Q. apply B, A, Q.
Qed.
(*@
Example C44_simulator_example :
  match call_simulator 1 with Ok i => instr_value i = 2055 | Err _ => False end /\
  call_simulator 2 = Err ValueError.
Proof. vm_compute. auto. Qed.
@*)

(** *** C45-C46: the general constructor *)
#[local] Ltac Zify.zify_post_hook ::= Z.to_euclidean_division_equations.
Lemma instr_new_cases o x i : instr_new o x = Ok i ->
  acceptable o x /\ (exists op, o_op o = Some op) /\ i = mkinstr o x (ibits (code o x)) /\ 0 <= code o x < 4096.
Proof.
  intros H. destruct (o_op o) as [op|] eqn:O.
  - destruct (acceptable_dec o x) as [A|A].
    + destruct (instr_new_ok o x op A O) as [E F]. rewrite E in H. injection H as <-. eauto.
    + rewrite (@instr_new_err o x op A O) in H. discriminate.
  - pose proof (check_spec o x) as C. unfold instr_new in H.
    change (bf_new 0 12 3 0) with (Ok (ibits 0)) in H. cbn [bind] in H.
    destruct (instr_check o x) as [u|e]; [|discriminate].
    destruct C as [_ [op C]]. congruence.
Qed.

Lemma C45_fields_read_back_pf : forall o x i,
  instr_new o x = Ok i ->
  let v := instr_value i in
  0 <= v < 4096 /\
  (exists op, o_op o = Some op /\ cbits v 8 12 = op) /\
  (forall s, sequence x = Some s -> cbits v 1 1 = s) /\
  (forall m, mask x = Some m -> cbits v 2 6 = m) /\
  (forall a, arg_a x = Some a -> cbits v 4 4 = a) /\
  (forall b, arg_b x = Some b -> cbits v 5 5 = b) /\
  (forall c, arg_c x = Some c -> cbits v 6 6 = c) /\
  (forall p, paddr x = Some p -> cbits v 1 6 = p) /\
  (forall b, o_b23 o = Some b -> mask x = None -> paddr x = None -> cbits v 2 3 = b) /\
  cbits v 7 7 = (if carries_bit7 o x then zero_or (o_b7 o) else 0) /\
  (paddr x = None -> (sequence x = None -> cbits v 1 1 = 0) /\
     (mask x = None -> (o_b23 o = None -> cbits v 2 3 = 0) /\ (arg_a x = None -> cbits v 4 4 = 0) /\
        (arg_b x = None -> cbits v 5 5 = 0) /\ (arg_c x = None -> cbits v 6 6 = 0))).
Proof.
  intros o x i H v. destruct (instr_new_cases o x i H) as (A & [op O] & -> & F).
  subst v. unfold instr_value; cbn [i_data]. cbn [ibits bf_value].
  split; [exact F|]. clear H F.
  destruct A as [(As & Aa & Ab & Ac) [Am Am'] [Ap Ap'] (A7 & A23 & Ao)].
  unfold code. set (t := carries_bit7 o x). clearbody t.
  pose proof (zero_or_within _ 1 ltac:(lia) A7) as Z7.
  set (w := if t then 32 * zero_or (o_b7 o) else 0).
  assert (Ew : w = 32 * (if t then zero_or (o_b7 o) else 0)) by (unfold w; destruct t; lia).
  assert (Hw : 0 <= (if t then zero_or (o_b7 o) else 0) <= 1) by (destruct t; lia).
  set (z := if t then zero_or (o_b7 o) else 0) in *. clearbody z w. subst w. clear Z7 A7 t.
  rewrite O in *. cbn [zero_or within] in *.
  pose proof (zero_or_within _ 3 ltac:(lia) A23) as Z23.
  destruct x as [s m a b c p]; cbn [sequence mask arg_a arg_b arg_c paddr] in *.
  pose proof (zero_or_within _ 1 ltac:(lia) As) as Zs.
  pose proof (zero_or_within _ 1 ltac:(lia) Aa) as Za.
  pose proof (zero_or_within _ 1 ltac:(lia) Ab) as Zb.
  pose proof (zero_or_within _ 1 ltac:(lia) Ac) as Zc.
  unfold cbits.
  change (2 ^ (12 - 12)) with 1. change (2 ^ (12 - 8 + 1)) with 32.
  change (2 ^ (12 - 1)) with 2048. change (2 ^ (1 - 1 + 1)) with 2.
  change (2 ^ (12 - 6)) with 64. change (2 ^ (6 - 2 + 1)) with 32. change (2 ^ (6 - 1 + 1)) with 64.
  change (2 ^ (12 - 4)) with 256. change (2 ^ (4 - 4 + 1)) with 2.
  change (2 ^ (12 - 5)) with 128. change (2 ^ (5 - 5 + 1)) with 2.
  change (2 ^ (6 - 6 + 1)) with 2. change (2 ^ (12 - 3)) with 512. change (2 ^ (3 - 2 + 1)) with 4.
  change (2 ^ (12 - 7)) with 32. change (2 ^ (7 - 7 + 1)) with 2.
  unfold absent in *.
  split; [exists op; split; [reflexivity|]|].
  { destruct p as [p|]; [|destruct m as [m|]]; cbn [within] in *; lia. }
  destruct p as [p|].
  { destruct Ap' as [Ap'|(-> & -> & -> & -> & ->)]; [discriminate|]. cbn [within] in Ap.
    do 5 (split; [discriminate|]). split; [intros q [= <-]; lia|]. split; [discriminate|].
    split; [lia|discriminate]. }
  destruct m as [m|].
  { destruct Am' as [Am'|(_ & -> & -> & -> & _)]; [discriminate|]. cbn [within zero_or] in *.
    split; [intros q ->; cbn [zero_or] in *; lia|]. split; [intros q [= <-]; lia|].
    do 5 (split; [discriminate|]). split; [lia|]. intros _.
    split; [intros ->; cbn [zero_or] in *; lia|discriminate]. }
  split; [intros q ->; cbn [zero_or] in *; lia|]. split; [discriminate|].
  split; [intros q ->; cbn [zero_or] in *; lia|].
  split; [intros q ->; cbn [zero_or] in *; lia|].
  split; [intros q ->; cbn [zero_or] in *; lia|]. split; [discriminate|].
  split; [intros q Q _ _; rewrite Q in *; cbn [zero_or] in *; lia|]. split; [lia|].
  intros _. split; [intros ->; cbn [zero_or] in *; lia|]. intros _.
  split; [intros Q; rewrite Q; cbn [zero_or]; lia|].
  split; [intros ->; cbn [zero_or] in *; lia|].
  split; intros ->; cbn [zero_or] in *; lia.
Qed.
(*@
Example C45_example : exists i,
  instr_new (mkopcode (lit "X") (lit "X") (Some 3) (Some 1) (Some 21) (lit "unmasked"))
    (mkiargs (Some 1) None None (Some 1) None None) = Ok i /\
  instr_value i = 3733 /\ cbits 3733 2 3 = 3 /\ cbits 3733 5 5 = 1 /\ cbits 3733 8 12 = 21.
Proof. eexists. split; [vm_compute; reflexivity|]. vm_compute. auto. Qed.
@*)

Lemma C45_data_slices_pf : forall o x i s e,
  instr_new o x = Ok i -> 1 <= s -> s <= e -> e <= 12 ->
  bf_getitem (i_data i) (range s e) = Ok (cbits (instr_value i) s e).
Proof.
  intros o x i s e H H1 H2 H3. destruct (instr_new_cases o x i H) as (A & [op O] & -> & F).
  cbn [i_data]. unfold instr_value; cbn [i_data].
  assert (VR : vrange (ibits (code o x)) s e).
  { unfold vrange, valid_range, valid_index, weight, ibits; cbn [bf_order bf_numbering bf_width]. lia. }
  unfold range. rewrite (@getitem_slice_msb (ibits (code o x)) s e eq_refl VR).
  cbn [ibits bf_numbering bf_width bf_value].
  assert (RS : range_size MSB_1 12 s e = e - s + 1) by (unfold range_size, weight; lia).
  assert (RL : range_lo MSB_1 12 s e = 12 - e) by (unfold range_lo, weight; lia).
  rewrite RS, RL. reflexivity.
Qed.
(*@
(** the mask of a masked instruction is data[2:6] *)
Example C45_slices_example :
  match call_masked "WordAdd" 0 19 with
  | Ok i => bf_getitem (i_data i) (range 2 6) = Ok 19 | Err _ => False end.
Proof. vm_compute. reflexivity. Qed.
@*)

Lemma C46_argument_checks_pf : forall o x op,
  o_op o = Some op ->
  (acceptable o x -> exists i, instr_new o x = Ok i /\ instr_value i = code o x) /\
  (~ acceptable o x -> instr_new o x = Err ValueError).
Proof.
  intros o x op O. split.
  - intros A. destruct (instr_new_ok o x op A O) as [E F]. rewrite E. eexists. split; reflexivity.
  - intros A. exact (@instr_new_err o x op A O).
Qed.
(*@
(** a mask with an A bit is rejected, a mask alone accepted *)
Definition C46_o := mkopcode (lit "BA") (lit "BinaryAdd") (Some 2) (Some 1) (Some 9) (lit "maskable").
Example C46_example :
  ~ acceptable C46_o (mkiargs (Some 0) (Some 3) (Some 0) None None None) /\
  acceptable C46_o (mkiargs (Some 0) (Some 3) None None None None).
Proof.
  split.
  - intros [_ [_ [H|(_ & H & _)]] _ _]; cbn in H; discriminate.
  - split; cbn; unfold absent, type_is; cbn; try lia; split; try lia; auto.
    right. repeat split.
Qed.
@*)

(** *** C136: the classes for the forms of instructions *)
Lemma makes_of o x op ok v : o_op o = Some op -> (ok <-> acceptable o x) -> (ok -> v = code o x) -> makes (instr_new o x) ok v.
Proof.
  intros O E V. destruct (C46_argument_checks_pf o x op O) as [A B]. split.
  - intros H. rewrite (V H). apply A, E, H.
  - intros H. apply B. intros X. apply H, E, X.
Qed.
Lemma C136_forms_pf : forall o op s m a b c p, o_op o = Some op ->
  makes (general_masked o s m)
        (fits o /\ within s 1 /\ within m 31 /\ (m = None \/ type_is o "maskable"))
        (2048 * zero_or s + match m with Some m => 64 * m + 32 * zero_or (o_b7 o) | None => 512 * zero_or (o_b23 o) + selects o end + op) /\
  makes (general_unmasked o s a b c)
        (fits o /\ within s 1 /\ within a 1 /\ within b 1 /\ within c 1)
        (2048 * zero_or s + 512 * zero_or (o_b23 o) + 256 * zero_or a + 128 * zero_or b + 64 * zero_or c + selects o + op) /\
  makes (scientific o s a b c)
        (fits o /\ within s 1 /\ within a 1 /\ within b 1 /\ within c 1)
        (2048 * zero_or s + 512 * zero_or (o_b23 o) + 256 * zero_or a + 128 * zero_or b + 64 * zero_or c + selects o + op) /\
  makes (peripheral o p)
        (fits o /\ within p 63)
        (match p with Some p => 64 * p | None => 512 * zero_or (o_b23 o) end + selects o + op) /\
  makes (simulator o s)
        (fits o /\ within s 1)
        (2048 * zero_or s + 512 * zero_or (o_b23 o) + selects o + op).
Proof.
  intros o op s m a b c p O. unfold general_masked, general_unmasked, scientific, peripheral, simulator, fits.
  split; [|split; [|split; [|split]]]; apply (makes_of o _ op _ _ O).
  all: try (split;
    [intros H; constructor; cbn [sequence mask arg_a arg_b arg_c paddr within]; unfold absent; intuition auto|
     intros [A B C D]; cbn [sequence mask arg_a arg_b arg_c paddr within] in *; unfold absent in *; intuition auto]).
  all: intros H; unfold code, selects, carries_bit7; cbn [sequence mask arg_a arg_b arg_c paddr zero_or]; rewrite O; cbn [zero_or].
  - destruct m as [m|]; cbn [zero_or].
    + destruct H as (_ & _ & _ & [H|H]); [discriminate|]. unfold type_is in H. rewrite H.
      replace (eqb (lit "maskable") (lit "peripheral") || eqb (lit "maskable") (lit "print") || eqb (lit "maskable") (lit "maskable") && true) with true by reflexivity. lia.
    + rewrite andb_false_r, orb_false_r. lia.
  - rewrite andb_false_r, orb_false_r. lia.
  - rewrite andb_false_r, orb_false_r. lia.
  - rewrite andb_false_r, orb_false_r. destruct p; lia.
  - rewrite andb_false_r, orb_false_r. lia.
Qed.
(*@ Example C136_forms_ex :
  let o := mkopcode (lit "BA") (lit "BinaryAdd") (Some 2) (Some 1) (Some 9) (lit "maskable") in
  (exists i, general_masked o (Some 1) (Some 3) = Ok i /\ instr_value i = 2048 + 3 * 64 + 32 + 9) /\
  (exists i, scientific o None (Some 1) None None = Ok i /\ instr_value i = 2 * 512 + 256 + 9) /\
  peripheral o (Some 64) = Err ValueError.
Proof. split; [eexists; split; vm_compute; reflexivity|]. split; [eexists; split; vm_compute; reflexivity|]. vm_compute. reflexivity. Qed. @*)


(** *** C47: peripheral addresses on other instructions *)
Definition good_opcode (o : opcode) : bool :=
  match o_b7 o with Some x => (0 <=? x) && (x <=? 1) | None => true end
  && match o_b23 o with Some x => (0 <=? x) && (x <=? 3) | None => true end
  && opt_in (o_op o) 31.
Lemma opcodes_good : forallb (fun mo => good_opcode (snd mo)) OPCODES = true.
Proof. vm_compute. reflexivity. Qed.
Lemma opcode_facts m o : In (m, o) OPCODES ->
  within (o_b7 o) 1 /\ within (o_b23 o) 3 /\ exists op, o_op o = Some op /\ 0 <= op <= 31.
Proof.
  intros H. apply (in_table _ _ _ opcodes_good) in H. cbn [snd] in H. unfold good_opcode in H.
  apply andb_prop in H. destruct H as [H H3]. apply andb_prop in H. destruct H as [H1 H2].
  split; [destruct (o_b7 o); cbn; lia|]. split; [destruct (o_b23 o); cbn; lia|].
  apply opt_in_eq. exact H3.
Qed.

Lemma C47_paddr_everywhere_refuted_pf : forall m o p,
  In (m, o) OPCODES -> 0 <= p <= 63 ->
  exists i, peripheral o (Some p) = Ok i /\
    instr_new o (mkiargs None None None None None (Some p)) = Ok i.
Proof.
  intros m o p H Hp. destruct (opcode_facts _ _ H) as (H7 & H23 & op & O & Ho).
  unfold peripheral.
  destruct (instr_new_ok o (mkiargs None None None None None (Some p)) op) as [E _]; [|exact O|].
  - split; cbn [sequence mask arg_a arg_b arg_c paddr within]; try tauto.
    + unfold absent. tauto.
    + rewrite O. cbn [within]. tauto.
  - rewrite E. eauto.
Qed.
(*@
(** Peripheral(OPCODES["BM"], 5) is accepted although BM (binary multiply) is an
    unmasked arithmetic instruction, and builds the code of BM with A and C active *)
Example C47_witness :
  match dget OPCODES (lit "BM") with
  | Some o => o_type o = lit "unmasked" /\
      match peripheral o (Some 5), call_unmasked "BinaryMultiply" 0 1 0 1 with
      | Ok i, Ok j => instr_value i = instr_value j
      | _, _ => False
      end
  | None => False
  end.
Proof. vm_compute. auto. Qed.
@*)

Fixpoint nodupb (l : list str) : bool :=
  match l with [] => true | x :: r => negb (inb x r) && nodupb r end.
Lemma nodupb_ok l : nodupb l = true -> NoDup l.
Proof.
  induction l as [|y l IH]; intros E; constructor; cbn [nodupb] in E; apply andb_prop in E.
  - destruct E as [E _]. intros I. apply inb_In in I. rewrite I in E. discriminate.
  - apply IH. tauto.
Qed.
Lemma classes_NoDup : NoDup (dkeys CLASSES).
Proof. apply nodupb_ok. vm_compute. reflexivity. Qed.

Lemma C47_classes_reject_paddr_partial_pf : forall c sg m k,
  In (c, (sg, m)) CLASSES -> sg <> SigPeripheral -> kw_paddr k <> None ->
  class_call c k = Err TypeError.
Proof.
  intros c sg m k H N P.
  assert (D : dget CLASSES c = Some (sg, m)) by (apply In_dget; [exact classes_NoDup|assumption]).
  unfold class_call. rewrite D. unfold dindex.
  assert (T : forallb (fun e => match dget OPCODES (snd (snd e)) with Some _ => true | None => false end) CLASSES = true)
    by (vm_compute; reflexivity).
  apply (in_table _ _ _ T) in H. clear T. cbn [snd] in H.
  destruct (dget OPCODES m) as [o|]; [|discriminate H]. cbn [bind].
  destruct (kw_paddr k) as [p|]; [|congruence].
  destruct sg; try congruence; try reflexivity.
  cbn [no_param]. destruct (kw_sequence k), (kw_mask k), (kw_a k), (kw_b k), (kw_c k); reflexivity.
Qed.
(*@
Example C47_partial_example :
  class_call (lit "BinaryMultiply") (mkkw (arg 0) None (arg 0) (arg 0) (arg 0) (arg 5)) = Err TypeError.
Proof. vm_compute. reflexivity. Qed.
@*)

(** *** C48: distinct codes *)
Lemma class_call_cases c sg m k i :
  In (c, (sg, m)) CLASSES -> class_call c k = Ok i ->
  exists o x, In (m, o) OPCODES /\ instr_new o x = Ok i /\
    (paddr x <> None -> sg = SigPeripheral) /\
    (mask x = match kw_mask k with Some v => v | None => None end).
Proof.
  intros H C.
  assert (D : dget CLASSES c = Some (sg, m)) by (apply In_dget; [exact classes_NoDup|assumption]).
  unfold class_call in C. rewrite D in C. unfold dindex in C.
  destruct (dget OPCODES m) as [o|] eqn:O; [|discriminate]. cbn [bind] in C.
  apply dget_Some_In in O. exists o.
  destruct k as [ks km ka kb kc kp]; cbn [kw_sequence kw_mask kw_a kw_b kw_c kw_paddr] in *.
  destruct sg; destruct kp; cbn [no_param default_none required bind] in C; try discriminate;
    destruct ks; cbn [no_param default_none required bind] in C; try discriminate;
    destruct km; cbn [no_param default_none required bind] in C; try discriminate;
    destruct ka; cbn [no_param default_none required bind] in C; try discriminate;
    destruct kb; cbn [no_param default_none required bind] in C; try discriminate;
    destruct kc; cbn [no_param default_none required bind] in C; try discriminate;
    (eexists; split; [exact O|]; split; [exact C|]; cbn [paddr mask]; split; [congruence|reflexivity]).
Qed.
(** the bits that tell an instruction: bits 7-12, and bits 2-3 of an unmasked one *)
Definition forms (o : opcode) : list (bool * Z * option Z) :=
  if eqb (o_type o) (lit "maskable")
  then [(true, 32 * zero_or (o_b7 o) + zero_or (o_op o), None);
        (false, zero_or (o_op o), Some (zero_or (o_b23 o)))]
  else if eqb (o_type o) (lit "unmasked") then [(false, zero_or (o_op o), Some (zero_or (o_b23 o)))]
  else if eqb (o_type o) (lit "simulator") then [(false, zero_or (o_op o), None)]
  else [(false, 32 * zero_or (o_b7 o) + zero_or (o_op o), None)].
Definition clash (f g : bool * Z * option Z) : bool :=
  (snd (fst f) =? snd (fst g)) &&
  match snd f, snd g with Some x, Some y => x =? y | _, _ => true end.
Definition exempt (m1 : str) (k1 : bool) (m2 : str) (k2 : bool) : bool :=
  inb m1 (map lit ["PRA"; "PRD"; "PRO"]%string) && inb m2 (map lit ["PRA"; "PRD"; "PRO"]%string)
  || eqb m1 (lit "NA") && eqb m2 (lit "FNN") && negb k1
  || eqb m1 (lit "FNN") && eqb m2 (lit "NA") && negb k2.
Definition pair_ok (e1 e2 : str * opcode) : bool :=
  eqb (fst e1) (fst e2) ||
  forallb (fun f => forallb (fun g =>
    negb (clash f g) || exempt (fst e1) (fst (fst f)) (fst e2) (fst (fst g)))
    (forms (snd e2))) (forms (snd e1)).
Lemma pairs_ok : forallb (fun e1 => forallb (pair_ok e1) OPCODES) OPCODES = true.
Proof. vm_compute. reflexivity. Qed.
Lemma class_types : forallb (fun e => match dget OPCODES (snd (snd e)) with
    | Some o => match fst (snd e) with SigPeripheral => eqb (o_type o) (lit "peripheral")
                | _ => negb (eqb (o_type o) (lit "peripheral")) end
               && inb (o_type o) (map lit ["maskable"; "unmasked"; "simulator"; "peripheral"; "print"]%string)
    | None => false end) CLASSES = true.
Proof. vm_compute. reflexivity. Qed.
Lemma opcodes_NoDup : NoDup (dkeys OPCODES).
Proof. apply nodupb_ok. vm_compute. reflexivity. Qed.

Lemma has_form c sg m o x i :
  In (c, (sg, m)) CLASSES -> In (m, o) OPCODES -> instr_new o x = Ok i ->
  (paddr x <> None -> sg = SigPeripheral) ->
  exists f, In f (forms o) /\ fst (fst f) = given (mask x) /\ instr_value i mod 64 = snd (fst f) /\
    (forall b, snd f = Some b -> (instr_value i / 512) mod 4 = b).
Proof.
  intros HC HO HI HP.
  destruct (instr_new_cases o x i HI) as (A & [op O] & -> & F).
  unfold instr_value; cbn [i_data]. cbn [ibits bf_value].
  apply (in_table _ _ _ class_types) in HC. cbn [fst snd] in HC.
  rewrite (In_dget OPCODES m o opcodes_NoDup HO) in HC. apply andb_prop in HC. destruct HC as [HC HT].
  destruct A as [(As & Aa & Ab & Ac) [Am Am'] [Ap Ap'] (A7 & A23 & Ao)].
  pose proof (zero_or_within _ 1 ltac:(lia) As) as Zs.
  pose proof (zero_or_within _ 1 ltac:(lia) Aa) as Za.
  pose proof (zero_or_within _ 1 ltac:(lia) Ab) as Zb.
  pose proof (zero_or_within _ 1 ltac:(lia) Ac) as Zc.
  pose proof (zero_or_within _ 1 ltac:(lia) A7) as Z7.
  pose proof (zero_or_within _ 3 ltac:(lia) A23) as Z23.
  pose proof (zero_or_within _ 31 ltac:(lia) Ao) as Zo.
  unfold forms, code, carries_bit7 in *.
  assert (NP : sg <> SigPeripheral -> paddr x = None).
  { intros N. destruct (paddr x); [|reflexivity]. exfalso. apply N, HP. discriminate. }
  assert (NM : o_type o <> lit "maskable" -> mask x = None).
  { intros N. destruct Am' as [Am'|[T _]]; [exact Am'|contradiction]. }
  unfold inb in HT. cbn [map existsb] in HT.
  assert (T : o_type o = lit "maskable" \/ o_type o = lit "unmasked" \/ o_type o = lit "simulator" \/
              o_type o = lit "peripheral" \/ o_type o = lit "print").
  { rewrite !orb_true_iff in HT. rewrite !eqb_ok in HT. clear -HT.
    repeat match goal with H : _ \/ _ |- _ => destruct H as [H|H] end; first [rewrite HT; solve [auto 8]|discriminate HT]. }
  destruct T as [T|[T|[T|[T|T]]]]; rewrite T in *;
    repeat match goal with |- context [eqb (lit ?a) (lit ?b)] =>
      let v := eval vm_compute in (eqb (lit a) (lit b)) in
      change (eqb (lit a) (lit b)) with v end; cbn [orb andb];
    (try rewrite NM by discriminate).
  - assert (P : paddr x = None).
    { apply NP. intros ->. vm_compute in HC. discriminate. }
    rewrite P. destruct (mask x) as [k|]; cbn [given within] in *.
    + eexists. split; [left; reflexivity|]. cbn [fst snd]. split; [reflexivity|].
      split; [lia|discriminate].
    + eexists. split; [right; left; reflexivity|]. cbn [fst snd]. split; [reflexivity|].
      split; [lia|]. intros b [= <-]. lia.
  - assert (P : paddr x = None).
    { apply NP. intros ->. vm_compute in HC. discriminate. }
    rewrite P. eexists. split; [left; reflexivity|]. cbn [fst snd]. split; [reflexivity|].
    split; [lia|]. intros b [= <-]. lia.
  - assert (P : paddr x = None).
    { apply NP. intros ->. vm_compute in HC. discriminate. }
    rewrite P. eexists. split; [left; reflexivity|]. cbn [fst snd]. split; [reflexivity|].
    split; [lia|discriminate].
  - eexists. split; [left; reflexivity|]. cbn [fst snd]. split; [reflexivity|].
    split; [|discriminate]. destruct (paddr x); cbn [within] in *; lia.
  - assert (P : paddr x = None).
    { apply NP. intros ->. vm_compute in HC. discriminate. }
    rewrite P. eexists. split; [left; reflexivity|]. cbn [fst snd]. split; [reflexivity|].
    split; [lia|discriminate].
Qed.

Lemma C48_same_code_refuted_pf : forall s a b d,
  is_bit s -> is_bit a -> is_bit b -> is_bit d ->
  exists i j, call_unmasked "NotEqualAlphabetic" s a b d = Ok i /\
              call_unmasked "FloatingNotEqualNormalized" s a b d = Ok j /\
              instr_value i = instr_value j.
Proof.
  intros s a b d [->| ->] [->| ->] [->| ->] [->| ->];
    (eexists _, _; split; [vm_compute; reflexivity|]; split; [vm_compute; reflexivity|reflexivity]).
Qed.
(*@
(** both are 0o2014 *)
Example C48_witness :
  match call_unmasked "NotEqualAlphabetic" 0 0 0 0, call_unmasked "FloatingNotEqualNormalized" 0 0 0 0 with
  | Ok i, Ok j => instr_value i = 1036 /\ instr_value j = 1036
  | _, _ => False
  end.
Proof. vm_compute. auto. Qed.
@*)

Lemma C48_distinct_codes_partial_pf : forall c1 sg1 m1 k1 i1 c2 sg2 m2 k2 i2,
  In (c1, (sg1, m1)) CLASSES -> In (c2, (sg2, m2)) CLASSES -> m1 <> m2 ->
  class_call c1 k1 = Ok i1 -> class_call c2 k2 = Ok i2 ->
  ~ (In m1 (map lit ["PRA"; "PRD"; "PRO"]%string) /\ In m2 (map lit ["PRA"; "PRD"; "PRO"]%string)) ->
  ~ (m1 = lit "NA" /\ m2 = lit "FNN" /\ forall m, kw_mask k1 <> Some (Some m)) ->
  ~ (m1 = lit "FNN" /\ m2 = lit "NA" /\ forall m, kw_mask k2 <> Some (Some m)) ->
  instr_value i1 <> instr_value i2.
Proof.
  intros c1 sg1 m1 k1 i1 c2 sg2 m2 k2 i2 H1 H2 N C1 C2 NP N1 N2 E.
  destruct (class_call_cases _ _ _ _ _ H1 C1) as (o1 & x1 & O1 & I1 & P1 & M1).
  destruct (class_call_cases _ _ _ _ _ H2 C2) as (o2 & x2 & O2 & I2 & P2 & M2).
  destruct (has_form _ _ _ _ _ _ H1 O1 I1 P1) as (f & F1 & F2 & F3 & F4).
  destruct (has_form _ _ _ _ _ _ H2 O2 I2 P2) as (g & G1 & G2 & G3 & G4).
  pose proof (in_table _ _ _ pairs_ok O1) as Q. cbv beta in Q.
  apply (in_table _ _ _ Q) in O2. clear Q. unfold pair_ok in O2. cbn [fst snd] in O2.
  rewrite (eqb_neq m1 m2 N) in O2. cbn [orb] in O2.
  apply (in_table _ _ _ O2) in F1. cbv beta in F1. apply (in_table _ _ _ F1) in G1. clear O2 F1.
  cbv beta in G1. apply orb_prop in G1. destruct G1 as [G1|G1].
  - unfold clash in G1. rewrite <- F3, <- G3, E, Z.eqb_refl in G1. cbn [andb] in G1.
    destruct (snd f) as [u|], (snd g) as [w|]; try discriminate G1.
    rewrite <- (F4 u eq_refl), <- (G4 w eq_refl), E, Z.eqb_refl in G1. discriminate.
  - rewrite F2, G2, M1, M2 in G1. unfold exempt in G1. rewrite !orb_true_iff, !andb_true_iff in G1.
    destruct G1 as [[[G G']|[[G G'] G'']]|[[G G'] G'']].
    + apply NP. split; apply inb_In; assumption.
    + apply eqb_ok in G, G'. apply N1. split; [exact G|]. split; [exact G'|].
      intros q Hq. rewrite Hq in G''. discriminate.
    + apply eqb_ok in G, G'. apply N2. split; [exact G|]. split; [exact G'|].
      intros q Hq. rewrite Hq in G''. discriminate.
Qed.
(*@
(** the two floating adds differ although only their opcodes do *)
Example C48_example :
  match call_unmasked "FloatingBinaryAdd" 1 0 1 0, call_unmasked "FloatingDecimalAdd" 1 0 1 0 with
  | Ok i, Ok j => instr_value i = 2689 /\ instr_value j = 2705
  | _, _ => False
  end.
Proof. vm_compute. auto. Qed.
@*)

(** *** C49 *)
Lemma C49_injective_masked_pf : forall c m s k s' k' i i',
  In (c, m) maskable_classes ->
  call_masked c s k = Ok i -> call_masked c s' k' = Ok i' -> instr_value i = instr_value i' ->
  s = s' /\ k = k'.
Proof.
  intros c m s k s' k' i i' H C C' E.
  destruct (C42_masked_encoding_pf c m s k H) as [A B].
  destruct (C42_masked_encoding_pf c m s' k' H) as [A' B'].
  assert (Q : is_bit s /\ 0 <= k <= 31).
  { unfold is_bit. destruct (Z_le_dec 0 k), (Z_le_dec k 31), (Z.eq_dec s 0), (Z.eq_dec s 1); try lia;
      rewrite B in C; try discriminate; unfold is_bit; lia. }
  assert (Q' : is_bit s' /\ 0 <= k' <= 31).
  { unfold is_bit. destruct (Z_le_dec 0 k'), (Z_le_dec k' 31), (Z.eq_dec s' 0), (Z.eq_dec s' 1); try lia;
      rewrite B' in C'; try discriminate; unfold is_bit; lia. }
  destruct (A Q) as (j & op & Ej & [o [O1 O2]] & Ho & V & _).
  destruct (A' Q') as (j' & op' & Ej' & [o' [O1' O2']] & Ho' & V' & _).
  rewrite C in Ej. injection Ej as <-. rewrite C' in Ej'. injection Ej' as <-.
  assert (op = op') by congruence. unfold is_bit in *. lia.
Qed.
(*@ Example C49_injective_masked_ex : In ("BinaryAdd"%string, "BA"%string) maskable_classes /\
  match call_masked "BinaryAdd" 0 19, call_masked "BinaryAdd" 1 19, call_masked "BinaryAdd" 1 18 with
  | Ok i, Ok j, Ok k => instr_value i = 1257 /\ instr_value j = 3305 /\ instr_value k = 3241
  | _, _, _ => False
  end.
Proof. split; [cbn; tauto|]. vm_compute. auto. Qed. @*)
Lemma bits_dec s a b d : (is_bit s /\ is_bit a /\ is_bit b /\ is_bit d) \/
  ~ (is_bit s /\ is_bit a /\ is_bit b /\ is_bit d).
Proof. unfold is_bit. lia. Qed.
Lemma C49_injective_unmasked_pf : forall c m s a b d s' a' b' d' i i',
  In (c, m) (maskable_classes ++ unmasked_classes ++ print_classes) ->
  call_unmasked c s a b d = Ok i -> call_unmasked c s' a' b' d' = Ok i' ->
  instr_value i = instr_value i' -> s = s' /\ a = a' /\ b = b' /\ d = d'.
Proof.
  intros c m s a b d s' a' b' d' i i' H C C' E. rewrite app_assoc in H. apply in_app_or in H.
  destruct (bits_dec s a b d) as [Q|Q], (bits_dec s' a' b' d') as [Q'|Q'], H as [H|H].
  all: try (rewrite (proj2 (C43_unmasked_encoding_pf c m s a b d H) Q) in C; discriminate).
  all: try (rewrite (proj2 (C43_unmasked_encoding_pf c m s' a' b' d' H) Q') in C'; discriminate).
  all: try (rewrite (proj2 (C44_print_encoding_pf c m s a b d H) Q) in C; discriminate).
  all: try (rewrite (proj2 (C44_print_encoding_pf c m s' a' b' d' H) Q') in C'; discriminate).
  - destruct (proj1 (C43_unmasked_encoding_pf c m s a b d H) Q) as (j & op & u & Ej & [o [O1 O2]] & Ho & [w [W1 W2]] & Hu & V & _).
    destruct (proj1 (C43_unmasked_encoding_pf c m s' a' b' d' H) Q') as (j' & op' & u' & Ej' & [o' [O1' O2']] & Ho' & [w' [W1' W2']] & Hu' & V' & _).
    rewrite C in Ej. injection Ej as <-. rewrite C' in Ej'. injection Ej' as <-.
    assert (op = op') by congruence. assert (u = u') by congruence. unfold is_bit in *. lia.
  - destruct (proj1 (C44_print_encoding_pf c m s a b d H) Q) as (j & op & Ej & [o [O1 O2]] & Ho & V & _).
    destruct (proj1 (C44_print_encoding_pf c m s' a' b' d' H) Q') as (j' & op' & Ej' & [o' [O1' O2']] & Ho' & V' & _).
    rewrite C in Ej. injection Ej as <-. rewrite C' in Ej'. injection Ej' as <-.
    assert (op = op') by congruence. unfold is_bit in *. lia.
Qed.
(*@ Example C49_injective_unmasked_ex : match call_unmasked "BinaryAdd" 0 1 1 1, call_unmasked "BinaryAdd" 0 1 1 0 with
  | Ok i, Ok j => instr_value i <> instr_value j
  | _, _ => False
  end.
Proof. vm_compute. discriminate. Qed. @*)
Lemma C49_injective_peripheral_pf : forall c m p p' i i',
  In (c, m) peripheral_classes ->
  call_peripheral c p = Ok i -> call_peripheral c p' = Ok i' -> instr_value i = instr_value i' -> p = p'.
Proof.
  intros c m p p' i i' H C C' E.
  destruct (C44_peripheral_encoding_pf c m p H) as [A B].
  destruct (C44_peripheral_encoding_pf c m p' H) as [A' B'].
  assert (Q : 0 <= p <= 63) by (destruct (Z_le_dec 0 p), (Z_le_dec p 63); try lia; rewrite B in C; try discriminate; lia).
  assert (Q' : 0 <= p' <= 63) by (destruct (Z_le_dec 0 p'), (Z_le_dec p' 63); try lia; rewrite B' in C'; try discriminate; lia).
  destruct (A Q) as (j & op & Ej & [o [O1 O2]] & Ho & V & _).
  destruct (A' Q') as (j' & op' & Ej' & [o' [O1' O2']] & Ho' & V' & _).
  rewrite C in Ej. injection Ej as <-. rewrite C' in Ej'. injection Ej' as <-.
  assert (op = op') by congruence. lia.
Qed.
(*@
Example C49_example :
  match call_peripheral "Rewind" 1, call_peripheral "Rewind" 2 with
  | Ok i, Ok j => instr_value i = 98 /\ instr_value j = 162
  | _, _ => False
  end.
Proof. vm_compute. auto. Qed.
@*)

(** *** C50: the tables *)
Lemma C50_tables_disjoint_pf :
  INSTRUCTIONS = dkeys OPCODES ++ CONTROL_INSTRUCTIONS ++ DATA_CONSTANTS ++ CONTROL_CONSTANTS
                 ++ EXTENDED_INSTRUCTIONS ++ MISC_INSTRUCTIONS ++ ARGUS_INSTRUCTIONS /\
  NoDup INSTRUCTIONS.
Proof. split; [reflexivity|]. apply nodupb_ok. vm_compute. reflexivity. Qed.
(*@ Example C50_tables_disjoint_ex : In (lit "BA") (dkeys OPCODES) /\ ~ In (lit "BA") MISC_INSTRUCTIONS.
Proof. split; [apply inb_In; vm_compute; reflexivity|]. rewrite <- inb_In. vm_compute. discriminate. Qed. @*)
Lemma C50_opcode_fields_pf : forall m o,
  In (m, o) OPCODES ->
  o_m o = m /\ within (o_b7 o) 1 /\ within (o_b23 o) 3 /\ (exists op, o_op o = Some op /\ 0 <= op <= 31) /\
  In (o_type o) (map lit ["maskable"; "unmasked"; "peripheral"; "print"; "simulator"]%string).
Proof.
  intros m o H. destruct (opcode_facts m o H) as (H1 & H2 & H3).
  assert (T : forallb (fun mo => eqb (o_m (snd mo)) (fst mo) &&
     inb (o_type (snd mo)) (map lit ["maskable"; "unmasked"; "peripheral"; "print"; "simulator"]%string)) OPCODES = true)
    by (vm_compute; reflexivity).
  apply (in_table _ _ _ T) in H. cbn [fst snd] in H. apply andb_prop in H. destruct H as [H4 H5].
  apply eqb_ok in H4. apply inb_In in H5. auto.
Qed.
(*@
Example C50_example : List.length INSTRUCTIONS = 110%nat /\ In (lit "SETLOC") INSTRUCTIONS.
Proof. split; [vm_compute; reflexivity|]. apply inb_In. vm_compute. reflexivity. Qed.
@*)

(** *** C51: the c field *)
Lemma C51_class_name_refuted_pf :
  exists o, In (lit "TS", o) OPCODES /\ o_c o = lit "TransferAndChangeSequence" /\
    (forall k, class_call (o_c o) k = Err NameError) /\ ~ In (o_c o) (dkeys CLASSES).
Proof.
  exists (mkopcode (lit "TS") (lit "TransferAndChangeSequence") (Some 2) (Some 1) (Some 4) (lit "maskable")).
  split; [|split; [reflexivity|]].
  - apply dget_Some_In. vm_compute. reflexivity.
  - assert (N : dget CLASSES (lit "TransferAndChangeSequence") = None) by (vm_compute; reflexivity).
    split.
    + intros k. unfold class_call. cbn [o_c]. rewrite N. reflexivity.
    + apply dget_None. exact N.
Qed.
(*@ Example C51_class_name_refuted_ex : class_call (lit "TransferAndChangeSequence") (mkkw (Some (Some 1)) None None None None None) = Err NameError.
Proof. vm_compute. reflexivity. Qed. @*)
Lemma C51_class_names_partial_pf : forall m o,
  In (m, o) OPCODES -> m <> lit "TS" -> exists sg, In (o_c o, (sg, m)) CLASSES.
Proof.
  intros m o H N.
  assert (T : forallb (fun mo => eqb (fst mo) (lit "TS") ||
      match dget CLASSES (o_c (snd mo)) with Some (_, m') => eqb m' (fst mo) | None => false end) OPCODES = true)
    by (vm_compute; reflexivity).
  apply (in_table _ _ _ T) in H. cbn [fst snd] in H. rewrite (eqb_neq _ _ N) in H. cbn [orb] in H.
  clear T. destruct (dget CLASSES (o_c o)) as [[sg m']|] eqn:E; [|discriminate H].
  apply eqb_ok in H. subst m'. apply dget_Some_In in E. eauto.
Qed.
(*@
Example C51_example : In (lit "BinaryAdd", (SigMaskableOpt, lit "BA")) CLASSES /\ List.length OPCODES = 64%nat.
Proof. split; [left; reflexivity|vm_compute; reflexivity]. Qed.
@*)

(** *** C53: pseudo-instructions *)
Lemma C53_controls_refuted_pf : forall c mn a b d,
  In c control_classes -> control_call (lit c) mn a b d = Err TypeError.
Proof.
  intros c mn a b d H. unfold control_call.
  assert (T : forallb (fun c => inb (lit c) CONTROL_CLASSES) control_classes = true) by (vm_compute; reflexivity).
  rewrite forallb_forall in T. rewrite (T c H). reflexivity.
Qed.
(*@
(** SetLocationCounter("SETLOC", 1, 2, 3) *)
Example C53_witness :
  In "SetLocationCounter"%string control_classes /\
  control_call (lit "SetLocationCounter") (lit "SETLOC") (Some 1) (Some 2) (Some 3) = Err TypeError.
Proof. split; [do 6 right; left; reflexivity|vm_compute; reflexivity]. Qed.
@*)

(** *** C54: constants *)
Lemma C54_constants_pf : forall c data,
  In c constant_classes ->
  (0 <= data < 2 ^ 48 -> exists w, constant_call (lit c) data = Ok w /\ word_value w = data) /\
  (~ 0 <= data < 2 ^ 48 -> constant_call (lit c) data = Err ValueError).
Proof.
  intros c data H.
  assert (T : forallb (fun c => inb (lit c) (dkeys CONSTANT_CLASSES)) constant_classes = true) by (vm_compute; reflexivity).
  rewrite forallb_forall in T. specialize (T c H). apply inb_In in T.
  unfold constant_call. destruct (dget CONSTANT_CLASSES (lit c)) as [mn|] eqn:G; [clear T|apply dget_None in G; contradiction]. unfold constant_new. split; intros D.
  - destruct ((data <? 0) || (data >? 2 ^ 48 - 1)) eqn:E; [lia|]. rewrite word_new_ok by exact D.
    eexists. split; reflexivity.
  - destruct ((data <? 0) || (data >? 2 ^ 48 - 1)) eqn:E; [reflexivity|lia].
Qed.
(*@
Example C54_example :
  In "OctalConstant"%string constant_classes /\
  constant_call (lit "OctalConstant") 281474976710656 = Err ValueError /\
  match constant_call (lit "OctalConstant") 83 with Ok w => word_value w = 83 | Err _ => False end.
Proof. split; [repeat (first [left; reflexivity|right])|]. vm_compute. auto. Qed.
@*)

(** *** C55: instruction words *)
Lemma C55_word_decodes_pf : forall o x i a b c,
  instr_new o x = Ok i -> 0 <= a < 4096 -> 0 <= b < 4096 -> 0 <= c < 4096 ->
  exists w, iw_new (instr_value i) a b c = Ok w /\
    iw_get w Command = Ok (instr_value i) /\
    iw_value w / 2 ^ 36 = instr_value i /\
    (exists op, o_op o = Some op /\ (iw_value w / 2 ^ 36) mod 32 = op) /\
    (forall s, sequence x = Some s -> iw_value w / 2 ^ 47 = s) /\
    (forall m, mask x = Some m -> (iw_value w / 2 ^ 42) mod 32 = m) /\
    (forall p, paddr x = Some p -> iw_value w / 2 ^ 42 = p) /\
    (forall v, arg_a x = Some v -> (iw_value w / 2 ^ 44) mod 2 = v) /\
    (forall v, arg_b x = Some v -> (iw_value w / 2 ^ 43) mod 2 = v) /\
    (forall v, arg_c x = Some v -> (iw_value w / 2 ^ 42) mod 2 = v).
Proof.
  intros o x i a b c H Ha Hb Hc.
  destruct (C45_fields_read_back_pf o x i H) as (F & (op & O & Vo) & Vs & Vm & Va & Vb & Vc & Vp & _).
  destruct (C21_instruction_word_packing_pf (instr_value i) a b c F Ha Hb Hc) as (w & E & V & G & _).
  exists w. split; [exact E|]. split; [exact G|].
  assert (D : iw_value w / 2 ^ 36 = instr_value i).
  { rewrite V. clear - Ha Hb Hc. set (v := instr_value i). clearbody v.
    replace (v * 2 ^ 36 + a * 2 ^ 24 + b * 2 ^ 12 + c) with ((a * 2 ^ 24 + b * 2 ^ 12 + c) + v * 2 ^ 36) by ring.
    rewrite Z.div_add by discriminate. rewrite Z.div_small; [lia|].
    change (2 ^ 24) with 16777216. change (2 ^ 12) with 4096. change (2 ^ 36) with 68719476736. lia. }
  assert (D2 : forall k n, 0 <= k -> 36 + k = n -> iw_value w / 2 ^ n = instr_value i / 2 ^ k).
  { intros k n Hk <-. rewrite Z.pow_add_r by lia. rewrite <- Z.div_div, D by lia. reflexivity. }
  split; [exact D|]. rewrite D. unfold cbits in *.
  split; [exists op; split; [exact O|]; rewrite <- Vo; rewrite Z.div_1_r; reflexivity|].
  rewrite (D2 11 47), (D2 6 42), (D2 8 44), (D2 7 43) by lia.
  set (v := instr_value i) in *. clearbody v.
  split; [|split; [|split; [|split; [|split]]]].
  - intros s Hs. rewrite <- (Vs s Hs). change (2 ^ (12 - 1)) with 2048. change (2 ^ 11) with 2048.
    change (2 ^ (1 - 1 + 1)) with 2. clear - F. lia.
  - intros m Hm. exact (Vm m Hm).
  - intros p Hp. rewrite <- (Vp p Hp). change (2 ^ (12 - 6)) with 64. change (2 ^ 6) with 64.
    change (2 ^ (6 - 1 + 1)) with 64. clear - F. lia.
  - intros q Hq. exact (Va q Hq).
  - intros q Hq. exact (Vb q Hq).
  - intros q Hq. exact (Vc q Hq).
Qed.
(*@
Example C55_example :
  match call_masked "BinaryAdd" 1 17 with
  | Ok i => match iw_new (instr_value i) 1 2 3 with
            | Ok w => iw_value w = 218321794375683 /\ (iw_value w / 2 ^ 42) mod 32 = 17 | Err _ => False end
  | Err _ => False
  end.
Proof. vm_compute. auto. Qed.
@*)

(** *** C96: the documented diagrams *)
Definition digits5 (op : Z) : str := map (fun k => 48 + (op / 2 ^ k) mod 2) [4; 3; 2; 1; 0].
Definition documented_is (form pre : string) (m : string) : bool :=
  match dget OPCODES (lit m), documented m form with
  | Some o, Some pat => eqb pat (lit pre ++ digits5 (zero_or (o_op o)))
  | _, _ => false
  end.
Lemma digits_diagram q pre op : 0 <= op <= 31 ->
  diagram (lit pre ++ digits5 op) q = diagram (lit pre ++ digits5 0) q + op.
Proof.
  intros H.
  assert (P : forall p, zlen (p ++ digits5 op) = zlen (p ++ digits5 0) /\
     (forall c, 49 < c -> count_char c (p ++ digits5 op) = count_char c (p ++ digits5 0))).
  { intros p. split.
    - rewrite !zlen_app. reflexivity.
    - intros c Hc. unfold count_char. rewrite !filter_app, !zlen_app. f_equal.
      unfold digits5. cbn [map filter].
      repeat match goal with |- context [c =? ?e] =>
        replace (c =? e) with false by (symmetry; apply Z.eqb_neq; lia) end. reflexivity. }
  assert (B : diagram (digits5 op) q = diagram (digits5 0) q + op).
  { assert (X : In op (map Z.of_nat (seq 0 32))).
    { apply in_map_iff. exists (Z.to_nat op). split; [lia|]. apply in_seq. lia. }
    cbn in X. repeat (destruct X as [<-|X]; [reflexivity|]). destruct X. }
  induction (lit pre) as [|y p IH]; [exact B|]. cbn [app diagram]. rewrite IH.
  destruct (P p) as [P1 P2]. rewrite P1. rewrite Z.add_assoc. f_equal. f_equal. f_equal.
  unfold column. destruct (Z.eqb_spec y (sym "1")); [reflexivity|].
  destruct (y =? sym "s"), (y =? sym "a"), (y =? sym "b"), (y =? sym "c"); try reflexivity.
  destruct (Z.eqb_spec y (sym "m")) as [->|_]; [rewrite P2 by (cbn; lia); reflexivity|].
  destruct (Z.eqb_spec y (sym "p")) as [->|_]; [rewrite P2 by (cbn; lia); reflexivity|reflexivity].
Qed.

Lemma masked_documented : forallb (fun cm => documented_is "masked" "smmmmm1" (snd cm)) maskable_classes = true.
Proof. vm_compute. reflexivity. Qed.
Definition pre23 (b : Z) : string :=
  if b =? 0 then "s00abc0" else if b =? 1 then "s01abc0" else if b =? 2 then "s10abc0" else "s11abc0".
Definition documented_23 (form : string) (m : string) : bool :=
  match dget OPCODES (lit m), documented m form with
  | Some o, Some pat => eqb pat (lit (pre23 (zero_or (o_b23 o))) ++ digits5 (zero_or (o_op o)))
  | _, _ => false
  end.
Lemma unmasked_documented :
  forallb (fun cm => documented_23 "unmasked" (snd cm)) maskable_classes
  && forallb (fun cm => documented_23 "" (snd cm)) unmasked_classes = true.
Proof. vm_compute. reflexivity. Qed.
Lemma print_documented : forallb (fun cm => documented_is "" "sxxabc1" (snd cm)) print_classes = true.
Proof. vm_compute. reflexivity. Qed.
Lemma peripheral_documented : forallb (fun cm => documented_is "" "pppppp1" (snd cm)) peripheral_classes = true.
Proof. vm_compute. reflexivity. Qed.

Lemma C96_masked_diagram_pf : forall c m s k i,
  In (c, m) maskable_classes -> call_masked c s k = Ok i ->
  exists pat, documented m "masked" = Some pat /\
    instr_value i = diagram pat (mkops s k 0 0 0 0).
Proof.
  intros c m s k i H C.
  pose proof (in_table _ _ _ masked_documented H) as D. cbn [snd] in D. unfold documented_is in D.
  assert (Q : is_bit s /\ 0 <= k <= 31).
  { unfold is_bit. destruct (Z_le_dec 0 k), (Z_le_dec k 31), (Z.eq_dec s 0), (Z.eq_dec s 1); try lia;
      rewrite (proj2 (C42_masked_encoding_pf c m s k H)) in C; try discriminate; unfold is_bit; lia. }
  destruct (proj1 (C42_masked_encoding_pf c m s k H) Q) as (j & op & Ej & [o [O1 O2]] & Ho & V & _).
  rewrite C in Ej. injection Ej as <-. rewrite O1, O2 in D.
  destruct (documented m "masked") as [pat|]; [|discriminate]. apply eqb_ok in D. subst pat.
  eexists. split; [reflexivity|]. cbn [zero_or]. rewrite digits_diagram by exact Ho. rewrite V.
  assert (E : diagram (lit "smmmmm1" ++ digits5 0) (mkops s k 0 0 0 0) =
    s * 2048 + ((k / 16) mod 2 * 1024 + ((k / 8) mod 2 * 512 + ((k / 4) mod 2 * 256 + ((k / 2) mod 2 * 128 +
     ((k / 1) mod 2 * 64 + 32)))))) by reflexivity.
  rewrite E. lia.
Qed.
(*@
(** "smmmmm101001" with s=1, m=10001 is 1 10001 101001 *)
Example C96_example :
  documented "BA" "masked" = Some (lit "smmmmm101001") /\
  diagram (lit "smmmmm101001") (mkops 1 17 0 0 0 0) = 3177.
Proof. vm_compute. auto. Qed.
@*)

Lemma C96_unmasked_diagram_pf : forall c m s a b d i,
  call_unmasked c s a b d = Ok i ->
  (In (c, m) maskable_classes ->
     exists pat, documented m "unmasked" = Some pat /\ instr_value i = diagram pat (mkops s 0 a b d 0)) /\
  (In (c, m) (unmasked_classes ++ print_classes) ->
     exists pat, documented m "" = Some pat /\ instr_value i = diagram pat (mkops s 0 a b d 0)).
Proof.
  intros c m s a b d i C.
  assert (G : forall form, In (c, m) (maskable_classes ++ unmasked_classes) -> documented_23 form m = true ->
     exists pat, documented m form = Some pat /\ instr_value i = diagram pat (mkops s 0 a b d 0)).
  { intros form H D. unfold documented_23 in D.
    destruct (bits_dec s a b d) as [Q|Q].
    2:{ rewrite (proj2 (C43_unmasked_encoding_pf c m s a b d H) Q) in C. discriminate C. }
    destruct (proj1 (C43_unmasked_encoding_pf c m s a b d H) Q)
      as (j & op & u & Ej & [o [O1 O2]] & Ho & [w [W1 W2]] & Hu & V & _).
    rewrite C in Ej. injection Ej as <-. assert (w = o) by congruence. subst w.
    rewrite O1, O2, W2 in D. cbn [zero_or] in D.
    destruct (documented m form) as [pat|]; [|discriminate]. apply eqb_ok in D. subst pat.
    eexists. split; [reflexivity|]. rewrite digits_diagram by exact Ho. rewrite V. f_equal.
    assert (U : u = 0 \/ u = 1 \/ u = 2 \/ u = 3) by lia.
    destruct U as [-> |[-> |[-> | ->]]].
    - assert (E : diagram (lit (pre23 0) ++ digits5 0) (mkops s 0 a b d 0) =
        s * 2048 + (0 * 1024 + (0 * 512 + (a * 256 + (b * 128 + (d * 64 + 0)))))) by reflexivity.
      rewrite E. lia.
    - assert (E : diagram (lit (pre23 1) ++ digits5 0) (mkops s 0 a b d 0) =
        s * 2048 + (0 * 1024 + (1 * 512 + (a * 256 + (b * 128 + (d * 64 + 0)))))) by reflexivity.
      rewrite E. lia.
    - assert (E : diagram (lit (pre23 2) ++ digits5 0) (mkops s 0 a b d 0) =
        s * 2048 + (1 * 1024 + (0 * 512 + (a * 256 + (b * 128 + (d * 64 + 0)))))) by reflexivity.
      rewrite E. lia.
    - assert (E : diagram (lit (pre23 3) ++ digits5 0) (mkops s 0 a b d 0) =
        s * 2048 + (1 * 1024 + (1 * 512 + (a * 256 + (b * 128 + (d * 64 + 0)))))) by reflexivity.
      rewrite E. lia. }
  destruct (andb_prop _ _ unmasked_documented) as [T1 T2]. split.
  - intros H. apply G; [apply in_or_app; auto|]. exact (in_table _ _ _ T1 H).
  - intros H. apply in_app_or in H. destruct H as [H|H].
    + apply G; [apply in_or_app; auto|]. exact (in_table _ _ _ T2 H).
    + pose proof (in_table _ _ _ print_documented H) as D. cbn [snd] in D. unfold documented_is in D.
      destruct (bits_dec s a b d) as [Q|Q].
      2:{ rewrite (proj2 (C44_print_encoding_pf c m s a b d H) Q) in C. discriminate C. }
      destruct (proj1 (C44_print_encoding_pf c m s a b d H) Q) as (j & op & Ej & [o [O1 O2]] & Ho & V & _).
      rewrite C in Ej. injection Ej as <-. rewrite O1, O2 in D. cbn [zero_or] in D.
      destruct (documented m "") as [pat|]; [|discriminate]. apply eqb_ok in D. subst pat.
      eexists. split; [reflexivity|]. rewrite digits_diagram by exact Ho. rewrite V.
      assert (E : diagram (lit "sxxabc1" ++ digits5 0) (mkops s 0 a b d 0) =
        s * 2048 + (0 * 1024 + (0 * 512 + (a * 256 + (b * 128 + (d * 64 + 32)))))) by reflexivity.
      rewrite E. lia.
Qed.
(*@
Example C96_unmasked_example :
  documented "FDM" "" = Some (lit "s11abc010101") /\
  diagram (lit "s11abc010101") (mkops 1 0 1 0 1 0) = 3925.
Proof. vm_compute. auto. Qed.
@*)

Lemma C96_other_diagrams_pf :
  (forall c m p i, In (c, m) peripheral_classes -> call_peripheral c p = Ok i ->
     exists pat, documented m "" = Some pat /\ instr_value i = diagram pat (mkops 0 0 0 0 0 p)) /\
  (forall s i, call_simulator s = Ok i ->
     exists pat, documented "S" (if s =? 0 then "direct" else "indexed") = Some pat /\
       instr_value i = diagram pat (mkops 0 0 0 0 0 0)) /\
  (exists i pat, call_proceed = Ok i /\ documented "PR" "" = Some pat /\
     instr_value i = diagram pat (mkops 0 0 0 0 0 0)).
Proof.
  split; [|split].
  - intros c m p i H C.
    pose proof (in_table _ _ _ peripheral_documented H) as D. cbn [snd] in D. unfold documented_is in D.
    assert (Q : 0 <= p <= 63).
    { destruct (Z_le_dec 0 p), (Z_le_dec p 63); try lia;
      rewrite (proj2 (C44_peripheral_encoding_pf c m p H)) in C; try discriminate; lia. }
    destruct (proj1 (C44_peripheral_encoding_pf c m p H) Q) as (j & op & Ej & [o [O1 O2]] & Ho & V & _).
    rewrite C in Ej. injection Ej as <-. rewrite O1, O2 in D.
    destruct (documented m "") as [pat|]; [|discriminate]. apply eqb_ok in D. subst pat.
    eexists. split; [reflexivity|]. cbn [zero_or]. rewrite digits_diagram by exact Ho. rewrite V.
    assert (E : diagram (lit "pppppp1" ++ digits5 0) (mkops 0 0 0 0 0 p) =
      (p / 32) mod 2 * 2048 + ((p / 16) mod 2 * 1024 + ((p / 8) mod 2 * 512 + ((p / 4) mod 2 * 256 +
      ((p / 2) mod 2 * 128 + ((p / 1) mod 2 * 64 + 32)))))) by reflexivity.
    rewrite E. lia.
  - intros s i C. destruct (C44_simulator_encoding_pf s) as [A B].
    assert (Q : is_bit s).
    { unfold is_bit. destruct (Z.eq_dec s 0), (Z.eq_dec s 1); try lia; rewrite B in C; try discriminate;
        unfold is_bit; lia. }
    destruct (A Q) as (j & Ej & V). rewrite C in Ej. injection Ej as <-. rewrite V.
    destruct Q as [->| ->]; (eexists; split; [vm_compute; reflexivity|vm_compute; reflexivity]).
  - eexists _, _. split; [vm_compute; reflexivity|]. split; [vm_compute; reflexivity|vm_compute; reflexivity].
Qed.
(*@
Example C96_peripheral_example :
  documented "RF" "" = Some (lit "pppppp111010") /\ diagram (lit "pppppp111010") (mkops 0 0 0 0 0 63) = 4090.
Proof. vm_compute. auto. Qed.
@*)
