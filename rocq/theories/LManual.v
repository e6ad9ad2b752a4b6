(** The instruction set and the character set of the manuals. *)
From Verif Require Import Py LPy MInstruction MInstructions SInstruction LInstruction LInstructions MContext SManual.
#[local] Arguments Z.add : simpl never.
#[local] Arguments Z.sub : simpl never.
#[local] Arguments Z.mul : simpl never.
#[local] Arguments Z.pow : simpl never.

(** the operation code of the instructions of one form *)
Definition form_code (f : bool * Z * option Z) : Z * Z :=
  if snd (fst f) mod 8 =? 7 then (3, 7)
  else if 32 <=? snd (fst f) then (6, snd (fst f))
  else (8, 64 * zero_or (snd f) + snd (fst f)).
Definition same_form (m1 : str) (k1 : bool) (m2 : str) (k2 : bool) : bool :=
  eqb m1 m2 && Bool.eqb k1 k2 || exempt m1 k1 m2 k2.
Definition form_ok (e : str * opcode) (f : bool * Z * option Z) : bool :=
  ((snd (fst f) mod 8 =? 7) || (32 <=? snd (fst f)) || match snd f with Some _ => true | None => false end) &&
  (0 <=? snd (fst f)) && (snd (fst f) <? 64) &&
  (fst (form_code f) =? (if eqb (fst e) (lit "S") then 3
                         else if fst (fst f) || inb (fst e) (map lit ["PRA"; "PRD"; "PRO"; "RF"; "RB"; "WF"; "RW"]%string) then 6 else 8)).
Lemma forms_ok : forallb (fun e => forallb (form_ok e) (forms (snd e))) OPCODES = true.
Proof. vm_compute. reflexivity. Qed.
Definition code_ok (e1 e2 : str * opcode) : bool :=
  forallb (fun f => forallb (fun g =>
    Bool.eqb ((fst (form_code f) =? fst (form_code g)) && (snd (form_code f) =? snd (form_code g)))
             (same_form (fst e1) (fst (fst f)) (fst e2) (fst (fst g))))
    (forms (snd e2))) (forms (snd e1)).
Lemma codes_ok : forallb (fun e1 => forallb (code_ok e1) OPCODES) OPCODES = true.
Proof. vm_compute. reflexivity. Qed.

Lemma given_mask k : given (match kw_mask k with Some v => v | None => None end) = true <-> with_mask k.
Proof.
  unfold with_mask. destruct (kw_mask k) as [[m|]|]; cbn; split; try discriminate; try (intros [x X]; discriminate); eauto.
Qed.
Lemma zeqb (a b : Z) : (a =? b) = true <-> a = b.
Proof. apply Z.eqb_eq. Qed.
(** the form of a constructed instruction gives its operation code *)
Lemma call_code c sg m k i : In (c, (sg, m)) CLASSES -> class_call c k = Ok i ->
  exists o f, In (m, o) OPCODES /\ In f (forms o) /\ (fst (fst f) = true <-> with_mask k) /\ operation_code (instr_value i) = form_code f.
Proof.
  intros H C. destruct (class_call_cases _ _ _ _ _ H C) as (o & x & O & I & P & M).
  destruct (has_form _ _ _ _ _ _ H O I P) as (f & F1 & F2 & F3 & F4).
  exists o, f. split; [exact O|]. split; [exact F1|]. split; [rewrite F2, M; apply given_mask|].
  pose proof (in_table _ _ _ forms_ok O) as Q. cbn [snd] in Q. apply (in_table _ _ _ Q) in F1. clear Q.
  unfold form_ok in F1. rewrite !andb_true_iff in F1. destruct F1 as (((A & B) & D) & _).
  apply Z.leb_le in B. apply Z.ltb_lt in D.
  unfold operation_code, form_code, cbits.
  replace (12 - 12) with 0 by reflexivity. replace (12 - 7) with 5 by reflexivity. replace (12 - 3) with 9 by reflexivity.
  replace (12 - 10 + 1) with 3 by reflexivity. replace (7 - 7 + 1) with 1 by reflexivity. change (5 + 1) with 6. replace (3 - 2 + 1) with 2 by reflexivity.
  change (2 ^ 0) with 1. change (2 ^ 3) with 8. change (2 ^ 5) with 32. change (2 ^ 1) with 2. change (2 ^ 6) with 64. change (2 ^ 9) with 512. change (2 ^ 2) with 4.
  rewrite Z.div_1_r. set (v := instr_value i) in *. set (w := snd (fst f)) in *.
  assert (E8 : v mod 8 = w mod 8) by (pose proof (Z.div_mod v 64 ltac:(lia)); pose proof (Z.div_mod w 8 ltac:(lia)); pose proof (Z.mod_pos_bound w 8 ltac:(lia)); symmetry; apply (Z.mod_unique v 8 (8 * (v / 64) + w / 8)); [lia|lia]).
  assert (E7 : (v / 32) mod 2 = w / 32) by (pose proof (Z.div_mod v 64 ltac:(lia)); pose proof (Z.div_mod w 32 ltac:(lia)); pose proof (Z.mod_pos_bound w 32 ltac:(lia)); assert (X : v / 32 = 2 * (v / 64) + w / 32) by (symmetry; apply (Z.div_unique v 32 _ (w mod 32)); lia); rewrite X; symmetry; apply (Z.mod_unique _ 2 (v / 64)); [left; split; [apply Z.div_pos; lia|apply Z.div_lt_upper_bound; lia]|lia]).
  rewrite E8, E7, F3. destruct (w mod 8 =? 7) eqn:S; [reflexivity|].
  destruct (Z.leb_spec 32 w) as [L|L].
  - assert (X : w / 32 = 1) by (symmetry; apply (Z.div_unique w 32 1 (w - 32)); lia). rewrite X. reflexivity.
  - assert (X : w / 32 = 0) by (apply Z.div_small; lia). rewrite X. cbn [Z.eqb].
    destruct (snd f) as [b|] eqn:B2.
    + rewrite (F4 b eq_refl). reflexivity.
    + discriminate A.
Qed.

(** *** C174 *)
Lemma C174_operation_code_pf : forall c1 sg1 m1 k1 i1 c2 sg2 m2 k2 i2,
  In (c1, (sg1, m1)) CLASSES -> In (c2, (sg2, m2)) CLASSES ->
  class_call c1 k1 = Ok i1 -> class_call c2 k2 = Ok i2 ->
  (operation_code (instr_value i1) = operation_code (instr_value i2) <-> same_machine_instruction m1 k1 m2 k2).
Proof.
  intros c1 sg1 m1 k1 i1 c2 sg2 m2 k2 i2 H1 H2 C1 C2.
  destruct (call_code _ _ _ _ _ H1 C1) as (o1 & f & O1 & F & M1 & E1).
  destruct (call_code _ _ _ _ _ H2 C2) as (o2 & g & O2 & G & M2 & E2).
  rewrite E1, E2.
  pose proof (in_table _ _ _ codes_ok O1) as Q. cbv beta in Q. apply (in_table _ _ _ Q) in O2. clear Q.
  unfold code_ok in O2. cbn [fst snd] in O2. apply (in_table _ _ _ O2) in F. cbv beta in F. apply (in_table _ _ _ F) in G. clear O2 F.
  cbv beta in G. apply eqb_prop in G.
  assert (L : form_code f = form_code g <-> same_form m1 (fst (fst f)) m2 (fst (fst g)) = true).
  { rewrite <- G, andb_true_iff, !Z.eqb_eq. destruct (form_code f), (form_code g). cbn [fst snd].
    split; [intros X; injection X as -> ->; auto|intros [-> ->]; reflexivity]. }
  rewrite L. clear L G E1 E2. unfold same_form, exempt, same_machine_instruction, a_print.
  rewrite !orb_true_iff, !andb_true_iff, !inb_In, !eqb_ok, eqb_true_iff, !negb_true_iff.
  assert (N1 : fst (fst f) = false <-> ~ with_mask k1) by (rewrite <- M1; destruct (fst (fst f)); split; congruence).
  assert (N2 : fst (fst g) = false <-> ~ with_mask k2) by (rewrite <- M2; destruct (fst (fst g)); split; congruence).
  assert (B : fst (fst f) = fst (fst g) <-> (with_mask k1 <-> with_mask k2)).
  { rewrite <- M1, <- M2. destruct (fst (fst f)), (fst (fst g)); split; try reflexivity; try discriminate; intros X.
    - symmetry. apply X. reflexivity.
    - apply X. reflexivity. }
  rewrite N1, N2, B. tauto.
Qed.
(*@
(** DA with a mask and without: 41 of six bits, 201 of eight; the operands do not matter *)
Example C174_operation_code_ex :
  match call_masked "DecimalAdd" 1 19, call_masked "DecimalAdd" 0 7, call_unmasked "DecimalAdd" 1 1 0 1, call_unmasked "MultipleTransfer" 1 1 0 1 with
  | Ok i, Ok j, Ok k, Ok l =>
      operation_code (instr_value i) = (6, 33) /\ operation_code (instr_value j) = (6, 33) /\
      operation_code (instr_value k) = (8, 129) /\ operation_code (instr_value l) = (8, 16)
  | _, _, _, _ => False
  end.
Proof. vm_compute. auto. Qed.
@*)

Lemma C174_number_of_bits_pf : forall c sg m k i, In (c, (sg, m)) CLASSES -> class_call c k = Ok i ->
  (fst (operation_code (instr_value i)) = 3 <-> m = lit "S") /\
  (fst (operation_code (instr_value i)) = 6 <-> with_mask k \/ a_print m \/ a_peripheral m) /\
  (fst (operation_code (instr_value i)) = 8 <-> m <> lit "S" /\ ~ with_mask k /\ ~ a_print m /\ ~ a_peripheral m).
Proof.
  intros c sg m k i H C. destruct (call_code _ _ _ _ _ H C) as (o & f & O & F & M & E). rewrite E.
  pose proof (in_table _ _ _ forms_ok O) as Q. cbn [snd] in Q. pose proof (in_table _ _ _ Q F) as F1. clear Q. cbv beta in F1.
  unfold form_ok in F1. rewrite !andb_true_iff in F1. destruct F1 as (_ & A). cbn [fst] in A. apply Z.eqb_eq in A. rewrite A.
  assert (L : inb m (map lit ["PRA"; "PRD"; "PRO"; "RF"; "RB"; "WF"; "RW"]%string) = true <-> a_print m \/ a_peripheral m).
  { rewrite inb_In. unfold a_print, a_peripheral. cbn [map In]. tauto. }
  destruct (eqb m (lit "S")) eqn:S.
  - apply eqb_ok in S. subst m.
    assert (X : ~ with_mask k /\ ~ a_print (lit "S") /\ ~ a_peripheral (lit "S")).
    { split; [|split; cbn; intuition discriminate]. intros W. apply M in W.
      apply (In_dget OPCODES _ _ opcodes_NoDup) in O. vm_compute in O. injection O as <-.
      destruct F as [<-|[]]. discriminate W. }
    repeat split; try tauto; try discriminate; intuition.
  - assert (N : m <> lit "S") by (intros ->; discriminate S).
    destruct (fst (fst f)) eqn:K; cbn [orb].
    + assert (W : with_mask k) by (apply M; reflexivity). repeat split; try tauto; try discriminate; intuition.
    + assert (W : ~ with_mask k) by (intros W; apply M in W; discriminate W).
      destruct (inb m _) eqn:B in |- *.
      * apply L in B. repeat split; try tauto; try discriminate; intuition.
      * assert (B' : ~ (a_print m \/ a_peripheral m)) by (intros X; apply L in X; congruence).
        repeat split; try tauto; try discriminate; intuition.
Qed.
(*@
Example C174_number_of_bits_ex :
  match call_simulator 1, call_peripheral "Rewind" 9, call_unmasked "PrintOctal" 0 1 1 1, call_unmasked "FloatingDecimalAdd" 1 1 1 1 with
  | Ok i, Ok j, Ok k, Ok l =>
      fst (operation_code (instr_value i)) = 3 /\ fst (operation_code (instr_value j)) = 6 /\
      fst (operation_code (instr_value k)) = 6 /\ fst (operation_code (instr_value l)) = 8
  | _, _, _, _ => False
  end.
Proof. vm_compute. auto. Qed.
@*)

(** *** C175 *)
Lemma C175_asterisk_refuted_pf : In (44, 42) TABLE_I /\ dget CHARSET 44 = Some None /\ forall k, dget CHARSET k <> Some (Some 42).
Proof.
  split; [vm_compute; tauto|]. split; [reflexivity|].
  intros k H. apply dget_Some_In in H.
  assert (Q : forallb (fun e => negb (match snd e with Some x => x =? 42 | None => false end)) CHARSET = true) by (vm_compute; reflexivity).
  apply (in_table _ _ _ Q) in H. discriminate H.
Qed.
(*@ Example C175_asterisk_refuted_ex : dget CHARSET 43 = Some (Some 36) /\ dget CHARSET 44 = Some None /\ dget CHARSET 45 = Some (Some 34).
Proof. repeat split; reflexivity. Qed. @*)

Lemma C175_characters_partial_pf : forall k x, x <> 42 -> (dget CHARSET k = Some (Some x) <-> In (k, x) TABLE_I).
Proof.
  assert (Q1 : forallb (fun e => match snd e with Some x => existsb (fun t => (fst t =? fst e) && (snd t =? x)) TABLE_I | None => true end) CHARSET = true) by (vm_compute; reflexivity).
  assert (Q2 : forallb (fun t => (snd t =? 42) || match dget CHARSET (fst t) with Some (Some x) => x =? snd t | _ => false end) TABLE_I = true) by (vm_compute; reflexivity).
  intros k x N. split.
  - intros H. apply dget_Some_In in H. apply (in_table _ _ _ Q1) in H. cbn [fst snd] in H.
    apply existsb_exists in H. destruct H as ([a b] & I & E). cbn [fst snd] in E. apply andb_prop in E. destruct E as [E1 E2].
    apply Z.eqb_eq in E1, E2. subst. exact I.
  - intros I. apply (in_table _ _ _ Q2) in I. cbn [fst snd] in I. apply orb_prop in I. destruct I as [I|I]; [apply Z.eqb_eq in I; contradiction|].
    destruct (dget CHARSET k) as [[y|]|]; try discriminate I. apply Z.eqb_eq in I. subst. reflexivity.
Qed.
(*@ Example C175_characters_partial_ex : In (50, 83) TABLE_I /\ dget CHARSET 50 = Some (Some 83) /\ In (12, 58) TABLE_I.
Proof. vm_compute. tauto. Qed. @*)

(** *** C176 *)
Definition masked_call : kwargs := mkkw (Some (Some 1)) (Some (Some 31)) None None None None.
Lemma C176_mask_pf : forall c sg m, In (c, (sg, m)) CLASSES ->
  ((exists k i, with_mask k /\ class_call c k = Ok i) <-> field_instruction m).
Proof.
  assert (Q : forallb (fun e => Bool.eqb (existsb (fun f => fst (fst f)) (forms (snd e)))
      (inb (fst e) (map lit ["DA"; "DS"; "BA"; "BS"; "WA"; "WD"; "HA"; "SM"; "TX"; "TS"; "NN"; "NA"; "LN"; "LA"; "CP"]%string))) OPCODES = true) by (vm_compute; reflexivity).
  assert (Q' : forallb (fun e => negb (inb (snd (snd e)) (map lit ["DA"; "DS"; "BA"; "BS"; "WA"; "WD"; "HA"; "SM"; "TX"; "TS"; "NN"; "NA"; "LN"; "LA"; "CP"]%string)) ||
      match class_call (fst e) masked_call with Ok _ => true | Err _ => false end) CLASSES = true) by (vm_compute; reflexivity).
  intros c sg m H. unfold field_instruction. split.
  - intros (k & i & W & C). destruct (call_code _ _ _ _ _ H C) as (o & f & O & F & M & _).
    apply (in_table _ _ _ Q) in O. cbn [fst snd] in O. apply Bool.eqb_prop in O.
    apply inb_In. rewrite <- O. apply existsb_exists. exists f. split; [exact F|]. apply M, W.
  - intros I. apply (in_table _ _ _ Q') in H. cbn [fst snd] in H. apply inb_In in I. rewrite I in H. cbn [negb orb] in H.
    exists masked_call. destruct (class_call c masked_call) as [i|e] eqn:E; [|discriminate H]. exists i. split; [exists 31; reflexivity|reflexivity].
Qed.
(*@ Example C176_mask_ex : (exists i, class_call (lit "Superimpose") masked_call = Ok i) /\ class_call (lit "Substitute") masked_call = Err TypeError.
Proof. split; [eexists; vm_compute; reflexivity|vm_compute; reflexivity]. Qed. @*)
