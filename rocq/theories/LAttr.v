From Coq Require Import ZArith List Bool Lia.
From Verif Require Import Py LPy MBitField SBits LBits LBitField MWord MMemory SMemory LMemory MRegisters SRegisters LRegisters MCards SCards LCards LSymBuild SSource LSource MAttr SAttr.
#[local] Arguments Z.add : simpl never.
#[local] Arguments Z.sub : simpl never.
#[local] Arguments Z.mul : simpl never.
#[local] Arguments Z.pow : simpl never.

(** *** C152 *)
Lemma attr_get c x k : dget CARD_ATTRIBUTES x = Some (lit k) -> card_attr c x = card_get c k.
Proof. intros E. unfold card_attr, card_get. rewrite E. reflexivity. Qed.
Lemma C152_code_pf : forall line fn ln, ~ comment_line line -> ~ remark_line line ->
  exists c, card_new ArgusCls line 120 [1; 2; 8; 9; 20; 33; 47; 61; 76; 81] fn ln = Ok c /\
    (forall x a b, In (x, a, b) columns_of -> exists v, card_attr c (lit x) = Ok v /\ shows (columns line a b) v) /\
    (forall m, card_attr c (lit "instruction") = Ok (RStr m) /\ m <> [] <-> mnemonic_at line m).
Proof.
  intros line fn ln C R. assert (R' : ~ remark_card line 120 F10) by (intros X; apply R, remark_line_ok, X).
  destruct (C61_other_card_pf line 120 F10 fn ln C default_layout R') as (c & E & H). exists c. split; [exact E|]. split.
  - intros x a b I.
    assert (G : forall k y, nth_error ["column1"; "lognum"; "column8"; "label"; "operation"; "operand1"; "operand2"; "operand3"; "misc"; "remarks"]%string k = Some y ->
                  dget CARD_ATTRIBUTES (lit x) = Some (lit y) -> field_text line 120 F10 k = columns line a b ->
                  exists v, card_attr c (lit x) = Ok v /\ shows (columns line a b) v).
    { intros k y N D F. destruct (H k y N) as (v & V1 & V2). exists v. rewrite (attr_get _ _ _ D), <- F. auto. }
    unfold columns_of in I. cbn [In] in I.
    repeat (destruct I as [I|I]; [injection I as <- <- <-; first
      [apply (G 0%nat "column1"%string); reflexivity|apply (G 1%nat "lognum"%string); reflexivity|apply (G 2%nat "column8"%string); reflexivity
      |apply (G 3%nat "label"%string); reflexivity|apply (G 4%nat "operation"%string); reflexivity|apply (G 5%nat "operand1"%string); reflexivity
      |apply (G 6%nat "operand2"%string); reflexivity|apply (G 7%nat "operand3"%string); reflexivity|apply (G 8%nat "misc"%string); reflexivity
      |apply (G 9%nat "remarks"%string); reflexivity]|]). destruct I.
  - intros m. destruct fn as [f|].
    + destruct (line_card (f, ln, line) c C E) as (_ & _ & _ & _ & M & _). rewrite <- M. unfold STools.instr_is.
      rewrite (attr_get c (lit "instruction") "instruction"%string eq_refl). tauto.
    + assert (EQ : exists c', card_new ArgusCls line 120 F10 (Some []) ln = Ok c' /\ card_get c' "instruction" = card_get c "instruction").
      { cbn [card_new] in E |- *. change (argus_new line 120 F10 DEFAULT_FIELDNAMES None ln = Ok c) in E.
        rewrite (argus_ok line 120 F10 (Some []) ln C default_layout). rewrite (argus_ok line 120 F10 None ln C default_layout) in E.
        eexists. split; [reflexivity|]. assert (E' := f_equal (fun r => match r with Ok y => card_get y "instruction" | Err e => Err e end) E).
        cbv beta iota in E'. rewrite <- E'. reflexivity. }
      destruct EQ as (c' & E1 & E2). destruct (line_card ([], ln, line) c' C E1) as (_ & _ & _ & _ & M & _). rewrite <- M. unfold STools.instr_is.
      rewrite (attr_get c (lit "instruction") "instruction"%string eq_refl), E2. tauto.
Qed.
(*@ Example C152_code_ex : let line := lit "X12    *A          DA,B         1             2             3              00001NOTE" in
  match card_new ArgusCls line 120 [1; 2; 8; 9; 20; 33; 47; 61; 76; 81] None 0 with
  | Ok c => map (fun x => card_attr c (lit x)) ["column1"; "lognum"; "column8"; "location"; "instruction"; "addressa"; "operand2"; "addressc"; "sequence"; "remarks"]%string =
      map (fun v => Ok (RStr (lit v))) ["X"; "12"; "*"; "A"; "DA"; "1"; "2"; "3"; "00001"; "NOTE"]%string
  | Err _ => False
  end.
Proof. vm_compute. reflexivity. Qed. @*)
Lemma C152_remark_pf : forall line fn ln, ~ comment_line line -> remark_line line ->
  exists c, card_new ArgusCls line 120 [1; 2; 8; 9; 20; 33; 47; 61; 76; 81] fn ln = Ok c /\
    (forall x, In x code_columns -> card_attr c (lit x) = Ok RNone) /\
    (forall x a b, In (x, a, b) (firstn 3 columns_of) -> exists v, card_attr c (lit x) = Ok v /\ shows (columns line a b) v) /\
    exists t, card_attr c (lit "remarks") = Ok (RStr t) /\ trimmed (text_from 10 line) t.
Proof.
  intros line fn ln C R. pose proof (proj2 (remark_line_ok line) R) as R'.
  destruct (C61_remark_card_pf line 120 F10 fn ln C default_layout R') as (c & E & H1 & H2).
  destruct (C60_remarks_partial_pf line 120 F10 fn ln C default_layout R') as (c' & t & E' & T1 & T2 & _).
  rewrite E in E'. assert (c' = c) by congruence. subst c'.
  exists c. split; [exact E|]. split; [|split].
  - intros x I. assert (G : forall y, In y ["label"; "operation"; "instruction"; "operand1"; "operand2"; "operand3"; "misc"]%string ->
      dget CARD_ATTRIBUTES (lit x) = Some (lit y) -> card_attr c (lit x) = Ok RNone).
    { intros y Y D. rewrite (attr_get _ _ _ D). apply H1. exact Y. }
    unfold code_columns in I. cbn [In] in I.
    repeat (destruct I as [<-|I]; [first
      [apply (G "label"%string); [cbn; tauto|reflexivity]|apply (G "operation"%string); [cbn; tauto|reflexivity]|apply (G "instruction"%string); [cbn; tauto|reflexivity]
      |apply (G "operand1"%string); [cbn; tauto|reflexivity]|apply (G "operand2"%string); [cbn; tauto|reflexivity]|apply (G "operand3"%string); [cbn; tauto|reflexivity]
      |apply (G "misc"%string); [cbn; tauto|reflexivity]]|]). destruct I.
  - intros x a b I. cbn [firstn columns_of In] in I.
    destruct I as [I|[I|[I|[]]]]; injection I as <- <- <-;
      [destruct (H2 0%nat "column1"%string) as (v & V1 & V2)|destruct (H2 1%nat "lognum"%string) as (v & V1 & V2)|destruct (H2 2%nat "column8"%string) as (v & V1 & V2)];
      try (cbn; tauto); exists v; (split; [exact V1|exact V2]).
  - exists t. split; [exact T1|exact T2].
Qed.
(*@ Example C152_remark_ex : match card_new ArgusCls (lit "R12     * SEE PAGE 7") 120 [1; 2; 8; 9; 20; 33; 47; 61; 76; 81] None 0 with
  | Ok c => card_attr c (lit "remarks") = Ok (RStr (lit "SEE PAGE 7")) /\ card_attr c (lit "location") = Ok RNone /\ card_attr c (lit "lognum") = Ok (RStr (lit "12"))
  | Err _ => False
  end.
Proof. vm_compute. auto. Qed. @*)
Lemma C152_others_pf : forall c name, card_parse c = (c, Ok tt) /\
  ((forall x a b, In (x, a, b) columns_of -> name <> lit x) -> name <> lit "instruction" -> card_attr c name = Err AttributeError).
Proof.
  intros c name. split; [reflexivity|]. intros H N. unfold card_attr.
  destruct (dget CARD_ATTRIBUTES name) as [k|] eqn:D; [|reflexivity]. exfalso. apply dget_Some_In in D. unfold CARD_ATTRIBUTES in D. cbn [In] in D.
  repeat (destruct D as [D|D]; [injection D as D _; first [apply N; symmetry; exact D|eapply H; [|symmetry; exact D]; cbn [columns_of In]; repeat (first [left; reflexivity|right])]|]). destruct D.
Qed.
(*@ Example C152_others_ex : match card_new ArgusCls (lit "R12") 120 [1; 2; 8; 9; 20; 33; 47; 61; 76; 81] None 0 with
  | Ok c => card_attr c (lit "misc") = Err AttributeError | Err _ => False end.
Proof. vm_compute. reflexivity. Qed. @*)

(** *** C153 *)
Lemma C153_bank_refuted_pf : forall m lo hi step v, reachable m -> 0 <= lo -> lo + 1 < hi <= 2048 -> 2 <= step -> 0 <= v < 2 ^ 48 ->
  ~ selected lo hi step (lo + 1) /\
  (exists m', bank_sub_set m (Range (Some lo) (Some hi) (Some step)) v = (m', Ok tt) /\ bank_getitem m' (Idx (lo + 1)) = Ok [v]) /\
  exists xs, bank_sub m (Range (Some lo) (Some hi) (Some step)) = Ok xs /\ zlen xs = hi - lo.
Proof.
  intros m lo hi step v R L H S V. split; [intros (_ & k & K & E); assert (k = 0 \/ 1 <= k) as [->|K1] by lia; [lia|assert (k * step >= step) by nia; lia]|].
  destruct (C27_slices_pf m lo hi v R L ltac:(lia)) as [(xs & X1 & X2 & _) W]. specialize (W V).
  unfold bank_sub_set, bank_sub. cbn [looked_at]. split.
  - destruct (bank_setitem m (Slice (Some lo) (Some hi)) v) as [m' r]. destruct W as [-> W]. exists m'. split; [reflexivity|].
    rewrite W. destruct (Z.leb_spec lo (lo + 1)); [|lia]. destruct (Z.ltb_spec (lo + 1) hi); [reflexivity|lia].
  - exists xs. split; [exact X1|]. lia.
Qed.
(*@ Example C153_bank_refuted_ex : match bank_new with
  | Ok m => let m' := fst (bank_sub_set m (Range (Some 4) (Some 8) (Some 2)) 7) in bank_sub m' (Range (Some 0) (Some 8) (Some 4)) = Ok [0; 0; 0; 0; 7; 7; 7; 7]
  | Err _ => False
  end.
Proof. rewrite bank_new_value. vm_compute. reflexivity. Qed. @*)
Lemma C153_field_refuted_pf : forall b s e step, bf_order b = MSB_LEFT -> valid_range (bf_order b) (bf_numbering b) (bf_width b) s e ->
  let lo := weight (bf_numbering b) (bf_width b) e in
  let n := weight (bf_numbering b) (bf_width b) s - lo + 1 in
  field_sub b (Range (Some s) (Some e) step) = Ok (bits_at (bf_value b) lo n) /\
  (wf b -> fits (bf_width b) (bf_value b) -> forall x, 0 <= x < 2 ^ n ->
   let '(b', r) := field_sub_set b (Range (Some s) (Some e) step) x in r = Ok tt /\ bits_replaced (bf_value b) (bf_value b') lo n x).
Proof.
  intros b s e step O V lo n. split; [exact (proj1 (@C05_slice_read_msb_left_pf b O) s e V)|]. intros W F x X.
  pose proof (@C06_slice_write_msb_left_pf b s e x O W F V) as H. cbv zeta in H. specialize (H X). unfold field_sub_set. cbn [looked_at].
  destruct (bf_setitem b (Slice (Some s) (Some e)) x) as [b' r]. destruct H as (A & B & _). auto.
Qed.
(*@ Example C153_field_refuted_ex : match bf_new 255 8 3 0 with
  | Ok b => field_sub b (Range (Some 1) (Some 8) (Some 2)) = Ok 255 /\ bf_value (fst (field_sub_set b (Range (Some 1) (Some 8) (Some 0)) 0)) = 0
  | Err _ => False
  end.
Proof. vm_compute. auto. Qed. @*)
Lemma C153_register_refuted_pf : forall data name W r0 xs s e step, register_new data name W = Ok r0 -> Forall (act_fits W) xs ->
  1 <= s <= e -> e <= W -> let r := reg_run r0 xs in
  reg_sub r (Range (Some s) (Some e) step) = Ok (bits_at (reg_value r) (W - e) (e - s + 1)) /\
  forall x, 0 <= x < 2 ^ (e - s + 1) -> let '(r', o) := reg_sub_set r (Range (Some s) (Some e) step) x in
    o = Ok tt /\ bits_replaced (reg_value r) (reg_value r') (W - e) (e - s + 1) x.
Proof.
  intros data name W r0 xs s e step N F H1 H2. destruct (C34_register_bits_pf data name W r0 xs N F) as (_ & _ & _ & G & _ & S). cbv zeta.
  split; [exact (G s e H1 H2)|]. intros x X. exact (S s e x H1 H2 X).
Qed.
(*@ Example C153_register_refuted_ex : match register_new 65535 None 16 with
  | Ok r => reg_sub r (Range (Some 1) (Some 4) (Some 2)) = Ok 15 /\ reg_value (fst (reg_sub_set r (Range (Some 1) (Some 15) (Some 7)) 0)) = 1
  | Err _ => False
  end.
Proof. vm_compute. auto. Qed. @*)
Lemma C153_module_refuted_pf : forall n, n = 4 \/ n = 8 -> exists m, module_new n = Ok m /\
  forall cs lo hi step, 0 <= lo -> lo + 1 < hi <= n -> 2 <= step ->
    ~ selected lo hi step (lo + 1) /\
    exists is, module_sub (module_run m cs) (Range (Some lo) (Some hi) (Some step)) = Ok is /\ zlen is = hi - lo /\ In (lo + 1) is.
Proof.
  intros n Hn. destruct (C30_slices_pf n Hn) as (m & E & H). exists m. split; [exact E|]. intros cs lo hi step L K S.
  split; [intros (_ & k & P & Q); assert (k = 0 \/ 1 <= k) as [->|K1] by lia; [lia|assert (k * step >= step) by nia; lia]|].
  destruct (H cs lo hi) as (A & _). destruct (A L ltac:(lia)) as (is & I1 & I2 & I3). exists is. split; [exact I1|]. split; [exact I2|].
  apply (nth_error_In _ (Z.to_nat 1)). apply I3. lia.
Qed.
(*@ Example C153_module_refuted_ex : match memory_module with
  | Ok m => module_sub m (Range (Some 0) (Some 4) (Some 2)) = Ok [0; 1; 2; 3]
  | Err _ => False
  end.
Proof. unfold memory_module, module_new. rewrite bank_new_value. vm_compute. reflexivity. Qed. @*)
Lemma C153_refused_partial_pf : forall a b step g r rs x,
  group_getitem g (group_key (Range a b step)) = Err ValueError /\ group_setitem g (group_key (Range a b step)) r = (g, Err ValueError) /\
  registers_getitem rs (group_key (Range a b step)) = Err ValueError /\ registers_setitem rs (group_key (Range a b step)) x = (rs, Err ValueError).
Proof. intros. repeat split; reflexivity. Qed.
(*@ Example C153_refused_partial_ex : group_key (Range (Some 0) (Some 4) (Some 2)) = KSlice /\ group_key (At 3) = KI 3.
Proof. auto. Qed. @*)
Lemma C153_step_one_partial_pf : forall lo hi i, selected lo hi 1 i <-> lo <= i < hi.
Proof. intros lo hi i. unfold selected. split; [intros [H _]; exact H|]. intros H. split; [exact H|]. exists (i - lo). lia. Qed.
(*@ Example C153_step_one_partial_ex : selected 4 8 1 5 /\ ~ selected 4 8 2 5.
Proof. split; [split; [lia|exists 1; lia]|]. intros (_ & k & K & E). lia. Qed. @*)
