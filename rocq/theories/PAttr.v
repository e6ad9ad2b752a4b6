(** Property theorems; generated from LAttr.v by meta/genp.py. *)
From Verif Require Import Py LPy MBitField SBits LBits LBitField MWord MMemory SMemory LMemory MRegisters SRegisters LRegisters MCards SCards LCards LSymBuild SSource LSource MAttr SAttr LAttr.

Theorem C152_code : forall line fn ln, ~ comment_line line -> ~ remark_line line ->
  exists c, card_new ArgusCls line 120 [1; 2; 8; 9; 20; 33; 47; 61; 76; 81] fn ln = Ok c /\
    (forall x a b, In (x, a, b) columns_of -> exists v, card_attr c (lit x) = Ok v /\ shows (columns line a b) v) /\
    (forall m, card_attr c (lit "instruction") = Ok (RStr m) /\ m <> [] <-> mnemonic_at line m).
Proof. exact (@C152_code_pf). Qed.
Print Assumptions C152_code.

Example C152_code_ex : let line := lit "X12    *A          DA,B         1             2             3              00001NOTE" in
  match card_new ArgusCls line 120 [1; 2; 8; 9; 20; 33; 47; 61; 76; 81] None 0 with
  | Ok c => map (fun x => card_attr c (lit x)) ["column1"; "lognum"; "column8"; "location"; "instruction"; "addressa"; "operand2"; "addressc"; "sequence"; "remarks"]%string =
      map (fun v => Ok (RStr (lit v))) ["X"; "12"; "*"; "A"; "DA"; "1"; "2"; "3"; "00001"; "NOTE"]%string
  | Err _ => False
  end.
Proof. vm_compute. reflexivity. Qed.

Theorem C152_remark : forall line fn ln, ~ comment_line line -> remark_line line ->
  exists c, card_new ArgusCls line 120 [1; 2; 8; 9; 20; 33; 47; 61; 76; 81] fn ln = Ok c /\
    (forall x, In x code_columns -> card_attr c (lit x) = Ok RNone) /\
    (forall x a b, In (x, a, b) (firstn 3 columns_of) -> exists v, card_attr c (lit x) = Ok v /\ shows (columns line a b) v) /\
    exists t, card_attr c (lit "remarks") = Ok (RStr t) /\ trimmed (text_from 10 line) t.
Proof. exact (@C152_remark_pf). Qed.
Print Assumptions C152_remark.

Example C152_remark_ex : match card_new ArgusCls (lit "R12     * SEE PAGE 7") 120 [1; 2; 8; 9; 20; 33; 47; 61; 76; 81] None 0 with
  | Ok c => card_attr c (lit "remarks") = Ok (RStr (lit "SEE PAGE 7")) /\ card_attr c (lit "location") = Ok RNone /\ card_attr c (lit "lognum") = Ok (RStr (lit "12"))
  | Err _ => False
  end.
Proof. vm_compute. auto. Qed.

Theorem C152_others : forall c name, card_parse c = (c, Ok tt) /\
  ((forall x a b, In (x, a, b) columns_of -> name <> lit x) -> name <> lit "instruction" -> card_attr c name = Err AttributeError).
Proof. exact (@C152_others_pf). Qed.
Print Assumptions C152_others.

Example C152_others_ex : match card_new ArgusCls (lit "R12") 120 [1; 2; 8; 9; 20; 33; 47; 61; 76; 81] None 0 with
  | Ok c => card_attr c (lit "misc") = Err AttributeError | Err _ => False end.
Proof. vm_compute. reflexivity. Qed.

Theorem C153_bank_refuted : forall m lo hi step v, reachable m -> 0 <= lo -> lo + 1 < hi <= 2048 -> 2 <= step -> 0 <= v < 2 ^ 48 ->
  ~ selected lo hi step (lo + 1) /\
  (exists m', bank_sub_set m (Range (Some lo) (Some hi) (Some step)) v = (m', Ok tt) /\ bank_getitem m' (Idx (lo + 1)) = Ok [v]) /\
  exists xs, bank_sub m (Range (Some lo) (Some hi) (Some step)) = Ok xs /\ zlen xs = hi - lo.
Proof. exact (@C153_bank_refuted_pf). Qed.
Print Assumptions C153_bank_refuted.

Example C153_bank_refuted_ex : match bank_new with
  | Ok m => let m' := fst (bank_sub_set m (Range (Some 4) (Some 8) (Some 2)) 7) in bank_sub m' (Range (Some 0) (Some 8) (Some 4)) = Ok [0; 0; 0; 0; 7; 7; 7; 7]
  | Err _ => False
  end.
Proof. rewrite bank_new_value. vm_compute. reflexivity. Qed.

Theorem C153_field_refuted : forall b s e step, bf_order b = MSB_LEFT -> valid_range (bf_order b) (bf_numbering b) (bf_width b) s e ->
  let lo := weight (bf_numbering b) (bf_width b) e in
  let n := weight (bf_numbering b) (bf_width b) s - lo + 1 in
  field_sub b (Range (Some s) (Some e) step) = Ok (bits_at (bf_value b) lo n) /\
  (wf b -> fits (bf_width b) (bf_value b) -> forall x, 0 <= x < 2 ^ n ->
   let '(b', r) := field_sub_set b (Range (Some s) (Some e) step) x in r = Ok tt /\ bits_replaced (bf_value b) (bf_value b') lo n x).
Proof. exact (@C153_field_refuted_pf). Qed.
Print Assumptions C153_field_refuted.

Example C153_field_refuted_ex : match bf_new 255 8 3 0 with
  | Ok b => field_sub b (Range (Some 1) (Some 8) (Some 2)) = Ok 255 /\ bf_value (fst (field_sub_set b (Range (Some 1) (Some 8) (Some 0)) 0)) = 0
  | Err _ => False
  end.
Proof. vm_compute. auto. Qed.

Theorem C153_register_refuted : forall data name W r0 xs s e step, register_new data name W = Ok r0 -> Forall (act_fits W) xs ->
  1 <= s <= e -> e <= W -> let r := reg_run r0 xs in
  reg_sub r (Range (Some s) (Some e) step) = Ok (bits_at (reg_value r) (W - e) (e - s + 1)) /\
  forall x, 0 <= x < 2 ^ (e - s + 1) -> let '(r', o) := reg_sub_set r (Range (Some s) (Some e) step) x in
    o = Ok tt /\ bits_replaced (reg_value r) (reg_value r') (W - e) (e - s + 1) x.
Proof. exact (@C153_register_refuted_pf). Qed.
Print Assumptions C153_register_refuted.

Example C153_register_refuted_ex : match register_new 65535 None 16 with
  | Ok r => reg_sub r (Range (Some 1) (Some 4) (Some 2)) = Ok 15 /\ reg_value (fst (reg_sub_set r (Range (Some 1) (Some 15) (Some 7)) 0)) = 1
  | Err _ => False
  end.
Proof. vm_compute. auto. Qed.

Theorem C153_module_refuted : forall n, n = 4 \/ n = 8 -> exists m, module_new n = Ok m /\
  forall cs lo hi step, 0 <= lo -> lo + 1 < hi <= n -> 2 <= step ->
    ~ selected lo hi step (lo + 1) /\
    exists is, module_sub (module_run m cs) (Range (Some lo) (Some hi) (Some step)) = Ok is /\ zlen is = hi - lo /\ In (lo + 1) is.
Proof. exact (@C153_module_refuted_pf). Qed.
Print Assumptions C153_module_refuted.

Example C153_module_refuted_ex : match memory_module with
  | Ok m => module_sub m (Range (Some 0) (Some 4) (Some 2)) = Ok [0; 1; 2; 3]
  | Err _ => False
  end.
Proof. unfold memory_module, module_new. rewrite bank_new_value. vm_compute. reflexivity. Qed.

Theorem C153_refused_partial : forall a b step g r rs x,
  group_getitem g (group_key (Range a b step)) = Err ValueError /\ group_setitem g (group_key (Range a b step)) r = (g, Err ValueError) /\
  registers_getitem rs (group_key (Range a b step)) = Err ValueError /\ registers_setitem rs (group_key (Range a b step)) x = (rs, Err ValueError).
Proof. exact (@C153_refused_partial_pf). Qed.
Print Assumptions C153_refused_partial.

Example C153_refused_partial_ex : group_key (Range (Some 0) (Some 4) (Some 2)) = KSlice /\ group_key (At 3) = KI 3.
Proof. auto. Qed.

Theorem C153_step_one_partial : forall lo hi i, selected lo hi 1 i <-> lo <= i < hi.
Proof. exact (@C153_step_one_partial_pf). Qed.
Print Assumptions C153_step_one_partial.

Example C153_step_one_partial_ex : selected 4 8 1 5 /\ ~ selected 4 8 2 5.
Proof. split; [split; [lia|exists 1; lia]|]. intros (_ & k & K & E). lia. Qed.
