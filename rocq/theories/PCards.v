(** Property theorems; generated from LCards.v by meta/genp.py. *)
From Verif Require Import Py LPy MCards SCards LInstructions LCards.

Theorem C56_fields : forall k line width fields fn ln c,
  ~ comment_line line -> good_layout width fields -> card_new k line width fields fn ln = Ok c ->
  exists fs, card_fields c = Ok fs /\ concat fs = columns line 1 width /\
    List.length fs = List.length fields /\
    forall i col, nth_error fields i = Some col ->
      nth_error fs i = Some (columns line col (field_end width fields i)).
Proof. exact (@C56_fields_pf). Qed.
Print Assumptions C56_fields.

Example C56_fields_ex :
  exists c, card_new PunchCls (lit "  A12 ADD") 9 [1; 2; 4] None 7 = Ok c /\
    card_fields c = Ok [lit " "; lit " A"; lit "12 ADD"].
Proof. eexists. split; vm_compute; reflexivity. Qed.

Theorem C56_fields_names : forall line width fields names fn ln,
  ~ comment_line line -> good_layout width fields -> good_names names fields ->
  exists c fs, punchcard_new line width fields names fn ln = Ok c /\ card_fields c = Ok fs /\
    concat fs = columns line 1 width /\
    forall i col, nth_error fields i = Some col ->
      nth_error fs i = Some (columns line col (field_end width fields i)).
Proof. exact (@C56_fields_names_pf). Qed.
Print Assumptions C56_fields_names.

Example C56_fields_names_ex :
  ~ comment_line (lit "ABCDE") /\ good_layout 4 [1; 3] /\ good_names [lit "x"; lit "y"] [1; 3].
Proof.
  split; [intros (r & E); discriminate|]. split; [cbn; lia|].
  split; [|split; [intros [E|[E|[]]]; discriminate|cbn; lia]].
  constructor; [intros [E|[]]; discriminate|]. constructor; [intros []|constructor].
Qed.

Theorem C57_record : forall line width fields names fn ln,
  ~ comment_line line -> good_layout width fields -> good_names names fields ->
  exists c fs st rec, punchcard_new line width fields names fn ln = Ok c /\ card_fields c = Ok fs /\
    card_stripped c = Ok st /\ card_record c = Ok rec /\
    (forall i f, nth_error fs i = Some f ->
       exists name o v, nth_error names i = Some name /\ nth_error st i = Some o /\
         dget rec name = Some v /\ shows f v /\
         match o with None => v = RNone | Some t => v = RStr t end) /\
    List.length st = List.length fs /\
    dget rec (lit "linenum") = (if ln =? 0 then None else Some (RInt ln)) /\
    (forall x, In x (dkeys rec) <->
       (x = lit "linenum" /\ ln <> 0) \/ (exists i, (i < List.length fields)%nat /\ nth_error names i = Some x)).
Proof. exact (@C57_record_pf). Qed.
Print Assumptions C57_record.

Example C57_record_ex :
  exists c, punchcard_new (lit "  A12 ADD") 9 [1; 2; 4] [lit "u"; lit "v"; lit "w"] None 7 = Ok c /\
    card_record c = Ok [(lit "linenum", RInt 7); (lit "u", RNone); (lit "v", RStr (lit "A"));
                        (lit "w", RStr (lit "12 ADD"))].
Proof. eexists. split; vm_compute; reflexivity. Qed.

Theorem C58_newline : forall k line width fields fn ln, good_layout width fields ->
  same_outcome (card_new k line width fields fn ln) (card_new k (line ++ [10]) width fields fn ln).
Proof. exact (@C58_newline_pf). Qed.
Print Assumptions C58_newline.

Example C58_newline_ex :
  exists c c', card_new ArgusCls (lit "R       A REMARK") 120 DEFAULT_FIELDS None 1 = Ok c /\
    card_new ArgusCls (lit "R       A REMARK" ++ [10]) 120 DEFAULT_FIELDS None 1 = Ok c' /\
    card_record c = card_record c' /\ card_fields c <> card_fields c'.
Proof. do 2 eexists. split; [vm_compute; reflexivity|]. split; [vm_compute; reflexivity|].
  split; [reflexivity|]. vm_compute. discriminate. Qed.

Theorem C59_comment : forall line width fields names fn ln, comment_line line ->
  (exists c, punchcard_new line width fields names fn ln = Ok c /\
     card_comment c = Some (filter (fun x => negb (x =? 10)) line) /\ card_str c = filter (fun x => negb (x =? 10)) line /\
     card_fields c = Err AttributeError /\ card_stripped c = Err AttributeError /\
     card_record c = Err AttributeError) /\
  argus_new line width fields names fn ln = Err AttributeError.
Proof. exact (@C59_comment_pf). Qed.
Print Assumptions C59_comment.

Example C59_comment_ex : comment_line (lit "# note" ++ [10]) /\
  filter (fun x => negb (x =? 10)) (lit "# note" ++ [10]) = lit "# note".
Proof. split; [exists (lit " note" ++ [10]); reflexivity|reflexivity]. Qed.

Theorem C59_not_comment : forall line width fields names fn ln c, ~ comment_line line ->
  punchcard_new line width fields names fn ln = Ok c ->
  card_comment c = None /\ (exists fs, card_fields c = Ok fs) /\ (exists r, card_record c = Ok r).
Proof. exact (@C59_not_comment_pf). Qed.
Print Assumptions C59_not_comment.

Example C59_not_comment_ex : ~ comment_line (lit " # note") /\
  exists c, punchcard_new (lit " # note") 3 [1] [lit "a"] None 0 = Ok c /\ card_record c = Ok [(lit "a", RStr (lit "#"))].
Proof. split; [intros (r & E); discriminate|]. eexists. split; vm_compute; reflexivity. Qed.

Theorem C60_remarks_refuted : forall line width fields fn ln ch,
  ~ comment_line line -> argus_layout width fields -> remark_card line width fields ->
  nth_error (filter (fun c => negb (c =? 10)) line) 8 = Some ch -> ~ white ch ->
  exists c, card_new ArgusCls line width fields fn ln = Ok c /\
    forall t, trimmed (text_from 9 line) t -> card_get c "remarks" <> Ok (RStr t).
Proof. exact (@C60_remarks_refuted_pf). Qed.
Print Assumptions C60_remarks_refuted.

Example C60_remarks_refuted_ex :
  exists c, card_new ArgusCls (lit "R       WHOLE REMARK") 120 DEFAULT_FIELDS None 1 = Ok c /\
    trimmed (text_from 9 (lit "R       WHOLE REMARK")) (lit "WHOLE REMARK") /\
    card_get c "remarks" = Ok (RStr (lit "HOLE REMARK")).
Proof.
  eexists. split; [vm_compute; reflexivity|]. split; [|vm_compute; reflexivity].
  exists [], []. split; [reflexivity|]. split; [constructor|]. split; [constructor|]. split.
  - intros c r [= <- _]. apply not_white. reflexivity.
  - intros c r E. apply (f_equal (fun l => last l 0)) in E. rewrite last_last in E. rewrite <- E. apply not_white. reflexivity.
Qed.

Theorem C60_remarks_partial : forall line width fields fn ln,
  ~ comment_line line -> argus_layout width fields -> remark_card line width fields ->
  exists c t, card_new ArgusCls line width fields fn ln = Ok c /\ card_get c "remarks" = Ok (RStr t) /\
    trimmed (text_from 10 line) t /\
    (match nth_error (filter (fun c => negb (c =? 10)) line) 8 with Some ch => white ch | None => True end ->
     trimmed (text_from 9 line) t).
Proof. exact (@C60_remarks_partial_pf). Qed.
Print Assumptions C60_remarks_partial.

Example C60_remarks_partial_ex :
  exists c, card_new ArgusCls (lit "P        TITLE PAGE  ") 120 DEFAULT_FIELDS None 1 = Ok c /\
    card_get c "remarks" = Ok (RStr (lit "TITLE PAGE")).
Proof. eexists. split; vm_compute; reflexivity. Qed.

Theorem C61_remark_card : forall line width fields fn ln,
  ~ comment_line line -> argus_layout width fields -> remark_card line width fields ->
  exists c, card_new ArgusCls line width fields fn ln = Ok c /\
    (forall x, In x ["label"; "operation"; "instruction"; "operand1"; "operand2"; "operand3"; "misc"]%string ->
       card_get c x = Ok RNone) /\
    (forall k x, In (k, x) [(0%nat, "column1"); (1%nat, "lognum"); (2%nat, "column8")]%string ->
       exists v, card_get c x = Ok v /\ shows (field_text line width fields k) v).
Proof. exact (@C61_remark_card_pf). Qed.
Print Assumptions C61_remark_card.

Example C61_remark_card_ex :
  remark_card (lit "L   X   LOG TITLE  OP") 120 DEFAULT_FIELDS /\ argus_layout 120 DEFAULT_FIELDS /\
  exists c, card_new ArgusCls (lit "L   X   LOG TITLE  OP") 120 DEFAULT_FIELDS None 1 = Ok c /\
    card_get c "lognum" = Ok (RStr (lit "X")) /\ card_get c "operation" = Ok RNone.
Proof.
  split.
  { exists "L"%string. split; [cbn; tauto|]. exists [], []. split; [reflexivity|]. split; [constructor|].
    split; [constructor|]. split; [intros c r [= <- _]; apply not_white; reflexivity|].
    intros c r E. apply (f_equal (fun l => last l 0)) in E. rewrite last_last in E. rewrite <- E. apply not_white. reflexivity. }
  split; [split; [cbn; lia|reflexivity]|].
  eexists. split; [vm_compute; reflexivity|]. split; vm_compute; reflexivity.
Qed.

Theorem C61_other_card : forall line width fields fn ln,
  ~ comment_line line -> argus_layout width fields -> ~ remark_card line width fields ->
  exists c, card_new ArgusCls line width fields fn ln = Ok c /\
    (forall k x, nth_error ["column1"; "lognum"; "column8"; "label"; "operation"; "operand1"; "operand2";
                            "operand3"; "misc"; "remarks"]%string k = Some x ->
       exists v, card_get c x = Ok v /\ shows (field_text line width fields k) v).
Proof. exact (@C61_other_card_pf). Qed.
Print Assumptions C61_other_card.

Example C61_other_card_ex :
  exists c, card_new ArgusCls (lit " 12     LOOP       WA           A,1           B") 120 DEFAULT_FIELDS None 3 = Ok c /\
    map (card_get c) ["column1"; "lognum"; "label"; "operation"; "operand1"; "operand2"; "remarks"]%string =
    [Ok RNone; Ok (RStr (lit "12")); Ok (RStr (lit "LOOP")); Ok (RStr (lit "WA")); Ok (RStr (lit "A,1"));
     Ok (RStr (lit "B")); Ok RNone].
Proof. eexists. split; vm_compute; reflexivity. Qed.

Theorem C62_instruction : forall line width fields fn ln,
  ~ comment_line line -> argus_layout width fields ->
  exists c op inst, card_new ArgusCls line width fields fn ln = Ok c /\
    card_get c "operation" = Ok op /\ card_get c "instruction" = Ok inst /\
    (op = RNone /\ inst = RNone \/
     exists s, op = RStr s /\
       (~ In 44 s -> inst = RStr s) /\
       (forall a b, s = a ++ 44 :: b -> ~ In 44 a -> exists t, trimmed a t /\ inst = RStr t)).
Proof. exact (@C62_instruction_pf). Qed.
Print Assumptions C62_instruction.

Example C62_instruction_ex :
  exists c, card_new ArgusCls (lit "                   WA , MASK,1") 120 DEFAULT_FIELDS None 3 = Ok c /\
    card_get c "operation" = Ok (RStr (lit "WA , MASK,1")) /\ card_get c "instruction" = Ok (RStr (lit "WA")).
Proof. eexists. split; [vm_compute; reflexivity|]. split; vm_compute; reflexivity. Qed.
