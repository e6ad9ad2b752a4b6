(** Property theorems; generated from LWord.v by meta/genp.py. *)
From Verif Require Import Py MBitField SBits LBits LBitField MWord SWord LWord.

Theorem C20_word_values : forall v,
  (0 <= v < 2 ^ 48 ->
     (exists w, word_new v = Ok w /\ word_value w = v) /\
     (forall u w ops, word_new u = Ok w ->
        let w1 := fold_left (fun w x => fst (word_set_value w x)) ops w in
        let '(w', r) := word_set_value w1 v in r = Ok tt /\ word_value w' = v)) /\
  (~ (0 <= v < 2 ^ 48) ->
     word_new v = Err ValueError /\
     (forall w, word_set_value w v = (w, Err ValueError))).
Proof. exact (@C20_word_values_pf). Qed.
Print Assumptions C20_word_values.

Example C20_example :
  (exists w, word_new 281474976710655 = Ok w /\ word_value w = 281474976710655) /\
  word_new 281474976710656 = Err ValueError /\ word_new (-1) = Err ValueError.
Proof. split; [eexists; repeat (apply conj); vm_compute; reflexivity|split; vm_compute; reflexivity]. Qed.

Theorem C21_instruction_word_packing : forall command a b c,
  0 <= command < 4096 -> 0 <= a < 4096 -> 0 <= b < 4096 -> 0 <= c < 4096 ->
  exists w, iw_new command a b c = Ok w /\
    iw_value w = command * 2 ^ 36 + a * 2 ^ 24 + b * 2 ^ 12 + c /\
    iw_get w Command = Ok command /\ iw_get w FA = Ok a /\
    iw_get w FB = Ok b /\ iw_get w FC = Ok c.
Proof. exact (@C21_instruction_word_packing_pf). Qed.
Print Assumptions C21_instruction_word_packing.

Example C21_example : exists w, iw_new 11 1 2 3 = Ok w /\ iw_value w = 755931029507.
Proof. eexists; repeat (apply conj); vm_compute; reflexivity. Qed.

Theorem C21_value_digits : forall command a b c v,
  0 <= command < 4096 -> 0 <= a < 4096 -> 0 <= b < 4096 -> 0 <= c < 4096 ->
  0 <= v < 2 ^ 48 ->
  exists w, iw_new command a b c = Ok w /\
  let w' := fst (iw_set_value w v) in
  iw_get w' Command = Ok (v / 2 ^ 36) /\ iw_get w' FA = Ok ((v / 2 ^ 24) mod 4096) /\
  iw_get w' FB = Ok ((v / 2 ^ 12) mod 4096) /\ iw_get w' FC = Ok (v mod 4096).
Proof. exact (@C21_value_digits_pf). Qed.
Print Assumptions C21_value_digits.

Example C21_value_digits_ex : match iw_new 0 0 0 0 with
  | Ok w => map (iw_get (fst (iw_set_value w (2 ^ 36 * 7 + 2 ^ 24 * 8 + 2 ^ 12 * 9 + 10)))) [Command; FA; FB; FC] = [Ok 7; Ok 8; Ok 9; Ok 10]
  | Err _ => False
  end.
Proof. vm_compute. reflexivity. Qed.

Theorem C22_fields_independent : forall command a b c ops,
  0 <= command < 4096 -> 0 <= a < 4096 -> 0 <= b < 4096 -> 0 <= c < 4096 ->
  Forall iw_op_fits ops ->
  exists w, iw_new command a b c = Ok w /\
    let r := fold_left regs_step ops
      (fun f => match f with Command => command | FA => a | FB => b | FC => c end) in
    (forall f, iw_get (iw_run w ops) f = Ok (r f)) /\ iw_value (iw_run w ops) = packed r.
Proof. exact (@C22_fields_independent_pf). Qed.
Print Assumptions C22_fields_independent.

Definition C22_ops := [SetField FA 100; SetValue 755931029507; SetField FC 4095; SetValue (-5)].
Example C22_example :
  Forall iw_op_fits C22_ops /\
  match iw_new 1 2 3 4 with
  | Ok w => map (iw_get (iw_run w C22_ops)) [Command; FA; FB; FC] = [Ok 11; Ok 1; Ok 2; Ok 4095]
  | Err _ => False
  end.
Proof. split; [repeat constructor; cbn; lia|]. vm_compute. reflexivity. Qed.

Theorem C23_misfit_rejected_refuted : (exists w, iw_new 0 4096 0 0 = Ok w /\ iw_get w Command = Ok 1 /\ iw_get w FA = Ok 0) /\
  (exists w, iw_new 0 0 0 0 = Ok w /\ iw_value (fst (iw_set w Command 4096)) = 2 ^ 48) /\
  (exists w, iw_new 0 0 0 (-1) = Ok w /\ iw_value w = -1) /\
  (exists w, iw_new 0 0 0 0 = Ok w /\ snd (iw_set w FB 4096) = Ok tt /\
             iw_get (fst (iw_set w FB 4096)) FA = Ok 1).
Proof. exact (@C23_misfit_rejected_refuted_pf). Qed.
Print Assumptions C23_misfit_rejected_refuted.

Example C23_misfit_rejected_refuted_ex : match iw_new 0 4096 0 0 with Ok w => iw_get w Command = Ok 1 /\ iw_value w = 2 ^ 36 | Err _ => False end.
Proof. vm_compute. auto. Qed.

Theorem C23_oversize_rejected_partial : forall w f v,
  (exists c a b c' w0 ops, iw_new c a b c' = Ok w0 /\ w = iw_run w0 ops) -> 4096 < v ->
  snd (iw_set w f v) = Err ValueError /\
  (forall g, iw_get (fst (iw_set w f v)) g = iw_get w g) /\
  iw_value (fst (iw_set w f v)) = iw_value w.
Proof. exact (@C23_oversize_rejected_partial_pf). Qed.
Print Assumptions C23_oversize_rejected_partial.

Example C23_partial_example :
  exists w, iw_new 1 2 3 4 = Ok w /\ snd (iw_set w FA 4097) = Err ValueError.
Proof. eexists; repeat (apply conj); vm_compute; reflexivity. Qed.

Theorem C24_rejected_write_unobservable : forall w o w' e,
  iw_step w o = (w', Err e) ->
  iw_value w' = iw_value w /\ forall f, iw_get w' f = iw_get w f.
Proof. exact (@C24_rejected_write_unobservable_pf). Qed.
Print Assumptions C24_rejected_write_unobservable.

Example C24_example :
  exists w, iw_new 1 2 3 4 = Ok w /\ snd (iw_step w (SetField FA 5000)) = Err ValueError /\
            snd (iw_step w (SetValue (2 ^ 48))) = Err ValueError.
Proof. eexists; repeat (apply conj); vm_compute; reflexivity. Qed.
