(** Property theorems; generated from LTuple.v by meta/genp.py. *)
From Verif Require Import Py LPy MInstruction MInstructions MTuple STuple LTuple.

Theorem C191_class : forall class_ok field_ok typename fields defaults,
  class_ok typename = true -> (forall f, In f fields -> field_ok f = true) -> NoDup fields ->
  ((length defaults <= length fields)%nat ->
   exists T, namedtuple_defaults class_ok field_ok typename fields defaults = Ok T /\
   forall pos kw, NoDup (map fst kw) ->
     (acceptable fields pos kw ->
      exists t, nt_call T pos kw = Ok t /\ length t = length fields /\
      forall i f, nth_error fields i = Some f ->
        exists v, receives pos kw defaults i f v /\ nth_error t i = Some v /\ nt_attr fields t f = Ok v) /\
     (~ acceptable fields pos kw -> nt_call T pos kw = Err TypeError)) /\
  ((length fields < length defaults)%nat -> namedtuple_defaults class_ok field_ok typename fields defaults = Err TypeError).
Proof. exact (@C191_class_pf). Qed.
Print Assumptions C191_class.

Example C191_class_ex : let fields := [lit "x"; lit "y"; lit "z"] in
  match namedtuple_defaults (fun _ => true) (fun _ => true) (lit "T") fields [VInt 1; VStr (lit "two")] with
  | Ok T => nt_call T [VInt 7] [(lit "z", VInt 9)] = Ok [VInt 7; VStr (lit "two"); VInt 9] /\
            nt_call T [] [] = Ok [VInt 1; VStr (lit "two"); VNone] /\
            nt_call T [VInt 7] [(lit "x", VInt 9)] = Err TypeError /\ nt_call T [] [(lit "w", VInt 9)] = Err TypeError
  | Err _ => False
  end.
Proof. vm_compute. repeat split; reflexivity. Qed.

Theorem C191_names : forall class_ok field_ok typename fields defaults,
  ~ (class_ok typename = true /\ (forall f, In f fields -> field_ok f = true) /\ NoDup fields) ->
  namedtuple_defaults class_ok field_ok typename fields defaults = Err ValueError.
Proof. exact (@C191_names_pf). Qed.
Print Assumptions C191_names.

Example C191_names_ex : namedtuple_defaults (fun _ => true) (fun _ => true) (lit "T") [lit "x"; lit "y"; lit "x"] [] = Err ValueError.
Proof. apply C191_names. intros (_ & _ & N). inversion N as [|? ? X _]. apply X. right. left. reflexivity. Qed.

Theorem C191_table : forall class_ok field_ok,
  class_ok (lit "Opcode") = true -> (forall f, In f OPCODE_FIELDS -> field_ok f = true) ->
  exists T, Opcode class_ok field_ok = Ok T /\
  Forall2 (fun written row => fst written = fst row /\ nt_call T (snd written) [] = Ok (row_tuple (snd row)) /\
                              forall f v, In (f, v) (row_attributes (snd row)) -> nt_attr (nt_fields T) (row_tuple (snd row)) f = Ok v)
          OPCODE_CALLS OPCODES.
Proof. exact (@C191_table_pf). Qed.
Print Assumptions C191_table.

Example C191_table_ex : forall T, Opcode (fun _ => true) (fun _ => true) = Ok T ->
  nt_call T [VStr (lit "PR"); VStr (lit "Proceed"); VInt 0; VInt 0; VInt 0] [] =
  Ok [VStr (lit "PR"); VStr (lit "Proceed"); VInt 0; VInt 0; VInt 0; VStr (lit "unmasked")] /\
  nt_call T [VStr (lit "PR")] [(lit "type", VStr (lit "print"))] =
  Ok [VStr (lit "PR"); VNone; VNone; VNone; VNone; VStr (lit "print")].
Proof. intros T E. vm_compute in E. injection E as <-. split; vm_compute; reflexivity. Qed.
