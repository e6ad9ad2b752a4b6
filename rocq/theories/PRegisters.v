(** Property theorems; generated from LRegisters.v by meta/genp.py. *)
From Verif Require Import Py MBitField SBits LPy LBits LBitField MRegisters SRegisters LRegisters.

Theorem C32_names : (forall s n, registerNumber s = Ok n <-> number_of s = Some n) /\
  (forall s, In s reg_names \/ In s alias_names \/ registerNumber s = Err ValueError) /\
  (forall n, 0 <= n < 32 -> exists s, registerName n = Ok s) /\
  (forall n, ~ (0 <= n < 32) -> registerName n = Err ValueError /\ registerAlias n = Err ValueError) /\
  (forall n s, registerName n = Ok s <-> In s reg_names /\ registerNumber s = Ok n) /\
  (forall n, 0 <= n < 28 -> registerAlias n = registerName n) /\
  (forall n s, 28 <= n < 32 -> registerAlias n = Ok s <-> In s alias_names /\ registerNumber s = Ok n) /\
  (forall n s, registerAlias n = Ok s -> registerNumber s = Ok n).
Proof. exact (@C32_names_pf). Qed.
Print Assumptions C32_names.

Example C32_example :
  registerNumber (lit "X3") = Ok 11 /\ registerName 30 = Ok (lit "S6") /\
  registerAlias 30 = Ok (lit "WAC") /\ registerNumber (lit "WAC") = Ok 30 /\
  registerNumber (lit "X9") = Err ValueError /\ registerName 32 = Err ValueError.
Proof. vm_compute. repeat split; reflexivity. Qed.

Theorem C33_constructor : forall data name width,
  (register_new data name width = Err ValueError <->
     ~ (0 <= data < 2 ^ width /\ good_name name /\ (width = 16 \/ width = 24))) /\
  (forall e, register_new data name width = Err e -> e = ValueError) /\
  (forall r, register_new data name width = Ok r ->
     reg_value r = data /\ r_name r = name /\ reg_len r = width).
Proof. exact (@C33_constructor_pf). Qed.
Print Assumptions C33_constructor.

Example C33_constructor_ex : match register_new 65535 (Some (lit "RAC")) 16 with
  | Ok r => reg_value r = 65535 /\ r_name r = Some (lit "RAC") /\ reg_len r = 16
  | Err _ => False
  end /\ register_new (-1) None 24 = Err ValueError.
Proof. vm_compute. auto. Qed.

Theorem C33_value_setter : forall data name width r0 xs v,
  register_new data name width = Ok r0 ->
  let r := reg_run r0 xs in
  (0 <= v < 2 ^ width ->
     let '(r', x) := reg_set_value r v in
     x = Ok tt /\ reg_value r' = v /\ r_name r' = name /\ reg_len r' = width) /\
  (~ (0 <= v < 2 ^ width) -> reg_set_value r v = (r, Err ValueError)).
Proof. exact (@C33_value_setter_pf). Qed.
Print Assumptions C33_value_setter.

Example C33_example :
  match register_new 65535 (Some (lit "RAC")) 16 with
  | Ok r => reg_value r = 65535 /\
            reg_value (fst (reg_set_value r 9)) = 9 /\ snd (reg_set_value r 65536) = Err ValueError
  | Err _ => False
  end /\
  register_new 65536 None 16 = Err ValueError /\ register_new 1 (Some (lit "Q")) 24 = Err ValueError /\
  register_new 1 None 20 = Err ValueError.
Proof. vm_compute. repeat split; reflexivity. Qed.

Theorem C34_register_bits : forall data name W r0 xs,
  register_new data name W = Ok r0 -> Forall (act_fits W) xs ->
  let r := reg_run r0 xs in
  0 <= reg_value r < 2 ^ W /\
  (forall i, 1 <= i <= W -> reg_getitem r (Idx i) = Ok (bit_at (reg_value r) (W - i))) /\
  (forall i, ~ (1 <= i <= W) -> reg_getitem r (Idx i) = Err ValueError /\
                                forall x, reg_setitem r (Idx i) x = (r, Err ValueError)) /\
  (forall s e, 1 <= s <= e -> e <= W ->
     reg_getitem r (Slice (Some s) (Some e)) = Ok (bits_at (reg_value r) (W - e) (e - s + 1))) /\
  (forall i x, 1 <= i <= W -> x = 0 \/ x = 1 ->
     let '(r', o) := reg_setitem r (Idx i) x in
     o = Ok tt /\ bit_replaced (reg_value r) (reg_value r') (W - i) x) /\
  (forall s e x, 1 <= s <= e -> e <= W -> 0 <= x < 2 ^ (e - s + 1) ->
     let '(r', o) := reg_setitem r (Slice (Some s) (Some e)) x in
     o = Ok tt /\ bits_replaced (reg_value r) (reg_value r') (W - e) (e - s + 1) x).
Proof. exact (@C34_register_bits_pf). Qed.
Print Assumptions C34_register_bits.

Example C34_example :
  match register_new 5 (Some (lit "X0")) 16 with
  | Ok r0 =>
      let r := reg_run r0 [ASetItem (Idx 1) 1; ASetItem (Slice (Some 9) (Some 12)) 9; ASetItem (Idx 17) 1] in
      reg_value r = 32768 + 9 * 16 + 5 /\ reg_getitem r (Slice (Some 9) (Some 16)) = Ok 149
  | Err _ => False
  end /\
  Forall (act_fits 16) [ASetItem (Idx 1) 1; ASetItem (Slice (Some 9) (Some 12)) 9; ASetItem (Idx 17) 1].
Proof.
  split; [vm_compute; split; reflexivity|].
  repeat constructor; cbn; unfold fits, range_size, weight; lia.
Qed.
