(** Property theorems; generated from LNarrow.v by meta/genp.py. *)
From Verif Require Import Py LPy MBitField SBits MProto MNarrow LNarrow.

Theorem C168_accepted_refuted : forall value width numbering order, width < 0 ->
  ((exists b, nbf_new value width numbering order = Ok b) <-> value < 0 /\ 0 <= numbering <= 3 /\ (order = 0 \/ order = 1)) /\
  (forall e, nbf_new value width numbering order = Err e -> e = ValueError) /\
  (forall b, nbf_new value width numbering order = Ok b ->
     n_width b = width /\ nbf_value b = value /\ n_int b = Ok value /\ scheme_num (n_numbering b) = numbering /\ order_num (n_order b) = order) /\
  ((exists b, bf_new value width numbering order = Ok b) <-> exists b, nbf_new value width numbering order = Ok b).
Proof. exact (@C168_accepted_refuted_pf). Qed.
Print Assumptions C168_accepted_refuted.

Example C168_accepted_refuted_ex : exists b, nbf_new (-7) (-3) 0 1 = Ok b /\ nbf_value b = -7 /\ nbf_new 0 (-3) 0 1 = Err ValueError /\ nbf_new (-7) (-3) 4 1 = Err ValueError.
Proof. eexists. repeat split. Qed.

Theorem C168_no_bits_partial : forall b, n_width b < 0 ->
  n_indices b = [] /\ n_lsb b = Err IndexError /\ n_msb b = Err IndexError /\
  (forall i, n_item b (Idx i) = Err ValueError) /\ (forall s e, n_item b (Slice (Some s) e) = Err ValueError) /\ (forall e, n_item b (Slice None e) = Err TypeError) /\
  (forall i v, n_isBit b i v = Err ValueError) /\ (forall s e v, n_isRange b (Some s) e v = Err ValueError) /\ (forall e v, n_isRange b None e v = Err TypeError) /\
  n_len b = Err ValueError /\ n_bool b = Err ValueError /\ n_repr b = match n_int b with Ok _ => Err ValueError | Err _ => Err TypeError end.
Proof. exact (@C168_no_bits_partial_pf). Qed.
Print Assumptions C168_no_bits_partial.

Example C168_no_bits_partial_ex : exists b, nbf_new (-7) (-3) 0 1 = Ok b /\ n_width b < 0 /\ n_item b (Idx 0) = Err ValueError /\ n_repr b = Err ValueError /\ n_repr (fst (n_step b (OpSet None))) = Err TypeError.
Proof. eexists. repeat split. Qed.

Theorem C168_history_partial : forall b o, n_width b < 0 ->
  n_width (fst (n_step b o)) = n_width b /\ n_numbering (fst (n_step b o)) = n_numbering b /\ n_order (fst (n_step b o)) = n_order b /\
  match o with
  | OpSet None | OpSet (Some 0) => snd (n_step b o) = Ok tt /\ n_int (fst (n_step b o)) = Err TypeError /\
                                   nbf_value (fst (n_step b o)) = (if n_width b <? -53 then -1 else 0)
  | OpClear None | OpClear (Some 0) => snd (n_step b o) = Ok tt /\ n_int (fst (n_step b o)) = Ok 0 /\ nbf_value (fst (n_step b o)) = 0
  | OpItem (Slice None _) _ => n_step b o = (b, Err TypeError)
  | _ => n_step b o = (b, Err ValueError)
  end.
Proof. exact (@C168_history_partial_pf). Qed.
Print Assumptions C168_history_partial.

Example C168_history_partial_ex : exists b, nbf_new (-7) (-3) 0 1 = Ok b /\
  nbf_value (n_run b [OpItem (Idx 0) 1; OpValue (-9); OpSet (Some 2)]) = -7 /\ nbf_value (n_run b [OpSet None]) = 0 /\
  snd (n_step b (OpValue (-9))) = Err ValueError /\ snd (n_step b (OpClear (Some 0))) = Ok tt.
Proof. eexists. repeat split. Qed.
