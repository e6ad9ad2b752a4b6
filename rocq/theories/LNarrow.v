(** Fields of negative width: C168. *)
From Coq Require Import ZArith List Bool Lia ZifyBool.
From Verif Require Import Py LPy MBitField SBits MProto MNarrow.
#[local] Arguments Z.add : simpl never.
#[local] Arguments Z.sub : simpl never.
#[local] Arguments Z.mul : simpl never.
#[local] Arguments Z.pow : simpl never.

Lemma C168_accepted_refuted_pf : forall value width numbering order, width < 0 ->
  ((exists b, nbf_new value width numbering order = Ok b) <-> value < 0 /\ 0 <= numbering <= 3 /\ (order = 0 \/ order = 1)) /\
  (forall e, nbf_new value width numbering order = Err e -> e = ValueError) /\
  (forall b, nbf_new value width numbering order = Ok b ->
     n_width b = width /\ nbf_value b = value /\ n_int b = Ok value /\ scheme_num (n_numbering b) = numbering /\ order_num (n_order b) = order) /\
  ((exists b, bf_new value width numbering order = Ok b) <-> exists b, nbf_new value width numbering order = Ok b).
Proof.
  intros value width numbering order W.
  assert (P : 2 ^ width = 0) by (apply Z.pow_neg_r; exact W).
  unfold nbf_new, bf_new, scheme_of, order_of. cbv zeta. rewrite P.
  destruct (Z.gtb_spec width 64); [lia|].
  destruct (Z.geb_spec value 0), (Z.gtb_spec value (0 - 1)); try lia.
  - split; [split; [intros (b & E); discriminate E|lia]|]. split; [intros e E; injection E as <-; reflexivity|]. split; [intros b E; discriminate E|].
    split; intros (b & E); discriminate E.
  - destruct (Z.eqb_spec numbering 0); [|destruct (Z.eqb_spec numbering 1); [|destruct (Z.eqb_spec numbering 2); [|destruct (Z.eqb_spec numbering 3)]]];
      (destruct (Z.eqb_spec order 0); [|destruct (Z.eqb_spec order 1)]);
      (split; [split; [intros (b & E); try discriminate E; repeat split; lia|intros H'; try (exfalso; lia); eexists; reflexivity]|]);
      (split; [intros x E; try discriminate E; injection E as <-; reflexivity|]);
      (split; [intros b E; try discriminate E; injection E as <-; cbn [n_width n_value n_numbering n_order nbf_value n_int scheme_num order_num]; repeat split; congruence|]);
      split; intros (b & E); try discriminate E; eexists; reflexivity.
Qed.
(*@ Example C168_accepted_refuted_ex : exists b, nbf_new (-7) (-3) 0 1 = Ok b /\ nbf_value b = -7 /\ nbf_new 0 (-3) 0 1 = Err ValueError /\ nbf_new (-7) (-3) 4 1 = Err ValueError.
Proof. eexists. repeat split. Qed. @*)

Lemma index_never b i : n_width b < 0 -> n_checkIndex b (Some i) = Err ValueError.
Proof. intros W. unfold n_checkIndex. cbv zeta. destruct (Z.ltb_spec (n_rindex b i) 0), (Z.geb_spec (n_rindex b i) (n_width b)); try lia; reflexivity. Qed.
Lemma C168_no_bits_partial_pf : forall b, n_width b < 0 ->
  n_indices b = [] /\ n_lsb b = Err IndexError /\ n_msb b = Err IndexError /\
  (forall i, n_item b (Idx i) = Err ValueError) /\ (forall s e, n_item b (Slice (Some s) e) = Err ValueError) /\ (forall e, n_item b (Slice None e) = Err TypeError) /\
  (forall i v, n_isBit b i v = Err ValueError) /\ (forall s e v, n_isRange b (Some s) e v = Err ValueError) /\ (forall e v, n_isRange b None e v = Err TypeError) /\
  n_len b = Err ValueError /\ n_bool b = Err ValueError /\ n_repr b = match n_int b with Ok _ => Err ValueError | Err _ => Err TypeError end.
Proof.
  intros b W. assert (N : n_indices b = []) by (unfold n_indices; rewrite py_range_nil by lia; reflexivity).
  split; [exact N|]. unfold n_lsb, n_msb. rewrite N. split; [destruct (n_order b); reflexivity|]. split; [destruct (n_order b); reflexivity|].
  unfold n_item, n_isBit, n_isRange, n_bool, n_len, n_repr. rewrite (proj2 (Z.ltb_lt _ _) W).
  repeat split; intros; rewrite ?index_never by exact W; try reflexivity.
  unfold n_int. destruct (n_value b); reflexivity.
Qed.
(*@ Example C168_no_bits_partial_ex : exists b, nbf_new (-7) (-3) 0 1 = Ok b /\ n_width b < 0 /\ n_item b (Idx 0) = Err ValueError /\ n_repr b = Err ValueError /\ n_repr (fst (n_step b (OpSet None))) = Err TypeError.
Proof. eexists. repeat split. Qed. @*)
Lemma C168_history_partial_pf : forall b o, n_width b < 0 ->
  n_width (fst (n_step b o)) = n_width b /\ n_numbering (fst (n_step b o)) = n_numbering b /\ n_order (fst (n_step b o)) = n_order b /\
  match o with
  | OpSet None | OpSet (Some 0) => snd (n_step b o) = Ok tt /\ n_int (fst (n_step b o)) = Err TypeError /\
                                   nbf_value (fst (n_step b o)) = (if n_width b <? -53 then -1 else 0)
  | OpClear None | OpClear (Some 0) => snd (n_step b o) = Ok tt /\ n_int (fst (n_step b o)) = Ok 0 /\ nbf_value (fst (n_step b o)) = 0
  | OpItem (Slice None _) _ => n_step b o = (b, Err TypeError)
  | _ => n_step b o = (b, Err ValueError)
  end.
Proof.
  intros b o W.
  assert (A : forall i v, n_all b (Some i) v = if i =? 0 then (n_with b v, Ok tt) else (b, Err ValueError)).
  { intros i v. unfold n_all. rewrite index_never by exact W. reflexivity. }
  destruct o as [[i|[s|] e] v|v|[i|]|[i|]]; cbn [n_step n_item]; unfold n_set_value; rewrite ?index_never by exact W; rewrite ?(proj2 (Z.ltb_lt _ _) W); rewrite ?A; cbn [fst snd bind];
    try (repeat split; reflexivity);
    destruct i as [|p|p]; cbn [Z.eqb fst snd]; repeat split; reflexivity.
Qed.
(*@ Example C168_history_partial_ex : exists b, nbf_new (-7) (-3) 0 1 = Ok b /\
  nbf_value (n_run b [OpItem (Idx 0) 1; OpValue (-9); OpSet (Some 2)]) = -7 /\ nbf_value (n_run b [OpSet None]) = 0 /\
  snd (n_step b (OpValue (-9))) = Err ValueError /\ snd (n_step b (OpClear (Some 0))) = Ok tt.
Proof. eexists. repeat split. Qed. @*)
