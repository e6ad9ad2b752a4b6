(** Tuple classes with default values, and the calls that fill the table of operation codes: C191. *)
From Coq Require Import ZArith List Bool Lia.
From Verif Require Import Py LPy MInstruction MInstructions MTuple STuple.
#[local] Arguments Z.add : simpl never.
#[local] Arguments Z.sub : simpl never.

Lemma distinct_ok l : distinct l = true <-> NoDup l.
Proof.
  induction l as [|x l IH]; cbn [distinct]; [split; [constructor|reflexivity]|].
  rewrite andb_true_iff, negb_true_iff, IH. split.
  - intros [A B]. constructor; [|exact B]. rewrite <- inb_In. congruence.
  - intros H. inversion H; subst. split; [|assumption]. destruct (inb x l) eqn:E; [|reflexivity]. apply inb_In in E. contradiction.
Qed.
Lemma forallb_inb (ks fs : list str) : forallb (fun k => inb k fs) ks = true <-> forall k, In k ks -> In k fs.
Proof. rewrite forallb_forall. split; intros H k K; apply inb_In + idtac; [apply inb_In, H, K|apply inb_In, H, K]. Qed.
Lemma dget_pair (kw : dict str pyval) f v : NoDup (dkeys kw) -> (dget kw f = Some v <-> In (f, v) kw).
Proof.
  induction kw as [|[g w] kw IH]; intros ND; cbn [dget]; [split; [discriminate|intros []]|].
  inversion ND as [|? ? N ND']; subst. destruct (eqb g f) eqn:E.
  - apply eqb_ok in E. subst g. split; [intros [= ->]; left; reflexivity|]. intros [X|X]; [injection X as ->; reflexivity|].
    exfalso. apply N. apply (in_map fst) in X. exact X.
  - rewrite (IH ND'). split; [intros X; right; exact X|]. intros [X|X]; [injection X as -> ->; rewrite eqb_refl in E; discriminate|exact X].
Qed.
Lemma dget_none (kw : dict str pyval) f : dget kw f = None <-> ~ In f (dkeys kw).
Proof.
  induction kw as [|[g w] kw IH]; cbn [dget dkeys map fst]; [split; [intros _ []|reflexivity]|].
  destruct (eqb g f) eqn:E.
  - apply eqb_ok in E. subst g. split; [discriminate|]. intros X. exfalso. apply X. left. reflexivity.
  - fold (dkeys kw). rewrite IH. split; [intros X [Y|Y]; [subst g; rewrite eqb_refl in E; discriminate|tauto]|]. intros X Y. apply X. right. exact Y.
Qed.
Lemma nth_skipn {A} n (l : list A) i : nth_error (skipn n l) i = nth_error l (n + i).
Proof. revert l. induction n as [|n IH]; intros l; [reflexivity|]. destruct l; cbn; [destruct i; reflexivity|apply IH]. Qed.
Lemma nth_combine {A B} (l : list A) (m : list B) i : 
  nth_error (combine l m) i = match nth_error l i, nth_error m i with Some a, Some b => Some (a, b) | _, _ => None end.
Proof.
  revert m i. induction l as [|a l IH]; intros m i; [destruct i; reflexivity|]. destruct m as [|b m]; cbn [combine].
  - destruct i; cbn; [reflexivity|destruct (nth_error l i); reflexivity].
  - destruct i; cbn; [reflexivity|apply IH].
Qed.
Lemma nth_firstn_lt {A} n (l : list A) f : In f (firstn n l) <-> exists i, (i < n)%nat /\ nth_error l i = Some f.
Proof.
  revert l. induction n as [|n IH]; intros l; cbn [firstn]; [split; [intros []|intros (i & L & _); lia]|].
  destruct l as [|x l]; cbn [In]; [split; [intros []|intros (i & _ & E); destruct i; discriminate]|]. rewrite IH. split.
  - intros [->|(i & L & E)]; [exists 0%nat; split; [lia|reflexivity]|exists (S i); split; [lia|exact E]].
  - intros ([|i] & L & E); [left; injection E as ->; reflexivity|right; exists i; split; [lia|exact E]].
Qed.
Lemma attr_nth fields t i f v : NoDup fields -> nth_error fields i = Some f -> nth_error t i = Some v -> nt_attr fields t f = Ok v.
Proof.
  revert t i. induction fields as [|g fields IH]; intros t i ND F V; [destruct i; discriminate|].
  inversion ND as [|? ? N ND']; subst. destruct t as [|w t]; [destruct i; discriminate|]. cbn [nt_attr]. destruct i as [|i]; cbn in F, V.
  - injection F as ->. injection V as ->. rewrite eqb_refl. reflexivity.
  - destruct (eqb g f) eqn:E; [|exact (IH t i ND' F V)]. apply eqb_ok in E. subst g. exfalso. apply N. apply (nth_error_In _ _ F).
Qed.

(** the call, for a class with as many defaults as fields *)
Lemma call_ok fields ds pos kw : NoDup fields -> length ds = length fields -> NoDup (dkeys kw) ->
  (acceptable fields pos kw -> exists vals, nt_call (mknt fields ds) pos kw = Ok vals /\ length vals = length fields /\
     forall i f d, nth_error fields i = Some f -> nth_error ds i = Some d ->
       nth_error vals i = Some (match nth_error pos i with Some v => v | None => match dget kw f with Some v => v | None => d end end)) /\
  (~ acceptable fields pos kw -> nt_call (mknt fields ds) pos kw = Err TypeError).
Proof.
  intros ND LD NK. unfold nt_call. cbn [nt_fields nt_defaults].
  destruct (Z.ltb_spec (zlen fields) (zlen pos)) as [L|L]; unfold zlen in L.
  { split; [intros [A _]; lia|reflexivity]. }
  destruct (forallb (fun k => inb k fields) (dkeys kw)) eqn:K1; cbn [negb].
  2:{ split; [|reflexivity]. intros [_ A]. exfalso. assert (X : forallb (fun k => inb k fields) (dkeys kw) = true); [|congruence].
      apply forallb_inb. intros k I. destruct (A k I) as (i & E & _). apply (nth_error_In _ _ E). }
  rewrite forallb_inb in K1.
  destruct (existsb (fun k => inb k (firstn (length pos) fields)) (dkeys kw)) eqn:K2.
  { split; [|reflexivity]. intros [_ A]. exfalso. apply existsb_exists in K2. destruct K2 as (k & I & J). apply inb_In, nth_firstn_lt in J.
    destruct J as (j & Lj & Ej). destruct (A k I) as (i & E & Li).
    assert (i = j); [|lia]. apply (proj1 (NoDup_nth_error fields) ND); [apply nth_error_Some; congruence|congruence]. }
  split.
  2:{ intros N. exfalso. apply N. split; [lia|]. intros f I. destruct (In_nth_error _ _ (K1 f I)) as [i E]. exists i. split; [exact E|].
      destruct (Nat.le_gt_cases (length pos) i) as [G|G]; [exact G|exfalso].
      assert (X : existsb (fun k => inb k (firstn (length pos) fields)) (dkeys kw) = true); [|congruence].
      apply existsb_exists. exists f. split; [exact I|]. apply inb_In, nth_firstn_lt. exists i. split; assumption. }
  intros _. eexists. split; [reflexivity|]. split.
  - rewrite app_length, map_length, combine_length, !skipn_length. lia.
  - intros i f d F D. destruct (nth_error pos i) as [v|] eqn:P.
    + rewrite nth_error_app1 by (apply nth_error_Some; congruence). exact P.
    + apply nth_error_None in P. rewrite nth_error_app2 by exact P. rewrite nth_error_map, nth_combine, !nth_skipn.
      replace (length pos + (i - length pos))%nat with i by lia. rewrite F, D. reflexivity.
Qed.

Lemma C191_class_pf : forall class_ok field_ok typename fields defaults,
  class_ok typename = true -> (forall f, In f fields -> field_ok f = true) -> NoDup fields ->
  ((length defaults <= length fields)%nat ->
   exists T, namedtuple_defaults class_ok field_ok typename fields defaults = Ok T /\
   forall pos kw, NoDup (map fst kw) ->
     (acceptable fields pos kw ->
      exists t, nt_call T pos kw = Ok t /\ length t = length fields /\
      forall i f, nth_error fields i = Some f ->
        exists v, receives pos kw defaults i f v /\ nth_error t i = Some v /\ nt_attr fields t f = Ok v) /\
     (~ acceptable fields pos kw -> nt_call T pos kw = Err TypeError)) /\
  ((length fields < length defaults)%nat -> namedtuple_defaults class_ok field_ok typename fields defaults = Err TypeError).
Proof.
  intros cok fok tn fields dv HC HF ND. unfold namedtuple_defaults. rewrite HC. cbn [negb orb].
  assert (FF : forallb fok fields = true) by (apply forallb_forall; exact HF). rewrite FF, (proj2 (distinct_ok fields) ND). cbn [negb orb].
  destruct (call_ok fields (map (fun _ => VNone) fields) dv [] ND (map_length _ _) (NoDup_nil _)) as [A B]. split.
  - intros L. destruct A as (proto & E & LP & V). { split; [exact L|]. intros f []. }
    rewrite E. cbn [bind]. eexists. split; [reflexivity|]. intros pos kw NK.
    destruct (call_ok fields proto pos kw ND LP NK) as [A' B']. split; [|exact B']. intros AC. destruct (A' AC) as (t & ET & LT & VT).
    exists t. split; [exact ET|]. split; [exact LT|]. intros i f F.
    assert (LI : (i < length fields)%nat) by (apply nth_error_Some; congruence).
    assert (DN : nth_error (map (fun _ : str => VNone) fields) i = Some VNone) by (rewrite nth_error_map, F; reflexivity).
    specialize (V i f VNone F DN). cbn [dget] in V. specialize (VT i f _ F V).
    match type of VT with _ = Some ?x => exists x end. split; [|split; [exact VT|exact (attr_nth _ _ _ _ _ ND F VT)]].
    destruct (nth_error pos i) as [v|] eqn:P; [apply by_position; exact P|].
    destruct (dget kw f) as [v|] eqn:K; [apply by_name; [exact P|apply dget_pair; assumption]|].
    apply dget_none in K. destruct (nth_error dv i) as [v|] eqn:D; [apply by_default; assumption|apply by_none; assumption].
  - intros L. rewrite B; [reflexivity|]. intros [X _]. lia.
Qed.
(*@ Example C191_class_ex : let fields := [lit "x"; lit "y"; lit "z"] in
  match namedtuple_defaults (fun _ => true) (fun _ => true) (lit "T") fields [VInt 1; VStr (lit "two")] with
  | Ok T => nt_call T [VInt 7] [(lit "z", VInt 9)] = Ok [VInt 7; VStr (lit "two"); VInt 9] /\
            nt_call T [] [] = Ok [VInt 1; VStr (lit "two"); VNone] /\
            nt_call T [VInt 7] [(lit "x", VInt 9)] = Err TypeError /\ nt_call T [] [(lit "w", VInt 9)] = Err TypeError
  | Err _ => False
  end.
Proof. vm_compute. repeat split; reflexivity. Qed. @*)

Lemma C191_names_pf : forall class_ok field_ok typename fields defaults,
  ~ (class_ok typename = true /\ (forall f, In f fields -> field_ok f = true) /\ NoDup fields) ->
  namedtuple_defaults class_ok field_ok typename fields defaults = Err ValueError.
Proof.
  intros cok fok tn fields dv N. unfold namedtuple_defaults.
  destruct (cok tn) eqn:A; [|reflexivity]. destruct (forallb fok fields) eqn:B; [|reflexivity]. destruct (distinct fields) eqn:C; [|reflexivity].
  exfalso. apply N. split; [reflexivity|]. split; [apply forallb_forall; exact B|apply distinct_ok; exact C].
Qed.
(*@ Example C191_names_ex : namedtuple_defaults (fun _ => true) (fun _ => true) (lit "T") [lit "x"; lit "y"; lit "x"] [] = Err ValueError.
Proof. apply C191_names. intros (_ & _ & N). inversion N as [|? ? X _]. apply X. right. left. reflexivity. Qed. @*)

Lemma C191_table_pf : forall class_ok field_ok,
  class_ok (lit "Opcode") = true -> (forall f, In f OPCODE_FIELDS -> field_ok f = true) ->
  exists T, Opcode class_ok field_ok = Ok T /\
  Forall2 (fun written row => fst written = fst row /\ nt_call T (snd written) [] = Ok (row_tuple (snd row)) /\
                              forall f v, In (f, v) (row_attributes (snd row)) -> nt_attr (nt_fields T) (row_tuple (snd row)) f = Ok v)
          OPCODE_CALLS OPCODES.
Proof.
  intros cok fok HC HF. unfold Opcode, namedtuple_defaults. rewrite HC.
  assert (FF : forallb fok OPCODE_FIELDS = true) by (apply forallb_forall; exact HF). rewrite FF.
  change (distinct OPCODE_FIELDS) with true. cbn [negb orb].
  change (nt_call _ OPCODE_DEFAULTS []) with (Ok OPCODE_DEFAULTS). cbn [bind]. eexists. split; [reflexivity|].
  assert (AT : forall o f v, In (f, v) (row_attributes o) -> nt_attr OPCODE_FIELDS (row_tuple o) f = Ok v).
  { intros o f v I. cbn [row_attributes In] in I. repeat (destruct I as [I|I]; [injection I as <- <-; reflexivity|]). destruct I. }
  unfold OPCODE_CALLS, OPCODES. repeat (constructor; [split; [reflexivity|split; [reflexivity|intros f v; apply AT]]|]). constructor.
Qed.
(*@ Example C191_table_ex : forall T, Opcode (fun _ => true) (fun _ => true) = Ok T ->
  nt_call T [VStr (lit "PR"); VStr (lit "Proceed"); VInt 0; VInt 0; VInt 0] [] =
  Ok [VStr (lit "PR"); VStr (lit "Proceed"); VInt 0; VInt 0; VInt 0; VStr (lit "unmasked")] /\
  nt_call T [VStr (lit "PR")] [(lit "type", VStr (lit "print"))] =
  Ok [VStr (lit "PR"); VNone; VNone; VNone; VNone; VStr (lit "print")].
Proof. intros T E. vm_compute in E. injection E as <-. split; vm_compute; reflexivity. Qed. @*)
