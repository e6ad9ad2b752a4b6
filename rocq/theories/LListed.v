From Coq Require Import ZArith List Bool Lia.
From Verif Require Import Py LPy MCards SCards LCards LDeck MSymbols SSymbols MTools STools MDiag MVerbose SVerbose MOptions SOptions MProcess SProcess SEnds SSource LSource MRepr SRepr LRepr.
#[local] Arguments Z.add : simpl never.
#[local] Arguments Z.sub : simpl never.
#[local] Arguments Z.mul : simpl never.
#[local] Arguments Z.pow : simpl never.

(** *** C160 *)
Lemma repeat_blank n : repeat 32 n ++ [32] = 32 :: repeat 32 n.
Proof. induction n as [|n IH]; [reflexivity|]. cbn [repeat app]. rewrite IH. reflexivity. Qed.
Lemma padded_blank w s r : pad_right 32 w s ++ [32] ++ r = s ++ 32 :: repeat 32 (Z.to_nat (w - zlen s)) ++ r.
Proof. unfold pad_right, repeat_char. rewrite <- app_assoc. f_equal. rewrite app_assoc, repeat_blank. reflexivity. Qed.
Lemma number_chars n c : In c (str_of_Z n) -> c = 45 \/ 48 <= c <= 57.
Proof.
  intros I. unfold str_of_Z in I. assert (D : forall m, 0 <= m -> In c (numeral 10 m) -> 48 <= c <= 57).
  { intros m M J. assert (F := numeral_dig 10 m ltac:(lia) M). apply (proj1 (Forall_forall _ _) F) in J. unfold dig in J. lia. }
  destruct (Z.ltb_spec n 0); [destruct I as [I|I]; [left; lia|]|]; right; [apply (D (- n))|apply (D n)]; auto; lia.
Qed.
Lemma shown_plain x : ~ In 10 (shown_text x).
Proof. unfold shown_text. intros I. apply filter_In in I. destruct I as [_ I]. discriminate I. Qed.
Lemma listed_apart x y r r' : ~ In 32 (fst (fst x)) -> ~ In 32 (fst (fst y)) -> listed x ++ r = listed y ++ r' ->
  fst x = fst y /\ shown_text x = shown_text y /\ r = r'.
Proof.
  destruct x as [[f i] t], y as [[g j] u]. cbn [fst]. intros NF NG E. cbn [listed] in E.
  rewrite <- !app_assoc in E. rewrite !(padded_blank 64) in E. destruct (upto_apart 32 _ _ _ _ NF NG E) as [<- E1]. clear E.
  apply app_inv_head in E1. rewrite !(padded_blank 6) in E1.
  assert (NN : forall n, ~ In 32 (str_of_Z n)) by (intros n I; apply number_chars in I; lia).
  destruct (upto_apart 32 _ _ _ _ (NN i) (NN j) E1) as [EI E2]. apply str_of_Z_inj in EI. subst j. clear E1. apply app_inv_head in E2.
  cbn [app] in E2. destruct (upto_apart 10 _ _ _ _ (shown_plain _) (shown_plain _) E2) as [-> ->]. auto.
Qed.
Lemma listing_apart out out' : (forall x, In x out -> ~ In 32 (fst (fst x))) -> (forall x, In x out' -> ~ In 32 (fst (fst x))) ->
  concat (map listed out) = concat (map listed out') -> map (fun x => (fst x, shown_text x)) out = map (fun x => (fst x, shown_text x)) out'.
Proof.
  revert out'. assert (NE : forall x r, listed x ++ r <> []).
  { intros [[f i] t] r E. cbn [listed] in E. rewrite <- !app_assoc in E. rewrite (padded_blank 64) in E. destruct f; discriminate E. }
  induction out as [|x out IH]; intros [|y out'] N N' E; cbn [map concat] in E |- *; [reflexivity| | |].
  - symmetry in E. destruct (NE _ _ E).
  - destruct (NE _ _ E).
  - destruct (listed_apart x y _ _ (N x (or_introl eq_refl)) (N' y (or_introl eq_refl)) E) as (A & B & C).
    f_equal; [exact (f_equal2 pair A B)|]. apply IH; [intros z I; apply N; right; exact I|intros z I; apply N'; right; exact I|exact C].
Qed.
Scheme source_ind2 := Induction for source Sort Prop
with source_lines_ind2 := Induction for source_lines Sort Prop.
Lemma names_plain fs f out : source fs f out -> ~ In 32 f -> forall x, In x out -> ~ In 32 (fst (fst x)).
Proof.
  intros S. refine (source_ind2 fs (fun f out _ => ~ In 32 f -> forall x, In x out -> ~ In 32 (fst (fst x)))
                    (fun f _ _ out _ => ~ In 32 f -> forall x, In x out -> ~ In 32 (fst (fst x))) _ _ _ _ _ f out S); clear.
  - intros f content ls out _ _ _ IH N. exact (IH N).
  - intros f i _ x [].
  - intros f i r rest out _ IH N. exact (IH N).
  - intros f i r inc rest out1 out2 W _ IH1 _ IH2 N x I. apply in_app_or in I. destruct I as [I|I]; [|exact (IH2 N x I)].
    apply IH1; [|exact I]. intros J. destruct W as (p & q & _ & _ & _ & F & _). apply (proj1 (Forall_forall _ _) F) in J. apply J. apply white_ok. reflexivity.
  - intros f i line rest out _ _ IH N x [<-|I]; [exact N|exact (IH N x I)].
Qed.
Lemma C160_determined_pf : forall fs fs' prog prog' words words' on on' f f' out out',
  understood (options Listing) words on [f] -> ~ In (lit "verbose") on -> f <> [] -> ~ In 32 f -> source fs f out ->
  understood (options Listing) words' on' [f'] -> ~ In (lit "verbose") on' -> f' <> [] -> ~ In 32 f' -> source fs' f' out' ->
  exists k, forall v v', (k <= e_fuel v)%nat -> (k <= e_fuel v')%nat -> exists name name' content content' fs1 fs1',
    list_name f name /\ list_name f' name' /\
    command v fs Listing prog words = ([], Exit 0, fs1) /\ fs1 name = Some content /\
    command v' fs' Listing prog' words' = ([], Exit 0, fs1') /\ fs1' name' = Some content' /\
    (content = content' <-> map (fun x => (fst x, shown_text x)) out = map (fun x => (fst x, shown_text x)) out').
Proof.
  intros fs fs' prog prog' words words' on on' f f' out out' U O N B S U' O' N' B' S'.
  destruct (C149_listing_pf fs prog words on f out U O N S) as (k & H). destruct (C149_listing_pf fs' prog' words' on' f' out' U' O' N' S') as (k' & H').
  exists (Nat.max k k'). intros v v' L L'. destruct (H v ltac:(lia)) as (name & fs1 & LN & C & F & _). destruct (H' v' ltac:(lia)) as (name' & fs1' & LN' & C' & F' & _).
  exists name, name', (concat (map listed out)), (concat (map listed out')), fs1, fs1'. repeat (split; [assumption|]). split.
  - apply listing_apart; eapply names_plain; eassumption.
  - intros E. f_equal. clear - E. revert out' E. induction out as [|x out IH]; intros [|y out'] E; cbn [map] in E |- *; [reflexivity|discriminate E|discriminate E|].
    injection E as E1 E2 E3. rewrite (IH _ E3). f_equal. destruct x as [[a b] c], y as [[a' b'] c']. cbn [fst] in E1. injection E1 as -> ->.
    cbn [listed]. rewrite E2. reflexivity.
Qed.
(*@ Example C160_determined_ex : source sample (lit "a.arg") sample_lines /\ ~ In 32 (lit "a.arg") /\
  understood (options Listing) [lit "a.arg"] [] [lit "a.arg"] /\
  exists c, snd (command (mkenv (fun _ _ => []) (fun _ _ _ => []) (fun s => s) (fun s => s) (fun _ => []) 3 (fun _ => [])) sample Listing (lit "x.py") [lit "a.arg"]) (lit "a.lst") = Some c /\
    firstn 73 c = lit "inc                                                              1" ++ repeat 32 7.
Proof.
  split; [exact sample_ok|]. split; [vm_compute; intuition discriminate|]. split; [apply ud_arg; [right; intros r; discriminate|constructor]|].
  eexists. split; vm_compute; reflexivity.
Qed. @*)
Lemma number_len i : 0 <= i <= 999999 -> zlen (str_of_Z i) <= 6.
Proof. intros H. unfold str_of_Z. destruct (Z.ltb_spec i 0); [lia|]. apply numeral_length; [lia| |lia]. change (10 ^ 6) with 1000000. lia. Qed.
Lemma pad_len w s : zlen s <= w -> zlen (pad_right 32 w s) = w.
Proof. intros H. unfold pad_right, repeat_char. rewrite zlen_app. unfold zlen in *. rewrite repeat_length. lia. Qed.
Lemma take_app (a b : str) n : zlen a = n -> firstn (Z.to_nat n) (a ++ b) = a /\ skipn (Z.to_nat n) (a ++ b) = b.
Proof.
  intros <-. unfold zlen. rewrite Nat2Z.id. split.
  - rewrite firstn_app, Nat.sub_diag, firstn_all, app_nil_r. reflexivity.
  - rewrite skipn_app, Nat.sub_diag, skipn_all. reflexivity.
Qed.
Lemma C160_columns_pf : forall f i line, zlen f <= 64 -> 0 <= i <= 999999 -> let t := listed (f, i, line) in
  (exists n, columns t 1 64 = f ++ repeat 32 n) /\ columns t 65 65 = [32] /\
  (exists n, columns t 66 71 = str_of_Z i ++ repeat 32 n) /\ columns t 72 72 = [32] /\
  skipn 72 t = filter (fun c => negb (c =? 10)) line ++ [10].
Proof.
  intros f i line LF LI t. unfold t. cbn [listed]. unfold shown_text, text_of. cbn [snd]. set (u := filter _ line).
  assert (PF := pad_len 64 f LF). assert (PI := pad_len 6 (str_of_Z i) (number_len i LI)).
  set (p := pad_right 32 64 f) in *. set (q := pad_right 32 6 (str_of_Z i)) in *.
  assert (S1 := take_app p ([32] ++ q ++ [32] ++ u ++ [10]) 64 PF).
  assert (E65 : p ++ [32] ++ q ++ [32] ++ u ++ [10] = (p ++ [32]) ++ q ++ [32] ++ u ++ [10]) by (rewrite <- app_assoc; reflexivity).
  assert (S2 := take_app (p ++ [32]) (q ++ [32] ++ u ++ [10]) 65 ltac:(rewrite zlen_app, PF; reflexivity)).
  assert (E71 : p ++ [32] ++ q ++ [32] ++ u ++ [10] = (p ++ [32] ++ q) ++ [32] ++ u ++ [10]) by (rewrite <- !app_assoc; reflexivity).
  assert (S3 := take_app (p ++ [32] ++ q) ([32] ++ u ++ [10]) 71 ltac:(rewrite !zlen_app, PF, PI; reflexivity)).
  assert (E72 : p ++ [32] ++ q ++ [32] ++ u ++ [10] = (p ++ [32] ++ q ++ [32]) ++ u ++ [10]) by (rewrite <- !app_assoc; reflexivity).
  assert (S4 := take_app (p ++ [32] ++ q ++ [32]) (u ++ [10]) 72 ltac:(rewrite !zlen_app, PF, PI; reflexivity)).
  assert (S5 := take_app q ([32] ++ u ++ [10]) 6 PI).
  unfold columns. split; [|split; [|split; [|split]]].
  - exists (Z.to_nat (64 - zlen f)). change (Z.to_nat (1 - 1)) with 0%nat. cbn [skipn]. change (64 - 1 + 1) with 64. rewrite (proj1 S1). reflexivity.
  - change (65 - 1) with 64. rewrite (proj2 S1). reflexivity.
  - exists (Z.to_nat (6 - zlen (str_of_Z i))). rewrite E65. change (66 - 1) with 65. rewrite (proj2 S2). change (71 - 66 + 1) with 6. rewrite (proj1 S5). reflexivity.
  - rewrite E71. change (72 - 1) with 71. rewrite (proj2 S3). reflexivity.
  - rewrite E72. change 72%nat with (Z.to_nat 72). exact (proj2 S4).
Qed.
(*@ Example C160_columns_ex : columns (listed (lit "a.arg", 12, lit "        A" ++ [10])) 66 71 = lit "12    " /\
  skipn 72 (listed (lit "a.arg", 12, lit "        A" ++ [10])) = lit "        A" ++ [10].
Proof. vm_compute. auto. Qed. @*)
