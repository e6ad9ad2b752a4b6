From Coq Require Import ZArith List Bool Lia.
From Verif Require Import Py LPy MCards SCards LCards MSymbols SSymbols MDiag MDump SDump MVerbose SVerbose MOptions MProcess SEnds SSource LSource STextSym MRepr SRepr.
#[local] Arguments Z.add : simpl never.
#[local] Arguments Z.sub : simpl never.
#[local] Arguments Z.mul : simpl never.
#[local] Arguments Z.pow : simpl never.
#[local] Arguments Z.div : simpl never.
#[local] Arguments Z.modulo : simpl never.

(** *** reading literals *)
Lemma digit_unique c d d' : hex_digit c d -> hex_digit c d' -> d = d'.
Proof. intros A B. destruct A; inversion B; subst; lia. Qed.
Lemma hexes_unique a s n n' : hexes a s n -> hexes a s n' -> n = n'.
Proof.
  intros A. revert n'. induction A as [a|a c d s n D A IH]; intros n' B; inversion B; subst; [reflexivity|].
  match goal with H : hex_digit c ?e |- _ => rewrite (digit_unique _ _ _ H D) in * end. auto.
Qed.
Lemma hexes_snoc a s n c d : hexes a s n -> hex_digit c d -> hexes a (s ++ [c]) (16 * n + d).
Proof.
  intros A D. induction A as [a|a c' d' s n D' A IH]; cbn [app].
  - apply (hx_cons a c d); [exact D|constructor].
  - apply (hx_cons a c' d'); [exact D'|exact IH].
Qed.
Lemma hexchar_ok d : 0 <= d < 16 -> hex_digit (hexchar d) d.
Proof.
  intros H. unfold hexchar. destruct (Z.ltb_spec d 10).
  - replace d with (48 + d - 48) at 2 by lia. apply hd_dec. lia.
  - replace d with (87 + d - 87) at 2 by lia. apply hd_let. lia.
Qed.
Lemma hexs_ok k : forall n, 0 <= n < 16 ^ Z.of_nat k -> hexes 0 (hexs k n) n /\ zlen (hexs k n) = Z.of_nat k.
Proof.
  induction k as [|k IH]; intros n H; cbn [hexs].
  - change (16 ^ Z.of_nat 0) with 1 in H. assert (n = 0) by lia. subst. split; [constructor|reflexivity].
  - rewrite Nat2Z.inj_succ, Z.pow_succ_r in H by lia. destruct (IH (n / 16)) as [A L].
    { split; [apply Z.div_pos; lia|apply Z.div_lt_upper_bound; lia]. }
    split; [|rewrite zlen_app, L; unfold zlen; cbn [List.length]; lia].
    assert (DM := Z.div_mod n 16 ltac:(lia)). pattern n at 3. rewrite DM. apply hexes_snoc; [exact A|]. apply hexchar_ok. apply Z.mod_pos_bound. lia.
Qed.
Lemma inside_unique q : q = 39 \/ q = 34 -> forall b s, inside q b s -> forall b' s' r r', inside q b' s' ->
  b ++ q :: r = b' ++ q :: r' -> b = b' /\ s = s' /\ r = r'.
Proof.
  intros Q b s A. assert (K : forall k l, In (k, l) [(120, 2); (117, 4); (85, 8)] -> k = 120 \/ k = 117 \/ k = 85).
  { intros k l I. cbn in I. intuition congruence. }
  assert (KL : forall k l l', In (k, l) [(120, 2); (117, 4); (85, 8)] -> In (k, l') [(120, 2); (117, 4); (85, 8)] -> l = l').
  { intros k l l' I J. cbn in I, J. intuition congruence. }
  induction A as [|c t s N1 N2 N3 N4 A IH|c t s I A IH|t s A IH|t s A IH|t s A IH|k l h n t s I L H A IH]; intros b' s' r r' B E;
    destruct B as [|c' t' s' M1 M2 M3 M4 B|c' t' s' J B|t' s' B|t' s' B|t' s' B|k' l' h' n' t' s' J L' H' B]; cbn [app] in E;
    try (exfalso; congruence);
    try (exfalso; injection E as E1 E2; try injection E2 as E2 E3; try (apply K in I); try (apply K in J); cbn [In] in *; lia);
    try (injection E as E; subst; auto; fail);
    try (injection E as E; destruct (IH _ _ _ _ B E) as (-> & -> & ->); auto; fail);
    try (injection E as <- E; destruct (IH _ _ _ _ B E) as (-> & -> & ->); auto; fail).
  - injection E as <- E. rewrite <- !app_assoc in E. assert (LL := KL _ _ _ I J).
    assert (HH : h = h' /\ t ++ q :: r = t' ++ q :: r').
    { clear - E L L' LL. rewrite <- L, <- L' in LL. unfold zlen in LL. assert (X : List.length h = List.length h') by lia. clear L L' LL.
      revert h' X E. induction h as [|x h IH]; intros [|y h'] X E; cbn in X; try discriminate X; [auto|].
      cbn [app] in E. injection E as -> E. destruct (IH h' ltac:(lia) E) as [-> E']. auto. }
    destruct HH as [<- E']. destruct (IH _ _ _ _ B E') as (-> & -> & ->). rewrite (hexes_unique _ _ _ _ H H'). auto.
Qed.
(** *** C159 *)
Lemma quote_ok s : rep_quote s = 39 \/ rep_quote s = 34.
Proof. unfold rep_quote. destruct (has_char 39 s && negb (has_char 34 s)); auto. Qed.
Lemma char_inside p q c t s : q = 39 \/ q = 34 -> 0 <= c < 1114112 -> inside q t s -> inside q (rep_char p q c ++ t) (c :: s).
Proof.
  intros Q C A. unfold rep_char. destruct ((c =? q) || (c =? 92)) eqn:E1.
  { apply orb_true_iff in E1. cbn [app]. apply in_self; [|exact A]. cbn [In]. lia. }
  apply orb_false_iff in E1. destruct E1 as [E1 E2]. apply Z.eqb_neq in E1, E2.
  destruct (Z.eqb_spec c 9) as [->|N9]; [apply in_tab; exact A|]. destruct (Z.eqb_spec c 10) as [->|N10]; [apply in_newline; exact A|].
  destruct (Z.eqb_spec c 13) as [->|N13]; [apply in_return; exact A|].
  assert (H2 : c < 256 -> inside q ((lit "\x" ++ hexs 2 c) ++ t) (c :: s)).
  { intros L. destruct (hexs_ok 2 c) as [X Y]; [change (16 ^ Z.of_nat 2) with 256; lia|]. apply (in_hex q 120 2 (hexs 2 c) c); [cbn; auto|exact Y|exact X|exact A]. }
  destruct ((c <? 32) || (c =? 127)) eqn:E3; [apply H2; lia|].
  destruct ((c <? 127) || p c) eqn:E4; [cbn [app]; apply in_char; assumption|].
  destruct (Z.ltb_spec c 256); [apply H2; lia|]. destruct (Z.ltb_spec c 65536).
  - destruct (hexs_ok 4 c) as [X Y]; [change (16 ^ Z.of_nat 4) with 65536; lia|]. apply (in_hex q 117 4 (hexs 4 c) c); [cbn; auto|exact Y|exact X|exact A].
  - destruct (hexs_ok 8 c) as [X Y]; [change (16 ^ Z.of_nat 8) with 4294967296; lia|]. apply (in_hex q 85 8 (hexs 8 c) c); [cbn; auto|exact Y|exact X|exact A].
Qed.
Lemma C159_literal_pf : forall printable s, unicode s -> literal (py_repr printable s) s.
Proof.
  intros p s U. exists (rep_quote s), (concat (map (rep_char p (rep_quote s)) s)). assert (Q := quote_ok s). split; [exact Q|]. split; [reflexivity|].
  generalize dependent (rep_quote s). intros q Q. induction U as [|c s C U IH]; cbn [map concat]; [constructor|]. apply char_inside; assumption.
Qed.
(*@ Example C159_literal_ex : py_repr (fun _ => false) (lit "it's" ++ [10; 92; 127; 233; 8364; 128512]) =
    [34] ++ lit "it's\n\\\x7f\xe9\u20ac\U0001f600" ++ [34] /\
  literal ([34] ++ lit "it's\n\\\x7f\xe9\u20ac\U0001f600" ++ [34]) (lit "it's" ++ [10; 92; 127; 233; 8364; 128512]).
Proof.
  split; [vm_compute; reflexivity|]. refine (eq_ind _ (fun t => literal t _) (C159_literal (fun _ => false) _ _) _ _); [|vm_compute; reflexivity].
  repeat (constructor; [split; [intros E; vm_compute in E; discriminate E|vm_compute; reflexivity]|]). constructor.
Qed. @*)
Lemma C159_ordinary_pf : forall printable s, ordinary s -> py_repr printable s = [39] ++ s ++ [39].
Proof.
  intros p s O. unfold py_repr.
  assert (Q : rep_quote s = 39).
  { unfold rep_quote. replace (has_char 39 s) with false; [reflexivity|]. symmetry. apply not_true_iff_false. intros H.
    unfold has_char in H. apply existsb_exists in H. destruct H as (c & I & E). apply Z.eqb_eq in E. subst c.
    apply (proj1 (Forall_forall _ _) O) in I. lia. }
  rewrite Q. f_equal. f_equal. induction O as [|c s C O IH]; [reflexivity|]. cbn [map concat].
  assert (R : rep_char p 39 c = [c]).
  { unfold rep_char. destruct (Z.eqb_spec c 39); [lia|]. destruct (Z.eqb_spec c 92); [lia|]. cbn [orb].
    destruct (Z.eqb_spec c 9); [lia|]. destruct (Z.eqb_spec c 10); [lia|]. destruct (Z.eqb_spec c 13); [lia|].
    destruct (Z.ltb_spec c 32); [lia|]. destruct (Z.eqb_spec c 127); [lia|]. cbn [orb]. destruct (Z.ltb_spec c 127); [reflexivity|lia]. }
  rewrite R. cbn [app]. f_equal. apply IH.
  unfold rep_quote in *. unfold has_char in *. cbn [existsb] in Q. destruct (existsb _ s); [|reflexivity].
  rewrite orb_true_r in Q. cbn [andb] in Q |- *. destruct (Z.eqb_spec 34 c); [lia|]. exact Q.
Qed.
(*@ Example C159_ordinary_ex : ordinary (lit "SOAP.SRC") /\ py_repr (fun _ => true) (lit "SOAP.SRC") = lit "'SOAP.SRC'".
Proof. split; [|vm_compute; reflexivity]. apply Forall_forall. intros c I. vm_compute in I. lia. Qed. @*)
Lemma C159_apart_pf : forall t s t' s' r r', literal t s -> literal t' s' -> t ++ r = t' ++ r' -> t = t' /\ s = s' /\ r = r'.
Proof.
  intros t s t' s' r r' (q & b & Q & -> & A) (q' & b' & Q' & -> & B) E. cbn [app] in E. injection E as <- E.
  rewrite <- !app_assoc in E. cbn [app] in E. destruct (inside_unique q Q b s A b' s' r r' B E) as (-> & -> & ->). auto.
Qed.
(*@ Example C159_apart_ex : py_repr (fun _ => false) (lit "A") = lit "'A'" /\ py_repr (fun _ => false) (lit "A'") = [34] ++ lit "A'" ++ [34] /\
  py_repr (fun _ => false) (lit "\n") <> py_repr (fun _ => false) [10].
Proof. vm_compute. repeat split. discriminate. Qed. @*)
Lemma repr_apart p s s' r r' : unicode s -> unicode s' -> py_repr p s ++ r = py_repr p s' ++ r' -> s = s' /\ r = r'.
Proof. intros U U' E. destruct (C159_apart_pf _ _ _ _ _ _ (C159_literal_pf p s U) (C159_literal_pf p s' U') E) as (_ & A & B). auto. Qed.
Lemma repr_not_none p s r r' : py_repr p s ++ r <> lit "None" ++ r'.
Proof. unfold py_repr. cbn [app]. intros E. destruct (quote_ok s) as [Q|Q]; rewrite Q in E; discriminate E. Qed.
Lemma str_of_Z_inj a b : str_of_Z a = str_of_Z b -> a = b.
Proof.
  unfold str_of_Z. intros E.
  assert (D : forall n, 0 <= n -> ~ In 45 (numeral 10 n)).
  { intros n N I. assert (F := numeral_dig 10 n ltac:(lia) N). apply (proj1 (Forall_forall _ _) F) in I. unfold dig in I. lia. }
  destruct (Z.ltb_spec a 0), (Z.ltb_spec b 0).
  - injection E as E. apply (f_equal (spell 10 0)) in E. rewrite !numeral_spell in E by lia. lia.
  - exfalso. apply (D b); [lia|]. rewrite <- E. left. reflexivity.
  - exfalso. apply (D a); [lia|]. rewrite E. left. reflexivity.
  - apply (f_equal (spell 10 0)) in E. rewrite !numeral_spell in E by lia. lia.
Qed.
Lemma upto_apart x (a b r r' : str) : ~ In x a -> ~ In x b -> a ++ x :: r = b ++ x :: r' -> a = b /\ r = r'.
Proof.
  intros A B E. revert b B E. induction a as [|c a IH]; intros [|d b] B E; cbn [app] in E.
  - injection E as ->. auto.
  - injection E as -> _. destruct B. left. reflexivity.
  - injection E as -> _. destruct A. left. reflexivity.
  - injection E as -> E. destruct (IH (fun I => A (or_intror I)) b (fun I => B (or_intror I)) E) as [-> ->]. auto.
Qed.
Lemma number_apart a b r r' : str_of_Z a ++ 44 :: r = str_of_Z b ++ 44 :: r' -> a = b /\ r = r'.
Proof.
  assert (N : forall n, ~ In 44 (str_of_Z n)).
  { intros n I. unfold str_of_Z in I. assert (D : forall m, 0 <= m -> ~ In 44 (numeral 10 m)).
    { intros m M J. assert (F := numeral_dig 10 m ltac:(lia) M). apply (proj1 (Forall_forall _ _) F) in J. unfold dig in J. lia. }
    destruct (Z.ltb_spec n 0); [destruct I as [I|I]; [discriminate I|]|]; [apply (D (- n)) in I|apply (D n) in I]; auto; lia. }
  intros E. destruct (upto_apart 44 _ _ _ _ (N a) (N b) E) as [H ->]. apply str_of_Z_inj in H. auto.
Qed.
Lemma none_apart p o o' l l' r r' : (forall s, o = Some s -> unicode s) -> (forall s, o' = Some s -> unicode s) ->
  none_or (py_repr p) o l -> none_or (py_repr p) o' l' -> l ++ r = l' ++ r' -> o = o' /\ r = r'.
Proof.
  intros U U' A B E. destruct o as [s|], o' as [s'|]; cbn [none_or] in A, B; subst.
  - destruct (repr_apart p s s' r r' (U _ eq_refl) (U' _ eq_refl) E) as [-> ->]. auto.
  - destruct (repr_not_none _ _ _ _ E).
  - symmetry in E. destruct (repr_not_none _ _ _ _ E).
  - apply app_inv_head in E. auto.
Qed.
Lemma columns_unicode line a b : unicode line -> unicode (columns line a b).
Proof.
  intros U. unfold unicode in *. rewrite Forall_forall in *. intros c I. apply U. unfold columns in I.
  rewrite <- (firstn_skipn (Z.to_nat (a - 1)) line). apply in_or_app. right.
  rewrite <- (firstn_skipn (Z.to_nat (b - a + 1)) (skipn _ line)). apply in_or_app. left. exact I.
Qed.
Lemma shows_unicode f s : unicode f -> shows f (RStr s) -> unicode s.
Proof.
  intros U [[_ X]|(t & (pre & post & -> & _) & _ & E)]; [discriminate X|]. injection E as ->.
  unfold unicode in *. rewrite !Forall_app in U. apply U.
Qed.
Lemma label_no_blank line s : label_of line s -> ~ In 32 s.
Proof. intros (_ & l & _ & _ & ->) I. apply filter_In in I. destruct I as [_ I]. discriminate I. Qed.
Lemma said_label upper line m ty : label_said upper line m ty ->
  (exists s r, label_of line s /\ m = lit "*** ERROR: Symbol " ++ s ++ 32 :: r) /\
  (ty = None \/ ty = Some (lit " ") \/ exists t, ty = Some t /\ In t (map lit ["B"; "F"; "S"; "Z"]%string)).
Proof.
  intros [s L U|s x y z L U E|s a t L U E N1 N2 N3|s a t L U E N I|s a t L W N]; (split; [exists s; eexists; split; [exact L|reflexivity]|]); auto.
  right. destruct W as (_ & [(_ & -> & _)|(_ & _ & I)]); [left; reflexivity|right; exists a; auto].
Qed.
Lemma C159_blocks_pf : forall upper printable f i line f' i' line' ls,
  unicode f -> unicode line -> unicode f' -> unicode line' ->
  label_block upper (py_repr printable) (f, i, line) ls -> label_block upper (py_repr printable) (f', i', line') ls ->
  f = f' /\ i = i' /\ (exists s, label_of line s /\ label_of line' s) /\
  exists n, shows (columns line 2 7) n /\ shows (columns line' 2 7) n.
Proof.
  intros upper p f i line f' i' line' ls UF UL UF' UL' (_ & m & ty & lg & l & g & r & S & LG & NL & NG & E) (_ & m' & ty' & lg' & l' & g' & r' & S' & LG' & NL' & NG' & E').
  rewrite E in E'. clear E.
  assert (EM := f_equal (fun k => match k with ErrL a :: _ => a | _ => [] end) E'). cbv beta iota in EM.
  assert (ED := f_equal (fun k => match k with _ :: ErrL a :: _ => a | _ => [] end) E'). cbv beta iota in ED. clear E'.
  apply app_inv_head in ED. destruct (repr_apart _ _ _ _ _ UF UF' ED) as [-> ED2]. clear ED. cbn [app lit] in ED2. apply app_inv_head in ED2.
  destruct (number_apart _ _ _ _ ED2) as [-> ED3]. clear ED2.
  apply (app_inv_head (lit " 'lognum': ")) in ED3.
  split; [reflexivity|]. split; [reflexivity|].
  destruct (said_label _ _ _ _ S) as ((s & q & SL & SM) & _). destruct (said_label _ _ _ _ S') as ((s' & q' & SL' & SM') & _). split.
  - exists s. split; [exact SL|]. rewrite SM, SM' in EM. apply app_inv_head in EM.
    destruct (upto_apart 32 _ _ _ _ (label_no_blank _ _ SL) (label_no_blank _ _ SL') EM) as [-> _]. exact SL'.
  - assert (LU : forall x, lg = Some x -> unicode x).
    { intros x Q. destruct LG as [[Z _]|(y & Z & H)]; rewrite Z in Q; [discriminate Q|]. injection Q as <-. exact (shows_unicode _ _ (columns_unicode _ 2 7 UL) H). }
    assert (LU' : forall x, lg' = Some x -> unicode x).
    { intros x Q. destruct LG' as [[Z _]|(y & Z & H)]; rewrite Z in Q; [discriminate Q|]. injection Q as <-. exact (shows_unicode _ _ (columns_unicode _ 2 7 UL') H). }
    destruct (none_apart p _ _ _ _ _ _ LU LU' NL NL' ED3) as [<- _].
    destruct LG as [[-> H]|(y & -> & H)]; [destruct LG' as [[_ H']|(y' & Z & _)]; [exists RNone; auto|discriminate Z]|].
    destruct LG' as [[Z _]|(y' & Z & H')]; [discriminate Z|]. injection Z as <-. exists (RStr y). auto.
Qed.
(*@ Example C159_blocks_ex : let v := mkenv (fun _ _ => []) (fun _ _ _ => []) (map (fun c => if (97 <=? c) && (c <=? 122) then c - 32 else c)) (py_repr (fun _ => false)) (fun _ => lit "?") 3 (fun _ => []) in
  firstn 2 (fst (fst (command v sample CheckSymbols (lit "x.py") [lit "a.arg"]))) =
    [ErrL (lit "*** ERROR: Symbol x is ill-formed (case)!");
     ErrL (lit "Current definition: {'file': 'inc', 'line': 2, 'lognum': None, 'tagtype': None, 'card': ?}")].
Proof. vm_compute. reflexivity. Qed. @*)
Lemma join_shown l : join (lit ", ") l = match l with [] => [] | t :: r => t ++ concat (map (fun u => lit ", " ++ u) r) end.
Proof.
  destruct l as [|t r]; [reflexivity|]. revert t. induction r as [|u r IH]; intros t; [cbn [join map concat]; rewrite app_nil_r; reflexivity|].
  change (join (lit ", ") (t :: u :: r)) with (t ++ lit ", " ++ join (lit ", ") (u :: r)). rewrite IH. cbn [map concat]. rewrite <- !app_assoc. reflexivity.
Qed.
Lemma C159_list_pf : forall printable l, Forall unicode l ->
  (exists ts, Forall2 literal ts l /\ list_text (py_repr printable) l = list_shown ts) /\
  forall l', Forall unicode l' -> list_text (py_repr printable) l = list_text (py_repr printable) l' -> l = l'.
Proof.
  intros p l U. split.
  - exists (map (py_repr p) l). split; [clear - U; induction U as [|s l S U IH]; cbn [map]; constructor; [apply C159_literal_pf; exact S|exact IH]|].
    unfold list_text, list_shown. rewrite join_shown. reflexivity.
  - assert (R : forall l, Forall unicode l -> forall l', Forall unicode l' ->
      concat (map (fun u => lit ", " ++ u) (map (py_repr p) l)) ++ lit "]" = concat (map (fun u => lit ", " ++ u) (map (py_repr p) l')) ++ lit "]" -> l = l').
    { clear. intros l U. induction U as [|s l S U IH]; intros l' U' E; destruct U' as [|s' l' S' U']; cbn [map concat] in E.
      - reflexivity.
      - discriminate E.
      - discriminate E.
      - rewrite <- !app_assoc in E. apply app_inv_head in E. destruct (repr_apart _ _ _ _ _ S S' E) as [-> E']. f_equal. exact (IH _ U' E'). }
    intros l' U' E. unfold list_text in E. rewrite !join_shown in E. apply app_inv_head in E.
    destruct U as [|s l S U], U' as [|s' l' S' U']; cbn [map] in E.
    + reflexivity.
    + exfalso. unfold py_repr in E. cbn [app] in E. destruct (quote_ok s') as [Q|Q]; rewrite Q in E; discriminate E.
    + exfalso. unfold py_repr in E. cbn [app] in E. destruct (quote_ok s) as [Q|Q]; rewrite Q in E; discriminate E.
    + rewrite <- !app_assoc in E. destruct (repr_apart _ _ _ _ _ S S' E) as [-> E']. f_equal. exact (R _ U _ U' E').
Qed.
(*@ Example C159_list_ex : list_text (py_repr (fun _ => false)) [lit "A"; lit "B,C"; lit "D'"] = lit "['A', 'B,C', " ++ [34] ++ lit "D'" ++ [34] ++ lit "]" /\
  list_text (py_repr (fun _ => false)) [] = lit "[]".
Proof. vm_compute. auto. Qed. @*)
