(** Exact accounts: C15, C16, C65, C74, C170. *)
From Verif Require Import Py LPy MBitField SBits LBits LBitField MInstruction MCards SCards LCards LDeck MSymbols SSymbols LSymClass LSymBuild MInstructions MTools STools LTools LToolSym MDiag SDiag LDiag MDump SDump MVerbose SVerbose LVerbose SOrder LOrder STranscript LTranscript MOptions SOptions LOptions MProcess SProcess LProcess SEnds LEnds SSource LSource SFound STextSym LTextSym SIdle LIdle SReport LReport SUnread LUnread SSwap LGen LLabel LSwap SAgree LAgree SExact.
#[local] Arguments Z.add : simpl never.
#[local] Arguments Z.sub : simpl never.
#[local] Arguments Z.mul : simpl never.
#[local] Arguments Z.pow : simpl never.

(** *** C15, C16 *)
Lemma seen_bits b s e : valid_range (bf_order b) (bf_numbering b) (bf_width b) s e ->
  let n := range_size (bf_numbering b) (bf_width b) s e in
  let lo := range_lo (bf_numbering b) (bf_width b) s e in
  let at0 := range_seen b s e in
  1 <= n /\ 0 <= lo <= at0 /\
  bf_isRange b (Some s) (Some e) 1 = Ok (bits_at (bf_value b) at0 n * 2 ^ (at0 - lo) =? (2 ^ n - 1) * 2 ^ at0) /\
  bf_isRange b (Some s) (Some e) 0 = Ok (bits_at (bf_value b) at0 n * 2 ^ (at0 - lo) =? 0).
Proof.
  intros H n lo at0. destruct (range_facts H) as (H1 & H2 & H3 & _). fold n lo in H1, H2, H3.
  assert (C : mask_shift b s e = lo /\ at0 = lo \/ bf_order b = LSB_LEFT /\ 1 < n < bf_width b /\ at0 = lo + n - 1).
  { unfold at0, range_seen. fold n lo. assert (D : bf_order b = MSB_LEFT \/ bf_order b = LSB_LEFT) by (clear; destruct (bf_order b); auto).
    destruct D as [O|O]; rewrite O.
    - left. split; [apply mask_shift_msb; assumption|reflexivity].
    - destruct (Z.eqb_spec n (bf_width b)) as [E|E]; [left; split; [apply mask_shift_edge; [exact H|right; exact E]|reflexivity]|].
      destruct (Z.eq_dec n 1) as [E1|E1]; [left; split; [apply mask_shift_edge; [exact H|left; exact E1]|lia]|right; split; [reflexivity|lia]]. }
  destruct C as [[M A]|(O & N & A)].
  - split; [lia|]. split; [lia|]. destruct (isRange_raw H M) as [E1 E0]. fold n lo in E1, E0. rewrite A, E1, E0.
    replace (lo - lo) with 0 by lia. change (2 ^ 0) with 1. rewrite Z.mul_1_r, Z.shiftl_mul_pow2 by lia. split; reflexivity.
  - split; [lia|]. split; [lia|]. unfold bf_isRange. rewrite (checkRange_ok H). cbn [bind].
    rewrite (getitem_slice_lsb O H N), (bitmask_ok H). cbn [bind]. fold n lo.
    assert (M : mask_shift b s e = at0).
    { unfold mask_shift. fold n. destruct (Z.eqb_spec n (bf_width b)); [lia|]. destruct H as (_ & _ & H). rewrite O in H. unfold at0, range_seen, n, lo, range_size, range_lo in *. rewrite O in *. lia. }
    rewrite M, Z.shiftl_mul_pow2 by lia. rewrite A. replace (lo + n - 1 - lo) with (n - 1) by lia. split; reflexivity.
Qed.
Lemma C15_isRangeSet_exact_pf : forall b s e, valid_range (bf_order b) (bf_numbering b) (bf_width b) s e ->
  exists t, bf_isRangeSet b (Some s) (Some e) = Ok t /\ bf_isRange b (Some s) (Some e) 1 = Ok t /\ bf_isRangeClr b (Some s) (Some e) = Ok (negb t) /\
    (t = true <-> range_lo (bf_numbering b) (bf_width b) s e = 0 /\
       forall k, range_seen b s e <= k < range_seen b s e + range_size (bf_numbering b) (bf_width b) s e -> bit_at (bf_value b) k = 1).
Proof.
  intros b s e H. destruct (seen_bits b s e H) as (N & L & E & _). cbv zeta in *.
  set (n := range_size _ _ s e) in *. set (lo := range_lo _ _ s e) in *. set (a := range_seen b s e) in *.
  unfold bf_isRangeClr, bf_isRangeSet. rewrite E. cbn [bind]. eexists. split; [reflexivity|]. split; [reflexivity|]. split; [reflexivity|].
  rewrite Z.eqb_eq. rewrite <- (@all_ones (bf_value b) a n) by lia.
  assert (R : 0 <= bits_at (bf_value b) a n < 2 ^ n) by (apply bits_at_range; lia).
  replace a with (lo + (a - lo)) at 3 by lia. rewrite Z.pow_add_r by lia.
  assert (P : 0 < 2 ^ (a - lo)) by (apply Z.pow_pos_nonneg; lia).
  assert (Q : 2 ^ 1 <= 2 ^ n) by (apply Z.pow_le_mono_r; lia). change (2 ^ 1) with 2 in Q. split.
  - intros X. assert (Y : bits_at (bf_value b) a n = (2 ^ n - 1) * 2 ^ lo) by nia.
    destruct (Z.eq_dec lo 0) as [L0|L0]; [split; [exact L0|rewrite L0 in Y; change (2 ^ 0) with 1 in Y; lia]|].
    assert (2 ^ 1 <= 2 ^ lo) by (apply Z.pow_le_mono_r; lia). change (2 ^ 1) with 2 in *. nia.
  - intros [-> ->]. change (2 ^ 0) with 1. ring.
Qed.
(*@ Example C15_isRangeSet_exact_ex :
  let b := mkbf 8 255 120 LSB_0 LSB_LEFT in
  range_seen b 0 3 = 3 /\ bf_isRangeSet b (Some 0) (Some 3) = Ok true /\ bf_isRangeSet b (Some 3) (Some 6) = Ok false /\ bf_isRangeClr b (Some 3) (Some 6) = Ok true.
Proof. vm_compute. auto. Qed. @*)
Lemma C16_isRange_exact_pf : forall b s e, valid_range (bf_order b) (bf_numbering b) (bf_width b) s e ->
  exists t, bf_isRange b (Some s) (Some e) 0 = Ok t /\
    (t = true <-> forall k, range_seen b s e <= k < range_seen b s e + range_size (bf_numbering b) (bf_width b) s e -> bit_at (bf_value b) k = 0).
Proof.
  intros b s e H. destruct (seen_bits b s e H) as (N & L & _ & E). cbv zeta in *.
  set (n := range_size _ _ s e) in *. set (lo := range_lo _ _ s e) in *. set (a := range_seen b s e) in *.
  rewrite E. eexists. split; [reflexivity|]. rewrite Z.eqb_eq. rewrite <- (@all_zeros (bf_value b) a n) by lia.
  assert (P : 0 < 2 ^ (a - lo)) by (apply Z.pow_pos_nonneg; lia). split; intros X; nia.
Qed.
(*@ Example C16_isRange_exact_ex :
  let b := mkbf 8 255 7 LSB_0 LSB_LEFT in
  range_seen b 0 3 = 3 /\ bf_isRange b (Some 0) (Some 3) 0 = Ok true /\ range_seen b 0 7 = 0 /\ bf_isRange b (Some 0) (Some 7) 0 = Ok false.
Proof. vm_compute. auto. Qed. @*)

(** *** C65: with finitely many files *)
Section Chain.
Variables (k : cardclass) (width : Z) (fields : list Z) (fs : fsys).
Hypothesis U : usable_layout k width fields.
Definition leads (f g : str) : Prop := exists content pre line post out,
  fs f = Some content /\ readlines content = pre ++ line :: post /\ expand_lines fs f 1 pre out /\ include_of line g.
Lemma lines_lead fuel f : forall lines i, src_lines (read_source fuel k width fields fs) k width fields fs f i lines = Err RecursionError ->
  exists pre line post out g, lines = pre ++ line :: post /\ expand_lines fs f i pre out /\ include_of line g /\ fs g <> None /\
    read_source fuel k width fields fs g = Err RecursionError.
Proof.
  induction lines as [|l r IH]; intros i H; cbn [src_lines] in H; [discriminate|].
  destruct (startswith l (lit "#")) eqn:C.
  { destruct (IH _ H) as (pre & line & post & out & g & E & X & R). exists (l :: pre), line, post, out, g. split; [rewrite E; reflexivity|].
    split; [apply ex_comment; [apply comment_dec; exact C|exact X]|exact R]. }
  destruct (startswith l (lit "$")) eqn:D.
  - destruct (py_index _ 0) as [inc|e] eqn:EI; cbn [bind] in H.
    2:{ injection H as ->. unfold py_index in EI. destruct (_ || _); [discriminate|]. destruct (nth_error _ _); discriminate. }
    pose proof (include_inv _ _ D EI) as INC. destruct (fs inc) as [content|] eqn:F; [|discriminate].
    destruct (read_source fuel k width fields fs inc) as [ic|e] eqn:ER; cbn [bind] in H.
    + destruct (src_lines _ _ _ _ _ _ _ r) as [t|e] eqn:ET; cbn [bind] in H; [discriminate|]. injection H as ->.
      destruct (IH _ ET) as (pre & line & post & out & g & E & X & R). destruct (read_sound _ _ _ _ _ _ _ ER) as (o1 & X1 & _).
      exists (l :: pre), line, post, (o1 ++ out), g. split; [rewrite E; reflexivity|]. split; [eapply ex_include; eassumption|exact R].
    + injection H as ->. exists [], l, r, [], inc. split; [reflexivity|]. split; [constructor|]. split; [exact INC|]. split; [congruence|exact ER].
  - destruct (card_new_total k l width fields (Some f) i C U) as (c & EC). rewrite EC in H. cbn [bind] in H.
    destruct (src_lines _ _ _ _ _ _ _ r) as [t|e] eqn:ET; cbn [bind] in H; [discriminate|]. injection H as ->.
    destruct (IH _ ET) as (pre & line & post & out & g & E & X & R).
    exists (l :: pre), line, post, ((f, i, l) :: out), g. split; [rewrite E; reflexivity|].
    split; [apply ex_card; [apply comment_false; exact C|apply dollar_false; exact D|exact X]|exact R].
Qed.
Inductive path : str -> list str -> Prop :=
| pa_end f : fs f <> None -> path f [f]
| pa_step f g l : leads f g -> path g l -> path f (f :: l).
Lemma long_path : forall fuel f, fs f <> None -> read_source fuel k width fields fs f = Err RecursionError ->
  exists l, path f l /\ length l = S fuel.
Proof.
  induction fuel as [|fuel IH]; intros f N H; [exists [f]; split; [constructor; exact N|reflexivity]|].
  rewrite read_source_S in H. destruct (fs f) as [content|] eqn:F; [|contradiction].
  destruct (lines_lead _ _ _ _ H) as (pre & line & post & out & g & E & X & I & NG & RG).
  destruct (IH g NG RG) as (l & P & L). exists (f :: l). split; [|cbn; lia]. apply pa_step with g; [|exact P].
  exists content, pre, line, post, out. auto.
Qed.
Lemma path_exist f l : path f l -> Forall (fun g => fs g <> None) l.
Proof. induction 1 as [f N|f g l (c & _ & _ & _ & _ & F & _) P IH]; [constructor; [exact N|constructor]|constructor; [congruence|exact IH]]. Qed.
Lemma path_next l : forall f, path f l -> forall pre x y post, l = pre ++ x :: y :: post -> leads x y.
Proof.
  induction l as [|z l IH]; intros f P pre x y post E; [destruct pre; discriminate|].
  inversion P as [? ? Q1 Q2|f' g l' S P' Q1 Q2]; subst.
  - destruct pre as [|? [|? ?]]; discriminate E.
  - destruct pre as [|p pre]; cbn [app] in E; injection E as -> E.
    + rewrite E in P'. inversion P'; subst; exact S.
    + exact (IH g P' pre x y post E).
Qed.
Lemma path_first f l : path f l -> exists r, l = f :: r.
Proof. intros P. inversion P; eauto. Qed.
End Chain.
Lemma repeated (l : list str) : NoDup l \/ exists l1 x l2 l3, l = l1 ++ x :: l2 ++ x :: l3.
Proof.
  induction l as [|x l [IH|(l1 & y & l2 & l3 & ->)]]; [left; constructor| |right; exists (x :: l1), y, l2, l3; reflexivity].
  destruct (in_dec (list_eq_dec Z.eq_dec) x l) as [I|I]; [right|left; constructor; assumption].
  apply in_split in I. destruct I as (l2 & l3 & ->). exists [], x, l2, l3. reflexivity.
Qed.
Lemma C65_exact_pf : forall fs (all : list str) f width fields k fuel, f <> [] -> usable_layout k width fields ->
  (forall g, fs g <> None -> In g all) -> (length all < fuel)%nat ->
  (deck_new fuel fs None (Some f) width fields k = Err RecursionError <-> exists P, include_loop fs P /\ P f).
Proof.
  intros fs all f width fields k fuel N U A L. split; [|intros (P & LP & H); exact (C65_terminates_refuted_pf fs P f width fields k N U LP H fuel)].
  intros H. assert (R : read_source fuel k width fields fs f = Err RecursionError).
  { rewrite deck_file in H by exact N. destruct (read_source fuel k width fields fs f) as [cs|e] eqn:E; cbn [bind] in H; [|injection H as ->; reflexivity].
    destruct (read_sound _ _ _ _ _ _ _ E) as (out & X & F). pose proof (proj1 (expand_noncomment fs) _ _ X) as NC.
    destruct (mapr_triple cs (cards_data _ _ _ _ _ NC F)) as (a & EA & _). rewrite EA in H. cbn [bind] in H. discriminate. }
  assert (NF : fs f <> None).
  { intros E. destruct fuel as [|fuel]; [lia|]. rewrite read_source_S, E in R. discriminate. }
  destruct (long_path k width fields fs U fuel f NF R) as (l & P & LL).
  destruct (repeated l) as [D|(l1 & x & l2 & l3 & E)].
  { exfalso. assert (I : incl l all) by (intros g J; apply A; exact (proj1 (Forall_forall _ _) (path_exist fs f l P) g J)).
    pose proof (NoDup_incl_length D I). lia. }
  exists (fun g => In g (l1 ++ x :: l2)). split.
  - intros g I. assert (S : exists h, leads fs g h /\ In h (l1 ++ x :: l2)).
    { apply in_split in I. destruct I as (p & q & Q).
      destruct q as [|h q].
      - exists x. split; [|apply in_or_app; right; left; reflexivity].
        apply (path_next fs l f P p g x l3). rewrite E. change (l1 ++ x :: l2 ++ x :: l3) with (l1 ++ (x :: l2) ++ x :: l3). rewrite app_assoc, Q, <- app_assoc. reflexivity.
      - exists h. split; [|rewrite Q; apply in_or_app; right; right; left; reflexivity].
        apply (path_next fs l f P p g h (q ++ x :: l3)). rewrite E. change (l1 ++ x :: l2 ++ x :: l3) with (l1 ++ (x :: l2) ++ x :: l3). rewrite app_assoc, Q, <- app_assoc. reflexivity. }
    destruct S as (h & (content & pre & line & post & out & S1 & S2 & S3 & S4) & I'). exists content, pre, line, post, h, out. auto.
  - destruct (path_first fs f l P) as (r & F). rewrite F in E. destruct l1 as [|y l1]; injection E as -> _; [left; reflexivity|left; reflexivity].
Qed.
(*@ Example C65_exact_ex :
  let fs := fun f => if eqb f (lit "a") then Some (lit "$b" ++ [10] ++ lit "$a" ++ [10]) else if eqb f (lit "b") then Some (lit "R") else None in
  deck_new 3 fs None (Some (lit "a")) 120 DEFAULT_FIELDS ArgusCls = Err RecursionError /\ exists P, include_loop fs P /\ P (lit "a").
Proof.
  cbv zeta. split; [vm_compute; reflexivity|].
  apply (C65_exact _ [lit "a"; lit "b"] (lit "a") 120 DEFAULT_FIELDS ArgusCls 3); [discriminate| | |repeat constructor|vm_compute; reflexivity].
  - vm_compute. repeat split; intuition discriminate.
  - intros g. destruct (eqb g (lit "a")) eqn:E; [apply eqb_ok in E; intros _; left; congruence|].
    destruct (eqb g (lit "b")) eqn:F; [apply eqb_ok in F; intros _; right; left; congruence|intros X; exfalso; apply X; reflexivity].
Qed. @*)

(** *** C74 *)
Lemma skim_thinned (syms : dict str ste) (P : str -> Prop) : (forall s, vld syms s = true <-> P s) ->
  forall n l, (length l <= n)%nat -> thinned P false l (skim syms l).
Proof.
  intros V. assert (V' : forall s, vld syms s = false -> ~ P s) by (intros s E H; apply V in H; congruence).
  induction n as [|n IH]; intros l L; [destruct l; [constructor|cbn in L; lia]|].
  destruct l as [|x [|y l]]; cbn [skim].
  - constructor.
  - destruct (vld syms x) eqn:E; [apply th_gone; [apply V; exact E|constructor]|apply th_not; [apply V'; exact E|constructor]].
  - destruct (vld syms x) eqn:E.
    + apply th_gone; [apply V; exact E|]. cbn [length] in L. specialize (IH l ltac:(lia)).
      destruct (vld syms y) eqn:F; [apply th_stays; [apply V; exact F|exact IH]|apply th_not; [apply V'; exact F|exact IH]].
    + apply th_not; [apply V'; exact E|]. apply IH. cbn [length] in *. lia.
Qed.
Lemma C74_prune_exact_pf : forall t, undefs_known t ->
  exists u, st_prune t = Ok (mkst (t_symbols t) u) /\ thinned (has_value t) false (t_undefs t) u.
Proof.
  intros t K. rewrite (prune_known t K). eexists. split; [reflexivity|].
  apply skim_thinned with (n := length (t_undefs t)); [intros s; apply vld_ok|constructor].
Qed.
(*@ Example C74_prune_exact_ex :
  let e := ste_new (lit "A") (Some 1) None None 0 None None in
  let f := ste_new (lit "B") None None None 0 None None in
  let d := [(lit "A", e); (lit "B", e); (lit "C", e); (lit "D", f); (lit "E", e); (lit "F", e)] in
  st_prune (mkst d (map fst d)) = Ok (mkst d (map lit ["B"; "D"; "F"]%string)).
Proof. reflexivity. Qed. @*)

(** *** C170 *)
Lemma found_spelling m details x : ~ In 44 m ->
  ((exists y, line_found m details x y) <-> ~ starred_line (text_of x) /\ blank_free (text_of x) m).
Proof.
  intros NM. destruct x as [[f i] line]. cbn [text_of snd].
  assert (K : forall op, op_matches m (filter (fun c => negb (c =? 32)) op) <->
    exists a, ((~ In 44 op /\ a = op) \/ exists b, op = a ++ 44 :: b /\ ~ In 44 a) /\ filter (fun c => negb (c =? 32)) a = m).
  { intros op. assert (NF : forall a : str, ~ In 44 a -> ~ In 44 (filter (fun c => negb (c =? 32)) a)) by (intros a H I; apply filter_In in I; apply H; exact (proj1 I)).
    destruct (in_dec Z.eq_dec 44 op) as [I|I].
    - destruct (comma_split op I) as (a & b & E & NA). rewrite E, filter_app. cbn [filter Z.eqb Pos.eqb negb]. split.
      + intros [[_ [X|(r & X)]]|[X _]]; [| |contradiction].
        * exfalso. apply NM. rewrite <- X. apply in_or_app. right. left. reflexivity.
        * exists a. split; [right; eauto|]. exact (first_comma _ _ m r X (NF a NA) NM).
      + intros (a' & [[X _]|(b' & X & NA')] & T); [exfalso; apply X; apply in_or_app; right; left; reflexivity|].
        rewrite (first_comma a b a' b' X NA NA'), T. left. split; [exact NM|]. right. eauto.
    - split.
      + intros [[_ [X|(r & X)]]|[X _]]; [exists op; split; [left; auto|exact X]| |contradiction].
        exfalso. apply (NF op I). rewrite X. apply in_or_app. right. left. reflexivity.
      + intros (a & [[_ ->]|(b & X & _)] & T); [left; auto|]. exfalso. apply I. rewrite X. apply in_or_app. right. left. reflexivity. }
  split.
  - intros (y & S & (op & O & M) & _). split; [exact S|]. apply K in M. destruct M as (a & M & T). exists op, a. auto.
  - intros (S & op & a & O & M & T). eexists. split; [exact S|]. split; [|reflexivity]. exists op. split; [exact O|]. apply K. eauto.
Qed.
Lemma free_dec line m : blank_free line m \/ ~ blank_free line m.
Proof.
  destruct (operation_dec line) as [(op & O)|N]; [|right; intros (op & a & O & _); exact (N op O)].
  destruct (in_dec Z.eq_dec 44 op) as [I|I].
  - destruct (comma_split op I) as (a & b & E & NA). destruct (list_eq_dec Z.eq_dec (filter (fun c => negb (c =? 32)) a) m) as [T|T]; [left; exists op, a; eauto 6|].
    right. intros (op' & a' & O' & M & T'). rewrite <- (op_unique _ _ _ O O') in M. apply T. destruct M as [[X _]|(b' & X & NA')]; [contradiction|].
    rewrite (first_comma a b a' b' ltac:(congruence) NA NA'). exact T'.
  - destruct (list_eq_dec Z.eq_dec (filter (fun c => negb (c =? 32)) op) m) as [T|T]; [left; exists op, op; eauto 6|].
    right. intros (op' & a' & O' & M & T'). rewrite <- (op_unique _ _ _ O O') in M. apply T. destruct M as [[_ X]|(b' & X & NA')]; [congruence|].
    exfalso. apply I. rewrite X. apply in_or_app. right. left. reflexivity.
Qed.
Lemma count_swap {A} (P Q R S : A -> Prop) l a b c d :
  (forall x, (P x /\ ~ Q x <-> R x)) -> (forall x, (Q x /\ ~ P x <-> S x)) -> (forall x, P x \/ ~ P x) -> (forall x, Q x \/ ~ Q x) ->
  count_of P l a -> count_of Q l b -> count_of R l c -> count_of S l d -> a + d = b + c.
Proof.
  intros HR HS DP DQ. revert a b c d. induction l as [|x l IH]; intros a b c d CP CQ CR CS; inversion CP; inversion CQ; inversion CR; inversion CS; subst; try lia;
    repeat match goal with H : R x |- _ => apply HR in H | H : S x |- _ => apply HS in H | H : ~ R x |- _ => rewrite <- HR in H | H : ~ S x |- _ => rewrite <- HS in H end;
    try tauto; match goal with H1 : count_of P l ?a, H2 : count_of Q l ?b, H3 : count_of R l ?c, H4 : count_of S l ?d |- _ => pose proof (IH a b c d H1 H2 H3 H4) end; lia.
Qed.
Lemma C170_counts_exact_pf : forall fs prog words prog' words' on on' details unused files outs m total,
  understood (options ListInstructions) words on (m :: files) -> ~ In (lit "verbose") on -> turned_on on "details" details ->
  understood (options CheckInstructions) words' on' files -> In (lit "count") on' -> turned_on on' "unused" unused ->
  In m INSTRUCTIONS -> files <> [] -> ~ In [] files -> Forall2 (source fs) files outs ->
  count_of (fun x => exists m, mnemonic_at (text_of x) m) (concat outs) total -> total <> 0 \/ unused = true ->
  exists k, forall v, (k <= e_fuel v)%nat -> exists found told rows un n more fewer,
    command v fs ListInstructions prog words = (found, Exit 0, fs) /\
    (exists bad, command v fs CheckInstructions prog' words' =
      (told ++ map OutL ([10 :: lit "Source lines: " ++ str_of_Z (zlen (concat outs)); 10 :: lit "Instruction Frequencies:";
                          freq_line (lit "Total") total (lit "100.00")] ++
                         map (fun r => freq_line (fst r) (snd r) (e_pct v (snd r) total)) rows ++ un ++ [error_count bad]), Exit 0, fs)) /\
    (forall i, In (m, i) rows <-> i = n /\ (unused = true -> n <> 0)) /\
    zlen found + fewer = n + more /\
    count_of (fun x => ~ starred_line (text_of x) /\ blank_free (text_of x) m /\ ~ mnemonic_at (text_of x) m) (concat outs) more /\
    count_of (fun x => ~ starred_line (text_of x) /\ mnemonic_at (text_of x) m /\ ~ blank_free (text_of x) m) (concat outs) fewer.
Proof.
  intros fs prog words prog' words' on on' details unused files outs m total U V D U' C UN IM NE N S CT TT.
  assert (W : forall (o : list str) l, exists b, turned_on o l b).
  { intros o l. destruct (in_dec (list_eq_dec Z.eq_dec) (lit l) o) as [I|I]; [exists true|exists false]; split; intros X; try assumption; try reflexivity; [discriminate|contradiction]. }
  destruct (W on' "verbose"%string) as (vb & VB), (W on' "print-opcodes"%string) as (sh & SH), (W on' "sort"%string) as (so & SO).
  destruct (known_plain m IM) as [NM NEM].
  assert (V' : turned_on on "verbose" false) by (split; [discriminate|intros X; contradiction]).
  destruct (count_ex (fun x => exists ls, mnemonic_fault x ls) (concat outs) fault_dec) as (bad & CB).
  destruct (C161_search_pf fs prog words on false details m m files outs U V' D (or_introl (conj NM eq_refl)) IM N S) as (k & H).
  destruct (C161_count_pf fs prog' words' on' vb sh unused so files outs bad total U' VB SH UN SO C NE N S CB CT TT) as (k' & H').
  exists (Nat.max k k'). intros v L. destruct (H v ltac:(lia)) as (found & E & T). destruct (H' v ltac:(lia)) as (told & rows & un & E' & _ & _ & R & _ & UT).
  assert (DA : forall x, mnemonic_at (text_of x) m \/ ~ mnemonic_at (text_of x) m).
  { intros x. destruct (mnemonic_dec (text_of x)) as [(m' & M)|M]; [|right; exact (M m)].
    destruct (list_eq_dec Z.eq_dec m m') as [->|NN]; [left; exact M|right; intros M'; apply NN; exact (mnemonic_unique _ _ _ M' M)]. }
  assert (DS : forall x : srcline, starred_line (text_of x) \/ ~ starred_line (text_of x)) by (intros x; apply starred_dec).
  assert (DF : forall x, (~ starred_line (text_of x) /\ blank_free (text_of x) m) \/ ~ (~ starred_line (text_of x) /\ blank_free (text_of x) m)).
  { intros x. destruct (DS x), (free_dec (text_of x) m); tauto. }
  destruct (count_ex _ (concat outs) (at_dec m)) as (n & CN). destruct (count_ex _ (concat outs) DF) as (nf & CF).
  destruct (count_ex (fun x => ~ starred_line (text_of x) /\ blank_free (text_of x) m /\ ~ mnemonic_at (text_of x) m) (concat outs)) as (more & CM).
  { intros x. destruct (DS x), (free_dec (text_of x) m), (DA x); tauto. }
  destruct (count_ex (fun x => ~ starred_line (text_of x) /\ mnemonic_at (text_of x) m /\ ~ blank_free (text_of x) m) (concat outs)) as (fewer & CW).
  { intros x. destruct (DS x), (free_dec (text_of x) m), (DA x); tauto. }
  assert (ZN : zlen found = nf).
  { apply (told_length _ _ _ _ _ _ _ T). eapply count_iff_in; [|exact CF]. intros x _. symmetry. apply found_spelling. exact NM. }
  exists found, told, rows, un, n, more, fewer. split; [exact E|]. split; [exists bad; exact E'|]. split; [|split; [|split; assumption]].
  - intros i. rewrite R. split.
    + intros (_ & O & Q). pose proof (count_unique _ _ _ _ O CN) as ->. auto.
    + intros (-> & Q). split; [exact IM|]. split; [exact CN|exact Q].
  - rewrite ZN. apply (count_swap _ _ _ _ (concat outs) nf n more fewer) with (5 := CF) (6 := CN) (7 := CM) (8 := CW); intros x; destruct (DS x), (free_dec (text_of x) m), (DA x); tauto.
Qed.
(*@ Example C170_counts_exact_ex :
  fst (command sample_env spaced ListInstructions (lit "x.py") [lit "DA"; lit "a"]) =
    ([OutL (lit "        A          DA,B"); OutL (lit "                   D A")], Exit 0) /\
  In (OutL (lit "DA            1   50.00%")) (fst (fst (command sample_env spaced CheckInstructions (lit "x.py") [lit "-c"; lit "a"]))) /\
  count_of (fun x => ~ starred_line (text_of x) /\ blank_free (text_of x) (lit "DA") /\ ~ mnemonic_at (text_of x) (lit "DA"))
    [(lit "a", 2, lit "                   D A")] 1.
Proof.
  split; [vm_compute; reflexivity|]. split; [vm_compute; tauto|]. apply (cn_yes _ _ [] 0); [|constructor].
  assert (O : operation_of (lit "                   D A") (lit "D A")).
  { split; [intros (c & H & I); injection H as <-; vm_compute in I; intuition discriminate|]. split; [apply (strip_trimmed (columns (lit "                   D A") 20 32))|discriminate]. }
  split; [discriminate|]. split; [exists (lit "D A"), (lit "D A"); split; [exact O|]; split; [left; split; [vm_compute; intuition discriminate|reflexivity]|reflexivity]|].
  intros (_ & op & O' & M). rewrite <- (op_unique _ _ _ O O') in M. destruct M as [[_ M]|(a & b & M & _)]; [discriminate M|].
  assert (I : In 44 (lit "D A")) by (rewrite M; apply in_or_app; right; left; reflexivity). vm_compute in I. intuition discriminate.
Qed. @*)
