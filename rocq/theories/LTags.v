(** The source language of the manual: C177 to C181. *)
From Coq Require Import ZArith List Bool Lia Sorted.
From Verif Require Import Py LPy MInstruction MCards SCards LCards LDeck MSymbols SSymbols LSymBuild LSymQuery MRegisters SRegisters MInstructions MTools STools LTools LToolSym MDiag SDiag LDiag MDump SDump MVerbose SVerbose LVerbose SOrder LOrder STranscript LTranscript MOptions SOptions LOptions MProcess SProcess LProcess SEnds LEnds SSource LSource SFound STextSym LTextSym SIdle LIdle SReport LReport SUnread LUnread SSwap SLabel LGen LLabel LPlaces LSwap SAgree LAgree SKey LKey LJoin SManual STags.
#[local] Arguments Z.add : simpl never.
#[local] Arguments Z.sub : simpl never.
#[local] Arguments Z.mul : simpl never.
#[local] Arguments Z.pow : simpl never.

(** *** the subsegment of every line *)
Lemma setloc_dec line : (exists s, line_setloc line s) \/ forall s, ~ line_setloc line s.
Proof.
  destruct (starred_dec line) as [S|S]; [right; intros s (N & _); contradiction|].
  destruct (operation_dec line) as [(op & O)|O]; [|right; intros s (_ & r & H & _); exact (O _ H)].
  destruct (list_eq_dec Z.eq_dec (firstn 6 op) (lit "SETLOC")) as [E|E].
  - left. rewrite <- (firstn_skipn 6 op), E in O. set (r := skipn 6 op) in O. clearbody r. clear E.
    destruct (in_dec Z.eq_dec 44 r) as [I|I].
    + destruct (comma_split r I) as (a & b & -> & NA). destruct (in_dec Z.eq_dec 44 b) as [J|J].
      * destruct (comma_split b J) as (b1 & d & -> & NB). exists (strip b1). split; [exact S|]. eexists. split; [exact O|]. right. right.
        exists a, b1, d. auto using strip_trimmed.
      * exists (strip b). split; [exact S|]. eexists. split; [exact O|]. right. left. exists a, b. auto using strip_trimmed.
    + exists (lit "0"). split; [exact S|]. eexists. split; [exact O|]. left. auto.
  - right. intros s (_ & r & H & _). apply E. destruct O as (_ & T & _). destruct H as (_ & T' & _).
    rewrite (trimmed_unique _ _ _ T T'). reflexivity.
Qed.
Lemma subsegment_ex lines : exists s, subsegment lines s.
Proof.
  induction lines as [|x l IH] using rev_ind; [exists (lit "1"); left; split; [intros x u []|reflexivity]|].
  destruct (setloc_dec (text_of x)) as [(s & S)|N].
  - exists s. right. exists l, x, []. split; [reflexivity|]. split; [exact S|intros y u []].
  - destruct IH as (s & [[H E]|(a & y & b & E & S & H)]).
    + exists s. left. split; [|exact E]. intros y u I. apply in_app_or in I. destruct I as [I|[<-|[]]]; [exact (H y u I)|exact (N u)].
    + exists s. right. exists a, y, (b ++ [x]). split; [rewrite E, <- app_assoc; reflexivity|]. split; [exact S|].
      intros z u I. apply in_app_or in I. destruct I as [I|[<-|[]]]; [exact (H z u I)|exact (N u)].
Qed.
(** a line that defines a symbol is in the table *)
Lemma recorded fs f upper out tag kind pre x post tt ss : f <> [] -> source fs f out -> out = pre ++ x :: post ->
  line_defines upper (text_of x) tag kind tt -> subsegment (pre ++ [x]) ss -> exists y t, latest upper out tag ss kind y t.
Proof.
  intros N S E D SS. destruct (latest_or_not fs upper f out tag ss kind N S) as [L|U]; [exact L|].
  destruct (U _ _ _ _ E D SS).
Qed.

(** *** C177: tags *)
Lemma tag_char_ok c : tag_char c -> 32 < c < 128 /\ c <> 44 /\ ~ small c.
Proof.
  assert (Q : forallb (fun e => inb (fst e) [16; 32; 59; 27; 44; 49; 12; 45; 26; 48; 63; 13] || (negb (snd e =? 44) && negb ((97 <=? snd e) && (snd e <=? 122)))) TABLE_I = true) by (vm_compute; reflexivity).
  intros (B & k & I & N). split; [exact B|]. rewrite forallb_forall in Q. specialize (Q _ I). cbn [fst snd] in Q.
  apply orb_prop in Q. destruct Q as [Q|Q]; [apply inb_In in Q; contradiction|]. apply andb_prop in Q. destruct Q as [Q1 Q2].
  split; [intros ->; discriminate Q1|]. intros [L1 L2]. apply Z.leb_le in L1, L2. rewrite L1, L2 in Q2. discriminate Q2.
Qed.
Lemma symbolic_ok t : symbolic t -> ascii t /\ ~ In 44 t /\ (forall c, In c t -> ~ small c) /\ ~ In 32 t /\ t <> [].
Proof.
  intros (_ & F & (d & ID & _)). rewrite Forall_forall in F. split; [apply Forall_forall; intros c I; destruct (tag_char_ok c (F c I)); lia|].
  split; [intros I; destruct (tag_char_ok _ (F _ I)) as (_ & N & _); apply N; reflexivity|].
  split; [intros c I; exact (proj2 (proj2 (tag_char_ok _ (F _ I))))|].
  split; [intros I; destruct (tag_char_ok _ (F _ I)); lia|]. intros ->. destruct ID.
Qed.
Lemma register_ok r : special_register r -> ~ In 44 r /\ forall c, In c r -> ~ small c.
Proof.
  assert (Q : forallb (fun r => forallb (fun c => negb (c =? 44) && negb ((97 <=? c) && (c <=? 122))) r)
    (reg_names ++ alias_names ++ map str_of_Z (map Z.of_nat (seq 0 32)) ++ map (fun n => 48 :: str_of_Z n) (map Z.of_nat (seq 0 32))) = true) by (vm_compute; reflexivity).
  intros H. assert (I : In r (reg_names ++ alias_names ++ map str_of_Z (map Z.of_nat (seq 0 32)) ++ map (fun n => 48 :: str_of_Z n) (map Z.of_nat (seq 0 32)))).
  { destruct H as [H|[H|(n & B & H)]]; [apply in_or_app; left; exact H|apply in_or_app; right; apply in_or_app; left; exact H|].
    assert (IN : In n (map Z.of_nat (seq 0 32))) by (apply in_map_iff; exists (Z.to_nat n); split; [lia|apply in_seq; lia]).
    apply in_or_app. right. apply in_or_app. right. apply in_or_app. destruct H as [->|[_ ->]]; [left; apply in_map; exact IN|right].
    exact (in_map (fun n => 48 :: str_of_Z n) _ _ IN). }
  rewrite forallb_forall in Q. specialize (Q _ I). rewrite forallb_forall in Q. split.
  - intros J. specialize (Q _ J). discriminate Q.
  - intros c J [L1 L2]. specialize (Q _ J). apply Z.leb_le in L1, L2. rewrite L1, L2 in Q. rewrite andb_false_r in Q. discriminate Q.
Qed.
Lemma prefixed_ok p t : In p [66; 70; 83; 90] -> ~ In 44 t -> (forall c, In c t -> ~ small c) -> ~ mistake (p :: 44 :: t).
Proof.
  intros IP NC NS M. destruct M as [c I S|x y z E|q u E NQ IQ].
  - destruct I as [<-|[<-|I]]; [|unfold small in S; lia|exact (NS c I S)]. unfold small in S. cbn in IP. lia.
  - assert (NP : p <> 44) by (cbn in IP; lia). destruct x as [|a x]; cbn [app] in E; [congruence|]. injection E as _ E.
    destruct x as [|b x]; cbn [app] in E; [injection E as ->; apply NC, in_or_app; right; left; reflexivity|].
    injection E as _ ->. apply NC. apply in_or_app. right. right. apply in_or_app. right. left. reflexivity.
  - assert (NP : p <> 44) by (cbn in IP; lia). destruct q as [|a q]; cbn [app] in E; [congruence|]. injection E as <- E.
    destruct q as [|b q]; cbn [app] in E; [|injection E as <- _; apply NQ; right; left; reflexivity].
    apply IQ. cbn in IP |- *. intuition subst; cbn; auto.
Qed.
Lemma no_comma_ok s : ~ In 44 s -> (forall c, In c s -> ~ small c) -> ~ mistake s.
Proof.
  intros NC NS [c I S|x y z ->|q u -> NQ IQ]; [exact (NS c I S)| |]; apply NC, in_or_app; right; left; reflexivity.
Qed.
Lemma manual_ok s : manual_tag s -> ~ link_or_out s -> ~ mistake s.
Proof.
  intros T NL. destruct T as [t T|p t IP T|r R|t T| |t T].
  - destruct (symbolic_ok t T) as (_ & NC & NS & _). exact (no_comma_ok t NC NS).
  - destruct (symbolic_ok t T) as (_ & NC & NS & _). apply prefixed_ok; [|exact NC|exact NS]. cbn in IP |- *. tauto.
  - destruct (register_ok r R) as (NC & NS). apply prefixed_ok; [|exact NC|exact NS]. cbn. tauto.
  - destruct NL. exists 76, t. cbn. auto.
  - destruct NL. exists 88, []. cbn. auto.
  - destruct NL. exists 88, t. cbn. auto.
Qed.
Lemma starts_link s : link_or_out s \/ ~ link_or_out s.
Proof.
  destruct s as [|a [|b t]]; [right; intros (c & t & _ & E); discriminate E|right; intros (c & t & _ & E); discriminate E|].
  destruct (in_dec Z.eq_dec a [76; 88]) as [I|I], (Z.eq_dec b 44) as [->|NB]; [left; exists a, t; auto|right|right|right];
    intros (c & u & J & E); inversion E; subst; contradiction.
Qed.
Lemma link_mistake s : link_or_out s -> mistake s.
Proof.
  intros (c & t & I & ->). apply (mk_prefix _ [c] t); [reflexivity| |]; cbn in I |- *; intuition (subst; try discriminate).
Qed.
Lemma count_mono {A} (P Q : A -> Prop) l : (forall x, In x l -> P x -> Q x) -> forall n m, count_of P l n -> count_of Q l m -> n <= m.
Proof.
  induction l as [|x l IH]; intros H n m C D; inversion C; inversion D; subst; try lia;
    try (exfalso; match goal with N : ~ Q x |- _ => apply N end; apply H; [left; reflexivity|assumption]);
    match goal with C1 : count_of P l ?a, C2 : count_of Q l ?b |- _ =>
      pose proof (IH (fun y I => H y (or_intror I)) a b C1 C2) end; lia.
Qed.
Lemma C177_tags_partial_pf : forall fs f seg out, f <> [] -> segment_of f seg -> ~ is_kind seg -> source fs f out -> all_ascii out ->
  exists k, forall upper fuel, (k <= fuel)%nat -> raises upper -> exists tab n,
    build_symbol_table upper fuel fs f [] = Ok (tab, n) /\
    (forall m, count_of (fun x => ~ starred_line (text_of x) /\ exists s, label_of (text_of x) s /\
                 (~ manual_tag s \/ link_or_out s \/ forall op, ~ operation_of (text_of x) op)) out m -> n <= m) /\
    (forall x s op t, In x out -> has_operation (text_of x) op -> label_of (text_of x) s -> manual_tag s -> ~ link_or_out s -> tag_name s t ->
       exists ss kind e, get4 tab t seg ss kind = Some e).
Proof.
  intros fs f seg out N SG NK S A. destruct (C158_table_pf fs f seg out N SG NK S A) as (k & H). exists k. intros upper fuel L R.
  destruct (H upper fuel L R) as (tab & n & E & C & D & _). exists tab, n. split; [exact E|]. split.
  - intros m CM. refine (count_mono _ _ out _ n m C CM). intros x I (NS & s & LS & MK). split; [exact NS|]. exists s. split; [exact LS|].
    destruct MK as [MK|MK]; [|right; right; exact MK].
    destruct (starts_link s) as [K|K]; [right; left; exact K|]. left. intros T. exact (manual_ok s T K MK).
  - intros x s op t I (NS & O) LS T NL TN. apply in_split in I. destruct I as (pre & post & EO).
    assert (LD : exists kind tt, label_defines (text_of x) t kind tt).
    { exists (if list_eq_dec Z.eq_dec op (lit "ASSIGN") then lit "complex" else lit "simple").
      assert (M := manual_ok s T NL).
      assert (TT : exists tt, (~ In 44 s /\ t = s /\ tt = lit " ") \/ s = tt ++ 44 :: t).
      { destruct TN as [[X ->]|(p & ->)]; [exists (lit " "); left; auto|exists p; right; reflexivity]. }
      destruct TT as (tt & TT). exists tt. split; [exact NS|]. exists s, op. split; [exact LS|]. split; [exact M|]. split; [exact O|]. split; [exact TT|].
      destruct (list_eq_dec Z.eq_dec op (lit "ASSIGN")); [left|right]; auto. }
    destruct LD as (kind & tt & LD). destruct (subsegment_ex (pre ++ [x])) as (ss & SS).
    assert (AX : ascii (text_of x)) by (apply A; rewrite EO; apply in_or_app; right; left; reflexivity).
    destruct (recorded fs f upper out t kind pre x post tt ss N S EO (proj2 (defines_label upper _ _ _ _ R AX) LD) SS) as (y & t' & LA).
    apply (latest_label upper) in LA; [|exact R|exact A]. destruct (D _ _ _ _ _ LA) as (e & G & _). exists ss, kind, e. exact G.
Qed.
Definition symbolicb (t : str) : bool :=
  (zlen t <=? 8) && forallb (fun c => (32 <? c) && (c <? 128) && existsb (fun e => (snd e =? c) && negb (inb (fst e) [16; 32; 59; 27; 44; 49; 12; 45; 26; 48; 63; 13])) TABLE_I) t &&
  existsb (fun c => negb ((48 <=? c) && (c <=? 57))) t.
Lemma symbolic_computes t : symbolicb t = true -> symbolic t.
Proof.
  unfold symbolicb. rewrite !andb_true_iff. intros ((A & B) & C). apply Z.leb_le in A. split; [exact A|]. split.
  - apply Forall_forall. intros c I. rewrite forallb_forall in B. specialize (B c I). rewrite !andb_true_iff in B. destruct B as ((B1 & B2) & B3).
    apply Z.ltb_lt in B1, B2. split; [lia|]. apply existsb_exists in B3. destruct B3 as ([k d] & J & E). cbn [fst snd] in E.
    apply andb_prop in E. destruct E as [E1 E2]. apply Z.eqb_eq in E1. subst d. exists k. split; [exact J|].
    intros X. apply inb_In in X. rewrite X in E2. discriminate E2.
  - apply existsb_exists in C. destruct C as (c & I & E). exists c. split; [exact I|]. intros [D1 D2]. apply Z.leb_le in D1, D2. rewrite D1, D2 in E. discriminate E.
Qed.
Definition tagged (f : str) : option str :=
  if eqb f (lit "p.arg") then
    Some (lit "        LOOP1      TX" ++ [10] ++ lit "        F, M1      DA" ++ [10] ++ lit "        Z,X3       SPEC" ++ [10] ++
          lit "        L,NEXT     TX" ++ [10] ++ lit "        1234       TX" ++ [10] ++ lit "        X,         OCT")
  else None.
Definition tagged_lines : list srcline :=
  [(lit "p.arg", 1, lit "        LOOP1      TX" ++ [10]); (lit "p.arg", 2, lit "        F, M1      DA" ++ [10]);
   (lit "p.arg", 3, lit "        Z,X3       SPEC" ++ [10]); (lit "p.arg", 4, lit "        L,NEXT     TX" ++ [10]);
   (lit "p.arg", 5, lit "        1234       TX" ++ [10]); (lit "p.arg", 6, lit "        X,         OCT")].
Lemma tagged_ok : source tagged (lit "p.arg") tagged_lines.
Proof.
  apply (proj1 (expand_source tagged)).
  eapply ex_file; [reflexivity|]. match goal with |- expand_lines _ _ _ ?l _ => let l' := eval vm_compute in l in change l with l' end.
  repeat (apply ex_card; [intros (r & E); discriminate E|intros (r & E); discriminate E|]). constructor.
Qed.
(*@ Example C177_tags_partial_ex : let up := map (fun c => if (97 <=? c) && (c <=? 122) then c - 32 else c) in
  source tagged (lit "p.arg") tagged_lines /\ manual_tag (lit "LOOP1") /\ manual_tag (lit "F,M1") /\ manual_tag (lit "Z,X3") /\
  exists tab, build_symbol_table up 2 tagged (lit "p.arg") [] = Ok (tab, 2) /\
    dkeys tab = [lit "LOOP1"; lit "M1"; lit "X3"; lit "1234"] /\ get4 tab (lit "M1") (lit "p") (lit "1") (lit "simple") <> None.
Proof.
  split; [exact tagged_ok|]. split; [apply mt_symbolic; apply symbolic_computes; reflexivity|].
  split; [apply (mt_mask 70); [cbn; auto|apply symbolic_computes; reflexivity]|].
  split; [apply mt_register; left; vm_compute; tauto|].
  eexists. split; [vm_compute; reflexivity|]. split; [reflexivity|vm_compute; discriminate].
Qed. @*)

Lemma C177_links_refuted_pf : forall fs f seg out, f <> [] -> segment_of f seg -> ~ is_kind seg -> source fs f out -> all_ascii out ->
  exists k, forall upper fuel, (k <= fuel)%nat -> raises upper -> exists tab n,
    build_symbol_table upper fuel fs f [] = Ok (tab, n) /\
    forall m, count_of (fun x => ~ starred_line (text_of x) /\ exists s, label_of (text_of x) s /\ manual_tag s /\ link_or_out s) out m -> m <= n.
Proof.
  intros fs f seg out N SG NK S A. destruct (C158_table_pf fs f seg out N SG NK S A) as (k & H). exists k. intros upper fuel L R.
  destruct (H upper fuel L R) as (tab & n & E & C & _). exists tab, n. split; [exact E|]. intros m CM.
  refine (count_mono _ _ out _ m n CM C). intros x _ (NS & s & LS & _ & K). split; [exact NS|]. exists s. split; [exact LS|].
  left. exact (link_mistake s K).
Qed.
(*@ Example C177_links_refuted_ex : manual_tag (lit "L,NEXT") /\ link_or_out (lit "L,NEXT") /\ manual_tag (lit "X,") /\
  label_of (text_of (lit "p.arg", 4, lit "        L,NEXT     TX" ++ [10])) (lit "L,NEXT").
Proof.
  split; [apply (mt_link (lit "NEXT")); apply symbolic_computes; reflexivity|]. split; [exists 76, (lit "NEXT"); cbn; auto|]. split; [exact mt_out|].
  split; [intros (c & E & I); injection E as <-; cbn in I; intuition discriminate|].
  exists (lit "L,NEXT"). split; [apply strip_ex; reflexivity|split; [discriminate|reflexivity]].
Qed. @*)

Lemma not_manual s : ~ In 44 s -> Forall digit s \/ 8 < zlen s \/ In 43 s -> ~ manual_tag s.
Proof.
  intros NC H T. assert (ST : symbolic s).
  { destruct T as [t T|p t _ _|r _|t _| |t _]; [exact T| | | | |]; destruct NC; right; left; reflexivity. }
  destruct ST as (LE & F & (c & I & ND)). destruct H as [H|[H|H]].
  - rewrite Forall_forall in H. exact (ND (H c I)).
  - lia.
  - rewrite Forall_forall in F. destruct (F _ H) as (_ & k & J & NK). vm_compute in J.
    repeat (destruct J as [J|J]; [first [discriminate J|injection J as <-; apply NK; vm_compute; tauto]|]). destruct J.
Qed.
Lemma C177_illegal_refuted_pf : forall fs f seg out, f <> [] -> segment_of f seg -> ~ is_kind seg -> source fs f out -> all_ascii out ->
  (forall x s, In x out -> ~ starred_line (text_of x) -> label_of (text_of x) s ->
     ~ In 44 s /\ (forall c, In c s -> ~ small c) /\ (Forall digit s \/ 8 < zlen s \/ In 43 s) /\ exists op, operation_of (text_of x) op) ->
  (forall x s, In x out -> ~ starred_line (text_of x) -> label_of (text_of x) s -> ~ manual_tag s) /\
  exists k, forall upper fuel, (k <= fuel)%nat -> raises upper -> exists tab,
    build_symbol_table upper fuel fs f [] = Ok (tab, 0).
Proof.
  intros fs f seg out N SG NK S A Q. split.
  - intros x s I NS LS. destruct (Q x s I NS LS) as (NC & _ & H & _). exact (not_manual s NC H).
  - destruct (C158_table_pf fs f seg out N SG NK S A) as (k & H). exists k. intros upper fuel L R.
    destruct (H upper fuel L R) as (tab & n & E & C & _). exists tab. rewrite E. repeat f_equal.
    enough (Z : forall l m, (forall x, In x l -> ~ label_mistake (text_of x)) -> count_of (fun x => label_mistake (text_of x)) l m -> m = 0).
    { apply (Z out n); [|exact C]. intros x I (NS & s & LS & MK). destruct (Q x s I NS LS) as (NC & NM & _ & (op & O)).
      destruct MK as [MK|MK]; [exact (no_comma_ok s NC NM MK)|exact (MK op O)]. }
    induction l as [|x l IH]; intros m HN CM; inversion CM; subst; [reflexivity| |].
    + exfalso. eapply HN; [left; reflexivity|eassumption].
    + apply IH; [intros y I; apply HN; right; exact I|assumption].
Qed.
(*@ Example C177_illegal_refuted_ex : let up := map (fun c => if (97 <=? c) && (c <=? 122) then c - 32 else c) in
  ~ manual_tag (lit "1234") /\ ~ manual_tag (lit "A+B") /\
  exists tab, build_symbol_table up 2 (fun f => if eqb f (lit "q") then Some (lit "        1234       TX" ++ [10] ++ lit "        A+B        DA") else None) (lit "q") [] = Ok (tab, 0) /\
    dkeys tab = [lit "1234"; lit "A+B"].
Proof.
  split; [apply not_manual; [vm_compute; intuition discriminate|left; repeat (constructor; [split; intros E; vm_compute in E; discriminate E|]); constructor]|].
  split; [apply not_manual; [vm_compute; intuition discriminate|right; right; vm_compute; tauto]|].
  eexists. split; vm_compute; reflexivity.
Qed. @*)

(** *** C178: subsegments *)
Lemma C178_recorded fs f seg out : f <> [] -> segment_of f seg -> ~ is_kind seg -> source fs f out ->
  exists k, forall upper fuel, (k <= fuel)%nat -> exists tab n,
    build_symbol_table upper fuel fs f [] = Ok (tab, n) /\
    (forall pre x post tag kind tt ss, out = pre ++ x :: post -> line_defines upper (text_of x) tag kind tt -> subsegment (pre ++ [x]) ss ->
       exists e, get4 tab tag seg ss kind = Some e) /\
    (forall tag sg ss kind e, get4 tab tag sg ss kind = Some e -> sg = seg /\ exists pre x post tt, out = pre ++ x :: post /\
       line_defines upper (text_of x) tag kind tt /\ subsegment (pre ++ [x]) ss).
Proof.
  intros N SG NK S. destruct (C150_table_pf fs f seg out N SG NK S) as (k & H). exists k. intros upper fuel L.
  destruct (H upper fuel L) as (tab & n & E & _ & D1 & D2). exists tab, n. split; [exact E|]. split.
  - intros pre x post tag kind tt ss EO LD SS. destruct (recorded fs f upper out tag kind pre x post tt ss N S EO LD SS) as (y & t & LA).
    destruct (D1 _ _ _ _ _ LA) as (e & G & _). eauto.
  - intros tag sg ss kind e G. destruct (D2 _ _ _ _ _ G) as (-> & x & tt & (pre & post & EO & LD & SS & _) & _). split; [reflexivity|].
    exists pre, x, post, tt. auto.
Qed.
Lemma C178_unnumbered_refuted_pf : forall fs f seg out a x b y post, f <> [] -> segment_of f seg -> ~ is_kind seg -> source fs f out ->
  out = a ++ x :: b ++ y :: post -> has_operation (text_of x) (lit "SETLOC") ->
  (forall z op, In z (b ++ [y]) -> has_operation (text_of z) op -> ~ exists r, op = lit "SETLOC" ++ r) ->
  (forall n, manual_subsegment (a ++ x :: b ++ [y]) n -> lit "0" <> [48 + n]) /\
  exists k, forall upper fuel, (k <= fuel)%nat -> exists tab n,
    build_symbol_table upper fuel fs f [] = Ok (tab, n) /\
    forall tag kind tt, line_defines upper (text_of y) tag kind tt -> exists e, get4 tab tag seg (lit "0") kind = Some e.
Proof.
  intros fs f seg out a x b y post N SG NK S EO (NS & O) Q. split.
  - intros n M E. assert (48 + n = 48) by (apply (f_equal (fun l => nth 0 l 0)) in E; vm_compute (nth 0 (lit "0") 0) in E; cbn [nth] in E; lia).
    destruct M as [(_ & ->)|(p & z & q & _ & (B & _) & _)]; lia.
  - destruct (C178_recorded fs f seg out N SG NK S) as (k & H). exists k. intros upper fuel L.
    destruct (H upper fuel L) as (tab & n & E & D & _). exists tab, n. split; [exact E|]. intros tag kind tt LD.
    apply (D (a ++ x :: b) y post tag kind tt); [rewrite EO, <- app_assoc; reflexivity|exact LD|].
    right. exists a, x, (b ++ [y]). split; [rewrite <- app_assoc; reflexivity|]. split.
    + split; [exact NS|]. exists []. rewrite app_nil_r. split; [exact O|]. left. split; [intros []|reflexivity].
    + intros z u I (NZ & r & OZ & _). apply (Q z (lit "SETLOC" ++ r) I); [split; assumption|eauto].
Qed.
(*@ Example C178_unnumbered_refuted_ex : let fs := fun f => if eqb f (lit "p.arg") then
      Some (lit "                   SETLOC,2" ++ [10] ++ lit "        A          TX" ++ [10] ++ lit "                   SETLOC       512" ++ [10] ++ lit "        B          TX") else None in
  exists tab, build_symbol_table (fun s => s) 2 fs (lit "p.arg") [] = Ok (tab, 0) /\
    get4 tab (lit "A") (lit "p") (lit "2") (lit "simple") <> None /\
    get4 tab (lit "B") (lit "p") (lit "2") (lit "simple") = None /\ get4 tab (lit "B") (lit "p") (lit "0") (lit "simple") <> None.
Proof. eexists. split; [vm_compute; reflexivity|]. split; [vm_compute; discriminate|]. split; [vm_compute; reflexivity|vm_compute; discriminate]. Qed. @*)

Lemma C178_common_refuted_pf : forall fs f seg out a x b y post m, f <> [] -> segment_of f seg -> ~ is_kind seg -> source fs f out ->
  out = a ++ x :: b ++ y :: post -> 1 <= m <= 7 -> has_operation (text_of x) (lit "SETLOC," ++ [48 + m; 67]) ->
  (forall z op, In z (b ++ [y]) -> has_operation (text_of z) op -> ~ exists r, no_blanks op = lit "SETLOC" ++ r) ->
  manual_subsegment (a ++ x :: b ++ [y]) m /\
  exists k, forall upper fuel, (k <= fuel)%nat -> exists tab n,
    build_symbol_table upper fuel fs f [] = Ok (tab, n) /\
    forall tag kind tt, line_defines upper (text_of y) tag kind tt -> exists e, get4 tab tag seg [48 + m; 67] kind = Some e.
Proof.
  intros fs f seg out a x b y post m N SG NK S EO B (NS & O) Q.
  assert (NB : no_blanks (lit "SETLOC," ++ [48 + m; 67]) = lit "SETLOC," ++ [48 + m; 67]).
  { unfold no_blanks. rewrite filter_app. cbn [filter]. destruct (Z.eqb_spec (48 + m) 32); [lia|]. reflexivity. }
  split.
  - right. exists a, x, (b ++ [y]). split; [reflexivity|]. split.
    + split; [exact B|]. split; [exact NS|]. eexists. split; [exact O|]. right. exact NB.
    + intros z u I (_ & NZ & op & OZ & HZ). apply (Q z op I); [split; assumption|].
      destruct HZ as [HZ|HZ]; rewrite HZ; [exists [44; 48 + u]|exists [44; 48 + u; 67]]; reflexivity.
  - destruct (C178_recorded fs f seg out N SG NK S) as (k & H). exists k. intros upper fuel L.
    destruct (H upper fuel L) as (tab & n & E & D & _). exists tab, n. split; [exact E|]. intros tag kind tt LD.
    apply (D (a ++ x :: b) y post tag kind tt); [rewrite EO, <- app_assoc; reflexivity|exact LD|].
    right. exists a, x, (b ++ [y]). split; [rewrite <- app_assoc; reflexivity|]. split.
    + split; [exact NS|]. exists [44; 48 + m; 67]. split; [exact O|]. right. left. exists [], [48 + m; 67].
      split; [reflexivity|]. split; [intros []|]. split; [cbn; lia|].
      exists [], []. split; [reflexivity|]. split; [constructor|]. split; [constructor|]. split.
      * intros c r [= <- _]. apply not_white. unfold is_space. rewrite !orb_false_iff. repeat split; lia.
      * intros c r E'. apply (f_equal (fun l => last l 0)) in E'. rewrite last_last in E'. cbn in E'. subst c. apply not_white. reflexivity.
    + intros z u I (NZ & r & OZ & _). apply (Q z (lit "SETLOC" ++ r) I); [split; assumption|].
      exists (no_blanks r). unfold no_blanks. rewrite filter_app. reflexivity.
Qed.
(*@ Example C178_common_refuted_ex : let fs := fun f => if eqb f (lit "p.arg") then
      Some (lit "                   SETLOC,2C" ++ [10] ++ lit "        A          TX" ++ [10] ++ lit "                   SETLOC,2" ++ [10] ++ lit "        A          DA") else None in
  exists tab, build_symbol_table (fun s => s) 2 fs (lit "p.arg") [] = Ok (tab, 0) /\
    get4 tab (lit "A") (lit "p") (lit "2C") (lit "simple") <> None /\ get4 tab (lit "A") (lit "p") (lit "2") (lit "simple") <> None.
Proof. eexists. split; [vm_compute; reflexivity|]. split; vm_compute; discriminate. Qed. @*)

Definition plain_setloc (out : list srcline) : Prop :=
  forall x op, In x out -> has_operation (text_of x) op -> (exists r, no_blanks op = lit "SETLOC" ++ r) ->
    exists n, 1 <= n <= 7 /\ op = lit "SETLOC," ++ [48 + n].
Lemma plain_specifies out x : plain_setloc out -> In x out -> forall n, specifies (text_of x) n -> line_setloc (text_of x) [48 + n].
Proof.
  intros P I n (B & NS & op & O & H).
  assert (X : exists r, no_blanks op = lit "SETLOC" ++ r) by (destruct H as [H|H]; rewrite H; [exists [44; 48 + n]|exists [44; 48 + n; 67]]; reflexivity).
  destruct (P x op I (conj NS O) X) as (m & BM & ->).
  assert (NB : no_blanks (lit "SETLOC," ++ [48 + m]) = lit "SETLOC," ++ [48 + m]).
  { unfold no_blanks. rewrite filter_app. cbn [filter]. destruct (Z.eqb_spec (48 + m) 32); [lia|]. reflexivity. }
  rewrite NB in H. assert (E : m = n).
  { destruct H as [H|H]; apply app_inv_head in H; [|discriminate H]. injection H as H. lia. }
  subst m. split; [exact NS|]. exists [44; 48 + n]. split; [exact O|]. right. left. exists [], [48 + n]. split; [reflexivity|]. split; [intros []|].
  split; [cbn; lia|]. exists [], []. split; [reflexivity|]. split; [constructor|]. split; [constructor|]. split.
  - intros c r [= <- _]. apply not_white. unfold is_space. rewrite !orb_false_iff. repeat split; lia.
  - intros c r E'. apply (f_equal (fun l => last l 0)) in E'. rewrite last_last in E'. cbn in E'. subst c.
    apply not_white. unfold is_space. rewrite !orb_false_iff. repeat split; lia.
Qed.
Lemma plain_setloc_specifies out x : plain_setloc out -> In x out -> forall s, line_setloc (text_of x) s -> exists n, s = [48 + n] /\ specifies (text_of x) n.
Proof.
  intros P I s (NS & r & O & H).
  assert (X : exists r', no_blanks (lit "SETLOC" ++ r) = lit "SETLOC" ++ r') by (exists (no_blanks r); unfold no_blanks; rewrite filter_app; reflexivity).
  destruct (P x _ I (conj NS O) X) as (n & B & E). change (lit "SETLOC," ++ [48 + n]) with (lit "SETLOC" ++ [44; 48 + n]) in E.
  apply app_inv_head in E. subst r. exists n. split.
  - destruct H as [(H & _)|[(a & b & E & NA & _ & T)|(a & b & d & E & _)]].
    + destruct H. left. reflexivity.
    + destruct a as [|c a]; cbn [app] in E; [|injection E as <- _; destruct NA; left; reflexivity]. injection E as <-.
      refine (trimmed_unique _ _ _ T _). exists [], []. split; [reflexivity|]. split; [constructor|]. split; [constructor|]. split.
      * intros c r [= <- _]. apply not_white. unfold is_space. rewrite !orb_false_iff. repeat split; lia.
      * intros c r E'. apply (f_equal (fun l => last l 0)) in E'. rewrite last_last in E'. cbn in E'. subst c.
        apply not_white. unfold is_space. rewrite !orb_false_iff. repeat split; lia.
    + exfalso. assert (C := f_equal (fun l => count_occ Z.eq_dec l 44) E). cbn beta in C. rewrite !count_occ_app in C.
      cbn [count_occ] in C. rewrite !count_occ_app in C. cbn [count_occ] in C. destruct (Z.eq_dec 44 44) as [_|Y]; [|contradiction].
      destruct (Z.eq_dec (48 + n) 44); lia.
  - split; [exact B|]. split; [exact NS|]. eexists. split; [exact O|]. left. unfold no_blanks. rewrite filter_app. cbn [filter].
    destruct (Z.eqb_spec (48 + n) 32); [lia|]. reflexivity.
Qed.
Lemma same_subsegment out l : plain_setloc out -> incl l out -> forall s, subsegment l s <-> exists n, s = [48 + n] /\ manual_subsegment l n.
Proof.
  intros P IL s. split.
  - intros [(H & ->)|(a & x & b & E & S & H)].
    + exists 1. split; [reflexivity|]. left. split; [|reflexivity]. intros x u I SP. exact (H x _ I (plain_specifies out x P (IL _ I) u SP)).
    + assert (IX : In x out) by (apply IL; rewrite E; apply in_or_app; right; left; reflexivity).
      destruct (plain_setloc_specifies out x P IX s S) as (n & -> & SP). exists n. split; [reflexivity|]. right. exists a, x, b.
      split; [exact E|]. split; [exact SP|]. intros y u I SY. refine (H y _ I (plain_specifies out y P _ u SY)).
      apply IL. rewrite E. apply in_or_app. right. right. exact I.
  - intros (n & -> & [(H & ->)|(a & x & b & E & S & H)]).
    + left. split; [|reflexivity]. intros x u I SL. destruct (plain_setloc_specifies out x P (IL _ I) u SL) as (n & _ & SP). exact (H x n I SP).
    + assert (IX : In x out) by (apply IL; rewrite E; apply in_or_app; right; left; reflexivity).
      right. exists a, x, b. split; [exact E|]. split; [exact (plain_specifies out x P IX n S)|].
      intros y u I SY. assert (IY : In y out) by (apply IL; rewrite E; apply in_or_app; right; right; exact I).
      destruct (plain_setloc_specifies out y P IY u SY) as (m & _ & SP). exact (H y m I SP).
Qed.
Lemma C178_subsegment_partial_pf : forall fs f seg out, f <> [] -> segment_of f seg -> ~ is_kind seg -> source fs f out ->
  (forall x op, In x out -> has_operation (text_of x) op -> (exists r, no_blanks op = lit "SETLOC" ++ r) ->
     exists n, 1 <= n <= 7 /\ op = lit "SETLOC," ++ [48 + n]) ->
  exists k, forall upper fuel, (k <= fuel)%nat -> exists tab n,
    build_symbol_table upper fuel fs f [] = Ok (tab, n) /\
    forall tag sg ss kind, get4 tab tag sg ss kind <> None <->
      sg = seg /\ exists pre x post tt m, out = pre ++ x :: post /\ line_defines upper (text_of x) tag kind tt /\
        manual_subsegment (pre ++ [x]) m /\ ss = [48 + m].
Proof.
  intros fs f seg out N SG NK S P. destruct (C178_recorded fs f seg out N SG NK S) as (k & H). exists k. intros upper fuel L.
  destruct (H upper fuel L) as (tab & n & E & D1 & D2). exists tab, n. split; [exact E|].
  assert (IN : forall pre x post, out = pre ++ x :: post -> incl (pre ++ [x]) out).
  { intros pre x post -> y I. apply in_app_or in I. apply in_or_app. destruct I as [I|[<-|[]]]; [left; exact I|right; left; reflexivity]. }
  intros tag sg ss kind. split.
  - intros G. destruct (get4 tab tag sg ss kind) as [e|] eqn:GE; [|contradiction]. destruct (D2 _ _ _ _ _ GE) as (-> & pre & x & post & tt & EO & LD & SS).
    split; [reflexivity|]. apply (same_subsegment out _ P (IN _ _ _ EO)) in SS. destruct SS as (m & -> & M). exists pre, x, post, tt, m. auto.
  - intros (-> & pre & x & post & tt & m & EO & LD & M & ->).
    destruct (D1 pre x post tag kind tt [48 + m] EO LD) as (e & ->); [|discriminate].
    apply (same_subsegment out _ P (IN _ _ _ EO)). eauto.
Qed.
(*@ Example C178_subsegment_partial_ex : let fs := fun f => if eqb f (lit "p.arg") then
      Some (lit "        A          TX" ++ [10] ++ lit "                   SETLOC,3" ++ [10] ++ lit "        B          DA") else None in
  exists tab, build_symbol_table (fun s => s) 2 fs (lit "p.arg") [] = Ok (tab, 0) /\
    get4 tab (lit "A") (lit "p") (lit "1") (lit "simple") <> None /\ get4 tab (lit "B") (lit "p") (lit "3") (lit "simple") <> None.
Proof. eexists. split; [vm_compute; reflexivity|]. split; vm_compute; discriminate. Qed. @*)

(** *** C179: complex addresses *)
Lemma C179_tas_refuted_pf : forall fs f seg out, f <> [] -> segment_of f seg -> ~ is_kind seg -> source fs f out ->
  exists k, forall upper fuel, (k <= fuel)%nat -> exists tab n,
    build_symbol_table upper fuel fs f [] = Ok (tab, n) /\
    (forall x s tag tt, In x out -> has_operation (text_of x) (lit "TAS") -> label_of (text_of x) s -> well_formed upper s tt tag ->
       exists ss e, get4 tab tag seg ss (lit "simple") = Some e) /\
    (forall tag sg ss e, get4 tab tag sg ss (lit "complex") = Some e ->
       exists x s tt, In x out /\ has_operation (text_of x) (lit "ASSIGN") /\ label_of (text_of x) s /\ well_formed upper s tt tag).
Proof.
  intros fs f seg out N SG NK S. destruct (C178_recorded fs f seg out N SG NK S) as (k & H). exists k. intros upper fuel L.
  destruct (H upper fuel L) as (tab & n & E & D1 & D2). exists tab, n. split; [exact E|]. split.
  - intros x s tag tt I (NS & O) LS W. apply in_split in I. destruct I as (pre & post & EO). destruct (subsegment_ex (pre ++ [x])) as (ss & SS).
    exists ss. apply (D1 pre x post tag (lit "simple") tt ss EO); [|exact SS]. split; [exact NS|]. exists s, (lit "TAS").
    split; [exact LS|]. split; [exact W|]. split; [exact O|]. right. split; [discriminate|reflexivity].
  - intros tag sg ss e G. destruct (D2 _ _ _ _ _ G) as (_ & pre & x & post & tt & EO & (NS & s & op & LS & W & O & K) & _).
    exists x, s, tt. split; [rewrite EO; apply in_or_app; right; left; reflexivity|]. destruct K as [(-> & _)|(_ & K)]; [|discriminate K].
    split; [split; assumption|]. split; assumption.
Qed.
(*@ Example C179_tas_refuted_ex : let fs := fun f => if eqb f (lit "p.arg") then
      Some (lit "        DATA       TAS          3,0" ++ [10] ++ lit "        DATA       TAS          N,R1,1") else None in
  exists tab, build_symbol_table (fun s => s) 2 fs (lit "p.arg") [] = Ok (tab, 0) /\
    get4 tab (lit "DATA") (lit "p") (lit "1") (lit "simple") <> None /\ get4 tab (lit "DATA") (lit "p") (lit "1") (lit "complex") = None.
Proof. eexists. split; [vm_compute; reflexivity|]. split; [vm_compute; discriminate|vm_compute; reflexivity]. Qed. @*)
Lemma C179_complex_partial_pf : forall fs f seg out, f <> [] -> segment_of f seg -> ~ is_kind seg -> source fs f out ->
  (forall x, In x out -> ~ has_operation (text_of x) (lit "TAS")) ->
  exists k, forall upper fuel, (k <= fuel)%nat -> exists tab n,
    build_symbol_table upper fuel fs f [] = Ok (tab, n) /\
    forall tag, 
      ((exists ss, get4 tab tag seg ss (lit "complex") <> None) <->
       exists x s tt op, In x out /\ has_operation (text_of x) op /\ assigns_complex op /\ label_of (text_of x) s /\ well_formed upper s tt tag) /\
      ((exists ss, get4 tab tag seg ss (lit "simple") <> None) <->
       exists x s tt op, In x out /\ has_operation (text_of x) op /\ ~ assigns_complex op /\ label_of (text_of x) s /\ well_formed upper s tt tag).
Proof.
  intros fs f seg out N SG NK S NT. destruct (C178_recorded fs f seg out N SG NK S) as (k & H). exists k. intros upper fuel L.
  destruct (H upper fuel L) as (tab & n & E & D1 & D2). exists tab, n. split; [exact E|]. intros tag.
  assert (G : forall kind, (exists ss, get4 tab tag seg ss kind <> None) <-> exists x tt, In x out /\ line_defines upper (text_of x) tag kind tt).
  { intros kind. split.
    - intros (ss & NE). destruct (get4 tab tag seg ss kind) as [e|] eqn:GE; [|contradiction].
      destruct (D2 _ _ _ _ _ GE) as (_ & pre & x & post & tt & EO & LD & _). exists x, tt. split; [rewrite EO; apply in_or_app; right; left; reflexivity|exact LD].
    - intros (x & tt & I & LD). apply in_split in I. destruct I as (pre & post & EO). destruct (subsegment_ex (pre ++ [x])) as (ss & SS).
      exists ss. destruct (D1 pre x post tag kind tt ss EO LD SS) as (e & ->). discriminate. }
  rewrite !G. split; split.
  - intros (x & tt & I & NS & s & op & LS & W & O & [(-> & _)|(_ & X)]); [|discriminate X]. exists x, s, tt, (lit "ASSIGN").
    split; [exact I|]. split; [split; assumption|]. split; [left; reflexivity|]. split; assumption.
  - intros (x & s & tt & op & I & (NS & O) & AC & LS & W). destruct AC as [<-|[<-|[]]].
    + exists x, tt. split; [exact I|]. split; [exact NS|]. exists s, (lit "ASSIGN"). split; [exact LS|]. split; [exact W|]. split; [exact O|]. left. auto.
    + destruct (NT x I). split; assumption.
  - intros (x & tt & I & NS & s & op & LS & W & O & [(_ & X)|(NA & _)]); [discriminate X|]. exists x, s, tt, op.
    split; [exact I|]. split; [split; assumption|]. split; [|split; assumption]. intros [<-|[<-|[]]]; [apply NA; reflexivity|]. apply (NT x I). split; assumption.
  - intros (x & s & tt & op & I & (NS & O) & AC & LS & W). exists x, tt. split; [exact I|]. split; [exact NS|]. exists s, op.
    split; [exact LS|]. split; [exact W|]. split; [exact O|]. right. split; [|reflexivity]. intros ->. apply AC. left. reflexivity.
Qed.
(*@ Example C179_complex_partial_ex : let fs := fun f => if eqb f (lit "p.arg") then
      Some (lit "        PAY        ASSIGN       3,5" ++ [10] ++ lit "        PAY        RESERVE      10") else None in
  exists tab, build_symbol_table (fun s => s) 2 fs (lit "p.arg") [] = Ok (tab, 0) /\
    get4 tab (lit "PAY") (lit "p") (lit "1") (lit "simple") <> None /\ get4 tab (lit "PAY") (lit "p") (lit "1") (lit "complex") <> None.
Proof. eexists. split; [vm_compute; reflexivity|]. split; vm_compute; discriminate. Qed. @*)

(** *** C180: blanks in the command code *)
Lemma picked_In {A B} (P : A -> B -> Prop) l r x y : (forall x y z, P x y -> P x z -> y = z) -> picked P l r -> In x l -> P x y -> In y r.
Proof. intros U K. induction K as [|a b l r H K IH|a l r H K IH]; intros I Y; [contradiction| |]; destruct I as [->|I]; auto; [left; exact (U _ _ _ H Y)|right; auto|destruct (H _ Y)]. Qed.
Lemma picked_back {A B} (P : A -> B -> Prop) l r y : picked P l r -> In y r -> exists x, In x l /\ P x y.
Proof.
  intros K. induction K as [|a b l r H K IH|a l r H K IH]; intros I; [contradiction| |].
  - destruct I as [<-|I]; [exists a; cbn; auto|]. destruct (IH I) as (x & J & Q). exists x. cbn; auto.
  - destruct (IH I) as (x & J & Q). exists x. cbn; auto.
Qed.
Lemma mnemonic_unique line m m' : mnemonic_at line m -> mnemonic_at line m' -> m = m'.
Proof.
  intros (_ & op & O & M) (_ & op' & O' & M'). rewrite <- (op_unique _ _ _ O O') in M'. destruct M as [(N & ->)|(a & b & E & N & T)], M' as [(N' & ->)|(a' & b' & E' & N' & T')].
  - reflexivity.
  - destruct N. rewrite E'. apply in_or_app. right. left. reflexivity.
  - destruct N'. rewrite E. apply in_or_app. right. left. reflexivity.
  - rewrite E in E'. assert (a = a').
    { clear - E' N N'. revert a' E' N'. induction a as [|c a IH]; intros [|c' a'] E N2; cbn [app] in E; [reflexivity| | |].
      - injection E as <- _. destruct N2. left. reflexivity.
      - injection E as -> _. destruct N. left. reflexivity.
      - injection E as <- E. f_equal. apply IH; [intro X; apply N; right; exact X|exact E|intro X; apply N2; right; exact X]. }
    subst a'. exact (trimmed_unique _ _ _ T T').
Qed.
Lemma fault_unique x y z : mnemonic_fault x y -> mnemonic_fault x z -> y = z.
Proof. destruct x as [[f i] l]. intros (_ & m & M & _ & ->) (_ & m' & M' & _ & ->). rewrite (mnemonic_unique _ _ _ M M'). reflexivity. Qed.
Lemma fault_of x m : has_mnemonic x m -> ~ In m INSTRUCTIONS -> exists ls, mnemonic_fault x ls.
Proof. destruct x as [[f i] l]. intros (S & M) N. eexists. split; [exact S|]. exists m. split; [exact M|]. split; [exact N|reflexivity]. Qed.
Lemma no_blank_code m : In 32 m -> ~ In m INSTRUCTIONS.
Proof.
  intros B I. assert (F : forallb (fun m => negb (existsb (Z.eqb 32) m)) INSTRUCTIONS = true) by (vm_compute; reflexivity).
  rewrite forallb_forall in F. specialize (F _ I). apply negb_true_iff in F. assert (X : existsb (Z.eqb 32) m = true) by (apply existsb_exists; exists 32; split; [exact B|reflexivity]).
  congruence.
Qed.
Lemma C180_check_refuted_pf : forall fs prog words on files outs,
  understood (options CheckInstructions) words on files ->
  (forall x, In x ["verbose"; "count"; "print-opcodes"; "unused"]%string -> ~ In (lit x) on) ->
  files <> [] -> ~ In [] files -> Forall2 (source fs) files outs ->
  exists k, forall v, (k <= e_fuel v)%nat -> exists faults,
    command v fs CheckInstructions prog words = (concat faults ++ [OutL (error_count (zlen faults))], Exit 0, fs) /\
    forall x m, In x (concat outs) -> has_mnemonic x m -> In 32 m ->
      exists ls, In ls faults /\ mnemonic_fault x ls.
Proof.
  intros fs prog words on files outs U O NE N S. destruct (C147_faults_pf fs prog words on files outs U O NE N S) as (k & H).
  exists k. intros v L. destruct (H v L) as (faults & E & P). exists faults. split; [exact E|]. intros x m I M B.
  destruct (fault_of x m M (no_blank_code _ B)) as (ls & F). exists ls. split; [exact (picked_In _ _ _ _ _ fault_unique P I F)|exact F].
Qed.
(*@ Example C180_check_refuted_ex : let fs := fun f => if eqb f (lit "p.arg") then Some (lit "                   D A,M1       X             Y" ++ [10] ++ lit "                   DA, M1       X") else None in
  printed (fst (fst (command sample_env fs CheckInstructions (lit "x.py") [lit "p.arg"]))) =
    [lit "*** ERROR: Invalid instruction ""D A"":"; lit "File p.arg, line 1:                    D A,M1       X             Y"; lit "1 error encountered."] /\
  no_blanks (lit "D A") = lit "DA" /\ In (lit "DA") MANUAL_CODES.
Proof. split; [vm_compute; reflexivity|]. split; [reflexivity|]. left. reflexivity. Qed. @*)
Lemma same_operation_found opcode details x x' : same_operation x x' ->
  (exists y, line_found opcode details x y) -> exists y, line_found opcode details x' y.
Proof.
  destruct x as [[f i] l], x' as [[g j] l']. intros (_ & S & A & _) (y & N & (op & O & M) & _). cbn [text_of snd] in *.
  destruct (A op O) as (op' & O' & Q). eexists. split; [rewrite <- S; exact N|]. split; [|reflexivity]. exists op'. split; [exact O'|].
  change (filter (fun c => negb (c =? 32)) op') with (no_blanks op'). rewrite <- Q. exact M.
Qed.
Lemma same_operation_sym x y : same_operation x y -> same_operation y x.
Proof.
  intros (E & S & A & B). split; [auto|]. split; [tauto|]. split; intros op O.
  - destruct (B op O) as (o & O' & Q). eauto.
  - destruct (A op O) as (o & O' & Q). eauto.
Qed.
Lemma C180_list_partial_pf : forall fs fs' prog words prog' words' on details opcode m files outs outs',
  understood (options ListInstructions) words on (opcode :: files) -> understood (options ListInstructions) words' on (opcode :: files) ->
  ~ In (lit "verbose") on -> turned_on on "details" details -> mnemonic_of opcode m -> In m MANUAL_CODES -> ~ In [] files ->
  Forall2 (source fs) files outs -> Forall2 (source fs') files outs' -> Forall2 (Forall2 same_operation) outs outs' ->
  exists k, forall v, (k <= e_fuel v)%nat -> exists ys ys',
    command v fs ListInstructions prog words = (map OutL ys, Exit 0, fs) /\
    command v fs' ListInstructions prog' words' = (map OutL ys', Exit 0, fs') /\
    picked (line_found opcode details) (concat outs) ys /\ picked (line_found opcode details) (concat outs') ys' /\
    Forall2 (fun y y' => exists x x', In x (concat outs) /\ In x' (concat outs') /\ fst x = fst x' /\ same_operation x x' /\
                           line_found opcode details x y /\ line_found opcode details x' y') ys ys'.
Proof.
  intros fs fs' prog words prog' words' on details opcode m files outs outs' U U' NV D M IM N S S' F.
  assert (I : In m INSTRUCTIONS).
  { assert (G : forallb (fun m => inb m INSTRUCTIONS) MANUAL_CODES = true) by (vm_compute; reflexivity). rewrite forallb_forall in G. apply inb_In. exact (G m IM). }
  destruct (C148_found_pf fs prog words on details opcode m files outs U NV D M I N S) as (k & H).
  destruct (C148_found_pf fs' prog' words' on details opcode m files outs' U' NV D M I N S') as (k' & H').
  exists (Nat.max k k'). intros v L. destruct (H v ltac:(lia)) as (ys & E & P). destruct (H' v ltac:(lia)) as (ys' & E' & P').
  exists ys, ys'. split; [exact E|]. split; [exact E'|]. split; [exact P|]. split; [exact P'|].
  assert (FC : Forall2 same_operation (concat outs) (concat outs')) by (clear - F; induction F; cbn [concat]; [constructor|apply Forall2_app; assumption]).
  clear - FC P P'. assert (IA := incl_refl (concat outs)). assert (IB := incl_refl (concat outs')).
  revert FC P P' IA IB. generalize (concat outs) at 1 2 3. generalize (concat outs') at 1 2 3. intros b a FC. revert ys ys'.
  induction FC as [|x x' a b K FC IH]; intros ys ys' P P' IA IB.
  - inversion P; inversion P'; subst; constructor.
  - assert (IA' : incl a (concat outs)) by (intros z Z; apply IA; right; exact Z). assert (IB' : incl b (concat outs')) by (intros z Z; apply IB; right; exact Z).
    inversion P as [|? y ? ys0 Y P0|? ? ? Y P0]; subst; inversion P' as [|? y' ? ys0' Y' P0'|? ? ? Y' P0']; subst.
    + constructor; [|apply IH; assumption]. exists x, x'. split; [apply IA; left; reflexivity|]. split; [apply IB; left; reflexivity|]. split; [exact (proj1 K)|]. auto.
    + destruct (same_operation_found opcode details x x' K (ex_intro _ y Y)) as (z & Z). destruct (Y' _ Z).
    + destruct (same_operation_found opcode details x' x (same_operation_sym _ _ K) (ex_intro _ y' Y')) as (z & Z). destruct (Y _ Z).
    + apply IH; assumption.
Qed.
(*@ Example C180_list_partial_ex : let fs := fun f => if eqb f (lit "p.arg") then Some (lit "                   D A, M 1     X             Y") else None in
  printed (fst (fst (command sample_env fs ListInstructions (lit "x.py") [lit "DA"; lit "p.arg"]))) = [lit "                   D A, M 1     X             Y"] /\
  printed (fst (fst (command sample_env fs ListInstructions (lit "x.py") [lit "DA,M1"; lit "p.arg"]))) = [lit "                   D A, M 1     X             Y"].
Proof. split; vm_compute; reflexivity. Qed. @*)

(** *** C181: the operation codes *)
Lemma codes m : In m INSTRUCTIONS <-> In m MANUAL_CODES \/ In m MORE_CODES.
Proof.
  rewrite <- in_app_iff. rewrite <- !inb_In.
  assert (A : forallb (fun m => inb m (MANUAL_CODES ++ MORE_CODES)) INSTRUCTIONS = true) by (vm_compute; reflexivity).
  assert (B : forallb (fun m => inb m INSTRUCTIONS) (MANUAL_CODES ++ MORE_CODES) = true) by (vm_compute; reflexivity).
  rewrite forallb_forall in A, B. split; intro I; [apply A|apply B]; apply inb_In; exact I.
Qed.
Lemma C181_codes_partial_pf : forall fs prog words on files outs,
  understood (options CheckInstructions) words on files ->
  (forall x, In x ["verbose"; "count"; "print-opcodes"; "unused"]%string -> ~ In (lit x) on) ->
  files <> [] -> ~ In [] files -> Forall2 (source fs) files outs ->
  exists k, forall v, (k <= e_fuel v)%nat -> exists faults,
    command v fs CheckInstructions prog words = (concat faults ++ [OutL (error_count (zlen faults))], Exit 0, fs) /\
    picked mnemonic_fault (concat outs) faults /\
    (faults = [] <-> forall x m, In x (concat outs) -> has_mnemonic x m -> In m MANUAL_CODES \/ In m MORE_CODES).
Proof.
  intros fs prog words on files outs U O NE N S. destruct (C147_faults_pf fs prog words on files outs U O NE N S) as (k & H).
  exists k. intros v L. destruct (H v L) as (faults & E & P). exists faults. split; [exact E|]. split; [exact P|]. split.
  - intros -> x m I M. apply codes. destruct (inb m INSTRUCTIONS) eqn:B; [apply inb_In; exact B|]. exfalso.
    assert (NI : ~ In m INSTRUCTIONS) by (intro X; apply inb_In in X; congruence). destruct (fault_of x m M NI) as (ls & F).
    exact (picked_In _ _ _ _ _ fault_unique P I F).
  - intros A. destruct faults as [|y r]; [reflexivity|]. exfalso. destruct (picked_back _ _ _ y P (or_introl eq_refl)) as ([[f i] l] & I & (SN & m & M & NI & _)).
    apply NI. apply codes. exact (A _ m I (conj SN M)).
Qed.
(*@ Example C181_codes_partial_ex : let fs := fun f => if eqb f (lit "p.arg") then Some (lit "        A          MASKBASE" ++ [10] ++ lit "                   FBAU         X             Y" ++ [10] ++ lit "                   SETLOC,3     X") else None in
  printed (fst (fst (command sample_env fs CheckInstructions (lit "x.py") [lit "p.arg"]))) = [lit "0 errors encountered."].
Proof. vm_compute; reflexivity. Qed. @*)
Lemma C181_calls_refuted_pf : forall fs prog words on files outs,
  understood (options CheckInstructions) words on files ->
  (forall x, In x ["verbose"; "count"; "print-opcodes"; "unused"]%string -> ~ In (lit x) on) ->
  files <> [] -> ~ In [] files -> Forall2 (source fs) files outs ->
  exists k, forall v, (k <= e_fuel v)%nat -> exists faults,
    command v fs CheckInstructions prog words = (concat faults ++ [OutL (error_count (zlen faults))], Exit 0, fs) /\
    forall x m, In x (concat outs) -> has_mnemonic x m -> In m OTHER_CODES ->
      exists ls, In ls faults /\ mnemonic_fault x ls.
Proof.
  intros fs prog words on files outs U O NE N S. destruct (C147_faults_pf fs prog words on files outs U O NE N S) as (k & H).
  exists k. intros v L. destruct (H v L) as (faults & E & P). exists faults. split; [exact E|]. intros x m I M B.
  assert (NI : ~ In m INSTRUCTIONS).
  { assert (G : forallb (fun m => negb (inb m INSTRUCTIONS)) OTHER_CODES = true) by (vm_compute; reflexivity). rewrite forallb_forall in G.
    specialize (G m B). apply negb_true_iff in G. intro X. apply inb_In in X. congruence. }
  destruct (fault_of x m M NI) as (ls & F). exists ls. split; [exact (picked_In _ _ _ _ _ fault_unique P I F)|exact F].
Qed.
(*@ Example C181_calls_refuted_ex : let fs := fun f => if eqb f (lit "p.arg") then Some (lit "                   L,SORT       X             Y") else None in
  printed (fst (fst (command sample_env fs CheckInstructions (lit "x.py") [lit "p.arg"]))) =
    [lit "*** ERROR: Invalid instruction ""L"":"; lit "File p.arg, line 1:                    L,SORT       X             Y"; lit "1 error encountered."].
Proof. vm_compute; reflexivity. Qed. @*)
