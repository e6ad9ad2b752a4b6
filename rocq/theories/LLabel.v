From Coq Require Import ZArith List Bool Lia.
From Verif Require Import Py LPy MCards SCards LCards LDeck MSymbols SSymbols LSymBuild MInstructions MTools STools LTools LToolSym MDiag MVerbose SVerbose MOptions SOptions MProcess SProcess SEnds LEnds SSource LSource SLabel.
#[local] Arguments Z.add : simpl never.
#[local] Arguments Z.sub : simpl never.
#[local] Arguments Z.mul : simpl never.
#[local] Arguments Z.pow : simpl never.

Lemma capital s : map (fun c => if (97 <=? c) && (c <=? 122) then c - 32 else c) s = s <-> forall c, In c s -> ~ small c.
Proof.
  unfold small. induction s as [|c s IH]; [split; [intros _ c []|reflexivity]|]. cbn [map]. split.
  - intros E x [<-|I] S.
    + injection E as E _. destruct (Z.leb_spec 97 c), (Z.leb_spec c 122); cbn [andb] in E; lia.
    + injection E as _ E. exact (proj1 IH E x I S).
  - intros H. rewrite (proj2 IH (fun x I => H x (or_intror I))). f_equal. specialize (H c (or_introl eq_refl)).
    destruct (Z.leb_spec 97 c), (Z.leb_spec c 122); cbn [andb]; lia.
Qed.
Lemma C158_case_pf : forall upper s, raises upper -> ascii s -> (upper s = s <-> forall c, In c s -> ~ small c).
Proof. intros upper s R A. rewrite (R s A). apply capital. Qed.
(*@ Example C158_case_ex : let up := map (fun c => if (97 <=? c) && (c <=? 122) then c - 32 else c) in
  raises up /\ ascii (lit "LOOP.1") /\ up (lit "LOOP.1") = lit "LOOP.1" /\ up (lit "LOoP.1") <> lit "LOoP.1".
Proof.
  split; [intros s _; reflexivity|]. split; [repeat (constructor; [split; [intros E; vm_compute in E; discriminate E|vm_compute; reflexivity]|]); constructor|]. split; [reflexivity|discriminate].
Qed. @*)
Lemma comma_split s : In 44 s -> exists p t, s = p ++ 44 :: t /\ ~ In 44 p.
Proof. exact (first_split 44 s). Qed.
Lemma formed_ok upper s : raises upper -> ascii s ->
  (~ mistake s -> exists tt tag, well_formed upper s tt tag) /\ (forall tt tag, well_formed upper s tt tag -> ~ mistake s).
Proof.
  intros R A. split.
  - intros N. assert (U : upper s = s).
    { apply (C158_case_pf _ _ R A). intros c I S. apply N. exact (mk_small s c I S). }
    destruct (in_dec Z.eq_dec 44 s) as [I|NI].
    + destruct (comma_split s I) as (p & t & -> & NP). exists p, t. split; [exact U|]. right. split; [reflexivity|]. split.
      * intros IT. apply in_split in IT. destruct IT as (x & y & ->). apply N. exact (mk_commas _ p x y eq_refl).
      * destruct (in_dec (list_eq_dec Z.eq_dec) p (map lit ["B"; "F"; "S"; "Z"]%string)) as [IP|IP]; [exact IP|].
        destruct N. exact (mk_prefix _ p t eq_refl NP IP).
    + exists (lit " "), s. split; [exact U|]. left. auto.
  - intros tt tag (U & H) M. assert (CAP := proj1 (C158_case_pf _ _ R A) U).
    assert (NT : forall q, In q (map lit ["B"; "F"; "S"; "Z"]%string) -> ~ In 44 q).
    { intros q I J. vm_compute in I. repeat (destruct I as [<-|I]; [vm_compute in J; intuition discriminate|]). destruct I. }
    destruct H as [(N & _ & _)|(E & N & I)]; destruct M as [c IC S|x y z E'|p t E' NP IP].
    + exact (CAP c IC S).
    + apply N. rewrite E'. apply in_or_app. right. left. reflexivity.
    + apply N. rewrite E'. apply in_or_app. right. left. reflexivity.
    + exact (CAP c IC S).
    + specialize (NT _ I). assert (P : x = tt /\ tag = y ++ 44 :: z \/ exists w, x = tt ++ 44 :: w).
      { rewrite E in E'. clear - E' NT. revert x E'. induction tt as [|c tt IH]; intros [|d x] E'; cbn [app] in E'.
        - injection E' as ->. left. auto.
        - injection E' as <- E'. right. exists x. reflexivity.
        - injection E' as -> E'. destruct NT. left. reflexivity.
        - injection E' as <- E'. destruct (IH (fun K => NT (or_intror K)) x E') as [[-> ->]|(w & ->)]; [left; auto|right; exists w; reflexivity]. }
      destruct P as [[-> ->]|(w & ->)].
      * apply N. apply in_or_app. right. left. reflexivity.
      * apply N. rewrite E in E'. rewrite <- app_assoc in E'. apply app_inv_head in E'. injection E' as ->. apply in_or_app. right. left. reflexivity.
    + specialize (NT _ I). assert (p = tt); [|subst; contradiction]. rewrite E in E'. clear - E' NT NP. revert p E' NP. induction tt as [|c tt IH]; intros [|d p] E' NP; cbn [app] in E'.
      * reflexivity.
      * injection E' as <- _. destruct NP. left. reflexivity.
      * injection E' as -> _. destruct NT. left. reflexivity.
      * injection E' as <- E'. f_equal. apply IH; [intros K; apply NT; right; exact K|exact E'|intros K; apply NP; right; exact K].
Qed.
Lemma mistake_dec s : mistake s \/ ~ mistake s.
Proof.
  assert (AS : {forall c, In c s -> ~ small c} + {exists c, In c s /\ small c}).
  { induction s as [|c s IH]; [left; intros c []|]. destruct IH as [IH|IH]; [|right; destruct IH as (d & I & S); exists d; split; [right; exact I|exact S]].
    unfold small in *. destruct (Z_le_dec 97 c), (Z_le_dec c 122); [right; exists c; split; [left; reflexivity|lia]|left|left|left]; intros d [<-|I]; try (exact (IH d I)); lia. }
  destruct AS as [AS|(c & I & S)]; [|left; exact (mk_small s c I S)].
  destruct (in_dec Z.eq_dec 44 s) as [I|I].
  - destruct (comma_split s I) as (p & t & -> & NP). destruct (in_dec Z.eq_dec 44 t) as [J|J].
    + apply in_split in J. destruct J as (x & y & ->). left. exact (mk_commas _ p x y eq_refl).
    + destruct (in_dec (list_eq_dec Z.eq_dec) p (map lit ["B"; "F"; "S"; "Z"]%string)) as [K|K]; [|left; exact (mk_prefix _ p t eq_refl NP K)].
      right. intros [c IC S|x y z E|q u E NQ IQ]; [exact (AS c IC S)| |].
      * assert (C := f_equal (count_occ Z.eq_dec) E). assert (D := f_equal (fun f => f 44) C). cbn beta in D.
        rewrite !count_occ_app in D. cbn [count_occ] in D. rewrite count_occ_app in D. cbn [count_occ] in D.
        destruct (Z.eq_dec 44 44) as [_|X]; [|contradiction]. apply (count_occ_not_In Z.eq_dec) in NP, J. lia.
      * apply IQ. enough (q = p) by (subst; exact K). clear - E NP NQ. revert q E NQ.
        induction p as [|c p IH]; intros [|d q] E NQ; cbn [app] in E; [reflexivity| | |].
        -- injection E as <- _. destruct NQ. left. reflexivity.
        -- injection E as -> _. destruct NP. left. reflexivity.
        -- injection E as <- E. f_equal. apply IH; [intros X; apply NP; right; exact X|exact E|intros X; apply NQ; right; exact X].
  - right. intros [c IC S|x y z E|q u E NQ IQ]; [exact (AS c IC S)| |]; apply I; rewrite E; apply in_or_app; right; left; reflexivity.
Qed.
Lemma label_ascii line s : ascii line -> label_of line s -> ascii s.
Proof.
  intros A (_ & l & (pre & post & E & _) & _ & ->). unfold ascii in *. rewrite Forall_forall in *. intros c I.
  apply filter_In in I. destruct I as [I _]. apply A.
  assert (J : In c (columns line 9 19)) by (rewrite E; apply in_or_app; right; apply in_or_app; left; exact I).
  unfold columns in J. rewrite <- (firstn_skipn (Z.to_nat (9 - 1)) line). apply in_or_app. right.
  rewrite <- (firstn_skipn (Z.to_nat (19 - 9 + 1)) (skipn _ line)). apply in_or_app. left. exact J.
Qed.
Lemma fault_mistake upper line : raises upper -> ascii line -> (label_fault upper line <-> label_mistake line).
Proof.
  intros R A. split; intros (N & s & L & H); (split; [exact N|]); exists s; (split; [exact L|]);
    destruct (formed_ok upper s R (label_ascii _ _ A L)) as (F1 & F2); (destruct H as [H|H]; [|right; exact H]).
  - destruct (mistake_dec s) as [M|M]; [left; exact M|]. destruct (F1 M) as (tt & tag & W). destruct (H _ _ W).
  - left. intros tt tag W. exact (F2 _ _ W H).
Qed.
Lemma defines_label upper line tag kind tt : raises upper -> ascii line ->
  (line_defines upper line tag kind tt <-> label_defines line tag kind tt).
Proof.
  intros R A. split.
  - intros (N & s & op & L & W & O & K). split; [exact N|]. exists s, op. split; [exact L|].
    destruct (formed_ok upper s R (label_ascii _ _ A L)) as (_ & F2). split; [exact (F2 _ _ W)|]. split; [exact O|]. split; [|exact K].
    destruct W as (_ & [(X & Y & Z)|(X & _)]); [left; auto|right; exact X].
  - intros (N & s & op & L & M & O & T & K). split; [exact N|]. exists s, op. split; [exact L|]. split; [|split; [exact O|exact K]].
    assert (B := label_ascii _ _ A L). split.
    { apply (C158_case_pf _ _ R B). intros c I S. apply M. exact (mk_small s c I S). }
    destruct T as [(X & -> & ->)|E]; [left; auto|]. right. split; [exact E|].
    assert (NT : ~ In 44 tag) by (intros I; apply in_split in I; destruct I as (x & y & ->); apply M; exact (mk_commas _ _ _ _ E)).
    split; [exact NT|].
    destruct (in_dec (list_eq_dec Z.eq_dec) tt (map lit ["B"; "F"; "S"; "Z"]%string)) as [I|I]; [exact I|].
    assert (MC : forall x y z, s <> x ++ 44 :: y ++ 44 :: z) by (intros x y z E'; exact (M (mk_commas _ _ _ _ E'))).
    destruct M. apply (mk_prefix _ tt tag E); [|exact I].
    intros J. apply in_split in J. destruct J as (x & y & ->). rewrite <- app_assoc in E. exact (MC _ _ _ E).
Qed.
Lemma latest_label upper lines tag ss kind x tt : raises upper -> all_ascii lines ->
  (latest upper lines tag ss kind x tt <-> last_label lines tag ss kind x tt).
Proof.
  intros R A. split; intros (pre & post & E & D & S & H); exists pre, post; (split; [exact E|]).
  - assert (IX : In x lines) by (rewrite E; apply in_or_app; right; left; reflexivity).
    split; [apply (defines_label upper); [exact R|exact (A _ IX)|exact D]|]. split; [exact S|].
    intros a y b t E' D'. apply (H a y b t E'). apply (defines_label upper); [exact R| |exact D'].
    apply A. rewrite E, E'. apply in_or_app. right. right. apply in_or_app. right. left. reflexivity.
  - assert (IX : In x lines) by (rewrite E; apply in_or_app; right; left; reflexivity).
    split; [apply (defines_label upper); [exact R|exact (A _ IX)|exact D]|]. split; [exact S|].
    intros a y b t E' D'. apply (H a y b t E'). apply (defines_label upper); [exact R| |exact D'].
    apply A. rewrite E, E'. apply in_or_app. right. right. apply in_or_app. right. left. reflexivity.
Qed.
Lemma count_same {A} (P Q : A -> Prop) l n : (forall x, In x l -> (P x <-> Q x)) -> count_of P l n -> count_of Q l n.
Proof.
  intros H C. induction C as [|x l n HP C IH|x l n HP C IH]; [constructor| |].
  - apply cn_yes; [apply H; [left; reflexivity|exact HP]|]. apply IH. intros y I. apply H. right. exact I.
  - apply cn_no; [intros X; apply HP, H; [left; reflexivity|exact X]|]. apply IH. intros y I. apply H. right. exact I.
Qed.
Lemma C158_table_pf : forall fs f seg out, f <> [] -> segment_of f seg -> ~ is_kind seg -> source fs f out -> all_ascii out ->
  exists k, forall upper fuel, (k <= fuel)%nat -> raises upper -> exists tab n,
    build_symbol_table upper fuel fs f [] = Ok (tab, n) /\
    count_of (fun x => label_mistake (text_of x)) out n /\
    (forall tag ss kind x tt, last_label out tag ss kind x tt -> exists e, get4 tab tag seg ss kind = Some e /\ made_from x tt e) /\
    (forall tag sg ss kind e, get4 tab tag sg ss kind = Some e -> sg = seg /\ exists x tt, last_label out tag ss kind x tt /\ made_from x tt e).
Proof.
  intros fs f seg out N SG NK S A. destruct (C150_table_pf fs f seg out N SG NK S) as (k & H). exists k. intros upper fuel L R.
  destruct (H upper fuel L) as (tab & n & E & C & D1 & D2). exists tab, n. split; [exact E|]. split; [|split].
  - apply (count_same (fun x => label_fault upper (text_of x))); [|exact C]. intros x I. apply fault_mistake; [exact R|exact (A x I)].
  - intros tag ss kind x tt LL. apply (D1 tag ss kind x tt). apply latest_label; assumption.
  - intros tag sg ss kind e G. destruct (D2 _ _ _ _ _ G) as (E1 & x & tt & LL & M). split; [exact E1|]. exists x, tt. split; [|exact M].
    apply (latest_label upper); assumption.
Qed.
(*@ Example C158_table_ex : let up := map (fun c => if (97 <=? c) && (c <=? 122) then c - 32 else c) in
  source sample (lit "a.arg") sample_lines /\ all_ascii sample_lines /\
  (exists tab, build_symbol_table up 3 sample (lit "a.arg") [] = Ok (tab, 1)) /\ label_mistake (lit "        x" ++ [10]).
Proof.
  intros up. split; [exact sample_ok|]. split.
  { intros x I. unfold ascii. repeat (destruct I as [<-|I]; [repeat (constructor; [split; [intros E; vm_compute in E; discriminate E|vm_compute; reflexivity]|]); constructor|]). destruct I. }
  split; [eexists; vm_compute; reflexivity|].
  split; [discriminate|]. exists (lit "x"). split; [split; [intros (c & E & I); injection E as <-; cbn in I; intuition discriminate|]|].
  - exists (lit "x"). split; [apply strip_ex; reflexivity|split; [discriminate|reflexivity]].
  - left. apply (mk_small _ 120); [left; reflexivity|]. unfold small. lia.
Qed. @*)
Lemma C158_parse_pf : forall fs prog words on f seg out n bad, understood (options Parse) words on [f] ->
  ~ In (lit "verbose") on -> ~ In (lit "debug") on -> f <> [] -> segment_of f seg -> ~ is_kind seg -> source fs f out -> all_ascii out ->
  count_of (fun x => exists ls, mnemonic_fault x ls) out bad -> count_of (fun x => label_mistake (text_of x)) out n ->
  exists k, forall v, (k <= e_fuel v)%nat -> raises (e_upper v) ->
    exists said, command v fs Parse prog words =
      (said ++ [OutL (10 :: lit "Source lines: " ++ str_of_Z (zlen out)); OutL (error_count (n + bad))], Exit 0, fs).
Proof.
  intros fs prog words on f seg out n bad U NV ND N SG NK S A CB CN.
  destruct (C151_parse_pf fs prog words on f seg out n bad U NV ND N SG NK S CB) as (k & H). exists k. intros v L R. apply (H v L).
  apply (count_same (fun x => label_mistake (text_of x))); [|exact CN]. intros x I. symmetry. apply fault_mistake; [exact R|exact (A x I)].
Qed.
(*@ Example C158_parse_ex : let v := mkenv (fun _ _ => lit " 50.00") (fun _ _ _ => []) (fun s => map (fun c => if (97 <=? c) && (c <=? 122) then c - 32 else c) s) (fun s => s) (fun _ => []) 3 (fun _ => []) in
  raises (e_upper v) /\ source sample (lit "a.arg") sample_lines /\
  exists said, fst (command v sample Parse (lit "x.py") [lit "a.arg"]) =
    (said ++ [OutL (10 :: lit "Source lines: 6"); OutL (lit "2 errors encountered.")], Exit 0).
Proof.
  intros v. split; [intros s _; reflexivity|]. split; [exact sample_ok|].
  vm_compute. match goal with |- exists s, (?l, _) = _ => exists (firstn (List.length l - 2) l) end. reflexivity.
Qed. @*)
