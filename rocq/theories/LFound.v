From Coq Require Import ZArith List Bool Lia Sorted.
From Verif Require Import Py LPy MCards SCards LCards LDeck MSymbols SSymbols LSymBuild LSymQuery MTools STools LTools LToolSym MDiag SDiag LDiag MDump SDump LDump MVerbose SVerbose LVerbose STranscript LTranscript SFound.
Import ListNotations.
Open Scope Z_scope.
#[local] Arguments Z.add : simpl never.
#[local] Arguments Z.sub : simpl never.
#[local] Arguments Z.mul : simpl never.

(** *** collecting *)
Lemma filter_snoc {A} (p : A -> bool) l x : filter p (l ++ [x]) = filter p l ++ (if p x then [x] else []).
Proof. rewrite filter_app. cbn [filter]. destruct (p x); reflexivity. Qed.
Lemma firsts_In x l : In x (firsts l) <-> In x l.
Proof.
  induction l as [|y l IH]; [tauto|]. cbn [firsts In]. rewrite filter_In, IH. split; [tauto|].
  intros [->|I]; [auto|]. destruct (eq_dec_b x y) as [->|NE]; [auto|]. right. split; [exact I|]. rewrite eqb_neq by exact NE. reflexivity.
Qed.
Lemma firsts_snoc l x : firsts (l ++ [x]) = if inb x l then firsts l else firsts l ++ [x].
Proof.
  induction l as [|y l IH]; [reflexivity|]. cbn [app firsts]. rewrite IH. unfold inb. cbn [existsb]. fold (inb x l).
  destruct (eq_dec_b x y) as [->|NE].
  - rewrite eqb_refl. cbn [orb]. destruct (inb y l); [reflexivity|]. rewrite filter_snoc, eqb_refl. cbn [negb]. rewrite app_nil_r. reflexivity.
  - rewrite (eqb_neq y x) by congruence. cbn [orb]. destruct (inb x l); [reflexivity|]. rewrite filter_snoc, (eqb_neq x y) by exact NE. reflexivity.
Qed.
Lemma under_snoc {A} k (l : list (str * A)) k' a : under k (l ++ [(k', a)]) = under k l ++ (if eqb k' k then [a] else []).
Proof. unfold under. rewrite filter_snoc, map_app. cbn [fst]. destruct (eqb k' k); reflexivity. Qed.
Lemma dget_pair {V} (d : dict str V) k v : dget d k = Some v -> In (k, v) d.
Proof.
  induction d as [|[k' v'] d IH]; cbn [dget]; [discriminate|]. destruct (eqb k' k) eqn:E.
  - apply eqb_ok in E. intros [= ->]. subst. left. reflexivity.
  - intros H. right. auto.
Qed.
Lemma dset_pair {V} (d : dict str V) k v k' v' : NoDup (dkeys d) -> In (k', v') (dset d k v) -> (k' = k /\ v' = v) \/ (k' <> k /\ In (k', v') d).
Proof.
  induction d as [|[k1 v1] d IH]; cbn [dset dkeys map]; intros N I.
  - destruct I as [[= <- <-]|[]]. auto.
  - inversion N as [|? ? NI N']; subst. destruct (eqb k1 k) eqn:E.
    + apply eqb_ok in E. subst k1. destruct I as [[= <- <-]|I]; [auto|]. right. split; [|right; exact I].
      intros ->. apply NI. apply (in_map fst) in I. exact I.
    + destruct I as [[= <- <-]|I].
      * right. split; [intros ->; rewrite eqb_refl in E; discriminate|left; reflexivity].
      * destruct (IH N' I) as [X|[X Y]]; [auto|]. right. split; [exact X|right; exact Y].
Qed.
Lemma firsts_nodup l : NoDup (firsts l).
Proof.
  induction l as [|x l IH]; cbn [firsts]; constructor; [|apply NoDup_filter, IH]. rewrite filter_In, eqb_refl. intros [_ H]. discriminate.
Qed.
Lemma grouped_snoc {A V} (P : list A -> V -> Prop) l (d : dict str V) k a v : grouped P l d -> P (under k l ++ [a]) v ->
  grouped P (l ++ [(k, a)]) (dset d k v).
Proof.
  intros [K G] H. assert (N : NoDup (dkeys d)) by (unfold dkeys; rewrite K; apply firsts_nodup). split.
  - fold (dkeys (dset d k v)). rewrite map_app. cbn [map fst]. rewrite firsts_snoc. rewrite dkeys_dset. unfold dkeys. rewrite K.
    assert (X : dmem d k = inb k (map fst l)).
    { apply eq_true_iff_eq. rewrite dget_In. unfold dkeys. rewrite K, firsts_In, inb_In. tauto. }
    rewrite X. reflexivity.
  - intros k' v' I. rewrite under_snoc. apply dset_pair in I; [|exact N]. destruct I as [[-> ->]|[NE I]].
    + rewrite eqb_refl. exact H.
    + rewrite eqb_neq by congruence. rewrite app_nil_r. exact (G _ _ I).
Qed.
Definition getd {V} (d : dict str (list V)) (k : str) : list V := match dget d k with Some v => v | None => [] end.
Lemma grouped_get {A V} (P : list A -> V -> Prop) (l : list (str * (str * A))) d k : grouped (grouped P) l d -> grouped P (under k l) (getd d k).
Proof.
  intros [K G]. unfold getd. destruct (dget d k) as [v|] eqn:E; [exact (G _ _ (dget_pair _ _ _ E))|].
  assert (X : under k l = []).
  { assert (NI : ~ In k (map fst l)).
    { rewrite <- firsts_In, <- K. change (map fst d) with (dkeys d). rewrite <- dget_In. unfold dmem. rewrite E. discriminate. }
    clear - NI. unfold under. induction l as [|[k' a] l IH]; [reflexivity|]. cbn [filter fst map] in *.
    rewrite eqb_neq by (intros ->; apply NI; left; reflexivity). apply IH. intros I. apply NI. right. exact I. }
  rewrite X. split; [reflexivity|]. intros k' v' [].
Qed.
Lemma grouped_nil {A V} (P : list A -> V -> Prop) : grouped P [] [].
Proof. split; [reflexivity|]. intros k v []. Qed.
Lemma answer_snoc l ds seg ss kind e : answer_from l ds ->
  answer_from (l ++ [(seg, (ss, (kind, e)))]) (dset ds seg (dset (getd ds seg) ss (dset (getd (getd ds seg) ss) kind e))).
Proof.
  intros H. assert (H1 := grouped_get _ _ _ seg H). assert (H2 := grouped_get _ _ _ ss H1).
  apply grouped_snoc; [exact H|]. apply grouped_snoc; [exact H1|]. apply grouped_snoc; [exact H2|]. eexists. reflexivity.
Qed.
(** *** the table *)
Lemma getd_eq {V} (d : dict str (list V)) k o : dget d k = o -> getd d k = match o with Some v => v | None => [] end.
Proof. intros <-. reflexivity. Qed.
Lemma insert_nested tab seg ss tag kind cmd e : plain_table tab -> is_kind kind ->
  insert_def tab seg ss tag kind cmd e =
    Ok (dset tab tag (dset (getd tab tag) seg (dset (getd (getd tab tag) seg) ss (dset (getd (getd (getd tab tag) seg) ss) kind e))), 0).
Proof.
  intros P K. unfold insert_def.
  destruct (dget tab tag) as [sg|] eqn:E1.
  - assert (X1 : getd tab tag = sg) by exact (getd_eq _ _ _ E1). rewrite X1. destruct (dget sg seg) as [u|] eqn:E2.
    + assert (X2 : getd sg seg = u) by exact (getd_eq _ _ _ E2). rewrite X2. destruct (dget u ss) as [ks|] eqn:E3.
      * assert (X3 : getd u ss = ks) by exact (getd_eq _ _ _ E3). rewrite X3, (P tag sg kind E1 K). reflexivity.
      * assert (X3 : getd u ss = []) by exact (getd_eq _ _ _ E3). rewrite X3. reflexivity.
    + assert (X2 : getd sg seg = []) by exact (getd_eq _ _ _ E2). rewrite X2. reflexivity.
  - assert (X1 : getd tab tag = []) by exact (getd_eq _ _ _ E1). rewrite X1. reflexivity.
Qed.
Definition holds (sym : str) (l : list (str * (str * (str * tabent)))) (tab : symtab) : Prop :=
  answer_from l (getd tab sym) /\ (dget tab sym = None -> l = []).
Lemma current_step u c : current_subseg u [c] (sub_step u c).
Proof. apply current_ok. reflexivity. Qed.
Lemma cards_made upper sym seg cs : ~ is_kind seg -> Forall proper_card cs -> forall s0 tab errs l0, plain_table tab -> holds sym l0 tab ->
  exists l st, build_cards upper seg (s0, tab, errs) cs = Ok st /\ plain_table (snd (fst st)) /\
    made upper sym s0 cs l /\ holds sym (l0 ++ map (fun d => (seg, d)) l) (snd (fst st)).
Proof.
  intros NK F. induction F as [|c cs PC F IH]; intros s0 tab errs l0 P H.
  - exists [], (s0, tab, errs). rewrite app_nil_r. repeat (split; [solve [auto|constructor]|]). exact H.
  - cbn [build_cards]. destruct (build_card_cases upper seg c PC s0 tab errs)
      as [(-> & _ & ND)|[(-> & _ & ND)|(tag & kind & tt & cmd & e & D & _ & EF & IK & _ & _ & ->)]]; cbn [bind].
    1,2: match goal with |- context [build_cards _ _ (_, _, ?n) _] => destruct (IH (sub_step s0 c) tab n l0 P H) as (l & st & E & P' & M & H') end; exists l, st; split; [exact E|]; split; [exact P'|];
      (split; [|exact H']); apply (md_skip _ _ _ _ _ (sub_step s0 c)); [apply current_step|intros k t; apply ND|exact M].
    pose proof (insert_plain tab seg (sub_step s0 c) tag kind cmd e P NK IK) as (tab1 & EI & P1 & _).
    rewrite EI. cbn [bind fst snd]. rewrite (insert_nested _ _ _ _ _ _ _ P IK) in EI. assert (ET : tab1 = dset tab tag (dset (getd tab tag) seg (dset (getd (getd tab tag) seg) (sub_step s0 c) (dset (getd (getd (getd tab tag) seg) (sub_step s0 c)) kind e)))) by congruence.
    destruct (eq_dec_b tag sym) as [->|NE].
    + destruct (IH (sub_step s0 c) tab1 (errs + 0) (l0 ++ [(seg, (sub_step s0 c, (kind, e)))]) P1) as (l & st & E & P' & M & H').
      { split.
        - unfold getd at 1. rewrite ET, dget_dset_eq. apply answer_snoc. exact (proj1 H).
        - rewrite ET, dget_dset_eq. discriminate. }
      exists ((sub_step s0 c, (kind, e)) :: l), st. split; [exact E|]. split; [exact P'|]. split; [eapply md_def; eauto using current_step|].
      rewrite <- app_assoc in H'. exact H'.
    + destruct (IH (sub_step s0 c) tab1 (errs + 0) l0 P1) as (l & st & E & P' & M & H').
      { unfold holds, getd. rewrite ET. rewrite !dget_dset_ne by congruence. exact H. }
      exists l, st. split; [exact E|]. split; [exact P'|]. split; [|exact H'].
      apply (md_skip _ _ _ _ _ (sub_step s0 c)); [apply current_step| |exact M]. intros k t' D'.
      destruct (defines_fun _ _ _ _ _ _ _ _ D D') as (X & _). congruence.
Qed.
Lemma files_made upper fuel fs sym files : forall css tab ns l0, Forall2 (source_cards fuel fs) files css -> plain_names files ->
  plain_table tab -> holds sym l0 tab ->
  exists l tab' ns', all_made upper sym files css l /\
    fold_r (fun s f => do r <- build_symbol_table upper fuel fs f (fst s); Ok (fst r, snd s ++ [snd r])) files (tab, ns) = Ok (tab', ns') /\
    holds sym (l0 ++ l) tab'.
Proof.
  induction files as [|f files IH]; intros css tab ns l0 F PN P H; inversion F as [|? cs ? css' SC F']; subst.
  - exists [], tab, ns. rewrite app_nil_r. split; [constructor|]. split; [reflexivity|exact H].
  - destruct (seg_exists f) as (seg & SG). assert (NK : ~ is_kind seg) by (apply (PN f seg); [left; reflexivity|exact SG]).
    destruct (cards_made upper sym seg cs NK (source_proper _ _ _ _ SC) (lit "1") tab 0 l0 P H) as (l & st & E & P' & M & H').
    cbn [fold_r fst snd]. rewrite (bst_eq _ _ _ _ _ _ _ SG SC), E. cbn [bind fst snd].
    destruct (IH css' (snd (fst st)) (ns ++ [snd st]) _ F' ltac:(intros g sg G; apply PN; right; exact G) P' H') as (r & tab' & ns' & A & EF & HF).
    exists (map (fun d => (seg, d)) l ++ r), tab', ns'. split; [constructor; assumption|]. split; [exact EF|].
    rewrite app_assoc. exact HF.
Qed.

(** *** the texts *)
Lemma join_items {V} (f : str * V -> str * str) ks :
  join (lit ", ") (map (fun x => fst (f x) ++ lit ": " ++ snd (f x)) ks) = items_text (map f ks).
Proof.
  induction ks as [|x ks IH]; [reflexivity|]. cbn [map]. destruct ks as [|y ks].
  - cbn [map join items_text]. destruct (f x). reflexivity.
  - remember (y :: ks) as r. cbn [items_text]. destruct (f x) as [k v] eqn:E. cbn [fst snd].
    destruct r as [|z r]; [discriminate|]. cbn [map join] in *. rewrite IH. cbn [items_text].
    rewrite <- !app_assoc. reflexivity.
Qed.
Lemma dict_ok {V} rep (value : V -> str) (R : V -> str -> Prop) (d : list (str * V)) : (forall v, R v (value v)) ->
  dict_shown rep R d (lit "{" ++ join (lit ", ") (map (fun x => rep (fst x) ++ lit ": " ++ value (snd x)) d) ++ lit "}").
Proof.
  intros H. exists (map (fun x => (rep (fst x), value (snd x))) d). split.
  - induction d; constructor; [split; [reflexivity|apply H]|assumption].
  - unfold dict_text. rewrite <- (join_items (fun x => (rep (fst x), value (snd x)))). reflexivity.
Qed.
Lemma found_ok rep card_rep (sg : segs) : answer_text rep card_rep sg (found_text rep card_rep (FDefs sg)).
Proof.
  cbn [found_text]. apply (dict_ok rep (fun v => lit "{" ++ join (lit ", ") (map (fun y => rep (fst y) ++ lit ": " ++ kinds_text rep card_rep (snd y)) v) ++ lit "}")).
  intros u. apply (dict_ok rep (kinds_text rep card_rep)). intros ks. apply kinds_shown.
Qed.
Lemma join_commas l : join (lit ", ") l = commas l.
Proof. induction l as [|x [|y l] IH]; [reflexivity..|]. cbn [join commas] in *. rewrite IH. reflexivity. Qed.

Lemma C141_definitions_pf : forall extract upper rep card_rep fuel fs v exact symbol files css, files <> [] ->
  Forall2 (source_cards fuel fs) files css -> plain_names files -> is_defined upper css symbol ->
  exists tables mss l ds t r,
    find_symbols_verbose extract upper rep card_rep fuel fs v false false false exact (symbol :: files) = (tables ++ [OutL t], Ok r) /\
    tables_said upper rep card_rep fuel fs v true files mss tables /\
    all_made upper symbol files css l /\ answer_from l ds /\ answer_text rep card_rep ds t.
Proof.
  intros extract upper rep card_rep fuel fs v exact symbol files css NE F PN DF.
  destruct (tables_all upper rep card_rep fuel fs v true files css F PN) as (tables & mss & tab & n & ET & EA & T).
  destruct (build_files upper fuel fs files css F PN) as (tab' & ns & E & P & D & C & K & G).
  assert (tab' = tab) by congruence. subst tab'.
  destruct (files_made upper fuel fs symbol files css [] [] [] F PN plain_nil) as (l & tab' & ns' & A & EM & H).
  { split; [apply grouped_nil|reflexivity]. }
  change (build_all upper fuel fs files = Ok (tab', ns')) in EM. assert (tab' = tab) by congruence. subst tab'. cbn [app] in H.
  apply K in DF. apply dget_In in DF. unfold dmem in DF. destruct (dget tab symbol) as [sg|] eqn:ES; [|discriminate].
  assert (SG : sg <> []) by (destruct D as [_ D]; exact (proj1 (D symbol sg ES))).
  exists tables, mss, l, sg, (found_text rep card_rep (FDefs sg)), (Some (FDefs sg)). split; [|split; [exact T|split; [exact A|split; [|apply found_ok]]]].
  - unfold find_symbols_verbose. cbn [andb orb]. destruct files as [|f files]; [contradiction|].
    rewrite ET, bind_ok. cbn [fst snd]. unfold find_symbol. cbn [negb andb]. rewrite ES. destruct sg; [contradiction|]. reflexivity.
  - destruct H as [H _]. rewrite (getd_eq _ _ _ ES) in H. exact H.
Qed.
(*@ Example C141_definitions_ex :
  let fs := fun f => if eqb f (lit "q.a") then Some (lit "        B          ASSIGN       1" ++ [10] ++ lit "                   SETLOC,7" ++ [10] ++ lit "        F,B        DEC          1")
                     else if eqb f (lit "p.a") then Some (lit "        B          DEC          1" ++ [10] ++ lit "        B          DEC          2") else None in
  fst (find_symbols_verbose (fun _ _ _ => []) (fun s => s) quoted a_card 2 fs false false false false true [lit "B"; lit "q.a"; lit "p.a"]) =
    [ErrL (lit "q.a: 0 errors encountered building symbol table."); ErrL (lit "p.a: 0 errors encountered building symbol table.");
     OutL (lit "{'q': {'1': {'complex': {'file': 'q.a', 'line': 1, 'lognum': None, 'tagtype': ' ', 'card': <card>}}, "
        ++ lit "'7': {'simple': {'file': 'q.a', 'line': 3, 'lognum': None, 'tagtype': 'F', 'card': <card>}}}, "
        ++ lit "'p': {'1': {'simple': {'file': 'p.a', 'line': 2, 'lognum': None, 'tagtype': ' ', 'card': <card>}}}}")].
Proof. vm_compute. reflexivity. Qed. @*)

(** the text is determined *)
Lemma made_unique upper sym u cs l : made upper sym u cs l -> forall l', made upper sym u cs l' -> l = l'.
Proof.
  induction 1 as [u|u c cs u' kind tt e l CU D EF M IH|u c cs u' l CU N M IH]; intros l' M'; inversion M' as [|? ? ? v' kind' tt' e' r CU' D' EF' R|? ? ? v' r CU' N' R]; subst.
  - reflexivity.
  - apply current_ok in CU, CU'. subst. destruct (defines_fun _ _ _ _ _ _ _ _ D D') as (_ & <- & <-).
    rewrite (entry_unique _ _ _ _ EF EF'), (IH _ R). reflexivity.
  - destruct (N' _ _ D).
  - destruct (N _ _ D').
  - apply current_ok in CU, CU'. subst. apply IH, R.
Qed.
Lemma all_unique upper sym files css l : all_made upper sym files css l -> forall l', all_made upper sym files css l' -> l = l'.
Proof.
  induction 1 as [|f cs files css seg l r S M A IH]; intros l' H; inversion H as [|? ? ? ? seg' l1 r1 S' M' A']; subst; [reflexivity|].
  rewrite (seg_unique _ _ _ S S'), (made_unique _ _ _ _ _ M _ M'), (IH _ A'). reflexivity.
Qed.
Lemma grouped_unique {A V} (P : list A -> V -> Prop) l d d' : (forall es v v', P es v -> P es v' -> v = v') ->
  grouped P l d -> grouped P l d' -> d = d'.
Proof.
  intros U [K G] [K' G']. rewrite <- K' in K. clear K'.
  assert (X : forall k v v', In (k, v) d -> In (k, v') d' -> v = v') by (intros k v v' I I'; exact (U _ _ _ (G _ _ I) (G' _ _ I'))).
  clear G G' U. revert d' K X. induction d as [|[k v] d IH]; intros [|[k' v'] d'] K X; try discriminate; [reflexivity|].
  cbn [map fst] in K. assert (k' = k) by congruence. subst k'. rewrite (X k v v') by (left; reflexivity). f_equal. apply IH; [congruence|].
  intros k2 v2 v3 I I'. apply (X k2); right; assumption.
Qed.
Lemma answer_unique l ds ds' : answer_from l ds -> answer_from l ds' -> ds = ds'.
Proof.
  apply grouped_unique. intros x1 v1 w1. apply grouped_unique. intros x2 v2 w2. apply grouped_unique. intros x3 e e' (b & ->) (b' & E).
  apply app_inj_tail in E. apply E.
Qed.
Lemma shown_unique {V} rep (R : V -> str -> Prop) d t t' : (forall v a b, R v a -> R v b -> a = b) ->
  dict_shown rep R d t -> dict_shown rep R d t' -> t = t'.
Proof.
  intros U (i & F & ->) (i' & F' & ->). f_equal. revert i' F'. induction F as [|x [k y] d i [E1 E2] F IH]; intros i' F'; inversion F' as [|? [k' y'] ? ? [E1' E2'] F2]; subst; [reflexivity|].
  cbn [fst snd] in *. subst. rewrite (U _ _ _ E2 E2'), (IH _ F2). reflexivity.
Qed.
Lemma none_unique rep o a b : none_or rep o a -> none_or rep o b -> a = b.
Proof. destruct o; cbn [none_or]; congruence. Qed.
Lemma C141_determined_pf : forall upper rep card_rep symbol files css l ds t l' ds' t',
  all_made upper symbol files css l -> answer_from l ds -> answer_text rep card_rep ds t ->
  all_made upper symbol files css l' -> answer_from l' ds' -> answer_text rep card_rep ds' t' -> l = l' /\ ds = ds' /\ t = t'.
Proof.
  intros upper rep card_rep symbol files css l ds t l' ds' t' A1 B1 T1 A2 B2 T2.
  assert (l' = l) by (symmetry; exact (all_unique _ _ _ _ _ A1 _ A2)). subst l'. assert (ds' = ds) by exact (answer_unique _ _ _ B2 B1). subst ds'.
  split; [reflexivity|]. split; [reflexivity|]. revert T1 T2. apply shown_unique. intros u a b. apply shown_unique.
  intros ks a' b' (i & F & ->) (i' & F' & ->). f_equal. revert i' F'.
  induction F as [|x [k y] d i E F IH]; intros i' F'; inversion F' as [|? [k' y'] ? ? E' F2]; subst; [reflexivity|].
  rewrite (IH _ F2). f_equal. destruct E as [E (f & lg & g & N1 & N2 & -> & E2)], E' as [E' (f' & lg' & g' & N1' & N2' & -> & E2')].
  cbn [fst snd] in *. subst k k' y y'. rewrite (none_unique _ _ _ _ N1 N1'). f_equal. f_equal.
  assert (lg = lg') as -> by (destruct (e_lognum (snd x)); congruence). reflexivity.
Qed.
(*@ Example C141_determined_ex : forall e1 e2 e3 : tabent,
  answer_from [(lit "q", (lit "1", (lit "simple", e1))); (lit "p", (lit "1", (lit "complex", e2))); (lit "q", (lit "1", (lit "simple", e3)))]
    [(lit "q", [(lit "1", [(lit "simple", e3)])]); (lit "p", [(lit "1", [(lit "complex", e2)])])].
Proof.
  intros e1 e2 e3. split; [reflexivity|]. intros k v [[= <- <-]|[[= <- <-]|[]]]; (split; [reflexivity|]); intros k v [[= <- <-]|[]];
    (split; [reflexivity|]); intros k v [[= <- <-]|[]]; [exists [e1]|exists []]; reflexivity.
Qed. @*)

(** *** the lists of names *)
Lemma list_ok rep l : list_text rep l = names_text rep l.
Proof. unfold list_text, names_text. rewrite join_commas. reflexivity. Qed.
Lemma C141_names_pf : forall extract upper rep card_rep fuel fs v begin end_ symbol files css, files <> [] ->
  Forall2 (source_cards fuel fs) files css -> plain_names files -> begin = negb end_ ->
  exists tables mss names r,
    find_symbols_verbose extract upper rep card_rep fuel fs v begin end_ false false (symbol :: files) =
      (tables ++ (if zlen names =? 0 then [] else [OutL (names_text rep names)]), Ok r) /\
    tables_said upper rep card_rep fuel fs v true files mss tables /\
    StronglySorted str_lt names /\
    forall s, In s names <-> is_defined upper css s /\
      ((begin = true /\ exists r, s = symbol ++ r) \/ (end_ = true /\ exists r, s = r ++ symbol)).
Proof.
  intros extract upper rep card_rep fuel fs v begin end_ symbol files css NE F PN BE.
  destruct (tables_all upper rep card_rep fuel fs v true files css F PN) as (tables & mss & tab & n & ET & EA & T).
  destruct (build_files upper fuel fs files css F PN) as (tab' & ns & E & P & D & C & K & G).
  assert (tab' = tab) by congruence. subst tab'.
  assert (OR : begin || end_ = true) by (rewrite BE; destruct end_; reflexivity). assert (AN : begin && end_ = false) by (rewrite BE; destruct end_; reflexivity).
  destruct (C83_begin_end_pf extract tab symbol None begin end_ false (proj1 D) OR) as (l & EL & _ & SL & IL).
  exists tables, mss, l, (match l with [] => None | _ => Some (FList l) end). split; [|split; [exact T|split; [exact (SL AN)|intros s; rewrite IL, K; tauto]]].
  unfold find_symbols_verbose. rewrite AN, !andb_false_r. cbn [orb andb]. destruct files as [|f files]; [contradiction|].
  rewrite ET, bind_ok. cbn [fst snd]. rewrite EL. destruct l as [|x l]; [reflexivity|]. rewrite zlen_cons. pose proof (zlen_nonneg l).
  destruct (Z.eqb_spec (1 + zlen l) 0); [lia|]. cbn [found_text fst snd]. rewrite list_ok. reflexivity.
Qed.
(*@ Example C141_names_ex :
  let fs := fun f => if eqb f (lit "q.a") then Some (lit "        BC         DEC          1" ++ [10] ++ lit "        BA         ASSIGN       1" ++ [10] ++ lit "        AB         DEC          1") else None in
  fst (find_symbols_verbose (fun _ _ _ => []) (fun s => s) quoted a_card 2 fs false true false false false [lit "B"; lit "q.a"]) =
    [ErrL (lit "q.a: 0 errors encountered building symbol table."); OutL (lit "['BA', 'BC']")] /\
  fst (find_symbols_verbose (fun _ _ _ => []) (fun s => s) quoted a_card 2 fs false false true false false [lit "X"; lit "q.a"]) =
    [ErrL (lit "q.a: 0 errors encountered building symbol table.")].
Proof. vm_compute. auto. Qed. @*)
Lemma C141_fuzzy_pf : forall extract upper rep card_rep fuel fs v symbol files css, files <> [] ->
  Forall2 (source_cards fuel fs) files css -> plain_names files ->
  exists tables mss choices r, let names := map fst (extract symbol choices 10) in
    find_symbols_verbose extract upper rep card_rep fuel fs v false false true false (symbol :: files) =
      (tables ++ (if zlen names =? 0 then [] else [OutL (names_text rep names)]), Ok r) /\
    tables_said upper rep card_rep fuel fs v true files mss tables /\
    chosen_among upper files css choices.
Proof.
  intros extract upper rep card_rep fuel fs v symbol files css NE F PN.
  destruct (tables_all upper rep card_rep fuel fs v true files css F PN) as (tables & mss & tab & n & ET & EA & T).
  destruct (build_files upper fuel fs files css F PN) as (tab' & ns & E & P & D & C & K & G).
  assert (tab' = tab) by congruence. subst tab'.
  exists tables, mss, (get_absolute tab), (match map fst (extract symbol (get_absolute tab) 10) with [] => None | _ => Some (FList (map fst (extract symbol (get_absolute tab) 10))) end).
  cbv zeta. split; [|split; [exact T|exact (suggested_ok upper files css tab D G)]].
  unfold find_symbols_verbose. cbn [orb andb]. destruct files as [|f files]; [contradiction|].
    rewrite ET, bind_ok. cbn [fst snd]. unfold find_symbol. cbn [negb andb orb].
    destruct (map fst (extract symbol (get_absolute tab) 10)) as [|x l]; [reflexivity|]. rewrite zlen_cons. pose proof (zlen_nonneg l).
    destruct (Z.eqb_spec (1 + zlen l) 0); [lia|]. cbn [found_text fst snd]. rewrite list_ok. reflexivity.
Qed.
(*@ Example C141_fuzzy_ex :
  let fs := fun f => if eqb f (lit "q.a") then Some (lit "        BC         DEC          1" ++ [10] ++ lit "        BA         ASSIGN       1" ++ [10] ++ lit "        AB         DEC          1") else None in
  fst (find_symbols_verbose (fun _ cs _ => map (fun c => (c, 1)) cs) (fun s => s) quoted a_card 2 fs false false false true false [lit "B"; lit "q.a"]) =
    [ErrL (lit "q.a: 0 errors encountered building symbol table."); OutL (lit "['AB', 'BC']")].
Proof. vm_compute. reflexivity. Qed. @*)
