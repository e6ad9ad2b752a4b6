From Coq Require Import ZArith List Bool Lia.
From Verif Require Import Py LPy MCards SCards LCards LDeck MSymbols SSymbols LSymBuild MTools STools LTools LToolSym.
#[local] Arguments Z.add : simpl never.
#[local] Arguments Z.sub : simpl never.
#[local] Arguments Z.mul : simpl never.
#[local] Arguments Z.pow : simpl never.

(** *** C90 listing *)
Lemma split_nonempty ch s : split_on ch s <> [].
Proof.
  induction s as [|x s IH]; [discriminate|]. cbn [split_on]. destruct (x =? ch); [discriminate|].
  destruct (split_on ch s); discriminate.
Qed.
Lemma split_last ch p ext : ~ In ch ext -> split_on ch (p ++ ch :: ext) = split_on ch p ++ [ext].
Proof.
  intros N. induction p as [|x p IH].
  - cbn [app split_on]. rewrite Z.eqb_refl, (split_no ch ext N). reflexivity.
  - cbn [app split_on]. rewrite IH. destruct (x =? ch); [reflexivity|].
    destruct (split_on ch p) as [|h t] eqn:E; [exfalso; exact (split_nonempty ch p E)|]. reflexivity.
Qed.
Lemma join_split ch s : join [ch] (split_on ch s) = s.
Proof.
  induction s as [|x s IH]; [reflexivity|]. cbn [split_on].
  destruct (split_on ch s) as [|h t] eqn:E; [exfalso; exact (split_nonempty ch s E)|].
  destruct (Z.eqb_spec x ch) as [->|N].
  - change (join [ch] ([] :: h :: t)) with ([] ++ [ch] ++ join [ch] (h :: t)). rewrite IH. reflexivity.
  - rewrite <- IH. destruct t as [|h' t]; reflexivity.
Qed.
Lemma last_dot (f : str) : In 46 f -> exists p ext, f = p ++ 46 :: ext /\ ~ In 46 ext.
Proof.
  induction f as [|x f IH] using rev_ind; intros I; [destruct I|]. destruct (Z.eq_dec x 46) as [->|N].
  - exists f, []. split; [reflexivity|intros []].
  - apply in_app_or in I. destruct I as [I|[I|[]]]; [|contradiction]. destruct (IH I) as (p & ext & -> & NE).
    exists p, (ext ++ [x]). split; [rewrite <- app_assoc; reflexivity|]. intros J. apply in_app_or in J.
    destruct J as [J|[J|[]]]; auto.
Qed.
Lemma listfile_ok f name : list_name f name <-> listfile f = name.
Proof.
  unfold listfile. split.
  - intros [(p & ext & -> & N & ->)|[N ->]].
    + rewrite split_last by exact N. rewrite removelast_last. rewrite (join_split 46). reflexivity.
    + rewrite split_no by exact N. reflexivity.
  - intros <-. destruct (in_dec Z.eq_dec 46 f) as [I|N].
    + left. destruct (last_dot f I) as (p & ext & -> & N). exists p, ext. split; [reflexivity|]. split; [exact N|].
      rewrite split_last by exact N. rewrite removelast_last. rewrite (join_split 46). reflexivity.
    + right. split; [exact N|]. rewrite split_no by exact N. reflexivity.
Qed.
Lemma name_is_lst f name : list_name f name -> is_lst name.
Proof. intros [(p & ext & _ & _ & ->)|[_ ->]]; [exists p|exists []]; reflexivity. Qed.
Lemma remove_no ch s : ~ In ch s -> remove_char ch s = s.
Proof.
  induction s as [|x s IH]; intros N; [reflexivity|]. unfold remove_char in *. cbn [filter].
  destruct (Z.eqb_spec x ch); [subst; destruct N; left; reflexivity|]. cbn [negb]. rewrite IH; [reflexivity|].
  intros I. apply N. right. exact I.
Qed.
Definition listed (c : card) : Prop := (exists f, c_filename c = Some f) /\ ~ In 10 (c_line c).
Lemma source_listed fuel fs f cs : source_cards fuel fs f cs -> Forall listed cs.
Proof.
  intros (d & sec & c8 & H & ->). apply C68_log_section_pf in H. destruct H as [H _].
  destruct f as [|x r]; [discriminate H|].
  destruct (C64_deck_file_pf _ _ (x :: r) _ _ _ _ ltac:(discriminate) H) as (out & X & F & _).
  pose proof (proj1 (expand_noncomment fs) _ _ X) as NC. clear X H. revert F NC. generalize (d_cards d) as cs.
  intros cs F NC. induction F as [|[[g i] l] c out cs H _ IH]; [constructor|].
  inversion NC as [|? ? N1 N2]; subst. constructor; [|exact (IH N2)]. cbn in N1.
  destruct (card_data_ok _ _ _ _ _ _ _ N1 H) as (a & b & r0 & _ & _ & _ & E & EF & _). split; [eauto|].
  rewrite E. apply no_newline.
Qed.
Lemma listing_lines cs : Forall listed cs -> exists ls, mapr listing_line cs = Ok ls /\ Forall2 list_line cs (map (fun l => l ++ [10]) ls).
Proof.
  induction 1 as [|c cs [(f & EF) N] _ IH]; [exists []; split; [reflexivity|constructor]|].
  destruct IH as (ls & E & F). cbn [mapr]. unfold listing_line at 1. rewrite EF. cbn [bind]. rewrite E. cbn [bind].
  eexists. split; [reflexivity|]. cbn [map]. constructor; [|exact F]. exists f. split; [exact EF|].
  rewrite (remove_no 10 _ N). rewrite <- !app_assoc. reflexivity.
Qed.
Lemma listing_file_ok fuel fs f cs : source_cards fuel fs f cs ->
  exists ys, listing_file fuel fs f = Ok (fs_write fs (listfile f) (concat ys)) /\ Forall2 list_line cs ys.
Proof.
  intros H. destruct (listing_lines cs (source_listed _ _ _ _ H)) as (ls & E & F). eexists. split; [|exact F].
  unfold listing_file. rewrite (load_ok _ _ _ _ H). cbn [bind]. rewrite E. reflexivity.
Qed.
Lemma C90_one_partial_pf : forall fuel fs f cs, source_cards fuel fs f cs ->
  exists name fs' ys, list_name f name /\ listing fuel fs [f] = Ok fs' /\
    Forall2 list_line cs ys /\ fs' name = Some (concat ys) /\ forall g, g <> name -> fs' g = fs g.
Proof.
  intros fuel fs f cs H. destruct (listing_file_ok fuel fs f cs H) as (ys & E & F).
  exists (listfile f), (fs_write fs (listfile f) (concat ys)), ys. split; [apply listfile_ok; reflexivity|].
  unfold listing. cbn [fold_r]. rewrite E. cbn [bind]. split; [reflexivity|]. split; [exact F|]. split.
  - unfold fs_write. rewrite eqb_refl. reflexivity.
  - intros g N. unfold fs_write. rewrite eqb_neq by exact N. reflexivity.
Qed.
(*@ Example C90_one_partial_ex :
  let fs := fun f => if eqb f (lit "p.a") then Some (lit "        B          DEC          1" ++ [10] ++ lit "# no" ++ [10] ++ lit "$q.a" ++ [10])
                     else if eqb f (lit "q.a") then Some (lit "        A" ++ [10]) else None in
  exists fs', listing 3 fs [lit "p.a"] = Ok fs' /\ fs' (lit "p.lst") =
    Some (lit "p.a                                                              1              B          DEC          1" ++ [10] ++
          lit "q.a                                                              1              A" ++ [10]).
Proof. eexists. split; vm_compute; reflexivity. Qed. @*)

Lemma C90_distinct_partial_pf : forall p q ext name, ~ In 46 ext ->
  list_name (p ++ 46 :: ext) name -> list_name (q ++ 46 :: ext) name -> p = q.
Proof.
  intros p q ext name N H H'. apply listfile_ok in H, H'. unfold listfile in *.
  rewrite split_last, removelast_last in H, H' by exact N. rewrite (join_split 46) in H, H'.
  apply (app_inv_tail (lit ".lst")). congruence.
Qed.
(*@ Example C90_distinct_partial_ex : list_name (lit "p.x.a") (lit "p.x.lst") /\ list_name (lit "p.y.a") (lit "p.y.lst").
Proof. split; left; [exists (lit "p.x")|exists (lit "p.y")]; exists (lit "a"); (split; [reflexivity|]); (split; [|reflexivity]); intros [E|[]]; discriminate. Qed. @*)

(** two names whose listings collide: different extensions, and no extension at all; and a listing that
    overwrites the source it was made from *)
Lemma C90_distinct_refuted_pf :
  (exists f g name, f <> g /\ list_name f name /\ list_name g name) /\
  (forall f g name, ~ In 46 f -> ~ In 46 g -> list_name f name -> list_name g name) /\
  (exists f, list_name f f) /\
  exists fuel fs f g fs' cs cs', f <> g /\ source_cards fuel fs f cs /\ source_cards fuel fs g cs' /\
    listing fuel fs [f; g] = Ok fs' /\
    ~ exists name ys, list_name f name /\ Forall2 list_line cs ys /\ fs' name = Some (concat ys).
Proof.
  split; [|split; [|split]].
  - exists (lit "p.a"), (lit "p.b"), (lit "p.lst"). split; [discriminate|]. split; apply listfile_ok; reflexivity.
  - intros f g name NF NG H. apply listfile_ok in H. apply listfile_ok. rewrite <- H. unfold listfile.
    rewrite !split_no by assumption. reflexivity.
  - exists (lit "p.lst"). apply listfile_ok. reflexivity.
  - exists 1%nat, (fun f => if eqb f (lit "p.a") then Some (lit "        A" ++ [10]) else if eqb f (lit "p.b") then Some [] else None),
      (lit "p.a"), (lit "p.b").
    set (fs := fun f : str => _).
    assert (EA : exists cs, load 1 fs (lit "p.a") = Ok cs /\ cs <> []) by (eexists; split; [vm_compute; reflexivity|discriminate]).
    destruct EA as (cs & EA & NE).
    assert (EB : load 1 fs (lit "p.b") = Ok []) by (vm_compute; reflexivity).
    assert (EL : exists fs', listing 1 fs [lit "p.a"; lit "p.b"] = Ok fs' /\ fs' (lit "p.lst") = Some []) by (eexists; split; vm_compute; reflexivity).
    destruct EL as (fs' & EL & EV). exists fs', cs, []. split; [discriminate|]. split; [apply load_inv; exact EA|].
    split; [apply load_inv; exact EB|]. split; [exact EL|]. intros (name & ys & HN & F & EN).
    apply listfile_ok in HN. assert (N : name = lit "p.lst") by (rewrite <- HN; reflexivity). rewrite N, EV in EN.
    assert (C : concat ys = []) by congruence. destruct F as [|c y cs ys (g & _ & Y) _]; [contradiction|].
    cbn [concat] in C. apply app_eq_nil in C. destruct C as [C _]. rewrite C in Y.
    assert (L := f_equal (@length Z) Y). rewrite !app_length in L. cbn [length] in L. lia.
Qed.
(*@ Example C90_distinct_refuted_ex : listfile (lit "p.a") = lit "p.lst" /\ listfile (lit "p.b") = lit "p.lst" /\ listfile (lit "DECK") = lit ".lst".
Proof. vm_compute. auto. Qed. @*)

(** *** several files *)
Lemma readline_agree rec rec' k width fields fs fs' f : (forall g, ~ is_lst g -> rec' g = rec g /\ fs' g = fs g) ->
  forall lines i, (forall line inc, In line lines -> include_of line inc -> ~ is_lst inc) ->
  src_lines rec' k width fields fs' f i lines = src_lines rec k width fields fs f i lines.
Proof.
  intros A. induction lines as [|l r IH]; intros i H; [reflexivity|]. cbn [src_lines].
  assert (IH' := IH (i + 1) (fun line inc I => H line inc (or_intror I))).
  destruct (startswith l (lit "#")); [exact IH'|]. destruct (startswith l (lit "$")) eqn:D; [|rewrite IH'; reflexivity].
  destruct (py_index _ 0) as [inc|e] eqn:E; [|reflexivity]. cbn [bind].
  destruct (A inc (H l inc (or_introl eq_refl) (include_inv l inc D E))) as [-> ->]. rewrite IH'. reflexivity.
Qed.
Lemma read_agree k width fields fs fs' : no_lst_includes fs -> (forall g, ~ is_lst g -> fs' g = fs g) ->
  forall fuel f, ~ is_lst f -> read_source fuel k width fields fs' f = read_source fuel k width fields fs f.
Proof.
  intros NI A. induction fuel as [|fuel IH]; intros f N; [reflexivity|]. rewrite !read_source_S.
  rewrite (A f N). destruct (fs f) as [content|] eqn:E; [|reflexivity]. apply readline_agree.
  - intros g NG. split; [exact (IH g NG)|exact (A g NG)].
  - intros line inc I. exact (NI f content line inc E I).
Qed.
Lemma source_agree fs fs' fuel f cs : no_lst_includes fs -> (forall g, ~ is_lst g -> fs' g = fs g) -> ~ is_lst f ->
  source_cards fuel fs f cs -> source_cards fuel fs' f cs.
Proof.
  intros NI A N (d & sec & c8 & E & ->). exists d, sec, c8. split; [|reflexivity]. rewrite <- E. unfold argus_deck_new. f_equal.
  destruct f as [|x r]; [reflexivity|]. rewrite !deck_file by discriminate. rewrite (read_agree _ _ _ fs fs' NI A fuel _ N). reflexivity.
Qed.
Lemma C90_all_partial_pf : forall fuel fs files css ext, files <> [] -> ~ In 46 ext ->
  Forall (fun f => ~ is_lst f /\ exists p, f = p ++ 46 :: ext) files -> no_lst_includes fs ->
  Forall2 (source_cards fuel fs) files css ->
  exists fs', listing fuel fs files = Ok fs' /\
    (forall f cs, In (f, cs) (combine files css) ->
       exists name ys, list_name f name /\ Forall2 list_line cs ys /\ fs' name = Some (concat ys)) /\
    (forall g, (forall f, In f files -> ~ list_name f g) -> fs' g = fs g).
Proof.
  intros fuel fs files css ext NE NX FN NI F.
  cut (exists fs', fold_r (listing_file fuel) files fs = Ok fs' /\
    (forall f cs, In (f, cs) (combine files css) ->
       exists name ys, list_name f name /\ Forall2 list_line cs ys /\ fs' name = Some (concat ys)) /\
    (forall g, (forall f, In f files -> ~ list_name f g) -> fs' g = fs g)).
  { destruct files; [contradiction|]. exact (fun x => x). }
  clear NE. apply F2_pairs in F. destruct F as (ps & -> & -> & F). rewrite combine_map.
  induction ps as [|[f cs] ps IH] using rev_ind; [exists fs; split; [reflexivity|]; split; [intros f cs []|reflexivity]|].
  rewrite map_app in *. apply Forall_app in F. destruct F as [F1 F2]. assert (SC := Forall_inv F2). cbn [fst snd] in SC.
  apply Forall_app in FN. destruct FN as [N1 N2]. destruct (Forall_inv N2) as [NF (p & EP)]. cbn [fst] in NF, EP.
  destruct (IH N1 F1) as (fs1 & E & HI & HO).
  assert (A : forall g, ~ is_lst g -> fs1 g = fs g).
  { intros g NG. apply HO. intros f' _ HN. exact (NG (name_is_lst _ _ HN)). }
  destruct (listing_file_ok fuel fs1 f cs (source_agree fs fs1 fuel f cs NI A NF SC)) as (ys & EL & FL).
  exists (fs_write fs1 (listfile f) (concat ys)). rewrite fold_r_app, E. cbn [bind map fst snd fold_r]. rewrite EL. split; [reflexivity|].
  assert (W : fs_write fs1 (listfile f) (concat ys) (listfile f) = Some (concat ys)) by (unfold fs_write; rewrite eqb_refl; reflexivity).
  split.
  - intros f0 cs0 I. apply in_app_or in I. destruct I as [I|[I|[]]].
    + destruct (HI f0 cs0 I) as (name & ys0 & HN & F0 & EN). destruct (eq_dec_b name (listfile f)) as [EQ|NEQ].
      * rewrite Forall_forall in N1. destruct (N1 f0 (in_map fst _ _ I)) as [_ (p0 & E0)].
        assert (X : list_name (p ++ 46 :: ext) name) by (rewrite <- EP; apply listfile_ok; symmetry; exact EQ).
        assert (Y : list_name (p0 ++ 46 :: ext) name) by (rewrite <- E0; exact HN).
        assert (P0 := C90_distinct_partial_pf _ _ _ _ NX X Y). subst p0. assert (f0 = f) by congruence. subst f0.
        rewrite Forall_forall in F1. assert (S0 := F1 _ I). cbn [fst snd] in S0.
        assert (cs0 = cs) by (apply load_ok in S0, SC; congruence). subst cs0.
        exists (listfile f), ys. rewrite H at 1. split; [apply listfile_ok; reflexivity|]. split; [exact FL|exact W].
      * exists name, ys0. split; [exact HN|]. split; [exact F0|]. unfold fs_write. rewrite eqb_neq by exact NEQ. exact EN.
    + assert (f0 = f) by congruence. assert (cs0 = cs) by congruence. subst f0 cs0.
      exists (listfile f), ys. split; [apply listfile_ok; reflexivity|]. split; [exact FL|exact W].
  - intros g H. unfold fs_write. rewrite eqb_neq.
    + apply HO. intros f' I. apply H. apply in_or_app. left. exact I.
    + intros EQ. apply (H f); [apply in_or_app; right; left; reflexivity|]. apply listfile_ok. symmetry. exact EQ.
Qed.
(*@ Example C90_all_partial_ex :
  let fs := fun f => if eqb f (lit "p.a") then Some (lit "        B" ++ [10]) else if eqb f (lit "q.a") then Some (lit "        A" ++ [10] ++ lit "$p.a" ++ [10]) else None in
  exists fs', listing 3 fs [lit "p.a"; lit "q.a"] = Ok fs' /\
    fs' (lit "p.lst") = Some (lit "p.a                                                              1              B" ++ [10]) /\
    fs' (lit "q.lst") = Some (lit "q.a                                                              1              A" ++ [10] ++
                              lit "p.a                                                              1              B" ++ [10]) /\
    fs' (lit "p.a") = fs (lit "p.a").
Proof. eexists. split; [vm_compute; reflexivity|]. vm_compute. auto. Qed. @*)
