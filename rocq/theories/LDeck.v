From Coq Require Import ZArith List Bool Lia.
From Verif Require Import Py LPy MCards SCards LCards.
#[local] Arguments Z.add : simpl never.
#[local] Arguments Z.sub : simpl never.
#[local] Arguments Z.mul : simpl never.
#[local] Arguments Z.pow : simpl never.

Lemma not_comment_ok line : not_comment line = negb (startswith line (lit "#")).
Proof. destruct line as [|c r]; [reflexivity|]. cbn. destruct r; rewrite andb_true_r; reflexivity. Qed.

Lemma card_data_ok k line width fields fn i c : startswith line (lit "#") = false ->
  card_new k line width fields fn i = Ok c ->
  exists f s r, card_fields c = Ok f /\ card_stripped c = Ok s /\ card_record c = Ok r /\
    c_line c = remove_char 10 line /\ c_filename c = fn /\ c_linenum c = i.
Proof.
  intros C H. apply comment_false in C. destruct k; cbn [card_new] in H.
  - destruct (punchcard_inv _ _ _ _ _ _ _ C H) as (rec & _ & ->). cbn. do 3 eexists. repeat split.
  - destruct (argus_inv _ _ _ _ _ _ _ H) as (c0 & r & H0 & ->).
    destruct (punchcard_inv _ _ _ _ _ _ _ C H0) as (rec & _ & ->). cbn. do 3 eexists. repeat split.
Qed.
Lemma card_new_total k line width fields fn i : startswith line (lit "#") = false ->
  usable_layout k width fields -> exists c, card_new k line width fields fn i = Ok c.
Proof.
  intros C U. apply comment_false in C. destruct k; cbn [card_new usable_layout] in *.
  - destruct U as [G L]. rewrite (punchcard_ok _ _ _ _ _ _ C (good_default fields L)). eauto.
  - rewrite (argus_ok _ _ _ _ _ C U). eauto.
Qed.

Definition has_data (c : card) : Prop :=
  exists f s r, card_fields c = Ok f /\ card_stripped c = Ok s /\ card_record c = Ok r.
Definition triple (c : card) := do f <- card_fields c; do s <- card_stripped c; do r <- card_record c; Ok (f, s, r).
Lemma mapr_triple cs : Forall has_data cs -> exists all, mapr triple cs = Ok all /\
  map card_fields cs = map (@Ok _) (map (fun t => fst (fst t)) all) /\
  map card_stripped cs = map (@Ok _) (map (fun t => snd (fst t)) all) /\
  map card_record cs = map (@Ok _) (map snd all).
Proof.
  induction 1 as [|c cs (f & s & r & H1 & H2 & H3) _ IH].
  - exists []. repeat split.
  - destruct IH as (all & E & A1 & A2 & A3). exists ((f, s, r) :: all).
    cbn [mapr]. unfold triple at 1. rewrite H1, H2, H3. cbn [bind]. rewrite E. cbn [bind map fst snd].
    rewrite H1, H2, H3, A1, A2, A3. repeat split.
Qed.

Lemma F2_length {A B} (R : A -> B -> Prop) l l' : Forall2 R l l' -> List.length l = List.length l'.
Proof. induction 1; cbn; congruence. Qed.
Lemma kept_length lines : forall i,
  List.length (filter (fun p => not_comment (snd p)) (number_from i lines)) = List.length (filter not_comment lines).
Proof.
  induction lines as [|l r IH]; intros i; [reflexivity|].
  cbn [number_from filter snd]. destruct (not_comment l); cbn [List.length]; rewrite IH; reflexivity.
Qed.

(** *** C63 *)
Lemma read_lines_ok k width fields file lines : forall i cs,
  read_lines k width fields file i lines = Ok cs <->
  Forall2 (fun p c => card_new k (snd p) width fields file (fst p) = Ok c)
          (filter (fun p => not_comment (snd p)) (number_from i lines)) cs.
Proof.
  induction lines as [|l r IH]; intros i cs; cbn [read_lines number_from filter snd fst].
  - split; [intros [= <-]; constructor|]. intros H. inversion H. reflexivity.
  - rewrite not_comment_ok. destruct (startswith l (lit "#")); cbn [negb]; [apply IH|]. split.
    + destruct (card_new k l width fields file i) as [c|e] eqn:E; cbn [bind]; [|discriminate].
      destruct (read_lines k width fields file (i + 1) r) as [t|e] eqn:E2; cbn [bind]; [|discriminate].
      intros [= <-]. constructor; [exact E|]. apply IH. exact E2.
    + intros H. inversion H as [|p c ps t H1 H2]; subst. cbn [fst snd] in H1. rewrite H1. cbn [bind].
      apply IH in H2. rewrite H2. reflexivity.
Qed.
Lemma read_lines_data k width fields file lines : forall i cs,
  read_lines k width fields file i lines = Ok cs -> Forall has_data cs.
Proof.
  induction lines as [|l r IH]; intros i cs; cbn [read_lines].
  - intros [= <-]. constructor.
  - destruct (startswith l (lit "#")) eqn:C; [apply IH|].
    destruct (card_new k l width fields file i) as [c|e] eqn:E; cbn [bind]; [|discriminate].
    destruct (read_lines k width fields file (i + 1) r) as [t|e] eqn:E2; cbn [bind]; [|discriminate].
    intros [= <-]. constructor; [|eapply IH; eassumption].
    destruct (card_data_ok _ _ _ _ _ _ _ C E) as (f & s & r0 & H1 & H2 & H3 & _). exists f, s, r0. auto.
Qed.
Lemma read_lines_total k width fields file lines : usable_layout k width fields -> forall i,
  exists cs, read_lines k width fields file i lines = Ok cs.
Proof.
  intros U. induction lines as [|l r IH]; intros i; cbn [read_lines]; [eauto|].
  destruct (startswith l (lit "#")) eqn:C; [apply IH|].
  destruct (card_new_total k l width fields file i C U) as (c & ->). cbn [bind].
  destruct (IH (i + 1)) as (t & ->). cbn [bind]. eauto.
Qed.
Lemma C63_deck_lines_pf : forall fuel fs lines width fields k d,
  deck_new fuel fs (Some lines) None width fields k = Ok d ->
  Forall2 (fun p c => card_new k (snd p) width fields None (fst p) = Ok c) (kept lines) (d_cards d) /\
  d_lines d = lines /\ parallel d.
Proof.
  intros fuel fs lines width fields k d. unfold deck_new.
  destruct (read_lines k width fields None 1 lines) as [cs|e] eqn:E; cbn [bind]; [|discriminate].
  destruct (mapr_triple cs (read_lines_data _ _ _ _ _ _ _ E)) as (all & EA & A1 & A2 & A3).
  fold triple. rewrite EA. cbn [bind]. intros [= <-]. cbn [d_cards d_lines].
  split; [apply read_lines_ok; exact E|]. split; [reflexivity|]. split; [exact A1|]. split; assumption.
Qed.
(*@ Example C63_deck_lines_ex :
  exists d, deck_new 1 (fun _ => None) (Some [lit "R A"; lit "# skip"; lit "  B"]) None 120 DEFAULT_FIELDS ArgusCls = Ok d /\
    map c_linenum (d_cards d) = [1; 3] /\ kept [lit "R A"; lit "# skip"; lit "  B"] = [(1, lit "R A"); (3, lit "  B")].
Proof. eexists. split; [vm_compute; reflexivity|]. split; reflexivity. Qed. @*)

Lemma C63_deck_exists_pf : forall fuel fs lines width fields k, usable_layout k width fields ->
  exists d, deck_new fuel fs (Some lines) None width fields k = Ok d /\
    List.length (d_cards d) = List.length (filter not_comment lines).
Proof.
  intros fuel fs lines width fields k U.
  destruct (read_lines_total k width fields None lines U 1) as (cs & E).
  destruct (mapr_triple cs (read_lines_data _ _ _ _ _ _ _ E)) as (all & EA & _).
  eexists. split; [unfold deck_new; rewrite E; cbn [bind]; fold triple; rewrite EA; reflexivity|].
  cbn [d_cards]. apply read_lines_ok in E. apply F2_length in E. rewrite <- E. apply kept_length.
Qed.
(*@ Example C63_deck_exists_ex : usable_layout ArgusCls 120 DEFAULT_FIELDS /\ usable_layout PunchCls 80 [1; 10].
Proof. split; [split; [cbn; lia|reflexivity]|cbn; lia]. Qed. @*)

(** *** Source files *)
Fixpoint src_lines (rec : str -> res (list card)) (k : cardclass) (width : Z) (fields : list Z) (fs : fsys)
                   (filename : str) (i : Z) (lines : list str) : res (list card) :=
  match lines with
  | [] => Ok []
  | line :: rest =>
      if startswith line (lit "#") then src_lines rec k width fields fs filename (i + 1) rest
      else if startswith line (lit "$") then
        do incname <- py_index (split_ws (py_slice line (Some 1) None)) 0;
        match fs incname with
        | None => Err SystemExit
        | Some _ =>
            do ic <- rec incname;
            do t <- src_lines rec k width fields fs filename (i + 1) rest; Ok (ic ++ t)
        end
      else
        do c <- card_new k line width fields (Some filename) i;
        do t <- src_lines rec k width fields fs filename (i + 1) rest; Ok (c :: t)
  end.
Lemma read_source_S fuel k width fields fs f :
  read_source (S fuel) k width fields fs f =
  match fs f with
  | None => Err SystemExit
  | Some content => src_lines (read_source fuel k width fields fs) k width fields fs f 1 (readlines content)
  end.
Proof.
  cbn [read_source]. destruct (fs f) as [content|]; [|reflexivity].
  match goal with |- ?L 1 ?r = src_lines ?a ?b ?c ?d ?e ?g 1 ?r =>
    enough (G : forall l i, L i l = src_lines a b c d e g i l) by apply G end.
  induction l as [|l r IH]; intros i; [reflexivity|].
  cbn [src_lines]. rewrite <- (IH (i + 1)). reflexivity.
Qed.
Lemma dollar_dec line : startswith line (lit "$") = true <-> exists r, line = lit "$" ++ r.
Proof. apply startswith_app. Qed.
Lemma dollar_false line : startswith line (lit "$") = false <-> ~ exists r, line = lit "$" ++ r.
Proof. rewrite <- dollar_dec. destruct (startswith line (lit "$")); split; congruence. Qed.
Lemma include_name line inc : include_of line inc ->
  startswith line (lit "#") = false /\ startswith line (lit "$") = true /\
  py_index (split_ws (py_slice line (Some 1) None)) 0 = Ok inc.
Proof.
  intros (r & -> & W). apply first_word_ok in W. destruct W as (rest & E). split; [reflexivity|]. split; [apply dollar_dec; eauto|].
  assert (S1 : py_slice (lit "$" ++ r) (Some 1) None = r) by (rewrite py_slice_from by lia; reflexivity).
  rewrite S1, E. reflexivity.
Qed.
Lemma include_inv line inc : startswith line (lit "$") = true ->
  py_index (split_ws (py_slice line (Some 1) None)) 0 = Ok inc -> include_of line inc.
Proof.
  intros D H. apply dollar_dec in D. destruct D as (r & ->).
  assert (S1 : py_slice (lit "$" ++ r) (Some 1) None = r) by (rewrite py_slice_from by lia; reflexivity).
  rewrite S1 in H. destruct (split_ws r) as [|x rest] eqn:E; [discriminate|].
  exists r. split; [reflexivity|]. apply first_word_ok. exists rest. rewrite E. cbn in H. injection H as ->. reflexivity.
Qed.

Scheme expand_mut := Induction for expand Sort Prop
with expand_lines_mut := Induction for expand_lines Sort Prop.
Combined Scheme expand_ind2 from expand_mut, expand_lines_mut.

Section Source.
Variables (k : cardclass) (width : Z) (fields : list Z) (fs : fsys).
Let CO := card_of k width fields.

Lemma src_sound rec (RS : forall f cs, rec f = Ok cs -> exists out, expand fs f out /\ Forall2 CO out cs) f lines :
  forall i cs, src_lines rec k width fields fs f i lines = Ok cs ->
  exists out, expand_lines fs f i lines out /\ Forall2 CO out cs.
Proof.
  induction lines as [|l r IH]; intros i cs H; cbn [src_lines] in H.
  - injection H as <-. exists []. split; constructor.
  - destruct (startswith l (lit "#")) eqn:C.
    { destruct (IH _ _ H) as (out & X & F). exists out. split; [|exact F].
      apply ex_comment; [apply comment_dec; exact C|exact X]. }
    destruct (startswith l (lit "$")) eqn:D.
    + destruct (py_index _ 0) as [inc|e] eqn:EI; cbn [bind] in H; [|discriminate].
      destruct (fs inc) as [content|]; [|discriminate].
      destruct (rec inc) as [ic|e] eqn:ER; cbn [bind] in H; [|discriminate].
      destruct (src_lines rec k width fields fs f (i + 1) r) as [t|e] eqn:ET; cbn [bind] in H; [|discriminate].
      injection H as <-. destruct (RS _ _ ER) as (o1 & X1 & F1). destruct (IH _ _ ET) as (o2 & X2 & F2).
      exists (o1 ++ o2). split; [|apply Forall2_app; assumption].
      eapply ex_include; [apply include_inv; eassumption|exact X1|exact X2].
    + destruct (card_new k l width fields (Some f) i) as [c|e] eqn:EC; cbn [bind] in H; [|discriminate].
      destruct (src_lines rec k width fields fs f (i + 1) r) as [t|e] eqn:ET; cbn [bind] in H; [|discriminate].
      injection H as <-. destruct (IH _ _ ET) as (o2 & X2 & F2).
      exists ((f, i, l) :: o2). split; [|constructor; [exact EC|exact F2]].
      apply ex_card; [apply comment_false; exact C|apply dollar_false; exact D|exact X2].
Qed.
Lemma read_sound fuel : forall f cs, read_source fuel k width fields fs f = Ok cs ->
  exists out, expand fs f out /\ Forall2 CO out cs.
Proof.
  induction fuel as [|fuel IH]; intros f cs H; [discriminate|]. rewrite read_source_S in H.
  destruct (fs f) as [content|] eqn:E; [|discriminate].
  destruct (src_sound _ IH f _ _ _ H) as (out & X & F). exists out. split; [econstructor; eassumption|exact F].
Qed.

(** everything expandable: Ok with enough fuel, at worst RecursionError with less *)
Lemma expand_reads :
  (forall f out, expand fs f out -> forall cs, Forall2 CO out cs ->
     exists n, forall fuel, read_source fuel k width fields fs f = Ok cs \/
       ((fuel < n)%nat /\ read_source fuel k width fields fs f = Err RecursionError)) /\
  (forall f i lines out, expand_lines fs f i lines out -> forall cs, Forall2 CO out cs ->
     exists n, forall fuel post, 
       src_lines (read_source fuel k width fields fs) k width fields fs f i (lines ++ post) =
         (do t <- src_lines (read_source fuel k width fields fs) k width fields fs f (i + zlen lines) post; Ok (cs ++ t)) \/
       ((fuel < n)%nat /\
        src_lines (read_source fuel k width fields fs) k width fields fs f i (lines ++ post) = Err RecursionError)).
Proof.
  apply expand_ind2 with
    (P := fun f out _ => forall cs, Forall2 CO out cs ->
     exists n, forall fuel, read_source fuel k width fields fs f = Ok cs \/
       ((fuel < n)%nat /\ read_source fuel k width fields fs f = Err RecursionError))
    (P0 := fun f i lines out _ => forall cs, Forall2 CO out cs ->
     exists n, forall fuel post, 
       src_lines (read_source fuel k width fields fs) k width fields fs f i (lines ++ post) =
         (do t <- src_lines (read_source fuel k width fields fs) k width fields fs f (i + zlen lines) post; Ok (cs ++ t)) \/
       ((fuel < n)%nat /\
        src_lines (read_source fuel k width fields fs) k width fields fs f i (lines ++ post) = Err RecursionError)).
  - intros f content out E X IH cs F. destruct (IH cs F) as (n & H). exists (S n). intros [|fuel].
    + right. split; [lia|reflexivity].
    + rewrite read_source_S, E. specialize (H fuel []). rewrite app_nil_r in H. cbn [src_lines bind] in H.
      rewrite app_nil_r in H. destruct H as [H|[L H]]; [left; exact H|right; split; [lia|exact H]].
  - intros f i cs F. inversion F; subst. exists O. intros fuel post. left.
    cbn [app]. change (zlen (@nil str)) with 0. rewrite Z.add_0_r.
    destruct (src_lines _ _ _ _ _ _ _ _) as [t|e]; reflexivity.
  - intros f i line rest out C X IH cs F. destruct (IH cs F) as (n & H). exists n. intros fuel post.
    cbn [app src_lines]. rewrite (proj2 (comment_dec line) C).
    replace (i + zlen (line :: rest)) with (i + 1 + zlen rest) by (rewrite zlen_cons; lia). apply H.
  - intros f i line inc rest out1 out2 INC X1 IH1 X2 IH2 cs F.
    apply Forall2_app_inv_l in F. destruct F as (cs1 & cs2 & F1 & F2 & ->).
    destruct (IH1 cs1 F1) as (n1 & H1). destruct (IH2 cs2 F2) as (n2 & H2). exists (Nat.max n1 n2).
    intros fuel post. cbn [app src_lines]. destruct (include_name _ _ INC) as (-> & -> & ->). cbn [bind].
    destruct X1 as [inc content out1 EF X1]. rewrite EF.
    destruct (H1 fuel) as [E|[L E]]; rewrite E; cbn [bind]; [|right; split; [lia|reflexivity]].
    replace (i + zlen (line :: rest)) with (i + 1 + zlen rest) by (rewrite zlen_cons; lia).
    destruct (H2 fuel post) as [E2|[L E2]]; rewrite E2; cbn [bind]; [left|right; split; [lia|reflexivity]].
    destruct (src_lines _ _ _ _ _ _ _ post) as [t|e]; cbn [bind]; [rewrite app_assoc|]; reflexivity.
  - intros f i line rest out NC ND X IH cs F. inversion F as [|s c o cs' F1 F2]; subst.
    destruct (IH cs' F2) as (n & H). exists n. intros fuel post. cbn [app src_lines].
    rewrite (proj2 (comment_false line) NC), (proj2 (dollar_false line) ND).
    unfold CO, card_of in F1. rewrite F1. cbn [bind].
    replace (i + zlen (line :: rest)) with (i + 1 + zlen rest) by (rewrite zlen_cons; lia).
    destruct (H fuel post) as [E2|[L E2]]; rewrite E2; cbn [bind]; [left|right; split; [lia|reflexivity]].
    destruct (src_lines _ _ _ _ _ _ _ post) as [t|e]; reflexivity.
Qed.

Lemma expand_noncomment :
  (forall f out, expand fs f out -> Forall (fun s => startswith (snd s) (lit "#") = false) out) /\
  (forall f i lines out, expand_lines fs f i lines out -> Forall (fun s => startswith (snd s) (lit "#") = false) out).
Proof.
  apply expand_ind2 with (P := fun f out _ => Forall (fun s => startswith (snd s) (lit "#") = false) out)
    (P0 := fun f i lines out _ => Forall (fun s => startswith (snd s) (lit "#") = false) out); intros; auto.
  - apply Forall_app. auto.
  - constructor; [|assumption]. cbn. apply comment_false. assumption.
Qed.
Lemma cards_data out cs : Forall (fun s => startswith (snd s) (lit "#") = false) out -> Forall2 CO out cs ->
  Forall has_data cs.
Proof.
  intros N F. induction F as [|[[f i] l] c out cs H _ IH]; [constructor|]. inversion N as [|x y N1 N2]; subst.
  constructor; [|apply IH; exact N2]. cbn in N1.
  destruct (card_data_ok _ _ _ _ _ _ _ N1 H) as (a & b & r & H1 & H2 & H3 & _). exists a, b, r. auto.
Qed.
Lemma cards_exist out : usable_layout k width fields ->
  Forall (fun s => startswith (snd s) (lit "#") = false) out -> exists cs, Forall2 CO out cs.
Proof.
  intros U. induction 1 as [|[[f i] l] out N _ (cs & IH)]; [exists []; constructor|].
  cbn in N. destruct (card_new_total k l width fields (Some f) i N U) as (c & E).
  exists (c :: cs). constructor; assumption.
Qed.
Lemma deck_file fuel f : f <> [] ->
  deck_new fuel fs None (Some f) width fields k =
  (do cs <- read_source fuel k width fields fs f;
   do all <- mapr triple cs;
   Ok (mkdeck (map c_line cs) cs (map (fun t => fst (fst t)) all) (map (fun t => snd (fst t)) all) (map snd all))).
Proof.
  intros N. unfold deck_new. destruct f as [|x f]; [contradiction|]. fold triple.
  destruct (read_source _ _ _ _ _ _); reflexivity.
Qed.
End Source.

(** *** C64 *)
Lemma C64_deck_file_pf : forall fuel fs f width fields k d, f <> [] ->
  deck_new fuel fs None (Some f) width fields k = Ok d ->
  exists out, expand fs f out /\ Forall2 (card_of k width fields) out (d_cards d) /\
    Forall2 (fun s c => c_filename c = Some (fst (fst s)) /\ c_linenum c = snd (fst s)) out (d_cards d) /\
    d_lines d = map card_str (d_cards d) /\ parallel d.
Proof.
  intros fuel fs f width fields k d N H. rewrite deck_file in H by exact N.
  destruct (read_source fuel k width fields fs f) as [cs|e] eqn:E; cbn [bind] in H; [|discriminate].
  destruct (read_sound _ _ _ _ _ _ _ E) as (out & X & F).
  pose proof (proj1 (expand_noncomment fs) _ _ X) as NC.
  destruct (mapr_triple cs (cards_data _ _ _ _ _ NC F)) as (all & EA & A1 & A2 & A3).
  rewrite EA in H. cbn [bind] in H. injection H as <-. cbn [d_cards d_lines].
  exists out. split; [exact X|]. split; [exact F|]. split; [|split; [reflexivity|split; [exact A1|split; assumption]]].
  clear -NC F. induction F as [|[[g i] l] c out cs H _ IH]; constructor; inversion NC as [|x y N1 N2]; subst.
  - cbn in *. destruct (card_data_ok _ _ _ _ _ _ _ N1 H) as (a & b & r & _ & _ & _ & _ & E1 & E2). auto.
  - apply IH. exact N2.
Qed.
(*@ Example C64_deck_file_ex :
  let fs := fun f => if eqb f (lit "a") then Some (lit "R 1" ++ [10] ++ lit "$b x" ++ [10] ++ lit "R 3" ++ [10])
                     else if eqb f (lit "b") then Some (lit "# no" ++ [10] ++ lit "R 2" ++ [10]) else None in
  exists d, deck_new 3 fs None (Some (lit "a")) 120 DEFAULT_FIELDS ArgusCls = Ok d /\
    map (fun c => (c_filename c, c_linenum c, c_line c)) (d_cards d) =
    [(Some (lit "a"), 1, lit "R 1"); (Some (lit "b"), 2, lit "R 2"); (Some (lit "a"), 3, lit "R 3")].
Proof. eexists. split; vm_compute; reflexivity. Qed. @*)

Lemma C64_deck_file_complete_pf : forall fs f width fields k out, f <> [] ->
  usable_layout k width fields -> expand fs f out ->
  exists n d, forall fuel, (n <= fuel)%nat -> deck_new fuel fs None (Some f) width fields k = Ok d.
Proof.
  intros fs f width fields k out N U X.
  pose proof (proj1 (expand_noncomment fs) _ _ X) as NC.
  destruct (cards_exist k width fields out U NC) as (cs & F).
  destruct (proj1 (expand_reads k width fields fs) _ _ X cs F) as (n & H).
  destruct (mapr_triple cs (cards_data _ _ _ _ _ NC F)) as (all & EA & _).
  exists n. eexists. intros fuel L. rewrite deck_file by exact N.
  destruct (H fuel) as [E|[L2 _]]; [|lia]. rewrite E. cbn [bind]. rewrite EA. reflexivity.
Qed.
(*@ Example C64_deck_file_complete_ex :
  let fs := fun f => if eqb f (lit "a") then Some (lit "$b" ++ [10]) else if eqb f (lit "b") then Some (lit "R 2") else None in
  expand fs (lit "a") [(lit "b", 1, lit "R 2")].
Proof.
  eapply ex_file; [reflexivity|].
  change (readlines (lit "$b" ++ [10])) with [lit "$b" ++ [10]].
  change [(lit "b", 1, lit "R 2")] with ([(lit "b", 1, lit "R 2")] ++ []).
  eapply ex_include; [exists (lit "b" ++ [10]); split; [reflexivity|apply first_word_ok; eexists; reflexivity]| |constructor].
  eapply ex_file; [reflexivity|]. change (readlines (lit "R 2")) with [lit "R 2"].
  apply ex_card; [intros (r & E); discriminate|intros (r & E); discriminate|constructor].
Qed. @*)

Lemma ranked_reads k width fields fs rank (R : includes_ranked fs rank) (U : usable_layout k width fields) :
  forall fuel f, (rank f < fuel)%nat -> fs f <> None -> exists cs, read_source fuel k width fields fs f = Ok cs.
Proof.
  induction fuel as [|fuel IH]; intros f L H; [lia|]. rewrite read_source_S.
  destruct (fs f) as [content|] eqn:E; [|congruence].
  assert (G : forall lines i, incl lines (readlines content) ->
    exists cs, src_lines (read_source fuel k width fields fs) k width fields fs f i lines = Ok cs).
  { induction lines as [|l r IHl]; intros i I; [exists []; reflexivity|]. cbn [src_lines].
    destruct (IHl (i + 1)) as (o & X); [intros x Hx; apply I; right; exact Hx|]. rewrite X.
    destruct (startswith l (lit "#")) eqn:C; [eauto|].
    destruct (startswith l (lit "$")) eqn:D.
    - apply dollar_dec in D. destruct D as (t & D).
      destruct (R f content l t E) as (inc & S & F & RK); [apply I; left; reflexivity|exact D|].
      destruct (include_name l inc) as (_ & _ & ->); [exists t; split; assumption|]. cbn [bind].
      destruct (IH inc) as (o1 & X1); [lia|exact F|]. rewrite X1.
      destruct (fs inc); [|congruence]. cbn [bind]. eauto.
    - destruct (card_new_total k l width fields (Some f) i C U) as (c & ->). cbn [bind]. eauto. }
  apply G. apply incl_refl.
Qed.
Lemma C64_ranked_pf : forall fs rank f width fields k, f <> [] -> usable_layout k width fields ->
  includes_ranked fs rank -> fs f <> None ->
  forall fuel, (rank f < fuel)%nat -> exists d, deck_new fuel fs None (Some f) width fields k = Ok d.
Proof.
  intros fs rank f width fields k N U R H fuel L.
  destruct (ranked_reads k width fields fs rank R U fuel f L H) as (cs & E).
  rewrite deck_file by exact N. rewrite E. cbn [bind].
  destruct (read_sound _ _ _ _ _ _ _ E) as (out & X & F).
  pose proof (proj1 (expand_noncomment fs) _ _ X) as NC.
  destruct (mapr_triple cs (cards_data _ _ _ _ _ NC F)) as (all & EA & _).
  rewrite EA. cbn [bind]. eauto.
Qed.
(*@ Example C64_ranked_ex :
  let fs := fun f => if eqb f (lit "a") then Some (lit "$b" ++ [10]) else if eqb f (lit "b") then Some (lit "R 2") else None in
  includes_ranked fs (fun f => if eqb f (lit "a") then 1%nat else 0%nat) /\ fs (lit "a") <> None.
Proof.
  cbv zeta. split; [|vm_compute; discriminate].
  intros f content line r H I ->.
  destruct (eqb f (lit "a")) eqn:E.
  - injection H as <-. change (readlines (lit "$b" ++ [10])) with [lit "$b" ++ [10]] in I.
    destruct I as [I|[]]. injection I as <-. exists (lit "b"). split; [apply first_word_ok; eexists; reflexivity|].
    split; [vm_compute; discriminate|vm_compute; repeat constructor].
  - destruct (eqb f (lit "b")); [|discriminate]. injection H as <-.
    change (readlines (lit "R 2")) with [lit "R 2"] in I. destruct I as [I|[]]. discriminate.
Qed. @*)

(** *** C65 *)
Lemma loop_reads k width fields fs P (U : usable_layout k width fields) (LP : include_loop fs P) :
  forall fuel f, P f -> read_source fuel k width fields fs f = Err RecursionError.
Proof.
  induction fuel as [|fuel IH]; intros f H; [reflexivity|]. rewrite read_source_S.
  destruct (LP f H) as (content & pre & line & post & inc & out & E & ER & X & INC & PI). rewrite E, ER.
  pose proof (proj2 (expand_noncomment fs) _ _ _ _ X) as NC.
  destruct (cards_exist k width fields out U NC) as (cs & F).
  destruct (proj2 (expand_reads k width fields fs) _ _ _ _ X cs F) as (n & G).
  destruct (G fuel (line :: post)) as [->|[_ ->]]; [|reflexivity].
  cbn [src_lines]. destruct (include_name _ _ INC) as (-> & -> & ->). cbn [bind].
  destruct (LP inc PI) as (c2 & _ & _ & _ & _ & _ & E2 & _). rewrite E2. rewrite (IH inc PI). reflexivity.
Qed.
Lemma C65_terminates_refuted_pf : forall fs P f width fields k, f <> [] -> usable_layout k width fields ->
  include_loop fs P -> P f ->
  forall fuel, deck_new fuel fs None (Some f) width fields k = Err RecursionError.
Proof.
  intros fs P f width fields k N U LP H fuel. rewrite deck_file by exact N.
  rewrite (loop_reads k width fields fs P U LP fuel f H). reflexivity.
Qed.
(*@ Example C65_terminates_refuted_ex :
  let fs := fun f => if eqb f (lit "a") then Some (lit "R 1" ++ [10] ++ lit "$b" ++ [10])
                     else if eqb f (lit "b") then Some (lit "$a") else None in
  include_loop fs (fun f => f = lit "a" \/ f = lit "b").
Proof.
  cbv zeta. intros f [->| ->].
  - exists (lit "R 1" ++ [10] ++ lit "$b" ++ [10]), [lit "R 1" ++ [10]], (lit "$b" ++ [10]), [], (lit "b").
    eexists. split; [reflexivity|]. split; [reflexivity|]. split.
    + apply ex_card; [intros (r & E); discriminate|intros (r & E); discriminate|constructor].
    + split; [exists (lit "b" ++ [10]); split; [reflexivity|apply first_word_ok; eexists; reflexivity]|auto].
  - exists (lit "$a"), [], (lit "$a"), [], (lit "a"), [].
    split; [reflexivity|]. split; [reflexivity|]. split; [constructor|].
    split; [exists (lit "a"); split; [reflexivity|apply first_word_ok; eexists; reflexivity]|auto].
Qed. @*)

Lemma acyclic_reads k width fields fs rank (A : includes_acyclic fs rank) :
  forall fuel f, (rank f < fuel)%nat -> read_source fuel k width fields fs f <> Err RecursionError.
Proof.
  assert (CN : forall l fn i, card_new k l width fields fn i <> Err RecursionError).
  { assert (FN : forall names fs i r, fill names i fs r <> Err RecursionError).
    { intros names l. induction l as [|x l IHl]; intros i r; cbn [fill]; [discriminate|].
      unfold py_index. destruct (_ || _); cbn [bind]; [discriminate|].
      destruct (nth_error names _); cbn [bind]; [apply IHl|discriminate]. }
    assert (PN : forall l names fn i, punchcard_new l width fields names fn i <> Err RecursionError).
    { intros l names fn i. unfold punchcard_new. destruct (startswith l (lit "#")); [discriminate|].
      destruct (fill _ _ _ _) as [r|e] eqn:E; cbn [bind]; [discriminate|]. intros [= ->]. exact (FN _ _ _ _ E). }
    assert (DN : forall (r : record) x, dindex r x <> Err RecursionError).
    { intros r x. unfold dindex. destruct (dget r x); discriminate. }
    intros l fn i. destruct k; cbn [card_new]; [apply PN|]. unfold argus_new.
    destruct (punchcard_new _ _ _ _ _ _) as [c|e] eqn:E; cbn [bind]; [|intros [= ->]; exact (PN _ _ _ _ E)].
    destruct (card_record c) as [r|e] eqn:E2; cbn [bind].
    2:{ unfold card_record in E2. destruct (c_data c) as [[[? ?] ?]|]; congruence. }
    destruct (dindex r _) as [v|e] eqn:E3; cbn [bind]; [|intros [= ->]; exact (DN _ _ E3)].
    cbv zeta. match goal with |- context [dindex ?r (lit "column1")] => set (r1 := r) end.
    destruct (dindex r1 _) as [v1|e] eqn:E4; cbn [bind]; [|intros [= ->]; exact (DN _ _ E4)].
    match goal with |- context [dindex ?r (lit "operation")] => set (r2 := r) end.
    destruct (dindex r2 _) as [v2|e] eqn:E5; cbn [bind]; [|intros [= ->]; exact (DN _ _ E5)].
    destruct v2; [discriminate| |discriminate]. destruct (_ && _); discriminate. }
  induction fuel as [|fuel IH]; intros f L; [lia|]. rewrite read_source_S.
  destruct (fs f) as [content|] eqn:E; [|discriminate].
  assert (G : forall lines i, incl lines (readlines content) ->
    src_lines (read_source fuel k width fields fs) k width fields fs f i lines <> Err RecursionError).
  { induction lines as [|l r IHl]; intros i I; [discriminate|]. cbn [src_lines].
    specialize (IHl (i + 1) ltac:(intros x Hx; apply I; right; exact Hx)).
    destruct (startswith l (lit "#")) eqn:C; [exact IHl|].
    destruct (startswith l (lit "$")) eqn:D.
    - destruct (py_index _ 0) as [inc|e] eqn:EI; cbn [bind].
      2:{ intros [= ->]. unfold py_index in EI. destruct (_ || _); [discriminate|].
          destruct (nth_error _ _); discriminate. }
      pose proof (include_inv _ _ D EI) as INC.
      destruct (fs inc); [|discriminate].
      assert (RK : (rank inc < rank f)%nat) by (eapply A; [exact E| |exact INC]; apply I; left; reflexivity).
      specialize (IH inc ltac:(lia)). destruct (read_source fuel k width fields fs inc) as [o|e]; cbn [bind];
        [|intros [= ->]; apply IH; reflexivity].
      destruct (src_lines _ _ _ _ _ _ _ r) as [t|e]; cbn [bind]; [discriminate|intros [= ->]; apply IHl; reflexivity].
    - specialize (CN l (Some f) i). destruct (card_new k l width fields (Some f) i) as [c|e]; cbn [bind];
        [|intros [= ->]; apply CN; reflexivity].
      destruct (src_lines _ _ _ _ _ _ _ r) as [t|e]; cbn [bind]; [discriminate|intros [= ->]; apply IHl; reflexivity]. }
  apply G. apply incl_refl.
Qed.
Lemma C65_acyclic_partial_pf : forall fs rank f width fields k, f <> [] -> includes_acyclic fs rank ->
  forall fuel, (rank f < fuel)%nat -> deck_new fuel fs None (Some f) width fields k <> Err RecursionError.
Proof.
  intros fs rank f width fields k N A fuel L. rewrite deck_file by exact N.
  pose proof (acyclic_reads k width fields fs rank A fuel f L) as H.
  destruct (read_source fuel k width fields fs f) as [cs|e] eqn:E; cbn [bind]; [|intros [= ->]; apply H; reflexivity].
  destruct (read_sound _ _ _ _ _ _ _ E) as (out & X & F).
  pose proof (proj1 (expand_noncomment fs) _ _ X) as NC.
  destruct (mapr_triple cs (cards_data _ _ _ _ _ NC F)) as (all & EA & _).
  rewrite EA. cbn [bind]. discriminate.
Qed.
(*@ Example C65_acyclic_partial_ex :
  let fs := fun f => if eqb f (lit "a") then Some (lit "$b" ++ [10]) else None in
  includes_acyclic fs (fun f => if eqb f (lit "a") then 1%nat else 0%nat) /\
  deck_new 2 fs None (Some (lit "a")) 120 DEFAULT_FIELDS ArgusCls = Err SystemExit.
Proof.
  cbv zeta. split; [|vm_compute; reflexivity].
  intros f content line inc H I (r & -> & S). apply first_word_ok in S. destruct S as (rest & S).
  destruct (eqb f (lit "a")) eqn:E; [|discriminate].
  injection H as <-. change (readlines (lit "$b" ++ [10])) with [lit "$b" ++ [10]] in I.
  destruct I as [I|[]]. injection I as <-. change (split_ws [98; 10]) with [lit "b"] in S.
  injection S as <- <-. vm_compute. repeat constructor.
Qed. @*)

(** *** C66 *)
Lemma missing_reads k width fields fs (U : usable_layout k width fields) f : reaches_missing fs f ->
  exists n, forall fuel, read_source fuel k width fields fs f = Err SystemExit \/
    ((fuel < n)%nat /\ read_source fuel k width fields fs f = Err RecursionError).
Proof.
  induction 1 as [f E|f content pre line post inc out E ER X INC _ (n & IH)].
  - exists 1%nat. intros [|fuel]; [right; split; [lia|reflexivity]|]. left. rewrite read_source_S, E. reflexivity.
  - pose proof (proj2 (expand_noncomment fs) _ _ _ _ X) as NC.
    destruct (cards_exist k width fields out U NC) as (cs & F).
    destruct (proj2 (expand_reads k width fields fs) _ _ _ _ X cs F) as (m & G).
    exists (S (Nat.max n m)). intros [|fuel]; [right; split; [lia|reflexivity]|].
    rewrite read_source_S, E, ER.
    destruct (G fuel (line :: post)) as [->|[L ->]]; [|right; split; [lia|reflexivity]].
    cbn [src_lines]. destruct (include_name _ _ INC) as (-> & -> & ->). cbn [bind].
    destruct (fs inc); [|left; reflexivity].
    destruct (IH fuel) as [->|[L ->]]; cbn [bind]; [left; reflexivity|right; split; [lia|reflexivity]].
Qed.
Lemma C66_missing_pf : forall fs f width fields k, f <> [] -> usable_layout k width fields ->
  reaches_missing fs f ->
  (exists n, forall fuel, (n <= fuel)%nat -> deck_new fuel fs None (Some f) width fields k = Err SystemExit) /\
  (forall fuel d, deck_new fuel fs None (Some f) width fields k <> Ok d).
Proof.
  intros fs f width fields k N U M. destruct (missing_reads k width fields fs U f M) as (n & H). split.
  - exists n. intros fuel L. rewrite deck_file by exact N. destruct (H fuel) as [->|[L2 _]]; [reflexivity|lia].
  - intros fuel d. rewrite deck_file by exact N. destruct (H fuel) as [->|[_ ->]]; discriminate.
Qed.
(*@ Example C66_missing_ex :
  let fs := fun f => if eqb f (lit "a") then Some (lit "R 1" ++ [10] ++ lit "$c" ++ [10]) else None in
  reaches_missing fs (lit "a").
Proof.
  cbv zeta. eapply rm_inc with (pre := [lit "R 1" ++ [10]]) (line := lit "$c" ++ [10]) (post := []) (inc := lit "c");
    [reflexivity|reflexivity| |exists (lit "c" ++ [10]); split; [reflexivity|apply first_word_ok; eexists; reflexivity]|apply rm_here; reflexivity].
  apply ex_card; [intros (r & E); discriminate|intros (r & E); discriminate|constructor].
Qed. @*)

Lemma C66_no_input_pf : forall fuel fs width fields k,
  deck_new fuel fs None None width fields k = Err SystemExit /\
  (forall f, f <> [] -> fs f = None -> forall n, deck_new (S n) fs None (Some f) width fields k = Err SystemExit).
Proof.
  intros fuel fs width fields k. split; [reflexivity|]. intros f N E n. rewrite deck_file by exact N.
  rewrite read_source_S, E. reflexivity.
Qed.
(*@ Example C66_no_input_ex :
  deck_new 9 (fun _ => None) None (Some (lit "x.arg")) 120 DEFAULT_FIELDS ArgusCls = Err SystemExit.
Proof. reflexivity. Qed. @*)

(** *** C67 *)
Definition same_res (r r' : res card) : Prop :=
  match r, r' with Ok c, Ok c' => same_card c c' | Err e, Err e' => e = e' | _, _ => False end.
Lemma same_set c c' r : same_card c c' -> same_card (set_record c r) (set_record c' r).
Proof.
  destruct c, c'. unfold same_card. cbn. intros (-> & -> & -> & -> & ->). unfold set_record. cbn.
  destruct c_data0 as [[[? ?] ?]|]; repeat split.
Qed.
Lemma card_new_fn k line width fields fn fn' i :
  same_res (card_new k line width fields fn i) (card_new k line width fields fn' i).
Proof.
  assert (P : same_res (punchcard_new line width fields DEFAULT_FIELDNAMES fn i)
                       (punchcard_new line width fields DEFAULT_FIELDNAMES fn' i)).
  { unfold punchcard_new. destruct (startswith line (lit "#")); [repeat split|].
    destruct (fill _ _ _ _); cbn; repeat split. }
  destruct k; cbn [card_new]; [exact P|]. unfold argus_new. revert P.
  destruct (punchcard_new _ _ _ _ fn _) as [c|e]; destruct (punchcard_new _ _ _ _ fn' _) as [c'|e'];
    cbn [bind same_res]; try tauto.
  intros S. pose proof S as (H1 & H2 & H3 & H4 & H5).
  assert (RC : card_record c = card_record c') by (unfold card_record; rewrite H5; reflexivity).
  rewrite <- RC, <- H1.
  destruct (card_record c) as [rec|e] eqn:ER; cbn [bind]; [|reflexivity].
  destruct (dindex rec _) as [v|e]; cbn [bind]; [|reflexivity].
  cbv zeta. match goal with |- context [dindex ?r (lit "column1")] => set (r1 := r) end.
  destruct (dindex r1 _) as [v1|e]; cbn [bind]; [|reflexivity].
  match goal with |- context [dindex ?r (lit "operation")] => set (r2 := r) end.
  destruct (dindex r2 _) as [v2|e]; cbn [bind]; [|reflexivity].
  destruct v2 as [|op|]; [apply same_set; exact S| |reflexivity].
  destruct (_ && _); apply same_set; exact S.
Qed.
Lemma src_vs_lines rec k width fields fs f lines :
  Forall (fun l => ~ exists r, l = lit "$" ++ r) lines -> forall i,
  match src_lines rec k width fields fs f i lines, read_lines k width fields None i lines with
  | Ok cs, Ok cs' => Forall2 same_card cs cs'
  | Err e, Err e' => e = e'
  | _, _ => False
  end.
Proof.
  induction 1 as [|l r D _ IH]; intros i; cbn [src_lines read_lines]; [constructor|].
  destruct (startswith l (lit "#")) eqn:C; [apply IH|].
  apply dollar_false in D. rewrite D. pose proof (card_new_fn k l width fields (Some f) None i) as S.
  destruct (card_new k l width fields (Some f) i) as [c|e]; destruct (card_new k l width fields None i) as [c'|e'];
    cbn [bind same_res] in *; try tauto.
  specialize (IH (i + 1)).
  destruct (src_lines _ _ _ _ _ _ _ r) as [t|e]; destruct (read_lines _ _ _ _ _ r) as [t'|e']; cbn [bind]; try tauto.
  constructor; assumption.
Qed.
Lemma same_triple cs cs' : Forall2 same_card cs cs' -> mapr triple cs = mapr triple cs'.
Proof.
  induction 1 as [|c c' cs cs' (_ & _ & _ & _ & H) _ IH]; [reflexivity|]. cbn [mapr].
  assert (E : triple c = triple c') by (unfold triple, card_fields, card_stripped, card_record; rewrite H; reflexivity).
  rewrite E, IH. reflexivity.
Qed.
Lemma C67_file_vs_lines_pf : forall fuel fs f content width fields k, f <> [] -> fs f = Some content ->
  (forall line, In line (readlines content) -> ~ exists r, line = lit "$" ++ r) ->
  match deck_new (S fuel) fs None (Some f) width fields k,
        deck_new (S fuel) fs (Some (readlines content)) None width fields k with
  | Ok d, Ok d' => Forall2 same_card (d_cards d) (d_cards d') /\ d_fields d = d_fields d' /\
                   d_stripped d = d_stripped d' /\ d_records d = d_records d'
  | Err e, Err e' => e = e'
  | _, _ => False
  end.
Proof.
  intros fuel fs f content width fields k N E D. rewrite deck_file by exact N. rewrite read_source_S, E.
  unfold deck_new. fold triple.
  pose proof (src_vs_lines (read_source fuel k width fields fs) k width fields fs f (readlines content)
                (proj2 (Forall_forall _ _) D) 1) as H.
  destruct (src_lines _ _ _ _ _ _ _ _) as [cs|e]; destruct (read_lines _ _ _ _ _ _) as [cs'|e']; cbn [bind]; try tauto.
  rewrite <- (same_triple _ _ H). destruct (mapr triple cs) as [all|e]; cbn [bind]; [|reflexivity].
  cbn. repeat split. exact H.
Qed.
(*@ Example C67_file_vs_lines_ex :
  let content := lit "R 1" ++ [10] ++ lit "# c" ++ [10] ++ lit "  B" in
  readlines content = [lit "R 1" ++ [10]; lit "# c" ++ [10]; lit "  B"] /\
  exists d d', deck_new 1 (fun _ => Some content) None (Some (lit "a")) 120 DEFAULT_FIELDS ArgusCls = Ok d /\
    deck_new 1 (fun _ => Some content) (Some (readlines content)) None 120 DEFAULT_FIELDS ArgusCls = Ok d' /\
    d_records d = d_records d' /\ List.length (d_records d) = 2%nat.
Proof.
  split; [reflexivity|]. do 2 eexists. split; [vm_compute; reflexivity|]. split; [vm_compute; reflexivity|].
  split; reflexivity.
Qed. @*)

(** *** C133 *)
Lemma read_lines_fn k width fields fn fn' : forall lines i,
  match read_lines k width fields fn i lines, read_lines k width fields fn' i lines with
  | Ok cs, Ok cs' => Forall2 same_card cs cs'
  | Err e, Err e' => e = e'
  | _, _ => False
  end.
Proof.
  induction lines as [|x lines IH]; intros i; cbn [read_lines]; [constructor|]. destruct (startswith x (lit "#")); [apply IH|].
  pose proof (card_new_fn k x width fields fn fn' i) as C. unfold same_res in C.
  destruct (card_new k x width fields fn i) as [c|e]; destruct (card_new k x width fields fn' i) as [c'|e']; cbn [bind]; try tauto.
  specialize (IH (i + 1)). destruct (read_lines k width fields fn (i + 1) lines) as [cs|e];
    destruct (read_lines k width fields fn' (i + 1) lines) as [cs'|e']; cbn [bind]; try tauto. constructor; assumption.
Qed.
Lemma C133_file_wins_pf : forall fuel fs lines f width fields k, f <> [] ->
  deck_new fuel fs (Some lines) (Some f) width fields k = deck_new fuel fs None (Some f) width fields k /\
  argus_deck_new fuel fs (Some lines) (Some f) width fields k = argus_deck_new fuel fs None (Some f) width fields k.
Proof.
  intros fuel fs lines f width fields k N. assert (E : deck_new fuel fs (Some lines) (Some f) width fields k = deck_new fuel fs None (Some f) width fields k).
  { destruct f; [contradiction|reflexivity]. }
  split; [exact E|]. unfold argus_deck_new. rewrite E. reflexivity.
Qed.
(*@ Example C133_file_wins_ex :
  match deck_new 1 (fun _ => Some (lit "R 1")) (Some [lit "  A"; lit "  B"]) (Some (lit "f")) 120 DEFAULT_FIELDS ArgusCls with
  | Ok d => d_lines d = [lit "R 1"] | Err _ => False end.
Proof. vm_compute. reflexivity. Qed. @*)
Lemma C133_empty_name_pf : forall fuel fs lines width fields k,
  deck_new fuel fs None (Some []) width fields k = Err TypeError /\
  match deck_new fuel fs (Some lines) (Some []) width fields k, deck_new fuel fs (Some lines) None width fields k with
  | Ok d, Ok d' => Forall2 same_card (d_cards d) (d_cards d') /\ d_lines d = d_lines d' /\ d_fields d = d_fields d' /\
                   d_stripped d = d_stripped d' /\ d_records d = d_records d'
  | Err e, Err e' => e = e'
  | _, _ => False
  end.
Proof.
  intros fuel fs lines width fields k. split; [reflexivity|]. unfold deck_new. fold triple.
  pose proof (read_lines_fn k width fields (Some []) None lines 1) as H.
  destruct (read_lines k width fields (Some []) 1 lines) as [cs|e]; destruct (read_lines k width fields None 1 lines) as [cs'|e']; cbn [bind]; try tauto.
  rewrite <- (same_triple _ _ H). destruct (mapr triple cs) as [all|e]; cbn [bind]; [|reflexivity].
  cbn. repeat split. exact H.
Qed.
(*@ Example C133_empty_name_ex :
  match deck_new 1 (fun _ => None) (Some [lit "  A"]) (Some []) 120 DEFAULT_FIELDS ArgusCls with
  | Ok d => d_lines d = [lit "  A"] /\ map c_filename (d_cards d) = [Some []] | Err _ => False end.
Proof. vm_compute. auto. Qed. @*)

(** *** C68 *)
Lemma is_str_ok v s : is_str v s = true <-> v = RStr (lit s).
Proof.
  destruct v as [|t|n]; cbn [is_str]; try (split; [discriminate|intros E; discriminate]).
  split; [intros H; apply eqb_ok in H; subst; reflexivity|]. intros [= ->]. apply eqb_refl.
Qed.
Lemma log_section_spec cs o : log_section cs = Ok o ->
  match o with
  | None => forall c, In c cs -> ~ log_card c
  | Some (s, c8) => exists pre c post, cs = pre ++ c :: post /\ (forall x, In x pre -> ~ log_card x) /\
      log_card c /\ s = strip (columns (c_line c) 9 81) /\ card_get c "column8" = Ok c8
  end.
Proof.
  induction cs as [|c cs IH]; cbn [log_section].
  - intros [= <-]. intros c [].
  - destruct (card_record c) as [rec|e] eqn:ER; cbn [bind]; [|discriminate].
    destruct (dindex rec (lit "column1")) as [v|e] eqn:EV; cbn [bind]; [|discriminate].
    assert (G : forall x, card_get c x = dindex rec (lit x)) by (intros x; unfold card_get; rewrite ER; reflexivity).
    destruct (is_str v "L") eqn:L.
    + destruct (dindex rec (lit "column8")) as [c8|e] eqn:E8; cbn [bind]; [|discriminate]. intros [= <-].
      exists [], c, cs. split; [reflexivity|]. split; [intros x []|].
      split; [unfold log_card; rewrite G, EV; apply is_str_ok in L; subst; reflexivity|].
      split; [|rewrite G; exact E8]. rewrite py_slice_range by lia. reflexivity.
    + assert (NL : ~ log_card c).
      { unfold log_card. rewrite G, EV. intros [= ->]. rewrite (proj2 (is_str_ok _ _) eq_refl) in L. discriminate. }
      intros H. specialize (IH H). destruct o as [[s c8]|].
      * destruct IH as (pre & c' & post & -> & A & B). exists (c :: pre), c', post. split; [reflexivity|].
        split; [|exact B]. intros x [<-|I]; [exact NL|apply A; exact I].
      * intros x [<-|I]; [exact NL|apply IH; exact I].
Qed.
Lemma C68_log_section_pf : forall fuel fs lines file width fields k d sec col8,
  argus_deck_new fuel fs lines file width fields k = Ok (d, sec, col8) ->
  deck_new fuel fs lines file width fields k = Ok d /\
  (((forall c, In c (d_cards d) -> ~ log_card c) /\ sec = None /\ col8 = RNone) \/
   exists pre c post t, d_cards d = pre ++ c :: post /\ (forall x, In x pre -> ~ log_card x) /\ log_card c /\
     sec = Some t /\ trimmed (columns (c_line c) 9 81) t /\ card_get c "column8" = Ok col8).
Proof.
  intros fuel fs lines file width fields k d sec col8. unfold argus_deck_new.
  destruct (deck_new fuel fs lines file width fields k) as [d'|e]; cbn [bind]; [|discriminate].
  destruct (log_section (d_cards d')) as [[[s c8]|]|e] eqn:E; cbn [bind]; intros H; try discriminate;
    injection H as <- <- <-; (split; [reflexivity|]); apply log_section_spec in E; cbn in E.
  - right. destruct E as (pre & c & post & E & A & B & -> & G). exists pre, c, post. eexists.
    split; [exact E|]. split; [exact A|]. split; [exact B|]. split; [reflexivity|]. split; [apply strip_trimmed|exact G].
  - left. auto.
Qed.
(*@ Example C68_log_section_ex :
  exists d, argus_deck_new 1 (fun _ => None) (Some [lit "R 1"; lit "L      4FIRST LOG "; lit "L      5SECOND"]) None 120
              DEFAULT_FIELDS ArgusCls = Ok (d, Some (lit "FIRST LOG"), RStr (lit "4")).
Proof. eexists. vm_compute. reflexivity. Qed. @*)

Lemma card_cols k line width fields i fn c : usable_layout k width fields -> k = ArgusCls ->
  card_new k line width fields fn i = Ok c -> startswith line (lit "#") = false ->
  exists v1 v8, card_get c "column1" = Ok v1 /\ card_get c "column8" = Ok v8.
Proof.
  intros U -> H C. apply comment_false in C. cbn [card_new usable_layout] in *. rewrite (argus_ok _ _ _ _ _ C U) in H.
  injection H as <-. exists (rstr (stripped (field_text line width fields 0))), (rstr (stripped (field_text line width fields 2))).
  split; getf; destruct (is_remark _); reflexivity.
Qed.
Lemma C68_log_section_total_pf : forall fuel fs lines width fields,
  argus_layout width fields ->
  exists d sec col8, argus_deck_new fuel fs (Some lines) None width fields ArgusCls = Ok (d, sec, col8).
Proof.
  intros fuel fs lines width fields U.
  destruct (C63_deck_exists_pf fuel fs lines width fields ArgusCls U) as (d & E & _).
  destruct (C63_deck_lines_pf _ _ _ _ _ _ _ E) as (F & _). unfold argus_deck_new. rewrite E. cbn [bind].
  assert (G : exists o, log_section (d_cards d) = Ok o).
  { unfold kept in F.
    assert (NC : Forall (fun p => startswith (snd p) (lit "#") = false)
                   (filter (fun p => not_comment (snd p)) (number_from 1 lines))).
    { apply Forall_forall. intros p I. apply filter_In in I. destruct I as [_ I]. rewrite not_comment_ok in I.
      destruct (startswith _ _); [discriminate|reflexivity]. }
    revert F NC. generalize (filter (fun p => not_comment (snd p)) (number_from 1 lines)) as ps. intros ps F.
    induction F as [|p c ps cs H _ IH]; intros NC; [exists None; reflexivity|].
    inversion NC as [|x y N1 N2]; subst.
    destruct (card_cols ArgusCls _ _ _ _ _ _ U eq_refl H N1) as (v1 & v8 & G1 & G8).
    cbn [log_section]. unfold card_get in G1, G8.
    destruct (card_record c) as [rec|e]; cbn [bind] in *; [|discriminate]. rewrite G1. cbn [bind].
    destruct (is_str v1 "L"); [rewrite G8; cbn [bind]; eauto|apply IH; exact N2]. }
  destruct G as ([[s c8]|] & ->); cbn [bind]; eauto.
Qed.
(*@ Example C68_log_section_total_ex : argus_layout 120 DEFAULT_FIELDS /\
  exists d, argus_deck_new 1 (fun _ => None) (Some [lit "R 1"]) None 120 DEFAULT_FIELDS ArgusCls = Ok (d, None, RNone).
Proof. split; [split; [cbn; lia|reflexivity]|]. eexists. vm_compute. reflexivity. Qed. @*)

(** *** C69 *)
Lemma split_one s : ~ In 10 s -> split_on 10 s = [s].
Proof.
  induction s as [|x s IH]; intros N; [reflexivity|]. cbn [split_on].
  destruct (Z.eqb_spec x 10); [subst; destruct N; left; reflexivity|].
  rewrite IH by (intros I; apply N; right; exact I). reflexivity.
Qed.
Lemma split_sep s t : ~ In 10 s -> split_on 10 (s ++ 10 :: t) = s :: split_on 10 t.
Proof.
  induction s as [|x s IH]; intros N; [reflexivity|]. cbn [app split_on].
  destruct (Z.eqb_spec x 10); [subst; destruct N; left; reflexivity|].
  rewrite IH by (intros I; apply N; right; exact I). reflexivity.
Qed.
Lemma split_join ls : ls <> [] -> Forall (fun l => ~ In 10 l) ls -> split_on 10 (join [10] ls) = ls.
Proof.
  induction ls as [|l r IH]; intros NE F; [contradiction|]. inversion F as [|x y F1 F2]; subst.
  destruct r as [|l' r]; [apply split_one; exact F1|].
  change (join [10] (l :: l' :: r)) with (l ++ 10 :: join [10] (l' :: r)).
  rewrite split_sep by exact F1. rewrite IH by (try exact F2; discriminate). reflexivity.
Qed.
Lemma no_newline s : ~ In 10 (filter (fun c => negb (c =? 10)) s).
Proof. intros I. apply filter_In in I. destruct I as [_ I]. discriminate. Qed.
Lemma C69_deck_str_pf : forall fuel fs lines width fields k d,
  deck_new fuel fs (Some lines) None width fields k = Ok d ->
  (forall x, In x lines -> comment_line x) /\ deck_str d = [] \/
  split_on 10 (deck_str d) = map (filter (fun c => negb (c =? 10))) (filter not_comment lines).
Proof.
  intros fuel fs lines width fields k d H. destruct (C63_deck_lines_pf _ _ _ _ _ _ _ H) as (F & _).
  assert (E : map card_str (d_cards d) = map (filter (fun c => negb (c =? 10))) (filter not_comment lines)).
  { revert F. unfold kept. generalize (d_cards d) as cs. generalize 1. clear. induction lines as [|l r IH]; intros i cs F.
    - inversion F. reflexivity.
    - cbn [number_from filter snd] in *. destruct (not_comment l) eqn:C; [|apply (IH (i + 1)); exact F].
      inversion F as [|p c ps cs' H1 H2]; subst. cbn [map]. rewrite (IH (i + 1) _ H2). f_equal.
      rewrite not_comment_ok in C. cbn [fst snd] in H1. apply negb_true_iff in C.
      destruct (card_data_ok _ _ _ _ _ _ _ C H1) as (a & b & r0 & _ & _ & _ & E & _). exact E. }
  unfold deck_str. rewrite E. destruct (filter not_comment lines) as [|x r] eqn:EL.
  - left. split; [|reflexivity]. intros x I. apply comment_dec.
    destruct (startswith x (lit "#")) eqn:C; [reflexivity|]. exfalso.
    assert (In x (filter not_comment lines)) as J by (apply filter_In; rewrite not_comment_ok, C; auto).
    rewrite EL in J. destruct J.
  - right. apply split_join; [discriminate|]. apply Forall_forall. intros y I. apply in_map_iff in I.
    destruct I as (z & <- & _). apply no_newline.
Qed.
(*@ Example C69_deck_str_ex :
  exists d, deck_new 1 (fun _ => None) (Some [lit "R A" ++ [10]; lit "# skip"; lit "  B"]) None 120 DEFAULT_FIELDS ArgusCls = Ok d /\
    deck_str d = lit "R A" ++ [10] ++ lit "  B".
Proof. eexists. split; vm_compute; reflexivity. Qed. @*)

Lemma C69_deck_str_file_pf : forall fuel fs f width fields k d, f <> [] ->
  deck_new fuel fs None (Some f) width fields k = Ok d -> d_cards d <> [] ->
  split_on 10 (deck_str d) = d_lines d.
Proof.
  intros fuel fs f width fields k d N H NE.
  destruct (C64_deck_file_pf _ _ _ _ _ _ _ N H) as (out' & X' & F & _ & L & _).
  rewrite L. unfold deck_str. apply split_join.
  - intros E. apply map_eq_nil in E. contradiction.
  - apply Forall_forall. intros y I. apply in_map_iff in I. destruct I as (c & <- & I).
    clear -F I X'. pose proof (proj1 (expand_noncomment fs) _ _ X') as NC.
    clear X'. induction F as [|[[g i] l] c' o cs H _ IH]; [destruct I|]. inversion NC as [|x z N1 N2]; subst.
    destruct I as [->|I]; [|apply IH; auto].
    cbn in N1. destruct (card_data_ok _ _ _ _ _ _ _ N1 H) as (a & b & r0 & _ & _ & _ & E & _).
    unfold card_str. rewrite E. apply no_newline.
Qed.
(*@ Example C69_deck_str_file_ex :
  exists d, deck_new 1 (fun _ => Some (lit "R A" ++ [10] ++ lit "  B")) None (Some (lit "f")) 120 DEFAULT_FIELDS ArgusCls = Ok d /\
    deck_str d = lit "R A" ++ [10] ++ lit "  B" /\ d_lines d = [lit "R A"; lit "  B"].
Proof. eexists. split; [vm_compute; reflexivity|]. split; vm_compute; reflexivity. Qed. @*)
