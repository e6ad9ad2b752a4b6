(** Reading a file without its includes: C189. *)
From Coq Require Import ZArith List Bool Lia.
From Verif Require Import Py LPy MCards SCards LCards LDeck SEnds LEnds MTools MDiag MVerbose LVerbose MUnfollow SUnfollow.
#[local] Arguments Z.add : simpl never.
#[local] Arguments Z.sub : simpl never.
#[local] Arguments Z.mul : simpl never.
#[local] Arguments Z.pow : simpl never.

(** the kinds of lines *)
Inductive line_kind (line : str) : Prop :=
| lk_comment r : line = 35 :: r -> startswith line (lit "#") = true -> line_kind line
| lk_dollar r : line = 36 :: r -> startswith line (lit "#") = false -> startswith line (lit "$") = true -> line_kind line
| lk_other : (forall c r, line = c :: r -> c <> 35 /\ c <> 36) -> startswith line (lit "#") = false -> startswith line (lit "$") = false -> line_kind line.
Lemma line_kinds line : line_kind line.
Proof.
  destruct line as [|c r].
  - apply lk_other; [discriminate|reflexivity|reflexivity].
  - destruct (Z.eq_dec c 35) as [->|A]; [apply (lk_comment _ r); [reflexivity|apply comment_dec; exists r; reflexivity]|].
    destruct (Z.eq_dec c 36) as [->|B]; [apply (lk_dollar _ r); [reflexivity|reflexivity|apply dollar_dec; exists r; reflexivity]|].
    apply lk_other.
    + intros c' r' [= <- <-]. auto.
    + apply comment_false. intros (r' & E). apply A. injection E as -> _. reflexivity.
    + apply dollar_false. intros (r' & E). apply B. injection E as -> _. reflexivity.
Qed.
Lemma dollar_words r : py_index (split_ws (py_slice (36 :: r) (Some 1) None)) 0 =
  match split_ws r with [] => Err IndexError | w :: _ => Ok w end.
Proof.
  assert (E : py_slice (36 :: r) (Some 1) None = r) by (rewrite py_slice_from by lia; reflexivity).
  rewrite E. destruct (split_ws r) as [|w t]; [reflexivity|]. unfold py_index.
  cbn [zlen List.length]. rewrite (proj2 (Z.ltb_ge 0 0)) by lia. reflexivity.
Qed.
Lemma no_word r : split_ws r = [] -> forall w, ~ first_word r w.
Proof. intros E w W. apply first_word_ok in W. destruct W as (t & W). congruence. Qed.
Lemma the_word r w t : split_ws r = w :: t -> first_word r w.
Proof. intros E. apply first_word_ok. eauto. Qed.
Lemma same_word r w w' : first_word r w -> first_word r w' -> w = w'.
Proof. intros A B. apply first_word_ok in A. apply first_word_ok in B. destruct A as (? & A), B as (? & B). congruence. Qed.

Section Flat.
Variables (k : cardclass) (width : Z) (fields : list Z) (fs : fsys) (v : bool) (f : str).
Hypothesis U : usable_layout k width fields.
Let FL := flat_loop k width fields fs v f.

Lemma res_cons i line out log e p r c : card_new k line width fields (Some f) i = Ok c ->
  flat_result k width fields v out log e p r ->
  let x := io_bind (p, r) (fun t => ([], Ok (c :: t))) in
  flat_result k width fields v ((f, i, line) :: out) log e (fst x) (snd x).
Proof.
  intros C R. destruct e; cbn [flat_result] in *.
  - destruct R as (-> & cs & -> & F). cbn [io_bind fst snd]. rewrite app_nil_r. split; [reflexivity|].
    exists (c :: cs). split; [reflexivity|]. constructor; [exact C|exact F].
  - destruct R as (-> & ->). split; reflexivity.
  - destruct R as (-> & ->). split; reflexivity.
Qed.
Lemma loop_flat i lines out log e : flat_lines fs f i lines out log e ->
  flat_result k width fields v out log e (fst (FL i lines)) (snd (FL i lines)).
Proof.
  unfold FL. induction 1 as [i|i r rest out log e H IH|i r inc rest out log e W X H IH|i r inc rest W X|i r rest N|i line rest out log e D H IH]; cbn [flat_loop].
  - cbn. split; [destruct v; reflexivity|]. exists []. split; [reflexivity|constructor].
  - change (startswith (35 :: r) (lit "#")) with (startswith (lit "#" ++ r) (lit "#")).
    rewrite (proj2 (comment_dec (lit "#" ++ r))) by (exists r; reflexivity).
    unfold io_bind. destruct (flat_loop k width fields fs v f (i + 1) rest) as [ls q]. cbn [fst snd] in IH |- *.
    unfold tell, skipping. destruct e; cbn [flat_result] in *.
    + destruct IH as (-> & IH). split; [destruct v; reflexivity|exact IH].
    + destruct IH as (-> & IH). split; [destruct v; reflexivity|exact IH].
    + destruct IH as (-> & IH). split; [destruct v; reflexivity|exact IH].
  - destruct (line_kinds (36 :: r)) as [q E _|q _ A B|O _ _]; [discriminate| |destruct (O 36 r eq_refl); congruence].
    rewrite A, B, dollar_words. apply first_word_ok in W. destruct W as (t & W). rewrite W. cbn [io_bind].
    destruct (fs inc) as [x|]; [|congruence].
    destruct (card_new_total k (36 :: r) width fields (Some f) i A U) as (c & EC). rewrite EC. cbn [io_bind].
    destruct (flat_loop k width fields fs v f (i + 1) rest) as [p q']. apply (res_cons _ _ _ _ _ _ _ _ EC) in IH. cbn [fst snd] in IH.
    destruct (io_bind (p, q') _). exact IH.
  - destruct (line_kinds (36 :: r)) as [q E _|q _ A B|O _ _]; [discriminate| |destruct (O 36 r eq_refl); congruence].
    rewrite A, B, dollar_words. apply first_word_ok in W. destruct W as (t & W). rewrite W. cbn [io_bind]. rewrite X.
    unfold exit_with. cbn [fst snd flat_result app]. split; [destruct v; reflexivity|reflexivity].
  - destruct (line_kinds (36 :: r)) as [q E _|q _ A B|O _ _]; [discriminate| |destruct (O 36 r eq_refl); congruence].
    rewrite A, B, dollar_words. destruct (split_ws r) as [|w t] eqn:E; [|destruct (N w (the_word _ _ _ E))].
    cbn. split; [destruct v; reflexivity|reflexivity].
  - destruct (line_kinds line) as [q -> _|q -> _ _|O A B]; [destruct (D 35 q eq_refl); congruence|destruct (D 36 q eq_refl); congruence|].
    rewrite A, B.
    destruct (card_new_total k line width fields (Some f) i A U) as (c & EC). rewrite EC. cbn [io_bind].
    destruct (flat_loop k width fields fs v f (i + 1) rest) as [p q']. apply (res_cons _ _ _ _ _ _ _ _ EC) in IH. cbn [fst snd] in IH.
    destruct (io_bind (p, q') _). exact IH.
Qed.
End Flat.

Lemma flat_exists fs f lines : forall i, exists out log e, flat_lines fs f i lines out log e.
Proof.
  induction lines as [|line rest IH]; intros i; [do 3 eexists; constructor|].
  destruct (IH (i + 1)) as (out & log & e & H).
  destruct (line_kinds line) as [r -> _|r -> _ _|O _ _].
  - do 3 eexists. apply fl_comment. exact H.
  - destruct (split_ws r) as [|w t] eqn:E.
    + do 3 eexists. apply fl_unnamed. apply no_word. exact E.
    + apply the_word in E. destruct (fs w) as [x|] eqn:X.
      * do 3 eexists. eapply fl_include; [exact E|congruence|exact H].
      * do 3 eexists. eapply fl_missing; [exact E|exact X].
  - do 3 eexists. apply fl_line; [exact O|exact H].
Qed.

(** what reading comes to is a matter of the text, and there always is an account *)
Lemma C189_account_pf : forall k width fields fs v f, usable_layout k width fields ->
  (exists out log e, flat_file fs f out log e) /\
  forall out log e, flat_file fs f out log e ->
    flat_result k width fields v out log e (fst (read_flat k width fields fs v f)) (snd (read_flat k width fields fs v f)).
Proof.
  intros k width fields fs v f U. split.
  - destruct (fs f) as [content|] eqn:E; [|do 3 eexists; apply ff_missing; exact E].
    destruct (text_exists content) as (ls & T). destruct (flat_exists fs f ls 1) as (out & log & e & H).
    do 3 eexists. eapply ff_file; eassumption.
  - intros out log e H. unfold read_flat. destruct H as [X|content ls out log e X T H].
    + rewrite X. unfold exit_with. cbn. split; [destruct v; reflexivity|reflexivity].
    + rewrite X, (text_ok _ _ T). cbn [io_bind]. pose proof (loop_flat k width fields fs v f U _ _ _ _ _ H) as R.
      destruct (flat_loop k width fields fs v f 1 ls) as [p q]. cbn [fst snd] in *. unfold tell, reading.
      destruct e; cbn [flat_result] in *; destruct R as (-> & R); (split; [destruct v; reflexivity|exact R]).
Qed.
Definition flat_fs : fsys := fun n => if eqb n (lit "a") then Some (lit "R X" ++ [10] ++ lit "# no" ++ [10] ++ lit "$ b" ++ [10] ++ lit "  Y")
                                      else if eqb n (lit "b") then Some (lit "$ nowhere") else None.
(*@ Example C189_account_ex :
  fst (read_flat ArgusCls 120 DEFAULT_FIELDS flat_fs true (lit "a")) = [OutL (lit "Reading a..."); OutL (lit "Skipping meta-comment, file a, line 2")] /\
  (exists cs, snd (read_flat ArgusCls 120 DEFAULT_FIELDS flat_fs true (lit "a")) = Ok cs /\ map c_line cs = [lit "R X"; lit "$ b"; lit "  Y"] /\ map c_linenum cs = [1; 3; 4]) /\
  read_flat ArgusCls 120 DEFAULT_FIELDS flat_fs false (lit "b") = ([ErrL (lit "File ""nowhere"" does not exist")], Err SystemExit) /\
  read_flat ArgusCls 120 DEFAULT_FIELDS (fun _ => Some (lit "$  ")) false (lit "b") = ([], Err IndexError).
Proof.
  split; [vm_compute; reflexivity|]. split; [eexists; split; [vm_compute; reflexivity|split; reflexivity]|].
  split; vm_compute; reflexivity.
Qed. @*)

(** one card for each line but the comments when the files of the $ lines are there *)
Lemma there_all fs f lines : includes_there fs lines -> forall i, exists out log,
  flat_lines fs f i lines out log AllRead /\
  out = map (fun p => (f, fst p, snd p)) (filter (fun p => not_comment (snd p)) (number_from i lines)).
Proof.
  induction lines as [|line rest IH]; intros T i; [do 2 eexists; split; [constructor|reflexivity]|].
  destruct (IH (fun r I => T r (or_intror I)) (i + 1)) as (out & log & H & E).
  cbn [number_from filter snd].
  destruct (line_kinds line) as [r -> _|r -> _ _|O A _].
  - do 2 eexists. split; [apply fl_comment; exact H|exact E].
  - destruct (T r (or_introl eq_refl)) as (inc & W & X). do 2 eexists. split; [eapply fl_include; eassumption|].
    cbn. rewrite E. reflexivity.
  - do 2 eexists. split; [apply fl_line; [exact O|exact H]|].
    rewrite not_comment_ok, A. cbn. rewrite E. reflexivity.
Qed.
Lemma C189_cards_pf : forall k width fields fs v f content ls, usable_layout k width fields -> fs f = Some content -> text_lines content ls ->
  includes_there fs ls ->
  exists cs, snd (read_flat k width fields fs v f) = Ok cs /\
    Forall2 (fun p c => card_new k (snd p) width fields (Some f) (fst p) = Ok c) (kept ls) cs.
Proof.
  intros k width fields fs v f content ls U X T I.
  destruct (there_all fs f ls I 1) as (out & log & H & E).
  pose proof (proj2 (C189_account_pf k width fields fs v f U) _ _ _ (ff_file _ _ _ _ _ _ _ X T H)) as (_ & cs & R & F).
  exists cs. split; [exact R|]. subst out. clear - F. unfold kept.
  remember (filter _ _) as l. clear Heql. revert cs F.
  induction l as [|p l IH]; intros cs F; inversion F; subst; constructor; auto.
Qed.
(*@ Example C189_cards_ex : includes_there flat_fs [lit "R X" ++ [10]; lit "# no" ++ [10]; lit "$ b" ++ [10]; lit "  Y"] /\
  kept [lit "R X" ++ [10]; lit "# no" ++ [10]; lit "$ b" ++ [10]; lit "  Y"] = [(1, lit "R X" ++ [10]); (3, lit "$ b" ++ [10]); (4, lit "  Y")].
Proof.
  split; [|reflexivity]. intros r I. destruct I as [I|[I|[I|[I|[]]]]]; try discriminate. injection I as <-.
  exists (lit "b"). split; [apply first_word_ok; eexists; vm_compute; reflexivity|discriminate].
Qed. @*)

(** a file without $ lines reads the same either way *)
Lemma C189_same_pf : forall fuel k width fields fs v f,
  (forall content ls r, fs f = Some content -> text_lines content ls -> ~ In (36 :: r) ls) ->
  read_flat k width fields fs v f = read_run (S fuel) k width fields fs v f.
Proof.
  intros fuel k width fields fs v f N. rewrite read_run_S. unfold read_flat. destruct (fs f) as [content|] eqn:X; [|reflexivity].
  assert (M : forall r, ~ In (36 :: r) (readlines content)).
  { intros r. apply (N content _ r eq_refl). apply C144_lines_pf. reflexivity. }
  cbn [io_bind]. generalize 1 as i. enough (G : forall ls, (forall r, ~ In (36 :: r) ls) -> forall i,
    flat_loop k width fields fs v f i ls = src_run (read_run fuel k width fields fs v) k width fields fs v f i ls) by (intros i; rewrite (G _ M i); reflexivity).
  clear. induction ls as [|line rest IH]; intros M i; [reflexivity|].
  assert (M' : forall r, ~ In (36 :: r) rest) by (intros r I; apply (M r); right; exact I).
  specialize (IH M' (i + 1)). cbn [flat_loop src_run]. rewrite IH.
  destruct (line_kinds line) as [r -> A|r -> _ _|O A B].
  - rewrite A. reflexivity.
  - destruct (M r); left; reflexivity.
  - rewrite A, B. reflexivity.
Qed.
(*@ Example C189_same_ex : (forall content ls r, (fun _ : str => Some (lit "A" ++ [10] ++ lit "B $")) (lit "x") = Some content -> text_lines content ls -> ~ In (36 :: r) ls).
Proof. intros content ls r [= <-] T I. apply text_ok in T. subst ls. vm_compute in I. destruct I as [I|[I|[]]]; discriminate. Qed. @*)

(** what the included files contain does not matter *)
Lemma C189_alone_pf : forall k width fields fs fs' v f, fs f = fs' f -> (forall g, fs g = None <-> fs' g = None) ->
  read_flat k width fields fs v f = read_flat k width fields fs' v f.
Proof.
  intros k width fields fs fs' v f E X. unfold read_flat. rewrite E. destruct (fs' f) as [content|]; [|reflexivity].
  cbn [io_bind]. enough (G : forall ls i, flat_loop k width fields fs v f i ls = flat_loop k width fields fs' v f i ls) by (rewrite G; reflexivity).
  induction ls as [|line rest IH]; intros i; [reflexivity|]. cbn [flat_loop]. rewrite IH.
  destruct (startswith line (lit "#")); [reflexivity|]. destruct (startswith line (lit "$")); [|reflexivity].
  destruct (py_index _ 0) as [inc|e]; cbn [io_bind]; [|reflexivity].
  specialize (X inc). destruct (fs inc), (fs' inc); try reflexivity.
  - destruct X as [_ X]. discriminate (X eq_refl).
  - destruct X as [X _]. discriminate (X eq_refl).
Qed.
(*@ Example C189_alone_ex : exists fs' : fsys, flat_fs (lit "a") = fs' (lit "a") /\ (forall g, flat_fs g = None <-> fs' g = None) /\ flat_fs (lit "b") <> fs' (lit "b").
Proof.
  exists (fun n => if eqb n (lit "a") then flat_fs (lit "a") else if eqb n (lit "b") then Some [] else None).
  split; [reflexivity|]. split; [|discriminate]. intros g. unfold flat_fs at 1. destruct (eqb g (lit "a")); [split; discriminate|].
  destruct (eqb g (lit "b")); [split; discriminate|tauto].
Qed. @*)
