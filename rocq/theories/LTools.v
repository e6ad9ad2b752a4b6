From Coq Require Import ZArith List Bool Lia Permutation.
From Verif Require Import Py LPy LSort MInstructions LInstructions MCards SCards LCards LDeck MSymbols SSymbols LSymBuild LSymQuery MTools STools.
#[local] Arguments Z.add : simpl never.
#[local] Arguments Z.sub : simpl never.
#[local] Arguments Z.mul : simpl never.
#[local] Arguments Z.pow : simpl never.

(** *** cards read from files *)
Definition tool_card (c : card) : Prop :=
  (exists o, card_get c "instruction" = Ok (rstr o)) /\ (exists o, card_get c "column8" = Ok (rstr o)) /\
  (exists o, card_get c "operation" = Ok (rstr o)) /\ exists f, c_filename c = Some f.
Lemma inst_rstr o : exists o', inst_of (rstr o) = rstr o'.
Proof.
  destruct o as [s|]; [|exists None; reflexivity]. cbn [rstr inst_of].
  match goal with |- context [if ?b then _ else _] => destruct b end; eexists (Some _); reflexivity.
Qed.
Lemma card_tool line f i c : startswith line (lit "#") = false ->
  card_new ArgusCls line 120 [1; 2; 8; 9; 20; 33; 47; 61; 76; 81] (Some f) i = Ok c -> tool_card c.
Proof.
  intros C H. apply comment_false in C. cbn [card_new] in H. rewrite (argus_ok _ _ _ _ _ C default_layout) in H.
  injection H as <-. split; [|split; [|split]].
  - destruct (inst_rstr (stripped (field_text line 120 [1; 2; 8; 9; 20; 33; 47; 61; 76; 81] 4))) as (o' & E).
    getf. destruct (is_remark _); [exists None; reflexivity|]. exists o'. rewrite <- E. reflexivity.
  - getf. destruct (is_remark _); eexists; reflexivity.
  - getf. destruct (is_remark _); [exists None; reflexivity|eexists; reflexivity].
  - eexists. reflexivity.
Qed.
Lemma source_tool fuel fs filename cs : source_cards fuel fs filename cs -> Forall tool_card cs.
Proof.
  intros (d & sec & c8 & H & ->). apply C68_log_section_pf in H. destruct H as [H _].
  destruct filename as [|x r]; [discriminate H|].
  destruct (C64_deck_file_pf _ _ (x :: r) _ _ _ _ ltac:(discriminate) H) as (out & X & F & _).
  pose proof (proj1 (expand_noncomment fs) _ _ X) as NC. clear X H. revert F NC. generalize (d_cards d) as cs.
  intros cs F NC. induction F as [|[[g i] l] c out cs H _ IH]; [constructor|].
  inversion NC as [|? ? N1 N2]; subst. constructor; [|exact (IH N2)]. exact (card_tool _ _ _ _ N1 H).
Qed.
Lemma all_tool fuel fs files cs : all_cards fuel fs files cs -> Forall tool_card cs.
Proof.
  intros (css & F & ->). induction F as [|f cs files css H _ IH]; [constructor|]. cbn [concat].
  apply Forall_app. split; [eapply source_tool; exact H|exact IH].
Qed.
Lemma load_ok fuel fs f cs : source_cards fuel fs f cs -> load fuel fs f = Ok cs.
Proof.
  intros (d & sec & c8 & E & ->). unfold load, DEFAULT_WIDTH, DEFAULT_FIELDS. rewrite E. reflexivity.
Qed.
Lemma load_inv fuel fs f cs : load fuel fs f = Ok cs -> source_cards fuel fs f cs.
Proof.
  unfold load. destruct (argus_deck_new fuel fs None (Some f) DEFAULT_WIDTH DEFAULT_FIELDS ArgusCls) as [[[d sec] c8]|] eqn:E;
    cbn [bind]; [|discriminate]. intros H. exists d, sec, c8. split; [exact E|]. cbn [fst] in H. congruence.
Qed.
Lemma fold_r_app {S A} (f : S -> A -> res S) a : forall b s, fold_r f (a ++ b) s = (do s' <- fold_r f a s; fold_r f b s').
Proof.
  induction a as [|x a IH]; intros b s; [reflexivity|]. cbn [app fold_r].
  destruct (f s x) as [s'|e]; cbn [bind]; [apply IH|reflexivity].
Qed.
Lemma fold_files {S} (step : S -> card -> res S) fuel fs files : forall css s, Forall2 (source_cards fuel fs) files css ->
  fold_r (fun s f => do cs <- load fuel fs f; fold_r step cs s) files s = fold_r step (concat css) s.
Proof.
  induction files as [|f files IH]; intros css s F; inversion F as [|? cs ? css' H F']; subst; [reflexivity|].
  cbn [concat fold_r]. rewrite fold_r_app. rewrite (load_ok _ _ _ _ H). cbn [bind].
  destruct (fold_r step cs s) as [s'|e]; cbn [bind]; [apply IH; exact F'|reflexivity].
Qed.
Lemma fold_files_inv {S} (step : S -> card -> res S) fuel fs files : forall s s',
  fold_r (fun s f => do cs <- load fuel fs f; fold_r step cs s) files s = Ok s' ->
  exists cs, all_cards fuel fs files cs.
Proof.
  intros s s' H. cut (exists css, Forall2 (source_cards fuel fs) files css);
    [intros (css & F); exists (concat css), css; auto|].
  revert s H. induction files as [|f files IH]; intros s H; [exists []; constructor|]. cbn [fold_r] in H.
  destruct (load fuel fs f) as [cs|] eqn:E; cbn [bind] in H; [|discriminate].
  destruct (fold_r step cs s) as [s1|]; cbn [bind] in H; [|discriminate].
  destruct (IH _ H) as (css & F). exists (cs :: css). constructor; [apply load_inv; exact E|exact F].
Qed.

(** *** counting *)
Lemma count_unique {A} (P : A -> Prop) l n m : count_of P l n -> count_of P l m -> n = m.
Proof.
  intros H. revert m. induction H as [|x l n Y H IH|x l n Y H IH]; intros m K; inversion K; subst; try contradiction;
    [reflexivity|f_equal; apply IH; assumption|apply IH; assumption].
Qed.
Lemma count_pos {A} (P : A -> Prop) l n : count_of P l n -> 0 <= n /\ (n = 0 <-> forall x, In x l -> ~ P x).
Proof.
  induction 1 as [|x l n Y H IH|x l n Y H IH].
  - split; [lia|]. split; [intros _ x []|reflexivity].
  - destruct IH as [I1 I2]. split; [lia|]. split; [lia|]. intros N. destruct (N x (or_introl eq_refl) Y).
  - destruct IH as [I1 I2]. split; [exact I1|]. rewrite I2. split; intros N y.
    + intros [<-|I]; [exact Y|exact (N y I)].
    + intros I. apply N. right. exact I.
Qed.
Lemma sum_dset d m n : dget d m = Some n -> NoDup (dkeys d) -> sum_counts (dset d m (n + 1)) = sum_counts d + 1.
Proof.
  unfold sum_counts. induction d as [|[k v] d IH]; intros E ND; [discriminate|]. cbn [dget dset] in *.
  destruct (eqb k m) eqn:EK.
  - assert (v = n) by congruence. subst v. cbn [fold_right snd]. lia.
  - cbn [fold_right snd]. inversion ND; subst. rewrite IH by assumption. lia.
Qed.

(** *** C87 *)
Definition ci_inv (cs : list card) (s : cistate) : Prop :=
  ci_lines s = zlen cs /\ count_of instr_card cs (ci_instrs s) /\
  count_of (fun c => ~ starred c /\ exists m, instr_is c m /\ ~ In m INSTRUCTIONS) cs (ci_errs s) /\
  dkeys (ci_tab s) = INSTRUCTIONS /\
  (forall m n, dget (ci_tab s) m = Some n -> count_of (fun c => ~ starred c /\ instr_is c m) cs n) /\
  exists a, count_of (fun c => starred c /\ instr_card c) cs a /\
    ci_instrs s = a + ci_errs s + sum_counts (ci_tab s).
Lemma NoDup_INSTR : NoDup INSTRUCTIONS.
Proof. apply C50_tables_disjoint_pf. Qed.
Lemma ci_init_inv : ci_inv [] ci_init.
Proof.
  unfold ci_init, ci_inv. cbn [ci_lines ci_instrs ci_tab ci_errs].
  set (d := fold_left (fun d m => dset d m 0) INSTRUCTIONS []).
  assert (K : dkeys d = INSTRUCTIONS) by (vm_compute; reflexivity).
  assert (Z0 : forallb (fun r => snd r =? 0) d = true) by (vm_compute; reflexivity).
  clearbody d. rewrite forallb_forall in Z0.
  split; [reflexivity|]. split; [constructor|]. split; [constructor|]. split; [exact K|]. split.
  - intros m n E. apply dget_Some_In in E. specialize (Z0 _ E). cbn [snd] in Z0.
    assert (n = 0) as -> by lia. constructor.
  - exists 0. split; [constructor|]. clear K. unfold sum_counts. induction d as [|r d IH]; [reflexivity|]. cbn [fold_right].
    specialize (IH ltac:(intros x I; apply Z0; right; exact I)).
    assert (E := Z0 r (or_introl eq_refl)). lia.
Qed.
Lemma dset_keys {V} (d : dict str V) m v w : dget d m = Some v -> dkeys (dset d m w) = dkeys d.
Proof.
  intros E. unfold dkeys. induction d as [|[k x] d IH]; [discriminate|]. cbn [dget dset] in *. destruct (eqb k m) eqn:EK.
  - cbn [map fst]. apply eqb_ok in EK. congruence.
  - cbn [map fst]. rewrite IH by exact E. reflexivity.
Qed.
Lemma instr_unique c m m' : instr_is c m -> instr_is c m' -> m = m'.
Proof. intros [_ A] [_ B]. congruence. Qed.
Lemma ci_step o cs s c : tool_card c -> ci_inv cs s -> exists s', ci_card o s c = Ok s' /\ ci_inv (cs ++ [c]) s'.
Proof.
  intros ((oi & EI) & (o8 & E8) & _) (I1 & I2 & I3 & I4 & I5 & a & I6 & I7).
  assert (NDT : NoDup (dkeys (ci_tab s))) by (rewrite I4; exact NoDup_INSTR).
  assert (L : ci_lines s + 1 = zlen (cs ++ [c])) by (rewrite zlen_app; change (zlen [c]) with 1; lia).
  unfold ci_card. rewrite EI. cbn [bind]. cbv zeta. cbn [ci_lines ci_instrs ci_tab ci_errs ci_out].
  assert (NI : truthy (rstr oi) = false -> ~ instr_card c).
  { intros T (m & N & E). rewrite EI in E. assert (rstr oi = RStr m) as R by congruence. rewrite R in T. cbn [truthy] in T.
    rewrite eqb_neq in T by exact N. discriminate. }
  destruct (truthy (rstr oi)) eqn:T; cbn [negb].
  - destruct oi as [m|]; [|discriminate]. cbn [rstr truthy] in T.
    assert (M : instr_is c m).
    { split; [|exact EI]. intros ->. discriminate. }
    rewrite E8. cbn [bind].
    destruct (is_str (rstr o8) "*") eqn:S8.
    + assert (ST : starred c) by (unfold starred; rewrite E8; f_equal; apply is_str_ok; exact S8).
      eexists. split; [reflexivity|]. unfold ci_inv. cbn [ci_lines ci_instrs ci_tab ci_errs].
      split; [exact L|]. split; [eapply count_snoc; [exact I2|left; split; [exists m; exact M|lia]]|].
      split; [eapply count_snoc; [exact I3|right; split; [tauto|reflexivity]]|]. split; [exact I4|].
      split; [intros x n E; eapply count_snoc; [exact (I5 x n E)|right; split; [tauto|reflexivity]]|].
      exists (a + 1). split; [|lia]. eapply count_snoc; [exact I6|left; split; [split; [exact ST|exists m; exact M]|lia]].
    + assert (ST : ~ starred c).
      { unfold starred. intros X. rewrite E8 in X. assert (R : rstr o8 = RStr (lit "*")) by congruence.
        apply is_str_ok in R. congruence. }
      cbn [rstr]. destruct (dget (ci_tab s) m) as [n|] eqn:EM.
      * assert (IN : In m INSTRUCTIONS).
        { rewrite <- I4. apply dget_In. unfold dmem. rewrite EM. reflexivity. }
        assert (INB : inb m INSTRUCTIONS = true) by (apply inb_In; exact IN). rewrite INB. rewrite andb_false_r.
        eexists. split; [reflexivity|]. unfold ci_inv. cbn [ci_lines ci_instrs ci_tab ci_errs].
        split; [exact L|]. split; [eapply count_snoc; [exact I2|left; split; [exists m; exact M|lia]]|].
        split; [eapply count_snoc; [exact I3|right; split; [|reflexivity]]|].
        { intros (_ & m' & M' & N'). rewrite <- (instr_unique _ _ _ M M') in N'. contradiction. }
        split; [rewrite (dset_keys _ _ _ _ EM); exact I4|]. split.
        -- intros x k E. destruct (eq_dec_b x m) as [->|NE].
           ++ rewrite dget_dset_eq in E. assert (k = n + 1) as -> by congruence.
              eapply count_snoc; [exact (I5 m n EM)|left; split; [split; assumption|reflexivity]].
           ++ rewrite dget_dset_ne in E by exact NE.
              eapply count_snoc; [exact (I5 x k E)|right; split; [|reflexivity]].
              intros [_ X]. apply NE. exact (instr_unique _ _ _ X M).
        -- exists a. split; [eapply count_snoc; [exact I6|right; split; [tauto|reflexivity]]|].
           rewrite (sum_dset _ _ _ EM NDT). lia.
      * assert (IN : ~ In m INSTRUCTIONS).
        { rewrite <- I4. intros X. apply dget_In in X. unfold dmem in X. rewrite EM in X. discriminate. }
        eexists. split; [reflexivity|]. unfold ci_inv. cbn [ci_lines ci_instrs ci_tab ci_errs].
        split; [exact L|]. split; [eapply count_snoc; [exact I2|left; split; [exists m; exact M|lia]]|].
        split; [eapply count_snoc; [exact I3|left; split; [split; [exact ST|exists m; auto]|reflexivity]]|].
        split; [exact I4|]. split.
        -- intros x k E. eapply count_snoc; [exact (I5 x k E)|right; split; [|reflexivity]].
           intros [_ X]. rewrite (instr_unique _ _ _ X M) in E. congruence.
        -- exists a. split; [eapply count_snoc; [exact I6|right; split; [tauto|reflexivity]]|lia].
  - assert (NC := NI eq_refl). assert (NM : forall m, ~ instr_is c m) by (intros m X; apply NC; exists m; exact X).
    eexists. split; [reflexivity|]. unfold ci_inv. cbn [ci_lines ci_instrs ci_tab ci_errs].
    split; [exact L|]. split; [eapply count_snoc; [exact I2|right; auto]|].
    split; [eapply count_snoc; [exact I3|right; split; [|reflexivity]]|].
    { intros (_ & m & X & _). exact (NM m X). }
    split; [exact I4|].
    split; [intros x n E; eapply count_snoc; [exact (I5 x n E)|right; split; [|reflexivity]]|].
    { intros [_ X]. exact (NM x X). }
    exists a. split; [|exact I7]. eapply count_snoc; [exact I6|right; split; [tauto|reflexivity]].
Qed.
Lemma ci_fold o cs : forall done s, Forall tool_card cs -> ci_inv done s ->
  exists s', fold_r (ci_card o) cs s = Ok s' /\ ci_inv (done ++ cs) s'.
Proof.
  induction cs as [|c cs IH]; intros done s F I.
  - exists s. rewrite app_nil_r. auto.
  - inversion F as [|? ? H F']; subst. destruct (ci_step o done s c H I) as (s1 & E & I1).
    destruct (IH _ _ F' I1) as (s' & E' & I'). exists s'. cbn [fold_r]. rewrite E. cbn [bind].
    rewrite <- app_assoc in I'. auto.
Qed.
Lemma ci_files fuel fs o args cs : all_cards fuel fs args cs ->
  exists s, fold_r (ci_file fuel fs o) args ci_init = Ok s /\ ci_inv cs s.
Proof.
  intros A. assert (T := all_tool _ _ _ _ A). destruct A as (css & F & ->).
  destruct (ci_fold o (concat css) [] ci_init T ci_init_inv) as (s & E & I). exists s. split; [|exact I].
  rewrite <- E. exact (fold_files (ci_card o) fuel fs args css ci_init F).
Qed.
Lemma C87_accounts_pf : forall pct fuel fs o args cs s out,
  all_cards fuel fs args cs -> check_instructions pct fuel fs o args = Ok (s, out) ->
  ci_lines s = zlen cs /\
  count_of instr_card cs (ci_instrs s) /\
  count_of (fun c => ~ starred c /\ exists m, instr_is c m /\ ~ In m INSTRUCTIONS) cs (ci_errs s) /\
  (forall m n, dget (ci_tab s) m = Some n -> count_of (fun c => ~ starred c /\ instr_is c m) cs n) /\
  (forall m, In m INSTRUCTIONS <-> dget (ci_tab s) m <> None) /\
  (exists a, count_of (fun c => starred c /\ instr_card c) cs a /\
    ci_instrs s = a + ci_errs s + sum_counts (ci_tab s)) /\
  exists pre, out = pre ++ [if ci_errs s =? 1 then lit "1 error encountered." else str_of_Z (ci_errs s) ++ lit " errors encountered."].
Proof.
  intros pct fuel fs o args cs s out A H. destruct (ci_files fuel fs o args cs A) as (s' & E & I).
  unfold check_instructions in H. destruct args as [|f args]; [discriminate|]. rewrite E in H. cbn [bind] in H.
  destruct (ci_report pct o s') as [out'|] eqn:R; cbn [bind] in H; [|discriminate].
  assert (s' = s) by congruence. assert (out' = out) by congruence. subst s' out'.
  destruct I as (I1 & I2 & I3 & I4 & I5 & I6). split; [exact I1|]. split; [exact I2|]. split; [exact I3|]. split; [exact I5|].
  split; [|split; [exact I6|]].
  - intros m. rewrite <- I4. rewrite <- dget_In. unfold dmem. destruct (dget (ci_tab s) m); split; congruence.
  - unfold ci_report in R. destruct (if o_count o then _ else _) as [counts|]; cbn [bind] in R; [|discriminate].
    cbv zeta in R. apply (f_equal (fun r => match r with Ok x => x | Err _ => [] end)) in R. cbn beta iota in R.
    rewrite <- R. rewrite !app_assoc. eexists. reflexivity.
Qed.
(*@ Example C87_accounts_ex : exists s out,
  check_instructions (fun _ _ => []) 2
    (fun f => if eqb f (lit "a") then Some (lit "                   TX,A         B" ++ [10] ++ lit "       *           TX           B" ++ [10] ++
       lit "                   FOO" ++ [10] ++ lit "R      *REMARK" ++ [10]) else None)
    (mkciopts false false true false false false) [lit "a"] = Ok (s, out) /\
  ci_lines s = 4 /\ ci_instrs s = 3 /\ ci_errs s = 1 /\ dget (ci_tab s) (lit "TX") = Some 1 /\
  last out [] = lit "1 error encountered.".
Proof. eexists. eexists. split; [vm_compute; reflexivity|]. vm_compute. auto. Qed. @*)
Lemma C87_invalid_option_pf : forall pct pct' fuel fs o o' args s out s' out',
  check_instructions pct fuel fs o args = Ok (s, out) -> check_instructions pct' fuel fs o' args = Ok (s', out') ->
  ci_errs s = ci_errs s' /\ ci_instrs s = ci_instrs s' /\ ci_lines s = ci_lines s' /\
  forall m, dget (ci_tab s) m = dget (ci_tab s') m.
Proof.
  intros pct pct' fuel fs o o' args s out s' out' H H'.
  assert (A : exists cs, all_cards fuel fs args cs).
  { unfold check_instructions in H. destruct args as [|f args]; [discriminate|].
    destruct (fold_r (ci_file fuel fs o) (f :: args) ci_init) as [s1|] eqn:E; cbn [bind] in H; [|discriminate].
    exact (fold_files_inv (ci_card o) fuel fs (f :: args) ci_init s1 E). }
  destruct A as (cs & A).
  destruct (C87_accounts_pf _ _ _ _ _ _ _ _ A H) as (A1 & A2 & A3 & A4 & A5 & _).
  destruct (C87_accounts_pf _ _ _ _ _ _ _ _ A H') as (B1 & B2 & B3 & B4 & B5 & _).
  split; [eapply count_unique; eassumption|]. split; [eapply count_unique; eassumption|]. split; [congruence|].
  intros m. specialize (A5 m). specialize (B5 m).
  destruct (dget (ci_tab s) m) as [n|] eqn:E; destruct (dget (ci_tab s') m) as [n'|] eqn:E'; try tauto.
  - f_equal. eapply count_unique; eauto.
  - exfalso. apply B5; [apply A5; discriminate|reflexivity].
  - exfalso. apply A5; [apply B5; discriminate|reflexivity].
Qed.
(*@ Example C87_invalid_option_ex :
  let fs := fun f => if eqb f (lit "a") then Some (lit "                   FOO" ++ [10]) else None in
  exists s out s' out',
  check_instructions (fun _ _ => []) 2 fs (mkciopts false false true false false false) [lit "a"] = Ok (s, out) /\
  check_instructions (fun _ _ => []) 2 fs (mkciopts false true false true false false) [lit "a"] = Ok (s', out') /\
  ci_errs s = 1 /\ ci_errs s' = 1.
Proof. do 4 eexists. split; [vm_compute; reflexivity|]. split; [vm_compute; reflexivity|]. split; reflexivity. Qed. @*)
Lemma C87_total_pf : forall pct fuel fs o args cs, args <> [] -> all_cards fuel fs args cs -> o_count o = false ->
  exists s out, check_instructions pct fuel fs o args = Ok (s, out).
Proof.
  intros pct fuel fs o args cs NE A C. destruct (ci_files fuel fs o args cs A) as (s & E & I).
  unfold check_instructions. destruct args as [|f args]; [contradiction|]. rewrite E. cbn [bind]. unfold ci_report. rewrite C.
  cbn [bind]. eexists. eexists. reflexivity.
Qed.
(*@ Example C87_total_ex : exists s out,
  check_instructions (fun _ _ => []) 1 (fun f => Some []) (mkciopts true false true true true true) [lit "a"; lit "b"] = Ok (s, out).
Proof. eexists. eexists. vm_compute. reflexivity. Qed. @*)

(** *** C99 *)
Lemma mapr_ok {A B} (f : A -> res B) (g : A -> B) l : (forall x, In x l -> f x = Ok (g x)) -> mapr f l = Ok (map g l).
Proof.
  induction l as [|x l IH]; intros H; [reflexivity|]. cbn [mapr map]. rewrite H by (left; reflexivity). cbn [bind].
  rewrite IH by (intros y I; apply H; right; exact I). reflexivity.
Qed.
Definition ci_table_rows (o : ciopts) (s : cistate) : list (str * Z) :=
  filter (fun r => (o_unused o && negb (snd r =? 0)) || negb (o_unused o))
         (if o_sort o then freq_sorted (ci_tab s) else by_name (ci_tab s)).
Lemma by_name_In d m n : In (m, n) (by_name d) <-> dget d m = Some n.
Proof.
  unfold by_name. rewrite in_map_iff. split.
  - intros (x & E & I). assert (x = m) by congruence. subst x. fold (get_keys d) in I. apply keys_In in I.
    apply dget_In in I. unfold dmem in I. destruct (dget d m) as [v|]; [congruence|discriminate].
  - intros E. exists m. rewrite E. split; [reflexivity|]. fold (get_keys d). apply keys_In. apply dget_In. unfold dmem. rewrite E.
    reflexivity.
Qed.
Lemma by_name_keys d : map fst (by_name d) = get_keys d.
Proof. unfold by_name. rewrite map_map. cbn [fst]. apply map_id. Qed.
Lemma SS_filter {A} (R : A -> A -> Prop) (f : A -> bool) l : StronglySorted R l -> StronglySorted R (filter f l).
Proof.
  induction 1 as [|x l S IH F]; [constructor|]. cbn [filter]. destruct (f x); [|exact IH]. constructor; [exact IH|].
  rewrite Forall_forall in *. intros y I. apply F. apply filter_In in I. apply I.
Qed.
Lemma SS_map {A B} (R : B -> B -> Prop) (f : A -> B) l : StronglySorted (fun a b => R (f a) (f b)) l -> StronglySorted R (map f l).
Proof.
  induction 1 as [|x l S IH F]; [constructor|]. cbn [map]. constructor; [exact IH|].
  rewrite Forall_forall in *. intros y I. apply in_map_iff in I. destruct I as (z & <- & I). apply F. exact I.
Qed.
Lemma SS_unmap {A B} (R : B -> B -> Prop) (f : A -> B) l : StronglySorted R (map f l) -> StronglySorted (fun a b => R (f a) (f b)) l.
Proof.
  induction l as [|x l IH]; intros S; [constructor|]. cbn [map] in S. inversion S as [|? ? S' F]; subst.
  constructor; [exact (IH S')|]. rewrite Forall_forall in *. intros y I. apply F. apply in_map. exact I.
Qed.
Lemma NoDup_fst_filter {A B} (f : A * B -> bool) l : NoDup (map fst l) -> NoDup (map fst (filter f l)).
Proof.
  induction l as [|x l IH]; intros N; [constructor|]. cbn [map] in N. inversion N as [|? ? N1 N2]; subst. cbn [filter].
  destruct (f x); [|exact (IH N2)]. cbn [map]. constructor; [|exact (IH N2)].
  intros I. apply N1. apply in_map_iff in I. destruct I as (y & E & I). rewrite <- E. apply in_map. apply filter_In in I. apply I.
Qed.
Lemma before_cons {A} (l : list A) z x y : before l x y -> before (z :: l) x y.
Proof. intros (p & q & r & ->). exists (z :: p), q, r. reflexivity. Qed.
Lemma before_first {A} (l : list A) x y : In y l -> before (x :: l) x y.
Proof. intros I. apply in_split in I. destruct I as (q & r & ->). exists [], q, r. reflexivity. Qed.
Lemma before_map {A B} (f : A -> B) l x y : before l x y -> before (map f l) (f x) (f y).
Proof. intros (p & q & r & ->). exists (map f p), (map f q), (map f r). rewrite map_app. cbn [map]. rewrite map_app. reflexivity. Qed.
Lemma SS_weaken {A} (R S : A -> A -> Prop) l : (forall a b, R a b -> S a b) -> StronglySorted R l -> StronglySorted S l.
Proof. intros W H. induction H as [|x l H IH F]; constructor; [exact IH|]. eapply Forall_impl; [|exact F]. intros y. apply W. Qed.
Definition ranked (l : list (str * Z)) (a b : str * Z) : Prop := snd b < snd a \/ (snd a = snd b /\ before l a b).
Lemma insert_ranked l x m : (forall y, In y m -> In y l) -> StronglySorted (ranked (x :: l)) m ->
  StronglySorted (ranked (x :: l)) (insert_by (fun a b : str * Z => snd b <=? snd a) x m).
Proof.
  induction m as [|y m IH]; intros IN S; cbn [insert_by]; [repeat constructor|]. inversion S as [|y' m' S' F]; subst. rewrite Forall_forall in F.
  destruct (Z.leb_spec (snd y) (snd x)) as [L|L].
  - constructor; [exact S|]. apply Forall_forall. intros z I. pose proof (before_first l x z (IN z I)) as B.
    assert (L2 : snd z <= snd x) by (destruct I as [<-|I]; [exact L|destruct (F z I) as [G|[G _]]; lia]).
    destruct (Z.eq_dec (snd x) (snd z)) as [E|E]; [right; auto|left; lia].
  - constructor; [apply IH; [intros z I; apply IN; right; exact I|exact S']|].
    apply Forall_forall. intros z I. apply (Permutation_in _ (Permutation_sym (insert_perm _ x m))) in I. destruct I as [<-|I]; [left; exact L|exact (F z I)].
Qed.
Lemma sort_ranked l : StronglySorted (ranked l) (sort_by (fun a b : str * Z => snd b <=? snd a) l).
Proof.
  induction l as [|x l IH]; cbn [sort_by]; [constructor|]. apply insert_ranked.
  - intros y I. apply sort_In in I. exact I.
  - eapply SS_weaken; [|exact IH]. intros a b [L|[E B]]; [left; exact L|right; split; [exact E|apply before_cons; exact B]].
Qed.
Lemma rows_spec o s : dkeys (ci_tab s) = INSTRUCTIONS -> NoDup (dkeys (ci_tab s)) ->
  NoDup (map fst (ci_table_rows o s)) /\
  (forall m n, In (m, n) (ci_table_rows o s) <-> dget (ci_tab s) m = Some n /\ (o_unused o = true -> n <> 0)) /\
  (if o_sort o then StronglySorted by_frequency (ci_table_rows o s)
   else StronglySorted (fun a b => str_lt (fst a) (fst b)) (ci_table_rows o s)).
Proof.
  intros K ND. unfold ci_table_rows.
  assert (P : forall m n, In (m, n) (if o_sort o then freq_sorted (ci_tab s) else by_name (ci_tab s)) <-> dget (ci_tab s) m = Some n).
  { intros m n. destruct (o_sort o); [|apply by_name_In]. unfold freq_sorted. rewrite sort_In.
    split; [apply In_dget; exact ND|apply dget_Some_In]. }
  split; [|split].
  - apply NoDup_fst_filter. destruct (o_sort o).
    + unfold freq_sorted. eapply Permutation_NoDup; [|exact ND]. apply Permutation_map. apply sort_perm.
    + rewrite by_name_keys. apply lt_nodup. apply sorted_lt_str. exact ND.
  - intros m n. rewrite filter_In, P. cbn [snd]. rewrite orb_true_iff, andb_true_iff, !negb_true_iff, Z.eqb_neq.
    destruct (o_unused o); intuition congruence.
  - destruct (o_sort o).
    + apply SS_filter. unfold freq_sorted. eapply SS_weaken; [|apply sort_ranked].
      intros x y [L|[E B]]; [left; exact L|right; split; [exact E|]]. rewrite <- K. unfold dkeys. apply before_map. exact B.
    + apply SS_filter. apply SS_unmap. rewrite by_name_keys. apply sorted_lt_str. exact ND.
Qed.
Lemma C99_count_refuted_pf : forall pct fuel fs o args cs, args <> [] -> all_cards fuel fs args cs ->
  o_count o = true -> o_unused o = false -> (forall c, In c cs -> ~ instr_card c) ->
  check_instructions pct fuel fs o args = Err ZeroDivisionError.
Proof.
  intros pct fuel fs o args cs NE A C U N. destruct (ci_files fuel fs o args cs A) as (s & E & I).
  unfold check_instructions. destruct args as [|f args]; [contradiction|]. rewrite E. cbn [bind]. unfold ci_report, ci_rows. rewrite C.
  fold (ci_table_rows o s). destruct I as (_ & I2 & _ & I4 & _). apply count_pos in I2.
  assert (I0 : ci_instrs s = 0) by (apply I2; exact N). rewrite I0, Z.eqb_refl.
  destruct (rows_spec o s I4 ltac:(rewrite I4; exact NoDup_INSTR)) as (_ & P & _).
  destruct (ci_table_rows o s) as [|r rows] eqn:ER; [|reflexivity]. exfalso.
  assert (X : In (lit "TX") INSTRUCTIONS) by (apply inb_In; vm_compute; reflexivity).
  rewrite <- I4 in X. apply dget_In in X. unfold dmem in X. destruct (dget (ci_tab s) (lit "TX")) as [n|] eqn:EX; [|discriminate].
  apply (proj2 (P (lit "TX") n)). split; [exact EX|]. congruence.
Qed.
(*@ Example C99_count_refuted_ex :
  check_instructions (fun _ _ => []) 1 (fun f => Some (lit "R      *ONLY A REMARK" ++ [10]))
    (mkciopts false true false false false false) [lit "a"] = Err ZeroDivisionError.
Proof. vm_compute. reflexivity. Qed. @*)
Lemma C99_count_partial_pf : forall pct fuel fs o args cs total, all_cards fuel fs args cs ->
  o_count o = true -> count_of instr_card cs total -> total <> 0 ->
  exists s out pre rows unused err,
    check_instructions pct fuel fs o args = Ok (s, out) /\
    out = pre ++ [10 :: lit "Source lines: " ++ str_of_Z (zlen cs); 10 :: lit "Instruction Frequencies:";
                  freq_line (lit "Total") total (lit "100.00")] ++
          map (fun r => freq_line (fst r) (snd r) (pct (snd r) total)) rows ++ unused ++ [err] /\
    NoDup (map fst rows) /\
    (forall m n, In (m, n) rows <-> In m INSTRUCTIONS /\ frequency cs m n /\ (o_unused o = true -> n <> 0)) /\
    (o_sort o = true -> StronglySorted by_frequency rows) /\
    (o_sort o = false -> StronglySorted (fun a b => str_lt (fst a) (fst b)) rows) /\
    (o_unused o = false -> unused = []) /\
    (o_unused o = true -> exists names, unused = (10 :: lit "Unused Instructions:") :: names /\
       StronglySorted str_lt names /\ forall m, In m names <-> In m INSTRUCTIONS /\ frequency cs m 0).
Proof.
  intros pct fuel fs o args cs total A C CT NZ. destruct (ci_files fuel fs o args cs A) as (s & E & I).
  assert (NE : args <> []).
  { intros ->. destruct A as (css & F & ->). inversion F; subst. inversion CT; subst. contradiction. }
  destruct I as (I1 & I2 & _ & I4 & I5 & _). assert (IT := count_unique _ _ _ _ I2 CT).
  assert (ND : NoDup (dkeys (ci_tab s))) by (rewrite I4; exact NoDup_INSTR).
  destruct (rows_spec o s I4 ND) as (R1 & R2 & R3).
  assert (G : forall m n, dget (ci_tab s) m = Some n <-> In m INSTRUCTIONS /\ frequency cs m n).
  { intros m n. split.
    - intros EM. split; [rewrite <- I4; apply dget_In; unfold dmem; rewrite EM; reflexivity|exact (I5 m n EM)].
    - intros [IM FM]. rewrite <- I4 in IM. apply dget_In in IM. unfold dmem in IM.
      destruct (dget (ci_tab s) m) as [n'|] eqn:EM; [|discriminate]. f_equal. eapply count_unique; [exact (I5 m n' EM)|exact FM]. }
  unfold check_instructions. destruct args as [|f args]; [contradiction|]. rewrite E. cbn [bind]. unfold ci_report, ci_rows. rewrite C.
  fold (ci_table_rows o s). rewrite IT. destruct (Z.eqb_spec total 0) as [|_]; [contradiction|].
  rewrite (mapr_ok _ (fun r => freq_line (fst r) (snd r) (pct (snd r) total))) by reflexivity. cbn [bind]. cbv zeta.
  exists s. eexists. exists (ci_out s), (ci_table_rows o s),
    (if o_unused o then (10 :: lit "Unused Instructions:") :: map fst (filter (fun r => snd r =? 0) (by_name (ci_tab s))) else []),
    (if ci_errs s =? 1 then lit "1 error encountered." else str_of_Z (ci_errs s) ++ lit " errors encountered.").
  split; [reflexivity|].
  split; [rewrite I1; apply f_equal; rewrite <- app_assoc; reflexivity|]. split; [exact R1|]. split; [|split; [|split; [|split]]].
  - intros m n. rewrite R2, G. tauto.
  - intros S. rewrite S in R3. exact R3.
  - intros S. rewrite S in R3. exact R3.
  - intros ->. reflexivity.
  - intros ->. eexists. split; [reflexivity|]. split.
    + apply SS_map. apply SS_filter. apply SS_unmap. rewrite by_name_keys. apply sorted_lt_str. exact ND.
    + intros m. rewrite in_map_iff. split.
      * intros ([m' n] & E' & I). apply filter_In in I. destruct I as [I Z0]. cbn [fst snd] in *. subst m'.
        apply by_name_In in I. apply G. rewrite I. f_equal. lia.
      * intros X. apply G in X. exists (m, 0). split; [reflexivity|]. apply filter_In. split; [apply by_name_In; exact X|reflexivity].
Qed.
(*@ Example C99_count_partial_ex : exists s out,
  check_instructions (fun a b => lit " 50.00") 2
    (fun f => if eqb f (lit "a") then Some (lit "                   TX,A         B" ++ [10] ++ lit "                   BA           B" ++ [10]) else None)
    (mkciopts false true false false true true) [lit "a"] = Ok (s, out) /\
  firstn 5 out = [10 :: lit "Source lines: 2"; 10 :: lit "Instruction Frequencies:"; lit "Total         2  100.00%";
                  lit "BA            1   50.00%"; lit "TX            1   50.00%"] /\
  nth 5 out [] = 10 :: lit "Unused Instructions:".
Proof. eexists. eexists. split; [vm_compute; reflexivity|]. split; reflexivity. Qed. @*)

(** *** C88 *)
Lemma li_match_ok opcode op : li_match opcode op = true <-> exists i, op_text op i /\ op_matches opcode i.
Proof.
  unfold li_match, op_text. set (i := filter (fun c => negb (c =? 32)) (strip op)).
  assert (EI : remove_char 32 (strip op) = i).
  { unfold remove_char, i. apply filter_ext. intros c. first [reflexivity | rewrite Z.eqb_sym; reflexivity]. }
  rewrite EI. clearbody i. clear EI.
  transitivity (op_matches opcode i); [|split; [intros H; exists i; auto|intros (j & -> & H); exact H]].
  rewrite orb_true_iff, andb_true_iff, eqb_ok, ends_ok, starts_ok. unfold op_matches.
  destruct (has_char 44 opcode) eqn:HO.
  - apply has_char_In in HO. rewrite andb_false_r. cbv zeta. split.
    + intros [->|[(p & E) (r & ->)]]; right; (split; [exact HO|]); [left; reflexivity|]. right. exists p, r. auto.
    + intros [[N _]|[_ [->|(p & r & E & ->)]]]; [contradiction|left; reflexivity|]. right. split; [exists p; exact E|exists r; reflexivity].
  - assert (NO : ~ In 44 opcode) by (rewrite <- has_char_In; congruence). rewrite andb_true_r.
    assert (NE : ~ exists r, opcode = r ++ lit ",").
    { intros (r & ->). apply NO. apply in_or_app. right. left. reflexivity. }
    destruct (has_char 44 i) eqn:HI.
    + apply has_char_In in HI. destruct (first_split 44 i HI) as (a & b & -> & NA). rewrite split_yes by exact NA. cbn [nth].
      split.
      * intros [<-|[X _]]; [|contradiction]. left. split; [exact NO|]. right. exists b. reflexivity.
      * intros [[_ [E|(r & E)]]|[X _]]; [|left|contradiction].
        -- exfalso. apply NO. rewrite <- E. apply in_or_app. right. left. reflexivity.
        -- assert (X : split_on 44 (a ++ 44 :: b) = split_on 44 (opcode ++ 44 :: r)) by (rewrite E; reflexivity).
           rewrite !split_yes in X by assumption. congruence.
    + assert (NI : ~ In 44 i) by (rewrite <- has_char_In; congruence). split.
      * intros [->|[X _]]; [|contradiction]. left. auto.
      * intros [[_ [->|(r & ->)]]|[X _]]; [left; reflexivity| |contradiction].
        exfalso. apply NI. apply in_or_app. right. left. reflexivity.
Qed.
Lemma li_step opcode details out c : opcode <> [] -> tool_card c ->
  (exists y, li_shows opcode details c y /\ li_card opcode details out c = Ok (out ++ [y])) \/
  ((forall y, ~ li_shows opcode details c y) /\ li_card opcode details out c = Ok out).
Proof.
  intros NO (_ & (o8 & E8) & (oo & EO) & f & EF). unfold li_card. rewrite EO. cbn [bind].
  assert (OP : forall y, li_shows opcode details c y -> exists op, oo = Some op /\ li_match opcode op = true).
  { intros y (_ & _ & op & i & E & T & M). rewrite EO in E. exists op. split; [destruct oo; cbn [rstr] in E; congruence|].
    apply li_match_ok. exists i. auto. }
  destruct oo as [op|]; cbn [rstr truthy].
  2:{ right. split; [|reflexivity]. intros y H. destruct (OP y H) as (op & X & _). discriminate. }
  destruct (eqb op []) eqn:EE; cbn [negb].
  - right. split; [|reflexivity]. apply eqb_ok in EE. subst op. intros y H. destruct (OP y H) as (op & X & M).
    assert (op = []) by congruence. subst op. apply li_match_ok in M. destruct M as (i & T & M). unfold op_text in T. cbn in T. subst i.
    destruct M as [[_ [M|(r & M)]]|[_ [M|(p & r & _ & M)]]]; try congruence; destruct opcode; try discriminate; contradiction.
  - rewrite E8. cbn [bind]. destruct (is_str (rstr o8) "*") eqn:S8.
    + right. split; [|reflexivity]. intros y (NS & _). apply NS. unfold starred. rewrite E8. f_equal. apply is_str_ok. exact S8.
    + assert (ST : ~ starred c).
      { unfold starred. intros X. rewrite E8 in X. assert (R : rstr o8 = RStr (lit "*")) by congruence.
        apply is_str_ok in R. congruence. }
      destruct (li_match opcode op) eqn:M.
      * left. eexists. split; [|reflexivity]. split; [exact ST|]. split.
        -- unfold li_text. destruct details; [|reflexivity]. exists f. split; [exact EF|]. rewrite EF. reflexivity.
        -- apply li_match_ok in M. destruct M as (i & T & M). exists op, i. auto.
      * right. split; [|reflexivity]. intros y H. destruct (OP y H) as (op' & X & M').
        assert (op' = op) by congruence. congruence.
Qed.
Lemma li_fold opcode details cs : opcode <> [] -> Forall tool_card cs -> forall out,
  exists r, fold_r (li_card opcode details) cs out = Ok (out ++ r) /\ picked (li_shows opcode details) cs r.
Proof.
  intros NO. induction 1 as [|c cs H F IH]; intros out.
  - exists []. rewrite app_nil_r. split; [reflexivity|constructor].
  - cbn [fold_r]. destruct (li_step opcode details out c NO H) as [(y & S & ->)|(N & ->)]; cbn [bind].
    + destruct (IH (out ++ [y])) as (r & E & P). exists (y :: r). rewrite E, <- app_assoc. split; [reflexivity|].
      constructor; assumption.
    + destruct (IH out) as (r & E & P). exists r. rewrite E. split; [reflexivity|]. apply pk_no; assumption.
Qed.
Lemma mnemonic_ok opcode m : mnemonic_of opcode m <-> (if has_char 44 opcode then nth 0 (split_on 44 opcode) [] else opcode) = m.
Proof.
  unfold mnemonic_of. destruct (has_char 44 opcode) eqn:H.
  - apply has_char_In in H. destruct (first_split 44 opcode H) as (a & b & -> & N). rewrite split_yes by exact N. cbn [nth]. split.
    + intros [[X _]|(r & E & NM)]; [contradiction|].
      assert (X : split_on 44 (a ++ 44 :: b) = split_on 44 (m ++ 44 :: r)) by (rewrite E; reflexivity).
      rewrite !split_yes in X by assumption. congruence.
    + intros <-. right. exists b. auto.
  - assert (N : ~ In 44 opcode) by (rewrite <- has_char_In; congruence). split.
    + intros [[_ ->]|(r & -> & _)]; [reflexivity|]. exfalso. apply N. apply in_or_app. right. left. reflexivity.
    + intros <-. left. auto.
Qed.
Lemma C88_list_pf : forall fuel fs details opcode m files cs,
  mnemonic_of opcode m -> In m INSTRUCTIONS -> all_cards fuel fs files cs ->
  exists out, list_instructions fuel fs details (opcode :: files) = Ok out /\ picked (li_shows opcode details) cs out.
Proof.
  intros fuel fs details opcode m files cs M I A. apply mnemonic_ok in M.
  assert (NO : opcode <> []).
  { intros ->. cbn in M. subst m. apply inb_In in I. vm_compute in I. discriminate. }
  unfold list_instructions. cbv zeta. rewrite M.
  assert (IB : inb m INSTRUCTIONS = true) by (apply inb_In; exact I). rewrite IB. cbn [negb].
  assert (T := all_tool _ _ _ _ A). destruct A as (css & F & ->).
  rewrite (fold_files (li_card opcode details) fuel fs files css [] F).
  destruct (li_fold opcode details (concat css) NO T []) as (r & E & P). exists r. auto.
Qed.
(*@ Example C88_list_ex :
  let fs := fun f => if eqb f (lit "a") then Some (lit "                   TX , A       B" ++ [10] ++ lit "       *           TX           B" ++ [10] ++
       lit "                   TX           C" ++ [10] ++ lit "                   TXX          C" ++ [10]) else None in
  list_instructions 2 fs false [lit "TX"; lit "a"] = Ok [lit "                   TX , A       B"; lit "                   TX           C"] /\
  list_instructions 2 fs false [lit "TX,"; lit "a"] = Ok [lit "                   TX , A       B"].
Proof. vm_compute. auto. Qed. @*)
Lemma C88_unknown_pf : forall fuel fs details opcode m files,
  mnemonic_of opcode m -> ~ In m INSTRUCTIONS -> list_instructions fuel fs details (opcode :: files) = Err SystemExit.
Proof.
  intros fuel fs details opcode m files M I. apply mnemonic_ok in M. unfold list_instructions. cbv zeta. rewrite M.
  assert (IB : inb m INSTRUCTIONS = false) by (apply inb_false; exact I). rewrite IB. reflexivity.
Qed.
(*@ Example C88_unknown_ex : list_instructions 1 (fun _ => None) true [lit "FOO,A"; lit "a"] = Err SystemExit.
Proof. vm_compute. reflexivity. Qed. @*)
