From Coq Require Import ZArith List Bool Lia.
From Verif Require Import Py LPy MCards SCards LInstructions LCards LDeck MSymbols SSymbols LSymBuild LSymQuery MTools STools LTools LToolSym MDiag SDiag LDiag MDump SDump.
#[local] Arguments Z.add : simpl never.
#[local] Arguments Z.sub : simpl never.
#[local] Arguments Z.mul : simpl never.
#[local] Arguments Z.pow : simpl never.

Lemma entry_shown rep crep c lg ty : card_get c "lognum" = Ok lg -> match lg with RInt _ => False | _ => True end ->
  definition_text rep crep c ty (entry_text rep crep (c_filename c) (c_linenum c) lg ty c).
Proof.
  intros E K. exists (match lg with RStr s => Some s | _ => None end), (rep_opt rep (c_filename c)), (rep_val rep lg), (rep_opt rep ty).
  split; [destruct lg as [|s|k]; [left; auto|right; eauto|destruct K]|].
  split; [destruct (c_filename c); reflexivity|]. split; [destruct lg; [reflexivity|reflexivity|destruct K]|].
  split; [destruct ty; reflexivity|]. unfold entry_text, dict_text. cbn [items_text]. rewrite <- !app_assoc. reflexivity.
Qed.
Lemma lines_message upper s entry : label_lines upper s entry =
  match label_message upper s with
  | None => None
  | Some m => Some [m; lit "Current definition: " ++ entry (if negb (eqb (upper s) s) then None else Some (lit " "))]
  end.
Proof.
  unfold label_lines, label_message. cbv zeta. destruct (negb (eqb (upper s) s)); [reflexivity|].
  destruct (has_char 44 s); [|reflexivity]. destruct (1 <? count_char 44 s); [reflexivity|].
  destruct (negb (inb (nth 0 (split_on 44 s) []) TAG_PREFIXES)); [reflexivity|].
  destruct (inb (nth 0 (split_on 44 s) []) (map lit ["L"; "X"]%string)); reflexivity.
Qed.
(** the messages with their lines *)
Lemma card_block upper rep crep seg st c :
  match card_message upper seg st c with
  | None => card_lines upper rep crep seg st c = []
  | Some m => block_of m (card_lines upper rep crep seg st c)
  end.
Proof.
  destruct st as [[s tab] n]. unfold card_message, card_lines.
  destruct (card_get c "column8") as [c8|e]; [|reflexivity]. destruct (card_get c "operation") as [cmd|e]; [|reflexivity].
  destruct (card_get c "label") as [[|[|x l]|k]|e]; try reflexivity. destruct (card_get c "lognum") as [lg|e]; [|reflexivity].
  destruct (is_str c8 "*"); [reflexivity|]. destruct (next_subseg s cmd) as [s'|e]; [|reflexivity]. cbv zeta. rewrite lines_message.
  destruct (label_tag upper (x :: l)) as [[ty tag]|] eqn:ET.
  - assert (LM : label_message upper (remove_char 32 (strip (x :: l))) = None) by (apply label_message_tag; congruence). rewrite LM.
    destruct cmd as [|cmd|k]; [|  |reflexivity]; [left; eexists; reflexivity|].
    destruct (insert_def tab seg s' tag _ cmd _) as [[tab' m]|e]; [|reflexivity]. destruct (m =? 0); [reflexivity|].
    right. exists tag. do 3 eexists. split; reflexivity.
  - destruct (label_message upper (remove_char 32 (strip (x :: l)))) as [m|]; [left; eexists; reflexivity|reflexivity].
Qed.
Lemma run_blocks upper rep crep seg cs : forall st ms st' r, build_run upper seg st cs = (ms, st', r) ->
  exists bs, Forall2 block_of ms bs /\ dump_run upper rep crep seg st cs = (concat bs, st', r).
Proof.
  induction cs as [|c cs IH]; intros st ms st' r H; cbn [build_run dump_run] in *.
  - injection H as <- <- <-. exists []. split; [constructor|reflexivity].
  - pose proof (card_block upper rep crep seg st c) as B. destruct (build_card upper seg st c) as [st1|e].
    + destruct (build_run upper seg st1 cs) as [[ms1 st2] r1] eqn:E. injection H as <- <- <-.
      destruct (IH _ _ _ _ E) as (bs & F & ->). destruct (card_message upper seg st c) as [m|].
      * exists (card_lines upper rep crep seg st c :: bs). split; [constructor; assumption|reflexivity].
      * exists bs. rewrite B. split; [exact F|reflexivity].
    + injection H as <- <- <-. destruct (card_message upper seg st c) as [m|].
      * exists [card_lines upper rep crep seg st c]. cbn [concat]. rewrite app_nil_r. split; [constructor; [exact B|constructor]|reflexivity].
      * exists []. rewrite B. split; [constructor|reflexivity].
Qed.

(** *** C135 *)
Lemma C135_blocks_pf : forall upper rep card_rep fuel fs filename tab ms tab' r,
  build_table_run upper fuel fs filename tab = (ms, tab', r) ->
  exists blocks, Forall2 block_of ms blocks /\ dump_table_run upper rep card_rep fuel fs filename tab = (concat blocks, tab', r).
Proof.
  intros upper rep crep fuel fs f tab ms tab' r H. unfold build_table_run in H. unfold dump_table_run. cbv zeta in *.
  destruct (argus_deck_new fuel fs None (Some f) DEFAULT_WIDTH DEFAULT_FIELDS ArgusCls) as [[[d sec] c8]|e].
  - destruct (build_run upper (nth 0 (split_on 46 f) []) (lit "1", tab, 0) (d_cards d)) as [[ms1 st] r1] eqn:E.
    destruct (run_blocks upper rep crep _ _ _ _ _ _ E) as (bs & F & ->). exists bs. injection H as <- <- <-. auto.
  - injection H as <- <- <-. exists []. split; [constructor|reflexivity].
Qed.
(*@ Example C135_blocks_ex :
  let fs := fun f : str => Some (lit "        A          DEC          1" ++ [10] ++ lit "        A          HEX" ++ [10] ++ lit "        Q,A        DEC") in
  fst (fst (dump_table_run (fun s => s) (fun s => [39] ++ s ++ [39]) (fun _ => lit "<card>") 1 fs (lit "simple.arg") [])) =
  [lit "*** ERROR: Symbol A is multiply-defined!";
   lit "Previous definitions: {'simple': {'file': 'simple.arg', 'line': 1, 'lognum': None, 'tagtype': ' ', 'card': <card>}}";
   lit "Current definition: {'file': 'simple.arg', 'line': 2, 'lognum': None, 'tagtype': ' ', 'card': <card>}"; lit "command: HEX";
   lit "*** ERROR: Symbol Q,A is ill-formed (tag prefix)!";
   lit "Current definition: {'file': 'simple.arg', 'line': 3, 'lognum': None, 'tagtype': ' ', 'card': <card>}"].
Proof. vm_compute. reflexivity. Qed. @*)
Lemma label_described upper c l m : card_get c "label" = Ok (RStr l) ->
  let s := remove_char 32 (strip l) in
  label_message upper s = Some m -> described upper c m (if negb (eqb (upper s) s) then None else Some (lit " ")).
Proof.
  intros EL s H. assert (T : label_text c s) by (exists l; auto).
  unfold label_message in H. cbv zeta in H. destruct (eqb (upper s) s) eqn:EU; cbn [negb] in *.
  2:{ assert (m = error_text s " is ill-formed (case)!") by congruence. subst m. apply ds_case; [exact T|].
      intros X. rewrite X, eqb_refl in EU. discriminate. }
  apply eqb_ok in EU. destruct (has_char 44 s) eqn:HC; [|discriminate]. apply has_char_In in HC.
  destruct (Z.ltb_spec 1 (count_char 44 s)) as [C|C].
  { assert (m = error_text s " is illegal, too many commas!") by congruence. subst m.
    destruct (two_commas s C) as (x & y & z & E). exact (ds_commas upper c s x y z T EU E). }
  destruct (one_comma s HC ltac:(lia)) as (p & t & E & NP & NT).
  assert (N0 : nth 0 (split_on 44 s) [] = p) by (rewrite E, split_yes by exact NP; reflexivity). rewrite N0 in H.
  destruct (inb p TAG_PREFIXES) eqn:IP; cbn [negb] in H.
  2:{ assert (m = error_text s " is ill-formed (tag prefix)!") by congruence. subst m.
      apply (ds_prefix upper c s p t T EU E NP NT). apply inb_false. exact IP. }
  destruct (inb p (map lit ["L"; "X"]%string)) eqn:IL; [|discriminate].
  assert (m = error_text s " has unsupported tag prefix!") by congruence. subst m.
  apply (ds_unsupported upper c s p t T EU E NT). apply inb_In. exact IL.
Qed.
Lemma card_dumped upper rep crep seg c : proper_card c -> ~ is_kind seg -> forall s tab n, plain_table tab ->
  match card_lines upper rep crep seg (s, tab, n) c with
  | [] => starred c \/ forall m, ~ complaint upper c m
  | ls => ~ starred c /\ exists m ty d, described upper c m ty /\ definition_text rep crep c ty d /\ ls = [m; lit "Current definition: " ++ d]
  end.
Proof.
  intros PC NK s tab n P. pose proof (card_reports upper seg c PC NK s tab n P) as CR. unfold card_message in CR. unfold card_lines.
  destruct (PC "column8"%string ltac:(cbn; tauto)) as (v8 & E8 & _).
  destruct (PC "operation"%string ltac:(cbn; tauto)) as (op & EO & KO).
  destruct (PC "label"%string ltac:(cbn; tauto)) as (lb & EL & KL).
  destruct (PC "lognum"%string ltac:(cbn; tauto)) as (lg & EG & KG).
  assert (K2 : match lg with RInt _ => False | _ => True end) by (destruct lg; [exact I|exact I|exact KG]).
  rewrite E8, EO, EL, EG in *. destruct lb as [|[|x l]|k]; [exact CR|contradiction| |exact CR].
  destruct (is_str v8 "*"); [exact CR|]. destruct (next_subseg s op) as [s'|e]; [|exact CR]. cbv zeta in *. rewrite lines_message.
  destruct (label_tag upper (x :: l)) as [[ty tag]|] eqn:ET.
  - assert (LM : label_message upper (remove_char 32 (strip (x :: l))) = None) by (apply label_message_tag; congruence). rewrite LM.
    destruct op as [|cmd|k]; [| |exact CR].
    + split; [apply CR|]. exists (error_text (remove_char 32 (strip (x :: l))) " has no operation!"), (Some ty). eexists.
      split; [|split; [eapply entry_shown; eassumption|reflexivity]].
      apply label_tag_spec in ET. eapply ds_no_operation; [exists (x :: l); split; [exact EL|reflexivity]|exact ET|exact EO].
    + destruct (insert_plain tab seg s' tag (if eqb cmd (lit "ASSIGN") then lit "complex" else lit "simple") cmd
        (mkent (c_filename c) (c_linenum c) lg ty c) P NK) as (tab' & EI & _).
      { destruct (eqb cmd (lit "ASSIGN")); [right|left]; reflexivity. }
      rewrite EI in *. exact CR.
  - destruct (label_message upper (remove_char 32 (strip (x :: l)))) as [m|] eqn:EM; [|exact CR].
    split; [apply CR|]. exists m. do 2 eexists. split; [eapply label_described; eassumption|].
    split; [eapply entry_shown; eassumption|reflexivity].
Qed.
Lemma run_dumped upper rep crep seg cs : ~ is_kind seg -> Forall proper_card cs -> forall s tab n, plain_table tab ->
  exists ls st', dump_run upper rep crep seg (s, tab, n) cs = (ls, st', Ok tt) /\ dumped upper rep crep cs ls.
Proof.
  intros NK F. induction F as [|c cs PC F IH]; intros s tab n P; cbn [dump_run].
  - exists [], (s, tab, n). split; [reflexivity|constructor].
  - pose proof (card_dumped upper rep crep seg c PC NK s tab n P) as CR.
    destruct (build_plain upper seg s tab n [c] P NK ltac:(constructor; [exact PC|constructor])) as (tab1 & k & E & P1 & _).
    cbn [build_cards] in E. destruct (build_card upper seg (s, tab, n) c) as [st1|e]; [|discriminate]. cbn [bind] in E.
    assert (st1 = (sub_after s [c], tab1, n + k)) by congruence. subst st1.
    destruct (IH (sub_after s [c]) tab1 (n + k) P1) as (ls & st2 & -> & R). eexists _, st2. split; [reflexivity|].
    destruct (card_lines upper rep crep seg (s, tab, n) c) as [|y ys] eqn:EY; [apply dp_good; assumption|].
    destruct CR as (NS & m & ty & d & D & T & ->). exact (dp_bad _ _ _ _ _ _ _ _ _ NS D T R).
Qed.
Lemma C135_dumps_pf : forall upper rep card_rep fuel fs filename seg cs tab,
  segment_of filename seg -> ~ is_kind seg -> plain_table tab -> source_cards fuel fs filename cs ->
  exists ls tab' n, dump_table_run upper rep card_rep fuel fs filename tab = (ls, tab', Ok n) /\ dumped upper rep card_rep cs ls.
Proof.
  intros upper rep crep fuel fs f seg cs tab S NK P SC.
  destruct (run_dumped upper rep crep seg cs NK (source_proper _ _ _ _ SC) (lit "1") tab 0 P) as (ls & st & E & R).
  destruct SC as (d & sec & c8 & H & ->). unfold dump_table_run. apply seg_ok in S. cbv zeta. rewrite S.
  unfold DEFAULT_WIDTH, DEFAULT_FIELDS. rewrite H, E. eauto.
Qed.
(*@ Example C135_dumps_ex :
  let fs := fun f : str => Some (lit "        A          DEC          1" ++ [10] ++ lit "#1" ++ [10] ++ lit " 12     F,A") in
  fst (fst (dump_table_run (fun s => s) (fun s => [39] ++ s ++ [39]) (fun _ => lit "<card>") 1 fs (lit "p.arg") [])) =
  [lit "*** ERROR: Symbol F,A has no operation!";
   lit "Current definition: {'file': 'p.arg', 'line': 3, 'lognum': '12', 'tagtype': 'F', 'card': <card>}"].
Proof. vm_compute. reflexivity. Qed. @*)
Lemma items_join (f : str * tabent -> str * str) ks :
  join (lit ", ") (map (fun x => fst (f x) ++ lit ": " ++ snd (f x)) ks) = items_text (map f ks).
Proof.
  induction ks as [|x ks IH]; [reflexivity|]. cbn [map]. destruct ks as [|y ks].
  - cbn [map join items_text]. destruct (f x). reflexivity.
  - remember (y :: ks) as r. cbn [items_text]. destruct (f x) as [k v] eqn:E. cbn [fst snd].
    destruct r as [|z r]; [discriminate|]. cbn [map join] in *. rewrite IH. cbn [items_text].
    rewrite <- !app_assoc. reflexivity.
Qed.
Lemma kinds_shown rep crep ks : exists items, Forall2 (entry_item rep crep) ks items /\ kinds_text rep crep ks = dict_text items.
Proof.
  pose (f := fun x : str * tabent => (rep (fst x),
     entry_text rep crep (e_file (snd x)) (e_line (snd x)) (e_lognum (snd x)) (Some (e_tagtype (snd x))) (e_card (snd x)))).
  exists (map f ks). split.
  - induction ks as [|x ks IH]; constructor; [|exact IH]. split; [reflexivity|].
    exists (rep_opt rep (e_file (snd x))), (rep_val rep (e_lognum (snd x))), (rep (e_tagtype (snd x))).
    split; [destruct (e_file (snd x)); reflexivity|]. split; [destruct (e_lognum (snd x)); reflexivity|]. split; [reflexivity|].
    cbn [f snd]. unfold entry_text, dict_text. cbn [items_text rep_opt]. rewrite <- !app_assoc. reflexivity.
  - unfold kinds_text, dict_text. rewrite <- (items_join f). reflexivity.
Qed.
(** the definitions shown as previous ones are those in the table *)
Lemma C135_multiple_pf : forall upper rep card_rep seg (tab : symtab) n c cs tag kind tagtype (sg : segs) (ss : subsegs) (ks : kinds) (defs : subsegs) op,
  proper_card c -> defines upper c tag kind tagtype -> card_get c "operation" = Ok (RStr op) -> op <> lit "EQUALS" ->
  (forall s, ~ setloc c s) -> dget tab tag = Some sg -> dget sg seg = Some ss -> dget sg kind = Some defs ->
  forall subseg, dget ss subseg = Some ks ->
  exists items d ls st r, Forall2 (entry_item rep card_rep) ks items /\ definition_text rep card_rep c (Some tagtype) d /\
    dump_run upper rep card_rep seg (subseg, tab, n) cs = (ls, st, r) /\
    dump_run upper rep card_rep seg (subseg, tab, n - 1) (c :: cs) =
      ([lit "*** ERROR: Symbol " ++ tag ++ lit " is multiply-defined!"; lit "Previous definitions: " ++ dict_text items;
        lit "Current definition: " ++ d; lit "command: " ++ op] ++ ls, st, r).
Proof.
  intros upper rep crep seg tab n c cs tag kind ty sg ss ks defs op PC D EO NE NL T1 T2 T3 sb T4.
  destruct D as (NS & s & op' & T & W & EO' & K). assert (op' = op) by congruence. subst op'. clear EO'.
  destruct (kinds_shown rep crep ks) as (items & FI & EK).
  destruct (PC "column8"%string ltac:(cbn; tauto)) as (v8 & E8 & _).
  destruct (PC "lognum"%string ltac:(cbn; tauto)) as (lg & EG & KG).
  assert (K2 : match lg with RInt _ => False | _ => True end) by (destruct lg; [exact I|exact I|exact KG]).
  destruct T as (l & EL & Es). rewrite Es in W. apply label_tag_spec in W.
  destruct (PC "label"%string ltac:(cbn; tauto)) as (lb & EL' & KL). assert (lb = RStr l) by congruence. subst lb.
  destruct l as [|x l]; [contradiction|].
  assert (S8 : is_str v8 "*" = false).
  { destruct (is_str v8 "*") eqn:X; [|reflexivity]. apply is_str_ok in X. exfalso. apply NS. unfold starred. rewrite E8, X. reflexivity. }
  assert (EN : next_subseg sb (RStr op) = Ok sb).
  { apply no_setloc in NL. unfold setloc_f in NL. assert (SB : starredb c = false) by (unfold starredb; rewrite E8; exact S8).
    rewrite SB, EO in NL. cbn [next_subseg]. unfold set_of in NL.
    destruct (startswith op (lit "SETLOC")); [discriminate|]. rewrite andb_false_r. reflexivity. }
  assert (EKD : (if eqb op (lit "ASSIGN") then lit "complex" else lit "simple") = kind).
  { destruct K as [[-> ->]|[N ->]]; [reflexivity|]. destruct (eqb op (lit "ASSIGN")) eqn:X; [|reflexivity]. apply eqb_ok in X. contradiction. }
  assert (EI : forall e, insert_def tab seg sb tag kind op e = Ok (tab, 1)).
  { intros e. unfold insert_def. rewrite T1, T2, T4, T3. destruct (eqb op (lit "EQUALS")) eqn:X; [apply eqb_ok in X; contradiction|reflexivity]. }
  destruct (dump_run upper rep crep seg (sb, tab, n) cs) as [[ls st] r] eqn:ER.
  exists items, (entry_text rep crep (c_filename c) (c_linenum c) lg (Some ty) c), ls, st, r.
  split; [exact FI|]. split; [eapply entry_shown; eassumption|]. split; [reflexivity|].
  cbn [dump_run]. cbv zeta.
  assert (B : build_card upper seg (sb, tab, n - 1) c = Ok (sb, tab, n)).
  { unfold build_card. rewrite E8. cbn [bind]. rewrite S8, EO. cbn [bind]. rewrite EN. cbn [bind]. rewrite EL. cbn [bind]. rewrite EG. cbn [bind].
    rewrite W. cbv zeta. rewrite EKD, EI. cbn [bind fst snd]. do 2 f_equal. lia. }
  rewrite B, ER. f_equal. f_equal. f_equal. unfold card_lines. rewrite E8, EO, EL, EG, S8, EN. cbv zeta. rewrite lines_message.
  assert (LM : label_message upper (remove_char 32 (strip (x :: l))) = None) by (apply label_message_tag; congruence). rewrite LM, W, EKD, EI.
  cbn [Z.eqb].
  assert (X1 : sub tab tag = sg) by (unfold sub; change (@dget str (dict str subsegs) _ tab tag) with (@dget str segs _ tab tag); rewrite T1; reflexivity).
  assert (X2 : sub sg seg = ss) by (unfold sub; change (@dget str (dict str kinds) _ sg seg) with (@dget str subsegs _ sg seg); rewrite T2; reflexivity).
  assert (X3 : sub ss sb = ks) by (unfold sub; change (@dget str (dict str tabent) _ ss sb) with (@dget str kinds _ ss sb); rewrite T4; reflexivity).
  assert (X : kinds_text rep crep (sub (sub (sub tab tag) seg) sb) = dict_text items) by (rewrite X1, X2, X3; exact EK).
  rewrite X. reflexivity.
Qed.
(*@ Example C135_multiple_ex :
  let fs := fun f : str => Some (lit "        A          DEC" ++ [10] ++ lit "        A          ASSIGN" ++ [10] ++ lit "        A          HEX") in
  nth 1 (fst (fst (dump_table_run (fun s => s) (fun s => [39] ++ s ++ [39]) (fun _ => lit "<card>") 1 fs (lit "simple.arg") []))) [] =
   lit "Previous definitions: {'simple': {'file': 'simple.arg', 'line': 1, 'lognum': None, 'tagtype': ' ', 'card': <card>}, 'complex': {'file': 'simple.arg', 'line': 2, 'lognum': None, 'tagtype': ' ', 'card': <card>}}".
Proof. vm_compute. reflexivity. Qed. @*)
