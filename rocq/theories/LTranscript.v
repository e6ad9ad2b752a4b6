From Coq Require Import ZArith List Bool Lia Sorted.
From Verif Require Import Py LPy MInstruction MCards SCards LCards LDeck MSymbols SSymbols LSymBuild LSymQuery MInstructions MTools STools LTools LToolSym LListTool MDiag SDiag LDiag MDump SDump LDump MVerbose SVerbose LVerbose LQuiet STranscript.
#[local] Arguments Z.add : simpl never.
#[local] Arguments Z.sub : simpl never.
#[local] Arguments Z.mul : simpl never.
#[local] Arguments Z.pow : simpl never.

(** a file that cannot be read *)
Lemma load_missing fuel fs v f : load fuel fs f = Err SystemExit ->
  exists log m, load_run fuel fs v f = ((if v then log else []) ++ [ErrL m], Err SystemExit) /\ stops_at fs f log m.
Proof.
  intros H. pose proof (load_run_snd fuel fs v f) as B. rewrite H in B. destruct (load_run fuel fs v f) as [out r] eqn:EL. cbn [snd] in B. subst r.
  destruct (C118_only_pf _ _ _ _ _ EL) as (log & m & S & ->). eauto.
Qed.

(** *** C138 list-instructions *)
Lemma li_star v c x : card_get c "column8" = Ok x ->
  star_lines v li_pos c =
    (if is_str x "*" then (if v then [OutL (lit "Skipping card with * in column 8:"); OutL (li_pos c)] else []) else []).
Proof. intros E. unfold star_lines. rewrite E. destruct (is_str x "*"), v; reflexivity. Qed.
Lemma li_run v details opcode c : opcode <> [] -> tool_card c ->
  exists ls, li_card_run v opcode details c = (ls, Ok tt) /\ find_report v details opcode c ls.
Proof.
  intros NO T. pose proof (li_step opcode details [] c NO T) as ST.
  destruct T as (_ & (o8 & E8) & (oo & EO) & f & EF). unfold li_card_run.
  assert (CASES : (truthy (rstr oo) = false /\ (rstr oo = RNone \/ rstr oo = RStr [])) \/
                  (truthy (rstr oo) = true /\ exists op, rstr oo = RStr op /\ op <> [])).
  { destruct oo as [op|]; [|left; split; [reflexivity|left; reflexivity]]. cbn [rstr truthy]. destruct (eqb op []) eqn:Q.
    - left. apply eqb_ok in Q. subst op. split; [reflexivity|right; reflexivity].
    - right. split; [reflexivity|]. exists op. split; [reflexivity|]. intros ->. discriminate Q. }
  assert (S8 : (starred c /\ is_str (rstr o8) "*" = true) \/ (~ starred c /\ is_str (rstr o8) "*" = false)).
  { unfold starred. rewrite E8. destruct (is_str (rstr o8) "*") eqn:Q; [left|right]; (split; [|reflexivity]).
    - f_equal. apply is_str_ok. exact Q.
    - intros X. assert (R : rstr o8 = RStr (lit "*")) by congruence. apply is_str_ok in R. congruence. }
  rewrite EO, (li_star v c _ E8).
  destruct CASES as [[TF D]|[TF (op & RO & NE)]]; rewrite TF.
  - destruct ST as [(y & SH & E)|(N & E)]; rewrite E.
    + exfalso. unfold li_card in E. rewrite EO in E. cbn [bind] in E. rewrite TF in E. cbn [negb] in E. apply (f_equal (fun r => match r with Ok l => length l | _ => O end)) in E. discriminate E.
    + eexists. split; [reflexivity|]. cbn [map app]. eapply fd_none; [exact EO|exact D].
  - rewrite RO in EO. destruct S8 as [[S Q]|[S Q]]; rewrite Q.
    + destruct ST as [(y & SH & E)|(N & E)]; [destruct SH as [NS _]; contradiction|]. rewrite E. eexists. split; [reflexivity|].
      cbn [map app]. eapply fd_star; try eassumption. exists f. split; [exact EF|]. unfold li_pos. rewrite EF. reflexivity.
    + destruct ST as [(y & SH & E)|(N & E)]; rewrite E; (eexists; split; [reflexivity|]); cbn [map app].
      * apply fd_found. exact SH.
      * eapply fd_other; eassumption.
Qed.
Lemma li_cards v details opcode cs : opcode <> [] -> Forall tool_card cs ->
  exists lss, io_fold (fun (_ : unit) c => li_card_run v opcode details c) cs tt = (concat lss, Ok tt) /\
    Forall2 (find_report v details opcode) cs lss.
Proof.
  intros NO. induction 1 as [|c cs T F IH]; [exists []; split; [reflexivity|constructor]|].
  destruct IH as (lss & E & R). destruct (li_run v details opcode c NO T) as (ls & E1 & R1). exists (ls :: lss).
  cbn [io_fold]. rewrite E1, bind_ok, E. split; [reflexivity|constructor; assumption].
Qed.
Lemma li_files fuel fs v details opcode files css : opcode <> [] -> Forall2 (source_cards fuel fs) files css ->
  exists ls, io_fold (fun (_ : unit) f => io_bind (load_run fuel fs v f)
                 (fun cs => io_fold (fun _ c => li_card_run v opcode details c) cs tt)) files tt = (ls, Ok tt) /\
    files_found fuel fs v details opcode files ls.
Proof.
  intros NO. induction 1 as [|f cs files css SC F IH]; [exists []; split; [reflexivity|constructor]|].
  destruct IH as (ls & E & R). destruct (run_logged fuel fs f v cs SC) as (log & L & EL).
  destruct (li_cards v details opcode cs NO (source_tool _ _ _ _ SC)) as (lss & EC & RC).
  eexists. split; [|eapply ff_file; eassumption]. cbn [io_fold]. rewrite EL, bind_ok, EC. cbn [fst snd]. rewrite bind_ok, E.
  cbn [fst snd]. rewrite <- app_assoc. reflexivity.
Qed.
Lemma li_start opcode m : mnemonic_of opcode m -> In m INSTRUCTIONS ->
  opcode <> [] /\ negb (inb (if has_char 44 opcode then nth 0 (split_on 44 opcode) [] else opcode) INSTRUCTIONS) = false.
Proof.
  intros M I. pose proof M as M'. apply mnemonic_ok in M'. rewrite M'. split.
  - intros ->. destruct M as [[_ ->]|(r & E & _)]; [|destruct m; discriminate].
    apply inb_In in I. vm_compute in I. discriminate.
  - rewrite (proj2 (inb_In m INSTRUCTIONS) I). reflexivity.
Qed.
Lemma C138_transcript_pf : forall fuel fs v details opcode m files css,
  mnemonic_of opcode m -> In m INSTRUCTIONS -> Forall2 (source_cards fuel fs) files css ->
  exists ls, list_instructions_run fuel fs v details (opcode :: files) = (ls, Ok tt) /\
    files_found fuel fs v details opcode files ls.
Proof.
  intros fuel fs v details opcode m files css M I F. destruct (li_start opcode m M I) as [NO G].
  unfold list_instructions_run. cbv zeta. rewrite G. exact (li_files fuel fs v details opcode files css NO F).
Qed.
(*@ Example C138_transcript_ex :
  let fs := fun f => if eqb f (lit "a") then Some (lit "                   TX,A         B" ++ [10] ++ lit "       *           IX           B" ++ [10] ++
       lit "                   IX" ++ [10]) else Some (lit "R      REMARK") in
  list_instructions_run 2 fs true false [lit "TX"; lit "a"; lit "b"] =
    ([OutL (lit "Reading a..."); OutL (lit "                   TX,A         B"); OutL (lit "Skipping card with * in column 8:");
      OutL (lit "a                                                     2        *           IX           B"); OutL (lit "Reading b...")], Ok tt).
Proof. vm_compute. reflexivity. Qed. @*)
Lemma C138_missing_pf : forall fuel fs v details opcode m pre css f post,
  mnemonic_of opcode m -> In m INSTRUCTIONS -> Forall2 (source_cards fuel fs) pre css -> load fuel fs f = Err SystemExit ->
  exists ls log t, list_instructions_run fuel fs v details (opcode :: pre ++ f :: post) =
      (ls ++ (if v then log else []) ++ [ErrL t], Err SystemExit) /\
    files_found fuel fs v details opcode pre ls /\ stops_at fs f log t.
Proof.
  intros fuel fs v details opcode m pre css f post M I F H. destruct (li_start opcode m M I) as [NO G].
  destruct (li_files fuel fs v details opcode pre css NO F) as (ls & E & R). destruct (load_missing fuel fs v f H) as (log & t & EL & S).
  exists ls, log, t. split; [|auto]. unfold list_instructions_run. cbv zeta. rewrite G, io_fold_app, E, bind_ok. cbn [io_fold]. rewrite EL. reflexivity.
Qed.
(*@ Example C138_missing_ex :
  let fs := fun f => if eqb f (lit "a") then Some (lit "                   TX,A         B" ++ [10]) else None in
  list_instructions_run 2 fs true true [lit "TX"; lit "a"; lit "b"; lit "a"] =
    ([OutL (lit "Reading a..."); OutL (lit "a                                                     1                    TX,A         B");
      ErrL (lit "ERROR: File ""b"" does not exist!")], Err SystemExit).
Proof. vm_compute. reflexivity. Qed. @*)
Lemma C138_unknown_pf : forall fuel fs v details opcode m files, mnemonic_of opcode m -> ~ In m INSTRUCTIONS ->
  list_instructions_run fuel fs v details (opcode :: files) = ([], Err SystemExit).
Proof.
  intros fuel fs v details opcode m files M I. apply mnemonic_ok in M. unfold list_instructions_run. cbv zeta. rewrite M.
  rewrite (proj2 (inb_false m INSTRUCTIONS) I). reflexivity.
Qed.
(*@ Example C138_unknown_ex : list_instructions_run 2 (fun _ => None) true true [lit "FOO,A"; lit "a"] = ([], Err SystemExit).
Proof. reflexivity. Qed. @*)
Lemma find_report_unique v details opcode c l l' : opcode <> [] ->
  find_report v details opcode c l -> find_report v details opcode c l' -> l = l'.
Proof.
  intros NO.
  assert (TU : forall d t t', li_text d c t -> li_text d c t' -> t = t').
  { intros [|] t t'; cbn [li_text]; [|congruence]. intros (f & E & ->) (f' & E' & ->). congruence. }
  assert (SN : forall op y, card_get c "operation" = Ok op -> op = RNone \/ op = RStr [] -> ~ li_shows opcode details c y).
  { intros op y E D (_ & _ & o & i & E' & T & M).
    assert (o = []) by (destruct D; congruence). subst o. unfold op_text in T. cbn in T. subst i.
    destruct M as [[_ [M|(q & M)]]|[_ [M|(p & q & _ & M)]]]; try congruence; destruct opcode; discriminate || contradiction. }
  intros A B.
  destruct A as [op E D|op t E NE S T|y SH|op E NE NS N]; destruct B as [op' E' D'|op' t' E' NE' S' T'|y' SH'|op' E' NE' NS' N'];
    try reflexivity; try contradiction.
  - exfalso. destruct D; congruence.
  - exfalso. exact (SN op y' E D SH').
  - exfalso. destruct D'; congruence.
  - rewrite (TU _ _ _ T T'). reflexivity.
  - destruct SH' as [NS1 _]. contradiction.
  - exfalso. exact (SN op' y E' D' SH).
  - destruct SH as [NS1 _]. contradiction.
  - destruct SH as (_ & T & _), SH' as (_ & T' & _). rewrite (TU _ _ _ T T'). reflexivity.
  - exfalso. exact (N' y SH).
  - exfalso. exact (N y' SH').
Qed.
Lemma cards_unique fuel fs f cs cs' : source_cards fuel fs f cs -> source_cards fuel fs f cs' -> cs = cs'.
Proof. intros A B. apply load_ok in A, B. congruence. Qed.
Lemma C138_determined_pf : forall fuel fs v details opcode files ls ls', opcode <> [] ->
  files_found fuel fs v details opcode files ls -> files_found fuel fs v details opcode files ls' -> ls = ls'.
Proof.
  intros fuel fs v details opcode files ls ls' NO A. revert ls'.
  induction A as [|f files log cs lss ls L SC R A IH]; intros ls' B; inversion B as [|f' files' log' cs' lss' ls2 L' SC' R' B']; subst; [reflexivity|].
  rewrite (IH _ B'), (log_unique _ _ _ _ L L'). rewrite (cards_unique _ _ _ _ _ SC SC') in R.
  assert (lss = lss').
  { clear -R R' NO. revert lss' R'. induction R as [|c l cs lss H R IH]; intros lss' R'; inversion R'; subst; [reflexivity|].
    f_equal; [eapply find_report_unique; eassumption|apply IH; assumption]. }
  subst. reflexivity.
Qed.
(*@ Example C138_determined_ex :
  let fs := fun f => if eqb f (lit "a") then Some (lit "                   TX,A         B" ++ [10]) else None in
  exists ls, files_found 2 fs false false (lit "TX") [lit "a"] ls /\ ls = [OutL (lit "                   TX,A         B")].
Proof.
  cbv zeta. match goal with |- exists ls, files_found _ ?g _ _ _ _ _ /\ _ => set (fs := g) end.
  assert (F : exists cs, source_cards 2 fs (lit "a") cs) by (eexists; eexists; eexists; eexists; split; [vm_compute; reflexivity|reflexivity]).
  destruct F as (cs & SC). destruct (C138_transcript 2 fs false false (lit "TX") (lit "TX") [lit "a"] [cs]) as (ls & E & R).
  - left. split; [|reflexivity]. intros [X|[X|[]]]; discriminate.
  - unfold INSTRUCTIONS. repeat (first [left; reflexivity|right]).
  - constructor; [exact SC|constructor].
  - exists ls. split; [exact R|]. vm_compute in E |- *. congruence.
Qed. @*)

(** *** C139 listing *)
Lemma list_one fuel fs v f cs : source_cards fuel fs f cs ->
  exists log ys, read_log fs f log /\ Forall2 list_line cs ys /\
    listing_one fuel fs v f = (if v then log ++ [OutL (lit "Wrote listing file to " ++ listfile f)] else [], Ok (fs_write fs (listfile f) (concat ys))).
Proof.
  intros SC. destruct (run_logged fuel fs f v cs SC) as (log & L & EL).
  destruct (listing_lines cs (source_listed _ _ _ _ SC)) as (ls & E & F). exists log. eexists. split; [exact L|]. split; [exact F|].
  unfold listing_one. rewrite EL, bind_ok, E. cbn [fst snd]. destruct v; reflexivity.
Qed.
Lemma written fs name t : fs_write fs name t name = Some t /\ forall g, g <> name -> fs_write fs name t g = fs g.
Proof. unfold fs_write. split; [rewrite eqb_refl; reflexivity|]. intros g N. rewrite eqb_neq by exact N. reflexivity. Qed.
Lemma C139_transcript_pf : forall fuel fs v files ls fs', listing_run fuel fs v files = ((ls, Ok tt), fs') ->
  files <> [] /\ listings fuel v fs files ls fs'.
Proof.
  intros fuel fs v files ls fs' H.
  assert (G : forall files fs ls fs', listing_files fuel fs v files = ((ls, Ok tt), fs') -> listings fuel v fs files ls fs').
  { clear. induction files as [|f files IH]; intros fs ls fs' H; cbn [listing_files] in H.
    - assert (ls = []) by congruence. assert (fs' = fs) by congruence. subst. constructor.
    - destruct (load fuel fs f) as [cs|e] eqn:EL.
      + apply load_inv in EL. destruct (list_one fuel fs v f cs EL) as (log & ys & L & F & E). rewrite E in H.
        destruct (listing_files fuel (fs_write fs (listfile f) (concat ys)) v files) as [[l2 x] fs2] eqn:E2.
        assert (x = Ok tt) by congruence. assert (fs2 = fs') by congruence. subst x fs2.
        replace ls with ((if v then log ++ [OutL (lit "Wrote listing file to " ++ listfile f)] else []) ++ l2) by congruence.
        destruct (written fs (listfile f) (concat ys)) as [W1 W2].
        eapply lg_file; try eassumption; [apply listfile_ok; reflexivity|apply IH; exact E2].
      + exfalso. pose proof (load_run_snd fuel fs v f) as B. rewrite EL in B. unfold listing_one in H.
        destruct (load_run fuel fs v f) as [out r]. cbn [snd] in B. subst r. rewrite bind_err in H. discriminate H. }
  destruct files as [|f files]; [discriminate H|]. split; [discriminate|]. apply G. exact H.
Qed.
(*@ Example C139_transcript_ex :
  let fs := fun f => if eqb f (lit "a.arg") then Some (lit "$a.lst" ++ [10]) else if eqb f (lit "a.lst") then Some (lit "R 1") else None in
  fst (listing_run 2 fs true [lit "a.arg"; lit "a.lst"]) =
    ([OutL (lit "Reading a.arg..."); OutL (lit "Reading a.lst..."); OutL (lit "Wrote listing file to a.lst");
      OutL (lit "Reading a.lst..."); OutL (lit "Wrote listing file to a.lst")], Ok tt) /\
  snd (listing_run 2 fs true [lit "a.arg"; lit "a.lst"]) (lit "a.lst") =
    Some (pad_right 32 64 (lit "a.lst") ++ lit " 1      " ++ pad_right 32 64 (lit "a.lst") ++ lit " 1      R 1" ++ [10]).
Proof. vm_compute. auto. Qed. @*)
Lemma C139_missing_pf : forall fuel fs v files ls fs', listing_run fuel fs v files = ((ls, Err SystemExit), fs') ->
  (files = [] /\ ls = []) \/
  exists pre f post l1 log m, files = pre ++ f :: post /\ listings fuel v fs pre l1 fs' /\ stops_at fs' f log m /\
    ls = l1 ++ (if v then log else []) ++ [ErrL m].
Proof.
  intros fuel fs v files ls fs' H. destruct files as [|f files]; [left; split; [reflexivity|cbn in H; congruence]|right].
  unfold listing_run in H. revert H. generalize (f :: files). clear f files. intros files. revert fs ls fs'.
  induction files as [|f files IH]; intros fs ls fs' H; cbn [listing_files] in H; [discriminate H|].
  destruct (load fuel fs f) as [cs|e] eqn:EL.
  - apply load_inv in EL. destruct (list_one fuel fs v f cs EL) as (log & ys & L & F & E). rewrite E in H.
    destruct (listing_files fuel (fs_write fs (listfile f) (concat ys)) v files) as [[l2 x] fs2] eqn:E2.
    assert (x = Err SystemExit) by congruence. assert (fs2 = fs') by congruence. subst x fs2.
    destruct (IH _ _ _ E2) as (pre & g & post & l1 & log' & m & EP & LG & ST & EQ). destruct (written fs (listfile f) (concat ys)) as [W1 W2].
    exists (f :: pre), g, post. eexists. exists log', m. split; [rewrite EP; reflexivity|].
    split; [eapply lg_file; try eassumption; apply listfile_ok; reflexivity|]. split; [exact ST|].
    rewrite <- app_assoc, <- EQ. congruence.
  - pose proof (load_run_snd fuel fs v f) as B. rewrite EL in B. unfold listing_one in H.
    destruct (load_run fuel fs v f) as [out r] eqn:ER. cbn [snd] in B. subst r. rewrite bind_err in H.
    assert (e = SystemExit) by congruence. assert (fs' = fs) by congruence. assert (ls = out) by congruence. subst.
    destruct (C118_only_pf _ _ _ _ _ ER) as (log & m & ST & ->). exists [], f, files, [], log, m.
    split; [reflexivity|]. split; [constructor|]. split; [exact ST|reflexivity].
Qed.
(*@ Example C139_missing_ex :
  let fs := fun f => if eqb f (lit "a.arg") then Some (lit "R 1") else None in
  fst (listing_run 2 fs true [lit "a.arg"; lit "b.arg"; lit "a.arg"]) =
    ([OutL (lit "Reading a.arg..."); OutL (lit "Wrote listing file to a.lst"); ErrL (lit "ERROR: File ""b.arg"" does not exist!")], Err SystemExit) /\
  fst (listing_run 2 fs false [lit "b.arg"]) = ([ErrL (lit "ERROR: File ""b.arg"" does not exist!")], Err SystemExit) /\
  snd (listing_run 2 fs true [lit "a.arg"; lit "b.arg"]) (lit "a.lst") <> None.
Proof. vm_compute. split; [reflexivity|]. split; [reflexivity|discriminate]. Qed. @*)

(** the run depends on the contents of the files only *)
Lemma src_same rec rec' k width fields fs fs' f : (forall g, rec' g = rec g) -> (forall g, fs' g = fs g) ->
  forall lines i, src_lines rec' k width fields fs' f i lines = src_lines rec k width fields fs f i lines.
Proof.
  intros A B. induction lines as [|l r IH]; intros i; [reflexivity|]. cbn [src_lines]. rewrite IH.
  destruct (startswith l (lit "#")); [reflexivity|]. destruct (startswith l (lit "$")); [|reflexivity].
  destruct (py_index _ 0) as [inc|e]; [|reflexivity]. cbn [bind]. rewrite A, B. reflexivity.
Qed.
Lemma read_same k width fields fs fs' : (forall g, fs' g = fs g) ->
  forall fuel f, read_source fuel k width fields fs' f = read_source fuel k width fields fs f.
Proof.
  intros A. induction fuel as [|fuel IH]; intros f; [reflexivity|]. rewrite !read_source_S, A.
  destruct (fs f) as [content|]; [|reflexivity]. apply src_same; assumption.
Qed.
Lemma source_same fs fs' fuel f cs : (forall g, fs' g = fs g) -> source_cards fuel fs f cs -> source_cards fuel fs' f cs.
Proof.
  intros A (d & sec & c8 & E & ->). exists d, sec, c8. split; [|reflexivity]. rewrite <- E. unfold argus_deck_new. f_equal.
  destruct f as [|x r]; [reflexivity|]. rewrite !deck_file by discriminate. rewrite (read_same _ _ _ fs fs' A fuel). reflexivity.
Qed.
Lemma log_same fs fs' f ls : (forall g, fs' g = fs g) -> read_log fs f ls -> read_log fs' f ls.
Proof.
  intros A H. revert f ls H.
  cut ((forall f ls, read_log fs f ls -> read_log fs' f ls) /\ (forall f i lines ls, lines_log fs f i lines ls -> lines_log fs' f i lines ls));
    [intros [H _]; exact H|].
  apply read_log_ind2 with (P := fun f ls _ => read_log fs' f ls) (P0 := fun f i lines ls _ => lines_log fs' f i lines ls).
  - intros f content ls E _ L. econstructor; [rewrite A; exact E|exact L].
  - intros. constructor.
  - intros. apply ll_comment; assumption.
  - intros. eapply ll_include; eassumption.
  - intros. apply ll_card; assumption.
Qed.
Lemma line_unique cs ys ys' : Forall2 list_line cs ys -> Forall2 list_line cs ys' -> ys = ys'.
Proof.
  intros A. revert ys'. induction A as [|c y cs ys (f & E & ->) _ IH]; intros ys' B; inversion B as [|? ? ? ? (f' & E' & ->) B']; subst; [reflexivity|].
  f_equal; [congruence|apply IH; assumption].
Qed.
Lemma C139_runs_pf : forall fuel v fs files ls fs', listings fuel v fs files ls fs' -> files <> [] ->
  exists fs2, listing_run fuel fs v files = ((ls, Ok tt), fs2) /\ forall g, fs2 g = fs' g.
Proof.
  intros fuel v fs files ls fs' H NE.
  assert (G : forall fs0, (forall g, fs0 g = fs g) -> exists fs2, listing_files fuel fs0 v files = ((ls, Ok tt), fs2) /\ forall g, fs2 g = fs' g).
  { clear NE. induction H as [fs|fs f name files log cs ys ls fs1 fs' L SC HN F W1 W2 H IH]; intros fs0 S0.
    - exists fs0. split; [reflexivity|exact S0].
    - assert (SC0 := source_same fs fs0 fuel f cs S0 SC). destruct (list_one fuel fs0 v f cs SC0) as (log0 & ys0 & L0 & F0 & E).
      assert (ys0 = ys) by (eapply line_unique; eassumption). assert (log0 = log) by (eapply log_unique; [exact L0|eapply log_same; eassumption]).
      subst ys0 log0. apply listfile_ok in HN.
      destruct (IH (fs_write fs0 (listfile f) (concat ys))) as (fs2 & E2 & S2).
      { intros g. destruct (written fs0 (listfile f) (concat ys)) as [V1 V2]. destruct (eq_dec_b g (listfile f)) as [->|N].
        - rewrite V1. rewrite HN. symmetry. exact W1.
        - rewrite V2, S0 by exact N. symmetry. apply W2. rewrite <- HN. exact N. }
      exists fs2. split; [|exact S2]. cbn [listing_files]. rewrite E, E2, HN. reflexivity. }
  unfold listing_run. destruct files as [|f files]; [contradiction|]. apply G. reflexivity.
Qed.
(*@ Example C139_runs_ex :
  let fs := fun f => if eqb f (lit "a.arg") then Some (lit "R 1") else None in
  exists ls fs', listings 2 true fs [lit "a.arg"] ls fs' /\ ls = [OutL (lit "Reading a.arg..."); OutL (lit "Wrote listing file to a.lst")].
Proof.
  cbv zeta. match goal with |- exists ls fs', listings _ _ ?g _ _ _ /\ _ => set (fs := g) end.
  destruct (listing_run 2 fs true [lit "a.arg"]) as [[ls r] fs'] eqn:E.
  assert (X : fst (listing_run 2 fs true [lit "a.arg"]) = (ls, r)) by (rewrite E; reflexivity). vm_compute in X.
  assert (r = Ok tt) by congruence. subst r. exists ls, fs'. split; [exact (proj2 (C139_transcript _ _ _ _ _ _ E))|].
  vm_compute. congruence.
Qed. @*)

(** *** C140 check-symbols, find-symbols, list-symbols *)
Lemma tables_full upper rep card_rep fuel fs v (counts : bool) files : forall css tab tot last0 ns, Forall2 (source_cards fuel fs) files css ->
  plain_names files -> plain_table tab ->
  exists ls mss tab' n, io_fold (fun s f =>
      io_bind (build_verbose upper rep card_rep fuel fs v (fst (fst s)) f) (fun r =>
      ((if counts then [built_line f (snd r)] else @nil line), Ok (fst r, snd (fst s) + snd r, snd r)))) files (tab, tot, last0) =
        (ls, Ok (tab', tot + zlen (concat mss), n)) /\
    fold_r (fun s f => do r <- build_symbol_table upper fuel fs f (fst s); Ok (fst r, snd s ++ [snd r])) files (tab, ns) =
      Ok (tab', ns ++ map zlen mss) /\
    tables_said upper rep card_rep fuel fs v counts files mss ls /\ plain_table tab'.
Proof.
  induction files as [|f files IH]; intros css tab tot last0 ns F PN P; inversion F as [|? cs ? css' SC F']; subst.
  - exists [], [], tab, last0. cbn [map concat]. rewrite app_nil_r. change (zlen (@nil str)) with 0. rewrite Z.add_0_r.
    split; [reflexivity|]. split; [reflexivity|]. split; [constructor|exact P].
  - destruct (seg_exists f) as (seg & SG). assert (NK : ~ is_kind seg) by (apply (PN f seg); [left; reflexivity|exact SG]).
    destruct (C112_messages_pf upper fuel fs f seg cs tab SG NK P SC) as (ms & tab1 & EB & R).
    destruct (C112_count_pf _ _ _ _ _ _ _ _ EB) as [_ E1].
    assert (P1 : plain_table tab1) by exact (proj2 C76_plain_pf _ _ _ _ _ _ _ _ SG NK P E1).
    destruct (C135_dumps_pf upper rep card_rep fuel fs f seg cs tab SG NK P SC) as (ds & tab2 & n2 & ED & DD).
    assert (X : tab2 = tab1 /\ n2 = zlen ms).
    { destruct (C135_blocks_pf upper rep card_rep _ _ _ _ _ _ _ EB) as (bs & _ & EX). rewrite EX in ED. split; congruence. }
    destruct X as [-> ->].
    destruct (run_logged fuel fs f v cs SC) as (log & L & EL).
    destruct (IH css' tab1 (tot + zlen ms) (zlen ms) (ns ++ [zlen ms]) F' ltac:(intros g sg G; apply PN; right; exact G) P1)
      as (ls & mss & tab' & n & EF & EA & RF & PF).
    eexists. exists (ms :: mss), tab', n. split; [|split; [|split; [eapply ts_file; eassumption|exact PF]]].
    + cbn [io_fold]. unfold build_verbose at 1. cbn [fst snd]. rewrite ED, EL. cbn [fst]. rewrite !bind_ok. cbn [fst snd]. rewrite bind_ok, EF.
      cbn [fst snd concat]. rewrite zlen_app, Z.add_assoc. f_equal. rewrite <- !app_assoc. destruct counts; reflexivity.
    + cbn [fold_r fst snd]. rewrite E1. cbn [bind fst snd map]. rewrite EA, <- app_assoc. reflexivity.
Qed.
Lemma tables_all upper rep card_rep fuel fs v (counts : bool) files css : Forall2 (source_cards fuel fs) files css -> plain_names files ->
  exists ls mss tab n, build_files_run upper rep card_rep fuel fs v counts files = (ls, Ok (tab, zlen (concat mss), n)) /\
    build_all upper fuel fs files = Ok (tab, map zlen mss) /\ tables_said upper rep card_rep fuel fs v counts files mss ls.
Proof.
  intros F PN. destruct (tables_full upper rep card_rep fuel fs v counts files css [] 0 0 [] F PN plain_nil) as (ls & mss & tab & n & E & A & T & _).
  exists ls, mss, tab, n. rewrite Z.add_0_l in E. auto.
Qed.
Lemma C140_check_pf : forall extract upper rep card_rep fuel fs v complexOnly files css, files <> [] ->
  Forall2 (source_cards fuel fs) files css -> plain_names files ->
  exists tables mss syms choices part total,
    check_symbols_verbose extract upper rep card_rep fuel fs v complexOnly files =
      (tables ++
       map (fun s => ErrL (lit "ERROR: symbol """ ++ s ++ lit """ has a complex assignment, but no simple assignment!")) syms ++
       part ++ total, Ok tt) /\
    tables_said upper rep card_rep fuel fs v true files mss tables /\
    StronglySorted str_lt syms /\
    (forall s, In s syms <-> complexOnly = true /\
      (exists seg ss e, defined_as upper files css s seg ss (lit "complex") e) /\
      ~ (exists seg ss e, defined_as upper files css s seg ss (lit "simple") e)) /\
    undefined_part (fun s => map fst (extract s choices 10)) syms part /\
    chosen_among upper files css choices /\
    total_part files (zlen (concat mss) + zlen syms) total.
Proof.
  intros extract upper rep card_rep fuel fs v co files css NE F PN.
  destruct (tables_all upper rep card_rep fuel fs v true files css F PN) as (tables & mss & tab & n & ET & EA & T).
  destruct (build_files upper fuel fs files css F PN) as (tab' & ns & E & P & D & C & K & G).
  assert (tab' = tab) by congruence. subst tab'. clear E EA.
  destruct (C81_complex_only_pf tab co (proj1 D)) as [S M].
  assert (X : forall s k, has_kind tab s k <-> (exists seg ss e, defined_as upper files css s seg ss k e)).
  { intros s k. split; intros (seg & ss & e & H); exists seg, ss, e; apply G; exact H. }
  set (syms := check_symtab tab co) in *.
  assert (UP : exists part, undefined_part (fun s => map fst (extract s (get_absolute tab) 10)) syms part /\
    part = match syms with
           | [] => []
           | _ => ErrL [] :: ErrL (lit "Undefined symbols:") ::
                  map (fun s => suggestion_line s (find_symbol extract tab s None false false true)) syms ++
                  [ErrL (str_of_Z (zlen syms) ++ lit " errors checking symbol table.")]
           end).
  { clearbody syms. destruct syms as [|s0 syms]; [exists []; split; [constructor|reflexivity]|]. eexists. split; [|reflexivity].
    apply (up_some _ (s0 :: syms)); [discriminate|].
    generalize (s0 :: syms). intros l. induction l as [|s l IH]; [constructor|]. cbn [map]. constructor; [|exact IH].
    unfold find_symbol. cbn [negb andb orb]. destruct (map fst (extract s (get_absolute tab) 10)) as [|m r]; cbn [suggestion_line].
    - constructor.
    - constructor. discriminate. }
  destruct UP as (part & U & EP).
  exists tables, mss, syms, (get_absolute tab), part.
  exists (if 1 <? zlen files then [ErrL (lit "Total: " ++ str_of_Z (zlen (concat mss) + zlen syms) ++ lit " errors encountered.")] else []).
  split.
  - unfold check_symbols_verbose. destruct files as [|f files]; [contradiction|]. rewrite ET, bind_ok. fold syms. rewrite EP. reflexivity.
  - split; [exact T|]. split; [exact S|]. split; [intros s; rewrite M, !X; tauto|]. split; [exact U|]. split.
    + exact (suggested_ok upper files css tab D G).
    + unfold total_part. destruct (Z.ltb_spec 1 (zlen files)); [right|left]; auto.
Qed.
(*@ Example C140_check_ex :
  let fs := fun f => if eqb f (lit "p.a") then Some (lit "# x" ++ [10] ++ lit "        A          ASSIGN       1" ++ [10] ++ lit "        A,B,C,D    DEC          1")
                     else if eqb f (lit "q.a") then Some (lit "        B          DEC          1") else None in
  check_symbols_verbose (fun _ cs _ => map (fun c => (c, 1)) cs) (fun s => s) quoted a_card 2 fs true true [lit "p.a"; lit "q.a"] =
    ([OutL (lit "Reading p.a..."); OutL (lit "Skipping meta-comment, file p.a, line 1");
      ErrL (lit "*** ERROR: Symbol A,B,C,D is illegal, too many commas!");
      ErrL (lit "Current definition: {'file': 'p.a', 'line': 3, 'lognum': None, 'tagtype': ' ', 'card': <card>}");
      ErrL (lit "p.a: 1 errors encountered building symbol table.");
      OutL (lit "Reading q.a..."); ErrL (lit "q.a: 0 errors encountered building symbol table.");
      ErrL (lit "ERROR: symbol ""A"" has a complex assignment, but no simple assignment!"); ErrL []; ErrL (lit "Undefined symbols:");
      OutL (lit "  A - Possible matches: B"); ErrL (lit "1 errors checking symbol table."); ErrL (lit "Total: 2 errors encountered.")], Ok tt).
Proof. vm_compute. reflexivity. Qed. @*)
Lemma C140_find_pf : forall extract upper rep card_rep fuel fs v exact symbol files css, files <> [] ->
  Forall2 (source_cards fuel fs) files css -> plain_names files ->
  exists tables mss ls r, find_symbols_verbose extract upper rep card_rep fuel fs v false false false exact (symbol :: files) = (tables ++ ls, Ok r) /\
    tables_said upper rep card_rep fuel fs v true files mss tables /\
    ((is_defined upper css symbol /\ exists sg t, ls = [OutL t] /\ r = Some (FDefs sg) /\ sg <> []) \/
     (~ is_defined upper css symbol /\ r = None /\ ls = [ErrL (lit "ERROR: Undefined symbol """ ++ symbol ++ lit """!")])).
Proof.
  intros extract upper rep card_rep fuel fs v exact symbol files css NE F PN.
  destruct (tables_all upper rep card_rep fuel fs v true files css F PN) as (tables & mss & tab & n & ET & EA & T).
  destruct (build_files upper fuel fs files css F PN) as (tab' & ns & E & P & D & C & K & G).
  assert (tab' = tab) by congruence. subst tab'. clear E EA.
  exists tables, mss. unfold find_symbols_verbose. cbn [andb orb]. destruct files as [|f files]; [contradiction|].
  rewrite ET, bind_ok. cbn [fst snd]. unfold find_symbol. cbn [negb andb].
  assert (IN : is_defined upper css symbol <-> dget tab symbol <> None).
  { rewrite <- K, <- dget_In. unfold dmem. destruct (dget tab symbol); split; try congruence; discriminate. }
  destruct (dget tab symbol) as [sg|] eqn:ES.
  - assert (SG : sg <> []) by (destruct D as [_ D]; exact (proj1 (D symbol sg ES))).
    exists [OutL (found_text rep card_rep (FDefs sg))], (Some (FDefs sg)). destruct sg as [|x sg]; [contradiction|]. cbn [fst snd]. split; [reflexivity|].
    split; [exact T|]. left. split; [apply IN; discriminate|]. eexists _, _. split; [reflexivity|]. split; [reflexivity|exact SG].
  - exists [undefined_message symbol], None. split; [reflexivity|]. split; [exact T|]. right.
    split; [rewrite IN; congruence|]. auto.
Qed.
(*@ Example C140_find_ex :
  let fs := fun f => if eqb f (lit "p.a") then Some (lit "        B          DEC          1") else None in
  find_symbols_verbose (fun _ _ _ => []) (fun s => s) quoted a_card 2 fs true false false false true [lit "A"; lit "p.a"] =
    ([OutL (lit "Reading p.a..."); ErrL (lit "p.a: 0 errors encountered building symbol table."); ErrL (lit "ERROR: Undefined symbol ""A""!")], Ok None).
Proof. vm_compute. reflexivity. Qed. @*)
Lemma C140_list_pf : forall upper rep card_rep fuel fs v files css, files <> [] ->
  Forall2 (source_cards fuel fs) files css -> plain_names files ->
  exists tables mss out es,
    list_symbols_run upper rep card_rep fuel fs v files =
      (tables ++ map OutL out ++
       (if zlen (concat mss) =? 0 then [] else [ErrL (str_of_Z (zlen (concat mss)) ++ lit " errors found")]), Ok tt) /\
    tables_said upper rep card_rep fuel fs v false files mss tables /\
    rendered (None, None, None) es out /\
    StronglySorted (fun x y => key_lt (fst x) (fst y)) es /\
    forall t s u k e, In ((t, s, u, k), e) es <-> defined_as upper files css t s u k e.
Proof.
  intros upper rep card_rep fuel fs v files css NE F PN.
  destruct (tables_all upper rep card_rep fuel fs v false files css F PN) as (tables & mss & tab & n & ET & EA & T).
  destruct (C102_list_pf upper fuel fs files css NE F PN) as (out & ns & es & EL & _ & R & SS & G).
  exists tables, mss, out, es. split; [|auto]. unfold list_symbols in EL. unfold list_symbols_run.
  destruct files as [|f files]; [contradiction|]. rewrite EA in EL. cbn [bind fst snd] in EL. rewrite ET, bind_ok. cbn [fst snd].
  destruct (ls_table tab) as [out'|e]; cbn [bind] in EL; [|discriminate]. assert (out' = out) by congruence. subst out'. cbn [fst snd].
  pose proof (zlen_nonneg (concat mss)). destruct (Z.eqb_spec (zlen (concat mss)) 0) as [Z0|Z0].
  - rewrite Z0. reflexivity.
  - replace (zlen (concat mss) >? 0) with true by lia. reflexivity.
Qed.
(*@ Example C140_list_ex :
  let fs := fun f => if eqb f (lit "p.a") then Some (lit "        B          DEC          1" ++ [10] ++ lit "        A,B,C,D    DEC          1") else None in
  list_symbols_run (fun s => s) quoted a_card 2 fs true [lit "p.a"] =
    ([OutL (lit "Reading p.a..."); ErrL (lit "*** ERROR: Symbol A,B,C,D is illegal, too many commas!");
      ErrL (lit "Current definition: {'file': 'p.a', 'line': 2, 'lognum': None, 'tagtype': ' ', 'card': <card>}");
      OutL (lit "B"); OutL (lit "  Segment: p"); OutL (lit "    Subsegment: 1");
      OutL (lit "        <simple>    p:1                                                 B          DEC          1");
      ErrL (lit "1 errors found")], Ok tt).
Proof. vm_compute. reflexivity. Qed. @*)
Lemma tables_missing upper rep card_rep fuel fs v counts pre css f post : Forall2 (source_cards fuel fs) pre css -> plain_names pre ->
  load fuel fs f = Err SystemExit ->
  exists ls mss log m, build_files_run upper rep card_rep fuel fs v counts (pre ++ f :: post) = (ls ++ (if v then log else []) ++ [ErrL m], Err SystemExit) /\
    tables_said upper rep card_rep fuel fs v counts pre mss ls /\ stops_at fs f log m.
Proof.
  intros F PN H. destruct (tables_all upper rep card_rep fuel fs v counts pre css F PN) as (ls & mss & tab & n & E & _ & T).
  destruct (load_missing fuel fs v f H) as (log & m & EL & S). exists ls, mss, log, m. split; [|auto].
  unfold build_files_run. rewrite io_fold_app. fold (build_files_run upper rep card_rep fuel fs v counts pre). rewrite E, bind_ok. cbn [io_fold fst snd].
  assert (EB : dump_table_run upper rep card_rep fuel fs f tab = ([], tab, Err SystemExit)).
  { unfold load in H. unfold dump_table_run. cbv zeta.
    destruct (argus_deck_new fuel fs None (Some f) DEFAULT_WIDTH DEFAULT_FIELDS ArgusCls) as [[[d sec] c8]|e]; cbn [bind] in H; [discriminate|].
    congruence. }
  assert (BV : build_verbose upper rep card_rep fuel fs v tab f = ((if v then log else []) ++ [ErrL m], Err SystemExit)).
  { unfold build_verbose. rewrite EB, EL. cbn [fst map]. rewrite app_nil_r. reflexivity. }
  rewrite !BV. unfold io_bind. cbn [fst snd]. reflexivity.
Qed.
Lemma C140_missing_pf : forall extract upper rep card_rep fuel fs v pre css f post,
  Forall2 (source_cards fuel fs) pre css -> plain_names pre -> load fuel fs f = Err SystemExit ->
  exists log m, stops_at fs f log m /\
    (forall complexOnly, exists ls mss, tables_said upper rep card_rep fuel fs v true pre mss ls /\
       check_symbols_verbose extract upper rep card_rep fuel fs v complexOnly (pre ++ f :: post) = (ls ++ (if v then log else []) ++ [ErrL m], Err SystemExit)) /\
    (forall begin end_ fuzzy exact symbol, zlen (filter (fun b : bool => b) [begin; end_; fuzzy; exact]) <= 1 ->
       exists ls mss, tables_said upper rep card_rep fuel fs v true pre mss ls /\
       find_symbols_verbose extract upper rep card_rep fuel fs v begin end_ fuzzy exact (symbol :: pre ++ f :: post) =
         (ls ++ (if v then log else []) ++ [ErrL m], Err SystemExit)) /\
    (exists ls mss, tables_said upper rep card_rep fuel fs v false pre mss ls /\
       list_symbols_run upper rep card_rep fuel fs v (pre ++ f :: post) = (ls ++ (if v then log else []) ++ [ErrL m], Err SystemExit)).
Proof.
  intros extract upper rep card_rep fuel fs v pre css f post F PN H.
  destruct (tables_missing upper rep card_rep fuel fs v true pre css f post F PN H) as (ls & mss & log & m & E & T & S).
  destruct (tables_missing upper rep card_rep fuel fs v false pre css f post F PN H) as (ls2 & mss2 & log2 & m2 & E2 & T2 & S2).
  assert (EQ : (if v then log2 else []) ++ [ErrL m2] = (if v then log else []) ++ [ErrL m]).
  { destruct (load_missing fuel fs v f H) as (l0 & m0 & EL & _). assert (NF : f <> []) by (intros ->; discriminate H).
    destruct (C118_missing_pf _ _ _ _ NF S) as (n1 & H1). destruct (C118_missing_pf _ _ _ _ NF S2) as (n2 & H2).
    destruct (H1 (Nat.max n1 n2) ltac:(lia)) as [_ A]. destruct (H2 (Nat.max n1 n2) ltac:(lia)) as [_ B]. rewrite A in B.
    assert (X : log ++ [ErrL m] = log2 ++ [ErrL m2]) by congruence. apply app_inj_tail in X. destruct X as [-> X]. rewrite X. reflexivity. }
  exists log, m. split; [exact S|]. assert (NN : pre ++ f :: post <> []) by (destruct pre; discriminate).
  split; [|split].
  - intros co. exists ls, mss. split; [exact T|]. unfold check_symbols_verbose. destruct (pre ++ f :: post); [contradiction|]. rewrite E, bind_err. reflexivity.
  - intros b e z x symbol L. exists ls, mss. split; [exact T|]. unfold find_symbols_verbose.
    replace ((b && x) || (e && x) || (b && e) || (z && (b || e || x))) with false
      by (destruct b, e, z, x; cbn in L |- *; try reflexivity; unfold zlen in L; cbn in L; lia).
    destruct (pre ++ f :: post); [contradiction|]. rewrite E, bind_err. reflexivity.
  - exists ls2, mss2. split; [exact T2|]. unfold list_symbols_run. destruct (pre ++ f :: post); [contradiction|]. rewrite E2, bind_err, EQ. reflexivity.
Qed.
(*@ Example C140_missing_ex :
  let fs := fun f => if eqb f (lit "p.a") then Some (lit "$x" ++ [10]) else None in
  list_symbols_run (fun s => s) quoted a_card 2 fs true [lit "p.a"; lit "q.a"] =
    ([OutL (lit "Reading p.a..."); ErrL (lit "File ""x"" does not exist")], Err SystemExit) /\
  check_symbols_verbose (fun _ _ _ => []) (fun s => s) quoted a_card 2 fs false true [lit "q.a"] = ([ErrL (lit "ERROR: File ""q.a"" does not exist!")], Err SystemExit).
Proof. vm_compute. auto. Qed. @*)
