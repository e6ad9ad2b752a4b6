From Coq Require Import ZArith List Bool Lia Sorted.
From Verif Require Import Py LPy MInstruction MCards SCards LCards LDeck MSymbols SSymbols LSymBuild MInstructions MTools STools LTools LToolSym LListTool MDiag SDiag LDiag LQuiet MDump SDump MVerbose SVerbose LVerbose STranscript LTranscript MOptions SOptions LOptions MProcess SProcess LProcess SEnds LEnds SSource LSource SFound LFound STextSym.
#[local] Arguments Z.add : simpl never.
#[local] Arguments Z.sub : simpl never.
#[local] Arguments Z.mul : simpl never.
#[local] Arguments Z.pow : simpl never.

Lemma agrees_never upper out cs t u k : Forall2 agrees out cs -> (undefined_in upper out t u k <-> never_def upper (lit "1") cs t u k).
Proof.
  intros F. split; intros H a x b tt E D S.
  - subst cs. destruct (F2_split_r _ _ _ _ _ F) as (a' & y & b' & -> & Fa & A & Fb).
    apply (H a' y b' tt eq_refl); [apply (agrees_defines _ _ _ _ _ _ A); exact D|].
    apply (agrees_subseg _ (a ++ [x])); [apply Forall2_app; [exact Fa|constructor; [exact A|constructor]]|exact S].
  - subst out. destruct (F2_split_l _ _ _ _ _ F) as (a' & y & b' & -> & Fa & A & Fb).
    apply (H a' y b' tt eq_refl); [apply (agrees_defines _ _ _ _ _ _ A); exact D|].
    apply (agrees_subseg (a ++ [x])); [apply Forall2_app; [exact Fa|constructor; [exact A|constructor]]|exact S].
Qed.
(** files with their lines and files with their cards *)
Definition paired (p : str * list srcline) (q : str * list card) : Prop := fst p = fst q /\ Forall2 agrees (snd p) (snd q).
Lemma combine_paired (files : list str) outs css : Forall2 (Forall2 agrees) outs css -> Forall2 paired (combine files outs) (combine files css).
Proof.
  intros F. revert files. induction F as [|out cs outs css A _ IH]; intros [|f files]; cbn [combine]; try constructor; [split; [reflexivity|exact A]|apply IH].
Qed.
Lemma defined_1 upper files outs css t s u k e : Forall2 (Forall2 agrees) outs css -> defined_as upper files css t s u k e ->
  exists x tt, defined_at upper files outs t s u k x tt /\ made_from x tt e.
Proof.
  intros F (pre & f & cs & post & c & tt & E & SG & LD & EF & N). pose proof (combine_paired files _ _ F) as C. rewrite E in C.
  destruct (F2_split_r _ _ _ _ _ C) as (pre' & [f' out] & post' & E' & _ & [P1 P2] & FP). cbn [fst snd] in P1, P2. subst f'.
  destruct (agrees_latest_1 _ _ _ _ _ _ _ _ P2 LD) as (x & A & LA). exists x, tt. split; [|exact (agrees_made _ _ _ _ A EF)].
  exists pre', f, out, post'. split; [exact E'|]. split; [exact SG|]. split; [exact LA|]. intros g o I SG'.
  destruct (F2_In_l _ _ _ _ FP I) as ([g' c'] & J & [Q1 Q2]). cbn [fst snd] in Q1, Q2. subst g'. apply (agrees_never _ _ c'); [exact Q2|]. exact (N _ _ J SG').
Qed.
Lemma defined_2 upper files outs css t s u k x tt : Forall2 (Forall2 agrees) outs css -> defined_at upper files outs t s u k x tt ->
  exists e, defined_as upper files css t s u k e /\ made_from x tt e.
Proof.
  intros F (pre & f & out & post & E & SG & LA & N). pose proof (combine_paired files _ _ F) as C. rewrite E in C.
  destruct (F2_split_l _ _ _ _ _ C) as (pre' & [f' cs] & post' & E' & _ & [P1 P2] & FP). cbn [fst snd] in P1, P2. subst f'.
  destruct (agrees_latest_2 _ _ _ _ _ _ _ _ P2 LA) as (c & A & LD).
  assert (EX : exists e, entry_from c tt e).
  { destruct x as [[g i] line]. destruct A as (_ & _ & _ & _ & _ & (v & G & _) & _).
    exists (mkent (c_filename c) (c_linenum c) v tt c). repeat split; try reflexivity; exact G. }
  destruct EX as (e & EF). exists e. split; [|exact (agrees_made _ _ _ _ A EF)].
  exists pre', f, cs, post', c, tt. split; [exact E'|]. split; [exact SG|]. split; [exact LD|]. split; [exact EF|]. intros g o I SG'.
  destruct (F2_In_r _ _ _ _ FP I) as ([g' o'] & J & [Q1 Q2]). cbn [fst snd] in Q1, Q2. subst g'. apply (agrees_never _ o'); [exact Q2|]. exact (N _ _ J SG').
Qed.
Lemma row_made k x tt e y : made_from x tt e -> (def_line k e y <-> symbol_row k x tt y).
Proof.
  destruct x as [[f i] line]. intros (E1 & E2 & _ & E4 & E5). unfold def_line, symbol_row. rewrite E1, E2, E4, E5. split.
  - intros (f' & g & [= <-] & S & ->). exists g. auto.
  - intros (g & S & ->). exists f, g. auto.
Qed.
Definition pos_of (p : option (str * str * str)) : lspos := match p with Some (a, b, c) => (Some a, Some b, Some c) | None => (None, None, None) end.
Lemma rendered_rows p es out : rendered (pos_of p) es out ->
  exists rows, laid_out p rows out /\ Forall2 (fun x r => fst x = fst r /\ def_line (snd (fst x)) (snd x) (snd r)) es rows.
Proof.
  revert p out. induction es as [|[[[[t s] u] k] e] es IH]; intros p out R; [exists []; split; [exact R|constructor]|].
  destruct R as (y & out' & D & R & ->). destruct (IH (Some (t, s, u)) out' R) as (rows & L & F).
  exists (((t, s, u, k), y) :: rows). split; [|constructor; [split; [reflexivity|exact D]|exact F]].
  exists out'. split; [exact L|]. unfold headers. destruct p as [[[a b] c]|]; cbn [pos_of is_at]; [|reflexivity].
  destruct (eqb a t); cbn [andb app]; [|reflexivity]. destruct (eqb b s); cbn [andb app]; [|reflexivity]. destruct (eqb c u); reflexivity.
Qed.
Lemma described_complaint upper c m ty : described upper c m ty -> complaint upper c m.
Proof. destruct 1; [eapply cp_case|eapply cp_commas|eapply cp_prefix|eapply cp_unsupported|eapply cp_no_operation]; eassumption. Qed.
Lemma agrees_said upper x c m ty : agrees x c -> described upper c m ty -> label_said upper (text_of x) m ty.
Proof.
  destruct x as [[f i] line]. intros (_ & _ & NO & LB & _) D. cbn [text_of snd].
  destruct D as [s L|s x y z L|s p t L|s p t L|s tt tag L W G]; apply LB in L.
  - apply la_case; assumption.
  - eapply la_commas; eassumption.
  - eapply la_prefix; eassumption.
  - eapply la_unsupported; eassumption.
  - eapply la_no_operation; [eassumption|eassumption|]. apply NO. exact G.
Qed.
Lemma said_complaint upper x c m ty : agrees x c -> label_said upper (text_of x) m ty -> complaint upper c m.
Proof.
  destruct x as [[f i] line]. intros (_ & _ & NO & LB & _) D. cbn [text_of snd] in D.
  destruct D as [s L|s x y z L|s p t L|s p t L|s tt tag L W G]; apply LB in L.
  - apply cp_case; assumption.
  - eapply cp_commas; eassumption.
  - eapply cp_prefix; eassumption.
  - eapply cp_unsupported; eassumption.
  - eapply cp_no_operation; [eassumption|eassumption|]. apply NO. exact G.
Qed.
Lemma agrees_block upper rep card_rep x c m ty d : agrees x c -> ~ starred c -> described upper c m ty -> definition_text rep card_rep c ty d ->
  label_block upper rep x [ErrL m; ErrL (lit "Current definition: " ++ d)].
Proof.
  intros A N D (lognum & f' & l & g & LG & R1 & R2 & R3 & ->). pose proof (agrees_said _ _ _ _ _ A D) as S.
  destruct x as [[f i] line]. destruct A as (SS & _ & _ & _ & _ & (v & G & SH) & EF & EL & _). cbn [text_of snd] in S.
  split; [rewrite <- SS; exact N|]. exists m, ty, lognum, l, g, (card_rep c). split; [exact S|]. split; [|split; [exact R2|split; [exact R3|]]].
  - destruct LG as [[E ->]|(s & E & ->)]; rewrite G in E; injection E as ->; [left; auto|right; exists s; auto].
  - rewrite EF in R1. cbn [none_or] in R1. subst f'. rewrite EL. unfold dict_text, items_text. cbn [lit app map]. rewrite <- ?app_assoc. cbn [app].
    reflexivity.
Qed.
Lemma blocks_said upper rep card_rep out cs : Forall2 agrees out cs -> forall ms ds, reported upper cs ms -> dumped upper rep card_rep cs ds ->
  exists blocks, picked (label_block upper rep) out blocks /\ map ErrL ds = concat blocks /\ zlen ms = zlen blocks.
Proof.
  induction 1 as [|x c out cs A _ IH]; intros ms ds R D.
  - inversion R; inversion D; subst. exists []. repeat split; constructor.
  - assert (NO : (starred c \/ forall m, ~ complaint upper c m) -> forall y, ~ label_block upper rep x y).
    { intros [H|H] y B; destruct x as [[f i] line].
      - destruct A as (SS & _). apply (proj1 B). apply SS. exact H.
      - destruct B as (_ & m & ty & _ & _ & _ & _ & S & _). apply (H m). exact (said_complaint _ _ _ _ _ A S). }
    inversion R as [|? ? m ms' NS C R'|? ? ? G R']; subst; inversion D as [|? ? m' ty d ls NS' C' T D'|? ? ? G' D']; subst.
    + destruct (IH _ _ R' D') as (bs & P & E & Z). exists ([ErrL m'; ErrL (lit "Current definition: " ++ d)] :: bs). split; [|split].
      * constructor; [exact (agrees_block _ _ _ _ _ _ _ _ A NS' C' T)|exact P].
      * cbn [map concat app]. rewrite E. reflexivity.
      * rewrite !zlen_cons. lia.
    + exfalso. destruct G' as [G'|G']; [exact (NS G')|exact (G' _ C)].
    + exfalso. destruct G as [G|G]; [exact (NS' G)|exact (G _ (described_complaint _ _ _ _ C'))].
    + destruct (IH _ _ R' D') as (bs & P & E & Z). exists bs. split; [|auto]. apply pk_no; [exact (NO G)|exact P].
Qed.
Lemma tables_labels upper rep card_rep fuel fs counts files mss ls : tables_said upper rep card_rep fuel fs false counts files mss ls ->
  forall outs css, Forall2 (source_cards fuel fs) files css -> Forall2 (Forall2 agrees) outs css ->
  labels_said upper rep counts files outs (zlen (concat mss)) ls.
Proof.
  induction 1 as [|f files log cs ms ds mss ls RL SC R D T IH]; intros outs css F A.
  - inversion F; subst. inversion A; subst. constructor.
  - inversion F as [|? cs' ? css' S F']; subst. inversion A as [|out ? outs' ? A1 A2]; subst.
    rewrite (source_unique _ _ _ _ _ S SC) in A1. destruct (blocks_said _ _ _ _ _ A1 _ _ R D) as (bs & P & E & Z).
    cbn [concat]. rewrite zlen_app, Z, E. cbn [app]. constructor; [exact P|]. apply (IH _ css'); assumption.
Qed.
Lemma rows_of (upper : str -> str) files outs css rows es : Forall2 (Forall2 agrees) outs css ->
  Forall2 (fun (x : symkey * tabent) (r : symkey * str) => fst x = fst r /\ def_line (snd (fst x)) (snd x) (snd r)) es rows ->
  (forall t s u k e, In ((t, s, u, k), e) es <-> defined_as upper files css t s u k e) ->
  forall t s u k y, In ((t, s, u, k), y) rows <-> exists x tt, defined_at upper files outs t s u k x tt /\ symbol_row k x tt y.
Proof.
  intros A F G t s u k y. split.
  - intros I. destruct (F2_In_r _ _ _ _ F I) as ([[[[t' s'] u'] k'] e] & J & [E D]). cbn [fst snd] in E, D. injection E as -> -> -> ->.
    apply G in J. destruct (defined_1 _ _ _ _ _ _ _ _ _ A J) as (x & tt & X & M). exists x, tt. split; [exact X|]. exact (proj1 (row_made _ _ _ _ _ M) D).
  - intros (x & tt & X & R). destruct (defined_2 _ _ _ _ _ _ _ _ _ _ A X) as (e & D & M). apply G in D.
    destruct (F2_In_l _ _ _ _ F D) as ([q y'] & J & [E L]). cbn [fst snd] in E, L. subst q. apply (row_made _ _ _ _ _ M) in L.
    replace y with y'; [exact J|]. destruct x as [[f i] line]. destruct R as (g & S1 & ->). destruct L as (g' & S2 & ->).
    rewrite (seg_unique _ _ _ S1 S2). reflexivity.
Qed.
Lemma C154_list_pf : forall fs prog words on files outs,
  understood (options ListSymbols) words on files -> ~ In (lit "verbose") on ->
  files <> [] -> ~ In [] files -> plain_names files -> Forall2 (source fs) files outs ->
  exists k, forall v, (k <= e_fuel v)%nat -> exists said shown rows n,
    command v fs ListSymbols prog words =
      (said ++ map OutL shown ++ (if n =? 0 then [] else [ErrL (str_of_Z n ++ lit " errors found")]), Exit 0, fs) /\
    labels_said (e_upper v) (e_rep v) false files outs n said /\
    laid_out None rows shown /\
    StronglySorted (fun a b => key_lt (fst a) (fst b)) rows /\
    (forall t s u k y, In ((t, s, u, k), y) rows <->
       exists x tt, defined_at (e_upper v) files outs t s u k x tt /\ symbol_row k x tt y).
Proof.
  intros fs prog words on files outs U O NE N PN S. destruct (sources_read fs files outs N S) as (k & css & A & K).
  exists k. intros v L. specialize (K _ L).
  destruct (C142_starts_pf v fs ListSymbols prog words on files U (files_no_misuse fs ListSymbols on files ltac:(cbn; auto 8) NE)) as (ls & st & fs' & E & R).
  inversion R as [| | | |verbose ls0 r st0 V1 EC EA| | | | | |]; subst. assert (EV := off _ _ _ V1 O).
  destruct (C140_list_pf (e_upper v) (e_rep v) (e_card_rep v) (e_fuel v) fs' verbose files css NE K PN) as (tb & mss & out & es & X & T & RD & SS & G).
  rewrite X in EC. assert (r = Ok tt) by congruence. subst r. apply (f_equal fst) in EC. cbn [fst] in EC. subst ls. inversion EA; subst.
  destruct (rendered_rows None es out RD) as (rows & LO & F).
  exists tb, out, rows, (zlen (concat mss)). split; [exact E|]. split; [exact (tables_labels _ _ _ _ _ _ _ _ _ T _ _ K A)|]. split; [exact LO|].
  split; [|exact (rows_of _ _ _ _ _ _ A F G)].
  clear - F SS. induction F as [|x r es rows [E _] F IH]; [constructor|]. inversion SS as [|? ? SS' H]; subst. constructor; [apply IH; exact SS'|].
  rewrite Forall_forall in *. intros y I. destruct (F2_In_r _ _ _ _ F I) as (z & J & [E' _]). clear IH. cbn beta in E'. destruct x as [q ex], r as [q' ey], z as [w ez], y as [w' ew]. cbn [fst snd] in E, E' |- *. subst. exact (H _ J).
Qed.
(*@ Example C154_list_ex : let v := mkenv (fun _ _ => []) (fun _ _ _ => []) (map (fun c => if (97 <=? c) && (c <=? 122) then c - 32 else c)) (fun s => s) (fun _ => lit "?") 3 (fun _ => []) in
  Forall2 (source sample) [lit "a.arg"] [sample_lines] /\ plain_names [lit "a.arg"] /\
  understood (options ListSymbols) [lit "a.arg"] [] [lit "a.arg"] /\
  fst (command v sample ListSymbols (lit "x.py") [lit "a.arg"]) =
    ([ErrL (lit "*** ERROR: Symbol x is ill-formed (case)!");
      ErrL (lit "Current definition: {'file': inc, 'line': 2, 'lognum': None, 'tagtype': None, 'card': ?}");
      OutL (lit "A"); OutL (lit "  Segment: a"); OutL (lit "    Subsegment: 1");
      OutL (lit "        <simple>    a:6                                           12    A          FOO");
      OutL (lit "N"); OutL (lit "  Segment: a"); OutL (lit "    Subsegment: 1");
      OutL (lit "        <complex>   inc:1                                               N          ASSIGN       5");
      ErrL (lit "1 errors found")], Exit 0).
Proof.
  split; [constructor; [exact sample_ok|constructor]|]. split.
  { intros f seg [<-|[]] S. apply seg_ok in S. vm_compute in S. subst seg. intros [H|H]; discriminate. }
  split; [apply ud_arg; [right; intros r; discriminate|constructor]|]. vm_compute. reflexivity.
Qed. @*)
(** a symbol is defined with a kind in some segment and subsegment exactly when a line defines it with that kind *)
Lemma counted_pairs upper (ps : list (str * list card)) t seg u k : Forall (fun p => Forall proper_card (snd p)) ps ->
  (exists f cs c tt, In (f, cs) ps /\ segment_of f seg /\ last_def upper (lit "1") cs t u k c tt) ->
  exists pre f cs post c tt, ps = pre ++ (f, cs) :: post /\ segment_of f seg /\ last_def upper (lit "1") cs t u k c tt /\
    forall f' cs', In (f', cs') post -> segment_of f' seg -> never_def upper (lit "1") cs' t u k.
Proof.
  induction ps as [|[g ds] ps IH] using rev_ind; intros F (f & cs & c & tt & I & SG & LD); [destruct I|].
  apply Forall_app in F. destruct F as [F1 F2]. inversion F2 as [|? ? PC _]; subst. cbn [snd] in PC.
  destruct (list_eq_dec Z.eq_dec (nth 0 (split_on 46 g) []) seg) as [EG|NG].
  - apply seg_ok in EG. destruct (last_or_never upper (lit "1") t u k ds PC) as [(c' & tt' & LD')|ND].
    + exists ps, g, ds, [], c', tt'. split; [reflexivity|]. split; [exact EG|]. split; [exact LD'|]. intros f' cs' [].
    + apply in_app_or in I. destruct I as [I|[[= <- <-]|[]]].
      * destruct (IH F1) as (pre & f0 & c0 & post & d & td & -> & S0 & L0 & H); [exists f, cs, c, tt; auto|].
        exists pre, f0, c0, (post ++ [(g, ds)]), d, td. rewrite <- app_assoc. split; [reflexivity|]. split; [exact S0|]. split; [exact L0|].
        intros f' cs' J S'. apply in_app_or in J. destruct J as [J|[[= <- <-]|[]]]; [exact (H _ _ J S')|exact ND].
      * exfalso. destruct LD as (pre & post & E & D & U & _). exact (ND _ _ _ _ E D U).
  - apply in_app_or in I. destruct I as [I|[[= <- <-]|[]]]; [|destruct NG; apply seg_ok; exact SG].
    destruct (IH F1) as (pre & f0 & c0 & post & d & td & -> & S0 & L0 & H); [exists f, cs, c, tt; auto|].
    exists pre, f0, c0, (post ++ [(g, ds)]), d, td. rewrite <- app_assoc. split; [reflexivity|]. split; [exact S0|]. split; [exact L0|].
    intros f' cs' J S'. apply in_app_or in J. destruct J as [J|[[= <- <-]|[]]]; [exact (H _ _ J S')|destruct NG; apply seg_ok; exact S'].
Qed.
Lemma entry_exists fuel fs f cs c tt : source_cards fuel fs f cs -> In c cs -> exists e, entry_from c tt e.
Proof.
  intros S I. pose proof (source_proper _ _ _ _ S) as P. rewrite Forall_forall in P. destruct (P _ I "lognum"%string ltac:(cbn; tauto)) as (v & G & _).
  exists (mkent (c_filename c) (c_linenum c) v tt c). repeat split; try reflexivity; exact G.
Qed.
Lemma defined_somewhere upper fuel fs files css s k : Forall2 (source_cards fuel fs) files css ->
  ((exists seg ss e, defined_as upper files css s seg ss k e) <-> exists cs c tt, In cs css /\ In c cs /\ defines upper c s k tt).
Proof.
  intros F. split.
  - intros (seg & ss & e & pre & f & cs & post & c & tt & E & _ & (a & b & -> & D & _) & _).
    exists (a ++ c :: b), c, tt. split; [|split; [apply in_or_app; right; left; reflexivity|exact D]].
    apply (in_combine_r files css f). rewrite E. apply in_or_app. right. left. reflexivity.
  - intros (cs & c & tt & I & J & D). destruct (F2_In_r _ _ _ _ F I) as (f & IF & S).
    destruct (F2_pairs _ _ _ F) as (ps & -> & -> & FP). assert (IP : exists f, In (f, cs) ps /\ source_cards fuel fs f cs).
    { apply in_map_iff in I. destruct I as ([g ds] & E & I). cbn [snd] in E. subst ds. exists g. split; [exact I|].
      rewrite Forall_forall in FP. exact (FP _ I). }
    clear f IF S. destruct IP as (f & IP & S). apply in_split in J. destruct J as (a & b & EJ).
    destruct (C80_unique_pf (lit "1") (a ++ [c])) as (u & CU & _).
    destruct (last_or_never upper (lit "1") s u k cs (source_proper _ _ _ _ S)) as [(c' & tt' & LD)|ND];
      [|exfalso; exact (ND _ _ _ _ EJ D CU)].
    destruct (counted_pairs upper ps s (nth 0 (split_on 46 f) []) u k) as (pre & g & ds & post & d & td & E & SG & L & H).
    + rewrite Forall_forall in *. intros p Q. exact (source_proper _ _ _ _ (FP _ Q)).
    + exists f, cs, c', tt'. split; [exact IP|]. split; [apply seg_ok; reflexivity|exact LD].
    + assert (IG : In (g, ds) ps) by (rewrite E; apply in_or_app; right; left; reflexivity).
      rewrite Forall_forall in FP. pose proof (FP _ IG) as SG'. cbn [fst snd] in SG'.
      assert (ID : In d ds) by (destruct L as (x & y & -> & _); apply in_or_app; right; left; reflexivity).
      destruct (entry_exists _ _ _ _ _ td SG' ID) as (e & EF).
      exists (nth 0 (split_on 46 f) []), u, e, pre, g, ds, post, d, td. rewrite combine_map. auto 8.
Qed.
Lemma defined_segment upper fuel fs files css s seg k : Forall2 (source_cards fuel fs) files css ->
  ((exists ss e, defined_as upper files css s seg ss k e) <->
   exists f cs c tt, In (f, cs) (combine files css) /\ segment_of f seg /\ In c cs /\ defines upper c s k tt).
Proof.
  intros F. split.
  - intros (ss & e & pre & f & cs & post & c & tt & E & SG & (a & b & -> & D & _) & _).
    exists f, (a ++ c :: b), c, tt. split; [rewrite E; apply in_or_app; right; left; reflexivity|]. split; [exact SG|].
    split; [apply in_or_app; right; left; reflexivity|exact D].
  - intros (f & cs & c & tt & I & SG & J & D).
    destruct (F2_pairs _ _ _ F) as (ps & -> & -> & FP). rewrite combine_map in I.
    pose proof FP as FP'. rewrite Forall_forall in FP'. pose proof (FP' _ I) as S. cbn [fst snd] in S. apply in_split in J. destruct J as (a & b & EJ).
    destruct (C80_unique_pf (lit "1") (a ++ [c])) as (u & CU & _).
    destruct (last_or_never upper (lit "1") s u k cs (source_proper _ _ _ _ S)) as [(c' & tt' & LD)|ND];
      [|exfalso; exact (ND _ _ _ _ EJ D CU)].
    destruct (counted_pairs upper ps s seg u k) as (pre & g & ds & post & d & td & E & SG2 & L & H).
    + rewrite Forall_forall in *. intros p Q. exact (source_proper _ _ _ _ (FP _ Q)).
    + exists f, cs, c', tt'. split; [exact I|]. split; [exact SG|exact LD].
    + assert (IG : In (g, ds) ps) by (rewrite E; apply in_or_app; right; left; reflexivity).
      pose proof (FP' _ IG) as SG'. cbn [fst snd] in SG'.
      assert (ID : In d ds) by (destruct L as (x & y & -> & _); apply in_or_app; right; left; reflexivity).
      destruct (entry_exists _ _ _ _ _ td SG' ID) as (e & EF).
      exists u, e, pre, g, ds, post, d, td. rewrite combine_map. auto 8.
Qed.
Lemma somewhere_text upper outs css s k : Forall2 (Forall2 agrees) outs css ->
  ((exists cs c tt, In cs css /\ In c cs /\ defines upper c s k tt) <->
   exists out x tt, In out outs /\ In x out /\ line_defines upper (text_of x) s k tt).
Proof.
  intros F. split.
  - intros (cs & c & tt & I & J & D). destruct (F2_In_r _ _ _ _ F I) as (out & I' & A). destruct (F2_In_r _ _ _ _ A J) as (x & J' & Q).
    exists out, x, tt. split; [exact I'|]. split; [exact J'|]. apply (agrees_defines _ _ _ _ _ _ Q). exact D.
  - intros (out & x & tt & I & J & D). destruct (F2_In_l _ _ _ _ F I) as (cs & I' & A). destruct (F2_In_l _ _ _ _ A J) as (c & J' & Q).
    exists cs, c, tt. split; [exact I'|]. split; [exact J'|]. apply (agrees_defines _ _ _ _ _ _ Q). exact D.
Qed.
Lemma within_text upper fuel fs files outs css s seg k : Forall2 (source_cards fuel fs) files css -> Forall2 (Forall2 agrees) outs css ->
  ((exists ss e, defined_as upper files css s seg ss k e) <-> defined_within upper files outs s seg k).
Proof.
  intros F A. rewrite (defined_segment _ _ _ _ _ _ _ _ F). pose proof (combine_paired files _ _ A) as C. split.
  - intros (f & cs & c & tt & I & SG & J & D). destruct (F2_In_r _ _ _ _ C I) as ([f' out] & I' & [E Q]). cbn [fst snd] in E, Q. subst f'.
    destruct (F2_In_r _ _ _ _ Q J) as (x & J' & Q'). exists f, out, x, tt. split; [exact I'|]. split; [exact SG|]. split; [exact J'|].
    apply (agrees_defines _ _ _ _ _ _ Q'). exact D.
  - intros (f & out & x & tt & I & SG & J & D). destruct (F2_In_l _ _ _ _ C I) as ([f' cs] & I' & [E Q]). cbn [fst snd] in E, Q. subst f'.
    destruct (F2_In_l _ _ _ _ Q J) as (c & J' & Q'). exists f, cs, c, tt. split; [exact I'|]. split; [exact SG|]. split; [exact J'|].
    apply (agrees_defines _ _ _ _ _ _ Q'). exact D.
Qed.
Lemma suggestions_text upper fuel fs files outs css choices : Forall2 (source_cards fuel fs) files css -> Forall2 (Forall2 agrees) outs css ->
  chosen_among upper files css choices -> suggestions upper files outs choices.
Proof.
  intros F A [SS M]. split; [exact SS|]. intros s. rewrite M.
  assert (W : forall s seg k, (exists ss e, defined_as upper files css s seg ss k e) <-> defined_within upper files outs s seg k) by (intros; exact (within_text _ _ _ _ _ _ _ _ _ F A)).
  assert (V : forall s, (exists seg ss e, defined_as upper files css s seg ss (lit "simple") e) <-> exists seg, defined_within upper files outs s seg (lit "simple")).
  { intros t. split; intros (seg & H); exists seg; apply W; exact H. }
  split.
  - intros [(seg & ss & e & D & MIN)|[D MIN]]; [left; exists seg; split; [apply W; eauto|]|right; split; [apply V; exact D|]].
    + intros seg' k' H. apply W in H. destruct H as (ss' & e' & H). exact (MIN _ _ _ _ H).
    + intros s' L H. apply (MIN s' L). apply V. exact H.
  - intros [(seg & D & MIN)|[D MIN]]; [left|right; split; [apply V; exact D|]].
    + apply W in D. destruct D as (ss & e & D). exists seg, ss, e. split; [exact D|]. intros seg' ss' k' e' H. apply (MIN seg' k'). apply W. eauto.
    + intros s' L H. apply (MIN s' L). apply V. exact H.
Qed.
(** the suggestions depend only on what is defined in which segment *)
Lemma suggestions_same upper files outs files' outs' ch ch' :
  (forall s seg k, defined_within upper files outs s seg k <-> defined_within upper files' outs' s seg k) ->
  suggestions upper files outs ch -> suggestions upper files' outs' ch' -> ch = ch'.
Proof.
  intros W [SS M] [SS' M']. apply same_sorted; [exact SS|exact SS'|]. intros s. rewrite M, M'. split.
  - intros [(seg & D & MIN)|[(seg & D) MIN]]; [left; exists seg; split; [apply W; exact D|]|right; split; [exists seg; apply W; exact D|]].
    + intros seg' k H. apply (MIN seg' k), W, H.
    + intros s' L (g & H). apply (MIN s' L). exists g. apply W. exact H.
  - intros [(seg & D & MIN)|[(seg & D) MIN]]; [left; exists seg; split; [apply W; exact D|]|right; split; [exists seg; apply W; exact D|]].
    + intros seg' k H. apply (MIN seg' k), W, H.
    + intros s' L (g & H). apply (MIN s' L). exists g. apply W. exact H.
Qed.
Lemma part_unique choose syms p p' : undefined_part choose syms p -> undefined_part choose syms p' -> p = p'.
Proof.
  assert (U : forall s l x y, suggested s l x -> suggested s l y -> x = y) by (intros s l x y [|] Y; inversion Y; subst; congruence).
  assert (V : forall l a b, Forall2 (fun s l => suggested s (choose s) l) l a -> Forall2 (fun s l => suggested s (choose s) l) l b -> a = b).
  { intros l a b F. revert b. induction F as [|s x l a H _ IH]; intros b G; inversion G as [|? y ? b' H' G']; subst; [reflexivity|].
    rewrite (U _ _ _ _ H H'), (IH _ G'). reflexivity. }
  intros [|syms0 ls N F] Q; inversion Q as [|? ls' N' F']; subst; try congruence. rewrite (V _ _ _ F F'). reflexivity.
Qed.
Lemma C154_check_pf : forall fs prog words on complex files outs,
  understood (options CheckSymbols) words on files -> ~ In (lit "verbose") on -> turned_on on "complex" complex ->
  files <> [] -> ~ In [] files -> plain_names files -> Forall2 (source fs) files outs ->
  exists k, forall v, (k <= e_fuel v)%nat -> exists said syms choices part total n,
    command v fs CheckSymbols prog words =
      (said ++
       map (fun s => ErrL (lit "ERROR: symbol """ ++ s ++ lit """ has a complex assignment, but no simple assignment!")) syms ++
       part ++ total, Exit 0, fs) /\
    labels_said (e_upper v) (e_rep v) true files outs n said /\
    StronglySorted str_lt syms /\
    (forall s, In s syms <-> complex = true /\
       (exists out x tt, In out outs /\ In x out /\ line_defines (e_upper v) (text_of x) s (lit "complex") tt) /\
       ~ (exists out x tt, In out outs /\ In x out /\ line_defines (e_upper v) (text_of x) s (lit "simple") tt)) /\
    undefined_part (fun s => map fst (e_extract v s choices 10)) syms part /\
    suggestions (e_upper v) files outs choices /\
    total_part files (n + zlen syms) total.
Proof.
  intros fs prog words on complex files outs U O OC NE N PN S. destruct (sources_read fs files outs N S) as (k & css & A & K).
  exists k. intros v L. specialize (K _ L).
  destruct (C142_starts_pf v fs CheckSymbols prog words on files U (files_no_misuse fs CheckSymbols on files ltac:(cbn; auto) NE)) as (ls & st & fs' & E & R).
  inversion R as [|verbose complex' ls0 r st0 V1 V2 EC EA| | | | | | | | |]; subst. assert (EV := off _ _ _ V1 O).
  rewrite <- (on_unique _ _ _ _ OC V2) in EC.
  destruct (C140_check_pf (e_extract v) (e_upper v) (e_rep v) (e_card_rep v) (e_fuel v) fs' verbose complex files css NE K PN) as (tb & mss & syms & ch & part & total & X & T & SS & M & UP & CH & TP).
  rewrite X in EC. assert (r = Ok tt) by congruence. subst r. apply (f_equal fst) in EC. cbn [fst] in EC. subst ls. inversion EA; subst.
  exists tb, syms, ch, part, total, (zlen (concat mss)). split; [exact E|]. split; [exact (tables_labels _ _ _ _ _ _ _ _ _ T _ _ K A)|].
  split; [exact SS|]. split; [|split; [exact UP|split; [exact (suggestions_text _ _ _ _ _ _ _ K A CH)|exact TP]]].
  intros s. rewrite M, !(defined_somewhere _ _ _ _ _ _ _ K), !(somewhere_text _ _ _ _ _ A). reflexivity.
Qed.
(*@ Example C154_check_ex : let v := mkenv (fun _ _ => []) (fun _ _ _ => []) (map (fun c => if (97 <=? c) && (c <=? 122) then c - 32 else c)) (fun s => s) (fun _ => lit "?") 3 (fun _ => []) in
  Forall2 (source sample) [lit "a.arg"] [sample_lines] /\ plain_names [lit "a.arg"] /\
  understood (options CheckSymbols) [lit "-c"; lit "a.arg"] [lit "complex"] [lit "a.arg"] /\
  fst (command v sample CheckSymbols (lit "x.py") [lit "-c"; lit "a.arg"]) =
    ([ErrL (lit "*** ERROR: Symbol x is ill-formed (case)!");
      ErrL (lit "Current definition: {'file': inc, 'line': 2, 'lognum': None, 'tagtype': None, 'card': ?}");
      ErrL (lit "a.arg: 1 errors encountered building symbol table.");
      ErrL (lit "ERROR: symbol ""N"" has a complex assignment, but no simple assignment!"); ErrL []; ErrL (lit "Undefined symbols:");
      ErrL (lit "  N - No matches!"); ErrL (lit "1 errors checking symbol table.")], Exit 0).
Proof.
  split; [constructor; [exact sample_ok|constructor]|]. split.
  { intros f seg [<-|[]] S. apply seg_ok in S. vm_compute in S. subst seg. intros [H|H]; discriminate. }
  split; [|vm_compute; reflexivity]. apply (ud_opt _ _ [lit "complex"]).
  - apply (ow_letters _ 99 []); [discriminate|]. constructor; [|constructor]. eexists. split; [right; right; left; reflexivity|]. split; reflexivity.
  - cbn. intuition discriminate.
  - apply ud_arg; [right; intros r; discriminate|constructor].
Qed. @*)
Lemma C154_find_pf : forall fs prog words on files outs symbol,
  understood (options FindSymbols) words on (symbol :: files) ->
  (forall x, In x ["verbose"; "begin"; "end"; "fuzzy"]%string -> ~ In (lit x) on) ->
  files <> [] -> ~ In [] files -> plain_names files -> Forall2 (source fs) files outs ->
  exists k, forall v, (k <= e_fuel v)%nat -> exists said n,
    labels_said (e_upper v) (e_rep v) true files outs n said /\
    (((exists out x kind tt, In out outs /\ In x out /\ line_defines (e_upper v) (text_of x) symbol kind tt) /\
      exists t, command v fs FindSymbols prog words = (said ++ [OutL t], Exit 0, fs)) \/
     (~ (exists out x kind tt, In out outs /\ In x out /\ line_defines (e_upper v) (text_of x) symbol kind tt) /\
      command v fs FindSymbols prog words = (said ++ [ErrL (lit "ERROR: Undefined symbol """ ++ symbol ++ lit """!")], Exit 0, fs))).
Proof.
  intros fs prog words on files outs symbol U O NE N PN S. destruct (sources_read fs files outs N S) as (k & css & A & K).
  exists k. intros v L. specialize (K _ L).
  assert (NM : forall m, ~ misuse fs FindSymbols on (symbol :: files) m).
  { intros m M. destruct files as [|f files]; [contradiction|]. inversion M as [? ? I| ? ? C| ? ? C Z| | | | | | |]; subst.
    - destruct C as (a & b & D & I & J & A1 & B1). cbn in I, J.
      destruct I as [<-|[<-|[<-|[<-|[]]]]]; try (apply (O "begin"%string ltac:(cbn; auto 8)); exact A1);
        try (apply (O "end"%string ltac:(cbn; auto 8)); exact A1); try (apply (O "fuzzy"%string ltac:(cbn; auto 8)); exact A1).
      destruct J as [<-|[<-|[<-|[<-|[]]]]]; [apply (O "begin"%string ltac:(cbn; auto 8)); exact B1|
        apply (O "end"%string ltac:(cbn; auto 8)); exact B1|apply (O "fuzzy"%string ltac:(cbn; auto 8)); exact B1|exact (D eq_refl)].
    - rewrite !zlen_cons in Z. pose proof (zlen_nonneg files). lia. }
  destruct (C142_starts_pf v fs FindSymbols prog words on (symbol :: files) U NM) as (ls & st & fs' & E & R).
  inversion R as [| |verbose b e f x ls0 r st0 V1 V2 V3 V4 V5 EC EA| | | | | | | |]; subst.
  assert (EV := off _ _ _ V1 (O "verbose"%string ltac:(cbn; auto 8))). assert (EB := off _ _ _ V2 (O "begin"%string ltac:(cbn; auto 8))).
  assert (EE := off _ _ _ V3 (O "end"%string ltac:(cbn; auto 8))). assert (EF := off _ _ _ V4 (O "fuzzy"%string ltac:(cbn; auto 8))). subst.
  destruct (C140_find_pf (e_extract v) (e_upper v) (e_rep v) (e_card_rep v) (e_fuel v) fs' false x symbol files css NE K PN) as (tb & mss & lf & r' & X & T & D).
  rewrite X in EC. assert (r = Ok r') by congruence. subst r. apply (f_equal fst) in EC. cbn [fst] in EC. subst ls. inversion EA; subst.
  exists tb, (zlen (concat mss)). split; [exact (tables_labels _ _ _ _ _ _ _ _ _ T _ _ K A)|].
  assert (W : is_defined (e_upper v) css symbol <-> exists out x kind tt, In out outs /\ In x out /\ line_defines (e_upper v) (text_of x) symbol kind tt).
  { split.
    - intros (cs & c & kd & tt & I & J & DF). destruct (proj1 (somewhere_text (e_upper v) outs css symbol kd A)) as (o & y & t2 & H); [exists cs, c, tt; auto|].
      exists o, y, kd, t2. exact H.
    - intros (o & y & kd & tt & I & J & DF). destruct (proj2 (somewhere_text (e_upper v) outs css symbol kd A)) as (cs & c & t2 & H); [exists o, y, tt; auto|].
      exists cs, c, kd, t2. exact H. }
  rewrite <- W. destruct D as [(D & sg & t & -> & _)|(D & _ & ->)]; [left|right]; (split; [exact D|]); [exists t; exact E|exact E].
Qed.
(*@ Example C154_find_ex : let v := mkenv (fun _ _ => []) (fun _ _ _ => []) (map (fun c => if (97 <=? c) && (c <=? 122) then c - 32 else c)) (fun s => s) (fun _ => lit "?") 3 (fun _ => []) in
  Forall2 (source sample) [lit "a.arg"] [sample_lines] /\ plain_names [lit "a.arg"] /\
  understood (options FindSymbols) [lit "Q"; lit "a.arg"] [] [lit "Q"; lit "a.arg"] /\
  fst (command v sample FindSymbols (lit "x.py") [lit "Q"; lit "a.arg"]) =
    ([ErrL (lit "*** ERROR: Symbol x is ill-formed (case)!");
      ErrL (lit "Current definition: {'file': inc, 'line': 2, 'lognum': None, 'tagtype': None, 'card': ?}");
      ErrL (lit "a.arg: 1 errors encountered building symbol table."); ErrL (lit "ERROR: Undefined symbol ""Q""!")], Exit 0) /\
  fst (command v sample FindSymbols (lit "x.py") [lit "N"; lit "a.arg"]) =
    ([ErrL (lit "*** ERROR: Symbol x is ill-formed (case)!");
      ErrL (lit "Current definition: {'file': inc, 'line': 2, 'lognum': None, 'tagtype': None, 'card': ?}");
      ErrL (lit "a.arg: 1 errors encountered building symbol table.");
      OutL (lit "{a: {1: {complex: {'file': inc, 'line': 1, 'lognum': None, 'tagtype':  , 'card': ?}}}}")], Exit 0).
Proof.
  split; [constructor; [exact sample_ok|constructor]|]. split.
  { intros f seg [<-|[]] S. apply seg_ok in S. vm_compute in S. subst seg. intros [H|H]; discriminate. }
  split; [apply ud_arg; [right; intros r; discriminate|apply ud_arg; [right; intros r; discriminate|constructor]]|].
  split; vm_compute; reflexivity.
Qed. @*)
Lemma C154_names_pf : forall fs prog words on b files outs symbol,
  understood (options FindSymbols) words on (symbol :: files) ->
  turned_on on "begin" b -> turned_on on "end" (negb b) ->
  (forall x, In x ["verbose"; "fuzzy"; "exact"]%string -> ~ In (lit x) on) ->
  files <> [] -> ~ In [] files -> plain_names files -> Forall2 (source fs) files outs ->
  exists k, forall v, (k <= e_fuel v)%nat -> exists said n names,
    labels_said (e_upper v) (e_rep v) true files outs n said /\
    command v fs FindSymbols prog words = (said ++ (if zlen names =? 0 then [] else [OutL (names_text (e_rep v) names)]), Exit 0, fs) /\
    StronglySorted str_lt names /\
    forall s, In s names <-> (exists out x kind tt, In out outs /\ In x out /\ line_defines (e_upper v) (text_of x) s kind tt) /\
      if b then exists r, s = symbol ++ r else exists r, s = r ++ symbol.
Proof.
  intros fs prog words on b files outs symbol U TB TE O NE N PN S. destruct (sources_read fs files outs N S) as (k & css & A & K).
  exists k. intros v L. specialize (K _ L).
  assert (NB : ~ (In (lit "begin") on /\ In (lit "end") on)).
  { intros [I J]. apply TB in I. apply TE in J. subst b. discriminate. }
  assert (NM : forall m, ~ misuse fs FindSymbols on (symbol :: files) m).
  { intros m M. destruct files as [|f files]; [contradiction|]. inversion M as [? ? I| ? ? C| ? ? C Z| | | | | | |]; subst.
    - destruct C as (p & q & D & I & J & A1 & B1). cbn in I, J.
      assert (OF := O "fuzzy"%string ltac:(cbn; auto)). assert (OX := O "exact"%string ltac:(cbn; auto)).
      destruct I as [<-|[<-|[<-|[<-|[]]]]], J as [<-|[<-|[<-|[<-|[]]]]]; auto.
    - rewrite !zlen_cons in Z. pose proof (zlen_nonneg files). lia. }
  destruct (C142_starts_pf v fs FindSymbols prog words on (symbol :: files) U NM) as (ls & st & fs' & E & R).
  inversion R as [| |verbose b' e f x ls0 r st0 V1 V2 V3 V4 V5 EC EA| | | | | | | |]; subst.
  assert (EV := off _ _ _ V1 (O "verbose"%string ltac:(cbn; auto))). assert (EX := off _ _ _ V5 (O "exact"%string ltac:(cbn; auto))).
  assert (EF := off _ _ _ V4 (O "fuzzy"%string ltac:(cbn; auto))). subst.
  rewrite <- (on_unique _ _ _ _ TB V2), <- (on_unique _ _ _ _ TE V3) in EC.
  destruct (C141_names_pf (e_extract v) (e_upper v) (e_rep v) (e_card_rep v) (e_fuel v) fs' false b (negb b) symbol files css NE K PN) as (tb & mss & names & r' & X & T & SS & M).
  { rewrite negb_involutive. reflexivity. }
  rewrite X in EC. assert (r = Ok r') by congruence. subst r. apply (f_equal fst) in EC. cbn [fst] in EC. subst ls. inversion EA; subst.
  exists tb, (zlen (concat mss)), names. split; [exact (tables_labels _ _ _ _ _ _ _ _ _ T _ _ K A)|]. split; [exact E|]. split; [exact SS|].
  intros s. rewrite M.
  assert (W : is_defined (e_upper v) css s <-> exists out x kind tt, In out outs /\ In x out /\ line_defines (e_upper v) (text_of x) s kind tt).
  { split.
    - intros (cs & c & kd & tt & I & J & DF). destruct (proj1 (somewhere_text (e_upper v) outs css s kd A)) as (o & y & t2 & H); [exists cs, c, tt; auto|].
      exists o, y, kd, t2. exact H.
    - intros (o & y & kd & tt & I & J & DF). destruct (proj2 (somewhere_text (e_upper v) outs css s kd A)) as (cs & c & t2 & H); [exists o, y, tt; auto|].
      exists cs, c, kd, t2. exact H. }
  rewrite W. destruct b; cbn [negb]; (split; intros [H1 H2]; (split; [exact H1|]); [destruct H2 as [[_ H2]|[Q H2]]; [exact H2|try discriminate Q; exact H2] || idtac|auto]).
  all: try (destruct H2 as [[Q H2]|[Q H2]]; [discriminate Q|exact H2]).
Qed.
(*@ Example C154_names_ex : let v := mkenv (fun _ _ => []) (fun _ _ _ => []) (map (fun c => if (97 <=? c) && (c <=? 122) then c - 32 else c)) (fun s => s) (fun _ => lit "?") 3 (fun _ => []) in
  Forall2 (source sample) [lit "a.arg"] [sample_lines] /\
  turned_on [lit "begin"] "begin" true /\ turned_on [lit "begin"] "end" (negb true) /\
  skipn 3 (fst (fst (command v sample FindSymbols (lit "x.py") [lit "-b"; []; lit "a.arg"]))) = [OutL (lit "[A, N]")] /\
  skipn 3 (fst (fst (command v sample FindSymbols (lit "x.py") [lit "-e"; lit "N"; lit "a.arg"]))) = [OutL (lit "[N]")] /\
  skipn 3 (fst (fst (command v sample FindSymbols (lit "x.py") [lit "-e"; lit "Q"; lit "a.arg"]))) = [].
Proof.
  split; [constructor; [exact sample_ok|constructor]|]. split; [split; [left; reflexivity|reflexivity]|].
  split; [split; [discriminate|intros [H|[]]; discriminate H]|]. vm_compute. auto.
Qed. @*)
