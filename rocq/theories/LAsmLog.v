(** What the assembler says while it works: C163, C164. *)
From Coq Require Import ZArith List Bool Lia.
From Verif Require Import Py LPy MInstruction MCards SCards LCards LDeck MSymbols SSymbols LSymBuild MInstructions MTools STools LTools LToolSym MDiag SDiag LDiag MDump SDump LDump MVerbose SVerbose LVerbose STranscript LTranscript MOptions SOptions MProcess SProcess LProcess SEnds LEnds SSource LSource STextSym LTextSym SReport LReport SUnread LUnread MContext SContext LAsm MAsmLog SAsmLog.
#[local] Arguments Z.add : simpl never.
#[local] Arguments Z.sub : simpl never.
#[local] Arguments Z.mul : simpl never.
#[local] Arguments Z.pow : simpl never.

(** *** resolve *)
Section Passes.
Variables (parseable complete : Z -> bool) (srcline : Z -> str).
Let inc x := parseable x && negb (complete x).
(** the log leaves the rest alone *)
Lemma passes_run_snd k : forall i x prev a, snd (passes_run parseable complete srcline k i x prev a) = passes parseable complete k i x prev a.
Proof.
  induction k as [|k IH]; intros i x prev a; cbn [passes_run passes]; [reflexivity|].
  destruct (a_records a) as [recs|]; [|reflexivity].
  destruct (pass_loop parseable complete (x_current x) (length (x_records x)) [] recs []) as [recs' [undefs|e]]; [|reflexivity]. cbv zeta.
  destruct (zlen undefs =? 0); [reflexivity|]. destruct (zlen undefs =? prev).
  - destruct (a_errors a); [|reflexivity]. destruct (x_error x); reflexivity.
  - rewrite <- (IH (i + 1) x (zlen undefs) (with_pass a (i + 1) recs' (a_errors a))).
    destruct (passes_run parseable complete srcline k (i + 1) x (zlen undefs) (with_pass a (i + 1) recs' (a_errors a))). reflexivity.
Qed.
Lemma resolve_run_snd s1 s2 a n : snd (asm_resolve_run parseable complete srcline s1 s2 a n) = asm_resolve parseable complete a n.
Proof.
  unfold asm_resolve_run, asm_resolve. destruct (a_context a) as [x|]; [|reflexivity].
  rewrite <- passes_run_snd. destruct (passes_run parseable complete srcline (Z.to_nat n) 0 x 0 a) as [said [a' r]]. reflexivity.
Qed.
Lemma pass_said_some : forall xs rest, pass_said parseable srcline (length xs) (map Some xs ++ rest) =
  map (fun r => LDebug (lit "resolve: " ++ srcline r)) (filter parseable xs).
Proof.
  induction xs as [|x xs IH]; intros rest; [reflexivity|]. cbn [length pass_said map app filter]. rewrite IH. destruct (parseable x); reflexivity.
Qed.
Lemma count_inc xs : count_of (incomplete parseable complete) xs (zlen (filter inc xs)).
Proof.
  induction xs as [|x xs IH]; [constructor|]. cbn [filter]. destruct (inc x) eqn:E.
  - rewrite zlen_cons. replace (1 + zlen (filter inc xs)) with (zlen (filter inc xs) + 1) by lia. constructor; [apply inc_ok; exact E|exact IH].
  - constructor; [|exact IH]. intros H. apply inc_ok in H. unfold inc in E. congruence.
Qed.
Definition look (xs : list Z) : list event :=
  map (fun r => LDebug (lit "resolve: " ++ srcline r)) (filter parseable xs) ++ [LInfo (str_of_Z (zlen (filter inc xs)) ++ lit " incomplete parser records")].
Lemma look_looked xs : looked parseable complete srcline xs (look xs).
Proof. exists (zlen (filter inc xs)). split; [apply count_inc|reflexivity]. Qed.
Lemma looked_unique xs l : looked parseable complete srcline xs l -> l = look xs.
Proof. intros (n & C & ->). rewrite (count_unique _ _ _ _ C (count_inc xs)). reflexivity. Qed.

(** what one more pass says *)
Definition complain (x : actx) (a : asm) (und : list Z) : list event :=
  match a_errors a with
  | None => map undefined_said (firstn 1 und)
  | Some _ => map undefined_said und ++
      if x_error x then [ContextError (lit "no progress resolving parser records, " ++ str_of_Z (zlen und) ++ lit " undefined records")] else []
  end.
Lemma run_S k i x prev a recs xs : a_records a = Some recs -> usable recs xs (length (x_records x)) ->
  let n := zlen (filter inc xs) in
  exists a1, a_records a1 = Some (map (fun z => if parseable z then x_current x else Some z) xs ++ skipn (length (x_records x)) recs) /\
    a_errors a1 = a_errors a /\
    fst (passes_run parseable complete srcline (S k) i x prev a) = look xs ++
      if n =? 0 then [LInfo (lit "All parser records complete")]
      else if n =? prev then complain x a (filter inc xs)
      else fst (passes_run parseable complete srcline k (i + 1) x n a1).
Proof.
  intros R U. destruct (usable_split _ _ _ U) as [ER LR]. cbv zeta.
  exists (with_pass a (i + 1) (map (fun z => if parseable z then x_current x else Some z) xs ++ skipn (length (x_records x)) recs) (a_errors a)).
  split; [reflexivity|]. split; [reflexivity|].
  assert (E : pass_loop parseable complete (x_current x) (length (x_records x)) [] recs [] =
    (map (fun z => if parseable z then x_current x else Some z) xs ++ skipn (length (x_records x)) recs, Ok (filter inc xs))).
  { rewrite ER at 1. rewrite <- LR. rewrite pass_some. reflexivity. }
  assert (P : pass_said parseable srcline (length (x_records x)) recs = map (fun r => LDebug (lit "resolve: " ++ srcline r)) (filter parseable xs)).
  { rewrite ER, <- LR. apply pass_said_some. }
  cbn [passes_run]. rewrite R, P. destruct (pass_loop _ _ _ _ _ _ _) as [recs' r].
  assert (recs' = map (fun z => if parseable z then x_current x else Some z) xs ++ skipn (length (x_records x)) recs) by congruence.
  assert (r = Ok (filter inc xs)) by congruence. subst recs' r. cbv zeta. fold (look xs). unfold incomplete_said. fold (look xs).
  destruct (zlen (filter inc xs) =? 0); [reflexivity|]. destruct (zlen (filter inc xs) =? prev).
  - unfold complain. destruct (a_errors a); [|reflexivity]. destruct (x_error x); cbn [fst]; rewrite <- ?app_assoc, ?app_nil_r; reflexivity.
  - destruct (passes_run _ _ _ _ _ _ _ _). reflexivity.
Qed.
Lemma run_lost k i x prev a xs rest : a_records a = Some (map (fun z => if parseable z then None else Some z) xs ++ rest) ->
  length xs = length (x_records x) -> x_current x = None -> (exists z, In z xs /\ parseable z = true) ->
  fst (passes_run parseable complete srcline (S k) i x prev a) = [].
Proof.
  intros R L C EX. cbn [passes_run]. rewrite R, C, <- L.
  destruct (pass_none parseable complete xs [] rest [] EX) as (recs & ->). cbv zeta. cbn [fst].
  clear - EX. induction xs as [|z xs IH]; [reflexivity|]. cbn [length pass_said map app]. destruct (parseable z) eqn:P; [reflexivity|]. rewrite P. cbn [app].
  apply IH. destruct EX as (w & [->|I] & K); [congruence|]. exists w. auto.
Qed.
Lemma swap_replaced y xs : replaced parseable y xs (map (swap parseable y) xs).
Proof. unfold replaced. induction xs as [|x xs IH]; cbn [map]; constructor; [|exact IH]. unfold swap. destruct (parseable x); auto. Qed.
Lemma swap_inc y xs : inc y = true -> filter inc (map (swap parseable y) xs) = repeat y (length (filter parseable xs)).
Proof.
  intros Y. induction xs as [|x xs IH]; [reflexivity|]. cbn [map filter].
  assert (E : inc (swap parseable y x) = parseable x). { unfold swap. destruct (parseable x) eqn:P; [exact Y|]. unfold inc. rewrite P. reflexivity. }
  rewrite E. destruct (parseable x) eqn:P; [|exact IH]. cbn [length repeat]. rewrite IH. unfold swap. rewrite P. reflexivity.
Qed.
Lemma map_repeat {A B} (f : A -> B) x n : map f (repeat x n) = repeat (f x) n.
Proof. induction n as [|n IH]; [reflexivity|]. cbn. rewrite IH. reflexivity. Qed.
Lemma complain_blamed x a y m k : m <> 0 -> 0 <= m -> blamed y m (a_errors a) (x_error x) k (complain x a (repeat y (Z.to_nat m))) (stuck x a k).
Proof.
  intros M P. unfold complain, stuck. destruct (a_errors a) as [e|].
  - rewrite map_repeat. unfold zlen. rewrite repeat_length, Z2Nat.id by lia. destruct (x_error x).
    + eapply bl_all; reflexivity.
    + rewrite app_nil_r. eapply bl_records; reflexivity.
  - destruct (Z.to_nat m) as [|n] eqn:E; [lia|]. cbn [repeat firstn map]. apply bl_one. reflexivity.
Qed.
Lemma inc_all xs : zlen (filter parseable xs) = zlen (filter inc xs) -> forall r, In r xs -> parseable r = true -> complete r = false.
Proof.
  assert (LE : forall xs, zlen (filter inc xs) <= zlen (filter parseable xs)).
  { clear. induction xs as [|x xs IH]; [cbn; lia|]. cbn [filter]. unfold inc at 1. destruct (parseable x), (complete x); cbn [andb negb]; rewrite ?zlen_cons; lia. }
  induction xs as [|x xs IH]; intros E r I P; [destruct I|]. cbn [filter] in E. unfold inc at 1 in E. pose proof (LE xs) as L.
  destruct (parseable x) eqn:PX, (complete x) eqn:CX; cbn [andb negb] in E; rewrite ?zlen_cons in E.
  - lia.
  - destruct I as [->|I]; [exact CX|]. apply IH; [lia|exact I|exact P].
  - destruct I as [->|I]; [congruence|]. apply IH; [lia|exact I|exact P].
  - destruct I as [->|I]; [congruence|]. apply IH; [lia|exact I|exact P].
Qed.
Lemma inc_some xs : zlen (filter parseable xs) <> zlen (filter inc xs) -> exists r, In r xs /\ parseable r = true /\ complete r = true.
Proof.
  induction xs as [|x xs IH]; intros E; [destruct E; reflexivity|]. cbn [filter] in E. unfold inc at 1 in E.
  destruct (parseable x) eqn:PX, (complete x) eqn:CX; cbn [andb negb] in E; rewrite ?zlen_cons in E.
  - exists x. split; [left; reflexivity|]. auto.
  - destruct IH as (r & I & K); [lia|]. exists r. split; [right; exact I|exact K].
  - destruct (IH E) as (r & I & K). exists r. split; [right; exact I|exact K].
  - destruct (IH E) as (r & I & K). exists r. split; [right; exact I|exact K].
Qed.

Lemma resolve_said a x recs xs maxPasses : a_context a = Some x -> a_records a = Some recs -> usable recs xs (length (x_records x)) ->
  resolve_told parseable complete srcline (x_current x) (a_errors a) (x_error x) maxPasses xs
    (fst (passes_run parseable complete srcline (Z.to_nat maxPasses) 0 x 0 a)) (snd (asm_resolve parseable complete a maxPasses)).
Proof.
  intros C R U. rewrite (resolve_cases parseable complete a x recs xs maxPasses C R U). cbv zeta. fold inc.
  destruct (Z.leb_spec maxPasses 0) as [L0|L0].
  { replace (Z.to_nat maxPasses) with 0%nat by lia. apply rt_none. exact L0. }
  destruct (Z.to_nat maxPasses) as [|k] eqn:EK; [lia|].
  destruct (run_S k 0 x 0 a recs xs R U) as (a1 & R1 & E1 & ->). cbv zeta.
  destruct (Z.eqb_spec (zlen (filter inc xs)) 0) as [N0|N0].
  { apply rt_first; [lia| |apply look_looked]. intros r I J. apply inc_ok in J. fold inc in J.
    assert (K : In r (filter inc xs)) by (apply filter_In; auto).
    destruct (filter inc xs) as [|w l]; [destruct K|]. rewrite zlen_cons in N0. pose proof (zlen_nonneg l). lia. }
  set (n := zlen (filter inc xs)) in *.
  assert (EX : exists z, In z xs /\ incomplete parseable complete z).
  { destruct (filter inc xs) as [|z l] eqn:EF; [destruct N0; unfold n; rewrite ?EF; reflexivity|].
    assert (I : In z (filter inc xs)) by (rewrite EF; left; reflexivity). apply filter_In in I. destruct I as [I J]. apply inc_ok in J. eauto. }
  destruct EX as (z & IZ & JZ).
  destruct (Z.eqb_spec maxPasses 1) as [L1|L1].
  { assert (k = 0)%nat by lia. subst k. cbn [passes_run fst]. rewrite app_nil_r. eapply rt_one; try eassumption. apply look_looked. }
  destruct k as [|k]; [lia|]. destruct (x_current x) as [y|] eqn:CY.
  2:{ rewrite (run_lost k (0 + 1) x n a1 xs (skipn (length (x_records x)) recs)).
      - rewrite app_nil_r. eapply rt_lost; try eassumption; [lia|reflexivity|apply look_looked].
      - rewrite R1. reflexivity.
      - exact (proj2 U).
      - exact CY.
      - exists z. split; [exact IZ|exact (proj1 JZ)]. }
  assert (U1 := usable_map parseable complete y recs xs _ U).
  assert (R1' : a_records a1 = Some (map (fun z => if parseable z then Some y else Some z) xs ++ skipn (length (x_records x)) recs)) by exact R1.
  destruct (run_S k (0 + 1) x n a1 _ _ R1' U1) as (a2 & R2 & E2 & ->). cbv zeta.
  pose proof (swap_filter parseable complete y xs) as SF. fold inc in SF. rewrite SF.
  change (parseable y && negb (complete y)) with (inc y). destruct (inc y) eqn:IY; cbn [negb]; [|change (0 =? 0) with true; cbv iota].
  2:{ eapply rt_second; try eassumption; [lia|reflexivity| |apply look_looked|apply swap_replaced|apply look_looked].
      intros J. apply inc_ok in J. unfold inc in IY. congruence. }
  assert (JY : incomplete parseable complete y) by (apply inc_ok; exact IY).
  set (m := zlen (filter parseable xs)) in *.
  assert (M0 : m <> 0).
  { assert (J : In z (filter parseable xs)) by (apply filter_In; split; [exact IZ|exact (proj1 JZ)]).
    unfold m. destruct (filter parseable xs) as [|w l]; [destruct J|]. rewrite zlen_cons. pose proof (zlen_nonneg l). lia. }
  assert (ML : 0 <= m) by apply zlen_nonneg.
  assert (MR : filter inc (map (swap parseable y) xs) = repeat y (Z.to_nat m)).
  { rewrite (swap_inc y xs IY). unfold m, zlen. rewrite Nat2Z.id. reflexivity. }
  rewrite (proj2 (Z.eqb_neq m 0)) by exact M0.
  destruct (Z.eqb_spec m n) as [MN|MN].
  { rewrite MR. eapply rt_all with (l' := look (map (swap parseable y) xs)); try eassumption; [lia|reflexivity|apply inc_all; exact MN|apply look_looked|apply swap_replaced|apply look_looked|].
    pose proof (complain_blamed x a1 y m 2 M0 ML) as B. rewrite E1 in B. unfold stuck in B |- *. rewrite E1 in B. exact B. }
  destruct (inc_some xs MN) as (r' & IR & PR & CR).
  destruct (Z.eqb_spec maxPasses 2) as [L2|L2].
  { assert (k = 0)%nat by lia. subst k. cbn [passes_run fst]. rewrite app_nil_r.
    eapply rt_two with (r := z) (r' := r'); try eassumption; [reflexivity|apply look_looked|apply swap_replaced|apply look_looked]. }
  destruct k as [|k]; [lia|].
  assert (U2 := usable_map parseable complete y _ _ _ U1). rewrite (swap_again parseable) in U2.
  rewrite CY in R2.
  assert (R2' : a_records a2 = Some (map (fun z => if parseable z then Some y else Some z) (map (swap parseable y) xs) ++
     skipn (length (x_records x)) (map (fun z => if parseable z then Some y else Some z) xs ++ skipn (length (x_records x)) recs))) by exact R2.
  destruct (run_S k (0 + 1 + 1) x m a2 _ _ R2' U2) as (a3 & _ & _ & ->). cbv zeta. rewrite SF.
  rewrite (proj2 (Z.eqb_neq m 0)) by exact M0. rewrite Z.eqb_refl, MR.
  eapply rt_some with (r := z) (r' := r') (l' := look (map (swap parseable y) xs)); try eassumption; [lia|reflexivity|apply look_looked|apply swap_replaced|apply look_looked|].
  pose proof (complain_blamed x a2 y m 3 M0 ML) as B. unfold stuck in B |- *. rewrite E2, E1 in B. exact B.
Qed.
End Passes.

(** *** C164 what is said *)
Lemma C164_resolve_pf : forall parseable complete srcline secs1 secs2 a x recs xs maxPasses,
  a_context a = Some x -> a_records a = Some recs -> usable recs xs (length (x_records x)) ->
  exists said a' r, asm_resolve_run parseable complete srcline secs1 secs2 a maxPasses =
      ([LDebug (lit "Symbol resolution: " ++ secs1 ++ lit " seconds");
        LDebug (lit "Updating " ++ str_of_Z (zlen xs) ++ lit " parser records...")] ++ said ++
       match r with Ok _ => if a_verbose a then [Printed (OutL (lit "Pass 2: " ++ secs2 ++ lit " seconds"))] else [] | Err _ => [] end, (a', r)) /\
    asm_resolve parseable complete a maxPasses = (a', r) /\
    resolve_told parseable complete srcline (x_current x) (a_errors a) (x_error x) maxPasses xs said r.
Proof.
  intros parseable complete srcline s1 s2 a x recs xs n C R U.
  pose proof (resolve_said parseable complete srcline a x recs xs n C R U) as T.
  pose proof (resolve_run_snd parseable complete srcline s1 s2 a n) as S.
  unfold asm_resolve_run in *. rewrite C in *. destruct (passes_run parseable complete srcline (Z.to_nat n) 0 x 0 a) as [said [a' r]]. cbn [fst snd] in *.
  exists said, a', r. rewrite <- S in T. cbn [snd] in T. split; [|split; [symmetry; exact S|exact T]].
  destruct U as [_ L]. unfold zlen. rewrite L. reflexivity.
Qed.
(*@ Example C164_resolve_ex :
  asm_resolve_run (fun r => r <? 9) (fun r => r =? 1) (fun r => lit "L" ++ str_of_Z r) (lit "0.00") (lit "0.01")
    (mkasm true [] (Some (mkactx [Some 1; Some 2; Some 9] (Some 3) true)) (Some [Some 1; Some 2; Some 9]) (Some 0) None None None) 10 =
  ([LDebug (lit "Symbol resolution: 0.00 seconds"); LDebug (lit "Updating 3 parser records...");
    LDebug (lit "resolve: L1"); LDebug (lit "resolve: L2"); LInfo (lit "1 incomplete parser records");
    LDebug (lit "resolve: L3"); LDebug (lit "resolve: L3"); LInfo (lit "2 incomplete parser records");
    LDebug (lit "resolve: L3"); LDebug (lit "resolve: L3"); LInfo (lit "2 incomplete parser records");
    RecordError 3 (lit "undefined symbol"); RecordError 3 (lit "undefined symbol");
    ContextError (lit "no progress resolving parser records, 2 undefined records"); Printed (OutL (lit "Pass 2: 0.01 seconds"))],
   (mkasm true [] (Some (mkactx [Some 1; Some 2; Some 9] (Some 3) true)) (Some [Some 3; Some 3; Some 9]) (Some 2) (Some 3) None None, Ok (NoProgress 3))).
Proof. vm_compute. reflexivity. Qed. @*)
Lemma C164_alone_pf : forall upper parseable complete srcline secs1 secs2 a maxPasses, reach_asm upper parseable complete a ->
  asm_resolve_run parseable complete srcline secs1 secs2 a maxPasses =
    ([LDebug (lit "Symbol resolution: " ++ secs1 ++ lit " seconds")], (a, Err AttributeError)).
Proof. intros upper parseable complete srcline s1 s2 a n H. unfold asm_resolve_run. rewrite (reach_context _ _ _ _ H). reflexivity. Qed.
(*@ Example C164_alone_ex : reach_asm (fun s => s) (fun _ => true) (fun _ => true) (asm_new true) /\
  fst (asm_resolve_run (fun _ => true) (fun _ => true) (fun _ => []) (lit "0.00") (lit "0.01") (asm_new true) 10) = [LDebug (lit "Symbol resolution: 0.00 seconds")].
Proof. split; [constructor|vm_compute; reflexivity]. Qed. @*)
Lemma C164_create_pf : forall fs files outs, ~ In [] files -> plain_names files -> Forall2 (source fs) files outs ->
  exists k, forall upper rep card_rep fuel verbose, (k <= fuel)%nat -> exists ls a,
    creates_say upper rep card_rep fuel fs (asm_new verbose) files ls a /\ creates upper fuel fs (asm_new verbose) files a /\
    processed fs upper rep verbose files outs ls.
Proof.
  intros fs files outs N PN S. destruct (sources_read fs files outs N S) as (k & css & A & K). exists k. intros upper rep crep fuel v L. specialize (K _ L).
  assert (G : forall a, plain_table (a_symtab a) -> a_verbose a = v -> exists ls a', creates_say upper rep crep fuel fs a files ls a' /\
     creates upper fuel fs a files a' /\ processed fs upper rep v files outs ls).
  { clear N S. revert outs css A K PN. induction files as [|f files IH]; intros outs css A K PN a P V;
      inversion K as [|? cs ? css' SC F']; subst css; inversion A as [|out ? outs' ? A1 A2]; subst outs.
    - exists [], a. split; [constructor|]. split; constructor.
    - destruct (seg_exists f) as (seg & SG). assert (NK : ~ is_kind seg) by (apply (PN f seg); [left; reflexivity|exact SG]).
      destruct (C112_messages_pf upper fuel fs f seg cs (a_symtab a) SG NK P SC) as (ms & tab1 & EB & R).
      destruct (C112_count_pf _ _ _ _ _ _ _ _ EB) as [_ E1].
      assert (P1 : plain_table tab1) by exact (proj2 C76_plain_pf _ _ _ _ _ _ _ _ SG NK P E1).
      destruct (C135_dumps_pf upper rep crep fuel fs f seg cs (a_symtab a) SG NK P SC) as (ds & tab2 & n2 & ED & DD).
      destruct (run_logged fuel fs f v cs SC) as (log & RL & EL).
      destruct (blocks_said _ _ _ _ _ A1 _ _ R DD) as (bs & PB & EB2 & _).
      assert (EC : asm_create_symtab upper fuel fs a f =
        (mkasm (a_verbose a) tab1 (a_context a) (a_records a) (a_errors a) (a_passnum a) (a_srcfile a) (a_linenum a), Ok tt)).
      { unfold asm_create_symtab. rewrite EB. reflexivity. }
      destruct (IH outs' css' A2 F' ltac:(intros g sg I; apply PN; right; exact I)
        (mkasm (a_verbose a) tab1 (a_context a) (a_records a) (a_errors a) (a_passnum a) (a_srcfile a) (a_linenum a)) P1 V) as (ls & a' & C1 & C2 & PR).
      exists ((LInfo (lit "Processing " ++ f) :: map Printed ((if v then log else []) ++ concat bs)) ++ ls), a'.
      split; [|split; [econstructor; eassumption|apply pr_file; assumption]].
      econstructor; [|exact C1]. unfold asm_create_run. rewrite EC. f_equal. f_equal. f_equal. unfold build_verbose. rewrite ED, V, EL. cbn [fst].
      rewrite EB2. reflexivity. }
  exact (G (asm_new v) plain_nil eq_refl).
Qed.
(*@ Example C164_create_ex : Forall2 (source sample) [lit "a.arg"] [sample_lines] /\
  fst (asm_create_run (e_upper sample_env) (fun s => s) (fun _ => lit "?") 3 sample (asm_new true) (lit "a.arg")) =
    [LInfo (lit "Processing a.arg"); Printed (OutL (lit "Reading a.arg...")); Printed (OutL (lit "Skipping meta-comment, file a.arg, line 1"));
     Printed (OutL (lit "Reading inc...")); Printed (ErrL (lit "*** ERROR: Symbol x is ill-formed (case)!"));
     Printed (ErrL (lit "Current definition: {'file': inc, 'line': 2, 'lognum': None, 'tagtype': None, 'card': ?}"))].
Proof. split; [constructor; [exact sample_ok|constructor]|vm_compute; reflexivity]. Qed. @*)
Lemma C164_unread_pf : forall upper rep card_rep fuel fs a f,
  (exists out, source fs f out) \/
  exists log msg st e, gives_up fs fuel f log msg st /\ ends_as (Err e : res unit) st /\
    asm_create_run upper rep card_rep fuel fs a f =
      (LInfo (lit "Processing " ++ f) :: map Printed ((if a_verbose a then log else []) ++ msg), (a, Err e)).
Proof.
  intros upper rep crep fuel fs a f. destruct (load fuel fs f) as [cs|e] eqn:L.
  - left. apply load_inv in L.
    destruct (cards_source _ _ _ _ L) as (out & S & _). eauto.
  - right. destruct (give_up fuel fs (a_verbose a) f e L) as (log & msg & st & G & E & EL). exists log, msg, st, e. split; [exact G|]. split; [exact E|].
    unfold asm_create_run, asm_create_symtab, build_verbose, build_table_run, dump_table_run. cbv zeta. unfold load in L.
    destruct (argus_deck_new fuel fs None (Some f) DEFAULT_WIDTH DEFAULT_FIELDS ArgusCls) as [[[d sec] c8]|e']; cbn [bind] in L; [discriminate|].
    rewrite EL. cbn [fst map]. rewrite app_nil_r. unfold vis. f_equal. destruct a; cbn. congruence.
Qed.
(*@ Example C164_unread_ex :
  let fs := fun f => if eqb f (lit "p.a") then Some (lit "        A          DEC          1" ++ [10] ++ lit "$ gone" ++ [10]) else None in
  asm_create_run (fun s => s) (fun s => s) (fun _ => lit "?") 3 fs (asm_new true) (lit "p.a") =
    ([LInfo (lit "Processing p.a"); Printed (OutL (lit "Reading p.a...")); Printed (ErrL (lit "File ""gone"" does not exist"))], (asm_new true, Err SystemExit)).
Proof. vm_compute. reflexivity. Qed. @*)
Lemma C164_assemble_pf : forall fs a f,
  (forall content ls, fs f = Some content -> text_lines content ls -> exists a', asm_assemble_run fs a f =
     ([LInfo (lit "Assembling " ++ f); LDebug (lit "assemble: file " ++ f ++ lit ", lines " ++ str_of_Z (zlen ls))], (a', Ok tt)) /\
     asm_assemble fs a f = (a', Ok tt)) /\
  (fs f = None -> exists a', asm_assemble_run fs a f = ([LInfo (lit "Assembling " ++ f)], (a', Err OSError)) /\ asm_assemble fs a f = (a', Err OSError)).
Proof.
  intros fs a f. unfold asm_assemble_run, asm_assemble. split.
  - intros content ls -> T. eexists. split; [|reflexivity]. apply C144_lines_pf in T. rewrite T. reflexivity.
  - intros ->. eexists. split; reflexivity.
Qed.
(*@ Example C164_assemble_ex :
  fst (asm_assemble_run (fun _ => Some (lit "A" ++ [10] ++ lit "B")) (asm_new false) (lit "p.a")) =
    [LInfo (lit "Assembling p.a"); LDebug (lit "assemble: file p.a, lines 2")].
Proof. vm_compute. reflexivity. Qed. @*)
Lemma C164_parse_pf : forall a label opcode operands i,
  asm_parse_run a label opcode operands =
    ([LInfoAt 7 (lit "parse: label='" ++ label ++ lit "' opcode='" ++ opcode ++ lit "' operands=" ++ operands)], (a, Ok tt)) /\
  asm_parse_record_run a i = ([], (a, Ok RNone)).
Proof. split; reflexivity. Qed.
(*@ Example C164_parse_ex :
  fst (asm_parse_run (asm_new false) (lit "A") (lit "DA") (lit "['B']")) = [LInfoAt 7 (lit "parse: label='A' opcode='DA' operands=['B']")].
Proof. vm_compute. reflexivity. Qed. @*)

(** *** C163 the records that are blamed *)
Lemma looked_quiet parseable complete srcline xs l r s : looked parseable complete srcline xs l -> ~ In (RecordError r s) l.
Proof.
  intros (n & _ & ->) I. apply in_app_or in I. destruct I as [I|[I|[]]]; [|discriminate].
  apply in_map_iff in I. destruct I as (x & E & _). discriminate.
Qed.
Lemma blamed_only y m c rp k bl res r s : blamed y m c rp k bl res -> In (RecordError r s) bl -> r = y /\ s = lit "undefined symbol".
Proof.
  intros B I. destruct B.
  - apply in_app_or in I. destruct I as [I|[I|[]]]; [|discriminate]. apply repeat_spec in I. split; congruence.
  - apply repeat_spec in I. split; congruence.
  - destruct I as [I|[]]. split; congruence.
Qed.
Lemma told_only parseable complete srcline cur c rp n xs ls res r s : resolve_told parseable complete srcline cur c rp n xs ls res ->
  In (RecordError r s) ls -> cur = Some r /\ s = lit "undefined symbol" /\ incomplete parseable complete r /\ 2 <= n /\
  exists r', In r' xs /\ incomplete parseable complete r'.
Proof.
  intros T I. destruct T; repeat match goal with
  | H : In _ (_ ++ _) |- _ => apply in_app_or in H; destruct H as [H|H]
  | H : In _ [_] |- _ => destruct H as [H|[]]; discriminate
  | H : In _ [] |- _ => destruct H
  | H : looked _ _ _ ?xs ?l, I : In (RecordError _ _) ?l |- _ => destruct (looked_quiet _ _ _ _ _ _ _ H I)
  | B : blamed _ _ _ _ _ ?bl _, I : In (RecordError _ _) ?bl |- _ => destruct (blamed_only _ _ _ _ _ _ _ _ _ B I) as [-> ->]; clear I
  end; (split; [assumption|split; [reflexivity|split; [assumption|split; [lia|eauto]]]]).
Qed.
Lemma C163_only_partial_pf : forall parseable complete srcline secs1 secs2 a x recs xs maxPasses r s,
  a_context a = Some x -> a_records a = Some recs -> usable recs xs (length (x_records x)) ->
  In (RecordError r s) (fst (asm_resolve_run parseable complete srcline secs1 secs2 a maxPasses)) ->
  x_current x = Some r /\ s = lit "undefined symbol" /\ incomplete parseable complete r /\ 2 <= maxPasses /\
  exists r', In r' xs /\ incomplete parseable complete r'.
Proof.
  intros parseable complete srcline s1 s2 a x recs xs n r s C R U I.
  destruct (C164_resolve_pf parseable complete srcline s1 s2 a x recs xs n C R U) as (said & a' & o & E & _ & T). rewrite E in I. cbn [fst app] in I.
  destruct I as [I|[I|I]]; [discriminate|discriminate|]. apply in_app_or in I. destruct I as [I|I]; [exact (told_only _ _ _ _ _ _ _ _ _ _ _ _ T I)|].
  destruct o; [|destruct I]. destruct (a_verbose a); [destruct I as [I|[]]; discriminate|destruct I].
Qed.
(*@ Example C163_only_partial_ex :
  In (RecordError 2 (lit "undefined symbol")) (fst (asm_resolve_run (fun _ => true) (fun _ => false) (fun _ => []) [] []
    (mkasm false [] (Some (mkactx [Some 2] (Some 2) true)) (Some [Some 2]) (Some 0) None None None) 10)).
Proof. vm_compute. tauto. Qed. @*)
(** an incomplete record other than the current one of the context is never blamed *)
Lemma C163_blame_refuted_pf : forall parseable complete srcline secs1 secs2 a x recs xs maxPasses r s,
  a_context a = Some x -> a_records a = Some recs -> usable recs xs (length (x_records x)) ->
  In r xs -> incomplete parseable complete r -> x_current x <> Some r ->
  ~ In (RecordError r s) (fst (asm_resolve_run parseable complete srcline secs1 secs2 a maxPasses)).
Proof.
  intros parseable complete srcline s1 s2 a x recs xs n r s C R U _ _ N I.
  exact (N (proj1 (C163_only_partial_pf parseable complete srcline s1 s2 a x recs xs n r s C R U I))).
Qed.
(*@ Example C163_blame_refuted_ex :
  snd (asm_resolve (fun _ => true) (fun _ => false) (mkasm false [] (Some (mkactx [Some 1; Some 2] (Some 3) true)) (Some [Some 1; Some 2]) (Some 0) None None None) 10) = Ok (NoProgress 2) /\
  ~ In (RecordError 1 (lit "undefined symbol")) (fst (asm_resolve_run (fun _ => true) (fun _ => false) (fun _ => []) [] []
    (mkasm false [] (Some (mkactx [Some 1; Some 2] (Some 3) true)) (Some [Some 1; Some 2]) (Some 0) None None None) 10)).
Proof.
  split; [reflexivity|]. apply C163_blame_refuted with (x := mkactx [Some 1; Some 2] (Some 3) true) (recs := [Some 1; Some 2]) (xs := [1; 2]);
    try reflexivity; [split; reflexivity|left; reflexivity|split; reflexivity|discriminate].
Qed. @*)
(** instead the current record is blamed once for every parseable record, complete or not *)
Lemma C163_times_refuted_pf : forall parseable complete srcline secs1 secs2 a x recs xs maxPasses y e r,
  a_context a = Some x -> a_records a = Some recs -> usable recs xs (length (x_records x)) -> 3 <= maxPasses ->
  x_current x = Some y -> incomplete parseable complete y -> a_errors a = Some e -> In r xs -> incomplete parseable complete r ->
  exists pre post, fst (asm_resolve_run parseable complete srcline secs1 secs2 a maxPasses) =
      pre ++ repeat (RecordError y (lit "undefined symbol")) (length (filter parseable xs)) ++ post /\
    forall z s, ~ In (RecordError z s) (pre ++ post).
Proof.
  intros parseable complete srcline s1 s2 a x recs xs n y e r C R U L CY IY EE IR JR.
  destruct (C164_resolve_pf parseable complete srcline s1 s2 a x recs xs n C R U) as (said & a' & o & E & _ & T). rewrite E. cbn [fst]. clear E.
  set (fin := match o with Ok _ => if a_verbose a then [Printed (OutL (lit "Pass 2: " ++ s2 ++ lit " seconds"))] else [] | Err _ => [] end).
  assert (QF : forall z s, ~ In (RecordError z s) fin).
  { intros z s I. unfold fin in I. destruct o; [|destruct I]. destruct (a_verbose a); [destruct I as [I|[]]; discriminate|destruct I]. }
  assert (G : forall k bl, blamed y (zlen (filter parseable xs)) (a_errors a) (x_error x) k bl o ->
     exists post, bl = repeat (RecordError y (lit "undefined symbol")) (length (filter parseable xs)) ++ post /\ forall z s, ~ In (RecordError z s) post).
  { intros k bl B. inversion B as [e' E1 E2|e' E1 E2|E1]; subst; [| |congruence]; unfold zlen; rewrite Nat2Z.id.
    - eexists. split; [reflexivity|]. intros z s [I|[]]. discriminate.
    - exists []. rewrite app_nil_r. split; [reflexivity|]. intros z s [].
    }
  assert (H : forall l k bl, said = l ++ bl -> (forall z s, ~ In (RecordError z s) l) -> blamed y (zlen (filter parseable xs)) (a_errors a) (x_error x) k bl o ->
     exists pre post, [LDebug (lit "Symbol resolution: " ++ s1 ++ lit " seconds"); LDebug (lit "Updating " ++ str_of_Z (zlen xs) ++ lit " parser records...")] ++ said ++ fin =
      pre ++ repeat (RecordError y (lit "undefined symbol")) (length (filter parseable xs)) ++ post /\ forall z s, ~ In (RecordError z s) (pre ++ post)).
  { intros l k bl -> QL B. destruct (G _ _ B) as (post & -> & QP).
    exists ([LDebug (lit "Symbol resolution: " ++ s1 ++ lit " seconds"); LDebug (lit "Updating " ++ str_of_Z (zlen xs) ++ lit " parser records...")] ++ l), (post ++ fin).
    split; [rewrite <- !app_assoc; reflexivity|]. intros z s I. rewrite <- app_assoc in I. destruct I as [I|[I|I]]; [discriminate|discriminate|]. cbn [app] in I.
    apply in_app_or in I. destruct I as [I|I]; [exact (QL _ _ I)|]. apply in_app_or in I. destruct I as [I|I]; [exact (QP _ _ I)|exact (QF _ _ I)]. }
  inversion T; subst; try lia; try congruence.
  - exfalso. match goal with K : forall r, In r xs -> ~ _ |- _ => exact (K _ IR JR) end.
  - match goal with K : x_current x = Some ?q, B : blamed ?q _ _ _ _ ?bl _, L1 : looked _ _ _ xs ?l, RE : replaced _ _ xs ?ys, L2 : looked _ _ _ ?ys ?l' |- _ => assert (q = y) by congruence; subst q; eapply (H (l ++ l') _ bl); [apply app_assoc| |exact B] end.
    intros z s I. apply in_app_or in I. destruct I as [I|I]; (eapply looked_quiet; [|exact I]; eassumption).
  - match goal with K : x_current x = Some ?q, B : blamed ?q _ _ _ _ ?bl _, L1 : looked _ _ _ xs ?l, RE : replaced _ _ xs ?ys, L2 : looked _ _ _ ?ys ?l' |- _ => assert (q = y) by congruence; subst q; eapply (H (l ++ l' ++ l') _ bl); [rewrite <- !app_assoc; reflexivity| |exact B] end.
    intros z s I. repeat (apply in_app_or in I; destruct I as [I|I]); (eapply looked_quiet; [|exact I]; eassumption).
Qed.
(*@ Example C163_times_refuted_ex :
  fst (asm_resolve_run (fun _ => true) (fun r => r =? 1) (fun _ => []) [] []
    (mkasm false [] (Some (mkactx [Some 1; Some 2] (Some 2) false)) (Some [Some 1; Some 2]) (Some 0) None None None) 3) =
  [LDebug (lit "Symbol resolution:  seconds"); LDebug (lit "Updating 2 parser records..."); LDebug (lit "resolve: "); LDebug (lit "resolve: ");
   LInfo (lit "1 incomplete parser records"); LDebug (lit "resolve: "); LDebug (lit "resolve: "); LInfo (lit "2 incomplete parser records");
   LDebug (lit "resolve: "); LDebug (lit "resolve: "); LInfo (lit "2 incomplete parser records");
   RecordError 2 (lit "undefined symbol"); RecordError 2 (lit "undefined symbol")].
Proof. vm_compute. reflexivity. Qed. @*)
