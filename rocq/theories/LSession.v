(** Commands run one after the other: C198. *)
From Coq Require Import ZArith List Bool Lia Sorted Permutation.
From Verif Require Import Py LPy MInstruction MCards SCards LCards LDeck MSymbols MInstructions MTools STools LGen LTools LListTool MDiag MDump MVerbose LVerbose MOptions SOptions LOptions MProcess SProcess LProcess SEnds LEnds LUnfollow SFrame LFrame SSession.
#[local] Arguments Z.add : simpl never.
#[local] Arguments Z.sub : simpl never.
#[local] Arguments Z.mul : simpl never.
#[local] Arguments Z.pow : simpl never.

Lemma understood_one t words on args on' args' : understood (options t) words on args -> understood (options t) words on' args' -> on' = on /\ args' = args.
Proof.
  intros U U'. apply (C123_understood_pf _ _ _ _ (opts_proper t)) in U. apply (C123_understood_pf _ _ _ _ (opts_proper t)) in U'. split; congruence.
Qed.
Lemma leads_agree fs fs' g f : (forall h, leads_to fs g h -> fs h = fs' h) -> (leads_to fs' g f <-> leads_to fs g f).
Proof.
  intros A. split; intros L.
  - revert A. induction L as [f|f content ls r g h F T I W L IH]; intros A; [constructor|].
    assert (F' : fs f = Some content) by (rewrite A by constructor; exact F).
    eapply lt_include; [exact F'|exact T|exact I|exact W|]. apply IH. intros x X. apply A. eapply lt_include; [exact F'|exact T|exact I|exact W|exact X].
  - revert A. induction L as [f|f content ls r g h F T I W L IH]; intros A; [constructor|].
    eapply lt_include; [rewrite <- A by constructor; exact F|exact T|exact I|exact W|]. apply IH. intros x X. apply A.
    eapply lt_include; [exact F|exact T|exact I|exact W|exact X].
Qed.
Lemma looks_agree fs fs' t args f : (forall h, looks_at fs t args h -> fs h = fs' h) -> (looks_at fs' t args f <-> looks_at fs t args f).
Proof.
  intros A. destruct t; cbn [looks_at] in *; try tauto;
    (split; intros (g & I & L); exists g; (split; [exact I|]); apply (leads_agree fs fs' g f); try exact L; intros h X; apply A; exists g; auto).
Qed.
Lemma reads_agree fs fs' c f : (forall h, reads fs c h -> fs h = fs' h) -> (reads fs' c f <-> reads fs c f).
Proof.
  intros A. destruct c as [[t prog] words]. cbn [reads] in *.
  split; intros (on & args & U & L); exists on, args; (split; [exact U|]); apply (looks_agree fs fs' t args f); try exact L; intros h X; apply A; eauto.
Qed.
Lemma same_dec (a b : option str) : a = b \/ a <> b.
Proof.
  destruct a as [a|], b as [b|]; try (right; discriminate); try (left; reflexivity).
  destruct (list_eq_dec Z.eq_dec a b) as [->|N]; [left; reflexivity|right; congruence].
Qed.
Lemma not_written v fs c g : ~ writes c g -> snd (run_call v fs c) g = fs g.
Proof.
  intros N. destruct (same_dec (snd (run_call v fs c) g) (fs g)) as [E|D]; [exact E|]. contradiction N.
  destruct c as [[t prog] words]. cbn [run_call writes] in *. exact (C197_writes_pf _ _ _ _ _ _ D).
Qed.
Lemma keeps_apart fs t prog words on args : keeps_sources fs (t, prog, words) -> understood (options t) words on args -> listings_apart fs t args.
Proof.
  intros K U E f g I L X. apply (K E g); cbn [writes reads]; exists on, args; (split; [exact U|]); [left; split; [exact E|]; eauto|exact X].
Qed.
Lemma call_frame v fs fs' c : (forall f, reads fs c f -> fs f = fs' f) -> keeps_sources fs c ->
  fst (run_call v fs c) = fst (run_call v fs' c) /\ forall g, fs g = fs' g -> snd (run_call v fs c) g = snd (run_call v fs' c) g.
Proof.
  intros A K. destruct c as [[t prog] words]. cbn [run_call].
  destruct (C197_looks_pf v fs fs' t prog words) as [E B].
  - intros on args f U L. apply A. cbn [reads]. eauto.
  - intros on args U. exact (keeps_apart _ _ _ _ _ _ K U).
  - split; [exact E|]. intros g G. destruct (B g) as [[X Y]|(X & _)]; congruence.
Qed.
(** agreement on what a command reads keeps the conditions *)
Definition agrees (fs fs' : fsys) (c : call) : Prop := forall f, reads fs c f -> fs f = fs' f.
Lemma keeps_agree fs fs' c : agrees fs fs' c -> keeps_sources fs c -> keeps_sources fs' c.
Proof. intros A K E f W R. apply (K E f W). apply (reads_agree fs fs' c f A). exact R. Qed.
Lemma apart_agree fs fs' c c' : agrees fs fs' c -> agrees fs fs' c' -> apart fs c c' -> apart fs' c c'.
Proof.
  intros A A' K f. destruct (K f) as [X Y]. rewrite (reads_agree fs fs' c f A), (reads_agree fs fs' c' f A'). split; [exact X|exact Y].
Qed.
Lemma pairs_agree fs fs' cs : (forall c, In c cs -> agrees fs fs' c) -> ForallOrdPairs (apart fs) cs -> ForallOrdPairs (apart fs') cs.
Proof.
  intros A F. induction F as [|c cs F1 F IH]; [constructor|]. constructor.
  - rewrite Forall_forall in *. intros c' I. apply (apart_agree fs); [apply A; left; reflexivity|apply A; right; exact I|exact (F1 c' I)].
  - apply IH. intros c' I. apply A. right. exact I.
Qed.

Lemma C198_session_pf : forall v cs fs, ForallOrdPairs (apart fs) cs -> (forall c, In c cs -> keeps_sources fs c) ->
  fst (session v fs cs) = map (fun c => fst (run_call v fs c)) cs /\
  forall f, ((forall c, In c cs -> ~ writes c f) -> snd (session v fs cs) f = fs f) /\
            (forall c, In c cs -> writes c f -> snd (session v fs cs) f = snd (run_call v fs c) f).
Proof.
  intros v. induction cs as [|c cs IH]; intros fs F K; [split; [reflexivity|intros f; split; [reflexivity|intros c []]]|].
  inversion F as [|? ? F1 F2]; subst. rewrite Forall_forall in F1. cbn [session]. destruct (run_call v fs c) as [[ls st] fs1] eqn:R.
  assert (W1 : forall g, ~ writes c g -> fs1 g = fs g) by (intros g N; rewrite <- (not_written v fs c g N), R; reflexivity).
  assert (A : forall c', In c' cs -> agrees fs fs1 c').
  { intros c' I g RD. destruct (same_dec (fs1 g) (fs g)) as [E|D]; [symmetry; exact E|]. exfalso. apply D. apply W1.
    intros W. destruct (F1 c' I g) as [X _]. destruct (X W) as [X1 _]. exact (X1 RD). }
  assert (CF : forall c', In c' cs -> fst (run_call v fs c') = fst (run_call v fs1 c') /\ forall g, fs g = fs1 g -> snd (run_call v fs c') g = snd (run_call v fs1 c') g)
    by (intros c' I; apply call_frame; [exact (A c' I)|apply K; right; exact I]).
  destruct (IH fs1) as [E B].
  - apply (pairs_agree fs); [exact A|exact F2].
  - intros c' I. apply (keeps_agree fs); [exact (A c' I)|apply K; right; exact I].
  - destruct (session v fs1 cs) as [os fs2]. cbn [fst snd map] in *. split.
    + rewrite R, E. cbn [fst]. f_equal. apply map_ext_in. intros c' I. symmetry. apply CF. exact I.
    + intros f. destruct (B f) as [B1 B2]. split.
      * intros N. rewrite B1 by (intros c' I; apply N; right; exact I). apply W1. apply N. left. reflexivity.
      * intros c' [<-|I] W.
        -- rewrite R. cbn [snd]. apply B1. intros c' I W'. destruct (F1 c' I f) as [X _]. destruct (X W) as [_ X2]. exact (X2 W').
        -- rewrite (B2 c' I W). symmetry. apply CF; [exact I|]. symmetry. apply W1. intros W'. destruct (F1 c' I f) as [X _]. destruct (X W') as [_ X2]. exact (X2 W).
Qed.
(*@ Example C198_session_ex : let v := mkenv (fun _ _ => []) (fun _ _ _ => []) (fun s => s) (fun s => s) (fun _ => []) 4 (fun _ => [OutL (lit "help")]) in let fs : fsys := (fun f => if eqb f (lit "a.src") then Some (lit "                   TS") else None) in
  let cs := [(Listing, lit "l.py", [lit "a.src"]); (ListInstructions, lit "i.py", [lit "TS"; lit "a.src"])] in
  ForallOrdPairs (apart fs) cs /\ (forall c, In c cs -> keeps_sources fs c) /\ snd (session v fs cs) (lit "a.lst") <> None /\
  fst (session v fs cs) = [([], Exit 0); ([OutL (lit "                   TS")], Exit 0)].
Proof.
  cbv zeta.
  assert (LS : forall f, leads_to (fun f => if eqb f (lit "a.src") then Some (lit "                   TS") else None) (lit "a.src") f -> f = lit "a.src").
  { intros f L. apply leads_inv in L. destruct L as [<-|(ct & r & inc & F & I & _)]; [reflexivity|]. cbv beta in F. change (eqb (lit "a.src") (lit "a.src")) with true in F.
    cbv iota in F. injection F as <-. vm_compute in I. destruct I as [I|[]]. discriminate I. }
  assert (WL : forall f, writes (Listing, lit "l.py", [lit "a.src"]) f -> f = lit "a.lst").
  { intros f (on & args & U & [[_ (g & I & L)]|[X _]]); [|discriminate X]. apply (C123_understood_pf _ _ _ _ (opts_proper Listing)) in U. vm_compute in U. injection U as <- <-.
    destruct I as [<-|[]]. apply listfile_ok in L. rewrite <- L. vm_compute. reflexivity. }
  assert (RD : forall f, reads (fun f => if eqb f (lit "a.src") then Some (lit "                   TS") else None) (Listing, lit "l.py", [lit "a.src"]) f \/ reads (fun f => if eqb f (lit "a.src") then Some (lit "                   TS") else None) (ListInstructions, lit "i.py", [lit "TS"; lit "a.src"]) f -> f = lit "a.src").
  { intros f [(on & args & U & g & I & L)|(on & args & U & g & I & L)].
    - apply (C123_understood_pf _ _ _ _ (opts_proper Listing)) in U. vm_compute in U. injection U as <- <-. destruct I as [<-|[]]. exact (LS f L).
    - apply (C123_understood_pf _ _ _ _ (opts_proper ListInstructions)) in U. vm_compute in U. injection U as <- <-. destruct I as [<-|[]]. exact (LS f L). }
  assert (WN : forall f, ~ writes (ListInstructions, lit "i.py", [lit "TS"; lit "a.src"]) f) by (intros f (on & args & _ & [[X _]|[X _]]); discriminate X).
  assert (NE : lit "a.lst" <> lit "a.src") by (intros X; vm_compute in X; discriminate X).
  split; [|split; [|split; [vm_compute; discriminate|vm_compute; reflexivity]]].
  - constructor; [|constructor; [constructor|constructor]]. constructor; [|constructor]. intros f. split; [|intros W; destruct (WN f W)].
    intros W. split; [|apply WN]. intros R. apply NE. rewrite <- (WL f W). apply RD. right. exact R.
  - intros c [<-|[<-|[]]] E f W R; [|discriminate E]. apply NE. rewrite <- (WL f W). apply RD. left. exact R.
Qed. @*)
Lemma apart_sym fs c c' : apart fs c c' -> apart fs c' c.
Proof. intros A f. destruct (A f) as [X Y]. split; intros W; [split; [exact (Y W)|intros W'; destruct (X W') as [_ N]; exact (N W)]|destruct (X W); assumption]. Qed.
Lemma pairs_perm {A} (R : A -> A -> Prop) : (forall x y, R x y -> R y x) -> forall l l', Permutation l l' -> ForallOrdPairs R l -> ForallOrdPairs R l'.
Proof.
  intros S l l' P. induction P as [|x l l' P IH|x y l|l1 l2 l3 P1 IH1 P2 IH2]; intros F.
  - exact F.
  - inversion F as [|? ? F1 F2]; subst. constructor; [|exact (IH F2)]. rewrite Forall_forall in *. intros z I. apply F1. eapply Permutation_in; [symmetry; exact P|exact I].
  - inversion F as [|? ? F1 F2]; subst. inversion F2 as [|? ? F3 F4]; subst. rewrite Forall_forall in *. constructor; [|constructor]; [| |exact F4].
    + apply Forall_forall. intros z [<-|I]; [apply S; apply F1; left; reflexivity|exact (F3 z I)].
    + apply Forall_forall. intros z I. apply F1. right. exact I.
  - exact (IH2 (IH1 F)).
Qed.
Lemma may_write_dec t args f : may_write t args f \/ ~ may_write t args f.
Proof.
  unfold may_write. assert (L : (exists g, In g args /\ list_name g f) \/ ~ exists g, In g args /\ list_name g f).
  { induction args as [|a args IH]; [right; intros (g & [] & _)|]. destruct (list_eq_dec Z.eq_dec (listfile a) f) as [E|N].
    - left. exists a. split; [left; reflexivity|apply listfile_ok; exact E].
    - destruct IH as [(g & I & E)|M]; [left; exists g; split; [right; exact I|exact E]|right]. intros (g & [<-|I] & E); [apply N; apply listfile_ok; exact E|apply M; eauto]. }
  assert (G : (exists rest, args = f :: rest) \/ ~ exists rest, args = f :: rest).
  { destruct args as [|a args]; [right; intros (r & X); discriminate X|]. destruct (list_eq_dec Z.eq_dec a f) as [->|N]; [left; eauto|right; intros (r & X); congruence]. }
  destruct t; try (right; intros [[X _]|[X _]]; discriminate X).
  - destruct L as [L|L]; [left; left; auto|right; intros [[_ X]|[X _]]; [exact (L X)|discriminate X]].
  - destruct G as [G|G]; [left; right; auto|right; intros [[X _]|[_ X]]; [discriminate X|exact (G X)]].
Qed.
Lemma writes_dec c f : writes c f \/ ~ writes c f.
Proof.
  destruct c as [[t prog] words]. cbn [writes]. destruct (parse_words (options t) words [] []) as [| |[on args]] eqn:E.
  1,2: right; intros (on & args & U & _); apply (C123_understood_pf _ _ _ _ (opts_proper t)) in U; congruence.
  apply (C123_understood_pf _ _ _ _ (opts_proper t)) in E. destruct (may_write_dec t args f) as [W|W]; [left; eauto|right].
  intros (on' & args' & U & W'). destruct (understood_one _ _ _ _ _ _ E U) as [_ ->]. exact (W W').
Qed.
Lemma C198_order_pf : forall v cs cs' fs, Permutation cs cs' -> ForallOrdPairs (apart fs) cs -> (forall c, In c cs -> keeps_sources fs c) ->
  fst (session v fs cs) = map (fun c => fst (run_call v fs c)) cs /\ fst (session v fs cs') = map (fun c => fst (run_call v fs c)) cs' /\
  forall f, snd (session v fs cs') f = snd (session v fs cs) f.
Proof.
  intros v cs cs' fs P F K. destruct (C198_session_pf v cs fs F K) as [E B].
  assert (F' : ForallOrdPairs (apart fs) cs') by (eapply pairs_perm; [exact (apart_sym fs)|exact P|exact F]).
  destruct (C198_session_pf v cs' fs F') as [E' B']; [intros c I; apply K; eapply Permutation_in; [symmetry; exact P|exact I]|].
  split; [exact E|]. split; [exact E'|]. intros f. assert (D : forall c, In c cs -> writes c f \/ ~ writes c f) by (intros c _; apply writes_dec).
  assert (X : (exists c, In c cs /\ writes c f) \/ forall c, In c cs -> ~ writes c f).
  { clear -D. induction cs as [|c cs IH]; [right; intros c []|]. destruct (D c (or_introl eq_refl)) as [W|W]; [left; exists c; split; [left; reflexivity|exact W]|].
    destruct IH as [(c' & I & W')|N]; [intros c' I; apply D; right; exact I|left; exists c'; split; [right; exact I|exact W']|].
    right. intros c' [<-|I]; [exact W|exact (N c' I)]. }
  destruct X as [(c & I & W)|N].
  - rewrite (proj2 (B f) c I W). apply (proj2 (B' f) c); [eapply Permutation_in; [exact P|exact I]|exact W].
  - rewrite (proj1 (B f) N). apply (proj1 (B' f)). intros c I. apply N. eapply Permutation_in; [symmetry; exact P|exact I].
Qed.
(*@ Example C198_order_ex : let v := mkenv (fun _ _ => []) (fun _ _ _ => []) (fun s => s) (fun s => s) (fun _ => []) 4 (fun _ => [OutL (lit "help")]) in let fs : fsys := (fun f => if eqb f (lit "a.src") then Some (lit "                   TS") else None) in
  let c := (Listing, lit "l.py", [lit "a.src"]) in let c' := (ListInstructions, lit "i.py", [lit "TS"; lit "a.src"]) in
  fst (session v fs [c; c']) = rev (fst (session v fs [c'; c])) /\ snd (session v fs [c; c']) (lit "a.lst") = snd (session v fs [c'; c]) (lit "a.lst").
Proof. vm_compute. split; reflexivity. Qed. @*)

Lemma not_own fs c f : fst (fst c) <> Genpages -> keeps_sources fs c -> reads fs c f -> ~ writes c f.
Proof.
  intros N K R W. destruct c as [[t prog] words]. cbn [fst] in N. assert (W' := W). cbn [writes] in W'. destruct W' as (on & args & U & [[E _]|[E _]]); [|contradiction].
  exact (K E f W R).
Qed.
Lemma C198_again_pf : forall v fs c n, fst (fst c) <> Genpages -> keeps_sources fs c ->
  fst (session v fs (List.repeat c (S n))) = List.repeat (fst (run_call v fs c)) (S n) /\
  forall f, snd (session v fs (List.repeat c (S n))) f = snd (run_call v fs c) f.
Proof.
  intros v fs c n NG K.
  assert (ST : forall fs', agrees fs fs' c -> (forall f, fs' f = fs f \/ fs' f = snd (run_call v fs c) f) ->
    fst (run_call v fs' c) = fst (run_call v fs c) /\ forall f, snd (run_call v fs' c) f = snd (run_call v fs c) f).
  { intros fs' A D. assert (L := A). destruct c as [[t prog] words]. cbn [run_call] in *.
    destruct (C197_looks_pf v fs fs' t prog words) as [E B].
    - intros on args f U X. apply A. cbn [reads]. eauto.
    - intros on args U. exact (keeps_apart _ _ _ _ _ _ K U).
    - split; [symmetry; exact E|]. intros f. destruct (B f) as [[X Y]|(X & _)]; [|congruence]. destruct (D f) as [D'|D']; congruence. }
  assert (G : forall m fs', agrees fs fs' c -> (forall f, fs' f = fs f \/ fs' f = snd (run_call v fs c) f) ->
    fst (session v fs' (List.repeat c (S m))) = List.repeat (fst (run_call v fs c)) (S m) /\ forall f, snd (session v fs' (List.repeat c (S m))) f = snd (run_call v fs c) f).
  { induction m as [|m IH]; intros fs' A D; destruct (ST fs' A D) as [E B].
    - cbn [repeat session]. destruct (run_call v fs' c) as [[ls st] fs1]. cbn [fst snd] in *. rewrite E. split; [reflexivity|exact B].
    - change (List.repeat c (S (S m))) with (c :: List.repeat c (S m)). cbn [session]. change (List.repeat (fst (run_call v fs c)) (S (S m))) with (fst (run_call v fs c) :: List.repeat (fst (run_call v fs c)) (S m)).
      assert (A1 : agrees fs (snd (run_call v fs' c)) c).
      { intros f R. rewrite (not_written v fs' c f) by (exact (not_own fs c f NG K R)). exact (A f R). }
      destruct (run_call v fs' c) as [[ls st] fs1]. cbn [fst snd] in E, B, A1. destruct (IH fs1 A1) as [E2 B2]; [intros f; right; apply B|].
      destruct (session v fs1 (List.repeat c (S m))) as [os fs2]. cbn [fst snd] in *. rewrite E, E2. split; [reflexivity|exact B2]. }
  apply G; [intros f _; reflexivity|intros f; left; reflexivity].
Qed.
(*@ Example C198_again_ex : let v := mkenv (fun _ _ => []) (fun _ _ _ => []) (fun s => s) (fun s => s) (fun _ => []) 4 (fun _ => [OutL (lit "help")]) in let fs : fsys := (fun f => if eqb f (lit "a.src") then Some (lit "                   TS") else None) in let c := (Listing, lit "l.py", [lit "-v"; lit "a.src"]) in
  fst (session v fs [c; c]) = [fst (run_call v fs c); fst (run_call v fs c)] /\ List.length (fst (fst (run_call v fs c))) = 2%nat /\
  snd (session v fs [c; c]) (lit "a.lst") = snd (run_call v fs c) (lit "a.lst").
Proof. vm_compute. split; [reflexivity|split; reflexivity]. Qed. @*)
