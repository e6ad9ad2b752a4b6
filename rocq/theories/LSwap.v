(** The files of the symbol tools in another order: C165. *)
From Coq Require Import ZArith List Bool Lia Sorted Permutation.
From Verif Require Import Py LPy MInstruction MCards SCards LCards LDeck MSymbols SSymbols LSymBuild MInstructions MTools STools LTools LToolSym MDiag SDiag LDiag MDump SDump MVerbose SVerbose LVerbose SOrder LOrder STranscript LTranscript MOptions SOptions LOptions MProcess SProcess LProcess SEnds LEnds SSource LSource SFound STextSym LTextSym SIdle LIdle SReport LReport SUnread LUnread SSwap.
#[local] Arguments Z.add : simpl never.
#[local] Arguments Z.sub : simpl never.
#[local] Arguments Z.mul : simpl never.
#[local] Arguments Z.pow : simpl never.

Lemma F2_combine {A B} (R : A -> B -> Prop) a b : Forall2 R a b -> Forall (fun p => R (fst p) (snd p)) (combine a b) /\ map fst (combine a b) = a /\ map snd (combine a b) = b.
Proof.
  induction 1 as [|x y a b H _ (I1 & I2 & I3)]; [repeat split; constructor|]. cbn [combine map fst snd].
  split; [constructor; assumption|]. split; congruence.
Qed.
Lemma pairs_combine {A B} (l : list (A * B)) : combine (map fst l) (map snd l) = l.
Proof. induction l as [|[x y] l IH]; [reflexivity|]. cbn [map combine fst snd]. rewrite IH. reflexivity. Qed.
(** the texts in the other order *)
Lemma perm_pairs {A B} (R : A -> B -> Prop) a a' b : Permutation a a' -> Forall2 R a b ->
  exists b', Forall2 R a' b' /\ Permutation (combine a b) (combine a' b').
Proof.
  intros P. revert b. induction P as [|x a a' H IH|x y l|a a' a'' H IH H2 IH2]; intros b F.
  - exists b. split; [exact F|reflexivity].
  - inversion F as [|? z ? c HX F']; subst. destruct (IH c F') as (c' & G & Q). exists (z :: c'). split; [constructor; assumption|]. cbn [combine]. constructor. exact Q.
  - inversion F as [|? z ? c HX F']; subst. inversion F' as [|? w ? d HY F'']; subst. exists (w :: z :: d).
    split; [repeat constructor; assumption|cbn [combine]; apply perm_swap].
  - destruct (IH b F) as (b' & G & Q). destruct (IH2 b' G) as (b'' & G2 & Q2). exists b''. split; [exact G2|exact (perm_trans Q Q2)].
Qed.
Lemma pairs_outs {A B} (R : A -> B -> Prop) a a' (b b' : list B) : Forall2 R a b -> Forall2 R a' b' -> Permutation (combine a b) (combine a' b') -> Permutation b b'.
Proof.
  intros F F' P. apply (Permutation_map snd) in P. destruct (F2_combine _ _ _ F) as (_ & _ & E), (F2_combine _ _ _ F') as (_ & _ & E'). rewrite E, E' in P. exact P.
Qed.
(** the number of complaints *)
Lemma told_numbers fs upper rep v c files outs ns ls : labels_told fs upper rep v c files outs ns ls ->
  Forall2 (count_of (fun x => exists y, label_block upper rep x y)) outs ns.
Proof.
  induction 1 as [|f files out outs log blocks ns ls _ P _ IH]; [constructor|]. constructor; [|exact IH].
  apply (picked_count (label_block upper rep)); [reflexivity|exact P].
Qed.
Lemma same_total fs upper rep v c files outs ns ls files' outs' ns' ls' : labels_told fs upper rep v c files outs ns ls ->
  labels_told fs upper rep v c files' outs' ns' ls' -> Permutation outs outs' -> total_of ns = total_of ns'.
Proof.
  intros T T' P. apply told_numbers in T. apply told_numbers in T'. destruct (perm_rows _ _ _ P _ T) as (ns2 & F & Q).
  assert (ns2 = ns').
  { clear - F T'. revert ns' T'. induction F as [|o n outs ns2 C _ IH]; intros ns' T; inversion T as [|? n' ? ns3 C' T']; subst; [reflexivity|].
    rewrite (count_unique _ _ _ _ C C'), (IH _ T'). reflexivity. }
  subst ns2. clear - Q. unfold total_of. induction Q; cbn [fold_right]; lia.
Qed.
(** with segments of their own the place of a file does not matter *)
Lemma last_pair (l : list (str * list srcline)) f : In f (map fst l) -> exists pre out post, l = pre ++ (f, out) :: post /\ ~ In f (map fst post).
Proof.
  induction l as [|[g o] l IH]; intros I; [destruct I|]. destruct (in_dec (list_eq_dec Z.eq_dec) f (map fst l)) as [J|J].
  - destruct (IH J) as (pre & out & post & -> & N). exists ((g, o) :: pre), out, post. auto.
  - destruct I as [E|I]; [|contradiction]. cbn [fst] in E. subst g. exists [], o, l. auto.
Qed.
Lemma defined_anywhere fs upper files outs t s u k x tt : Forall2 (source fs) files outs -> own_segments files ->
  (defined_at upper files outs t s u k x tt <->
   exists f out, In (f, out) (combine files outs) /\ segment_of f s /\ latest upper out t u k x tt).
Proof.
  intros S O. destruct (F2_combine _ _ _ S) as (FA & FF & _). rewrite Forall_forall in FA. split.
  - intros (pre & f & out & post & E & SG & L & _). exists f, out. split; [rewrite E; apply in_or_app; right; left; reflexivity|]. auto.
  - intros (f & out & I & SG & L). destruct (last_pair (combine files outs) f) as (pre & out' & post & E & N).
    { apply (in_map fst) in I. exact I. }
    assert (out' = out).
    { assert (I' : In (f, out') (combine files outs)) by (rewrite E; apply in_or_app; right; left; reflexivity).
      exact (proj1 (source_once fs) _ _ (FA _ I') _ (FA _ I)). }
    subst out'. exists pre, f, out, post. split; [exact E|]. split; [exact SG|]. split; [exact L|].
    intros g o J SG'. exfalso. apply N. replace f with g; [apply (in_map fst) in J; exact J|].
    apply (O g f s); [| |exact SG'|exact SG].
    + rewrite <- FF. apply (in_map fst (combine files outs) (g, o)). rewrite E. apply in_or_app. right. right. exact J.
    + rewrite <- FF. apply (in_map fst (combine files outs) (f, out)). exact I.
Qed.
Lemma own_perm files files' : Permutation files files' -> own_segments files -> own_segments files'.
Proof. intros P O f g s I J. apply O; apply (Permutation_in _ (Permutation_sym P)); assumption. Qed.
Lemma plain_perm files files' : Permutation files files' -> plain_names files -> plain_names files'.
Proof. intros P O f s I. apply O. apply (Permutation_in _ (Permutation_sym P)). exact I. Qed.
Lemma perm_ne {A} (a b : list A) : Permutation a b -> a <> [] -> b <> [].
Proof. intros P N ->. apply Permutation_sym, Permutation_nil in P. contradiction. Qed.

Lemma C165_list_pf : forall fs prog words prog' words' on verbose files files' outs,
  understood (options ListSymbols) words on files -> understood (options ListSymbols) words' on files' -> turned_on on "verbose" verbose ->
  files <> [] -> ~ In [] files -> plain_names files -> own_segments files -> Permutation files files' -> Forall2 (source fs) files outs ->
  exists k, forall v, (k <= e_fuel v)%nat -> exists outs' said said' ns ns' report,
    command v fs ListSymbols prog words = (said ++ report, Exit 0, fs) /\ labels_told fs (e_upper v) (e_rep v) verbose false files outs ns said /\
    command v fs ListSymbols prog' words' = (said' ++ report, Exit 0, fs) /\ labels_told fs (e_upper v) (e_rep v) verbose false files' outs' ns' said' /\
    Forall2 (source fs) files' outs'.
Proof.
  intros fs prog words prog' words' on verbose files files' outs U U' V NE N PN O P S.
  destruct (perm_pairs _ _ _ _ P S) as (outs' & S' & PP). assert (PO := pairs_outs _ _ _ _ _ S S' PP).
  assert (N' : ~ In [] files') by (intros I; apply N; exact (Permutation_in _ (Permutation_sym P) I)).
  destruct (C161_list_pf fs prog words on verbose files outs U V NE N PN S) as (k & H).
  destruct (C161_list_pf fs prog' words' on verbose files' outs' U' V (perm_ne _ _ P NE) N' (plain_perm _ _ P PN) S') as (k' & H').
  exists (Nat.max k k'). intros v L. destruct (H v ltac:(lia)) as (said & shown & rows & ns & E & T & LO & SS & R).
  destruct (H' v ltac:(lia)) as (said' & shown' & rows' & ns' & E' & T' & LO' & SS' & R').
  assert (rows' = rows).
  { apply (same_sorted_by (fun a b => key_lt (fst a) (fst b))); [intros a b A B; exact (key_asym _ _ A B)|exact SS'|exact SS|].
    intros [[[[t s] u] kd] y]. rewrite R, R'.
    split; intros (x & tt & D & Q); exists x, tt; (split; [|exact Q]);
      [apply (defined_anywhere fs _ _ _ _ _ _ _ _ _ S' (own_perm _ _ P O)) in D; apply (defined_anywhere fs _ _ _ _ _ _ _ _ _ S O)|
       apply (defined_anywhere fs _ _ _ _ _ _ _ _ _ S O) in D; apply (defined_anywhere fs _ _ _ _ _ _ _ _ _ S' (own_perm _ _ P O))];
      destruct D as (f & out & I & D); exists f, out; (split; [|exact D]);
      [exact (Permutation_in _ (Permutation_sym PP) I)|exact (Permutation_in _ PP I)]. }
  subst rows'. rewrite (laid_unique _ _ _ _ LO' LO), <- (same_total _ _ _ _ _ _ _ _ _ _ _ _ _ T T' PO) in E'.
  exists outs', said, said', ns, ns'. eexists. split; [exact E|]. split; [exact T|]. split; [exact E'|]. split; [exact T'|exact S'].
Qed.
(*@ Example C165_list_ex : own_segments [lit "a.arg"; lit "inc"] /\ Forall2 (source sample) [lit "a.arg"] [sample_lines] /\
  skipn 4 (fst (fst (command sample_env sample ListSymbols (lit "x.py") [lit "inc"; lit "a.arg"]))) =
    [OutL (lit "A"); OutL (lit "  Segment: a"); OutL (lit "    Subsegment: 1");
     OutL (lit "        <simple>    a:6                                           12    A          FOO");
     OutL (lit "N"); OutL (lit "  Segment: a"); OutL (lit "    Subsegment: 1");
     OutL (lit "        <complex>   inc:1                                               N          ASSIGN       5");
     OutL (lit "  Segment: inc"); OutL (lit "    Subsegment: 1");
     OutL (lit "        <complex>   inc:1                                               N          ASSIGN       5");
     ErrL (lit "2 errors found")] /\
  command sample_env sample ListSymbols (lit "x.py") [lit "a.arg"; lit "inc"] = command sample_env sample ListSymbols (lit "x.py") [lit "inc"; lit "a.arg"] /\
  let two := fun f => if eqb f (lit "x.1") then Some (lit "        N          ASSIGN       5") else
                      if eqb f (lit "x.2") then Some (lit "        N          ASSIGN       6") else None in
  last (fst (fst (command sample_env two ListSymbols (lit "x.py") [lit "x.1"; lit "x.2"]))) (OutL []) =
    OutL (lit "        <complex>   x:1                                                 N          ASSIGN       6") /\
  last (fst (fst (command sample_env two ListSymbols (lit "x.py") [lit "x.2"; lit "x.1"]))) (OutL []) =
    OutL (lit "        <complex>   x:1                                                 N          ASSIGN       5").
Proof.
  split.
  { assert (A : forall s, segment_of (lit "a.arg") s -> s <> [] /\ hd 0 s = 97).
    { intros s [[N _]|(r & E & _)]; [exfalso; apply N; right; left; reflexivity|]. destruct s as [|c s]; [discriminate E|]. injection E as E _. rewrite <- E. split; [discriminate|reflexivity]. }
    assert (B : forall s, segment_of (lit "inc") s -> hd 0 s = 105).
    { intros s [[_ ->]|(r & E & _)]; [reflexivity|]. exfalso. assert (I : In 46 (lit "inc")) by (rewrite E; apply in_or_app; right; left; reflexivity).
      destruct I as [I|[I|[I|[]]]]; discriminate I. }
    intros f g s [<-|[<-|[]]] [<-|[<-|[]]] F G; try reflexivity.
    - destruct (A _ F) as (_ & X). rewrite (B _ G) in X. discriminate X.
    - destruct (A _ G) as (_ & X). rewrite (B _ F) in X. discriminate X. }
  split; [constructor; [exact sample_ok|constructor]|]. repeat split; vm_compute; reflexivity.
Qed. @*)
Lemma within_perm upper files outs files' outs' s seg k : Permutation (combine files outs) (combine files' outs') ->
  (defined_within upper files outs s seg k <-> defined_within upper files' outs' s seg k).
Proof.
  intros P. split; intros (f & out & x & tt & I & H); exists f, out, x, tt; (split; [|exact H]);
    [exact (Permutation_in _ P I)|exact (Permutation_in _ (Permutation_sym P) I)].
Qed.
Lemma C165_check_pf : forall fs prog words prog' words' on verbose files files' outs,
  understood (options CheckSymbols) words on files -> understood (options CheckSymbols) words' on files' -> turned_on on "verbose" verbose ->
  files <> [] -> ~ In [] files -> plain_names files -> Permutation files files' -> Forall2 (source fs) files outs ->
  exists k, forall v, (k <= e_fuel v)%nat -> exists outs' said said' ns ns' report,
    command v fs CheckSymbols prog words = (said ++ report, Exit 0, fs) /\ labels_told fs (e_upper v) (e_rep v) verbose true files outs ns said /\
    command v fs CheckSymbols prog' words' = (said' ++ report, Exit 0, fs) /\ labels_told fs (e_upper v) (e_rep v) verbose true files' outs' ns' said' /\
    Forall2 (source fs) files' outs'.
Proof.
  intros fs prog words prog' words' on verbose files files' outs U U' V NE N PN P S.
  assert (C : exists complex, turned_on on "complex" complex).
  { destruct (in_dec (list_eq_dec Z.eq_dec) (lit "complex") on) as [I|I]; [exists true|exists false]; split; intros X; try assumption; try reflexivity; [discriminate|contradiction]. }
  destruct C as (complex & C).
  destruct (perm_pairs _ _ _ _ P S) as (outs' & S' & PP). assert (PO := pairs_outs _ _ _ _ _ S S' PP).
  assert (N' : ~ In [] files') by (intros I; apply N; exact (Permutation_in _ (Permutation_sym P) I)).
  destruct (C161_symbols_pf fs prog words on verbose complex files outs U V C NE N PN S) as (k & H).
  destruct (C161_symbols_pf fs prog' words' on verbose complex files' outs' U' V C (perm_ne _ _ P NE) N' (plain_perm _ _ P PN) S') as (k' & H').
  exists (Nat.max k k'). intros v L. destruct (H v ltac:(lia)) as (said & syms & ch & part & total & ns & E & T & SS & R & UP & CH & TP).
  destruct (H' v ltac:(lia)) as (said' & syms' & ch' & part' & total' & ns' & E' & T' & SS' & R' & UP' & CH' & TP').
  assert (W : forall s kind, (exists out x tt, In out outs /\ In x out /\ line_defines (e_upper v) (text_of x) s kind tt) <->
                        (exists out x tt, In out outs' /\ In x out /\ line_defines (e_upper v) (text_of x) s kind tt)).
  { intros s kind. split; intros (out & x & tt & I & Q); exists out, x, tt; (split; [|exact Q]);
      [exact (Permutation_in _ PO I)|exact (Permutation_in _ (Permutation_sym PO) I)]. }
  assert (syms' = syms).
  { apply same_sorted; [exact SS'|exact SS|]. intros s. rewrite R, R', !W. reflexivity. }
  subst syms'. assert (total' = total).
  { rewrite <- (same_total _ _ _ _ _ _ _ _ _ _ _ _ _ T T' PO) in TP'. unfold total_part, zlen in TP, TP'. rewrite (Permutation_length P) in TP.
    destruct TP as [[Q ->]|[Q ->]], TP' as [[Q' ->]|[Q' ->]]; try reflexivity; lia. }
  subst total'. assert (ch' = ch) by (refine (suggestions_same _ _ _ _ _ _ _ _ CH' CH); intros s seg kd; symmetry; exact (within_perm _ _ _ _ _ _ _ _ PP)). subst ch'.
  rewrite (part_unique _ _ _ _ UP' UP) in E'. exists outs', said, said', ns, ns'. eexists. eauto 8.
Qed.
(*@ Example C165_check_ex : Permutation [lit "a.arg"; lit "inc"] [lit "inc"; lit "a.arg"] /\
  skipn 6 (fst (fst (command sample_env sample CheckSymbols (lit "x.py") [lit "-c"; lit "a.arg"; lit "inc"]))) =
    [ErrL (lit "ERROR: symbol ""N"" has a complex assignment, but no simple assignment!"); ErrL []; ErrL (lit "Undefined symbols:");
     OutL (lit "  N - Possible matches: A"); ErrL (lit "1 errors checking symbol table."); ErrL (lit "Total: 3 errors encountered.")] /\
  skipn 6 (fst (fst (command sample_env sample CheckSymbols (lit "x.py") [lit "-c"; lit "inc"; lit "a.arg"]))) =
    [ErrL (lit "ERROR: symbol ""N"" has a complex assignment, but no simple assignment!"); ErrL []; ErrL (lit "Undefined symbols:");
     OutL (lit "  N - Possible matches: A"); ErrL (lit "1 errors checking symbol table."); ErrL (lit "Total: 3 errors encountered.")].
Proof. split; [apply perm_swap|]. split; vm_compute; reflexivity. Qed. @*)
Lemma C165_names_pf : forall fs prog words prog' words' on verbose b symbol files files' outs,
  understood (options FindSymbols) words on (symbol :: files) -> understood (options FindSymbols) words' on (symbol :: files') -> turned_on on "verbose" verbose ->
  turned_on on "begin" b -> turned_on on "end" (negb b) -> (forall x, In x ["fuzzy"; "exact"]%string -> ~ In (lit x) on) ->
  files <> [] -> ~ In [] files -> plain_names files -> Permutation files files' -> Forall2 (source fs) files outs ->
  exists k, forall v, (k <= e_fuel v)%nat -> exists outs' said said' ns ns' report,
    command v fs FindSymbols prog words = (said ++ report, Exit 0, fs) /\ labels_told fs (e_upper v) (e_rep v) verbose true files outs ns said /\
    command v fs FindSymbols prog' words' = (said' ++ report, Exit 0, fs) /\ labels_told fs (e_upper v) (e_rep v) verbose true files' outs' ns' said' /\
    Forall2 (source fs) files' outs'.
Proof.
  intros fs prog words prog' words' on verbose b symbol files files' outs U U' V B EN O NE N PN P S.
  destruct (perm_pairs _ _ _ _ P S) as (outs' & S' & PP). assert (PO := pairs_outs _ _ _ _ _ S S' PP).
  assert (N' : ~ In [] files') by (intros I; apply N; exact (Permutation_in _ (Permutation_sym P) I)).
  destruct (C161_names_pf fs prog words on verbose b files outs symbol U V B EN O NE N PN S) as (k & H).
  destruct (C161_names_pf fs prog' words' on verbose b files' outs' symbol U' V B EN O (perm_ne _ _ P NE) N' (plain_perm _ _ P PN) S') as (k' & H').
  exists (Nat.max k k'). intros v L. destruct (H v ltac:(lia)) as (said & ns & names & T & E & SS & R).
  destruct (H' v ltac:(lia)) as (said' & ns' & names' & T' & E' & SS' & R').
  assert (names' = names).
  { apply same_sorted; [exact SS'|exact SS|]. intros s. rewrite R, R'.
    split; intros ((out & x & kind & tt & I & Q) & Z); (split; [|exact Z]); exists out, x, kind, tt; (split; [|exact Q]);
      [exact (Permutation_in _ (Permutation_sym PO) I)|exact (Permutation_in _ PO I)]. }
  subst names'. exists outs', said, said', ns, ns'. eexists. eauto 8.
Qed.
(*@ Example C165_names_ex : Permutation [lit "a.arg"; lit "inc"] [lit "inc"; lit "a.arg"] /\
  skipn 6 (fst (fst (command sample_env sample FindSymbols (lit "x.py") [lit "-b"; lit ""; lit "a.arg"; lit "inc"]))) = [OutL (lit "[A, N]")] /\
  skipn 6 (fst (fst (command sample_env sample FindSymbols (lit "x.py") [lit "-b"; lit ""; lit "inc"; lit "a.arg"]))) = [OutL (lit "[A, N]")].
Proof. split; [apply perm_swap|]. split; vm_compute; reflexivity. Qed. @*)
Lemma C165_fuzzy_pf : forall fs prog words prog' words' on verbose symbol files files' outs,
  understood (options FindSymbols) words on (symbol :: files) -> understood (options FindSymbols) words' on (symbol :: files') -> turned_on on "verbose" verbose ->
  In (lit "fuzzy") on -> (forall x, In x ["begin"; "end"; "exact"]%string -> ~ In (lit x) on) ->
  files <> [] -> ~ In [] files -> plain_names files -> Permutation files files' -> Forall2 (source fs) files outs ->
  exists k, forall v, (k <= e_fuel v)%nat -> exists outs' said said' ns ns' report,
    command v fs FindSymbols prog words = (said ++ report, Exit 0, fs) /\ labels_told fs (e_upper v) (e_rep v) verbose true files outs ns said /\
    command v fs FindSymbols prog' words' = (said' ++ report, Exit 0, fs) /\ labels_told fs (e_upper v) (e_rep v) verbose true files' outs' ns' said' /\
    Forall2 (source fs) files' outs'.
Proof.
  intros fs prog words prog' words' on verbose symbol files files' outs U U' V TF O NE N PN P S.
  destruct (perm_pairs _ _ _ _ P S) as (outs' & S' & PP).
  assert (N' : ~ In [] files') by (intros I; apply N; exact (Permutation_in _ (Permutation_sym P) I)).
  destruct (C161_fuzzy_pf fs prog words on verbose files outs symbol U V TF O NE N PN S) as (k & H).
  destruct (C161_fuzzy_pf fs prog' words' on verbose files' outs' symbol U' V TF O (perm_ne _ _ P NE) N' (plain_perm _ _ P PN) S') as (k' & H').
  exists (Nat.max k k'). intros v L. destruct (H v ltac:(lia)) as (said & ns & ch & T & E & CH). destruct (H' v ltac:(lia)) as (said' & ns' & ch' & T' & E' & CH').
  assert (ch' = ch) by (refine (suggestions_same _ _ _ _ _ _ _ _ CH' CH); intros s seg kd; symmetry; exact (within_perm _ _ _ _ _ _ _ _ PP)). subst ch'.
  exists outs', said, said', ns, ns'. eexists. eauto 8.
Qed.
(*@ Example C165_fuzzy_ex : Permutation [lit "a.arg"; lit "inc"] [lit "inc"; lit "a.arg"] /\
  skipn 6 (fst (fst (command sample_env sample FindSymbols (lit "x.py") [lit "-f"; lit "M"; lit "a.arg"; lit "inc"]))) = [OutL (lit "[A]")] /\
  skipn 6 (fst (fst (command sample_env sample FindSymbols (lit "x.py") [lit "-f"; lit "M"; lit "inc"; lit "a.arg"]))) = [OutL (lit "[A]")].
Proof. split; [apply perm_swap|]. split; vm_compute; reflexivity. Qed. @*)
