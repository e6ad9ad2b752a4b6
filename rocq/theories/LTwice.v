(** How often the files are named: C182. *)
From Coq Require Import ZArith List Bool Lia Sorted Permutation.
From Verif Require Import Py LPy MInstruction MCards SCards LCards LDeck MSymbols SSymbols LSymBuild MInstructions MTools STools LTools LToolSym MDiag SDiag LDiag MDump SDump MVerbose SVerbose LVerbose SOrder LOrder STranscript LTranscript MOptions SOptions LOptions MProcess SProcess LProcess SEnds LEnds SSource LSource SFound STextSym LTextSym SIdle LIdle SReport LReport SUnread LUnread SSwap LGen LSwap LJoin.
#[local] Arguments Z.add : simpl never.
#[local] Arguments Z.sub : simpl never.
#[local] Arguments Z.mul : simpl never.
#[local] Arguments Z.pow : simpl never.

Lemma again_outs fs files outs files' : Forall2 (source fs) files outs -> (forall f, In f files <-> In f files') ->
  exists outs', Forall2 (source fs) files' outs' /\ (forall p, In p (combine files outs) <-> In p (combine files' outs')) /\ (forall out, In out outs <-> In out outs').
Proof.
  intros S SET.
  assert (EX : exists outs', Forall2 (source fs) files' outs').
  { assert (X : forall f, In f files' -> exists out, source fs f out).
    { intros f I. apply SET in I. clear SET. induction S as [|g o files outs S0 _ IH]; [destruct I|]. destruct I as [<-|I]; [eauto|exact (IH I)]. }
    clear SET. induction files' as [|f files' IH]; [exists []; constructor|]. destruct (X f (or_introl eq_refl)) as (o & O).
    destruct IH as (os & OS); [intros g I; apply X; right; exact I|]. exists (o :: os). constructor; assumption. }
  destruct EX as (outs' & S'). exists outs'. split; [exact S'|].
  assert (W : forall a b c d, Forall2 (source fs) a b -> Forall2 (source fs) c d -> (forall f, In f a -> In f c) -> forall p, In p (combine a b) -> In p (combine c d)).
  { intros a b c d A C H [f out] I. destruct (F2_combine _ _ _ A) as (FA & EA & _), (F2_combine _ _ _ C) as (FC & EC & _). rewrite Forall_forall in FA, FC.
    assert (J : In f c) by (apply H; rewrite <- EA; exact (in_map fst _ _ I)). rewrite <- EC in J. apply in_map_iff in J. destruct J as ([g o] & E & J). cbn [fst] in E. subst g.
    assert (Q := proj1 (source_once fs) _ _ (FA _ I) _ (FC _ J)). cbn [snd] in Q. rewrite Q. exact J. }
  assert (P : forall p, In p (combine files outs) <-> In p (combine files' outs')) by (intros p; split; apply W; try assumption; intros f; apply SET).
  split; [exact P|].
  destruct (F2_combine _ _ _ S) as (_ & _ & EO), (F2_combine _ _ _ S') as (_ & _ & EO').
  intros out. rewrite <- EO, <- EO'. split; intros I; apply in_map_iff in I; destruct I as (p & <- & I); apply in_map, P, I.
Qed.
Lemma again_ne {A} (a b : list A) : (forall x, In x a <-> In x b) -> a <> [] -> b <> [].
Proof. intros H N ->. destruct a as [|x a]; [contradiction|]. destruct (proj1 (H x) (or_introl eq_refl)). Qed.
Lemma again_within upper files outs files' outs' s seg k : (forall p, In p (combine files outs) <-> In p (combine files' outs')) ->
  (defined_within upper files outs s seg k <-> defined_within upper files' outs' s seg k).
Proof. intros P. split; intros (f & out & x & tt & I & H); exists f, out, x, tt; (split; [|exact H]); apply P; exact I. Qed.

Lemma C182_list_pf : forall fs prog words prog' words' on verbose files files' outs,
  understood (options ListSymbols) words on files -> understood (options ListSymbols) words' on files' -> turned_on on "verbose" verbose ->
  files <> [] -> ~ In [] files -> plain_names files -> own_segments files -> (forall f, In f files <-> In f files') -> Forall2 (source fs) files outs ->
  exists k, forall v, (k <= e_fuel v)%nat -> exists outs' said said' ns ns' shown,
    let final := fun ns => if total_of ns =? 0 then [] else [ErrL (str_of_Z (total_of ns) ++ lit " errors found")] in
    command v fs ListSymbols prog words = (said ++ map OutL shown ++ final ns, Exit 0, fs) /\
    command v fs ListSymbols prog' words' = (said' ++ map OutL shown ++ final ns', Exit 0, fs) /\
    labels_told fs (e_upper v) (e_rep v) verbose false files outs ns said /\ labels_told fs (e_upper v) (e_rep v) verbose false files' outs' ns' said' /\
    Forall2 (source fs) files' outs'.
Proof.
  intros fs prog words prog' words' on verbose files files' outs U U' V NE N PN O SET S.
  destruct (again_outs _ _ _ _ S SET) as (outs' & S' & PP & _).
  assert (N' : ~ In [] files') by (intros I; apply N, SET, I).
  assert (PN' : plain_names files') by (intros f s I; apply PN, SET, I).
  assert (O' : own_segments files') by (intros f g s I J; apply O; apply SET; assumption).
  destruct (C161_list_pf fs prog words on verbose files outs U V NE N PN S) as (k & H).
  destruct (C161_list_pf fs prog' words' on verbose files' outs' U' V (again_ne _ _ SET NE) N' PN' S') as (k' & H').
  exists (Nat.max k k'). intros v L. destruct (H v ltac:(lia)) as (said & shown & rows & ns & E & T & LO & SS & R).
  destruct (H' v ltac:(lia)) as (said' & shown' & rows' & ns' & E' & T' & LO' & SS' & R').
  assert (rows' = rows).
  { apply (same_sorted_by (fun a b => key_lt (fst a) (fst b))); [intros a b A B; exact (key_asym _ _ A B)|exact SS'|exact SS|].
    intros [[[[t s] u] kd] y]. rewrite R, R'.
    split; intros (x & tt & D & Q); exists x, tt; (split; [|exact Q]);
      [apply (defined_anywhere fs _ _ _ _ _ _ _ _ _ S' O') in D; apply (defined_anywhere fs _ _ _ _ _ _ _ _ _ S O)|
       apply (defined_anywhere fs _ _ _ _ _ _ _ _ _ S O) in D; apply (defined_anywhere fs _ _ _ _ _ _ _ _ _ S' O')];
      destruct D as (f & out & I & D); exists f, out; (split; [|exact D]); apply PP; exact I. }
  subst rows'. rewrite (laid_unique _ _ _ _ LO' LO) in E'.
  exists outs', said, said', ns, ns', shown. cbn zeta. split; [exact E|]. split; [exact E'|]. split; [exact T|]. split; [exact T'|exact S'].
Qed.
(*@ Example C182_list_ex : (forall f, In f [lit "a.arg"; lit "inc"] <-> In f [lit "inc"; lit "a.arg"; lit "inc"]) /\
  printed (fst (fst (command sample_env sample ListSymbols (lit "x.py") [lit "a.arg"; lit "inc"]))) =
    [lit "A"; lit "  Segment: a"; lit "    Subsegment: 1"; lit "        <simple>    a:6                                           12    A          FOO";
     lit "N"; lit "  Segment: a"; lit "    Subsegment: 1"; lit "        <complex>   inc:1                                               N          ASSIGN       5";
     lit "  Segment: inc"; lit "    Subsegment: 1"; lit "        <complex>   inc:1                                               N          ASSIGN       5"] /\
  printed (fst (fst (command sample_env sample ListSymbols (lit "x.py") [lit "a.arg"; lit "inc"]))) =
  printed (fst (fst (command sample_env sample ListSymbols (lit "x.py") [lit "inc"; lit "a.arg"; lit "inc"]))).
Proof. split; [intros f; cbn [In]; tauto|]. split; vm_compute; reflexivity. Qed. @*)
Lemma C182_symbols_pf : forall fs prog words prog' words' on verbose files files' outs,
  understood (options CheckSymbols) words on files -> understood (options CheckSymbols) words' on files' -> turned_on on "verbose" verbose ->
  files <> [] -> ~ In [] files -> plain_names files -> (forall f, In f files <-> In f files') -> Forall2 (source fs) files outs ->
  exists k, forall v, (k <= e_fuel v)%nat -> exists outs' said said' ns ns' syms part total total',
    let report := map (fun s => ErrL (lit "ERROR: symbol """ ++ s ++ lit """ has a complex assignment, but no simple assignment!")) syms ++ part in
    command v fs CheckSymbols prog words = (said ++ report ++ total, Exit 0, fs) /\
    command v fs CheckSymbols prog' words' = (said' ++ report ++ total', Exit 0, fs) /\
    labels_told fs (e_upper v) (e_rep v) verbose true files outs ns said /\ labels_told fs (e_upper v) (e_rep v) verbose true files' outs' ns' said' /\
    total_part files (total_of ns + zlen syms) total /\ total_part files' (total_of ns' + zlen syms) total' /\ Forall2 (source fs) files' outs'.
Proof.
  intros fs prog words prog' words' on verbose files files' outs U U' V NE N PN SET S.
  assert (C : exists complex, turned_on on "complex" complex).
  { destruct (in_dec (list_eq_dec Z.eq_dec) (lit "complex") on) as [I|I]; [exists true|exists false]; split; intros X; try assumption; try reflexivity; [discriminate|contradiction]. }
  destruct C as (complex & C).
  destruct (again_outs _ _ _ _ S SET) as (outs' & S' & PP & PO).
  assert (N' : ~ In [] files') by (intros I; apply N, SET, I).
  assert (PN' : plain_names files') by (intros f s I; apply PN, SET, I).
  destruct (C161_symbols_pf fs prog words on verbose complex files outs U V C NE N PN S) as (k & H).
  destruct (C161_symbols_pf fs prog' words' on verbose complex files' outs' U' V C (again_ne _ _ SET NE) N' PN' S') as (k' & H').
  exists (Nat.max k k'). intros v L. destruct (H v ltac:(lia)) as (said & syms & ch & part & total & ns & E & T & SS & R & UP & CH & TP).
  destruct (H' v ltac:(lia)) as (said' & syms' & ch' & part' & total' & ns' & E' & T' & SS' & R' & UP' & CH' & TP').
  assert (W : forall s kind, (exists out x tt, In out outs /\ In x out /\ line_defines (e_upper v) (text_of x) s kind tt) <->
                        (exists out x tt, In out outs' /\ In x out /\ line_defines (e_upper v) (text_of x) s kind tt)).
  { intros s kind. split; intros (out & x & tt & I & Q); exists out, x, tt; (split; [apply PO; exact I|exact Q]). }
  assert (syms' = syms).
  { apply same_sorted; [exact SS'|exact SS|]. intros s. rewrite R, R', !W. reflexivity. }
  subst syms'. assert (ch' = ch) by (refine (suggestions_same _ _ _ _ _ _ _ _ CH' CH); intros s seg kd; symmetry; exact (again_within _ _ _ _ _ _ _ _ PP)). subst ch'.
  rewrite (part_unique _ _ _ _ UP' UP) in E'. rewrite (app_assoc (map _ syms)) in E, E'.
  exists outs', said, said', ns, ns', syms, part, total, total'. cbn zeta. split; [exact E|]. split; [exact E'|]. repeat (split; [assumption|]). assumption.
Qed.
(*@ Example C182_symbols_ex : (forall f, In f [lit "a.arg"; lit "a.arg"] <-> In f [lit "a.arg"]) /\
  skipn 4 (fst (fst (command sample_env sample CheckSymbols (lit "x.py") [lit "-c"; lit "a.arg"]))) =
    [ErrL []; ErrL (lit "Undefined symbols:"); OutL (lit "  N - Possible matches: A"); ErrL (lit "1 errors checking symbol table.")] /\
  skipn 7 (fst (fst (command sample_env sample CheckSymbols (lit "x.py") [lit "-c"; lit "a.arg"; lit "a.arg"]))) =
    [ErrL []; ErrL (lit "Undefined symbols:"); OutL (lit "  N - Possible matches: A"); ErrL (lit "1 errors checking symbol table.");
     ErrL (lit "Total: 3 errors encountered.")].
Proof. split; [intros f; cbn [In]; tauto|]. split; vm_compute; reflexivity. Qed. @*)
Lemma C182_names_pf : forall fs prog words prog' words' on verbose b symbol files files' outs,
  understood (options FindSymbols) words on (symbol :: files) -> understood (options FindSymbols) words' on (symbol :: files') -> turned_on on "verbose" verbose ->
  turned_on on "begin" b -> turned_on on "end" (negb b) -> (forall x, In x ["fuzzy"; "exact"]%string -> ~ In (lit x) on) ->
  files <> [] -> ~ In [] files -> plain_names files -> (forall f, In f files <-> In f files') -> Forall2 (source fs) files outs ->
  exists k, forall v, (k <= e_fuel v)%nat -> exists outs' said said' ns ns' report,
    command v fs FindSymbols prog words = (said ++ report, Exit 0, fs) /\ labels_told fs (e_upper v) (e_rep v) verbose true files outs ns said /\
    command v fs FindSymbols prog' words' = (said' ++ report, Exit 0, fs) /\ labels_told fs (e_upper v) (e_rep v) verbose true files' outs' ns' said' /\
    Forall2 (source fs) files' outs'.
Proof.
  intros fs prog words prog' words' on verbose b symbol files files' outs U U' V B EN O NE N PN SET S.
  destruct (again_outs _ _ _ _ S SET) as (outs' & S' & PP & PO).
  assert (N' : ~ In [] files') by (intros I; apply N, SET, I).
  assert (PN' : plain_names files') by (intros f s I; apply PN, SET, I).
  destruct (C161_names_pf fs prog words on verbose b files outs symbol U V B EN O NE N PN S) as (k & H).
  destruct (C161_names_pf fs prog' words' on verbose b files' outs' symbol U' V B EN O (again_ne _ _ SET NE) N' PN' S') as (k' & H').
  exists (Nat.max k k'). intros v L. destruct (H v ltac:(lia)) as (said & ns & names & T & E & SS & R).
  destruct (H' v ltac:(lia)) as (said' & ns' & names' & T' & E' & SS' & R').
  assert (names' = names).
  { apply same_sorted; [exact SS'|exact SS|]. intros s. rewrite R, R'.
    split; intros ((out & x & kind & tt & I & Q) & Z); (split; [|exact Z]); exists out, x, kind, tt; (split; [apply PO; exact I|exact Q]). }
  subst names'. exists outs', said, said', ns, ns'. eexists. eauto 8.
Qed.
(*@ Example C182_names_ex : (forall f, In f [lit "a.arg"; lit "inc"] <-> In f [lit "inc"; lit "a.arg"; lit "inc"]) /\
  skipn 6 (fst (fst (command sample_env sample FindSymbols (lit "x.py") [lit "-b"; lit ""; lit "a.arg"; lit "inc"]))) = [OutL (lit "[A, N]")] /\
  skipn 9 (fst (fst (command sample_env sample FindSymbols (lit "x.py") [lit "-b"; lit ""; lit "inc"; lit "a.arg"; lit "inc"]))) = [OutL (lit "[A, N]")].
Proof. split; [intros f; cbn [In]; tauto|]. split; vm_compute; reflexivity. Qed. @*)
Lemma C182_fuzzy_pf : forall fs prog words prog' words' on verbose symbol files files' outs,
  understood (options FindSymbols) words on (symbol :: files) -> understood (options FindSymbols) words' on (symbol :: files') -> turned_on on "verbose" verbose ->
  In (lit "fuzzy") on -> (forall x, In x ["begin"; "end"; "exact"]%string -> ~ In (lit x) on) ->
  files <> [] -> ~ In [] files -> plain_names files -> (forall f, In f files <-> In f files') -> Forall2 (source fs) files outs ->
  exists k, forall v, (k <= e_fuel v)%nat -> exists outs' said said' ns ns' report,
    command v fs FindSymbols prog words = (said ++ report, Exit 0, fs) /\ labels_told fs (e_upper v) (e_rep v) verbose true files outs ns said /\
    command v fs FindSymbols prog' words' = (said' ++ report, Exit 0, fs) /\ labels_told fs (e_upper v) (e_rep v) verbose true files' outs' ns' said' /\
    Forall2 (source fs) files' outs'.
Proof.
  intros fs prog words prog' words' on verbose symbol files files' outs U U' V TF O NE N PN SET S.
  destruct (again_outs _ _ _ _ S SET) as (outs' & S' & PP & _).
  assert (N' : ~ In [] files') by (intros I; apply N, SET, I).
  assert (PN' : plain_names files') by (intros f s I; apply PN, SET, I).
  destruct (C161_fuzzy_pf fs prog words on verbose files outs symbol U V TF O NE N PN S) as (k & H).
  destruct (C161_fuzzy_pf fs prog' words' on verbose files' outs' symbol U' V TF O (again_ne _ _ SET NE) N' PN' S') as (k' & H').
  exists (Nat.max k k'). intros v L. destruct (H v ltac:(lia)) as (said & ns & ch & T & E & CH). destruct (H' v ltac:(lia)) as (said' & ns' & ch' & T' & E' & CH').
  assert (ch' = ch) by (refine (suggestions_same _ _ _ _ _ _ _ _ CH' CH); intros s seg kd; symmetry; exact (again_within _ _ _ _ _ _ _ _ PP)). subst ch'.
  exists outs', said, said', ns, ns'. eexists. eauto 8.
Qed.
(*@ Example C182_fuzzy_ex : (forall f, In f [lit "a.arg"; lit "a.arg"] <-> In f [lit "a.arg"]) /\
  skipn 3 (fst (fst (command sample_env sample FindSymbols (lit "x.py") [lit "-f"; lit "N"; lit "a.arg"]))) =
  skipn 6 (fst (fst (command sample_env sample FindSymbols (lit "x.py") [lit "-f"; lit "N"; lit "a.arg"; lit "a.arg"]))) /\
  skipn 3 (fst (fst (command sample_env sample FindSymbols (lit "x.py") [lit "-f"; lit "N"; lit "a.arg"]))) = [OutL (lit "[A]")].
Proof. split; [intros f; cbn [In]; tauto|]. split; vm_compute; reflexivity. Qed. @*)
