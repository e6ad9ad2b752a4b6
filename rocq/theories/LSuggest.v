(** Where the tools look for similar names: C171. *)
From Coq Require Import ZArith List Bool Lia Sorted.
From Verif Require Import Py LPy MInstruction MCards SCards LCards LDeck MSymbols SSymbols LSymBuild LSymQuery MInstructions MTools STools LTools LToolSym MDiag SDiag LDiag MDump SDump MVerbose SVerbose LVerbose SOrder LOrder STranscript LTranscript MOptions SOptions LOptions MProcess SProcess LProcess SEnds LEnds SSource LSource SFound STextSym LTextSym SIdle LIdle SReport LReport SUnread LUnread SSwap LGen LSwap.
#[local] Arguments Z.add : simpl never.
#[local] Arguments Z.sub : simpl never.
#[local] Arguments Z.mul : simpl never.
#[local] Arguments Z.pow : simpl never.

Definition two_segments : fsys := fun f =>
  if eqb f (lit "p.x") then Some (lit "        A          DEC          1" ++ [10] ++ lit "        B          ASSIGN       2") else
  if eqb f (lit "q.x") then Some (lit "        B          DEC          3" ++ [10] ++ lit "        C          ASSIGN       3") else None.
Lemma C171_all_refuted_pf : exists fs v files x, Forall (fun f => exists out, source fs f out) files /\
  line_defines (e_upper v) (text_of x) (lit "B") (lit "simple") (lit " ") /\ (exists f out, In f files /\ source fs f out /\ In x out) /\
  (forall name choices n, e_extract v name choices n = map (fun c => (c, 1)) choices) /\ forall prog,
  skipn 2 (fst (fst (command v fs FindSymbols prog (lit "-f" :: lit "B" :: files)))) = [OutL (lit "[A]")] /\
  skipn 2 (fst (fst (command v fs CheckSymbols prog (lit "-c" :: files)))) =
    [ErrL (lit "ERROR: symbol ""C"" has a complex assignment, but no simple assignment!"); ErrL []; ErrL (lit "Undefined symbols:");
     OutL (lit "  C - Possible matches: A"); ErrL (lit "1 errors checking symbol table."); ErrL (lit "Total: 1 errors encountered.")].
Proof.
  exists two_segments, sample_env, [lit "p.x"; lit "q.x"], (lit "q.x", 1, lit "        B          DEC          3" ++ [10]).
  assert (SP : source two_segments (lit "p.x") [(lit "p.x", 1, lit "        A          DEC          1" ++ [10]); (lit "p.x", 2, lit "        B          ASSIGN       2")]).
  { apply (so_file two_segments (lit "p.x") (lit "        A          DEC          1" ++ [10] ++ lit "        B          ASSIGN       2") [lit "        A          DEC          1" ++ [10]; lit "        B          ASSIGN       2"]); [reflexivity| |].
    - apply tl_line; [vm_compute; intuition lia|vm_compute; intuition lia|left; reflexivity|]. apply tl_last; [discriminate|vm_compute; intuition lia|vm_compute; intuition lia].
    - apply sl_line; [intros c r [= <- _]; lia|]. apply sl_line; [intros c r [= <- _]; lia|]. constructor. }
  assert (SQ : source two_segments (lit "q.x") [(lit "q.x", 1, lit "        B          DEC          3" ++ [10]); (lit "q.x", 2, lit "        C          ASSIGN       3")]).
  { apply (so_file two_segments (lit "q.x") (lit "        B          DEC          3" ++ [10] ++ lit "        C          ASSIGN       3") [lit "        B          DEC          3" ++ [10]; lit "        C          ASSIGN       3"]); [reflexivity| |].
    - apply tl_line; [vm_compute; intuition lia|vm_compute; intuition lia|left; reflexivity|]. apply tl_last; [discriminate|vm_compute; intuition lia|vm_compute; intuition lia].
    - apply sl_line; [intros c r [= <- _]; lia|]. apply sl_line; [intros c r [= <- _]; lia|]. constructor. }
  split; [constructor; [eauto|constructor; [eauto|constructor]]|]. split; [|split; [|split]].
  - split; [discriminate|].
    assert (R : ~ remark_line (lit "        B          DEC          3" ++ [10])) by (intros (c & [= <-] & I); vm_compute in I; intuition lia).
    exists (lit "B"), (lit "DEC"). split; [split; [exact R|]; exists (lit "B"); split; [exact (strip_trimmed _)|split; [discriminate|reflexivity]]|].
    split; [|split; [split; [exact R|split; [exact (strip_trimmed _)|discriminate]]|right; split; [discriminate|reflexivity]]].
    split; [reflexivity|]. left. split; [intros [X|[]]; discriminate X|split; reflexivity].
  - exists (lit "q.x"). eexists. split; [right; left; reflexivity|]. split; [exact SQ|left; reflexivity].
  - reflexivity.
  - intros prog. split; vm_compute; reflexivity.
Qed.
(*@ Example C171_all_refuted_ex :
  skipn 2 (fst (fst (command sample_env two_segments FindSymbols (lit "x.py") [lit "-f"; lit "B"; lit "q.x"; lit "p.x"]))) = [OutL (lit "[A]")] /\
  skipn 1 (fst (fst (command sample_env two_segments FindSymbols (lit "x.py") [lit "-f"; lit "B"; lit "q.x"]))) = [OutL (lit "[B]")].
Proof. split; vm_compute; reflexivity. Qed. @*)

(** *** when all files have the same segment *)
Lemma F2_length {A B} (R : A -> B -> Prop) a b : Forall2 R a b -> List.length a = List.length b.
Proof. induction 1; cbn; congruence. Qed.
Lemma one_segment upper files outs seg choices : (forall f, In f files -> segment_of f seg) ->
  suggestions upper files outs choices -> List.length files = List.length outs ->
  StronglySorted str_lt choices /\
  forall s, In s choices <-> exists out x tt, In out outs /\ In x out /\ line_defines upper (text_of x) s (lit "simple") tt.
Proof.
  intros SG [SS M] LEN. split; [exact SS|]. intros s. rewrite M.
  assert (O : forall s' g k, defined_within upper files outs s' g k -> g = seg).
  { intros s' g k (f & out & x & tt & I & G & _). exact (segment_unique f g seg G (SG f (in_combine_l _ _ _ _ I))). }
  assert (W : (exists out x tt, In out outs /\ In x out /\ line_defines upper (text_of x) s (lit "simple") tt) <-> defined_within upper files outs s seg (lit "simple")).
  { split.
    - intros (out & x & tt & I & J & D). assert (IC : exists f, In (f, out) (combine files outs)).
      { clear - LEN I. revert outs LEN I. induction files as [|f files IH]; intros [|o outs] LEN I; cbn in LEN; try discriminate; [destruct I|].
        destruct I as [->|I]; [exists f; left; reflexivity|]. destruct (IH outs ltac:(lia) I) as (g & G). exists g. right. exact G. }
      destruct IC as (f & IC). exists f, out, x, tt. split; [exact IC|]. split; [exact (SG f (in_combine_l _ _ _ _ IC))|]. split; assumption.
    - intros (f & out & x & tt & I & _ & J & D). exists out, x, tt. split; [exact (in_combine_r _ _ _ _ I)|]. split; assumption. }
  rewrite W. split.
  - intros [(g & D & _)|[(g & D) _]]; rewrite (O _ _ _ D) in D; exact D.
  - intros D. left. exists seg. split; [exact D|]. intros g k H. rewrite (O _ _ _ H). apply str_leb_refl.
Qed.
Lemma C171_find_partial_pf : forall fs prog words on verbose files outs symbol seg,
  understood (options FindSymbols) words on (symbol :: files) -> turned_on on "verbose" verbose -> In (lit "fuzzy") on ->
  (forall x, In x ["begin"; "end"; "exact"]%string -> ~ In (lit x) on) ->
  files <> [] -> ~ In [] files -> plain_names files -> (forall f, In f files -> segment_of f seg) -> Forall2 (source fs) files outs ->
  exists k, forall v, (k <= e_fuel v)%nat -> exists said ns choices, let names := map fst (e_extract v symbol choices 10) in
    labels_told fs (e_upper v) (e_rep v) verbose true files outs ns said /\
    command v fs FindSymbols prog words = (said ++ (if zlen names =? 0 then [] else [OutL (names_text (e_rep v) names)]), Exit 0, fs) /\
    StronglySorted str_lt choices /\
    forall s, In s choices <-> exists out x tt, In out outs /\ In x out /\ line_defines (e_upper v) (text_of x) s (lit "simple") tt.
Proof.
  intros fs prog words on verbose files outs symbol seg U V TF O NE N PN SG S.
  destruct (C161_fuzzy_pf fs prog words on verbose files outs symbol U V TF O NE N PN S) as (k & H). exists k. intros v L.
  destruct (H v L) as (said & ns & ch & T & E & CH). exists said, ns, ch. cbv zeta. split; [exact T|]. split; [exact E|].
  exact (one_segment _ _ _ _ _ SG CH (F2_length _ _ _ S)).
Qed.
(*@ Example C171_find_partial_ex : (forall f, In f [lit "q.x"; lit "q.y"] -> segment_of f (lit "q")) /\
  skipn 1 (fst (fst (command sample_env two_segments FindSymbols (lit "x.py") [lit "-f"; lit "B"; lit "p.x"]))) = [OutL (lit "[A]")] /\
  skipn 2 (fst (fst (command sample_env (fun f => if eqb f (lit "q.y") then two_segments (lit "p.x") else two_segments f) FindSymbols (lit "x.py") [lit "-f"; lit "B"; lit "q.y"; lit "q.x"]))) = [OutL (lit "[A, B]")].
Proof.
  split; [|split; vm_compute; reflexivity].
  intros f [<-|[<-|[]]]; right; [exists (lit "x")|exists (lit "y")]; (split; [reflexivity|]); intros [X|[]]; discriminate X.
Qed. @*)
Lemma C171_check_partial_pf : forall fs prog words on verbose complex files outs seg,
  understood (options CheckSymbols) words on files -> turned_on on "verbose" verbose -> turned_on on "complex" complex ->
  files <> [] -> ~ In [] files -> plain_names files -> (forall f, In f files -> segment_of f seg) -> Forall2 (source fs) files outs ->
  exists k, forall v, (k <= e_fuel v)%nat -> exists said syms choices part total ns,
    command v fs CheckSymbols prog words =
      (said ++
       map (fun s => ErrL (lit "ERROR: symbol """ ++ s ++ lit """ has a complex assignment, but no simple assignment!")) syms ++
       part ++ total, Exit 0, fs) /\
    labels_told fs (e_upper v) (e_rep v) verbose true files outs ns said /\
    undefined_part (fun s => map fst (e_extract v s choices 10)) syms part /\
    StronglySorted str_lt choices /\
    (forall s, In s choices <-> exists out x tt, In out outs /\ In x out /\ line_defines (e_upper v) (text_of x) s (lit "simple") tt) /\
    (forall s, In s syms -> ~ In s choices) /\ total_part files (total_of ns + zlen syms) total.
Proof.
  intros fs prog words on verbose complex files outs seg U V C NE N PN SG S.
  destruct (C161_symbols_pf fs prog words on verbose complex files outs U V C NE N PN S) as (k & H). exists k. intros v L.
  destruct (H v L) as (said & syms & ch & part & total & ns & E & T & SS & R & UP & CH & TP). destruct (one_segment _ _ _ _ _ SG CH (F2_length _ _ _ S)) as [SC M].
  exists said, syms, ch, part, total, ns. split; [exact E|]. split; [exact T|]. split; [exact UP|]. split; [exact SC|]. split; [exact M|]. split; [|exact TP].
  intros s I J. apply R in I. apply M in J. destruct I as (_ & _ & I). exact (I J).
Qed.
(*@ Example C171_check_partial_ex :
  skipn 2 (fst (fst (command sample_env (fun f => if eqb f (lit "q.y") then two_segments (lit "p.x") else two_segments f) CheckSymbols (lit "x.py") [lit "-c"; lit "q.y"; lit "q.x"]))) =
    [ErrL (lit "ERROR: symbol ""C"" has a complex assignment, but no simple assignment!"); ErrL []; ErrL (lit "Undefined symbols:");
     OutL (lit "  C - Possible matches: A B"); ErrL (lit "1 errors checking symbol table."); ErrL (lit "Total: 1 errors encountered.")].
Proof. vm_compute. reflexivity. Qed. @*)
