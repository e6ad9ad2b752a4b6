(** What is left when a call fails: the records of the assembler, the lines of the tools,
    the opcodes that do not exist. *)
From Verif Require Import Py LPy MInstruction MInstructions MSymbols MDiag MContext.

(** *** C95 the records after a pass that stopped *)
Lemma pass_short_left parseable complete cur : forall xs n done und, (length xs < n)%nat ->
  fst (pass_loop parseable complete cur n done (map Some xs) und) =
  (done ++ map (fun y => if parseable y then cur else Some y) xs)%list.
Proof.
  induction xs as [|x xs IH]; intros n done und L; (destruct n as [|n]; [cbn [length] in L; lia|]); cbn [pass_loop map].
  - now rewrite app_nil_r.
  - cbn [length] in L. destruct (parseable x); rewrite IH by lia; now rewrite <- app_assoc.
Qed.
Lemma pass_hole_left parseable complete cur : forall xs n done rest und, (length xs < n)%nat ->
  fst (pass_loop parseable complete cur n done (map Some xs ++ None :: rest) und) =
  (done ++ map (fun y => if parseable y then cur else Some y) xs ++ None :: rest)%list.
Proof.
  induction xs as [|x xs IH]; intros n done rest und L; (destruct n as [|n]; [cbn [length] in L; lia|]); cbn [pass_loop map app].
  - reflexivity.
  - cbn [length] in L. destruct (parseable x); rewrite IH by lia; now rewrite <- app_assoc.
Qed.
Lemma pass_short_err parseable complete cur : forall xs n done und, (length xs < n)%nat ->
  snd (pass_loop parseable complete cur n done (map Some xs) und) = Err IndexError.
Proof.
  induction xs as [|x xs IH]; intros n done und L; (destruct n as [|n]; [cbn [length] in L; lia|]); cbn [pass_loop map]; [reflexivity|].
  cbn [length] in L. destruct (parseable x); apply IH; lia.
Qed.
Lemma pass_hole_err parseable complete cur : forall xs n done rest und, (length xs < n)%nat ->
  snd (pass_loop parseable complete cur n done (map Some xs ++ None :: rest) und) = Err AttributeError.
Proof.
  induction xs as [|x xs IH]; intros n done rest und L; (destruct n as [|n]; [cbn [length] in L; lia|]); cbn [pass_loop map app]; [reflexivity|].
  cbn [length] in L. destruct (parseable x); apply IH; lia.
Qed.
(** A resolve that fails in its first pass has replaced the parseable records up to the place
    of the failure by the current record, counted one pass, and touched nothing else. *)
Lemma C95_stopped_partial_pf : forall parseable complete a x maxPasses xs rest,
  a_context a = Some x -> 1 <= maxPasses -> zlen xs < zlen (x_records x) ->
  a_records a = Some (map Some xs ++ rest)%list -> (rest = [] \/ exists l, rest = None :: l) ->
  fst (asm_resolve parseable complete a maxPasses) =
  mkasm (a_verbose a) (a_symtab a) (a_context a)
        (Some (map (fun y => if parseable y then x_current x else Some y) xs ++ rest)%list)
        (a_errors a) (Some 1) (a_srcfile a) (a_linenum a).
Proof.
  intros parseable complete a x n xs rest C L LT R RS. unfold asm_resolve. rewrite C.
  destruct (Z.to_nat n) as [|k] eqn:EK; [lia|]. cbn [passes]. rewrite R. unfold zlen in LT.
  destruct RS as [->|[l ->]].
  - rewrite !app_nil_r.
    assert (E := pass_short_err parseable complete (x_current x) xs (length (x_records x)) [] [] ltac:(lia)).
    assert (F := pass_short_left parseable complete (x_current x) xs (length (x_records x)) [] [] ltac:(lia)).
    destruct (pass_loop _ _ _ _ _ _ _) as [recs' r]. cbn [fst snd app] in *. subst. unfold with_pass. now rewrite C.
  - assert (E := pass_hole_err parseable complete (x_current x) xs (length (x_records x)) [] l [] ltac:(lia)).
    assert (F := pass_hole_left parseable complete (x_current x) xs (length (x_records x)) [] l [] ltac:(lia)).
    destruct (pass_loop _ _ _ _ _ _ _) as [recs' r]. cbn [fst snd app] in *. subst. unfold with_pass. now rewrite C.
Qed.
(*@ Example C95_stopped_partial_ex :
  a_records (fst (asm_resolve (fun x => x =? 1) (fun x => x =? 1)
    (mkasm false [] (Some (mkactx [Some 1; Some 2; None] (Some 2) true)) (Some [Some 1; Some 3; None; Some 1]) (Some 7) None None None) 10))
  = Some [Some 2; Some 3; None; Some 1].
Proof.
  rewrite (C95_stopped_partial _ _ _ (mkactx [Some 1; Some 2; None] (Some 2) true) 10 [1; 3] [None; Some 1]);
    try reflexivity; try discriminate. right. eexists. reflexivity.
Qed. @*)

(** *** C114 everything printed before a failure is on stderr *)
Definition on_stderr (l : line) : Prop := exists s, l = ErrL s.
Lemma C114_failed_pf : forall extract upper fuel fs,
  (forall complexOnly args e,
     snd (check_symbols_run extract upper fuel fs complexOnly args) = Err e ->
     Forall on_stderr (fst (check_symbols_run extract upper fuel fs complexOnly args))) /\
  (forall begin end_ fuzzy exact args,
     Forall on_stderr (fst (find_symbols_run extract upper fuel fs begin end_ fuzzy exact args))).
Proof.
  intros extract upper fuel fs.
  assert (B : forall args tab tot, Forall on_stderr (fst (build_all_run upper fuel fs args tab tot))).
  { induction args as [|f args IH]; intros tab tot; cbn [build_all_run]; [constructor|].
    destruct (build_table_run upper fuel fs f tab) as [[ms tab'] [n|e]].
    - specialize (IH tab' (tot + n)). destruct (build_all_run upper fuel fs args tab' (tot + n)) as [ls y].
      cbn [fst] in *. apply Forall_app. split; [|constructor; [eexists; reflexivity|exact IH]].
      apply Forall_forall. intros l I. apply in_map_iff in I as [s [<- _]]. eexists; reflexivity.
    - cbn [fst]. apply Forall_forall. intros l I. apply in_map_iff in I as [s [<- _]]. eexists; reflexivity. }
  split.
  - intros co args e. unfold check_symbols_run. destruct args as [|f args]; [constructor|].
    specialize (B (f :: args) [] 0). destruct (build_all_run upper fuel fs (f :: args) [] 0) as [ls [[tab tot]|e']]; cbn [fst snd] in *.
    + intros H. exfalso. revert H. cbv zeta. cbn [snd]. intros H. discriminate H.
    + intros _. exact B.
  - intros b en fz ex args. unfold find_symbols_run.
    destruct (_ || _ || _ || _); [constructor|].
    destruct args as [|s [|f args]]; [constructor|constructor|].
    specialize (B (f :: args) [] 0). destruct (build_all_run upper fuel fs (f :: args) [] 0) as [ls [[tab tot]|e']]; cbn [fst] in *.
    + destruct (find_symbol extract tab s None b en fz) as [|[]|[]]; cbn [fst]; try exact B.
      apply Forall_app. split; [exact B|]. constructor; [eexists; reflexivity|constructor].
    + exact B.
Qed.
(*@ Example C114_failed_ex :
  let fs := fun f : str => if eqb f (lit "p.a") then Some [] else None in
  let r := check_symbols_run (fun _ _ _ => []) (fun s => s) 2 fs false [lit "p.a"; lit "q.a"] in
  snd r = Err SystemExit /\ In (built_line (lit "p.a") 0) (fst r) /\ Forall on_stderr (fst r).
Proof.
  split; [reflexivity|]. split; [vm_compute; auto|]. eapply (proj1 (C114_failed _ _ _ _)). reflexivity.
Qed. @*)

(** *** C44 opcodes that do not exist *)
Lemma C44_no_opcode_pf : forall m,
  (~ In m (map fst OPCODES) ->
     (forall s k, make_masked_opcode m s k = Err KeyError) /\ (forall p, make_peripheral_opcode m p = Err KeyError) /\
     (forall s a b c, make_unmasked_opcode m s a b c = Err KeyError /\ make_print_opcode m s a b c = Err KeyError)) /\
  (forall o, dget OPCODES m = Some o ->
     (o_b7 o = None \/ o_op o = None ->
        (forall s k, make_masked_opcode m s k = Err TypeError) /\ (forall p, make_peripheral_opcode m p = Err TypeError) /\
        (forall s a b c, make_print_opcode m s a b c = Err TypeError)) /\
     (o_b23 o = None \/ o_op o = None -> forall s a b c, make_unmasked_opcode m s a b c = Err TypeError)).
Proof.
  intros m. unfold make_masked_opcode, make_peripheral_opcode, make_unmasked_opcode, make_print_opcode, dindex. split.
  - intros NI. assert (dget OPCODES m = None) as ->; [|repeat split; reflexivity].
    destruct (dget OPCODES m) eqn:E; [|reflexivity]. exfalso. apply NI. apply dget_In. unfold dmem. rewrite E. reflexivity.
  - intros o ->. cbn [bind]. split.
    + intros [-> | ->]; cbn [need bind]; [repeat split; reflexivity|]. destruct (o_b7 o); cbn [need bind]; repeat split; reflexivity.
    + intros [-> | ->] s a b c; cbn [need bind]; [reflexivity|]. destruct (o_b23 o); reflexivity.
Qed.
(*@ Example C44_no_opcode_ex :
  make_masked_opcode (lit "XX") 0 1 = Err KeyError /\ make_masked_opcode (lit "S") 0 1 = Err TypeError /\
  make_unmasked_opcode (lit "RF") 0 0 0 0 = Err TypeError.
Proof.
  repeat split; reflexivity.
Qed. @*)
