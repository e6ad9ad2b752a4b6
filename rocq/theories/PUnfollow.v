(** Property theorems; generated from LUnfollow.v by meta/genp.py. *)
From Verif Require Import Py LPy MCards SCards LCards LDeck SEnds LEnds MTools MDiag MVerbose LVerbose MUnfollow SUnfollow LUnfollow.

Theorem C189_account : forall k width fields fs v f, usable_layout k width fields ->
  (exists out log e, flat_file fs f out log e) /\
  forall out log e, flat_file fs f out log e ->
    flat_result k width fields v out log e (fst (read_flat k width fields fs v f)) (snd (read_flat k width fields fs v f)).
Proof. exact (@C189_account_pf). Qed.
Print Assumptions C189_account.

Example C189_account_ex :
  fst (read_flat ArgusCls 120 DEFAULT_FIELDS flat_fs true (lit "a")) = [OutL (lit "Reading a..."); OutL (lit "Skipping meta-comment, file a, line 2")] /\
  (exists cs, snd (read_flat ArgusCls 120 DEFAULT_FIELDS flat_fs true (lit "a")) = Ok cs /\ map c_line cs = [lit "R X"; lit "$ b"; lit "  Y"] /\ map c_linenum cs = [1; 3; 4]) /\
  read_flat ArgusCls 120 DEFAULT_FIELDS flat_fs false (lit "b") = ([ErrL (lit "File ""nowhere"" does not exist")], Err SystemExit) /\
  read_flat ArgusCls 120 DEFAULT_FIELDS (fun _ => Some (lit "$  ")) false (lit "b") = ([], Err IndexError).
Proof.
  split; [vm_compute; reflexivity|]. split; [eexists; split; [vm_compute; reflexivity|split; reflexivity]|].
  split; vm_compute; reflexivity.
Qed.

Theorem C189_cards : forall k width fields fs v f content ls, usable_layout k width fields -> fs f = Some content -> text_lines content ls ->
  includes_there fs ls ->
  exists cs, snd (read_flat k width fields fs v f) = Ok cs /\
    Forall2 (fun p c => card_new k (snd p) width fields (Some f) (fst p) = Ok c) (kept ls) cs.
Proof. exact (@C189_cards_pf). Qed.
Print Assumptions C189_cards.

Example C189_cards_ex : includes_there flat_fs [lit "R X" ++ [10]; lit "# no" ++ [10]; lit "$ b" ++ [10]; lit "  Y"] /\
  kept [lit "R X" ++ [10]; lit "# no" ++ [10]; lit "$ b" ++ [10]; lit "  Y"] = [(1, lit "R X" ++ [10]); (3, lit "$ b" ++ [10]); (4, lit "  Y")].
Proof.
  split; [|reflexivity]. intros r I. destruct I as [I|[I|[I|[I|[]]]]]; try discriminate. injection I as <-.
  exists (lit "b"). split; [apply first_word_ok; eexists; vm_compute; reflexivity|discriminate].
Qed.

Theorem C189_same : forall fuel k width fields fs v f,
  (forall content ls r, fs f = Some content -> text_lines content ls -> ~ In (36 :: r) ls) ->
  read_flat k width fields fs v f = read_run (S fuel) k width fields fs v f.
Proof. exact (@C189_same_pf). Qed.
Print Assumptions C189_same.

Example C189_same_ex : (forall content ls r, (fun _ : str => Some (lit "A" ++ [10] ++ lit "B $")) (lit "x") = Some content -> text_lines content ls -> ~ In (36 :: r) ls).
Proof. intros content ls r [= <-] T I. apply text_ok in T. subst ls. vm_compute in I. destruct I as [I|[I|[]]]; discriminate. Qed.

Theorem C189_alone : forall k width fields fs fs' v f, fs f = fs' f -> (forall g, fs g = None <-> fs' g = None) ->
  read_flat k width fields fs v f = read_flat k width fields fs' v f.
Proof. exact (@C189_alone_pf). Qed.
Print Assumptions C189_alone.

Example C189_alone_ex : exists fs' : fsys, flat_fs (lit "a") = fs' (lit "a") /\ (forall g, flat_fs g = None <-> fs' g = None) /\ flat_fs (lit "b") <> fs' (lit "b").
Proof.
  exists (fun n => if eqb n (lit "a") then flat_fs (lit "a") else if eqb n (lit "b") then Some [] else None).
  split; [reflexivity|]. split; [|discriminate]. intros g. unfold flat_fs at 1. destruct (eqb g (lit "a")); [split; discriminate|].
  destruct (eqb g (lit "b")); [split; discriminate|tauto].
Qed.
