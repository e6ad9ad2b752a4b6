(** Property theorems; generated from LDeck.v by meta/genp.py. *)
From Verif Require Import Py LPy MCards SCards LCards LDeck.

Theorem C63_deck_lines : forall fuel fs lines width fields k d,
  deck_new fuel fs (Some lines) None width fields k = Ok d ->
  Forall2 (fun p c => card_new k (snd p) width fields None (fst p) = Ok c) (kept lines) (d_cards d) /\
  d_lines d = lines /\ parallel d.
Proof. exact (@C63_deck_lines_pf). Qed.
Print Assumptions C63_deck_lines.

Example C63_deck_lines_ex :
  exists d, deck_new 1 (fun _ => None) (Some [lit "R A"; lit "# skip"; lit "  B"]) None 120 DEFAULT_FIELDS ArgusCls = Ok d /\
    map c_linenum (d_cards d) = [1; 3] /\ kept [lit "R A"; lit "# skip"; lit "  B"] = [(1, lit "R A"); (3, lit "  B")].
Proof. eexists. split; [vm_compute; reflexivity|]. split; reflexivity. Qed.

Theorem C63_deck_exists : forall fuel fs lines width fields k, usable_layout k width fields ->
  exists d, deck_new fuel fs (Some lines) None width fields k = Ok d /\
    List.length (d_cards d) = List.length (filter not_comment lines).
Proof. exact (@C63_deck_exists_pf). Qed.
Print Assumptions C63_deck_exists.

Example C63_deck_exists_ex : usable_layout ArgusCls 120 DEFAULT_FIELDS /\ usable_layout PunchCls 80 [1; 10].
Proof. split; [split; [cbn; lia|reflexivity]|cbn; lia]. Qed.

Theorem C64_deck_file : forall fuel fs f width fields k d, f <> [] ->
  deck_new fuel fs None (Some f) width fields k = Ok d ->
  exists out, expand fs f out /\ Forall2 (card_of k width fields) out (d_cards d) /\
    Forall2 (fun s c => c_filename c = Some (fst (fst s)) /\ c_linenum c = snd (fst s)) out (d_cards d) /\
    d_lines d = map card_str (d_cards d) /\ parallel d.
Proof. exact (@C64_deck_file_pf). Qed.
Print Assumptions C64_deck_file.

Example C64_deck_file_ex :
  let fs := fun f => if eqb f (lit "a") then Some (lit "R 1" ++ [10] ++ lit "$b x" ++ [10] ++ lit "R 3" ++ [10])
                     else if eqb f (lit "b") then Some (lit "# no" ++ [10] ++ lit "R 2" ++ [10]) else None in
  exists d, deck_new 3 fs None (Some (lit "a")) 120 DEFAULT_FIELDS ArgusCls = Ok d /\
    map (fun c => (c_filename c, c_linenum c, c_line c)) (d_cards d) =
    [(Some (lit "a"), 1, lit "R 1"); (Some (lit "b"), 2, lit "R 2"); (Some (lit "a"), 3, lit "R 3")].
Proof. eexists. split; vm_compute; reflexivity. Qed.

Theorem C64_deck_file_complete : forall fs f width fields k out, f <> [] ->
  usable_layout k width fields -> expand fs f out ->
  exists n d, forall fuel, (n <= fuel)%nat -> deck_new fuel fs None (Some f) width fields k = Ok d.
Proof. exact (@C64_deck_file_complete_pf). Qed.
Print Assumptions C64_deck_file_complete.

Example C64_deck_file_complete_ex :
  let fs := fun f => if eqb f (lit "a") then Some (lit "$b" ++ [10]) else if eqb f (lit "b") then Some (lit "R 2") else None in
  expand fs (lit "a") [(lit "b", 1, lit "R 2")].
Proof.
  eapply ex_file; [reflexivity|].
  change (readlines (lit "$b" ++ [10])) with [lit "$b" ++ [10]].
  change [(lit "b", 1, lit "R 2")] with ([(lit "b", 1, lit "R 2")] ++ []).
  eapply ex_include; [exists (lit "b" ++ [10]); split; [reflexivity|apply first_word_ok; eexists; reflexivity]| |constructor].
  eapply ex_file; [reflexivity|]. change (readlines (lit "R 2")) with [lit "R 2"].
  apply ex_card; [intros (r & E); discriminate|intros (r & E); discriminate|constructor].
Qed.

Theorem C64_ranked : forall fs rank f width fields k, f <> [] -> usable_layout k width fields ->
  includes_ranked fs rank -> fs f <> None ->
  forall fuel, (rank f < fuel)%nat -> exists d, deck_new fuel fs None (Some f) width fields k = Ok d.
Proof. exact (@C64_ranked_pf). Qed.
Print Assumptions C64_ranked.

Example C64_ranked_ex :
  let fs := fun f => if eqb f (lit "a") then Some (lit "$b" ++ [10]) else if eqb f (lit "b") then Some (lit "R 2") else None in
  includes_ranked fs (fun f => if eqb f (lit "a") then 1%nat else 0%nat) /\ fs (lit "a") <> None.
Proof.
  cbv zeta. split; [|vm_compute; discriminate].
  intros f content line r H I ->.
  destruct (eqb f (lit "a")) eqn:E.
  - injection H as <-. change (readlines (lit "$b" ++ [10])) with [lit "$b" ++ [10]] in I.
    destruct I as [I|[]]. injection I as <-. exists (lit "b"). split; [apply first_word_ok; eexists; reflexivity|].
    split; [vm_compute; discriminate|vm_compute; repeat constructor].
  - destruct (eqb f (lit "b")); [|discriminate]. injection H as <-.
    change (readlines (lit "R 2")) with [lit "R 2"] in I. destruct I as [I|[]]. discriminate.
Qed.

Theorem C65_terminates_refuted : forall fs P f width fields k, f <> [] -> usable_layout k width fields ->
  include_loop fs P -> P f ->
  forall fuel, deck_new fuel fs None (Some f) width fields k = Err RecursionError.
Proof. exact (@C65_terminates_refuted_pf). Qed.
Print Assumptions C65_terminates_refuted.

Example C65_terminates_refuted_ex :
  let fs := fun f => if eqb f (lit "a") then Some (lit "R 1" ++ [10] ++ lit "$b" ++ [10])
                     else if eqb f (lit "b") then Some (lit "$a") else None in
  include_loop fs (fun f => f = lit "a" \/ f = lit "b").
Proof.
  cbv zeta. intros f [->| ->].
  - exists (lit "R 1" ++ [10] ++ lit "$b" ++ [10]), [lit "R 1" ++ [10]], (lit "$b" ++ [10]), [], (lit "b").
    eexists. split; [reflexivity|]. split; [reflexivity|]. split.
    + apply ex_card; [intros (r & E); discriminate|intros (r & E); discriminate|constructor].
    + split; [exists (lit "b" ++ [10]); split; [reflexivity|apply first_word_ok; eexists; reflexivity]|auto].
  - exists (lit "$a"), [], (lit "$a"), [], (lit "a"), [].
    split; [reflexivity|]. split; [reflexivity|]. split; [constructor|].
    split; [exists (lit "a"); split; [reflexivity|apply first_word_ok; eexists; reflexivity]|auto].
Qed.

Theorem C65_acyclic_partial : forall fs rank f width fields k, f <> [] -> includes_acyclic fs rank ->
  forall fuel, (rank f < fuel)%nat -> deck_new fuel fs None (Some f) width fields k <> Err RecursionError.
Proof. exact (@C65_acyclic_partial_pf). Qed.
Print Assumptions C65_acyclic_partial.

Example C65_acyclic_partial_ex :
  let fs := fun f => if eqb f (lit "a") then Some (lit "$b" ++ [10]) else None in
  includes_acyclic fs (fun f => if eqb f (lit "a") then 1%nat else 0%nat) /\
  deck_new 2 fs None (Some (lit "a")) 120 DEFAULT_FIELDS ArgusCls = Err SystemExit.
Proof.
  cbv zeta. split; [|vm_compute; reflexivity].
  intros f content line inc H I (r & -> & S). apply first_word_ok in S. destruct S as (rest & S).
  destruct (eqb f (lit "a")) eqn:E; [|discriminate].
  injection H as <-. change (readlines (lit "$b" ++ [10])) with [lit "$b" ++ [10]] in I.
  destruct I as [I|[]]. injection I as <-. change (split_ws [98; 10]) with [lit "b"] in S.
  injection S as <- <-. vm_compute. repeat constructor.
Qed.

Theorem C66_missing : forall fs f width fields k, f <> [] -> usable_layout k width fields ->
  reaches_missing fs f ->
  (exists n, forall fuel, (n <= fuel)%nat -> deck_new fuel fs None (Some f) width fields k = Err SystemExit) /\
  (forall fuel d, deck_new fuel fs None (Some f) width fields k <> Ok d).
Proof. exact (@C66_missing_pf). Qed.
Print Assumptions C66_missing.

Example C66_missing_ex :
  let fs := fun f => if eqb f (lit "a") then Some (lit "R 1" ++ [10] ++ lit "$c" ++ [10]) else None in
  reaches_missing fs (lit "a").
Proof.
  cbv zeta. eapply rm_inc with (pre := [lit "R 1" ++ [10]]) (line := lit "$c" ++ [10]) (post := []) (inc := lit "c");
    [reflexivity|reflexivity| |exists (lit "c" ++ [10]); split; [reflexivity|apply first_word_ok; eexists; reflexivity]|apply rm_here; reflexivity].
  apply ex_card; [intros (r & E); discriminate|intros (r & E); discriminate|constructor].
Qed.

Theorem C66_no_input : forall fuel fs width fields k,
  deck_new fuel fs None None width fields k = Err SystemExit /\
  (forall f, f <> [] -> fs f = None -> forall n, deck_new (S n) fs None (Some f) width fields k = Err SystemExit).
Proof. exact (@C66_no_input_pf). Qed.
Print Assumptions C66_no_input.

Example C66_no_input_ex :
  deck_new 9 (fun _ => None) None (Some (lit "x.arg")) 120 DEFAULT_FIELDS ArgusCls = Err SystemExit.
Proof. reflexivity. Qed.

Theorem C67_file_vs_lines : forall fuel fs f content width fields k, f <> [] -> fs f = Some content ->
  (forall line, In line (readlines content) -> ~ exists r, line = lit "$" ++ r) ->
  match deck_new (S fuel) fs None (Some f) width fields k,
        deck_new (S fuel) fs (Some (readlines content)) None width fields k with
  | Ok d, Ok d' => Forall2 same_card (d_cards d) (d_cards d') /\ d_fields d = d_fields d' /\
                   d_stripped d = d_stripped d' /\ d_records d = d_records d'
  | Err e, Err e' => e = e'
  | _, _ => False
  end.
Proof. exact (@C67_file_vs_lines_pf). Qed.
Print Assumptions C67_file_vs_lines.

Example C67_file_vs_lines_ex :
  let content := lit "R 1" ++ [10] ++ lit "# c" ++ [10] ++ lit "  B" in
  readlines content = [lit "R 1" ++ [10]; lit "# c" ++ [10]; lit "  B"] /\
  exists d d', deck_new 1 (fun _ => Some content) None (Some (lit "a")) 120 DEFAULT_FIELDS ArgusCls = Ok d /\
    deck_new 1 (fun _ => Some content) (Some (readlines content)) None 120 DEFAULT_FIELDS ArgusCls = Ok d' /\
    d_records d = d_records d' /\ List.length (d_records d) = 2%nat.
Proof.
  split; [reflexivity|]. do 2 eexists. split; [vm_compute; reflexivity|]. split; [vm_compute; reflexivity|].
  split; reflexivity.
Qed.

Theorem C133_file_wins : forall fuel fs lines f width fields k, f <> [] ->
  deck_new fuel fs (Some lines) (Some f) width fields k = deck_new fuel fs None (Some f) width fields k /\
  argus_deck_new fuel fs (Some lines) (Some f) width fields k = argus_deck_new fuel fs None (Some f) width fields k.
Proof. exact (@C133_file_wins_pf). Qed.
Print Assumptions C133_file_wins.

Example C133_file_wins_ex :
  match deck_new 1 (fun _ => Some (lit "R 1")) (Some [lit "  A"; lit "  B"]) (Some (lit "f")) 120 DEFAULT_FIELDS ArgusCls with
  | Ok d => d_lines d = [lit "R 1"] | Err _ => False end.
Proof. vm_compute. reflexivity. Qed.

Theorem C133_empty_name : forall fuel fs lines width fields k,
  deck_new fuel fs None (Some []) width fields k = Err TypeError /\
  match deck_new fuel fs (Some lines) (Some []) width fields k, deck_new fuel fs (Some lines) None width fields k with
  | Ok d, Ok d' => Forall2 same_card (d_cards d) (d_cards d') /\ d_lines d = d_lines d' /\ d_fields d = d_fields d' /\
                   d_stripped d = d_stripped d' /\ d_records d = d_records d'
  | Err e, Err e' => e = e'
  | _, _ => False
  end.
Proof. exact (@C133_empty_name_pf). Qed.
Print Assumptions C133_empty_name.

Example C133_empty_name_ex :
  match deck_new 1 (fun _ => None) (Some [lit "  A"]) (Some []) 120 DEFAULT_FIELDS ArgusCls with
  | Ok d => d_lines d = [lit "  A"] /\ map c_filename (d_cards d) = [Some []] | Err _ => False end.
Proof. vm_compute. auto. Qed.

Theorem C68_log_section : forall fuel fs lines file width fields k d sec col8,
  argus_deck_new fuel fs lines file width fields k = Ok (d, sec, col8) ->
  deck_new fuel fs lines file width fields k = Ok d /\
  (((forall c, In c (d_cards d) -> ~ log_card c) /\ sec = None /\ col8 = RNone) \/
   exists pre c post t, d_cards d = pre ++ c :: post /\ (forall x, In x pre -> ~ log_card x) /\ log_card c /\
     sec = Some t /\ trimmed (columns (c_line c) 9 81) t /\ card_get c "column8" = Ok col8).
Proof. exact (@C68_log_section_pf). Qed.
Print Assumptions C68_log_section.

Example C68_log_section_ex :
  exists d, argus_deck_new 1 (fun _ => None) (Some [lit "R 1"; lit "L      4FIRST LOG "; lit "L      5SECOND"]) None 120
              DEFAULT_FIELDS ArgusCls = Ok (d, Some (lit "FIRST LOG"), RStr (lit "4")).
Proof. eexists. vm_compute. reflexivity. Qed.

Theorem C68_log_section_total : forall fuel fs lines width fields,
  argus_layout width fields ->
  exists d sec col8, argus_deck_new fuel fs (Some lines) None width fields ArgusCls = Ok (d, sec, col8).
Proof. exact (@C68_log_section_total_pf). Qed.
Print Assumptions C68_log_section_total.

Example C68_log_section_total_ex : argus_layout 120 DEFAULT_FIELDS /\
  exists d, argus_deck_new 1 (fun _ => None) (Some [lit "R 1"]) None 120 DEFAULT_FIELDS ArgusCls = Ok (d, None, RNone).
Proof. split; [split; [cbn; lia|reflexivity]|]. eexists. vm_compute. reflexivity. Qed.

Theorem C69_deck_str : forall fuel fs lines width fields k d,
  deck_new fuel fs (Some lines) None width fields k = Ok d ->
  (forall x, In x lines -> comment_line x) /\ deck_str d = [] \/
  split_on 10 (deck_str d) = map (filter (fun c => negb (c =? 10))) (filter not_comment lines).
Proof. exact (@C69_deck_str_pf). Qed.
Print Assumptions C69_deck_str.

Example C69_deck_str_ex :
  exists d, deck_new 1 (fun _ => None) (Some [lit "R A" ++ [10]; lit "# skip"; lit "  B"]) None 120 DEFAULT_FIELDS ArgusCls = Ok d /\
    deck_str d = lit "R A" ++ [10] ++ lit "  B".
Proof. eexists. split; vm_compute; reflexivity. Qed.

Theorem C69_deck_str_file : forall fuel fs f width fields k d, f <> [] ->
  deck_new fuel fs None (Some f) width fields k = Ok d -> d_cards d <> [] ->
  split_on 10 (deck_str d) = d_lines d.
Proof. exact (@C69_deck_str_file_pf). Qed.
Print Assumptions C69_deck_str_file.

Example C69_deck_str_file_ex :
  exists d, deck_new 1 (fun _ => Some (lit "R A" ++ [10] ++ lit "  B")) None (Some (lit "f")) 120 DEFAULT_FIELDS ArgusCls = Ok d /\
    deck_str d = lit "R A" ++ [10] ++ lit "  B" /\ d_lines d = [lit "R A"; lit "  B"].
Proof. eexists. split; [vm_compute; reflexivity|]. split; vm_compute; reflexivity. Qed.
