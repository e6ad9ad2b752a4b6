(** Property theorems; generated from LExact.v by meta/genp.py. *)
From Verif Require Import Py LPy MBitField SBits LBits LBitField MInstruction MCards SCards LCards LDeck MSymbols SSymbols LSymClass LSymBuild MInstructions MTools STools LTools LToolSym MDiag SDiag LDiag MDump SDump MVerbose SVerbose LVerbose SOrder LOrder STranscript LTranscript MOptions SOptions LOptions MProcess SProcess LProcess SEnds LEnds SSource LSource SFound STextSym LTextSym SIdle LIdle SReport LReport SUnread LUnread SSwap LGen LLabel LSwap SAgree LAgree SExact LExact.

Theorem C15_isRangeSet_exact : forall b s e, valid_range (bf_order b) (bf_numbering b) (bf_width b) s e ->
  exists t, bf_isRangeSet b (Some s) (Some e) = Ok t /\ bf_isRange b (Some s) (Some e) 1 = Ok t /\ bf_isRangeClr b (Some s) (Some e) = Ok (negb t) /\
    (t = true <-> range_lo (bf_numbering b) (bf_width b) s e = 0 /\
       forall k, range_seen b s e <= k < range_seen b s e + range_size (bf_numbering b) (bf_width b) s e -> bit_at (bf_value b) k = 1).
Proof. exact (@C15_isRangeSet_exact_pf). Qed.
Print Assumptions C15_isRangeSet_exact.

Example C15_isRangeSet_exact_ex :
  let b := mkbf 8 255 120 LSB_0 LSB_LEFT in
  range_seen b 0 3 = 3 /\ bf_isRangeSet b (Some 0) (Some 3) = Ok true /\ bf_isRangeSet b (Some 3) (Some 6) = Ok false /\ bf_isRangeClr b (Some 3) (Some 6) = Ok true.
Proof. vm_compute. auto. Qed.

Theorem C16_isRange_exact : forall b s e, valid_range (bf_order b) (bf_numbering b) (bf_width b) s e ->
  exists t, bf_isRange b (Some s) (Some e) 0 = Ok t /\
    (t = true <-> forall k, range_seen b s e <= k < range_seen b s e + range_size (bf_numbering b) (bf_width b) s e -> bit_at (bf_value b) k = 0).
Proof. exact (@C16_isRange_exact_pf). Qed.
Print Assumptions C16_isRange_exact.

Example C16_isRange_exact_ex :
  let b := mkbf 8 255 7 LSB_0 LSB_LEFT in
  range_seen b 0 3 = 3 /\ bf_isRange b (Some 0) (Some 3) 0 = Ok true /\ range_seen b 0 7 = 0 /\ bf_isRange b (Some 0) (Some 7) 0 = Ok false.
Proof. vm_compute. auto. Qed.

Theorem C65_exact : forall fs (all : list str) f width fields k fuel, f <> [] -> usable_layout k width fields ->
  (forall g, fs g <> None -> In g all) -> (length all < fuel)%nat ->
  (deck_new fuel fs None (Some f) width fields k = Err RecursionError <-> exists P, include_loop fs P /\ P f).
Proof. exact (@C65_exact_pf). Qed.
Print Assumptions C65_exact.

Example C65_exact_ex :
  let fs := fun f => if eqb f (lit "a") then Some (lit "$b" ++ [10] ++ lit "$a" ++ [10]) else if eqb f (lit "b") then Some (lit "R") else None in
  deck_new 3 fs None (Some (lit "a")) 120 DEFAULT_FIELDS ArgusCls = Err RecursionError /\ exists P, include_loop fs P /\ P (lit "a").
Proof.
  cbv zeta. split; [vm_compute; reflexivity|].
  apply (C65_exact _ [lit "a"; lit "b"] (lit "a") 120 DEFAULT_FIELDS ArgusCls 3); [discriminate| | |repeat constructor|vm_compute; reflexivity].
  - vm_compute. repeat split; intuition discriminate.
  - intros g. destruct (eqb g (lit "a")) eqn:E; [apply eqb_ok in E; intros _; left; congruence|].
    destruct (eqb g (lit "b")) eqn:F; [apply eqb_ok in F; intros _; right; left; congruence|intros X; exfalso; apply X; reflexivity].
Qed.

Theorem C74_prune_exact : forall t, undefs_known t ->
  exists u, st_prune t = Ok (mkst (t_symbols t) u) /\ thinned (has_value t) false (t_undefs t) u.
Proof. exact (@C74_prune_exact_pf). Qed.
Print Assumptions C74_prune_exact.

Example C74_prune_exact_ex :
  let e := ste_new (lit "A") (Some 1) None None 0 None None in
  let f := ste_new (lit "B") None None None 0 None None in
  let d := [(lit "A", e); (lit "B", e); (lit "C", e); (lit "D", f); (lit "E", e); (lit "F", e)] in
  st_prune (mkst d (map fst d)) = Ok (mkst d (map lit ["B"; "D"; "F"]%string)).
Proof. reflexivity. Qed.

Theorem C170_counts_exact : forall fs prog words prog' words' on on' details unused files outs m total,
  understood (options ListInstructions) words on (m :: files) -> ~ In (lit "verbose") on -> turned_on on "details" details ->
  understood (options CheckInstructions) words' on' files -> In (lit "count") on' -> turned_on on' "unused" unused ->
  In m INSTRUCTIONS -> files <> [] -> ~ In [] files -> Forall2 (source fs) files outs ->
  count_of (fun x => exists m, mnemonic_at (text_of x) m) (concat outs) total -> total <> 0 \/ unused = true ->
  exists k, forall v, (k <= e_fuel v)%nat -> exists found told rows un n more fewer,
    command v fs ListInstructions prog words = (found, Exit 0, fs) /\
    (exists bad, command v fs CheckInstructions prog' words' =
      (told ++ map OutL ([10 :: lit "Source lines: " ++ str_of_Z (zlen (concat outs)); 10 :: lit "Instruction Frequencies:";
                          freq_line (lit "Total") total (lit "100.00")] ++
                         map (fun r => freq_line (fst r) (snd r) (e_pct v (snd r) total)) rows ++ un ++ [error_count bad]), Exit 0, fs)) /\
    (forall i, In (m, i) rows <-> i = n /\ (unused = true -> n <> 0)) /\
    zlen found + fewer = n + more /\
    count_of (fun x => ~ starred_line (text_of x) /\ blank_free (text_of x) m /\ ~ mnemonic_at (text_of x) m) (concat outs) more /\
    count_of (fun x => ~ starred_line (text_of x) /\ mnemonic_at (text_of x) m /\ ~ blank_free (text_of x) m) (concat outs) fewer.
Proof. exact (@C170_counts_exact_pf). Qed.
Print Assumptions C170_counts_exact.

Example C170_counts_exact_ex :
  fst (command sample_env spaced ListInstructions (lit "x.py") [lit "DA"; lit "a"]) =
    ([OutL (lit "        A          DA,B"); OutL (lit "                   D A")], Exit 0) /\
  In (OutL (lit "DA            1   50.00%")) (fst (fst (command sample_env spaced CheckInstructions (lit "x.py") [lit "-c"; lit "a"]))) /\
  count_of (fun x => ~ starred_line (text_of x) /\ blank_free (text_of x) (lit "DA") /\ ~ mnemonic_at (text_of x) (lit "DA"))
    [(lit "a", 2, lit "                   D A")] 1.
Proof.
  split; [vm_compute; reflexivity|]. split; [vm_compute; tauto|]. apply (cn_yes _ _ [] 0); [|constructor].
  assert (O : operation_of (lit "                   D A") (lit "D A")).
  { split; [intros (c & H & I); injection H as <-; vm_compute in I; intuition discriminate|]. split; [apply (strip_trimmed (columns (lit "                   D A") 20 32))|discriminate]. }
  split; [discriminate|]. split; [exists (lit "D A"), (lit "D A"); split; [exact O|]; split; [left; split; [vm_compute; intuition discriminate|reflexivity]|reflexivity]|].
  intros (_ & op & O' & M). rewrite <- (op_unique _ _ _ O O') in M. destruct M as [[_ M]|(a & b & M & _)]; [discriminate M|].
  assert (I : In 44 (lit "D A")) by (rewrite M; apply in_or_app; right; left; reflexivity). vm_compute in I. intuition discriminate.
Qed.
