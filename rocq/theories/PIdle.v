(** Property theorems; generated from LIdle.v by meta/genp.py. *)
From Verif Require Import Py LPy MInstruction MCards SCards LCards LDeck MSymbols SSymbols LSymBuild LSymQuery MInstructions MTools STools LTools LGen SAgain LAgain LToolSym LListTool MDiag SDiag LDiag LQuiet MDump SDump MVerbose SVerbose LVerbose STranscript LTranscript MOptions SOptions LOptions MProcess SProcess LProcess SEnds LEnds SSource LSource STextSym LTextSym SIdle LIdle.

Theorem C155_genlines : forall v fs prog words on a0 a1 rest start end_ step sc ec,
  understood (options Genlines) words on (a0 :: a1 :: rest) ->
  int_text a0 start -> int_text a1 end_ -> zlen a0 <= 6 -> zlen a1 <= 6 ->
  int_arg rest 0 1 step -> int_arg rest 1 2 sc -> int_arg rest 2 7 ec -> step <> 0 ->
  exists out, command v fs Genlines prog words = (map OutL out, Exit 0, fs) /\
    forall k, let n := start + Z.of_nat k * step in let w := Z.max 4 (zlen a1) in
      match nth_error out k with
      | None => (0 < step -> end_ + step <= n) /\ (step < 0 -> n <= end_ + step)
      | Some line => (0 < step -> n < end_ + step) /\ (step < 0 -> end_ + step < n) /\
          exists t, line = repeat 32 (Z.to_nat (sc - 1)) ++ t ++ repeat 32 (Z.to_nat (ec + 2 - sc - w)) /\ signed t n /\
            zlen t = Z.max w (zlen (str_of_Z n))
      end.
Proof. exact (@C155_genlines_pf). Qed.
Print Assumptions C155_genlines.

Example C155_genlines_ex : let v := mkenv (fun _ _ => []) (fun _ _ _ => []) (map (fun c => if (97 <=? c) && (c <=? 122) then c - 32 else c)) (fun s => s) (fun _ => lit "?") 3 (fun _ => []) in
  understood (options Genlines) [lit "10"; lit "30"; lit "10"] [] [lit "10"; lit "30"; lit "10"] /\
  fst (command v paged Genlines (lit "x.py") [lit "10"; lit "30"; lit "10"]) =
    ([OutL (lit " 0010   "); OutL (lit " 0020   "); OutL (lit " 0030   ")], Exit 0).
Proof. split; [repeat (apply ud_arg; [right; intros r; discriminate|]); constructor|vm_compute; reflexivity]. Qed.

Theorem C155_numbers : forall v fs prog words on a0 a1 rest, understood (options Genlines) words on (a0 :: a1 :: rest) ->
  zlen a0 <= 6 -> zlen a1 <= 6 -> bad_numbers a0 a1 rest -> command v fs Genlines prog words = ([], Died ValueError, fs).
Proof. exact (@C155_numbers_pf). Qed.
Print Assumptions C155_numbers.

Example C155_numbers_ex : let v := mkenv (fun _ _ => []) (fun _ _ _ => []) (map (fun c => if (97 <=? c) && (c <=? 122) then c - 32 else c)) (fun s => s) (fun _ => lit "?") 3 (fun _ => []) in
  fst (command v paged Genlines (lit "x.py") [lit "10"; lit "3x"]) = ([], Died ValueError) /\
  fst (command v paged Genlines (lit "x.py") [lit "10"; lit "30"; lit "0"]) = ([], Died ValueError).
Proof. vm_compute. auto. Qed.

Theorem C155_genpages : forall v fs prog words on f rest content sec c8 a b,
  understood (options Genpages) words on (f :: rest) -> fs f = Some content ->
  section_is (readlines content) sec c8 -> page_numbers (readlines content) a b -> a <= b -> page_lines_ok (readlines content) ->
  exists fs' pages, command v fs Genpages prog words = ([], Exit 0, fs') /\
    fs' f = Some (content ++ [10] ++ lit "L      " ++ c8_text c8 ++ sec ++ [10] ++ concat pages) /\
    (forall g, g <> f -> fs' g = fs g) /\
    zlen pages = b - a + 1 /\
    forall k p, nth_error pages k = Some p -> p = page_block (c8_text c8) sec (a + Z.of_nat k) (Z.of_nat k + 1).
Proof. exact (@C155_genpages_pf). Qed.
Print Assumptions C155_genpages.

Example C155_genpages_ex : let v := mkenv (fun _ _ => []) (fun _ _ _ => []) (map (fun c => if (97 <=? c) && (c <=? 122) then c - 32 else c)) (fun s => s) (fun _ => lit "?") 3 (fun _ => []) in
  let r := command v paged Genpages (lit "x.py") [lit "a.arg"] in
  fst r = ([], Exit 0) /\
  snd r (lit "a.arg") = Some (
    lit "# Filename: SEC_1.x" ++ [10] ++ lit "# Pages: 3-4" ++ [10] ++ lit "        A          DA,B         1" ++ [10] ++ lit "        b          FOO" ++ [10] ++
    lit "L      @SEC 1" ++ [10; 10] ++ lit "# Page 3" ++ [10] ++
    lit "#      @SEC 1                                                                    USER'S OWN PAGE NO.   1        PAGE   1" ++ [10; 10; 10] ++
    lit "# Page 4" ++ [10] ++
    lit "#      @SEC 1                                                                    USER'S OWN PAGE NO.   2        PAGE   2" ++ [10; 10]).
Proof. vm_compute. auto. Qed.

Theorem C156_source : forall v fs prog words on f rest ls fs', understood (options Genpages) words on (f :: rest) ->
  command v fs Genpages prog words = (ls, Exit 0, fs') ->
  forall g out, source fs g out -> exists out', source fs' g out' /\ padded out out'.
Proof. exact (@C156_source_pf). Qed.
Print Assumptions C156_source.

Example C156_source_ex : let v := mkenv (fun _ _ => []) (fun _ _ _ => []) (map (fun c => if (97 <=? c) && (c <=? 122) then c - 32 else c)) (fun s => s) (fun _ => lit "?") 3 (fun _ => []) in
  understood (options Genpages) [lit "a.arg"] [] [lit "a.arg"] /\
  let fs' := snd (command v paged Genpages (lit "x.py") [lit "a.arg"]) in
  fst (command v paged Genpages (lit "x.py") [lit "a.arg"]) = ([], Exit 0) /\
  fst (command v paged Parse (lit "x.py") [lit "a.arg"]) <> fst (command v fs' Parse (lit "x.py") [lit "a.arg"]).
Proof. split; [repeat (apply ud_arg; [right; intros r; discriminate|]); constructor|]. vm_compute. split; [reflexivity|discriminate]. Qed.

Theorem C156_found : forall v0 fs prog0 words0 on0 f0 rest0 ls0 fs' prog words on details opcode m files outs,
  understood (options Genpages) words0 on0 (f0 :: rest0) -> command v0 fs Genpages prog0 words0 = (ls0, Exit 0, fs') ->
  understood (options ListInstructions) words on (opcode :: files) -> ~ In (lit "verbose") on -> turned_on on "details" details ->
  mnemonic_of opcode m -> In m INSTRUCTIONS -> ~ In [] files -> Forall2 (source fs) files outs ->
  exists k, forall v, (k <= e_fuel v)%nat ->
    fst (command v fs' ListInstructions prog words) = fst (command v fs ListInstructions prog words).
Proof. exact (@C156_found_pf). Qed.
Print Assumptions C156_found.

Example C156_found_ex : let v := mkenv (fun _ _ => []) (fun _ _ _ => []) (map (fun c => if (97 <=? c) && (c <=? 122) then c - 32 else c)) (fun s => s) (fun _ => lit "?") 3 (fun _ => []) in
  let fs' := snd (command v paged Genpages (lit "x.py") [lit "a.arg"]) in
  fst (command v fs' ListInstructions (lit "x.py") [lit "DA"; lit "a.arg"]) = ([OutL (lit "        A          DA,B         1")], Exit 0) /\
  fst (command v paged ListInstructions (lit "x.py") [lit "DA"; lit "a.arg"]) = ([OutL (lit "        A          DA,B         1")], Exit 0).
Proof. vm_compute. auto. Qed.

Theorem C156_faults : forall v0 fs prog0 words0 on0 f0 rest0 ls0 fs' prog words on files outs,
  understood (options Genpages) words0 on0 (f0 :: rest0) -> command v0 fs Genpages prog0 words0 = (ls0, Exit 0, fs') ->
  understood (options CheckInstructions) words on files ->
  (forall x, In x ["verbose"; "count"; "print-opcodes"; "unused"]%string -> ~ In (lit x) on) ->
  files <> [] -> ~ In [] files -> Forall2 (source fs) files outs ->
  exists k, forall v, (k <= e_fuel v)%nat ->
    fst (command v fs' CheckInstructions prog words) = fst (command v fs CheckInstructions prog words).
Proof. exact (@C156_faults_pf). Qed.
Print Assumptions C156_faults.

Example C156_faults_ex : let v := mkenv (fun _ _ => []) (fun _ _ _ => []) (map (fun c => if (97 <=? c) && (c <=? 122) then c - 32 else c)) (fun s => s) (fun _ => lit "?") 3 (fun _ => []) in
  let fs' := snd (command v paged Genpages (lit "x.py") [lit "a.arg"]) in
  fst (command v fs' CheckInstructions (lit "x.py") [lit "a.arg"]) =
    ([OutL (lit "*** ERROR: Invalid instruction ""FOO"":"); OutL (lit "File a.arg, line 4:         b          FOO");
      OutL (lit "1 error encountered.")], Exit 0) /\
  fst (command v fs' CheckInstructions (lit "x.py") [lit "a.arg"]) = fst (command v paged CheckInstructions (lit "x.py") [lit "a.arg"]).
Proof. vm_compute. auto. Qed.

Theorem C156_symbols : forall v0 fs prog0 words0 on0 f0 rest0 ls0 fs' prog words on files outs,
  understood (options Genpages) words0 on0 (f0 :: rest0) -> command v0 fs Genpages prog0 words0 = (ls0, Exit 0, fs') ->
  understood (options ListSymbols) words on files -> ~ In (lit "verbose") on ->
  files <> [] -> ~ In [] files -> plain_names files -> Forall2 (source fs) files outs ->
  exists k, forall v, (k <= e_fuel v)%nat ->
    printed (fst (fst (command v fs' ListSymbols prog words))) = printed (fst (fst (command v fs ListSymbols prog words))).
Proof. exact (@C156_symbols_pf). Qed.
Print Assumptions C156_symbols.

Example C156_symbols_ex : let v := mkenv (fun _ _ => []) (fun _ _ _ => []) (map (fun c => if (97 <=? c) && (c <=? 122) then c - 32 else c)) (fun s => s) (fun _ => lit "?") 3 (fun _ => []) in
  let fs' := snd (command v paged Genpages (lit "x.py") [lit "a.arg"]) in
  printed (fst (fst (command v fs' ListSymbols (lit "x.py") [lit "a.arg"]))) =
    [lit "A"; lit "  Segment: a"; lit "    Subsegment: 1"; lit "        <simple>    a:3                                                 A          DA,B         1"] /\
  printed (fst (fst (command v paged ListSymbols (lit "x.py") [lit "a.arg"]))) =
    [lit "A"; lit "  Segment: a"; lit "    Subsegment: 1"; lit "        <simple>    a:3                                                 A          DA,B         1"].
Proof. vm_compute. auto. Qed.

Theorem C156_check : forall v0 fs prog0 words0 on0 f0 rest0 ls0 fs' prog words on complex files outs,
  understood (options Genpages) words0 on0 (f0 :: rest0) -> command v0 fs Genpages prog0 words0 = (ls0, Exit 0, fs') ->
  understood (options CheckSymbols) words on files -> ~ In (lit "verbose") on -> turned_on on "complex" complex ->
  files <> [] -> ~ In [] files -> plain_names files -> Forall2 (source fs) files outs ->
  exists k, forall v, (k <= e_fuel v)%nat -> exists said said' report n,
    command v fs CheckSymbols prog words = (said ++ report, Exit 0, fs) /\
    command v fs' CheckSymbols prog words = (said' ++ report, Exit 0, fs') /\
    labels_said (e_upper v) (e_rep v) true files outs n said /\ labels_said (e_upper v) (e_rep v) true files outs n said'.
Proof. exact (@C156_check_pf). Qed.
Print Assumptions C156_check.

Example C156_check_ex : let v := mkenv (fun _ _ => []) (fun _ _ _ => []) (map (fun c => if (97 <=? c) && (c <=? 122) then c - 32 else c)) (fun s => s) (fun _ => lit "?") 3 (fun _ => []) in
  let fs' := snd (command v paged Genpages (lit "x.py") [lit "a.arg"]) in
  fs' (lit "a.arg") <> paged (lit "a.arg") /\
  fst (command v fs' CheckSymbols (lit "x.py") [lit "-c"; lit "a.arg"]) = fst (command v paged CheckSymbols (lit "x.py") [lit "-c"; lit "a.arg"]).
Proof. vm_compute. split; [discriminate|reflexivity]. Qed.
