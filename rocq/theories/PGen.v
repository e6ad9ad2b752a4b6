(** Property theorems; generated from LGen.v by meta/genp.py. *)
From Verif Require Import Py LPy MCards SCards LInstructions LCards LDeck MSymbols SSymbols LSymBuild MTools STools LGen.

Theorem C85_genlines : forall a0 a1 rest start end_ step sc ec,
  decimal a0 start -> decimal a1 end_ -> zlen a0 <= 6 -> zlen a1 <= 6 ->
  opt_arg rest 0 1 step -> opt_arg rest 1 2 sc -> opt_arg rest 2 7 ec -> 1 <= step ->
  exists out, genlines (a0 :: a1 :: rest) = Ok out /\
    forall k, match nth_error out k with
              | None => end_ + step <= start + Z.of_nat k * step
              | Some line =>
                  let n := start + Z.of_nat k * step in let w := Z.max 4 (zlen a1) in
                  n < end_ + step /\
                  exists t, shows_number line sc n t /\ (n < 10 ^ w -> zlen t = w) /\
                    (n < 10 ^ w -> 1 <= sc -> w <= ec + 2 - sc -> zlen line = ec + 1)
              end.
Proof. exact (@C85_genlines_pf). Qed.
Print Assumptions C85_genlines.

Example C85_genlines_ex :
  genlines [lit "8"; lit "12"; lit "2"] = Ok [lit " 0008   "; lit " 0010   "; lit " 0012   "].
Proof. vm_compute. reflexivity. Qed.

Theorem C86_beyond_refuted : forall a0 a1 rest start end_ step sc ec,
  decimal a0 start -> decimal a1 end_ -> zlen a0 <= 6 -> zlen a1 <= 6 ->
  opt_arg rest 0 1 step -> opt_arg rest 1 2 sc -> opt_arg rest 2 7 ec -> 1 <= step ->
  start <= end_ -> (end_ - start) mod step <> 0 ->
  exists out line n t, genlines (a0 :: a1 :: rest) = Ok out /\ In line out /\ shows_number line sc n t /\ end_ < n.
Proof. exact (@C86_beyond_refuted_pf). Qed.
Print Assumptions C86_beyond_refuted.

Example C86_beyond_refuted_ex :
  genlines [lit "1"; lit "10"; lit "4"] = Ok [lit " 0001   "; lit " 0005   "; lit " 0009   "; lit " 0013   "].
Proof. vm_compute. reflexivity. Qed.

Theorem C86_beyond_partial : forall a0 a1 rest start end_ step sc ec,
  decimal a0 start -> decimal a1 end_ -> zlen a0 <= 6 -> zlen a1 <= 6 ->
  opt_arg rest 0 1 step -> opt_arg rest 1 2 sc -> opt_arg rest 2 7 ec -> 1 <= step ->
  start <= end_ -> (end_ - start) mod step = 0 ->
  exists out, genlines (a0 :: a1 :: rest) = Ok out /\
    (forall line, In line out -> exists n t, shows_number line sc n t /\ start <= n <= end_) /\
    (forall n, start <= n <= end_ -> (n - start) mod step = 0 -> exists line t, In line out /\ shows_number line sc n t) /\
    zlen out = (end_ - start) / step + 1.
Proof. exact (@C86_beyond_partial_pf). Qed.
Print Assumptions C86_beyond_partial.

Example C86_beyond_partial_ex :
  genlines [lit "0005"; lit "00011"; lit "3"; lit "1"; lit "5"] = Ok [lit "00005 "; lit "00008 "; lit "00011 "].
Proof. vm_compute. reflexivity. Qed.

Theorem C128_int : forall s n, py_int s = Ok n <-> int_text s n.
Proof. exact (@C128_int_pf). Qed.
Print Assumptions C128_int.

Example C128_int_ex : py_int (lit " -1_000 ") = Ok (-1000) /\ py_int (lit "1__0") = Err ValueError /\ py_int (lit "- 1") = Err ValueError.
Proof. vm_compute. auto. Qed.

Theorem C128_rejected : forall s e, py_int s = Err e <-> (forall n, ~ int_text s n) /\ e = ValueError.
Proof. exact (@C128_rejected_pf). Qed.
Print Assumptions C128_rejected.

Example C128_rejected_ex : py_int (lit "") = Err ValueError /\ py_int (lit "0x10") = Err ValueError /\ py_int (lit "1_") = Err ValueError.
Proof. vm_compute. auto. Qed.

Theorem C129_genlines : forall (a0 a1 : str) (rest : list str) start end_ step sc ec,
  int_text a0 start -> int_text a1 end_ -> zlen a0 <= 6 -> zlen a1 <= 6 ->
  int_arg rest 0 1 step -> int_arg rest 1 2 sc -> int_arg rest 2 7 ec -> step <> 0 ->
  exists out, genlines (a0 :: a1 :: rest) = Ok out /\
    forall k, let n := start + Z.of_nat k * step in let w := Z.max 4 (zlen a1) in
      match nth_error out k with
      | None => (0 < step -> end_ + step <= n) /\ (step < 0 -> n <= end_ + step)
      | Some line => (0 < step -> n < end_ + step) /\ (step < 0 -> end_ + step < n) /\
          exists t, line = repeat 32 (Z.to_nat (sc - 1)) ++ t ++ repeat 32 (Z.to_nat (ec + 2 - sc - w)) /\ signed t n /\
            zlen t = Z.max w (zlen (str_of_Z n))
      end.
Proof. exact (@C129_genlines_pf). Qed.
Print Assumptions C129_genlines.

Example C129_genlines_ex :
  genlines [lit "2"; lit "-3"; lit "-2"] = Ok [lit " 0002   "; lit " 0000   "; lit " -002   "; lit " -004   "] /\
  genlines [lit "1_0"; lit " +12 "; lit "1"; lit "1"; lit "9"] = Ok [lit "00010     "; lit "00011     "; lit "00012     "].
Proof. vm_compute. auto. Qed.

Theorem C129_rejected : forall args : list str,
  match genlines args with
  | Ok _ => exists a0 a1 rest, args = a0 :: a1 :: rest /\ zlen a0 <= 6 /\ zlen a1 <= 6 /\ ~ bad_numbers a0 a1 rest
  | Err e => (e = SystemExit /\ (zlen args < 2 \/ exists a0 a1 rest, args = a0 :: a1 :: rest /\ (6 < zlen a0 \/ 6 < zlen a1))) \/
             (e = ValueError /\ exists a0 a1 rest, args = a0 :: a1 :: rest /\ zlen a0 <= 6 /\ zlen a1 <= 6 /\ bad_numbers a0 a1 rest)
  end.
Proof. exact (@C129_rejected_pf). Qed.
Print Assumptions C129_rejected.

Example C129_rejected_ex :
  genlines [lit "1"] = Err SystemExit /\ genlines [lit "0000001"; lit "2"] = Err SystemExit /\ genlines [lit "1"; lit "0000002"] = Err SystemExit /\
  genlines [lit "1"; lit "2"; lit "0"] = Err ValueError /\ genlines [lit "1"; lit "2"; lit "x"] = Err ValueError.
Proof. vm_compute. auto. Qed.

Theorem C91_genpages : forall fuel content sec c8 a b,
  section_is (readlines content) sec c8 -> page_numbers (readlines content) a b -> a <= b ->
  (forall x, In x (readlines content) -> pages_line x -> exists a' b', pages_are x a' b') ->
  exists pages, genpages fuel content = Ok ([10] ++ lit "L      " ++ c8_text c8 ++ sec ++ [10] ++ concat pages) /\
    zlen pages = b - a + 1 /\
    forall k p, nth_error pages k = Some p -> p = page_block (c8_text c8) sec (a + Z.of_nat k) (Z.of_nat k + 1).
Proof. exact (@C91_genpages_pf). Qed.
Print Assumptions C91_genpages.

Example C91_genpages_ex :
  genpages 0 (lit "# Filename: AB_C.argus" ++ [10] ++ lit "# Pages: 17-18" ++ [10] ++ lit "R      *HELLO" ++ [10]) =
  Ok ([10] ++ lit "L      @AB C" ++ [10] ++ page_block (lit "@") (lit "AB C") 17 1 ++ page_block (lit "@") (lit "AB C") 18 2).
Proof. vm_compute. reflexivity. Qed.

Theorem C91_genpages_only : forall fuel content out, genpages fuel content = Ok out ->
  exists sec c8 a b, section_is (readlines content) sec c8 /\ page_numbers (readlines content) a b /\ a <= b /\
    exists pages, out = [10] ++ lit "L      " ++ c8_text c8 ++ sec ++ [10] ++ concat pages /\
      zlen pages = b - a + 1 /\
      forall k p, nth_error pages k = Some p -> p = page_block (c8_text c8) sec (a + Z.of_nat k) (Z.of_nat k + 1).
Proof. exact (@C91_genpages_only_pf). Qed.
Print Assumptions C91_genpages_only.

Example C91_genpages_only_ex :
  genpages 0 (lit "L      *MAIN SECTION" ++ [10] ++ lit "# Pages: 3" ++ [10]) =
    Ok ([10] ++ lit "L      *MAIN SECTION" ++ [10] ++ page_block (lit "*") (lit "MAIN SECTION") 3 1) /\
  genpages 0 (lit "L      *MAIN SECTION" ++ [10]) = Err UnboundLocalError /\
  genpages 0 (lit "# Pages: 3" ++ [10]) = Err SystemExit.
Proof. vm_compute. auto. Qed.

Theorem C91_failures : forall fuel content,
  (forall x, In x (readlines content) -> pages_line x -> exists a b, pages_are x a b) ->
  ((forall x, In x (readlines content) -> ~ l_line x /\ ~ name_line x) -> genpages fuel content = Err SystemExit) /\
  (forall sec c8, section_is (readlines content) sec c8 ->
     ((forall x, In x (readlines content) -> ~ pages_line x) -> genpages fuel content = Err UnboundLocalError) /\
     (forall a b, page_numbers (readlines content) a b -> b < a -> genpages fuel content = Err SystemExit)).
Proof. exact (@C91_failures_pf). Qed.
Print Assumptions C91_failures.

Example C91_failures_ex :
  genpages 0 (lit "R      *HELLO" ++ [10] ++ lit "# Pages: 3" ++ [10]) = Err SystemExit /\
  genpages 0 (lit "L      *MAIN SECTION" ++ [10]) = Err UnboundLocalError /\
  genpages 0 (lit "L      *MAIN SECTION" ++ [10] ++ lit "# Pages: 4-3" ++ [10]) = Err SystemExit.
Proof. vm_compute. auto. Qed.

Theorem C91_malformed : forall fuel content e, genpages fuel content = Err e ->
  e = SystemExit \/ e = UnboundLocalError \/ malformed (readlines content) e.
Proof. exact (@C91_malformed_pf). Qed.
Print Assumptions C91_malformed.

Example C91_malformed_ex :
  genpages 0 (lit "# Pages: " ++ [10]) = Err IndexError /\ genpages 0 (lit "# Filename:  " ++ [10] ++ lit "# Pages: 3" ++ [10]) = Err IndexError /\
  genpages 0 (lit "# Pages: 3-" ++ [10]) = Err ValueError /\ genpages 0 (lit "# Pages: iii" ++ [10]) = Err ValueError.
Proof. vm_compute. auto. Qed.

Theorem C98_reread_refuted : forall fuel content out sec,
  genpages fuel content = Ok out -> section_is (readlines content) sec RNone ->
  ~ section_is (readlines out) sec RNone /\ exists sec', section_is (readlines out) sec' (RStr (lit "N")).
Proof. exact (@C98_reread_refuted_pf). Qed.
Print Assumptions C98_reread_refuted.

Example C98_reread_refuted_ex :
  exists pages, genpages 0 (lit "L       MAIN" ++ [10] ++ lit "# Pages: 3" ++ [10]) =
    Ok ([10] ++ lit "L      NoneMAIN" ++ [10] ++ pages).
Proof. eexists. vm_compute. reflexivity. Qed.

Theorem C98_reread_partial : forall fuel content out pre l post sec c,
  readlines content = pre ++ l :: post -> l_line l -> (forall x, In x pre -> ~ l_line x) ->
  columns l 8 8 = [c] -> ~ white c ->
  trimmed (columns (filter (fun c => negb (c =? 10)) l) 9 81) sec ->
  genpages fuel content = Ok out ->
  section_is (readlines out) sec (RStr [c]) /\ section_is (readlines content) sec (RStr [c]).
Proof. exact (@C98_reread_partial_pf). Qed.
Print Assumptions C98_reread_partial.

Example C98_reread_partial_ex :
  exists pages, genpages 0 (lit "L      * MAIN LOOP " ++ [10] ++ lit "# Pages: 3" ++ [10]) =
    Ok ([10] ++ lit "L      *MAIN LOOP" ++ [10] ++ pages).
Proof. eexists. vm_compute. reflexivity. Qed.
