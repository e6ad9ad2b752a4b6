(** Property theorems; generated from LRate.v by meta/genp.py. *)
From Verif Require Import Py LPy MCards SCards MSymbols SSymbols MInstructions MTools STools LSymBuild LGen LTools MFloat SRate LRate.

Theorem C137_rate : forall n total, 0 <= n <= total -> 0 < total ->
  exists c, shows_hundredths (pct_py n total) c /\ 0 <= c <= 10000 /\
    (total <= 2 ^ 35 -> nearest_rate n total c) /\
    2 ^ 53 * (2 * Z.abs (c * total - 10000 * n)) <= 2 ^ 53 * total + 160000 * n.
Proof. exact (@C137_rate_pf). Qed.
Print Assumptions C137_rate.

Example C137_rate_ex : pct_py 2 3 = lit " 66.67" /\ pct_py 1 800 = lit "  0.12" /\ pct_py 3 800 = lit "  0.38" /\ nearest_rate 2 3 6667.
Proof. vm_compute. repeat split; discriminate. Qed.

Theorem C137_order : forall n n' total c c', 0 <= n <= n' -> n' <= total -> 0 < total ->
  shows_hundredths (pct_py n total) c -> shows_hundredths (pct_py n' total) c' -> c <= c'.
Proof. exact (@C137_order_pf). Qed.
Print Assumptions C137_order.

Example C137_order_ex : shows_hundredths (pct_py 1 7) 1429 /\ shows_hundredths (pct_py 2 7) 2857.
Proof.
  split; [exists 1%nat, [49; 52], 50, 57|exists 1%nat, [50; 56], 53, 55]; (split; [vm_compute; reflexivity|]);
    (split; [vm_compute; reflexivity|]); split; [split; [discriminate|split; [repeat constructor; lia|reflexivity]]|right; eexists; eexists; split; [reflexivity|lia]|
    split; [discriminate|split; [repeat constructor; lia|reflexivity]]|right; eexists; eexists; split; [reflexivity|lia]].
Qed.

Theorem C137_ends : forall total, 0 < total -> pct_py 0 total = lit "  0.00" /\ pct_py total total = lit "100.00".
Proof. exact (@C137_ends_pf). Qed.
Print Assumptions C137_ends.

Example C137_ends_ex : pct_py 0 12345678901234567890 = lit "  0.00" /\ pct_py (10 ^ 40 + 1) (10 ^ 40 + 1) = lit "100.00".
Proof. vm_compute. auto. Qed.

Theorem C137_report : forall fuel fs o args cs total, all_cards fuel fs args cs ->
  o_count o = true -> count_of instr_card cs total -> total <> 0 ->
  exists s out pre names rows post,
    check_instructions pct_py fuel fs o args = Ok (s, out) /\
    out = pre ++ freq_line (lit "Total") total (lit "100.00") :: rows ++ post /\
    NoDup names /\
    (forall m, In m names <-> In m INSTRUCTIONS /\ (o_unused o = true -> ~ frequency cs m 0)) /\
    Forall2 (fun m row => exists n p c, frequency cs m n /\ row = freq_line m n p /\ shows_hundredths p c /\
       (total <= 2 ^ 35 -> nearest_rate n total c)) names rows.
Proof. exact (@C137_report_pf). Qed.
Print Assumptions C137_report.

Example C137_report_ex : exists s out,
  check_instructions pct_py 2
    (fun f => if eqb f (lit "a") then Some (lit "                   TX,A         B" ++ [10] ++ lit "                   BA           B" ++ [10] ++ lit "                   BA           C" ++ [10]) else None)
    (mkciopts false true false false true true) [lit "a"] = Ok (s, out) /\
  firstn 5 out = [10 :: lit "Source lines: 3"; 10 :: lit "Instruction Frequencies:"; lit "Total         3  100.00%";
                  lit "BA            2   66.67%"; lit "TX            1   33.33%"].
Proof. eexists. eexists. split; [vm_compute; reflexivity|]. reflexivity. Qed.
