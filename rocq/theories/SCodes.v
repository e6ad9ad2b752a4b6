(** The command codes of the machine: Programmers' Reference Manual, appendix E, table II (docs/prm/images/table_II.png). *)
From Verif Require Import Py MInstruction MInstructions SInstruction.

(** groups of the table: columns 1-7, for each way of writing the instructions, and for each instruction its mnemonic and columns 8-12.
    S, A, B, C, M and P are operands, X is irrelevant (the address in simulator instructions). *)
Definition TABLE_II : list (list string * list (string * string)) := [
  (["SMMMMM1"; "S10ABC0"],
   [("BA", "01001"); ("DA", "00001"); ("WA", "01101"); ("BS", "11001"); ("DS", "10001"); ("WD", "11101"); ("NA", "01100"); ("NN", "01000");
    ("LA", "11100"); ("LN", "11000"); ("TX", "10000"); ("TS", "00100"); ("HA", "10101"); ("SM", "00101"); ("CP", "10100")]);
  (["S00ABC0"], [("BM", "01011"); ("DM", "00011")]);
  (["S10ABC0"], [("BT", "01011"); ("DT", "00011")]);
  (["S00ABC0"], [("MT", "10000")]);
  (["S01ABC0"], [("TN", "10000"); ("CC", "01000"); ("IT", "11000")]);
  (["S11ABC0"], [("EBA", "01011"); ("EBS", "11011"); ("RT", "11000")]);
  (["S10ABC0"], [("MPC", "00000")]);
  (["X000XX0"], [("PR", "00000")]);
  (["S10ABC0"], [("SWS", "00110"); ("SPS", "00010"); ("SWE", "01110"); ("SPE", "01010"); ("SSL", "10110")]);
  (["S00ABC0"], [("SS", "00110"); ("EX", "01110")]);
  (["PPPPPP1"], [("RF", "11010"); ("RB", "01010"); ("WF", "01110"); ("RW", "00010")]);
  (["SXXABC1"], [("PRA", "00110"); ("PRD", "00110"); ("PRO", "00110")]);
  (["0XXXXXX"; "1XXXXXX"], [("S", "XX111")]);
  (["S01ABC0"], [("FBA", "00001"); ("FDA", "10001"); ("FBS", "01001"); ("FDS", "11001"); ("FBD", "00101"); ("FDD", "10101")]);
  (["S11ABC0"],
   [("FBAU", "00001"); ("FDAU", "10001"); ("FBSU", "01001"); ("FDSU", "11001"); ("FBM", "00101"); ("FDM", "10101"); ("ULD", "01101")]);
  (["S00ABC0"],
   [("FBAE", "00001"); ("FBSE", "01001"); ("BD", "00101"); ("DD", "10101"); ("FFN", "01101"); ("FCON", "11101"); ("FLN", "11000")]);
  (["S10ABC0"], [("FNN", "01100")])
]%string.
(** the mnemonics with the twelve columns of each way of writing them *)
Definition machine_rows : list (str * str) :=
  flat_map (fun g => flat_map (fun p => map (fun e => (lit (fst e), lit p ++ lit (snd e))) (snd g)) (fst g)) TABLE_II.

(** the 12 bits of [v] have the zeros and ones of the columns *)
Definition shows (pat : str) (v : Z) : Prop :=
  0 <= v < 4096 /\ forall j c, nth_error pat j = Some c ->
    (c = 48 -> cbits v (Z.of_nat j + 1) (Z.of_nat j + 1) = 0) /\ (c = 49 -> cbits v (Z.of_nat j + 1) (Z.of_nat j + 1) = 1).
(** and zeros where the table has an X *)
Definition shows_plainly (pat : str) (v : Z) : Prop :=
  shows pat v /\ forall j, nth_error pat j = Some 88 -> cbits v (Z.of_nat j + 1) (Z.of_nat j + 1) = 0.
(** written with a mask *)
Definition mask_row (pat : str) : Prop := In 77 pat.
