(** The S/C column of the coding form (docs/argus, section V): the last column of the command code field, column 32 of a source line. *)
From Verif Require Import Py MCards SCards SSource.

(** it names the counter of the next instruction: S, C or nothing *)
Definition counter_mark (c : Z) : Prop := In c (lit "SC ").
(** the command code group, columns 20 to 31, is [m] at the left *)
Definition command_group (line m : str) : Prop := exists n, columns line 20 31 = m ++ repeat 32 n /\ zlen (columns line 20 31) = 12.
(** an S or a C in the S/C column *)
Definition counter_named (line : str) : Prop := nth_error line 31 = Some 83 \/ nth_error line 31 = Some 67.
(** the same line but for the S/C column *)
Definition same_but_counter (x y : srcline) : Prop :=
  fst x = fst y /\ exists a c d b, zlen a = 31 /\ counter_mark c /\ counter_mark d /\ text_of x = a ++ c :: b /\ text_of y = a ++ d :: b.
(** a comma ends the mnemonic before that column *)
Definition comma_before (line : str) : Prop := In 44 (columns line 20 31).
Definition same_instruction (x y : srcline) : Prop := x = y \/ (same_but_counter x y /\ comma_before (text_of x)).
