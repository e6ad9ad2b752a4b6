(** The columns behind the attributes of a card, and what a step in a subscript means. *)
From Verif Require Import Py MBitField MCards SCards MAttr.

(** the columns of the ARGUS form *)
Definition columns_of : list (string * Z * Z) :=
  [("column1", 1, 1); ("lognum", 2, 7); ("column8", 8, 8); ("label", 9, 19); ("location", 9, 19); ("operation", 20, 32);
   ("operand1", 33, 46); ("addressa", 33, 46); ("operand2", 47, 60); ("addressb", 47, 60); ("operand3", 61, 75);
   ("addressc", 61, 75); ("sequence", 76, 80); ("remarks", 81, 120)]%string.
(** the attributes that only lines of code have *)
Definition code_columns : list string :=
  ["label"; "location"; "operation"; "operand1"; "addressa"; "operand2"; "addressb"; "operand3"; "addressc"; "sequence"; "instruction"]%string.
(** the positions selected by start, stop and a positive step, the last one not included *)
Definition selected (start stop step i : Z) : Prop := start <= i < stop /\ exists k, 0 <= k /\ i = start + k * step.
