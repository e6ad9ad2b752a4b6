(** What the manuals in docs say, as far as the programs deal with it: the Honeywell 1800 Programmers' Reference Manual (docs/prm) and the
    ARGUS Manual of Assembly Language (docs/argus). *)
From Verif Require Import Py MInstruction MInstructions SInstruction.

(** *** operation codes: reference manual, section III, "Instruction Words" *)
(** the number of bits that designate the operation, and these bits: bits 10-12 of a simulator instruction, bits 7-12 if bit 7 is one,
    otherwise bits 2, 3 and 7-12 *)
Definition operation_code (v : Z) : Z * Z :=
  if cbits v 10 12 =? 7 then (3, 7)
  else if cbits v 7 7 =? 1 then (6, cbits v 7 12)
  else (8, 64 * cbits v 2 3 + cbits v 7 12).
(** there is one machine instruction for the print function (section III, "Peripheral and Print Instructions") *)
Definition a_print (m : str) : Prop := In m (map lit ["PRA"; "PRD"; "PRO"]%string).
Definition a_peripheral (m : str) : Prop := In m (map lit ["RF"; "RB"; "WF"; "RW"]%string).
(** written with a mask *)
Definition with_mask (k : kwargs) : Prop := exists m, kw_mask k = Some (Some m).
(** two mnemonics, with the arguments they are written with, stand for the same machine instruction; FNN "is identical to the general
    instruction inequality comparison, alphabetic" (ARGUS manual, appendix E) *)
Definition same_machine_instruction (m1 : str) (k1 : kwargs) (m2 : str) (k2 : kwargs) : Prop :=
  (m1 = m2 /\ (with_mask k1 <-> with_mask k2)) \/
  (a_print m1 /\ a_print m2) \/
  (m1 = lit "NA" /\ m2 = lit "FNN" /\ ~ with_mask k1) \/
  (m1 = lit "FNN" /\ m2 = lit "NA" /\ ~ with_mask k2).

(** *** the character set: reference manual, appendix E, table I, column "High Speed Printer" *)
(** octal code and character; a blank where the table says so, CR is the end of a line, and code 36 is a black square *)
Definition TABLE_I : list (Z * Z) :=
  combine (map Z.of_nat (seq 0 64))
    (lit "0123456789'=:  &" ++
     lit "+ABCDEFGHI;.)%" ++ [9608; 32] ++
     lit "-JKLMNOPQR#$*""  " ++
     lit " /STUVWXYZ@,(" ++ [10; 32; 32]).

(** *** masks: ARGUS manual, figure 8, note 2 *)
Definition field_instruction (m : str) : Prop :=
  In m (map lit ["DA"; "DS"; "BA"; "BS"; "WA"; "WD"; "HA"; "SM"; "TX"; "TS"; "NN"; "NA"; "LN"; "LA"; "CP"]%string).
