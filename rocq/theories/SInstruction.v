(** Specification of the command codes: the bit diagrams in the comments at the
    top of instruction.py and instructions.py. *)
From Verif Require Import Py MInstruction MInstructions.

(** The operands an instruction is written with *)
Record operands := mkops { op_s : Z; op_m : Z; op_a : Z; op_b : Z; op_c : Z; op_p : Z }.

(** Value of a 12-column diagram such as "s10abc001001", most significant bit
    first: 0 and 1 are themselves, s a b c the operand bits, m...m and p...p the
    binary digits of mask and peripheral address, x (don't care) is 0. *)
Definition sym (c : string) : Z := match lit c with x :: _ => x | [] => 0 end.
Definition column (o : operands) (c : Z) (rest : str) : Z :=
  if c =? sym "1" then 1
  else if c =? sym "s" then op_s o
  else if c =? sym "a" then op_a o
  else if c =? sym "b" then op_b o
  else if c =? sym "c" then op_c o
  else if c =? sym "m" then (op_m o / 2 ^ count_char c rest) mod 2
  else if c =? sym "p" then (op_p o / 2 ^ count_char c rest) mod 2
  else 0.
Fixpoint diagram (pat : str) (o : operands) : Z :=
  match pat with
  | [] => 0
  | c :: rest => column o c rest * 2 ^ zlen rest + diagram rest o
  end.

(** The table of diagrams: mnemonic, form, columns 1-12 *)
(** instructions.py:16-95 *)
Definition DOCUMENTED : list (string * string * string) := [
  ("BA", "masked", "smmmmm101001");
  ("BA", "unmasked", "s10abc001001");
  ("DA", "masked", "smmmmm100001");
  ("DA", "unmasked", "s10abc000001");
  ("WA", "masked", "smmmmm101101");
  ("WA", "unmasked", "s10abc001101");
  ("BS", "masked", "smmmmm111001");
  ("BS", "unmasked", "s10abc011001");
  ("DS", "masked", "smmmmm110001");
  ("DS", "unmasked", "s10abc010001");
  ("WD", "masked", "smmmmm111101");
  ("WD", "unmasked", "s10abc011101");
  ("NA", "masked", "smmmmm101100");
  ("NA", "unmasked", "s10abc001100");
  ("NN", "masked", "smmmmm101000");
  ("NN", "unmasked", "s10abc001000");
  ("LA", "masked", "smmmmm111100");
  ("LA", "unmasked", "s10abc011100");
  ("LN", "masked", "smmmmm111000");
  ("LN", "unmasked", "s10abc011000");
  ("TX", "masked", "smmmmm110000");
  ("TX", "unmasked", "s10abc010000");
  ("TS", "masked", "smmmmm100100");
  ("TS", "unmasked", "s10abc000100");
  ("HA", "masked", "smmmmm110101");
  ("HA", "unmasked", "s10abc010101");
  ("SM", "masked", "smmmmm100101");
  ("SM", "unmasked", "s10abc000101");
  ("CP", "masked", "smmmmm110100");
  ("CP", "unmasked", "s10abc010100");
  ("BM", "", "s00abc001011");
  ("DM", "", "s00abc000011");
  ("BT", "", "s10abc001011");
  ("DT", "", "s10abc000011");
  ("MT", "", "s00abc010000");
  ("TN", "", "s01abc010000");
  ("CC", "", "s01abc001000");
  ("IT", "", "s01abc011000");
  ("EBA", "", "s11abc001011");
  ("EBS", "", "s11abc011011");
  ("RT", "", "s11abc011000");
  ("MPC", "", "s10abc000000");
  ("PR", "", "x000xx000000");
  ("SWS", "", "s10abc000110");
  ("SPS", "", "s10abc000010");
  ("SWE", "", "s10abc001110");
  ("SPE", "", "s10abc001010");
  ("SSL", "", "s10abc010110");
  ("SS", "", "s00abc000110");
  ("EX", "", "s00abc001110");
  ("RF", "", "pppppp111010");
  ("RB", "", "pppppp101010");
  ("WF", "", "pppppp101110");
  ("RW", "", "pppppp100010");
  ("PRA", "", "sxxabc100110");
  ("PRD", "", "sxxabc100110");
  ("PRO", "", "sxxabc100110");
  ("S", "direct", "0xxxxxxxx111");
  ("S", "indexed", "1xxxxxxxx111");
  ("FBA", "", "s01abc000001");
  ("FDA", "", "s01abc010001");
  ("FBS", "", "s01abc001001");
  ("FDS", "", "s01abc011001");
  ("FBD", "", "s01abc000101");
  ("FDD", "", "s01abc010101");
  ("FBAU", "", "s11abc000001");
  ("FDAU", "", "s11abc010001");
  ("FBSU", "", "s11abc001001");
  ("FDSU", "", "s11abc011001");
  ("FBM", "", "s11abc000101");
  ("FDM", "", "s11abc010101");
  ("ULD", "", "s11abc001101");
  ("FBAE", "", "s00abc000001");
  ("FBSE", "", "s00abc001001");
  ("BD", "", "s00abc000101");
  ("DD", "", "s00abc010101");
  ("FFN", "", "s00abc001101");
  ("FCON", "", "s00abc011101");
  ("FLN", "", "s00abc011000");
  ("FNN", "", "s10abc001100")
]%string.
Definition documented (m form : string) : option str :=
  match find (fun r => String.eqb (fst (fst r)) m && String.eqb (snd (fst r)) form) DOCUMENTED with
  | Some r => Some (lit (snd r))
  | None => None
  end.

(** The instruction classes and their mnemonics *)
Definition maskable_classes : list (string * string) := [
  ("BinaryAdd", "BA"); ("DecimalAdd", "DA");
  ("WordAdd", "WA"); ("BinarySubtract", "BS");
  ("DecimalSubtract", "DS"); ("WordDifference", "WD");
  ("NotEqualAlphabetic", "NA"); ("NotEqualNumeric", "NN");
  ("LessThanOrEqualAlphabetic", "LA"); ("LessThanOrEqualNumeric", "LN");
  ("Transfer", "TX"); ("TransferChangeSequence", "TS");
  ("HalfAdd", "HA"); ("Superimpose", "SM");
  ("CheckParity", "CP")]%string.
Definition unmasked_classes : list (string * string) := [
  ("BinaryMultiply", "BM"); ("DecimalMultiply", "DM");
  ("BinaryAccumulate", "BT"); ("DecimalAccumulate", "DT");
  ("MultipleTransfer", "MT"); ("TransferNWords", "TN");
  ("ComputeOrthocount", "CC"); ("ItemTransfer", "IT");
  ("ExtendedBinaryAdd", "EBA"); ("ExtendedBinarySubtract", "EBS");
  ("RecordTransfer", "RT"); ("ControlProgram", "MPC");
  ("ShiftWordAndSubstitute", "SWS"); ("ShiftPreservingSignAndSubstitute", "SPS");
  ("ShiftWordAndExtract", "SWE"); ("ShiftPreservingSignAndExtract", "SPE");
  ("ShiftAndSelect", "SSL"); ("Substitute", "SS");
  ("Extract", "EX"); ("FloatingBinaryAdd", "FBA");
  ("FloatingDecimalAdd", "FDA"); ("FloatingBinarySubtract", "FBS");
  ("FloatingDecimalSubtract", "FDS"); ("FloatingBinaryDivide", "FBD");
  ("FloatingDecimalDivide", "FDD"); ("FloatingBinaryAddUnnormalized", "FBAU");
  ("FloatingDecimalAddUnnormalized", "FDAU"); ("FloatingBinarySubtractUnnormalized", "FBSU");
  ("FloatingDecimalSubtractUnnormalized", "FDSU"); ("FloatingBinaryMultiply", "FBM");
  ("FloatingDecimalMultiply", "FDM"); ("MultipleUnload", "ULD");
  ("FloatingBinaryAddExtendedPrecision", "FBAE"); ("FloatingBinarySubtractExtendedPrecision", "FBSE");
  ("FixedBinaryDivide", "BD"); ("FixedDecimalDivide", "DD");
  ("FixedToFloatingNormalize", "FFN"); ("Conversion", "FCON");
  ("FloatingLessThanNormalized", "FLN"); ("FloatingNotEqualNormalized", "FNN")]%string.
Definition print_classes : list (string * string) := [
  ("PrintAlphabetic", "PRA"); ("PrintDecimal", "PRD");
  ("PrintOctal", "PRO")]%string.
Definition peripheral_classes : list (string * string) := [
  ("ReadForward", "RF"); ("ReadBackward", "RB");
  ("WriteForward", "WF"); ("Rewind", "RW")]%string.

Definition is_bit (x : Z) : Prop := x = 0 \/ x = 1.

(** *** The general constructor *)
Definition within (o : option Z) (hi : Z) : Prop :=
  match o with Some x => 0 <= x <= hi | None => True end.
Definition absent (o : option Z) : Prop := o = None.
Definition type_is (o : opcode) (t : string) : Prop := o_type o = lit t.

(** arguments the constructor has to accept *)
Record acceptable (o : opcode) (x : iargs) : Prop := {
  acc_bits : within (sequence x) 1 /\ within (arg_a x) 1 /\ within (arg_b x) 1 /\ within (arg_c x) 1;
  acc_mask : within (mask x) 31 /\
    (mask x = None \/
     type_is o "maskable" /\ absent (arg_a x) /\ absent (arg_b x) /\ absent (arg_c x) /\ absent (paddr x));
  acc_paddr : within (paddr x) 63 /\
    (paddr x = None \/
     absent (sequence x) /\ absent (mask x) /\ absent (arg_a x) /\ absent (arg_b x) /\ absent (arg_c x));
  acc_opcode : within (o_b7 o) 1 /\ within (o_b23 o) 3 /\ within (o_op o) 31
}.

Definition zero_or (o : option Z) : Z := match o with Some x => x | None => 0 end.
(** which instructions carry bit 7 *)
Definition carries_bit7 (o : opcode) (x : iargs) : bool :=
  eqb (o_type o) (lit "peripheral") || eqb (o_type o) (lit "print")
  || eqb (o_type o) (lit "maskable") && match mask x with Some _ => true | None => false end.
(** the command code *)
Definition code (o : opcode) (x : iargs) : Z :=
  match paddr x with
  | Some p => 64 * p
  | None =>
      2048 * zero_or (sequence x) +
      match mask x with
      | Some m => 64 * m
      | None => 512 * zero_or (o_b23 o) + 256 * zero_or (arg_a x) + 128 * zero_or (arg_b x)
                + 64 * zero_or (arg_c x)
      end
  end
  + (if carries_bit7 o x then 32 * zero_or (o_b7 o) else 0) + zero_or (o_op o).

(** *** The calls users make *)
Definition arg (x : Z) : option (option Z) := Some (Some x).
Definition call_masked (c : string) (s m : Z) : res instr :=
  class_call (lit c) (mkkw (arg s) (arg m) None None None None).
Definition call_unmasked (c : string) (s a b d : Z) : res instr :=
  class_call (lit c) (mkkw (arg s) None (arg a) (arg b) (arg d) None).
Definition call_peripheral (c : string) (p : Z) : res instr :=
  class_call (lit c) (mkkw None None None None None (arg p)).
Definition call_simulator (s : Z) : res instr :=
  class_call (lit "Simulator") (mkkw (arg s) None None None None None).
Definition call_proceed : res instr :=
  class_call (lit "Proceed") (mkkw None None None None None None).

(** bits first..last of a command code, numbered 1 (most significant) to 12 *)
Definition cbits (v first last : Z) : Z := (v / 2 ^ (12 - last)) mod 2 ^ (last - first + 1).

(** the opcode number of a mnemonic *)
Definition opnum (m : string) (op : Z) : Prop :=
  exists o, dget OPCODES (lit m) = Some o /\ o_op o = Some op.
Definition bits23 (m : string) (b : Z) : Prop :=
  exists o, dget OPCODES (lit m) = Some o /\ o_b23 o = Some b.

(** *** The classes of instruction.py for the forms of instructions *)
Definition fits (o : opcode) : Prop := within (o_b7 o) 1 /\ within (o_b23 o) 3 /\ within (o_op o) 31.
(** bit 7 of an instruction without a mask *)
Definition selects (o : opcode) : Z :=
  if eqb (o_type o) (lit "peripheral") || eqb (o_type o) (lit "print") then 32 * zero_or (o_b7 o) else 0.
(** a call succeeds with this command code when [ok], and fails otherwise *)
Definition makes (r : res instr) (ok : Prop) (v : Z) : Prop :=
  (ok -> exists i, r = Ok i /\ instr_value i = v) /\ (~ ok -> r = Err ValueError).
(** the classes of the pseudo-instructions that stand for a word (instructions.py:954-1066) and of those that direct the assembler (instructions.py:902-950) *)
Definition constant_classes : list string :=
  ["AlphanumericConstant"; "CompleteAddressConstant"; "DecimalConstant"; "ExtendedBinaryConstant"; "FixedBinaryConstant"; "FloatingBinaryConstant";
   "FloatingDecimalConstant"; "LinkageConstant"; "MaskBaseAddressConstant"; "MixedConstant"; "OctalConstant"; "ProgramControlConstant"; "SegmentNameConstant";
   "SpecialAddressConstant"; "SubroutineCallConstant"; "TapeAddressConstant"]%string.
Definition control_classes : list string :=
  ["AssignTag"; "End"; "Equals"; "Even"; "MaskGroup"; "Reserve"; "SetLocationCounter"; "SetLocationCounterModuloN"; "Simulate"; "TemporarilyAssignTag"]%string.
