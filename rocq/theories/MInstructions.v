(** Model of /repo/h800/instructions.py. *)
From Verif Require Import Py MBitField MWord MInstruction.

(** instructions.py:134-339 OPCODES *)
Definition OPCODES : dict str opcode := [
  (lit "BA", mkopcode (lit "BA") (lit "BinaryAdd") (Some 2) (Some 1) (Some 9) (lit "maskable"));
  (lit "DA", mkopcode (lit "DA") (lit "DecimalAdd") (Some 2) (Some 1) (Some 1) (lit "maskable"));
  (lit "WA", mkopcode (lit "WA") (lit "WordAdd") (Some 2) (Some 1) (Some 13) (lit "maskable"));
  (lit "BS", mkopcode (lit "BS") (lit "BinarySubtract") (Some 2) (Some 1) (Some 25) (lit "maskable"));
  (lit "DS", mkopcode (lit "DS") (lit "DecimalSubtract") (Some 2) (Some 1) (Some 17) (lit "maskable"));
  (lit "WD", mkopcode (lit "WD") (lit "WordDifference") (Some 2) (Some 1) (Some 29) (lit "maskable"));
  (lit "NA", mkopcode (lit "NA") (lit "NotEqualAlphabetic") (Some 2) (Some 1) (Some 12) (lit "maskable"));
  (lit "NN", mkopcode (lit "NN") (lit "NotEqualNumeric") (Some 2) (Some 1) (Some 8) (lit "maskable"));
  (lit "LA", mkopcode (lit "LA") (lit "LessThanOrEqualAlphabetic") (Some 2) (Some 1) (Some 28) (lit "maskable"));
  (lit "LN", mkopcode (lit "LN") (lit "LessThanOrEqualNumeric") (Some 2) (Some 1) (Some 24) (lit "maskable"));
  (lit "TX", mkopcode (lit "TX") (lit "Transfer") (Some 2) (Some 1) (Some 16) (lit "maskable"));
  (lit "TS", mkopcode (lit "TS") (lit "TransferAndChangeSequence") (Some 2) (Some 1) (Some 4) (lit "maskable"));
  (lit "HA", mkopcode (lit "HA") (lit "HalfAdd") (Some 2) (Some 1) (Some 21) (lit "maskable"));
  (lit "SM", mkopcode (lit "SM") (lit "Superimpose") (Some 2) (Some 1) (Some 5) (lit "maskable"));
  (lit "CP", mkopcode (lit "CP") (lit "CheckParity") (Some 2) (Some 1) (Some 20) (lit "maskable"));
  (lit "BM", mkopcode (lit "BM") (lit "BinaryMultiply") (Some 0) (Some 0) (Some 11) (lit "unmasked"));
  (lit "DM", mkopcode (lit "DM") (lit "DecimalMultiply") (Some 0) (Some 0) (Some 3) (lit "unmasked"));
  (lit "BT", mkopcode (lit "BT") (lit "BinaryAccumulate") (Some 2) (Some 0) (Some 11) (lit "unmasked"));
  (lit "DT", mkopcode (lit "DT") (lit "DecimalAccumulate") (Some 2) (Some 0) (Some 3) (lit "unmasked"));
  (lit "MT", mkopcode (lit "MT") (lit "MultipleTransfer") (Some 0) (Some 0) (Some 16) (lit "unmasked"));
  (lit "TN", mkopcode (lit "TN") (lit "TransferNWords") (Some 1) (Some 0) (Some 16) (lit "unmasked"));
  (lit "CC", mkopcode (lit "CC") (lit "ComputeOrthocount") (Some 1) (Some 0) (Some 8) (lit "unmasked"));
  (lit "IT", mkopcode (lit "IT") (lit "ItemTransfer") (Some 1) (Some 0) (Some 24) (lit "unmasked"));
  (lit "EBA", mkopcode (lit "EBA") (lit "ExtendedBinaryAdd") (Some 3) (Some 0) (Some 11) (lit "unmasked"));
  (lit "EBS", mkopcode (lit "EBS") (lit "ExtendedBinarySubtract") (Some 3) (Some 0) (Some 27) (lit "unmasked"));
  (lit "RT", mkopcode (lit "RT") (lit "RecordTransfer") (Some 3) (Some 0) (Some 24) (lit "unmasked"));
  (lit "MPC", mkopcode (lit "MPC") (lit "ControlProgram") (Some 2) (Some 0) (Some 0) (lit "unmasked"));
  (lit "PR", mkopcode (lit "PR") (lit "Proceed") (Some 0) (Some 0) (Some 0) (lit "unmasked"));
  (lit "SWS", mkopcode (lit "SWS") (lit "ShiftWordAndSubstitute") (Some 2) (Some 0) (Some 6) (lit "unmasked"));
  (lit "SPS", mkopcode (lit "SPS") (lit "ShiftPreservingSignAndSubstitute") (Some 2) (Some 0) (Some 2) (lit "unmasked"));
  (lit "SWE", mkopcode (lit "SWE") (lit "ShiftWordAndExtract") (Some 2) (Some 0) (Some 14) (lit "unmasked"));
  (lit "SPE", mkopcode (lit "SPE") (lit "ShiftPreservingSignAndExtract") (Some 2) (Some 0) (Some 10) (lit "unmasked"));
  (lit "SSL", mkopcode (lit "SSL") (lit "ShiftAndSelect") (Some 2) (Some 0) (Some 22) (lit "unmasked"));
  (lit "SS", mkopcode (lit "SS") (lit "Substitute") (Some 0) (Some 0) (Some 6) (lit "unmasked"));
  (lit "EX", mkopcode (lit "EX") (lit "Extract") (Some 0) (Some 0) (Some 14) (lit "unmasked"));
  (lit "RF", mkopcode (lit "RF") (lit "ReadForward") None (Some 1) (Some 26) (lit "peripheral"));
  (lit "RB", mkopcode (lit "RB") (lit "ReadBackward") None (Some 1) (Some 10) (lit "peripheral"));
  (lit "WF", mkopcode (lit "WF") (lit "WriteForward") None (Some 1) (Some 14) (lit "peripheral"));
  (lit "RW", mkopcode (lit "RW") (lit "Rewind") None (Some 1) (Some 2) (lit "peripheral"));
  (lit "PRA", mkopcode (lit "PRA") (lit "PrintAlphabetic") None (Some 1) (Some 6) (lit "print"));
  (lit "PRD", mkopcode (lit "PRD") (lit "PrintDecimal") None (Some 1) (Some 6) (lit "print"));
  (lit "PRO", mkopcode (lit "PRO") (lit "PrintOctal") None (Some 1) (Some 6) (lit "print"));
  (lit "S", mkopcode (lit "S") (lit "Simulator") None None (Some 7) (lit "simulator"));
  (lit "FBA", mkopcode (lit "FBA") (lit "FloatingBinaryAdd") (Some 1) (Some 0) (Some 1) (lit "unmasked"));
  (lit "FDA", mkopcode (lit "FDA") (lit "FloatingDecimalAdd") (Some 1) (Some 0) (Some 17) (lit "unmasked"));
  (lit "FBS", mkopcode (lit "FBS") (lit "FloatingBinarySubtract") (Some 1) (Some 0) (Some 9) (lit "unmasked"));
  (lit "FDS", mkopcode (lit "FDS") (lit "FloatingDecimalSubtract") (Some 1) (Some 0) (Some 25) (lit "unmasked"));
  (lit "FBD", mkopcode (lit "FBD") (lit "FloatingBinaryDivide") (Some 1) (Some 0) (Some 5) (lit "unmasked"));
  (lit "FDD", mkopcode (lit "FDD") (lit "FloatingDecimalDivide") (Some 1) (Some 0) (Some 21) (lit "unmasked"));
  (lit "FBAU", mkopcode (lit "FBAU") (lit "FloatingBinaryAddUnnormalized") (Some 3) (Some 0) (Some 1) (lit "unmasked"));
  (lit "FDAU", mkopcode (lit "FDAU") (lit "FloatingDecimalAddUnnormalized") (Some 3) (Some 0) (Some 17) (lit "unmasked"));
  (lit "FBSU", mkopcode (lit "FBSU") (lit "FloatingBinarySubtractUnnormalized") (Some 3) (Some 0) (Some 9) (lit "unmasked"));
  (lit "FDSU", mkopcode (lit "FDSU") (lit "FloatingDecimalSubtractUnnormalized") (Some 3) (Some 0) (Some 25) (lit "unmasked"));
  (lit "FBM", mkopcode (lit "FBM") (lit "FloatingBinaryMultiply") (Some 3) (Some 0) (Some 5) (lit "unmasked"));
  (lit "FDM", mkopcode (lit "FDM") (lit "FloatingDecimalMultiply") (Some 3) (Some 0) (Some 21) (lit "unmasked"));
  (lit "ULD", mkopcode (lit "ULD") (lit "MultipleUnload") (Some 3) (Some 0) (Some 13) (lit "unmasked"));
  (lit "FBAE", mkopcode (lit "FBAE") (lit "FloatingBinaryAddExtendedPrecision") (Some 0) (Some 0) (Some 1) (lit "unmasked"));
  (lit "FBSE", mkopcode (lit "FBSE") (lit "FloatingBinarySubtractExtendedPrecision") (Some 0) (Some 0) (Some 9) (lit "unmasked"));
  (lit "BD", mkopcode (lit "BD") (lit "FixedBinaryDivide") (Some 0) (Some 0) (Some 5) (lit "unmasked"));
  (lit "DD", mkopcode (lit "DD") (lit "FixedDecimalDivide") (Some 0) (Some 0) (Some 21) (lit "unmasked"));
  (lit "FFN", mkopcode (lit "FFN") (lit "FixedToFloatingNormalize") (Some 0) (Some 0) (Some 13) (lit "unmasked"));
  (lit "FCON", mkopcode (lit "FCON") (lit "Conversion") (Some 0) (Some 0) (Some 29) (lit "unmasked"));
  (lit "FLN", mkopcode (lit "FLN") (lit "FloatingLessThanNormalized") (Some 0) (Some 0) (Some 24) (lit "unmasked"));
  (lit "FNN", mkopcode (lit "FNN") (lit "FloatingNotEqualNormalized") (Some 2) (Some 0) (Some 12) (lit "unmasked"))
].
(** instructions.py:343-354 *)
Definition CONTROL_INSTRUCTIONS : list str := map lit
  ["ASSIGN"; "END"; "EQUALS"; "EVEN"; "MASKGRP"; "MODLOC"; "RESERVE"; "SETLOC"; "SIMULATE"; "TAS"]%string.

(** instructions.py:356-364 *)
Definition DATA_CONSTANTS : list str := map lit
  ["ALF"; "DEC"; "EBC"; "FLBIN"; "FLDEC"; "FXBIN"; "OCT"]%string.

(** instructions.py:366-376 *)
Definition CONTROL_CONSTANTS : list str := map lit
  ["SPEC"; "CAC"; "MASKBASE"; "CONTROL"; "M"; "TAC"; "LINK"; "SEGNAME"; "SUBCALL"]%string.

(** instructions.py:378-385 *)
Definition EXTENDED_INSTRUCTIONS : list str := map lit
  ["CSCON"; "DOFF"; "DON"; "SCON"; "SPCR"; "STOP"]%string.

(** instructions.py:387-390 *)
Definition MISC_INSTRUCTIONS : list str := map lit
  ["COREDUMP"; "DUMP"]%string.

(** instructions.py:393-406 *)
Definition ARGUS_INSTRUCTIONS : list str := map lit
  ["ARGUS"; "U"; "MACRODEF"; "FINIS"; "ELIMSEG"; "SEGMENT"; "PROGRAM"; "TESTDATA"; "ELIMDATA"; "ELIMDERL"; "DELETE"; "ENDARGUS"]%string.

(** instructions.py:408-414 *)
Definition INSTRUCTIONS : list str :=
  dkeys OPCODES ++ CONTROL_INSTRUCTIONS ++ DATA_CONSTANTS ++ CONTROL_CONSTANTS
  ++ EXTENDED_INSTRUCTIONS ++ MISC_INSTRUCTIONS ++ ARGUS_INSTRUCTIONS.

(** a number field used in arithmetic: None is a TypeError *)
Definition need (o : option Z) : res Z := match o with Some x => Ok x | None => Err TypeError end.

(** instructions.py:417-419 *)
Definition make_masked_opcode (m : str) (s k : Z) : res Z :=
  do o <- dindex OPCODES m;
  do b7 <- need (o_b7 o); do op <- need (o_op o);
  Ok (2048 * s + 64 * k + 32 * b7 + op).
(** instructions.py:422-425 *)
Definition make_unmasked_opcode (m : str) (s a b c : Z) : res Z :=
  do o <- dindex OPCODES m;
  do b23 <- need (o_b23 o); do op <- need (o_op o);
  Ok (2048 * s + 512 * b23 + 256 * a + 128 * b + 64 * c + op).
(** instructions.py:428-430 *)
Definition make_peripheral_opcode (m : str) (p : Z) : res Z :=
  do o <- dindex OPCODES m;
  do b7 <- need (o_b7 o); do op <- need (o_op o);
  Ok (64 * p + 32 * b7 + op).
(** instructions.py:433-436 *)
Definition make_print_opcode (m : str) (s a b c : Z) : res Z :=
  do o <- dindex OPCODES m;
  do b7 <- need (o_b7 o); do op <- need (o_op o);
  Ok (2048 * s + 256 * a + 128 * b + 64 * c + 32 * b7 + op).

(** The constructor signatures of instructions.py:447-897, and the opcode each
    class passes to its base class:
    SigMaskableOpt (sequence=None, mask=None, a=None, b=None, c=None)
    SigMaskable    (sequence, mask=None, a=None, b=None, c=None)
    SigUnmasked    (sequence, a, b, c)      SigPeripheral (paddr)
    SigSimulator   (sequence)               SigProceed    () *)
Inductive signature :=
| SigMaskableOpt | SigMaskable | SigUnmasked | SigPeripheral | SigSimulator | SigProceed.
(** instructions.py:447-897 *)
Definition CLASSES : dict str (signature * str) := [
  (lit "BinaryAdd", (SigMaskableOpt, lit "BA"));
  (lit "DecimalAdd", (SigMaskable, lit "DA"));
  (lit "WordAdd", (SigMaskable, lit "WA"));
  (lit "BinarySubtract", (SigMaskable, lit "BS"));
  (lit "DecimalSubtract", (SigMaskable, lit "DS"));
  (lit "WordDifference", (SigMaskable, lit "WD"));
  (lit "NotEqualAlphabetic", (SigMaskable, lit "NA"));
  (lit "NotEqualNumeric", (SigMaskable, lit "NN"));
  (lit "LessThanOrEqualAlphabetic", (SigMaskable, lit "LA"));
  (lit "LessThanOrEqualNumeric", (SigMaskable, lit "LN"));
  (lit "Transfer", (SigMaskable, lit "TX"));
  (lit "TransferChangeSequence", (SigMaskable, lit "TS"));
  (lit "HalfAdd", (SigMaskable, lit "HA"));
  (lit "Superimpose", (SigMaskable, lit "SM"));
  (lit "CheckParity", (SigMaskable, lit "CP"));
  (lit "BinaryMultiply", (SigUnmasked, lit "BM"));
  (lit "DecimalMultiply", (SigUnmasked, lit "DM"));
  (lit "BinaryAccumulate", (SigUnmasked, lit "BT"));
  (lit "DecimalAccumulate", (SigUnmasked, lit "DT"));
  (lit "MultipleTransfer", (SigUnmasked, lit "MT"));
  (lit "TransferNWords", (SigUnmasked, lit "TN"));
  (lit "ComputeOrthocount", (SigUnmasked, lit "CC"));
  (lit "ItemTransfer", (SigUnmasked, lit "IT"));
  (lit "ExtendedBinaryAdd", (SigUnmasked, lit "EBA"));
  (lit "ExtendedBinarySubtract", (SigUnmasked, lit "EBS"));
  (lit "RecordTransfer", (SigUnmasked, lit "RT"));
  (lit "ControlProgram", (SigUnmasked, lit "MPC"));
  (lit "Proceed", (SigProceed, lit "PR"));
  (lit "ShiftWordAndSubstitute", (SigUnmasked, lit "SWS"));
  (lit "ShiftPreservingSignAndSubstitute", (SigUnmasked, lit "SPS"));
  (lit "ShiftWordAndExtract", (SigUnmasked, lit "SWE"));
  (lit "ShiftPreservingSignAndExtract", (SigUnmasked, lit "SPE"));
  (lit "ShiftAndSelect", (SigUnmasked, lit "SSL"));
  (lit "Substitute", (SigUnmasked, lit "SS"));
  (lit "Extract", (SigUnmasked, lit "EX"));
  (lit "ReadForward", (SigPeripheral, lit "RF"));
  (lit "ReadBackward", (SigPeripheral, lit "RB"));
  (lit "WriteForward", (SigPeripheral, lit "WF"));
  (lit "Rewind", (SigPeripheral, lit "RW"));
  (lit "PrintAlphabetic", (SigUnmasked, lit "PRA"));
  (lit "PrintDecimal", (SigUnmasked, lit "PRD"));
  (lit "PrintOctal", (SigUnmasked, lit "PRO"));
  (lit "Simulator", (SigSimulator, lit "S"));
  (lit "FloatingBinaryAdd", (SigUnmasked, lit "FBA"));
  (lit "FloatingDecimalAdd", (SigUnmasked, lit "FDA"));
  (lit "FloatingBinarySubtract", (SigUnmasked, lit "FBS"));
  (lit "FloatingDecimalSubtract", (SigUnmasked, lit "FDS"));
  (lit "FloatingBinaryDivide", (SigUnmasked, lit "FBD"));
  (lit "FloatingDecimalDivide", (SigUnmasked, lit "FDD"));
  (lit "FloatingBinaryAddUnnormalized", (SigUnmasked, lit "FBAU"));
  (lit "FloatingDecimalAddUnnormalized", (SigUnmasked, lit "FDAU"));
  (lit "FloatingBinarySubtractUnnormalized", (SigUnmasked, lit "FBSU"));
  (lit "FloatingDecimalSubtractUnnormalized", (SigUnmasked, lit "FDSU"));
  (lit "FloatingBinaryMultiply", (SigUnmasked, lit "FBM"));
  (lit "FloatingDecimalMultiply", (SigUnmasked, lit "FDM"));
  (lit "MultipleUnload", (SigUnmasked, lit "ULD"));
  (lit "FloatingBinaryAddExtendedPrecision", (SigUnmasked, lit "FBAE"));
  (lit "FloatingBinarySubtractExtendedPrecision", (SigUnmasked, lit "FBSE"));
  (lit "FixedBinaryDivide", (SigUnmasked, lit "BD"));
  (lit "FixedDecimalDivide", (SigUnmasked, lit "DD"));
  (lit "FixedToFloatingNormalize", (SigUnmasked, lit "FFN"));
  (lit "Conversion", (SigUnmasked, lit "FCON"));
  (lit "FloatingLessThanNormalized", (SigUnmasked, lit "FLN"));
  (lit "FloatingNotEqualNormalized", (SigUnmasked, lit "FNN"))
].

(** A call: keyword arguments by name, each given or not.  [Some None] is an
    argument given as None. *)
Record kwargs := mkkw {
  kw_sequence : option (option Z); kw_mask : option (option Z); kw_a : option (option Z);
  kw_b : option (option Z); kw_c : option (option Z); kw_paddr : option (option Z)
}.
(** a parameter with default None / without default / not a parameter *)
Definition default_none (k : option (option Z)) : res (option Z) :=
  Ok (match k with Some v => v | None => None end).
Definition required (k : option (option Z)) : res (option Z) :=
  match k with Some v => Ok v | None => Err TypeError end.
Definition no_param (k : option (option Z)) : res unit :=
  match k with Some _ => Err TypeError | None => Ok tt end.

(** instructions.py:447-897 calling a class *)
Definition class_call (c : str) (k : kwargs) : res instr :=
  match dget CLASSES c with
  | None => Err NameError
  | Some (sig, m) =>
      do o <- dindex OPCODES m;
      match sig with
      | SigMaskableOpt | SigMaskable =>
          do _ <- no_param (kw_paddr k);
          do s <- (match sig with SigMaskable => required | _ => default_none end) (kw_sequence k);
          do mk <- default_none (kw_mask k);
          do a <- default_none (kw_a k); do b <- default_none (kw_b k); do c <- default_none (kw_c k);
          instr_new o (mkiargs s mk a b c None)
      | SigUnmasked =>
          do _ <- no_param (kw_paddr k); do _ <- no_param (kw_mask k);
          do s <- required (kw_sequence k);
          do a <- required (kw_a k); do b <- required (kw_b k); do c <- required (kw_c k);
          general_unmasked o s a b c
      | SigPeripheral =>
          do _ <- no_param (kw_sequence k); do _ <- no_param (kw_mask k);
          do _ <- no_param (kw_a k); do _ <- no_param (kw_b k); do _ <- no_param (kw_c k);
          do p <- required (kw_paddr k);
          peripheral o p
      | SigSimulator =>
          do _ <- no_param (kw_paddr k); do _ <- no_param (kw_mask k);
          do _ <- no_param (kw_a k); do _ <- no_param (kw_b k); do _ <- no_param (kw_c k);
          do s <- required (kw_sequence k);
          simulator o s
      | SigProceed =>
          do _ <- no_param (kw_sequence k); do _ <- no_param (kw_mask k);
          do _ <- no_param (kw_a k); do _ <- no_param (kw_b k); do _ <- no_param (kw_c k);
          do _ <- no_param (kw_paddr k);
          general_unmasked o (Some 0) (Some 0) (Some 0) (Some 0)
      end
  end.

(** instructions.py:900-1064 constants (class, mnemonic) and control classes *)
Definition CONSTANT_CLASSES : dict str str := [
  (lit "AlphanumericConstant", lit "ALF");
  (lit "DecimalConstant", lit "DEC");
  (lit "ExtendedBinaryConstant", lit "EBC");
  (lit "FloatingBinaryConstant", lit "FLBIN");
  (lit "FloatingDecimalConstant", lit "FLDEC");
  (lit "FixedBinaryConstant", lit "FXBIN");
  (lit "OctalConstant", lit "OCT");
  (lit "SpecialAddressConstant", lit "SPEC");
  (lit "CompleteAddressConstant", lit "CAC");
  (lit "MaskBaseAddressConstant", lit "MASKBASE");
  (lit "ProgramControlConstant", lit "CONTROL");
  (lit "MixedConstant", lit "M");
  (lit "TapeAddressConstant", lit "TAC");
  (lit "LinkageConstant", lit "LINK");
  (lit "SegmentNameConstant", lit "SEGNAME");
  (lit "SubroutineCallConstant", lit "SUBCALL")
].
Definition CONTROL_CLASSES : list str := map lit
  ["AssignTag"; "End"; "Equals"; "Even"; "MaskGroup"; "SetLocationCounterModuloN"; "Reserve"; "SetLocationCounter"; "Simulate"; "TemporarilyAssignTag"]%string.
Definition constant_call (c : str) (data : Z) : res word :=
  match dget CONSTANT_CLASSES c with
  | None => Err NameError
  | Some m => constant_new m data
  end.
Definition control_call (c : str) (mnemonic : str) (a b d : option Z) : res instr :=
  if inb c CONTROL_CLASSES then assembly_control_new mnemonic a b d else Err NameError.

(** instructions.py:1084-1126 print_instructions, the codes of one mnemonic *)
Fixpoint collect (l : list (res Z)) : res (list Z) :=
  match l with
  | [] => Ok []
  | x :: r => do y <- x; do t <- collect r; Ok (y :: t)
  end.
Definition bits2 : list Z := py_range 0 2.
Definition gen_codes (mo : str * opcode) : res (list Z) :=
  let '(m, o) := mo in
  if eqb (o_type o) (lit "maskable") then
    collect (flat_map (fun i => map (fun j => make_masked_opcode m i j) (py_range 0 32)) bits2)
  else if eqb (o_type o) (lit "unmasked") then
    collect (flat_map (fun i => flat_map (fun j => flat_map (fun k =>
             map (fun l => make_unmasked_opcode m i j k l) bits2) bits2) bits2) bits2)
  else if eqb (o_type o) (lit "peripheral") then
    collect (map (fun i => make_peripheral_opcode m i) (py_range 0 64))
  else if eqb (o_type o) (lit "print") then
    if eqb m (lit "PRD") then
      collect (flat_map (fun i => flat_map (fun j => flat_map (fun k =>
               map (fun l => make_print_opcode m i j k l) bits2) bits2) bits2) bits2)
    else Ok []
  else if eqb (o_type o) (lit "simulator") then Ok [7; 2055]
  else Err AssertionError.

(** instructions.py:1086-1119 the dict `opcodes` *)
Fixpoint all_codes (d : dict str opcode) : res (dict str (list Z)) :=
  match d with
  | [] => Ok []
  | mo :: r => do l <- gen_codes mo; do t <- all_codes r; Ok ((fst mo, l) :: t)
  end.
(** instructions.py:1120-1124 the dict `opmap` *)
Definition opmap_of (d : dict str (list Z)) : dict Z str :=
  fold_left (fun mp ml => fold_left (fun mp v => dset mp v (fst ml)) (sort_by Z.leb (snd ml)) mp) d [].
(** '%04o' of a nonnegative number *)
Definition fmt_04o (n : Z) : str := pad_left 48 4 (numeral 8 n).
(** instructions.py:1125-1126 *)
Fixpoint listing (mp : dict Z str) (ks : list Z) : res str :=
  match ks with
  | [] => Ok []
  | k :: r =>
      do m <- dindex mp k; do t <- listing mp r;
      Ok (lit "0o" ++ fmt_04o k ++ lit " " ++ m ++ [10] ++ t)
  end.
Definition print_instructions : res str :=
  do d <- all_codes OPCODES;
  let mp := opmap_of d in
  listing mp (sort_by Z.leb (dkeys mp)).
