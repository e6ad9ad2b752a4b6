(** Model of namedtuple_defaults of /repo/h800/instructions.py, of the class Opcode it makes and of
    the calls of it that fill OPCODES.  Python's own namedtuple is modelled as far as it is used: the
    names of the class and of the fields are checked ([class_ok] and [field_ok] are arbitrary: an
    identifier that is no keyword, for a field also without leading underscore), and a call binds
    positional and keyword arguments to the fields. *)
From Verif Require Import Py MBitField MWord MInstruction MInstructions.

Inductive pyval := VNone | VInt (n : Z) | VStr (s : str).
(** a class: its fields, in order, and T.__new__.__defaults__, here one for every field *)
Record ntclass := mknt { nt_fields : list str; nt_defaults : list pyval }.

(** the call T( *pos, **kw ): binding of arguments to the fields *)
Definition nt_call (T : ntclass) (pos : list pyval) (kw : dict str pyval) : res (list pyval) :=
  let n := length pos in
  if zlen (nt_fields T) <? zlen pos then Err TypeError
  else if negb (forallb (fun k => inb k (nt_fields T)) (dkeys kw)) then Err TypeError
  else if existsb (fun k => inb k (firstn n (nt_fields T))) (dkeys kw) then Err TypeError
  else Ok (pos ++ map (fun fd => match dget kw (fst fd) with Some v => v | None => snd fd end)
                      (combine (skipn n (nt_fields T)) (skipn n (nt_defaults T)))).
(** the attribute [f] of a tuple [t] of the class *)
Fixpoint nt_attr (fields : list str) (t : list pyval) (f : str) : res pyval :=
  match fields, t with
  | g :: fields, v :: t => if eqb g f then Ok v else nt_attr fields t f
  | _, _ => Err AttributeError
  end.

Fixpoint distinct (l : list str) : bool :=
  match l with [] => true | x :: r => negb (inb x r) && distinct r end.
(** instructions.py:104-109 namedtuple_defaults *)
Definition namedtuple_defaults (class_ok field_ok : str -> bool) (typename : str) (field_names : list str)
                               (default_values : list pyval) : res ntclass :=
  if negb (class_ok typename) || negb (forallb field_ok field_names) || negb (distinct field_names) then Err ValueError
  else
    let T := mknt field_names (map (fun _ => VNone) field_names) in
    do prototype <- nt_call T default_values [];
    Ok (mknt field_names prototype).

(** instructions.py:130-132 Opcode *)
Definition OPCODE_FIELDS : list str := map lit ["m"; "c"; "b23"; "b7"; "op"; "type"]%string.
Definition OPCODE_DEFAULTS : list pyval := [VNone; VNone; VNone; VNone; VNone; VStr (lit "unmasked")].
Definition Opcode (class_ok field_ok : str -> bool) : res ntclass :=
  namedtuple_defaults class_ok field_ok (lit "Opcode") OPCODE_FIELDS OPCODE_DEFAULTS.

(** instructions.py:134-339 OPCODES as it is written: the arguments of each call of Opcode *)
Definition OPCODE_CALLS : dict str (list pyval) := [
  (lit "BA", [VStr (lit "BA"); VStr (lit "BinaryAdd"); VInt 2; VInt 1; VInt 9; VStr (lit "maskable")]);
  (lit "DA", [VStr (lit "DA"); VStr (lit "DecimalAdd"); VInt 2; VInt 1; VInt 1; VStr (lit "maskable")]);
  (lit "WA", [VStr (lit "WA"); VStr (lit "WordAdd"); VInt 2; VInt 1; VInt 13; VStr (lit "maskable")]);
  (lit "BS", [VStr (lit "BS"); VStr (lit "BinarySubtract"); VInt 2; VInt 1; VInt 25; VStr (lit "maskable")]);
  (lit "DS", [VStr (lit "DS"); VStr (lit "DecimalSubtract"); VInt 2; VInt 1; VInt 17; VStr (lit "maskable")]);
  (lit "WD", [VStr (lit "WD"); VStr (lit "WordDifference"); VInt 2; VInt 1; VInt 29; VStr (lit "maskable")]);
  (lit "NA", [VStr (lit "NA"); VStr (lit "NotEqualAlphabetic"); VInt 2; VInt 1; VInt 12; VStr (lit "maskable")]);
  (lit "NN", [VStr (lit "NN"); VStr (lit "NotEqualNumeric"); VInt 2; VInt 1; VInt 8; VStr (lit "maskable")]);
  (lit "LA", [VStr (lit "LA"); VStr (lit "LessThanOrEqualAlphabetic"); VInt 2; VInt 1; VInt 28; VStr (lit "maskable")]);
  (lit "LN", [VStr (lit "LN"); VStr (lit "LessThanOrEqualNumeric"); VInt 2; VInt 1; VInt 24; VStr (lit "maskable")]);
  (lit "TX", [VStr (lit "TX"); VStr (lit "Transfer"); VInt 2; VInt 1; VInt 16; VStr (lit "maskable")]);
  (lit "TS", [VStr (lit "TS"); VStr (lit "TransferAndChangeSequence"); VInt 2; VInt 1; VInt 4; VStr (lit "maskable")]);
  (lit "HA", [VStr (lit "HA"); VStr (lit "HalfAdd"); VInt 2; VInt 1; VInt 21; VStr (lit "maskable")]);
  (lit "SM", [VStr (lit "SM"); VStr (lit "Superimpose"); VInt 2; VInt 1; VInt 5; VStr (lit "maskable")]);
  (lit "CP", [VStr (lit "CP"); VStr (lit "CheckParity"); VInt 2; VInt 1; VInt 20; VStr (lit "maskable")]);
  (lit "BM", [VStr (lit "BM"); VStr (lit "BinaryMultiply"); VInt 0; VInt 0; VInt 11]);
  (lit "DM", [VStr (lit "DM"); VStr (lit "DecimalMultiply"); VInt 0; VInt 0; VInt 3]);
  (lit "BT", [VStr (lit "BT"); VStr (lit "BinaryAccumulate"); VInt 2; VInt 0; VInt 11]);
  (lit "DT", [VStr (lit "DT"); VStr (lit "DecimalAccumulate"); VInt 2; VInt 0; VInt 3]);
  (lit "MT", [VStr (lit "MT"); VStr (lit "MultipleTransfer"); VInt 0; VInt 0; VInt 16]);
  (lit "TN", [VStr (lit "TN"); VStr (lit "TransferNWords"); VInt 1; VInt 0; VInt 16]);
  (lit "CC", [VStr (lit "CC"); VStr (lit "ComputeOrthocount"); VInt 1; VInt 0; VInt 8]);
  (lit "IT", [VStr (lit "IT"); VStr (lit "ItemTransfer"); VInt 1; VInt 0; VInt 24]);
  (lit "EBA", [VStr (lit "EBA"); VStr (lit "ExtendedBinaryAdd"); VInt 3; VInt 0; VInt 11]);
  (lit "EBS", [VStr (lit "EBS"); VStr (lit "ExtendedBinarySubtract"); VInt 3; VInt 0; VInt 27]);
  (lit "RT", [VStr (lit "RT"); VStr (lit "RecordTransfer"); VInt 3; VInt 0; VInt 24]);
  (lit "MPC", [VStr (lit "MPC"); VStr (lit "ControlProgram"); VInt 2; VInt 0; VInt 0]);
  (lit "PR", [VStr (lit "PR"); VStr (lit "Proceed"); VInt 0; VInt 0; VInt 0]);
  (lit "SWS", [VStr (lit "SWS"); VStr (lit "ShiftWordAndSubstitute"); VInt 2; VInt 0; VInt 6]);
  (lit "SPS", [VStr (lit "SPS"); VStr (lit "ShiftPreservingSignAndSubstitute"); VInt 2; VInt 0; VInt 2]);
  (lit "SWE", [VStr (lit "SWE"); VStr (lit "ShiftWordAndExtract"); VInt 2; VInt 0; VInt 14]);
  (lit "SPE", [VStr (lit "SPE"); VStr (lit "ShiftPreservingSignAndExtract"); VInt 2; VInt 0; VInt 10]);
  (lit "SSL", [VStr (lit "SSL"); VStr (lit "ShiftAndSelect"); VInt 2; VInt 0; VInt 22]);
  (lit "SS", [VStr (lit "SS"); VStr (lit "Substitute"); VInt 0; VInt 0; VInt 6]);
  (lit "EX", [VStr (lit "EX"); VStr (lit "Extract"); VInt 0; VInt 0; VInt 14]);
  (lit "RF", [VStr (lit "RF"); VStr (lit "ReadForward"); VNone; VInt 1; VInt 26; VStr (lit "peripheral")]);
  (lit "RB", [VStr (lit "RB"); VStr (lit "ReadBackward"); VNone; VInt 1; VInt 10; VStr (lit "peripheral")]);
  (lit "WF", [VStr (lit "WF"); VStr (lit "WriteForward"); VNone; VInt 1; VInt 14; VStr (lit "peripheral")]);
  (lit "RW", [VStr (lit "RW"); VStr (lit "Rewind"); VNone; VInt 1; VInt 2; VStr (lit "peripheral")]);
  (lit "PRA", [VStr (lit "PRA"); VStr (lit "PrintAlphabetic"); VNone; VInt 1; VInt 6; VStr (lit "print")]);
  (lit "PRD", [VStr (lit "PRD"); VStr (lit "PrintDecimal"); VNone; VInt 1; VInt 6; VStr (lit "print")]);
  (lit "PRO", [VStr (lit "PRO"); VStr (lit "PrintOctal"); VNone; VInt 1; VInt 6; VStr (lit "print")]);
  (lit "S", [VStr (lit "S"); VStr (lit "Simulator"); VNone; VNone; VInt 7; VStr (lit "simulator")]);
  (lit "FBA", [VStr (lit "FBA"); VStr (lit "FloatingBinaryAdd"); VInt 1; VInt 0; VInt 1]);
  (lit "FDA", [VStr (lit "FDA"); VStr (lit "FloatingDecimalAdd"); VInt 1; VInt 0; VInt 17]);
  (lit "FBS", [VStr (lit "FBS"); VStr (lit "FloatingBinarySubtract"); VInt 1; VInt 0; VInt 9]);
  (lit "FDS", [VStr (lit "FDS"); VStr (lit "FloatingDecimalSubtract"); VInt 1; VInt 0; VInt 25]);
  (lit "FBD", [VStr (lit "FBD"); VStr (lit "FloatingBinaryDivide"); VInt 1; VInt 0; VInt 5]);
  (lit "FDD", [VStr (lit "FDD"); VStr (lit "FloatingDecimalDivide"); VInt 1; VInt 0; VInt 21]);
  (lit "FBAU", [VStr (lit "FBAU"); VStr (lit "FloatingBinaryAddUnnormalized"); VInt 3; VInt 0; VInt 1]);
  (lit "FDAU", [VStr (lit "FDAU"); VStr (lit "FloatingDecimalAddUnnormalized"); VInt 3; VInt 0; VInt 17]);
  (lit "FBSU", [VStr (lit "FBSU"); VStr (lit "FloatingBinarySubtractUnnormalized"); VInt 3; VInt 0; VInt 9]);
  (lit "FDSU", [VStr (lit "FDSU"); VStr (lit "FloatingDecimalSubtractUnnormalized"); VInt 3; VInt 0; VInt 25]);
  (lit "FBM", [VStr (lit "FBM"); VStr (lit "FloatingBinaryMultiply"); VInt 3; VInt 0; VInt 5]);
  (lit "FDM", [VStr (lit "FDM"); VStr (lit "FloatingDecimalMultiply"); VInt 3; VInt 0; VInt 21]);
  (lit "ULD", [VStr (lit "ULD"); VStr (lit "MultipleUnload"); VInt 3; VInt 0; VInt 13]);
  (lit "FBAE", [VStr (lit "FBAE"); VStr (lit "FloatingBinaryAddExtendedPrecision"); VInt 0; VInt 0; VInt 1]);
  (lit "FBSE", [VStr (lit "FBSE"); VStr (lit "FloatingBinarySubtractExtendedPrecision"); VInt 0; VInt 0; VInt 9]);
  (lit "BD", [VStr (lit "BD"); VStr (lit "FixedBinaryDivide"); VInt 0; VInt 0; VInt 5]);
  (lit "DD", [VStr (lit "DD"); VStr (lit "FixedDecimalDivide"); VInt 0; VInt 0; VInt 21]);
  (lit "FFN", [VStr (lit "FFN"); VStr (lit "FixedToFloatingNormalize"); VInt 0; VInt 0; VInt 13]);
  (lit "FCON", [VStr (lit "FCON"); VStr (lit "Conversion"); VInt 0; VInt 0; VInt 29]);
  (lit "FLN", [VStr (lit "FLN"); VStr (lit "FloatingLessThanNormalized"); VInt 0; VInt 0; VInt 24]);
  (lit "FNN", [VStr (lit "FNN"); VStr (lit "FloatingNotEqualNormalized"); VInt 2; VInt 0; VInt 12])
].
