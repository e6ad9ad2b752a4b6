(** The source language of the ARGUS manual (docs/argus), as far as the tools look at it: tags, subsegments, operation codes. *)
From Verif Require Import Py MCards SCards SEnds MSymbols SSymbols SRegisters SSource SLabel SManual.

(** *** section IV: tags *)
(** a character of the machine that may be part of a symbolic tag: the codes of + - , . * / and of hyphen, quotes, semicolon, the two
    codes without a character and the space are excluded; only characters that can be written in ASCII *)
Definition tag_char (c : Z) : Prop :=
  32 < c < 128 /\ exists k, In (k, c) TABLE_I /\ ~ In k [16; 32; 59; 27; 44; 49; 12; 45; 26; 48; 63; 13].
Definition digit (c : Z) : Prop := 48 <= c <= 57.
(** up to eight of them, at least one not a digit *)
Definition symbolic (t : str) : Prop := zlen t <= 8 /\ Forall tag_char t /\ exists c, In c t /\ ~ digit c.
(** a special register: a name or a number of one or two digits *)
Definition special_register (r : str) : Prop :=
  In r reg_names \/ In r alias_names \/ exists n, 0 <= n < 32 /\ (r = str_of_Z n \/ (n < 10 /\ r = 48 :: str_of_Z n)).
Inductive manual_tag : str -> Prop :=
| mt_symbolic t : symbolic t -> manual_tag t
| mt_mask p t : In p [66; 70; 83] -> symbolic t -> manual_tag (p :: 44 :: t)
| mt_register r : special_register r -> manual_tag (90 :: 44 :: r)
| mt_link t : symbolic t -> manual_tag (76 :: 44 :: t)
| mt_out : manual_tag [88; 44]
| mt_out_of_sequence t : symbolic t -> manual_tag (88 :: 44 :: t).
(** a link tag or an out-of-sequence tag *)
Definition link_or_out (s : str) : Prop := exists c t, In c [76; 88] /\ s = c :: 44 :: t.
(** the name in a tag *)
Definition tag_name (s t : str) : Prop := (~ In 44 s /\ t = s) \/ exists p, s = p ++ 44 :: t.

(** *** section VIII: subsegments *)
Definition no_blanks (s : str) : str := filter (fun c => negb (c =? 32)) s.
(** a SETLOC that specifies subsegment [n]; a C marks a common subsegment *)
Definition specifies (line : str) (n : Z) : Prop :=
  1 <= n <= 7 /\ ~ starred_line line /\
  exists op, operation_of line op /\ (no_blanks op = lit "SETLOC," ++ [48 + n] \/ no_blanks op = lit "SETLOC," ++ [48 + n; 67]).
(** the coding belongs to the subsegment of the last SETLOC that specifies one; without any, to subsegment 1 *)
Definition manual_subsegment (lines : list srcline) (n : Z) : Prop :=
  ((forall x u, In x lines -> ~ specifies (text_of x) u) /\ n = 1) \/
  exists a x b, lines = a ++ x :: b /\ specifies (text_of x) n /\ forall y u, In y b -> ~ specifies (text_of y) u.
(** a line that is processed and has the operation *)
Definition has_operation (line op : str) : Prop := ~ starred_line line /\ operation_of line op.
(** operations that assign a tag to a complex address *)
Definition assigns_complex (op : str) : Prop := In op (map lit ["ASSIGN"; "TAS"]%string).

(** *** operation codes *)
(** figure 8, sections VIII, IX and XI *)
Definition MANUAL_CODES : list str := map lit
  ["DA"; "DS"; "DM"; "BA"; "BS"; "BM"; "WA"; "WD"; "HA"; "BT"; "DT"; "SM"; "SS"; "EX"; "TX"; "TS"; "TN"; "MT"; "IT"; "RT"; "NN"; "NA"; "LN"; "LA";
   "PR"; "CC"; "CP"; "MPC"; "SWE"; "SWS"; "SPE"; "SPS"; "SSL"; "S"; "RF"; "RB"; "WF"; "RW"; "PRA"; "PRD"; "PRO"; "STOP"; "DOFF"; "DON"; "SCON";
   "CSCON"; "SPCR"; "FBA"; "FBS"; "FBM"; "FBD"; "FDA"; "FDS"; "FDM"; "FDD"; "FLN"; "FNN"; "FFN"; "FBAU"; "FDAU"; "FBSU"; "FDSU"; "FBAE"; "FBSE";
   "ULD"; "BD"; "DD";
   "SETLOC"; "EVEN"; "SIMULATE"; "MODLOC"; "ASSIGN"; "TAS"; "EQUALS"; "RESERVE"; "MASKGRP"; "END";
   "ALF"; "OCT"; "DEC"; "FXBIN"; "FLDEC"; "FLBIN"; "EBC";
   "SPEC"; "CAC"; "MASKBASE"; "CONTROL"; "M"; "TAC"; "LINK"; "SEGNAME"; "SUBCALL";
   "ARGUS"; "U"; "MACRODEF"; "FINIS"; "ELIMSEG"; "SEGMENT"; "PROGRAM"; "TESTDATA"; "ELIMDATA"; "ELIMDERL"; "DELETE"; "ENDARGUS"]%string.
(** what stands before the comma in calls of library and programmer macro routines (section XIII), in distributing instructions and
    test data words (section XI), and the codes of LAMP (appendix A) *)
Definition OTHER_CODES : list str := map lit ["L"; "P"; "X"; "D"; "LAMP"; "ENDLAMP"; "ELIMMAC"; "NEWSUB"; "ELIMSUB"]%string.
(** those the programmers' reference manual of the 1800 adds, and two dump requests *)
Definition MORE_CODES : list str := map lit ["EBA"; "EBS"; "FCON"; "COREDUMP"; "DUMP"]%string.
(** a processed line with mnemonic [m] *)
Definition has_mnemonic (x : srcline) (m : str) : Prop := ~ starred_line (text_of x) /\ mnemonic_at (text_of x) m.
(** the same place, the same mark in column 8, the same operation but for blanks *)
Definition same_operation (x y : srcline) : Prop :=
  fst x = fst y /\ (starred_line (text_of x) <-> starred_line (text_of y)) /\
  (forall op, operation_of (text_of x) op -> exists op', operation_of (text_of y) op' /\ no_blanks op = no_blanks op') /\
  (forall op', operation_of (text_of y) op' -> exists op, operation_of (text_of x) op /\ no_blanks op = no_blanks op').
