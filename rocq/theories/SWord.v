(** Specification of words: base-4096 digits. *)
From Verif Require Import Py MWord.

(** Digit of a 48-bit number each field is. *)
Definition digit (f : field) (v : Z) : Z :=
  match f with
  | Command => v / 2 ^ 36
  | FA => (v / 2 ^ 24) mod 4096
  | FB => (v / 2 ^ 12) mod 4096
  | FC => v mod 4096
  end.

(** The four 12-bit registers an instruction word should look like. *)
Definition regs := field -> Z.
Definition same_field (f g : field) : bool :=
  match f, g with
  | Command, Command | FA, FA | FB, FB | FC, FC => true
  | _, _ => false
  end.
Definition packed (r : regs) : Z :=
  r Command * 2 ^ 36 + r FA * 2 ^ 24 + r FB * 2 ^ 12 + r FC.
Definition regs_step (r : regs) (o : iw_op) : regs :=
  match o with
  | SetField f v => fun g => if same_field f g then v else r g
  | SetValue v => if (0 <=? v) && (v <? 2 ^ 48) then fun g => digit g v else r
  end.
(** field values assigned are 12-bit; value assignments are arbitrary
    (out of range ones are rejected and leave the word alone) *)
Definition iw_op_fits (o : iw_op) : Prop :=
  match o with SetField _ v => 0 <= v < 4096 | SetValue _ => True end.
