(** Instructions with arguments of any type. *)
From Verif Require Import Py MBitField MInstruction MDyn SDyn MDynInstr.

(** The int that is encoded for an argument; None if the argument is refused.  A float
    equal to 0 or 1 does for A, B and C, one equal to 0 for the sequence bit. *)
Definition flag_of (v : val) : option Z :=
  match v with
  | VI z => Some z
  | VF f => if equals f 0 then Some 0 else if equals f 1 then Some 1 else None
  | VO _ => None
  end.
Definition sequence_of (v : val) : option Z :=
  match v with VI z => Some z | VF f => if equals f 0 then Some 0 else None | VO _ => None end.
Definition number_of (v : val) : option Z := match v with VI z => Some z | _ => None end.
(** [encoded f v r]: the argument v, given or not, is encoded as r *)
Definition encoded (f : val -> option Z) (v : option val) (r : option Z) : Prop :=
  match v with None => r = None | Some v => f v = r /\ r <> None end.
(** The ints that are encoded for the arguments x *)
Definition encodes (x : targs) (y : iargs) : Prop :=
  encoded sequence_of (t_sequence x) (sequence y) /\ encoded number_of (t_mask x) (mask y) /\
  encoded flag_of (t_a x) (arg_a y) /\ encoded flag_of (t_b x) (arg_b y) /\ encoded flag_of (t_c x) (arg_c y) /\
  encoded number_of (t_paddr x) (paddr y).
