(** Which exception a refused call raises. *)
From Verif Require Import Py MBitField SBits MRegisters SRegisters MMemory SMemory SCursor SOwn.

(** a bit or a range of bits of a field with [W] bits: an end that is left out counts as soon as it is looked at *)
Inductive key_fault (n : scheme) (W : Z) : key -> exn -> Prop :=
| kf_bit i : key_fault n W (Idx i) ValueError
| kf_range s e : key_fault n W (Slice (Some s) (Some e)) ValueError
| kf_no_start e : key_fault n W (Slice None e) TypeError
| kf_no_end s : valid_index n W s -> key_fault n W (Slice (Some s) None) TypeError
| kf_bad_start s : ~ valid_index n W s -> key_fault n W (Slice (Some s) None) ValueError.
(** a change of a field *)
Definition op_fault (n : scheme) (W : Z) (o : bf_op) (x : exn) : Prop :=
  match o with OpItem k _ => key_fault n W k x | _ => x = ValueError end.

(** *** the register file: the first thing on the way that is not there *)
Definition group_fault (p : gpath) : exn := match p with NextGroup => StopIteration | AtGroup _ => ValueError end.
Definition reg_fault (p : rpath) : exn := match p with NextReg => StopIteration | AtReg _ => ValueError end.
Definition act_fault (W : Z) (x : action) (e : exn) : Prop :=
  match x with AItem k | ASetItem k _ => key_fault MSB_1 W k e | _ => e = ValueError end.
Definition call_fault (W : Z) (p : places) (c : rcall) (e : exn) : Prop :=
  match c with
  | Reach gp rp x =>
      match snd (place_group p gp), target p gp rp with
      | None, _ => e = group_fault gp
      | Some _, None => e = reg_fault rp
      | Some _, Some _ => act_fault W x e
      end
  | ClearGroup gp | Len gp => e = group_fault gp
  | ClearAll | LenAll => False
  end.
