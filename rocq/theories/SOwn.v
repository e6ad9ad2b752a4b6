(** A register file as 256 registers that live apart: which calls of a history reach which register. *)
From Verif Require Import Py MBitField SBits MRegisters SRegisters MMemory SMemory SCursor.

(** the register a call leads to, None when there is none *)
Definition target (p : places) (g : gpath) (r : rpath) : option (Z * Z) :=
  match place_group p g with
  | (_, None) => None
  | (_, Some k) =>
      match r with
      | AtReg (KI i) => if (0 <=? i) && (i <? 32) then Some (k, i) else None
      | AtReg (KS n) => option_map (pair k) (position n reg_names)
      | AtReg KSlice => None
      | NextReg => if in_group p k <? 32 then Some (k, in_group p k) else None
      end
  end.
(** what one call does to register [i] of group [k] *)
Definition due (p : places) (c : rcall) (k i : Z) : list action :=
  match c with
  | Reach g r x =>
      match target p g r with
      | Some (k', i') => if (k' =? k) && (i' =? i) then [x] else []
      | None => []
      end
  | ClearGroup g =>
      match place_group p g with
      | (_, Some k') => if (k' =? k) && (in_group p k <=? i) then [AClear] else []
      | (_, None) => []
      end
  | ClearAll => if (in_file p <=? k) && (in_group p k <=? i) then [AClear] else []
  | Len _ | LenAll => []
  end.
(** what a history does to it *)
Fixpoint own (p : places) (cs : list rcall) (k i : Z) : list action :=
  match cs with
  | [] => []
  | c :: cs' => due p c k i ++ own (place p c) cs' k i
  end.
