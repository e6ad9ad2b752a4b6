(** How far the iteration of a memory bank, a register group and a register
    file has come, from the history of calls alone. *)
From Verif Require Import Py MBitField SBits MRegisters SRegisters MMemory SMemory.

(** next() calls in a history *)
Definition steps (cs : list mcall) : Z :=
  zlen (filter (fun c => match c with MNext => true | _ => false end) cs).

(** registers passed in each group, groups passed in the file *)
Record places := mkplaces { in_group : Z -> Z; in_file : Z }.
Definition at_start : places := mkplaces (fun _ => 0) 0.

(** the group a path leads to, and the place in the file afterwards *)
Definition place_group (p : places) (g : gpath) : places * option Z :=
  match g with
  | AtGroup (KI k) => (p, if (0 <=? k) && (k <? 8) then Some k else None)
  | AtGroup _ => (p, None)
  | NextGroup =>
      if in_file p <? 8 then (mkplaces (in_group p) (in_file p + 1), Some (in_file p)) else (p, None)
  end.
Definition place (p : places) (c : rcall) : places :=
  match c with
  | Reach g r _ =>
      match place_group p g, r with
      | (p1, Some k), NextReg => mkplaces (set1 (in_group p1) k (Z.min 32 (in_group p1 k + 1))) (in_file p1)
      | (p1, _), _ => p1
      end
  | ClearGroup g =>
      match place_group p g with
      | (p1, Some k) => mkplaces (set1 (in_group p1) k 32) (in_file p1)
      | (p1, None) => p1
      end
  | ClearAll => mkplaces (fun k => if in_file p <=? k then 32 else in_group p k) 8
  | Len g => fst (place_group p g)
  | LenAll => p
  end.
Definition places_after (cs : list rcall) : places := fold_left place cs at_start.

(** the calls that do not move an iteration cursor *)
Definition no_iter (c : rcall) : Prop :=
  match c with
  | Reach (AtGroup _) (AtReg _) _ | Len (AtGroup _) | LenAll => True
  | _ => False
  end.
(** what a first loop visits: exactly the registers g[0] ... g[31], the groups
    regs[0] ... regs[7] *)
Definition visits_in_order (n : Z) (refs : list nat) (lookup : Z -> res nat) : Prop :=
  zlen refs = n /\ forall i, 0 <= i < n -> exists r, nth_error refs (Z.to_nat i) = Some r /\ lookup i = Ok r.
(** what a loop visits that has already come to [from]: the elements [from] ... [n-1], in order *)
Definition visits_from (from n : Z) (refs : list nat) (lookup : Z -> res nat) : Prop :=
  zlen refs = n - from /\
  forall i, 0 <= i < n - from -> exists r, nth_error refs (Z.to_nat i) = Some r /\ lookup (from + i) = Ok r.
