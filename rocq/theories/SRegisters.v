(** Specification of the registers: 8 x 32 arrays of W bits and iteration
    cursors. *)
From Verif Require Import Py MBitField SBits MRegisters.

(** The 32 register names in number order (registers.py:7-40 and the PRM table
    it comes from): eight special ones, then X0-X7, R0-R7, S0-S7. *)
Definition numbered (c : string) : list str :=
  map (fun d => lit c ++ [48 + Z.of_nat d]) (seq 0 8).
Definition reg_names : list str :=
  map lit ["AU1"; "AU2"; "SC"; "CSC"; "SH"; "CSH"; "UTR"; "MXR"]%string
  ++ numbered "X" ++ numbered "R" ++ numbered "S".
(** The four aliases: other names of the last four registers, in order. *)
Definition alias_names : list str := map lit ["RAC"; "DRAC"; "WAC"; "DWAC"]%string.

Fixpoint position {A} `{EqB A} (x : A) (l : list A) : option Z :=
  match l with
  | [] => None
  | y :: r => if eqb y x then Some 0 else option_map (fun n => 1 + n) (position x r)
  end.
(** Number of the register a name or alias stands for *)
Definition number_of (name : str) : option Z :=
  match position name reg_names with
  | Some n => Some n
  | None => option_map (fun n => 28 + n) (position name alias_names)
  end.

(** ** The array view *)
Record sregs := mksregs { scell : Z -> Z -> arr; gcur : Z -> Z; rcur : Z }.
Definition sregs_new : sregs := mksregs (fun _ _ _ => false) (fun _ => 0) 0.

(** where a path leads: the state (cursors move) and the cell, None = raises *)
Definition s_group (s : sregs) (p : gpath) : sregs * option Z :=
  match p with
  | AtGroup (KI k) => (s, if (0 <=? k) && (k <? 8) then Some k else None)
  | AtGroup _ => (s, None)
  | NextGroup =>
      if rcur s <? 8 then (mksregs (scell s) (gcur s) (rcur s + 1), Some (rcur s)) else (s, None)
  end.
Definition set1 {A} (f : Z -> A) (k : Z) (x : A) : Z -> A := fun j => if j =? k then x else f j.
Definition s_reg (s : sregs) (k : Z) (p : rpath) : sregs * option Z :=
  match p with
  | AtReg (KI i) => (s, if (0 <=? i) && (i <? 32) then Some i else None)
  | AtReg (KS n) => (s, position n reg_names)
  | AtReg KSlice => (s, None)
  | NextReg =>
      if gcur s k <? 32
      then (mksregs (scell s) (set1 (gcur s) k (gcur s k + 1)) (rcur s), Some (gcur s k))
      else (s, None)
  end.
Definition s_act (W : Z) (a : arr) (x : action) : arr * option Z :=
  match x with
  | AValue => (a, Some (number a 0 (Z.to_nat W)))
  | ASetValue v => if (0 <=? v) && (v <? 2 ^ W) then (arr_fill a 0 W v, Some 0) else (a, None)
  | AItem k => arr_call MSB_1 W a (ReadItem k)
  | ASetItem k v => arr_call MSB_1 W a (Write (OpItem k v))
  | AClear => (fun _ => false, Some 0)
  end.
(** clear() of group [k] reaches the registers its cursor has not passed *)
Definition s_clear (s : sregs) (k : Z) : sregs :=
  mksregs (fun j i => if (j =? k) && (gcur s k <=? i) then fun _ => false else scell s j i)
          (set1 (gcur s) k 32) (rcur s).
(** clear() of everything: likewise for the groups *)
Definition s_clear_all (s : sregs) : sregs :=
  mksregs (fun j i => if (rcur s <=? j) && (gcur s j <=? i) then fun _ => false else scell s j i)
          (fun j => if rcur s <=? j then 32 else gcur s j) 8.

Definition s_call (W : Z) (s : sregs) (c : rcall) : sregs * option Z :=
  match c with
  | Reach gp rp x =>
      match s_group s gp with
      | (s1, None) => (s1, None)
      | (s1, Some k) =>
          match s_reg s1 k rp with
          | (s2, None) => (s2, None)
          | (s2, Some i) =>
              let '(a, o) := s_act W (scell s2 k i) x in
              (mksregs (set1 (scell s2) k (set1 (scell s2 k) i a)) (gcur s2) (rcur s2), o)
          end
      end
  | ClearGroup gp =>
      match s_group s gp with
      | (s1, None) => (s1, None)
      | (s1, Some k) => (s_clear s1 k, Some 0)
      end
  | ClearAll => (s_clear_all s, Some 0)
  | Len gp =>
      match s_group s gp with
      | (s1, None) => (s1, None)
      | (s1, Some k) => (s1, Some 32)
      end
  | LenAll => (s, Some 8)
  end.
Fixpoint s_trace (W : Z) (s : sregs) (cs : list rcall) : list (option Z) :=
  match cs with
  | [] => []
  | c :: cs' => let '(s', o) := s_call W s c in o :: s_trace W s' cs'
  end.
Definition s_run (W : Z) (s : sregs) (cs : list rcall) : sregs :=
  fold_left (fun s c => fst (s_call W s c)) cs s.

(** Numbers assigned to bits or bit ranges fit them (C08); everything else is
    unrestricted. *)
Definition act_fits (W : Z) (x : action) : Prop :=
  match x with
  | ASetItem k v => op_fits (mkbf W (2 ^ W - 1) 0 MSB_1 MSB_LEFT) (OpItem k v)
  | _ => True
  end.
Definition rcall_fits (W : Z) (c : rcall) : Prop :=
  match c with Reach _ _ x => act_fits W x | _ => True end.

(** A single register under a history of calls *)
Definition reg_run (r : register) (xs : list action) : register :=
  fold_left (fun r x => fst (act x r)) xs r.
