(** The control memory as one array of 256 special registers: Programmers' Reference Manual, figure IV-2 (an 8-bit address is a 3-bit group
    indicator and a 5-bit subaddress) and figure V-1 (the mnemonic addresses). *)
From Verif Require Import Py MRegisters SRegisters.

(** figure V-1 *)
Definition FIGURE_V1 : list (string * Z) := [
  ("AU1", 0); ("AU2", 1); ("SC", 2); ("CSC", 3); ("SH", 4); ("CSH", 5); ("UTR", 6); ("MXR", 7);
  ("X0", 8); ("X1", 9); ("X2", 10); ("X3", 11); ("X4", 12); ("X5", 13); ("X6", 14); ("X7", 15);
  ("R0", 16); ("R1", 17); ("R2", 18); ("R3", 19); ("R4", 20); ("R5", 21); ("R6", 22); ("R7", 23);
  ("S0", 24); ("S1", 25); ("S2", 26); ("S3", 27); ("S4", 28); ("S5", 29); ("S6", 30); ("S7", 31)]%string.
(** the read-write counters, which take the place of S4-S7 in groups with active channels *)
Definition COUNTERS : list (string * Z) := [("RAC", 28); ("DRAC", 29); ("WAC", 30); ("DWAC", 31)]%string.
Fixpoint subaddress (n : str) (l : list (string * Z)) : option Z :=
  match l with [] => None | (m, k) :: r => if eqb n (lit m) then Some k else subaddress n r end.

(** a register: by its 8-bit address, or by group and mnemonic address *)
Inductive special := ByAddress (a : Z) | ByName (g : Z) (n : str).
Definition special_address (w : special) : option Z :=
  match w with
  | ByAddress a => if (0 <=? a) && (a <? 256) then Some a else None
  | ByName g n => if (0 <=? g) && (g <? 8) then option_map (fun k => 32 * g + k) (subaddress n FIGURE_V1) else None
  end.
(** registers[group][subaddress].value, read or assigned to *)
Inductive ccall := CGet (w : special) | CSet (w : special) (v : Z).
Definition at_special (w : special) : action -> rcall :=
  match w with
  | ByAddress a => Reach (AtGroup (KI (a / 32))) (AtReg (KI (a mod 32)))
  | ByName g n => Reach (AtGroup (KI g)) (AtReg (KS n))
  end.
Definition special_call (c : ccall) : rcall :=
  match c with CGet w => at_special w AValue | CSet w v => at_special w (ASetValue v) end.
(** the array: 256 numbers of [W] bits *)
Definition control_step (W : Z) (f : Z -> Z) (c : ccall) : Z -> Z :=
  match c with
  | CGet _ => f
  | CSet w v =>
      match special_address w with
      | Some a => if (0 <=? v) && (v <? 2 ^ W) then fun b => if b =? a then v else f b else f
      | None => f
      end
  end.
Definition control_run (W : Z) (cs : list ccall) : Z -> Z := fold_left (control_step W) cs (fun _ => 0).
Definition control_result (W : Z) (f : Z -> Z) (c : ccall) : res Z :=
  match c with
  | CGet w => match special_address w with Some a => Ok (f a) | None => Err ValueError end
  | CSet w v => match special_address w with Some _ => if (0 <=? v) && (v <? 2 ^ W) then Ok 0 else Err ValueError | None => Err ValueError end
  end.
