(** Property theorems; generated from LControl.v by meta/genp.py. *)
From Verif Require Import Py LPy MBitField SBits LBits MRegisters SRegisters LRegisters LRegHeap MMemory SMemory SCursor SOwn LOwn SFaults LFaults SControl LControl.

Theorem C188_control_memory : forall h W, W = 16 \/ W = 24 -> exists h' rs, registers_new h W = (h', Ok rs) /\
  forall cs c, snd (regs_call (regs_run (h', rs) (map special_call cs)) (special_call c)) = control_result W (control_run W cs) c.
Proof. exact (@C188_control_memory_pf). Qed.
Print Assumptions C188_control_memory.

(** MXR of group 3 is register 103; RAC is not a name in a group (C36) *)
Example C188_control_memory_ex : match registers_new heap0 16 with
  | (h, Ok rs) =>
      map (fun c => snd (regs_call (regs_run (h, rs) (map special_call
             [CSet (ByAddress 103) 77; CSet (ByName 7 (lit "S7")) 65535; CSet (ByAddress 256) 1; CSet (ByAddress 0) 65536; CSet (ByName 0 (lit "RAC")) 1])) (special_call c)))
          [CGet (ByName 3 (lit "MXR")); CGet (ByAddress 255); CGet (ByAddress 28); CGet (ByAddress (-1)); CGet (ByName 0 (lit "X8")); CSet (ByAddress 5) (-1)]
      = [Ok 77; Ok 65535; Ok 0; Err ValueError; Err ValueError; Err ValueError]
  | _ => False
  end.
Proof. vm_compute. reflexivity. Qed.

Theorem C188_names : forall n k,
  (registerName k = Ok n <-> subaddress n FIGURE_V1 = Some k) /\
  (registerNumber n = Ok k <-> subaddress n (FIGURE_V1 ++ COUNTERS) = Some k) /\
  (subaddress n COUNTERS = Some k -> registerAlias k = Ok n).
Proof. exact (@C188_names_pf). Qed.
Print Assumptions C188_names.

Example C188_names_ex : registerName 7 = Ok (lit "MXR") /\ registerNumber (lit "WAC") = Ok 30 /\ registerNumber (lit "S6") = Ok 30 /\ registerAlias 30 = Ok (lit "WAC") /\
  subaddress (lit "WAC") (FIGURE_V1 ++ COUNTERS) = Some 30 /\ subaddress (lit "X8") (FIGURE_V1 ++ COUNTERS) = None.
Proof. vm_compute. repeat split; reflexivity. Qed.
