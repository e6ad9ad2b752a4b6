(** Programs that also assign groups to places of a register file and registers to places of a group. *)
From Verif Require Import Py MBitField MRegisters.

(** the calls of MRegisters.v; `regs[k] = G` (registers.py:224-230) where G is a group of the file or a new
    RegisterGroup(w) (registers.py:142-148); `G[k] = R` (registers.py:166-172) where R is a register of the file.
    Python evaluates the right-hand side first. *)
Inductive scall :=
  | Plain (c : rcall)
  | GiveGroup (k : gkey) (from : gpath)
  | GiveNew (k : gkey) (w : Z)
  | GiveReg (g : gpath) (k : gkey) (fg : gpath) (fr : rpath).

(** `G[k] = R` with the group [g] and the register [r] found: registers.py:166-172 *)
Definition heap_group_set (h : heap) (g : nat) (k : gkey) (r : nat) : heap * res unit :=
  match deref (h_groups h) g with
  | Err e => (h, Err e)
  | Ok gr => let '(gr', x) := group_setitem gr k r in (with_groups h (upd (h_groups h) g gr'), x)
  end.
Definition file_call (st : rstate) (c : scall) : rstate * res Z :=
  let '(h, rs) := st in
  match c with
  | Plain c => regs_call st c
  | GiveGroup k from =>
      match find_group rs from with
      | (rs1, Err e) => ((h, rs1), Err e)
      | (rs1, Ok g) => let '(rs2, x) := registers_setitem rs1 k g in unit_z ((h, rs2), x)
      end
  | GiveNew k w =>
      match group_new h w with
      | (h1, Err e) => ((h1, rs), Err e)
      | (h1, Ok g) => let '(rs2, x) := registers_setitem rs k g in unit_z ((h1, rs2), x)
      end
  | GiveReg gp k fg fr =>
      match find_group rs fg with
      | (rs1, Err e) => ((h, rs1), Err e)
      | (rs1, Ok g1) =>
          match find_reg h g1 fr with
          | (h1, Err e) => ((h1, rs1), Err e)
          | (h1, Ok r) =>
              match find_group rs1 gp with
              | (rs2, Err e) => ((h1, rs2), Err e)
              | (rs2, Ok g) => let '(h2, x) := heap_group_set h1 g k r in unit_z ((h2, rs2), x)
              end
          end
      end
  end.
Fixpoint file_trace (st : rstate) (cs : list scall) : list (res Z) :=
  match cs with
  | [] => []
  | c :: cs' => let '(st', o) := file_call st c in o :: file_trace st' cs'
  end.
Definition file_run (st : rstate) (cs : list scall) : rstate :=
  fold_left (fun st c => fst (file_call st c)) cs st.
