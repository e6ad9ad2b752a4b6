(** Model of /repo/h800/registers.py.
    Register and RegisterGroup objects are mutable and can be shared (assigned
    into groups, returned by iteration), so they live in a heap and are named
    by references: the position at which they were allocated.  A Registers
    object is modelled by its own record.  Names are [str], keys ints, strings
    or slices; the objects assigned into groups (Registers) are registers
    (groups). *)
From Verif Require Import Py MBitField.

(** registers.py:7-40 *)
Definition REGISTERS : dict str Z :=
  [(lit "AU1", 0); (lit "AU2", 1); (lit "SC", 2); (lit "CSC", 3);
   (lit "SH", 4); (lit "CSH", 5); (lit "UTR", 6); (lit "MXR", 7);
   (lit "X0", 8); (lit "X1", 9); (lit "X2", 10); (lit "X3", 11);
   (lit "X4", 12); (lit "X5", 13); (lit "X6", 14); (lit "X7", 15);
   (lit "R0", 16); (lit "R1", 17); (lit "R2", 18); (lit "R3", 19);
   (lit "R4", 20); (lit "R5", 21); (lit "R6", 22); (lit "R7", 23);
   (lit "S0", 24); (lit "S1", 25); (lit "S2", 26); (lit "S3", 27);
   (lit "S4", 28); (lit "S5", 29); (lit "S6", 30); (lit "S7", 31)].
(** registers.py:42-47 *)
Definition ALIASES : dict str Z :=
  [(lit "RAC", 28); (lit "DRAC", 29); (lit "WAC", 30); (lit "DWAC", 31)].
(** registers.py:49 *)
Definition REGISTER_NAMES : list str := dkeys REGISTERS ++ dkeys ALIASES.

(** the loop `for name in D: if D[name] == number: return name` *)
Fixpoint first_name (d : dict str Z) (number : Z) : option str :=
  match d with
  | [] => None
  | (name, n) :: r => if n =? number then Some name else first_name r number
  end.
(** registers.py:52-57 *)
Definition registerName (number : Z) : res str :=
  match first_name REGISTERS number with Some n => Ok n | None => Err ValueError end.
(** registers.py:60-68 *)
Definition registerAlias (number : Z) : res str :=
  match first_name ALIASES number with
  | Some n => Ok n
  | None => match first_name REGISTERS number with Some n => Ok n | None => Err ValueError end
  end.
(** registers.py:71-77 *)
Definition registerNumber (name : str) : res Z :=
  if dmem REGISTERS name then dindex REGISTERS name
  else if dmem ALIASES name then dindex ALIASES name
  else Err ValueError.

(** registers.py:80-96 class Register *)
Record register := mkreg { r_data : bf; r_name : option str; r_width : Z }.

(** registers.py:86 `name and name not in REGISTER_NAMES`: None and '' are false *)
Definition bad_name (name : option str) : bool :=
  match name with
  | None | Some [] => false
  | Some n => negb (inb n REGISTER_NAMES)
  end.

(** registers.py:84, 104.  For a negative width 2 ** width is a float below 1;
    here it is 0, and the comparison with an int data >= 0 comes out the same. *)
Definition reg_check (width data : Z) : res unit :=
  if (data <? 0) || (data >? 2 ^ width - 1) then Err ValueError else Ok tt.

(** registers.py:83-96 Register.__init__ *)
Definition register_new (data : Z) (name : option str) (width : Z) : res register :=
  do _ <- reg_check width data;
  if bad_name name then Err ValueError
  else if negb (width =? 16) && negb (width =? 24) then Err ValueError
  else
    do b <- bf_new 0 width 3 0;
    match bf_setitem b (Slice (Some 1) (Some width)) data with
    | (b', Ok _) => Ok (mkreg b' name width)
    | (_, Err e) => Err e
    end.

(** registers.py:98-100 *)
Definition reg_value (r : register) : Z := bf_value (r_data r).
Definition reg_with (r : register) (b : bf) : register := mkreg b (r_name r) (r_width r).
(** registers.py:102-107 *)
Definition reg_set_value (r : register) (v : Z) : register * res unit :=
  match reg_check (r_width r) v with
  | Err e => (r, Err e)
  | Ok _ =>
      let '(b, x) := bf_setitem (r_data r) (Slice (Some 1) (Some (r_width r))) v in
      (reg_with r b, x)
  end.
(** registers.py:117-121 *)
Definition reg_getitem (r : register) (k : key) : res Z := bf_getitem (r_data r) k.
(** registers.py:123-127 *)
Definition reg_setitem (r : register) (k : key) (v : Z) : register * res unit :=
  let '(b, x) := bf_setitem (r_data r) k v in (reg_with r b, x).
(** registers.py:129-130 *)
Definition reg_len (r : register) : Z := r_width r.
(** "%0Wo" % n *)
Definition fmt_oct (w n : Z) : str :=
  if n <? 0 then 45 :: pad_left 48 (w - 1) (numeral 8 (- n)) else pad_left 48 w (numeral 8 n).
(** registers.py:132-133 *)
Definition reg_repr (r : register) : str := lit "0o" ++ fmt_oct 6 (reg_value r).
(** registers.py:135-136 *)
Definition reg_clear (r : register) : register * res unit :=
  let '(b, x) := bf_clear (r_data r) None in (reg_with r b, x).

(** Keys of the _registers dict of a group: ints and (through __setitem__) strings *)
Inductive dkey := DI (i : Z) | DS (s : str).
Definition dkey_eqb (a b : dkey) : bool :=
  match a, b with
  | DI i, DI j => i =? j
  | DS s, DS t => str_eqb s t
  | _, _ => false
  end.
Lemma dkey_eqb_ok a b : dkey_eqb a b = true <-> a = b.
Proof.
  destruct a, b; cbn; try (split; discriminate).
  - rewrite Z.eqb_eq. split; congruence.
  - rewrite str_eqb_ok. split; congruence.
Qed.
#[export] Instance EqB_dkey : EqB dkey := {| eqb := dkey_eqb; eqb_ok := dkey_eqb_ok |}.

(** Keys a caller may use *)
Inductive gkey := KI (i : Z) | KS (s : str) | KSlice.

(** registers.py:139-148 class RegisterGroup *)
Record group := mkgroup { g_width : Z; g_registers : dict dkey nat; g_current : Z }.

(** The heap: allocated registers and groups, in order of allocation *)
Record heap := mkheap { h_regs : list register; h_groups : list group }.
Definition heap0 : heap := mkheap [] [].

Fixpoint upd {A} (l : list A) (n : nat) (x : A) : list A :=
  match l, n with
  | [], _ => []
  | _ :: r, O => x :: r
  | y :: r, S n' => y :: upd r n' x
  end.
(** Reading through a reference; a dangling reference (impossible in Python)
    would be a KeyError *)
Definition deref {A} (l : list A) (n : nat) : res A :=
  match nth_error l n with Some x => Ok x | None => Err KeyError end.
Definition with_regs (h : heap) (l : list register) : heap := mkheap l (h_groups h).
Definition with_groups (h : heap) (l : list group) : heap := mkheap (h_regs h) l.

(** registers.py:145-147 the loop of RegisterGroup.__init__ *)
Fixpoint group_fill (h : heap) (d : dict dkey nat) (names : list str) (width : Z)
  : heap * res (dict dkey nat) :=
  match names with
  | [] => (h, Ok d)
  | n :: r =>
      match dindex REGISTERS n with
      | Err e => (h, Err e)
      | Ok number =>
          match register_new 0 (Some n) width with
          | Err e => (h, Err e)
          | Ok reg =>
              group_fill (with_regs h (h_regs h ++ [reg]))
                         (dset d (DI number) (List.length (h_regs h))) r width
          end
      end
  end.
(** registers.py:142-148; returns the reference to the new group *)
Definition group_new (h : heap) (width : Z) : heap * res nat :=
  match group_fill h [] (dkeys REGISTERS) width with
  | (h', Err e) => (h', Err e)
  | (h', Ok d) =>
      (with_groups h' (h_groups h' ++ [mkgroup width d 0]), Ok (List.length (h_groups h')))
  end.

(** registers.py:154-164 __getitem__; returns a reference to a register *)
Definition group_getitem (g : group) (k : gkey) : res nat :=
  match k with
  | KSlice => Err ValueError
  | KS s =>
      if negb (dmem REGISTERS s) then Err ValueError
      else do n <- dindex REGISTERS s; dindex (g_registers g) (DI n)
  | KI i =>
      if (i <? 0) || (i >=? zlen REGISTERS) then Err ValueError
      else dindex (g_registers g) (DI i)
  end.
(** registers.py:166-172 __setitem__; REGISTERS[key] of an int key: the keys of
    REGISTERS are strings, so it is a KeyError *)
Definition group_setitem (g : group) (k : gkey) (r : nat) : group * res unit :=
  match k with
  | KSlice => (g, Err ValueError)
  | KS s => (mkgroup (g_width g) (dset (g_registers g) (DS s) r) (g_current g), Ok tt)
  | KI i => (g, Err KeyError)
  end.
(** registers.py:174-175 *)
Definition group_len (g : group) : Z := zlen (g_registers g).
(** registers.py:177-185 *)
Definition group_next (g : group) : group * res nat :=
  if g_current g >=? zlen REGISTERS then (g, Err StopIteration)
  else
    (mkgroup (g_width g) (g_registers g) (g_current g + 1),
     dindex (g_registers g) (DI (g_current g))).

(** next() on a group in the heap *)
Definition heap_group_next (h : heap) (g : nat) : heap * res nat :=
  match deref (h_groups h) g with
  | Err e => (h, Err e)
  | Ok gr => let '(gr', r) := group_next gr in (with_groups h (upd (h_groups h) g gr'), r)
  end.
(** A method call on a register in the heap *)
Definition on_reg {A} (h : heap) (r : nat) (f : register -> register * res A) : heap * res A :=
  match deref (h_regs h) r with
  | Err e => (h, Err e)
  | Ok reg => let '(reg', x) := f reg in (with_regs h (upd (h_regs h) r reg'), x)
  end.

(** registers.py:193-195 clear: `for register in self: register.clear()`.
    [fuel] bounds the rounds; len(REGISTERS) + 1 always suffice. *)
Fixpoint group_clear_loop (fuel : nat) (h : heap) (g : nat) : heap * res unit :=
  match fuel with
  | O => (h, Err RecursionError)
  | S f =>
      match heap_group_next h g with
      | (h', Err StopIteration) => (h', Ok tt)
      | (h', Err e) => (h', Err e)
      | (h', Ok r) =>
          match on_reg h' r reg_clear with
          | (h2, Ok _) => group_clear_loop f h2 g
          | (h2, Err e) => (h2, Err e)
          end
      end
  end.
Definition group_clear (h : heap) (g : nat) : heap * res unit :=
  group_clear_loop (S (List.length REGISTERS)) h g.

(** `for r in group:` with an empty body: the references visited *)
Fixpoint group_loop (fuel : nat) (h : heap) (g : nat) : heap * res (list nat) :=
  match fuel with
  | O => (h, Err RecursionError)
  | S f =>
      match heap_group_next h g with
      | (h', Err StopIteration) => (h', Ok [])
      | (h', Err e) => (h', Err e)
      | (h', Ok r) => let '(h2, l) := group_loop f h' g in (h2, do l <- l; Ok (r :: l))
      end
  end.

(** registers.py:187-191 *)
Fixpoint regs_repr (h : heap) (refs : list nat) : res str :=
  match refs with
  | [] => Ok []
  | r :: l => do reg <- deref (h_regs h) r; do t <- regs_repr h l; Ok (reg_repr reg ++ lit " " ++ t)
  end.
Definition group_repr (h : heap) (g : nat) : res str :=
  do gr <- deref (h_groups h) g; regs_repr h (map snd (g_registers gr)).

(** registers.py:198-208 class Registers *)
Definition NUM_GROUPS : Z := 8.
Record registers := mkregisters { rs_width : Z; rs_registers : dict Z nat; rs_current : Z }.
Fixpoint registers_fill (h : heap) (d : dict Z nat) (ks : list Z) (width : Z)
  : heap * res (dict Z nat) :=
  match ks with
  | [] => (h, Ok d)
  | k :: r =>
      match group_new h width with
      | (h', Err e) => (h', Err e)
      | (h', Ok g) => registers_fill h' (dset d k g) r width
      end
  end.
Definition registers_new (h : heap) (width : Z) : heap * res registers :=
  match registers_fill h [] (py_range 0 NUM_GROUPS) width with
  | (h', Err e) => (h', Err e)
  | (h', Ok d) => (h', Ok (mkregisters width d 0))
  end.
(** registers.py:214-222 *)
Definition registers_getitem (rs : registers) (k : gkey) : res nat :=
  match k with
  | KI i => if (i <? 0) || (i >=? NUM_GROUPS) then Err ValueError else dindex (rs_registers rs) i
  | _ => Err ValueError
  end.
(** registers.py:224-230 *)
Definition registers_setitem (rs : registers) (k : gkey) (g : nat) : registers * res unit :=
  match k with
  | KI i => (mkregisters (rs_width rs) (dset (rs_registers rs) i g) (rs_current rs), Ok tt)
  | _ => (rs, Err ValueError)
  end.
(** registers.py:232-233 *)
Definition registers_len (rs : registers) : Z := zlen (rs_registers rs).
(** registers.py:235-243 *)
Definition registers_next (rs : registers) : registers * res nat :=
  if rs_current rs >=? NUM_GROUPS then (rs, Err StopIteration)
  else (mkregisters (rs_width rs) (rs_registers rs) (rs_current rs + 1),
        dindex (rs_registers rs) (rs_current rs)).
(** registers.py:251-253 clear *)
Fixpoint registers_clear_loop (fuel : nat) (h : heap) (rs : registers)
  : heap * registers * res unit :=
  match fuel with
  | O => (h, rs, Err RecursionError)
  | S f =>
      match registers_next rs with
      | (rs', Err StopIteration) => (h, rs', Ok tt)
      | (rs', Err e) => (h, rs', Err e)
      | (rs', Ok g) =>
          match group_clear h g with
          | (h2, Ok _) => registers_clear_loop f h2 rs'
          | (h2, Err e) => (h2, rs', Err e)
          end
      end
  end.
Definition registers_clear (h : heap) (rs : registers) : heap * registers * res unit :=
  registers_clear_loop (S (Z.to_nat NUM_GROUPS)) h rs.
(** `for g in registers:` with an empty body *)
Fixpoint registers_loop (fuel : nat) (rs : registers) : registers * res (list nat) :=
  match fuel with
  | O => (rs, Err RecursionError)
  | S f =>
      match registers_next rs with
      | (rs', Err StopIteration) => (rs', Ok [])
      | (rs', Err e) => (rs', Err e)
      | (rs', Ok g) => let '(r2, l) := registers_loop f rs' in (r2, do l <- l; Ok (g :: l))
      end
  end.

(** Calls a program makes on a Registers object: a way to reach a group
    (regs[k] or next(regs)), then a register of it (g[key] or next(g)), then a
    method of the register; or clear() of the group or of everything. *)
Inductive gpath := AtGroup (k : gkey) | NextGroup.
Inductive rpath := AtReg (k : gkey) | NextReg.
Inductive action := AValue | ASetValue (v : Z) | AItem (k : key) | ASetItem (k : key) (v : Z) | AClear.
Inductive rcall := Reach (g : gpath) (r : rpath) (a : action) | ClearGroup (g : gpath) | ClearAll
                 | Len (g : gpath) | LenAll.

Definition unit_z {S} (p : S * res unit) : S * res Z :=
  let '(s, x) := p in (s, do _ <- x; Ok 0).
Definition act (a : action) (r : register) : register * res Z :=
  match a with
  | AValue => (r, Ok (reg_value r))
  | ASetValue v => unit_z (reg_set_value r v)
  | AItem k => (r, reg_getitem r k)
  | ASetItem k v => unit_z (reg_setitem r k v)
  | AClear => unit_z (reg_clear r)
  end.
Definition find_group (rs : registers) (p : gpath) : registers * res nat :=
  match p with
  | AtGroup k => (rs, registers_getitem rs k)
  | NextGroup => registers_next rs
  end.
Definition find_reg (h : heap) (g : nat) (p : rpath) : heap * res nat :=
  match p with
  | AtReg k => (h, do gr <- deref (h_groups h) g; group_getitem gr k)
  | NextReg => heap_group_next h g
  end.
Definition rstate : Type := heap * registers.
Definition regs_call (st : rstate) (c : rcall) : rstate * res Z :=
  let '(h, rs) := st in
  match c with
  | Reach gp rp a =>
      match find_group rs gp with
      | (rs', Err e) => ((h, rs'), Err e)
      | (rs', Ok g) =>
          match find_reg h g rp with
          | (h', Err e) => ((h', rs'), Err e)
          | (h', Ok r) => let '(h2, x) := on_reg h' r (act a) in ((h2, rs'), x)
          end
      end
  | ClearGroup gp =>
      match find_group rs gp with
      | (rs', Err e) => ((h, rs'), Err e)
      | (rs', Ok g) => let '(h2, x) := group_clear h g in ((h2, rs'), do _ <- x; Ok 0)
      end
  | ClearAll => let '(h2, rs2, x) := registers_clear h rs in ((h2, rs2), do _ <- x; Ok 0)
  | Len gp =>
      match find_group rs gp with
      | (rs', Err e) => ((h, rs'), Err e)
      | (rs', Ok g) => ((h, rs'), do gr <- deref (h_groups h) g; Ok (group_len gr))
      end
  | LenAll => (st, Ok (registers_len rs))
  end.
Fixpoint regs_trace (st : rstate) (cs : list rcall) : list (res Z) :=
  match cs with
  | [] => []
  | c :: cs' => let '(st', o) := regs_call st c in o :: regs_trace st' cs'
  end.
Definition regs_run (st : rstate) (cs : list rcall) : rstate :=
  fold_left (fun st c => fst (regs_call st c)) cs st.
