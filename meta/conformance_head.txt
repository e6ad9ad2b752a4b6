(** Generated by meta/conformance.py from the project's unit tests; do not edit.
    These are tests of the model, not properties of it: the model is run on the
    calls of /repo/h800/*_test.py and must give the answers those tests expect.
    Loop variables, loops over ranges and the helper functions of the tests are
    unfolded by the translator.  Loops over registers.Registers visit nothing
    the second time (the iterators are never reset), so a random value drawn in
    such a loop is replaced by 12345. *)
From Verif Require Import Py MBitField MWord MRegisters MMemory MInstruction MInstructions MCards LMemory.

Definition rejected {A} (r : res A) : bool :=
  match r with Err ValueError => true | _ => false end.
Definition says (r : res Z) (v : Z) : bool :=
  match r with Ok x => x =? v | Err _ => false end.
Definition saysb (r : res bool) (v : bool) : bool :=
  match r with Ok x => Bool.eqb x v | Err _ => false end.
Definition done {S} (p : S * res unit) (k : S -> bool) : bool :=
  match p with (s, Ok _) => k s | (_, Err _) => false end.

(** What the tests do with one object: calls, and observations with the answer expected *)
Inductive step :=
| Value (v : Z) | Maxval (v : Z) | Width (v : Z) | Len (v : Z)
| Get (k : key) (v : Z) | Put (k : key) (v : Z) | SetVal (v : Z)
| BSet (i : option Z) | BClear (i : option Z)
| IsBitSet (i : Z) (b : bool) | IsBitClr (i : Z) (b : bool)
| IsRange (s e v : Z) (b : bool) | IsRangeSet (s e : Z) (b : bool) | IsRangeClr (s e : Z) (b : bool)
| Field (f : field) (v : Z) | SetField (f : field) (v : Z).

Fixpoint bf_steps (b : bf) (l : list step) : bool :=
  match l with
  | [] => true
  | s :: r =>
      match s with
      | Value v => (bf_value b =? v) && bf_steps b r
      | Maxval v => (bf_maxval b =? v) && bf_steps b r
      | Width v | Len v => (bf_width b =? v) && bf_steps b r
      | Get k v => says (bf_getitem b k) v && bf_steps b r
      | IsBitSet i x => saysb (bf_isBitSet b i) x && bf_steps b r
      | IsBitClr i x => saysb (bf_isBitClr b i) x && bf_steps b r
      | IsRange s e v x => saysb (bf_isRange b (Some s) (Some e) v) x && bf_steps b r
      | IsRangeSet s e x => saysb (bf_isRangeSet b (Some s) (Some e)) x && bf_steps b r
      | IsRangeClr s e x => saysb (bf_isRangeClr b (Some s) (Some e)) x && bf_steps b r
      | Put k v => done (bf_setitem b k v) (fun b => bf_steps b r)
      | SetVal v => done (bf_set_value b v) (fun b => bf_steps b r)
      | BSet i => done (bf_set b i) (fun b => bf_steps b r)
      | BClear i => done (bf_clear b i) (fun b => bf_steps b r)
      | _ => false
      end
  end.
Fixpoint word_steps (w : word) (l : list step) : bool :=
  match l with
  | [] => true
  | Value v :: r => (word_value w =? v) && word_steps w r
  | SetVal v :: r => done (word_set_value w v) (fun w => word_steps w r)
  | _ => false
  end.
Fixpoint iw_steps (w : iword) (l : list step) : bool :=
  match l with
  | [] => true
  | Value v :: r => (iw_value w =? v) && iw_steps w r
  | SetVal v :: r => done (iw_set_value w v) (fun w => iw_steps w r)
  | Field f v :: r => says (iw_get w f) v && iw_steps w r
  | SetField f v :: r => done (iw_set w f v) (fun w => iw_steps w r)
  | _ => false
  end.
Fixpoint reg_steps (g : register) (l : list step) : register * bool :=
  match l with
  | [] => (g, true)
  | s :: r =>
      let put (p : register * res unit) :=
        match p with (g', Ok _) => reg_steps g' r | (g', Err _) => (g', false) end in
      match s with
      | Value v => if reg_value g =? v then reg_steps g r else (g, false)
      | Get k v => if says (reg_getitem g k) v then reg_steps g r else (g, false)
      | Put k v => put (reg_setitem g k v)
      | SetVal v => put (reg_set_value g v)
      | _ => (g, false)
      end
  end.
Definition script {A} (run : A -> list step -> bool) (o : res A) (l : list step) : bool :=
  match o with Ok x => run x l | Err _ => false end.
Definition bf_script := script bf_steps.
Definition word_script := script word_steps.
Definition iw_script := script iw_steps.
Definition reg_script := script (fun g l => snd (reg_steps g l)).

(** Register groups: steps on register number i; [GTry] must end in a ValueError *)
Inductive gstep := On (i : Z) (s : step) | GTry (l : list gstep).
Definition gact (s : step) : option action :=
  match s with SetVal v => Some (ASetValue v) | Value _ => Some AValue | _ => None end.
Definition grun (h : heap) (g : nat) (i : Z) (s : step) : heap * res Z :=
  match gact s with
  | None => (h, Err NameError)
  | Some a =>
      match find_reg h g (AtReg (KI i)) with
      | (h', Err e) => (h', Err e)
      | (h', Ok r) => on_reg h' r (act a)
      end
  end.
Definition gexpect (s : step) (x : Z) : bool := match s with Value v => x =? v | _ => true end.
Fixpoint gtry (h : heap) (g : nat) (l : list gstep) : heap * bool :=
  match l with
  | On i s :: r =>
      match grun h g i s with
      | (h', Ok _) => gtry h' g r
      | (h', Err ValueError) => (h', true)
      | (h', Err _) => (h', false)
      end
  | _ => (h, false)
  end.
Fixpoint group_steps (h : heap) (g : nat) (l : list gstep) : bool :=
  match l with
  | [] => true
  | On i s :: r =>
      match grun h g i s with
      | (h', Ok x) => gexpect s x && group_steps h' g r
      | _ => false
      end
  | GTry t :: r => let '(h', b) := gtry h g t in b && group_steps h' g r
  end.
Definition group_script (width : Z) (l : list gstep) : bool :=
  match group_new heap0 width with (h, Ok g) => group_steps h g l | _ => false end.

(** Registers: [Each body] is `for group in registers: for register in group: body` *)
Inductive rstep := Each (l : list step) | ClearAll_.
Fixpoint each_reg (fuel : nat) (h : heap) (g : nat) (l : list step) : heap * bool :=
  match fuel with
  | O => (h, false)
  | S f =>
      match heap_group_next h g with
      | (h', Err StopIteration) => (h', true)
      | (h', Err _) => (h', false)
      | (h', Ok r) =>
          match on_reg h' r (fun x => let '(x', b) := reg_steps x l in (x', Ok b)) with
          | (h2, Ok true) => each_reg f h2 g l
          | (h2, _) => (h2, false)
          end
      end
  end.
Fixpoint each_group (fuel : nat) (h : heap) (rs : registers) (l : list step) : heap * registers * bool :=
  match fuel with
  | O => (h, rs, false)
  | S f =>
      match registers_next rs with
      | (rs', Err StopIteration) => (h, rs', true)
      | (rs', Err _) => (h, rs', false)
      | (rs', Ok g) =>
          match each_reg 40 h g l with
          | (h', true) => each_group f h' rs' l
          | (h', false) => (h', rs', false)
          end
      end
  end.
Fixpoint registers_steps (h : heap) (rs : registers) (l : list rstep) : bool :=
  match l with
  | [] => true
  | Each b :: r => let '(h', rs', ok) := each_group 10 h rs b in ok && registers_steps h' rs' r
  | ClearAll_ :: r =>
      match registers_clear h rs with (h', rs', Ok _) => registers_steps h' rs' r | _ => false end
  end.
Definition registers_script (width : Z) (l : list rstep) : bool :=
  match registers_new heap0 width with (h, Ok rs) => registers_steps h rs l | _ => false end.

(** instructions_test.py:54-96 the namedtuples and the runners *)
Inductive tdata :=
| TMasked (s m : Z) | TUnmasked (s a b c : Z) | TSim (s : Z) | TPaddr (p : Z) | TConst (d : Z) | TNone.
Definition tcall (c : str) (t : tdata) : res Z :=
  let sm x := Some (Some x) in
  let cl k := do i <- class_call c k; Ok (instr_value i) in
  match t with
  | TMasked s m => cl (mkkw (sm s) (sm m) None None None None)
  | TUnmasked s a b d => cl (mkkw (sm s) None (sm a) (sm b) (sm d) None)
  | TSim s => cl (mkkw (sm s) None None None None None)
  | TPaddr p => cl (mkkw None None None None None (sm p))
  | TNone => cl (mkkw None None None None None None)
  | TConst d => do w <- constant_call c d; Ok (word_value w)
  end.
Definition run_tests (l : list (str * tdata * res Z)) : bool :=
  forallb (fun x => let '(c, t, good) := x in
                    match good with Ok g => says (tcall c t) g | Err _ => false end) l.
Definition run_exception_tests (l : list (str * tdata * res Z)) : bool :=
  forallb (fun x => let '(c, t, _) := x in rejected (tcall c t)) l.

(** instructions_test.py test_machine_instructions: no code appears twice *)
Fixpoint no_dup (l : list Z) : bool :=
  match l with [] => true | x :: r => negb (inb x r) && no_dup r end.
Example instructions_test_machine_instructions :
  (do d <- all_codes OPCODES; Ok (no_dup (flat_map snd d))) = Ok true.
Proof. vm_compute. reflexivity. Qed.

(** memory_test.py: the sizes of the modules.  The sweeps over all words are
    instances of C25_bank_is_array and C30_modules. *)
Example memory_test_sizes :
  (do m <- memory_module; module_size m) = Ok 8192
  /\ (do m <- expansion_module; module_size m) = Ok 16384.
Proof. unfold memory_module, expansion_module, module_new. rewrite bank_new_value. vm_compute. split; reflexivity. Qed.
