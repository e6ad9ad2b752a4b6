(** Generated by meta/conformance.py from the project's unit tests; do not edit.
    These are tests of the model, not properties of it: the model is run on the
    calls of /repo/h800/*_test.py and must give the answers those tests expect.
    Loop variables, loops over ranges and the helper functions of the tests are
    unfolded by the translator.  Loops over registers.Registers visit nothing
    the second time (the iterators are never reset), so a random value drawn in
    such a loop is replaced by 12345. *)
From Verif Require Import Py MBitField MWord MRegisters MMemory MInstruction MInstructions MCards LMemory.

Definition rejected {A} (r : res A) : bool :=
  match r with Err ValueError => true | _ => false end.
Definition says (r : res Z) (v : Z) : bool :=
  match r with Ok x => x =? v | Err _ => false end.
Definition saysb (r : res bool) (v : bool) : bool :=
  match r with Ok x => Bool.eqb x v | Err _ => false end.
Definition done {S} (p : S * res unit) (k : S -> bool) : bool :=
  match p with (s, Ok _) => k s | (_, Err _) => false end.

(** What the tests do with one object: calls, and observations with the answer expected *)
Inductive step :=
| Value (v : Z) | Maxval (v : Z) | Width (v : Z) | Len (v : Z)
| Get (k : key) (v : Z) | Put (k : key) (v : Z) | SetVal (v : Z)
| BSet (i : option Z) | BClear (i : option Z)
| IsBitSet (i : Z) (b : bool) | IsBitClr (i : Z) (b : bool)
| IsRange (s e v : Z) (b : bool) | IsRangeSet (s e : Z) (b : bool) | IsRangeClr (s e : Z) (b : bool)
| Field (f : field) (v : Z) | SetField (f : field) (v : Z).

Fixpoint bf_steps (b : bf) (l : list step) : bool :=
  match l with
  | [] => true
  | s :: r =>
      match s with
      | Value v => (bf_value b =? v) && bf_steps b r
      | Maxval v => (bf_maxval b =? v) && bf_steps b r
      | Width v | Len v => (bf_width b =? v) && bf_steps b r
      | Get k v => says (bf_getitem b k) v && bf_steps b r
      | IsBitSet i x => saysb (bf_isBitSet b i) x && bf_steps b r
      | IsBitClr i x => saysb (bf_isBitClr b i) x && bf_steps b r
      | IsRange s e v x => saysb (bf_isRange b (Some s) (Some e) v) x && bf_steps b r
      | IsRangeSet s e x => saysb (bf_isRangeSet b (Some s) (Some e)) x && bf_steps b r
      | IsRangeClr s e x => saysb (bf_isRangeClr b (Some s) (Some e)) x && bf_steps b r
      | Put k v => done (bf_setitem b k v) (fun b => bf_steps b r)
      | SetVal v => done (bf_set_value b v) (fun b => bf_steps b r)
      | BSet i => done (bf_set b i) (fun b => bf_steps b r)
      | BClear i => done (bf_clear b i) (fun b => bf_steps b r)
      | _ => false
      end
  end.
Fixpoint word_steps (w : word) (l : list step) : bool :=
  match l with
  | [] => true
  | Value v :: r => (word_value w =? v) && word_steps w r
  | SetVal v :: r => done (word_set_value w v) (fun w => word_steps w r)
  | _ => false
  end.
Fixpoint iw_steps (w : iword) (l : list step) : bool :=
  match l with
  | [] => true
  | Value v :: r => (iw_value w =? v) && iw_steps w r
  | SetVal v :: r => done (iw_set_value w v) (fun w => iw_steps w r)
  | Field f v :: r => says (iw_get w f) v && iw_steps w r
  | SetField f v :: r => done (iw_set w f v) (fun w => iw_steps w r)
  | _ => false
  end.
Fixpoint reg_steps (g : register) (l : list step) : register * bool :=
  match l with
  | [] => (g, true)
  | s :: r =>
      let put (p : register * res unit) :=
        match p with (g', Ok _) => reg_steps g' r | (g', Err _) => (g', false) end in
      match s with
      | Value v => if reg_value g =? v then reg_steps g r else (g, false)
      | Get k v => if says (reg_getitem g k) v then reg_steps g r else (g, false)
      | Put k v => put (reg_setitem g k v)
      | SetVal v => put (reg_set_value g v)
      | _ => (g, false)
      end
  end.
Definition script {A} (run : A -> list step -> bool) (o : res A) (l : list step) : bool :=
  match o with Ok x => run x l | Err _ => false end.
Definition bf_script := script bf_steps.
Definition word_script := script word_steps.
Definition iw_script := script iw_steps.
Definition reg_script := script (fun g l => snd (reg_steps g l)).

(** Register groups: steps on register number i; [GTry] must end in a ValueError *)
Inductive gstep := On (i : Z) (s : step) | GTry (l : list gstep).
Definition gact (s : step) : option action :=
  match s with SetVal v => Some (ASetValue v) | Value _ => Some AValue | _ => None end.
Definition grun (h : heap) (g : nat) (i : Z) (s : step) : heap * res Z :=
  match gact s with
  | None => (h, Err NameError)
  | Some a =>
      match find_reg h g (AtReg (KI i)) with
      | (h', Err e) => (h', Err e)
      | (h', Ok r) => on_reg h' r (act a)
      end
  end.
Definition gexpect (s : step) (x : Z) : bool := match s with Value v => x =? v | _ => true end.
Fixpoint gtry (h : heap) (g : nat) (l : list gstep) : heap * bool :=
  match l with
  | On i s :: r =>
      match grun h g i s with
      | (h', Ok _) => gtry h' g r
      | (h', Err ValueError) => (h', true)
      | (h', Err _) => (h', false)
      end
  | _ => (h, false)
  end.
Fixpoint group_steps (h : heap) (g : nat) (l : list gstep) : bool :=
  match l with
  | [] => true
  | On i s :: r =>
      match grun h g i s with
      | (h', Ok x) => gexpect s x && group_steps h' g r
      | _ => false
      end
  | GTry t :: r => let '(h', b) := gtry h g t in b && group_steps h' g r
  end.
Definition group_script (width : Z) (l : list gstep) : bool :=
  match group_new heap0 width with (h, Ok g) => group_steps h g l | _ => false end.

(** Registers: [Each body] is `for group in registers: for register in group: body` *)
Inductive rstep := Each (l : list step) | ClearAll_.
Fixpoint each_reg (fuel : nat) (h : heap) (g : nat) (l : list step) : heap * bool :=
  match fuel with
  | O => (h, false)
  | S f =>
      match heap_group_next h g with
      | (h', Err StopIteration) => (h', true)
      | (h', Err _) => (h', false)
      | (h', Ok r) =>
          match on_reg h' r (fun x => let '(x', b) := reg_steps x l in (x', Ok b)) with
          | (h2, Ok true) => each_reg f h2 g l
          | (h2, _) => (h2, false)
          end
      end
  end.
Fixpoint each_group (fuel : nat) (h : heap) (rs : registers) (l : list step) : heap * registers * bool :=
  match fuel with
  | O => (h, rs, false)
  | S f =>
      match registers_next rs with
      | (rs', Err StopIteration) => (h, rs', true)
      | (rs', Err _) => (h, rs', false)
      | (rs', Ok g) =>
          match each_reg 40 h g l with
          | (h', true) => each_group f h' rs' l
          | (h', false) => (h', rs', false)
          end
      end
  end.
Fixpoint registers_steps (h : heap) (rs : registers) (l : list rstep) : bool :=
  match l with
  | [] => true
  | Each b :: r => let '(h', rs', ok) := each_group 10 h rs b in ok && registers_steps h' rs' r
  | ClearAll_ :: r =>
      match registers_clear h rs with (h', rs', Ok _) => registers_steps h' rs' r | _ => false end
  end.
Definition registers_script (width : Z) (l : list rstep) : bool :=
  match registers_new heap0 width with (h, Ok rs) => registers_steps h rs l | _ => false end.

(** instructions_test.py:54-96 the namedtuples and the runners *)
Inductive tdata :=
| TMasked (s m : Z) | TUnmasked (s a b c : Z) | TSim (s : Z) | TPaddr (p : Z) | TConst (d : Z) | TNone.
Definition tcall (c : str) (t : tdata) : res Z :=
  let sm x := Some (Some x) in
  let cl k := do i <- class_call c k; Ok (instr_value i) in
  match t with
  | TMasked s m => cl (mkkw (sm s) (sm m) None None None None)
  | TUnmasked s a b d => cl (mkkw (sm s) None (sm a) (sm b) (sm d) None)
  | TSim s => cl (mkkw (sm s) None None None None None)
  | TPaddr p => cl (mkkw None None None None None (sm p))
  | TNone => cl (mkkw None None None None None None)
  | TConst d => do w <- constant_call c d; Ok (word_value w)
  end.
Definition run_tests (l : list (str * tdata * res Z)) : bool :=
  forallb (fun x => let '(c, t, good) := x in
                    match good with Ok g => says (tcall c t) g | Err _ => false end) l.
Definition run_exception_tests (l : list (str * tdata * res Z)) : bool :=
  forallb (fun x => let '(c, t, _) := x in rejected (tcall c t)) l.

(** instructions_test.py test_machine_instructions: no code appears twice *)
Fixpoint no_dup (l : list Z) : bool :=
  match l with [] => true | x :: r => negb (inb x r) && no_dup r end.
Example instructions_test_machine_instructions :
  (do d <- all_codes OPCODES; Ok (no_dup (flat_map snd d))) = Ok true.
Proof. vm_compute. reflexivity. Qed.

(** memory_test.py: the sizes of the modules.  The sweeps over all words are
    instances of C25_bank_is_array and C30_modules. *)
Example memory_test_sizes :
  (do m <- memory_module; module_size m) = Ok 8192
  /\ (do m <- expansion_module; module_size m) = Ok 16384.
Proof. unfold memory_module, expansion_module, module_new. rewrite bank_new_value. vm_compute. split; reflexivity. Qed.

(** bitfield_test.py:10 test_simple *)
Example bitfield_test_simple :
  ((bf_script (bf_new 0 8 0 1) [Value 0; Maxval 255; Width 8; Len 8])) = true.
Proof. vm_compute. reflexivity. Qed.

(** bitfield_test.py:22 test_msb_left_8bit *)
Example bitfield_test_msb_left_8bit :
  ((bf_script (bf_new 8 8 0 0) [Value 8; Maxval 255; Width 8; Len 8; Put (Slice (Some 7) (Some 3)) 5; Value 40; Get (Idx 3) 1; IsBitSet 3 true; Get (Idx 5) 1; IsBitSet 5 true; Put (Idx 7) 1; Get (Idx 7) 1; IsBitSet 7 true; Value 168; Put (Slice (Some 7) (Some 0)) 255; Value 255; IsBitSet 7 true; IsBitClr 7 false; IsBitSet 6 true; IsBitClr 6 false; IsBitSet 5 true; IsBitClr 5 false; IsBitSet 4 true; IsBitClr 4 false; IsBitSet 3 true; IsBitClr 3 false; IsBitSet 2 true; IsBitClr 2 false; IsBitSet 1 true; IsBitClr 1 false; IsBitSet 0 true; IsBitClr 0 false; Value 255; IsRange 7 0 1 true; IsRangeSet 7 0 true; IsRangeClr 7 0 false])) = true.
Proof. vm_compute. reflexivity. Qed.

(** bitfield_test.py:70 test_msb_left_15bit *)
Example bitfield_test_msb_left_15bit :
  ((bf_script (bf_new 15 8 0 0) [Value 15; Maxval 255; Width 8; Get (Idx 7) 0; IsBitSet 7 false; IsBitClr 7 true; Get (Idx 6) 0; IsBitSet 6 false; IsBitClr 6 true; Get (Idx 5) 0; IsBitSet 5 false; IsBitClr 5 true; Get (Idx 4) 0; IsBitSet 4 false; IsBitClr 4 true; Get (Idx 3) 1; IsBitSet 3 true; IsBitClr 3 false; Get (Idx 2) 1; IsBitSet 2 true; IsBitClr 2 false; Get (Idx 1) 1; IsBitSet 1 true; IsBitClr 1 false; Get (Idx 0) 1; IsBitSet 0 true; IsBitClr 0 false])) = true.
Proof. vm_compute. reflexivity. Qed.

(** bitfield_test.py:112 test_msb_right_8bit *)
Example bitfield_test_msb_right_8bit :
  ((bf_script (bf_new 8 8 0 1) [Value 8; Maxval 255; Width 8; Put (Slice (Some 3) (Some 7)) 5; Value 40; Get (Idx 3) 1; IsBitSet 3 true; IsBitClr 3 false; Get (Idx 5) 1; IsBitSet 5 true; IsBitClr 5 false; Put (Idx 7) 1; Get (Idx 7) 1; IsBitSet 7 true; IsBitClr 7 false; Value 168; Put (Slice (Some 0) (Some 7)) 255; IsBitSet 0 true; IsBitClr 0 false; IsBitSet 1 true; IsBitClr 1 false; IsBitSet 2 true; IsBitClr 2 false; IsBitSet 3 true; IsBitClr 3 false; IsBitSet 4 true; IsBitClr 4 false; IsBitSet 5 true; IsBitClr 5 false; IsBitSet 6 true; IsBitClr 6 false; IsBitSet 7 true; IsBitClr 7 false; Value 255])) = true.
Proof. vm_compute. reflexivity. Qed.

(** bitfield_test.py:156 test_invalid_args *)
Example bitfield_test_invalid_args :
  ((rejected (bf_new 256 65 0 1)) &&
   (rejected (bf_new 256 8 0 1))) = true.
Proof. vm_compute. reflexivity. Qed.

(** bitfield_test.py:179 test_msb_left_msb1_48bit *)
Example bitfield_test_msb_left_msb1_48bit :
  ((bf_script (bf_new 0 48 3 0) [Value 0; Maxval 281474976710655; Width 48; Len 48; Put (Slice (Some 33) (Some 48)) 65535; Value 65535; Put (Slice (Some 1) (Some 48)) 0; Value 0; Put (Slice (Some 1) (Some 48)) 281474976710655; Value 281474976710655; Put (Slice (Some 1) (Some 48)) 0; Value 0; BSet None; Value 281474976710655; BClear None; Value 0; Put (Slice (Some 1) (Some 12)) 2730; Value 187604171489280; BClear None; Value 0; Put (Slice (Some 13) (Some 24)) 2730; Value 45801799680; BClear None; Value 0; Put (Slice (Some 25) (Some 36)) 2730; Value 11182080; BClear None; Value 0; Put (Slice (Some 37) (Some 48)) 2730; Value 2730; BClear None; Value 0])) = true.
Proof. vm_compute. reflexivity. Qed.

(** bitfield_test.py:234 test_msb_left_msb1_12bit *)
Example bitfield_test_msb_left_msb1_12bit :
  ((bf_script (bf_new 0 12 3 0) [Value 0; Maxval 4095; Width 12; Len 12; Put (Slice (Some 9) (Some 12)) 15; Value 15; Put (Slice (Some 1) (Some 12)) 0; Value 0; Put (Slice (Some 1) (Some 12)) 4095; Value 4095; Put (Slice (Some 1) (Some 12)) 0; Value 0; BSet None; Value 4095; BClear None; Value 0; Put (Slice (Some 1) (Some 6)) 42; Value 2688; BClear None; Value 0; Put (Slice (Some 7) (Some 12)) 42; Value 42; BClear None; Value 0; BSet (Some 1); Value 2048; BClear (Some 1); Value 0; BSet (Some 2); Value 1024; BClear (Some 2); Value 0; BSet (Some 3); Value 512; BClear (Some 3); Value 0; BSet (Some 4); Value 256; BClear (Some 4); Value 0; BSet (Some 5); Value 128; BClear (Some 5); Value 0; BSet (Some 6); Value 64; BClear (Some 6); Value 0; BSet (Some 7); Value 32; BClear (Some 7); Value 0; BSet (Some 8); Value 16; BClear (Some 8); Value 0; BSet (Some 9); Value 8; BClear (Some 9); Value 0; BSet (Some 10); Value 4; BClear (Some 10); Value 0; BSet (Some 11); Value 2; BClear (Some 11); Value 0; BSet (Some 12); Value 1; BClear (Some 12); Value 0; BSet (Some 12); Value 1; BClear (Some 12); Value 0; BSet (Some 11); Value 2; BClear (Some 11); Value 0; BSet (Some 10); Value 4; BClear (Some 10); Value 0; BSet (Some 9); Value 8; BClear (Some 9); Value 0; BSet (Some 8); Value 16; BClear (Some 8); Value 0; BSet (Some 7); Value 32; BClear (Some 7); Value 0; BSet (Some 6); Value 64; BClear (Some 6); Value 0; BSet (Some 5); Value 128; BClear (Some 5); Value 0; BSet (Some 4); Value 256; BClear (Some 4); Value 0; BSet (Some 3); Value 512; BClear (Some 3); Value 0; BSet (Some 2); Value 1024; BClear (Some 2); Value 0; BSet (Some 1); Value 2048; BClear (Some 1); Value 0; BSet (Some 1); Value 2048; BSet (Some 2); Value 3072; BSet (Some 3); Value 3584; BSet (Some 4); Value 3840; BSet (Some 5); Value 3968; BSet (Some 6); Value 4032; BSet (Some 7); Value 4064; BSet (Some 8); Value 4080; BSet (Some 9); Value 4088; BSet (Some 10); Value 4092; BSet (Some 11); Value 4094; BSet (Some 12); Value 4095; BClear None; Value 0; BSet (Some 12); Value 1; BSet (Some 11); Value 3; BSet (Some 10); Value 7; BSet (Some 9); Value 15; BSet (Some 8); Value 31; BSet (Some 7); Value 63; BSet (Some 6); Value 127; BSet (Some 5); Value 255; BSet (Some 4); Value 511; BSet (Some 3); Value 1023; BSet (Some 2); Value 2047; BSet (Some 1); Value 4095; BClear None; Value 0])) = true.
Proof. vm_compute. reflexivity. Qed.

(** bitfield_test.py:306 test_misc_12bit *)
Example bitfield_test_misc_12bit :
  ((bf_script (bf_new 0 12 3 0) [Value 0; Put (Idx 1) 1; Value 2048; Put (Idx 7) 1; Value 2080; Put (Slice (Some 1) (Some 6)) 0; Value 32; Put (Slice (Some 8) (Some 12)) 5; Value 37])) = true.
Proof. vm_compute. reflexivity. Qed.

(** word_test.py:8 test_word_simple_defaults *)
Example word_test_word_simple_defaults :
  ((word_script (word_new 0) [Value 0]) &&
   (word_script (word_new 4095) [Value 4095]) &&
   (word_script (word_new 281406274007040) [Value 281406274007040]) &&
   (word_script (word_new 281474976710655) [Value 281474976710655])) = true.
Proof. vm_compute. reflexivity. Qed.

(** word_test.py:20 test_word_invalid_args *)
Example word_test_word_invalid_args :
  ((rejected (word_new (-1))) &&
   (rejected (word_new 281474976710656))) = true.
Proof. vm_compute. reflexivity. Qed.

(** word_test.py:43 test_inst_simple_defaults *)
Example word_test_inst_simple_defaults :
  ((iw_script (iw_new 0 0 0 0) [Value 0]) &&
   (iw_script (iw_new 0 4095 0 4095) [Value 68702703615]) &&
   (iw_script (iw_new 4095 0 4095 0) [Value 281406274007040]) &&
   (iw_script (iw_new 4095 4095 4095 4095) [Value 281474976710655])) = true.
Proof. vm_compute. reflexivity. Qed.

(** word_test.py:55 test_inst_field_set_get *)
Example word_test_inst_field_set_get :
  ((iw_script (iw_new 0 0 0 0) [Value 0; SetField Command 4095; Field Command 4095; Field FA 0; Field FB 0; Field FC 0; Value 281406257233920; SetVal 0; Value 0; SetField FA 4095; Field Command 0; Field FA 4095; Field FB 0; Field FC 0; Value 68702699520; SetVal 0; Value 0; SetField FB 4095; Field Command 0; Field FA 0; Field FB 4095; Field FC 0; Value 16773120; SetVal 0; Value 0; SetField FC 4095; Field Command 0; Field FA 0; Field FB 0; Field FC 4095; Value 4095; SetVal 0; Value 0])) = true.
Proof. vm_compute. reflexivity. Qed.

(** registers_test.py:10 test_register_16bit_simple_defaults *)
Example registers_test_register_16bit_simple_defaults :
  ((reg_script (register_new 0 None 16) [Value 0]) &&
   (reg_script (register_new 4095 None 16) [Value 4095]) &&
   (reg_script (register_new 65535 None 16) [Value 65535]) &&
   (reg_script (register_new 65535 None 16) [Value 65535])) = true.
Proof. vm_compute. reflexivity. Qed.

(** registers_test.py:22 test_register_16bit_invalid_args *)
Example registers_test_register_16bit_invalid_args :
  ((rejected (register_new (-1) None 16)) &&
   (rejected (register_new 65536 None 16))) = true.
Proof. vm_compute. reflexivity. Qed.

(** registers_test.py:44 test_register_16bit_args_range *)
Example registers_test_register_16bit_args_range :
  ((reg_script (register_new 0 None 16) [])) = true.
Proof. vm_compute. reflexivity. Qed.

(** registers_test.py:52 test_register_16bit_slices *)
Example registers_test_register_16bit_slices :
  ((reg_script (register_new 0 None 16) [Value 0]) &&
   (reg_script (register_new 511 None 16) [Value 511; Put (Idx 1) 1; Value 33279; Put (Idx 1) 0; Value 511; Put (Slice (Some 1) (Some 16)) 0; Get (Slice (Some 1) (Some 16)) 0; Put (Idx 1) 1; Get (Idx 1) 1; Value 32768; Put (Idx 1) 0; Get (Idx 1) 0; Value 0; Put (Idx 2) 1; Get (Idx 2) 1; Value 16384; Put (Idx 2) 0; Get (Idx 2) 0; Value 0; Put (Idx 3) 1; Get (Idx 3) 1; Value 8192; Put (Idx 3) 0; Get (Idx 3) 0; Value 0; Put (Idx 4) 1; Get (Idx 4) 1; Value 4096; Put (Idx 4) 0; Get (Idx 4) 0; Value 0; Put (Idx 5) 1; Get (Idx 5) 1; Value 2048; Put (Idx 5) 0; Get (Idx 5) 0; Value 0; Put (Idx 6) 1; Get (Idx 6) 1; Value 1024; Put (Idx 6) 0; Get (Idx 6) 0; Value 0; Put (Idx 7) 1; Get (Idx 7) 1; Value 512; Put (Idx 7) 0; Get (Idx 7) 0; Value 0; Put (Idx 8) 1; Get (Idx 8) 1; Value 256; Put (Idx 8) 0; Get (Idx 8) 0; Value 0; Put (Idx 9) 1; Get (Idx 9) 1; Value 128; Put (Idx 9) 0; Get (Idx 9) 0; Value 0; Put (Idx 10) 1; Get (Idx 10) 1; Value 64; Put (Idx 10) 0; Get (Idx 10) 0; Value 0; Put (Idx 11) 1; Get (Idx 11) 1; Value 32; Put (Idx 11) 0; Get (Idx 11) 0; Value 0; Put (Idx 12) 1; Get (Idx 12) 1; Value 16; Put (Idx 12) 0; Get (Idx 12) 0; Value 0; Put (Idx 13) 1; Get (Idx 13) 1; Value 8; Put (Idx 13) 0; Get (Idx 13) 0; Value 0; Put (Idx 14) 1; Get (Idx 14) 1; Value 4; Put (Idx 14) 0; Get (Idx 14) 0; Value 0; Put (Idx 15) 1; Get (Idx 15) 1; Value 2; Put (Idx 15) 0; Get (Idx 15) 0; Value 0; Put (Idx 16) 1; Get (Idx 16) 1; Value 1; Put (Idx 16) 0; Get (Idx 16) 0; Value 0])) = true.
Proof. vm_compute. reflexivity. Qed.

(** registers_test.py:73 test_register_24bit_simple_defaults *)
Example registers_test_register_24bit_simple_defaults :
  ((reg_script (register_new 0 None 24) [Value 0]) &&
   (reg_script (register_new 4095 None 24) [Value 4095]) &&
   (reg_script (register_new 65535 None 24) [Value 65535]) &&
   (reg_script (register_new 65535 None 24) [Value 65535]) &&
   (reg_script (register_new 16777215 None 24) [Value 16777215])) = true.
Proof. vm_compute. reflexivity. Qed.

(** registers_test.py:87 test_register_24bit_invalid_args *)
Example registers_test_register_24bit_invalid_args :
  ((rejected (register_new (-1) None 24)) &&
   (rejected (register_new 16777216 None 24))) = true.
Proof. vm_compute. reflexivity. Qed.

(** registers_test.py:109 test_register_24bit_args_range *)
Example registers_test_register_24bit_args_range :
  ((reg_script (register_new 0 None 24) [])) = true.
Proof. vm_compute. reflexivity. Qed.

(** registers_test.py:117 test_register_24bit_slices *)
Example registers_test_register_24bit_slices :
  ((reg_script (register_new 0 None 24) [Value 0]) &&
   (reg_script (register_new 511 None 24) [Value 511; Put (Idx 1) 1; Value 8389119; Put (Idx 1) 0; Value 511; Put (Slice (Some 1) (Some 24)) 0; Get (Slice (Some 1) (Some 24)) 0; Put (Idx 1) 1; Get (Idx 1) 1; Value 8388608; Put (Idx 1) 0; Get (Idx 1) 0; Value 0; Put (Idx 2) 1; Get (Idx 2) 1; Value 4194304; Put (Idx 2) 0; Get (Idx 2) 0; Value 0; Put (Idx 3) 1; Get (Idx 3) 1; Value 2097152; Put (Idx 3) 0; Get (Idx 3) 0; Value 0; Put (Idx 4) 1; Get (Idx 4) 1; Value 1048576; Put (Idx 4) 0; Get (Idx 4) 0; Value 0; Put (Idx 5) 1; Get (Idx 5) 1; Value 524288; Put (Idx 5) 0; Get (Idx 5) 0; Value 0; Put (Idx 6) 1; Get (Idx 6) 1; Value 262144; Put (Idx 6) 0; Get (Idx 6) 0; Value 0; Put (Idx 7) 1; Get (Idx 7) 1; Value 131072; Put (Idx 7) 0; Get (Idx 7) 0; Value 0; Put (Idx 8) 1; Get (Idx 8) 1; Value 65536; Put (Idx 8) 0; Get (Idx 8) 0; Value 0; Put (Idx 9) 1; Get (Idx 9) 1; Value 32768; Put (Idx 9) 0; Get (Idx 9) 0; Value 0; Put (Idx 10) 1; Get (Idx 10) 1; Value 16384; Put (Idx 10) 0; Get (Idx 10) 0; Value 0; Put (Idx 11) 1; Get (Idx 11) 1; Value 8192; Put (Idx 11) 0; Get (Idx 11) 0; Value 0; Put (Idx 12) 1; Get (Idx 12) 1; Value 4096; Put (Idx 12) 0; Get (Idx 12) 0; Value 0; Put (Idx 13) 1; Get (Idx 13) 1; Value 2048; Put (Idx 13) 0; Get (Idx 13) 0; Value 0; Put (Idx 14) 1; Get (Idx 14) 1; Value 1024; Put (Idx 14) 0; Get (Idx 14) 0; Value 0; Put (Idx 15) 1; Get (Idx 15) 1; Value 512; Put (Idx 15) 0; Get (Idx 15) 0; Value 0; Put (Idx 16) 1; Get (Idx 16) 1; Value 256; Put (Idx 16) 0; Get (Idx 16) 0; Value 0; Put (Idx 17) 1; Get (Idx 17) 1; Value 128; Put (Idx 17) 0; Get (Idx 17) 0; Value 0; Put (Idx 18) 1; Get (Idx 18) 1; Value 64; Put (Idx 18) 0; Get (Idx 18) 0; Value 0; Put (Idx 19) 1; Get (Idx 19) 1; Value 32; Put (Idx 19) 0; Get (Idx 19) 0; Value 0; Put (Idx 20) 1; Get (Idx 20) 1; Value 16; Put (Idx 20) 0; Get (Idx 20) 0; Value 0; Put (Idx 21) 1; Get (Idx 21) 1; Value 8; Put (Idx 21) 0; Get (Idx 21) 0; Value 0; Put (Idx 22) 1; Get (Idx 22) 1; Value 4; Put (Idx 22) 0; Get (Idx 22) 0; Value 0; Put (Idx 23) 1; Get (Idx 23) 1; Value 2; Put (Idx 23) 0; Get (Idx 23) 0; Value 0; Put (Idx 24) 1; Get (Idx 24) 1; Value 1; Put (Idx 24) 0; Get (Idx 24) 0; Value 0])) = true.
Proof. vm_compute. reflexivity. Qed.

(** registers_test.py:138 test_registergroup_invalid_args *)
Example registers_test_registergroup_invalid_args :
  ((rejected (snd (group_new heap0 17))) &&
   (rejected (snd (group_new heap0 25)))) = true.
Proof. vm_compute. reflexivity. Qed.

(** registers_test.py:160 test_registergroup_16bit_simple_defaults *)
Example registers_test_registergroup_16bit_simple_defaults :
  ((group_script 16 [On 0 (Value 0); On 1 (Value 0); On 2 (Value 0); On 3 (Value 0); On 4 (Value 0); On 5 (Value 0); On 6 (Value 0); On 7 (Value 0); On 8 (Value 0); On 9 (Value 0); On 10 (Value 0); On 11 (Value 0); On 12 (Value 0); On 13 (Value 0); On 14 (Value 0); On 15 (Value 0); On 16 (Value 0); On 17 (Value 0); On 18 (Value 0); On 19 (Value 0); On 20 (Value 0); On 21 (Value 0); On 22 (Value 0); On 23 (Value 0); On 24 (Value 0); On 25 (Value 0); On 26 (Value 0); On 27 (Value 0); On 28 (Value 0); On 29 (Value 0); On 30 (Value 0); On 31 (Value 0); On 0 (SetVal 65535); On 0 (Value 65535); On 1 (SetVal 65535); On 1 (Value 65535); On 2 (SetVal 65535); On 2 (Value 65535); On 3 (SetVal 65535); On 3 (Value 65535); On 4 (SetVal 65535); On 4 (Value 65535); On 5 (SetVal 65535); On 5 (Value 65535); On 6 (SetVal 65535); On 6 (Value 65535); On 7 (SetVal 65535); On 7 (Value 65535); On 8 (SetVal 65535); On 8 (Value 65535); On 9 (SetVal 65535); On 9 (Value 65535); On 10 (SetVal 65535); On 10 (Value 65535); On 11 (SetVal 65535); On 11 (Value 65535); On 12 (SetVal 65535); On 12 (Value 65535); On 13 (SetVal 65535); On 13 (Value 65535); On 14 (SetVal 65535); On 14 (Value 65535); On 15 (SetVal 65535); On 15 (Value 65535); On 16 (SetVal 65535); On 16 (Value 65535); On 17 (SetVal 65535); On 17 (Value 65535); On 18 (SetVal 65535); On 18 (Value 65535); On 19 (SetVal 65535); On 19 (Value 65535); On 20 (SetVal 65535); On 20 (Value 65535); On 21 (SetVal 65535); On 21 (Value 65535); On 22 (SetVal 65535); On 22 (Value 65535); On 23 (SetVal 65535); On 23 (Value 65535); On 24 (SetVal 65535); On 24 (Value 65535); On 25 (SetVal 65535); On 25 (Value 65535); On 26 (SetVal 65535); On 26 (Value 65535); On 27 (SetVal 65535); On 27 (Value 65535); On 28 (SetVal 65535); On 28 (Value 65535); On 29 (SetVal 65535); On 29 (Value 65535); On 30 (SetVal 65535); On 30 (Value 65535); On 31 (SetVal 65535); On 31 (Value 65535)])) = true.
Proof. vm_compute. reflexivity. Qed.

(** registers_test.py:170 test_registergroup_16bit_invalid_args *)
Example registers_test_registergroup_16bit_invalid_args :
  ((group_script 16 [GTry [On 0 (SetVal 0); On 1 (SetVal 0); On 2 (SetVal 0); On 3 (SetVal 0); On 4 (SetVal 0); On 5 (SetVal 0); On 6 (SetVal 0); On 7 (SetVal 0); On 8 (SetVal 0); On 9 (SetVal 0); On 10 (SetVal 0); On 11 (SetVal 0); On 12 (SetVal 0); On 13 (SetVal 0); On 14 (SetVal 0); On 15 (SetVal 0); On 16 (SetVal 0); On 17 (SetVal 0); On 18 (SetVal 0); On 19 (SetVal 0); On 20 (SetVal 0); On 21 (SetVal 0); On 22 (SetVal 0); On 23 (SetVal 0); On 24 (SetVal 0); On 25 (SetVal 0); On 26 (SetVal 0); On 27 (SetVal 0); On 28 (SetVal 0); On 29 (SetVal 0); On 30 (SetVal 0); On 31 (SetVal 0); On 32 (SetVal 0)]; GTry [On 0 (SetVal (-1)); On 1 (SetVal (-1)); On 2 (SetVal (-1)); On 3 (SetVal (-1)); On 4 (SetVal (-1)); On 5 (SetVal (-1)); On 6 (SetVal (-1)); On 7 (SetVal (-1)); On 8 (SetVal (-1)); On 9 (SetVal (-1)); On 10 (SetVal (-1)); On 11 (SetVal (-1)); On 12 (SetVal (-1)); On 13 (SetVal (-1)); On 14 (SetVal (-1)); On 15 (SetVal (-1)); On 16 (SetVal (-1)); On 17 (SetVal (-1)); On 18 (SetVal (-1)); On 19 (SetVal (-1)); On 20 (SetVal (-1)); On 21 (SetVal (-1)); On 22 (SetVal (-1)); On 23 (SetVal (-1)); On 24 (SetVal (-1)); On 25 (SetVal (-1)); On 26 (SetVal (-1)); On 27 (SetVal (-1)); On 28 (SetVal (-1)); On 29 (SetVal (-1)); On 30 (SetVal (-1)); On 31 (SetVal (-1))]; GTry [On 0 (SetVal 65536); On 1 (SetVal 65536); On 2 (SetVal 65536); On 3 (SetVal 65536); On 4 (SetVal 65536); On 5 (SetVal 65536); On 6 (SetVal 65536); On 7 (SetVal 65536); On 8 (SetVal 65536); On 9 (SetVal 65536); On 10 (SetVal 65536); On 11 (SetVal 65536); On 12 (SetVal 65536); On 13 (SetVal 65536); On 14 (SetVal 65536); On 15 (SetVal 65536); On 16 (SetVal 65536); On 17 (SetVal 65536); On 18 (SetVal 65536); On 19 (SetVal 65536); On 20 (SetVal 65536); On 21 (SetVal 65536); On 22 (SetVal 65536); On 23 (SetVal 65536); On 24 (SetVal 65536); On 25 (SetVal 65536); On 26 (SetVal 65536); On 27 (SetVal 65536); On 28 (SetVal 65536); On 29 (SetVal 65536); On 30 (SetVal 65536); On 31 (SetVal 65536)]])) = true.
Proof. vm_compute. reflexivity. Qed.

(** registers_test.py:204 test_registergroup_16bit_args_range *)
Example registers_test_registergroup_16bit_args_range :
  ((group_script 16 [])) = true.
Proof. vm_compute. reflexivity. Qed.

(** registers_test.py:213 test_registergroup_24bit_simple_defaults *)
Example registers_test_registergroup_24bit_simple_defaults :
  ((group_script 24 [On 0 (Value 0); On 1 (Value 0); On 2 (Value 0); On 3 (Value 0); On 4 (Value 0); On 5 (Value 0); On 6 (Value 0); On 7 (Value 0); On 8 (Value 0); On 9 (Value 0); On 10 (Value 0); On 11 (Value 0); On 12 (Value 0); On 13 (Value 0); On 14 (Value 0); On 15 (Value 0); On 16 (Value 0); On 17 (Value 0); On 18 (Value 0); On 19 (Value 0); On 20 (Value 0); On 21 (Value 0); On 22 (Value 0); On 23 (Value 0); On 24 (Value 0); On 25 (Value 0); On 26 (Value 0); On 27 (Value 0); On 28 (Value 0); On 29 (Value 0); On 30 (Value 0); On 31 (Value 0); On 0 (SetVal 16777215); On 0 (Value 16777215); On 1 (SetVal 16777215); On 1 (Value 16777215); On 2 (SetVal 16777215); On 2 (Value 16777215); On 3 (SetVal 16777215); On 3 (Value 16777215); On 4 (SetVal 16777215); On 4 (Value 16777215); On 5 (SetVal 16777215); On 5 (Value 16777215); On 6 (SetVal 16777215); On 6 (Value 16777215); On 7 (SetVal 16777215); On 7 (Value 16777215); On 8 (SetVal 16777215); On 8 (Value 16777215); On 9 (SetVal 16777215); On 9 (Value 16777215); On 10 (SetVal 16777215); On 10 (Value 16777215); On 11 (SetVal 16777215); On 11 (Value 16777215); On 12 (SetVal 16777215); On 12 (Value 16777215); On 13 (SetVal 16777215); On 13 (Value 16777215); On 14 (SetVal 16777215); On 14 (Value 16777215); On 15 (SetVal 16777215); On 15 (Value 16777215); On 16 (SetVal 16777215); On 16 (Value 16777215); On 17 (SetVal 16777215); On 17 (Value 16777215); On 18 (SetVal 16777215); On 18 (Value 16777215); On 19 (SetVal 16777215); On 19 (Value 16777215); On 20 (SetVal 16777215); On 20 (Value 16777215); On 21 (SetVal 16777215); On 21 (Value 16777215); On 22 (SetVal 16777215); On 22 (Value 16777215); On 23 (SetVal 16777215); On 23 (Value 16777215); On 24 (SetVal 16777215); On 24 (Value 16777215); On 25 (SetVal 16777215); On 25 (Value 16777215); On 26 (SetVal 16777215); On 26 (Value 16777215); On 27 (SetVal 16777215); On 27 (Value 16777215); On 28 (SetVal 16777215); On 28 (Value 16777215); On 29 (SetVal 16777215); On 29 (Value 16777215); On 30 (SetVal 16777215); On 30 (Value 16777215); On 31 (SetVal 16777215); On 31 (Value 16777215)])) = true.
Proof. vm_compute. reflexivity. Qed.

(** registers_test.py:223 test_registergroup_24bit_invalid_args *)
Example registers_test_registergroup_24bit_invalid_args :
  ((group_script 24 [GTry [On 0 (SetVal 0); On 1 (SetVal 0); On 2 (SetVal 0); On 3 (SetVal 0); On 4 (SetVal 0); On 5 (SetVal 0); On 6 (SetVal 0); On 7 (SetVal 0); On 8 (SetVal 0); On 9 (SetVal 0); On 10 (SetVal 0); On 11 (SetVal 0); On 12 (SetVal 0); On 13 (SetVal 0); On 14 (SetVal 0); On 15 (SetVal 0); On 16 (SetVal 0); On 17 (SetVal 0); On 18 (SetVal 0); On 19 (SetVal 0); On 20 (SetVal 0); On 21 (SetVal 0); On 22 (SetVal 0); On 23 (SetVal 0); On 24 (SetVal 0); On 25 (SetVal 0); On 26 (SetVal 0); On 27 (SetVal 0); On 28 (SetVal 0); On 29 (SetVal 0); On 30 (SetVal 0); On 31 (SetVal 0); On 32 (SetVal 0)]; GTry [On 0 (SetVal (-1)); On 1 (SetVal (-1)); On 2 (SetVal (-1)); On 3 (SetVal (-1)); On 4 (SetVal (-1)); On 5 (SetVal (-1)); On 6 (SetVal (-1)); On 7 (SetVal (-1)); On 8 (SetVal (-1)); On 9 (SetVal (-1)); On 10 (SetVal (-1)); On 11 (SetVal (-1)); On 12 (SetVal (-1)); On 13 (SetVal (-1)); On 14 (SetVal (-1)); On 15 (SetVal (-1)); On 16 (SetVal (-1)); On 17 (SetVal (-1)); On 18 (SetVal (-1)); On 19 (SetVal (-1)); On 20 (SetVal (-1)); On 21 (SetVal (-1)); On 22 (SetVal (-1)); On 23 (SetVal (-1)); On 24 (SetVal (-1)); On 25 (SetVal (-1)); On 26 (SetVal (-1)); On 27 (SetVal (-1)); On 28 (SetVal (-1)); On 29 (SetVal (-1)); On 30 (SetVal (-1)); On 31 (SetVal (-1))]; GTry [On 0 (SetVal 16777216); On 1 (SetVal 16777216); On 2 (SetVal 16777216); On 3 (SetVal 16777216); On 4 (SetVal 16777216); On 5 (SetVal 16777216); On 6 (SetVal 16777216); On 7 (SetVal 16777216); On 8 (SetVal 16777216); On 9 (SetVal 16777216); On 10 (SetVal 16777216); On 11 (SetVal 16777216); On 12 (SetVal 16777216); On 13 (SetVal 16777216); On 14 (SetVal 16777216); On 15 (SetVal 16777216); On 16 (SetVal 16777216); On 17 (SetVal 16777216); On 18 (SetVal 16777216); On 19 (SetVal 16777216); On 20 (SetVal 16777216); On 21 (SetVal 16777216); On 22 (SetVal 16777216); On 23 (SetVal 16777216); On 24 (SetVal 16777216); On 25 (SetVal 16777216); On 26 (SetVal 16777216); On 27 (SetVal 16777216); On 28 (SetVal 16777216); On 29 (SetVal 16777216); On 30 (SetVal 16777216); On 31 (SetVal 16777216)]])) = true.
Proof. vm_compute. reflexivity. Qed.

(** registers_test.py:257 test_registergroup_24bit_args_range *)
Example registers_test_registergroup_24bit_args_range :
  ((group_script 24 [])) = true.
Proof. vm_compute. reflexivity. Qed.

(** registers_test.py:266 test_registers_16bit_simple *)
Example registers_test_registers_16bit_simple :
  ((registers_script 16 [Each [Value 0]; Each [Put (Idx 1) 1; Value 32768; Put (Idx 1) 0; Value 0]])) = true.
Proof. vm_compute. reflexivity. Qed.

(** registers_test.py:280 test_registers_16bit_clear *)
Example registers_test_registers_16bit_clear :
  ((registers_script 16 [Each [Value 0]; Each [SetVal 12345; Value 12345]; ClearAll_; Each [Value 0]])) = true.
Proof. vm_compute. reflexivity. Qed.

(** registers_test.py:297 test_registers_24bit_simple *)
Example registers_test_registers_24bit_simple :
  ((registers_script 24 [Each [Value 0]; Each [Put (Idx 1) 1; Value 32768; Put (Idx 1) 0; Value 0]])) = true.
Proof. vm_compute. reflexivity. Qed.

(** registers_test.py:311 test_registers_24bit_clear *)
Example registers_test_registers_24bit_clear :
  ((registers_script 24 [Each [Value 0]; Each [SetVal 12345; Value 12345]; ClearAll_; Each [Value 0]])) = true.
Proof. vm_compute. reflexivity. Qed.

(** instructions_test.py:98 *)
Example instructions_test_BA_masked_simple :
  run_tests ([(lit "BinaryAdd", TMasked 0 0, Ok 41); (lit "BinaryAdd", TMasked 0 1, Ok 105)]) = true.
Proof. vm_compute. reflexivity. Qed.

(** instructions_test.py:107 *)
Example instructions_test_BA_masked_invalid_args :
  run_exception_tests ([(lit "BinaryAdd", TMasked 0 32, Ok 0); (lit "BinaryAdd", TMasked 2 0, Ok 0)]) = true.
Proof. vm_compute. reflexivity. Qed.

(** instructions_test.py:116 *)
Example instructions_test_BA_masked_args_range :
  run_tests (flat_map (fun i => flat_map (fun j => [(lit "BinaryAdd", TMasked i j, (make_masked_opcode (lit "BA") (i) (j)))]) (py_range 0 32)) (py_range 0 2)) = true.
Proof. vm_compute. reflexivity. Qed.

(** instructions_test.py:126 *)
Example instructions_test_BA_unmasked_simple :
  run_tests ([(lit "BinaryAdd", TUnmasked 0 0 0 0, (make_unmasked_opcode (lit "BA") (0) (0) (0) (0)))]) = true.
Proof. vm_compute. reflexivity. Qed.

(** instructions_test.py:133 *)
Example instructions_test_BA_unmasked_invalid_args :
  run_exception_tests ([(lit "BinaryAdd", TUnmasked 2 0 0 0, Ok 0); (lit "BinaryAdd", TUnmasked 0 2 0 0, Ok 0); (lit "BinaryAdd", TUnmasked 0 1 2 3, Ok 0)]) = true.
Proof. vm_compute. reflexivity. Qed.

(** instructions_test.py:143 *)
Example instructions_test_BA_unmasked_args_range :
  run_tests (flat_map (fun i => flat_map (fun j => flat_map (fun k => flat_map (fun l => [(lit "BinaryAdd", TUnmasked i j k l, (make_unmasked_opcode (lit "BA") (i) (j) (k) (l)))]) (py_range 0 2)) (py_range 0 2)) (py_range 0 2)) (py_range 0 2)) = true.
Proof. vm_compute. reflexivity. Qed.

(** instructions_test.py:157 *)
Example instructions_test_DA_masked_simple :
  run_tests ([(lit "DecimalAdd", TMasked 0 0, Ok 33)]) = true.
Proof. vm_compute. reflexivity. Qed.

(** instructions_test.py:163 *)
Example instructions_test_DA_masked_invalid_args :
  run_exception_tests ([(lit "DecimalAdd", TMasked 0 32, Ok 0); (lit "DecimalAdd", TMasked 2 0, Ok 0)]) = true.
Proof. vm_compute. reflexivity. Qed.

(** instructions_test.py:172 *)
Example instructions_test_DA_masked_args_range :
  run_tests (flat_map (fun i => flat_map (fun j => [(lit "DecimalAdd", TMasked i j, (make_masked_opcode (lit "DA") (i) (j)))]) (py_range 0 32)) (py_range 0 2)) = true.
Proof. vm_compute. reflexivity. Qed.

(** instructions_test.py:182 *)
Example instructions_test_DA_unmasked_simple :
  run_tests ([(lit "DecimalAdd", TUnmasked 0 0 0 0, Ok 1025)]) = true.
Proof. vm_compute. reflexivity. Qed.

(** instructions_test.py:188 *)
Example instructions_test_DA_unmasked_invalid_args :
  run_exception_tests ([(lit "DecimalAdd", TUnmasked 2 0 0 0, Ok 0); (lit "DecimalAdd", TUnmasked 0 2 0 0, Ok 0); (lit "DecimalAdd", TUnmasked 0 1 2 3, Ok 0)]) = true.
Proof. vm_compute. reflexivity. Qed.

(** instructions_test.py:198 *)
Example instructions_test_DA_unmasked_args_range :
  run_tests (flat_map (fun i => flat_map (fun j => flat_map (fun k => flat_map (fun l => [(lit "DecimalAdd", TUnmasked i j k l, (make_unmasked_opcode (lit "DA") (i) (j) (k) (l)))]) (py_range 0 2)) (py_range 0 2)) (py_range 0 2)) (py_range 0 2)) = true.
Proof. vm_compute. reflexivity. Qed.

(** instructions_test.py:212 *)
Example instructions_test_WA_masked_simple :
  run_tests ([(lit "WordAdd", TMasked 0 0, Ok 45)]) = true.
Proof. vm_compute. reflexivity. Qed.

(** instructions_test.py:218 *)
Example instructions_test_WA_masked_invalid_args :
  run_exception_tests ([(lit "WordAdd", TMasked 0 32, Ok 0); (lit "WordAdd", TMasked 2 0, Ok 0)]) = true.
Proof. vm_compute. reflexivity. Qed.

(** instructions_test.py:227 *)
Example instructions_test_WA_masked_args_range :
  run_tests (flat_map (fun i => flat_map (fun j => [(lit "WordAdd", TMasked i j, (make_masked_opcode (lit "WA") (i) (j)))]) (py_range 0 32)) (py_range 0 2)) = true.
Proof. vm_compute. reflexivity. Qed.

(** instructions_test.py:237 *)
Example instructions_test_WA_unmasked_simple :
  run_tests ([(lit "WordAdd", TUnmasked 0 0 0 0, Ok 1037)]) = true.
Proof. vm_compute. reflexivity. Qed.

(** instructions_test.py:243 *)
Example instructions_test_WA_unmasked_invalid_args :
  run_exception_tests ([(lit "WordAdd", TUnmasked 2 0 0 0, Ok 0); (lit "WordAdd", TUnmasked 0 2 0 0, Ok 0); (lit "WordAdd", TUnmasked 0 1 2 3, Ok 0)]) = true.
Proof. vm_compute. reflexivity. Qed.

(** instructions_test.py:253 *)
Example instructions_test_WA_unmasked_args_range :
  run_tests (flat_map (fun i => flat_map (fun j => flat_map (fun k => flat_map (fun l => [(lit "WordAdd", TUnmasked i j k l, (make_unmasked_opcode (lit "WA") (i) (j) (k) (l)))]) (py_range 0 2)) (py_range 0 2)) (py_range 0 2)) (py_range 0 2)) = true.
Proof. vm_compute. reflexivity. Qed.

(** instructions_test.py:267 *)
Example instructions_test_BS_masked_simple :
  run_tests ([(lit "BinarySubtract", TMasked 0 0, Ok 57)]) = true.
Proof. vm_compute. reflexivity. Qed.

(** instructions_test.py:273 *)
Example instructions_test_BS_masked_invalid_args :
  run_exception_tests ([(lit "BinarySubtract", TMasked 0 32, Ok 0); (lit "BinarySubtract", TMasked 2 0, Ok 0)]) = true.
Proof. vm_compute. reflexivity. Qed.

(** instructions_test.py:282 *)
Example instructions_test_BS_masked_args_range :
  run_tests (flat_map (fun i => flat_map (fun j => [(lit "BinarySubtract", TMasked i j, (make_masked_opcode (lit "BS") (i) (j)))]) (py_range 0 32)) (py_range 0 2)) = true.
Proof. vm_compute. reflexivity. Qed.

(** instructions_test.py:292 *)
Example instructions_test_BS_unmasked_simple :
  run_tests ([(lit "BinarySubtract", TUnmasked 0 0 0 0, Ok 1049)]) = true.
Proof. vm_compute. reflexivity. Qed.

(** instructions_test.py:298 *)
Example instructions_test_BS_unmasked_invalid_args :
  run_exception_tests ([(lit "BinarySubtract", TUnmasked 2 0 0 0, Ok 0); (lit "BinarySubtract", TUnmasked 0 2 0 0, Ok 0); (lit "BinarySubtract", TUnmasked 0 1 2 3, Ok 0)]) = true.
Proof. vm_compute. reflexivity. Qed.

(** instructions_test.py:308 *)
Example instructions_test_BS_unmasked_args_range :
  run_tests (flat_map (fun i => flat_map (fun j => flat_map (fun k => flat_map (fun l => [(lit "BinarySubtract", TUnmasked i j k l, (make_unmasked_opcode (lit "BS") (i) (j) (k) (l)))]) (py_range 0 2)) (py_range 0 2)) (py_range 0 2)) (py_range 0 2)) = true.
Proof. vm_compute. reflexivity. Qed.

(** instructions_test.py:322 *)
Example instructions_test_DS_masked_simple :
  run_tests ([(lit "DecimalSubtract", TMasked 0 0, Ok 49)]) = true.
Proof. vm_compute. reflexivity. Qed.

(** instructions_test.py:328 *)
Example instructions_test_DS_masked_invalid_args :
  run_exception_tests ([(lit "DecimalSubtract", TMasked 0 32, Ok 0); (lit "DecimalSubtract", TMasked 2 0, Ok 0)]) = true.
Proof. vm_compute. reflexivity. Qed.

(** instructions_test.py:337 *)
Example instructions_test_DS_masked_args_range :
  run_tests (flat_map (fun i => flat_map (fun j => [(lit "DecimalSubtract", TMasked i j, (make_masked_opcode (lit "DS") (i) (j)))]) (py_range 0 32)) (py_range 0 2)) = true.
Proof. vm_compute. reflexivity. Qed.

(** instructions_test.py:347 *)
Example instructions_test_DS_unmasked_simple :
  run_tests ([(lit "DecimalSubtract", TUnmasked 0 0 0 0, Ok 1041)]) = true.
Proof. vm_compute. reflexivity. Qed.

(** instructions_test.py:353 *)
Example instructions_test_DS_unmasked_invalid_args :
  run_exception_tests ([(lit "DecimalSubtract", TUnmasked 2 0 0 0, Ok 0); (lit "DecimalSubtract", TUnmasked 0 2 0 0, Ok 0); (lit "DecimalSubtract", TUnmasked 0 1 2 3, Ok 0)]) = true.
Proof. vm_compute. reflexivity. Qed.

(** instructions_test.py:363 *)
Example instructions_test_DS_unmasked_args_range :
  run_tests (flat_map (fun i => flat_map (fun j => flat_map (fun k => flat_map (fun l => [(lit "DecimalSubtract", TUnmasked i j k l, (make_unmasked_opcode (lit "DS") (i) (j) (k) (l)))]) (py_range 0 2)) (py_range 0 2)) (py_range 0 2)) (py_range 0 2)) = true.
Proof. vm_compute. reflexivity. Qed.

(** instructions_test.py:377 *)
Example instructions_test_WD_masked_simple :
  run_tests ([(lit "WordDifference", TMasked 0 0, Ok 61)]) = true.
Proof. vm_compute. reflexivity. Qed.

(** instructions_test.py:383 *)
Example instructions_test_WD_masked_invalid_args :
  run_exception_tests ([(lit "WordDifference", TMasked 0 32, Ok 0); (lit "WordDifference", TMasked 2 0, Ok 0)]) = true.
Proof. vm_compute. reflexivity. Qed.

(** instructions_test.py:392 *)
Example instructions_test_WD_masked_args_range :
  run_tests (flat_map (fun i => flat_map (fun j => [(lit "WordDifference", TMasked i j, (make_masked_opcode (lit "WD") (i) (j)))]) (py_range 0 32)) (py_range 0 2)) = true.
Proof. vm_compute. reflexivity. Qed.

(** instructions_test.py:402 *)
Example instructions_test_WD_unmasked_simple :
  run_tests ([(lit "WordDifference", TUnmasked 0 0 0 0, Ok 1053)]) = true.
Proof. vm_compute. reflexivity. Qed.

(** instructions_test.py:408 *)
Example instructions_test_WD_unmasked_invalid_args :
  run_exception_tests ([(lit "WordDifference", TUnmasked 2 0 0 0, Ok 0); (lit "WordDifference", TUnmasked 0 2 0 0, Ok 0); (lit "WordDifference", TUnmasked 0 1 2 3, Ok 0)]) = true.
Proof. vm_compute. reflexivity. Qed.

(** instructions_test.py:418 *)
Example instructions_test_WD_unmasked_args_range :
  run_tests (flat_map (fun i => flat_map (fun j => flat_map (fun k => flat_map (fun l => [(lit "WordDifference", TUnmasked i j k l, (make_unmasked_opcode (lit "WD") (i) (j) (k) (l)))]) (py_range 0 2)) (py_range 0 2)) (py_range 0 2)) (py_range 0 2)) = true.
Proof. vm_compute. reflexivity. Qed.

(** instructions_test.py:432 *)
Example instructions_test_NA_masked_simple :
  run_tests ([(lit "NotEqualAlphabetic", TMasked 0 0, Ok 44)]) = true.
Proof. vm_compute. reflexivity. Qed.

(** instructions_test.py:438 *)
Example instructions_test_NA_masked_invalid_args :
  run_exception_tests ([(lit "NotEqualAlphabetic", TMasked 0 32, Ok 0); (lit "NotEqualAlphabetic", TMasked 2 0, Ok 0)]) = true.
Proof. vm_compute. reflexivity. Qed.

(** instructions_test.py:447 *)
Example instructions_test_NA_masked_args_range :
  run_tests (flat_map (fun i => flat_map (fun j => [(lit "NotEqualAlphabetic", TMasked i j, (make_masked_opcode (lit "NA") (i) (j)))]) (py_range 0 32)) (py_range 0 2)) = true.
Proof. vm_compute. reflexivity. Qed.

(** instructions_test.py:457 *)
Example instructions_test_NA_unmasked_simple :
  run_tests ([(lit "NotEqualAlphabetic", TUnmasked 0 0 0 0, Ok 1036)]) = true.
Proof. vm_compute. reflexivity. Qed.

(** instructions_test.py:463 *)
Example instructions_test_NA_unmasked_invalid_args :
  run_exception_tests ([(lit "NotEqualAlphabetic", TUnmasked 2 0 0 0, Ok 0); (lit "NotEqualAlphabetic", TUnmasked 0 2 0 0, Ok 0); (lit "NotEqualAlphabetic", TUnmasked 0 1 2 3, Ok 0)]) = true.
Proof. vm_compute. reflexivity. Qed.

(** instructions_test.py:473 *)
Example instructions_test_NA_unmasked_args_range :
  run_tests (flat_map (fun i => flat_map (fun j => flat_map (fun k => flat_map (fun l => [(lit "NotEqualAlphabetic", TUnmasked i j k l, (make_unmasked_opcode (lit "NA") (i) (j) (k) (l)))]) (py_range 0 2)) (py_range 0 2)) (py_range 0 2)) (py_range 0 2)) = true.
Proof. vm_compute. reflexivity. Qed.

(** instructions_test.py:487 *)
Example instructions_test_NN_masked_simple :
  run_tests ([(lit "NotEqualNumeric", TMasked 0 0, Ok 40)]) = true.
Proof. vm_compute. reflexivity. Qed.

(** instructions_test.py:493 *)
Example instructions_test_NN_masked_invalid_args :
  run_exception_tests ([(lit "NotEqualNumeric", TMasked 0 32, Ok 0); (lit "NotEqualNumeric", TMasked 2 0, Ok 0)]) = true.
Proof. vm_compute. reflexivity. Qed.

(** instructions_test.py:502 *)
Example instructions_test_NN_masked_args_range :
  run_tests (flat_map (fun i => flat_map (fun j => [(lit "NotEqualNumeric", TMasked i j, (make_masked_opcode (lit "NN") (i) (j)))]) (py_range 0 32)) (py_range 0 2)) = true.
Proof. vm_compute. reflexivity. Qed.

(** instructions_test.py:512 *)
Example instructions_test_NN_unmasked_simple :
  run_tests ([(lit "NotEqualNumeric", TUnmasked 0 0 0 0, Ok 1032)]) = true.
Proof. vm_compute. reflexivity. Qed.

(** instructions_test.py:518 *)
Example instructions_test_NN_unmasked_invalid_args :
  run_exception_tests ([(lit "NotEqualNumeric", TUnmasked 2 0 0 0, Ok 0); (lit "NotEqualNumeric", TUnmasked 0 2 0 0, Ok 0); (lit "NotEqualNumeric", TUnmasked 0 1 2 3, Ok 0)]) = true.
Proof. vm_compute. reflexivity. Qed.

(** instructions_test.py:528 *)
Example instructions_test_NN_unmasked_args_range :
  run_tests (flat_map (fun i => flat_map (fun j => flat_map (fun k => flat_map (fun l => [(lit "NotEqualNumeric", TUnmasked i j k l, (make_unmasked_opcode (lit "NN") (i) (j) (k) (l)))]) (py_range 0 2)) (py_range 0 2)) (py_range 0 2)) (py_range 0 2)) = true.
Proof. vm_compute. reflexivity. Qed.

(** instructions_test.py:542 *)
Example instructions_test_LA_masked_simple :
  run_tests ([(lit "LessThanOrEqualAlphabetic", TMasked 0 0, Ok 60)]) = true.
Proof. vm_compute. reflexivity. Qed.

(** instructions_test.py:548 *)
Example instructions_test_LA_masked_invalid_args :
  run_exception_tests ([(lit "LessThanOrEqualAlphabetic", TMasked 0 32, Ok 0); (lit "LessThanOrEqualAlphabetic", TMasked 2 0, Ok 0)]) = true.
Proof. vm_compute. reflexivity. Qed.

(** instructions_test.py:557 *)
Example instructions_test_LA_masked_args_range :
  run_tests (flat_map (fun i => flat_map (fun j => [(lit "LessThanOrEqualAlphabetic", TMasked i j, (make_masked_opcode (lit "LA") (i) (j)))]) (py_range 0 32)) (py_range 0 2)) = true.
Proof. vm_compute. reflexivity. Qed.

(** instructions_test.py:567 *)
Example instructions_test_LA_unmasked_simple :
  run_tests ([(lit "LessThanOrEqualAlphabetic", TUnmasked 0 0 0 0, Ok 1052)]) = true.
Proof. vm_compute. reflexivity. Qed.

(** instructions_test.py:573 *)
Example instructions_test_LA_unmasked_invalid_args :
  run_exception_tests ([(lit "LessThanOrEqualAlphabetic", TUnmasked 2 0 0 0, Ok 0); (lit "LessThanOrEqualAlphabetic", TUnmasked 0 2 0 0, Ok 0); (lit "LessThanOrEqualAlphabetic", TUnmasked 0 1 2 3, Ok 0)]) = true.
Proof. vm_compute. reflexivity. Qed.

(** instructions_test.py:583 *)
Example instructions_test_LA_unmasked_args_range :
  run_tests (flat_map (fun i => flat_map (fun j => flat_map (fun k => flat_map (fun l => [(lit "LessThanOrEqualAlphabetic", TUnmasked i j k l, (make_unmasked_opcode (lit "LA") (i) (j) (k) (l)))]) (py_range 0 2)) (py_range 0 2)) (py_range 0 2)) (py_range 0 2)) = true.
Proof. vm_compute. reflexivity. Qed.

(** instructions_test.py:597 *)
Example instructions_test_LN_masked_simple :
  run_tests ([(lit "LessThanOrEqualNumeric", TMasked 0 0, Ok 56)]) = true.
Proof. vm_compute. reflexivity. Qed.

(** instructions_test.py:603 *)
Example instructions_test_LN_masked_invalid_args :
  run_exception_tests ([(lit "LessThanOrEqualNumeric", TMasked 0 32, Ok 0); (lit "LessThanOrEqualNumeric", TMasked 2 0, Ok 0)]) = true.
Proof. vm_compute. reflexivity. Qed.

(** instructions_test.py:612 *)
Example instructions_test_LN_masked_args_range :
  run_tests (flat_map (fun i => flat_map (fun j => [(lit "LessThanOrEqualNumeric", TMasked i j, (make_masked_opcode (lit "LN") (i) (j)))]) (py_range 0 32)) (py_range 0 2)) = true.
Proof. vm_compute. reflexivity. Qed.

(** instructions_test.py:622 *)
Example instructions_test_LN_unmasked_simple :
  run_tests ([(lit "LessThanOrEqualNumeric", TUnmasked 0 0 0 0, Ok 1048)]) = true.
Proof. vm_compute. reflexivity. Qed.

(** instructions_test.py:628 *)
Example instructions_test_LN_unmasked_invalid_args :
  run_exception_tests ([(lit "LessThanOrEqualNumeric", TUnmasked 2 0 0 0, Ok 0); (lit "LessThanOrEqualNumeric", TUnmasked 0 2 0 0, Ok 0); (lit "LessThanOrEqualNumeric", TUnmasked 0 1 2 3, Ok 0)]) = true.
Proof. vm_compute. reflexivity. Qed.

(** instructions_test.py:638 *)
Example instructions_test_LN_unmasked_args_range :
  run_tests (flat_map (fun i => flat_map (fun j => flat_map (fun k => flat_map (fun l => [(lit "LessThanOrEqualNumeric", TUnmasked i j k l, (make_unmasked_opcode (lit "LN") (i) (j) (k) (l)))]) (py_range 0 2)) (py_range 0 2)) (py_range 0 2)) (py_range 0 2)) = true.
Proof. vm_compute. reflexivity. Qed.

(** instructions_test.py:652 *)
Example instructions_test_TX_masked_simple :
  run_tests ([(lit "Transfer", TMasked 0 0, Ok 48)]) = true.
Proof. vm_compute. reflexivity. Qed.

(** instructions_test.py:658 *)
Example instructions_test_TX_masked_invalid_args :
  run_exception_tests ([(lit "Transfer", TMasked 0 32, Ok 0); (lit "Transfer", TMasked 2 0, Ok 0)]) = true.
Proof. vm_compute. reflexivity. Qed.

(** instructions_test.py:667 *)
Example instructions_test_TX_masked_args_range :
  run_tests (flat_map (fun i => flat_map (fun j => [(lit "Transfer", TMasked i j, (make_masked_opcode (lit "TX") (i) (j)))]) (py_range 0 32)) (py_range 0 2)) = true.
Proof. vm_compute. reflexivity. Qed.

(** instructions_test.py:677 *)
Example instructions_test_TX_unmasked_simple :
  run_tests ([(lit "Transfer", TUnmasked 0 0 0 0, Ok 1040)]) = true.
Proof. vm_compute. reflexivity. Qed.

(** instructions_test.py:683 *)
Example instructions_test_TX_unmasked_invalid_args :
  run_exception_tests ([(lit "Transfer", TUnmasked 2 0 0 0, Ok 0); (lit "Transfer", TUnmasked 0 2 0 0, Ok 0); (lit "Transfer", TUnmasked 0 1 2 3, Ok 0)]) = true.
Proof. vm_compute. reflexivity. Qed.

(** instructions_test.py:693 *)
Example instructions_test_TX_unmasked_args_range :
  run_tests (flat_map (fun i => flat_map (fun j => flat_map (fun k => flat_map (fun l => [(lit "Transfer", TUnmasked i j k l, (make_unmasked_opcode (lit "TX") (i) (j) (k) (l)))]) (py_range 0 2)) (py_range 0 2)) (py_range 0 2)) (py_range 0 2)) = true.
Proof. vm_compute. reflexivity. Qed.

(** instructions_test.py:707 *)
Example instructions_test_TS_masked_simple :
  run_tests ([(lit "TransferChangeSequence", TMasked 0 0, Ok 36)]) = true.
Proof. vm_compute. reflexivity. Qed.

(** instructions_test.py:713 *)
Example instructions_test_TS_masked_invalid_args :
  run_exception_tests ([(lit "TransferChangeSequence", TMasked 0 32, Ok 0); (lit "TransferChangeSequence", TMasked 2 0, Ok 0)]) = true.
Proof. vm_compute. reflexivity. Qed.

(** instructions_test.py:722 *)
Example instructions_test_TS_masked_args_range :
  run_tests (flat_map (fun i => flat_map (fun j => [(lit "TransferChangeSequence", TMasked i j, (make_masked_opcode (lit "TS") (i) (j)))]) (py_range 0 32)) (py_range 0 2)) = true.
Proof. vm_compute. reflexivity. Qed.

(** instructions_test.py:732 *)
Example instructions_test_TS_unmasked_simple :
  run_tests ([(lit "TransferChangeSequence", TUnmasked 0 0 0 0, Ok 1028)]) = true.
Proof. vm_compute. reflexivity. Qed.

(** instructions_test.py:738 *)
Example instructions_test_TS_unmasked_invalid_args :
  run_exception_tests ([(lit "TransferChangeSequence", TUnmasked 2 0 0 0, Ok 0); (lit "TransferChangeSequence", TUnmasked 0 2 0 0, Ok 0); (lit "TransferChangeSequence", TUnmasked 0 1 2 3, Ok 0)]) = true.
Proof. vm_compute. reflexivity. Qed.

(** instructions_test.py:748 *)
Example instructions_test_TS_unmasked_args_range :
  run_tests (flat_map (fun i => flat_map (fun j => flat_map (fun k => flat_map (fun l => [(lit "TransferChangeSequence", TUnmasked i j k l, (make_unmasked_opcode (lit "TS") (i) (j) (k) (l)))]) (py_range 0 2)) (py_range 0 2)) (py_range 0 2)) (py_range 0 2)) = true.
Proof. vm_compute. reflexivity. Qed.

(** instructions_test.py:762 *)
Example instructions_test_HA_masked_simple :
  run_tests ([(lit "HalfAdd", TMasked 0 0, Ok 53)]) = true.
Proof. vm_compute. reflexivity. Qed.

(** instructions_test.py:768 *)
Example instructions_test_HA_masked_invalid_args :
  run_exception_tests ([(lit "HalfAdd", TMasked 0 32, Ok 0); (lit "HalfAdd", TMasked 2 0, Ok 0)]) = true.
Proof. vm_compute. reflexivity. Qed.

(** instructions_test.py:777 *)
Example instructions_test_HA_masked_args_range :
  run_tests (flat_map (fun i => flat_map (fun j => [(lit "HalfAdd", TMasked i j, (make_masked_opcode (lit "HA") (i) (j)))]) (py_range 0 32)) (py_range 0 2)) = true.
Proof. vm_compute. reflexivity. Qed.

(** instructions_test.py:787 *)
Example instructions_test_HA_unmasked_simple :
  run_tests ([(lit "HalfAdd", TUnmasked 0 0 0 0, Ok 1045)]) = true.
Proof. vm_compute. reflexivity. Qed.

(** instructions_test.py:793 *)
Example instructions_test_HA_unmasked_invalid_args :
  run_exception_tests ([(lit "HalfAdd", TUnmasked 2 0 0 0, Ok 0); (lit "HalfAdd", TUnmasked 0 2 0 0, Ok 0); (lit "HalfAdd", TUnmasked 0 1 2 3, Ok 0)]) = true.
Proof. vm_compute. reflexivity. Qed.

(** instructions_test.py:803 *)
Example instructions_test_HA_unmasked_args_range :
  run_tests (flat_map (fun i => flat_map (fun j => flat_map (fun k => flat_map (fun l => [(lit "HalfAdd", TUnmasked i j k l, (make_unmasked_opcode (lit "HA") (i) (j) (k) (l)))]) (py_range 0 2)) (py_range 0 2)) (py_range 0 2)) (py_range 0 2)) = true.
Proof. vm_compute. reflexivity. Qed.

(** instructions_test.py:817 *)
Example instructions_test_SM_masked_simple :
  run_tests ([(lit "Superimpose", TMasked 0 0, Ok 37)]) = true.
Proof. vm_compute. reflexivity. Qed.

(** instructions_test.py:823 *)
Example instructions_test_SM_masked_invalid_args :
  run_exception_tests ([(lit "Superimpose", TMasked 0 32, Ok 0); (lit "Superimpose", TMasked 2 0, Ok 0)]) = true.
Proof. vm_compute. reflexivity. Qed.

(** instructions_test.py:832 *)
Example instructions_test_SM_masked_args_range :
  run_tests (flat_map (fun i => flat_map (fun j => [(lit "Superimpose", TMasked i j, (make_masked_opcode (lit "SM") (i) (j)))]) (py_range 0 32)) (py_range 0 2)) = true.
Proof. vm_compute. reflexivity. Qed.

(** instructions_test.py:842 *)
Example instructions_test_SM_unmasked_simple :
  run_tests ([(lit "Superimpose", TUnmasked 0 0 0 0, Ok 1029)]) = true.
Proof. vm_compute. reflexivity. Qed.

(** instructions_test.py:848 *)
Example instructions_test_SM_unmasked_invalid_args :
  run_exception_tests ([(lit "Superimpose", TUnmasked 2 0 0 0, Ok 0); (lit "Superimpose", TUnmasked 0 2 0 0, Ok 0); (lit "Superimpose", TUnmasked 0 1 2 3, Ok 0)]) = true.
Proof. vm_compute. reflexivity. Qed.

(** instructions_test.py:858 *)
Example instructions_test_SM_unmasked_args_range :
  run_tests (flat_map (fun i => flat_map (fun j => flat_map (fun k => flat_map (fun l => [(lit "Superimpose", TUnmasked i j k l, (make_unmasked_opcode (lit "SM") (i) (j) (k) (l)))]) (py_range 0 2)) (py_range 0 2)) (py_range 0 2)) (py_range 0 2)) = true.
Proof. vm_compute. reflexivity. Qed.

(** instructions_test.py:872 *)
Example instructions_test_CP_masked_simple :
  run_tests ([(lit "CheckParity", TMasked 0 0, Ok 52)]) = true.
Proof. vm_compute. reflexivity. Qed.

(** instructions_test.py:878 *)
Example instructions_test_CP_masked_invalid_args :
  run_exception_tests ([(lit "CheckParity", TMasked 0 32, Ok 0); (lit "CheckParity", TMasked 2 0, Ok 0)]) = true.
Proof. vm_compute. reflexivity. Qed.

(** instructions_test.py:887 *)
Example instructions_test_CP_masked_args_range :
  run_tests (flat_map (fun i => flat_map (fun j => [(lit "CheckParity", TMasked i j, (make_masked_opcode (lit "CP") (i) (j)))]) (py_range 0 32)) (py_range 0 2)) = true.
Proof. vm_compute. reflexivity. Qed.

(** instructions_test.py:897 *)
Example instructions_test_CP_unmasked_simple :
  run_tests ([(lit "CheckParity", TUnmasked 0 0 0 0, Ok 1044)]) = true.
Proof. vm_compute. reflexivity. Qed.

(** instructions_test.py:903 *)
Example instructions_test_CP_unmasked_invalid_args :
  run_exception_tests ([(lit "CheckParity", TUnmasked 2 0 0 0, Ok 0); (lit "CheckParity", TUnmasked 0 2 0 0, Ok 0); (lit "CheckParity", TUnmasked 0 1 2 3, Ok 0)]) = true.
Proof. vm_compute. reflexivity. Qed.

(** instructions_test.py:913 *)
Example instructions_test_CP_unmasked_args_range :
  run_tests (flat_map (fun i => flat_map (fun j => flat_map (fun k => flat_map (fun l => [(lit "CheckParity", TUnmasked i j k l, (make_unmasked_opcode (lit "CP") (i) (j) (k) (l)))]) (py_range 0 2)) (py_range 0 2)) (py_range 0 2)) (py_range 0 2)) = true.
Proof. vm_compute. reflexivity. Qed.

(** instructions_test.py:927 *)
Example instructions_test_BM_simple :
  run_tests ([(lit "BinaryMultiply", TUnmasked 0 0 0 0, Ok 11)]) = true.
Proof. vm_compute. reflexivity. Qed.

(** instructions_test.py:933 *)
Example instructions_test_BM_invalid_args :
  run_exception_tests ([(lit "BinaryMultiply", TUnmasked 2 0 0 0, Ok 0); (lit "BinaryMultiply", TUnmasked 0 2 0 0, Ok 0); (lit "BinaryMultiply", TUnmasked 0 1 2 3, Ok 0)]) = true.
Proof. vm_compute. reflexivity. Qed.

(** instructions_test.py:943 *)
Example instructions_test_BM_args_range :
  run_tests (flat_map (fun i => flat_map (fun j => flat_map (fun k => flat_map (fun l => [(lit "BinaryMultiply", TUnmasked i j k l, (make_unmasked_opcode (lit "BM") (i) (j) (k) (l)))]) (py_range 0 2)) (py_range 0 2)) (py_range 0 2)) (py_range 0 2)) = true.
Proof. vm_compute. reflexivity. Qed.

(** instructions_test.py:957 *)
Example instructions_test_DM_simple :
  run_tests ([(lit "DecimalMultiply", TUnmasked 0 0 0 0, Ok 3)]) = true.
Proof. vm_compute. reflexivity. Qed.

(** instructions_test.py:963 *)
Example instructions_test_DM_invalid_args :
  run_exception_tests ([(lit "DecimalMultiply", TUnmasked 2 0 0 0, Ok 0); (lit "DecimalMultiply", TUnmasked 0 2 0 0, Ok 0); (lit "DecimalMultiply", TUnmasked 0 1 2 3, Ok 0)]) = true.
Proof. vm_compute. reflexivity. Qed.

(** instructions_test.py:973 *)
Example instructions_test_DM_args_range :
  run_tests (flat_map (fun i => flat_map (fun j => flat_map (fun k => flat_map (fun l => [(lit "DecimalMultiply", TUnmasked i j k l, (make_unmasked_opcode (lit "DM") (i) (j) (k) (l)))]) (py_range 0 2)) (py_range 0 2)) (py_range 0 2)) (py_range 0 2)) = true.
Proof. vm_compute. reflexivity. Qed.

(** instructions_test.py:987 *)
Example instructions_test_BT_simple :
  run_tests ([(lit "BinaryAccumulate", TUnmasked 0 0 0 0, Ok 1035)]) = true.
Proof. vm_compute. reflexivity. Qed.

(** instructions_test.py:993 *)
Example instructions_test_BT_invalid_args :
  run_exception_tests ([(lit "BinaryAccumulate", TUnmasked 2 0 0 0, Ok 0); (lit "BinaryAccumulate", TUnmasked 0 2 0 0, Ok 0); (lit "BinaryAccumulate", TUnmasked 0 1 2 3, Ok 0)]) = true.
Proof. vm_compute. reflexivity. Qed.

(** instructions_test.py:1003 *)
Example instructions_test_BT_args_range :
  run_tests (flat_map (fun i => flat_map (fun j => flat_map (fun k => flat_map (fun l => [(lit "BinaryAccumulate", TUnmasked i j k l, (make_unmasked_opcode (lit "BT") (i) (j) (k) (l)))]) (py_range 0 2)) (py_range 0 2)) (py_range 0 2)) (py_range 0 2)) = true.
Proof. vm_compute. reflexivity. Qed.

(** instructions_test.py:1017 *)
Example instructions_test_DT_simple :
  run_tests ([(lit "DecimalAccumulate", TUnmasked 0 0 0 0, Ok 1027)]) = true.
Proof. vm_compute. reflexivity. Qed.

(** instructions_test.py:1023 *)
Example instructions_test_DT_invalid_args :
  run_exception_tests ([(lit "DecimalAccumulate", TUnmasked 2 0 0 0, Ok 0); (lit "DecimalAccumulate", TUnmasked 0 2 0 0, Ok 0); (lit "DecimalAccumulate", TUnmasked 0 1 2 3, Ok 0)]) = true.
Proof. vm_compute. reflexivity. Qed.

(** instructions_test.py:1033 *)
Example instructions_test_DT_args_range :
  run_tests (flat_map (fun i => flat_map (fun j => flat_map (fun k => flat_map (fun l => [(lit "DecimalAccumulate", TUnmasked i j k l, (make_unmasked_opcode (lit "DT") (i) (j) (k) (l)))]) (py_range 0 2)) (py_range 0 2)) (py_range 0 2)) (py_range 0 2)) = true.
Proof. vm_compute. reflexivity. Qed.

(** instructions_test.py:1047 *)
Example instructions_test_MT_simple :
  run_tests ([(lit "MultipleTransfer", TUnmasked 0 0 0 0, Ok 16)]) = true.
Proof. vm_compute. reflexivity. Qed.

(** instructions_test.py:1053 *)
Example instructions_test_MT_invalid_args :
  run_exception_tests ([(lit "MultipleTransfer", TUnmasked 2 0 0 0, Ok 0); (lit "MultipleTransfer", TUnmasked 0 2 0 0, Ok 0); (lit "MultipleTransfer", TUnmasked 0 1 2 3, Ok 0)]) = true.
Proof. vm_compute. reflexivity. Qed.

(** instructions_test.py:1063 *)
Example instructions_test_MT_args_range :
  run_tests (flat_map (fun i => flat_map (fun j => flat_map (fun k => flat_map (fun l => [(lit "MultipleTransfer", TUnmasked i j k l, (make_unmasked_opcode (lit "MT") (i) (j) (k) (l)))]) (py_range 0 2)) (py_range 0 2)) (py_range 0 2)) (py_range 0 2)) = true.
Proof. vm_compute. reflexivity. Qed.

(** instructions_test.py:1077 *)
Example instructions_test_TN_simple :
  run_tests ([(lit "TransferNWords", TUnmasked 0 0 0 0, Ok 528)]) = true.
Proof. vm_compute. reflexivity. Qed.

(** instructions_test.py:1083 *)
Example instructions_test_TN_invalid_args :
  run_exception_tests ([(lit "TransferNWords", TUnmasked 2 0 0 0, Ok 0); (lit "TransferNWords", TUnmasked 0 2 0 0, Ok 0); (lit "TransferNWords", TUnmasked 0 1 2 3, Ok 0)]) = true.
Proof. vm_compute. reflexivity. Qed.

(** instructions_test.py:1093 *)
Example instructions_test_TN_args_range :
  run_tests (flat_map (fun i => flat_map (fun j => flat_map (fun k => flat_map (fun l => [(lit "TransferNWords", TUnmasked i j k l, (make_unmasked_opcode (lit "TN") (i) (j) (k) (l)))]) (py_range 0 2)) (py_range 0 2)) (py_range 0 2)) (py_range 0 2)) = true.
Proof. vm_compute. reflexivity. Qed.

(** instructions_test.py:1107 *)
Example instructions_test_CC_simple :
  run_tests ([(lit "ComputeOrthocount", TUnmasked 0 0 0 0, Ok 520)]) = true.
Proof. vm_compute. reflexivity. Qed.

(** instructions_test.py:1113 *)
Example instructions_test_CC_invalid_args :
  run_exception_tests ([(lit "ComputeOrthocount", TUnmasked 2 0 0 0, Ok 0); (lit "ComputeOrthocount", TUnmasked 0 2 0 0, Ok 0); (lit "ComputeOrthocount", TUnmasked 0 1 2 3, Ok 0)]) = true.
Proof. vm_compute. reflexivity. Qed.

(** instructions_test.py:1123 *)
Example instructions_test_CC_args_range :
  run_tests (flat_map (fun i => flat_map (fun j => flat_map (fun k => flat_map (fun l => [(lit "ComputeOrthocount", TUnmasked i j k l, (make_unmasked_opcode (lit "CC") (i) (j) (k) (l)))]) (py_range 0 2)) (py_range 0 2)) (py_range 0 2)) (py_range 0 2)) = true.
Proof. vm_compute. reflexivity. Qed.

(** instructions_test.py:1137 *)
Example instructions_test_IT_simple :
  run_tests ([(lit "ItemTransfer", TUnmasked 0 0 0 0, Ok 536)]) = true.
Proof. vm_compute. reflexivity. Qed.

(** instructions_test.py:1143 *)
Example instructions_test_IT_invalid_args :
  run_exception_tests ([(lit "ItemTransfer", TUnmasked 2 0 0 0, Ok 0); (lit "ItemTransfer", TUnmasked 0 2 0 0, Ok 0); (lit "ItemTransfer", TUnmasked 0 1 2 3, Ok 0)]) = true.
Proof. vm_compute. reflexivity. Qed.

(** instructions_test.py:1153 *)
Example instructions_test_IT_args_range :
  run_tests (flat_map (fun i => flat_map (fun j => flat_map (fun k => flat_map (fun l => [(lit "ItemTransfer", TUnmasked i j k l, (make_unmasked_opcode (lit "IT") (i) (j) (k) (l)))]) (py_range 0 2)) (py_range 0 2)) (py_range 0 2)) (py_range 0 2)) = true.
Proof. vm_compute. reflexivity. Qed.

(** instructions_test.py:1167 *)
Example instructions_test_EBA_simple :
  run_tests ([(lit "ExtendedBinaryAdd", TUnmasked 0 0 0 0, Ok 1547)]) = true.
Proof. vm_compute. reflexivity. Qed.

(** instructions_test.py:1173 *)
Example instructions_test_EBA_invalid_args :
  run_exception_tests ([(lit "ExtendedBinaryAdd", TUnmasked 2 0 0 0, Ok 0); (lit "ExtendedBinaryAdd", TUnmasked 0 2 0 0, Ok 0); (lit "ExtendedBinaryAdd", TUnmasked 0 1 2 3, Ok 0)]) = true.
Proof. vm_compute. reflexivity. Qed.

(** instructions_test.py:1183 *)
Example instructions_test_EBA_args_range :
  run_tests (flat_map (fun i => flat_map (fun j => flat_map (fun k => flat_map (fun l => [(lit "ExtendedBinaryAdd", TUnmasked i j k l, (make_unmasked_opcode (lit "EBA") (i) (j) (k) (l)))]) (py_range 0 2)) (py_range 0 2)) (py_range 0 2)) (py_range 0 2)) = true.
Proof. vm_compute. reflexivity. Qed.

(** instructions_test.py:1197 *)
Example instructions_test_EBS_simple :
  run_tests ([(lit "ExtendedBinarySubtract", TUnmasked 0 0 0 0, Ok 1563)]) = true.
Proof. vm_compute. reflexivity. Qed.

(** instructions_test.py:1203 *)
Example instructions_test_EBS_invalid_args :
  run_exception_tests ([(lit "ExtendedBinarySubtract", TUnmasked 2 0 0 0, Ok 0); (lit "ExtendedBinarySubtract", TUnmasked 0 2 0 0, Ok 0); (lit "ExtendedBinarySubtract", TUnmasked 0 1 2 3, Ok 0)]) = true.
Proof. vm_compute. reflexivity. Qed.

(** instructions_test.py:1213 *)
Example instructions_test_EBS_args_range :
  run_tests (flat_map (fun i => flat_map (fun j => flat_map (fun k => flat_map (fun l => [(lit "ExtendedBinarySubtract", TUnmasked i j k l, (make_unmasked_opcode (lit "EBS") (i) (j) (k) (l)))]) (py_range 0 2)) (py_range 0 2)) (py_range 0 2)) (py_range 0 2)) = true.
Proof. vm_compute. reflexivity. Qed.

(** instructions_test.py:1227 *)
Example instructions_test_RT_simple :
  run_tests ([(lit "RecordTransfer", TUnmasked 0 0 0 0, Ok 1560)]) = true.
Proof. vm_compute. reflexivity. Qed.

(** instructions_test.py:1233 *)
Example instructions_test_RT_invalid_args :
  run_exception_tests ([(lit "RecordTransfer", TUnmasked 2 0 0 0, Ok 0); (lit "RecordTransfer", TUnmasked 0 2 0 0, Ok 0); (lit "RecordTransfer", TUnmasked 0 1 2 3, Ok 0)]) = true.
Proof. vm_compute. reflexivity. Qed.

(** instructions_test.py:1243 *)
Example instructions_test_RT_args_range :
  run_tests (flat_map (fun i => flat_map (fun j => flat_map (fun k => flat_map (fun l => [(lit "RecordTransfer", TUnmasked i j k l, (make_unmasked_opcode (lit "RT") (i) (j) (k) (l)))]) (py_range 0 2)) (py_range 0 2)) (py_range 0 2)) (py_range 0 2)) = true.
Proof. vm_compute. reflexivity. Qed.

(** instructions_test.py:1257 *)
Example instructions_test_MPC_simple :
  run_tests ([(lit "ControlProgram", TUnmasked 0 0 0 0, Ok 1024)]) = true.
Proof. vm_compute. reflexivity. Qed.

(** instructions_test.py:1263 *)
Example instructions_test_MPC_invalid_args :
  run_exception_tests ([(lit "ControlProgram", TUnmasked 2 0 0 0, Ok 0); (lit "ControlProgram", TUnmasked 0 2 0 0, Ok 0); (lit "ControlProgram", TUnmasked 0 1 2 3, Ok 0)]) = true.
Proof. vm_compute. reflexivity. Qed.

(** instructions_test.py:1273 *)
Example instructions_test_MPC_args_range :
  run_tests (flat_map (fun i => flat_map (fun j => flat_map (fun k => flat_map (fun l => [(lit "ControlProgram", TUnmasked i j k l, (make_unmasked_opcode (lit "MPC") (i) (j) (k) (l)))]) (py_range 0 2)) (py_range 0 2)) (py_range 0 2)) (py_range 0 2)) = true.
Proof. vm_compute. reflexivity. Qed.

(** instructions_test.py:1287 *)
Example instructions_test_PR_simple :
  run_tests ([(lit "Proceed", TNone, Ok 0)]) = true.
Proof. vm_compute. reflexivity. Qed.

(** instructions_test.py:1295 *)
Example instructions_test_SWS_simple :
  run_tests ([(lit "ShiftWordAndSubstitute", TUnmasked 0 0 0 0, Ok 1030)]) = true.
Proof. vm_compute. reflexivity. Qed.

(** instructions_test.py:1301 *)
Example instructions_test_SWS_invalid_args :
  run_exception_tests ([(lit "ShiftWordAndSubstitute", TUnmasked 2 0 0 0, Ok 0); (lit "ShiftWordAndSubstitute", TUnmasked 0 2 0 0, Ok 0); (lit "ShiftWordAndSubstitute", TUnmasked 0 1 2 3, Ok 0)]) = true.
Proof. vm_compute. reflexivity. Qed.

(** instructions_test.py:1311 *)
Example instructions_test_SWS_args_range :
  run_tests (flat_map (fun i => flat_map (fun j => flat_map (fun k => flat_map (fun l => [(lit "ShiftWordAndSubstitute", TUnmasked i j k l, (make_unmasked_opcode (lit "SWS") (i) (j) (k) (l)))]) (py_range 0 2)) (py_range 0 2)) (py_range 0 2)) (py_range 0 2)) = true.
Proof. vm_compute. reflexivity. Qed.

(** instructions_test.py:1325 *)
Example instructions_test_SPS_simple :
  run_tests ([(lit "ShiftPreservingSignAndSubstitute", TUnmasked 0 0 0 0, Ok 1026)]) = true.
Proof. vm_compute. reflexivity. Qed.

(** instructions_test.py:1331 *)
Example instructions_test_SPS_invalid_args :
  run_exception_tests ([(lit "ShiftPreservingSignAndSubstitute", TUnmasked 2 0 0 0, Ok 0); (lit "ShiftPreservingSignAndSubstitute", TUnmasked 0 2 0 0, Ok 0); (lit "ShiftPreservingSignAndSubstitute", TUnmasked 0 1 2 3, Ok 0)]) = true.
Proof. vm_compute. reflexivity. Qed.

(** instructions_test.py:1341 *)
Example instructions_test_SPS_args_range :
  run_tests (flat_map (fun i => flat_map (fun j => flat_map (fun k => flat_map (fun l => [(lit "ShiftPreservingSignAndSubstitute", TUnmasked i j k l, (make_unmasked_opcode (lit "SPS") (i) (j) (k) (l)))]) (py_range 0 2)) (py_range 0 2)) (py_range 0 2)) (py_range 0 2)) = true.
Proof. vm_compute. reflexivity. Qed.

(** instructions_test.py:1355 *)
Example instructions_test_SWE_simple :
  run_tests ([(lit "ShiftWordAndExtract", TUnmasked 0 0 0 0, Ok 1038)]) = true.
Proof. vm_compute. reflexivity. Qed.

(** instructions_test.py:1361 *)
Example instructions_test_SWE_invalid_args :
  run_exception_tests ([(lit "ShiftWordAndExtract", TUnmasked 2 0 0 0, Ok 0); (lit "ShiftWordAndExtract", TUnmasked 0 2 0 0, Ok 0); (lit "ShiftWordAndExtract", TUnmasked 0 1 2 3, Ok 0)]) = true.
Proof. vm_compute. reflexivity. Qed.

(** instructions_test.py:1371 *)
Example instructions_test_SWE_args_range :
  run_tests (flat_map (fun i => flat_map (fun j => flat_map (fun k => flat_map (fun l => [(lit "ShiftWordAndExtract", TUnmasked i j k l, (make_unmasked_opcode (lit "SWE") (i) (j) (k) (l)))]) (py_range 0 2)) (py_range 0 2)) (py_range 0 2)) (py_range 0 2)) = true.
Proof. vm_compute. reflexivity. Qed.

(** instructions_test.py:1385 *)
Example instructions_test_SPE_simple :
  run_tests ([(lit "ShiftPreservingSignAndExtract", TUnmasked 0 0 0 0, Ok 1034)]) = true.
Proof. vm_compute. reflexivity. Qed.

(** instructions_test.py:1391 *)
Example instructions_test_SPE_invalid_args :
  run_exception_tests ([(lit "ShiftPreservingSignAndExtract", TUnmasked 2 0 0 0, Ok 0); (lit "ShiftPreservingSignAndExtract", TUnmasked 0 2 0 0, Ok 0); (lit "ShiftPreservingSignAndExtract", TUnmasked 0 1 2 3, Ok 0)]) = true.
Proof. vm_compute. reflexivity. Qed.

(** instructions_test.py:1401 *)
Example instructions_test_SPE_args_range :
  run_tests (flat_map (fun i => flat_map (fun j => flat_map (fun k => flat_map (fun l => [(lit "ShiftPreservingSignAndExtract", TUnmasked i j k l, (make_unmasked_opcode (lit "SPE") (i) (j) (k) (l)))]) (py_range 0 2)) (py_range 0 2)) (py_range 0 2)) (py_range 0 2)) = true.
Proof. vm_compute. reflexivity. Qed.

(** instructions_test.py:1415 *)
Example instructions_test_SSL_simple :
  run_tests ([(lit "ShiftAndSelect", TUnmasked 0 0 0 0, Ok 1046)]) = true.
Proof. vm_compute. reflexivity. Qed.

(** instructions_test.py:1421 *)
Example instructions_test_SSL_invalid_args :
  run_exception_tests ([(lit "ShiftAndSelect", TUnmasked 2 0 0 0, Ok 0); (lit "ShiftAndSelect", TUnmasked 0 2 0 0, Ok 0); (lit "ShiftAndSelect", TUnmasked 0 1 2 3, Ok 0)]) = true.
Proof. vm_compute. reflexivity. Qed.

(** instructions_test.py:1431 *)
Example instructions_test_SSL_args_range :
  run_tests (flat_map (fun i => flat_map (fun j => flat_map (fun k => flat_map (fun l => [(lit "ShiftAndSelect", TUnmasked i j k l, (make_unmasked_opcode (lit "SSL") (i) (j) (k) (l)))]) (py_range 0 2)) (py_range 0 2)) (py_range 0 2)) (py_range 0 2)) = true.
Proof. vm_compute. reflexivity. Qed.

(** instructions_test.py:1445 *)
Example instructions_test_SS_simple :
  run_tests ([(lit "Substitute", TUnmasked 0 0 0 0, Ok 6)]) = true.
Proof. vm_compute. reflexivity. Qed.

(** instructions_test.py:1451 *)
Example instructions_test_SS_invalid_args :
  run_exception_tests ([(lit "Substitute", TUnmasked 2 0 0 0, Ok 0); (lit "Substitute", TUnmasked 0 2 0 0, Ok 0); (lit "Substitute", TUnmasked 0 1 2 3, Ok 0)]) = true.
Proof. vm_compute. reflexivity. Qed.

(** instructions_test.py:1461 *)
Example instructions_test_SS_args_range :
  run_tests (flat_map (fun i => flat_map (fun j => flat_map (fun k => flat_map (fun l => [(lit "Substitute", TUnmasked i j k l, (make_unmasked_opcode (lit "SS") (i) (j) (k) (l)))]) (py_range 0 2)) (py_range 0 2)) (py_range 0 2)) (py_range 0 2)) = true.
Proof. vm_compute. reflexivity. Qed.

(** instructions_test.py:1475 *)
Example instructions_test_EX_simple :
  run_tests ([(lit "Extract", TUnmasked 0 0 0 0, Ok 14)]) = true.
Proof. vm_compute. reflexivity. Qed.

(** instructions_test.py:1481 *)
Example instructions_test_EX_invalid_args :
  run_exception_tests ([(lit "Extract", TUnmasked 2 0 0 0, Ok 0); (lit "Extract", TUnmasked 0 2 0 0, Ok 0); (lit "Extract", TUnmasked 0 1 2 3, Ok 0)]) = true.
Proof. vm_compute. reflexivity. Qed.

(** instructions_test.py:1491 *)
Example instructions_test_EX_args_range :
  run_tests (flat_map (fun i => flat_map (fun j => flat_map (fun k => flat_map (fun l => [(lit "Extract", TUnmasked i j k l, (make_unmasked_opcode (lit "EX") (i) (j) (k) (l)))]) (py_range 0 2)) (py_range 0 2)) (py_range 0 2)) (py_range 0 2)) = true.
Proof. vm_compute. reflexivity. Qed.

(** instructions_test.py:1505 *)
Example instructions_test_RF_simple :
  run_tests ([(lit "ReadForward", TPaddr 0, Ok 58)]) = true.
Proof. vm_compute. reflexivity. Qed.

(** instructions_test.py:1511 *)
Example instructions_test_RF_invalid_args :
  run_exception_tests ([(lit "ReadForward", TPaddr (-1), Ok 0); (lit "ReadForward", TPaddr 64, Ok 0)]) = true.
Proof. vm_compute. reflexivity. Qed.

(** instructions_test.py:1520 *)
Example instructions_test_RF_args_range :
  run_tests (flat_map (fun p => [(lit "ReadForward", TPaddr p, (make_peripheral_opcode (lit "RF") (p)))]) (py_range 0 64)) = true.
Proof. vm_compute. reflexivity. Qed.

(** instructions_test.py:1531 *)
Example instructions_test_RB_simple :
  run_tests ([(lit "ReadBackward", TPaddr 0, Ok 42)]) = true.
Proof. vm_compute. reflexivity. Qed.

(** instructions_test.py:1537 *)
Example instructions_test_RB_invalid_args :
  run_exception_tests ([(lit "ReadBackward", TPaddr (-1), Ok 0); (lit "ReadBackward", TPaddr 64, Ok 0)]) = true.
Proof. vm_compute. reflexivity. Qed.

(** instructions_test.py:1546 *)
Example instructions_test_RB_args_range :
  run_tests (flat_map (fun p => [(lit "ReadBackward", TPaddr p, (make_peripheral_opcode (lit "RB") (p)))]) (py_range 0 64)) = true.
Proof. vm_compute. reflexivity. Qed.

(** instructions_test.py:1557 *)
Example instructions_test_WF_simple :
  run_tests ([(lit "WriteForward", TPaddr 0, Ok 46)]) = true.
Proof. vm_compute. reflexivity. Qed.

(** instructions_test.py:1563 *)
Example instructions_test_WF_invalid_args :
  run_exception_tests ([(lit "WriteForward", TPaddr (-1), Ok 0); (lit "WriteForward", TPaddr 64, Ok 0)]) = true.
Proof. vm_compute. reflexivity. Qed.

(** instructions_test.py:1572 *)
Example instructions_test_WF_args_range :
  run_tests (flat_map (fun p => [(lit "WriteForward", TPaddr p, (make_peripheral_opcode (lit "WF") (p)))]) (py_range 0 64)) = true.
Proof. vm_compute. reflexivity. Qed.

(** instructions_test.py:1583 *)
Example instructions_test_RW_simple :
  run_tests ([(lit "Rewind", TPaddr 0, Ok 34)]) = true.
Proof. vm_compute. reflexivity. Qed.

(** instructions_test.py:1589 *)
Example instructions_test_RW_invalid_args :
  run_exception_tests ([(lit "Rewind", TPaddr (-1), Ok 0); (lit "Rewind", TPaddr 64, Ok 0)]) = true.
Proof. vm_compute. reflexivity. Qed.

(** instructions_test.py:1598 *)
Example instructions_test_RW_args_range :
  run_tests (flat_map (fun p => [(lit "Rewind", TPaddr p, (make_peripheral_opcode (lit "RW") (p)))]) (py_range 0 64)) = true.
Proof. vm_compute. reflexivity. Qed.

(** instructions_test.py:1609 *)
Example instructions_test_PRA_simple :
  run_tests ([(lit "PrintAlphabetic", TUnmasked 0 0 0 0, Ok 38)]) = true.
Proof. vm_compute. reflexivity. Qed.

(** instructions_test.py:1615 *)
Example instructions_test_PRA_invalid_args :
  run_exception_tests ([(lit "PrintAlphabetic", TUnmasked 2 0 0 0, Ok 0); (lit "PrintAlphabetic", TUnmasked 0 2 0 0, Ok 0); (lit "PrintAlphabetic", TUnmasked 0 1 2 3, Ok 0)]) = true.
Proof. vm_compute. reflexivity. Qed.

(** instructions_test.py:1625 *)
Example instructions_test_PRA_args_range :
  run_tests (flat_map (fun i => flat_map (fun j => flat_map (fun k => flat_map (fun l => [(lit "PrintAlphabetic", TUnmasked i j k l, (make_print_opcode (lit "PRA") (i) (j) (k) (l)))]) (py_range 0 2)) (py_range 0 2)) (py_range 0 2)) (py_range 0 2)) = true.
Proof. vm_compute. reflexivity. Qed.

(** instructions_test.py:1639 *)
Example instructions_test_PRD_simple :
  run_tests ([(lit "PrintDecimal", TUnmasked 0 0 0 0, Ok 38)]) = true.
Proof. vm_compute. reflexivity. Qed.

(** instructions_test.py:1645 *)
Example instructions_test_PRD_invalid_args :
  run_exception_tests ([(lit "PrintDecimal", TUnmasked 2 0 0 0, Ok 0); (lit "PrintDecimal", TUnmasked 0 2 0 0, Ok 0); (lit "PrintDecimal", TUnmasked 0 1 2 3, Ok 0)]) = true.
Proof. vm_compute. reflexivity. Qed.

(** instructions_test.py:1655 *)
Example instructions_test_PRD_args_range :
  run_tests (flat_map (fun i => flat_map (fun j => flat_map (fun k => flat_map (fun l => [(lit "PrintDecimal", TUnmasked i j k l, (make_print_opcode (lit "PRD") (i) (j) (k) (l)))]) (py_range 0 2)) (py_range 0 2)) (py_range 0 2)) (py_range 0 2)) = true.
Proof. vm_compute. reflexivity. Qed.

(** instructions_test.py:1669 *)
Example instructions_test_PRO_simple :
  run_tests ([(lit "PrintOctal", TUnmasked 0 0 0 0, Ok 38)]) = true.
Proof. vm_compute. reflexivity. Qed.

(** instructions_test.py:1675 *)
Example instructions_test_PRO_invalid_args :
  run_exception_tests ([(lit "PrintOctal", TUnmasked 2 0 0 0, Ok 0); (lit "PrintOctal", TUnmasked 0 2 0 0, Ok 0); (lit "PrintOctal", TUnmasked 0 1 2 3, Ok 0)]) = true.
Proof. vm_compute. reflexivity. Qed.

(** instructions_test.py:1685 *)
Example instructions_test_PRO_args_range :
  run_tests (flat_map (fun i => flat_map (fun j => flat_map (fun k => flat_map (fun l => [(lit "PrintOctal", TUnmasked i j k l, (make_print_opcode (lit "PRO") (i) (j) (k) (l)))]) (py_range 0 2)) (py_range 0 2)) (py_range 0 2)) (py_range 0 2)) = true.
Proof. vm_compute. reflexivity. Qed.

(** instructions_test.py:1699 *)
Example instructions_test_S_simple :
  run_tests ([(lit "Simulator", TSim 0, Ok 7)]) = true.
Proof. vm_compute. reflexivity. Qed.

(** instructions_test.py:1705 *)
Example instructions_test_S_invalid_args :
  run_exception_tests ([(lit "Simulator", TSim 2, Ok 0)]) = true.
Proof. vm_compute. reflexivity. Qed.

(** instructions_test.py:1713 *)
Example instructions_test_S_args_range :
  run_tests ([(lit "Simulator", TSim 0, Ok 7); (lit "Simulator", TSim 1, Ok 2055)]) = true.
Proof. vm_compute. reflexivity. Qed.

(** instructions_test.py:1724 *)
Example instructions_test_FBA_simple :
  run_tests ([(lit "FloatingBinaryAdd", TUnmasked 0 0 0 0, Ok 513)]) = true.
Proof. vm_compute. reflexivity. Qed.

(** instructions_test.py:1730 *)
Example instructions_test_FBA_invalid_args :
  run_exception_tests ([(lit "FloatingBinaryAdd", TUnmasked 2 0 0 0, Ok 0); (lit "FloatingBinaryAdd", TUnmasked 0 2 0 0, Ok 0); (lit "FloatingBinaryAdd", TUnmasked 0 1 2 3, Ok 0)]) = true.
Proof. vm_compute. reflexivity. Qed.

(** instructions_test.py:1740 *)
Example instructions_test_FBA_args_range :
  run_tests (flat_map (fun i => flat_map (fun j => flat_map (fun k => flat_map (fun l => [(lit "FloatingBinaryAdd", TUnmasked i j k l, (make_unmasked_opcode (lit "FBA") (i) (j) (k) (l)))]) (py_range 0 2)) (py_range 0 2)) (py_range 0 2)) (py_range 0 2)) = true.
Proof. vm_compute. reflexivity. Qed.

(** instructions_test.py:1754 *)
Example instructions_test_FDA_simple :
  run_tests ([(lit "FloatingDecimalAdd", TUnmasked 0 0 0 0, Ok 529)]) = true.
Proof. vm_compute. reflexivity. Qed.

(** instructions_test.py:1760 *)
Example instructions_test_FDA_invalid_args :
  run_exception_tests ([(lit "FloatingDecimalAdd", TUnmasked 2 0 0 0, Ok 0); (lit "FloatingDecimalAdd", TUnmasked 0 2 0 0, Ok 0); (lit "FloatingDecimalAdd", TUnmasked 0 1 2 3, Ok 0)]) = true.
Proof. vm_compute. reflexivity. Qed.

(** instructions_test.py:1770 *)
Example instructions_test_FDA_args_range :
  run_tests (flat_map (fun i => flat_map (fun j => flat_map (fun k => flat_map (fun l => [(lit "FloatingDecimalAdd", TUnmasked i j k l, (make_unmasked_opcode (lit "FDA") (i) (j) (k) (l)))]) (py_range 0 2)) (py_range 0 2)) (py_range 0 2)) (py_range 0 2)) = true.
Proof. vm_compute. reflexivity. Qed.

(** instructions_test.py:1784 *)
Example instructions_test_FBS_simple :
  run_tests ([(lit "FloatingBinarySubtract", TUnmasked 0 0 0 0, Ok 521)]) = true.
Proof. vm_compute. reflexivity. Qed.

(** instructions_test.py:1790 *)
Example instructions_test_FBS_invalid_args :
  run_exception_tests ([(lit "FloatingBinarySubtract", TUnmasked 2 0 0 0, Ok 0); (lit "FloatingBinarySubtract", TUnmasked 0 2 0 0, Ok 0); (lit "FloatingBinarySubtract", TUnmasked 0 1 2 3, Ok 0)]) = true.
Proof. vm_compute. reflexivity. Qed.

(** instructions_test.py:1800 *)
Example instructions_test_FBS_args_range :
  run_tests (flat_map (fun i => flat_map (fun j => flat_map (fun k => flat_map (fun l => [(lit "FloatingBinarySubtract", TUnmasked i j k l, (make_unmasked_opcode (lit "FBS") (i) (j) (k) (l)))]) (py_range 0 2)) (py_range 0 2)) (py_range 0 2)) (py_range 0 2)) = true.
Proof. vm_compute. reflexivity. Qed.

(** instructions_test.py:1814 *)
Example instructions_test_FDS_simple :
  run_tests ([(lit "FloatingDecimalSubtract", TUnmasked 0 0 0 0, Ok 537)]) = true.
Proof. vm_compute. reflexivity. Qed.

(** instructions_test.py:1820 *)
Example instructions_test_FDS_invalid_args :
  run_exception_tests ([(lit "FloatingDecimalSubtract", TUnmasked 2 0 0 0, Ok 0); (lit "FloatingDecimalSubtract", TUnmasked 0 2 0 0, Ok 0); (lit "FloatingDecimalSubtract", TUnmasked 0 1 2 3, Ok 0)]) = true.
Proof. vm_compute. reflexivity. Qed.

(** instructions_test.py:1830 *)
Example instructions_test_FDS_args_range :
  run_tests (flat_map (fun i => flat_map (fun j => flat_map (fun k => flat_map (fun l => [(lit "FloatingDecimalSubtract", TUnmasked i j k l, (make_unmasked_opcode (lit "FDS") (i) (j) (k) (l)))]) (py_range 0 2)) (py_range 0 2)) (py_range 0 2)) (py_range 0 2)) = true.
Proof. vm_compute. reflexivity. Qed.

(** instructions_test.py:1844 *)
Example instructions_test_FBD_simple :
  run_tests ([(lit "FloatingBinaryDivide", TUnmasked 0 0 0 0, Ok 517)]) = true.
Proof. vm_compute. reflexivity. Qed.

(** instructions_test.py:1850 *)
Example instructions_test_FBD_invalid_args :
  run_exception_tests ([(lit "FloatingBinaryDivide", TUnmasked 2 0 0 0, Ok 0); (lit "FloatingBinaryDivide", TUnmasked 0 2 0 0, Ok 0); (lit "FloatingBinaryDivide", TUnmasked 0 1 2 3, Ok 0)]) = true.
Proof. vm_compute. reflexivity. Qed.

(** instructions_test.py:1860 *)
Example instructions_test_FBD_args_range :
  run_tests (flat_map (fun i => flat_map (fun j => flat_map (fun k => flat_map (fun l => [(lit "FloatingBinaryDivide", TUnmasked i j k l, (make_unmasked_opcode (lit "FBD") (i) (j) (k) (l)))]) (py_range 0 2)) (py_range 0 2)) (py_range 0 2)) (py_range 0 2)) = true.
Proof. vm_compute. reflexivity. Qed.

(** instructions_test.py:1874 *)
Example instructions_test_FDD_simple :
  run_tests ([(lit "FloatingDecimalDivide", TUnmasked 0 0 0 0, Ok 533)]) = true.
Proof. vm_compute. reflexivity. Qed.

(** instructions_test.py:1880 *)
Example instructions_test_FDD_invalid_args :
  run_exception_tests ([(lit "FloatingDecimalDivide", TUnmasked 2 0 0 0, Ok 0); (lit "FloatingDecimalDivide", TUnmasked 0 2 0 0, Ok 0); (lit "FloatingDecimalDivide", TUnmasked 0 1 2 3, Ok 0)]) = true.
Proof. vm_compute. reflexivity. Qed.

(** instructions_test.py:1890 *)
Example instructions_test_FDD_args_range :
  run_tests (flat_map (fun i => flat_map (fun j => flat_map (fun k => flat_map (fun l => [(lit "FloatingDecimalDivide", TUnmasked i j k l, (make_unmasked_opcode (lit "FDD") (i) (j) (k) (l)))]) (py_range 0 2)) (py_range 0 2)) (py_range 0 2)) (py_range 0 2)) = true.
Proof. vm_compute. reflexivity. Qed.

(** instructions_test.py:1904 *)
Example instructions_test_FBAU_simple :
  run_tests ([(lit "FloatingBinaryAddUnnormalized", TUnmasked 0 0 0 0, Ok 1537)]) = true.
Proof. vm_compute. reflexivity. Qed.

(** instructions_test.py:1910 *)
Example instructions_test_FBAU_invalid_args :
  run_exception_tests ([(lit "FloatingBinaryAddUnnormalized", TUnmasked 2 0 0 0, Ok 0); (lit "FloatingBinaryAddUnnormalized", TUnmasked 0 2 0 0, Ok 0); (lit "FloatingBinaryAddUnnormalized", TUnmasked 0 1 2 3, Ok 0)]) = true.
Proof. vm_compute. reflexivity. Qed.

(** instructions_test.py:1920 *)
Example instructions_test_FBAU_args_range :
  run_tests (flat_map (fun i => flat_map (fun j => flat_map (fun k => flat_map (fun l => [(lit "FloatingBinaryAddUnnormalized", TUnmasked i j k l, (make_unmasked_opcode (lit "FBAU") (i) (j) (k) (l)))]) (py_range 0 2)) (py_range 0 2)) (py_range 0 2)) (py_range 0 2)) = true.
Proof. vm_compute. reflexivity. Qed.

(** instructions_test.py:1934 *)
Example instructions_test_FDAU_simple :
  run_tests ([(lit "FloatingDecimalAddUnnormalized", TUnmasked 0 0 0 0, Ok 1553)]) = true.
Proof. vm_compute. reflexivity. Qed.

(** instructions_test.py:1940 *)
Example instructions_test_FDAU_invalid_args :
  run_exception_tests ([(lit "FloatingDecimalAddUnnormalized", TUnmasked 2 0 0 0, Ok 0); (lit "FloatingDecimalAddUnnormalized", TUnmasked 0 2 0 0, Ok 0); (lit "FloatingDecimalAddUnnormalized", TUnmasked 0 1 2 3, Ok 0)]) = true.
Proof. vm_compute. reflexivity. Qed.

(** instructions_test.py:1950 *)
Example instructions_test_FDAU_args_range :
  run_tests (flat_map (fun i => flat_map (fun j => flat_map (fun k => flat_map (fun l => [(lit "FloatingDecimalAddUnnormalized", TUnmasked i j k l, (make_unmasked_opcode (lit "FDAU") (i) (j) (k) (l)))]) (py_range 0 2)) (py_range 0 2)) (py_range 0 2)) (py_range 0 2)) = true.
Proof. vm_compute. reflexivity. Qed.

(** instructions_test.py:1964 *)
Example instructions_test_FBSU_simple :
  run_tests ([(lit "FloatingBinarySubtractUnnormalized", TUnmasked 0 0 0 0, Ok 1545)]) = true.
Proof. vm_compute. reflexivity. Qed.

(** instructions_test.py:1970 *)
Example instructions_test_FBSU_invalid_args :
  run_exception_tests ([(lit "FloatingBinarySubtractUnnormalized", TUnmasked 2 0 0 0, Ok 0); (lit "FloatingBinarySubtractUnnormalized", TUnmasked 0 2 0 0, Ok 0); (lit "FloatingBinarySubtractUnnormalized", TUnmasked 0 1 2 3, Ok 0)]) = true.
Proof. vm_compute. reflexivity. Qed.

(** instructions_test.py:1980 *)
Example instructions_test_FBSU_args_range :
  run_tests (flat_map (fun i => flat_map (fun j => flat_map (fun k => flat_map (fun l => [(lit "FloatingBinarySubtractUnnormalized", TUnmasked i j k l, (make_unmasked_opcode (lit "FBSU") (i) (j) (k) (l)))]) (py_range 0 2)) (py_range 0 2)) (py_range 0 2)) (py_range 0 2)) = true.
Proof. vm_compute. reflexivity. Qed.

(** instructions_test.py:1994 *)
Example instructions_test_FDSU_simple :
  run_tests ([(lit "FloatingDecimalSubtractUnnormalized", TUnmasked 0 0 0 0, Ok 1561)]) = true.
Proof. vm_compute. reflexivity. Qed.

(** instructions_test.py:2000 *)
Example instructions_test_FDSU_invalid_args :
  run_exception_tests ([(lit "FloatingDecimalSubtractUnnormalized", TUnmasked 2 0 0 0, Ok 0); (lit "FloatingDecimalSubtractUnnormalized", TUnmasked 0 2 0 0, Ok 0); (lit "FloatingDecimalSubtractUnnormalized", TUnmasked 0 1 2 3, Ok 0)]) = true.
Proof. vm_compute. reflexivity. Qed.

(** instructions_test.py:2010 *)
Example instructions_test_FDSU_args_range :
  run_tests (flat_map (fun i => flat_map (fun j => flat_map (fun k => flat_map (fun l => [(lit "FloatingDecimalSubtractUnnormalized", TUnmasked i j k l, (make_unmasked_opcode (lit "FDSU") (i) (j) (k) (l)))]) (py_range 0 2)) (py_range 0 2)) (py_range 0 2)) (py_range 0 2)) = true.
Proof. vm_compute. reflexivity. Qed.

(** instructions_test.py:2024 *)
Example instructions_test_FBM_simple :
  run_tests ([(lit "FloatingBinaryMultiply", TUnmasked 0 0 0 0, Ok 1541)]) = true.
Proof. vm_compute. reflexivity. Qed.

(** instructions_test.py:2030 *)
Example instructions_test_FBM_invalid_args :
  run_exception_tests ([(lit "FloatingBinaryMultiply", TUnmasked 2 0 0 0, Ok 0); (lit "FloatingBinaryMultiply", TUnmasked 0 2 0 0, Ok 0); (lit "FloatingBinaryMultiply", TUnmasked 0 1 2 3, Ok 0)]) = true.
Proof. vm_compute. reflexivity. Qed.

(** instructions_test.py:2040 *)
Example instructions_test_FBM_args_range :
  run_tests (flat_map (fun i => flat_map (fun j => flat_map (fun k => flat_map (fun l => [(lit "FloatingBinaryMultiply", TUnmasked i j k l, (make_unmasked_opcode (lit "FBM") (i) (j) (k) (l)))]) (py_range 0 2)) (py_range 0 2)) (py_range 0 2)) (py_range 0 2)) = true.
Proof. vm_compute. reflexivity. Qed.

(** instructions_test.py:2054 *)
Example instructions_test_FDM_simple :
  run_tests ([(lit "FloatingDecimalMultiply", TUnmasked 0 0 0 0, Ok 1557)]) = true.
Proof. vm_compute. reflexivity. Qed.

(** instructions_test.py:2060 *)
Example instructions_test_FDM_invalid_args :
  run_exception_tests ([(lit "FloatingDecimalMultiply", TUnmasked 2 0 0 0, Ok 0); (lit "FloatingDecimalMultiply", TUnmasked 0 2 0 0, Ok 0); (lit "FloatingDecimalMultiply", TUnmasked 0 1 2 3, Ok 0)]) = true.
Proof. vm_compute. reflexivity. Qed.

(** instructions_test.py:2070 *)
Example instructions_test_FDM_args_range :
  run_tests (flat_map (fun i => flat_map (fun j => flat_map (fun k => flat_map (fun l => [(lit "FloatingDecimalMultiply", TUnmasked i j k l, (make_unmasked_opcode (lit "FDM") (i) (j) (k) (l)))]) (py_range 0 2)) (py_range 0 2)) (py_range 0 2)) (py_range 0 2)) = true.
Proof. vm_compute. reflexivity. Qed.

(** instructions_test.py:2084 *)
Example instructions_test_ULD_simple :
  run_tests ([(lit "MultipleUnload", TUnmasked 0 0 0 0, Ok 1549)]) = true.
Proof. vm_compute. reflexivity. Qed.

(** instructions_test.py:2090 *)
Example instructions_test_ULD_invalid_args :
  run_exception_tests ([(lit "MultipleUnload", TUnmasked 2 0 0 0, Ok 0); (lit "MultipleUnload", TUnmasked 0 2 0 0, Ok 0); (lit "MultipleUnload", TUnmasked 0 1 2 3, Ok 0)]) = true.
Proof. vm_compute. reflexivity. Qed.

(** instructions_test.py:2100 *)
Example instructions_test_ULD_args_range :
  run_tests (flat_map (fun i => flat_map (fun j => flat_map (fun k => flat_map (fun l => [(lit "MultipleUnload", TUnmasked i j k l, (make_unmasked_opcode (lit "ULD") (i) (j) (k) (l)))]) (py_range 0 2)) (py_range 0 2)) (py_range 0 2)) (py_range 0 2)) = true.
Proof. vm_compute. reflexivity. Qed.

(** instructions_test.py:2114 *)
Example instructions_test_FBAE_simple :
  run_tests ([(lit "FloatingBinaryAddExtendedPrecision", TUnmasked 0 0 0 0, Ok 1)]) = true.
Proof. vm_compute. reflexivity. Qed.

(** instructions_test.py:2120 *)
Example instructions_test_FBAE_invalid_args :
  run_exception_tests ([(lit "FloatingBinaryAddExtendedPrecision", TUnmasked 2 0 0 0, Ok 0); (lit "FloatingBinaryAddExtendedPrecision", TUnmasked 0 2 0 0, Ok 0); (lit "FloatingBinaryAddExtendedPrecision", TUnmasked 0 1 2 3, Ok 0)]) = true.
Proof. vm_compute. reflexivity. Qed.

(** instructions_test.py:2130 *)
Example instructions_test_FBAE_args_range :
  run_tests (flat_map (fun i => flat_map (fun j => flat_map (fun k => flat_map (fun l => [(lit "FloatingBinaryAddExtendedPrecision", TUnmasked i j k l, (make_unmasked_opcode (lit "FBAE") (i) (j) (k) (l)))]) (py_range 0 2)) (py_range 0 2)) (py_range 0 2)) (py_range 0 2)) = true.
Proof. vm_compute. reflexivity. Qed.

(** instructions_test.py:2144 *)
Example instructions_test_FBSE_simple :
  run_tests ([(lit "FloatingBinarySubtractExtendedPrecision", TUnmasked 0 0 0 0, Ok 9)]) = true.
Proof. vm_compute. reflexivity. Qed.

(** instructions_test.py:2150 *)
Example instructions_test_FBSE_invalid_args :
  run_exception_tests ([(lit "FloatingBinarySubtractExtendedPrecision", TUnmasked 2 0 0 0, Ok 0); (lit "FloatingBinarySubtractExtendedPrecision", TUnmasked 0 2 0 0, Ok 0); (lit "FloatingBinarySubtractExtendedPrecision", TUnmasked 0 1 2 3, Ok 0)]) = true.
Proof. vm_compute. reflexivity. Qed.

(** instructions_test.py:2160 *)
Example instructions_test_FBSE_args_range :
  run_tests (flat_map (fun i => flat_map (fun j => flat_map (fun k => flat_map (fun l => [(lit "FloatingBinarySubtractExtendedPrecision", TUnmasked i j k l, (make_unmasked_opcode (lit "FBSE") (i) (j) (k) (l)))]) (py_range 0 2)) (py_range 0 2)) (py_range 0 2)) (py_range 0 2)) = true.
Proof. vm_compute. reflexivity. Qed.

(** instructions_test.py:2174 *)
Example instructions_test_BD_simple :
  run_tests ([(lit "FixedBinaryDivide", TUnmasked 0 0 0 0, Ok 5)]) = true.
Proof. vm_compute. reflexivity. Qed.

(** instructions_test.py:2180 *)
Example instructions_test_BD_invalid_args :
  run_exception_tests ([(lit "FixedBinaryDivide", TUnmasked 2 0 0 0, Ok 0); (lit "FixedBinaryDivide", TUnmasked 0 2 0 0, Ok 0); (lit "FixedBinaryDivide", TUnmasked 0 1 2 3, Ok 0)]) = true.
Proof. vm_compute. reflexivity. Qed.

(** instructions_test.py:2190 *)
Example instructions_test_BD_args_range :
  run_tests (flat_map (fun i => flat_map (fun j => flat_map (fun k => flat_map (fun l => [(lit "FixedBinaryDivide", TUnmasked i j k l, (make_unmasked_opcode (lit "BD") (i) (j) (k) (l)))]) (py_range 0 2)) (py_range 0 2)) (py_range 0 2)) (py_range 0 2)) = true.
Proof. vm_compute. reflexivity. Qed.

(** instructions_test.py:2204 *)
Example instructions_test_DD_simple :
  run_tests ([(lit "FixedDecimalDivide", TUnmasked 0 0 0 0, Ok 21)]) = true.
Proof. vm_compute. reflexivity. Qed.

(** instructions_test.py:2210 *)
Example instructions_test_DD_invalid_args :
  run_exception_tests ([(lit "FixedDecimalDivide", TUnmasked 2 0 0 0, Ok 0); (lit "FixedDecimalDivide", TUnmasked 0 2 0 0, Ok 0); (lit "FixedDecimalDivide", TUnmasked 0 1 2 3, Ok 0)]) = true.
Proof. vm_compute. reflexivity. Qed.

(** instructions_test.py:2220 *)
Example instructions_test_DD_args_range :
  run_tests (flat_map (fun i => flat_map (fun j => flat_map (fun k => flat_map (fun l => [(lit "FixedDecimalDivide", TUnmasked i j k l, (make_unmasked_opcode (lit "DD") (i) (j) (k) (l)))]) (py_range 0 2)) (py_range 0 2)) (py_range 0 2)) (py_range 0 2)) = true.
Proof. vm_compute. reflexivity. Qed.

(** instructions_test.py:2234 *)
Example instructions_test_FFN_simple :
  run_tests ([(lit "FixedToFloatingNormalize", TUnmasked 0 0 0 0, Ok 13)]) = true.
Proof. vm_compute. reflexivity. Qed.

(** instructions_test.py:2240 *)
Example instructions_test_FFN_invalid_args :
  run_exception_tests ([(lit "FixedToFloatingNormalize", TUnmasked 2 0 0 0, Ok 0); (lit "FixedToFloatingNormalize", TUnmasked 0 2 0 0, Ok 0); (lit "FixedToFloatingNormalize", TUnmasked 0 1 2 3, Ok 0)]) = true.
Proof. vm_compute. reflexivity. Qed.

(** instructions_test.py:2250 *)
Example instructions_test_FFN_args_range :
  run_tests (flat_map (fun i => flat_map (fun j => flat_map (fun k => flat_map (fun l => [(lit "FixedToFloatingNormalize", TUnmasked i j k l, (make_unmasked_opcode (lit "FFN") (i) (j) (k) (l)))]) (py_range 0 2)) (py_range 0 2)) (py_range 0 2)) (py_range 0 2)) = true.
Proof. vm_compute. reflexivity. Qed.

(** instructions_test.py:2264 *)
Example instructions_test_FCON_simple :
  run_tests ([(lit "Conversion", TUnmasked 0 0 0 0, Ok 29)]) = true.
Proof. vm_compute. reflexivity. Qed.

(** instructions_test.py:2270 *)
Example instructions_test_FCON_invalid_args :
  run_exception_tests ([(lit "Conversion", TUnmasked 2 0 0 0, Ok 0); (lit "Conversion", TUnmasked 0 2 0 0, Ok 0); (lit "Conversion", TUnmasked 0 1 2 3, Ok 0)]) = true.
Proof. vm_compute. reflexivity. Qed.

(** instructions_test.py:2280 *)
Example instructions_test_FCON_args_range :
  run_tests (flat_map (fun i => flat_map (fun j => flat_map (fun k => flat_map (fun l => [(lit "Conversion", TUnmasked i j k l, (make_unmasked_opcode (lit "FCON") (i) (j) (k) (l)))]) (py_range 0 2)) (py_range 0 2)) (py_range 0 2)) (py_range 0 2)) = true.
Proof. vm_compute. reflexivity. Qed.

(** instructions_test.py:2294 *)
Example instructions_test_FLN_simple :
  run_tests ([(lit "FloatingLessThanNormalized", TUnmasked 0 0 0 0, Ok 24)]) = true.
Proof. vm_compute. reflexivity. Qed.

(** instructions_test.py:2300 *)
Example instructions_test_FLN_invalid_args :
  run_exception_tests ([(lit "FloatingLessThanNormalized", TUnmasked 2 0 0 0, Ok 0); (lit "FloatingLessThanNormalized", TUnmasked 0 2 0 0, Ok 0); (lit "FloatingLessThanNormalized", TUnmasked 0 1 2 3, Ok 0)]) = true.
Proof. vm_compute. reflexivity. Qed.

(** instructions_test.py:2310 *)
Example instructions_test_FLN_args_range :
  run_tests (flat_map (fun i => flat_map (fun j => flat_map (fun k => flat_map (fun l => [(lit "FloatingLessThanNormalized", TUnmasked i j k l, (make_unmasked_opcode (lit "FLN") (i) (j) (k) (l)))]) (py_range 0 2)) (py_range 0 2)) (py_range 0 2)) (py_range 0 2)) = true.
Proof. vm_compute. reflexivity. Qed.

(** instructions_test.py:2324 *)
Example instructions_test_FNN_simple :
  run_tests ([(lit "FloatingNotEqualNormalized", TUnmasked 0 0 0 0, Ok 1036)]) = true.
Proof. vm_compute. reflexivity. Qed.

(** instructions_test.py:2330 *)
Example instructions_test_FNN_invalid_args :
  run_exception_tests ([(lit "FloatingNotEqualNormalized", TUnmasked 2 0 0 0, Ok 0); (lit "FloatingNotEqualNormalized", TUnmasked 0 2 0 0, Ok 0); (lit "FloatingNotEqualNormalized", TUnmasked 0 1 2 3, Ok 0)]) = true.
Proof. vm_compute. reflexivity. Qed.

(** instructions_test.py:2340 *)
Example instructions_test_FNN_args_range :
  run_tests (flat_map (fun i => flat_map (fun j => flat_map (fun k => flat_map (fun l => [(lit "FloatingNotEqualNormalized", TUnmasked i j k l, (make_unmasked_opcode (lit "FNN") (i) (j) (k) (l)))]) (py_range 0 2)) (py_range 0 2)) (py_range 0 2)) (py_range 0 2)) = true.
Proof. vm_compute. reflexivity. Qed.

(** instructions_test.py:2354 *)
Example instructions_test_ALF_simple :
  run_tests ([(lit "AlphanumericConstant", TConst 0, Ok 0)]) = true.
Proof. vm_compute. reflexivity. Qed.

(** instructions_test.py:2360 *)
Example instructions_test_ALF_invalid_args :
  run_exception_tests ([(lit "AlphanumericConstant", TConst (-1), Ok 0); (lit "AlphanumericConstant", TConst (2 ^ 48), Ok 0)]) = true.
Proof. vm_compute. reflexivity. Qed.

(** instructions_test.py:2369 *)
Example instructions_test_ALF_args_range :
  run_tests ([(lit "AlphanumericConstant", TConst 0, Ok 0); (lit "AlphanumericConstant", TConst 1, Ok 1); (lit "AlphanumericConstant", TConst 4095, Ok 4095); (lit "AlphanumericConstant", TConst 4096, Ok 4096); (lit "AlphanumericConstant", TConst ((2 ^ 48) - 1), Ok ((2 ^ 48) - 1))]) = true.
Proof. vm_compute. reflexivity. Qed.

(** instructions_test.py:2383 *)
Example instructions_test_DEC_simple :
  run_tests ([(lit "DecimalConstant", TConst 0, Ok 0)]) = true.
Proof. vm_compute. reflexivity. Qed.

(** instructions_test.py:2389 *)
Example instructions_test_DEC_invalid_args :
  run_exception_tests ([(lit "DecimalConstant", TConst (-1), Ok 0); (lit "DecimalConstant", TConst (2 ^ 48), Ok 0)]) = true.
Proof. vm_compute. reflexivity. Qed.

(** instructions_test.py:2398 *)
Example instructions_test_DEC_args_range :
  run_tests ([(lit "DecimalConstant", TConst 0, Ok 0); (lit "DecimalConstant", TConst 1, Ok 1); (lit "DecimalConstant", TConst 4095, Ok 4095); (lit "DecimalConstant", TConst 4096, Ok 4096); (lit "DecimalConstant", TConst ((2 ^ 48) - 1), Ok ((2 ^ 48) - 1))]) = true.
Proof. vm_compute. reflexivity. Qed.

(** instructions_test.py:2412 *)
Example instructions_test_EBC_simple :
  run_tests ([(lit "ExtendedBinaryConstant", TConst 0, Ok 0)]) = true.
Proof. vm_compute. reflexivity. Qed.

(** instructions_test.py:2418 *)
Example instructions_test_EBC_invalid_args :
  run_exception_tests ([(lit "ExtendedBinaryConstant", TConst (-1), Ok 0); (lit "ExtendedBinaryConstant", TConst (2 ^ 48), Ok 0)]) = true.
Proof. vm_compute. reflexivity. Qed.

(** instructions_test.py:2427 *)
Example instructions_test_EBC_args_range :
  run_tests ([(lit "ExtendedBinaryConstant", TConst 0, Ok 0); (lit "ExtendedBinaryConstant", TConst 1, Ok 1); (lit "ExtendedBinaryConstant", TConst 4095, Ok 4095); (lit "ExtendedBinaryConstant", TConst 4096, Ok 4096); (lit "ExtendedBinaryConstant", TConst ((2 ^ 48) - 1), Ok ((2 ^ 48) - 1))]) = true.
Proof. vm_compute. reflexivity. Qed.

(** instructions_test.py:2441 *)
Example instructions_test_FLBIN_simple :
  run_tests ([(lit "FloatingBinaryConstant", TConst 0, Ok 0)]) = true.
Proof. vm_compute. reflexivity. Qed.

(** instructions_test.py:2447 *)
Example instructions_test_FLBIN_invalid_args :
  run_exception_tests ([(lit "FloatingBinaryConstant", TConst (-1), Ok 0); (lit "FloatingBinaryConstant", TConst (2 ^ 48), Ok 0)]) = true.
Proof. vm_compute. reflexivity. Qed.

(** instructions_test.py:2456 *)
Example instructions_test_FLBIN_args_range :
  run_tests ([(lit "FloatingBinaryConstant", TConst 0, Ok 0); (lit "FloatingBinaryConstant", TConst 1, Ok 1); (lit "FloatingBinaryConstant", TConst 4095, Ok 4095); (lit "FloatingBinaryConstant", TConst 4096, Ok 4096); (lit "FloatingBinaryConstant", TConst ((2 ^ 48) - 1), Ok ((2 ^ 48) - 1))]) = true.
Proof. vm_compute. reflexivity. Qed.

(** instructions_test.py:2470 *)
Example instructions_test_FLDEC_simple :
  run_tests ([(lit "FloatingDecimalConstant", TConst 0, Ok 0)]) = true.
Proof. vm_compute. reflexivity. Qed.

(** instructions_test.py:2476 *)
Example instructions_test_FLDEC_invalid_args :
  run_exception_tests ([(lit "FloatingDecimalConstant", TConst (-1), Ok 0); (lit "FloatingDecimalConstant", TConst (2 ^ 48), Ok 0)]) = true.
Proof. vm_compute. reflexivity. Qed.

(** instructions_test.py:2485 *)
Example instructions_test_FLDEC_args_range :
  run_tests ([(lit "FloatingDecimalConstant", TConst 0, Ok 0); (lit "FloatingDecimalConstant", TConst 1, Ok 1); (lit "FloatingDecimalConstant", TConst 4095, Ok 4095); (lit "FloatingDecimalConstant", TConst 4096, Ok 4096); (lit "FloatingDecimalConstant", TConst ((2 ^ 48) - 1), Ok ((2 ^ 48) - 1))]) = true.
Proof. vm_compute. reflexivity. Qed.

(** instructions_test.py:2499 *)
Example instructions_test_FXBIN_simple :
  run_tests ([(lit "FixedBinaryConstant", TConst 0, Ok 0)]) = true.
Proof. vm_compute. reflexivity. Qed.

(** instructions_test.py:2505 *)
Example instructions_test_FXBIN_invalid_args :
  run_exception_tests ([(lit "FixedBinaryConstant", TConst (-1), Ok 0); (lit "FixedBinaryConstant", TConst (2 ^ 48), Ok 0)]) = true.
Proof. vm_compute. reflexivity. Qed.

(** instructions_test.py:2514 *)
Example instructions_test_FXBIN_args_range :
  run_tests ([(lit "FixedBinaryConstant", TConst 0, Ok 0); (lit "FixedBinaryConstant", TConst 1, Ok 1); (lit "FixedBinaryConstant", TConst 4095, Ok 4095); (lit "FixedBinaryConstant", TConst 4096, Ok 4096); (lit "FixedBinaryConstant", TConst ((2 ^ 48) - 1), Ok ((2 ^ 48) - 1))]) = true.
Proof. vm_compute. reflexivity. Qed.

(** instructions_test.py:2528 *)
Example instructions_test_OCT_simple :
  run_tests ([(lit "OctalConstant", TConst 0, Ok 0)]) = true.
Proof. vm_compute. reflexivity. Qed.

(** instructions_test.py:2534 *)
Example instructions_test_OCT_invalid_args :
  run_exception_tests ([(lit "OctalConstant", TConst (-1), Ok 0); (lit "OctalConstant", TConst (2 ^ 48), Ok 0)]) = true.
Proof. vm_compute. reflexivity. Qed.

(** instructions_test.py:2543 *)
Example instructions_test_OCT_args_range :
  run_tests ([(lit "OctalConstant", TConst 0, Ok 0); (lit "OctalConstant", TConst 1, Ok 1); (lit "OctalConstant", TConst 4095, Ok 4095); (lit "OctalConstant", TConst 4096, Ok 4096); (lit "OctalConstant", TConst ((2 ^ 48) - 1), Ok ((2 ^ 48) - 1))]) = true.
Proof. vm_compute. reflexivity. Qed.


(** punchcard_test.py test_simple, the single card *)
Definition pc_line : str := lit " 0981   BACKUP     TS           S ZERO        COMMON        SET UP GPB     C    COMMUNICATION FLAG FOR END.".
Example punchcard_test_simple :
  match punchcard_new pc_line DEFAULT_WIDTH DEFAULT_FIELDS DEFAULT_FIELDNAMES None 0 with
  | Err _ => False
  | Ok c =>
      c_line c = pc_line
      /\ c_layout c = [(1, 1); (2, 6); (8, 1); (9, 11); (20, 13); (33, 14); (47, 14); (61, 15); (76, 5); (81, 40)]
      /\ card_fields c = Ok [lit " ";
        lit "0981  ";
        lit " ";
        lit "BACKUP     ";
        lit "TS           ";
        lit "S ZERO        ";
        lit "COMMON        ";
        lit "SET UP GPB     ";
        lit "C    ";
        lit "COMMUNICATION FLAG FOR END."]
      /\ card_stripped c = Ok [None;
        Some (lit "0981");
        None;
        Some (lit "BACKUP");
        Some (lit "TS");
        Some (lit "S ZERO");
        Some (lit "COMMON");
        Some (lit "SET UP GPB");
        Some (lit "C");
        Some (lit "COMMUNICATION FLAG FOR END.")]
      /\ (do r <- card_record c; Ok (zlen r)) = Ok 10
      /\ card_record c = Ok [(lit "column1", RNone);
        (lit "lognum", RStr (lit "0981"));
        (lit "column8", RNone);
        (lit "label", RStr (lit "BACKUP"));
        (lit "operation", RStr (lit "TS"));
        (lit "operand1", RStr (lit "S ZERO"));
        (lit "operand2", RStr (lit "COMMON"));
        (lit "operand3", RStr (lit "SET UP GPB"));
        (lit "misc", RStr (lit "C"));
        (lit "remarks", RStr (lit "COMMUNICATION FLAG FOR END."))]
  end.
Proof. vm_compute. repeat split. Qed.

(** punchcard_test.py test_simple, the deck: it is accepted *)
Definition pc_lines : list str := [
  lit "";
  lit "L      @XYZ TESTING 123";
  lit "";
  lit " 0020   L BACKUP   SPEC                                       BACKUP";
  lit " 0021   L PRINT PS SPEC                                       PRINT PS";
  lit "";
  lit " 0030   A999999    ALF          09999990";
  lit " 0031   ASTRISK    ALF          *";
  lit " 0032   COMA 1962  ALF          , 1962";
  lit " 0033   DASH 1T3   ALF          ---";
  lit "";
  lit " 0035   PASSS RE   ALF          RE: ASSE";
  lit " 0036   MANUS RE   ALF            RE: MA";
  lit " 0038   PASS S EQU ALF            = ASSE";
  lit " 0039   MANU S EQU ALF              = MA";
  lit " 0046   Y COLYUM 1 ALF          Y      3";
  lit " 0047   PMAX9 MSJ  ALF          PMAX = 9";
  lit " 0048   S BLANKS   ALF";
  lit "";
  [32; 48; 48; 52; 57; 32; 32; 32; 83; 32; 66; 76; 79; 84; 83; 32; 32; 32; 32; 65; 76; 70; 32; 32; 32; 32; 32; 32; 32; 32; 32; 32; 9608; 9608; 9608; 9608; 9608; 9608; 9608; 9608];
  lit " 0050   S COLON C1 ALF          :";
  lit " 00505  S SIGH     ALF          (SIGH)";
  lit "";
  lit " 0055   W 254P     ALF          254+";
  lit "";
  lit "# Page 110";
  lit "L      @YUL SYSTEM PASS 0 SERVICE MODULE                                         USER'S OWN PAGE NO.   3        PAGE  70";
  lit "";
  lit "P0068   ONE-WORD ALPHABETIC CONSTANTS CONCLUDED.";
  lit "";
  lit " 0069   W NONE     ALF           (NONE)";
  lit " 0070   W OBS      ALF            *OBS*";
  lit " 0071   W OBSOLET  ALF          OBSOLETE";
  lit " 0085   ZSUP ONE   ALF                 1";
  lit "";
  lit "";
  lit "R0086   ALPHABETIC ARRAYS.";
  lit "";
  lit " 0088   BKUP LINE  ALF,4         DIRECTORY LISTING OF YULPROGS #";
  lit " 0089   BUREL MSG  ALF,2        BACKUP RELABELED";
  lit " 0090   CHEDL MSG  ALF,3        CHECK DIRECTORY LISTING";
  lit " 0091   COMPU MSG  ALF,2";
  lit " 0092   COMUS MSG  ALF,3        COMPUTER IS STILL IN USE";
  lit " 0093   CONCN MSG  ALF,5        CONFLICT WITH EXISTING COMPUTER NAME-";
  lit " 0094   DCLAV MSG  ALF,3        DECLARED AVAILABLE";
  lit " 0095   DCLOB MSG  ALF,3        DECLARED OBSOLETE";
  lit " 0096   DCLOK MSG  ALF,3        DECLARED CHECKED OUT";
  lit " 0097   MANUS MSG  ALF,2        NUFACTURING FOR";
  lit "";
  lit "# Page 111";
  lit "L      @YUL SYSTEM PASS 0 SERVICE MODULE                                         USER'S OWN PAGE NO.   4        PAGE  71";
  lit "";
  lit "P0098   ALPHABETIC ARRAYS CONTINUED.";
  lit "";
  lit " 0099   MNTN LINE  ALF,4        YUL SYSTEM MAINTENANCE FUNCTION:";
  lit " 0100   NEWCO MSG  ALF,3          NEW COMPUTER:";
  lit " 0101   NEW LINE   OCT          0";
  lit " 0102              ALF,5";
  lit " 0103              ALF,5";
  lit " 0104              ALF,5";
  lit " 0105   NOMAT MSG  ALF,4        NO MATCH FOUND FOR THIS CARD:";
  lit " 0106   NOTAV MSG  ALF,2        NOT AVAILABLE";
  lit " 0107   NOW OP MSG ALF,4         NOW OPERATING FROM NEW YULPROGS";
  lit "";
  lit " 0108   OBUWK MSG  ALF,4        FORMER BACKUP WILL BE WORKER";
  lit " 0109   OP SLP MSJ ALF,2        OPERATOR ASLEEP";
  [32; 48; 49; 49; 48; 32; 32; 32; 80; 65; 83; 83; 83; 32; 77; 83; 71; 32; 32; 65; 76; 70; 44; 50; 32; 32; 32; 32; 32; 32; 32; 32; 77; 66; 76; 89; 32; 80; 65; 83; 83; 32; 9608; 32; 70; 79; 82];
  lit " 0111   PCH CARD   OCT          0";
  lit " 0112              ALF,5";
  lit " 0113              ALF,5";
  lit " 0932   RUNOUT PR  TS           S 4SPACE      N,X2,1        GET LOG NO     C";
  lit " 0933              SWS, D8T12   S ZERO                      N,AU2";
  lit " 0934              MT           S BLANKS      15            N,X2,1";
  lit " 0935              WD           Z,X2          OCTAL 20      Z,X2";
  lit " 0936              S, PHI PRINT 2,0";
  lit " 0937              S, PHI PRINT 2,0";
  lit " 0938              S, PHI PRINT 2,0                                             FORCE LAST LINES THROUGH BUFPRINT.";
  lit " 0940              S, MON TYPER W LIST DUN    SPRAMR +16    -                   ANNOUNCE END OF LISTING.";
  lit "";
  lit "R0979   TO EACH.  WHEN THE LISTING IS FINISHED, GROUP B HOISTS A FLAG AND EXPIRES.";
  lit "";
  lit "";
  lit " 0981   BACKUP     TS           S ZERO        COMMON        SET UP GPB     C    COMMUNICATION FLAG FOR END.";
  lit " 0983              TS           Z,SC,4        N,SH          MON WAKE       C";
  lit "";
  lit " 0984   BK1 VIA X0 TX           L BANK 1      -             Z,X0";
  lit " 0985              TX           L DIRECTY     -             Z,X1";
  lit " 0986              TX           PHI WAA       -             Z,X6";
  lit " 0987              TS           YUL MASKS     Z,MXR         LIST LABL           START GROUP B GOING ON LISTING.";
  lit "";
  lit " 0989              TX           1,1           -             YUL BU MSG +1";
  lit " 0991              NA, CHAR8    1,0           S ONE         AMEND BUL           BRANCH IF ONLY MUST AMEND BACKUP LABEL."
].
Example punchcard_test_deck :
  match deck_new 1 (fun _ => None) (Some pc_lines) None DEFAULT_WIDTH DEFAULT_FIELDS PunchCls with
  | Ok d => zlen (d_records d) = zlen (filter (fun l => negb (startswith l (lit "#"))) pc_lines)
  | Err _ => False
  end.
Proof. vm_compute. reflexivity. Qed.

(** arguscard_test.py test_deck *)
Definition ac_lines : list str := [
  lit "";
  lit "L      @XYZ TESTING 123";
  lit "";
  lit " 0020   L BACKUP   SPEC                                       BACKUP";
  lit " 0021   L PRINT PS SPEC                                       PRINT PS";
  lit "";
  lit " 0030   A999999    ALF          09999990";
  lit " 0031   ASTRISK    ALF          *";
  lit " 0032   COMA 1962  ALF          , 1962";
  lit " 0033   DASH 1T3   ALF          ---";
  lit "";
  lit " 0035   PASSS RE   ALF          RE: ASSE";
  lit " 0036   MANUS RE   ALF            RE: MA";
  lit " 0038   PASS S EQU ALF            = ASSE";
  lit " 0039   MANU S EQU ALF              = MA";
  lit " 0046   Y COLYUM 1 ALF          Y      3";
  lit " 0047   PMAX9 MSJ  ALF          PMAX = 9";
  lit " 0048   S BLANKS   ALF";
  lit "";
  [32; 48; 48; 52; 57; 32; 32; 32; 83; 32; 66; 76; 79; 84; 83; 32; 32; 32; 32; 65; 76; 70; 32; 32; 32; 32; 32; 32; 32; 32; 32; 32; 9608; 9608; 9608; 9608; 9608; 9608; 9608; 9608];
  lit " 0050   S COLON C1 ALF          :";
  lit " 00505  S SIGH     ALF          (SIGH)";
  lit "";
  lit " 0055   W 254P     ALF          254+";
  lit "";
  lit "# Page 110";
  lit "#      @YUL SYSTEM PASS 0 SERVICE MODULE                                         USER'S OWN PAGE NO.   3        PAGE  70";
  lit "";
  lit "P0068   ONE-WORD ALPHABETIC CONSTANTS CONCLUDED.";
  lit "";
  lit " 0069   W NONE     ALF           (NONE)";
  lit " 0070   W OBS      ALF            *OBS*";
  lit " 0071   W OBSOLET  ALF          OBSOLETE";
  lit " 0085   ZSUP ONE   ALF                 1";
  lit "";
  lit "";
  lit "R0086   ALPHABETIC ARRAYS.";
  lit "";
  lit " 0088   BKUP LINE  ALF,4         DIRECTORY LISTING OF YULPROGS #";
  lit " 0089   BUREL MSG  ALF,2        BACKUP RELABELED";
  lit " 0090   CHEDL MSG  ALF,3        CHECK DIRECTORY LISTING";
  lit " 0091   COMPU MSG  ALF,2";
  lit " 0092   COMUS MSG  ALF,3        COMPUTER IS STILL IN USE";
  lit " 0093   CONCN MSG  ALF,5        CONFLICT WITH EXISTING COMPUTER NAME-";
  lit " 0094   DCLAV MSG  ALF,3        DECLARED AVAILABLE";
  lit " 0095   DCLOB MSG  ALF,3        DECLARED OBSOLETE";
  lit " 0096   DCLOK MSG  ALF,3        DECLARED CHECKED OUT";
  lit " 0097   MANUS MSG  ALF,2        NUFACTURING FOR";
  lit "";
  lit "# Page 111";
  lit "#      @YUL SYSTEM PASS 0 SERVICE MODULE                                         USER'S OWN PAGE NO.   4        PAGE  71";
  lit "";
  lit "P0098   ALPHABETIC ARRAYS CONTINUED.";
  lit "";
  lit " 0099   MNTN LINE  ALF,4        YUL SYSTEM MAINTENANCE FUNCTION:";
  lit " 0100   NEWCO MSG  ALF,3          NEW COMPUTER:";
  lit " 0101   NEW LINE   OCT          0";
  lit " 0102              ALF,5";
  lit " 0103              ALF,5";
  lit " 0104              ALF,5";
  lit " 0105   NOMAT MSG  ALF,4        NO MATCH FOUND FOR THIS CARD:";
  lit " 0106   NOTAV MSG  ALF,2        NOT AVAILABLE";
  lit " 0107   NOW OP MSG ALF,4         NOW OPERATING FROM NEW YULPROGS";
  lit "";
  lit " 0108   OBUWK MSG  ALF,4        FORMER BACKUP WILL BE WORKER";
  lit " 0109   OP SLP MSJ ALF,2        OPERATOR ASLEEP";
  [32; 48; 49; 49; 48; 32; 32; 32; 80; 65; 83; 83; 83; 32; 77; 83; 71; 32; 32; 65; 76; 70; 44; 50; 32; 32; 32; 32; 32; 32; 32; 32; 77; 66; 76; 89; 32; 80; 65; 83; 83; 32; 9608; 32; 70; 79; 82];
  lit " 0111   PCH CARD   OCT          0";
  lit " 0112              ALF,5";
  lit " 0113              ALF,5";
  lit " 0932   RUNOUT PR  TS           S 4SPACE      N,X2,1        GET LOG NO     C";
  lit " 0933              SWS, D8T12   S ZERO                      N,AU2";
  lit " 0934              MT           S BLANKS      15            N,X2,1";
  lit " 0935              WD           Z,X2          OCTAL 20      Z,X2";
  lit " 0936              S, PHI PRINT 2,0";
  lit " 0937              S, PHI PRINT 2,0";
  lit " 0938              S, PHI PRINT 2,0                                             FORCE LAST LINES THROUGH BUFPRINT.";
  lit " 0940              S, MON TYPER W LIST DUN    SPRAMR +16    -                   ANNOUNCE END OF LISTING.";
  lit "";
  lit "R0979   TO EACH.  WHEN THE LISTING IS FINISHED, GROUP B HOISTS A FLAG AND EXPIRES.";
  lit "";
  lit "";
  lit " 0981   BACKUP     TS           S ZERO        COMMON        SET UP GPB     C    COMMUNICATION FLAG FOR END.";
  lit " 0983              TS           Z,SC,4        N,SH          MON WAKE       C";
  lit "";
  lit " 0984   BK1 VIA X0 TX           L BANK 1      -             Z,X0";
  lit " 0985              TX           L DIRECTY     -             Z,X1";
  lit " 0986              TX           PHI WAA       -             Z,X6";
  lit " 0987              TS           YUL MASKS     Z,MXR         LIST LABL           START GROUP B GOING ON LISTING.";
  lit "";
  lit " 0989              TX           1,1           -             YUL BU MSG +1";
  lit " 0991              NA, CHAR8    1,0           S ONE         AMEND BUL           BRANCH IF ONLY MUST AMEND BACKUP LABEL."
].
Example arguscard_test_deck :
  match argus_deck_new 1 (fun _ => None) (Some ac_lines) None DEFAULT_WIDTH DEFAULT_FIELDS ArgusCls with
  | Ok (d, s, c8) => s = Some (lit "XYZ TESTING 123") /\ c8 = RStr (lit "@")
  | Err _ => False
  end.
Proof. vm_compute. split; reflexivity. Qed.
