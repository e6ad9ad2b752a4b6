(** Model of /repo/h800/word.py. *)
From Verif Require Import Py MBitField.

(** word.py:37-45 a Word holds one BitField: 48 bits, MSB 1 numbering, MSB left *)
Definition word := bf.

(** word.py:40, 53 the range test 0 .. 2**48 - 1 *)
Definition word_check (v : Z) : res unit :=
  if (v <? 0) || (v >? 2 ^ 48 - 1) then Err ValueError else Ok tt.

(** word.py:39-45 Word.__init__.  The constants 3 and 0 are
    BIT_SCHEME_MSB_1 and BIT_ORDER_MSB_LEFT. *)
Definition word_new (data : Z) : res word :=
  do _ <- word_check data;
  do b <- bf_new 0 48 3 0;
  match bf_setitem b (Slice (Some 1) (Some 48)) data with
  | (b', Ok _) => Ok b'
  | (_, Err e) => Err e
  end.

(** word.py:47-49 value getter: int(self.data) *)
Definition word_value (w : word) : Z := bf_value w.

(** word.py:51-55 value setter *)
Definition word_set_value (w : word) (v : Z) : word * res unit :=
  match word_check v with
  | Ok _ => bf_set_value w v
  | Err e => (w, Err e)
  end.

(** The four fields of an instruction word *)
Inductive field := Command | FA | FB | FC.

(** word.py:69-72, 76-104 the bit range of each field *)
Definition field_key (f : field) : key :=
  match f with
  | Command => Slice (Some 1) (Some 12)
  | FA => Slice (Some 13) (Some 24)
  | FB => Slice (Some 25) (Some 36)
  | FC => Slice (Some 37) (Some 48)
  end.

(** word.py:63-104 An InstructionWord has the BitField of Word and four shadow
    attributes _command, _a, _b, _c (the last value passed to a setter, also
    when the setter then raised; absent before the constructor reaches them). *)
Record iword := mkiword {
  iw_data : bf; iw_command : Z; iw_a : Z; iw_b : Z; iw_c : Z
}.

(** word.py:75-76, 82-84, 90-92, 98-100 the property getters *)
Definition iw_get (w : iword) (f : field) : res Z := bf_getitem (iw_data w) (field_key f).

(** word.py:78-80 etc.: `self._command = self.data[1:12] = value` assigns the
    targets left to right, so the shadow first *)
Definition iw_shadow (w : iword) (f : field) (v : Z) : iword :=
  let '(mkiword d x a b c) := w in
  match f with
  | Command => mkiword d v a b c
  | FA => mkiword d x v b c
  | FB => mkiword d x a v c
  | FC => mkiword d x a b v
  end.
Definition iw_with_data (w : iword) (d : bf) : iword :=
  let '(mkiword _ x a b c) := w in mkiword d x a b c.
Definition iw_set (w : iword) (f : field) (v : Z) : iword * res unit :=
  let w1 := iw_shadow w f v in
  let '(d, r) := bf_setitem (iw_data w1) (field_key f) v in
  (iw_with_data w1 d, r).

(** word.py:69 etc.: `self.data[1:12] = self._command = command` assigns the
    bit range first, so nothing changes when it raises *)
Definition iw_init_field (w : iword) (f : field) (v : Z) : res iword :=
  match bf_setitem (iw_data w) (field_key f) v with
  | (d, Ok _) => Ok (iw_shadow (iw_with_data w d) f v)
  | (_, Err e) => Err e
  end.

(** word.py:67-72 InstructionWord.__init__; the shadows start at 0 here instead
    of absent, each is set before anything can read it *)
Definition iw_new (command a b c : Z) : res iword :=
  do d <- word_new 0;
  do w <- iw_init_field (mkiword d 0 0 0 0) Command command;
  do w <- iw_init_field w FA a;
  do w <- iw_init_field w FB b;
  iw_init_field w FC c.

(** word.py:47-55 value, inherited *)
Definition iw_value (w : iword) : Z := bf_value (iw_data w).
Definition iw_set_value (w : iword) (v : Z) : iword * res unit :=
  let '(d, r) := word_set_value (iw_data w) v in (iw_with_data w d, r).

(** A history of assignments to an instruction word *)
Inductive iw_op := SetField (f : field) (v : Z) | SetValue (v : Z).
Definition iw_step (w : iword) (o : iw_op) : iword * res unit :=
  match o with
  | SetField f v => iw_set w f v
  | SetValue v => iw_set_value w v
  end.
Definition iw_run (w : iword) (ops : list iw_op) : iword :=
  fold_left (fun w o => fst (iw_step w o)) ops w.
