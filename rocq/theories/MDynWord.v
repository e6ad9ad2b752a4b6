(** Model of InstructionWord in /repo/h800/word.py for arguments of any type, on top of
    [MDyn.v]: the field [data].  The private copies of the arguments, which nothing reads, are
    left out. *)
From Verif Require Import Py MBitField MWord MDyn.

(** word.py:69-72, 75-104 the bit range of each field *)
Definition tfield_key (f : field) : tkey :=
  match f with
  | Command => TSlice (VI 1) (VI 12)
  | FA => TSlice (VI 13) (VI 24)
  | FB => TSlice (VI 25) (VI 36)
  | FC => TSlice (VI 37) (VI 48)
  end.
(** word.py:75-76, 82-84, 90-92, 98-100 *)
Definition tiw_get (A : farith) (d : tf) (f : field) : tres val := tf_getitem A d (tfield_key f).
(** word.py:78-80, 86-88, 94-96, 102-104 *)
Definition tiw_set (A : farith) (d : tf) (f : field) (v : val) : tf * tres unit := tf_setitem A d (tfield_key f) v.
(** word.py:67-72 *)
Definition tiw_init (A : farith) (f : field) (v : val) (d : tf) : tres tf :=
  match tiw_set A d f v with (d', TOk _) => TOk d' | (_, TErr e) => TErr e end.
Definition tiw_new (A : farith) (command a b c : val) : tres tf :=
  try d <- tword_new A (VI 0);
  try d <- tiw_init A Command command d;
  try d <- tiw_init A FA a d;
  try d <- tiw_init A FB b d;
  tiw_init A FC c d.
(** instruction.py:210-216 Constant *)
Definition tconstant_new (A : farith) (data : val) : tres tf :=
  try l <- vlt data (VI 0);
  if l : bool then TErr (PyExn ValueError)
  else
    try g <- vgt data (VI (2 ^ 48 - 1));
    if g : bool then TErr (PyExn ValueError) else tword_new A data.
(** A history of assignments to the fields; the caller catches the exceptions *)
Definition tiw_run (A : farith) (d : tf) (ops : list (field * val)) : tf :=
  fold_left (fun d o => fst (tiw_set A d (fst o) (snd o))) ops d.
