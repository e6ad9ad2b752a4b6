(** What a tuple class with default values is to do (C191), without the functions of the model. *)
From Verif Require Import Py MInstruction MTuple.

(** the field with number [i] and name [f] receives [v] from the call with these arguments *)
Inductive receives (pos : list pyval) (kw : list (str * pyval)) (defaults : list pyval) (i : nat) (f : str) : pyval -> Prop :=
| by_position v : nth_error pos i = Some v -> receives pos kw defaults i f v
| by_name v : nth_error pos i = None -> In (f, v) kw -> receives pos kw defaults i f v
| by_default v : nth_error pos i = None -> ~ In f (map fst kw) -> nth_error defaults i = Some v -> receives pos kw defaults i f v
| by_none : nth_error pos i = None -> ~ In f (map fst kw) -> nth_error defaults i = None -> receives pos kw defaults i f VNone.

(** a call that can be understood: no more values than fields, and every name is a field not given by position *)
Definition acceptable (fields : list str) (pos : list pyval) (kw : list (str * pyval)) : Prop :=
  (length pos <= length fields)%nat /\
  forall f, In f (map fst kw) -> exists i, nth_error fields i = Some f /\ (length pos <= i)%nat.

(** the tuple that stands for a row of the table of operation codes *)
Definition value_or_none (o : option Z) : pyval := match o with Some n => VInt n | None => VNone end.
Definition row_tuple (o : opcode) : list pyval :=
  [VStr (o_m o); VStr (o_c o); value_or_none (o_b23 o); value_or_none (o_b7 o); value_or_none (o_op o); VStr (o_type o)].
(** ... and what its attributes are to be *)
Definition row_attributes (o : opcode) : list (str * pyval) :=
  [(lit "m", VStr (o_m o)); (lit "c", VStr (o_c o)); (lit "b23", value_or_none (o_b23 o)); (lit "b7", value_or_none (o_b7 o));
   (lit "op", value_or_none (o_op o)); (lit "type", VStr (o_type o))].
