(** When building a symbol table fails, and what it counts: C78, C84. *)
From Verif Require Import Py MCards MSymbols SSymbols.

(** some card of [cs] defines [tag] while the subsegment is [ss] *)
Definition placed (upper : str -> str) (s0 : str) (cs : list card) (tag ss : str) : Prop :=
  exists pre c post kind tt, cs = pre ++ c :: post /\ defines upper c tag kind tt /\ current_subseg s0 (pre ++ [c]) ss.
(** the symbols, segments and subsegments defined so far: by the files before and by the cards [pre] of segment [seg] *)
Definition known (upper : str -> str) (before : str -> str -> str -> Prop) (seg s0 : str) (pre : list card) (tag s ss : str) : Prop :=
  before tag s ss \/ (s = seg /\ placed upper s0 pre tag ss).
Definition earlier (upper : str -> str) (files : list str) (css : list (list card)) (tag seg ss : str) : Prop :=
  exists f cs, In (f, cs) (combine files css) /\ segment_of f seg /\ placed upper (lit "1") cs tag ss.
(** the card defines a symbol that is in its segment and subsegment already and also in a segment with the name of the kind of definition *)
Definition again (upper : str -> str) (before : str -> str -> str -> Prop) (seg s0 : str) (pre : list card) (c : card) (tag kind : str) : Prop :=
  exists tt ss ss', defines upper c tag kind tt /\ current_subseg s0 (pre ++ [c]) ss /\
    known upper before seg s0 pre tag seg ss /\ known upper before seg s0 pre tag kind ss'.
Definition clash (upper : str -> str) (before : str -> str -> str -> Prop) (seg s0 : str) (pre : list card) (c : card) (e : exn) : Prop :=
  card_get c "operation" = Ok (RStr (lit "EQUALS")) /\
  exists tag, again upper before seg s0 pre c tag (lit "simple") /\
    ((known upper before seg s0 pre tag (lit "simple") (lit "card") /\ e = AttributeError) \/
     (~ known upper before seg s0 pre tag (lit "simple") (lit "card") /\ e = KeyError)).
Definition doubled (upper : str -> str) (before : str -> str -> str -> Prop) (seg s0 : str) (pre : list card) (c : card) : Prop :=
  card_get c "operation" <> Ok (RStr (lit "EQUALS")) /\ exists tag kind, again upper before seg s0 pre c tag kind.
(** [n] cards satisfy [P], which may look at the cards before *)
Inductive count_along (P : list card -> card -> Prop) : list card -> Z -> Prop :=
| ca_nil : count_along P [] 0
| ca_yes cs c n : count_along P cs n -> P cs c -> count_along P (cs ++ [c]) (n + 1)
| ca_no cs c n : count_along P cs n -> ~ P cs c -> count_along P (cs ++ [c]) n.
