(** Labels in ASCII: what is wrong with them, without reference to a case mapping. *)
From Verif Require Import Py MCards SCards SEnds MSymbols SSymbols SSource.

Definition ascii (s : str) : Prop := Forall (fun c => 0 <= c < 128) s.
Definition small (c : Z) : Prop := 97 <= c <= 122.
(** str.upper on ASCII texts; on other texts anything *)
Definition raises (upper : str -> str) : Prop :=
  forall s, ascii s -> upper s = map (fun c => if (97 <=? c) && (c <=? 122) then c - 32 else c) s.
(** what is wrong with a label *)
Inductive mistake (s : str) : Prop :=
| mk_small c : In c s -> small c -> mistake s
| mk_commas x y z : s = x ++ 44 :: y ++ 44 :: z -> mistake s
| mk_prefix p t : s = p ++ 44 :: t -> ~ In 44 p -> ~ In p (map lit ["B"; "F"; "S"; "Z"]%string) -> mistake s.
Definition label_mistake (line : str) : Prop :=
  ~ starred_line line /\ exists s, label_of line s /\ (mistake s \/ forall op, ~ operation_of line op).
(** the line defines a symbol: no mistake, the tag after the comma if there is one *)
Definition label_defines (line tag kind tagtype : str) : Prop :=
  ~ starred_line line /\
  exists s op, label_of line s /\ ~ mistake s /\ operation_of line op /\
    ((~ In 44 s /\ tag = s /\ tagtype = lit " ") \/ s = tagtype ++ 44 :: tag) /\
    ((op = lit "ASSIGN" /\ kind = lit "complex") \/ (op <> lit "ASSIGN" /\ kind = lit "simple")).
(** [x] is the last of the lines that defines the symbol in that subsegment *)
Definition last_label (lines : list srcline) (tag ss kind : str) (x : srcline) (tagtype : str) : Prop :=
  exists pre post, lines = pre ++ x :: post /\ label_defines (text_of x) tag kind tagtype /\ subsegment (pre ++ [x]) ss /\
    forall a y b t, post = a ++ y :: b -> label_defines (text_of y) tag kind t -> ~ subsegment (pre ++ x :: a ++ [y]) ss.
Definition all_ascii (lines : list srcline) : Prop := forall x, In x lines -> ascii (text_of x).
