(** Specification vocabulary for the character set, the context and the assembler. *)
From Coq Require Import ZArith List Bool.
From Verif Require Import Py MCards SCards MSymbols SSymbols MContext.

(** *** objects *)
Definition is_inst (h : heap) (r : Z) : Prop := exists a, dget h r = Some (Inst a).
Definition attr_is (h : heap) (r : Z) (name : str) (v : pv) : Prop :=
  exists a, dget h r = Some (Inst a) /\ dget a name = Some v.
(** at most the attributes [names] of object [r] differ *)
Definition only_attrs (h h' : heap) (r : Z) (names : list str) : Prop :=
  (forall r', r' <> r -> dget h' r' = dget h r') /\
  forall n v, ~ In n names -> (attr_is h' r n v <-> attr_is h r n v).
(** the nine attributes that make up the assembler position *)
Definition position : list str :=
  [lit "linenum"; lit "global_linenum"; lit "code"; lit "srcline"; lit "loc"; lit "coloc"; lit "bank"; lit "errorMsg"; lit "warningMsg"].

(** the values that count as true: not None, False, 0, the empty string or an empty list *)
Definition truthy (h : heap) (v : pv) : Prop :=
  v <> PNone /\ v <> PBool false /\ v <> PInt 0 /\ v <> PStr [] /\ forall r, v = PRef r -> dget h r <> Some (Lst []).
Definition is_number (v : pv) : Prop := (exists n, v = PInt n) \/ (exists b, v = PBool b).

(** *** resolve *)
(** the records resolve looks at: the first [n] of the list, none of them the object None *)
Definition usable (recs : list (option Z)) (xs : list Z) (n : nat) : Prop := firstn n recs = map Some xs /\ length xs = n.
Definition incomplete (parseable complete : Z -> bool) (x : Z) : Prop := parseable x = true /\ complete x = false.
Definition passes_made (o : outcome) : Z := match o with AllComplete n | NoProgress n | GaveUp n => n end.
(** an assembler object as the class itself can make it *)
Inductive reach_asm (upper : str -> str) (parseable complete : Z -> bool) : asm -> Prop :=
| ra_new v : reach_asm upper parseable complete (asm_new v)
| ra_create fuel fs a f : reach_asm upper parseable complete a ->
    reach_asm upper parseable complete (fst (asm_create_symtab upper fuel fs a f))
| ra_assemble fs a f : reach_asm upper parseable complete a -> reach_asm upper parseable complete (fst (asm_assemble fs a f))
| ra_resolve a n : reach_asm upper parseable complete a ->
    reach_asm upper parseable complete (fst (asm_resolve parseable complete a n)).
(** createSymbolTable called for the files in order, each call returning *)
Inductive creates (upper : str -> str) (fuel : nat) (fs : fsys) : asm -> list str -> asm -> Prop :=
| cr_nil a : creates upper fuel fs a [] a
| cr_cons a f a1 r a2 : asm_create_symtab upper fuel fs a f = (a1, Ok tt) -> creates upper fuel fs a1 r a2 ->
    creates upper fuel fs a (f :: r) a2.
