(** Exact accounts of what the code does where an expectation is refuted: C15, C16, C65, C74, C170. *)
From Verif Require Import Py MBitField SBits SSource.

(** the bits a range test looks at: in an LSB-left field a proper range of several bits is moved up to begin at its last bit *)
Definition range_seen (b : bf) (s e : Z) : Z :=
  let n := range_size (bf_numbering b) (bf_width b) s e in
  let lo := range_lo (bf_numbering b) (bf_width b) s e in
  match bf_order b with
  | MSB_LEFT => lo
  | LSB_LEFT => if n =? bf_width b then lo else lo + n - 1
  end.

(** of each run of neighbours that satisfy [P] the first, third, fifth ... is gone; [odd] says whether an odd number of the run went before *)
Inductive thinned {A} (P : A -> Prop) : bool -> list A -> list A -> Prop :=
| th_nil odd : thinned P odd [] []
| th_not odd x l l' : ~ P x -> thinned P false l l' -> thinned P odd (x :: l) (x :: l')
| th_gone x l l' : P x -> thinned P true l l' -> thinned P false (x :: l) l'
| th_stays x l l' : P x -> thinned P false l l' -> thinned P true (x :: l) (x :: l').

(** what stands before the first comma of the operation is [m], its blanks taken out *)
Definition blank_free (line m : str) : Prop :=
  exists op a, operation_of line op /\ ((~ In 44 op /\ a = op) \/ exists b, op = a ++ 44 :: b /\ ~ In 44 a) /\
    filter (fun c => negb (c =? 32)) a = m.
