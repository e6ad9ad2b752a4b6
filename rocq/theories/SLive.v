(** Specification of a bank whose words are also used through their field: every
    cell is a 48-bit field, bit 1 on the left, of its own. *)
From Verif Require Import Py MBitField MWord MMemory SMemory SBits MLive.

(** the 48-bit field with bit 1 on the left that holds [v] *)
Definition field48 (v : Z) : bf := mkbf 48 (2 ^ 48 - 1) v MSB_1 MSB_LEFT.
Definition live_call (s : smem) (c : lcall) : smem * res (list Z) :=
  match c with
  | Plain c => smem_call s c
  | Field a o =>
      if negb (good_addr a) then (s, Err KeyError)
      else let '(b, r) := bf_step (field48 (cells s a)) o in
           (mksmem (store (cells s) a (a + 1) (bf_value b)) (cursor s), do _ <- r; Ok [])
  | Item a k =>
      (s, if negb (good_addr a) then Err KeyError
          else do x <- bf_getitem (field48 (cells s a)) k; Ok [x])
  end.
Fixpoint live_trace (s : smem) (cs : list lcall) : list (res (list Z)) :=
  match cs with
  | [] => []
  | c :: cs' => let '(s', o) := live_call s c in o :: live_trace s' cs'
  end.
Definition live_run (s : smem) (cs : list lcall) : smem :=
  fold_left (fun s c => fst (live_call s c)) cs s.
(** what is assigned through a field fits its place *)
Definition lcall_fits (c : lcall) : Prop :=
  match c with Field _ o => op_fits (field48 0) o | _ => True end.
(** where the four groups of an instruction word begin, counted from the right *)
Definition group_lo (f : field) : Z := match f with Command => 36 | FA => 24 | FB => 12 | FC => 0 end.
