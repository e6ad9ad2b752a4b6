(** Specification of a memory bank: a function from addresses to 48-bit
    numbers and an iteration cursor. *)
From Verif Require Import Py MBitField MMemory.

Definition good_addr (a : Z) : bool := (0 <=? a) && (a <? 2048).
Definition good_value (v : Z) : bool := (0 <=? v) && (v <? 2 ^ 48).

Record smem := mksmem { cells : Z -> Z; cursor : Z }.
Definition smem_new : smem := mksmem (fun _ => 0) 0.

Definition store (f : Z -> Z) (lo hi v : Z) : Z -> Z :=
  fun a => if (lo <=? a) && (a <? hi) then v else f a.

(** Half-open interval lo..hi-1 *)
Definition interval (lo hi : Z) : list Z :=
  map (fun i => lo + Z.of_nat i) (seq 0 (Z.to_nat (hi - lo))).

Definition smem_call (s : smem) (c : mcall) : smem * res (list Z) :=
  match c with
  | MGet (Idx i) =>
      (s, if good_addr i then Ok [cells s i] else Err KeyError)
  | MGet (Slice (Some lo) (Some hi)) =>
      (s, if hi <=? lo then Ok []
          else if (0 <=? lo) && (hi <=? 2048) then Ok (map (cells s) (interval lo hi))
          else Err KeyError)
  | MGet (Slice _ _) => (s, Err TypeError)
  | MSet (Idx i) v | MRef i v =>
      if negb (good_addr i) then (s, Err KeyError)
      else if negb (good_value v) then (s, Err ValueError)
      else (mksmem (store (cells s) i (i + 1) v) (cursor s), Ok [])
  | MSet (Slice (Some lo) (Some hi)) v =>
      if hi <=? lo then (s, Ok [])
      else if negb (good_addr lo) then (s, Err KeyError)
      else if negb (good_value v) then (s, Err ValueError)
      else (mksmem (store (cells s) lo hi v) (cursor s),
            if hi <=? 2048 then Ok [] else Err KeyError)
  | MSet (Slice _ _) _ => (s, Err TypeError)
  | MClear => (mksmem (fun _ => 0) (cursor s), Ok [])
  | MLen => (s, Ok [2048])
  | MNext =>
      if cursor s <? 2048 then (mksmem (cells s) (cursor s + 1), Ok [cursor s])
      else (s, Err StopIteration)
  end.
Fixpoint smem_trace (s : smem) (cs : list mcall) : list (res (list Z)) :=
  match cs with
  | [] => []
  | c :: cs' => let '(s', o) := smem_call s c in o :: smem_trace s' cs'
  end.
Definition smem_run (s : smem) (cs : list mcall) : smem :=
  fold_left (fun s c => fst (smem_call s c)) cs s.

(** Calls on the banks of a module that concern bank [i]. *)
Definition calls_to (i : Z) (cs : list (Z * mcall)) : list mcall :=
  map snd (filter (fun ic => fst ic =? i) cs).
