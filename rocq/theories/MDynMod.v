(** Model of MemoryModule and ExpansionMemoryModule in /repo/h800/memory.py for keys of any type,
    on top of [MDynMem.v]. *)
From Verif Require Import Py MMemory MDyn MDynMem.

(** memory.py:105, 132 self._data[key]: a number finds the bank whose number it is equal to *)
Definition tbank_of (d : dict Z bank) (v : val) (hashable : bool) : tres Z :=
  match v with
  | VO _ => TErr (PyExn (if hashable then KeyError else TypeError))
  | _ => match find (fun kv => veq v (fst kv)) d with
         | Some kv => TOk (fst kv)
         | None => TErr (PyExn KeyError)
         end
  end.
(** memory.py:101-103, 128-130 the loop over a slice *)
Fixpoint tbanks_of (d : dict Z bank) (l : list Z) : tres (list Z) :=
  match l with
  | [] => TOk []
  | i :: r => try a <- tbank_of d (VI i) true; try xs <- tbanks_of d r; TOk (a :: xs)
  end.
(** memory.py:98-105, 125-132 __getitem__: the numbers of the banks returned *)
Definition tmodule_getitem (m : mmodule) (k : mkey) : tres (list Z) :=
  match k with
  | MSlice s e => try l <- vrange s e; tbanks_of (mm_data m) l
  | MOne v h => try a <- tbank_of (mm_data m) v h; TOk [a]
  end.
