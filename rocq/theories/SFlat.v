(** A memory module as one array of words: an address consists of a bank indicator and an 11-bit subaddress (the reference manual,
    section IV, figure IV-1). *)
From Verif Require Import Py MBitField MMemory SMemory.

Inductive fcall := FGet (a : Z) | FSet (a v : Z).
(** module[bank][subaddress], read or assigned to *)
Definition at_address (c : fcall) : Z * mcall :=
  match c with
  | FGet a => (a / 2048, MGet (Idx (a mod 2048)))
  | FSet a v => (a / 2048, MSet (Idx (a mod 2048)) v)
  end.
(** the array: [n] banks of 2048 words of 48 bits *)
Definition flat_addr (n a : Z) : bool := (0 <=? a) && (a <? n * 2048).
Definition flat_step (n : Z) (f : Z -> Z) (c : fcall) : Z -> Z :=
  match c with
  | FGet _ => f
  | FSet a v => if flat_addr n a && good_value v then fun b => if b =? a then v else f b else f
  end.
Definition flat_run (n : Z) (cs : list fcall) : Z -> Z := fold_left (flat_step n) cs (fun _ => 0).
Definition flat_result (n : Z) (f : Z -> Z) (c : fcall) : res (list Z) :=
  match c with
  | FGet a => if flat_addr n a then Ok [f a] else Err KeyError
  | FSet a v => if negb (flat_addr n a) then Err KeyError else if negb (good_value v) then Err ValueError else Ok []
  end.
