(** Calls on a memory bank with arguments of any type, in terms of calls with ints. *)
From Verif Require Import Py MBitField MWord MMemory MDyn SDyn MDynMem.

Definition of_bank (m : bank) : tbank :=
  mktb (map (fun kv => (fst kv, of_bf (snd kv))) (mb_data m)) (mb_current m).
Definition of_call_out (p : bank * res (list Z)) : tbank * tres (list Z) :=
  (of_bank (fst p), of_res (fun x => x) (snd p)).
(** every cell holds a 48-bit word *)
Definition all_words (m : bank) : Prop := forall a w, In (a, w) (mb_data m) -> a_word w.

(** the address that a key which is no slice stands for: an int, or a float equal to it *)
Definition same_number (v : val) (n : Z) : Prop :=
  match v with VI z => z = n | VF f => equals f n = true | VO _ => False end.
(** a number that a word takes: an int itself, a float in range cut to its whole part; for any
    other float, a number that no word takes *)
Definition taken_as (v : val) (z : Z) : Prop :=
  match v with
  | VI n => z = n
  | VF (Fin q) => if Qle_bool 0 q && Qle_bool q (inject_Z (2 ^ 48 - 1)) then whole q z else z = -1
  | VF _ => z = -1
  | VO _ => False
  end.
(** the slice of ints a slice is; [None] for a bound that is no int *)
Definition bound (v : val) (o : option Z) : Prop :=
  match v with VI z => o = Some z | _ => o = None end.
Inductive key_as : mkey -> key -> Prop :=
| K_one v h n : same_number v n -> key_as (MOne v h) (Idx n)
| K_slice s e os oe : bound s os -> bound e oe -> key_as (MSlice s e) (Slice os oe).

(** the call with ints that a call is *)
Inductive call_as : xcall -> mcall -> Prop :=
| X_get k k' : key_as k k' -> call_as (XGet k) (MGet k')
| X_set k k' v z : key_as k k' -> taken_as v z -> call_as (XSet k v) (MSet k' z)
| X_clear : call_as XClear MClear
| X_len : call_as XLen MLen
| X_next : call_as XNext MNext
| X_ref a v z : taken_as v z -> call_as (XRef a v) (MRef a z).
(** a key that stands for no address: a float that is no whole number, a text, None, ... *)
Definition no_address (k : mkey) : Prop :=
  match k with MOne v _ => forall n, ~ same_number v n | MSlice _ _ => False end.
(** a call that is no call with ints *)
Definition foreign (c : xcall) : Prop :=
  match c with
  | XGet k => no_address k
  | XSet k v => no_address k \/ exists t, v = VO t
  | XRef _ v => exists t, v = VO t
  | _ => False
  end.
(** an assignment to no word at all *)
Definition to_nothing (c : xcall) : Prop :=
  match c with XSet (MSlice (VI s) (VI e)) _ => e <= s | _ => False end.
(** a history and the calls with ints in it *)
Inductive calls_as : list xcall -> list mcall -> Prop :=
| CA_nil : calls_as [] []
| CA_call c c' cs cs' : call_as c c' -> calls_as cs cs' -> calls_as (c :: cs) (c' :: cs')
| CA_foreign c cs cs' : foreign c -> calls_as cs cs' -> calls_as (c :: cs) cs'.
