(** Model of MemoryBank in /repo/h800/memory.py for keys and values of any type, on top of
    [MDyn.v].  Left out: the property value, which always raises (C31), and __repr__. *)
From Verif Require Import Py MBitField MDyn.

(** A key that is no slice (and, for objects that are no numbers, whether it can be
    hashed), or a slice *)
Inductive mkey := MOne (v : val) (hashable : bool) | MSlice (s e : val).

(** memory.py:13-18 the words and the cursor *)
Record tbank := mktb { tb_data : dict Z tf; tb_current : Z }.

(** memory.py:14-16 2048 new words *)
Definition tbank_new (A : farith) : tres tbank :=
  try w <- tword_new A (VI 0);
  TOk (mktb (fold_left (fun d addr => dset d addr w) (py_range 0 2048) []) 0).

(** self._data[key]: a number finds the key it is equal to; the address found and the word *)
Definition tlookup (d : dict Z tf) (v : val) (hashable : bool) : tres (Z * tf) :=
  match v with
  | VO _ => TErr (PyExn (if hashable then KeyError else TypeError))
  | _ => match find (fun kv => veq v (fst kv)) d with
         | Some kv => TOk kv
         | None => TErr (PyExn KeyError)
         end
  end.
(** memory.py:54 self._data[key].value; word.py:47-49 int(self.data) *)
Definition tcell_get (m : tbank) (v : val) (hashable : bool) : tres Z :=
  try (_, w) <- tlookup (tb_data m) v hashable; tf_int w.
(** memory.py:61 self._data[key].value = value *)
Definition tcell_set (A : farith) (m : tbank) (v : val) (hashable : bool) (value : val) : tbank * tres unit :=
  match tlookup (tb_data m) v hashable with
  | TErr e => (m, TErr e)
  | TOk (a, w) =>
      let '(w', r) := tword_set_value A w value in
      (mktb (dset (tb_data m) a w') (tb_current m), r)
  end.
(** range(start, stop): ints only *)
Definition vrange (s e : val) : tres (list Z) :=
  match s, e with VI s, VI e => TOk (py_range s e) | _, _ => TErr (PyExn TypeError) end.
Fixpoint tcells_get (m : tbank) (addrs : list Z) : tres (list Z) :=
  match addrs with
  | [] => TOk []
  | a :: r => try x <- tcell_get m (VI a) true; try xs <- tcells_get m r; TOk (x :: xs)
  end.
Fixpoint tcells_set (A : farith) (m : tbank) (addrs : list Z) (value : val) : tbank * tres unit :=
  match addrs with
  | [] => (m, TOk tt)
  | a :: r =>
      match tcell_set A m (VI a) true value with
      | (m', TOk _) => tcells_set A m' r value
      | (m', TErr e) => (m', TErr e)
      end
  end.
(** memory.py:47-54 __getitem__ *)
Definition tbank_getitem (m : tbank) (k : mkey) : tres (list Z) :=
  match k with
  | MSlice s e => try l <- vrange s e; tcells_get m l
  | MOne v h => try x <- tcell_get m v h; TOk [x]
  end.
(** memory.py:56-61 __setitem__ *)
Definition tbank_setitem (A : farith) (m : tbank) (k : mkey) (value : val) : tbank * tres unit :=
  match k with
  | MSlice s e =>
      match vrange s e with TOk l => tcells_set A m l value | TErr x => (m, TErr x) end
  | MOne v h => tcell_set A m v h value
  end.
(** memory.py:66-74 __next__: the address of the word returned *)
Definition tbank_next (m : tbank) : tbank * tres Z :=
  if tb_current m >=? zlen (tb_data m) then (m, TErr (PyExn StopIteration))
  else (mktb (tb_data m) (tb_current m + 1),
        try (a, _) <- tlookup (tb_data m) (VI (tb_current m)) true; TOk a).
(** memory.py:82-84 clear *)
Definition tbank_clear (A : farith) (m : tbank) : tbank * tres unit :=
  tcells_set A m (dkeys (tb_data m)) (VI 0).

(** The calls on a bank; [XRef a v] assigns to the value of a word that next() returned *)
Inductive xcall :=
| XGet (k : mkey) | XSet (k : mkey) (v : val) | XClear | XLen | XNext | XRef (a : Z) (v : val).
Definition tunit (p : tbank * tres unit) : tbank * tres (list Z) :=
  let '(m, r) := p in (m, try _ <- r; TOk []).
Definition tbank_call (A : farith) (m : tbank) (c : xcall) : tbank * tres (list Z) :=
  match c with
  | XGet k => (m, tbank_getitem m k)
  | XSet k v => tunit (tbank_setitem A m k v)
  | XClear => tunit (tbank_clear A m)
  | XLen => (m, TOk [zlen (tb_data m)])
  | XNext => let '(m', r) := tbank_next m in (m', try a <- r; TOk [a])
  | XRef a v => tunit (tcell_set A m (VI a) true v)
  end.
(** what a history of calls returns, and the bank after it *)
Fixpoint tbank_trace (A : farith) (m : tbank) (cs : list xcall) : list (tres (list Z)) * tbank :=
  match cs with
  | [] => ([], m)
  | c :: cs' =>
      let '(m', o) := tbank_call A m c in
      let '(os, m2) := tbank_trace A m' cs' in (o :: os, m2)
  end.
