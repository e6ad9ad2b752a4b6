(** The fragment of the Python 3 run time that /repo relies on.
    Nothing in this file models a file of /repo; it models the language:
    exceptions, dicts, slices, ranges and the str methods the code calls. *)
From Coq Require Export Ascii String ZArith Lia Bool List.
Export ListNotations.
Open Scope Z_scope.

(** Exceptions raised by the code or by the language on its behalf.
    [RecursionError] also stands for "does not return": it is the value of
    fuelled recursions that run out of fuel. *)
Inductive exn :=
| ValueError | KeyError | IndexError | TypeError | AttributeError | NameError
| StopIteration | SystemExit | RecursionError | ZeroDivisionError
| UnboundLocalError | AssertionError | OSError.

(** Result of a computation that may raise. *)
Inductive res (A : Type) := Ok (a : A) | Err (e : exn).
Arguments Ok {A} a.
Arguments Err {A} e.

Definition bind {A B} (r : res A) (f : A -> res B) : res B :=
  match r with Ok a => f a | Err e => Err e end.
Notation "'do' x <- r ; k" := (bind r (fun x => k))
  (at level 200, x pattern, r at level 100, k at level 200).

(** A stateful call: the state is returned also when the call raises. *)
Definition sbind {S A B} (p : S * res A) (f : S -> A -> S * res B) : S * res B :=
  match p with (s, Ok a) => f s a | (s, Err e) => (s, Err e) end.

(** Decidable equality on dict keys. *)
Class EqB (K : Type) := {
  eqb : K -> K -> bool;
  eqb_ok : forall x y, eqb x y = true <-> x = y
}.

(** Strings are lists of Unicode code points. *)
Definition str := list Z.

Definition lit (s : string) : str :=
  map (fun c => Z.of_nat (nat_of_ascii c)) (list_ascii_of_string s).
Arguments lit s%string_scope.

Fixpoint str_eqb (a b : str) : bool :=
  match a, b with
  | [], [] => true
  | x :: a', y :: b' => (x =? y) && str_eqb a' b'
  | _, _ => false
  end.

Lemma str_eqb_ok (a b : str) : str_eqb a b = true <-> a = b.
Proof.
  revert b; induction a as [|x a IH]; intros [|y b]; simpl;
    try (split; [discriminate|discriminate]); [tauto|].
  rewrite andb_true_iff, Z.eqb_eq, IH; split;
    [intros [-> ->]; reflexivity | intros E; inversion E; auto].
Qed.

#[export] Instance EqB_Z : EqB Z := {| eqb := Z.eqb; eqb_ok := Z.eqb_eq |}.
#[export] Instance EqB_str : EqB str := {| eqb := str_eqb; eqb_ok := str_eqb_ok |}.

(** dict: an association list in insertion order (Python >= 3.7). *)
Definition dict (K V : Type) := list (K * V).

(** d.get(k) *)
Fixpoint dget {K V} `{EqB K} (d : dict K V) (k : K) : option V :=
  match d with
  | [] => None
  | (k', v) :: d' => if eqb k' k then Some v else dget d' k
  end.

(** d[k], raising KeyError *)
Definition dindex {K V} `{EqB K} (d : dict K V) (k : K) : res V :=
  match dget d k with Some v => Ok v | None => Err KeyError end.

(** d[k] = v : keeps the position of an existing key, appends a new one. *)
Fixpoint dset {K V} `{EqB K} (d : dict K V) (k : K) (v : V) : dict K V :=
  match d with
  | [] => [(k, v)]
  | (k', v') :: d' => if eqb k' k then (k', v) :: d' else (k', v') :: dset d' k v
  end.

(** k in d *)
Definition dmem {K V} `{EqB K} (d : dict K V) (k : K) : bool :=
  match dget d k with Some _ => true | None => false end.

(** d.keys() *)
Definition dkeys {K V} (d : dict K V) : list K := map fst d.

(** x in list *)
Definition inb {A} `{EqB A} (x : A) (l : list A) : bool := existsb (fun y => eqb y x) l.

(** len(x) *)
Definition zlen {A} (l : list A) : Z := Z.of_nat (List.length l).

(** range(a, b) *)
Definition py_range (a b : Z) : list Z :=
  map (fun i => a + Z.of_nat i) (seq 0 (Z.to_nat (b - a))).

(** x << n and x >> n on ints: a negative count raises ValueError. *)
Definition py_shl (x n : Z) : res Z :=
  if n <? 0 then Err ValueError else Ok (Z.shiftl x n).
Definition py_shr (x n : Z) : res Z :=
  if n <? 0 then Err ValueError else Ok (Z.shiftr x n).

(** Sequence slicing l[i:j] with step 1; None is an omitted bound. *)
Definition slice_bound (n i : Z) : Z :=
  if i <? 0 then Z.max 0 (i + n) else Z.min i n.
Definition py_slice {A} (l : list A) (i j : option Z) : list A :=
  let n := zlen l in
  let lo := match i with None => 0 | Some i => slice_bound n i end in
  let hi := match j with None => n | Some j => slice_bound n j end in
  firstn (Z.to_nat (hi - lo)) (skipn (Z.to_nat lo) l).

(** l[i] for an int i, negative indices counting from the end. *)
Definition py_index {A} (l : list A) (i : Z) : res A :=
  let n := zlen l in
  let k := if i <? 0 then i + n else i in
  if (k <? 0) || (n <=? k) then Err IndexError
  else match nth_error l (Z.to_nat k) with Some x => Ok x | None => Err IndexError end.

(** Characters str.strip and str.split() treat as white space. *)
Definition is_space (c : Z) : bool :=
  ((9 <=? c) && (c <=? 13)) || ((28 <=? c) && (c <=? 32)) || (c =? 133) ||
  (c =? 160) || (c =? 5760) || ((8192 <=? c) && (c <=? 8202)) || (c =? 8232) ||
  (c =? 8233) || (c =? 8239) || (c =? 8287) || (c =? 12288).

Fixpoint lstrip (s : str) : str :=
  match s with
  | [] => []
  | c :: r => if is_space c then lstrip r else s
  end.
Definition rstrip (s : str) : str := rev (lstrip (rev s)).
(** s.strip() *)
Definition strip (s : str) : str := rstrip (lstrip s).

(** s.replace(c, '') for a single character c *)
Definition remove_char (c : Z) (s : str) : str := filter (fun x => negb (x =? c)) s.

(** c in s / s.count(c) for a single character c *)
Definition has_char (c : Z) (s : str) : bool := existsb (Z.eqb c) s.
Definition count_char (c : Z) (s : str) : Z := zlen (filter (Z.eqb c) s).

(** s.split(c) for a single character c; never empty *)
Fixpoint split_on (c : Z) (s : str) : list str :=
  match s with
  | [] => [[]]
  | x :: r =>
      if x =? c then [] :: split_on c r
      else match split_on c r with
           | h :: t => (x :: h) :: t
           | [] => [[x]]
           end
  end.

(** s.split() *)
Fixpoint split_ws_aux (cur : str) (s : str) : list str :=
  match s with
  | [] => match cur with [] => [] | _ => [rev cur] end
  | c :: r =>
      if is_space c
      then match cur with [] => split_ws_aux [] r | _ => rev cur :: split_ws_aux [] r end
      else split_ws_aux (c :: cur) r
  end.
Definition split_ws (s : str) : list str := split_ws_aux [] s.

(** s.startswith(p), s.endswith(p) *)
Fixpoint startswith (s p : str) : bool :=
  match p, s with
  | [], _ => true
  | y :: p', x :: s' => (x =? y) && startswith s' p'
  | _ :: _, [] => false
  end.
Definition endswith (s p : str) : bool := startswith (rev s) (rev p).

(** sep.join(l) *)
Fixpoint join (sep : str) (l : list str) : str :=
  match l with
  | [] => []
  | [x] => x
  | x :: r => x ++ sep ++ join sep r
  end.

(** a <= b on str: lexicographic by code point *)
Fixpoint str_leb (a b : str) : bool :=
  match a, b with
  | [], _ => true
  | _ :: _, [] => false
  | x :: a', y :: b' => (x <? y) || ((x =? y) && str_leb a' b')
  end.

(** sorted(l) : stable insertion sort *)
Fixpoint insert_by {A} (le : A -> A -> bool) (x : A) (l : list A) : list A :=
  match l with
  | [] => [x]
  | y :: r => if le x y then x :: l else y :: insert_by le x r
  end.
Fixpoint sort_by {A} (le : A -> A -> bool) (l : list A) : list A :=
  match l with
  | [] => []
  | x :: r => insert_by le x (sort_by le r)
  end.
Definition sorted (l : list str) : list str := sort_by str_leb l.

(** Numerals. [digits_of b fuel n acc]: base-[b] digits of [n >= 0], most
    significant first, in front of [acc]. *)
Fixpoint digits_of (b : Z) (fuel : nat) (n : Z) (acc : str) : str :=
  match fuel with
  | O => acc
  | S f =>
      let acc' := (48 + n mod b) :: acc in
      if n / b =? 0 then acc' else digits_of b f (n / b) acc'
  end.
Definition numeral (b n : Z) : str := digits_of b (S (Z.to_nat (Z.log2 n))) n [].
(** str(n) *)
Definition str_of_Z (n : Z) : str :=
  if n <? 0 then 45 :: numeral 10 (- n) else numeral 10 n.
(** bin(n) *)
Definition py_bin (n : Z) : str :=
  if n <? 0 then lit "-0b" ++ numeral 2 (- n) else lit "0b" ++ numeral 2 n.

(** n * c for a character c (empty when n <= 0) *)
Definition repeat_char (n : Z) (c : Z) : str := repeat c (Z.to_nat n).
(** Padding to a minimum width *)
Definition pad_left (c w : Z) (s : str) : str := repeat_char (w - zlen s) c ++ s.
Definition pad_right (c w : Z) (s : str) : str := s ++ repeat_char (w - zlen s) c.

(** f.readlines() of a text file: universal newlines, terminators kept as '\n' *)
Fixpoint universal_newlines (s : str) : str :=
  match s with
  | [] => []
  | c :: r =>
      if c =? 13
      then match r with
           | d :: _ => if d =? 10 then universal_newlines r else 10 :: universal_newlines r
           | [] => [10]
           end
      else c :: universal_newlines r
  end.
Fixpoint lines_of (s : str) : list str :=
  match s with
  | [] => []
  | c :: r =>
      if c =? 10 then [10] :: lines_of r
      else match lines_of r with
           | h :: t => (c :: h) :: t
           | [] => [[c]]
           end
  end.
Definition readlines (content : str) : list str := lines_of (universal_newlines content).
