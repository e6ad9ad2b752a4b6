(** Property theorems; generated from LRepr.v by meta/genp.py. *)
From Verif Require Import Py LPy MCards SCards LCards MSymbols SSymbols MDiag MDump SDump MVerbose SVerbose MOptions MProcess SEnds SSource LSource STextSym MRepr SRepr LRepr.

Theorem C159_literal : forall printable s, unicode s -> literal (py_repr printable s) s.
Proof. exact (@C159_literal_pf). Qed.
Print Assumptions C159_literal.

Example C159_literal_ex : py_repr (fun _ => false) (lit "it's" ++ [10; 92; 127; 233; 8364; 128512]) =
    [34] ++ lit "it's\n\\\x7f\xe9\u20ac\U0001f600" ++ [34] /\
  literal ([34] ++ lit "it's\n\\\x7f\xe9\u20ac\U0001f600" ++ [34]) (lit "it's" ++ [10; 92; 127; 233; 8364; 128512]).
Proof.
  split; [vm_compute; reflexivity|]. refine (eq_ind _ (fun t => literal t _) (C159_literal (fun _ => false) _ _) _ _); [|vm_compute; reflexivity].
  repeat (constructor; [split; [intros E; vm_compute in E; discriminate E|vm_compute; reflexivity]|]). constructor.
Qed.

Theorem C159_ordinary : forall printable s, ordinary s -> py_repr printable s = [39] ++ s ++ [39].
Proof. exact (@C159_ordinary_pf). Qed.
Print Assumptions C159_ordinary.

Example C159_ordinary_ex : ordinary (lit "SOAP.SRC") /\ py_repr (fun _ => true) (lit "SOAP.SRC") = lit "'SOAP.SRC'".
Proof. split; [|vm_compute; reflexivity]. apply Forall_forall. intros c I. vm_compute in I. lia. Qed.

Theorem C159_apart : forall t s t' s' r r', literal t s -> literal t' s' -> t ++ r = t' ++ r' -> t = t' /\ s = s' /\ r = r'.
Proof. exact (@C159_apart_pf). Qed.
Print Assumptions C159_apart.

Example C159_apart_ex : py_repr (fun _ => false) (lit "A") = lit "'A'" /\ py_repr (fun _ => false) (lit "A'") = [34] ++ lit "A'" ++ [34] /\
  py_repr (fun _ => false) (lit "\n") <> py_repr (fun _ => false) [10].
Proof. vm_compute. repeat split. discriminate. Qed.

Theorem C159_blocks : forall upper printable f i line f' i' line' ls,
  unicode f -> unicode line -> unicode f' -> unicode line' ->
  label_block upper (py_repr printable) (f, i, line) ls -> label_block upper (py_repr printable) (f', i', line') ls ->
  f = f' /\ i = i' /\ (exists s, label_of line s /\ label_of line' s) /\
  exists n, shows (columns line 2 7) n /\ shows (columns line' 2 7) n.
Proof. exact (@C159_blocks_pf). Qed.
Print Assumptions C159_blocks.

Example C159_blocks_ex : let v := mkenv (fun _ _ => []) (fun _ _ _ => []) (map (fun c => if (97 <=? c) && (c <=? 122) then c - 32 else c)) (py_repr (fun _ => false)) (fun _ => lit "?") 3 (fun _ => []) in
  firstn 2 (fst (fst (command v sample CheckSymbols (lit "x.py") [lit "a.arg"]))) =
    [ErrL (lit "*** ERROR: Symbol x is ill-formed (case)!");
     ErrL (lit "Current definition: {'file': 'inc', 'line': 2, 'lognum': None, 'tagtype': None, 'card': ?}")].
Proof. vm_compute. reflexivity. Qed.

Theorem C159_list : forall printable l, Forall unicode l ->
  (exists ts, Forall2 literal ts l /\ list_text (py_repr printable) l = list_shown ts) /\
  forall l', Forall unicode l' -> list_text (py_repr printable) l = list_text (py_repr printable) l' -> l = l'.
Proof. exact (@C159_list_pf). Qed.
Print Assumptions C159_list.

Example C159_list_ex : list_text (py_repr (fun _ => false)) [lit "A"; lit "B,C"; lit "D'"] = lit "['A', 'B,C', " ++ [34] ++ lit "D'" ++ [34] ++ lit "]" /\
  list_text (py_repr (fun _ => false)) [] = lit "[]".
Proof. vm_compute. auto. Qed.
