(** Property theorems; generated from LClash.v by meta/genp.py. *)
From Verif Require Import Py LPy MCards SCards LCards LDeck MSymbols SSymbols LSymBuild MInstructions MTools STools LTools SClash LClash.

Theorem C84_exact : forall upper fuel fs files css tab errs f seg cs e, Forall2 (source_cards fuel fs) files css ->
  fold_r (fun s g => build_symbol_table upper fuel fs g (fst s)) files ([], 0) = Ok (tab, errs) ->
  segment_of f seg -> source_cards fuel fs f cs ->
  (build_symbol_table upper fuel fs f tab = Err e <->
   exists pre c post, cs = pre ++ c :: post /\ clash upper (earlier upper files css) seg (lit "1") pre c e /\
     forall pre' c' post' e', pre = pre' ++ c' :: post' -> ~ clash upper (earlier upper files css) seg (lit "1") pre' c' e').
Proof. exact (@C84_exact_pf). Qed.
Print Assumptions C84_exact.

Example C84_exact_ex :
  build_symbol_table (fun s => s) 2 (simple_file (lit "2") (lit "simple.x")) (lit "simple.x") [] = Err KeyError /\
  build_symbol_table (fun s => s) 2 (simple_file (lit "card") (lit "simple.x")) (lit "simple.x") [] = Err AttributeError /\
  match build_symbol_table (fun s => s) 2 (simple_file (lit "2") (lit "complex.x")) (lit "complex.x") [] with Ok (_, n) => n = 0 | Err _ => False end.
Proof. vm_compute. auto. Qed.

Theorem C78_exact : forall upper fuel fs files css tab errs f seg cs tab' n, Forall2 (source_cards fuel fs) files css ->
  fold_r (fun s g => build_symbol_table upper fuel fs g (fst s)) files ([], 0) = Ok (tab, errs) ->
  segment_of f seg -> source_cards fuel fs f cs -> build_symbol_table upper fuel fs f tab = Ok (tab', n) ->
  exists a b, n = a + b /\ count_of (label_error upper) cs a /\ count_along (doubled upper (earlier upper files css) seg (lit "1")) cs b.
Proof. exact (@C78_exact_pf). Qed.
Print Assumptions C78_exact.

Example C78_exact_ex :
  let fs name := fun f => if eqb f name then Some (lit "        A          DEC          1" ++ [10] ++ lit "        A          DEC          2" ++ [10] ++ lit "        A          ASSIGN       1" ++ [10]) else None in
  match build_symbol_table (fun s => s) 2 (fs (lit "simple.x")) (lit "simple.x") [] with Ok (_, n) => n = 1 | Err _ => False end /\
  match build_symbol_table (fun s => s) 2 (fs (lit "complex.x")) (lit "complex.x") [] with Ok (_, n) => n = 1 | Err _ => False end /\
  match build_symbol_table (fun s => s) 2 (fs (lit "plain.x")) (lit "plain.x") [] with Ok (_, n) => n = 0 | Err _ => False end.
Proof. vm_compute. auto. Qed.
