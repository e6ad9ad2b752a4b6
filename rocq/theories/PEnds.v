(** Property theorems; generated from LEnds.v by meta/genp.py. *)
From Verif Require Import Py LPy MInstruction MCards SCards LCards LDeck MSymbols MInstructions MTools STools LGen LTools MDiag MDump MVerbose LVerbose MOptions MProcess SProcess SEnds LEnds.

Theorem C144_lines : forall content ls, readlines content = ls <-> text_lines content ls.
Proof. exact (@C144_lines_pf). Qed.
Print Assumptions C144_lines.

Example C144_lines_ex : text_lines (lit "A" ++ [13; 10; 13] ++ lit "B" ++ [10; 13]) [lit "A" ++ [10]; [10]; lit "B" ++ [10]; [10]].
Proof. apply C144_lines. vm_compute. reflexivity. Qed.

Theorem C144_tools : forall v fs fs' t prog words, same_lines fs fs' ->
  fst (command v fs t prog words) = fst (command v fs' t prog words) /\
  (t <> Genpages -> same_lines (snd (command v fs t prog words)) (snd (command v fs' t prog words))).
Proof. exact (@C144_tools_pf). Qed.
Print Assumptions C144_tools.

Example C144_tools_ex : let v := mkenv (fun _ _ => []) (fun _ _ _ => []) (fun s => s) (fun s => s) (fun _ => []) 3 (fun _ => [OutL (lit "help")]) in
  let fs e := fun f => if eqb f (lit "f") then Some (lit "$g x" ++ e ++ lit "                   FOO" ++ e) else if eqb f (lit "g") then Some (lit "#" ++ e ++ lit "                   BAR") else None in
  same_lines (fs [10]) (fs [13; 10]) /\ same_lines (fs [10]) (fs [13]) /\
  fst (command v (fs [13; 10]) Parse (lit "x.py") [lit "-d"; lit "f"]) = fst (command v (fs [10]) Parse (lit "x.py") [lit "-d"; lit "f"]) /\
  In (OutL (lit "g 2                    BAR")) (fst (fst (command v (fs [13]) Parse (lit "x.py") [lit "-d"; lit "f"]))).
Proof.
  cbv zeta. assert (R : forall e, In e [[10]; [13; 10]; [13]] -> same_lines (fun f => if eqb f (lit "f") then Some (lit "$g x" ++ [10] ++ lit "                   FOO" ++ [10]) else if eqb f (lit "g") then Some (lit "#" ++ [10] ++ lit "                   BAR") else None)
    (fun f => if eqb f (lit "f") then Some (lit "$g x" ++ e ++ lit "                   FOO" ++ e) else if eqb f (lit "g") then Some (lit "#" ++ e ++ lit "                   BAR") else None)).
  { intros e I f. destruct (eqb f (lit "f")); [|destruct (eqb f (lit "g")); [|left; auto]]; right.
    - eexists. eexists. exists [lit "$g x" ++ [10]; lit "                   FOO" ++ [10]]. split; [reflexivity|]. split; [reflexivity|].
      destruct I as [<-|[<-|[<-|[]]]]; split; apply C144_lines; vm_compute; reflexivity.
    - eexists. eexists. exists [lit "#" ++ [10]; lit "                   BAR"]. split; [reflexivity|]. split; [reflexivity|].
      destruct I as [<-|[<-|[<-|[]]]]; split; apply C144_lines; vm_compute; reflexivity. }
  split; [apply R; right; left; reflexivity|]. split; [apply R; right; right; left; reflexivity|].
  split; [symmetry; apply C144_tools; apply R; right; left; reflexivity|]. vm_compute. intuition.
Qed.

Theorem C144_pages : forall v fs fs' prog words, same_lines fs fs' ->
  forall f, snd (command v fs Genpages prog words) f = fs f /\ snd (command v fs' Genpages prog words) f = fs' f \/
    exists c c' more, fs f = Some c /\ fs' f = Some c' /\ snd (command v fs Genpages prog words) f = Some (c ++ more) /\
      snd (command v fs' Genpages prog words) f = Some (c' ++ more).
Proof. exact (@C144_pages_pf). Qed.
Print Assumptions C144_pages.

Example C144_pages_ex : let v := mkenv (fun _ _ => []) (fun _ _ _ => []) (fun s => s) (fun s => s) (fun _ => []) 3 (fun _ => [OutL (lit "help")]) in
  let fs e := fun f => if eqb f (lit "f") then Some (lit "# Pages: 1-2" ++ e ++ lit "L       MAIN" ++ e) else None in
  match snd (command v (fs [10]) Genpages (lit "x.py") [lit "f"]) (lit "f"), snd (command v (fs [13; 10]) Genpages (lit "x.py") [lit "f"]) (lit "f") with
  | Some a, Some b => exists more, more <> [] /\ a = lit "# Pages: 1-2" ++ [10] ++ lit "L       MAIN" ++ [10] ++ more /\
      b = lit "# Pages: 1-2" ++ [13; 10] ++ lit "L       MAIN" ++ [13; 10] ++ more
  | _, _ => False
  end.
Proof.
  cbv zeta. match goal with |- match ?x with _ => _ end => remember x as a eqn:A end.
  vm_compute in A. subst a. cbv iota. eexists. split; [|split]; [|vm_compute; reflexivity|vm_compute; reflexivity]. intros X. vm_compute in X. discriminate X.
Qed.
