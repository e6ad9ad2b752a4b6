(** Property theorems; generated from LListTool.v by meta/genp.py. *)
From Verif Require Import Py LPy MCards SCards LCards LDeck MSymbols SSymbols LSymBuild MTools STools LTools LToolSym LListTool.

Theorem C90_one_partial : forall fuel fs f cs, source_cards fuel fs f cs ->
  exists name fs' ys, list_name f name /\ listing fuel fs [f] = Ok fs' /\
    Forall2 list_line cs ys /\ fs' name = Some (concat ys) /\ forall g, g <> name -> fs' g = fs g.
Proof. exact (@C90_one_partial_pf). Qed.
Print Assumptions C90_one_partial.

Example C90_one_partial_ex :
  let fs := fun f => if eqb f (lit "p.a") then Some (lit "        B          DEC          1" ++ [10] ++ lit "# no" ++ [10] ++ lit "$q.a" ++ [10])
                     else if eqb f (lit "q.a") then Some (lit "        A" ++ [10]) else None in
  exists fs', listing 3 fs [lit "p.a"] = Ok fs' /\ fs' (lit "p.lst") =
    Some (lit "p.a                                                              1              B          DEC          1" ++ [10] ++
          lit "q.a                                                              1              A" ++ [10]).
Proof. eexists. split; vm_compute; reflexivity. Qed.

Theorem C90_distinct_partial : forall p q ext name, ~ In 46 ext ->
  list_name (p ++ 46 :: ext) name -> list_name (q ++ 46 :: ext) name -> p = q.
Proof. exact (@C90_distinct_partial_pf). Qed.
Print Assumptions C90_distinct_partial.

Example C90_distinct_partial_ex : list_name (lit "p.x.a") (lit "p.x.lst") /\ list_name (lit "p.y.a") (lit "p.y.lst").
Proof. split; left; [exists (lit "p.x")|exists (lit "p.y")]; exists (lit "a"); (split; [reflexivity|]); (split; [|reflexivity]); intros [E|[]]; discriminate. Qed.

Theorem C90_distinct_refuted : (exists f g name, f <> g /\ list_name f name /\ list_name g name) /\
  (forall f g name, ~ In 46 f -> ~ In 46 g -> list_name f name -> list_name g name) /\
  (exists f, list_name f f) /\
  exists fuel fs f g fs' cs cs', f <> g /\ source_cards fuel fs f cs /\ source_cards fuel fs g cs' /\
    listing fuel fs [f; g] = Ok fs' /\
    ~ exists name ys, list_name f name /\ Forall2 list_line cs ys /\ fs' name = Some (concat ys).
Proof. exact (@C90_distinct_refuted_pf). Qed.
Print Assumptions C90_distinct_refuted.

Example C90_distinct_refuted_ex : listfile (lit "p.a") = lit "p.lst" /\ listfile (lit "p.b") = lit "p.lst" /\ listfile (lit "DECK") = lit ".lst".
Proof. vm_compute. auto. Qed.

Theorem C90_all_partial : forall fuel fs files css ext, files <> [] -> ~ In 46 ext ->
  Forall (fun f => ~ is_lst f /\ exists p, f = p ++ 46 :: ext) files -> no_lst_includes fs ->
  Forall2 (source_cards fuel fs) files css ->
  exists fs', listing fuel fs files = Ok fs' /\
    (forall f cs, In (f, cs) (combine files css) ->
       exists name ys, list_name f name /\ Forall2 list_line cs ys /\ fs' name = Some (concat ys)) /\
    (forall g, (forall f, In f files -> ~ list_name f g) -> fs' g = fs g).
Proof. exact (@C90_all_partial_pf). Qed.
Print Assumptions C90_all_partial.

Example C90_all_partial_ex :
  let fs := fun f => if eqb f (lit "p.a") then Some (lit "        B" ++ [10]) else if eqb f (lit "q.a") then Some (lit "        A" ++ [10] ++ lit "$p.a" ++ [10]) else None in
  exists fs', listing 3 fs [lit "p.a"; lit "q.a"] = Ok fs' /\
    fs' (lit "p.lst") = Some (lit "p.a                                                              1              B" ++ [10]) /\
    fs' (lit "q.lst") = Some (lit "q.a                                                              1              A" ++ [10] ++
                              lit "p.a                                                              1              B" ++ [10]) /\
    fs' (lit "p.a") = fs (lit "p.a").
Proof. eexists. split; [vm_compute; reflexivity|]. vm_compute. auto. Qed.
