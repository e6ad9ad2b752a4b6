(** Property theorems; generated from LFrame.v by meta/genp.py. *)
From Verif Require Import Py LPy MInstruction MCards SCards LCards LDeck MSymbols MInstructions MTools STools LGen LTools LListTool MDiag MDump MVerbose LVerbose MOptions SOptions LOptions MProcess SProcess LProcess SEnds LEnds LUnfollow SFrame LFrame.

Theorem C197_looks : forall v fs fs' t prog words,
  (forall on args f, understood (options t) words on args -> looks_at fs t args f -> fs f = fs' f) ->
  (forall on args, understood (options t) words on args -> listings_apart fs t args) ->
  fst (command v fs t prog words) = fst (command v fs' t prog words) /\
  forall g, (snd (command v fs t prog words) g = fs g /\ snd (command v fs' t prog words) g = fs' g) \/
    (snd (command v fs t prog words) g = snd (command v fs' t prog words) g /\ snd (command v fs t prog words) g <> None /\
     exists on args, understood (options t) words on args /\ may_write t args g).
Proof. exact (@C197_looks_pf). Qed.
Print Assumptions C197_looks.

Example C197_looks_ex : let v := mkenv (fun _ _ => []) (fun _ _ _ => []) (fun s => s) (fun s => s) (fun _ => []) 4 (fun _ => [OutL (lit "help")]) in
  let fs c := fun f => if eqb f (lit "f") then Some (lit "$g" ++ [10] ++ lit "                   FOO") else if eqb f (lit "g") then Some (lit "                   BAR")
                       else if eqb f (lit "h") then Some c else None in
  fst (command v (fs (lit "x")) Parse (lit "x.py") [lit "-d"; lit "f"]) = fst (command v (fs (lit "y")) Parse (lit "x.py") [lit "-d"; lit "f"]) /\
  In (OutL (lit "g 1                    BAR")) (fst (fst (command v (fs (lit "x")) Parse (lit "x.py") [lit "-d"; lit "f"]))) /\
  leads_to (fs (lit "x")) (lit "f") (lit "g") /\ ~ leads_to (fs (lit "x")) (lit "f") (lit "h").
Proof.
  cbv zeta.
  assert (G : forall c, leads_to (fun f => if eqb f (lit "f") then Some (lit "$g" ++ [10] ++ lit "                   FOO") else if eqb f (lit "g") then Some (lit "                   BAR")
                       else if eqb f (lit "h") then Some c else None) (lit "f") (lit "g")).
  { intros c. apply leads_inv. right. eexists. exists (lit "g" ++ [10]), (lit "g"). split; [reflexivity|]. split; [vm_compute; left; reflexivity|].
    split; [apply first_word_ok; eexists; vm_compute; reflexivity|constructor]. }
  assert (H : forall c h, leads_to (fun f => if eqb f (lit "f") then Some (lit "$g" ++ [10] ++ lit "                   FOO") else if eqb f (lit "g") then Some (lit "                   BAR")
                       else if eqb f (lit "h") then Some c else None) (lit "f") h -> h = lit "f" \/ h = lit "g").
  { intros c h L. apply leads_inv in L. destruct L as [<-|(ct & r & inc & F & I & W & L)]; [left; reflexivity|right].
    cbv beta in F. change (eqb (lit "f") (lit "f")) with true in F. cbv iota in F. injection F as <-. vm_compute in I. destruct I as [I|[I|[]]]; [|discriminate I]. injection I as <-.
    apply first_word_ok in W. destruct W as (t & W). vm_compute in W. injection W as <- _.
    apply leads_inv in L. destruct L as [<-|(ct & r & inc & F & I & _)]; [reflexivity|].
    cbv beta in F. change (eqb [103] (lit "f")) with false in F. change (eqb [103] (lit "g")) with true in F. cbv iota in F. injection F as <-. vm_compute in I. destruct I as [I|[]]. discriminate I. }
  split; [|split; [vm_compute; intuition|split; [apply G|intros L; destruct (H _ _ L) as [X|X]; vm_compute in X; discriminate X]]].
  apply C197_looks.
  - intros on args f U (g & I & L). apply (C123_understood_pf _ _ _ _ (opts_proper Parse)) in U. vm_compute in U. injection U as <- <-.
    destruct I as [<-|[]]. destruct (H _ _ L) as [E|E]; rewrite E; reflexivity.
  - intros on args U X. discriminate X.
Qed.

Theorem C197_writes : forall v fs t prog words g, snd (command v fs t prog words) g <> fs g ->
  exists on args, understood (options t) words on args /\ may_write t args g.
Proof. exact (@C197_writes_pf). Qed.
Print Assumptions C197_writes.

Example C197_writes_ex : let v := mkenv (fun _ _ => []) (fun _ _ _ => []) (fun s => s) (fun s => s) (fun _ => []) 4 (fun _ => [OutL (lit "help")]) in
  let fs := fun f => if eqb f (lit "a.src") then Some (lit "                   FOO") else None in
  snd (command v fs Listing (lit "x.py") [lit "a.src"]) (lit "a.lst") <> None /\ may_write Listing [lit "a.src"] (lit "a.lst").
Proof.
  cbv zeta. split; [vm_compute; discriminate|]. left. split; [reflexivity|]. exists (lit "a.src"). split; [left; reflexivity|]. left. exists (lit "a"), (lit "src").
  split; [reflexivity|]. split; [|reflexivity]. intros I. vm_compute in I. repeat (destruct I as [I|I]; [discriminate I|]). exact I.
Qed.

Theorem C197_needed : forall v fs t prog words on args f, understood (options t) words on args -> listings_apart fs t args ->
  snd (fst (command v fs t prog words)) = Exit 0 -> looks_at fs t args f ->
  snd (fst (command v (without fs f) t prog words)) = Exit (match t with Genpages => 2 | _ => 1 end).
Proof. exact (@C197_needed_pf). Qed.
Print Assumptions C197_needed.

Example C197_needed_ex : let v := mkenv (fun _ _ => []) (fun _ _ _ => []) (fun s => s) (fun s => s) (fun _ => []) 4 (fun _ => [OutL (lit "help")]) in
  let fs := fun f => if eqb f (lit "f") then Some (lit "$g" ++ [10] ++ lit "                   FOO") else if eqb f (lit "g") then Some (lit "                   BAR") else None in
  snd (fst (command v fs ListSymbols (lit "x.py") [lit "f"])) = Exit 0 /\ snd (fst (command v (without fs (lit "g")) ListSymbols (lit "x.py") [lit "f"])) = Exit 1.
Proof.
  cbv zeta. assert (Z : snd (fst (command (mkenv (fun _ _ => []) (fun _ _ _ => []) (fun s => s) (fun s => s) (fun _ => []) 4 (fun _ => [OutL (lit "help")]))
    (fun f => if eqb f (lit "f") then Some (lit "$g" ++ [10] ++ lit "                   FOO") else if eqb f (lit "g") then Some (lit "                   BAR") else None) ListSymbols (lit "x.py") [lit "f"])) = Exit 0) by (vm_compute; reflexivity).
  split; [exact Z|]. refine (C197_needed _ _ ListSymbols _ _ [] [lit "f"] (lit "g") _ _ Z _).
  - apply (C123_understood_pf _ _ _ _ (opts_proper ListSymbols)). vm_compute. reflexivity.
  - intros X. discriminate X.
  - exists (lit "f"). split; [left; reflexivity|]. apply leads_inv. right. eexists. exists (lit "g" ++ [10]), (lit "g"). split; [reflexivity|].
    split; [vm_compute; left; reflexivity|]. split; [apply first_word_ok; eexists; vm_compute; reflexivity|constructor].
Qed.
