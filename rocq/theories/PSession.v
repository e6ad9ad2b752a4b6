(** Property theorems; generated from LSession.v by meta/genp.py. *)
From Verif Require Import Py LPy MInstruction MCards SCards LCards LDeck MSymbols MInstructions MTools STools LGen LTools LListTool MDiag MDump MVerbose LVerbose MOptions SOptions LOptions MProcess SProcess LProcess SEnds LEnds LUnfollow SFrame LFrame SSession LSession.

Theorem C198_session : forall v cs fs, ForallOrdPairs (apart fs) cs -> (forall c, In c cs -> keeps_sources fs c) ->
  fst (session v fs cs) = map (fun c => fst (run_call v fs c)) cs /\
  forall f, ((forall c, In c cs -> ~ writes c f) -> snd (session v fs cs) f = fs f) /\
            (forall c, In c cs -> writes c f -> snd (session v fs cs) f = snd (run_call v fs c) f).
Proof. exact (@C198_session_pf). Qed.
Print Assumptions C198_session.

Example C198_session_ex : let v := mkenv (fun _ _ => []) (fun _ _ _ => []) (fun s => s) (fun s => s) (fun _ => []) 4 (fun _ => [OutL (lit "help")]) in let fs : fsys := (fun f => if eqb f (lit "a.src") then Some (lit "                   TS") else None) in
  let cs := [(Listing, lit "l.py", [lit "a.src"]); (ListInstructions, lit "i.py", [lit "TS"; lit "a.src"])] in
  ForallOrdPairs (apart fs) cs /\ (forall c, In c cs -> keeps_sources fs c) /\ snd (session v fs cs) (lit "a.lst") <> None /\
  fst (session v fs cs) = [([], Exit 0); ([OutL (lit "                   TS")], Exit 0)].
Proof.
  cbv zeta.
  assert (LS : forall f, leads_to (fun f => if eqb f (lit "a.src") then Some (lit "                   TS") else None) (lit "a.src") f -> f = lit "a.src").
  { intros f L. apply leads_inv in L. destruct L as [<-|(ct & r & inc & F & I & _)]; [reflexivity|]. cbv beta in F. change (eqb (lit "a.src") (lit "a.src")) with true in F.
    cbv iota in F. injection F as <-. vm_compute in I. destruct I as [I|[]]. discriminate I. }
  assert (WL : forall f, writes (Listing, lit "l.py", [lit "a.src"]) f -> f = lit "a.lst").
  { intros f (on & args & U & [[_ (g & I & L)]|[X _]]); [|discriminate X]. apply (C123_understood_pf _ _ _ _ (opts_proper Listing)) in U. vm_compute in U. injection U as <- <-.
    destruct I as [<-|[]]. apply listfile_ok in L. rewrite <- L. vm_compute. reflexivity. }
  assert (RD : forall f, reads (fun f => if eqb f (lit "a.src") then Some (lit "                   TS") else None) (Listing, lit "l.py", [lit "a.src"]) f \/ reads (fun f => if eqb f (lit "a.src") then Some (lit "                   TS") else None) (ListInstructions, lit "i.py", [lit "TS"; lit "a.src"]) f -> f = lit "a.src").
  { intros f [(on & args & U & g & I & L)|(on & args & U & g & I & L)].
    - apply (C123_understood_pf _ _ _ _ (opts_proper Listing)) in U. vm_compute in U. injection U as <- <-. destruct I as [<-|[]]. exact (LS f L).
    - apply (C123_understood_pf _ _ _ _ (opts_proper ListInstructions)) in U. vm_compute in U. injection U as <- <-. destruct I as [<-|[]]. exact (LS f L). }
  assert (WN : forall f, ~ writes (ListInstructions, lit "i.py", [lit "TS"; lit "a.src"]) f) by (intros f (on & args & _ & [[X _]|[X _]]); discriminate X).
  assert (NE : lit "a.lst" <> lit "a.src") by (intros X; vm_compute in X; discriminate X).
  split; [|split; [|split; [vm_compute; discriminate|vm_compute; reflexivity]]].
  - constructor; [|constructor; [constructor|constructor]]. constructor; [|constructor]. intros f. split; [|intros W; destruct (WN f W)].
    intros W. split; [|apply WN]. intros R. apply NE. rewrite <- (WL f W). apply RD. right. exact R.
  - intros c [<-|[<-|[]]] E f W R; [|discriminate E]. apply NE. rewrite <- (WL f W). apply RD. left. exact R.
Qed.

Theorem C198_order : forall v cs cs' fs, Permutation cs cs' -> ForallOrdPairs (apart fs) cs -> (forall c, In c cs -> keeps_sources fs c) ->
  fst (session v fs cs) = map (fun c => fst (run_call v fs c)) cs /\ fst (session v fs cs') = map (fun c => fst (run_call v fs c)) cs' /\
  forall f, snd (session v fs cs') f = snd (session v fs cs) f.
Proof. exact (@C198_order_pf). Qed.
Print Assumptions C198_order.

Example C198_order_ex : let v := mkenv (fun _ _ => []) (fun _ _ _ => []) (fun s => s) (fun s => s) (fun _ => []) 4 (fun _ => [OutL (lit "help")]) in let fs : fsys := (fun f => if eqb f (lit "a.src") then Some (lit "                   TS") else None) in
  let c := (Listing, lit "l.py", [lit "a.src"]) in let c' := (ListInstructions, lit "i.py", [lit "TS"; lit "a.src"]) in
  fst (session v fs [c; c']) = rev (fst (session v fs [c'; c])) /\ snd (session v fs [c; c']) (lit "a.lst") = snd (session v fs [c'; c]) (lit "a.lst").
Proof. vm_compute. split; reflexivity. Qed.

Theorem C198_again : forall v fs c n, fst (fst c) <> Genpages -> keeps_sources fs c ->
  fst (session v fs (List.repeat c (S n))) = List.repeat (fst (run_call v fs c)) (S n) /\
  forall f, snd (session v fs (List.repeat c (S n))) f = snd (run_call v fs c) f.
Proof. exact (@C198_again_pf). Qed.
Print Assumptions C198_again.

Example C198_again_ex : let v := mkenv (fun _ _ => []) (fun _ _ _ => []) (fun s => s) (fun s => s) (fun _ => []) 4 (fun _ => [OutL (lit "help")]) in let fs : fsys := (fun f => if eqb f (lit "a.src") then Some (lit "                   TS") else None) in let c := (Listing, lit "l.py", [lit "-v"; lit "a.src"]) in
  fst (session v fs [c; c]) = [fst (run_call v fs c); fst (run_call v fs c)] /\ List.length (fst (fst (run_call v fs c))) = 2%nat /\
  snd (session v fs [c; c]) (lit "a.lst") = snd (run_call v fs c) (lit "a.lst").
Proof. vm_compute. split; [reflexivity|split; reflexivity]. Qed.
