From Coq Require Import ZArith List Bool Lia.
From Verif Require Import Py LPy MInstruction MCards SCards LCards LDeck MSymbols MInstructions MTools STools LGen LTools MDiag MDump MVerbose LVerbose MOptions MProcess SProcess SEnds.
#[local] Arguments Z.add : simpl never.
#[local] Arguments Z.sub : simpl never.
#[local] Arguments Z.mul : simpl never.
#[local] Arguments Z.pow : simpl never.

(** *** the lines of a text *)
Lemma universal_plain (l : str) : ~ In 13 l -> universal_newlines l = l.
Proof. intros N. rewrite <- (app_nil_r l) at 1. rewrite universal_app by exact N. apply app_nil_r. Qed.
Lemma lines_plain (l : str) : l <> [] -> ~ In 10 l -> lines_of l = [l].
Proof.
  induction l as [|c l IH]; intros NE N; [contradiction|]. cbn [lines_of]. destruct (Z.eqb_spec c 10) as [->|C]; [destruct N; left; reflexivity|].
  destruct l as [|d l]; [reflexivity|]. rewrite IH; [reflexivity|discriminate|intros I; apply N; right; exact I].
Qed.
Lemma text_ok s ls : text_lines s ls -> readlines s = ls.
Proof.
  unfold readlines. induction 1 as [|l NE A B|l e rest ls A B E H IH]; [reflexivity| |].
  - rewrite universal_plain by exact B. apply lines_plain; assumption.
  - rewrite universal_app by exact B. destruct E as [->|[->|[-> NR]]]; cbn [app universal_newlines].
    + change (10 =? 13) with false. cbv iota. rewrite lines_app, IH by exact A. reflexivity.
    + change (13 =? 13) with true. change (10 =? 10) with true. change (10 =? 13) with false. cbv iota. rewrite lines_app, IH by exact A. reflexivity.
    + change (13 =? 13) with true. cbv iota. destruct rest as [|d rest].
      * cbn [universal_newlines lines_of] in IH. subst ls. rewrite (lines_app l A []). reflexivity.
      * destruct (Z.eqb_spec d 10) as [->|D]; [destruct (NR rest); reflexivity|]. rewrite lines_app, IH by exact A. reflexivity.
Qed.
Lemma first_end (s : str) : (~ In 10 s /\ ~ In 13 s) \/ exists l c r, s = l ++ c :: r /\ ~ In 10 l /\ ~ In 13 l /\ (c = 10 \/ c = 13).
Proof.
  induction s as [|c s IH]; [left; auto|]. destruct (Z.eq_dec c 10) as [->|A]; [right; exists [], 10, s; auto|].
  destruct (Z.eq_dec c 13) as [->|B]; [right; exists [], 13, s; auto|].
  destruct IH as [[N M]|(l & d & r & -> & N & M & D)].
  - left. split; intros [I|I]; auto.
  - right. exists (c :: l), d, r. split; [reflexivity|]. split; [intros [I|I]; auto|]. split; [intros [I|I]; auto|exact D].
Qed.
Lemma text_exists s : exists ls, text_lines s ls.
Proof.
  assert (G : forall n s, (List.length s <= n)%nat -> exists ls, text_lines s ls).
  { clear s. induction n as [|n IH]; intros s L.
    - destruct s; [exists []; constructor|cbn in L; lia].
    - destruct (first_end s) as [[A B]|(l & c & r & -> & A & B & D)].
      + destruct s as [|c s]; [exists []; constructor|]. eexists. apply tl_last; [discriminate|exact A|exact B].
      + rewrite app_length in L. cbn [List.length] in L. destruct D as [->| ->].
        * destruct (IH r) as (ls & T); [lia|]. eexists. apply (tl_line l [10] r ls); auto.
        * destruct r as [|d r]; [eexists; apply (tl_line l [13] [] []); auto; [right; right; split; [reflexivity|discriminate]|constructor]|].
          destruct (Z.eq_dec d 10) as [->|ND].
          -- destruct (IH r) as (ls & T); [cbn [List.length] in L; lia|]. eexists. apply (tl_line l [13; 10] r ls); auto.
          -- destruct (IH (d :: r)) as (ls & T); [lia|]. eexists. apply (tl_line l [13] (d :: r) ls); auto.
             right. right. split; [reflexivity|]. intros x X. congruence. }
  exact (G _ s (Nat.le_refl _)).
Qed.
Lemma C144_lines_pf : forall content ls, readlines content = ls <-> text_lines content ls.
Proof.
  intros s ls. split; [|apply text_ok]. intros <-. destruct (text_exists s) as (ls & T). rewrite (text_ok s ls T). exact T.
Qed.
(*@ Example C144_lines_ex : text_lines (lit "A" ++ [13; 10; 13] ++ lit "B" ++ [10; 13]) [lit "A" ++ [10]; [10]; lit "B" ++ [10]; [10]].
Proof. apply C144_lines. vm_compute. reflexivity. Qed. @*)

(** *** files with the same lines *)
Definition alike (fs fs' : fsys) : Prop := forall f, option_map readlines (fs f) = option_map readlines (fs' f).
Lemma same_alike fs fs' : same_lines fs fs' <-> alike fs fs'.
Proof.
  split; intros H f; specialize (H f).
  - destruct H as [[-> ->]|(c & c' & ls & -> & -> & A & B)]; [reflexivity|]. cbn. rewrite (text_ok _ _ A), (text_ok _ _ B). reflexivity.
  - destruct (fs f) as [c|], (fs' f) as [c'|]; try discriminate; [right|left; auto]. cbn in H. injection H as H.
    exists c, c', (readlines c). split; [reflexivity|]. split; [reflexivity|]. split; apply C144_lines_pf; congruence.
Qed.
Lemma src_alike rec rec' k width fields fs fs' f : (forall g, rec' g = rec g) -> alike fs fs' ->
  forall lines i, src_lines rec' k width fields fs' f i lines = src_lines rec k width fields fs f i lines.
Proof.
  intros A B. induction lines as [|l r IH]; intros i; [reflexivity|]. cbn [src_lines]. rewrite IH.
  destruct (startswith l (lit "#")); [reflexivity|]. destruct (startswith l (lit "$")); [|reflexivity].
  destruct (py_index _ 0) as [inc|e]; [|reflexivity]. cbn [bind]. rewrite A. specialize (B inc).
  destruct (fs inc), (fs' inc); try discriminate; reflexivity.
Qed.
Lemma read_alike k width fields fs fs' : alike fs fs' ->
  forall fuel f, read_source fuel k width fields fs' f = read_source fuel k width fields fs f.
Proof.
  intros A. induction fuel as [|fuel IH]; intros f; [reflexivity|]. rewrite !read_source_S. pose proof (A f) as B.
  destruct (fs f) as [content|], (fs' f) as [content'|]; try discriminate; [|reflexivity]. cbn in B. injection B as B. rewrite <- B.
  apply src_alike; assumption.
Qed.
Lemma deck_alike fs fs' fuel lines file width fields k : alike fs fs' ->
  argus_deck_new fuel fs' lines file width fields k = argus_deck_new fuel fs lines file width fields k.
Proof.
  intros A. unfold argus_deck_new, deck_new. destruct file as [[|x r]|]; [reflexivity| |reflexivity].
  rewrite (read_alike k width fields fs fs' A fuel). reflexivity.
Qed.
Lemma src_run_alike rec rec' k width fields fs fs' v f : (forall g, rec' g = rec g) -> alike fs fs' ->
  forall lines i, src_run rec' k width fields fs' v f i lines = src_run rec k width fields fs v f i lines.
Proof.
  intros A B. induction lines as [|l r IH]; intros i; [reflexivity|]. cbn [src_run]. rewrite IH.
  destruct (startswith l (lit "#")); [reflexivity|]. destruct (startswith l (lit "$")); [|reflexivity].
  destruct (py_index _ 0) as [inc|e]; [|reflexivity]. cbn [io_bind]. rewrite A. specialize (B inc).
  destruct (fs inc), (fs' inc); try discriminate; reflexivity.
Qed.
Lemma run_alike k width fields fs fs' v : alike fs fs' -> forall fuel f, read_run fuel k width fields fs' v f = read_run fuel k width fields fs v f.
Proof.
  intros A. induction fuel as [|fuel IH]; intros f; [reflexivity|]. rewrite !read_run_S. pose proof (A f) as B.
  destruct (fs f) as [content|], (fs' f) as [content'|]; try discriminate; [|reflexivity]. cbn in B. injection B as B. rewrite <- B.
  rewrite (src_run_alike _ _ k width fields fs fs' v f IH A). reflexivity.
Qed.
Lemma load_alike fs fs' v fuel f : alike fs fs' -> load_run fuel fs' v f = load_run fuel fs v f.
Proof.
  intros A. unfold load_run, deck_run. rewrite (deck_alike fs fs' _ _ _ _ _ _ A). destruct f as [|x r]; [reflexivity|].
  rewrite (run_alike _ _ _ fs fs' v A). reflexivity.
Qed.
Lemma fold_ext {S A} (f g : S -> A -> io S) : (forall s x, f s x = g s x) -> forall l s, io_fold f l s = io_fold g l s.
Proof.
  intros H. induction l as [|x l IH]; intros s; [reflexivity|]. cbn [io_fold]. rewrite H. unfold io_bind.
  destruct (g s x) as [ls [s'|e]]; [|reflexivity]. rewrite IH. reflexivity.
Qed.
Lemma tables_alike upper rep card_rep fuel fs fs' v counts args : alike fs fs' ->
  build_files_run upper rep card_rep fuel fs' v counts args = build_files_run upper rep card_rep fuel fs v counts args.
Proof.
  intros A. unfold build_files_run. apply fold_ext. intros s f. unfold build_verbose, dump_table_run. cbv zeta.
  rewrite (deck_alike fs fs' _ _ _ _ _ _ A), (load_alike fs fs' v fuel f A). reflexivity.
Qed.
Lemma write_alike fs fs' f c : alike fs fs' -> alike (fs_write fs f c) (fs_write fs' f c).
Proof. intros A g. unfold fs_write. destruct (eqb g f); [reflexivity|apply A]. Qed.
Lemma listing_alike fuel v args : forall fs fs', alike fs fs' ->
  fst (listing_files fuel fs' v args) = fst (listing_files fuel fs v args) /\ alike (snd (listing_files fuel fs v args)) (snd (listing_files fuel fs' v args)).
Proof.
  induction args as [|f args IH]; intros fs fs' A; [split; [reflexivity|exact A]|]. cbn [listing_files]. unfold listing_one.
  rewrite (load_alike fs fs' v fuel f A). destruct (load_run fuel fs v f) as [ls [cs|e]]; [|split; [reflexivity|exact A]]. cbn [io_bind].
  destruct (mapr listing_line cs) as [ys|e]; [|split; [reflexivity|exact A]].
  destruct (IH _ _ (write_alike fs fs' (listfile f) (concat (map (fun l => l ++ [10]) ys)) A)) as [E B].
  destruct (listing_files fuel (fs_write fs _ _) v args) as [[l1 x1] f1], (listing_files fuel (fs_write fs' _ _) v args) as [[l2 x2] f2].
  cbn [fst snd] in *. split; [congruence|exact B].
Qed.
Lemma finish_alike {A} (r r' : io A) fs fs' : r' = r -> alike fs fs' ->
  fst (finish r fs) = fst (finish r' fs') /\ alike (snd (finish r fs)) (snd (finish r' fs')).
Proof. intros -> H. split; [reflexivity|exact H]. Qed.
Lemma pages_alike fuel c c' : readlines c = readlines c' -> genpages fuel c = genpages fuel c' /\ genpages_reason fuel c = genpages_reason fuel c'.
Proof. intros E. unfold genpages, genpages_reason. rewrite E. split; reflexivity. Qed.
Lemma body_alike v fs fs' t prog has args : alike fs fs' -> fst (body_of v fs t prog has args) = fst (body_of v fs' t prog has args) /\
  (t <> Genpages -> alike (snd (body_of v fs t prog has args)) (snd (body_of v fs' t prog has args))).
Proof.
  intros A. destruct t; cbn [body_of].
  - split; [|intros _]; apply finish_alike; try exact A; unfold check_instructions_run; destruct args; try reflexivity;
    (erewrite fold_ext; [reflexivity|intros ? f; rewrite (load_alike fs fs' _ _ f A); reflexivity]).
  - split; [|intros _]; apply finish_alike; try exact A; unfold check_symbols_verbose; destruct args; try reflexivity; rewrite (tables_alike _ _ _ _ fs fs' _ _ _ A); reflexivity.
  - split; [|intros _]; apply finish_alike; try exact A; unfold find_symbols_verbose; destruct (_ || _); try reflexivity;
    destruct args as [|s [|f r]]; try reflexivity; rewrite (tables_alike _ _ _ _ fs fs' _ _ _ A); reflexivity.
  - split; [|intros _]; apply finish_alike; try exact A; unfold list_instructions_run; destruct args; try reflexivity; cbv zeta; destruct (negb _); try reflexivity;
    (erewrite fold_ext; [reflexivity|intros ? f; rewrite (load_alike fs fs' _ _ f A); reflexivity]).
  - split; [|intros _]; apply finish_alike; try exact A; unfold list_symbols_run; destruct args; try reflexivity; rewrite (tables_alike _ _ _ _ fs fs' _ _ _ A); reflexivity.
  - unfold listing_run. destruct args as [|f args]; [split; [reflexivity|intros _; exact A]|]. cbv zeta.
    destruct (listing_alike (e_fuel v) (has "verbose"%string) (f :: args) fs fs' A) as [E B].
    split; [|intros _]; apply finish_alike; assumption.
  - split; [|intros _]; apply finish_alike; try exact A; unfold parse_run; destruct args; try reflexivity; rewrite (tables_alike _ _ _ _ fs fs' _ _ _ A);
    (unfold io_bind at 1 3; destruct (build_files_run _ _ _ _ _ _ _ _) as [ls [x|e]]; [|reflexivity];
     erewrite fold_ext; [reflexivity|intros ? f; rewrite (load_alike fs fs' _ _ f A); reflexivity]).
  - destruct (genlines args) as [out|e]; [|destruct e]; split; try reflexivity; intros _; exact A.
  - split; [|intros X; contradiction]. destruct args as [|f rest]; [reflexivity|]. specialize (A f). destruct (fs f) as [c|], (fs' f) as [c'|]; try discriminate; [|reflexivity].
    cbn in A. injection A as A. destruct (pages_alike (e_fuel v) c c' A) as [E R]. rewrite <- E, <- R.
    destruct (genpages (e_fuel v) c) as [more|e]; [reflexivity|]. destruct e; reflexivity.
Qed.
Lemma C144_tools_pf : forall v fs fs' t prog words, same_lines fs fs' ->
  fst (command v fs t prog words) = fst (command v fs' t prog words) /\
  (t <> Genpages -> same_lines (snd (command v fs t prog words)) (snd (command v fs' t prog words))).
Proof.
  intros v fs fs' t prog words S. apply same_alike in S. rewrite same_alike. unfold command.
  destruct (words_said (opts_of t) words [] []) as [m| |[on args]]; try (split; [reflexivity|intros _; exact S]).
  destruct (wrong_args _ _ _); [split; [reflexivity|intros _; exact S]|]. apply body_alike. exact S.
Qed.
(*@ Example C144_tools_ex : let v := mkenv (fun _ _ => []) (fun _ _ _ => []) (fun s => s) (fun s => s) (fun _ => []) 3 (fun _ => [OutL (lit "help")]) in
  let fs e := fun f => if eqb f (lit "f") then Some (lit "$g x" ++ e ++ lit "                   FOO" ++ e) else if eqb f (lit "g") then Some (lit "#" ++ e ++ lit "                   BAR") else None in
  same_lines (fs [10]) (fs [13; 10]) /\ same_lines (fs [10]) (fs [13]) /\
  fst (command v (fs [13; 10]) Parse (lit "x.py") [lit "-d"; lit "f"]) = fst (command v (fs [10]) Parse (lit "x.py") [lit "-d"; lit "f"]) /\
  In (OutL (lit "g 2                    BAR")) (fst (fst (command v (fs [13]) Parse (lit "x.py") [lit "-d"; lit "f"]))).
Proof.
  cbv zeta. assert (R : forall e, In e [[10]; [13; 10]; [13]] -> same_lines (fun f => if eqb f (lit "f") then Some (lit "$g x" ++ [10] ++ lit "                   FOO" ++ [10]) else if eqb f (lit "g") then Some (lit "#" ++ [10] ++ lit "                   BAR") else None)
    (fun f => if eqb f (lit "f") then Some (lit "$g x" ++ e ++ lit "                   FOO" ++ e) else if eqb f (lit "g") then Some (lit "#" ++ e ++ lit "                   BAR") else None)).
  { intros e I f. destruct (eqb f (lit "f")); [|destruct (eqb f (lit "g")); [|left; auto]]; right.
    - eexists. eexists. exists [lit "$g x" ++ [10]; lit "                   FOO" ++ [10]]. split; [reflexivity|]. split; [reflexivity|].
      destruct I as [<-|[<-|[<-|[]]]]; split; apply C144_lines; vm_compute; reflexivity.
    - eexists. eexists. exists [lit "#" ++ [10]; lit "                   BAR"]. split; [reflexivity|]. split; [reflexivity|].
      destruct I as [<-|[<-|[<-|[]]]]; split; apply C144_lines; vm_compute; reflexivity. }
  split; [apply R; right; left; reflexivity|]. split; [apply R; right; right; left; reflexivity|].
  split; [symmetry; apply C144_tools; apply R; right; left; reflexivity|]. vm_compute. intuition.
Qed. @*)
Lemma C144_pages_pf : forall v fs fs' prog words, same_lines fs fs' ->
  forall f, snd (command v fs Genpages prog words) f = fs f /\ snd (command v fs' Genpages prog words) f = fs' f \/
    exists c c' more, fs f = Some c /\ fs' f = Some c' /\ snd (command v fs Genpages prog words) f = Some (c ++ more) /\
      snd (command v fs' Genpages prog words) f = Some (c' ++ more).
Proof.
  intros v fs fs' prog words S g. apply same_alike in S. unfold command.
  destruct (words_said (opts_of Genpages) words [] []) as [m| |[on args]]; [left; auto|left; auto|].
  destruct (wrong_args _ _ _); [left; auto|]. cbn [body_of]. destruct args as [|f rest]; [left; auto|]. pose proof (S f) as A.
  destruct (fs f) as [c|] eqn:E1, (fs' f) as [c'|] eqn:E2; try discriminate; [|left; auto].
  cbn in A. injection A as A. destruct (pages_alike (e_fuel v) c c' A) as [E R]. rewrite <- E, <- R.
  destruct (genpages (e_fuel v) c) as [more|e]; [|destruct e; left; auto]. cbn [snd]. unfold fs_write.
  destruct (eqb g f) eqn:EG; [|left; auto]. apply eqb_ok in EG. subst g. right. exists c, c', more. auto.
Qed.
(*@ Example C144_pages_ex : let v := mkenv (fun _ _ => []) (fun _ _ _ => []) (fun s => s) (fun s => s) (fun _ => []) 3 (fun _ => [OutL (lit "help")]) in
  let fs e := fun f => if eqb f (lit "f") then Some (lit "# Pages: 1-2" ++ e ++ lit "L       MAIN" ++ e) else None in
  match snd (command v (fs [10]) Genpages (lit "x.py") [lit "f"]) (lit "f"), snd (command v (fs [13; 10]) Genpages (lit "x.py") [lit "f"]) (lit "f") with
  | Some a, Some b => exists more, more <> [] /\ a = lit "# Pages: 1-2" ++ [10] ++ lit "L       MAIN" ++ [10] ++ more /\
      b = lit "# Pages: 1-2" ++ [13; 10] ++ lit "L       MAIN" ++ [13; 10] ++ more
  | _, _ => False
  end.
Proof.
  cbv zeta. match goal with |- match ?x with _ => _ end => remember x as a eqn:A end.
  vm_compute in A. subst a. cbv iota. eexists. split; [|split]; [|vm_compute; reflexivity|vm_compute; reflexivity]. intros X. vm_compute in X. discriminate X.
Qed. @*)
