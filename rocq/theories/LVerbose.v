From Coq Require Import ZArith List Bool Lia.
From Verif Require Import Py LPy MInstruction SInstruction LInstruction MInstructions LInstructions MCards SCards LCards LDeck MSymbols SSymbols LSymBuild LSymQuery MTools STools LTools LToolSym LListTool MDiag SDiag LDiag MDump SDump LDump MVerbose SVerbose.
#[local] Arguments Z.add : simpl never.
#[local] Arguments Z.sub : simpl never.
#[local] Arguments Z.mul : simpl never.
#[local] Arguments Z.pow : simpl never.

(** *** the io steps *)
Lemma bind_nil {A B} (r : res A) (k : A -> io B) :
  io_bind ([], r) k = match r with Ok a => k a | Err e => ([], Err e) end.
Proof. unfold io_bind. destruct r as [a|e]; [|reflexivity]. destruct (k a). reflexivity. Qed.
Lemma bind_ok {A B} ls (a : A) (k : A -> io B) : io_bind (ls, Ok a) k = (ls ++ fst (k a), snd (k a)).
Proof. cbn [io_bind]. destruct (k a). reflexivity. Qed.
Lemma bind_err {A B} ls e (k : A -> io B) : io_bind (ls, Err e) k = (ls, Err e).
Proof. reflexivity. Qed.
Lemma snd_bind {A B} (x : io A) (k : A -> io B) :
  snd (io_bind x k) = (do a <- snd x; snd (k a)).
Proof. destruct x as [ls [a|e]]; [|reflexivity]. cbn [io_bind snd bind]. destruct (k a). reflexivity. Qed.

(** *** thinned *)
Lemma th_refl l : thinned l l.
Proof. induction l; constructor; assumption. Qed.
Lemma th_app a b c d : thinned a b -> thinned c d -> thinned (a ++ c) (b ++ d).
Proof.
  intros H K. induction H as [|x v q H IH|p v q P H IH]; [exact K| |].
  - cbn [app]. constructor. exact IH.
  - rewrite <- app_assoc. constructor; assumption.
Qed.
Lemma th_one p : progress p -> thinned p [].
Proof. intros P. rewrite <- (app_nil_r p). constructor; [exact P|constructor]. Qed.
Lemma oa_refl {A} (x : io A) : only_adds x x.
Proof. split; [apply th_refl|reflexivity]. Qed.
Lemma oa_bind {A B} (x y : io A) (k k' : A -> io B) : only_adds x y -> (forall a, only_adds (k a) (k' a)) ->
  only_adds (io_bind x k) (io_bind y k').
Proof.
  intros [T E] H. destruct x as [lx [a|e]], y as [ly [b|e']]; cbn [snd fst] in T, E; try discriminate.
  - assert (a = b) by congruence. subst b. rewrite !bind_ok. destruct (H a) as [T' E']. split; [apply th_app; assumption|exact E'].
  - split; [exact T|]. cbn [io_bind snd]. congruence.
Qed.
Lemma oa_fold {S A} (f g : S -> A -> io S) (H : forall s x, only_adds (f s x) (g s x)) l : forall s,
  only_adds (io_fold f l s) (io_fold g l s).
Proof. induction l as [|x l IH]; intros s; [apply oa_refl|]. cbn [io_fold]. apply oa_bind; [apply H|exact IH]. Qed.
Lemma oa_tell {A} (s : str) (r : res A) : progress [OutL s] -> only_adds (tell true s, r) (tell false s, r).
Proof. intros P. split; [|reflexivity]. exact (th_one _ P). Qed.

(** *** reading *)
Fixpoint src_run (rec : str -> io (list card)) (k : cardclass) (width : Z) (fields : list Z) (fs : fsys) (v : bool)
                 (f : str) (i : Z) (lines : list str) : io (list card) :=
  match lines with
  | [] => ([], Ok [])
  | line :: rest =>
      if startswith line (lit "#") then
        io_bind (tell v (skipping f i), Ok tt) (fun _ => src_run rec k width fields fs v f (i + 1) rest)
      else if startswith line (lit "$") then
        io_bind ([], py_index (split_ws (py_slice line (Some 1) None)) 0) (fun incname =>
        match fs incname with
        | None => exit_with (lit "File """ ++ incname ++ lit """ does not exist")
        | Some _ =>
            io_bind (rec incname) (fun ic =>
            io_bind (src_run rec k width fields fs v f (i + 1) rest) (fun t => ([], Ok (ic ++ t))))
        end)
      else
        io_bind ([], card_new k line width fields (Some f) i) (fun c =>
        io_bind (src_run rec k width fields fs v f (i + 1) rest) (fun t => ([], Ok (c :: t))))
  end.
Lemma read_run_S fuel k width fields fs v f :
  read_run (S fuel) k width fields fs v f =
  match fs f with
  | None => exit_with (lit "ERROR: File """ ++ f ++ lit """ does not exist!")
  | Some content =>
      io_bind (tell v (reading f), Ok tt)
        (fun _ => src_run (read_run fuel k width fields fs v) k width fields fs v f 1 (readlines content))
  end.
Proof.
  cbn [read_run]. destruct (fs f) as [content|]; [|reflexivity]. rewrite !bind_ok.
  match goal with |- (_ ++ fst (?L 1 ?r), _) = (_ ++ fst (src_run ?a ?b ?c ?d ?e ?w ?g 1 ?r), _) =>
    enough (G : forall l i, L i l = src_run a b c d e w g i l) by (rewrite G; reflexivity) end.
  induction l as [|l r IH]; intros i; [reflexivity|].
  cbn [src_run]. rewrite <- (IH (i + 1)). reflexivity.
Qed.
Lemma src_run_snd rec rec' k width fields fs v f (H : forall x, snd (rec x) = rec' x) lines : forall i,
  snd (src_run rec k width fields fs v f i lines) = src_lines rec' k width fields fs f i lines.
Proof.
  induction lines as [|l r IH]; intros i; [reflexivity|]. cbn [src_run src_lines].
  destruct (startswith l (lit "#")); [rewrite snd_bind; apply IH|].
  destruct (startswith l (lit "$")).
  - rewrite snd_bind. cbn [snd]. destruct (py_index _ 0) as [inc|e]; cbn [bind]; [|reflexivity].
    destruct (fs inc); [|reflexivity]. rewrite snd_bind, H. destruct (rec' inc) as [ic|e]; cbn [bind]; [|reflexivity].
    rewrite snd_bind, IH. reflexivity.
  - rewrite snd_bind. cbn [snd]. destruct (card_new k l width fields (Some f) i) as [c|e]; cbn [bind]; [|reflexivity].
    rewrite snd_bind, IH. reflexivity.
Qed.
Lemma read_run_snd fuel k width fields fs v : forall f,
  snd (read_run fuel k width fields fs v f) = read_source fuel k width fields fs f.
Proof.
  induction fuel as [|fuel IH]; intros f; [reflexivity|]. rewrite read_run_S, read_source_S.
  destruct (fs f) as [content|]; [|reflexivity]. rewrite snd_bind. apply src_run_snd. exact IH.
Qed.
Lemma load_run_snd fuel fs v f : snd (load_run fuel fs v f) = load fuel fs f.
Proof. unfold load_run. rewrite snd_bind. reflexivity. Qed.
Lemma load_run_fst fuel fs v f : f <> [] ->
  fst (load_run fuel fs v f) = fst (read_run fuel ArgusCls DEFAULT_WIDTH DEFAULT_FIELDS fs v f).
Proof.
  intros N. unfold load_run. destruct f as [|x r]; [contradiction|]. unfold deck_run.
  unfold io_bind. destruct (argus_deck_new _ _ _ _ _ _ _) as [d|e]; cbn [fst]; [apply app_nil_r|reflexivity].
Qed.

Lemma src_adds rec rec' k width fields fs f (H : forall x, only_adds (rec x) (rec' x)) lines : forall i,
  only_adds (src_run rec k width fields fs true f i lines) (src_run rec' k width fields fs false f i lines).
Proof.
  induction lines as [|l r IH]; intros i; [apply oa_refl|]. cbn [src_run].
  destruct (startswith l (lit "#")); [apply oa_bind; [apply oa_tell, pg_comment|intros _; apply IH]|].
  destruct (startswith l (lit "$")).
  - apply oa_bind; [apply oa_refl|]. intros inc. destruct (fs inc); [|apply oa_refl].
    apply oa_bind; [apply H|]. intros ic. apply oa_bind; [apply IH|intros t; apply oa_refl].
  - apply oa_bind; [apply oa_refl|]. intros c. apply oa_bind; [apply IH|intros t; apply oa_refl].
Qed.
Lemma read_adds fuel k width fields fs : forall f,
  only_adds (read_run fuel k width fields fs true f) (read_run fuel k width fields fs false f).
Proof.
  induction fuel as [|fuel IH]; intros f; [apply oa_refl|]. rewrite !read_run_S.
  destruct (fs f) as [content|]; [|apply oa_refl]. apply oa_bind; [apply oa_tell, pg_reading|]. intros _. apply src_adds. exact IH.
Qed.
Lemma lines_adds k width fields file lines : forall i,
  only_adds (lines_run k width fields true file i lines) (lines_run k width fields false file i lines).
Proof.
  induction lines as [|l r IH]; intros i; [apply oa_refl|]. cbn [lines_run].
  destruct (startswith l (lit "#")); [apply oa_bind; [apply oa_tell, pg_comment|intros _; apply IH]|].
  apply oa_bind; [apply oa_refl|]. intros c. apply oa_bind; [apply IH|intros t; apply oa_refl].
Qed.

(** *** C117 *)
Lemma C117_deck_pf : forall fuel fs lines file width fields k,
  only_adds (deck_run fuel fs true lines file width fields k) (deck_run fuel fs false lines file width fields k).
Proof.
  intros fuel fs lines file width fields k. split; [|reflexivity]. unfold deck_run. cbn [fst].
  destruct file as [[|x r]|].
  - destruct lines as [ls|]; [apply lines_adds|constructor].
  - apply read_adds.
  - destruct lines as [ls|]; [apply lines_adds|apply th_refl].
Qed.
(*@ Example C117_deck_ex :
  let fs := fun f => if eqb f (lit "a") then Some (lit "# x" ++ [10] ++ lit "$b" ++ [10] ++ lit "R 1") else
                     if eqb f (lit "b") then Some (lit "# y" ++ [10] ++ lit "#z") else None in
  fst (deck_run 2 fs true None (Some (lit "a")) 120 DEFAULT_FIELDS ArgusCls) =
    [OutL (lit "Reading a..."); OutL (lit "Skipping meta-comment, file a, line 1"); OutL (lit "Reading b...");
     OutL (lit "Skipping meta-comment, file b, line 1"); OutL (lit "Skipping meta-comment, file b, line 2")] /\
  fst (deck_run 2 fs false None (Some (lit "a")) 120 DEFAULT_FIELDS ArgusCls) = [] /\
  fst (deck_run 2 fs true (Some [lit "R 1"; lit "# c"]) None 120 DEFAULT_FIELDS ArgusCls) =
    [OutL (lit "Skipping meta-comment, file None, line 2")].
Proof. vm_compute. auto. Qed. @*)
Lemma load_adds fuel fs f : only_adds (load_run fuel fs true f) (load_run fuel fs false f).
Proof. apply oa_bind; [apply C117_deck_pf|intros d; apply oa_refl]. Qed.
Lemma star_adds show c : thinned (star_lines true show c) (star_lines false show c).
Proof.
  unfold star_lines. destruct (card_get c "column8") as [x|e]; [|constructor].
  destruct (is_str x "*"); [|constructor]. exact (th_one _ (pg_star (show c))).
Qed.
Lemma ci_card_adds o s c : only_adds (ci_card_run true o s c) (ci_card_run false o s c).
Proof.
  unfold ci_card_run. destruct (ci_card o (without_out s) c) as [s'|e]; [|apply oa_refl]. split; [|reflexivity]. cbn [fst].
  apply th_app; [apply th_refl|]. destruct (card_get c "instruction") as [i|e]; [|constructor].
  destruct (truthy i); [apply star_adds|constructor].
Qed.
Lemma C117_check_instructions_pf : forall pct fuel fs o args,
  only_adds (check_instructions_run pct fuel fs true o args) (check_instructions_run pct fuel fs false o args).
Proof.
  intros pct fuel fs o args. unfold check_instructions_run. destruct args as [|f args]; [apply oa_refl|].
  apply oa_bind; [|intros s; apply oa_refl]. apply oa_fold. intros s g. apply oa_bind; [apply load_adds|].
  intros cs. apply oa_fold. intros s' c. apply ci_card_adds.
Qed.
(*@ Example C117_check_instructions_ex :
  let fs := fun f => if eqb f (lit "a") then Some (lit "# x" ++ [10] ++ lit "       *           TX           B" ++ [10] ++
                                                   lit "                   FOO" ++ [10]) else None in
  let o := mkciopts false false false false false false in
  let quiet := [OutL (lit "*** ERROR: Invalid instruction ""FOO"":"); OutL (lit "File a, line 3:                    FOO");
                OutL (lit "1 error encountered.")] in
  check_instructions_run (fun _ _ => []) 2 fs false o [lit "a"] = (quiet, Ok tt) /\
  check_instructions_run (fun _ _ => []) 2 fs true o [lit "a"] =
    ([OutL (lit "Reading a..."); OutL (lit "Skipping meta-comment, file a, line 1");
      OutL (lit "Skipping card with * in column 8:"); OutL (lit "a 2        *           TX           B")] ++ quiet, Ok tt).
Proof. vm_compute. auto. Qed. @*)
Lemma C117_list_instructions_pf : forall fuel fs details args,
  only_adds (list_instructions_run fuel fs true details args) (list_instructions_run fuel fs false details args).
Proof.
  intros fuel fs details args. unfold list_instructions_run. destruct args as [|opcode files]; [apply oa_refl|]. cbv zeta.
  match goal with |- only_adds (if ?b then _ else _) _ => destruct b; [apply oa_refl|] end.
  apply oa_fold. intros _ f. apply oa_bind; [apply load_adds|]. intros cs. apply oa_fold. intros _ c.
  unfold li_card_run. destruct (li_card opcode details [] c) as [out|e]; [|apply oa_refl]. split; [|reflexivity]. cbn [fst].
  apply th_app; [apply th_refl|]. destruct (card_get c "operation") as [op|e]; [|constructor].
  destruct (truthy op); [apply star_adds|constructor].
Qed.
(*@ Example C117_list_instructions_ex :
  let fs := fun f => if eqb f (lit "a") then Some (lit "       *           TX           B" ++ [10] ++
                                                   lit "                   TX           B") else None in
  list_instructions_run 2 fs true false [lit "TX"; lit "a"] =
    ([OutL (lit "Reading a..."); OutL (lit "Skipping card with * in column 8:");
      OutL (pad_right 32 48 (lit "a") ++ lit "      1        *           TX           B");
      OutL (lit "                   TX           B")], Ok tt) /\
  list_instructions_run 2 fs false false [lit "TX"; lit "a"] = ([OutL (lit "                   TX           B")], Ok tt).
Proof. vm_compute. auto. Qed. @*)
Lemma build_adds upper rep card_rep fuel fs counts args :
  only_adds (build_files_run upper rep card_rep fuel fs true counts args) (build_files_run upper rep card_rep fuel fs false counts args).
Proof.
  unfold build_files_run. apply oa_fold. intros s f. apply oa_bind; [|intros r; apply oa_refl].
  unfold build_verbose. destruct (dump_table_run upper rep card_rep fuel fs f (fst (fst s))) as [[ms tab'] r]. split; [|reflexivity].
  cbn [fst]. apply th_app; [apply load_adds|apply th_refl].
Qed.
Lemma C117_parse_pf : forall upper rep card_rep fuel fs debug args,
  only_adds (parse_run upper rep card_rep fuel fs true debug args) (parse_run upper rep card_rep fuel fs false debug args).
Proof.
  intros upper rep card_rep fuel fs debug args. unfold parse_run. destruct args as [|f args]; [apply oa_refl|].
  apply oa_bind; [apply build_adds|]. intros t. apply oa_bind; [|intros s; apply oa_refl].
  apply oa_fold. intros s g. apply oa_bind; [apply load_adds|]. intros cs. apply oa_fold. intros s' c.
  unfold parse_card_run. destruct (parse_card s' c) as [s2|e]; [|apply oa_refl]. split; [|reflexivity]. cbn [fst].
  destruct (card_get c "instruction") as [i|e]; [|constructor]. destruct (truthy i); [|constructor].
  apply th_app; [apply th_refl|]. apply th_app; [apply star_adds|apply th_refl].
Qed.
(*@ Example C117_parse_ex :
  let fs := fun f => if eqb f (lit "a") then Some (lit "# x" ++ [10] ++ lit "                   TX           B") else None in
  parse_run (fun s => s) quoted a_card 2 fs true false [lit "a"] =
    ([OutL (lit "Reading a..."); OutL (lit "Skipping meta-comment, file a, line 1");
      ErrL (lit "a: 0 errors encountered building symbol table.");
      OutL (lit "Reading a..."); OutL (lit "Skipping meta-comment, file a, line 1");
      OutL (10 :: lit "Source lines: 1"); OutL (lit "0 errors encountered.")], Ok tt) /\
  parse_run (fun s => s) quoted a_card 2 fs false false [lit "a"] =
    ([ErrL (lit "a: 0 errors encountered building symbol table.");
      OutL (10 :: lit "Source lines: 1"); OutL (lit "0 errors encountered.")], Ok tt).
Proof. vm_compute. auto. Qed. @*)
Lemma C117_symbols_pf : forall extract upper rep card_rep fuel fs begin end_ fuzzy exact complexOnly args,
  only_adds (check_symbols_verbose extract upper rep card_rep fuel fs true complexOnly args)
            (check_symbols_verbose extract upper rep card_rep fuel fs false complexOnly args) /\
  only_adds (find_symbols_verbose extract upper rep card_rep fuel fs true begin end_ fuzzy exact args)
            (find_symbols_verbose extract upper rep card_rep fuel fs false begin end_ fuzzy exact args) /\
  only_adds (list_symbols_run upper rep card_rep fuel fs true args) (list_symbols_run upper rep card_rep fuel fs false args).
Proof.
  intros extract upper rep card_rep fuel fs begin end_ fuzzy exact complexOnly args. split; [|split].
  - unfold check_symbols_verbose. destruct args as [|f args]; [apply oa_refl|]. apply oa_bind; [apply build_adds|intros t; apply oa_refl].
  - unfold find_symbols_verbose. match goal with |- only_adds (if ?b then _ else _) _ => destruct b; [apply oa_refl|] end.
    destruct args as [|s [|f args]]; [apply oa_refl|apply oa_refl|]. apply oa_bind; [apply build_adds|intros t; apply oa_refl].
  - unfold list_symbols_run. destruct args as [|f args]; [apply oa_refl|]. apply oa_bind; [apply build_adds|intros t; apply oa_refl].
Qed.
(*@ Example C117_symbols_ex :
  let fs := fun f => if eqb f (lit "a") then Some (lit "        A          DEC          1") else None in
  fst (list_symbols_run (fun s => s) quoted a_card 2 fs true [lit "a"]) = OutL (lit "Reading a...") :: fst (list_symbols_run (fun s => s) quoted a_card 2 fs false [lit "a"]) /\
  zlen (fst (list_symbols_run (fun s => s) quoted a_card 2 fs false [lit "a"])) = 4 /\
  fst (check_symbols_verbose (fun _ _ _ => []) (fun s => s) quoted a_card 2 fs true true [lit "a"]) =
    [OutL (lit "Reading a..."); ErrL (lit "a: 0 errors encountered building symbol table.")] /\
  fst (find_symbols_verbose (fun _ _ _ => []) (fun s => s) quoted a_card 2 fs true false false false false [lit "B"; lit "a"]) =
    [OutL (lit "Reading a..."); ErrL (lit "a: 0 errors encountered building symbol table."); ErrL (lit "ERROR: Undefined symbol ""B""!")].
Proof. vm_compute. auto. Qed. @*)
Lemma listing_adds fuel args : forall fs,
  only_adds (fst (listing_files fuel fs true args)) (fst (listing_files fuel fs false args)) /\
  snd (listing_files fuel fs true args) = snd (listing_files fuel fs false args).
Proof.
  induction args as [|f args IH]; intros fs; [split; [apply oa_refl|reflexivity]|]. cbn [listing_files].
  assert (O : only_adds (listing_one fuel fs true f) (listing_one fuel fs false f)).
  { unfold listing_one. apply oa_bind; [apply load_adds|]. intros cs. destruct (mapr listing_line cs); [|apply oa_refl].
    apply oa_tell, pg_wrote. }
  destruct O as [T E]. destruct (listing_one fuel fs true f) as [l1 [fs1|e1]], (listing_one fuel fs false f) as [l2 [fs2|e2]];
    cbn [fst snd] in T, E; try discriminate.
  - assert (fs1 = fs2) by congruence. subst fs2. destruct (IH fs1) as [[T' E'] S'].
    destruct (listing_files fuel fs1 true args) as [[a x] g], (listing_files fuel fs1 false args) as [[a' x'] g'].
    cbn [fst snd] in *. split; [|exact S']. split; [apply th_app; assumption|exact E'].
  - cbn [fst snd]. split; [|reflexivity]. split; [exact T|cbn [snd]; congruence].
Qed.
Lemma C117_listing_pf : forall fuel fs args,
  only_adds (fst (listing_run fuel fs true args)) (fst (listing_run fuel fs false args)) /\
  snd (listing_run fuel fs true args) = snd (listing_run fuel fs false args).
Proof.
  intros fuel fs args. unfold listing_run. destruct args as [|f args]; [split; [apply oa_refl|reflexivity]|]. apply listing_adds.
Qed.
(*@ Example C117_listing_ex :
  let fs := fun f => if eqb f (lit "a.arg") then Some (lit "R 1") else None in
  fst (listing_run 2 fs true [lit "a.arg"]) = ([OutL (lit "Reading a.arg..."); OutL (lit "Wrote listing file to a.lst")], Ok tt) /\
  fst (listing_run 2 fs false [lit "a.arg"]) = ([], Ok tt) /\
  snd (listing_run 2 fs true [lit "a.arg"]) (lit "a.lst") <> None.
Proof. vm_compute. split; [reflexivity|]. split; [reflexivity|discriminate]. Qed. @*)

(** *** C118, C119 *)
Scheme read_log_mut := Induction for read_log Sort Prop
with lines_log_mut := Induction for lines_log Sort Prop.
Combined Scheme read_log_ind2 from read_log_mut, lines_log_mut.
Definition vis (v : bool) (ls : list line) : list line := if v then ls else [].
Lemma vis_app v a b : vis v (a ++ b) = vis v a ++ vis v b.
Proof. destruct v; reflexivity. Qed.
Lemma tell_vis v s : tell v s = vis v [OutL s].
Proof. reflexivity. Qed.
Lemma bind_map {A B} (x : io A) (g : A -> B) : io_bind x (fun t => ([], Ok (g t))) = (fst x, do t <- snd x; Ok (g t)).
Proof. destruct x as [ls [a|e]]; [|reflexivity]. cbn [io_bind fst snd bind]. rewrite app_nil_r. reflexivity. Qed.

Section Log.
Variables (k : cardclass) (width : Z) (fields : list Z) (fs : fsys).
Hypothesis (U : usable_layout k width fields).
Let RD fuel v := read_run fuel k width fields fs v.
Let SR fuel v := src_run (RD fuel v) k width fields fs v.

Lemma log_runs v :
  (forall f ls, read_log fs f ls -> exists n cs, forall fuel,
     RD fuel v f = (vis v ls, Ok cs) \/ ((fuel < n)%nat /\ snd (RD fuel v f) = Err RecursionError)) /\
  (forall f i lines ls, lines_log fs f i lines ls -> exists n cs, forall fuel post,
     SR fuel v f i (lines ++ post) = (vis v ls ++ fst (SR fuel v f (i + zlen lines) post),
                                      do t <- snd (SR fuel v f (i + zlen lines) post); Ok (cs ++ t)) \/
     ((fuel < n)%nat /\ snd (SR fuel v f i (lines ++ post)) = Err RecursionError)).
Proof.
  apply read_log_ind2 with
   (P := fun f ls _ => exists n cs, forall fuel,
     RD fuel v f = (vis v ls, Ok cs) \/ ((fuel < n)%nat /\ snd (RD fuel v f) = Err RecursionError))
   (P0 := fun f i lines ls _ => exists n cs, forall fuel post,
     SR fuel v f i (lines ++ post) = (vis v ls ++ fst (SR fuel v f (i + zlen lines) post),
                                      do t <- snd (SR fuel v f (i + zlen lines) post); Ok (cs ++ t)) \/
     ((fuel < n)%nat /\ snd (SR fuel v f i (lines ++ post)) = Err RecursionError)).
  - intros f content ls E _ (n & cs & H). exists (S n), cs. intros [|fuel]; [right; split; [lia|reflexivity]|].
    unfold RD at 1 2. rewrite read_run_S, E, bind_ok. specialize (H fuel []). rewrite app_nil_r in H.
    change (src_run (read_run fuel k width fields fs v) k width fields fs v) with (SR fuel v).
    destruct H as [H|[L H]]; [left|right; split; [lia|exact H]]. rewrite H.
    change (SR fuel v f (1 + zlen (readlines content)) []) with (([], Ok []) : io (list card)). cbn [fst snd bind].
    rewrite !app_nil_r. f_equal. destruct v; reflexivity.
  - intros f i. exists O, []. intros fuel post. left. cbn [app]. change (zlen (@nil str)) with 0. rewrite Z.add_0_r.
    replace (vis v []) with (@nil line) by (destruct v; reflexivity).
    destruct (SR fuel v f i post) as [l [t|e]]; reflexivity.
  - intros f i line rest ls C _ (n & cs & H). exists n, cs. intros fuel post. rewrite zlen_cons.
    replace (i + (1 + zlen rest)) with (i + 1 + zlen rest) by lia.
    cbn [app]. unfold SR at 1 4. cbn [src_run]. rewrite (proj2 (comment_dec line) C), bind_ok.
    fold (SR fuel v). destruct (H fuel post) as [E|[L E]]; [left|right; split; [exact L|exact E]]. rewrite E. cbn [fst snd].
    f_equal. rewrite tell_vis, app_assoc, <- vis_app. reflexivity.
  - intros f i line inc rest l1 l2 INC RL (n1 & cs1 & H1) _ (n2 & cs2 & H2). exists (Nat.max n1 n2), (cs1 ++ cs2).
    intros fuel post. rewrite zlen_cons. replace (i + (1 + zlen rest)) with (i + 1 + zlen rest) by lia.
    cbn [app]. unfold SR at 1 4. cbn [src_run]. destruct (include_name _ _ INC) as (-> & -> & ->). rewrite bind_nil.
    destruct RL as [inc content l1 EF _]. rewrite EF. fold (SR fuel v).
    destruct (H1 fuel) as [E|[L E]].
    2:{ right. split; [lia|]. rewrite snd_bind, E. reflexivity. }
    rewrite E, bind_ok, bind_map. destruct (H2 fuel post) as [E2|[L E2]].
    2:{ right. split; [lia|]. cbn [snd]. rewrite E2. reflexivity. }
    left. rewrite E2. cbn [fst snd]. f_equal; [rewrite vis_app, app_assoc; reflexivity|].
    destruct (snd (SR fuel v f (i + 1 + zlen rest) post)); cbn [bind]; [rewrite app_assoc|]; reflexivity.
  - intros f i line rest ls NC ND _ (n & cs & H).
    destruct (card_new_total k line width fields (Some f) i (proj2 (comment_false line) NC) U) as (c & EC).
    exists n, (c :: cs). intros fuel post. rewrite zlen_cons. replace (i + (1 + zlen rest)) with (i + 1 + zlen rest) by lia.
    cbn [app]. unfold SR at 1 4. cbn [src_run]. rewrite (proj2 (comment_false line) NC), (proj2 (dollar_false line) ND), EC, bind_nil, bind_map.
    fold (SR fuel v). destruct (H fuel post) as [E|[L E]].
    2:{ right. split; [exact L|]. cbn [snd]. rewrite E. reflexivity. }
    left. rewrite E. cbn [fst snd]. f_equal.
    destruct (snd (SR fuel v f (i + 1 + zlen rest) post)); reflexivity.
Qed.
Lemma stops_runs v f ls m : stops_at fs f ls m -> exists n, forall fuel,
  RD fuel v f = (vis v ls ++ [ErrL m], Err SystemExit) \/ ((fuel < n)%nat /\ snd (RD fuel v f) = Err RecursionError).
Proof.
  induction 1 as [f E|f content pre line post inc ls E ER LL INC EI|f content pre line post inc ls ls' m E ER LL INC EI _ (n0 & IH)].
  - exists 1%nat. intros [|fuel]; [right; split; [lia|reflexivity]|]. left. unfold RD. rewrite read_run_S, E.
    destruct v; reflexivity.
  - destruct (proj2 (log_runs v) _ _ _ _ LL) as (n & cs & H). exists (S n). intros [|fuel]; [right; split; [lia|reflexivity]|].
    unfold RD. rewrite read_run_S, E, ER, bind_ok.
    change (src_run (read_run fuel k width fields fs v) k width fields fs v) with (SR fuel v).
    destruct (H fuel (line :: post)) as [G|[L G]]; [|right; split; [lia|exact G]]. left. rewrite G.
    assert (X : SR fuel v f (1 + zlen pre) (line :: post) = exit_with (lit "File """ ++ inc ++ lit """ does not exist")).
    { unfold SR. cbn [src_run]. destruct (include_name _ _ INC) as (-> & -> & ->). rewrite bind_nil, EI. reflexivity. }
    rewrite X. cbn [exit_with fst snd bind]. f_equal. rewrite tell_vis, app_assoc, <- vis_app. reflexivity.
  - destruct (proj2 (log_runs v) _ _ _ _ LL) as (n & cs & H). exists (S (Nat.max n n0)).
    intros [|fuel]; [right; split; [lia|reflexivity]|].
    unfold RD. rewrite read_run_S, E, ER, bind_ok.
    change (src_run (read_run fuel k width fields fs v) k width fields fs v) with (SR fuel v).
    destruct (H fuel (line :: post)) as [G|[L G]]; [|right; split; [lia|exact G]]. rewrite G.
    assert (X : SR fuel v f (1 + zlen pre) (line :: post) =
      io_bind (RD fuel v inc) (fun ic => io_bind (SR fuel v f (1 + zlen pre + 1) post) (fun t => ([], Ok (ic ++ t))))).
    { unfold SR at 1. cbn [src_run]. destruct (include_name _ _ INC) as (-> & -> & ->). rewrite bind_nil.
      destruct (fs inc); [|contradiction]. reflexivity. }
    rewrite X. destruct (IH fuel) as [Y|[L Y]].
    2:{ right. split; [lia|]. cbn [snd]. rewrite snd_bind, Y. reflexivity. }
    left. rewrite Y, bind_err. cbn [fst snd bind]. f_equal.
    change (OutL (lit "Reading " ++ f ++ lit "...") :: ls ++ ls') with ([OutL (reading f)] ++ ls ++ ls').
    rewrite tell_vis, !vis_app, <- !app_assoc. reflexivity.
Qed.

(** what was printed, from the result *)
Definition log_of (v : bool) (f : str) (x : io (list card)) : Prop :=
  match x with
  | (out, Ok _) => exists ls, read_log fs f ls /\ out = vis v ls
  | (out, Err SystemExit) => exists ls m, stops_at fs f ls m /\ out = vis v ls ++ [ErrL m]
  | (_, Err _) => True
  end.
Lemma src_log fuel v (IH : forall f, log_of v f (RD fuel v f)) f content (E : fs f = Some content) lines : forall i pre ls,
  readlines content = pre ++ lines -> lines_log fs f 1 pre ls -> i = 1 + zlen pre ->
  match SR fuel v f i lines with
  | (out, Ok _) => exists ls', lines_log fs f i lines ls' /\ out = vis v ls'
  | (out, Err SystemExit) => exists ls' m, stops_at fs f (OutL (lit "Reading " ++ f ++ lit "...") :: ls ++ ls') m /\ out = vis v ls' ++ [ErrL m]
  | (_, Err _) => True
  end.
Proof.
  assert (SN : forall f pre ls, lines_log fs f 1 pre ls -> forall line l2, lines_log fs f (1 + zlen pre) [line] l2 ->
            lines_log fs f 1 (pre ++ [line]) (ls ++ l2)).
  { intros g pre ls LL line l2 L2. revert L2. induction LL as [g i|g i l r ls C LL IHL|g i l inc r l1 l3 INC RL LL IHL|g i l r ls C D LL IHL];
      intros L2.
    - cbn [app]. change (zlen (@nil str)) with 0 in L2. rewrite Z.add_0_r in L2. exact L2.
    - cbn [app]. apply ll_comment; [exact C|]. apply IHL. rewrite zlen_cons in L2. replace (i + 1 + zlen r) with (i + (1 + zlen r)) by lia. exact L2.
    - cbn [app]. rewrite <- app_assoc. eapply ll_include; [exact INC|exact RL|]. apply IHL. rewrite zlen_cons in L2.
      replace (i + 1 + zlen r) with (i + (1 + zlen r)) by lia. exact L2.
    - cbn [app]. apply ll_card; [exact C|exact D|]. apply IHL. rewrite zlen_cons in L2. replace (i + 1 + zlen r) with (i + (1 + zlen r)) by lia. exact L2. }
  induction lines as [|l r IHL]; intros i pre ls ER LL EI.
  - cbn. exists []. split; [constructor|destruct v; reflexivity].
  - assert (NX : forall l2, lines_log fs f i [l] l2 -> readlines content = (pre ++ [l]) ++ r /\ lines_log fs f 1 (pre ++ [l]) (ls ++ l2) /\
              i + 1 = 1 + zlen (pre ++ [l])).
    { intros l2 L2. split; [rewrite <- app_assoc; exact ER|]. split; [apply SN; [exact LL|rewrite <- EI; exact L2]|].
      rewrite zlen_app. change (zlen [l]) with 1. lia. }
    unfold SR. cbn [src_run]. fold (SR fuel v). destruct (startswith l (lit "#")) eqn:C.
    { apply comment_dec in C. rewrite bind_ok.
      assert (L1 : lines_log fs f i [l] [OutL (skipping f i)]) by (apply ll_comment; [exact C|constructor]).
      destruct (NX _ L1) as (A1 & A2 & A3). specialize (IHL (i + 1) _ _ A1 A2 A3).
      destruct (SR fuel v f (i + 1) r) as [out [cs|e]]; cbn [fst snd].
      - destruct IHL as (ls' & X & ->). exists (OutL (skipping f i) :: ls'). split; [apply ll_comment; assumption|].
        rewrite tell_vis, <- vis_app. reflexivity.
      - destruct e; try exact I. destruct IHL as (ls' & m & X & ->). exists (OutL (skipping f i) :: ls'), m.
        rewrite <- app_assoc in X. split; [exact X|]. rewrite tell_vis, app_assoc, <- vis_app. reflexivity. }
    destruct (startswith l (lit "$")) eqn:D.
    + rewrite bind_nil. destruct (py_index _ 0) as [inc|e] eqn:EN; [|destruct e; try exact I].
      2:{ exfalso. unfold py_index in EN. cbv zeta in EN. destruct (_ || _); [discriminate|]. destruct (nth_error _ _); discriminate. }
      assert (INC := include_inv _ _ D EN). destruct (fs inc) as [ci|] eqn:EC.
      2:{ cbn [exit_with]. exists [], (lit "File """ ++ inc ++ lit """ does not exist"). split; [|destruct v; reflexivity].
          rewrite app_nil_r. eapply sa_include; eassumption. }
      pose proof (IH inc) as HI. fold (RD fuel v inc). destruct (RD fuel v inc) as [o1 [ic|e]].
      * destruct HI as (l1 & RL & ->). rewrite bind_ok, bind_map. cbn [fst snd].
        assert (L1 : lines_log fs f i [l] (l1 ++ [])) by (eapply ll_include; [exact INC|exact RL|constructor]).
        rewrite app_nil_r in L1. destruct (NX _ L1) as (A1 & A2 & A3). specialize (IHL (i + 1) _ _ A1 A2 A3).
        destruct (SR fuel v f (i + 1) r) as [out [cs|e]]; cbn [fst snd bind].
        -- destruct IHL as (ls' & X & ->). exists (l1 ++ ls'). split; [eapply ll_include; eassumption|symmetry; apply vis_app].
        -- destruct e; try exact I. destruct IHL as (ls' & m & X & ->). exists (l1 ++ ls'), m. rewrite <- app_assoc in X.
           split; [exact X|]. rewrite vis_app, <- app_assoc. reflexivity.
      * rewrite bind_err. destruct e; try exact I. destruct HI as (l1 & m & ST & ->). exists l1, m. split; [|reflexivity].
        eapply sa_inside; try eassumption. congruence.
    + rewrite bind_nil. destruct (card_new_total k l width fields (Some f) i C U) as (c & EC). rewrite EC, bind_map.
      apply comment_false in C. apply dollar_false in D.
      assert (L1 : lines_log fs f i [l] []) by (apply ll_card; [exact C|exact D|constructor]).
      destruct (NX _ L1) as (A1 & A2 & A3). rewrite app_nil_r in A2. specialize (IHL (i + 1) _ _ A1 A2 A3).
      destruct (SR fuel v f (i + 1) r) as [out [cs|e]]; cbn [fst snd bind].
      * destruct IHL as (ls' & X & ->). exists ls'. split; [apply ll_card; assumption|reflexivity].
      * destruct e; try exact I. exact IHL.
Qed.
Lemma read_logged fuel v : forall f, log_of v f (RD fuel v f).
Proof.
  induction fuel as [|fuel IH]; intros f; [exact I|]. unfold RD. rewrite read_run_S. destruct (fs f) as [content|] eqn:E.
  - rewrite bind_ok. pose proof (src_log fuel v IH f content E (readlines content) 1 [] [] eq_refl ltac:(constructor) eq_refl) as H.
    change (src_run (read_run fuel k width fields fs v) k width fields fs v) with (SR fuel v).
    destruct (SR fuel v f 1 (readlines content)) as [out [cs|e]]; cbn [fst snd log_of].
    + destruct H as (ls & L & ->). exists (OutL (reading f) :: ls). split; [econstructor; eassumption|]. rewrite tell_vis, <- vis_app. reflexivity.
    + destruct e; try exact I. destruct H as (ls & m & X & ->). exists (OutL (reading f) :: ls), m. split; [exact X|].
      rewrite tell_vis, app_assoc, <- vis_app. reflexivity.
  - cbn [exit_with log_of]. exists [], (lit "ERROR: File """ ++ f ++ lit """ does not exist!"). split; [apply sa_here; exact E|destruct v; reflexivity].
Qed.
End Log.

(** *** decks read from files *)
Lemma default_usable : usable_layout ArgusCls DEFAULT_WIDTH DEFAULT_FIELDS.
Proof. exact default_layout. Qed.
Lemma load_read fuel fs f : f <> [] -> load fuel fs f = read_source fuel ArgusCls DEFAULT_WIDTH DEFAULT_FIELDS fs f.
Proof.
  intros N. unfold load, argus_deck_new. rewrite deck_file by exact N.
  destruct (read_source fuel ArgusCls DEFAULT_WIDTH DEFAULT_FIELDS fs f) as [cs|e] eqn:E; [|reflexivity]. cbn [bind].
  destruct (read_sound _ _ _ _ _ _ _ E) as (out & X & F). pose proof (proj1 (expand_noncomment fs) _ _ X) as NC.
  destruct (mapr_triple cs (cards_data _ _ _ _ _ NC F)) as (all & EA & _). unfold DEFAULT_WIDTH, DEFAULT_FIELDS in *. rewrite EA.
  cbn [bind d_cards].
  assert (G : exists o, log_section cs = Ok o).
  { clear -F NC. induction F as [|[[g i] l] c out cs H _ IH]; [exists None; reflexivity|].
    inversion NC as [|? ? N1 N2]; subst. cbn [snd] in N1.
    destruct (card_cols ArgusCls _ _ _ _ _ _ default_usable eq_refl H N1) as (v1 & v8 & G1 & G8).
    cbn [log_section]. unfold card_get in G1, G8.
    destruct (card_record c) as [rec|e]; cbn [bind] in *; [|discriminate]. rewrite G1. cbn [bind].
    destruct (is_str v1 "L"); [rewrite G8; cbn [bind]; eauto|apply IH; exact N2]. }
  destruct G as ([[s c8]|] & ->); reflexivity.
Qed.
Lemma load_run_read fuel fs v f : f <> [] ->
  load_run fuel fs v f = read_run fuel ArgusCls DEFAULT_WIDTH DEFAULT_FIELDS fs v f.
Proof.
  intros N. pose proof (load_run_fst fuel fs v f N) as A. pose proof (load_run_snd fuel fs v f) as B.
  pose proof (read_run_snd fuel ArgusCls DEFAULT_WIDTH DEFAULT_FIELDS fs v f) as C. rewrite <- load_read in C by exact N.
  destruct (load_run fuel fs v f), (read_run fuel ArgusCls DEFAULT_WIDTH DEFAULT_FIELDS fs v f). cbn [fst snd] in *. congruence.
Qed.
Lemma source_ne fuel fs f cs : source_cards fuel fs f cs -> f <> [].
Proof. intros (d & sec & c8 & H & _) ->. discriminate H. Qed.
Lemma run_logged fuel fs f v cs : source_cards fuel fs f cs ->
  exists ls, read_log fs f ls /\ load_run fuel fs v f = (vis v ls, Ok cs).
Proof.
  intros SC. pose proof (load_run_snd fuel fs v f) as B. rewrite (load_ok _ _ _ _ SC) in B.
  pose proof (read_logged ArgusCls DEFAULT_WIDTH DEFAULT_FIELDS fs default_usable fuel v f) as H. cbv zeta beta in H.
  rewrite <- load_run_read in H by exact (source_ne _ _ _ _ SC).
  destruct (load_run fuel fs v f) as [out r]. cbn [snd] in B. subst r. destruct H as (ls & L & ->). exists ls. auto.
Qed.
Lemma log_unique fs f l l' : read_log fs f l -> read_log fs f l' -> l = l'.
Proof.
  intros A B.
  destruct (proj1 (log_runs ArgusCls DEFAULT_WIDTH DEFAULT_FIELDS fs default_usable true) _ _ A) as (n & cs & H).
  destruct (proj1 (log_runs ArgusCls DEFAULT_WIDTH DEFAULT_FIELDS fs default_usable true) _ _ B) as (n' & cs' & H').
  destruct (H (Nat.max n n')) as [E|[L _]]; [|lia]. destruct (H' (Nat.max n n')) as [E'|[L _]]; [|lia].
  rewrite E in E'. unfold vis in E'. congruence.
Qed.
Lemma C118_missing_pf : forall fs f ls m, f <> [] -> stops_at fs f ls m ->
  exists n, forall fuel, (n <= fuel)%nat ->
    load_run fuel fs false f = ([ErrL m], Err SystemExit) /\
    load_run fuel fs true f = (ls ++ [ErrL m], Err SystemExit).
Proof.
  intros fs f ls m N S.
  destruct (stops_runs ArgusCls DEFAULT_WIDTH DEFAULT_FIELDS fs default_usable false f ls m S) as (n1 & H1).
  destruct (stops_runs ArgusCls DEFAULT_WIDTH DEFAULT_FIELDS fs default_usable true f ls m S) as (n2 & H2).
  exists (Nat.max n1 n2). intros fuel L. rewrite !load_run_read by exact N. split.
  - destruct (H1 fuel) as [E|[K _]]; [exact E|lia].
  - destruct (H2 fuel) as [E|[K _]]; [exact E|lia].
Qed.
(*@ Example C118_missing_ex :
  let fs := fun f => if eqb f (lit "a") then Some (lit "#x" ++ [10] ++ lit "$b" ++ [10]) else
                     if eqb f (lit "b") then Some (lit "$ c.arg X") else None in
  load_run 3 fs true (lit "a") =
    ([OutL (lit "Reading a..."); OutL (lit "Skipping meta-comment, file a, line 1"); OutL (lit "Reading b...");
      ErrL (lit "File ""c.arg"" does not exist")], Err SystemExit) /\
  load_run 3 fs false (lit "d") = ([ErrL (lit "ERROR: File ""d"" does not exist!")], Err SystemExit).
Proof. vm_compute. auto. Qed. @*)
Lemma C118_only_pf : forall fuel fs v f out, load_run fuel fs v f = (out, Err SystemExit) ->
  exists ls m, stops_at fs f ls m /\ out = (if v then ls else []) ++ [ErrL m].
Proof.
  intros fuel fs v f out H. destruct f as [|x r]; [discriminate H|].
  rewrite load_run_read in H by discriminate.
  pose proof (read_logged ArgusCls DEFAULT_WIDTH DEFAULT_FIELDS fs default_usable fuel v (x :: r)) as L. cbv zeta beta in L. rewrite H in L. exact L.
Qed.
(*@ Example C118_only_ex :
  let fs := fun f => if eqb f (lit "a") then Some (lit "$b" ++ [10]) else None in
  load_run 2 fs false (lit "a") = ([ErrL (lit "File ""b"" does not exist")], Err SystemExit).
Proof. vm_compute. reflexivity. Qed. @*)
Lemma C118_named_pf : forall fs f ls m, stops_at fs f ls m ->
  reaches_missing fs f /\ exists g, fs g = None /\
    (m = lit "ERROR: File """ ++ g ++ lit """ does not exist!" /\ g = f \/
     m = lit "File """ ++ g ++ lit """ does not exist").
Proof.
  intros fs f ls m S.
  assert (EX : forall f' i lines ls', lines_log fs f' i lines ls' -> exists out, expand_lines fs f' i lines out).
  { cut ((forall f' ls', read_log fs f' ls' -> exists out, expand fs f' out) /\
         (forall f' i lines ls', lines_log fs f' i lines ls' -> exists out, expand_lines fs f' i lines out)); [intros [_ H]; exact H|].
    apply read_log_ind2 with (P := fun f' _ _ => exists out, expand fs f' out)
                             (P0 := fun f' i lines _ _ => exists out, expand_lines fs f' i lines out).
    - intros f' content l E _ (out & X). exists out. econstructor; eassumption.
    - intros. eexists. constructor.
    - intros f' i line rest l C _ (out & X). exists out. apply ex_comment; assumption.
    - intros f' i line inc rest l1 l2 INC _ (o1 & X1) _ (o2 & X2). exists (o1 ++ o2). eapply ex_include; eassumption.
    - intros f' i line rest l C D _ (out & X). eexists. apply ex_card; eassumption. }
  induction S as [f E|f content pre line post inc ls E ER LL INC EI|f content pre line post inc ls ls' m E ER LL INC EI S IH].
  - split; [apply rm_here; exact E|]. exists f. auto.
  - destruct (EX _ _ _ _ LL) as (out & X). split; [eapply rm_inc; try eassumption; apply rm_here; exact EI|]. exists inc. auto.
  - destruct (EX _ _ _ _ LL) as (out & X). destruct IH as (R & g & G & H). split; [eapply rm_inc; eassumption|].
    exists g. split; [exact G|]. destruct H as [[-> ->]|H]; [|right; exact H]. contradiction.
Qed.
(*@ Example C118_named_ex :
  let fs := fun f => if eqb f (lit "a") then Some (lit "$b" ++ [10]) else None in
  stops_at fs (lit "a") [OutL (lit "Reading a...")] (lit "File ""b"" does not exist").
Proof.
  cbv zeta. eapply sa_include with (pre := []) (line := lit "$b" ++ [10]) (post := []) (inc := lit "b");
    [reflexivity|reflexivity|constructor| |reflexivity].
  exists (lit "b" ++ [10]). split; [reflexivity|apply first_word_ok; eexists; reflexivity].
Qed. @*)
Lemma C119_progress_pf : forall fuel fs f cs, source_cards fuel fs f cs ->
  exists ls, read_log fs f ls /\ (forall ls', read_log fs f ls' -> ls' = ls) /\
    load_run fuel fs true f = (ls, Ok cs) /\ load_run fuel fs false f = ([], Ok cs).
Proof.
  intros fuel fs f cs SC. destruct (run_logged fuel fs f true cs SC) as (ls & L & E).
  destruct (run_logged fuel fs f false cs SC) as (ls2 & _ & E2). exists ls. split; [exact L|].
  split; [intros ls' L'; exact (log_unique _ _ _ _ L' L)|]. split; [exact E|exact E2].
Qed.
(*@ Example C119_progress_ex :
  let fs := fun f => if eqb f (lit "a") then Some (lit "R 1" ++ [10] ++ lit "#x" ++ [10] ++ lit "$b" ++ [10] ++ lit "#y") else
                     if eqb f (lit "b") then Some (lit "#z") else None in
  fst (load_run 3 fs true (lit "a")) =
    [OutL (lit "Reading a..."); OutL (lit "Skipping meta-comment, file a, line 2"); OutL (lit "Reading b...");
     OutL (lit "Skipping meta-comment, file b, line 1"); OutL (lit "Skipping meta-comment, file a, line 4")] /\
  exists c, snd (load_run 3 fs true (lit "a")) = Ok [c].
Proof. cbv zeta. split; [vm_compute; reflexivity|]. eexists. vm_compute. reflexivity. Qed. @*)
Lemma C119_lines_pf : forall fuel fs lines width fields k, usable_layout k width fields ->
  exists ls, fst (deck_run fuel fs true (Some lines) None width fields k) = ls /\
    fst (deck_run fuel fs false (Some lines) None width fields k) = [] /\
    picked (fun p y => comment_line (snd p) /\
        y = OutL (lit "Skipping meta-comment, file None, line " ++ str_of_Z (fst p)))
      (combine (py_range 1 (1 + zlen lines)) lines) ls.
Proof.
  intros fuel fs lines width fields k U. eexists. split; [reflexivity|]. cbn [deck_run fst].
  generalize 1 as i. induction lines as [|l r IH]; intros i.
  - split; [reflexivity|]. rewrite py_range_nil by (change (zlen (@nil str)) with 0; lia). constructor.
  - rewrite py_range_cons by (rewrite zlen_cons; pose proof (zlen_nonneg r); lia).
    replace (i + zlen (l :: r)) with (i + 1 + zlen r) by (rewrite zlen_cons; lia).
    destruct (IH (i + 1)) as [H1 H2]. cbn [combine lines_run].
    destruct (startswith l (lit "#")) eqn:C.
    + rewrite !bind_ok. cbn [fst tell app]. split; [exact H1|]. apply pk_yes; [|exact H2]. cbn [fst snd]. split; [apply comment_dec; exact C|reflexivity].
    + destruct (card_new_total k l width fields None i C U) as (c & EC). rewrite EC, !bind_nil, !bind_map. cbn [fst].
      split; [exact H1|]. apply pk_no; [|exact H2]. intros y [X _]. cbn [snd] in X. apply comment_dec in X. congruence.
Qed.
(*@ Example C119_lines_ex : fst (deck_run 1 (fun _ => None) true (Some [lit "#a"; lit "R 1"; lit "#b"]) None 120 DEFAULT_FIELDS ArgusCls) =
  [OutL (lit "Skipping meta-comment, file None, line 1"); OutL (lit "Skipping meta-comment, file None, line 3")].
Proof. vm_compute. reflexivity. Qed. @*)
Lemma C119_no_input_pf : forall fuel fs v width fields k,
  deck_run fuel fs v None None width fields k = ([ErrL (lit "ERROR: no input supplied to class constructor!")], Err SystemExit) /\
  deck_run fuel fs v None (Some []) width fields k = ([], Err TypeError).
Proof. intros. split; reflexivity. Qed.
(*@ Example C119_no_input_ex : deck_run 1 (fun _ => None) true None None 80 DEFAULT_FIELDS ArgusCls =
  ([ErrL (lit "ERROR: no input supplied to class constructor!")], Err SystemExit).
Proof. vm_compute. reflexivity. Qed. @*)

(** *** C120, C121 *)
Lemma tool_cases c : tool_card c ->
  (~ instr_card c /\ exists i, card_get c "instruction" = Ok i /\ truthy i = false) \/
  exists m, instr_is c m /\ card_get c "instruction" = Ok (RStr m) /\ truthy (RStr m) = true /\
    exists x, card_get c "column8" = Ok x /\ (starred c /\ is_str x "*" = true \/ ~ starred c /\ is_str x "*" = false).
Proof.
  intros ((oi & EI) & (o8 & E8) & _). destruct (truthy (rstr oi)) eqn:T.
  - right. destruct oi as [m|]; [|discriminate]. cbn [rstr] in *. exists m.
    assert (M : instr_is c m) by (split; [intros ->; discriminate|exact EI]). split; [exact M|]. split; [exact EI|]. split; [exact T|].
    exists (rstr o8). split; [exact E8|]. unfold starred. rewrite E8.
    destruct (is_str (rstr o8) "*") eqn:S8; [left|right]; (split; [|reflexivity]).
    + f_equal. apply is_str_ok. exact S8.
    + intros X. assert (R : rstr o8 = RStr (lit "*")) by congruence. apply is_str_ok in R. congruence.
  - left. split; [|eauto]. intros (m & N & E). assert (R : rstr oi = RStr m) by congruence. rewrite R in T. cbn [truthy] in T.
    rewrite eqb_neq in T by exact N. discriminate.
Qed.
Lemma position_ok c f : c_filename c = Some f -> position c (card_pos c).
Proof. intros E. exists f. split; [exact E|]. unfold card_pos. rewrite E. reflexivity. Qed.
Lemma complains_ok c f m : c_filename c = Some f -> complains c m (map OutL (ci_error (RStr m) c)).
Proof. intros E. exists f. split; [exact E|]. unfold ci_error. rewrite E. reflexivity. Qed.
Lemma star_ok v c x : card_get c "column8" = Ok x ->
  star_lines v card_pos c =
    (if is_str x "*" then (if v then [OutL (lit "Skipping card with * in column 8:"); OutL (card_pos c)] else []) else []).
Proof. intros E. unfold star_lines. rewrite E. destruct (is_str x "*"), v; reflexivity. Qed.
Lemma parse_report v debug s c : tool_card c ->
  exists ls s', parse_card_run v debug s c = (ls, Ok s') /\ card_report v debug c ls /\ parse_card s c = Ok s'.
Proof.
  intros T. pose proof (tool_cases c T) as TC. destruct T as (_ & _ & _ & f & EF). destruct s as [l e].
  unfold parse_card_run, parse_card. destruct TC as [(N & i & -> & TI)|(m & M & -> & TI & x & E8 & ST)]; cbn [bind]; rewrite TI; cbn [negb].
  - eexists. eexists. split; [reflexivity|]. split; [apply cr_other; exact N|reflexivity].
  - rewrite E8. cbn [bind]. rewrite (star_ok v c x E8). destruct ST as [[S SB]|[S SB]]; rewrite SB.
    + eexists. eexists. split; [reflexivity|]. split; [|reflexivity]. cbn [snd]. rewrite Z.eqb_refl, app_nil_r.
      apply (cr_star v debug c (card_pos c)); [exists m; exact M|exact S|eapply position_ok; exact EF].
    + destruct (inb m INSTRUCTIONS) eqn:IB.
      * eexists. eexists. split; [reflexivity|]. split; [|reflexivity]. cbn [snd]. rewrite Z.eqb_refl. cbn [app]. rewrite app_nil_r.
        apply (cr_valid v debug c m (card_pos c)); [exact M|exact S|apply inb_In; exact IB|eapply position_ok; exact EF].
      * eexists. eexists. split; [reflexivity|]. split; [|reflexivity]. cbn [snd]. replace (e + 1 =? e) with false by lia. cbn [app].
        apply (cr_invalid v debug c m (card_pos c)); [exact M|exact S|apply inb_false; exact IB|eapply position_ok; exact EF|eapply complains_ok; exact EF].
Qed.
Lemma ci_inv_out cs s : ci_inv cs s -> ci_inv cs (without_out s).
Proof. intros H. exact H. Qed.
Lemma ci_report_card v o cs s c : tool_card c -> ci_inv cs s ->
  exists ls s', ci_card_run v o s c = (ls, Ok s') /\ card_report v (o_print o) c ls /\ ci_inv (cs ++ [c]) s'.
Proof.
  intros T I. destruct (ci_step o cs (without_out s) c T (ci_inv_out _ _ I)) as (s' & E & I').
  pose proof (tool_cases c T) as TC. destruct T as (_ & _ & _ & f & EF).
  unfold ci_card_run. rewrite E. eexists. exists (without_out s'). split; [reflexivity|]. split; [|apply ci_inv_out; exact I'].
  destruct I as (_ & _ & _ & K & _). clear I'.
  unfold ci_card in E. destruct TC as [(N & i & EI & TI)|(m & M & EI & TI & x & E8 & ST)]; rewrite EI in *; cbn [bind] in E; cbv zeta in E;
    cbn [ci_lines ci_instrs ci_tab ci_errs ci_out without_out] in E; rewrite TI in *; cbn [negb] in E.
  - assert (X : ci_out s' = []) by (apply (f_equal (fun r => match r with Ok s => ci_out s | _ => [] end)) in E; exact (eq_sym E)).
    rewrite X. apply cr_other. exact N.
  - rewrite E8 in E. cbn [bind] in E. rewrite (star_ok v c x E8). destruct ST as [[S SB]|[S SB]]; rewrite SB in *.
    + assert (X : ci_out s' = if o_print o then [card_pos c] else [])
        by (apply (f_equal (fun r => match r with Ok s => ci_out s | _ => [] end)) in E; exact (eq_sym E)).
      rewrite X. replace (map OutL (if o_print o then [card_pos c] else [])) with (if o_print o then [OutL (card_pos c)] else [])
        by (destruct (o_print o); reflexivity).
      apply (cr_star v (o_print o) c (card_pos c)); [exists m; exact M|exact S|eapply position_ok; exact EF].
    + rewrite app_nil_r. destruct (dget (ci_tab s) m) as [n|] eqn:EM.
      * assert (IN : In m INSTRUCTIONS) by (rewrite <- K; apply dget_In; unfold dmem; rewrite EM; reflexivity).
        rewrite (proj2 (inb_In m INSTRUCTIONS) IN), andb_false_r in E.
        assert (X : ci_out s' = if o_print o then [card_pos c] else [])
          by (apply (f_equal (fun r => match r with Ok s => ci_out s | _ => [] end)) in E; exact (eq_sym E)).
        rewrite X. replace (map OutL (if o_print o then [card_pos c] else [])) with (if o_print o then [OutL (card_pos c)] else [])
          by (destruct (o_print o); reflexivity).
        apply (cr_valid v (o_print o) c m (card_pos c)); [exact M|exact S|exact IN|eapply position_ok; exact EF].
      * assert (IN : ~ In m INSTRUCTIONS).
        { rewrite <- K. intros X. apply dget_In in X. unfold dmem in X. rewrite EM in X. discriminate. }
        assert (X : ci_out s' = (if o_print o then [card_pos c] else []) ++ ci_error (RStr m) c)
          by (apply (f_equal (fun r => match r with Ok s => ci_out s | _ => [] end)) in E; exact (eq_sym E)).
        rewrite X, map_app. replace (map OutL (if o_print o then [card_pos c] else [])) with (if o_print o then [OutL (card_pos c)] else [])
          by (destruct (o_print o); reflexivity).
        apply (cr_invalid v (o_print o) c m (card_pos c)); [exact M|exact S|exact IN|eapply position_ok; exact EF|eapply complains_ok; exact EF].
Qed.

(** folding over cards and files, with an invariant of the cards seen *)
Section Files.
Context {St : Type} (step : St -> card -> io St) (inv : list card -> St -> Prop) (verbose show : bool).
Hypothesis step_ok : forall cs s c, tool_card c -> inv cs s ->
  exists ls s', step s c = (ls, Ok s') /\ card_report verbose show c ls /\ inv (cs ++ [c]) s'.
Lemma cards_fold todo : forall cs s, Forall tool_card todo -> inv cs s ->
  exists lss s', io_fold step todo s = (concat lss, Ok s') /\ Forall2 (card_report verbose show) todo lss /\ inv (cs ++ todo) s'.
Proof.
  induction todo as [|c todo IH]; intros cs s F I.
  - exists [], s. rewrite app_nil_r. split; [reflexivity|]. split; [constructor|exact I].
  - inversion F as [|? ? T F']; subst. destruct (step_ok cs s c T I) as (ls & s1 & E & R & I1).
    destruct (IH _ _ F' I1) as (lss & s' & E' & R' & I'). exists (ls :: lss), s'. cbn [io_fold]. rewrite E, bind_ok.
    rewrite E'. cbn [fst snd concat]. split; [reflexivity|]. split; [constructor; assumption|].
    rewrite <- app_assoc in I'. exact I'.
Qed.
Lemma files_fold fuel fs files : forall css cs s, Forall2 (source_cards fuel fs) files css -> inv cs s ->
  exists ls s', io_fold (fun s f => io_bind (load_run fuel fs verbose f) (fun l => io_fold step l s)) files s = (ls, Ok s') /\
    files_report fuel fs verbose show files ls /\ inv (cs ++ concat css) s'.
Proof.
  induction files as [|f files IH]; intros css cs s F I; inversion F as [|? l ? css' SC F']; subst.
  - exists [], s. cbn [concat]. rewrite app_nil_r. split; [reflexivity|]. split; [constructor|exact I].
  - destruct (run_logged fuel fs f verbose l SC) as (log & L & EL).
    destruct (cards_fold l cs s (source_tool _ _ _ _ SC) I) as (lss & s1 & E & R & I1).
    destruct (IH css' _ s1 F' I1) as (ls & s' & E' & R' & I'). cbn [io_fold]. rewrite EL, bind_ok, E. cbn [fst snd].
    rewrite bind_ok, E'. cbn [fst snd]. eexists. exists s'. split; [reflexivity|]. split.
    + rewrite <- app_assoc. eapply fr_file; eassumption.
    + cbn [concat]. rewrite app_assoc. exact I'.
Qed.
End Files.
Lemma inv_freq cs s : ci_inv cs s -> forall m n, dget (ci_tab s) m = Some n <-> In m INSTRUCTIONS /\ frequency cs m n.
Proof.
  intros (_ & _ & _ & I4 & I5 & _) m n. split.
  - intros EM. split; [rewrite <- I4; apply dget_In; unfold dmem; rewrite EM; reflexivity|exact (I5 m n EM)].
  - intros [IM FM]. rewrite <- I4 in IM. apply dget_In in IM. unfold dmem in IM.
    destruct (dget (ci_tab s) m) as [n'|] eqn:EM; [|discriminate]. f_equal. eapply count_unique; [exact (I5 m n' EM)|exact FM].
Qed.
Lemma inv_keys cs s : ci_inv cs s -> dkeys (ci_tab s) = INSTRUCTIONS.
Proof. intros (_ & _ & _ & I4 & _). exact I4. Qed.
Lemma inv_nodup cs s : ci_inv cs s -> NoDup (dkeys (ci_tab s)).
Proof. intros (_ & _ & _ & I4 & _). rewrite I4. exact NoDup_INSTR. Qed.
Lemma unused_ok cs s : ci_inv cs s ->
  unused_part cs true ((10 :: lit "Unused Instructions:") :: map fst (filter (fun r => snd r =? 0) (by_name (ci_tab s)))).
Proof.
  intros I. pose proof (inv_freq cs s I) as G. apply un_list.
  - apply SS_map. apply SS_filter. apply SS_unmap. rewrite by_name_keys. apply sorted_lt_str. exact (inv_nodup cs s I).
  - intros m. rewrite in_map_iff. split.
    + intros ([m' n] & E' & J). apply filter_In in J. destruct J as [J Z0]. cbn [fst snd] in *. subst m'.
      apply by_name_In in J. apply G. rewrite J. f_equal. lia.
    + intros X. apply G in X. exists (m, 0). split; [reflexivity|]. apply filter_In. split; [apply by_name_In; exact X|reflexivity].
Qed.
Lemma ci_run pct fuel fs v o files css : files <> [] -> Forall2 (source_cards fuel fs) files css ->
  exists ls s, check_instructions_run pct fuel fs v o files = (ls ++ fst (ci_report_run pct o s), snd (ci_report_run pct o s)) /\
    files_report fuel fs v (o_print o) files ls /\ ci_inv (concat css) s.
Proof.
  intros NE F.
  destruct (files_fold (ci_card_run v o) ci_inv v (o_print o) (ci_report_card v o) fuel fs files css [] ci_init F ci_init_inv)
    as (ls & s & E & R & I). cbn [app] in I. exists ls, s. split; [|auto].
  unfold check_instructions_run. destruct files as [|f files]; [contradiction|]. rewrite E, bind_ok. reflexivity.
Qed.
Lemma C121_transcript_pf : forall pct fuel fs v o files css n, files <> [] -> o_count o = false ->
  Forall2 (source_cards fuel fs) files css ->
  count_of (fun c => ~ starred c /\ exists m, instr_is c m /\ ~ In m INSTRUCTIONS) (concat css) n ->
  exists ls unused, check_instructions_run pct fuel fs v o files = (ls ++ map OutL (unused ++ [error_count n]), Ok tt) /\
    files_report fuel fs v (o_print o) files ls /\ unused_part (concat css) (o_unused o) unused.
Proof.
  intros pct fuel fs v o files css n NE NC F CN. destruct (ci_run pct fuel fs v o files css NE F) as (ls & s & E & R & I).
  assert (CE := count_unique _ _ _ _ (proj1 (proj2 (proj2 I))) CN).
  rewrite E. unfold ci_report_run, ci_report. rewrite NC. cbn [bind ci_out without_out app ci_errs ci_tab fst snd]. rewrite CE.
  exists ls, (if o_unused o then (10 :: lit "Unused Instructions:") :: map fst (filter (fun r => snd r =? 0) (by_name (ci_tab s))) else []).
  split; [reflexivity|]. split; [exact R|]. destruct (o_unused o); [exact (unused_ok _ _ I)|constructor].
Qed.
(*@ Example C121_transcript_ex :
  let fs := fun f => if eqb f (lit "a") then Some (lit "                   TX,A         B" ++ [10] ++ lit "       *           TX           B" ++ [10] ++
       lit "                   FOO" ++ [10]) else Some (lit "R      REMARK") in
  check_instructions_run (fun _ _ => []) 2 fs true (mkciopts false false false true false false) [lit "a"; lit "b"] =
    ([OutL (lit "Reading a..."); OutL (lit "a 1                    TX,A         B");
      OutL (lit "a 2        *           TX           B");
      OutL (lit "Skipping card with * in column 8:"); OutL (lit "a 2        *           TX           B");
      OutL (lit "a 3                    FOO"); OutL (lit "*** ERROR: Invalid instruction ""FOO"":");
      OutL (lit "File a, line 3:                    FOO"); OutL (lit "Reading b..."); OutL (lit "1 error encountered.")], Ok tt).
Proof. vm_compute. reflexivity. Qed. @*)
Lemma C121_count_pf : forall pct fuel fs v o files css n total, files <> [] -> o_count o = true ->
  Forall2 (source_cards fuel fs) files css ->
  count_of (fun c => ~ starred c /\ exists m, instr_is c m /\ ~ In m INSTRUCTIONS) (concat css) n ->
  count_of instr_card (concat css) total -> total <> 0 ->
  exists ls rows unused, check_instructions_run pct fuel fs v o files =
      (ls ++ map OutL ([10 :: lit "Source lines: " ++ str_of_Z (zlen (concat css)); 10 :: lit "Instruction Frequencies:";
                        freq_line (lit "Total") total (lit "100.00")] ++
                       map (fun r => freq_line (fst r) (snd r) (pct (snd r) total)) rows ++ unused ++ [error_count n]), Ok tt) /\
    files_report fuel fs v (o_print o) files ls /\
    NoDup (map fst rows) /\
    (forall m k, In (m, k) rows <-> In m INSTRUCTIONS /\ frequency (concat css) m k /\ (o_unused o = true -> k <> 0)) /\
    (o_sort o = true -> StronglySorted by_frequency rows) /\
    (o_sort o = false -> StronglySorted (fun a b => str_lt (fst a) (fst b)) rows) /\
    unused_part (concat css) (o_unused o) unused.
Proof.
  intros pct fuel fs v o files css n total NE C F CN CT NZ. destruct (ci_run pct fuel fs v o files css NE F) as (ls & s & E & R & I).
  assert (CE := count_unique _ _ _ _ (proj1 (proj2 (proj2 I))) CN). assert (IT := count_unique _ _ _ _ (proj1 (proj2 I)) CT).
  destruct (rows_spec o s (inv_keys _ _ I) (inv_nodup _ _ I)) as (R1 & R2 & R3).
  rewrite E. unfold ci_report_run, ci_report, ci_rows. rewrite C. cbn [ci_instrs ci_tab without_out].
  fold (ci_table_rows o s). rewrite IT. destruct (Z.eqb_spec total 0) as [|_]; [contradiction|].
  rewrite (mapr_ok _ (fun r => freq_line (fst r) (snd r) (pct (snd r) total))) by reflexivity.
  cbn [bind ci_out without_out ci_errs ci_tab ci_lines fst snd]. cbv zeta. rewrite CE, (proj1 I).
  exists ls, (ci_table_rows o s),
    (if o_unused o then (10 :: lit "Unused Instructions:") :: map fst (filter (fun r => snd r =? 0) (by_name (ci_tab s))) else []).
  split; [rewrite app_nil_l, <- app_assoc; reflexivity|]. split; [exact R|]. split; [exact R1|]. split; [|split; [|split]].
  - intros m k. rewrite R2, (inv_freq _ _ I). tauto.
  - intros S. rewrite S in R3. exact R3.
  - intros S. rewrite S in R3. exact R3.
  - destruct (o_unused o); [exact (unused_ok _ _ I)|constructor].
Qed.
(*@ Example C121_count_ex :
  let fs := fun f : str => Some (lit "                   TX,A         B" ++ [10] ++ lit "                   WA") in
  let '(out, r) := check_instructions_run (fun _ _ => lit " 50.00") 2 fs true (mkciopts false true false false true true) [lit "a"] in
  firstn 6 out =
    [OutL (lit "Reading a..."); OutL (10 :: lit "Source lines: 2"); OutL (10 :: lit "Instruction Frequencies:");
     OutL (lit "Total         2  100.00%"); OutL (lit "WA            1   50.00%"); OutL (lit "TX            1   50.00%")] /\
  nth 6 out (OutL []) = OutL (10 :: lit "Unused Instructions:") /\ last out (OutL []) = OutL (lit "0 errors encountered.") /\ r = Ok tt.
Proof. vm_compute. auto. Qed. @*)
Lemma C121_no_instructions_pf : forall pct fuel fs v o files css, files <> [] -> o_count o = true -> o_unused o = false ->
  Forall2 (source_cards fuel fs) files css -> (forall c, In c (concat css) -> ~ instr_card c) ->
  exists ls, check_instructions_run pct fuel fs v o files =
      (ls ++ map OutL [10 :: lit "Source lines: " ++ str_of_Z (zlen (concat css)); 10 :: lit "Instruction Frequencies:";
                       freq_line (lit "Total") 0 (lit "100.00")], Err ZeroDivisionError) /\
    files_report fuel fs v (o_print o) files ls.
Proof.
  intros pct fuel fs v o files css NE C UN F N. destruct (ci_run pct fuel fs v o files css NE F) as (ls & s & E & R & I).
  assert (IT : ci_instrs s = 0) by (apply (proj2 (count_pos _ _ _ (proj1 (proj2 I)))); exact N).
  exists ls. split; [|exact R]. rewrite E. unfold ci_report_run, ci_report, ci_rows. rewrite C.
  cbn [ci_instrs ci_tab without_out]. fold (ci_table_rows o s). rewrite IT. change (0 =? 0) with true.
  assert (X : exists r rows, ci_table_rows o s = r :: rows).
  { destruct (rows_spec o s (inv_keys _ _ I) (inv_nodup _ _ I)) as (_ & P & _). destruct I as (_ & _ & _ & I4 & _).
    assert (X : In (lit "TX") INSTRUCTIONS) by (apply inb_In; vm_compute; reflexivity).
    rewrite <- I4 in X. apply dget_In in X. unfold dmem in X. destruct (dget (ci_tab s) (lit "TX")) as [n|] eqn:EX; [|discriminate].
    destruct (ci_table_rows o s) as [|r rows]; [|eauto]. exfalso.
    apply (proj2 (P (lit "TX") n)). split; [exact EX|]. congruence. }
  destruct X as (r & rows & ->). cbn [mapr bind fst snd ci_lines without_out]. rewrite (proj1 I). reflexivity.
Qed.
(*@ Example C121_no_instructions_ex :
  check_instructions_run (fun _ _ => []) 2 (fun f : str => Some (lit "R 1")) false (mkciopts false true false false false false) [lit "a"] =
    ([OutL (10 :: lit "Source lines: 1"); OutL (10 :: lit "Instruction Frequencies:"); OutL (lit "Total         0  100.00%")],
     Err ZeroDivisionError).
Proof. vm_compute. reflexivity. Qed. @*)
Lemma C121_only_unused_pf : forall pct fuel fs v o files css, files <> [] -> o_count o = true -> o_unused o = true ->
  Forall2 (source_cards fuel fs) files css -> (forall c, In c (concat css) -> ~ instr_card c) ->
  exists ls unused, check_instructions_run pct fuel fs v o files =
      (ls ++ map OutL ([10 :: lit "Source lines: " ++ str_of_Z (zlen (concat css)); 10 :: lit "Instruction Frequencies:";
                        freq_line (lit "Total") 0 (lit "100.00")] ++ unused ++ [lit "0 errors encountered."]), Ok tt) /\
    files_report fuel fs v (o_print o) files ls /\ unused_part (concat css) true unused.
Proof.
  intros pct fuel fs v o files css NE C UN F N. destruct (ci_run pct fuel fs v o files css NE F) as (ls & s & E & R & I).
  assert (IT : ci_instrs s = 0) by (apply (proj2 (count_pos _ _ _ (proj1 (proj2 I)))); exact N).
  assert (CE : ci_errs s = 0).
  { apply (proj2 (count_pos _ _ _ (proj1 (proj2 (proj2 I))))). intros c J (_ & m & IM & _). apply (N c J). exists m. exact IM. }
  assert (X : ci_table_rows o s = []).
  { destruct (rows_spec o s (inv_keys _ _ I) (inv_nodup _ _ I)) as (_ & P & _).
    destruct (ci_table_rows o s) as [|[m k] rows]; [reflexivity|exfalso].
    destruct (proj1 (P m k)) as [G K]; [left; reflexivity|]. specialize (K UN). apply K.
    destruct (proj1 (inv_freq _ _ I m k) G) as [_ FR].
    apply (proj2 (count_pos _ _ _ FR)). intros c J (_ & IM). apply (N c J). exists m. exact IM. }
  exists ls, ((10 :: lit "Unused Instructions:") :: map fst (filter (fun r => snd r =? 0) (by_name (ci_tab s)))).
  split; [|split; [exact R|exact (unused_ok _ _ I)]]. rewrite E. unfold ci_report_run, ci_report, ci_rows. rewrite C.
  cbn [ci_instrs ci_tab without_out]. fold (ci_table_rows o s). rewrite X, UN. cbn [mapr bind fst snd ci_lines ci_out without_out ci_errs ci_tab].
  cbv zeta. rewrite IT, CE, (proj1 I). reflexivity.
Qed.
(*@ Example C121_only_unused_ex :
  let '(out, r) := check_instructions_run (fun _ _ => []) 2 (fun f : str => Some (lit "R 1")) false (mkciopts false true false false false true) [lit "a"] in
  firstn 4 out = [OutL (10 :: lit "Source lines: 1"); OutL (10 :: lit "Instruction Frequencies:"); OutL (lit "Total         0  100.00%");
                  OutL (10 :: lit "Unused Instructions:")] /\
  zlen out = 5 + zlen INSTRUCTIONS /\ r = Ok tt.
Proof. vm_compute. auto. Qed. @*)
(** a missing file: everything about the files before it, how far it was read, and the message *)
Lemma io_fold_app {S A} (f : S -> A -> io S) a : forall b s, io_fold f (a ++ b) s = io_bind (io_fold f a s) (io_fold f b).
Proof.
  induction a as [|x a IH]; intros b s.
  - cbn [app io_fold]. rewrite bind_nil. reflexivity.
  - cbn [app io_fold]. destruct (f s x) as [l [s'|e]]; [|reflexivity]. rewrite !bind_ok, IH.
    destruct (io_fold f a s') as [l2 [s2|e2]]; cbn [fst snd]; [|reflexivity].
    rewrite !bind_ok. cbn [fst snd]. rewrite app_assoc. reflexivity.
Qed.
Lemma C121_missing_pf : forall pct fuel fs v o pre css f post,
  Forall2 (source_cards fuel fs) pre css -> load fuel fs f = Err SystemExit ->
  exists ls log m, check_instructions_run pct fuel fs v o (pre ++ f :: post) =
      (ls ++ (if v then log else []) ++ [ErrL m], Err SystemExit) /\
    files_report fuel fs v (o_print o) pre ls /\ stops_at fs f log m.
Proof.
  intros pct fuel fs v o pre css f post F H.
  destruct (files_fold (ci_card_run v o) ci_inv v (o_print o) (ci_report_card v o) fuel fs pre css [] ci_init F ci_init_inv)
    as (ls & s & E & R & _).
  assert (X : exists log m, load_run fuel fs v f = ((if v then log else []) ++ [ErrL m], Err SystemExit) /\ stops_at fs f log m).
  { pose proof (load_run_snd fuel fs v f) as B. rewrite H in B. destruct (load_run fuel fs v f) as [out r] eqn:EL. cbn [snd] in B. subst r.
    destruct (C118_only_pf _ _ _ _ _ EL) as (log & m & S & ->). eauto. }
  destruct X as (log & m & EL & S). exists ls, log, m. split; [|auto].
  unfold check_instructions_run. destruct (pre ++ f :: post) as [|y ys] eqn:EP; [destruct pre; discriminate|]. rewrite <- EP.
  rewrite io_fold_app, E, bind_ok. cbn [io_fold]. rewrite EL. reflexivity.
Qed.
(*@ Example C121_missing_ex :
  let fs := fun f => if eqb f (lit "a") then Some (lit "                   FOO") else None in
  check_instructions_run (fun _ _ => []) 2 fs false (mkciopts false true false false true true) [lit "a"; lit "b"; lit "a"] =
    ([OutL (lit "*** ERROR: Invalid instruction ""FOO"":"); OutL (lit "File a, line 1:                    FOO");
      ErrL (lit "ERROR: File ""b"" does not exist!")], Err SystemExit).
Proof. vm_compute. reflexivity. Qed. @*)

(** parse.py *)
Lemma tables_run upper rep card_rep fuel fs v files : forall css tab tot last0, Forall2 (source_cards fuel fs) files css ->
  plain_names files -> plain_table tab ->
  exists ls tab' tot' n, io_fold (fun s f =>
      io_bind (build_verbose upper rep card_rep fuel fs v (fst (fst s)) f) (fun r =>
      ([built_line f (snd r)], Ok (fst r, snd (fst s) + snd r, snd r)))) files (tab, tot, last0) = (ls, Ok (tab', tot', n)) /\
    tables_report upper rep card_rep fuel fs v files ls /\ plain_table tab' /\
    match rev css with [] => n = last0 | cs :: _ => exists ms, reported upper cs ms /\ n = zlen ms end.
Proof.
  induction files as [|f files IH]; intros css tab tot last0 F PN P; inversion F as [|? cs ? css' SC F']; subst.
  - exists [], tab, tot, last0. split; [reflexivity|]. split; [constructor|]. split; [exact P|reflexivity].
  - destruct (seg_exists f) as (seg & SG). assert (NK : ~ is_kind seg) by (apply (PN f seg); [left; reflexivity|exact SG]).
    destruct (run_reported upper seg cs NK (source_proper _ _ _ _ SC) (lit "1") tab 0 P) as (ms & st & E & R & P1).
    destruct (run_dumped upper rep card_rep seg cs NK (source_proper _ _ _ _ SC) (lit "1") tab 0 P) as (ds & st' & ED & D).
    assert (EB : dump_table_run upper rep card_rep fuel fs f tab = (ds, snd (fst st), Ok (zlen ms))).
    { destruct (run_blocks upper rep card_rep _ _ _ _ _ _ E) as (bs & _ & EX). rewrite EX in ED. injection ED as <- <-.
      destruct SC as (d & sec & c8 & H & ->). unfold dump_table_run. apply seg_ok in SG. cbv zeta. rewrite SG.
      unfold DEFAULT_WIDTH, DEFAULT_FIELDS. rewrite H, EX. apply run_count in E. cbn [snd] in E. rewrite E, Z.add_0_l. reflexivity. }
    destruct (run_logged fuel fs f v cs SC) as (log & L & EL).
    destruct (IH css' (snd (fst st)) (tot + zlen ms) (zlen ms) F' ltac:(intros g sg G; apply PN; right; exact G) P1)
      as (ls & tab' & tot' & n & EF & RF & PF & LF).
    exists (vis v log ++ map ErrL ds ++ built_line f (zlen ms) :: ls), tab', tot', n.
    split; [|split; [eapply tr_file; eassumption|split; [exact PF|]]].
    + cbn [io_fold]. unfold build_verbose at 1. cbn [fst snd]. rewrite EB, EL. cbn [fst]. rewrite !bind_ok. cbn [fst snd]. rewrite bind_ok, EF.
      cbn [fst snd]. rewrite <- !app_assoc. reflexivity.
    + cbn [rev]. destruct (rev css') as [|cs' r]; cbn [app]; [exists ms; auto|exact LF].
Qed.
Lemma parse_inv_step v debug e0 cs s c : tool_card c ->
  (fst s = zlen cs /\ exists n, count_of invalid_card cs n /\ snd s = e0 + n) ->
  exists ls s', parse_card_run v debug s c = (ls, Ok s') /\ card_report v debug c ls /\
    (fst s' = zlen (cs ++ [c]) /\ exists n, count_of invalid_card (cs ++ [c]) n /\ snd s' = e0 + n).
Proof.
  intros T (I1 & n & I2 & I3). destruct (parse_report v debug s c T) as (ls & s' & E & R & EP). exists ls, s'. split; [exact E|]. split; [exact R|].
  destruct s as [l e]. cbn [fst snd] in I1, I3. rewrite zlen_app. change (zlen [c]) with 1.
  destruct (parse_step l e c T) as [(IC & X)|(IC & X)]; rewrite EP in X; injection X as ->; cbn [fst snd]; (split; [lia|]).
  - exists (n + 1). split; [|lia]. eapply count_snoc; [exact I2|left; auto].
  - exists n. split; [|exact I3]. eapply count_snoc; [exact I2|right; auto].
Qed.
Lemma C120_transcript_pf : forall upper rep card_rep fuel fs v debug files css last_cs n, files <> [] ->
  Forall2 (source_cards fuel fs) files css -> plain_names files -> (exists before, css = before ++ [last_cs]) ->
  count_of (fun c => ~ starred c /\ exists m, instr_is c m /\ ~ In m INSTRUCTIONS) (concat css) n ->
  exists tables ls ms, parse_run upper rep card_rep fuel fs v debug files =
      (tables ++ ls ++ [OutL (10 :: lit "Source lines: " ++ str_of_Z (zlen (concat css))); OutL (error_count (zlen ms + n))], Ok tt) /\
    tables_report upper rep card_rep fuel fs v files tables /\ files_report fuel fs v debug files ls /\ reported upper last_cs ms.
Proof.
  intros upper rep card_rep fuel fs v debug files css last_cs n NE F PN (before & EL) CN.
  destruct (tables_run upper rep card_rep fuel fs v files css [] 0 0 F PN plain_nil) as (tables & tab & tot & k & ET & RT & _ & LT).
  rewrite EL, rev_app_distr in LT. cbn [rev app] in LT. destruct LT as (ms & RM & ->).
  destruct (files_fold (parse_card_run v debug) (fun cs s => fst s = zlen cs /\ exists n, count_of invalid_card cs n /\ snd s = zlen ms + n)
              v debug (parse_inv_step v debug (zlen ms)) fuel fs files css [] (0, zlen ms) F)
    as (ls & s & E & R & I1 & n' & I2 & I3).
  { split; [reflexivity|]. exists 0. split; [constructor|cbn [snd]; lia]. }
  cbn [app] in I1, I2. assert (n' = n) by exact (count_unique _ _ _ _ I2 CN). subst n'.
  exists tables, ls, ms. split; [|auto]. unfold parse_run. change (build_files_run upper rep card_rep fuel fs v true files = (tables, Ok (tab, tot, zlen ms))) in ET.
  destruct files as [|f files]; [contradiction|]. rewrite ET, bind_ok. cbn [fst snd]. rewrite E, bind_ok. cbn [fst snd]. rewrite I1, I3. reflexivity.
Qed.
(*@ Example C120_transcript_ex :
  let fs := fun f => if eqb f (lit "p.a") then Some (lit "        A,B,C      DEC          1" ++ [10] ++ lit "                   FOO          1" ++ [10])
                     else if eqb f (lit "q.a") then Some (lit "        L,X        DEC          1" ++ [10] ++ lit "       *           FOO" ++ [10]) else None in
  parse_run (fun s => s) quoted a_card 2 fs false true [lit "p.a"; lit "q.a"] =
    ([ErrL (lit "*** ERROR: Symbol A,B,C is illegal, too many commas!");
      ErrL (lit "Current definition: {'file': 'p.a', 'line': 1, 'lognum': None, 'tagtype': ' ', 'card': <card>}"); ErrL (lit "p.a: 1 errors encountered building symbol table.");
      ErrL (lit "*** ERROR: Symbol L,X has unsupported tag prefix!");
      ErrL (lit "Current definition: {'file': 'q.a', 'line': 1, 'lognum': None, 'tagtype': ' ', 'card': <card>}"); ErrL (lit "q.a: 1 errors encountered building symbol table.");
      OutL (lit "p.a 1         A,B,C      DEC          1"); OutL (lit "p.a 2                    FOO          1");
      OutL (lit "*** ERROR: Invalid instruction ""FOO"":"); OutL (lit "File p.a, line 2:                    FOO          1");
      OutL (lit "q.a 1         L,X        DEC          1"); OutL (lit "q.a 2        *           FOO");
      OutL (10 :: lit "Source lines: 4"); OutL (lit "2 errors encountered.")], Ok tt).
Proof. vm_compute. reflexivity. Qed. @*)
Lemma C120_missing_pf : forall upper rep card_rep fuel fs v debug pre css f post,
  Forall2 (source_cards fuel fs) pre css -> plain_names pre -> load fuel fs f = Err SystemExit ->
  exists ls log m, parse_run upper rep card_rep fuel fs v debug (pre ++ f :: post) =
      (ls ++ (if v then log else []) ++ [ErrL m], Err SystemExit) /\
    tables_report upper rep card_rep fuel fs v pre ls /\ stops_at fs f log m.
Proof.
  intros upper rep card_rep fuel fs v debug pre css f post F PN H.
  destruct (tables_run upper rep card_rep fuel fs v pre css [] 0 0 F PN plain_nil) as (ls & tab & tot & k & E & R & _).
  assert (X : exists log m, load_run fuel fs v f = ((if v then log else []) ++ [ErrL m], Err SystemExit) /\ stops_at fs f log m).
  { pose proof (load_run_snd fuel fs v f) as B. rewrite H in B. destruct (load_run fuel fs v f) as [out r] eqn:EL. cbn [snd] in B. subst r.
    destruct (C118_only_pf _ _ _ _ _ EL) as (log & m & S & ->). eauto. }
  destruct X as (log & m & EL & S). exists ls, log, m. split; [|auto].
  unfold parse_run. destruct (pre ++ f :: post) as [|y ys] eqn:EP; [destruct pre; discriminate|]. rewrite <- EP.
  unfold build_files_run at 1. rewrite io_fold_app. change (build_files_run upper rep card_rep fuel fs v true pre = (ls, Ok (tab, tot, k))) in E.
  fold (build_files_run upper rep card_rep fuel fs v true pre). rewrite E, bind_ok. cbn [io_fold fst snd].
  assert (EB : dump_table_run upper rep card_rep fuel fs f tab = ([], tab, Err SystemExit)).
  { unfold load in H. unfold dump_table_run. cbv zeta.
    destruct (argus_deck_new fuel fs None (Some f) DEFAULT_WIDTH DEFAULT_FIELDS ArgusCls) as [[[d sec] c8]|e]; cbn [bind] in H; [discriminate|].
    congruence. }
  assert (BV : build_verbose upper rep card_rep fuel fs v tab f = ((if v then log else []) ++ [ErrL m], Err SystemExit)).
  { unfold build_verbose. rewrite EB, EL. cbn [fst map]. rewrite app_nil_r. reflexivity. }
  rewrite !BV. unfold io_bind. cbn [fst snd]. reflexivity.
Qed.
(*@ Example C120_missing_ex :
  let fs := fun f => if eqb f (lit "p.a") then Some (lit "$x" ++ [10]) else None in
  parse_run (fun s => s) quoted a_card 2 fs true true [lit "p.a"; lit "q.a"] =
    ([OutL (lit "Reading p.a..."); ErrL (lit "File ""x"" does not exist")], Err SystemExit).
Proof. vm_compute. reflexivity. Qed. @*)

(** making an Instruction *)
Lemma digits_head b fuel : 2 <= b -> forall n acc, 0 < n < 2 ^ Z.of_nat fuel -> forall r, digits_of b fuel n acc <> 48 :: r.
Proof.
  intros Hb. induction fuel as [|f IH]; intros n acc H r; [change (2 ^ Z.of_nat 0) with 1 in H; lia|]. cbn [digits_of].
  destruct (Z.eqb_spec (n / b) 0) as [E|E].
  - intros X. injection X as X _. apply Z.div_small_iff in E; [|lia]. rewrite Z.mod_small in X by lia. lia.
  - apply IH. assert (0 <= n / b) by (apply Z.div_pos; lia). rewrite Nat2Z.inj_succ, Z.pow_succ_r in H by lia.
    assert (n / b <= n / 2) by (apply Z.div_le_compat_l; lia). assert (n / 2 < 2 ^ Z.of_nat f) by (apply Z.div_lt_upper_bound; lia). lia.
Qed.
Lemma numeral_decimal n : 0 <= n -> decimal (numeral 10 n) n.
Proof.
  intros H. split; [|split].
  - intros E. pose proof (numeral_spell 10 n ltac:(lia) H) as S. unfold numeral in *. cbn [digits_of] in *.
    destruct (n / 10 =? 0); [discriminate|]. rewrite E in S. cbn in S. subst n. discriminate E.
  - eapply Forall_impl; [|apply (numeral_dig 10 n); lia]. intros c D. unfold dig in D. lia.
  - rewrite <- (numeral_spell 10 n) at 2 by lia. unfold spell. generalize 0. induction (numeral 10 n) as [|c s IH]; intros a; [reflexivity|].
    cbn [fold_left]. rewrite IH. f_equal. lia.
Qed.
Lemma shown_ok o : shown o (opt_text o).
Proof.
  destruct o as [z|]; [|constructor]. cbn [opt_text]. unfold str_of_Z.
  assert (Z0 : forall m, 0 < m -> forall r, numeral 10 m <> 48 :: r) by
    (intros m P; apply digits_head; [lia|split; [lia|apply numeral_fuel; lia]]).
  destruct (Z.ltb_spec z 0).
  - constructor.
    + right. eexists. split; [reflexivity|]. split; [lia|]. apply numeral_decimal. lia.
    + intros r E. discriminate E.
    + intros r E. injection E as E. apply (Z0 (- z)) in E; [exact E|lia].
  - pose proof (numeral_decimal z ltac:(lia)) as D. constructor.
    + left. exact D.
    + intros r E. destruct (Z.eq_dec z 0) as [->|N]; [cbn in E; injection E as <-; reflexivity|apply Z0 in E; [destruct E|lia]].
    + intros r E. destruct D as (_ & F & _). rewrite E in F. inversion F. lia.
Qed.
Lemma instr_run_line o x : exists t, instr_run o x = ([OutL t], instr_new o x) /\ instruction_line o x t.
Proof.
  eexists. split; [reflexivity|].
  match goal with |- instruction_line _ _ ?t =>
    assert (E : t = lit "opcode:Opcode(m='" ++ o_m o ++ lit "', c='" ++ o_c o ++ lit "', b23=" ++ opt_text (o_b23 o) ++ lit ", b7=" ++
       opt_text (o_b7 o) ++ lit ", op=" ++ opt_text (o_op o) ++ lit ", type='" ++ o_type o ++ lit "') sequence:" ++ opt_text (sequence x) ++
       lit " mask:" ++ opt_text (mask x) ++ lit " a=" ++ opt_text (arg_a x) ++ lit " b=" ++ opt_text (arg_b x) ++
       lit " c=" ++ opt_text (arg_c x) ++ lit " paddr=" ++ opt_text (paddr x)) by
      (unfold opcode_text; rewrite <- !app_assoc; reflexivity) end.
  rewrite E. constructor; apply shown_ok.
Qed.
Lemma class_args_ok c k : class_call c k = (do p <- class_args c k; instr_new (fst p) (snd p)).
Proof.
  unfold class_call, class_args. destruct (dget CLASSES c) as [[sig m]|]; [|reflexivity]. destruct (dindex OPCODES m) as [o|e]; [|reflexivity].
  cbn [bind]. unfold no_param, required, default_none.
  destruct sig, k as [[s|] [mk|] [a|] [b|] [d|] [p|]]; cbn [kw_sequence kw_mask kw_a kw_b kw_c kw_paddr bind fst snd]; reflexivity.
Qed.
Lemma class_args_err c k e : class_args c k = Err e -> e = NameError \/ e = TypeError \/ e = KeyError.
Proof.
  unfold class_args. destruct (dget CLASSES c) as [[sig m]|]; [|intros E; left; congruence].
  destruct (dindex OPCODES m) as [o|e'] eqn:D.
  2:{ intros E. right. right. unfold dindex in D. destruct (dget OPCODES m); cbn [bind] in E; congruence. }
  cbn [bind]. unfold no_param, required, default_none.
  destruct sig, k as [[s|] [mk|] [a|] [b|] [d|] [p|]]; cbn [kw_sequence kw_mask kw_a kw_b kw_c kw_paddr bind]; intros E;
    (discriminate || (right; left; congruence)).
Qed.
Lemma class_ops c k o x : class_args c k = Ok (o, x) -> exists op, o_op o = Some op.
Proof.
  assert (P : forallb (fun q => match dget OPCODES (snd (snd q)) with Some o => given (o_op o) | None => true end) CLASSES = true)
    by (vm_compute; reflexivity).
  intros E. unfold class_args in E. destruct (dget CLASSES c) as [[sig m]|] eqn:D; [|discriminate].
  apply dget_Some_In in D. rewrite forallb_forall in P. apply P in D. cbn [snd] in D. unfold dindex in E.
  destruct (dget OPCODES m) as [o'|]; cbn [bind] in E; [|discriminate].
  assert (o = o').
  { revert E. unfold no_param, required, default_none.
    destruct sig, k as [[s|] [mk|] [a|] [b|] [d|] [p|]]; cbn [kw_sequence kw_mask kw_a kw_b kw_c kw_paddr bind]; congruence. }
  subst o'. destruct (o_op o) as [op|]; [eauto|discriminate].
Qed.
Lemma class_opcode c k o x : class_args c k = Ok (o, x) -> dget OPCODES (o_m o) = Some o.
Proof.
  assert (P : forallb (fun q => eqb (o_m (snd q)) (fst q)) OPCODES = true) by (vm_compute; reflexivity).
  intros E. unfold class_args in E. destruct (dget CLASSES c) as [[sig m]|] eqn:D; [|discriminate]. clear D. unfold dindex in E.
  destruct (dget OPCODES m) as [o'|] eqn:D; cbn [bind] in E; [|discriminate].
  assert (o = o').
  { revert E. unfold no_param, required, default_none.
    destruct sig, k as [[s|] [mk|] [a|] [b|] [d|] [p|]]; cbn [kw_sequence kw_mask kw_a kw_b kw_c kw_paddr bind]; congruence. }
  subst o'. pose proof (dget_Some_In _ _ _ D) as I. rewrite forallb_forall in P. apply P in I. cbn [fst snd] in I. apply eqb_ok in I. rewrite I. exact D.
Qed.
Lemma class_no_key c k : class_args c k <> Err KeyError.
Proof.
  assert (P : forallb (fun q => dmem OPCODES (snd (snd q))) CLASSES = true) by (vm_compute; reflexivity).
  unfold class_args. destruct (dget CLASSES c) as [[sig m]|] eqn:D; [|discriminate].
  apply dget_Some_In in D. rewrite forallb_forall in P. apply P in D. cbn [snd] in D. unfold dmem in D. unfold dindex.
  destruct (dget OPCODES m) as [o'|]; cbn [bind]; [|discriminate]. unfold no_param, required, default_none.
  destruct sig, k as [[s|] [mk|] [a|] [b|] [d|] [p|]]; cbn [kw_sequence kw_mask kw_a kw_b kw_c kw_paddr bind]; discriminate.
Qed.
Lemma class_new_cases c k o x : class_args c k = Ok (o, x) ->
  (exists i, instr_new o x = Ok i /\ i_opcode i = o /\ i_args i = x) \/ instr_new o x = Err ValueError.
Proof.
  intros E. destruct (class_ops c k o x E) as (op & O). destruct (acceptable_dec o x) as [A|A].
  - left. destruct (instr_new_ok o x op A O) as [E' _]. rewrite E'. eauto.
  - right. exact (@instr_new_err o x op A O).
Qed.
Lemma C122_silent_refuted_pf : forall c k i, class_call c k = Ok i ->
  exists t, class_run c k = ([OutL t], Ok i) /\ instruction_line (i_opcode i) (i_args i) t.
Proof.
  intros c k i E. rewrite class_args_ok in E. unfold class_run. destruct (class_args c k) as [[o x]|e] eqn:A; cbn [bind] in E; [|discriminate].
  cbn [fst snd] in E. destruct (instr_run_line o x) as (t & R & L). rewrite R, E. exists t. split; [reflexivity|].
  destruct (class_new_cases c k o x A) as [(j & J & JO & JX)|J]; rewrite E in J; [|discriminate]. injection J as <-. rewrite JO, JX. exact L.
Qed.
(*@ Example C122_silent_refuted_ex :
  let k := mkkw (Some (Some 1)) (Some (Some 19)) None None None None in
  match class_run (lit "BinaryAdd") k with
  | (out, Ok i) => instr_value i = 3305 /\ out =
      [OutL (lit "opcode:Opcode(m='BA', c='BinaryAdd', b23=2, b7=1, op=9, type='maskable') sequence:1 mask:19 a=None b=None c=None paddr=None")]
  | _ => False
  end.
Proof. vm_compute. auto. Qed. @*)
Lemma C122_failed_partial_pf : forall c k, class_call c k = Err ValueError ->
  exists o x t, class_run c k = ([OutL t], Err ValueError) /\ instruction_line o x t /\ dget OPCODES (o_m o) = Some o.
Proof.
  intros c k E. rewrite class_args_ok in E. unfold class_run. destruct (class_args c k) as [[o x]|e] eqn:A; cbn [bind] in E.
  - cbn [fst snd] in E. destruct (instr_run_line o x) as (t & R & L). rewrite R, E. exists o, x, t. split; [reflexivity|]. split; [exact L|].
    exact (class_opcode c k o x A).
  - exfalso. destruct (class_args_err c k e A) as [->|[->| ->]]; discriminate.
Qed.
(*@ Example C122_failed_partial_ex :
  class_run (lit "ReadForward") (mkkw None None None None None (Some (Some 64))) =
    ([OutL (lit "opcode:Opcode(m='RF', c='ReadForward', b23=None, b7=1, op=26, type='peripheral') sequence:None mask:None a=None b=None c=None paddr=64")],
     Err ValueError).
Proof. vm_compute. reflexivity. Qed. @*)
Lemma C122_unbound_partial_pf : forall c k,
  fst (class_run c k) = [] <-> class_call c k = Err TypeError \/ class_call c k = Err NameError.
Proof.
  intros c k. rewrite class_args_ok. unfold class_run. destruct (class_args c k) as [[o x]|e] eqn:A; cbn [bind fst snd].
  - destruct (instr_run_line o x) as (t & R & _). rewrite R. cbn [fst]. split; [discriminate|].
    destruct (class_new_cases c k o x A) as [(j & J & _)|J]; rewrite J; intros [X|X]; discriminate.
  - split; [|reflexivity]. intros _. destruct (class_args_err c k e A) as [->|[->| ->]]; auto. exfalso. exact (class_no_key c k A).
Qed.
(*@ Example C122_unbound_partial_ex :
  class_run (lit "BinaryAdd") (mkkw None None None None None (Some (Some 1))) = ([], Err TypeError) /\
  class_run (lit "Proceed") (mkkw None None None None None None) <> ([], Err TypeError).
Proof. split; [vm_compute; reflexivity|vm_compute; discriminate]. Qed. @*)
