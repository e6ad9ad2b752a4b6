(** Memory banks with arguments of any type. *)
From Verif Require Import Py LPy MBitField MWord MMemory MDyn SDyn LDyn MDynMem SDynMem.

Lemma same_veq v n k : same_number v n -> veq v k = (k =? n).
Proof.
  destruct v as [z|f|t]; cbn [same_number].
  - intros ->. rewrite veq_int. apply Z.eqb_sym.
  - intros H. rewrite equals_spec. destruct f as [q|[]|]; try discriminate. cbn [equals] in *.
    apply Qeq_bool_iff in H. destruct (Z.eqb_spec k n) as [->|N]; [now apply Qeq_bool_iff|].
    apply not_true_iff_false. rewrite Qeq_bool_iff, H. intros E. apply N. unfold Qeq in E. cbn in E. lia.
  - tauto.
Qed.
Lemma find_map_dget (d : dict Z word) v n : same_number v n ->
  find (fun kv : Z * tf => veq v (fst kv)) (map (fun kv => (fst kv, of_bf (snd kv))) d)
  = match dget d n with Some w => Some (n, of_bf w) | None => None end.
Proof.
  intros H. induction d as [|[k w] d IH]; [reflexivity|]. cbn [map find fst snd dget].
  rewrite (same_veq v n k H). change (Py.eqb k n) with (k =? n).
  destruct (Z.eqb_spec k n) as [->|N]; [reflexivity|exact IH].
Qed.
Lemma tlookup_as m v h n : same_number v n ->
  tlookup (tb_data (of_bank m)) v h = of_res (fun w => (n, of_bf w)) (dindex (mb_data m) n).
Proof.
  intros H. unfold tlookup, of_bank, dindex; cbn [tb_data].
  destruct v as [z|f|t]; [| |destruct H]; rewrite (find_map_dget _ _ n H); destruct (dget (mb_data m) n); reflexivity.
Qed.
Lemma dset_map (d : dict Z word) k w :
  dset (map (fun kv => (fst kv, of_bf (snd kv))) d) k (of_bf w)
  = map (fun kv => (fst kv, of_bf (snd kv))) (dset d k w).
Proof.
  induction d as [|[k' w'] d IH]; [reflexivity|]. cbn [map dset fst snd].
  destruct (Py.eqb k' k); [reflexivity|]. cbn [map fst snd]. now rewrite IH.
Qed.
Lemma word_taken A w v z : a_word w -> taken_as v z ->
  tword_set_value A (of_bf w) v = of_out (word_set_value w z).
Proof.
  intros W H. destruct (C199_words_pf A) as [_ [H1 [H2 H3]]].
  destruct v as [n|[q|s|]|t]; cbn [taken_as] in H.
  - subst z. unfold tword_set_value, word_set_value, tword_check, word_check.
    rewrite vlt_int; cbn [tbind]. destruct (n <? 0); [reflexivity|]. rewrite vgt_int; cbn [tbind orb].
    destruct (n >? 2 ^ 48 - 1); [reflexivity|]. apply tset_value_int.
  - destruct (Qle_bool 0 q) eqn:E0, (Qle_bool q (inject_Z (2 ^ 48 - 1))) eqn:E1; cbn [andb] in H.
    + apply Qle_bool_iff in E0. pose proof E1 as E1'. apply Qle_bool_iff in E1.
      destruct (H1 w q W (conj E0 E1)) as [z' [Wz ->]]. assert (z' = z) as -> by (eapply whole_unique; eauto).
      assert (z <= 2 ^ 48 - 1) by (apply (whole_le q z); [assumption| |lia]; cbn [above]; now rewrite E1').
      assert (0 <= z).
      { destruct H as [H _]. destruct (H E0) as [_ L]. assert (inject_Z 0 < inject_Z (z + 1))%Q as K.
        { eapply Qle_lt_trans; [exact E0|exact L]. } rewrite <- Zlt_Qlt in K. lia. }
      destruct W as [Ww [Wm _]]. unfold word_set_value, word_check.
      destruct (Z.ltb_spec z 0); [lia|]. destruct (Z.gtb_spec z (2 ^ 48 - 1)); [lia|]. cbn [orb].
      unfold bf_set_value, checkValue. rewrite Ww, Wm. change (48 <? 0) with false. change (48 >? 2 ^ 48 - 1) with false.
      cbn [orb]. destruct (Z.gtb_spec z (2 ^ 48)); [lia|reflexivity].
    + subst z. rewrite H2; [reflexivity|]. intros [_ K]. apply Qle_bool_iff in K. congruence.
    + subst z. rewrite H2; [reflexivity|]. intros [K _]. apply Qle_bool_iff in K. congruence.
    + subst z. rewrite H2; [reflexivity|]. intros [K _]. apply Qle_bool_iff in K. congruence.
  - subst z. destruct s; reflexivity.
  - subst z. unfold tword_set_value. cbn [tword_check vlt vgt vcmp tbind fcmp]. unfold tf_set_value.
    change (tf_width (of_bf w)) with (VI (bf_width w)). rewrite value_float. destruct (_ || _); reflexivity.
  - tauto.
Qed.
Lemma tcell_get_as m v h n : same_number v n ->
  tcell_get (of_bank m) v h = of_res (fun x => x) (cell_get m n).
Proof.
  intros H. unfold tcell_get, cell_get. rewrite (tlookup_as m v h n H).
  destruct (dindex (mb_data m) n); reflexivity.
Qed.
Lemma all_words_dset m n w c : all_words m -> a_word w ->
  all_words (mkbank (dset (mb_data m) n w) (mb_width m) c).
Proof.
  intros H W. unfold all_words in *. cbn [mb_data]. revert H. generalize (mb_data m). intros d H'.
  induction d as [|[k y] d IH]; cbn [dset].
  - intros a x [E|[]]. congruence.
  - destruct (Py.eqb k n).
    + intros a x [E|I]; [congruence|]. apply (H' a x). now right.
    + intros a x [E|I]; [apply (H' a x); now left|]. refine (IH _ a x I).
      intros a' x' I'. apply (H' a' x'). now right.
Qed.
Lemma set_value_word w z : a_word w -> a_word (fst (word_set_value w z)).
Proof.
  intros W. unfold word_set_value. destruct (word_check z); [|exact W].
  unfold bf_set_value. destruct (checkValue w z (bf_width w)); exact W.
Qed.
Lemma tcell_set_as A m v h n x z : all_words m -> same_number v n -> taken_as x z ->
  tcell_set A (of_bank m) v h x
  = (of_bank (fst (cell_set m n z)), of_res (fun x => x) (snd (cell_set m n z))) /\
  all_words (fst (cell_set m n z)).
Proof.
  intros W H T. unfold tcell_set, cell_set. rewrite (tlookup_as m v h n H).
  unfold dindex. destruct (dget (mb_data m) n) as [w|] eqn:E; cbn [of_res].
  - assert (a_word w) as Ww by (apply (W n), (dget_Some_In (mb_data m) n w E)).
    rewrite (word_taken A w x z Ww T). unfold of_out.
    pose proof (set_value_word w z Ww) as W'.
    destruct (word_set_value w z) as [w' r]; cbn [fst snd] in *. split.
    + unfold of_bank; cbn [tb_data tb_current mb_data mb_current]. now rewrite <- dset_map.
    + now apply all_words_dset.
  - split; [reflexivity|exact W].
Qed.
Lemma tcells_get_as m l : tcells_get (of_bank m) l = of_res (fun x => x) (cells_get m l).
Proof.
  induction l as [|a l IH]; [reflexivity|]. cbn [tcells_get cells_get].
  rewrite (tcell_get_as m (VI a) true a eq_refl). destruct (cell_get m a); cbn [of_res tbind bind]; [|reflexivity].
  rewrite IH. destruct (cells_get m l); reflexivity.
Qed.
Lemma tcells_set_as A x z l : taken_as x z -> forall m, all_words m ->
  tcells_set A (of_bank m) l x
  = (of_bank (fst (cells_set m l z)), of_res (fun x => x) (snd (cells_set m l z))) /\
  all_words (fst (cells_set m l z)).
Proof.
  intros T. induction l as [|a l IH]; intros m W; [split; [reflexivity|exact W]|].
  cbn [tcells_set cells_set]. destruct (tcell_set_as A m (VI a) true a x z W eq_refl T) as [E W'].
  rewrite E. destruct (cell_set m a z) as [m' [u|e]]; cbn [fst snd of_res] in *; [now apply IH|].
  split; [reflexivity|exact W'].
Qed.
Lemma setitem_as A m k k' x z : all_words m -> key_as k k' -> taken_as x z ->
  tbank_setitem A (of_bank m) k x
  = (of_bank (fst (bank_setitem m k' z)), of_res (fun x => x) (snd (bank_setitem m k' z))) /\
  all_words (fst (bank_setitem m k' z)).
Proof.
  intros W K T. destruct K as [v h n H|s e os oe Hs He]; cbn [tbank_setitem bank_setitem].
  - now apply tcell_set_as.
  - destruct s as [s|s|s], e as [e|e|e]; cbn [bound] in Hs, He; subst; cbn [vrange];
      try (split; [reflexivity|exact W]).
    now apply tcells_set_as.
Qed.
Lemma unit_as p q : p = (of_bank (fst q), of_res (fun x : unit => x) (snd q)) -> all_words (fst q) ->
  tunit p = of_call_out (unit_out q) /\ all_words (fst (unit_out q)).
Proof.
  intros -> W. destruct q as [m' [u|e]]; cbn [fst snd of_res] in *; cbn; auto.
Qed.
Lemma call_as_ok A m c c' : all_words m -> call_as c c' ->
  tbank_call A (of_bank m) c = of_call_out (bank_call m c') /\ all_words (fst (bank_call m c')).
Proof.
  intros W H. destruct H as [k k' K|k k' v z K T| | | |a v z T]; cbn [tbank_call bank_call].
  - split; [|exact W]. unfold of_call_out; cbn [fst snd]. f_equal.
    destruct K as [v h n H|s e os oe Hs He]; cbn [tbank_getitem bank_getitem].
    + rewrite (tcell_get_as m v h n H). destruct (cell_get m n); reflexivity.
    + destruct s as [s|s|s], e as [e|e|e]; cbn [bound] in Hs, He; subst; cbn [vrange tbind]; try reflexivity.
      apply tcells_get_as.
  - destruct (setitem_as A m k k' v z W K T) as [E W'].
    destruct (unit_as _ (bank_setitem m k' z) E W') as [R R']. auto.
  - assert (dkeys (tb_data (of_bank m)) = dkeys (mb_data m)) as D.
    { unfold dkeys, of_bank; cbn [tb_data]. rewrite map_map. reflexivity. }
    unfold tbank_clear. rewrite D. destruct (tcells_set_as A (VI 0) 0 (dkeys (mb_data m)) eq_refl m W) as [E W'].
    destruct (unit_as _ (bank_clear m) E W') as [R R']. auto.
  - split; [|exact W]. unfold of_call_out, bank_len, zlen, of_bank; cbn. now rewrite map_length.
  - assert (zlen (tb_data (of_bank m)) = zlen (mb_data m)) as L.
    { unfold zlen, of_bank; cbn [tb_data]. now rewrite map_length. }
    unfold tbank_next, bank_next. rewrite L. change (tb_current (of_bank m)) with (mb_current m).
    unfold of_call_out. rewrite (tlookup_as m (VI (mb_current m)) true (mb_current m) eq_refl).
    destruct (mb_current m >=? zlen (mb_data m)); [split; [reflexivity|exact W]|].
    cbn [fst snd]. split; [|exact W]. f_equal.
    destruct (dindex (mb_data m) (mb_current m)); reflexivity.
  - destruct (tcell_set_as A m (VI a) true a v z W eq_refl T) as [E W'].
    destruct (unit_as _ (bank_ref_write m a z) E W') as [R R']. auto.
Qed.
Lemma veq_same v k : is_obj v = false -> veq v k = true -> same_number v k.
Proof.
  destruct v as [z|f|t]; cbn [is_obj same_number]; [|rewrite equals_spec; auto|discriminate].
  intros _. rewrite veq_int. apply Z.eqb_eq.
Qed.
Lemma number_dec v : (exists n, same_number v n) \/ (forall n, ~ same_number v n).
Proof.
  destruct v as [z|[q|s|]|t]; cbn [same_number equals].
  - left; eauto.
  - destruct (Qeq_bool q (inject_Z (Z.quot (Qnum q) (Zpos (Qden q))))) eqn:E; [left; eauto|right].
    intros n H. apply Qeq_bool_iff in H.
    assert (whole q n) as Wn.
    { split; intros _; rewrite H; split; try apply Qle_refl; rewrite <- Zlt_Qlt; lia. }
    rewrite (whole_unique q _ n (whole_quot q) Wn) in E.
    rewrite <- not_true_iff_false, Qeq_bool_iff in E. tauto.
  - right; discriminate.
  - right; discriminate.
  - right; tauto.
Qed.
Lemma lookup_none (d : dict Z tf) v h : (forall n, ~ same_number v n) ->
  exists e, tlookup d v h = TErr (PyExn e) /\ (e = KeyError \/ e = TypeError).
Proof.
  intros H. unfold tlookup.
  assert (is_obj v = false -> find (fun kv => veq v (fst kv)) d = None) as F.
  { intros O. induction d as [|[k w] d IH]; [reflexivity|]. cbn [find fst].
    destruct (veq v k) eqn:E; [|exact IH]. exfalso. apply (H k). now apply veq_same. }
  destruct v as [z|f|t].
  - rewrite F by reflexivity. eauto.
  - rewrite F by reflexivity. eauto.
  - destruct h; eauto.
Qed.
Lemma object_cell A m v h t :
  fst (tcell_set A (of_bank m) v h (VO t)) = of_bank m /\
  exists e, snd (tcell_set A (of_bank m) v h (VO t)) = TErr (PyExn e).
Proof.
  unfold tcell_set. destruct (number_dec v) as [[n H]|H].
  - rewrite (tlookup_as m v h n H). unfold dindex.
    destruct (dget (mb_data m) n) as [w|] eqn:E; cbn [of_res]; [|split; [reflexivity|eexists; reflexivity]].
    change (tword_set_value A (of_bf w) (VO t)) with (of_bf w, @TErr unit (PyExn TypeError)).
    cbn [fst snd]. split; [|eexists; reflexivity]. unfold of_bank at 2. cbn [tb_data tb_current of_bank].
    rewrite dset_map, dset_same by exact E. reflexivity.
  - destruct (lookup_none (tb_data (of_bank m)) v h H) as [e [-> _]]. split; [reflexivity|eexists; reflexivity].
Qed.
Lemma object_item A m k t :
  fst (tbank_setitem A (of_bank m) k (VO t)) = of_bank m /\
  ((exists e, snd (tbank_setitem A (of_bank m) k (VO t)) = TErr (PyExn e)) \/
   (to_nothing (XSet k (VO t)) /\ snd (tbank_setitem A (of_bank m) k (VO t)) = TOk tt)).
Proof.
  destruct k as [v h|s e]; cbn [tbank_setitem].
  - destruct (object_cell A m v h t) as [H1 H2]. auto.
  - destruct s as [s|s|s], e as [e|e|e]; cbn [vrange fst snd]; eauto.
    destruct (py_range s e) as [|a l] eqn:R; cbn [tcells_set].
    + split; [reflexivity|right]. split; [|reflexivity]. cbn [to_nothing].
      destruct (Z_le_gt_dec e s) as [L|G]; [exact L|exfalso].
      assert (In s (py_range s e)) as I by (apply py_range_In; lia). rewrite R in I. destruct I.
    + destruct (object_cell A m (VI a) true t) as [H1 [x H2]].
      destruct (tcell_set A (of_bank m) (VI a) true (VO t)) as [m' r]; cbn [fst snd] in *. subst r m'.
      cbn [fst snd]. eauto.
Qed.

(** Every call is a call with ints or a foreign one; a foreign one changes nothing and
    raises, unless it assigns to no word at all. *)
Lemma C200_calls_partial_pf : forall A m c, all_words m ->
  ((exists c', call_as c c') \/ foreign c) /\
  (forall c', call_as c c' ->
     tbank_call A (of_bank m) c = of_call_out (bank_call m c') /\ all_words (fst (bank_call m c'))) /\
  (foreign c ->
     fst (tbank_call A (of_bank m) c) = of_bank m /\
     ((exists e, snd (tbank_call A (of_bank m) c) = TErr (PyExn e)) \/
      (to_nothing c /\ snd (tbank_call A (of_bank m) c) = TOk []))).
Proof.
  intros A m c.
  intros W. split; [|split].
  - assert (forall k, (exists k', key_as k k') \/ no_address k) as K.
    { intros [v h|s e].
      - destruct (number_dec v) as [[n H]|H]; [left; exists (Idx n); now constructor|right; exact H].
      - left. exists (Slice (match s with VI z => Some z | _ => None end) (match e with VI z => Some z | _ => None end)).
        constructor; [destruct s|destruct e]; reflexivity. }
    assert (forall v, (exists z, taken_as v z) \/ exists t, v = VO t) as V.
    { intros [z|[q|s|]|t]; cbn [taken_as]; [left; eauto| |left; eauto|left; eauto|right; eauto].
      left. destruct (_ && _); [|eauto]. eexists; apply whole_quot. }
    destruct c as [k|k v| | | |a v]; cbn [foreign].
    + destruct (K k) as [[k' H]|H]; [left; eexists; constructor; exact H|now right].
    + destruct (K k) as [[k' H]|H]; [|right; now left].
      destruct (V v) as [[z T]|T]; [left; eexists; econstructor; eassumption|right; now right].
    + left; eexists; constructor.
    + left; eexists; constructor.
    + left; eexists; constructor.
    + destruct (V v) as [[z T]|T]; [left; eexists; econstructor; eassumption|now right].
  - intros c' H. now apply call_as_ok.
  - destruct c as [k|k v| | | |a v]; cbn [foreign]; try tauto.
    + intros N. destruct k as [v h|]; [|destruct N]. cbn [tbank_call tbank_getitem fst snd].
      split; [reflexivity|left]. unfold tcell_get.
      destruct (lookup_none (tb_data (of_bank m)) v h N) as [e [-> _]]. cbn. eauto.
    + intros N. cbn [tbank_call].
      assert (fst (tbank_setitem A (of_bank m) k v) = of_bank m /\
              ((exists e, snd (tbank_setitem A (of_bank m) k v) = TErr (PyExn e)) \/
               (to_nothing (XSet k v) /\ snd (tbank_setitem A (of_bank m) k v) = TOk tt))) as [E1 E2].
      { destruct N as [N|[t ->]]; [|apply object_item].
        destruct k as [x h|]; [|destruct N]. cbn [tbank_setitem]. unfold tcell_set.
        destruct (lookup_none (tb_data (of_bank m)) x h N) as [e [-> _]]. cbn. eauto. }
      destruct (tbank_setitem A (of_bank m) k v) as [m' r]; cbn [fst snd] in *. subst m'. cbn [tunit fst snd].
      split; [reflexivity|]. destruct E2 as [[e ->]|[T ->]]; cbn; eauto.
    + intros [t ->]. cbn [tbank_call]. destruct (object_cell A m (VI a) true t) as [E1 [e E2]].
      destruct (tcell_set A (of_bank m) (VI a) true (VO t)) as [m' r]; cbn [fst snd] in *. subst. cbn. eauto.
Qed.
Lemma fold_map_dset w l : forall d : dict Z word,
  fold_left (fun d addr => dset d addr (of_bf w)) l (map (fun kv => (fst kv, of_bf (snd kv))) d)
  = map (fun kv => (fst kv, of_bf (snd kv))) (fold_left (fun d addr => dset d addr w) l d).
Proof. induction l as [|a l IH]; intros d; [reflexivity|]. cbn [fold_left]. rewrite dset_map. apply IH. Qed.
(** A new bank, and any history on it: the words hold ints for ever. *)
Lemma C200_history_pf : forall A,
  (exists m, bank_new = Ok m /\ tbank_new A = TOk (of_bank m) /\ all_words m) /\
  (forall cs, exists cs', calls_as cs cs') /\
  (forall m cs cs', all_words m -> calls_as cs cs' ->
     snd (tbank_trace A (of_bank m) cs) = of_bank (bank_run m cs')).
Proof.
  intros A.
  repeat apply conj.
  - set (w := mkbf 48 (2 ^ 48 - 1) 0 MSB_1 MSB_LEFT).
    assert (word_new 0 = Ok w) as Hw by reflexivity.
    assert (tword_new A (VI 0) = TOk (of_bf w)) as Ht by reflexivity.
    unfold bank_new, tbank_new. rewrite Hw, Ht. cbn [bind tbind].
    eexists; split; [reflexivity|]. split.
    + unfold of_bank. cbn [mb_data mb_current]. rewrite <- fold_map_dset. reflexivity.
    + assert (forall l d c, all_words (mkbank d MEMORY_WIDTH c) ->
        all_words (mkbank (fold_left (fun d addr => dset d addr w) l d) MEMORY_WIDTH c)) as L.
      { induction l as [|a l IH]; intros d c H; [exact H|]. cbn [fold_left]. apply IH.
        apply (all_words_dset (mkbank d MEMORY_WIDTH c)); [exact H|]. repeat split. }
      apply L. intros a x [].
  - intros cs. induction cs as [|c cs [cs' IH]]; [eexists; constructor|].
    assert (all_words (mkbank [] 48 0)) as W0 by (intros ? ? []).
    destruct (C200_calls_partial_pf A _ c W0) as [[[c' H]|H] _].
    + exists (c' :: cs'). now constructor.
    + exists cs'. now apply CA_foreign.
  - intros m cs cs' W H. revert m W. induction H as [|c c' cs cs' H Hs IH|c cs cs' H Hs IH]; intros m W.
    + reflexivity.
    + cbn [tbank_trace]. destruct (C200_calls_partial_pf A m c W) as [_ [E _]].
      destruct (E c' H) as [-> W']. unfold of_call_out. cbn [bank_run fold_left]. unfold bank_run. cbn [fold_left].
      specialize (IH _ W'). destruct (tbank_trace A (of_bank (fst (bank_call m c'))) cs) as [os m2]. exact IH.
    + cbn [tbank_trace]. destruct (C200_calls_partial_pf A m c W) as [_ [_ E]].
      destruct (E H) as [E1 _]. destruct (tbank_call A (of_bank m) c) as [m' o]; cbn [fst] in E1. subst m'.
      specialize (IH m W). destruct (tbank_trace A (of_bank m) cs) as [os m2]. exact IH.
Qed.
(** Floats do reach the memory, as keys and as values. *)
Lemma C200_refuted_pf : forall A m n w, all_words m -> dget (mb_data m) n = Some w ->
  tbank_call A (of_bank m) (XGet (MOne (VF (Fin (inject_Z n))) true)) = (of_bank m, TOk [word_value w]) /\
  tbank_call A (of_bank m) (XSet (MOne (VI n) true) (VF (Fin (7#2))))
  = of_call_out (bank_call m (MSet (Idx n) 3)).
Proof.
  intros A m n w.
  intros W D. split.
  - destruct (call_as_ok A m (XGet (MOne (VF (Fin (inject_Z n))) true)) (MGet (Idx n)) W) as [-> _].
    + constructor. constructor. cbn [same_number equals]. apply Qeq_bool_iff. reflexivity.
    + cbn [bank_call bank_getitem]. unfold of_call_out, cell_get, dindex. rewrite D. reflexivity.
  - apply (call_as_ok A m (XSet (MOne (VI n) true) (VF (Fin (7#2)))) (MSet (Idx n) 3) W).
    constructor; [constructor; reflexivity|]. exact (whole_quot (7#2)).
Qed.
(*@
Example C200_calls_partial_ex A : let w := mkbf 48 (2 ^ 48 - 1) 9 MSB_1 MSB_LEFT in
  let m := mkbank [(0, w); (1, with_value w 5)] 48 0 in
  all_words m /\
  tbank_call A (of_bank m) (XGet (MOne (VF (Fin 1)) true)) = (of_bank m, TOk [5]) /\
  tbank_call A (of_bank m) (XGet (MOne (VF (Fin (1#2))) true)) = (of_bank m, TErr (PyExn KeyError)) /\
  tbank_call A (of_bank m) (XSet (MSlice (VI 0) (VI 2)) (VF (Fin (7#2))))
  = (of_bank (mkbank [(0, with_value w 3); (1, with_value w 3)] 48 0), TOk []) /\
  tbank_call A (of_bank m) (XSet (MSlice (VI 0) (VI 2)) (VO true)) = (of_bank m, TErr (PyExn TypeError)) /\
  tbank_call A (of_bank m) (XSet (MSlice (VI 1) (VI 1)) (VO true)) = (of_bank m, TOk []).
Proof.
  cbv zeta. split; [|repeat split; reflexivity].
  intros a w [E|[E|[]]]; injection E as <- <-; repeat split.
Qed.
Example C200_history_ex A : let w := mkbf 48 (2 ^ 48 - 1) 9 MSB_1 MSB_LEFT in
  let m := mkbank [(0, w); (1, w)] 48 0 in
  snd (tbank_trace A (of_bank m) [XSet (MOne (VI 0) true) (VF (Fin (7#2))); XSet (MOne (VO true) true) (VI 1); XNext; XRef 1 (VO false)])
  = of_bank (bank_run m [MSet (Idx 0) 3; MNext]).
Proof. reflexivity. Qed.
Example C200_refuted_ex A : let w := mkbf 48 (2 ^ 48 - 1) 9 MSB_1 MSB_LEFT in
  let m := mkbank [(0, w); (1, with_value w 5)] 48 0 in
  dget (mb_data m) 1 = Some (with_value w 5) /\
  fst (tbank_call A (of_bank m) (XSet (MOne (VI 1) true) (VF (Fin (7#2)))))
  = of_bank (mkbank [(0, w); (1, with_value w 3)] 48 0).
Proof. split; reflexivity. Qed.
@*)
