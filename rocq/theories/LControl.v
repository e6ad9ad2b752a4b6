(** The control memory: C188. *)
From Verif Require Import Py LPy MBitField SBits LBits MRegisters SRegisters LRegisters LRegHeap MMemory SMemory SCursor SOwn LOwn SFaults LFaults SControl.
#[local] Arguments Z.add : simpl never.
#[local] Arguments Z.sub : simpl never.
#[local] Arguments Z.mul : simpl never.
#[local] Arguments Z.pow : simpl never.
#[local] Arguments Z.div : simpl never.
#[local] Arguments Z.modulo : simpl never.

Lemma listed_names n : forall (l : list string) b, subaddress n (combine l (map (fun j => b + Z.of_nat j) (seq 0 (length l)))) = option_map (fun i => b + i) (position n (map lit l)).
Proof.
  induction l as [|m l IH]; intros b; [reflexivity|]. cbn [length seq map combine subaddress position]. rewrite (eqb_sym n (lit m)).
  destruct (eqb (lit m) n); [cbn; f_equal; lia|].
  rewrite <- seq_shift, map_map. specialize (IH (b + 1)).
  replace (map (fun x => b + Z.of_nat (S x)) (seq 0 (length l))) with (map (fun j => b + 1 + Z.of_nat j) (seq 0 (length l))) by (apply map_ext; intros j; lia).
  rewrite IH. destruct (position n (map lit l)); cbn; [f_equal; lia|reflexivity].
Qed.
Lemma figure_names n : subaddress n FIGURE_V1 = position n reg_names.
Proof.
  etransitivity; [exact (listed_names n (map fst FIGURE_V1) 0)|]. change (map lit (map fst FIGURE_V1)) with reg_names.
  destruct (position n reg_names); reflexivity.
Qed.
Lemma subaddress_app n l1 l2 : subaddress n (l1 ++ l2) = match subaddress n l1 with Some k => Some k | None => subaddress n l2 end.
Proof. induction l1 as [|[m k] l1 IH]; [reflexivity|]. cbn [app subaddress]. destruct (eqb n (lit m)); [reflexivity|exact IH]. Qed.

Section Run.
Variable W : Z.
Hypothesis HW : good_width W.
(** the cells hold the numbers *)
Definition holds (s : sregs) (f : Z -> Z) : Prop :=
  forall k i, 0 <= k < 8 -> 0 <= i < 32 -> number (scell s k i) 0 (Z.to_nat W) = f (32 * k + i).
(** where a call leads *)
Lemma special_cell w x s : s_call W s (at_special w x) =
  match special_address w with
  | Some a => let '(b, o) := s_act W (scell s (a / 32) (a mod 32)) x in
              (mksregs (set1 (scell s) (a / 32) (set1 (scell s (a / 32)) (a mod 32) b)) (gcur s) (rcur s), o)
  | None => (s, None)
  end.
Proof.
  destruct w as [a|g n]; cbn [at_special s_call s_group s_reg special_address].
  - pose proof (Z.div_mod a 32 ltac:(lia)). pose proof (Z.mod_pos_bound a 32 ltac:(lia)).
    assert (M : (0 <=? a mod 32) && (a mod 32 <? 32) = true) by (apply andb_true_intro; split; [apply Z.leb_le|apply Z.ltb_lt]; lia). rewrite M. clear M.
    assert (M : (0 <=? a / 32) && (a / 32 <? 8) = (0 <=? a) && (a <? 256)) by lia. rewrite M. clear M.
    destruct ((0 <=? a) && (a <? 256)); reflexivity.
  - destruct ((0 <=? g) && (g <? 8)) eqn:B; [|reflexivity]. rewrite figure_names.
    destruct (position n reg_names) as [k|] eqn:P; [|reflexivity]. cbn [option_map].
    apply position_nth in P. rewrite reg_names_len in P. destruct P as [P _].
    rewrite <- (Z.div_unique (32 * g + k) 32 g k) by lia. rewrite <- (Z.mod_unique (32 * g + k) 32 g k) by lia. reflexivity.
Qed.
Lemma special_in w a : special_address w = Some a -> 0 <= a < 256.
Proof.
  destruct w as [b|g n]; cbn [special_address].
  - destruct ((0 <=? b) && (b <? 256)) eqn:B; [|discriminate]. intros [= <-]. lia.
  - destruct ((0 <=? g) && (g <? 8)) eqn:B; [|discriminate]. rewrite figure_names.
    destruct (position n reg_names) as [k|] eqn:P; [|discriminate]. intros [= <-]. apply position_nth in P. rewrite reg_names_len in P. lia.
Qed.
Lemma call_holds c s f : holds s f ->
  holds (fst (s_call W s (special_call c))) (control_step W f c) /\
  snd (s_call W s (special_call c)) = match control_result W f c with Ok v => Some v | Err _ => None end.
Proof.
  intros H. destruct c as [w|w v]; cbn [special_call control_step control_result]; rewrite special_cell;
    destruct (special_address w) as [a|] eqn:A; try (split; [exact H|reflexivity]); cbn [s_act]; pose proof (special_in _ _ A) as B;
    pose proof (Z.div_mod a 32 ltac:(lia)) as D; pose proof (Z.mod_pos_bound a 32 ltac:(lia)) as M.
  - split; [|cbn [snd]; f_equal; rewrite H by lia; f_equal; lia].
    intros k i Hk Hi. cbn [fst scell]. unfold set1. destruct (Z.eqb_spec k (a / 32)) as [->|]; [|apply H; assumption].
    destruct (Z.eqb_spec i (a mod 32)) as [->|]; apply H; lia.
  - destruct ((0 <=? v) && (v <? 2 ^ W)) eqn:V; cbn [fst snd]; (split; [|reflexivity]); intros k i Hk Hi; cbn [scell]; unfold set1.
    + destruct (Z.eqb_spec (32 * k + i) a) as [E|E].
      * destruct (Z.eqb_spec k (a / 32)); [|lia]. destruct (Z.eqb_spec i (a mod 32)); [|lia].
        rewrite number_fill by (destruct HW; lia). change (2 ^ 0) with 1. rewrite Z.div_1_r.
        rewrite Z2Nat.id by (destruct HW; lia). apply Z.mod_small. lia.
      * destruct (Z.eqb_spec k (a / 32)) as [->|]; [|apply H; assumption]. destruct (Z.eqb_spec i (a mod 32)) as [->|]; [lia|apply H; assumption].
    + destruct (Z.eqb_spec k (a / 32)) as [->|]; [|apply H; assumption].
      destruct (Z.eqb_spec i (a mod 32)) as [->|]; apply H; lia.
Qed.
Lemma run_holds cs : holds (s_run W sregs_new (map special_call cs)) (control_run W cs).
Proof.
  induction cs as [|c cs IH] using rev_ind.
  - intros k i _ _. cbn. assert (Z0 : forall n lo, number (fun _ => false) lo n = 0) by (induction n as [|n I]; intros lo; cbn [number]; [reflexivity|rewrite I; reflexivity]). apply Z0.
  - rewrite map_app. unfold s_run, control_run. rewrite !fold_left_app. apply call_holds. exact IH.
Qed.
End Run.

(** *** C188 *)
Lemma C188_control_memory_pf : forall h W, W = 16 \/ W = 24 -> exists h' rs, registers_new h W = (h', Ok rs) /\
  forall cs c, snd (regs_call (regs_run (h', rs) (map special_call cs)) (special_call c)) = control_result W (control_run W cs) c.
Proof.
  intros h W HW. destruct (registers_new_ok h W HW) as (h' & rs & E & HR). exists h', rs. split; [exact E|]. intros cs c.
  assert (F : forall c, rcall_fits W (special_call c)) by (intros [[a|g n]|[a|g n] v]; exact I).
  assert (FS : Forall (rcall_fits W) (map special_call cs)) by (apply Forall_forall; intros x X; apply in_map_iff in X; destruct X as (y & <- & _); apply F).
  pose proof (regs_run_sim W HW _ _ _ _ _ HR FS) as HR1.
  pose proof (regs_call_sim W HW _ _ _ _ (special_call c) HR1 (F c)) as S1.
  destruct (call_holds W HW c _ _ (run_holds W HW cs)) as [_ S2].
  pose proof (fun e => C145_registers_pf h W h' rs (map special_call cs) (special_call c) e E) as FE.
  destruct (regs_call (regs_run (h', rs) (map special_call cs)) (special_call c)) as [st o]. cbn [snd] in *.
  destruct (s_call W (s_run W sregs_new (map special_call cs)) (special_call c)) as [s' o']. cbn [snd] in *. destruct S1 as [S1 _].
  rewrite S2 in S1. destruct o as [v|e].
  - cbn [obs] in S1. destruct (control_result W (control_run W cs) c); [congruence|discriminate].
  - specialize (FE e eq_refl). cbn [obs] in S1.
    assert (V : control_result W (control_run W cs) c = Err ValueError).
    { destruct c as [w|w v]; cbn [control_result] in *; destruct (special_address w); try reflexivity; try discriminate S1.
      destruct ((0 <=? v) && (v <? 2 ^ W)); [discriminate S1|reflexivity]. }
    rewrite V. f_equal. destruct c as [[a|g n]|[a|g n] v]; cbn [special_call at_special call_fault] in FE;
      destruct (snd (place_group _ _)) as [k|]; try exact FE; destruct (target _ _ _); exact FE.
Qed.
(*@
(** MXR of group 3 is register 103; RAC is not a name in a group (C36) *)
Example C188_control_memory_ex : match registers_new heap0 16 with
  | (h, Ok rs) =>
      map (fun c => snd (regs_call (regs_run (h, rs) (map special_call
             [CSet (ByAddress 103) 77; CSet (ByName 7 (lit "S7")) 65535; CSet (ByAddress 256) 1; CSet (ByAddress 0) 65536; CSet (ByName 0 (lit "RAC")) 1])) (special_call c)))
          [CGet (ByName 3 (lit "MXR")); CGet (ByAddress 255); CGet (ByAddress 28); CGet (ByAddress (-1)); CGet (ByName 0 (lit "X8")); CSet (ByAddress 5) (-1)]
      = [Ok 77; Ok 65535; Ok 0; Err ValueError; Err ValueError; Err ValueError]
  | _ => False
  end.
Proof. vm_compute. reflexivity. Qed.
@*)
Lemma C188_names_pf : forall n k,
  (registerName k = Ok n <-> subaddress n FIGURE_V1 = Some k) /\
  (registerNumber n = Ok k <-> subaddress n (FIGURE_V1 ++ COUNTERS) = Some k) /\
  (subaddress n COUNTERS = Some k -> registerAlias k = Ok n).
Proof.
  intros n k. assert (C : subaddress n (FIGURE_V1 ++ COUNTERS) = number_of n).
  { rewrite subaddress_app, figure_names. unfold number_of. destruct (position n reg_names); [reflexivity|].
    exact (listed_names n (map fst COUNTERS) 28). }
  split; [rewrite registerName_iff, figure_names; reflexivity|]. rewrite C. split.
  - rewrite registerNumber_spec. destruct (number_of n); split; congruence.
  - unfold COUNTERS. cbn [subaddress]. intros H.
    destruct (eqb n (lit "RAC")) eqn:E0; [apply eqb_ok in E0; rewrite E0; injection H as <-; reflexivity|].
    destruct (eqb n (lit "DRAC")) eqn:E1; [apply eqb_ok in E1; rewrite E1; injection H as <-; reflexivity|].
    destruct (eqb n (lit "WAC")) eqn:E2; [apply eqb_ok in E2; rewrite E2; injection H as <-; reflexivity|].
    destruct (eqb n (lit "DWAC")) eqn:E3; [apply eqb_ok in E3; rewrite E3; injection H as <-; reflexivity|discriminate H].
Qed.
(*@ Example C188_names_ex : registerName 7 = Ok (lit "MXR") /\ registerNumber (lit "WAC") = Ok 30 /\ registerNumber (lit "S6") = Ok 30 /\ registerAlias 30 = Ok (lit "WAC") /\
  subaddress (lit "WAC") (FIGURE_V1 ++ COUNTERS) = Some 30 /\ subaddress (lit "X8") (FIGURE_V1 ++ COUNTERS) = None.
Proof. vm_compute. repeat split; reflexivity. Qed. @*)
