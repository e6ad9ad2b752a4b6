(** Property theorems; generated from LLive.v by meta/genp.py. *)
From Verif Require Import Py LPy MBitField SBits LBits LBitField MWord SWord LWord MMemory SMemory LMemory MLive SLive LLive.

Theorem C166_cells : exists m, bank_new = Ok m /\ forall cs, bank_ltrace m cs = live_trace smem_new cs.
Proof. exact (@C166_cells_pf). Qed.
Print Assumptions C166_cells.

Example C166_cells_ex :
  match bank_new with
  | Ok m => bank_ltrace m [Plain MNext; Field 0 (OpItem (Slice (Some 1) (Some 12)) 5); Plain (MGet (Idx 0)); Field 0 (OpItem (Idx 48) 1);
                           Item 0 (Slice (Some 45) (Some 48)); Plain (MSet (Idx 0) 6); Item 0 (Idx 46); Field 0 (OpItem (Idx 49) 1);
                           Field 0 (OpSet None); Plain (MGet (Slice (Some 0) (Some 2)))]
            = [Ok [0]; Ok []; Ok [5 * 2 ^ 36]; Ok []; Ok [1]; Ok []; Ok [1]; Err ValueError; Ok []; Ok [2 ^ 48 - 1; 0]]
  | Err _ => False
  end.
Proof. destruct C166_cells as (m & E & T). rewrite E, T. vm_compute. reflexivity. Qed.

Theorem C166_frame : forall m a o, used m -> 0 <= a < 2048 -> exists v,
  bank_getitem m (Idx a) = Ok [v] /\
  bank_getitem (fst (bank_lcall m (Field a o))) (Idx a) = Ok [bf_value (fst (bf_step (field48 v) o))] /\
  (snd (bank_lcall m (Field a o)) = Ok [] <-> snd (bf_step (field48 v) o) = Ok tt) /\
  (forall e, snd (bank_lcall m (Field a o)) = Err e <-> snd (bf_step (field48 v) o) = Err e) /\
  (forall k, snd (bank_lcall m (Item a k)) = (do x <- bf_getitem (field48 v) k; Ok [x])) /\
  forall b, b <> a -> bank_getitem (fst (bank_lcall m (Field a o))) (Idx b) = bank_getitem m (Idx b).
Proof. exact (@C166_frame_pf). Qed.
Print Assumptions C166_frame.

Example C166_frame_ex : match bank_new with
  | Ok m => let m1 := fst (bank_lcall m (Field 7 (OpItem (Idx 1) 1))) in
            bank_getitem m1 (Idx 7) = Ok [2 ^ 47] /\ bank_getitem m1 (Idx 8) = Ok [0] /\ bank_getitem m1 (Idx 6) = Ok [0]
  | Err _ => False
  end.
Proof. rewrite bank_new_value. vm_compute. auto. Qed.

Theorem C166_groups : forall c a b d ops w f, iw_new c a b d = Ok w ->
  iw_get (iw_lrun w ops) f = Ok ((iw_value (iw_lrun w ops) / 2 ^ group_lo f) mod 4096) /\
  word_value (iw_data (iw_lrun w ops)) = iw_value (iw_lrun w ops).
Proof. exact (@C166_groups_pf). Qed.
Print Assumptions C166_groups.

Example C166_groups_ex : match iw_new 1 2 3 4 with
  | Ok w => let w1 := iw_lrun w [Data (OpItem (Slice (Some 11) (Some 14)) 15); Set_ (SetField FC 9); Data (OpClear (Some 26))] in
            (iw_get w1 Command, iw_get w1 FA, iw_get w1 FB, iw_get w1 FC) = (Ok 3, Ok (2 ^ 11 + 2 ^ 10 + 2), Ok 3, Ok 9)
  | Err _ => False
  end.
Proof. vm_compute. reflexivity. Qed.

Theorem C167_any_refuted : forall m a v, used m -> 0 <= a < 2048 -> v <= 2 ^ 48 ->
  snd (bank_lcall m (Field a (OpValue v))) = Ok [] /\
  bank_getitem (fst (bank_lcall m (Field a (OpValue v)))) (Idx a) = Ok [v].
Proof. exact (@C167_any_refuted_pf). Qed.
Print Assumptions C167_any_refuted.

Example C167_any_refuted_ex : match bank_new with
  | Ok m => bank_ltrace m [Plain MNext; Field 0 (OpValue (-5)); Plain (MGet (Idx 0)); Plain (MSet (Idx 0) (-5)); Field 0 (OpValue (2 ^ 48)); Plain (MGet (Idx 0))]
            = [Ok [0]; Ok []; Ok [-5]; Err ValueError; Ok []; Ok [2 ^ 48]]
  | Err _ => False
  end.
Proof. destruct C166_cells_pf as (m & E & T). rewrite E, T. vm_compute. reflexivity. Qed.

Theorem C167_fits_partial : forall m0 cs a v, bank_new = Ok m0 -> Forall lcall_fits cs ->
  bank_getitem (bank_lrun m0 cs) (Idx a) = Ok [v] -> 0 <= a < 2048 /\ 0 <= v < 2 ^ 48.
Proof. exact (@C167_fits_partial_pf). Qed.
Print Assumptions C167_fits_partial.

Example C167_fits_partial_ex : match bank_new with
  | Ok m => let cs := [Field 3 (OpItem (Slice (Some 1) (Some 48)) (2 ^ 48 - 1)); Plain (MSet (Idx 3) (2 ^ 48)); Field 3 (OpClear (Some 48))] in
            Forall lcall_fits cs /\ bank_getitem (bank_lrun m cs) (Idx 3) = Ok [2 ^ 48 - 2]
  | Err _ => False
  end.
Proof.
  rewrite bank_new_value.
  cbv zeta. split; [apply Forall_cons; [intros _; vm_compute; split; [discriminate|reflexivity]|apply Forall_cons; [exact I|apply Forall_cons; [exact I|apply Forall_nil]]]|].
  vm_compute. reflexivity.
Qed.
