(** A register file whose places point to groups: groups are numbered as they are made, the first eight by the
    file itself. *)
From Verif Require Import Py MBitField SBits MRegisters SRegisters MProto SProto MShare.

(** the file: which group each of the places 0-7 holds, what was stored under other integers, groups passed by
    iteration; the groups: how many there are, and for each its width, how many of its registers iteration has
    passed, the registers stored under strings, and what was done to each of its 32 registers *)
Record shelf := mkshelf { holds : Z -> Z; beside : dict Z Z; turned : Z }.
Record gstore := mkgstore { made : Z; wide : Z -> Z; passed : Z -> Z; tags : Z -> dict str (Z * Z); life : Z -> Z -> list action }.
Definition store : Type := shelf * gstore.
Definition store_new (W : Z) : store :=
  (mkshelf (fun k => k) [] 0, mkgstore 8 (fun _ => W) (fun _ => 0) (fun _ => []) (fun _ _ => [])).

(** regs[k], next(regs) *)
Definition pick_group (f : shelf) (p : gpath) : shelf * res Z :=
  match p with
  | AtGroup (KI k) => (f, if (0 <=? k) && (k <? 8) then Ok (holds f k) else Err ValueError)
  | AtGroup _ => (f, Err ValueError)
  | NextGroup =>
      if turned f <? 8 then (mkshelf (holds f) (beside f) (turned f + 1), Ok (holds f (turned f)))
      else (f, Err StopIteration)
  end.
(** g[i], g[name], next(g) of group number [n] *)
Definition pass (s : gstore) (n x : Z) : gstore := mkgstore (made s) (wide s) (set1 (passed s) n x) (tags s) (life s).
Definition pick_reg (s : gstore) (n : Z) (p : rpath) : gstore * res Z :=
  match p with
  | AtReg (KI i) => (s, if (0 <=? i) && (i <? 32) then Ok i else Err ValueError)
  | AtReg (KS name) => (s, match position name reg_names with Some i => Ok i | None => Err ValueError end)
  | AtReg KSlice => (s, Err ValueError)
  | NextReg => if passed s n <? 32 then (pass s n (passed s n + 1), Ok (passed s n)) else (s, Err StopIteration)
  end.
(** what a register answers that was made as number [i] of a group of width [W] and saw the actions [past] *)
Definition answer_of (W i : Z) (past : list action) (a : action) : res Z :=
  do r <- register_new 0 (nth_error reg_names (Z.to_nat i)) W; snd (act a (reg_run r past)).
Definition done_to (s : gstore) (n i : Z) (a : action) : gstore :=
  mkgstore (made s) (wide s) (passed s) (tags s) (set1 (life s) n (set1 (life s n) i (life s n i ++ [a]))).
(** clear() of the groups for which [which] holds *)
Definition cleared (s : gstore) (which : Z -> bool) : gstore :=
  mkgstore (made s) (wide s) (fun n => if which n then 32 else passed s n) (tags s)
    (fun n i => if which n && (passed s n <=? i) then life s n i ++ [AClear] else life s n i).
(** regs[k] = group [n] *)
Definition put_group (f : shelf) (k : gkey) (n : Z) : shelf * res Z :=
  match k with
  | KI k => (if (0 <=? k) && (k <? 8) then mkshelf (set1 (holds f) k n) (beside f) (turned f)
             else mkshelf (holds f) (dset (beside f) k n) (turned f), Ok 0)
  | _ => (f, Err ValueError)
  end.
(** g[k] = register [i] of group [m] *)
Definition put_reg (s : gstore) (n : Z) (k : gkey) (m i : Z) : gstore * res Z :=
  match k with
  | KS name => (mkgstore (made s) (wide s) (passed s) (set1 (tags s) n (dset (tags s n) name (m, i))) (life s), Ok 0)
  | KI _ => (s, Err KeyError)
  | KSlice => (s, Err ValueError)
  end.
Definition make_group (s : gstore) (W : Z) : gstore :=
  mkgstore (made s + 1) (set1 (wide s) (made s) W) (passed s) (tags s) (life s).

Definition store_call (s : store) (c : scall) : store * res Z :=
  let '(f, g) := s in
  match c with
  | Plain (Reach gp rp a) =>
      match pick_group f gp with
      | (f1, Err e) => ((f1, g), Err e)
      | (f1, Ok n) =>
          match pick_reg g n rp with
          | (g1, Err e) => ((f1, g1), Err e)
          | (g1, Ok i) => ((f1, done_to g1 n i a), answer_of (wide g n) i (life g n i) a)
          end
      end
  | Plain (ClearGroup gp) =>
      match pick_group f gp with
      | (f1, Err e) => ((f1, g), Err e)
      | (f1, Ok n) => ((f1, cleared g (Z.eqb n)), Ok 0)
      end
  | Plain ClearAll =>
      ((mkshelf (holds f) (beside f) 8, cleared g (fun n => existsb (fun k => (turned f <=? k) && (holds f k =? n)) [0; 1; 2; 3; 4; 5; 6; 7])), Ok 0)
  | Plain (Len gp) =>
      match pick_group f gp with
      | (f1, Err e) => ((f1, g), Err e)
      | (f1, Ok n) => ((f1, g), Ok (32 + zlen (tags g n)))
      end
  | Plain LenAll => (s, Ok (8 + zlen (beside f)))
  | GiveGroup k from =>
      match pick_group f from with
      | (f1, Err e) => ((f1, g), Err e)
      | (f1, Ok n) => let '(f2, o) := put_group f1 k n in ((f2, g), o)
      end
  | GiveNew k W =>
      if (W =? 16) || (W =? 24) then let '(f1, o) := put_group f k (made g) in ((f1, make_group g W), o)
      else (s, Err ValueError)
  | GiveReg gp k fg fr =>
      match pick_group f fg with
      | (f1, Err e) => ((f1, g), Err e)
      | (f1, Ok m) =>
          match pick_reg g m fr with
          | (g1, Err e) => ((f1, g1), Err e)
          | (g1, Ok i) =>
              match pick_group f1 gp with
              | (f2, Err e) => ((f2, g1), Err e)
              | (f2, Ok n) => let '(g2, o) := put_reg g1 n k m i in ((f2, g2), o)
              end
          end
      end
  end.
Fixpoint store_trace (s : store) (cs : list scall) : list (res Z) :=
  match cs with
  | [] => []
  | c :: cs' => let '(s', o) := store_call s c in o :: store_trace s' cs'
  end.
Definition store_run (s : store) (cs : list scall) : store := fold_left (fun s c => fst (store_call s c)) cs s.
(** regs[k][i].value: reading by place and number *)
Definition read_at (k i : Z) : scall := Plain (Reach (AtGroup (KI k)) (AtReg (KI i)) AValue).
(** the printed line of group [n]: its 32 registers and those stored under strings, each as an octal number and a blank *)
Definition group_line (g : gstore) (n : Z) (t : str) : Prop :=
  exists ts, t = flat_map (fun x => x ++ lit " ") ts /\
    Forall2 (fun mi x => exists v, answer_of (wide g (fst mi)) (snd mi) (life g (fst mi) (snd mi)) AValue = Ok v /\ octal_text 6 v x)
      (map (pair n) (upto 0 32) ++ map snd (tags g n)) ts.
