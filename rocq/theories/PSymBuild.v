(** Property theorems; generated from LSymBuild.v by meta/genp.py. *)
From Verif Require Import Py LPy MCards SCards LInstructions LCards LDeck MSymbols SSymbols LSymBuild.

Theorem C76_recorded : forall upper fuel fs filename seg cs tab tab' n,
  segment_of filename seg -> ~ is_kind seg -> plain_table tab -> source_cards fuel fs filename cs ->
  build_symbol_table upper fuel fs filename tab = Ok (tab', n) ->
  (forall t u k c tt, last_def upper (lit "1") cs t u k c tt ->
     exists e, get4 tab' t seg u k = Some e /\ entry_from c tt e) /\
  (forall pre c post t k tt u, cs = pre ++ c :: post -> defines upper c t k tt ->
     current_subseg (lit "1") (pre ++ [c]) u -> exists e, get4 tab' t seg u k = Some e).
Proof. exact (@C76_recorded_pf). Qed.
Print Assumptions C76_recorded.

Example C76_recorded_ex :
  let fs := fun f : str => if eqb f (lit "prog.arg") then
     Some (lit "        A          DEC          1" ++ [10] ++ lit "       *B          DEC" ++ [10] ++
           lit "                   SETLOC,5" ++ [10] ++ lit "        F,M 1      ASSIGN" ++ [10] ++
           lit "        A          EQUALS" ++ [10] ++ lit "        a          DEC") else None in
  exists tab', build_symbol_table (fun s => map (fun c => if (97 <=? c) && (c <=? 122) then c - 32 else c) s)
      1 fs (lit "prog.arg") [] = Ok (tab', 1) /\
    map (fun e => (e_line e, e_tagtype e))
      (match get4 tab' (lit "A") (lit "prog") (lit "1") (lit "simple"),
             get4 tab' (lit "A") (lit "prog") (lit "5") (lit "simple"),
             get4 tab' (lit "M1") (lit "prog") (lit "5") (lit "complex") with
       | Some x, Some y, Some z => [x; y; z] | _, _, _ => [] end) = [(1, lit " "); (5, lit " "); (4, lit "F")] /\
    dkeys tab' = [lit "A"; lit "M1"].
Proof. eexists. split; [vm_compute; reflexivity|]. vm_compute. auto. Qed.

Theorem C76_plain : plain_table [] /\ forall upper fuel fs filename seg tab tab' n,
  segment_of filename seg -> ~ is_kind seg -> plain_table tab ->
  build_symbol_table upper fuel fs filename tab = Ok (tab', n) -> plain_table tab'.
Proof. exact (@C76_plain_pf). Qed.
Print Assumptions C76_plain.

Example C76_plain_ex : segment_of (lit "a.b.c") (lit "a") /\ ~ is_kind (lit "a").
Proof.
  split; [right; exists (lit "b.c"); split; [reflexivity|]; intros [H|[]]; discriminate|].
  intros [H|H]; discriminate H.
Qed.

Theorem C77_errors : forall upper fuel fs filename seg cs tab tab' n,
  segment_of filename seg -> ~ is_kind seg -> plain_table tab -> source_cards fuel fs filename cs ->
  build_symbol_table upper fuel fs filename tab = Ok (tab', n) -> count_of (label_error upper) cs n.
Proof. exact (@C77_errors_pf). Qed.
Print Assumptions C77_errors.

Example C77_errors_ex :
  let fs := fun f : str => 
     Some (lit "        A          DEC          1" ++ [10] ++ lit "       *A,A,A      DEC" ++ [10] ++
           lit "        A,B,C      DEC" ++ [10] ++ lit "        X,A        DEC" ++ [10] ++
           lit "        A" ++ [10] ++ lit "        a          DEC") in
  exists tab', build_symbol_table (fun s => map (fun c => if (97 <=? c) && (c <=? 122) then c - 32 else c) s)
      1 fs (lit "prog.arg") [] = Ok (tab', 4).
Proof. eexists. vm_compute. reflexivity. Qed.

Theorem C78_multiple_refuted : (forall upper fuel fs filename seg cs tab tab' n,
     segment_of filename seg -> ~ is_kind seg -> plain_table tab -> source_cards fuel fs filename cs ->
     build_symbol_table upper fuel fs filename tab = Ok (tab', n) ->
     (forall c, In c cs -> ~ label_error upper c) -> n = 0) /\
  (forall upper, upper (lit "A") = lit "A" -> exists fs cs c1 c2 tab',
     source_cards 1 fs (lit "prog.arg") cs /\ cs = [c1; c2] /\
     defines upper c1 (lit "A") (lit "simple") (lit " ") /\ defines upper c2 (lit "A") (lit "simple") (lit " ") /\
     current_subseg (lit "1") cs (lit "1") /\
     card_get c1 "operation" = Ok (RStr (lit "DEC")) /\ card_get c2 "operation" = Ok (RStr (lit "DEC")) /\
     build_symbol_table upper 1 fs (lit "prog.arg") [] = Ok (tab', 0)).
Proof. exact (@C78_multiple_refuted_pf). Qed.
Print Assumptions C78_multiple_refuted.

Example C78_multiple_refuted_ex :
  let fs := fun f : str => Some (lit "        A          DEC          1" ++ [10] ++ lit "        A          DEC          2") in
  exists tab', build_symbol_table (fun s => s) 1 fs (lit "prog.arg") [] = Ok (tab', 0).
Proof. eexists. vm_compute. reflexivity. Qed.

Theorem C79_frame : forall upper fuel fs filename seg cs tab tab' n,
  segment_of filename seg -> source_cards fuel fs filename cs ->
  build_symbol_table upper fuel fs filename tab = Ok (tab', n) ->
  forall t s u k, (s <> seg \/ never_def upper (lit "1") cs t u k) -> get4 tab' t s u k = get4 tab t s u k.
Proof. exact (@C79_frame_pf). Qed.
Print Assumptions C79_frame.

Example C79_frame_ex :
  let fs := fun f : str => Some (lit "        A          DEC          1") in
  exists t1 t2, build_symbol_table (fun s => s) 1 fs (lit "p.x") [] = Ok (t1, 0) /\
    build_symbol_table (fun s => s) 1 fs (lit "q.x") t1 = Ok (t2, 0) /\
    get4 t2 (lit "A") (lit "p") (lit "1") (lit "simple") = get4 t1 (lit "A") (lit "p") (lit "1") (lit "simple") /\
    get4 t1 (lit "A") (lit "p") (lit "1") (lit "simple") <> None /\
    get4 t2 (lit "A") (lit "q") (lit "1") (lit "simple") <> None.
Proof.
  do 2 eexists. split; [vm_compute; reflexivity|]. split; [vm_compute; reflexivity|].
  split; [vm_compute; reflexivity|]. split; vm_compute; discriminate.
Qed.

Theorem C80_subsegment : forall upper fuel fs filename seg cs tab tab' n,
  segment_of filename seg -> ~ is_kind seg -> plain_table tab -> source_cards fuel fs filename cs ->
  build_symbol_table upper fuel fs filename tab = Ok (tab', n) ->
  forall t u k e, get4 tab' t seg u k = Some e ->
    (never_def upper (lit "1") cs t u k /\ get4 tab t seg u k = Some e) \/
    (exists c tt, last_def upper (lit "1") cs t u k c tt /\ entry_from c tt e).
Proof. exact (@C80_subsegment_pf). Qed.
Print Assumptions C80_subsegment.

Example C80_subsegment_ex :
  let fs := fun f : str => Some (lit "        A          DEC          1" ++ [10] ++ lit "                   SETLOC, 2 ,3" ++ [10] ++
    lit "        A          DEC          1" ++ [10] ++ lit "       *           SETLOC,9" ++ [10] ++ lit "        B          DEC" ++ [10] ++
    lit "        C          SETLOC") in
  exists tab', build_symbol_table (fun s => s) 1 fs (lit "p.x") [] = Ok (tab', 0) /\
    map (fun x => dkeys (sub (sub tab' (lit x)) (lit "p"))) ["A"; "B"; "C"]%string =
    [[lit "1"; lit "2"]; [lit "2"]; [lit "0"]].
Proof. eexists. split; vm_compute; reflexivity. Qed.

Theorem C80_unique : forall s0 cs, exists u, current_subseg s0 cs u /\ forall u', current_subseg s0 cs u' -> u' = u.
Proof. exact (@C80_unique_pf). Qed.
Print Assumptions C80_unique.

Example C80_unique_ex : forall c, card_get c "column8" = Ok RNone -> card_get c "operation" = Ok (RStr (lit "SETLOC,7")) ->
  current_subseg (lit "1") [c] (lit "7").
Proof.
  intros c H1 H2. apply (cs_last (lit "1") [] c []); [|intros ? ? []]. split; [unfold starred; rewrite H1; discriminate|].
  exists (lit ",7"). split; [exact H2|]. right. left. exists (lit "SETLOC"), (lit "7").
  split; [reflexivity|]. split; [|split; [|reflexivity]]; cbn; intuition discriminate.
Qed.

Theorem C84_build_refuted : forall upper, upper (lit "A") = lit "A" ->
  exists fs cs, source_cards 1 fs (lit "simple.arg") cs /\
    build_symbol_table upper 1 fs (lit "simple.arg") [] = Err KeyError.
Proof. exact (@C84_build_refuted_pf). Qed.
Print Assumptions C84_build_refuted.

Example C84_build_refuted_ex :
  let fs := fun f : str => Some (lit "        A          DEC          1" ++ [10] ++ lit "        A          EQUALS       2") in
  build_symbol_table (fun s => s) 1 fs (lit "simple.arg") [] = Err KeyError /\
  exists t, build_symbol_table (fun s => s) 1 fs (lit "other.arg") [] = Ok (t, 0).
Proof. split; [vm_compute; reflexivity|]. eexists. vm_compute. reflexivity. Qed.

Theorem C84_build_partial : forall upper fuel fs filename seg cs tab,
  segment_of filename seg -> ~ is_kind seg -> plain_table tab -> source_cards fuel fs filename cs ->
  exists tab' n, build_symbol_table upper fuel fs filename tab = Ok (tab', n).
Proof. exact (@C84_build_partial_pf). Qed.
Print Assumptions C84_build_partial.

Example C84_build_partial_ex :
  let fs := fun f : str => Some (lit "        A          DEC          1" ++ [10] ++ lit "        A          EQUALS       2") in
  exists t, build_symbol_table (fun s => s) 1 fs (lit "other.arg") [] = Ok (t, 0) /\ dkeys t = [lit "A"].
Proof. eexists. split; vm_compute; reflexivity. Qed.
