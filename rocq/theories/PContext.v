(** Property theorems; generated from LContext.v by meta/genp.py. *)
From Verif Require Import Py LPy MCards SCards MSymbols SSymbols MContext SContext LContext.

Theorem C92_charset : NoDup (dkeys CHARSET) /\ (forall k, In k (dkeys CHARSET) <-> 0 <= k <= 63) /\
  (forall d, 0 <= d <= 9 -> dget CHARSET d = Some (Some (48 + d))) /\
  (forall x, 65 <= x <= 90 -> exists k, dget CHARSET k = Some (Some x)) /\
  (forall k k' x x', dget CHARSET k = Some (Some x) -> dget CHARSET k' = Some (Some x') ->
     65 <= x <= 90 -> 65 <= x' <= 90 -> (x < x' <-> k < k')) /\
  (forall k k' x, dget CHARSET k = Some (Some x) -> dget CHARSET k' = Some (Some x) -> k = k' \/ x = 32) /\
  (forall k, dget CHARSET k = Some None <-> k = 44).
Proof. exact (@C92_charset_pf). Qed.
Print Assumptions C92_charset.

Example C92_charset_ex : dget CHARSET 33 = Some (Some 74) /\ dget CHARSET 13 = dget CHARSET 63 /\ zlen CHARSET = 64.
Proof. vm_compute. auto. Qed.

Theorem C92_table : map snd CHARSET =
    map Some (lit "0123456789'=:  &" ++ lit "+ABCDEFGHI;.)%" ++ [9608; 32] ++ lit "-JKLMNOPQR#$") ++ [None] ++
    map Some (lit """   /STUVWXYZ@,(" ++ [10; 32; 32]) /\
  map fst CHARSET = map Z.of_nat (seq 0 64).
Proof. exact (@C92_table_pf). Qed.
Print Assumptions C92_table.

Example C92_table_ex : dget CHARSET 28 = Some (Some 41) /\ dget CHARSET 61 = Some (Some 10).
Proof. split; reflexivity. Qed.

Theorem C93_save : forall h c r, is_inst h r -> (forall n, In n position -> exists v, attr_is h c n v) ->
  exists h', context_save h c r = (h', Ok tt) /\
    (forall n v, In n position -> (attr_is h' r n v <-> attr_is h c n v)) /\ only_attrs h h' r position.
Proof. exact (@C93_save_pf). Qed.
Print Assumptions C93_save.

Example C93_save_ex :
  let attrs := map (fun n => (n, PStr n)) position in
  let h := [(1, Inst attrs); (2, Inst [(lit "label", PNone); (lit "loc", PInt 7)])] in
  exists a, context_save h 1 2 = ([(1, Inst attrs); (2, Inst a)], Ok tt) /\ dget a (lit "loc") = Some (PStr (lit "loc")) /\ dget a (lit "label") = Some PNone.
Proof. eexists. vm_compute. auto. Qed.

Theorem C93_restore : forall h c r h1 h2 c2, context_save h c r = (h1, Ok tt) ->
  dget h2 r = dget h1 r -> is_inst h2 c2 ->
  exists h3, context_load h2 c2 r = (h3, Ok tt) /\
    (forall n v, In n position -> (attr_is h3 c2 n v <-> attr_is h c n v)) /\ only_attrs h2 h3 c2 position.
Proof. exact (@C93_restore_pf). Qed.
Print Assumptions C93_restore.

Example C93_restore_ex :
  let attrs := map (fun n => (n, PStr n)) position in
  let h := [(1, Inst attrs); (2, Inst [])] in
  let h1 := fst (context_save h 1 2) in let h2 := fst (context_reset h1 1) in
  attr_is h2 1 (lit "loc") (PInt 0) /\ attr_is (fst (context_load h2 1 2)) 1 (lit "loc") (PStr (lit "loc")) /\
  snd (context_load h2 1 2) = Ok tt.
Proof. cbv zeta. split; [|split; [|vm_compute; reflexivity]]; apply getattr_ok; vm_compute; reflexivity. Qed.

Theorem C93_reset : forall h c, is_inst h c ->
  exists h' l, context_reset h c = (h', Ok tt) /\ dget h l = None /\ dget h' l = Some (Lst []) /\
    attr_is h' c (lit "code") (PRef l) /\ attr_is h' c (lit "srcline") PNone /\
    attr_is h' c (lit "currentRecord") PNone /\ attr_is h' c (lit "previousRecord") PNone /\
    attr_is h' c (lit "addSymbol") (PBool true) /\ attr_is h' c (lit "reparse") (PBool false) /\
    (forall n, In n [lit "linenum"; lit "global_linenum"; lit "loc"; lit "bank"] -> attr_is h' c n (PInt 0)) /\
    (forall r, r <> c -> r <> l -> dget h' r = dget h r) /\
    (forall n v, ~ In n [lit "linenum"; lit "global_linenum"; lit "code"; lit "srcline"; lit "currentRecord"; lit "previousRecord";
                         lit "addSymbol"; lit "reparse"; lit "loc"; lit "bank"] -> (attr_is h' c n v <-> attr_is h c n v)).
Proof. exact (@C93_reset_pf). Qed.
Print Assumptions C93_reset.

Example C93_reset_ex :
  let h := [(1, Inst [(lit "errors", PInt 3); (lit "loc", PInt 9); (lit "code", PRef 2)]); (2, Lst [PInt 1])] in
  let h' := fst (context_reset h 1) in
  getattr h' 1 (lit "errors") = Ok (PInt 3) /\ getattr h' 1 (lit "loc") = Ok (PInt 0) /\ getattr h' 1 (lit "code") = Ok (PRef 3) /\
  dget h' 2 = Some (Lst [PInt 1]).
Proof. vm_compute. auto. Qed.

Theorem C94_new_refuted : forall h listfile binfile options logLevel logfile,
  exists h' e, context_new h listfile binfile options logLevel logfile = (h', Err e) /\
    ((exists o v d, options = PRef o /\ attr_is h o (lit "verbose") v /\ attr_is h o (lit "debug") d) -> e = NameError).
Proof. exact (@C94_new_refuted_pf). Qed.
Print Assumptions C94_new_refuted.

Example C94_new_refuted_ex :
  snd (context_new [(1, Inst [(lit "verbose", PBool true); (lit "debug", PBool false)])] (PStr (lit "l")) (PStr (lit "b")) (PRef 1) (PInt 0) PNone) = Err NameError.
Proof. vm_compute. reflexivity. Qed.

Theorem C103_save_refuted : forall h c r, is_inst h r -> c <> r ->
  (forall n, In n position -> n <> lit "coloc" -> exists v, attr_is h c n v) -> (forall v, ~ attr_is h c (lit "coloc") v) ->
  exists h', context_save h c r = (h', Err AttributeError) /\
    (forall n v, In n [lit "linenum"; lit "global_linenum"; lit "code"; lit "srcline"; lit "loc"] -> (attr_is h' r n v <-> attr_is h c n v)) /\
    only_attrs h h' r [lit "linenum"; lit "global_linenum"; lit "code"; lit "srcline"; lit "loc"].
Proof. exact (@C103_save_refuted_pf). Qed.
Print Assumptions C103_save_refuted.

Example C103_save_refuted_ex :
  let attrs := map (fun n => (n, PInt 5)) (remove (list_eq_dec Z.eq_dec) (lit "coloc") position) in
  let h := [(1, Inst attrs); (2, Inst [(lit "loc", PInt 1); (lit "bank", PInt 1)])] in
  snd (context_save h 1 2) = Err AttributeError /\
  getattr (fst (context_save h 1 2)) 2 (lit "loc") = Ok (PInt 5) /\ getattr (fst (context_save h 1 2)) 2 (lit "bank") = Ok (PInt 1).
Proof. vm_compute. auto. Qed.

Theorem C103_reset_refuted : forall h c h', is_inst h c -> (forall v, ~ attr_is h c (lit "coloc") v) ->
  context_reset h c = (h', Ok tt) -> forall v, ~ attr_is h' c (lit "coloc") v.
Proof. exact (@C103_reset_refuted_pf). Qed.
Print Assumptions C103_reset_refuted.

Example C103_reset_refuted_ex :
  let h := [(1, Inst [(lit "loc", PInt 9)])] in getattr (fst (context_reset h 1)) 1 (lit "coloc") = Err AttributeError.
Proof. vm_compute. reflexivity. Qed.

Theorem C103_save_partial : forall h c r, is_inst h r ->
  ((exists h', context_save h c r = (h', Ok tt)) <-> forall n, In n position -> exists v, attr_is h c n v).
Proof. exact (@C103_save_partial_pf). Qed.
Print Assumptions C103_save_partial.

Example C103_save_partial_ex :
  snd (context_save [(1, Inst (map (fun n => (n, PNone)) position)); (2, Inst [])] 1 2) = Ok tt.
Proof. vm_compute. reflexivity. Qed.

Theorem C104_set_refuted : forall attr valid h c address,
  (forall v, ~ attr_is h c (lit "memmap") v) -> context_set_loc attr valid h c address = (h, Err AttributeError).
Proof. exact (@C104_set_refuted_pf). Qed.
Print Assumptions C104_set_refuted.

Example C104_set_refuted_ex :
  context_set_loc (lit "loc") (fun _ _ => true) [(1, Inst [(lit "loc", PInt 0); (lit "reparse", PBool false)])] 1 100 =
  ([(1, Inst [(lit "loc", PInt 0); (lit "reparse", PBool false)])], Err AttributeError).
Proof. reflexivity. Qed.

Theorem C104_set_partial : forall attr valid h c address m rv lv n, attr_is h c (lit "memmap") m -> valid m address = true ->
  attr_is h c (lit "reparse") rv -> attr_is h c (lit "log") lv -> attr_is h c attr (PInt n) ->
  exists h', context_set_loc attr valid h c address = (h', Ok tt) /\
    (truthy h rv -> h' = h) /\ (~ truthy h rv -> attr_is h' c attr (PInt address)) /\ only_attrs h h' c [attr].
Proof. exact (@C104_set_partial_pf). Qed.
Print Assumptions C104_set_partial.

Example C104_set_partial_ex :
  snd (context_set_loc (lit "loc") (fun _ a => a <? 2048) [(1, Inst [(lit "loc", PInt 0); (lit "reparse", PBool false); (lit "log", PNone); (lit "memmap", PNone)])] 1 100) = Ok tt.
Proof. reflexivity. Qed.

Theorem C104_when_partial : forall attr valid h c address h' r, context_set_loc attr valid h c address = (h', r) ->
  (r = Ok tt <->
    (exists m, attr_is h c (lit "memmap") m /\ (valid m address = true \/ exists e, attr_is h c (lit "error") e)) /\
    (exists rv, attr_is h c (lit "reparse") rv /\
       (truthy h rv \/ (exists lv, attr_is h c (lit "log") lv) /\ exists v, attr_is h c attr v /\ is_number v))) /\
  (r <> Ok tt -> h' = h /\ (r = Err AttributeError \/ r = Err TypeError /\ exists v, attr_is h c attr v /\ ~ is_number v)).
Proof. exact (@C104_when_partial_pf). Qed.
Print Assumptions C104_when_partial.

Example C104_when_partial_ex :
  snd (context_set_loc (lit "coloc") (fun _ a => a <? 2048) [(1, Inst [(lit "coloc", PNone); (lit "reparse", PInt 0); (lit "log", PNone); (lit "memmap", PNone)])] 1 100) = Err TypeError.
Proof. reflexivity. Qed.

Theorem C105_snapshot_refuted : forall h c r h1 l xs x, context_save h c r = (h1, Ok tt) -> l <> c -> l <> r ->
  attr_is h c (lit "code") (PRef l) -> dget h l = Some (Lst xs) ->
  attr_is h1 r (lit "code") (PRef l) /\ dget h1 l = Some (Lst xs) /\
  attr_is (list_append h1 l x) r (lit "code") (PRef l) /\ dget (list_append h1 l x) l = Some (Lst (xs ++ [x])).
Proof. exact (@C105_snapshot_refuted_pf). Qed.
Print Assumptions C105_snapshot_refuted.

Example C105_snapshot_refuted_ex :
  let h := [(1, Inst ((lit "code", PRef 3) :: map (fun n => (n, PNone)) position)); (2, Inst []); (3, Lst [PInt 1])] in
  let h1 := fst (context_save h 1 2) in
  getattr h1 2 (lit "code") = Ok (PRef 3) /\ dget (list_append h1 3 (PInt 2)) 3 = Some (Lst [PInt 1; PInt 2]).
Proof. vm_compute. auto. Qed.

Theorem C105_snapshot_partial : forall h c r h1 h2 l xs, context_save h c r = (h1, Ok tt) -> c <> r -> l <> c ->
  attr_is h1 r (lit "code") (PRef l) -> dget h1 l = Some (Lst xs) -> is_inst h1 c ->
  context_reset h1 c = (h2, Ok tt) ->
  (forall n v, attr_is h2 r n v <-> attr_is h1 r n v) /\ dget h2 l = Some (Lst xs).
Proof. exact (@C105_snapshot_partial_pf). Qed.
Print Assumptions C105_snapshot_partial.

Example C105_snapshot_partial_ex :
  let h := [(1, Inst ((lit "code", PRef 3) :: map (fun n => (n, PNone)) position)); (2, Inst []); (3, Lst [PInt 1])] in
  let h2 := fst (context_reset (fst (context_save h 1 2)) 1) in
  getattr h2 2 (lit "code") = Ok (PRef 3) /\ dget h2 3 = Some (Lst [PInt 1]) /\ getattr h2 1 (lit "code") = Ok (PRef 4).
Proof. vm_compute. auto. Qed.

Theorem C115_str_refuted : forall h self u, context_str h self <> Ok u.
Proof. exact (@C115_str_refuted_pf). Qed.
Print Assumptions C115_str_refuted.

Example C115_str_refuted_ex :
  let names := map lit ["options"; "logfile"; "listfile"; "binfile"; "srcfile"; "code"; "srcline"; "currentRecord"; "previousRecord"]%string in
  let h := [(1, Inst ([(lit "linenum", PInt 3); (lit "global_linenum", PInt 7)] ++ map (fun n => (n, PNone)) names))] in
  context_str h 1 = Err NameError /\ context_str (fst (context_reset h 1)) 1 = Err NameError.
Proof. vm_compute. auto. Qed.

Theorem C115_error_partial : forall h self, context_str h self = Err NameError <->
  (forall n, In n (map lit ["options"; "logfile"; "listfile"; "binfile"; "srcfile"; "linenum"; "global_linenum"; "code"; "srcline"; "currentRecord"]%string) ->
     exists v, attr_is h self n v) /\
  (forall n, In n (map lit ["linenum"; "global_linenum"]%string) -> (exists k, attr_is h self n (PInt k)) \/ (exists b, attr_is h self n (PBool b))).
Proof. exact (@C115_error_partial_pf). Qed.
Print Assumptions C115_error_partial.

Example C115_error_partial_ex : context_str [(1, Inst [(lit "options", PNone)])] 1 = Err AttributeError.
Proof. reflexivity. Qed.

Theorem C115_kinds_partial : forall h self, exists e, context_str h self = Err e /\ (e = NameError \/ e = AttributeError \/ e = TypeError) /\
  (e = TypeError -> exists n v, In n (map lit ["linenum"; "global_linenum"]%string) /\ attr_is h self n v /\ ~ is_number v) /\
  (e = AttributeError -> exists n, In n (map lit ["options"; "logfile"; "listfile"; "binfile"; "srcfile"; "linenum"; "global_linenum"; "code"; "srcline"; "currentRecord"]%string) /\
     forall v, ~ attr_is h self n v).
Proof. exact (@C115_kinds_partial_pf). Qed.
Print Assumptions C115_kinds_partial.

Example C115_kinds_partial_ex :
  context_str [(1, Inst (map (fun n => (lit n, PNone)) ["options"; "logfile"; "listfile"; "binfile"; "srcfile"; "linenum"]%string))] 1 = Err TypeError.
Proof. reflexivity. Qed.
