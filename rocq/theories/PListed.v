(** Property theorems; generated from LListed.v by meta/genp.py. *)
From Verif Require Import Py LPy MCards SCards LCards LDeck MSymbols SSymbols MTools STools MDiag MVerbose SVerbose MOptions SOptions MProcess SProcess SEnds SSource LSource MRepr SRepr LRepr LListed.

Theorem C160_determined : forall fs fs' prog prog' words words' on on' f f' out out',
  understood (options Listing) words on [f] -> ~ In (lit "verbose") on -> f <> [] -> ~ In 32 f -> source fs f out ->
  understood (options Listing) words' on' [f'] -> ~ In (lit "verbose") on' -> f' <> [] -> ~ In 32 f' -> source fs' f' out' ->
  exists k, forall v v', (k <= e_fuel v)%nat -> (k <= e_fuel v')%nat -> exists name name' content content' fs1 fs1',
    list_name f name /\ list_name f' name' /\
    command v fs Listing prog words = ([], Exit 0, fs1) /\ fs1 name = Some content /\
    command v' fs' Listing prog' words' = ([], Exit 0, fs1') /\ fs1' name' = Some content' /\
    (content = content' <-> map (fun x => (fst x, shown_text x)) out = map (fun x => (fst x, shown_text x)) out').
Proof. exact (@C160_determined_pf). Qed.
Print Assumptions C160_determined.

Example C160_determined_ex : source sample (lit "a.arg") sample_lines /\ ~ In 32 (lit "a.arg") /\
  understood (options Listing) [lit "a.arg"] [] [lit "a.arg"] /\
  exists c, snd (command (mkenv (fun _ _ => []) (fun _ _ _ => []) (fun s => s) (fun s => s) (fun _ => []) 3 (fun _ => [])) sample Listing (lit "x.py") [lit "a.arg"]) (lit "a.lst") = Some c /\
    firstn 73 c = lit "inc                                                              1" ++ repeat 32 7.
Proof.
  split; [exact sample_ok|]. split; [vm_compute; intuition discriminate|]. split; [apply ud_arg; [right; intros r; discriminate|constructor]|].
  eexists. split; vm_compute; reflexivity.
Qed.

Theorem C160_columns : forall f i line, zlen f <= 64 -> 0 <= i <= 999999 -> let t := listed (f, i, line) in
  (exists n, columns t 1 64 = f ++ repeat 32 n) /\ columns t 65 65 = [32] /\
  (exists n, columns t 66 71 = str_of_Z i ++ repeat 32 n) /\ columns t 72 72 = [32] /\
  skipn 72 t = filter (fun c => negb (c =? 10)) line ++ [10].
Proof. exact (@C160_columns_pf). Qed.
Print Assumptions C160_columns.

Example C160_columns_ex : columns (listed (lit "a.arg", 12, lit "        A" ++ [10])) 66 71 = lit "12    " /\
  skipn 72 (listed (lit "a.arg", 12, lit "        A" ++ [10])) = lit "        A" ++ [10].
Proof. vm_compute. auto. Qed.
