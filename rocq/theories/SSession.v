(** Commands run one after the other: C198. *)
From Coq Require Import Sorted Permutation.
From Verif Require Import Py MCards SCards SEnds MTools STools MDiag MVerbose MOptions SOptions MProcess SProcess SFrame.

(** a script, its name and the words after it *)
Definition call := (tool * str * list str)%type.
Definition run_call (v : env) (fs : fsys) (c : call) : proc := let '(t, prog, words) := c in command v fs t prog words.
(** what each prints and how it ends, and the files afterwards *)
Fixpoint session (v : env) (fs : fsys) (cs : list call) : list (list line * ending) * fsys :=
  match cs with
  | [] => ([], fs)
  | c :: r => let '(ls, st, fs1) := run_call v fs c in let '(os, fs2) := session v fs1 r in ((ls, st) :: os, fs2)
  end.
(** the command looks at, or may write, the file *)
Definition reads (fs : fsys) (c : call) (f : str) : Prop :=
  let '(t, _, words) := c in exists on args, understood (options t) words on args /\ looks_at fs t args f.
Definition writes (c : call) (f : str) : Prop :=
  let '(t, _, words) := c in exists on args, understood (options t) words on args /\ may_write t args f.
(** neither writes what the other reads or writes *)
Definition apart (fs : fsys) (c c' : call) : Prop :=
  forall f, (writes c f -> ~ reads fs c' f /\ ~ writes c' f) /\ (writes c' f -> ~ reads fs c f).
(** a listing command does not overwrite what it reads *)
Definition keeps_sources (fs : fsys) (c : call) : Prop := fst (fst c) = Listing -> forall f, writes c f -> ~ reads fs c f.
