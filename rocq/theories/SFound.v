(** Specification of the answer that find-symbols prints. *)
From Verif Require Import Py MCards MSymbols SSymbols STools SDump.

(** the definitions that the cards make of [sym], in order: subsegment, kind and entry; [u] is the subsegment before *)
Inductive made (upper : str -> str) (sym : str) : str -> list card -> list (str * (str * tabent)) -> Prop :=
| md_nil u : made upper sym u [] []
| md_def u c cs u' kind tagtype e l : current_subseg u [c] u' -> defines upper c sym kind tagtype -> entry_from c tagtype e ->
    made upper sym u' cs l -> made upper sym u (c :: cs) ((u', (kind, e)) :: l)
| md_skip u c cs u' l : current_subseg u [c] u' -> (forall kind tagtype, ~ defines upper c sym kind tagtype) ->
    made upper sym u' cs l -> made upper sym u (c :: cs) l.
(** those made by all files, with the segment *)
Inductive all_made (upper : str -> str) (sym : str) : list str -> list (list card) -> list (str * (str * (str * tabent))) -> Prop :=
| am_nil : all_made upper sym [] [] []
| am_file f cs files css seg l r : segment_of f seg -> made upper sym (lit "1") cs l -> all_made upper sym files css r ->
    all_made upper sym (f :: files) (cs :: css) (map (fun d => (seg, d)) l ++ r).

(** the elements in the order in which they occur first *)
Fixpoint firsts (l : list str) : list str :=
  match l with [] => [] | x :: r => x :: filter (fun y => negb (eqb y x)) (firsts r) end.
(** the second components of the pairs with first component [k] *)
Definition under {A} (k : str) (l : list (str * A)) : list A := map snd (filter (fun x => eqb (fst x) k) l).
(** the pairs collected by their first component; [P] says what becomes of those with the same one *)
Definition grouped {A V} (P : list A -> V -> Prop) (l : list (str * A)) (d : list (str * V)) : Prop :=
  map fst d = firsts (map fst l) /\ forall k v, In (k, v) d -> P (under k l) v.
(** by segment, then subsegment, then kind; of several definitions the last one counts *)
Definition answer := list (str * list (str * list (str * tabent))).
Definition answer_from : list (str * (str * (str * tabent))) -> answer -> Prop :=
  grouped (grouped (grouped (fun es e => exists before, es = before ++ [e]))).

(** nested dicts as Python shows them *)
Definition dict_shown {V} (rep : str -> str) (value : V -> str -> Prop) (d : list (str * V)) (t : str) : Prop :=
  exists items, Forall2 (fun x kv => fst kv = rep (fst x) /\ value (snd x) (snd kv)) d items /\ t = dict_text items.
Definition answer_text (rep : str -> str) (card_rep : card -> str) : answer -> str -> Prop :=
  dict_shown rep (dict_shown rep (fun ks t => exists items, Forall2 (entry_item rep card_rep) ks items /\ t = dict_text items)).
(** a list of strings as Python shows it *)
Fixpoint commas (l : list str) : str :=
  match l with [] => [] | [x] => x | x :: r => x ++ [44; 32] ++ commas r end.
Definition names_text (rep : str -> str) (l : list str) : str := [91] ++ commas (map rep l) ++ [93].
