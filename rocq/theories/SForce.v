(** The symbol table of files of any names, also simple.x and complex.x: C194. *)
From Verif Require Import Py MCards MSymbols SSymbols.

(** one definition: the symbol, its segment, subsegment and kind, the type of its tag, and the card *)
Record sdef := mksdef { sd_tag : str; sd_seg : str; sd_sub : str; sd_kind : str; sd_type : str; sd_card : card }.
(** the definitions made by the cards of a file, in order *)
Inductive deck_defs (upper : str -> str) (seg s0 : str) : list card -> list sdef -> Prop :=
| dd_nil : deck_defs upper seg s0 [] []
| dd_def cs ds c tag kind tt ss : deck_defs upper seg s0 cs ds -> defines upper c tag kind tt -> current_subseg s0 (cs ++ [c]) ss ->
    deck_defs upper seg s0 (cs ++ [c]) (ds ++ [mksdef tag seg ss kind tt c])
| dd_not cs ds c : deck_defs upper seg s0 cs ds -> (forall tag kind tt, ~ defines upper c tag kind tt) ->
    deck_defs upper seg s0 (cs ++ [c]) ds.
(** and by several files *)
Inductive files_defs (upper : str -> str) : list str -> list (list card) -> list sdef -> Prop :=
| fd_nil : files_defs upper [] [] []
| fd_file files css ds f seg cs d : files_defs upper files css ds -> segment_of f seg -> deck_defs upper seg (lit "1") cs d ->
    files_defs upper (files ++ [f]) (css ++ [cs]) (ds ++ d).
(** the symbol is in this segment and subsegment already, and also in a segment that is called like the kind of this definition *)
Definition refused (before : list sdef) (d : sdef) : Prop :=
  (exists x, In x before /\ sd_tag x = sd_tag d /\ sd_seg x = sd_seg d /\ sd_sub x = sd_sub d) /\
  (exists x, In x before /\ sd_tag x = sd_tag d /\ sd_seg x = sd_kind d).
(** [n] of the definitions are refused *)
Inductive refusals : list sdef -> Z -> Prop :=
| rf_nil : refusals [] 0
| rf_yes ds d n : refusals ds n -> refused ds d -> refusals (ds ++ [d]) (n + 1)
| rf_no ds d n : refusals ds n -> ~ refused ds d -> refusals (ds ++ [d]) n.
(** [e] is the entry of the last definition under this key that is not refused *)
Definition in_force (ds : list sdef) (tag seg ss kind : str) (e : tabent) : Prop :=
  exists pre d post, ds = pre ++ d :: post /\
    (sd_tag d, sd_seg d, sd_sub d, sd_kind d) = (tag, seg, ss, kind) /\ ~ refused pre d /\ entry_from (sd_card d) (sd_type d) e /\
    forall a d' b, post = a ++ d' :: b -> (sd_tag d', sd_seg d', sd_sub d', sd_kind d') = (tag, seg, ss, kind) ->
      refused (pre ++ d :: a) d'.
(** an EQUALS is refused, with the exception this ends in *)
Definition fatal_at (before : list sdef) (d : sdef) (e : exn) : Prop :=
  refused before d /\ card_get (sd_card d) "operation" = Ok (RStr (lit "EQUALS")) /\
  let called_card := exists x, In x before /\ sd_tag x = sd_tag d /\ sd_seg x = lit "simple" /\ sd_sub x = lit "card" in
  (called_card /\ e = AttributeError \/ ~ called_card /\ e = KeyError).
Definition harmless (ds : list sdef) : Prop := forall pre d post e, ds = pre ++ d :: post -> ~ fatal_at pre d e.
(** the first one *)
Definition dies_of (ds : list sdef) (e : exn) : Prop :=
  exists pre d post, ds = pre ++ d :: post /\ harmless pre /\ fatal_at pre d e.
(** what the dictionary of one symbol holds *)
Definition get3 (sg : segs) (seg ss kind : str) : option tabent :=
  match dget sg seg with
  | Some u => match dget u ss with Some ks => dget ks kind | None => None end
  | None => None
  end.
