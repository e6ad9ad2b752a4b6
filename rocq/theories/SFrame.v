(** Which files a tool looks at and which it writes: C197. *)
From Verif Require Import Py MCards SCards SEnds MTools STools MDiag MVerbose MOptions SOptions MProcess SProcess.

(** [h] is [f], or is included in it, directly or through other files *)
Inductive leads_to (fs : fsys) : str -> str -> Prop :=
| lt_self f : leads_to fs f f
| lt_include f content ls r g h : fs f = Some content -> text_lines content ls -> In (36 :: r) ls -> first_word r g -> leads_to fs g h ->
    leads_to fs f h.
(** the script with these arguments looks at [f]: it is one of the sources or leads there from one; genpages does not follow includes *)
Definition looks_at (fs : fsys) (t : tool) (args : list str) (f : str) : Prop :=
  match t with
  | Genlines => False
  | Genpages => exists rest, args = f :: rest
  | _ => exists g, In g (sources t args) /\ leads_to fs g f
  end.
(** the script with these arguments may write [g] *)
Definition may_write (t : tool) (args : list str) (g : str) : Prop :=
  (t = Listing /\ exists f, In f args /\ list_name f g) \/ (t = Genpages /\ exists rest, args = g :: rest).
(** no listing takes the place of a file that is looked at *)
Definition listings_apart (fs : fsys) (t : tool) (args : list str) : Prop :=
  t = Listing -> forall f g, In f args -> list_name f g -> ~ looks_at fs t args g.
(** the files without [f] *)
Definition without (fs : fsys) (f : str) : fsys := fun g => if eqb g f then None else fs g.
