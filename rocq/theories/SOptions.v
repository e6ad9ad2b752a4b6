(** How a command line is understood, without reference to the parser's loops. *)
From Coq Require Export Permutation.
From Verif Require Import Py MOptions.

(** -h, --help *)
Definition HELP_FLAG : flag := mkflag 104 (lit "help").
(** letters and names are declared once, and -h and --help are taken *)
Definition proper_flags (opts : list flag) : Prop :=
  NoDup (map f_short (HELP_FLAG :: opts)) /\ NoDup (map f_long (HELP_FLAG :: opts)).
Definition declared (opts : list flag) (l : str) : Prop := exists f, In f (HELP_FLAG :: opts) /\ f_long f = l.
Definition letter_of (opts : list flag) (c : Z) (l : str) : Prop :=
  exists f, In f (HELP_FLAG :: opts) /\ f_short f = c /\ f_long f = l.
(** the text [t] stands for the option [l]: its name, or a beginning of its name and of no other's *)
Inductive names (opts : list flag) : str -> str -> Prop :=
| nm_exact l : declared opts l -> names opts l l
| nm_abbrev t l : ~ declared opts t -> declared opts l -> (exists r, l = t ++ r) ->
    (forall l', declared opts l' -> (exists r, l' = t ++ r) -> l' = l) -> names opts t l.
(** an option word and the options it stands for, in order: -abc or --name *)
Inductive option_word (opts : list flag) : str -> list str -> Prop :=
| ow_letters c cs ls : c <> 45 -> Forall2 (letter_of opts) (c :: cs) ls -> option_word opts (45 :: c :: cs) ls
| ow_name t l : t <> [] -> ~ In 61 t -> names opts t l -> option_word opts (45 :: 45 :: t) [l].
Definition plain_word (w : str) : Prop := w = [45] \/ forall r, w <> 45 :: r.
(** the options and the arguments of a command line *)
Inductive understood (opts : list flag) : list str -> list str -> list str -> Prop :=
| ud_nil : understood opts [] [] []
| ud_end r : understood opts ([45; 45] :: r) [] r
| ud_arg w r on args : plain_word w -> understood opts r on args -> understood opts (w :: r) on (w :: args)
| ud_opt w ls r on args : option_word opts w ls -> ~ In (lit "help") ls -> understood opts r on args ->
    understood opts (w :: r) (ls ++ on) args.
(** help is asked for before anything wrong *)
Inductive asks_help (opts : list flag) : list str -> Prop :=
| ah_letter c cs ls more r : hd 0 (cs ++ [c]) <> 45 -> Forall2 (letter_of opts) cs ls -> letter_of opts c (lit "help") ->
    asks_help opts ((45 :: cs ++ c :: more) :: r)
| ah_name t r : t <> [] -> ~ In 61 t -> names opts t (lit "help") -> asks_help opts ((45 :: 45 :: t) :: r)
| ah_arg w r : plain_word w -> asks_help opts r -> asks_help opts (w :: r)
| ah_opt w ls r : option_word opts w ls -> ~ In (lit "help") ls -> asks_help opts r -> asks_help opts (w :: r).
(** [on] turns on exactly the option [l] if [b] *)
Definition turned_on (on : list str) (l : string) (b : bool) : Prop := b = true <-> In (lit l) on.
