(** Model of repr() of a string, which the dumps of MDump.v and MVerbose.v show (symbol_table.py:207-299,
    find-symbols.py:68).  This is Python's own function, not code of the repository.  [printable] is str.isprintable of a
    character outside ASCII. *)
From Verif Require Import Py MCards MSymbols MDump MVerbose.

Definition hexchar (d : Z) : Z := if d <? 10 then 48 + d else 87 + d.
(** the last [k] digits of "%x" % n, with leading zeros *)
Fixpoint hexs (k : nat) (n : Z) : str :=
  match k with O => [] | S k => hexs k (n / 16) ++ [hexchar (n mod 16)] end.
(** one character between quotes [q] *)
Definition rep_char (printable : Z -> bool) (q c : Z) : str :=
  if (c =? q) || (c =? 92) then [92; c]
  else if c =? 9 then lit "\t" else if c =? 10 then lit "\n" else if c =? 13 then lit "\r"
  else if (c <? 32) || (c =? 127) then lit "\x" ++ hexs 2 c
  else if (c <? 127) || printable c then [c]
  else if c <? 256 then lit "\x" ++ hexs 2 c
  else if c <? 65536 then lit "\u" ++ hexs 4 c
  else lit "\U" ++ hexs 8 c.
(** apostrophes, unless the text contains one and no quotation mark *)
Definition rep_quote (s : str) : Z := if has_char 39 s && negb (has_char 34 s) then 34 else 39.
Definition py_repr (printable : Z -> bool) (s : str) : str :=
  let q := rep_quote s in [q] ++ concat (map (rep_char printable q) s) ++ [q].
