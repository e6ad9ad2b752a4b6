(** String literals as the language defines them (the escapes that occur), and texts that can be told apart. *)
From Verif Require Import Py MCards SCards MSymbols MDump SDump SSource STextSym MDiag MVerbose.

Inductive hex_digit : Z -> Z -> Prop :=
| hd_dec c : 48 <= c <= 57 -> hex_digit c (c - 48)
| hd_let c : 97 <= c <= 102 -> hex_digit c (c - 87).
(** [s] read after the digits of [a] *)
Inductive hexes : Z -> str -> Z -> Prop :=
| hx_nil a : hexes a [] a
| hx_cons a c d s n : hex_digit c d -> hexes (16 * a + d) s n -> hexes a (c :: s) n.
(** what stands between quotes [q], and the string it denotes *)
Inductive inside (q : Z) : str -> str -> Prop :=
| in_nil : inside q [] []
| in_char c t s : c <> q -> c <> 92 -> c <> 10 -> c <> 13 -> inside q t s -> inside q (c :: t) (c :: s)
| in_self c t s : In c [39; 34; 92] -> inside q t s -> inside q (92 :: c :: t) (c :: s)
| in_tab t s : inside q t s -> inside q (92 :: 116 :: t) (9 :: s)
| in_newline t s : inside q t s -> inside q (92 :: 110 :: t) (10 :: s)
| in_return t s : inside q t s -> inside q (92 :: 114 :: t) (13 :: s)
| in_hex k l h n t s : In (k, l) [(120, 2); (117, 4); (85, 8)] -> zlen h = l -> hexes 0 h n -> inside q t s ->
    inside q (92 :: k :: h ++ t) (n :: s).
(** a literal and the string it denotes *)
Definition literal (t s : str) : Prop := exists q b, (q = 39 \/ q = 34) /\ t = q :: b ++ [q] /\ inside q b s.
(** the characters there are *)
Definition unicode (s : str) : Prop := Forall (fun c => 0 <= c < 1114112) s.
(** ordinary characters: printable ASCII without quotes and backslash *)
Definition ordinary (s : str) : Prop := Forall (fun c => 32 <= c <= 126 /\ c <> 39 /\ c <> 34 /\ c <> 92) s.
(** a list of literals as Python shows it *)
Definition list_shown (ts : list str) : str :=
  [91] ++ match ts with [] => [] | t :: r => t ++ concat (map (fun u => lit ", " ++ u) r) end ++ [93].
