(** The columns of a line that the tools look at. *)
From Verif Require Import Py MCards SCards SSource.

(** a line of any file with any number, that has the same columns 1, 8, 9-19 and 20-32 as far as the tools look at them: both are
    remarks or neither is, both are starred or neither is, and if they are no remarks then the labels are the same but for the white space
    around them and the blanks anywhere, and the operations are the same but for the white space around them *)
Definition same_key (x y : srcline) : Prop :=
  (remark_line (text_of x) <-> remark_line (text_of y)) /\ (starred_line (text_of x) <-> starred_line (text_of y)) /\
  (remark_line (text_of x) \/
   (exists t t', trimmed (columns (text_of x) 9 19) t /\ trimmed (columns (text_of y) 9 19) t' /\
      filter (fun c => negb (c =? 32)) t = filter (fun c => negb (c =? 32)) t') /\
   (exists t, trimmed (columns (text_of x) 20 32) t /\ trimmed (columns (text_of y) 20 32) t)).
(** how list-instructions shows a line *)
Definition line_shown (details : bool) (x : srcline) : str :=
  let '(f, i, _) := x in
  if details then pad_right 32 48 f ++ [32] ++ pad_left 32 6 (str_of_Z i) ++ [32] ++ shown_text x else shown_text x.
