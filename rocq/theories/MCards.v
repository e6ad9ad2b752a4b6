(** Model of /repo/h800/punchcard.py and /repo/h800/arguscard.py.
    Messages printed in verbose mode are left out. *)
From Verif Require Import Py.

(** A value stored in a card record *)
Inductive rval := RNone | RStr (s : str) | RInt (n : Z).
Definition record := dict str rval.

(** punchcard.py:31-44 *)
Definition DEFAULT_WIDTH : Z := 120.
Definition DEFAULT_FIELDS : list Z := [1; 2; 8; 9; 20; 33; 47; 61; 76; 81].
Definition DEFAULT_FIELDNAMES : list str := map lit
  ["column1"; "lognum"; "column8"; "label"; "operation"; "operand1"; "operand2"; "operand3";
   "misc"; "remarks"]%string.

(** punchcard.py:47-79 the attributes; a comment card has no _fields,
    _strippedFields and _record *)
Record card := mkcard {
  c_line : str; c_layout : list (Z * Z); c_filename : option str; c_linenum : Z; c_comment : bool;
  c_data : option (list str * list (option str) * record)
}.

(** punchcard.py:59-65 *)
Fixpoint layout (width : Z) (fields : list Z) : list (Z * Z) :=
  match fields with
  | [] => []
  | col :: r =>
      match r with
      | [] => [(col, width - col + 1)]
      | col' :: _ => (col, col' - col) :: layout width r
      end
  end.
(** punchcard.py:66-68 *)
Definition cut (line : str) (sw : Z * Z) : str :=
  let '(s, w) := sw in py_slice line (Some (s - 1)) (Some (s - 1 + w)).
(** punchcard.py:69-79 *)
Definition stripped (f : str) : option str := match strip f with [] => None | t => Some t end.
Definition rstr (o : option str) : rval := match o with Some s => RStr s | None => RNone end.
Fixpoint fill (names : list str) (i : Z) (fields : list str) (rec : record) : res record :=
  match fields with
  | [] => Ok rec
  | f :: r => do n <- py_index names i; fill names (i + 1) r (dset rec n (rstr (stripped f)))
  end.

(** punchcard.py:49-79 PunchCard.__init__ *)
Definition punchcard_new (line : str) (width : Z) (fields : list Z) (names : list str)
                         (filename : option str) (linenum : Z) : res card :=
  let l := remove_char 10 line in
  if startswith line (lit "#") then Ok (mkcard l [] filename linenum true None)
  else
    let lay := layout width fields in
    let fs := map (cut line) lay in
    do rec <- fill names 0 fs (if linenum =? 0 then [] else [(lit "linenum", RInt linenum)]);
    Ok (mkcard l lay filename linenum false (Some (fs, map stripped fs, rec))).

(** punchcard.py:81-118 the properties *)
Definition card_fields (c : card) : res (list str) :=
  match c_data c with Some (f, _, _) => Ok f | None => Err AttributeError end.
Definition card_stripped (c : card) : res (list (option str)) :=
  match c_data c with Some (_, s, _) => Ok s | None => Err AttributeError end.
Definition card_record (c : card) : res record :=
  match c_data c with Some (_, _, r) => Ok r | None => Err AttributeError end.
Definition card_comment (c : card) : option str :=
  if c_comment c then Some (c_line c) else None.
(** punchcard.py:120-121 *)
Definition card_str (c : card) : str := c_line c.

(** arguscard.py:29-50 Card.__init__ *)
Definition is_str (v : rval) (s : string) : bool :=
  match v with RStr t => eqb t (lit s) | _ => false end.
Definition set_record (c : card) (r : record) : card :=
  match c_data c with
  | Some (f, s, _) => mkcard (c_line c) (c_layout c) (c_filename c) (c_linenum c) (c_comment c) (Some (f, s, r))
  | None => c
  end.
Definition argus_new (line : str) (width : Z) (fields : list Z) (names : list str)
                     (filename : option str) (linenum : Z) : res card :=
  do c <- punchcard_new line width fields names filename linenum;
  do rec <- card_record c;
  do column1 <- dindex rec (lit "column1");
  let rec :=
    if is_str column1 "P" || is_str column1 "R" || is_str column1 "L"
    then
      let rec := dset rec (lit "label") RNone in
      let rec := dset rec (lit "operation") RNone in
      let rec := dset rec (lit "operand1") RNone in
      let rec := dset rec (lit "operand2") RNone in
      let rec := dset rec (lit "operand3") RNone in
      let rec := dset rec (lit "misc") RNone in
      dset rec (lit "remarks") (RStr (strip (py_slice (c_line c) (Some 9) None)))
    else rec in
  do column1 <- dindex rec (lit "column1");
  let rec :=
    if is_str column1 "L"
    then dset rec (lit "remarks") (RStr (strip (py_slice (c_line c) (Some 9) None)))
    else rec in
  do operation <- dindex rec (lit "operation");
  let rec := dset rec (lit "instruction") operation in
  match operation with
  | RNone => Ok (set_record c rec)
  | RStr op =>
      if negb (eqb op []) && has_char 44 op
      then Ok (set_record c (dset rec (lit "instruction") (RStr (strip (nth 0 (split_on 44 op) [])))))
      else Ok (set_record c rec)
  | RInt _ => Err TypeError
  end.

(** arguscard.py:52-110 the properties: all are look-ups in the record *)
Definition card_get (c : card) (name : string) : res rval :=
  do r <- card_record c; dindex r (lit name).

(** The card classes; the field names are always the default ones in a deck *)
Inductive cardclass := PunchCls | ArgusCls.
Definition card_new (k : cardclass) (line : str) (width : Z) (fields : list Z)
                    (filename : option str) (linenum : Z) : res card :=
  match k with
  | PunchCls => punchcard_new line width fields DEFAULT_FIELDNAMES filename linenum
  | ArgusCls => argus_new line width fields DEFAULT_FIELDNAMES filename linenum
  end.

(** punchcard.py:124-155 *)
Record deck := mkdeck {
  d_lines : list str; d_cards : list card; d_fields : list (list str);
  d_stripped : list (list (option str)); d_records : list record
}.
Fixpoint mapr {A B} (f : A -> res B) (l : list A) : res (list B) :=
  match l with
  | [] => Ok []
  | x :: r => do y <- f x; do t <- mapr f r; Ok (y :: t)
  end.

(** A file system: the content of each existing file.  Reading is assumed to
    succeed and not to change anything. *)
Definition fsys := str -> option str.

(** punchcard.py:183-219 _readSource with recurse=True; [fuel] bounds the depth of
    nested includes (running out of it is a RecursionError). *)
Fixpoint read_source (fuel : nat) (k : cardclass) (width : Z) (fields : list Z) (fs : fsys)
                     (filename : str) : res (list card) :=
  match fuel with
  | O => Err RecursionError
  | S fuel =>
      match fs filename with
      | None => Err SystemExit
      | Some content =>
          (fix loop (i : Z) (lines : list str) : res (list card) :=
             match lines with
             | [] => Ok []
             | line :: rest =>
                 if startswith line (lit "#") then loop (i + 1) rest
                 else if startswith line (lit "$") then
                   do incname <- py_index (split_ws (py_slice line (Some 1) None)) 0;
                   match fs incname with
                   | None => Err SystemExit
                   | Some _ =>
                       do ic <- read_source fuel k width fields fs incname;
                       do t <- loop (i + 1) rest; Ok (ic ++ t)
                   end
                 else
                   do c <- card_new k line width fields (Some filename) i;
                   do t <- loop (i + 1) rest; Ok (c :: t)
             end) 1 (readlines content)
      end
  end.

(** punchcard.py:139-148 a deck from lines *)
Fixpoint read_lines (k : cardclass) (width : Z) (fields : list Z) (file : option str) (i : Z)
                    (lines : list str) : res (list card) :=
  match lines with
  | [] => Ok []
  | line :: rest =>
      if startswith line (lit "#") then read_lines k width fields file (i + 1) rest
      else do c <- card_new k line width fields file i;
           do t <- read_lines k width fields file (i + 1) rest; Ok (c :: t)
  end.

(** punchcard.py:126-155 Deck.__init__ *)
Definition deck_new (fuel : nat) (fs : fsys) (lines : option (list str)) (file : option str)
                    (width : Z) (fields : list Z) (k : cardclass) : res deck :=
  match lines, file with
  | None, None => Err SystemExit
  | _, _ =>
      do lc <- (match file with
                | Some (x :: r) =>
                    do cs <- read_source fuel k width fields fs (x :: r); Ok (map c_line cs, cs)
                | _ =>
                    match lines with
                    | None => Err TypeError
                    | Some ls => do cs <- read_lines k width fields file 1 ls; Ok (ls, cs)
                    end
                end);
      let '(ls, cs) := lc in
      do all <- mapr (fun c => do f <- card_fields c; do s <- card_stripped c; do r <- card_record c;
                               Ok (f, s, r)) cs;
      Ok (mkdeck ls cs (map (fun t => fst (fst t)) all) (map (fun t => snd (fst t)) all) (map snd all))
  end.
(** punchcard.py:177-181 *)
Definition deck_str (d : deck) : str := join [10] (map card_str (d_cards d)).

(** arguscard.py:119-140 Deck: the deck, log_section and log_section_col8 *)
Fixpoint log_section (cs : list card) : res (option (str * rval)) :=
  match cs with
  | [] => Ok None
  | c :: r =>
      do rec <- card_record c;
      do column1 <- dindex rec (lit "column1");
      if is_str column1 "L" then
        do col8 <- dindex rec (lit "column8");
        Ok (Some (strip (py_slice (c_line c) (Some 8) (Some 81)), col8))
      else log_section r
  end.
Definition argus_deck_new (fuel : nat) (fs : fsys) (lines : option (list str)) (file : option str)
                          (width : Z) (fields : list Z) (k : cardclass)
                          : res (deck * option str * rval) :=
  do d <- deck_new fuel fs lines file width fields k;
  do l <- log_section (d_cards d);
  match l with
  | None => Ok (d, None, RNone)
  | Some (s, c8) => Ok (d, Some s, c8)
  end.
