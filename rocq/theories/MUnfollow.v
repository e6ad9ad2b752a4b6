(** punchcard.py:183-219 _readSource with recurse=False: the files of $ lines are not read, the lines become cards themselves.
    Nothing in /repo calls it so; width, fields and card class are those the deck has at that time (Deck.__init__ assigns
    the texts of the fields to the same attribute _fields at its end, so that the call is of use to a subclass that
    reads files before). *)
From Verif Require Import Py MCards MTools MDiag MVerbose.

(** punchcard.py:194-219 the loop over the lines *)
Fixpoint flat_loop (k : cardclass) (width : Z) (fields : list Z) (fs : fsys) (v : bool) (filename : str) (i : Z)
                   (lines : list str) : io (list card) :=
  match lines with
  | [] => ([], Ok [])
  | line :: rest =>
      if startswith line (lit "#") then
        io_bind (tell v (skipping filename i), Ok tt) (fun _ => flat_loop k width fields fs v filename (i + 1) rest)
      else if startswith line (lit "$") then
        io_bind ([], py_index (split_ws (py_slice line (Some 1) None)) 0) (fun incname =>
        match fs incname with
        | None => exit_with (lit "File """ ++ incname ++ lit """ does not exist")
        | Some _ =>
            io_bind ([], card_new k line width fields (Some filename) i) (fun c =>
            io_bind (flat_loop k width fields fs v filename (i + 1) rest) (fun t => ([], Ok (c :: t))))
        end)
      else
        io_bind ([], card_new k line width fields (Some filename) i) (fun c =>
        io_bind (flat_loop k width fields fs v filename (i + 1) rest) (fun t => ([], Ok (c :: t))))
  end.
(** punchcard.py:183-193, 219 *)
Definition read_flat (k : cardclass) (width : Z) (fields : list Z) (fs : fsys) (v : bool) (filename : str) : io (list card) :=
  match fs filename with
  | None => exit_with (lit "ERROR: File """ ++ filename ++ lit """ does not exist!")
  | Some content =>
      io_bind (tell v (reading filename), Ok tt) (fun _ => flat_loop k width fields fs v filename 1 (readlines content))
  end.
