(** Model of the accessors of a Sheet that give Cell objects, /repo/xlrd/sheet.py: cell 404-416,
    row 471-478, __getitem__ 480-492, get_rows and __iter__ 494-499, row_slice 517-533 and
    col_slice 535-551.  (GridModel.v has the first ones without formatting_info.)  The counts of
    _xf_index_stats are left out; a generator is the list of what it gives. *)
From Verif Require Import Base GridModel SheetModel.

(** sheet.py:2281-2327: a Cell *)
Record cellobj (N : Type) : Type := mk_cellobj { co_type : Z; co_value : value N; co_xf : option Z }.
Arguments mk_cellobj {N}.
Arguments co_type {N}.
Arguments co_value {N}.
Arguments co_xf {N}.

(** An index in brackets: a number, or a tuple of numbers *)
Inductive index : Type := One (i : Z) | Several (l : list Z).
Inductive element (N : Type) : Type := ARow (l : list (cellobj N)) | ACell (c : cellobj N).
Arguments ARow {N}.
Arguments ACell {N}.

Section Access.
Context {N : Type}.
Variable c : config N.

(** sheet.py:404-416 *)
Definition cell_of (sh : sheet N) (rowx colx : Z) : result (cellobj N) :=
  do xfx <- (if c_fmt c then do x <- cell_xf_index c sh rowx colx; Ok (Some x) else Ok None);
  do t <- cell_type (sh_grid sh) rowx colx;
  do v <- cell_value (sh_grid sh) rowx colx;
  Ok (mk_cellobj t v xfx).

(** sheet.py:471-478 *)
Definition row_of (sh : sheet N) (rowx : Z) : result (list (cellobj N)) :=
  do n <- row_len (sh_grid sh) rowx; mapM (cell_of sh rowx) (zrange 0 n).

(** sheet.py:480-492: unpacking a number is TypeError, a tuple of another length ValueError *)
Definition get_item (sh : sheet N) (i : index) : result (element N) :=
  match i with
  | One rowx => do r <- row_of sh rowx; Ok (ARow r)
  | Several [rowx; colx] => do x <- cell_of sh rowx colx; Ok (ACell x)
  | Several _ => Err ValueError
  end.

(** sheet.py:494-499 *)
Definition get_rows (sh : sheet N) : result (list (list (cellobj N))) := mapM (row_of sh) (zrange 0 (g_nrows (sh_grid sh))).

(** sheet.py:517-551 *)
Definition row_slice_of (sh : sheet N) (rowx start : Z) (stop : option Z) : result (list (cellobj N)) :=
  do nc <- row_len (sh_grid sh) rowx;
  let '(a, b) := slice_bounds nc start stop in
  mapM (cell_of sh rowx) (zrange a b).
Definition col_slice_of (sh : sheet N) (colx start : Z) (stop : option Z) : result (list (cellobj N)) :=
  let '(a, b) := slice_bounds (g_nrows (sh_grid sh)) start stop in
  mapM (fun rowx => cell_of sh rowx colx) (zrange a b).
End Access.
