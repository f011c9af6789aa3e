(** Model of the cell store of a sheet: /repo/xlrd/sheet.py:337-345 (initial
    state), 404-587 (accessors), 594-653 (tidy_dimensions), 655-712
    (put_cell_ragged) and 714-784 (put_cell_unragged).

    The three Python lists of rows (types, values, XF indexes) are kept as three
    planes.  Values are of an arbitrary type [V] with [vempty] standing for the
    empty text.  Simplifications: logging is left out; a store that raises
    leaves no state behind, as the exception ends the reading of the sheet;
    cell types are small constants, so the range check of [array('B')] is not
    modelled, but that of [array('h')] for XF indexes is. *)
From Verif Require Import Base.

(** [l[i] = a] for a Python list: negative indexes count from the end. *)
Definition list_set {A} (l : list A) (i : Z) (a : A) : result (list A) :=
  let j := if i <? 0 then i + zlen l else i in
  if (0 <=? j) && (j <? zlen l)
  then Ok (firstn (Z.to_nat j) l ++ a :: skipn (S (Z.to_nat j)) l)
  else Err IndexError.

(** [p[r][c] = a] for a list of rows. *)
Definition plane_set {A} (p : list (list A)) (r c : Z) (a : A) : result (list (list A)) :=
  do row <- py_index p r;
  do row' <- list_set row c a;
  list_set p r row'.

(** [p[r][c]] *)
Definition plane_get {A} (p : list (list A)) (r c : Z) : result A :=
  do row <- py_index p r; py_index row c.

(** [p[r].extend(extra)] *)
Definition row_extend {A} (p : list (list A)) (r : Z) (extra : list A) : result (list (list A)) :=
  do row <- py_index p r; list_set p r (row ++ extra).

(** [p[r][n:] = extra] *)
Definition row_tail {A} (p : list (list A)) (r n : Z) (extra : list A) : result (list (list A)) :=
  do row <- py_index p r; list_set p r (py_slice row 0 n ++ extra).

(** biffh.py: XL_CELL_EMPTY *)
Definition XL_CELL_EMPTY : Z := 0.

(** The range of [array('h')]. *)
Definition fits_h (x : Z) : bool := (-32768 <=? x) && (x <=? 32767).

Section Grid.
Context {V : Type} (vempty : V).

Record grid : Type := mk_grid {
  g_nrows : Z;
  g_ncols : Z;
  g_ffr : Z;                       (* _first_full_rowx *)
  g_types : list (list Z);
  g_vals : list (list V);
  g_xfs : list (list Z);
}.

(** sheet.py:337-345 and 397: the state before reading. *)
Definition grid0 : grid := mk_grid 0 0 (-1) [] [] [].

(** What one store carries: sheet.py:714-717, after the type look-up. *)
Record store : Type := mk_store { s_row : Z; s_col : Z; s_type : Z; s_val : V; s_xf : Z }.

(** The three assignments sheet.py:721-724 and 775-778.  An IndexError is
    reported together with the planes as far as they were written. *)
Inductive set_outcome : Type :=
| SetOk (t : list (list Z)) (v : list (list V)) (x : list (list Z))
| SetIndex (t : list (list Z)) (v : list (list V))
| SetErr (e : error).

Definition set_xf (p : list (list Z)) (r c xf : Z) : result (list (list Z)) :=
  match plane_set p r c xf with
  | Ok p' => if fits_h xf then Ok p' else Err OverflowError
  | Err e => Err e
  end.

Definition set3 (fmt : bool) (g : grid) (s : store) : set_outcome :=
  match plane_set (g_types g) (s_row s) (s_col s) (s_type s) with
  | Err _ => SetIndex (g_types g) (g_vals g)
  | Ok t =>
      match plane_set (g_vals g) (s_row s) (s_col s) (s_val s) with
      | Err _ => SetIndex t (g_vals g)
      | Ok v =>
          if fmt then
            match set_xf (g_xfs g) (s_row s) (s_col s) (s_xf s) with
            | Err IndexError => SetIndex t v
            | Err e => SetErr e
            | Ok x => SetOk t v x
            end
          else SetOk t v (g_xfs g)
      end
  end.

(** sheet.py:714-784; [maxrows] and [maxcols] are utter_max_rows and utter_max_cols. *)
Definition put_cell_unragged (fmt : bool) (maxrows maxcols : Z) (g : grid) (s : store) : result grid :=
  match set3 fmt g s with
  | SetOk t v x => Ok (mk_grid (g_nrows g) (g_ncols g) (g_ffr g) t v x)
  | SetErr e => Err e
  | SetIndex t v =>
      let rowx := s_row s in
      let nr := rowx + 1 in
      let nc := s_col s + 1 in
      do _ <- guard ((1 <=? nc) && (nc <=? maxcols)) AssertionError;
      do _ <- guard ((1 <=? nr) && (nr <=? maxrows)) AssertionError;
      let '(ncols, ffr) :=
        if nc >? g_ncols g then
          (nc, if nr <? g_nrows g then -2
               else if (rowx >? g_ffr g) && (g_ffr g >? -2) then rowx else g_ffr g)
        else (g_ncols g, g_ffr g) in
      do (nrows, t, v, x) <-
        (if nr <=? g_nrows g then
           do trow <- py_index t rowx;
           let nextra := ncols - zlen trow in
           if nextra >? 0 then
             do t <- row_extend t rowx (zrepeat XL_CELL_EMPTY nextra);
             do x <- (if fmt then row_extend (g_xfs g) rowx (zrepeat (-1) nextra) else Ok (g_xfs g));
             do v <- row_extend v rowx (zrepeat vempty nextra);
             Ok (g_nrows g, t, v, x)
           else Ok (g_nrows g, t, v, g_xfs g)
         else
           let k := nr - g_nrows g in
           Ok (nr, t ++ zrepeat (zrepeat XL_CELL_EMPTY ncols) k,
                   v ++ zrepeat (zrepeat vempty ncols) k,
                   if fmt then g_xfs g ++ zrepeat (zrepeat (-1) ncols) k else g_xfs g));
      match set3 fmt (mk_grid nrows ncols ffr t v x) s with
      | SetOk t v x => Ok (mk_grid nrows ncols ffr t v x)
      | SetIndex _ _ => Err IndexError
      | SetErr e => Err e
      end
  end.

(** Appending, filling up or overwriting in one row: sheet.py:686-709 for one plane. *)
Definition ragged_row {A} (d : A) (row : list A) (ltr colx : Z) (a : A) : result (list A) :=
  let num_empty := colx - ltr in
  if num_empty =? 0 then Ok (row ++ [a])
  else
    let row := if num_empty >? 0 then py_slice row 0 ltr ++ zrepeat d (num_empty + 1) else row in
    list_set row colx a.

(** sheet.py:655-712 *)
Definition put_cell_ragged (fmt : bool) (maxrows maxcols : Z) (g : grid) (s : store) : result grid :=
  let rowx := s_row s in
  let colx := s_col s in
  do _ <- guard ((0 <=? colx) && (colx <? maxcols)) AssertionError;
  do _ <- guard ((0 <=? rowx) && (rowx <? maxrows)) AssertionError;
  let nr := rowx + 1 in
  let '(nrows, t, v, x) :=
    if g_nrows g <? nr then
      let k := nr - g_nrows g in
      (nr, g_types g ++ zrepeat [] k, g_vals g ++ zrepeat [] k,
       if fmt then g_xfs g ++ zrepeat [] k else g_xfs g)
    else (g_nrows g, g_types g, g_vals g, g_xfs g) in
  do types_row <- py_index t rowx;
  do values_row <- py_index v rowx;
  do fmt_row <- (if fmt then py_index x rowx else Ok []);
  let ltr := zlen types_row in
  let ncols := if colx >=? g_ncols g then colx + 1 else g_ncols g in
  do types_row <- ragged_row XL_CELL_EMPTY types_row ltr colx (s_type s);
  do values_row <- ragged_row vempty values_row ltr colx (s_val s);
  do t <- list_set t rowx types_row;
  do v <- list_set v rowx values_row;
  do x <- (if fmt then
             do fmt_row <- ragged_row (-1) fmt_row ltr colx (s_xf s);
             if fits_h (s_xf s) then list_set x rowx fmt_row else Err OverflowError
           else Ok x);
  Ok (mk_grid nrows ncols (g_ffr g) t v x).

(** sheet.py:331-335 *)
Definition put_cell (ragged fmt : bool) (maxrows maxcols : Z) (g : grid) (s : store) : result grid :=
  if ragged then put_cell_ragged fmt maxrows maxcols g s else put_cell_unragged fmt maxrows maxcols g s.

Fixpoint put_cells (ragged fmt : bool) (maxrows maxcols : Z) (g : grid) (ss : list store) : result grid :=
  match ss with
  | [] => Ok g
  | s :: r => do g <- put_cell ragged fmt maxrows maxcols g s; put_cells ragged fmt maxrows maxcols g r
  end.

(** sheet.py:646-653, one row *)
Definition fix_row (fmt : bool) (ncols : Z) (g : grid) (rowx : Z) : result grid :=
  do trow <- py_index (g_types g) rowx;
  let nextra := ncols - zlen trow in
  if nextra >? 0 then
    do v <- row_tail (g_vals g) rowx (zlen trow) (zrepeat vempty nextra);
    do t <- row_tail (g_types g) rowx (zlen trow) (zrepeat XL_CELL_EMPTY nextra);
    do x <- (if fmt then row_tail (g_xfs g) rowx (zlen trow) (zrepeat (-1) nextra) else Ok (g_xfs g));
    Ok (mk_grid (g_nrows g) (g_ncols g) (g_ffr g) t v x)
  else Ok g.

Fixpoint fix_rows (fmt : bool) (ncols : Z) (g : grid) (rows : list Z) : result grid :=
  match rows with
  | [] => Ok g
  | r :: rest => do g <- fix_row fmt ncols g r; fix_rows fmt ncols g rest
  end.

(** A merged range (rlo, rhi, clo, chi). *)
Definition mrange : Type := (Z * Z * Z * Z)%type.

(** sheet.py:602-612: the largest rhi and chi. *)
Definition merged_extent (merged : list mrange) : Z * Z :=
  fold_left (fun acc m => let '(nr, nc) := acc in let '(_, rhi, _, chi) := m in
                          (if rhi >? nr then rhi else nr, if chi >? nc then chi else nc)) merged (0, 0).

(** sheet.py:594-653 *)
Definition tidy_dimensions (ragged fmt : bool) (maxrows maxcols : Z) (merged : list mrange) (g : grid) : result grid :=
  do g <-
    (match merged with
     | [] => Ok g
     | _ :: _ =>
         let '(nr, nc) := merged_extent merged in
         let g := if nc >? g_ncols g
                  then mk_grid (g_nrows g) nc (-2) (g_types g) (g_vals g) (g_xfs g) else g in
         if nr >? g_nrows g
         then put_cell ragged fmt maxrows maxcols g (mk_store (nr - 1) 0 XL_CELL_EMPTY vempty (-1))
         else Ok g
     end);
  if ragged then Ok g else
  let ubound := if g_ffr g =? -2 then g_nrows g else g_ffr g in
  fix_rows fmt (g_ncols g) g (zrange 0 ubound).

(** ** Accessors *)

(** sheet.py:418-428 *)
Definition cell_value (g : grid) (rowx colx : Z) : result V := plane_get (g_vals g) rowx colx.
Definition cell_type (g : grid) (rowx colx : Z) : result Z := plane_get (g_types g) rowx colx.

(** sheet.py:461-469 *)
Definition row_len (g : grid) (rowx : Z) : result Z := do row <- py_index (g_vals g) rowx; Ok (zlen row).

(** sheet.py:404-416 with formatting_info=False: the type and the value. *)
Definition cell (g : grid) (rowx colx : Z) : result (Z * V) :=
  do t <- cell_type g rowx colx; do v <- cell_value g rowx colx; Ok (t, v).

(** A list comprehension over results. *)
Fixpoint mapM {A B} (f : A -> result B) (l : list A) : result (list B) :=
  match l with [] => Ok [] | a :: r => do b <- f a; do bs <- mapM f r; Ok (b :: bs) end.

(** sheet.py:471-478 *)
Definition row (g : grid) (rowx : Z) : result (list (Z * V)) :=
  do n <- row_len g rowx; mapM (cell g rowx) (zrange 0 n).

(** [l[start:end]] with an optional end: sheet.py:501-515 *)
Definition py_slice_opt {A} (l : list A) (a : Z) (b : option Z) : list A :=
  match b with None => py_from l a | Some b => py_slice l a b end.
Definition row_types (g : grid) (rowx start : Z) (stop : option Z) : result (list Z) :=
  do r <- py_index (g_types g) rowx; Ok (py_slice_opt r start stop).
Definition row_values (g : grid) (rowx start : Z) (stop : option Z) : result (list V) :=
  do r <- py_index (g_vals g) rowx; Ok (py_slice_opt r start stop).

(** The bounds computed in row_slice and the three column methods:
    sheet.py:521-529, 539-547, 557-565, 575-583. *)
Definition slice_bounds (n start : Z) (stop : option Z) : Z * Z :=
  let start := if start <? 0 then (if start + n <? 0 then 0 else start + n) else start in
  let stop := match stop with
              | None => n
              | Some e => if e >? n then n else if e <? 0 then e + n else e
              end in
  (start, stop).

(** sheet.py:517-533 *)
Definition row_slice (g : grid) (rowx start : Z) (stop : option Z) : result (list (Z * V)) :=
  do nc <- row_len g rowx;
  let '(a, b) := slice_bounds nc start stop in
  mapM (cell g rowx) (zrange a b).

(** sheet.py:535-587 *)
Definition col_slice (g : grid) (colx start : Z) (stop : option Z) : result (list (Z * V)) :=
  let '(a, b) := slice_bounds (g_nrows g) start stop in
  mapM (fun rowx => cell g rowx colx) (zrange a b).
Definition col_values (g : grid) (colx start : Z) (stop : option Z) : result (list V) :=
  let '(a, b) := slice_bounds (g_nrows g) start stop in
  mapM (fun rowx => cell_value g rowx colx) (zrange a b).
Definition col_types (g : grid) (colx start : Z) (stop : option Z) : result (list Z) :=
  let '(a, b) := slice_bounds (g_nrows g) start stop in
  mapM (fun rowx => cell_type g rowx colx) (zrange a b).
End Grid.
