(** Model of the two convenience methods of defined names, /repo/xlrd/book.py:196-267,
    on top of BookApi.v.  The dump of the name to the log before the documented error is
    left out. *)
From Verif Require Import Base GridModel SheetObjects SheetModel FormatModel FormulaModel BookModel BookApi.

Section Names.
Context {N : Type}.
Variable codec : list Z -> list Z -> result (list Z).
Variable num8 : list Z -> N.
Variable rk : list Z -> result N.
Variable ragged : bool.
Notation loaded := (loaded (N := N)).
Notation api := (api (N := N)).
Variable old : book N loaded -> list Z -> Z -> list Z -> Z -> result (shared * loaded).
Variable after : Z * Z.

(** sheet.py:404-416: type, value and, with formatting_info, the XF index. *)
Definition sheet_cell (a : api) (l : loaded) (rowx colx : Z) : result (Z * value N * option Z) :=
  let c := config_of codec num8 rk ragged (a_book a) in
  do xfx <- (if c_fmt c then do x <- cell_xf_index c (ls_sheet l) rowx colx; Ok (Some x) else Ok None);
  do t <- cell_type (sh_grid (ls_sheet l)) rowx colx;
  do v <- cell_value (sh_grid (ls_sheet l)) rowx colx;
  Ok (t, v, xfx).

(** book.py:207-212 and 245-250: [kind == oREF and len(value) == 1], then [value[0]].
    [None] goes on to the documented error.  [len] of None or of a number is a TypeError;
    a text of one character has no [shtxlo]. *)
Definition only_ref (n : nameobj N) : result (option box) :=
  match nm_result n with
  | None => Ok None
  | Some o =>
      if negb (okind_eqb (o_kind o) oREF) then Ok None else
      match o_value o with
      | VNone | VNumber _ => Err TypeError
      | VString s => if zlen s =? 1 then Err AttributeError else Ok None
      | VRefs [r] => Ok (Some (r_box r))
      | VRefs _ => Ok None
      end
  end.

(** book.py:196-224 *)
Definition name_cell (a : api) (n : nameobj N) : result (Z * value N * option Z) * api :=
  match only_ref n with
  | Err e => (Err e, a)
  | Ok None => (Err XLRDError, a)
  | Ok (Some b) =>
      if (0 <=? b_slo b) && (b_slo b =? b_shi b - 1) && (b_rlo b =? b_rhi b - 1) && (b_clo b =? b_chi b - 1) then
        match m_sheet_by_index codec num8 rk ragged old after a (b_slo b) with
        | (Err e, a) => (Err e, a)
        | (Ok sh, a) => (sheet_cell a sh (b_rlo b) (b_clo b), a)
        end
      else (Err XLRDError, a)
  end.

(** book.py:254-260 *)
Definition clip (b : box) (nrows ncols : Z) : result (Z * Z * Z * Z) :=
  let rowxlo := Z.min (b_rlo b) nrows in
  let rowxhi := Z.max rowxlo (Z.min (b_rhi b) nrows) in
  let colxlo := Z.min (b_clo b) ncols in
  let colxhi := Z.max colxlo (Z.min (b_chi b) ncols) in
  do _ <- guard ((0 <=? rowxlo) && (rowxlo <=? rowxhi) && (rowxhi <=? nrows)) AssertionError;
  do _ <- guard ((0 <=? colxlo) && (colxlo <=? colxhi) && (colxhi <=? ncols)) AssertionError;
  Ok (rowxlo, rowxhi, colxlo, colxhi).

(** book.py:226-267: the sheet and the four bounds. *)
Definition name_area2d (a : api) (n : nameobj N) (clipped : bool) : result (loaded * (Z * Z * Z * Z)) * api :=
  match only_ref n with
  | Err e => (Err e, a)
  | Ok None => (Err XLRDError, a)
  | Ok (Some b) =>
      if (0 <=? b_slo b) && (b_slo b =? b_shi b - 1) then
        match m_sheet_by_index codec num8 rk ragged old after a (b_slo b) with
        | (Err e, a) => (Err e, a)
        | (Ok sh, a) =>
            if clipped then
              let g := sh_grid (ls_sheet sh) in
              (do r <- clip b (g_nrows g) (g_ncols g); Ok (sh, r), a)
            else (Ok (sh, (b_rlo b, b_rhi b, b_clo b, b_chi b)), a)
        end
      else (Err XLRDError, a)
  end.
End Names.
