(** Model of reading a worksheet of BIFF2 to BIFF4W (biff_version 20 to 45):
    /repo/xlrd/sheet.py:789-1508 with the branch 1354-1498 that only these versions have,
    fixed_BIFF2_xfindex 1585-1617, insert_new_BIFF20_xf 1619-1648 and
    fake_XF_from_BIFF20_cell_attr 1650-1700.  Here the worksheet carries the records that
    later versions keep in the workbook globals, so reading it changes the book.

    Records that all versions share are read by [step] of SheetModel.v, with what the book
    holds when the record is met.  An exception ends the opening of the workbook, so the
    state it leaves behind is not modelled.  [of_int] is [float(d)] for an integer.
    [sheet.biff_version] and [book.biff_version] are always equal; they are [b_bv] of the
    book's formats.  The local variable [bv] keeps the value from the start. *)
From Verif Require Import Base Text Strings Framing GridModel SheetObjects SheetModel FormatModel FormulaModel BookModel
  BookApi.

(** Record codes, biffh.py:113-213. *)
Definition XL_BLANK_B2 : Z := 0x01.
Definition XL_BOOLERR_B2 : Z := 0x5.
Definition XL_BUILTINFMTCOUNT : Z := 0x56.
Definition XL_CODEPAGE : Z := 0x42.
Definition XL_COLUMNDEFAULT : Z := 0x20.
Definition XL_COLWIDTH : Z := 0x24.
Definition XL_DATEMODE : Z := 0x22.
Definition XL_EFONT : Z := 0x45.
Definition XL_FILEPASS : Z := 0x2f.
Definition XL_FONT : Z := 0x31.
Definition XL_FONT_B3B4 : Z := 0x231.
Definition XL_FORMAT : Z := 0x41e.
Definition XL_FORMAT2 : Z := 0x1E.
Definition XL_INTEGER : Z := 0x2.
Definition XL_IXFE : Z := 0x44.
Definition XL_LABEL_B2 : Z := 0x04.
Definition XL_NUMBER_B2 : Z := 0x3.
Definition XL_PALETTE : Z := 0x92.
Definition XL_ROW_B2 : Z := 0x08.
Definition XL_STYLE : Z := 0x293.
Definition XL_WINDOW2_B2 : Z := 0x003E.
Definition XL_WRITEACCESS : Z := 0x5C.
Definition XL_XF2 : Z := 0x0043.
Definition XL_XF3 : Z := 0x0243.
Definition XL_XF4 : Z := 0x0443.

Section Old.
Context {N : Type}.
Variable codec : list Z -> list Z -> result (list Z).
Variable num8 : list Z -> N.
Variable rk : list Z -> result N.
Variable of_int : Z -> N.
Variable ragged : bool.

(** The state of the loop. *)
Record ost : Type := mk_ost {
  os_book : book N (loaded (N := N));
  os_sheet : sheet N;
  os_ixfe : option Z;                    (* _ixfe *)
  os_attrs : list (list Z * Z);          (* _cell_attr_to_xfx *)
  os_done : bool;                        (* book._xf_epilogue_done *)
  os_share : list (Z * Z) }.             (* which Colinfo object a column has *)

Definition os_fmt (s : ost) : fbook := bk_fmt (os_book s).
Definition set_book (s : ost) (b : book N loaded) : ost :=
  mk_ost b (os_sheet s) (os_ixfe s) (os_attrs s) (os_done s) (os_share s).
Definition set_fmt (s : ost) (f : fbook) : ost := set_book s (BookModel.with_fmt (os_book s) f).
Definition set_sheet (s : ost) (sh : sheet N) : ost :=
  mk_ost (os_book s) sh (os_ixfe s) (os_attrs s) (os_done s) (os_share s).
Definition set_ixfe (s : ost) (x : Z) : ost :=
  mk_ost (os_book s) (os_sheet s) (Some x) (os_attrs s) (os_done s) (os_share s).
Definition set_attrs (s : ost) (m : list (list Z * Z)) : ost :=
  mk_ost (os_book s) (os_sheet s) (os_ixfe s) m (os_done s) (os_share s).
Definition set_done (s : ost) : ost :=
  mk_ost (os_book s) (os_sheet s) (os_ixfe s) (os_attrs s) true (os_share s).
Definition set_share (s : ost) (m : list (Z * Z)) : ost :=
  mk_ost (os_book s) (os_sheet s) (os_ixfe s) (os_attrs s) (os_done s) m.

(** The biff_version of the sheet and of the book. *)
Definition os_version (s : ost) : Z := b_bv (os_fmt s).
Definition set_version (f : fbook) (v : Z) : fbook :=
  mk_fbook v (b_fmt f) (b_colours f) (b_used f) (b_palette f) (b_fonts f) (b_formats f) (b_format_list f) (b_fmtcount f)
    (b_xfs f) (b_xfcount f) (b_xftype f) (b_styles f).

(** What the shared records see of the book. *)
Definition cfg (s : ost) : config N := config_of codec num8 rk ragged (os_book s).
(** The same, with an encoding looked for when text is met. *)
Definition cfg_deriving (s : ost) : config N :=
  let k := cfg s in
  mk_config (c_bv k) (c_fmt k) (c_ragged k) (c_sst k) (c_rich k) (c_xftype k)
    (fun b => do e <- ensure_encoding codec (bk_bv (os_book s)) (bk_enc (os_book s)); unicode codec (en_encoding e) b)
    (c_num8 k) (c_rk k) (c_nearest k).

(** [bk.encoding or bk.derive_encoding()] *)
Definition os_ensure (s : ost) : result ost := do b <- ensure codec (os_book s); Ok (set_book s b).

(** formatting.py:1016-1087 *)
Definition epilogue (s : ost) : ost := set_done (set_fmt s (xf_epilogue (os_fmt s))).

(** put_cell *)
Definition o_put (s : ost) (rowx colx : Z) (ctype : option Z) (v : value N) (xf : Z) : result ost :=
  do sh <- put (cfg s) (os_sheet s) rowx colx ctype v xf;
  Ok (set_sheet s sh).

(** ** Cell attributes of BIFF2 *)

(** sheet.py:1650-1700; [is_style] and [lotus_123_prefix] are those of formatting.py:1246-1322. *)
Definition fake_xf (index : Z) (cell_attr : list Z) (style : bool) : result xf :=
  do _ <- guard (zlen cell_attr =? 3) StructError;
  do prot <- unpack_le 1 cell_attr 0; do ff <- unpack_le 1 cell_attr 1; do he <- unpack_le 1 cell_attr 2;
  let side mask : Z * Z := if negb (Z.land he mask =? 0) then (8, 1) else (0, 0) in
  let '(lc, ls) := side 0x08 in let '(rc, rs) := side 0x10 in
  let '(tc, ts) := side 0x20 in let '(bc, bs) := side 0x40 in
  Ok (mk_xf index (Z.shiftr (Z.land ff 0xC0) 6) (Z.land ff 0x3F) 0 0 (if style then 0 else 0x0FFF)
        (mk_flags 1 1 1 1 1 1)
        (mk_alignment (Z.land he 0x07) 2 0 0 0 0 0)
        (mk_border ls rs ts bs 0 lc rc tc bc 0 0 0)
        (mk_background (if negb (Z.land he 0x80 =? 0) then 17 else 0) 8 9)
        (mk_protection (upk prot 6 0x40) (upk prot 7 0x80))).

(** sheet.py:1619-1648 *)
Definition insert_xf (s : ost) (cell_attr : list Z) (style : bool) : result (ost * Z) :=
  let f := os_fmt s in
  let xfx := zlen (b_xfs f) in
  do x <- fake_xf xfx cell_attr style;
  let f := with_xfs f (b_xfs f ++ [x]) in
  let f := match dget Z.eqb (b_formats f) (xf_format_key x) with
           | Some _ => f
           | None =>
               let fmt := mk_format (xf_format_key x) FUN (Some (s2l "General")) in
               with_format_list (with_formats f (dset (b_formats f) (xf_format_key x) fmt)) (b_format_list f ++ [fmt])
           end in
  match dget Z.eqb (b_formats f) (xf_format_key x) with
  | None => Err KeyError
  | Some fmt =>
      match cellty_from_fmtty (fm_type fmt) with
      | None => Err KeyError
      | Some ty =>
          let f := with_xftype f (dset (b_xftype f) xfx ty) in
          Ok (set_attrs (set_fmt s f) (dset (os_attrs s) cell_attr xfx), xfx)
      end
  end.

(** sheet.py:1614-1615 *)
Fixpoint insert_styles (s : ost) (xfxs : list Z) : result ost :=
  match xfxs with
  | [] => Ok s
  | x :: r => do (s, _) <- insert_xf s [0x40; 0; 0] (x <? 15); insert_styles s r
  end.

(** sheet.py:1605-1617: no XF records. *)
Definition attr_xf (s : ost) (cell_attr : list Z) : result (ost * Z) :=
  do b <- py_index cell_attr 0;
  do _ <- guard (Z.land b 0x3F =? 0) AssertionError;
  match dget list_eqb (os_attrs s) cell_attr with
  | Some xfx => Ok (s, xfx)
  | None =>
      do s <- (if zlen (b_xfs (os_fmt s)) =? 0 then insert_styles s (zrange 0 16) else Ok s);
      insert_xf s cell_attr false
  end.

(** sheet.py:1585-1617.  [cell_attr] is None only with a [true_xfx]: None[0] is a TypeError. *)
Definition fixed_xf (s : ost) (cell_attr : option (list Z)) (true_xfx : option Z) : result (ost * Z) :=
  let no_xfs s := match cell_attr with None => Err TypeError | Some a => attr_xf s a end in
  if os_version s =? 21 then
    if negb (zlen (b_xfs (os_fmt s)) =? 0) then
      do xfx <- match true_xfx, cell_attr with
                | Some x, _ => Ok x
                | None, Some a => do b <- py_index a 0; Ok (Z.land b 0x3F)
                | None, None => Err TypeError
                end;
      if xfx =? 0x3F then match os_ixfe s with None => Err XLRDError | Some x => Ok (s, x) end
      else Ok (s, xfx)
    else no_xfs (set_fmt s (set_version (os_fmt s) 20))
  else no_xfs s.

(** ** Records *)

(** A cell record of BIFF2 with attributes [data[4:7]]: the cell after [fixed_xf]. *)
Definition attr_cell (s : ost) (data : list Z) (ctype : option Z) (v : value N) : result ost :=
  do rowx <- unpack_u16 data 0; do colx <- unpack_u16 data 2;
  do (s, xf) <- fixed_xf s (Some (py_slice data 4 7)) None;
  o_put s rowx colx ctype v xf.

(** sheet.py:1379-1381 *)
Definition h_number_b2 (s : ost) (data : list Z) : result ost :=
  do _ <- guard (zlen data =? 15) StructError;
  attr_cell s data None (VNum (num8 (py_slice data 7 15))).

(** sheet.py:1382-1384 *)
Definition h_integer (s : ost) (data : list Z) : result ost :=
  do _ <- guard (zlen data =? 9) StructError;
  do d <- unpack_u16 data 7;
  attr_cell s data None (VNum (of_int d)).

(** sheet.py:1385-1388 *)
Definition h_label_b2 (s : ost) (data : list Z) : result ost :=
  do _ <- need data 7;
  do s <- os_ensure s;
  do strg <- unpack_string (c_decode (cfg s)) data 7 1;
  attr_cell s data (Some XL_CELL_TEXT) (VText strg).

(** sheet.py:1389-1393 *)
Definition h_boolerr_b2 (s : ost) (data : list Z) : result ost :=
  do _ <- guard (zlen data =? 9) StructError;
  do v <- unpack_le 1 data 7; do is_err <- unpack_le 1 data 8;
  do cellty <- py_index [XL_CELL_BOOLEAN; XL_CELL_ERROR] is_err;
  attr_cell s data (Some cellty) (VInt v).

(** sheet.py:1394-1397 *)
Definition h_blank_b2 (s : ost) (data : list Z) : result ost :=
  if negb (b_fmt (os_fmt s)) then Ok s else
  do _ <- need data 7;
  attr_cell s data (Some XL_CELL_BLANK) vempty.

(** sheet.py:948-979: the STRING record after a FORMULA record. *)
Definition string_record (rs : list record) : result (list Z * list record) :=
  do ((rc2, _, data2), rs) <- next rs;
  if (rc2 =? XL_STRING) || (rc2 =? XL_STRING_B2) then Ok (data2, rs) else
  do _ <- (if rc2 =? XL_ARRAY then need data2 14
           else if rc2 =? XL_SHRFMLA then need data2 10
           else if (rc2 =? XL_TABLEOP) || (rc2 =? XL_TABLEOP2) || (rc2 =? XL_ARRAY2) || (rc2 =? XL_TABLEOP_B2)
           then Ok tt else Err XLRDError);
  do ((rc2, _, data2), rs) <- next rs;
  if (rc2 =? XL_STRING) || (rc2 =? XL_STRING_B2) then Ok (data2, rs) else Err XLRDError.

(** sheet.py:929-1000 and 1510-1538 *)
Definition o_formula (bv : Z) (s : ost) (data : list Z) (rs : list record) : result (ost * list record) :=
  do _ <- need data 16;
  do rowx <- unpack_u16 data 0; do colx <- unpack_u16 data 2;
  do (s, xf, result_str) <-
    (if bv >=? 30 then do xf <- unpack_u16 data 4; Ok (s, xf, py_slice data 6 14)
     else do (s, xf) <- fixed_xf s (Some (py_slice data 4 7)) None; Ok (s, xf, py_slice data 7 15));
  if list_eqb (py_slice result_str 6 8) [0xFF; 0xFF] then
    do first_byte <- py_index result_str 0;
    if first_byte =? 0 then
      do (data2, rs) <- string_record rs;
      let lenlen := if bv >=? 30 then 2 else 1 in
      do nexp <- unpack_le lenlen data2 0;
      do s <- os_ensure s;
      do (strg, rs) <- string_loop (cfg s) rs data2 lenlen nexp 0 [];
      do s <- o_put s rowx colx (Some XL_CELL_TEXT) (VText strg) xf;
      Ok (s, rs)
    else if first_byte =? 1 then
      do v <- py_index result_str 2;
      do s <- o_put s rowx colx (Some XL_CELL_BOOLEAN) (VInt v) xf;
      Ok (s, rs)
    else if first_byte =? 2 then
      do v <- py_index result_str 2;
      do s <- o_put s rowx colx (Some XL_CELL_ERROR) (VInt v) xf;
      Ok (s, rs)
    else if first_byte =? 3 then
      do s <- o_put s rowx colx (Some XL_CELL_TEXT) (VText []) xf;
      Ok (s, rs)
    else Err XLRDError
  else
    do s <- o_put s rowx colx None (VNum (num8 result_str)) xf;
    Ok (s, rs).

(** sheet.py:1400-1439.  The attributes that are not set stay None (sheet.py:2424-2462). *)
Definition py_None : Z := -1.
Definition h_row_b2 (s : ost) (data_len : Z) (data : list Z) : result ost :=
  if negb (b_fmt (os_fmt s)) then Ok s else
  do _ <- need data 11;
  do rowx <- unpack_u16 data 0; do bits1 <- unpack_u16 data 6; do bits2 <- unpack_le 1 data 10;
  if negb ((0 <=? rowx) && (rowx <? max_rows (cfg s))) then Ok s else
  do (s, xf) <-
    (if Z.land bits2 1 =? 0 then Ok (s, -1)
     else if data_len =? 18 then
       do _ <- guard (zlen (py_slice data 16 18) =? 2) StructError;
       do xfx <- unpack_u16 data 16;
       fixed_xf s None (Some xfx)
     else fixed_xf s (Some (py_slice data 13 16)) None);
  let r := mk_rowinfo (Z.land bits1 0x7fff) (bit bits1 15) py_None py_None py_None py_None (Z.land bits2 1) xf py_None py_None in
  let sh := os_sheet s in
  let f := sh_fmt sh in
  Ok (set_sheet s (SheetModel.with_fmt sh
        (mk_fmtst (f_merged f) (dset (f_rows f) rowx r) (f_cols f) (f_defcolwidth f) (f_standardwidth f) (f_gcw f)))).

(** Columns that hold the same Colinfo object change together. *)
Definition new_object (s : ost) : Z := zlen (os_share s).
Definition update_colinfo (s : ost) (colx : Z) (u : colinfo -> colinfo) : ost :=
  let sh := os_sheet s in
  let f := sh_fmt sh in
  let put s cols := set_sheet s (SheetModel.with_fmt sh
                      (mk_fmtst (f_merged f) (f_rows f) cols (f_defcolwidth f) (f_standardwidth f) (f_gcw f))) in
  match dget Z.eqb (f_cols f) colx with
  | Some _ =>
      let same k := match dget Z.eqb (os_share s) colx, dget Z.eqb (os_share s) k with
                    | Some a, Some b => a =? b
                    | _, _ => false
                    end in
      put s (map (fun '(k, ci) => (k, if same k then u ci else ci)) (f_cols f))
  | None =>
      (* class attributes, sheet.py:2380-2397 *)
      put (set_share s (dset (os_share s) colx (new_object s))) (dset (f_cols f) colx (u (mk_colinfo 0 (-1) 0 0 0 0)))
  end.

(** sheet.py:1008-1044: one new Colinfo object for all the columns. *)
Definition o_colinfo (s : ost) (data : list Z) : result ost :=
  do sh <- h_colinfo (cfg s) (os_sheet s) data;
  if negb (b_fmt (os_fmt s)) then Ok (set_sheet s sh) else
  do first <- unpack_u16 data 0; do last <- unpack_u16 data 2;
  if negb ((0 <=? first) && (first <=? last) && (last <=? 256)) then Ok (set_sheet s sh) else
  let share := fold_left (fun m colx => dset m colx (new_object s)) (zrange first (Z.min 256 (last + 1))) (os_share s) in
  Ok (set_share (set_sheet s sh) share).

(** sheet.py:1440-1461 *)
Definition h_colwidth (s : ost) (data : list Z) : result ost :=
  if negb (b_fmt (os_fmt s)) then Ok s else
  do _ <- need data 4;
  do first <- unpack_le 1 data 0; do last <- unpack_le 1 data 1; do width <- unpack_u16 data 2;
  if negb (first <=? last) then Ok s else
  Ok (fold_left (fun s colx => update_colinfo s colx (fun c => mk_colinfo width (ci_xf c) (ci_hidden c) (ci_bit1 c)
                                                                 (ci_outline_level c) (ci_collapsed c)))
        (zrange first (last + 1)) s).

(** sheet.py:1477-1486 *)
Fixpoint columndefault_loop (s : ost) (cols : list Z) (first : Z) (data : list Z) : result ost :=
  match cols with
  | [] => Ok s
  | colx :: r =>
      let offset := 4 + 3 * (colx - first) in
      do (s, xf) <- fixed_xf s (Some (py_slice data offset (offset + 3))) None;
      columndefault_loop (update_colinfo s colx (fun c => mk_colinfo (ci_width c) xf (ci_hidden c) (ci_bit1 c)
                                                            (ci_outline_level c) (ci_collapsed c))) r first data
  end.

(** sheet.py:1462-1486 *)
Definition h_columndefault (s : ost) (data : list Z) : result ost :=
  if negb (b_fmt (os_fmt s)) then Ok s else
  do _ <- need data 4;
  do first <- unpack_u16 data 0; do last <- unpack_u16 data 2;
  let last := if negb ((0 <=? first) && (first <? last) && (last <=? 256)) then Z.min last 256 else last in
  columndefault_loop s (zrange first last) first data.

(** sheet.py:1487-1498.  In Python 3 [data[0:5]] yields integers, which all differ from
    [b'\0']: the five attributes become 1. *)
Definition h_window2_b2 (s : ost) (data : list Z) : result ost :=
  let sh := os_sheet s in
  let v := sh_view sh in
  do _ <- guard (zlen (py_slice data 5 10) =? 5) StructError;
  do fr <- unpack_u16 data 5; do fc <- unpack_u16 data 7; do auto <- unpack_le 1 data 9;
  do _ <- guard (zlen (py_slice data 10 13) =? 3) StructError;
  do r <- unpack_le 1 data 10; do g <- unpack_le 1 data 11; do b <- unpack_le 1 data 12;
  let opts := map (fun _ => 1) (py_slice data 0 5) ++ [auto] ++ skipn 6 (v_options v) in
  Ok (set_sheet s (with_view sh
        (mk_viewst opts fr fc (c_nearest (cfg s) (r, g, b)) (Some (r, g, b)) (v_cached_preview v) (v_cached_normal v)
           (v_scl v) (v_pane v) (v_hbreaks v) (v_vbreaks v)
           (v_row_labels v) (v_col_labels v) (v_default_height v) (v_height_bits v) (v_dims v)))).

(** A record of formatting.py. *)
Definition o_format (s : ost) (r : frecord) : result ost :=
  do b <- format_record codec (os_book s) r; Ok (set_book s b).

(** A record of [step]. *)
Definition o_step (s : ost) (rc data_len : Z) (data : list Z) (rs : list record) : result (ost * list record) :=
  do (sh, rs) <- step (cfg s) (os_sheet s) rc data_len data rs;
  Ok (set_sheet s sh, rs).

(** One turn of the loop, sheet.py:813-1501, apart from the EOF record.  First the shared
    records that look for an encoding or differ in these versions, then the branch
    1354-1498, then the other shared records: all codes are different. *)
Definition old_step (bv : Z) (s : ost) (rc data_len : Z) (data : list Z) (rs : list record)
  : result (ost * list record) :=
  let stay (r : result ost) := do s <- r; Ok (s, rs) in
  if (rc =? XL_LABEL) || (rc =? XL_RSTRING) then
    do _ <- need data 6; do s <- os_ensure s; o_step s rc data_len data rs
  else if is_formula_code rc then o_formula bv s data rs
  else if rc =? XL_COLINFO then stay (o_colinfo s data)
  else if (rc =? XL_DIMENSION) || (rc =? XL_DIMENSION2) then
    do (s, rs) <- o_step s rc data_len data rs;
    if data_len =? 0 then Ok (s, rs)
    else if ((bv =? 21) || (bv =? 30) || (bv =? 40)) && negb (zlen (b_xfs (os_fmt s)) =? 0) && negb (os_done s)
    then Ok (epilogue s, rs)
    else Ok (s, rs)
  else if rc =? XL_NOTE then
    do (sh, rs) <- step (cfg_deriving s) (os_sheet s) rc data_len data rs;
    do s <- os_ensure (set_sheet s sh);
    Ok (s, rs)
  else if rc =? XL_WINDOW2 then
    do _ <- guard (bv >=? 30) AssertionError;
    o_step s rc data_len data rs
  else if (rc =? XL_FORMAT) || (rc =? XL_FORMAT2) then stay (o_format s (RFormat data (rc =? XL_FORMAT2)))
  else if (rc =? XL_FONT) || (rc =? XL_FONT_B3B4) then stay (o_format s (RFont data))
  else if rc =? XL_STYLE then stay (o_format (if os_done s then s else epilogue s) (RStyle data))
  else if rc =? XL_PALETTE then stay (o_format s (RPalette data))
  else if rc =? XL_BUILTINFMTCOUNT then do _ <- need data 2; Ok (s, rs)
  else if (rc =? XL_XF4) || (rc =? XL_XF3) || (rc =? XL_XF2) then stay (o_format s (RXf data))
  else if rc =? XL_DATEMODE then stay (do b <- handle_datemode (os_book s) data; Ok (set_book s b))
  else if rc =? XL_CODEPAGE then
    stay (do e <- handle_codepage codec bv (bk_enc (os_book s)) data; Ok (set_book s (with_enc (os_book s) e)))
  else if rc =? XL_FILEPASS then Err XLRDError
  else if rc =? XL_WRITEACCESS then
    stay (do e <- handle_writeaccess codec bv (bk_enc (os_book s)) data; Ok (set_book s (with_enc (os_book s) e)))
  else if rc =? XL_IXFE then
    stay (do _ <- guard (zlen data =? 2) StructError; do x <- unpack_u16 data 0; Ok (set_ixfe s x))
  else if rc =? XL_NUMBER_B2 then stay (h_number_b2 s data)
  else if rc =? XL_INTEGER then stay (h_integer s data)
  else if rc =? XL_LABEL_B2 then stay (h_label_b2 s data)
  else if rc =? XL_BOOLERR_B2 then stay (h_boolerr_b2 s data)
  else if rc =? XL_BLANK_B2 then stay (h_blank_b2 s data)
  else if rc =? XL_EFONT then stay (o_format s (REfont data))
  else if rc =? XL_ROW_B2 then stay (h_row_b2 s data_len data)
  else if rc =? XL_COLWIDTH then stay (h_colwidth s data)
  else if rc =? XL_COLUMNDEFAULT then stay (h_columndefault s data)
  else if rc =? XL_WINDOW2_B2 then stay (h_window2_b2 s data)
  else o_step s rc data_len data rs.

(** sheet.py:811-1501: the loop, up to the EOF record. *)
Fixpoint old_loop (fuel : nat) (bv : Z) (s : ost) (rs : list record) : result ost :=
  match fuel with
  | O => Err OutOfFuel
  | S f =>
      do ((rc, data_len, data), rs) <- next rs;
      if rc =? XL_EOF then Ok s else
      do (s, rs) <- old_step bv s rc data_len data rs;
      old_loop f bv s rs
  end.

(** sheet.py:320-401 *)
Definition ost0 (b : book N loaded) : ost := mk_ost b (sheet0 (g_countries (bk_shared b))) None [] false [].

(** sheet.py:789-1508 *)
Definition old_read (b : book N loaded) (rs : list record) : result ost :=
  do s <- old_loop (S (List.length rs)) (bk_bv b) (ost0 b) rs;
  let sh := os_sheet s in
  do g <- tidy_dimensions vempty ragged (b_fmt (os_fmt s)) (max_rows (cfg s)) 256 (f_merged (sh_fmt sh)) (sh_grid sh);
  Ok (set_sheet s (with_grid sh g)).

(** sheet.py:320-401 and 789-1508: what [old] of BookApi.v stands for. *)
Definition old_load (b : book N loaded) (mem : list Z) (position : Z) (name : list Z) (number : Z)
  : result (shared * loaded) :=
  do visibility <- py_index (sl_visibility (bk_sheets b)) number;
  do s <- old_read b (records_of (S (2 * List.length mem)) mem position);
  let g := bk_shared (os_book s) in
  Ok (mk_shared (g_enc g) (g_fmt g) (sh_countries (os_sheet s)) (g_datemode g),
      mk_loaded number name visibility (os_sheet s)).
End Old.
