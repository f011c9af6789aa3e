(** Model of the record loop of a worksheet, Sheet.read:
    /repo/xlrd/sheet.py:789-1508, string_record_contents 1510-1538,
    update_cooked_mag_factors 1540-1583, computed_column_width 1706-1744,
    cell_xf_index 430-459.

    Scope: BIFF5 and later (biff_version >= 50).  The branch of sheet.py:1354-1498
    ("all of the following are for BIFF <= 4W") is not modelled.
    The records come as the list described in SheetObjects.v.  Values:
    numbers are of an arbitrary type [N]; [num8] is [unpack('<d', b)] for eight
    bytes and [rk] is [unpack_RK] (sheet.py:2219-2233).  Logging and the debug
    decompilation of formulas are left out.  An exception ends the reading, so
    the state it leaves behind is not modelled. *)
From Verif Require Import Base Utf16 Strings Framing GridModel SheetObjects.

(** Record codes, biffh.py:113-216. *)
Definition XL_ARRAY : Z := 0x221.
Definition XL_ARRAY2 : Z := 0x21.
Definition XL_BLANK : Z := 0x201.
Definition XL_BOOLERR : Z := 0x205.
Definition XL_CF : Z := 0x1B1.
Definition XL_COLINFO : Z := 0x7D.
Definition XL_CONDFMT : Z := 0x1B0.
Definition XL_COUNTRY : Z := 0x8C.
Definition XL_DEFAULTROWHEIGHT : Z := 0x225.
Definition XL_DEFCOLWIDTH : Z := 0x55.
Definition XL_DIMENSION : Z := 0x200.
Definition XL_DIMENSION2 : Z := 0.
Definition XL_EOF : Z := 0x0a.
Definition XL_FEAT11 : Z := 0x872.
Definition XL_GCW : Z := 0xab.
Definition XL_HLINK : Z := 0x1B8.
Definition XL_HORIZONTALPAGEBREAKS : Z := 0x1b.
Definition XL_LABEL : Z := 0x204.
Definition XL_LABELRANGES : Z := 0x15f.
Definition XL_LABELSST : Z := 0xfd.
Definition XL_MERGEDCELLS : Z := 0xE5.
Definition XL_MSO_DRAWING : Z := 0xEC.
Definition XL_MULRK : Z := 0xbd.
Definition XL_MULBLANK : Z := 0xbe.
Definition XL_NUMBER : Z := 0x203.
Definition XL_OBJ : Z := 0x5D.
Definition XL_PANE : Z := 0x41.
Definition XL_RK : Z := 0x27e.
Definition XL_ROW : Z := 0x208.
Definition XL_RSTRING : Z := 0xd6.
Definition XL_SCL : Z := 0xA0.
Definition XL_SHRFMLA : Z := 0x4bc.
Definition XL_STANDARDWIDTH : Z := 0x99.
Definition XL_STRING : Z := 0x207.
Definition XL_STRING_B2 : Z := 0x7.
Definition XL_TABLEOP : Z := 0x236.
Definition XL_TABLEOP2 : Z := 0x37.
Definition XL_TABLEOP_B2 : Z := 0x36.
Definition XL_TXO : Z := 0x1b6.
Definition XL_VERTICALPAGEBREAKS : Z := 0x1a.
Definition XL_WINDOW2 : Z := 0x23E.
Definition is_formula_code (rc : Z) : bool := (rc =? 0x6) || (rc =? 0x406) || (rc =? 0x206).
Definition is_bof_code (rc : Z) : bool := (rc =? 0x809) || (rc =? 0x409) || (rc =? 0x209) || (rc =? 0x9).

(** Cell types, biffh.py *)
Definition XL_CELL_TEXT : Z := 1.
Definition XL_CELL_NUMBER : Z := 2.
Definition XL_CELL_DATE : Z := 3.
Definition XL_CELL_BOOLEAN : Z := 4.
Definition XL_CELL_ERROR : Z := 5.
Definition XL_CELL_BLANK : Z := 6.

Definition bit (x n : Z) : Z := Z.land (Z.shiftr x n) 1.

(** sheet.py:908-919 and 2402-2490 *)
Record rowinfo : Type := mk_rowinfo {
  ri_height : Z; ri_has_default_height : Z; ri_outline_level : Z; ri_outline_group : Z;
  ri_hidden : Z; ri_height_mismatch : Z; ri_has_default_xf : Z; ri_xf : Z;
  ri_above : Z; ri_below : Z }.

(** sheet.py:1008-1036 and 2340-2397 *)
Record colinfo : Type := mk_colinfo {
  ci_width : Z; ci_xf : Z; ci_hidden : Z; ci_bit1 : Z; ci_outline_level : Z; ci_collapsed : Z }.

(** Formatting state. *)
Record fmtst : Type := mk_fmtst {
  f_merged : list mrange;
  f_rows : list (Z * rowinfo);
  f_cols : list (Z * colinfo);
  f_defcolwidth : option Z;
  f_standardwidth : option Z;
  f_gcw : list Z }.

(** View and print state. *)
Record viewst : Type := mk_viewst {
  v_options : list Z;             (* the twelve WINDOW2 option attributes *)
  v_first_row : Z; v_first_col : Z;
  v_gridline_colour : Z;
  v_gridline_rgb : option (Z * Z * Z);
  v_cached_preview : Z; v_cached_normal : Z;
  v_scl : option Z;
  v_pane : option (Z * Z * Z * Z * Z);
  v_hbreaks : list (Z * Z * Z); v_vbreaks : list (Z * Z * Z);
  v_row_labels : list mrange; v_col_labels : list mrange;
  v_default_height : option Z; v_height_bits : Z;
  v_dims : Z * Z }.

(** Objects and rich text. *)
Record objst : Type := mk_objst {
  o_links : links;
  o_notes : notes;
  o_txos : list (Z * (list Z * list (Z * Z)));
  o_saved : option (option Z);    (* [None]: the local variable is not yet bound *)
  o_rich : list ((Z * Z) * list (Z * Z)) }.

Section Sheet.
Context {N : Type}.

Inductive value : Type := VNum (d : N) | VText (s : list Z) | VInt (z : Z).
Definition vempty : value := VText [].

Record sheet : Type := mk_sheet {
  sh_grid : @grid value;
  sh_fmt : fmtst;
  sh_view : viewst;
  sh_obj : objst;
  sh_countries : Z * Z }.           (* of the book *)

Definition with_grid (sh : sheet) (g : grid) : sheet := mk_sheet g (sh_fmt sh) (sh_view sh) (sh_obj sh) (sh_countries sh).
Definition with_fmt (sh : sheet) (f : fmtst) : sheet := mk_sheet (sh_grid sh) f (sh_view sh) (sh_obj sh) (sh_countries sh).
Definition with_view (sh : sheet) (v : viewst) : sheet := mk_sheet (sh_grid sh) (sh_fmt sh) v (sh_obj sh) (sh_countries sh).
Definition with_obj (sh : sheet) (o : objst) : sheet := mk_sheet (sh_grid sh) (sh_fmt sh) (sh_view sh) o (sh_countries sh).

(** sheet.py:252, 22-46, 320-401 *)
Definition sheet0 (countries : Z * Z) : sheet :=
  mk_sheet grid0
    (mk_fmtst [] [] [] None None (zrepeat 0 256))
    (mk_viewst [0; 1; 1; 0; 1; 1; 0; 1; 0; 0; 0; 0] 0 0 0x40 None 0 0 None None [] [] [] [] None 0 (0, 0))
    (mk_objst (mk_links [] []) [] [] None [])
    countries.

(** What reading depends on: options and book-level tables. *)
Record config : Type := mk_config {
  c_bv : Z;                              (* biff_version *)
  c_fmt : bool;                          (* formatting_info *)
  c_ragged : bool;                       (* ragged_rows *)
  c_sst : list (list Z);                 (* bk._sharedstrings *)
  c_rich : list (Z * list (Z * Z));      (* bk._rich_text_runlist_map *)
  c_xftype : Z -> option Z;              (* _xf_index_to_xl_type_map *)
  c_decode : list Z -> result (list Z);  (* unicode(bytes, bk.encoding or bk.derive_encoding()) *)
  c_num8 : list Z -> N;
  c_rk : list Z -> result N;
  c_nearest : Z * Z * Z -> Z }.          (* nearest_colour_index(bk.colour_map, rgb) *)

Section Read.
Variable c : config.

(** sheet.py:391-395 *)
Definition max_rows : Z := if c_bv c >=? 80 then 65536 else 16384.

(** put_cell with its type look-up: sheet.py:656-658 and 715-717. *)
Definition put (sh : sheet) (rowx colx : Z) (ctype : option Z) (v : value) (xf : Z) : result sheet :=
  do t <- match ctype with
          | Some t => Ok t
          | None => match c_xftype c xf with Some t => Ok t | None => Err KeyError end
          end;
  do g <- put_cell vempty (c_ragged c) (c_fmt c) max_rows 256 (sh_grid sh) (mk_store rowx colx t v xf);
  Ok (with_grid sh g).

(** sheet.py:819-826 *)
Definition h_number (sh : sheet) (data : list Z) : result sheet :=
  do _ <- need data 14;
  do rowx <- unpack_u16 data 0; do colx <- unpack_u16 data 2; do xf <- unpack_u16 data 4;
  put sh rowx colx None (VNum (c_num8 c (py_slice data 6 14))) xf.

Definition set_rich (sh : sheet) (rowx colx : Z) (runs : list (Z * Z)) : sheet :=
  let o := sh_obj sh in
  with_obj sh (mk_objst (o_links o) (o_notes o) (o_txos o) (o_saved o) (dset (o_rich o) (rowx, colx) runs)).

(** sheet.py:827-834 *)
Definition h_labelsst (sh : sheet) (data : list Z) : result sheet :=
  do _ <- guard (zlen data =? 10) StructError;
  do rowx <- unpack_u16 data 0; do colx <- unpack_u16 data 2; do xf <- unpack_u16 data 4;
  do sstindex <- unpack_i32 data 6;
  do s <- py_index (c_sst c) sstindex;
  do sh <- put sh rowx colx (Some XL_CELL_TEXT) (VText s) xf;
  if c_fmt c then
    match dget Z.eqb (c_rich c) sstindex with
    | Some (r :: runs) => Ok (set_rich sh rowx colx (r :: runs))
    | _ => Ok sh
    end
  else Ok sh.

(** sheet.py:835-841 *)
Definition h_label (sh : sheet) (data : list Z) : result sheet :=
  do _ <- need data 6;
  do rowx <- unpack_u16 data 0; do colx <- unpack_u16 data 2; do xf <- unpack_u16 data 4;
  do strg <- (if c_bv c <? 80 then unpack_string (c_decode c) data 6 2 else unpack_unicode data 6 2);
  put sh rowx colx (Some XL_CELL_TEXT) (VText strg) xf.

(** The run lists of sheet.py:848-850 ([w] = 1) and 857-859 ([w] = 2). *)
Fixpoint rstring_runs (k : nat) (data : list Z) (pos w : Z) : result (list (Z * Z) * Z) :=
  match k with
  | O => Ok ([], pos)
  | S k' =>
      do _ <- guard (zlen (py_slice data pos (pos + 2 * w)) =? 2 * w) StructError;
      do a <- unpack_le w data pos; do b <- unpack_le w data (pos + w);
      do (r, pos) <- rstring_runs k' data (pos + 2 * w) w;
      Ok ((a, b) :: r, pos)
  end.

(** sheet.py:842-863 *)
Definition h_rstring (sh : sheet) (data : list Z) : result sheet :=
  do _ <- need data 6;
  do rowx <- unpack_u16 data 0; do colx <- unpack_u16 data 2; do xf <- unpack_u16 data 4;
  do (strg, runs) <-
    (if c_bv c <? 80 then
       do (strg, pos) <- unpack_string_update_pos (c_decode c) data 6 2 None;
       do nrt <- py_index data pos;
       do (runs, pos) <- rstring_runs (Z.to_nat nrt) data (pos + 1) 1;
       do _ <- guard (pos =? zlen data) AssertionError;
       Ok (strg, runs)
     else
       do (strg, pos) <- unpack_unicode_update_pos data 6 2 None;
       do nrt <- unpack_u16 data pos;
       do (runs, pos) <- rstring_runs (Z.to_nat nrt) data (pos + 2) 2;
       do _ <- guard (pos =? zlen data) AssertionError;
       Ok (strg, runs));
  do sh <- put sh rowx colx (Some XL_CELL_TEXT) (VText strg) xf;
  Ok (set_rich sh rowx colx runs).

(** sheet.py:864-867 *)
Definition h_rk (sh : sheet) (data : list Z) : result sheet :=
  do _ <- need data 6;
  do rowx <- unpack_u16 data 0; do colx <- unpack_u16 data 2; do xf <- unpack_u16 data 4;
  do d <- c_rk c (py_slice data 6 10);
  put sh rowx colx None (VNum d) xf.

(** sheet.py:871-876 *)
Fixpoint mulrk_loop (cols : list Z) (sh : sheet) (row : Z) (data : list Z) (pos : Z) : result sheet :=
  match cols with
  | [] => Ok sh
  | colx :: cols' =>
      do xf <- unpack_u16 data pos;
      do d <- c_rk c (py_slice data (pos + 2) (pos + 6));
      do sh <- put sh row colx None (VNum d) xf;
      mulrk_loop cols' sh row data (pos + 6)
  end.

(** sheet.py:868-876 *)
Definition h_mulrk (sh : sheet) (data : list Z) : result sheet :=
  do _ <- need data 4;
  do row <- unpack_u16 data 0; do first <- unpack_u16 data 2;
  do last <- unpack_u16 (py_from data (-2)) 0;
  mulrk_loop (zrange first (last + 1)) sh row data 4.

(** sheet.py:877-928 *)
Definition h_row (sh : sheet) (data : list Z) : result sheet :=
  if negb (c_fmt c) then Ok sh else
  do _ <- need data 16;
  do rowx <- unpack_u16 data 0; do bits1 <- unpack_u16 data 6; do bits2 <- unpack_i32 data 12;
  if negb ((0 <=? rowx) && (rowx <? max_rows)) then Ok sh else
  let has := bit bits2 7 in
  let r := mk_rowinfo (Z.land bits1 0x7fff) (bit bits1 15) (Z.land bits2 7) (bit bits2 4) (bit bits2 5)
             (bit bits2 6) has (if has =? 0 then -1 else Z.land (Z.shiftr bits2 16) 0xfff)
             (bit bits2 28) (bit bits2 29) in
  let f := sh_fmt sh in
  Ok (with_fmt sh (mk_fmtst (f_merged f) (dset (f_rows f) rowx r) (f_cols f) (f_defcolwidth f) (f_standardwidth f) (f_gcw f))).

(** sheet.py:1523-1538: [data] is the current record's data; the loop reads on
    in CONTINUE records. *)
Fixpoint string_loop (rs : list record) (data : list Z) (offset nexp nfound : Z) (acc : list Z)
  : result (list Z * list record) :=
  do chunk <-
    (if c_bv c >=? 80 then
       do b <- py_index data offset;
       if Z.testbit b 0 then utf16_dec (py_from data (offset + 1)) else Ok (py_from data (offset + 1))
     else c_decode c (py_from data offset));
  let acc := acc ++ chunk in
  let nfound := nfound + zlen chunk in
  if nfound =? nexp then Ok (acc, rs)
  else if nfound >? nexp then Err XLRDError
  else match rs with
       | [] => Err StructError
       | (rc, _, data) :: rs' =>
           if negb (rc =? XL_CONTINUE) then Err XLRDError else string_loop rs' data 0 nexp nfound acc
       end.

(** sheet.py:1510-1538 *)
Definition string_record_contents (rs : list record) (data : list Z) : result (list Z * list record) :=
  let lenlen := if c_bv c >=? 30 then 2 else 1 in
  do nexp <- unpack_le lenlen data 0;
  string_loop rs data lenlen nexp 0 [].

(** sheet.py:948-981: the STRING record after a FORMULA record. *)
Definition formula_string (rs : list record) : result (list Z * list record) :=
  do ((rc2, _, data2), rs) <- next rs;
  do (data2, rs) <-
    (if (rc2 =? XL_STRING) || (rc2 =? XL_STRING_B2) then Ok (data2, rs) else
     do _ <- (if rc2 =? XL_ARRAY then need data2 14
              else if rc2 =? XL_SHRFMLA then need data2 10
              else if (rc2 =? XL_TABLEOP) || (rc2 =? XL_TABLEOP2) || (rc2 =? XL_ARRAY2) || (rc2 =? XL_TABLEOP_B2)
              then Ok tt else Err XLRDError);
     do ((rc2, _, data2), rs) <- next rs;
     if (rc2 =? XL_STRING) || (rc2 =? XL_STRING_B2) then Ok (data2, rs) else Err XLRDError);
  string_record_contents rs data2.

(** sheet.py:929-1000 for BIFF3 and later. *)
Definition h_formula (sh : sheet) (data : list Z) (rs : list record) : result (sheet * list record) :=
  do _ <- need data 16;
  do rowx <- unpack_u16 data 0; do colx <- unpack_u16 data 2; do xf <- unpack_u16 data 4;
  let result_str := py_slice data 6 14 in
  if list_eqb (py_slice result_str 6 8) [0xFF; 0xFF] then
    do first_byte <- py_index result_str 0;
    if first_byte =? 0 then
      do (strg, rs) <- formula_string rs;
      do sh <- put sh rowx colx (Some XL_CELL_TEXT) (VText strg) xf;
      Ok (sh, rs)
    else if first_byte =? 1 then
      do v <- py_index result_str 2;
      do sh <- put sh rowx colx (Some XL_CELL_BOOLEAN) (VInt v) xf;
      Ok (sh, rs)
    else if first_byte =? 2 then
      do v <- py_index result_str 2;
      do sh <- put sh rowx colx (Some XL_CELL_ERROR) (VInt v) xf;
      Ok (sh, rs)
    else if first_byte =? 3 then
      do sh <- put sh rowx colx (Some XL_CELL_TEXT) (VText []) xf;
      Ok (sh, rs)
    else Err XLRDError
  else
    do sh <- put sh rowx colx None (VNum (c_num8 c result_str)) xf;
    Ok (sh, rs).

(** sheet.py:1001-1007 *)
Definition h_boolerr (sh : sheet) (data : list Z) : result sheet :=
  do _ <- need data 8;
  do rowx <- unpack_u16 data 0; do colx <- unpack_u16 data 2; do xf <- unpack_u16 data 4;
  do v <- unpack_le 1 data 6; do is_err <- unpack_le 1 data 7;
  do cellty <- py_index [XL_CELL_BOOLEAN; XL_CELL_ERROR] is_err;
  put sh rowx colx (Some cellty) (VInt v) xf.

(** sheet.py:1008-1044 *)
Definition h_colinfo (sh : sheet) (data : list Z) : result sheet :=
  if negb (c_fmt c) then Ok sh else
  do _ <- need data 10;
  do first <- unpack_u16 data 0; do last <- unpack_u16 data 2; do width <- unpack_u16 data 4;
  do xf <- unpack_u16 data 6; do flags <- unpack_u16 data 8;
  if negb ((0 <=? first) && (first <=? last) && (last <=? 256)) then Ok sh else
  let ci := mk_colinfo width xf (Z.land flags 1) (Z.shiftr (Z.land flags 2) 1)
              (Z.shiftr (Z.land flags 0x700) 8) (Z.shiftr (Z.land flags 0x1000) 12) in
  let f := sh_fmt sh in
  let cols := fold_left (fun m colx => dset m colx ci) (zrange first (Z.min 256 (last + 1))) (f_cols f) in
  Ok (with_fmt sh (mk_fmtst (f_merged f) (f_rows f) cols (f_defcolwidth f) (f_standardwidth f) (f_gcw f))).

(** sheet.py:1045-1047 *)
Definition h_defcolwidth (sh : sheet) (data : list Z) : result sheet :=
  do w <- unpack_u16 data 0;
  let f := sh_fmt sh in
  Ok (with_fmt sh (mk_fmtst (f_merged f) (f_rows f) (f_cols f) (Some w) (f_standardwidth f) (f_gcw f))).

(** sheet.py:1048-1052 *)
Definition h_standardwidth (sh : sheet) (data : list Z) : result sheet :=
  do w <- unpack_u16 data 0;
  let f := sh_fmt sh in
  Ok (with_fmt sh (mk_fmtst (f_merged f) (f_rows f) (f_cols f) (f_defcolwidth f) (Some w) (f_gcw f))).

(** sheet.py:1053-1066 *)
Definition h_gcw (sh : sheet) (data_len : Z) (data : list Z) : result sheet :=
  if negb (c_fmt c) then Ok sh else
  do _ <- guard (data_len =? 34) AssertionError;
  do _ <- guard (list_eqb (py_slice data 0 2) [0x20; 0]) AssertionError;
  do _ <- guard (zlen (py_slice data 2 34) =? 32) StructError;
  do iguff <- mapM (fun i => unpack_i32 data (2 + 4 * i)) (zrange 0 8);
  let gcw := flat_map (fun bits => map (fun j => bit bits j) (zrange 0 32)) iguff in
  let f := sh_fmt sh in
  Ok (with_fmt sh (mk_fmtst (f_merged f) (f_rows f) (f_cols f) (f_defcolwidth f) (f_standardwidth f) gcw)).

(** sheet.py:1067-1071 *)
Definition h_blank (sh : sheet) (data : list Z) : result sheet :=
  if negb (c_fmt c) then Ok sh else
  do _ <- need data 6;
  do rowx <- unpack_u16 data 0; do colx <- unpack_u16 data 2; do xf <- unpack_u16 data 4;
  put sh rowx colx (Some XL_CELL_BLANK) vempty xf.

(** [unpack("<nH", data)] for an even number of bytes. *)
Fixpoint u16s (l : list Z) : list Z :=
  match l with lo :: hi :: r => le_val [lo; hi] :: u16s r | _ => [] end.

(** sheet.py:1080-1083 *)
Fixpoint mulblank_loop (cols : list Z) (sh : sheet) (rowx : Z) (items : list Z) (pos : Z) : result sheet :=
  match cols with
  | [] => Ok sh
  | colx :: cols' =>
      do xf <- py_index items pos;
      do sh <- put sh rowx colx (Some XL_CELL_BLANK) vempty xf;
      mulblank_loop cols' sh rowx items (pos + 1)
  end.

(** sheet.py:1072-1083 *)
Definition h_mulblank (sh : sheet) (data_len : Z) (data : list Z) : result sheet :=
  if negb (c_fmt c) then Ok sh else
  let nitems := Z.shiftr data_len 1 in
  do _ <- guard (zlen data =? 2 * nitems) StructError;
  let items := u16s data in
  match items with
  | rowx :: first :: _ =>
      do last <- py_index items (-1);
      do _ <- guard (nitems =? last + 4 - first) AssertionError;
      mulblank_loop (zrange first (last + 1)) sh rowx items 2
  | _ => Err ValueError
  end.

(** sheet.py:1084-1104 *)
Definition h_dimension (sh : sheet) (data_len : Z) (data : list Z) : result sheet :=
  if data_len =? 0 then Ok sh else
  do dims <-
    (if c_bv c <? 80 then
       do _ <- guard (zlen (py_slice data 2 8) =? 6) StructError;
       do r <- unpack_u16 data 2; do k <- unpack_u16 data 6; Ok (r, k)
     else
       do _ <- guard (zlen (py_slice data 4 12) =? 8) StructError;
       do r <- unpack_i32 data 4; do k <- unpack_u16 data 10; Ok (r, k));
  let g := sh_grid sh in
  let v := sh_view sh in
  let sh := with_grid sh (mk_grid 0 0 (g_ffr g) (g_types g) (g_vals g) (g_xfs g)) in
  Ok (with_view sh
        (mk_viewst (v_options v) (v_first_row v) (v_first_col v) (v_gridline_colour v) (v_gridline_rgb v)
           (v_cached_preview v) (v_cached_normal v) (v_scl v) (v_pane v) (v_hbreaks v) (v_vbreaks v)
           (v_row_labels v) (v_col_labels v) (v_default_height v) (v_height_bits v) dims)).

Definition set_links (sh : sheet) (l : links) : sheet :=
  let o := sh_obj sh in with_obj sh (mk_objst l (o_notes o) (o_txos o) (o_saved o) (o_rich o)).

(** sheet.py:1114-1118 *)
Definition h_obj (sh : sheet) (data : list Z) : result sheet :=
  do saved <- handle_obj (c_bv c) data;
  do id <- match saved with
           | None => Ok None
           | Some (Some id) => Ok (Some id)
           | Some None => Err AttributeError
           end;
  let o := sh_obj sh in
  Ok (with_obj sh (mk_objst (o_links o) (o_notes o) (o_txos o) (Some id) (o_rich o))).

(** sheet.py:1121-1125 *)
Definition h_txo (sh : sheet) (data : list Z) (rs : list record) : result (sheet * list record) :=
  do (txo, rs) <- handle_txo (c_bv c) data rs;
  let o := sh_obj sh in
  match txo with
  | None => Ok (sh, rs)
  | Some t =>
      match o_saved o with
      | None => Err UnboundLocalError
      | Some None => Ok (sh, rs)
      | Some (Some id) =>
          if id =? 0 then Ok (sh, rs) else
          Ok (with_obj sh (mk_objst (o_links o) (o_notes o) (dset (o_txos o) id t) (Some None) (o_rich o)), rs)
      end
  end.

(** sheet.py:1126-1127 *)
Definition h_note (sh : sheet) (data : list Z) (rs : list record) : result (sheet * list record) :=
  let o := sh_obj sh in
  do (m, rs) <- handle_note (c_decode c) (c_bv c) (o_txos o) (o_notes o) data rs;
  Ok (with_obj sh (mk_objst (o_links o) m (o_txos o) (o_saved o) (o_rich o)), rs).

(** sheet.py:1135-1138: up to and including the next EOF record. *)
Fixpoint skip_to_eof (rs : list record) : result (list record) :=
  match rs with
  | [] => Err StructError
  | (code, _, _) :: rs' => if code =? XL_EOF then Ok rs' else skip_to_eof rs'
  end.

(** sheet.py:1140-1141 and book.py:843-848 *)
Definition h_country (sh : sheet) (data : list Z) : result sheet :=
  do _ <- need data 4;
  do a <- unpack_u16 data 0; do b <- unpack_u16 data 2;
  do _ <- guard (pair_eqb (sh_countries sh) (0, 0) || pair_eqb (sh_countries sh) (a, b)) AssertionError;
  Ok (mk_sheet (sh_grid sh) (sh_fmt sh) (sh_view sh) (sh_obj sh) (a, b)).

(** sheet.py:1142-1150 *)
Definition h_labelranges (sh : sheet) (data_len : Z) (data : list Z) : result sheet :=
  let v := sh_view sh in
  do (rl, pos) <- unpack_cell_range_address_list_update_pos (v_row_labels v) data 0 8;
  do (cl, pos) <- unpack_cell_range_address_list_update_pos (v_col_labels v) data pos 8;
  do _ <- guard (pos =? data_len) AssertionError;
  Ok (with_view sh
        (mk_viewst (v_options v) (v_first_row v) (v_first_col v) (v_gridline_colour v) (v_gridline_rgb v)
           (v_cached_preview v) (v_cached_normal v) (v_scl v) (v_pane v) (v_hbreaks v) (v_vbreaks v)
           rl cl (v_default_height v) (v_height_bits v) (v_dims v))).

(** sheet.py:1164-1190: only its checks matter. *)
Definition h_condfmt (sh : sheet) (data : list Z) : result sheet :=
  if negb (c_fmt c) then Ok sh else
  do _ <- guard (c_bv c >=? 80) AssertionError;
  do _ <- need data 12;
  do _ <- unpack_cell_range_address_list_update_pos [] data 12 8;
  Ok sh.

(** sheet.py:1191-1240: only its checks matter. *)
Definition h_cf (sh : sheet) (data_len : Z) (data : list Z) : result sheet :=
  if negb (c_fmt c) then Ok sh else
  do _ <- need data 10;
  do sz1 <- unpack_u16 data 2; do sz2 <- unpack_u16 data 4; do flags <- unpack_i32 data 6;
  let pos := 12 in
  do pos <- (if negb (bit flags 26 =? 0)
             then do _ <- guard (zlen (py_slice data pos (pos + 118)) =? 118) StructError; Ok (pos + 118)
             else Ok pos);
  let pos := if negb (bit flags 28 =? 0) then pos + 8 else pos in
  let pos := if negb (bit flags 29 =? 0) then pos + 4 else pos in
  do _ <- guard (pos + sz1 + sz2 =? data_len) AssertionError;
  Ok sh.

(** sheet.py:1241-1259 *)
Definition h_defaultrowheight (sh : sheet) (data_len : Z) (data : list Z) : result sheet :=
  let v := sh_view sh in
  do (h, bits) <-
    (if data_len =? 4 then
       do _ <- need data 4;
       do bits <- unpack_u16 data 0; do h <- unpack_u16 data 2; Ok (Some h, bits)
     else if data_len =? 2 then
       do _ <- guard (zlen data =? 2) StructError;
       do h <- unpack_u16 data 0; Ok (Some h, 0)
     else Ok (v_default_height v, 0));
  Ok (with_view sh
        (mk_viewst (v_options v) (v_first_row v) (v_first_col v) (v_gridline_colour v) (v_gridline_rgb v)
           (v_cached_preview v) (v_cached_normal v) (v_scl v) (v_pane v) (v_hbreaks v) (v_vbreaks v)
           (v_row_labels v) (v_col_labels v) h (Z.land bits 15) (v_dims v))).

(** sheet.py:1260-1268 *)
Definition h_mergedcells (sh : sheet) (data_len : Z) (data : list Z) : result sheet :=
  if negb (c_fmt c) then Ok sh else
  let f := sh_fmt sh in
  do (m, pos) <- unpack_cell_range_address_list_update_pos (f_merged f) data 0 8;
  do _ <- guard (pos =? data_len) AssertionError;
  Ok (with_fmt sh (mk_fmtst m (f_rows f) (f_cols f) (f_defcolwidth f) (f_standardwidth f) (f_gcw f))).

(** sheet.py:1269-1303; the loop of 1301-1303 takes the twelve low bits. *)
Definition h_window2 (sh : sheet) (data_len : Z) (data : list Z) : result sheet :=
  let v := sh_view sh in
  let opts options := map (fun j => bit options j) (zrange 0 12) in
  if (c_bv c >=? 80) && (data_len >=? 14) then
    do _ <- need data 14;
    do options <- unpack_u16 data 0; do fr <- unpack_u16 data 2; do fc <- unpack_u16 data 4;
    do gl <- unpack_u16 data 6; do cp <- unpack_u16 data 10; do cn <- unpack_u16 data 12;
    Ok (with_view sh
          (mk_viewst (opts options) fr fc gl (v_gridline_rgb v) cp cn (v_scl v) (v_pane v) (v_hbreaks v) (v_vbreaks v)
             (v_row_labels v) (v_col_labels v) (v_default_height v) (v_height_bits v) (v_dims v)))
  else
    do _ <- need data 6;
    do options <- unpack_u16 data 0; do fr <- unpack_u16 data 2; do fc <- unpack_u16 data 4;
    do _ <- guard (zlen (py_slice data 6 9) =? 3) StructError;
    do r <- unpack_le 1 data 6; do g <- unpack_le 1 data 7; do b <- unpack_le 1 data 8;
    Ok (with_view sh
          (mk_viewst (opts options) fr fc (c_nearest c (r, g, b)) (Some (r, g, b)) (v_cached_preview v) (v_cached_normal v)
             (v_scl v) (v_pane v) (v_hbreaks v) (v_vbreaks v)
             (v_row_labels v) (v_col_labels v) (v_default_height v) (v_height_bits v) (v_dims v))).

(** sheet.py:1304-1317 *)
Definition h_scl (sh : sheet) (data : list Z) : result sheet :=
  let v := sh_view sh in
  do _ <- guard (zlen data =? 4) StructError;
  do num <- unpack_u16 data 0; do den <- unpack_u16 data 2;
  let r := if negb (den =? 0) then (num * 100) / den else 0 in
  let r := if negb ((10 <=? r) && (r <=? 400)) then 100 else r in
  Ok (with_view sh
        (mk_viewst (v_options v) (v_first_row v) (v_first_col v) (v_gridline_colour v) (v_gridline_rgb v)
           (v_cached_preview v) (v_cached_normal v) (Some r) (v_pane v) (v_hbreaks v) (v_vbreaks v)
           (v_row_labels v) (v_col_labels v) (v_default_height v) (v_height_bits v) (v_dims v))).

(** sheet.py:1318-1326 *)
Definition h_pane (sh : sheet) (data : list Z) : result sheet :=
  let v := sh_view sh in
  do _ <- need data 9;
  do a <- unpack_u16 data 0; do b <- unpack_u16 data 2; do d <- unpack_u16 data 4; do e <- unpack_u16 data 6;
  do f <- unpack_le 1 data 8;
  Ok (with_view sh
        (mk_viewst (v_options v) (v_first_row v) (v_first_col v) (v_gridline_colour v) (v_gridline_rgb v)
           (v_cached_preview v) (v_cached_normal v) (v_scl v) (Some (a, b, d, e, f)) (v_hbreaks v) (v_vbreaks v)
           (v_row_labels v) (v_col_labels v) (v_default_height v) (v_height_bits v) (v_dims v))).

(** sheet.py:1331-1339 and 1344-1352: [k] breaks. *)
Fixpoint breaks_loop (k : nat) (data : list Z) (pos last : Z) : result (list (Z * Z * Z)) :=
  match k with
  | O => Ok []
  | S k' =>
      if c_bv c <? 80 then
        do a <- unpack_u16 data pos;
        do r <- breaks_loop k' data (pos + 2) last;
        Ok ((a, 0, last) :: r)
      else
        do _ <- guard (zlen (py_slice data pos (pos + 6)) =? 6) StructError;
        do a <- unpack_u16 data pos; do b <- unpack_u16 data (pos + 2); do d <- unpack_u16 data (pos + 4);
        do r <- breaks_loop k' data (pos + 6) last;
        Ok ((a, b, d) :: r)
  end.

(** sheet.py:1327-1352.  After the length check the loop runs num_breaks times. *)
Definition read_breaks (data_len : Z) (data : list Z) (last : Z) : result (list (Z * Z * Z)) :=
  do n <- unpack_u16 data 0;
  do _ <- guard (n * (if c_bv c >=? 80 then 6 else 2) + 2 =? data_len) AssertionError;
  breaks_loop (Z.to_nat n) data 2 last.

Definition h_hbreaks (sh : sheet) (data_len : Z) (data : list Z) : result sheet :=
  if negb (c_fmt c) then Ok sh else
  let v := sh_view sh in
  do b <- read_breaks data_len data 255;
  Ok (with_view sh
        (mk_viewst (v_options v) (v_first_row v) (v_first_col v) (v_gridline_colour v) (v_gridline_rgb v)
           (v_cached_preview v) (v_cached_normal v) (v_scl v) (v_pane v) (v_hbreaks v ++ b) (v_vbreaks v)
           (v_row_labels v) (v_col_labels v) (v_default_height v) (v_height_bits v) (v_dims v))).

Definition h_vbreaks (sh : sheet) (data_len : Z) (data : list Z) : result sheet :=
  if negb (c_fmt c) then Ok sh else
  let v := sh_view sh in
  do b <- read_breaks data_len data 65535;
  Ok (with_view sh
        (mk_viewst (v_options v) (v_first_row v) (v_first_col v) (v_gridline_colour v) (v_gridline_rgb v)
           (v_cached_preview v) (v_cached_normal v) (v_scl v) (v_pane v) (v_hbreaks v) (v_vbreaks v ++ b)
           (v_row_labels v) (v_col_labels v) (v_default_height v) (v_height_bits v) (v_dims v))).

(** One turn of the loop, sheet.py:813-1501: the new state and the records
    still to read. *)
Definition plain (r : result sheet) (rs : list record) : result (sheet * list record) :=
  do sh <- r; Ok (sh, rs).

Definition step (sh : sheet) (rc data_len : Z) (data : list Z) (rs : list record) : result (sheet * list record) :=
  if rc =? XL_NUMBER then plain (h_number sh data) rs
  else if rc =? XL_LABELSST then plain (h_labelsst sh data) rs
  else if rc =? XL_LABEL then plain (h_label sh data) rs
  else if rc =? XL_RSTRING then plain (h_rstring sh data) rs
  else if rc =? XL_RK then plain (h_rk sh data) rs
  else if rc =? XL_MULRK then plain (h_mulrk sh data) rs
  else if rc =? XL_ROW then plain (h_row sh data) rs
  else if is_formula_code rc then h_formula sh data rs
  else if rc =? XL_BOOLERR then plain (h_boolerr sh data) rs
  else if rc =? XL_COLINFO then plain (h_colinfo sh data) rs
  else if rc =? XL_DEFCOLWIDTH then plain (h_defcolwidth sh data) rs
  else if rc =? XL_STANDARDWIDTH then plain (h_standardwidth sh data) rs
  else if rc =? XL_GCW then plain (h_gcw sh data_len data) rs
  else if rc =? XL_BLANK then plain (h_blank sh data) rs
  else if rc =? XL_MULBLANK then plain (h_mulblank sh data_len data) rs
  else if (rc =? XL_DIMENSION) || (rc =? XL_DIMENSION2) then plain (h_dimension sh data_len data) rs
  else if rc =? XL_HLINK then do l <- handle_hlink (o_links (sh_obj sh)) data; Ok (set_links sh l, rs)
  else if rc =? XL_QUICKTIP then do l <- handle_quicktip (o_links (sh_obj sh)) data; Ok (set_links sh l, rs)
  else if rc =? XL_OBJ then plain (h_obj sh data) rs
  else if rc =? XL_MSO_DRAWING then Ok (sh, rs)
  else if rc =? XL_TXO then h_txo sh data rs
  else if rc =? XL_NOTE then h_note sh data rs
  else if rc =? XL_FEAT11 then Ok (sh, rs)
  else if is_bof_code rc then do _ <- need data 4; do rs <- skip_to_eof rs; Ok (sh, rs)
  else if rc =? XL_COUNTRY then plain (h_country sh data) rs
  else if rc =? XL_LABELRANGES then plain (h_labelranges sh data_len data) rs
  else if rc =? XL_ARRAY then do _ <- need data 14; Ok (sh, rs)
  else if rc =? XL_SHRFMLA then do _ <- need data 10; Ok (sh, rs)
  else if rc =? XL_CONDFMT then plain (h_condfmt sh data) rs
  else if rc =? XL_CF then plain (h_cf sh data_len data) rs
  else if rc =? XL_DEFAULTROWHEIGHT then plain (h_defaultrowheight sh data_len data) rs
  else if rc =? XL_MERGEDCELLS then plain (h_mergedcells sh data_len data) rs
  else if rc =? XL_WINDOW2 then plain (h_window2 sh data_len data) rs
  else if rc =? XL_SCL then plain (h_scl sh data) rs
  else if rc =? XL_PANE then plain (h_pane sh data) rs
  else if rc =? XL_HORIZONTALPAGEBREAKS then plain (h_hbreaks sh data_len data) rs
  else if rc =? XL_VERTICALPAGEBREAKS then plain (h_vbreaks sh data_len data) rs
  else Ok (sh, rs).

(** sheet.py:811-1501: the loop, up to the EOF record. *)
Fixpoint read_loop (fuel : nat) (sh : sheet) (rs : list record) : result sheet :=
  match fuel with
  | O => Err OutOfFuel
  | S f =>
      do ((rc, data_len, data), rs) <- next rs;
      if rc =? XL_EOF then Ok sh else
      do (sh, rs) <- step sh rc data_len data rs;
      read_loop f sh rs
  end.

(** sheet.py:1540-1583: (cooked normal view, cooked page break preview). *)
Definition cooked_mag_factors (v : viewst) : Z * Z :=
  let scl := match v_scl v with None => 100 | Some x => x end in
  let in_preview := match znth (v_options v) 11 with Some b => negb (b =? 0) | None => false end in
  if in_preview then
    let zoom := v_cached_normal v in
    (if negb ((10 <=? zoom) && (zoom <=? 400)) then scl else zoom, scl)
  else
    let zoom := v_cached_preview v in
    (scl, if zoom =? 0 then 60 else if negb ((10 <=? zoom) && (zoom <=? 400)) then scl else zoom).

(** sheet.py:789-1508 *)
Definition sheet_read (countries : Z * Z) (rs : list record) : result sheet :=
  do sh <- read_loop (S (length rs)) (sheet0 countries) rs;
  do g <- tidy_dimensions vempty (c_ragged c) (c_fmt c) max_rows 256 (f_merged (sh_fmt sh)) (sh_grid sh);
  Ok (with_grid sh g).

(** sheet.py:1702-1704 *)
Definition req_fmt_info : result unit := guard (c_fmt c) XLRDError.

(** sheet.py:1706-1744 *)
Definition computed_column_width (sh : sheet) (colx : Z) : result Z :=
  do _ <- req_fmt_info;
  let f := sh_fmt sh in
  let colinfo := dget Z.eqb (f_cols f) colx in
  let rome := match f_defcolwidth f with Some w => w * 256 | None => 8 * 256 end in
  if c_bv c >=? 80 then
    match colinfo with
    | Some ci => Ok (ci_width ci)
    | None => match f_standardwidth f with Some w => Ok w | None => Ok rome end
    end
  else if c_bv c >=? 40 then
    do g <- py_index (f_gcw f) colx;
    if negb (g =? 0) then
      match f_standardwidth f with Some w => Ok w | None => Ok rome end
    else match colinfo with Some ci => Ok (ci_width ci) | None => Ok rome end
  else if c_bv c =? 30 then
    match colinfo with Some ci => Ok (ci_width ci) | None => Ok rome end
  else Ok rome.

(** sheet.py:430-459 *)
Definition cell_xf_index (sh : sheet) (rowx colx : Z) : result Z :=
  do _ <- req_fmt_info;
  do xfx <- plane_get (g_xfs (sh_grid sh)) rowx colx;
  if xfx >? -1 then Ok xfx else
  let col := match dget Z.eqb (f_cols (sh_fmt sh)) colx with
             | Some ci => if ci_xf ci =? -1 then 15 else ci_xf ci
             | None => 15
             end in
  match dget Z.eqb (f_rows (sh_fmt sh)) rowx with
  | Some ri => if ri_xf ri >? -1 then Ok (ri_xf ri) else Ok col
  | None => Ok col
  end.
End Read.
End Sheet.
Arguments value : clear implicits.
Arguments sheet : clear implicits.
Arguments config : clear implicits.
