(** Model of /repo/xlrd/formatting.py: colours, fonts, number formats, styles
    and XF records, with upkbits of biffh.py:239-245.

    [decode] stands for [unicode(bytes, book.encoding)] with the encoding in
    force once the handler has called [derive_encoding] (book.py:792-835).
    Simplifications: verbosity is 0, so messages and the checks that only print
    (formatting.py:1004-1010, 1047-1087) are left out; an exception ends the
    loading of the workbook, so the state it leaves behind is not modelled;
    [lotus_123_prefix] is 0 where the Python attribute is missing (BIFF2). *)
From Verif Require Import Base Text Strings GridModel SheetObjects SheetModel.

Definition rgb : Type := (Z * Z * Z)%type.

(** formatting.py:33-48 *)
Definition excel_default_palette_b5 : list rgb :=
  [(0, 0, 0); (255, 255, 255); (255, 0, 0); (0, 255, 0);
   (0, 0, 255); (255, 255, 0); (255, 0, 255); (0, 255, 255);
   (128, 0, 0); (0, 128, 0); (0, 0, 128); (128, 128, 0);
   (128, 0, 128); (0, 128, 128); (192, 192, 192); (128, 128, 128);
   (153, 153, 255); (153, 51, 102); (255, 255, 204); (204, 255, 255);
   (102, 0, 102); (255, 128, 128); (0, 102, 204); (204, 204, 255);
   (0, 0, 128); (255, 0, 255); (255, 255, 0); (0, 255, 255);
   (128, 0, 128); (128, 0, 0); (0, 128, 128); (0, 0, 255);
   (0, 204, 255); (204, 255, 255); (204, 255, 204); (255, 255, 153);
   (153, 204, 255); (255, 153, 204); (204, 153, 255); (227, 227, 227);
   (51, 102, 255); (51, 204, 204); (153, 204, 0); (255, 204, 0);
   (255, 153, 0); (255, 102, 0); (102, 102, 153); (150, 150, 150);
   (0, 51, 102); (51, 153, 102); (0, 51, 0); (51, 51, 0);
   (153, 51, 0); (153, 51, 102); (51, 51, 153); (51, 51, 51)].

(** formatting.py:50 *)
Definition excel_default_palette_b2 : list rgb := firstn 16 excel_default_palette_b5.

(** formatting.py:54-69 *)
Definition excel_default_palette_b8 : list rgb :=
  [(0, 0, 0); (255, 255, 255); (255, 0, 0); (0, 255, 0);
   (0, 0, 255); (255, 255, 0); (255, 0, 255); (0, 255, 255);
   (128, 0, 0); (0, 128, 0); (0, 0, 128); (128, 128, 0);
   (128, 0, 128); (0, 128, 128); (192, 192, 192); (128, 128, 128);
   (153, 153, 255); (153, 51, 102); (255, 255, 204); (204, 255, 255);
   (102, 0, 102); (255, 128, 128); (0, 102, 204); (204, 204, 255);
   (0, 0, 128); (255, 0, 255); (255, 255, 0); (0, 255, 255);
   (128, 0, 128); (128, 0, 0); (0, 128, 128); (0, 0, 255);
   (0, 204, 255); (204, 255, 255); (204, 255, 204); (255, 255, 153);
   (153, 204, 255); (255, 153, 204); (204, 153, 255); (255, 204, 153);
   (51, 102, 255); (51, 204, 204); (153, 204, 0); (255, 204, 0);
   (255, 153, 0); (255, 102, 0); (102, 102, 153); (150, 150, 150);
   (0, 51, 102); (51, 153, 102); (0, 51, 0); (51, 51, 0);
   (153, 51, 0); (153, 51, 102); (51, 51, 153); (51, 51, 51)].

(** formatting.py:71-80 *)
Definition default_palette (bv : Z) : result (list rgb) :=
  if bv =? 80 then Ok excel_default_palette_b8
  else if (bv =? 70) || (bv =? 50) then Ok excel_default_palette_b5
  else if (bv =? 45) || (bv =? 40) || (bv =? 30) || (bv =? 21) || (bv =? 20) then Ok excel_default_palette_b2
  else Err KeyError.

(** Python dictionaries in insertion order: assignment to a present key keeps
    its place.  [dget] of SheetObjects.v reads them too. *)
Fixpoint od_set {V} (d : list (Z * V)) (k : Z) (v : V) : list (Z * V) :=
  match d with
  | [] => [(k, v)]
  | (k', v') :: r => if k =? k' then (k, v) :: r else (k', v') :: od_set r k v
  end.

(** [None] is a colour whose RGB value is not known. *)
Definition cmap : Type := list (Z * option rgb).

Fixpoint set_colours (m : cmap) (i : Z) (cs : list rgb) : cmap :=
  match cs with [] => m | c :: r => set_colours (od_set m i (Some c)) (i + 1) r end.

(** formatting.py:105-126, with formatting_info *)
Definition initial_colours (bv : Z) : result cmap :=
  let m := set_colours [] 0 (firstn 8 excel_default_palette_b8) in
  do dpal <- default_palette bv;
  let m := set_colours m 8 dpal in
  let n := zlen dpal in
  Ok (od_set (od_set (od_set (od_set m (n + 8) None) (n + 8 + 1) None) 0x51 None) 0x7FFF None).

(** formatting.py:141-143 *)
Definition metric (a b : rgb) : Z :=
  let '(r1, g1, b1) := a in let '(r2, g2, b2) := b in
  (r1 - r2) * (r1 - r2) + (g1 - g2) * (g1 - g2) + (b1 - b2) * (b1 - b2).

(** formatting.py:136-151 *)
Fixpoint nearest_loop (m : cmap) (c : rgb) (best_metric best : Z) : Z :=
  match m with
  | [] => best
  | (_, None) :: r => nearest_loop r c best_metric best
  | (x, Some cand) :: r =>
      let d := metric c cand in
      if d <? best_metric then (if d =? 0 then x else nearest_loop r c d x)
      else nearest_loop r c best_metric best
  end.

(** formatting.py:129-152 *)
Definition nearest_colour_index (m : cmap) (c : rgb) : Z := nearest_loop m c (3 * 256 * 256) 0.

(** formatting.py:166-255 *)
Record font : Type := mk_font {
  fo_index : Z; fo_height : Z; fo_bold : Z; fo_italic : Z; fo_underlined : Z; fo_struck_out : Z;
  fo_outline : Z; fo_shadow : Z; fo_colour_index : Z; fo_weight : Z; fo_escapement : Z;
  fo_underline_type : Z; fo_family : Z; fo_character_set : Z; fo_name : list Z }.

(** formatting.py:335-362; [fm_str] is [None] for a standard format without a known string. *)
Record format : Type := mk_format { fm_key : Z; fm_type : Z; fm_str : option (list Z) }.

(** formatting.py:1193-1225 *)
Record alignment : Type := mk_alignment {
  al_hor : Z; al_vert : Z; al_rotation : Z; al_wrapped : Z; al_indent : Z; al_shrink : Z; al_direction : Z }.

(** formatting.py:1106-1171 *)
Record border : Type := mk_border {
  bo_left_style : Z; bo_right_style : Z; bo_top_style : Z; bo_bottom_style : Z; bo_diag_style : Z;
  bo_left_colour : Z; bo_right_colour : Z; bo_top_colour : Z; bo_bottom_colour : Z; bo_diag_colour : Z;
  bo_diag_down : Z; bo_diag_up : Z }.

(** formatting.py:1173-1190 *)
Record background : Type := mk_background { bg_fill : Z; bg_pattern_colour : Z; bg_background_colour : Z }.

(** formatting.py:1227-1244 *)
Record protection : Type := mk_protection { pr_locked : Z; pr_hidden : Z }.

(** The six validity flags of formatting.py:1281-1294. *)
Record flags : Type := mk_flags {
  fl_format : Z; fl_font : Z; fl_alignment : Z; fl_border : Z; fl_background : Z; fl_protection : Z }.

(** formatting.py:1246-1322 *)
Record xf : Type := mk_xf {
  xf_index : Z; xf_font : Z; xf_format_key : Z; xf_is_style : Z; xf_lotus : Z; xf_parent : Z;
  xf_flags : flags; xf_alignment : alignment; xf_border : border; xf_background : background;
  xf_protection : protection }.

(** The attributes of a Book that formatting.py uses. *)
Record fbook : Type := mk_fbook {
  b_bv : Z;                               (* biff_version *)
  b_fmt : bool;                           (* formatting_info *)
  b_colours : cmap;                       (* colour_map *)
  b_used : list Z;                        (* keys of colour_indexes_used *)
  b_palette : list rgb;                   (* palette_record *)
  b_fonts : list font;                    (* font_list *)
  b_formats : list (Z * format);          (* format_map *)
  b_format_list : list format;            (* format_list *)
  b_fmtcount : Z;                         (* actualfmtcount *)
  b_xfs : list xf;                        (* xf_list *)
  b_xfcount : Z;                          (* xfcount *)
  b_xftype : list (Z * Z);                (* _xf_index_to_xl_type_map *)
  b_styles : list (list Z * (Z * Z)) }.   (* style_name_map *)

Definition with_colours b x := mk_fbook (b_bv b) (b_fmt b) x (b_used b) (b_palette b) (b_fonts b) (b_formats b) (b_format_list b) (b_fmtcount b) (b_xfs b) (b_xfcount b) (b_xftype b) (b_styles b).
Definition with_used b x := mk_fbook (b_bv b) (b_fmt b) (b_colours b) x (b_palette b) (b_fonts b) (b_formats b) (b_format_list b) (b_fmtcount b) (b_xfs b) (b_xfcount b) (b_xftype b) (b_styles b).
Definition with_palette b x := mk_fbook (b_bv b) (b_fmt b) (b_colours b) (b_used b) x (b_fonts b) (b_formats b) (b_format_list b) (b_fmtcount b) (b_xfs b) (b_xfcount b) (b_xftype b) (b_styles b).
Definition with_fonts b x := mk_fbook (b_bv b) (b_fmt b) (b_colours b) (b_used b) (b_palette b) x (b_formats b) (b_format_list b) (b_fmtcount b) (b_xfs b) (b_xfcount b) (b_xftype b) (b_styles b).
Definition with_formats b x := mk_fbook (b_bv b) (b_fmt b) (b_colours b) (b_used b) (b_palette b) (b_fonts b) x (b_format_list b) (b_fmtcount b) (b_xfs b) (b_xfcount b) (b_xftype b) (b_styles b).
Definition with_format_list b x := mk_fbook (b_bv b) (b_fmt b) (b_colours b) (b_used b) (b_palette b) (b_fonts b) (b_formats b) x (b_fmtcount b) (b_xfs b) (b_xfcount b) (b_xftype b) (b_styles b).
Definition with_fmtcount b x := mk_fbook (b_bv b) (b_fmt b) (b_colours b) (b_used b) (b_palette b) (b_fonts b) (b_formats b) (b_format_list b) x (b_xfs b) (b_xfcount b) (b_xftype b) (b_styles b).
Definition with_xfs b x := mk_fbook (b_bv b) (b_fmt b) (b_colours b) (b_used b) (b_palette b) (b_fonts b) (b_formats b) (b_format_list b) (b_fmtcount b) x (b_xfcount b) (b_xftype b) (b_styles b).
Definition with_xfcount b x := mk_fbook (b_bv b) (b_fmt b) (b_colours b) (b_used b) (b_palette b) (b_fonts b) (b_formats b) (b_format_list b) (b_fmtcount b) (b_xfs b) x (b_xftype b) (b_styles b).
Definition with_xftype b x := mk_fbook (b_bv b) (b_fmt b) (b_colours b) (b_used b) (b_palette b) (b_fonts b) (b_formats b) (b_format_list b) (b_fmtcount b) (b_xfs b) (b_xfcount b) x (b_styles b).
Definition with_styles b x := mk_fbook (b_bv b) (b_fmt b) (b_colours b) (b_used b) (b_palette b) (b_fonts b) (b_formats b) (b_format_list b) (b_fmtcount b) (b_xfs b) (b_xfcount b) (b_xftype b) x.

(** book.py:655-664 and 591-596; formatting.py:1089-1103: before the first record. *)
Definition fbook0 (bv : Z) (fmt : bool) : result fbook :=
  do m <- (if fmt then initial_colours bv else Ok []);
  Ok (mk_fbook bv fmt m [] [] [] [] [] 0 [] 0 [(0, XL_CELL_NUMBER)] []).

(** ** Fonts *)

(** formatting.py:257-260 *)
Definition handle_efont (b : fbook) (data : list Z) : result fbook :=
  if negb (b_fmt b) then Ok b else
  do f <- py_index (b_fonts b) (-1);
  do _ <- guard (zlen data =? 2) StructError;
  do cx <- unpack_u16 data 0;
  do fs <- list_set (b_fonts b) (-1)
    (mk_font (fo_index f) (fo_height f) (fo_bold f) (fo_italic f) (fo_underlined f) (fo_struck_out f)
       (fo_outline f) (fo_shadow f) cx (fo_weight f) (fo_escapement f) (fo_underline_type f) (fo_family f)
       (fo_character_set f) (fo_name f));
  Ok (with_fonts b fs).

(** formatting.py:166-255: a new Font with its class attributes, name 'Dummy Font'. *)
Definition dummy_font : font := mk_font 4 0 0 0 0 0 0 0 0 400 0 0 0 0 (s2l "Dummy Font").

Section Handlers.
Variable decode : list Z -> result (list Z).

(** formatting.py:262-325: the font of one record, at list position [k]. *)
Definition read_font (bv k : Z) (data : list Z) : result font :=
  if bv >=? 50 then
    do _ <- need data 13;
    do height <- unpack_u16 data 0; do o <- unpack_u16 data 2; do cx <- unpack_u16 data 4;
    do weight <- unpack_u16 data 6; do esc <- unpack_u16 data 8;
    do ul <- unpack_le 1 data 10; do fam <- unpack_le 1 data 11; do cs <- unpack_le 1 data 12;
    do name <- (if bv >=? 80 then unpack_unicode data 14 1 else unpack_string decode data 14 1);
    Ok (mk_font k height (Z.land o 1) (Z.shiftr (Z.land o 2) 1) (Z.shiftr (Z.land o 4) 2) (Z.shiftr (Z.land o 8) 3)
          (Z.shiftr (Z.land o 16) 4) (Z.shiftr (Z.land o 32) 5) cx weight esc ul fam cs name)
  else if bv >=? 30 then
    do _ <- need data 6;
    do height <- unpack_u16 data 0; do o <- unpack_u16 data 2; do cx <- unpack_u16 data 4;
    do name <- unpack_string decode data 6 1;
    do weight <- py_index [400; 700] (Z.land o 1);
    Ok (mk_font k height (Z.land o 1) (Z.shiftr (Z.land o 2) 1) (Z.shiftr (Z.land o 4) 2) (Z.shiftr (Z.land o 8) 3)
          (Z.shiftr (Z.land o 16) 4) (Z.shiftr (Z.land o 32) 5) cx weight 0 (Z.shiftr (Z.land o 4) 2) 0 1 name)
  else
    do _ <- need data 4;
    do height <- unpack_u16 data 0; do o <- unpack_u16 data 2;
    do name <- unpack_string decode data 4 1;
    do weight <- py_index [400; 700] (Z.land o 1);
    Ok (mk_font k height (Z.land o 1) (Z.shiftr (Z.land o 2) 1) (Z.shiftr (Z.land o 4) 2) (Z.shiftr (Z.land o 8) 3)
          0 0 0x7FFF weight 0 (Z.shiftr (Z.land o 4) 2) 0 1 name).

(** formatting.py:262-331 *)
Definition handle_font (b : fbook) (data : list Z) : result fbook :=
  if negb (b_fmt b) then Ok b else
  let fs := if zlen (b_fonts b) =? 4 then b_fonts b ++ [dummy_font] else b_fonts b in
  do f <- read_font (b_bv b) (zlen fs) data;
  Ok (with_fonts b (fs ++ [f])).

(** ** Number formats *)

(** biffh.py:63 *)
Definition FUN : Z := 0.
Definition FDT : Z := 1.
Definition FNU : Z := 2.
Definition FGE : Z := 3.
Definition FTX : Z := 4.

(** formatting.py:364-404 *)
Definition std_format_strings : list (Z * list Z) :=
  [(0, s2l "General");
   (1, s2l "0");
   (2, s2l "0.00");
   (3, s2l "#,##0");
   (4, s2l "#,##0.00");
   (5, s2l "$#,##0_);($#,##0)");
   (6, s2l "$#,##0_);[Red]($#,##0)");
   (7, s2l "$#,##0.00_);($#,##0.00)");
   (8, s2l "$#,##0.00_);[Red]($#,##0.00)");
   (9, s2l "0%");
   (10, s2l "0.00%");
   (11, s2l "0.00E+00");
   (12, s2l "# ?/?");
   (13, s2l "# ??/??");
   (14, s2l "m/d/yy");
   (15, s2l "d-mmm-yy");
   (16, s2l "d-mmm");
   (17, s2l "mmm-yy");
   (18, s2l "h:mm AM/PM");
   (19, s2l "h:mm:ss AM/PM");
   (20, s2l "h:mm");
   (21, s2l "h:mm:ss");
   (22, s2l "m/d/yy h:mm");
   (37, s2l "#,##0_);(#,##0)");
   (38, s2l "#,##0_);[Red](#,##0)");
   (39, s2l "#,##0.00_);(#,##0.00)");
   (40, s2l "#,##0.00_);[Red](#,##0.00)");
   (41, s2l "_(* #,##0_);_(* (#,##0);_(* ""-""_);_(@_)");
   (42, s2l "_($* #,##0_);_($* (#,##0);_($* ""-""_);_(@_)");
   (43, s2l "_(* #,##0.00_);_(* (#,##0.00);_(* ""-""??_);_(@_)");
   (44, s2l "_($* #,##0.00_);_($* (#,##0.00);_($* ""-""??_);_(@_)");
   (45, s2l "mm:ss");
   (46, s2l "[h]:mm:ss");
   (47, s2l "mm:ss.0");
   (48, s2l "##0.0E+0");
   (49, s2l "@")].

(** formatting.py:406-422 *)
Definition fmt_code_ranges : list (Z * Z * Z) :=
  [(0, 0, FGE); (1, 13, FNU); (14, 22, FDT); (27, 36, FDT); (37, 44, FNU); (45, 47, FDT); (48, 48, FNU);
   (49, 49, FTX); (50, 58, FDT); (59, 62, FNU); (67, 70, FNU); (71, 81, FDT)].

(** formatting.py:424-428, in insertion order; the ranges do not overlap. *)
Definition std_format_code_types : list (Z * Z) :=
  flat_map (fun '(lo, hi, ty) => map (fun x => (x, ty)) (zrange lo (hi + 1))) fmt_code_ranges.

Definition mem (c : Z) (s : list Z) : bool := existsb (Z.eqb c) s.

(** formatting.py:430-434, 436-438, 440-444 *)
Definition date_char (c : Z) : bool := mem c (s2l "ymdhsYMDHS").
Definition skip_char (c : Z) : bool := mem c (s2l "$-+/(): ").
Definition num_char (c : Z) : bool := mem c (s2l "0#?").

(** formatting.py:446-453 *)
Definition non_date_formats : list (list Z) :=
  [s2l "0.00E+00"; s2l "##0.0E+0"; s2l "General"; s2l "GENERAL"; s2l "general"; s2l "@"].

(** formatting.py:472-492: the reduced format. *)
Fixpoint reduce_format (state : Z) (fmt : list Z) : list Z :=
  match fmt with
  | [] => []
  | c :: r =>
      if state =? 0 then
        if c =? 34 then reduce_format 1 r
        else if mem c (s2l "\_*") then reduce_format 2 r
        else if skip_char c then reduce_format 0 r
        else c :: reduce_format 0 r
      else if state =? 1 then reduce_format (if c =? 34 then 0 else 1) r
      else reduce_format 0 r
  end.

(** What follows the first ']', if there is one. *)
Fixpoint after_bracket (s : list Z) : option (list Z) :=
  match s with [] => None | c :: r => if c =? 93 then Some r else after_bracket r end.

(** formatting.py:455, 494: [re.sub(r'\[[^]]*\]', '', s)], scanning from the left;
    the fuel is the length of the text. *)
Fixpoint bracketed_sub (fuel : nat) (s : list Z) : list Z :=
  match fuel, s with
  | S f, c :: r =>
      if c =? 91 then match after_bracket r with
                      | Some t => bracketed_sub f t
                      | None => c :: bracketed_sub f r
                      end
      else c :: bracketed_sub f r
  | _, _ => []
  end.

(** formatting.py:501-507 *)
Fixpoint count_chars (s : list Z) (date_count num_count : Z) : Z * Z :=
  match s with
  | [] => (date_count, num_count)
  | c :: r => if date_char c then count_chars r (date_count + 5) num_count
              else if num_char c then count_chars r date_count (num_count + 5)
              else count_chars r date_count num_count
  end.

(** formatting.py:462-523 *)
Definition is_date_format_string (fmt : list Z) : bool :=
  let s := reduce_format 0 fmt in
  let s := bracketed_sub (List.length s) s in
  if existsb (list_eqb s) non_date_formats then false else
  let '(date_count, num_count) := count_chars s 0 0 in
  if negb (date_count =? 0) && (num_count =? 0) then true
  else if negb (num_count =? 0) && (date_count =? 0) then false
  else date_count >? num_count.

(** formatting.py:525-573; [format2] says that the record type is XL_FORMAT2. *)
Definition handle_format (b : fbook) (data : list Z) (format2 : bool) : result fbook :=
  let bv := if format2 then Z.min (b_bv b) 30 else b_bv b in
  let strpos := if (bv <? 50) && (bv <=? 30) then 0 else 2 in
  do fmtkey <- (if bv >=? 50 then unpack_u16 data 0 else Ok (b_fmtcount b));
  do s <- (if bv >=? 80 then unpack_unicode data 2 2 else unpack_string decode data strpos 1);
  let ty := if is_date_format_string s then FDT else FGE in
  let f := mk_format fmtkey ty (Some s) in
  let b := with_fmtcount b (b_fmtcount b + 1) in
  Ok (with_format_list (with_formats b (dset (b_formats b) fmtkey f)) (b_format_list b ++ [f])).

(** formatting.py:689-698 *)
Definition fill_in_standard_formats (b : fbook) : fbook :=
  with_formats b
    (fold_left (fun m '(x, ty) =>
                  match dget Z.eqb m x with
                  | Some _ => m
                  | None => dset m x (mk_format x ty (dget Z.eqb std_format_strings x))
                  end) std_format_code_types (b_formats b)).

(** ** Palette and styles *)

(** [unpack('<%di' % n, ...)] *)
Fixpoint unpack_ints (n : nat) (data : list Z) (pos : Z) : result (list Z) :=
  match n with
  | O => Ok []
  | S n' => do c <- unpack_i32 data pos; do r <- unpack_ints n' data (pos + 4); Ok (c :: r)
  end.

(** formatting.py:600-608 *)
Fixpoint palette_loop (b : fbook) (i : Z) (colours : list Z) : result fbook :=
  match colours with
  | [] => Ok b
  | c :: r =>
      let new := (Z.land c 0xff, Z.land (Z.shiftr c 8) 0xff, Z.land (Z.shiftr c 16) 0xff) in
      match dget Z.eqb (b_colours b) (8 + i) with
      | None => Err KeyError
      | Some _ =>
          palette_loop (with_colours (with_palette b (b_palette b ++ [new]))
                          (od_set (b_colours b) (8 + i) (Some new))) (i + 1) r
      end
  end.

(** formatting.py:577-611 *)
Definition handle_palette (b : fbook) (data : list Z) : result fbook :=
  if negb (b_fmt b) then Ok b else
  do n <- unpack_u16 data 0;
  let expected := 4 * n + 2 in
  if negb ((expected <=? zlen data) && (zlen data <=? expected + 4)) then Err XLRDError else
  do colours <- unpack_ints (Z.to_nat n) (py_slice data 0 expected) 2;
  do _ <- guard (zlen (b_palette b) =? 0) AssertionError;
  palette_loop b 0 colours.

Definition mark (b : fbook) (cx : Z) : fbook :=
  match dget Z.eqb (b_colours b) cx with Some _ => with_used b (b_used b ++ [cx]) | None => b end.

(** formatting.py:613-631 *)
Definition palette_epilogue (b : fbook) : fbook :=
  fold_left (fun b f => if fo_index f =? 4 then b
                        else if fo_colour_index f =? 0x7fff then b
                        else mark b (fo_colour_index f)) (b_fonts b) b.

(** formatting.py:92-103 *)
Definition built_in_style_names : list (list Z) :=
  [s2l "Normal"; s2l "RowLevel_"; s2l "ColLevel_"; s2l "Comma"; s2l "Currency"; s2l "Percent"; s2l "Comma [0]";
   s2l "Currency [0]"; s2l "Hyperlink"; s2l "Followed Hyperlink"].

(** formatting.py:633-674 *)
Definition handle_style (b : fbook) (data : list Z) : result fbook :=
  if negb (b_fmt b) then Ok b else
  do _ <- need data 4;
  do w <- unpack_u16 data 0; do id <- unpack_le 1 data 2; do level <- unpack_le 1 data 3;
  let xfx := Z.land w 0x0fff in
  do (name, entry) <-
    (if list_eqb data [0; 0; 0; 0] && match dget list_eqb (b_styles b) (s2l "Normal") with None => true | Some _ => false end
     then Ok (s2l "Normal", (1, 0))
     else if Z.testbit w 15 then
       do name <- py_index built_in_style_names id;
       Ok (if (1 <=? id) && (id <=? 2) then name ++ fmt_d (level + 1) else name, (1, xfx))
     else
       do name <- (if b_bv b >=? 80 then unpack_unicode data 2 2 else unpack_string decode data 2 1);
       Ok (name, (0, xfx)));
  Ok (with_styles b (dset (b_styles b) name entry)).
End Handlers.

(** ** XF records *)

(** biffh.py:239-245: one entry of a manifest. *)
Definition upk (src n mask : Z) : Z := Z.shiftr (Z.land src mask) n.

(** formatting.py:750-762: the flags in [reg], lowest bit first. *)
Definition read_flags (reg : Z) : flags :=
  mk_flags (Z.land reg 1) (Z.land (Z.shiftr reg 1) 1) (Z.land (Z.shiftr reg 2) 1) (Z.land (Z.shiftr reg 3) 1)
    (Z.land (Z.shiftr reg 4) 1) (Z.land (Z.shiftr reg 5) 1).

(** formatting.py:721-785 *)
Definition read_xf80 (x : Z) (data : list Z) : result xf :=
  do _ <- need data 20;
  do font <- unpack_u16 data 0; do key <- unpack_u16 data 2; do tp <- unpack_u16 data 4;
  do a1 <- unpack_le 1 data 6; do rot <- unpack_le 1 data 7; do a2 <- unpack_le 1 data 8; do used <- unpack_le 1 data 9;
  do b1 <- unpack_u32 data 10; do b2 <- unpack_i32 data 14; do b3 <- unpack_u16 data 18;
  Ok (mk_xf x font key (upk tp 2 0x0004) (upk tp 3 0x0008) (upk tp 4 0xFFF0)
        (read_flags (Z.shiftr used 2))
        (mk_alignment (upk a1 0 0x07) (upk a1 4 0x70) rot (upk a1 3 0x08)
           (upk a2 0 0x0f) (upk a2 4 0x10) (upk a2 6 0xC0))
        (mk_border (upk b1 0 0x0000000f) (upk b1 4 0x000000f0) (upk b1 8 0x00000f00) (upk b1 12 0x0000f000) (upk b2 21 0x01E00000)
           (upk b1 16 0x007f0000) (upk b1 23 0x3f800000) (upk b2 0 0x0000007F) (upk b2 7 0x00003F80) (upk b2 14 0x001FC000)
           (upk b1 30 0x40000000) (upk b1 31 0x80000000))
        (mk_background (upk b2 26 0xFC000000) (upk b3 0 0x007F) (upk b3 7 0x3F80))
        (mk_protection (upk tp 0 0x01) (upk tp 1 0x02))).

(** formatting.py:786-838 *)
Definition read_xf50 (x : Z) (data : list Z) : result xf :=
  do _ <- need data 16;
  do font <- unpack_u16 data 0; do key <- unpack_u16 data 2; do tp <- unpack_u16 data 4;
  do a1 <- unpack_le 1 data 6; do ou <- unpack_le 1 data 7;
  do b1 <- unpack_u32 data 8; do b2 <- unpack_i32 data 12;
  do rot <- py_index [0; 255; 90; 180] (Z.land ou 0x03);
  Ok (mk_xf x font key (upk tp 2 0x0004) (upk tp 3 0x0008) (upk tp 4 0xFFF0)
        (read_flags (Z.shiftr ou 2))
        (mk_alignment (upk a1 0 0x07) (upk a1 4 0x70) rot (upk a1 3 0x08) 0 0 0)
        (mk_border (upk b2 3 0x00000038) (upk b2 6 0x000001C0) (upk b2 0 0x00000007) (upk b1 22 0x01C00000) 0
           (upk b2 16 0x007F0000) (upk b2 23 0x3F800000) (upk b2 9 0x0000FE00) (upk b1 25 0xFE000000) 0 0 0)
        (mk_background (upk b1 16 0x003F0000) (upk b1 0 0x0000007F) (upk b1 7 0x00003F80))
        (mk_protection (upk tp 0 0x01) (upk tp 1 0x02))).

(** formatting.py:875-889 and 925-939 *)
Definition border34 (b : Z) : border :=
  mk_border (upk b 8 0x00000700) (upk b 24 0x07000000) (upk b 0 0x00000007) (upk b 16 0x00070000) 0
    (upk b 11 0x0000F800) (upk b 27 0xF8000000) (upk b 3 0x000000F8) (upk b 19 0x00F80000) 0 0 0.
Definition background34 (b : Z) : background :=
  mk_background (upk b 0 0x003F) (upk b 6 0x07C0) (upk b 11 0xF800).

(** formatting.py:839-889 *)
Definition read_xf40 (x : Z) (data : list Z) : result xf :=
  do _ <- need data 12;
  do font <- unpack_le 1 data 0; do key <- unpack_le 1 data 1; do tp <- unpack_u16 data 2;
  do ao <- unpack_le 1 data 4; do used <- unpack_le 1 data 5; do bk <- unpack_u16 data 6; do br <- unpack_u32 data 8;
  do rot <- py_index [0; 255; 90; 180] (Z.shiftr (Z.land ao 0xC0) 6);
  Ok (mk_xf x font key (upk tp 2 0x0004) (upk tp 3 0x0008) (upk tp 4 0xFFF0)
        (read_flags (Z.shiftr used 2))
        (mk_alignment (upk ao 0 0x07) (upk ao 4 0x30) rot (upk ao 3 0x08) 0 0 0)
        (border34 br) (background34 bk) (mk_protection (upk tp 0 0x01) (upk tp 1 0x02))).

(** formatting.py:890-941 *)
Definition read_xf30 (x : Z) (data : list Z) : result xf :=
  do _ <- need data 12;
  do font <- unpack_le 1 data 0; do key <- unpack_le 1 data 1; do tp <- unpack_le 1 data 2; do used <- unpack_le 1 data 3;
  do ap <- unpack_u16 data 4; do bk <- unpack_u16 data 6; do br <- unpack_u32 data 8;
  Ok (mk_xf x font key (upk tp 2 0x0004) (upk tp 3 0x0008) (upk ap 4 0xFFF0)
        (read_flags (Z.shiftr used 2))
        (mk_alignment (upk ap 0 0x07) 2 0 (upk ap 3 0x08) 0 0 0)
        (border34 br) (background34 bk) (mk_protection (upk tp 0 0x01) (upk tp 1 0x02))).

(** formatting.py:942-983 *)
Definition read_xf21 (x : Z) (data : list Z) : result xf :=
  do _ <- guard (zlen data =? 4) StructError;
  do font <- unpack_le 1 data 0; do fe <- unpack_le 1 data 2; do he <- unpack_le 1 data 3;
  let side mask : Z * Z := if negb (Z.land he mask =? 0) then (8, 1) else (0, 0) in
  let '(lc, ls) := side 0x08 in let '(rc, rs) := side 0x10 in
  let '(tc, ts) := side 0x20 in let '(bc, bs) := side 0x40 in
  Ok (mk_xf x font (Z.land fe 0x3F) 0 0 0 (mk_flags 1 1 1 1 1 1)
        (mk_alignment (upk he 0 0x07) 2 0 0 0 0 0)
        (mk_border ls rs ts bs 0 lc rc tc bc 0 0 0)
        (mk_background (if negb (Z.land he 0x80 =? 0) then 17 else 0) 8 9)
        (mk_protection (upk fe 6 0x40) (upk fe 7 0x80))).

(** formatting.py:721-985 *)
Definition read_xf (bv x : Z) (data : list Z) : result xf :=
  if bv >=? 80 then read_xf80 x data
  else if bv >=? 50 then read_xf50 x data
  else if bv >=? 40 then read_xf40 x data
  else if bv =? 30 then read_xf30 x data
  else if bv =? 21 then read_xf21 x data
  else Err XLRDError.

(** formatting.py:25-31 *)
Definition cellty_from_fmtty (ty : Z) : option Z :=
  if ty =? FDT then Some XL_CELL_DATE
  else if (ty =? FNU) || (ty =? FUN) || (ty =? FGE) || (ty =? FTX) then Some XL_CELL_NUMBER
  else None.

(** formatting.py:996-1001 and 1035-1040: [dflt] where a KeyError is caught. *)
Definition xf_cell_type (b : fbook) (key dflt : Z) : Z :=
  match dget Z.eqb (b_formats b) key with
  | Some f => match cellty_from_fmtty (fm_type f) with Some t => t | None => dflt end
  | None => dflt
  end.

(** formatting.py:676-687: the colour attributes in the order visited. *)
Definition xf_colours (x : xf) : list Z :=
  [bg_background_colour (xf_background x); bg_pattern_colour (xf_background x);
   bo_bottom_colour (xf_border x); bo_diag_colour (xf_border x); bo_left_colour (xf_border x);
   bo_right_colour (xf_border x); bo_top_colour (xf_border x)].

Definition set_key (x : xf) (k : Z) : xf :=
  mk_xf (xf_index x) (xf_font x) k (xf_is_style x) (xf_lotus x) (xf_parent x) (xf_flags x) (xf_alignment x)
    (xf_border x) (xf_background x) (xf_protection x).

Definition set_parent (x : xf) (p : Z) : xf :=
  mk_xf (xf_index x) (xf_font x) (xf_format_key x) (xf_is_style x) (xf_lotus x) p (xf_flags x) (xf_alignment x)
    (xf_border x) (xf_background x) (xf_protection x).

(** formatting.py:700-1014 *)
Definition handle_xf (b : fbook) (data : list Z) : result fbook :=
  let b := if (b_bv b >=? 50) && (b_xfcount b =? 0) then fill_in_standard_formats b else b in
  let n := zlen (b_xfs b) in
  do x <- read_xf (b_bv b) n data;
  let t := xf_cell_type b (xf_format_key x) XL_CELL_NUMBER in
  let b := if b_fmt b then fold_left mark (xf_colours x) b else b in
  let x := match dget Z.eqb (b_formats b) (xf_format_key x) with Some _ => x | None => set_key x 0 end in
  let b := with_xftype b (dset (b_xftype b) n t) in
  Ok (with_xfcount (with_xfs b (b_xfs b ++ [x])) (b_xfcount b + 1)).

(** formatting.py:1041-1052: one step of the loop. *)
Definition conform (fmt : bool) (num_xfs : Z) (x : xf) : xf :=
  if negb fmt then x
  else if negb (xf_is_style x =? 0) then x
  else if negb ((0 <=? xf_parent x) && (xf_parent x <? num_xfs)) then set_parent x 0
  else x.

(** formatting.py:1016-1087 *)
Definition xf_epilogue (b : fbook) : fbook :=
  let n := zlen (b_xfs b) in
  let types := fold_left (fun m x => dset m (xf_index x) (xf_cell_type b (xf_format_key x) XL_CELL_TEXT))
                 (b_xfs b) (b_xftype b) in
  with_xftype (with_xfs b (map (conform (b_fmt b) n) (b_xfs b))) types.

(** book.py:1212-1217, 1242-1245; sheet.py:1355-1369, 1398-1400: the records handled
    here, in the globals or (BIFF4 and earlier) in the worksheet stream. *)
Inductive frecord : Type :=
  | RFont (data : list Z) | REfont (data : list Z) | RFormat (data : list Z) (format2 : bool)
  | RPalette (data : list Z) | RStyle (data : list Z) | RXf (data : list Z).

Definition fstep (decode : list Z -> result (list Z)) (b : fbook) (r : frecord) : result fbook :=
  match r with
  | RFont data => handle_font decode b data
  | REfont data => handle_efont b data
  | RFormat data format2 => handle_format decode b data format2
  | RPalette data => handle_palette b data
  | RStyle data => handle_style decode b data
  | RXf data => handle_xf b data
  end.

(** The records in the order of the file, each with the decoder in use when it is met
    (a CODEPAGE record may change it). *)
Fixpoint frun (b : fbook) (rs : list ((list Z -> result (list Z)) * frecord)) : result fbook :=
  match rs with
  | [] => Ok b
  | (decode, r) :: rest => do b <- fstep decode b r; frun b rest
  end.
