(** Model of the workbook globals, /repo/xlrd/book.py: getbof 1272-1346,
    derive_encoding 792-835, the record handlers 733-1201, names_epilogue 1005-1077
    and the loop parse_globals 1203-1265, for verbosity 0.

    Fonts, formats, XFs, styles and the palette are those of FormatModel.v, the shared
    string table that of SstModel.v, the formulas of names those of FormulaModel.v.
    The codecs ([codec], for [unicode(bytes, encoding)]) and [str.lower] are arbitrary
    functions.  Reading an embedded worksheet (SHEETHDR records) is the arbitrary
    function [load]; it may change what a worksheet can change in the book: encoding,
    fonts and formats, countries and date mode.  An exception ends the opening of the
    workbook, so the state it leaves behind is not modelled. *)
From Verif Require Import Base Text CellNames Utf16 Strings Framing GridModel SheetObjects SheetModel SstModel FormatModel
  FormulaTables FormulaModel.

(** ** BOF records *)

(** biffh.py:103-105 *)
Definition XL_WORKBOOK_GLOBALS : Z := 0x5.
Definition XL_WORKBOOK_GLOBALS_4W : Z := 0x100.
Definition XL_WORKSHEET : Z := 0x10.

(** biffh.py:215 *)
Definition boflen (opcode : Z) : option Z :=
  if opcode =? 0x0809 then Some 8
  else if (opcode =? 0x0409) || (opcode =? 0x0209) then Some 6
  else if opcode =? 0x0009 then Some 4
  else None.

(** book.py:1267-1270 *)
Definition read (mem : list Z) (pos length : Z) : list Z * Z :=
  let data := py_slice mem pos (pos + length) in (data, pos + zlen data).

(** book.py:1308-1330; the last branch is the default of [version = 0]. *)
Definition bof_version (version1 version2 build year streamtype : Z) : Z :=
  let version :=
    if version1 =? 0x08 then
      if version2 =? 0x0600 then 80
      else if version2 =? 0x0500 then
        if (year <? 1994) || (build =? 2412) || (build =? 3218) || (build =? 3321) then 50 else 70
      else if (version2 =? 0x0000) || (version2 =? 0x0007) || (version2 =? 0x0200) then 21
      else if version2 =? 0x0300 then 30
      else if version2 =? 0x0400 then 40
      else 0
    else if version1 =? 0x04 then 40
    else if version1 =? 0x02 then 30
    else if version1 =? 0x00 then 21
    else 0 in
  if (version =? 40) && (streamtype =? XL_WORKBOOK_GLOBALS_4W) then 45 else version.

(** book.py:1272-1346: the version and the position after the record. *)
Definition getbof (mem : list Z) (position rqd_stream : Z) : result (Z * Z) :=
  do (opcode, position) <- get2bytes mem position;
  do _ <- guard (negb (opcode =? MY_EOF)) XLRDError;
  match boflen opcode with
  | None => Err XLRDError
  | Some bl =>
      do (length, position) <- get2bytes mem position;
      do _ <- guard (negb (length =? MY_EOF)) XLRDError;
      do _ <- guard ((4 <=? length) && (length <=? 20)) XLRDError;
      let padding := zrepeat 0 (Z.max 0 (bl - length)) in
      let '(data, position) := read mem position length in
      do _ <- guard (negb (zlen data <? length)) XLRDError;
      let data := data ++ padding in
      let version1 := Z.shiftr opcode 8 in
      do version2 <- unpack_u16 data 0;
      do streamtype <- unpack_u16 data 2;
      do (build, year) <- (if version1 =? 0x08
                           then do b <- unpack_u16 data 4; do y <- unpack_u16 data 6; Ok (b, y)
                           else Ok (0, 0));
      let version := bof_version version1 version2 build year streamtype in
      let got_globals := (streamtype =? XL_WORKBOOK_GLOBALS)
                         || ((version =? 45) && (streamtype =? XL_WORKBOOK_GLOBALS_4W)) in
      if ((rqd_stream =? XL_WORKBOOK_GLOBALS) && got_globals) || (streamtype =? rqd_stream)
      then Ok (version, position)
      else if (version <? 50) && (streamtype =? XL_WORKSHEET) then Ok (version, position)
      else Err XLRDError
  end.

(** ** Encoding *)

(** The attributes of a Book that derive_encoding reads or writes. *)
Record encst : Type := mk_encst {
  en_override : option (list Z);        (* encoding_override *)
  en_codepage : option Z;               (* codepage *)
  en_encoding : option (list Z);        (* encoding *)
  en_raw : bool;                        (* raw_user_name *)
  en_user : list Z }.                   (* user_name: bytes while raw_user_name, else text *)

Definition with_encoding (s : encst) (e : list Z) : encst :=
  mk_encst (en_override s) (en_codepage s) (Some e) (en_raw s) (en_user s).
Definition with_codepage (s : encst) (cp : Z) : encst :=
  mk_encst (en_override s) (Some cp) (en_encoding s) (en_raw s) (en_user s).
Definition with_user (s : encst) (raw : bool) (u : list Z) : encst :=
  mk_encst (en_override s) (en_codepage s) (en_encoding s) raw u.

(** [if x:] for None or a text. *)
Definition truthy (x : option (list Z)) : bool := match x with Some (_ :: _) => true | _ => false end.

(** biffh.py:621-631 *)
Definition encoding_from_codepage (cp : Z) : option (list Z) :=
  if cp =? 1200 then Some (s2l "utf_16_le")
  else if cp =? 10000 then Some (s2l "mac_roman")
  else if cp =? 10006 then Some (s2l "mac_greek")
  else if cp =? 10007 then Some (s2l "mac_cyrillic")
  else if cp =? 10029 then Some (s2l "mac_latin2")
  else if cp =? 10079 then Some (s2l "mac_iceland")
  else if cp =? 10081 then Some (s2l "mac_turkish")
  else if cp =? 32768 then Some (s2l "mac_roman")
  else if cp =? 32769 then Some (s2l "cp1252")
  else None.

(** Python run time: [str.isspace] and [bytes.isspace] of one character. *)
Definition str_space (c : Z) : bool :=
  ((9 <=? c) && (c <=? 13)) || ((28 <=? c) && (c <=? 32)) || (c =? 0x85) || (c =? 0xA0) || (c =? 0x1680)
  || ((0x2000 <=? c) && (c <=? 0x200A)) || (c =? 0x2028) || (c =? 0x2029) || (c =? 0x202F) || (c =? 0x205F)
  || (c =? 0x3000).
Definition byte_space (c : Z) : bool := ((9 <=? c) && (c <=? 13)) || (c =? 32).
Fixpoint lstrip (space : Z -> bool) (s : list Z) : list Z :=
  match s with c :: r => if space c then lstrip space r else s | [] => [] end.
Definition rstrip (space : Z -> bool) (s : list Z) : list Z := rev (lstrip space (rev s)).

Section Codec.
(** [unicode(bytes, encoding)] *)
Variable codec : list Z -> list Z -> result (list Z).

(** With encoding None: "decode() argument 'encoding' must be str, not None". *)
Definition unicode (enc : option (list Z)) (b : list Z) : result (list Z) :=
  match enc with None => Err TypeError | Some e => codec e b end.

(** book.py:793-817 *)
Definition choose_encoding (bv : Z) (s : encst) : encst :=
  match en_override s with
  | Some (c :: r) => with_encoding s (c :: r)
  | _ =>
      match en_codepage s with
      | None => if bv <? 80 then with_encoding s (s2l "iso-8859-1") else with_codepage s 1200
      | Some cp =>
          match encoding_from_codepage cp with
          | Some e => with_encoding s e
          | None =>
              if (300 <=? cp) && (cp <=? 1999) then with_encoding s (s2l "cp" ++ fmt_d cp)
              else if bv >=? 80 then with_encoding (with_codepage s 1200) (s2l "utf_16_le")
              else with_encoding s (s2l "unknown_codepage_" ++ fmt_d cp)
          end
      end
  end.

(** book.py:792-835 *)
Definition derive_encoding (bv : Z) (s : encst) : result encst :=
  let s := choose_encoding bv s in
  do _ <- (if match en_codepage s with Some cp => cp =? 1200 | None => false end then Ok []
           else unicode (en_encoding s) (s2l "trial"));
  if en_raw s then
    do strg <- unpack_string (unicode (en_encoding s)) (en_user s) 0 1;
    Ok (with_user s false (rstrip str_space strg))
  else Ok s.

(** [if not self.encoding: self.derive_encoding()] *)
Definition ensure_encoding (bv : Z) (s : encst) : result encst :=
  if truthy (en_encoding s) then Ok s else derive_encoding bv s.

(** book.py:837-841 *)
Definition handle_codepage (bv : Z) (s : encst) (data : list Z) : result encst :=
  do cp <- unpack_u16 data 0;
  derive_encoding bv (with_codepage s cp).

(** book.py:1185-1201 *)
Definition handle_writeaccess (bv : Z) (s : encst) (data : list Z) : result encst :=
  if bv <? 80 then
    if negb (truthy (en_encoding s)) then Ok (with_user s true data)
    else
      do strg <- unpack_string (unicode (en_encoding s)) data 0 1;
      Ok (with_user s (en_raw s) (rstrip str_space strg))
  else
    do strg <- match unpack_unicode data 0 2 with
               | Err UnicodeDecodeError => unpack_unicode (lstrip byte_space (rstrip byte_space data)) 0 2
               | r => r
               end;
    Ok (with_user s (en_raw s) (rstrip str_space strg)).

(** ** Sheets, references and names *)

(** Worksheets, from the BOUNDSHEET records. *)
Record shst : Type := mk_shst {
  sl_names : list (list Z);             (* _sheet_names *)
  sl_visibility : list Z;               (* _sheet_visibility *)
  sl_posn : list Z;                     (* _sh_abs_posn *)
  sl_allmap : list Z;                   (* _all_sheets_map *)
  sl_num : list (list Z * Z) }.         (* _sheet_num_from_name *)

(** book.py:30, by number *)
Definition SUPBOOK_INTERNAL : Z := 1.
Definition SUPBOOK_EXTERNAL : Z := 2.
Definition SUPBOOK_ADDIN : Z := 3.
Definition SUPBOOK_DDEOLE : Z := 4.

(** External references. *)
Record refst : Type := mk_refst {
  rf_types : list Z;                    (* _supbook_types; its length is _supbook_count *)
  rf_locals : option Z;                 (* _supbook_locals_inx *)
  rf_addins : option Z;                 (* _supbook_addins_inx *)
  rf_addin_names : list (list Z);       (* addin_func_names *)
  rf_info : list (Z * Z * Z);           (* _externsheet_info *)
  rf_b57 : list Z;                      (* _externsheet_type_b57 *)
  rf_extn_names : list (Z * list Z);    (* _extnsht_name_from_num *)
  rf_count : Z }.                       (* _extnsht_count *)

Definition sheets0 : shst := mk_shst [] [] [] [] [].
Definition refs0 : refst := mk_refst [] None None [] [] [] [] 0.

(** book.py:733-783 after derive_encoding; [base] is self.base, [offset] is
    self._sheetsoffset if it has been set. *)
Definition handle_boundsheet (bv base : Z) (offset : option Z) (enc : option (list Z)) (s : shst) (data : list Z)
  : result shst :=
  do (name, visibility, sheet_type, abs_posn) <-
    (if bv =? 45 then
       do name <- unpack_string (unicode enc) data 0 1;
       do posn <- (if zlen (sl_posn s) =? 0
                   then match offset with Some o => Ok (o + base) | None => Err AttributeError end
                   else Ok (-1));
       Ok (name, 0, 0, posn)
     else
       do _ <- need data 6;
       do o <- unpack_i32 data 0; do v <- unpack_le 1 data 4; do t <- unpack_le 1 data 5;
       do name <- (if bv <? 80 then unpack_string (unicode enc) data 6 1 else unpack_unicode data 6 1);
       Ok (name, v, t, o + base));
  if negb (sheet_type =? 0) then
    Ok (mk_shst (sl_names s) (sl_visibility s) (sl_posn s) (sl_allmap s ++ [-1]) (sl_num s))
  else
    let snum := zlen (sl_names s) in
    Ok (mk_shst (sl_names s ++ [name]) (sl_visibility s ++ [visibility]) (sl_posn s ++ [abs_posn])
          (sl_allmap s ++ [snum]) (dset (sl_num s) name snum)).

(** book.py:857-869 *)
Definition handle_externname (bv : Z) (r : refst) (data : list Z) : result refst :=
  if bv >=? 80 then
    do _ <- need data 6;
    do (name, pos) <- unpack_unicode_update_pos data 6 1 None;
    do ty <- py_index (rf_types r) (-1);
    if ty =? SUPBOOK_ADDIN then
      Ok (mk_refst (rf_types r) (rf_locals r) (rf_addins r) (rf_addin_names r ++ [name]) (rf_info r) (rf_b57 r)
            (rf_extn_names r) (rf_count r))
    else Ok r
  else Ok r.

(** book.py:880-890: the record body with the CONTINUE records it needs. *)
Fixpoint externsheet_body (fuel : nat) (mem : list Z) (position reqd : Z) (data : list Z) : result (list Z * Z) :=
  if negb (zlen data <? reqd) then Ok (data, position) else
  match fuel with
  | O => Err OutOfFuel
  | S f =>
      do ((code2, _, data2), position) <- get_record_parts mem position;
      if negb (code2 =? XL_CONTINUE) then Err XLRDError
      else externsheet_body f mem position reqd (data ++ data2)
  end.

(** book.py:891-896 *)
Fixpoint externsheet_triples (n : nat) (data : list Z) (pos : Z) : result (list (Z * Z * Z)) :=
  match n with
  | O => Ok []
  | S n' =>
      do _ <- guard (zlen (py_slice data pos (pos + 6)) =? 6) StructError;
      do a <- unpack_u16 data pos; do b <- unpack_u16 data (pos + 2); do c <- unpack_u16 data (pos + 4);
      do r <- externsheet_triples n' data (pos + 6);
      Ok ((a, b, c) :: r)
  end.

(** book.py:871-920 after derive_encoding: also the new position. *)
Definition handle_externsheet (bv : Z) (enc : option (list Z)) (r : refst) (mem : list Z) (position : Z) (data : list Z)
  : result (refst * Z) :=
  let count := rf_count r + 1 in
  if bv >=? 80 then
    do num_refs <- unpack_u16 data 0;
    do (data, position) <- externsheet_body (S (List.length mem)) mem position (num_refs * 6 + 2) data;
    do l <- externsheet_triples (Z.to_nat num_refs) data 2;
    Ok (mk_refst (rf_types r) (rf_locals r) (rf_addins r) (rf_addin_names r) (rf_info r ++ l) (rf_b57 r)
          (rf_extn_names r) count, position)
  else
    do _ <- need data 2;
    do nc <- unpack_le 1 data 0; do ty <- unpack_le 1 data 1;
    do names <- (if ty =? 3
                 then do n <- unicode enc (py_slice data 2 (nc + 2)); Ok (dset (rf_extn_names r) count n)
                 else Ok (rf_extn_names r));
    let ty := if negb ((1 <=? ty) && (ty <=? 4)) then 0 else ty in
    Ok (mk_refst (rf_types r) (rf_locals r) (rf_addins r) (rf_addin_names r) (rf_info r) (rf_b57 r ++ [ty])
          names count, position).

(** book.py:1120-1131: a struct.error ends the names, another exception is raised. *)
Fixpoint supbook_names (n : nat) (data : list Z) (pos : Z) : result unit :=
  match n with
  | O => Ok tt
  | S n' => match unpack_unicode_update_pos data pos 2 None with
            | Ok (_, pos) => supbook_names n' data pos
            | Err StructError => Ok tt
            | Err x => Err x
            end
  end.

(** book.py:1086-1131 *)
Definition handle_supbook (r : refst) (data : list Z) : result refst :=
  let add ty locals addins :=
    mk_refst (rf_types r ++ [ty]) locals addins (rf_addin_names r) (rf_info r) (rf_b57 r) (rf_extn_names r) (rf_count r) in
  let inx := zlen (rf_types r) in
  do num_sheets <- unpack_u16 data 0;
  if list_eqb (py_slice data 2 4) [0x01; 0x04] then Ok (add SUPBOOK_INTERNAL (Some inx) (rf_addins r))
  else if list_eqb (py_slice data 0 4) [0x01; 0x00; 0x01; 0x3A] then Ok (add SUPBOOK_ADDIN (rf_locals r) (Some inx))
  else
    do (url, pos) <- unpack_unicode_update_pos data 2 2 None;
    if num_sheets =? 0 then Ok (add SUPBOOK_DDEOLE (rf_locals r) (rf_addins r))
    else
      do _ <- supbook_names (Z.to_nat num_sheets) data pos;
      Ok (add SUPBOOK_EXTERNAL (rf_locals r) (rf_addins r)).

(** book.py:34-57 *)
Definition builtin_names : list (list Z) :=
  [s2l "Consolidate_Area"; s2l "Auto_Open"; s2l "Auto_Close"; s2l "Extract"; s2l "Database"; s2l "Criteria";
   s2l "Print_Area"; s2l "Print_Titles"; s2l "Recorder"; s2l "Data_Form"; s2l "Auto_Activate"; s2l "Auto_Deactivate";
   s2l "Sheet_Title"; s2l "_FilterDatabase"].
Definition builtin_name_from_code (name : list Z) : list Z :=
  match name with
  | [c] => match znth builtin_names c with Some n => n | None => s2l "??Unknown??" end
  | _ => s2l "??Unknown??"
  end.

Section Names.
Context {N : Type}.
Variable ops : numops N.
(** [str.lower] *)
Variable lower : list Z -> list Z.

(** book.py:945-1003 after derive_encoding, for biff_version >= 50; the attributes are
    bits of [nm_flags]. *)
Definition handle_name (bv : Z) (enc : option (list Z)) (data : list Z) : result (nameobj N) :=
  do _ <- need data 14;
  do flags <- unpack_u16 data 0; do name_len <- unpack_le 1 data 3; do fmla_len <- unpack_u16 data 4;
  do extsht <- unpack_u16 data 6; do sheet <- unpack_u16 data 8;
  do (name, pos) <- (if bv <? 80 then unpack_string_update_pos (unicode enc) data 14 2 (Some name_len)
                     else unpack_unicode_update_pos data 14 2 (Some name_len));
  let name := if Z.testbit flags 5 then builtin_name_from_code name else name in
  Ok (mk_name flags name extsht sheet (py_from data pos) fmla_len None false [] false false).

(** book.py:1014-1041.  The last branch cannot be met: no other version has names. *)
Definition scope_of (bv : Z) (s : shst) (r : refst) (n : nameobj N) : result Z :=
  if bv >=? 80 then
    let i := nm_sheet n in
    if i =? 0 then Ok (-1)
    else if (1 <=? i) && (i <=? zlen (sl_allmap s)) then
      do k <- py_index (sl_allmap s) (i - 1);
      Ok (if k =? -1 then -2 else k)
    else Ok (-3)
  else if (50 <=? bv) && (bv <=? 70) then
    let i := nm_extn n in
    if i =? 0 then Ok (-1)
    else match dget Z.eqb (rf_extn_names r) i with
         | None => Err KeyError
         | Some name => Ok (match dget list_eqb (sl_num s) name with Some k => k | None => -2 end)
         end
  else Err UnboundLocalError.

Definition set_scope (n : nameobj N) (k : Z) : nameobj N :=
  mk_name (nm_flags n) (nm_name n) (nm_extn n) (nm_sheet n) (nm_raw n) (nm_len n) (Some k)
    (nm_evaluated n) (nm_stack n) (nm_any_rel n) (nm_any_err n).

(** What formulas see of the book. *)
Definition env_of (bv : Z) (enc : option (list Z)) (s : shst) (r : refst) : fenv :=
  mk_fenv bv (unicode enc) (sl_names s) (sl_allmap s) (rf_info r) (rf_b57 r) (rf_locals r) (rf_addins r) (rf_addin_names r).

(** book.py:1043-1048 *)
Fixpoint eval_names (e : fenv) (todo : list Z) (names : list (nameobj N)) : result (list (nameobj N)) :=
  match todo with
  | [] => Ok names
  | x :: todo =>
      do n <- py_index names x;
      do names <- (if nm_macro n || nm_binary n || nm_evaluated n then Ok names
                   else evaluate_name_formula ops e TOP_LEVELS names x);
      eval_names e todo names
  end.

(** [alist.sort()] of pairs (scope, namex) *)
Definition pair_le (a b : Z * Z) : bool := (fst a <? fst b) || ((fst a =? fst b) && (snd a <=? snd b)).
Fixpoint insert (x : Z * Z) (l : list (Z * Z)) : list (Z * Z) :=
  match l with [] => [x] | y :: r => if pair_le x y then x :: l else y :: insert x r end.
Definition sort (l : list (Z * Z)) : list (Z * Z) := fold_right insert [] l.

(** [name_map[k].append(v)], or [name_map[k] = [v]] for a new key *)
Fixpoint multi_add (d : list (list Z * list (Z * Z))) (k : list Z) (v : Z * Z) : list (list Z * list (Z * Z)) :=
  match d with
  | [] => [(k, [v])]
  | (k', l) :: r => if list_eqb k k' then (k', l ++ [v]) :: r else (k', l) :: multi_add r k v
  end.

(** A name object in the maps is its number in name_obj_list. *)
Definition namemap : Type := list (list Z * list Z).
Definition scopemap : Type := list ((list Z * Z) * Z).
Definition key_eqb (a b : list Z * Z) : bool := list_eqb (fst a) (fst b) && (snd a =? snd b).

(** book.py:1056-1077 *)
Fixpoint build_maps (namex : Z) (names : list (nameobj N)) (m : scopemap) (d : list (list Z * list (Z * Z)))
  : result (scopemap * list (list Z * list (Z * Z))) :=
  match names with
  | [] => Ok (m, d)
  | n :: r =>
      match nm_scope n with
      | None => Err TypeError
      | Some scope =>
          let key := lower (nm_name n) in
          build_maps (namex + 1) r (dset m (key, scope) namex) (multi_add d key (scope, namex))
      end
  end.
Definition name_maps (names : list (nameobj N)) : result (scopemap * namemap) :=
  do (m, d) <- build_maps 0 names [] [];
  Ok (m, map (fun '(k, l) => (k, map snd (sort l))) d).

(** book.py:1005-1077 *)
Definition names_epilogue (bv : Z) (enc : option (list Z)) (s : shst) (r : refst) (names : list (nameobj N))
  : result (list (nameobj N) * (scopemap * namemap)) :=
  do names <- mapM (fun n => do k <- scope_of bv s r n; Ok (set_scope n k)) names;
  do names <- eval_names (env_of bv enc s r) (zrange 0 (zlen names)) names;
  do maps <- name_maps names;
  Ok (names, maps).

(** ** The loop *)

Section Globals.
Context {SH : Type}.

(** What reading a worksheet can change in the book. *)
Record shared : Type := mk_shared {
  g_enc : encst;
  g_fmt : fbook;
  g_countries : Z * Z;
  g_datemode : Z }.

Record book : Type := mk_book {
  bk_bv : Z;                            (* biff_version *)
  bk_base : Z;                          (* base *)
  bk_shared : shared;
  bk_sst : list (list Z);               (* _sharedstrings *)
  bk_rich : list (Z * list (Z * Z));    (* _rich_text_runlist_map *)
  bk_sheets : shst;
  bk_refs : refst;
  bk_names : list (nameobj N);          (* name_obj_list *)
  bk_maps : scopemap * namemap;
  bk_list : list (option SH);           (* _sheet_list *)
  bk_hdr : Z;                           (* _sheethdr_count *)
  bk_offset : option Z }.               (* _sheetsoffset *)

Definition with_shared (b : book) (x : shared) : book := mk_book (bk_bv b) (bk_base b) x (bk_sst b) (bk_rich b) (bk_sheets b) (bk_refs b) (bk_names b) (bk_maps b) (bk_list b) (bk_hdr b) (bk_offset b).
Definition with_sst (b : book) (x : list (list Z)) (y : list (Z * list (Z * Z))) : book := mk_book (bk_bv b) (bk_base b) (bk_shared b) x y (bk_sheets b) (bk_refs b) (bk_names b) (bk_maps b) (bk_list b) (bk_hdr b) (bk_offset b).
Definition with_sheets (b : book) (x : shst) : book := mk_book (bk_bv b) (bk_base b) (bk_shared b) (bk_sst b) (bk_rich b) x (bk_refs b) (bk_names b) (bk_maps b) (bk_list b) (bk_hdr b) (bk_offset b).
Definition with_refs (b : book) (x : refst) : book := mk_book (bk_bv b) (bk_base b) (bk_shared b) (bk_sst b) (bk_rich b) (bk_sheets b) x (bk_names b) (bk_maps b) (bk_list b) (bk_hdr b) (bk_offset b).
Definition with_names (b : book) (x : list (nameobj N)) : book := mk_book (bk_bv b) (bk_base b) (bk_shared b) (bk_sst b) (bk_rich b) (bk_sheets b) (bk_refs b) x (bk_maps b) (bk_list b) (bk_hdr b) (bk_offset b).
Definition with_maps (b : book) (x : scopemap * namemap) : book := mk_book (bk_bv b) (bk_base b) (bk_shared b) (bk_sst b) (bk_rich b) (bk_sheets b) (bk_refs b) (bk_names b) x (bk_list b) (bk_hdr b) (bk_offset b).
Definition with_list (b : book) (x : list (option SH)) : book := mk_book (bk_bv b) (bk_base b) (bk_shared b) (bk_sst b) (bk_rich b) (bk_sheets b) (bk_refs b) (bk_names b) (bk_maps b) x (bk_hdr b) (bk_offset b).
Definition with_hdr (b : book) (x : Z) : book := mk_book (bk_bv b) (bk_base b) (bk_shared b) (bk_sst b) (bk_rich b) (bk_sheets b) (bk_refs b) (bk_names b) (bk_maps b) (bk_list b) x (bk_offset b).
Definition with_offset (b : book) (x : Z) : book := mk_book (bk_bv b) (bk_base b) (bk_shared b) (bk_sst b) (bk_rich b) (bk_sheets b) (bk_refs b) (bk_names b) (bk_maps b) (bk_list b) (bk_hdr b) (Some x).

Definition bk_enc (b : book) : encst := g_enc (bk_shared b).
Definition bk_fmt (b : book) : fbook := g_fmt (bk_shared b).
Definition with_enc (b : book) (x : encst) : book :=
  with_shared b (mk_shared x (g_fmt (bk_shared b)) (g_countries (bk_shared b)) (g_datemode (bk_shared b))).
Definition with_fmt (b : book) (x : fbook) : book :=
  with_shared b (mk_shared (g_enc (bk_shared b)) x (g_countries (bk_shared b)) (g_datemode (bk_shared b))).
Definition derive (b : book) : result book := do s <- derive_encoding (bk_bv b) (bk_enc b); Ok (with_enc b s).
Definition ensure (b : book) : result book := do s <- ensure_encoding (bk_bv b) (bk_enc b); Ok (with_enc b s).

(** The worksheet at a position after its BOF record (sheet.py:320-401 and 789-1508). *)
Variable load : book -> list Z -> Z -> list Z -> Z -> result (shared * SH).

(** book.py:843-848 *)
Definition handle_country (b : book) (data : list Z) : result book :=
  do _ <- need data 4;
  do x <- unpack_u16 data 0; do y <- unpack_u16 data 2;
  let g := bk_shared b in
  do _ <- guard (pair_eqb (g_countries g) (0, 0) || pair_eqb (g_countries g) (x, y)) AssertionError;
  Ok (with_shared b (mk_shared (g_enc g) (g_fmt g) (x, y) (g_datemode g))).

(** book.py:850-855 *)
Definition handle_datemode (b : book) (data : list Z) : result book :=
  do d <- unpack_u16 data 0;
  do _ <- guard ((d =? 0) || (d =? 1)) AssertionError;
  let g := bk_shared b in
  Ok (with_shared b (mk_shared (g_enc g) (g_fmt g) (g_countries g) d)).

(** book.py:1212-1217 and formatting.py:257-674: fonts and formats ask for an encoding
    first, styles do not. *)
Definition format_record (b : book) (r : frecord) : result book :=
  do b <- match r with
          | RFont _ => if b_fmt (bk_fmt b) then ensure b else Ok b
          | RFormat _ _ => ensure b
          | _ => Ok b
          end;
  do f <- fstep (unicode (en_encoding (bk_enc b))) (bk_fmt b) r;
  Ok (with_fmt b f).

(** book.py:655-664 *)
Definition initialise_format_info (f : fbook) : fbook :=
  mk_fbook (b_bv f) (b_fmt f) (b_colours f) (b_used f) (b_palette f) [] [] [] 0 [] 0 [(0, XL_CELL_NUMBER)] (b_styles f).

(** book.py:1133-1153: the new position is counted from the byte after the record. *)
Definition handle_sheethdr (b : book) (mem : list Z) (position : Z) (data : list Z) : result (book * Z) :=
  do b <- derive b;
  do sheet_len <- unpack_i32 data 0;
  do name <- unpack_string (unicode (en_encoding (bk_enc b))) data 4 1;
  let sheetno := bk_hdr b in
  do expected <- py_index (sl_names (bk_sheets b)) sheetno;
  do _ <- guard (list_eqb name expected) AssertionError;
  let b := with_hdr b (sheetno + 1) in
  let b := with_fmt b (initialise_format_info (bk_fmt b)) in
  let b := with_list b (bk_list b ++ [None]) in
  do (_, pos) <- getbof mem position XL_WORKSHEET;
  do (g, sh) <- load b mem pos expected sheetno;
  let b := with_shared b g in
  do l <- list_set (bk_list b) sheetno (Some sh);
  Ok (with_list b l, position + sheet_len).

(** One record of the globals other than EOF, book.py:1208-1250.  Record codes:
    biffh.py:113-213. *)
Definition gstep (b : book) (mem : list Z) (position rc : Z) (data : list Z) : result (book * Z) :=
  let stay (r : result book) := do b <- r; Ok (b, position) in
  if rc =? 0xfc then
    do (strings, runs, position) <- handle_sst mem position data;
    Ok (with_sst b strings (if b_fmt (bk_fmt b) then runs else bk_rich b), position)
  else if (rc =? 0x31) || (rc =? 0x231) then stay (format_record b (RFont data))
  else if rc =? 0x41e then stay (format_record b (RFormat data false))
  else if rc =? 0xe0 then stay (format_record b (RXf data))
  else if rc =? 0x85 then
    stay (do b <- derive b;
          do s <- handle_boundsheet (bk_bv b) (bk_base b) (bk_offset b) (en_encoding (bk_enc b)) (bk_sheets b) data;
          Ok (with_sheets b s))
  else if rc =? 0x22 then stay (handle_datemode b data)
  else if rc =? 0x42 then stay (do s <- handle_codepage (bk_bv b) (bk_enc b) data; Ok (with_enc b s))
  else if rc =? 0x8C then stay (handle_country b data)
  else if rc =? 0x23 then stay (do r <- handle_externname (bk_bv b) (bk_refs b) data; Ok (with_refs b r))
  else if rc =? 0x17 then
    do b <- derive b;
    do (r, position) <- handle_externsheet (bk_bv b) (en_encoding (bk_enc b)) (bk_refs b) mem position data;
    Ok (with_refs b r, position)
  else if rc =? 0x2f then Err XLRDError
  else if rc =? 0x5C then stay (do s <- handle_writeaccess (bk_bv b) (bk_enc b) data; Ok (with_enc b s))
  else if rc =? 0x8E then
    stay (do _ <- guard (zlen data =? 4) StructError; do o <- unpack_i32 data 0; Ok (with_offset b o))
  else if rc =? 0x8F then handle_sheethdr b mem position data
  else if rc =? 0x1AE then stay (do r <- handle_supbook (bk_refs b) data; Ok (with_refs b r))
  else if rc =? 0x18 then
    if bk_bv b <? 50 then Ok (b, position)
    else stay (do b <- derive b;
               do n <- handle_name (bk_bv b) (en_encoding (bk_enc b)) data;
               Ok (with_names b (bk_names b ++ [n])))
  else if rc =? 0x92 then stay (format_record b (RPalette data))
  else if rc =? 0x293 then stay (format_record b (RStyle data))
  else Ok (b, position).

(** book.py:1251-1262: the EOF record. *)
Definition globals_end (b : book) : result book :=
  let b := with_fmt b (xf_epilogue (bk_fmt b)) in
  do (names, maps) <- names_epilogue (bk_bv b) (en_encoding (bk_enc b)) (bk_sheets b) (bk_refs b) (bk_names b);
  let b := with_maps (with_names b names) maps in
  let b := with_fmt b (palette_epilogue (bk_fmt b)) in
  if truthy (en_encoding (bk_enc b)) then Ok b else derive b.

(** book.py:1207-1265: the loop, from [position]. *)
Fixpoint globals (fuel : nat) (b : book) (mem : list Z) (position : Z) : result (book * Z) :=
  match fuel with
  | O => Err OutOfFuel
  | S f =>
      do ((rc, _, data), position) <- get_record_parts mem position;
      if rc =? 0x0a then do b <- globals_end b; Ok (b, position)
      else
        do (b, position) <- gstep b mem position rc data;
        globals f b mem position
  end.

(** book.py:277-563 (class attributes), 565-596, 655-664 and formatting.py:1089-1093: the
    book when parse_globals starts. *)
Definition book0 (bv base : Z) (fmt : bool) (override : option (list Z)) : result book :=
  do f <- fbook0 bv fmt;
  Ok (mk_book bv base (mk_shared (mk_encst override None None false []) f (0, 0) 0)
        [] [] sheets0 refs0 [] ([], []) [] 0 None).
End Globals.
End Names.
End Codec.
Arguments book : clear implicits.
