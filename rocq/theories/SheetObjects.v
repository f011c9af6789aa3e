(** Model of the hyperlink, drawing-object and note records of a sheet:
    /repo/xlrd/sheet.py:1746-1856 (handle_hlink), 1858-1865 (handle_quicktip),
    1907-1961 (handle_obj), 1963-2012 (handle_note), 2014-2062 (handle_txo).

    Records come as a list of (code, announced length, data): the successive
    results of [Book.get_record_parts] (book.py:676-683), whose only state is
    the stream position; a read past the last record is the struct.error of
    book.py:679.  [records_of] below makes that list from the stream.  Debug
    output is left out. *)
From Verif Require Import Base Utf16 Strings Framing.

Definition record : Type := (Z * Z * list Z)%type.

(** The records that successive [get_record_parts] calls return, starting at
    [pos], up to the call that raises struct.error. *)
Fixpoint records_of (fuel : nat) (mem : list Z) (pos : Z) : list record :=
  match fuel with
  | O => []
  | S f => match get_record_parts mem pos with
           | Err _ => []
           | Ok (r, pos') => r :: records_of f mem pos'
           end
  end.

(** [bk.get_record_parts()] *)
Definition next (rs : list record) : result (record * list record) :=
  match rs with [] => Err StructError | r :: rs' => Ok (r, rs') end.

(** Python dictionaries, newest entry first. *)
Definition dset {K V} (d : list (K * V)) (k : K) (v : V) : list (K * V) := (k, v) :: d.
Fixpoint dget {K V} (eqb : K -> K -> bool) (d : list (K * V)) (k : K) : option V :=
  match d with [] => None | (k', v) :: r => if eqb k k' then Some v else dget eqb r k end.
Definition pair_eqb (a b : Z * Z) : bool := (fst a =? fst b) && (snd a =? snd b).

(** [unpack(fmt, data[:n])] needs exactly n bytes. *)
Definition need (data : list Z) (n : Z) : result unit := guard (zlen (py_slice data 0 n) =? n) StructError.

(** Record codes, biffh.py:113-213. *)
Definition XL_CONTINUE : Z := 0x3c.
Definition XL_NOTE : Z := 0x1c.
Definition XL_QUICKTIP : Z := 0x800.

(** ** Hyperlinks *)

Inductive htype : Type := HUrl | HLocalFile | HUnc | HWorkbook | HUnknown.

(** [url_or_path] is text, or bytes for the short path of a local file. *)
Inductive upath : Type := UText (s : list Z) | UBytes (b : list Z).

Record hyperlink : Type := mk_hyperlink {
  h_frowx : Z; h_lrowx : Z; h_fcolx : Z; h_lcolx : Z;
  h_type : option htype;
  h_url : option upath;
  h_desc : option (list Z);
  h_target : option (list Z);
  h_textmark : option (list Z);
  h_quicktip : option (list Z);
}.

Definition GUID0 : list Z := [0xD0; 0xC9; 0xEA; 0x79; 0xF9; 0xBA; 0xCE; 0x11; 0x8C; 0x82; 0x00; 0xAA; 0x00; 0x4B; 0xA9; 0x0B].
Definition CLSID_URL : list Z := [0xE0; 0xC9; 0xEA; 0x79; 0xF9; 0xBA; 0xCE; 0x11; 0x8C; 0x82; 0x00; 0xAA; 0x00; 0x4B; 0xA9; 0x0B].
Definition CLSID_FILE : list Z := [0x03; 0x03; 0; 0; 0; 0; 0; 0; 0xC0; 0; 0; 0; 0; 0; 0; 0x46].

(** sheet.py:1757-1762 *)
Definition get_nul_terminated_unicode (buf : list Z) (ofs : Z) : result (list Z * Z) :=
  do n <- unpack_u32 buf ofs;
  let nb := n * 2 in
  let ofs := ofs + 4 in
  do uc <- utf16_dec (py_slice buf ofs (ofs + nb));
  Ok (py_slice uc 0 (-1), ofs + nb).

(** [s.find('\x00')] *)
Fixpoint find0_from (s : list Z) (i : Z) : Z :=
  match s with [] => -1 | c :: r => if c =? 0 then i else find0_from r (i + 1) end.
Definition find0 (s : list Z) : Z := find0_from s 0.

Fixpoint repeat_app (n : nat) (s : list Z) : list Z :=
  match n with O => [] | S n' => s ++ repeat_app n' s end.

(** sheet.py:1775-1797: the URL and the new offset. *)
Definition url_moniker (data : list Z) (offset : Z) : result (list Z * Z) :=
  do nbytes <- unpack_u32 data offset;
  let offset := offset + 4 in
  do url <- utf16_dec (py_slice data offset (offset + nbytes));
  let endpos := find0 url in
  let url := py_slice url 0 endpos in
  let true_nbytes := 2 * (endpos + 1) in
  let extra_nbytes := nbytes - true_nbytes in
  let offset := offset + true_nbytes + extra_nbytes in
  do _ <- guard ((extra_nbytes =? 24) || (extra_nbytes =? 0)) AssertionError;
  Ok (url, offset).

(** sheet.py:1798-1821 *)
Definition file_moniker (data : list Z) (offset : Z) : result (upath * Z) :=
  do _ <- guard (zlen (py_slice data offset (offset + 6)) =? 6) StructError;
  do uplevels <- unpack_u16 data offset;
  do nbytes <- unpack_i32 data (offset + 2);
  let offset := offset + 6 in
  let shortpath := repeat_app (Z.to_nat uplevels) [46; 46; 92] ++ py_slice data offset (offset + nbytes - 1) in
  let offset := offset + nbytes + 24 in
  do sz <- unpack_i32 data offset;
  let offset := offset + 4 in
  if negb (sz =? 0) then
    do xl <- unpack_i32 data offset;
    let offset := offset + 4 + 2 in
    do path <- utf16_dec (py_slice data offset (offset + xl));
    Ok (UText path, offset + xl)
  else Ok (UBytes shortpath, offset).

(** sheet.py:1746-1852: the hyperlink object. *)
Definition parse_hlink (data : list Z) : result hyperlink :=
  do _ <- need data 32;
  do frowx <- unpack_u16 data 0;
  do lrowx <- unpack_u16 data 2;
  do fcolx <- unpack_u16 data 4;
  do lcolx <- unpack_u16 data 6;
  do options <- unpack_i32 data 28;
  do _ <- guard (list_eqb (py_slice data 8 24) GUID0) AssertionError;
  do _ <- guard (list_eqb (py_slice data 24 28) [2; 0; 0; 0]) AssertionError;
  let offset := 32 in
  do (desc, offset) <-
    (if negb (Z.land options 0x14 =? 0)
     then do (d, o) <- get_nul_terminated_unicode data offset; Ok (Some d, o) else Ok (None, offset));
  do (target, offset) <-
    (if negb (Z.land options 0x80 =? 0)
     then do (d, o) <- get_nul_terminated_unicode data offset; Ok (Some d, o) else Ok (None, offset));
  do (ty, url, offset) <-
    (if negb (Z.land options 1 =? 0) && (Z.land options 0x100 =? 0) then
       do _ <- guard (zlen (py_slice data offset (offset + 16)) =? 16) StructError;
       let clsid := py_slice data offset (offset + 16) in
       let offset := offset + 16 in
       if list_eqb clsid CLSID_URL then
         do (u, o) <- url_moniker data offset; Ok (Some HUrl, Some (UText u), o)
       else if list_eqb clsid CLSID_FILE then
         do (u, o) <- file_moniker data offset; Ok (Some HLocalFile, Some u, o)
       else Ok (None, None, offset)
     else if Z.land options 0x163 =? 0x103 then
       do (u, o) <- get_nul_terminated_unicode data offset; Ok (Some HUnc, Some (UText u), o)
     else if Z.land options 0x16B =? 8 then Ok (Some HWorkbook, None, offset)
     else Ok (Some HUnknown, None, offset));
  do (textmark, offset) <-
    (if negb (Z.land options 8 =? 0)
     then do (d, o) <- get_nul_terminated_unicode data offset; Ok (Some d, o) else Ok (None, offset));
  do _ <- guard (0 <=? zlen data - offset) XLRDError;
  Ok (mk_hyperlink frowx lrowx fcolx lcolx ty url desc target textmark None).

(** hyperlink_list, and hyperlink_map as a map from cells to positions in that
    list: the Python map holds references to the objects of the list. *)
Record links : Type := mk_links { l_list : list hyperlink; l_map : list ((Z * Z) * Z) }.

(** sheet.py:1853-1856 *)
Definition add_link (l : links) (h : hyperlink) : links :=
  let idx := zlen (l_list l) in
  mk_links (l_list l ++ [h])
    (fold_left (fun m rowx => fold_left (fun m colx => dset m (rowx, colx) idx) (zrange (h_fcolx h) (h_lcolx h + 1)) m)
       (zrange (h_frowx h) (h_lrowx h + 1)) (l_map l)).

Definition handle_hlink (l : links) (data : list Z) : result links :=
  do h <- parse_hlink data; Ok (add_link l h).

(** [sheet.hyperlink_map.get((rowx, colx))] *)
Definition link_at (l : links) (rowx colx : Z) : option hyperlink :=
  match dget pair_eqb (l_map l) (rowx, colx) with
  | None => None
  | Some idx => znth (l_list l) idx
  end.

Definition set_quicktip (h : hyperlink) (q : list Z) : hyperlink :=
  mk_hyperlink (h_frowx h) (h_lrowx h) (h_fcolx h) (h_lcolx h) (h_type h) (h_url h)
    (h_desc h) (h_target h) (h_textmark h) (Some q).

(** sheet.py:1858-1865 *)
Definition handle_quicktip (l : links) (data : list Z) : result links :=
  do _ <- need data 10;
  do rcx <- unpack_u16 data 0;
  do frowx <- unpack_u16 data 2; do lrowx <- unpack_u16 data 4;
  do fcolx <- unpack_u16 data 6; do lcolx <- unpack_u16 data 8;
  do _ <- guard (rcx =? XL_QUICKTIP) AssertionError;
  match rev (l_list l) with
  | [] => Err AssertionError
  | h :: before =>
      do _ <- guard ((frowx =? h_frowx h) && (lrowx =? h_lrowx h) && (fcolx =? h_fcolx h) && (lcolx =? h_lcolx h))
                AssertionError;
      do _ <- guard (list_eqb (py_from data (-2)) [0; 0]) AssertionError;
      do q <- utf16_dec (py_slice data 10 (-2));
      Ok (mk_links (rev before ++ [set_quicktip h q]) (l_map l))
  end.

(** ** OBJ *)

(** What the loop of sheet.py:1913-1957 does at one subrecord. *)
Inductive obj_outcome : Type :=
| ObjNone                                   (* return None *)
| ObjDone (id : option Z)                   (* return o; o.id may be unset *)
| ObjNext (id : option Z) (autofilter : Z) (pos : Z).

(** sheet.py:1913-1952.  Only the id and the autofilter flag of the object
    have an effect. *)
Definition obj_step (data : list Z) (pos : Z) (id : option Z) (autofilter : Z) : result obj_outcome :=
  let data_len := zlen data in
  do _ <- guard (zlen (py_slice data pos (pos + 4)) =? 4) StructError;
  do ft <- unpack_u16 data pos;
  do cb <- unpack_u16 data (pos + 2);
  if (pos =? 0) && negb ((ft =? 0x15) && (cb =? 18)) then Ok ObjNone else
  if ft =? 0x15 then
    do _ <- guard (pos =? 0) AssertionError;
    do _ <- guard (zlen (py_slice data (pos + 4) (pos + 10)) =? 6) StructError;
    do oid <- unpack_u16 data (pos + 6);
    do flags <- unpack_u16 data (pos + 8);
    Ok (ObjNext (Some oid) (Z.shiftr (Z.land flags 0x100) 8) (pos + cb + 4))
  else if ft =? 0 then
    if list_eqb (py_slice data pos data_len) (zrepeat 0 (data_len - pos)) then Ok (ObjDone id) else Err XLRDError
  else if ft =? 0x0C then
    do _ <- guard (zlen (py_slice data (pos + 8) (pos + 18)) =? 10) StructError;
    Ok (ObjNext id autofilter (pos + cb + 4))
  else if (ft =? 0x13) && negb (autofilter =? 0) then Ok (ObjDone id)
  else Ok (ObjNext id autofilter (pos + cb + 4)).

Fixpoint obj_loop (fuel : nat) (data : list Z) (pos : Z) (id : option Z) (autofilter : Z)
  : result (option (option Z)) :=
  match fuel with
  | O => Err OutOfFuel
  | S f =>
      if pos <? zlen data then
        do o <- obj_step data pos id autofilter;
        match o with
        | ObjNone => Ok None
        | ObjDone id => Ok (Some id)
        | ObjNext id autofilter pos => obj_loop f data pos id autofilter
        end
      else Ok (Some id)
  end.

(** sheet.py:1907-1961: [None], or the object with its id if it was set. *)
Definition handle_obj (bv : Z) (data : list Z) : result (option (option Z)) :=
  if bv <? 80 then Ok None else obj_loop (S (length data)) data 0 None 0.

(** ** TXO *)

(** sheet.py:2031-2045 *)
Fixpoint txo_text (rs : list record) (cchText totchars : Z) (text : list Z) : result (list Z * list record) :=
  if totchars <? cchText then
    match rs with
    | [] => Err StructError
    | (rc2, data2_len, data2) :: rs' =>
        do _ <- guard (rc2 =? XL_CONTINUE) AssertionError;
        do nb <- py_index data2 0;
        let nchars := data2_len - 1 in
        do nchars <- (if negb (nb =? 0)
                      then do _ <- guard (nchars mod 2 =? 0) AssertionError; Ok (nchars / 2)
                      else Ok nchars);
        do (utext, endpos) <- unpack_unicode_update_pos data2 0 2 (Some nchars);
        do _ <- guard (endpos =? data2_len) AssertionError;
        txo_text rs' cchText (totchars + nchars) (text ++ utext)
    end
  else Ok (text, rs).

(** sheet.py:2053-2056: the runs of one CONTINUE record. *)
Fixpoint runs_loop (k : nat) (data : list Z) (pos : Z) : result (list (Z * Z)) :=
  match k with
  | O => Ok []
  | S k' =>
      do _ <- guard (zlen (py_slice data pos (pos + 8)) =? 8) StructError;
      do a <- unpack_u16 data pos;
      do b <- unpack_u16 data (pos + 2);
      do r <- runs_loop k' data (pos + 8);
      Ok ((a, b) :: r)
  end.

(** sheet.py:2048-2056 *)
Fixpoint txo_runs (rs : list record) (cbRuns totruns : Z) (runs : list (Z * Z))
  : result (list (Z * Z) * list record) :=
  if totruns <? cbRuns then
    match rs with
    | [] => Err StructError
    | (rc3, data3_len, data3) :: rs' =>
        do _ <- guard (rc3 =? XL_CONTINUE) AssertionError;
        do _ <- guard (data3_len mod 8 =? 0) AssertionError;
        do new <- runs_loop (Z.to_nat (data3_len / 8)) data3 0;
        txo_runs rs' cbRuns (totruns + 8 * (data3_len / 8)) (runs ++ new)
    end
  else Ok (runs, rs).

(** sheet.py:2058-2059 on the reversed list. *)
Fixpoint drop_ends (cch : Z) (rev_runs : list (Z * Z)) : list (Z * Z) :=
  match rev_runs with
  | (ofs, f) :: r => if ofs =? cch then drop_ends cch r else rev_runs
  | [] => []
  end.

(** A text object: its text and runs (sheet.py:2014-2062); [None] before BIFF8.
    The alignment flags, rotation and formula are kept only in the object the
    sheet does not expose, and are left out. *)
Definition handle_txo (bv : Z) (data : list Z) (rs : list record)
  : result (option (list Z * list (Z * Z)) * list record) :=
  if bv <? 80 then Ok (None, rs) else
  do _ <- need data 16;
  do cchText <- unpack_u16 data 10;
  do cbRuns <- unpack_u16 data 12;
  do (text, rs) <- txo_text rs cchText 0 [];
  do (runs, rs) <- txo_runs rs cbRuns 0 [];
  Ok (Some (text, rev (drop_ends cchText (rev runs))), rs).

(** ** NOTE *)

Record note : Type := mk_note {
  n_rowx : Z; n_colx : Z;
  n_text : list Z;
  n_runs : list (Z * Z);
  n_show : Z; n_row_hidden : Z; n_col_hidden : Z;
  n_author : list Z;
  n_object_id : option Z;
}.

Section Notes.
(** [unicode(bytes, encoding)] for the workbook's encoding. *)
Variable decode : list Z -> result (list Z).

(** sheet.py:1976-1984 *)
Fixpoint note_pieces (rs : list record) (expected : Z) (acc : list Z) : result (list Z * list record) :=
  if 0 <? expected then
    match rs with
    | [] => Err StructError
    | (rc2, data2_len, data2) :: rs' =>
        do _ <- guard (rc2 =? XL_NOTE) AssertionError;
        do _ <- need data2 6;
        do dummy <- unpack_u16 data2 0;
        do nb <- unpack_u16 data2 4;
        do _ <- guard (dummy =? 0xFFFF) AssertionError;
        do _ <- guard (nb =? data2_len - 6) AssertionError;
        note_pieces rs' (expected - nb) (acc ++ py_from data2 6)
    end
  else if expected =? 0 then Ok (acc, rs) else Err AssertionError.

Definition notes : Type := list ((Z * Z) * note).

(** sheet.py:1963-2012 *)
Definition handle_note (bv : Z) (txos : list (Z * (list Z * list (Z * Z)))) (m : notes) (data : list Z) (rs : list record)
  : result (notes * list record) :=
  if bv <? 80 then
    do _ <- need data 6;
    do rowx <- unpack_u16 data 0;
    do colx <- unpack_u16 data 2;
    do expected <- unpack_u16 data 4;
    let nb := zlen data - 6 in
    do _ <- guard (nb <=? expected) AssertionError;
    do (raw, rs) <- note_pieces rs (expected - nb) (py_from data 6);
    do text <- decode raw;
    Ok (dset m (rowx, colx) (mk_note rowx colx text [(0, 0)] 0 0 0 [] None), rs)
  else
    do _ <- need data 8;
    do rowx <- unpack_u16 data 0;
    do colx <- unpack_u16 data 2;
    do option_flags <- unpack_u16 data 4;
    do object_id <- unpack_u16 data 6;
    do (author, endpos) <- unpack_unicode_update_pos data 8 2 None;
    let left := zlen data - endpos in
    do _ <- guard ((left =? 0) || (left =? 1)) AssertionError;
    match dget Z.eqb txos object_id with
    | None => Ok (m, rs)
    | Some (text, runs) =>
        Ok (dset m (rowx, colx)
              (mk_note rowx colx text runs
                 (Z.land (Z.shiftr option_flags 1) 1) (Z.land (Z.shiftr option_flags 7) 1)
                 (Z.land (Z.shiftr option_flags 8) 1) author (Some object_id)), rs)
    end.
End Notes.
