(** Model of xlrd.dump and xlrd.count_records, /repo/xlrd/__init__.py 188-213, once the file has
    been loaded: hex_char_dump, biff_dump and biff_count_records of /repo/xlrd/biffh.py 521-619.
    What is printed is the list of its lines.  If an exception comes after some lines were
    printed, only the exception is kept.  rc and length have 16 bits and bytes 8, so that
    '%04x' and '%02x' give four and two digits. *)
From Verif Require Import Base Text.

(** biffh.py:354-519: biff_rec_name_dict (its keys are all different) *)
Definition biff_rec_names : list (Z * list Z) :=
  [(0x0000, s2l "DIMENSIONS_B2"); (0x0001, s2l "BLANK_B2"); (0x0002, s2l "INTEGER_B2_ONLY"); (0x0003, s2l "NUMBER_B2");
   (0x0004, s2l "LABEL_B2"); (0x0005, s2l "BOOLERR_B2"); (0x0006, s2l "FORMULA"); (0x0007, s2l "STRING_B2");
   (0x0008, s2l "ROW_B2"); (0x0009, s2l "BOF_B2"); (0x000A, s2l "EOF"); (0x000B, s2l "INDEX_B2_ONLY"); (0x000C, s2l "CALCCOUNT");
   (0x000D, s2l "CALCMODE"); (0x000E, s2l "PRECISION"); (0x000F, s2l "REFMODE"); (0x0010, s2l "DELTA");
   (0x0011, s2l "ITERATION"); (0x0012, s2l "PROTECT"); (0x0013, s2l "PASSWORD"); (0x0014, s2l "HEADER"); (0x0015, s2l "FOOTER");
   (0x0016, s2l "EXTERNCOUNT"); (0x0017, s2l "EXTERNSHEET"); (0x0018, s2l "NAME_B2,5+"); (0x0019, s2l "WINDOWPROTECT");
   (0x001A, s2l "VERTICALPAGEBREAKS"); (0x001B, s2l "HORIZONTALPAGEBREAKS"); (0x001C, s2l "NOTE"); (0x001D, s2l "SELECTION");
   (0x001E, s2l "FORMAT_B2-3"); (0x001F, s2l "BUILTINFMTCOUNT_B2"); (0x0020, s2l "COLUMNDEFAULT_B2_ONLY");
   (0x0021, s2l "ARRAY_B2_ONLY"); (0x0022, s2l "DATEMODE"); (0x0023, s2l "EXTERNNAME"); (0x0024, s2l "COLWIDTH_B2_ONLY");
   (0x0025, s2l "DEFAULTROWHEIGHT_B2_ONLY"); (0x0026, s2l "LEFTMARGIN"); (0x0027, s2l "RIGHTMARGIN"); (0x0028, s2l "TOPMARGIN");
   (0x0029, s2l "BOTTOMMARGIN"); (0x002A, s2l "PRINTHEADERS"); (0x002B, s2l "PRINTGRIDLINES"); (0x002F, s2l "FILEPASS");
   (0x0031, s2l "FONT"); (0x0032, s2l "FONT2_B2_ONLY"); (0x0036, s2l "TABLEOP_B2"); (0x0037, s2l "TABLEOP2_B2");
   (0x003C, s2l "CONTINUE"); (0x003D, s2l "WINDOW1"); (0x003E, s2l "WINDOW2_B2"); (0x0040, s2l "BACKUP"); (0x0041, s2l "PANE");
   (0x0042, s2l "CODEPAGE"); (0x0043, s2l "XF_B2"); (0x0044, s2l "IXFE_B2_ONLY"); (0x0045, s2l "EFONT_B2_ONLY");
   (0x004D, s2l "PLS"); (0x0051, s2l "DCONREF"); (0x0055, s2l "DEFCOLWIDTH"); (0x0056, s2l "BUILTINFMTCOUNT_B3-4");
   (0x0059, s2l "XCT"); (0x005A, s2l "CRN"); (0x005B, s2l "FILESHARING"); (0x005C, s2l "WRITEACCESS"); (0x005D, s2l "OBJECT");
   (0x005E, s2l "UNCALCED"); (0x005F, s2l "SAVERECALC"); (0x0063, s2l "OBJECTPROTECT"); (0x007D, s2l "COLINFO");
   (0x007E, s2l "RK2_mythical_?"); (0x0080, s2l "GUTS"); (0x0081, s2l "WSBOOL"); (0x0082, s2l "GRIDSET");
   (0x0083, s2l "HCENTER"); (0x0084, s2l "VCENTER"); (0x0085, s2l "BOUNDSHEET"); (0x0086, s2l "WRITEPROT");
   (0x008C, s2l "COUNTRY"); (0x008D, s2l "HIDEOBJ"); (0x008E, s2l "SHEETSOFFSET"); (0x008F, s2l "SHEETHDR");
   (0x0090, s2l "SORT"); (0x0092, s2l "PALETTE"); (0x0099, s2l "STANDARDWIDTH"); (0x009B, s2l "FILTERMODE");
   (0x009C, s2l "FNGROUPCOUNT"); (0x009D, s2l "AUTOFILTERINFO"); (0x009E, s2l "AUTOFILTER"); (0x00A0, s2l "SCL");
   (0x00A1, s2l "SETUP"); (0x00AB, s2l "GCW"); (0x00BD, s2l "MULRK"); (0x00BE, s2l "MULBLANK"); (0x00C1, s2l "MMS");
   (0x00D6, s2l "RSTRING"); (0x00D7, s2l "DBCELL"); (0x00DA, s2l "BOOKBOOL"); (0x00DD, s2l "SCENPROTECT"); (0x00E0, s2l "XF");
   (0x00E1, s2l "INTERFACEHDR"); (0x00E2, s2l "INTERFACEEND"); (0x00E5, s2l "MERGEDCELLS"); (0x00E9, s2l "BITMAP");
   (0x00EB, s2l "MSO_DRAWING_GROUP"); (0x00EC, s2l "MSO_DRAWING"); (0x00ED, s2l "MSO_DRAWING_SELECTION");
   (0x00EF, s2l "PHONETIC"); (0x00FC, s2l "SST"); (0x00FD, s2l "LABELSST"); (0x00FF, s2l "EXTSST"); (0x013D, s2l "TABID");
   (0x015F, s2l "LABELRANGES"); (0x0160, s2l "USESELFS"); (0x0161, s2l "DSF"); (0x01AE, s2l "SUPBOOK");
   (0x01AF, s2l "PROTECTIONREV4"); (0x01B0, s2l "CONDFMT"); (0x01B1, s2l "CF"); (0x01B2, s2l "DVAL"); (0x01B6, s2l "TXO");
   (0x01B7, s2l "REFRESHALL"); (0x01B8, s2l "HLINK"); (0x01BC, s2l "PASSWORDREV4"); (0x01BE, s2l "DV"); (0x01C0, s2l "XL9FILE");
   (0x01C1, s2l "RECALCID"); (0x0200, s2l "DIMENSIONS"); (0x0201, s2l "BLANK"); (0x0203, s2l "NUMBER"); (0x0204, s2l "LABEL");
   (0x0205, s2l "BOOLERR"); (0x0206, s2l "FORMULA_B3"); (0x0207, s2l "STRING"); (0x0208, s2l "ROW"); (0x0209, s2l "BOF");
   (0x020B, s2l "INDEX_B3+"); (0x0218, s2l "NAME"); (0x0221, s2l "ARRAY"); (0x0223, s2l "EXTERNNAME_B3-4");
   (0x0225, s2l "DEFAULTROWHEIGHT"); (0x0231, s2l "FONT_B3B4"); (0x0236, s2l "TABLEOP"); (0x023E, s2l "WINDOW2");
   (0x0243, s2l "XF_B3"); (0x027E, s2l "RK"); (0x0293, s2l "STYLE"); (0x0406, s2l "FORMULA_B4"); (0x0409, s2l "BOF");
   (0x041E, s2l "FORMAT"); (0x0443, s2l "XF_B4"); (0x04BC, s2l "SHRFMLA"); (0x0800, s2l "QUICKTIP"); (0x0809, s2l "BOF");
   (0x0862, s2l "SHEETLAYOUT"); (0x0867, s2l "SHEETPROTECTION"); (0x0868, s2l "RANGEPROTECTION")].
Definition rec_name (rc : Z) : option (list Z) := option_map snd (find (fun p => fst p =? rc) biff_rec_names).

(** '%x' digits, lower or upper case *)
Definition hexdigit (ten : Z) (n : Z) : Z := if n <? 10 then 48 + n else ten + (n - 10).
Definition fmt_02x (n : Z) : list Z := [hexdigit 97 (n / 16); hexdigit 97 (n mod 16)].
Definition fmt_04 (ten : Z) (n : Z) : list Z :=
  [hexdigit ten (n / 4096 mod 16); hexdigit ten (n / 256 mod 16); hexdigit ten (n / 16 mod 16); hexdigit ten (n mod 16)].
Definition fmt_04x := fmt_04 97.
Definition fmt_04X := fmt_04 65.
(** '%<w>s' and '%-<w>s' *)
Definition pad_left (w : Z) (t : list Z) : list Z := zrepeat 32 (w - zlen t) ++ t.
Definition pad_right (w : Z) (t : list Z) : list Z := t ++ zrepeat 32 (w - zlen t).

(** biffh.py:546-547, 575-576, 580-581, 587-588, 591-592: "%5d: " or nothing *)
Definition num_prefix (numbered : bool) (n : Z) : list Z := if numbered then pad_left 5 (fmt_d n) ++ s2l ": " else [].

(** biffh.py:540-544 *)
Definition char_of (b : Z) : Z := if b =? 0 then 126 else if (32 <=? b) && (b <=? 126) then b else 63.

(** biffh.py:536-549 *)
Definition hex_line (numbered : bool) (n : Z) (sub : list Z) : list Z :=
  num_prefix numbered n ++ s2l "     " ++ pad_right 48 (flat_map (fun b => fmt_02x b ++ [32]) sub) ++ s2l " " ++ map char_of sub.

(** biffh.py:526-550.  The message of lines 531-534 goes to standard output and is left out. *)
Fixpoint hex_loop (fuel : nat) (strg : list Z) (ofs base endpos : Z) (numbered : bool) (pos : Z) : result (list (list Z)) :=
  match fuel with
  | O => Err OutOfFuel
  | S f =>
      if pos <? endpos then
        let endsub := Z.min (pos + 16) endpos in
        let sub := py_slice strg pos endsub in
        let lensub := endsub - pos in
        if (lensub <=? 0) || negb (lensub =? zlen sub) then Ok [] else
        do r <- hex_loop f strg ofs base endpos numbered endsub;
        Ok (hex_line numbered (base + pos - ofs) sub :: r)
      else Ok []
  end.

(** biffh.py:521-525 *)
Definition hex_char_dump (strg : list Z) (ofs dlen base : Z) (numbered : bool) : result (list (list Z)) :=
  let endpos := Z.min (ofs + dlen) (zlen strg) in
  hex_loop (S (Z.to_nat (endpos - ofs))) strg ofs base endpos numbered ofs.

(** biffh.py:577 and 589: the line for zero bytes; 579-582: for a record; 593 and 596: at the end *)
Definition zero_line (numbered : bool) (n count : Z) : list Z :=
  num_prefix numbered n ++ s2l "---- " ++ fmt_d count ++ s2l " zero bytes skipped ----".
Definition rec_line (numbered : bool) (n rc length : Z) : list Z :=
  let name := match rec_name rc with Some t => t | None => s2l "<UNKNOWN>" end in
  num_prefix numbered n ++ fmt_04x rc ++ s2l " " ++ name ++ s2l " len = " ++ fmt_04x length ++ s2l " (" ++ fmt_d length ++ s2l ")".
Definition misc_line (numbered : bool) (n : Z) : list Z := num_prefix numbered n ++ s2l "---- Misc bytes at end ----".
Definition large_line (length : Z) : list Z := s2l "Last dumped record has length (" ++ fmt_d length ++ s2l ") that is too large".

(** biffh.py:586-596 *)
Definition dump_end (mem : list Z) (stream_end adj : Z) (numbered : bool) (pos dummies savpos length : Z) : result (list (list Z)) :=
  let zl := if dummies =? 0 then [] else [zero_line numbered (adj + savpos) dummies] in
  do tl <- (if pos <? stream_end then
              do h <- hex_char_dump mem pos (stream_end - pos) (adj + pos) numbered; Ok (misc_line numbered (adj + pos) :: h)
            else if pos >? stream_end then Ok [large_line length] else Ok []);
  Ok (zl ++ tl).

(** biffh.py:559-585.  [length] is not bound before the first record; it is only used after one. *)
Fixpoint dump_loop (fuel : nat) (mem : list Z) (stream_end adj : Z) (numbered : bool) (pos dummies savpos length : Z) : result (list (list Z)) :=
  match fuel with
  | O => Err OutOfFuel
  | S f =>
      if stream_end - pos >=? 4 then
        do rc <- unpack_u16 mem pos;
        do length <- unpack_u16 mem (pos + 2);
        if (rc =? 0) && (length =? 0) then
          if list_eqb (py_from mem pos) (zrepeat 0 (stream_end - pos)) then
            dump_end mem stream_end adj numbered stream_end (stream_end - pos) pos length
          else if dummies =? 0 then dump_loop f mem stream_end adj numbered (pos + 4) 4 pos length
          else dump_loop f mem stream_end adj numbered (pos + 4) (dummies + 4) savpos length
        else
          let zl := if dummies =? 0 then [] else [zero_line numbered (adj + savpos) dummies] in
          do h <- hex_char_dump mem (pos + 4) length (adj + (pos + 4)) numbered;
          do r <- dump_loop f mem stream_end adj numbered (pos + 4 + length) 0 savpos length;
          Ok (zl ++ rec_line numbered (adj + pos) rc length :: h ++ r)
      else dump_end mem stream_end adj numbered pos dummies savpos length
  end.

(** biffh.py:552-558 *)
Definition biff_dump (mem : list Z) (stream_offset stream_len base : Z) (unnumbered : bool) : result (list (list Z)) :=
  dump_loop (S (Z.to_nat stream_len)) mem (stream_offset + stream_len) (base - stream_offset) (negb unnumbered) stream_offset 0 0 0.

(** biffh.py:604-611 *)
Definition tally_name (rc length : Z) : list Z :=
  if (rc =? 0) && (length =? 0) then s2l "<Dummy (zero)>" else
  match rec_name rc with Some t => t | None => s2l "Unknown_0x" ++ fmt_04X rc end.

(** biffh.py:612-615: the tally as an association list, one entry for each name *)
Fixpoint count_one (name : list Z) (t : list (list Z * Z)) : list (list Z * Z) :=
  match t with
  | [] => [(name, 1)]
  | (n, k) :: r => if list_eqb n name then (n, k + 1) :: r else (n, k) :: count_one name r
  end.

(** biffh.py:602-616 *)
Fixpoint count_loop (fuel : nat) (mem : list Z) (stream_end pos : Z) (tally : list (list Z * Z)) : result (list (list Z * Z)) :=
  match fuel with
  | O => Err OutOfFuel
  | S f =>
      if stream_end - pos >=? 4 then
        do rc <- unpack_u16 mem pos;
        do length <- unpack_u16 mem (pos + 2);
        if (rc =? 0) && (length =? 0) && list_eqb (py_from mem pos) (zrepeat 0 (stream_end - pos)) then Ok tally else
        count_loop f mem stream_end (pos + (length + 4)) (count_one (tally_name rc length) tally)
      else Ok tally
  end.

(** Comparison of texts, code point by code point *)
Fixpoint text_leb (a b : list Z) : bool :=
  match a, b with
  | [], _ => true
  | _ :: _, [] => false
  | x :: a', y :: b' => (x <? y) || (x =? y) && text_leb a' b'
  end.
(** biffh.py:617: sorted(tally.items()); the names are all different, so only they are compared *)
Fixpoint insert_name (x : list Z * Z) (l : list (list Z * Z)) : list (list Z * Z) :=
  match l with [] => [x] | y :: r => if text_leb (fst x) (fst y) then x :: l else y :: insert_name x r end.
Definition sort_names (l : list (list Z * Z)) : list (list Z * Z) := fold_right insert_name [] l.

(** biffh.py:598-619 *)
Definition biff_count_records (mem : list Z) (stream_offset stream_len : Z) : result (list (list Z)) :=
  do t <- count_loop (S (Z.to_nat stream_len)) mem (stream_offset + stream_len) stream_offset [];
  Ok (map (fun p => pad_left 8 (fmt_d (snd p)) ++ s2l " " ++ fst p) (sort_names t)).
