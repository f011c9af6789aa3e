(** Model of the naming functions: /repo/xlrd/book.py:1368-1376 and
    /repo/xlrd/formula.py:408-470, 2050-2188. *)
From Verif Require Import Base Text.

Definition A2Z : list Z := s2l "ABCDEFGHIJKLMNOPQRSTUVWXYZ".

(** book.py:1368-1376, the loop; [name] is the text built so far. *)
Fixpoint book_colname_loop (fuel : nat) (colx : Z) (name : list Z) : result (list Z) :=
  match fuel with
  | O => Err OutOfFuel
  | S f =>
      let quot := colx / 26 in
      let rem := colx mod 26 in
      do ch <- py_index A2Z rem;
      let name := ch :: name in
      if quot =? 0 then Ok name else book_colname_loop f (quot - 1) name
  end.

Definition book_colname (colx : Z) : result (list Z) :=
  if negb (colx >=? 0) then Err AssertionError
  else book_colname_loop (S (Z.to_nat (Z.log2 (colx + 1)))) colx [].

(** formula.py:2100-2107 *)
Definition colname (colx : Z) : result (list Z) :=
  if colx <=? 25 then do c <- py_index A2Z colx; Ok [c]
  else
    let xdiv26 := colx / 26 in
    let xmod26 := colx mod 26 in
    do a <- py_index A2Z (xdiv26 - 1);
    do b <- py_index A2Z xmod26;
    Ok [a; b].

(** formula.py:2078-2080 *)
Definition cellname (rowx colx : Z) : result (list Z) :=
  do c <- colname colx; Ok (c ++ fmt_d (rowx + 1)).

(** formula.py:2082-2086 *)
Definition cellnameabs (rowx colx : Z) (r1c1 : bool) : result (list Z) :=
  if r1c1 then Ok (s2l "R" ++ fmt_d (rowx + 1) ++ s2l "C" ++ fmt_d (colx + 1))
  else do c <- colname colx; Ok (s2l "$" ++ c ++ s2l "$" ++ fmt_d (rowx + 1)).

(** formula.py:2050-2062.  [browx] is None or an int. *)
Definition rownamerel (rowx : Z) (rowxrel : bool) (browx : option Z) (r1c1 : bool) : result (list Z) :=
  let r1c1 := match browx with None => true | Some _ => r1c1 end in
  if negb rowxrel then
    if r1c1 then Ok (s2l "R" ++ fmt_d (rowx + 1)) else Ok (s2l "$" ++ fmt_d (rowx + 1))
  else if r1c1 then
    if negb (rowx =? 0) then Ok (s2l "R[" ++ fmt_d rowx ++ s2l "]") else Ok (s2l "R")
  else match browx with
       | Some b => Ok (fmt_d ((b + rowx) mod 65536 + 1))
       | None => Err TypeError
       end.

(** formula.py:2064-2076 *)
Definition colnamerel (colx : Z) (colxrel : bool) (bcolx : option Z) (r1c1 : bool) : result (list Z) :=
  let r1c1 := match bcolx with None => true | Some _ => r1c1 end in
  if negb colxrel then
    if r1c1 then Ok (s2l "C" ++ fmt_d (colx + 1)) else do c <- colname colx; Ok (s2l "$" ++ c)
  else if r1c1 then
    if negb (colx =? 0) then Ok (s2l "C[" ++ fmt_d colx ++ s2l "]") else Ok (s2l "C")
  else match bcolx with
       | Some b => colname ((b + colx) mod 256)
       | None => Err TypeError
       end.

Definition is_none {A} (o : option A) : bool := match o with None => true | _ => false end.

(** formula.py:2088-2098 *)
Definition cellnamerel (rowx colx : Z) (rowxrel colxrel : bool) (browx bcolx : option Z) (r1c1 : bool)
  : result (list Z) :=
  if negb rowxrel && negb colxrel then cellnameabs rowx colx r1c1 else
  let r1c1 := if (rowxrel && is_none browx) || (colxrel && is_none bcolx) then true else r1c1 in
  do c <- colnamerel colx colxrel bcolx r1c1;
  do r <- rownamerel rowx rowxrel browx r1c1;
  if r1c1 then Ok (r ++ c) else Ok (c ++ r).

(** formula.py:2109-2115; the bare [return] of line 2112 is [None]. *)
Definition rangename2d (rlo rhi clo chi : Z) (r1c1 : bool) : result (option (list Z)) :=
  if r1c1 then Ok None else
  if (rhi =? rlo + 1) && (chi =? clo + 1) then do a <- cellnameabs rlo clo r1c1; Ok (Some a)
  else
    do a <- cellnameabs rlo clo r1c1;
    do b <- cellnameabs (rhi - 1) (chi - 1) r1c1;
    Ok (Some (a ++ s2l ":" ++ b)).

(** formula.py:2117-2127 *)
Definition rangename2drel (rlo rhi clo chi : Z) (rlorel rhirel clorel chirel : bool)
    (browx bcolx : option Z) (r1c1 : bool) : result (list Z) :=
  let r1c1 := if (rlorel || rhirel) && is_none browx then true else r1c1 in
  let r1c1 := if (clorel || chirel) && is_none bcolx then true else r1c1 in
  do a <- cellnamerel rlo clo rlorel clorel browx bcolx r1c1;
  do b <- cellnamerel (rhi - 1) (chi - 1) rhirel chirel browx bcolx r1c1;
  Ok (a ++ s2l ":" ++ b).

(** formula.py:408-423.  [browx], [bcolx] as ints; [None] (the default) is an
    option and raises TypeError when used. *)
Definition sub_base (v : Z) (b : option Z) : result Z :=
  match b with Some x => Ok (v - x) | None => Err TypeError end.

Definition adjust_cell_addr_biff8 (rowval colval : Z) (reldelta : bool) (browx bcolx : option Z)
  : result (Z * Z * bool * bool) :=
  let row_rel := Z.testbit colval 15 in
  let col_rel := Z.testbit colval 14 in
  let rowx := rowval in
  let colx := Z.land colval 255 in
  if reldelta then
    let rowx := if row_rel && (rowx >=? 32768) then rowx - 65536 else rowx in
    let colx := if col_rel && (colx >=? 128) then colx - 256 else colx in
    Ok (rowx, colx, row_rel, col_rel)
  else
    do rowx <- (if row_rel then sub_base rowx browx else Ok rowx);
    do colx <- (if col_rel then sub_base colx bcolx else Ok colx);
    Ok (rowx, colx, row_rel, col_rel).

(** formula.py:425-441 *)
Definition adjust_cell_addr_biff_le7 (rowval colval : Z) (reldelta : bool) (browx bcolx : option Z)
  : result (Z * Z * bool * bool) :=
  let row_rel := Z.testbit rowval 15 in
  let col_rel := Z.testbit rowval 14 in
  let rowx := Z.land rowval 16383 in
  let colx := colval in
  if reldelta then
    let rowx := if row_rel && (rowx >=? 8192) then rowx - 16384 else rowx in
    let colx := if col_rel && (colx >=? 128) then colx - 256 else colx in
    Ok (rowx, colx, row_rel, col_rel)
  else
    do rowx <- (if row_rel then sub_base rowx browx else Ok rowx);
    do colx <- (if col_rel then sub_base colx bcolx else Ok colx);
    Ok (rowx, colx, row_rel, col_rel).

(** formula.py:443-452 *)
Definition get_cell_addr (data : list Z) (pos bv : Z) (reldelta : bool) (browx bcolx : option Z)
  : result (Z * Z * bool * bool) :=
  if bv >=? 80 then
    if zlen (py_slice data pos (pos + 4)) =? 4 then
      do rowval <- unpack_u16 data pos; do colval <- unpack_u16 data (pos + 2);
      adjust_cell_addr_biff8 rowval colval reldelta browx bcolx
    else Err StructError
  else
    if zlen (py_slice data pos (pos + 3)) =? 3 then
      do rowval <- unpack_u16 data pos; do colval <- unpack_le 1 data (pos + 2);
      adjust_cell_addr_biff_le7 rowval colval reldelta browx bcolx
    else Err StructError.

(** formula.py:454-470 *)
Definition get_cell_range_addr (data : list Z) (pos bv : Z) (reldelta : bool) (browx bcolx : option Z)
  : result ((Z * Z * bool * bool) * (Z * Z * bool * bool)) :=
  if bv >=? 80 then
    if zlen (py_slice data pos (pos + 8)) =? 8 then
      do r1 <- unpack_u16 data pos; do r2 <- unpack_u16 data (pos + 2);
      do c1 <- unpack_u16 data (pos + 4); do c2 <- unpack_u16 data (pos + 6);
      do res1 <- adjust_cell_addr_biff8 r1 c1 reldelta browx bcolx;
      do res2 <- adjust_cell_addr_biff8 r2 c2 reldelta browx bcolx;
      Ok (res1, res2)
    else Err StructError
  else
    if zlen (py_slice data pos (pos + 6)) =? 6 then
      do r1 <- unpack_u16 data pos; do r2 <- unpack_u16 data (pos + 2);
      do c1 <- unpack_le 1 data (pos + 4); do c2 <- unpack_le 1 data (pos + 5);
      do res1 <- adjust_cell_addr_biff_le7 r1 c1 reldelta browx bcolx;
      do res2 <- adjust_cell_addr_biff_le7 r2 c2 reldelta browx bcolx;
      Ok (res1, res2)
    else Err StructError.

(** [c in s] for a character. *)
Definition has_char (c : Z) (s : list Z) : bool := existsb (Z.eqb c) s.

(** [s.replace("'", "''")] *)
Fixpoint double_quotes (s : list Z) : list Z :=
  match s with
  | [] => []
  | c :: r => if c =? 39 then 39 :: 39 :: double_quotes r else c :: double_quotes r
  end.

(** formula.py:2159-2173 *)
Definition quotedsheetname (shnames : list (list Z)) (shx : Z) : result (list Z) :=
  do shname <-
    (if shx >=? 0 then py_index shnames shx
     else Ok (if shx =? -1 then s2l "?internal; any sheet?"
              else if shx =? -2 then s2l "internal; deleted sheet"
              else if shx =? -3 then s2l "internal; macro sheet"
              else if shx =? -4 then s2l "<<external>>"
              else s2l "?error " ++ fmt_d shx ++ s2l "?"));
  if has_char 39 shname then Ok ([39] ++ double_quotes shname ++ [39]) else
  if has_char 32 shname then Ok ([39] ++ shname ++ [39]) else
  Ok shname.

(** formula.py:2175-2180; [shnames] is book.sheet_names(). *)
Definition sheetrange (shnames : list (list Z)) (slo shi : Z) : result (list Z) :=
  do shdesc <- quotedsheetname shnames slo;
  if negb (slo =? shi - 1) then
    do b <- quotedsheetname shnames (shi - 1); Ok (shdesc ++ s2l ":" ++ b)
  else Ok shdesc.

(** formula.py:2182-2188 *)
Definition sheetrangerel (shnames : list (list Z)) (slo shi : Z) (slorel shirel : bool) : result (list Z) :=
  if negb slorel && negb shirel then sheetrange shnames slo shi
  else if (slo =? 0) && (0 =? shi - 1) && slorel && shirel then Ok []
  else Err AssertionError.
