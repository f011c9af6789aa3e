(** Model of decompile_formula, /repo/xlrd/formula.py:1360-1883: a formula's bytes
    to its text.  Console output is left out.  Operands carry no value here except
    the add-in name of line 1845, which nothing reads; they are kind, rank and text.
    Line 1549 puts the number oERR on the stack instead of an operand: [DNumber]. *)
From Verif Require Import Base Text CellNames Utf16 Strings GridModel SheetObjects FormulaTables FormulaModel.

Section Decompile.
Context {N : Type}.
Variable ops : numops N.
Variable e : fenv.
Variable names : list (list Z * option Z).        (* name and scope of each defined name *)

Record dop : Type := mk_dop { d_kind : okind; d_rank : Z; d_text : list Z }.
Inductive ditem : Type := DOp (o : dop) | DNumber.

(** Attribute access on a stack item *)
Definition item_op (i : ditem) : result dop :=
  match i with DOp o => Ok o | DNumber => Err AttributeError end.

(** formula.py:1378-1379 *)
Definition d_unk : ditem := DOp (mk_dop oUNK 0 (s2l "?")).
Definition d_error : ditem := DOp (mk_dop oERR 0 (s2l "?")).

(** formula.py:39-45 *)
Definition FMLA_TYPE_CELL : Z := 1.
Definition FMLA_TYPE_SHARED : Z := 2.
Definition FMLA_TYPE_ARRAY : Z := 4.
Definition FMLA_TYPE_COND_FMT : Z := 8.
Definition FMLA_TYPE_DATA_VAL : Z := 16.
Definition FMLA_TYPE_NAME : Z := 32.

(** formula.py:57-71 *)
Definition token_not_allowed (opx : Z) : Z :=
  if opx =? 0x01 then 62
  else if opx =? 0x02 then 62
  else if (opx =? 0x0F) || (opx =? 0x10) || (opx =? 0x11) || (opx =? 0x20) then 26
  else if opx =? 0x23 then 2
  else if (opx =? 0x39) || (opx =? 0x3A) || (opx =? 0x3B) then 26
  else if (opx =? 0x2C) || (opx =? 0x2D) then 5
  else 0.

(** formula.py:1412-1416: only a message, but the type must have a description. *)
Definition unexpected_opcode (fmlatype : Z) : result unit :=
  guard ((fmlatype =? 1) || (fmlatype =? 2) || (fmlatype =? 4) || (fmlatype =? 8)
         || (fmlatype =? 16) || (fmlatype =? 32)) KeyError.

(** formula.py:1387-1395 *)
Definition d_infix (rank : Z) (sym : list Z) (aop bop : dop) : list Z :=
  paren (d_rank aop <? rank) (d_text aop) ++ sym ++ paren (d_rank bop <? rank) (d_text bop).

(** formula.py:1382-1397 *)
Definition d_binop (opcode : Z) (stk : list ditem) : result (list ditem) :=
  match stk with
  | b :: a :: stk =>
      match binop_rule opcode with
      | None => Err KeyError
      | Some (kind, rank, sym) =>
          do aop <- item_op a;
          do bop <- item_op b;
          Ok (DOp (mk_dop kind rank (d_infix rank sym aop bop)) :: stk)
      end
  | _ => Err AssertionError
  end.

(** formula.py:1399-1410 *)
Definition d_unaryop (opcode : Z) (stk : list ditem) : result (list ditem) :=
  match stk with
  | a :: stk =>
      match unop_rule opcode with
      | None => Err KeyError
      | Some (rank, sym1, sym2) =>
          do aop <- item_op a;
          Ok (DOp (mk_dop oNUM rank (sym1 ++ paren (d_rank aop <? rank) (d_text aop) ++ sym2)) :: stk)
      end
  | [] => Err AssertionError
  end.

Definition d_either (k : okind) (a b : dop) : bool := okind_eqb (d_kind b) k || okind_eqb (d_kind a) k.
Definition d_both (k : okind) (a b : dop) : bool := okind_eqb (d_kind b) k && okind_eqb (d_kind a) k.
Definition d_ref (o : dop) : bool := okind_eqb (d_kind o) oREF || okind_eqb (d_kind o) oREL.

(** formula.py:1459-1497 (tIsect), 1498-1525 (tList), 1526-1554 (tRange). *)
Definition d_refop (opcode : Z) (stk : list ditem) : result (list ditem) :=
  match stk with
  | b :: a :: stk =>
      do aop <- item_op a;
      do bop <- item_op b;
      if opcode =? 0x0F then
        let text := d_infix 80 (s2l " ") aop bop in
        let kind := if d_either oERR aop bop then oERR
                    else if d_either oUNK aop bop then oREF
                    else if d_both oREF aop bop then oREF
                    else if d_both oREL aop bop then oREL else oREF in
        Ok (DOp (mk_dop kind 0 text) :: stk)
      else if opcode =? 0x10 then
        let text := d_infix 80 (s2l ",") aop bop in
        let kind := if d_either oERR aop bop then oERR
                    else if d_ref bop && d_ref aop then
                      if okind_eqb (d_kind aop) oREL || okind_eqb (d_kind bop) oREL then oREL else oREF
                    else oREF in
        Ok (DOp (mk_dop kind 80 text) :: stk)
      else
        let text := d_infix 80 (s2l ":") aop bop in
        if d_either oERR aop bop then Ok (DNumber :: stk)
        else Ok (DOp (mk_dop oREF 80 text) :: stk)
  | _ => Err AssertionError
  end.

(** [listsep.join(arg.text for arg in ...)] *)
Definition item_text (i : ditem) : result (list Z) := do o <- item_op i; Ok (d_text o).
Definition d_call (name : list Z) (nargs : Z) (stk : list ditem) : result (list ditem) :=
  do ts <- mapM item_text (last_args nargs stk);
  Ok (DOp (mk_dop oUNK FUNC_RANK (name ++ s2l "(" ++ join_comma ts ++ s2l ")")) :: drop_args nargs stk).

(** formula.py:1614-1632 *)
Definition d_func (funcx : Z) (stk : list ditem) : result (list ditem) :=
  match dget Z.eqb func_defs funcx with
  | None => Ok (d_unk :: stk)
  | Some (name, nargs, _) =>
      do _ <- guard (zlen stk >=? nargs) AssertionError;
      if negb (nargs =? 0) then d_call name nargs stk
      else Ok (DOp (mk_dop oUNK FUNC_RANK (name ++ s2l "()")) :: stk)
  end.

(** formula.py:1642-1664 *)
Definition d_funcvar (nargs funcx : Z) (stk : list ditem) : result (list ditem) :=
  match (if funcx =? 255 then Some (s2l "CALL_ADDIN", 1, 30) else dget Z.eqb func_defs funcx) with
  | None => Ok (d_unk :: stk)
  | Some (name, minargs, maxargs) =>
      do _ <- guard ((minargs <=? nargs) && (nargs <=? maxargs)) AssertionError;
      do _ <- guard (zlen stk >=? nargs) AssertionError;
      d_call name nargs stk
  end.

(** formula.py:1670-1674, 1851-1856 *)
Definition d_name (tgtnamex : Z) : result (list Z) :=
  do (name, scope) <- py_index names tgtnamex;
  match scope with
  | None => Err TypeError
  | Some scope =>
      if scope =? -1 then Ok name
      else do sh <- py_index (fe_sheets e) scope; Ok (sh ++ s2l "!" ++ name)
  end.

(** formula.py:1443-1610 *)
Definition d_plain (fmlatype : Z) (data : list Z) (fmlalen pos opcode sz : Z) (stk : list ditem)
  : result (list ditem * Z) :=
  if opcode <=? 0x01 then
    do _ <- guard ((pos =? 0) && (fmlalen =? sz) && (zlen stk =? 0)) AssertionError;
    do _ <- guard (zlen data =? (if fe_bv e >=? 30 then 5 else 4)) StructError;
    do rowx <- unpack_u16 data 1;
    do colx <- (if fe_bv e >=? 30 then unpack_u16 data 3 else unpack_le 1 data 3);
    do _ <- (if Z.land fmlatype 5 =? 0 then unexpected_opcode fmlatype else Ok tt);
    Ok (DOp (mk_dop oUNK LEAF_RANK (s2l "SHARED FMLA at rowx=" ++ fmt_d rowx ++ s2l " colx=" ++ fmt_d colx)) :: stk, sz)
  else if opcode =? 0x02 then Err FormulaError
  else if opcode <=? 0x0E then do k <- d_binop opcode stk; Ok (k, sz)
  else if opcode <=? 0x11 then do k <- d_refop opcode stk; Ok (k, sz)
  else if opcode <=? 0x14 then do k <- d_unaryop opcode stk; Ok (k, sz)
  else if opcode =? 0x15 then Ok (stk, sz)
  else if opcode =? 0x16 then Ok (DOp (mk_dop oMSNG LEAF_RANK []) :: stk, sz)
  else if opcode =? 0x17 then
    do (strg, sz) <- read_str e data pos;
    Ok (DOp (mk_dop oSTRG LEAF_RANK (quoted strg)) :: stk, sz)
  else if opcode =? 0x18 then
    do _ <- guard (fe_bv e >=? 80) AssertionError; Err FormulaError
  else if opcode =? 0x19 then
    do _ <- guard (zlen (py_slice data (pos + 1) (pos + 4)) =? 3) StructError;
    do subop <- unpack_le 1 data (pos + 1);
    do nc <- unpack_u16 data (pos + 2);
    if subop =? 0x04 then Ok (stk, nc * 2 + 6)
    else if subop =? 0x10 then
      match stk with
      | a :: k =>
          do t <- item_text a;
          Ok (DOp (mk_dop oNUM FUNC_RANK (s2l "SUM(" ++ t ++ s2l ")")) :: k, 4)
      | [] => Err AssertionError
      end
    else Ok (stk, 4)
  else if opcode <=? 0x1B then
    do _ <- guard (fe_bv e <? 50) AssertionError; Err FormulaError
  else
    do (kind, v, text) <- read_const ops opcode data pos;
    Ok (DOp (mk_dop kind LEAF_RANK text) :: stk, sz).

(** formula.py:1681-1689, 1716-1724 *)
Definition d_cell (data : list Z) (pos : Z) (reldelta : bool) (browx bcolx : option Z) (r1c1 : bool) : result ditem :=
  do (rowx, colx, row_rel, col_rel) <- get_cell_addr data (pos + 1) (fe_bv e) reldelta browx bcolx;
  do t <- cellnamerel rowx colx row_rel col_rel browx bcolx r1c1;
  Ok (DOp (mk_dop (if row_rel || col_rel then oREL else oREF) LEAF_RANK t)).

(** formula.py:1691-1706, 1730-1744 *)
Definition d_area (data : list Z) (pos : Z) (reldelta : bool) (browx bcolx : option Z) (r1c1 : bool) : result ditem :=
  do ((rowx1, colx1, row_rel1, col_rel1), (rowx2, colx2, row_rel2, col_rel2))
     <- get_cell_range_addr data (pos + 1) (fe_bv e) reldelta browx bcolx;
  do t <- rangename2drel rowx1 (rowx2 + 1) colx1 (colx2 + 1) row_rel1 row_rel2 col_rel1 col_rel2 browx bcolx r1c1;
  Ok (DOp (mk_dop (if row_rel1 || row_rel2 || col_rel1 || col_rel2 then oREL else oREF) LEAF_RANK t)).

(** formula.py:1757-1775, 1790-1806 *)
Definition d_ref3d (bx : box) (rel : list bool) (browx bcolx : option Z) (r1c1 : bool) : result ditem :=
  let is_rel := existsb (fun b => b) rel in
  let r := mk_ref bx (if is_rel then rel else absolute) in
  do text <- (if is_rel then rangename3drel e r browx bcolx r1c1 else rangename3d e r);
  Ok (DOp (mk_dop (if is_rel then oREL else oREF) LEAF_RANK text)).

(** formula.py:1611-1872.  [last] is the local variable shx1, which line 1843 reads
    even when a dodgy reference has not set it. *)
Definition d_classed (reldelta : bool) (browx bcolx : option Z) (r1c1 : bool)
    (data : list Z) (pos opcode optype : Z) (stk : list ditem) (last : option Z)
  : result (list ditem * option Z) :=
  if opcode =? 0x00 then Ok (d_unk :: stk, last)
  else if opcode =? 0x01 then do f <- read_func e data pos; do k <- d_func f stk; Ok (k, last)
  else if opcode =? 0x02 then
    do (nargs, f) <- read_funcvar e data pos; do k <- d_funcvar nargs f stk; Ok (k, last)
  else if opcode =? 0x03 then
    do t <- unpack_u16 data (pos + 1);
    do text <- d_name (t - 1);
    Ok (DOp (mk_dop oUNK LEAF_RANK text) :: stk, last)
  else if (opcode =? 0x04) || (opcode =? 0x0C) then
    do i <- d_cell data pos reldelta browx bcolx r1c1; Ok (i :: stk, last)
  else if (opcode =? 0x05) || (opcode =? 0x0D) then
    do i <- d_area data pos reldelta browx bcolx r1c1; Ok (i :: stk, last)
  else if opcode =? 0x06 then Err NameError
  else if opcode =? 0x09 then do _ <- unpack_u16 data (pos + 1); Ok (stk, last)
  else if opcode =? 0x1A then
    do ((rowx, colx, row_rel, col_rel), (shx1, shx2)) <- read_ref3d e data pos reldelta browx bcolx;
    do i <- d_ref3d (mk_box shx1 (shx2 + 1) rowx (rowx + 1) colx (colx + 1))
              [false; false; row_rel; row_rel; col_rel; col_rel] browx bcolx r1c1;
    Ok (i :: stk, Some shx1)
  else if opcode =? 0x1B then
    do ((rowx1, colx1, row_rel1, col_rel1), (rowx2, colx2, row_rel2, col_rel2), (shx1, shx2))
       <- read_area3d e data pos reldelta;
    do i <- d_ref3d (mk_box shx1 (shx2 + 1) rowx1 (rowx2 + 1) colx1 (colx2 + 1))
              [false; false; row_rel1; row_rel2; col_rel1; col_rel2] browx bcolx r1c1;
    Ok (i :: stk, Some shx1)
  else if opcode =? 0x19 then
    do (refx, origrefx, tgtnamex, dodgy) <- read_namex e data pos;
    do shx1 <- (if dodgy then match last with Some x => Ok x | None => Err UnboundLocalError end
                else do (shx1, _) <- namex_sheets e refx origrefx; Ok shx1);
    if shx1 =? -5 then
      do n <- py_index (fe_addin_names e) tgtnamex;
      Ok (DOp (mk_dop oSTRG LEAF_RANK (quoted n)) :: stk, Some shx1)
    else if dodgy || (shx1 <? -1) then
      Ok (DOp (mk_dop oUNK LEAF_RANK (external_name_text tgtnamex origrefx)) :: stk, Some shx1)
    else
      do text <- d_name tgtnamex;
      Ok (DOp (mk_dop oUNK LEAF_RANK text) :: stk, Some shx1)
  else if error_opcode opcode then Ok (d_error :: stk, last)
  else Ok (stk, last).

(** One turn of the loop, formula.py:1423-1874. *)
Definition d_step (fmlatype : option Z) (browx bcolx : option Z) (r1c1 : bool)
    (data : list Z) (fmlalen pos : Z) (stk : list ditem) (last : option Z)
  : result (list ditem * option Z * Z) :=
  do (opcode, optype, sz) <- token (fe_bv e) data pos;
  do _ <- guard (negb (sz =? -2)) FormulaError;
  match fmlatype with
  | None => Err TypeError
  | Some ft =>
      let reldelta := (ft =? FMLA_TYPE_SHARED) || (ft =? FMLA_TYPE_NAME)
                      || (ft =? FMLA_TYPE_COND_FMT) || (ft =? FMLA_TYPE_DATA_VAL) in
      let opx := if negb (optype =? 0) then opcode + 32 else opcode in
      do _ <- (if Z.land (token_not_allowed opx) ft =? 0 then Ok tt else unexpected_opcode ft);
      do (stk, last, sz) <-
        (if optype =? 0 then do (k, sz) <- d_plain ft data fmlalen pos opcode sz stk; Ok (k, last, sz)
         else do (k, last) <- d_classed reldelta browx bcolx r1c1 data pos opcode optype stk last;
              Ok (k, last, sz));
      do _ <- guard (negb (sz <=? 0)) FormulaError;
      Ok (stk, last, pos + sz)
  end.

Fixpoint d_loop (fuel : nat) (fmlatype : option Z) (browx bcolx : option Z) (r1c1 : bool)
    (data : list Z) (fmlalen pos : Z) (stk : list ditem) (last : option Z) : result (list ditem) :=
  if negb ((0 <=? pos) && (pos <? fmlalen)) then Ok stk else
  match fuel with
  | O => Err OutOfFuel
  | S f =>
      do (stk, last, pos) <- d_step fmlatype browx bcolx r1c1 data fmlalen pos stk last;
      d_loop f fmlatype browx bcolx r1c1 data fmlalen pos stk last
  end.

(** formula.py:1360-1883 with level 0 *)
Definition decompile_formula (fmla : list Z) (fmlalen : Z) (fmlatype : option Z) (browx bcolx : option Z)
    (r1c1 : bool) : result (option (list Z)) :=
  do _ <- szdict (fe_bv e);
  let stack := if fmlalen =? 0 then [d_unk] else [] in
  do stk <- d_loop (Z.to_nat fmlalen) fmlatype browx bcolx r1c1 fmla fmlalen 0 stack None;
  match stk with
  | [i] => do t <- item_text i; Ok (Some t)
  | _ => Ok None
  end.
End Decompile.
