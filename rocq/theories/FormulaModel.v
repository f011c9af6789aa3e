(** Model of formula reading in /repo/xlrd/formula.py: operands 534-618, Ref3D
    626-682, external sheet ranges 472-528, box functions 399-406, operators
    691-744, evaluate_name_formula 752-1357 and decompile_formula 1360-1883.

    Python numbers are an arbitrary type [N] with the operations of [numops]; the
    formulas only combine what those return.  The operand stack is a list with
    the top first.  Console output (the [blah] switches, which the code turns on
    by itself beyond five levels of names) is left out. *)
From Verif Require Import Base Text CellNames Utf16 Strings GridModel SheetObjects FormulaTables.

(** ** Operands *)

(** formula.py:73-80 *)
Inductive okind : Type := oBOOL | oERR | oMSNG | oNUM | oREF | oREL | oSTRG | oUNK.

Definition okind_eqb (a b : okind) : bool :=
  match a, b with
  | oBOOL, oBOOL | oERR, oERR | oMSNG, oMSNG | oNUM, oNUM
  | oREF, oREF | oREL, oREL | oSTRG, oSTRG | oUNK, oUNK => true
  | _, _ => false
  end.

(** formula.py:626-682: (shtxlo, shtxhi, rowxlo, rowxhi, colxlo, colxhi) and the
    six relative flags. *)
Record box : Type := mk_box { b_slo : Z; b_shi : Z; b_rlo : Z; b_rhi : Z; b_clo : Z; b_chi : Z }.
Record ref3d : Type := mk_ref { r_box : box; r_rel : list bool }.
Definition absolute : list bool := [false; false; false; false; false; false].

Fixpoint bools_eqb (a b : list bool) : bool :=
  match a, b with
  | [], [] => true
  | x :: a, y :: b => Bool.eqb x y && bools_eqb a b
  | _, _ => false
  end.

(** formula.py:399-406 *)
Definition range_box (a b : box) : box :=
  mk_box (Z.min (b_slo a) (b_slo b)) (Z.max (b_shi a) (b_shi b))
         (Z.min (b_rlo a) (b_rlo b)) (Z.max (b_rhi a) (b_rhi b))
         (Z.min (b_clo a) (b_clo b)) (Z.max (b_chi a) (b_chi b)).
Definition isect_box (a b : box) : box :=
  mk_box (Z.max (b_slo a) (b_slo b)) (Z.min (b_shi a) (b_shi b))
         (Z.max (b_rlo a) (b_rlo b)) (Z.min (b_rhi a) (b_rhi b))
         (Z.max (b_clo a) (b_clo b)) (Z.min (b_chi a) (b_chi b)).

(** What formulas need to know about the book. *)
Record fenv : Type := mk_fenv {
  fe_bv : Z;                                       (* biff_version *)
  fe_decode : list Z -> result (list Z);           (* unicode(bytes, book.encoding) *)
  fe_sheets : list (list Z);                       (* _sheet_names *)
  fe_allmap : list Z;                              (* _all_sheets_map *)
  fe_info : list (Z * Z * Z);                      (* _externsheet_info *)
  fe_b57 : list Z;                                 (* _externsheet_type_b57 *)
  fe_locals : option Z;                            (* _supbook_locals_inx *)
  fe_addins : option Z;                            (* _supbook_addins_inx *)
  fe_addin_names : list (list Z) }.                (* addin_func_names *)

(** formula.py:472-507 *)
Definition get_externsheet_local_range (e : fenv) (refx : Z) : result (Z * Z) :=
  match py_index (fe_info e) refx with
  | Err _ => Ok (-101, -101)
  | Ok (rec, first, last) =>
      if match fe_addins e with Some a => rec =? a | None => false end then
        do _ <- guard ((first =? 0xFFFE) && (0xFFFE =? last)) AssertionError;
        Ok (-5, -5)
      else if negb (match fe_locals e with Some a => rec =? a | None => false end) then Ok (-4, -4)
      else if (first =? 0xFFFE) && (0xFFFE =? last) then Ok (-1, -1)
      else if (first =? 0xFFFF) && (0xFFFF =? last) then Ok (-2, -2)
      else
        let nsheets := zlen (fe_allmap e) in
        if negb ((0 <=? first) && (first <=? last) && (last <? nsheets)) then Ok (-102, -102)
        else
          do x1 <- py_index (fe_allmap e) first;
          do x2 <- py_index (fe_allmap e) last;
          if negb ((0 <=? x1) && (x1 <=? x2)) then Ok (-3, -3) else Ok (x1, x2)
  end.

(** formula.py:509-528 *)
Definition get_externsheet_local_range_b57 (e : fenv) (raw_extshtx first last : Z) : result (Z * Z) :=
  if raw_extshtx >? 0 then Ok (-4, -4)
  else if (first =? -1) && (last =? -1) then Ok (-2, -2)
  else
    let nsheets := zlen (fe_allmap e) in
    if negb ((0 <=? first) && (first <=? last) && (last <? nsheets)) then Ok (-103, -103)
    else
      do x1 <- py_index (fe_allmap e) first;
      do x2 <- py_index (fe_allmap e) last;
      if negb ((0 <=? x1) && (x1 <=? x2)) then Ok (-3, -3) else Ok (x1, x2).

(** formula.py:2130-2140; [rangename2d] without r1c1 gives a text. *)
Definition rangename3d (e : fenv) (r : ref3d) : result (list Z) :=
  let b := r_box r in
  do s <- sheetrange (fe_sheets e) (b_slo b) (b_shi b);
  do t <- rangename2d (b_rlo b) (b_rhi b) (b_clo b) (b_chi b) false;
  match t with Some t => Ok (s ++ s2l "!" ++ t) | None => Err TypeError end.

(** formula.py:2142-2157 *)
Definition rangename3drel (e : fenv) (r : ref3d) (browx bcolx : option Z) (r1c1 : bool) : result (list Z) :=
  let b := r_box r in
  match r_rel r with
  | [slo; shi; rlo; rhi; clo; chi] =>
      do s <- sheetrangerel (fe_sheets e) (b_slo b) (b_shi b) slo shi;
      do t <- rangename2drel (b_rlo b) (b_rhi b) (b_clo b) (b_chi b) rlo rhi clo chi browx bcolx r1c1;
      match s with [] => Ok t | _ => Ok (s ++ s2l "!" ++ t) end
  | _ => Err ValueError
  end.

(** Doubling each double quote, then putting the text between double quotes. *)
Fixpoint double_dquotes (s : list Z) : list Z :=
  match s with
  | [] => []
  | c :: r => if c =? 34 then 34 :: 34 :: double_dquotes r else c :: double_dquotes r
  end.
Definition quoted (s : list Z) : list Z := [34] ++ double_dquotes s ++ [34].

(** ['('[:rank_low] + text + ')'[:rank_low]] *)
Definition paren (low : bool) (text : list Z) : list Z :=
  if low then s2l "(" ++ text ++ s2l ")" else text.

(** formula.py:725-738: result kind, rank and symbol of the operators 0x03-0x0E. *)
Definition binop_rule (opcode : Z) : option (okind * Z * list Z) :=
  if opcode =? 0x03 then Some (oNUM, 30, s2l "+")
  else if opcode =? 0x04 then Some (oNUM, 30, s2l "-")
  else if opcode =? 0x05 then Some (oNUM, 40, s2l "*")
  else if opcode =? 0x06 then Some (oNUM, 40, s2l "/")
  else if opcode =? 0x07 then Some (oNUM, 50, s2l "^")
  else if opcode =? 0x08 then Some (oSTRG, 20, s2l "&")
  else if opcode =? 0x09 then Some (oBOOL, 10, s2l "<")
  else if opcode =? 0x0A then Some (oBOOL, 10, s2l "<=")
  else if opcode =? 0x0B then Some (oBOOL, 10, s2l "=")
  else if opcode =? 0x0C then Some (oBOOL, 10, s2l ">=")
  else if opcode =? 0x0D then Some (oBOOL, 10, s2l ">")
  else if opcode =? 0x0E then Some (oBOOL, 10, s2l "<>")
  else None.

(** formula.py:740-744: rank, prefix and suffix. *)
Definition unop_rule (opcode : Z) : option (Z * list Z * list Z) :=
  if opcode =? 0x13 then Some (70, s2l "-", [])
  else if opcode =? 0x12 then Some (70, s2l "+", [])
  else if opcode =? 0x14 then Some (60, [], s2l "%")
  else None.

(** formula.py:746-747 *)
Definition LEAF_RANK : Z := 90.
Definition FUNC_RANK : Z := 90.

(** [listsep.join(...)] *)
Fixpoint join_comma (ts : list (list Z)) : list Z :=
  match ts with
  | [] => []
  | [t] => t
  | t :: r => t ++ s2l "," ++ join_comma r
  end.

(** Token header, formula.py:832-840 and 1423-1431: (opcode, optype, size). *)
Definition token (bv : Z) (data : list Z) (pos : Z) : result (Z * Z * Z) :=
  do op <- py_index data pos;
  let opcode := Z.land op 0x1f in
  let optype := Z.shiftr (Z.land op 0x60) 5 in
  do tab <- szdict bv;
  do sz <- py_index tab (if negb (optype =? 0) then opcode + 32 else opcode);
  Ok (opcode, optype, sz).

(** [unpack("<hxxxxxxxxhh", data[pos+1:pos+15])] *)
Definition unpack_ref57 (data : list Z) (pos : Z) : result (Z * Z * Z) :=
  do _ <- guard (zlen (py_slice data (pos + 1) (pos + 15)) =? 14) StructError;
  do x <- unpack_i16 data (pos + 1);
  do a <- unpack_i16 data (pos + 11);
  do b <- unpack_i16 data (pos + 13);
  Ok (x, a, b).

(** tRef3d, formula.py:1201-1212 and 1745-1756: cell address and sheet range. *)
Definition read_ref3d (e : fenv) (data : list Z) (pos : Z) (reldelta : bool) (browx bcolx : option Z)
  : result ((Z * Z * bool * bool) * (Z * Z)) :=
  if fe_bv e >=? 80 then
    do res <- get_cell_addr data (pos + 3) (fe_bv e) reldelta browx bcolx;
    do refx <- unpack_u16 data (pos + 1);
    do sh <- get_externsheet_local_range e refx;
    Ok (res, sh)
  else
    do res <- get_cell_addr data (pos + 15) (fe_bv e) reldelta browx bcolx;
    do (x, a, b) <- unpack_ref57 data pos;
    do sh <- get_externsheet_local_range_b57 e x a b;
    Ok (res, sh).

(** tArea3d, formula.py:1233-1244 and 1776-1788 (without the base cell in both). *)
Definition read_area3d (e : fenv) (data : list Z) (pos : Z) (reldelta : bool)
  : result ((Z * Z * bool * bool) * (Z * Z * bool * bool) * (Z * Z)) :=
  if fe_bv e >=? 80 then
    do res <- get_cell_range_addr data (pos + 3) (fe_bv e) reldelta None None;
    do refx <- unpack_u16 data (pos + 1);
    do sh <- get_externsheet_local_range e refx;
    Ok (res, sh)
  else
    do res <- get_cell_range_addr data (pos + 15) (fe_bv e) reldelta None None;
    do (x, a, b) <- unpack_ref57 data pos;
    do sh <- get_externsheet_local_range_b57 e x a b;
    Ok (res, sh).

(** tNameX, formula.py:1268-1286 and 1808-1826: (refx, origrefx, tgtnamex, dodgy). *)
Definition read_namex (e : fenv) (data : list Z) (pos : Z) : result (Z * Z * Z * bool) :=
  if fe_bv e >=? 80 then
    do _ <- guard (zlen (py_slice data (pos + 1) (pos + 5)) =? 4) StructError;
    do refx <- unpack_u16 data (pos + 1);
    do t <- unpack_u16 data (pos + 3);
    Ok (refx, refx, t - 1, false)
  else
    do _ <- guard (zlen (py_slice data (pos + 1) (pos + 13)) =? 12) StructError;
    do refx <- unpack_i16 data (pos + 1);
    do t <- unpack_u16 data (pos + 11);
    if refx >? 0 then Ok (refx - 1, refx, t - 1, false)
    else if refx <? 0 then Ok (- refx - 1, refx, t - 1, false)
    else Ok (refx, refx, t - 1, true).

(** formula.py:1290-1300 and 1830-1840: the sheets of an undodgy tNameX. *)
Definition namex_sheets (e : fenv) (refx origrefx : Z) : result (Z * Z) :=
  if fe_bv e >=? 80 then get_externsheet_local_range e refx
  else if origrefx >? 0 then Ok (-4, -4)
  else do exty <- py_index (fe_b57 e) refx;
       if exty =? 4 then Ok (-1, -1) else Ok (-666, -666).

(** "<<Name #%d in external(?) file #%d>>" *)
Definition external_name_text (tgtnamex origrefx : Z) : list Z :=
  s2l "<<Name #" ++ fmt_d tgtnamex ++ s2l " in external(?) file #" ++ fmt_d origrefx ++ s2l ">>".

Section Numbers.
Context {N : Type}.

(** The Python operations on numbers that formulas use. *)
Record numops : Type := mk_numops {
  n_int : Z -> N;                       (* an int *)
  n_float : Z -> N;                     (* float(int) for 16-bit ints *)
  n_unpack : list Z -> N;               (* unpack('<d', eight bytes) *)
  n_str : N -> list Z;                  (* str(x) *)
  n_parse : list Z -> result N;         (* float(text) *)
  n_add : N -> N -> result N; n_sub : N -> N -> result N; n_mul : N -> N -> result N;
  n_div : N -> N -> result N; n_pow : N -> N -> result N;
  n_neg : N -> N;
  n_pct : N -> result N;                (* x / 100.0 *)
  n_lt : N -> N -> result bool; n_le : N -> N -> result bool; n_eq : N -> N -> bool;
  n_trunc : N -> result Z;              (* int(x) *)
  n_as_int : N -> option Z;             (* the value if it is an int *)
  refs_str : list ref3d -> list Z;      (* str(list of references) *)
  refs_cmp : Z -> list ref3d -> list ref3d -> result bool }.

Inductive oval : Type := VNone | VNumber (n : N) | VString (s : list Z) | VRefs (l : list ref3d).

Record operand : Type := mk_operand { o_kind : okind; o_value : oval; o_rank : Z; o_text : list Z }.

(** formula.py:771-772 *)
Definition unk_opnd : operand := mk_operand oUNK VNone 0 (s2l "?").
Definition error_opnd : operand := mk_operand oERR VNone 0 (s2l "?").

Section Eval.
Variable ops : numops.
Variable e : fenv.

(** formula.py:712-719 *)
Definition strip_point_zero (s : list Z) : list Z :=
  let n := zlen s in
  if list_eqb (py_from s (n - 2)) (s2l ".0") && (2 <=? n) then firstn (Z.to_nat (n - 2)) s else s.
Definition num2strg (v : oval) : list Z :=
  strip_point_zero (match v with
                    | VNone => s2l "None"
                    | VNumber n => n_str ops n
                    | VString s => s
                    | VRefs l => refs_str ops l
                    end).

(** [float(v)]; an operand of kind oSTRG holds a text. *)
Definition py_float (v : oval) : result oval :=
  match v with
  | VString s => do n <- n_parse ops s; Ok (VNumber n)
  | _ => Err TypeError
  end.

(** [seq * k] *)
Fixpoint repeat_seq {A} (k : nat) (l : list A) : list A :=
  match k with O => [] | S k' => l ++ repeat_seq k' l end.

(** opr.add, sub, mul, truediv and the power of formula.py:703. *)
Definition py_arith (opcode : Z) (a b : oval) : result oval :=
  match a, b with
  | VNumber x, VNumber y =>
      do r <- (if opcode =? 0x03 then n_add ops x y
               else if opcode =? 0x04 then n_sub ops x y
               else if opcode =? 0x05 then n_mul ops x y
               else if opcode =? 0x06 then n_div ops x y
               else n_pow ops x y);
      Ok (VNumber r)
  | VString s, VString t => if opcode =? 0x03 then Ok (VString (s ++ t)) else Err TypeError
  | VRefs s, VRefs t => if opcode =? 0x03 then Ok (VRefs (s ++ t)) else Err TypeError
  | VString s, VNumber n | VNumber n, VString s =>
      match (if opcode =? 0x05 then n_as_int ops n else None) with
      | Some k => Ok (VString (repeat_seq (Z.to_nat k) s))
      | None => Err TypeError
      end
  | VRefs s, VNumber n | VNumber n, VRefs s =>
      match (if opcode =? 0x05 then n_as_int ops n else None) with
      | Some k => Ok (VRefs (repeat_seq (Z.to_nat k) s))
      | None => Err TypeError
      end
  | _, _ => Err TypeError
  end.

(** Text order: by code points. *)
Fixpoint text_lt (a b : list Z) : bool :=
  match a, b with
  | [], _ :: _ => true
  | x :: a', y :: b' => (x <? y) || ((x =? y) && text_lt a' b')
  | _, [] => false
  end.

(** formula.py:705-710: the comparisons 0x09-0x0E, in the order <, <=, =, >=, >, <>. *)
Definition py_compare (opcode : Z) (a b : oval) : result bool :=
  match a, b with
  | VNumber x, VNumber y =>
      if opcode =? 0x09 then n_lt ops x y
      else if opcode =? 0x0A then n_le ops x y
      else if opcode =? 0x0B then Ok (n_eq ops x y)
      else if opcode =? 0x0C then n_le ops y x
      else if opcode =? 0x0D then n_lt ops y x
      else Ok (negb (n_eq ops x y))
  | VString s, VString t =>
      if opcode =? 0x09 then Ok (text_lt s t)
      else if opcode =? 0x0A then Ok (negb (text_lt t s))
      else if opcode =? 0x0B then Ok (list_eqb s t)
      else if opcode =? 0x0C then Ok (negb (text_lt s t))
      else if opcode =? 0x0D then Ok (text_lt t s)
      else Ok (negb (list_eqb s t))
  | VRefs s, VRefs t => refs_cmp ops opcode s t
  | _, _ =>
      if opcode =? 0x0B then Ok false else if opcode =? 0x0E then Ok true else Err TypeError
  end.

(** The argument conversions of formula.py:721-724: [None] is a KeyError. *)
Definition argconv (opcode : Z) (k : okind) (v : oval) : option (result oval) :=
  if opcode <=? 0x07 then
    match k with oNUM => Some (Ok v) | oSTRG => Some (py_float v) | _ => None end
  else if opcode =? 0x08 then
    match k with oNUM => Some (Ok (VString (num2strg v))) | oSTRG => Some (Ok v) | _ => None end
  else
    match k with oNUM | oSTRG => Some (Ok v) | _ => None end.

(** ''.join of formula.py:780-788: left and right operand around a symbol. *)
Definition infix (rank : Z) (sym : list Z) (aop bop : operand) : list Z :=
  paren (o_rank aop <? rank) (o_text aop) ++ sym ++ paren (o_rank bop <? rank) (o_text bop).

(** formula.py:775-805 *)
Definition do_binop (opcode : Z) (stk : list operand) : result (list operand) :=
  match stk with
  | bop :: aop :: stk =>
      match binop_rule opcode with
      | None => Err KeyError
      | Some (kind, rank, sym) =>
          let unknown := mk_operand kind VNone rank (infix rank sym aop bop) in
          match argconv opcode (o_kind bop) (o_value bop), argconv opcode (o_kind aop) (o_value aop) with
          | Some rb, Some ra =>
              match o_value bop, o_value aop with
              | VNone, _ | _, VNone => Ok (unknown :: stk)
              | _, _ =>
                  do bval <- rb;
                  do aval <- ra;
                  do v <- (if opcode <=? 0x07 then py_arith opcode aval bval
                           else if opcode =? 0x08 then py_arith 0x03 aval bval
                           else do t <- py_compare opcode aval bval;
                                Ok (VNumber (n_int ops (if t then 1 else 0))));
                  Ok (mk_operand kind v rank (infix rank sym aop bop) :: stk)
              end
          | _, _ => Ok (unknown :: stk)
          end
      end
  | _ => Err AssertionError
  end.

(** formula.py:807-821 *)
Definition do_unaryop (opcode : Z) (stk : list operand) : result (list operand) :=
  match stk with
  | aop :: stk =>
      match unop_rule opcode with
      | None => Err KeyError
      | Some (rank, sym1, sym2) =>
          let text := sym1 ++ paren (o_rank aop <? rank) (o_text aop) ++ sym2 in
          do v <- match o_value aop with
                  | VNone => Ok VNone
                  | v => if opcode =? 0x12 then Ok v
                         else match v with
                              | VNumber n => if opcode =? 0x13 then Ok (VNumber (n_neg ops n))
                                             else do r <- n_pct ops n; Ok (VNumber r)
                              | _ => Err TypeError
                              end
                  end;
          Ok (mk_operand oNUM v rank text :: stk)
      end
  | [] => Err AssertionError
  end.

Definition either (k : okind) (a b : operand) : bool := okind_eqb (o_kind b) k || okind_eqb (o_kind a) k.
Definition both (k : okind) (a b : operand) : bool := okind_eqb (o_kind b) k && okind_eqb (o_kind a) k.
Definition is_ref (o : operand) : bool := okind_eqb (o_kind o) oREF || okind_eqb (o_kind o) oREL.

(** formula.py:885-902, 957-974: the value of a range or intersection; [keep] says
    whether the relative flags are carried over. *)
Definition combine (f : box -> box -> box) (keep : bool) (a b : operand) : result oval :=
  match o_value a, o_value b with
  | VRefs la, VRefs lb =>
      do _ <- guard (zlen la =? 1) AssertionError;
      do _ <- guard (zlen lb =? 1) AssertionError;
      match la, lb with
      | ra :: _, rb :: _ =>
          let c := f (r_box ra) (r_box rb) in
          if negb keep then Ok (VRefs [mk_ref c absolute])
          else if bools_eqb (r_rel ra) (r_rel rb) then Ok (VRefs [mk_ref c (r_rel ra)]) else Ok VNone
      | _, _ => Err AssertionError
      end
  | VNone, _ | _, VNone => Ok VNone
  | _, _ => Err TypeError
  end.

(** formula.py:857-905 (tIsect) and 938-977 (tRange).  The intersection keeps the
    default rank 0; its kind stays oREF when one side is unknown. *)
Definition do_isect (stk : list operand) : result (list operand) :=
  match stk with
  | bop :: aop :: stk =>
      let text := infix 80 (s2l " ") aop bop in
      do (kind, v) <-
        (if either oERR aop bop then Ok (oERR, VNone)
         else if either oUNK aop bop then Ok (oREF, VNone)
         else if both oREF aop bop then do v <- combine isect_box false aop bop; Ok (oREF, v)
         else if both oREL aop bop then do v <- combine isect_box true aop bop; Ok (oREL, v)
         else Ok (oREF, VNone));
      Ok (mk_operand kind v 0 text :: stk)
  | _ => Err AssertionError
  end.

Definition do_range (stk : list operand) : result (list operand) :=
  match stk with
  | bop :: aop :: stk =>
      let text := infix 80 (s2l ":") aop bop in
      do (kind, v) <-
        (if either oERR aop bop then Ok (oERR, VNone)
         else if both oREF aop bop then do v <- combine range_box false aop bop; Ok (oREF, v)
         else if both oREL aop bop then do v <- combine range_box true aop bop; Ok (oREL, v)
         else Ok (oREF, VNone));
      Ok (mk_operand kind v 80 text :: stk)
  | _ => Err AssertionError
  end.

(** formula.py:907-936 (tList) *)
Definition do_list (stk : list operand) : result (list operand) :=
  match stk with
  | bop :: aop :: stk =>
      let text := infix 80 (s2l ",") aop bop in
      do (kind, v) <-
        (if either oERR aop bop then Ok (oERR, VNone)
         else if is_ref bop && is_ref aop then
           let kind := if okind_eqb (o_kind aop) oREL || okind_eqb (o_kind bop) oREL then oREL else oREF in
           do v <- match o_value aop, o_value bop with
                   | VRefs la, VRefs lb =>
                       do _ <- guard (1 <=? zlen la) AssertionError;
                       do _ <- guard (zlen lb =? 1) AssertionError;
                       Ok (VRefs (la ++ lb))
                   | VNone, _ | _, VNone => Ok VNone
                   | _, _ => Err TypeError
                   end;
           Ok (kind, v)
         else Ok (oREF, VNone));
      Ok (mk_operand kind v 80 text :: stk)
  | _ => Err AssertionError
  end.

(** formula.py:987-993: the text and the size of the token. *)
Definition read_str (data : list Z) (pos : Z) : result (list Z * Z) :=
  do (strg, newpos) <-
    (if fe_bv e <=? 70 then unpack_string_update_pos (fe_decode e) data (pos + 1) 1 None
     else unpack_unicode_update_pos data (pos + 1) 1 None);
  Ok (strg, newpos - pos).

(** formula.py:1022-1036: the constants 0x1C-0x1F. *)
Definition read_const (opcode : Z) (data : list Z) (pos : Z) : result (okind * N * list Z) :=
  if opcode =? 0x1C then
    do v <- unpack_le 1 data (pos + 1);
    match dget Z.eqb error_text_from_code v with
    | Some t => Ok (oERR, n_int ops v, s2l """" ++ t ++ s2l """")
    | None => Err KeyError
    end
  else if opcode =? 0x1D then
    do v <- unpack_le 1 data (pos + 1);
    do t <- py_index [s2l "FALSE"; s2l "TRUE"] v;
    Ok (oBOOL, n_int ops v, t)
  else if opcode =? 0x1E then
    do v <- unpack_u16 data (pos + 1);
    let x := n_float ops v in Ok (oNUM, x, n_str ops x)
  else
    let b := py_slice data (pos + 1) (pos + 9) in
    do _ <- guard (zlen b =? 8) StructError;
    let x := n_unpack ops b in Ok (oNUM, x, n_str ops x).

(** formula.py:1046-1047, 1068-1071: the function index, and for tFuncVar the argument count. *)
Definition read_func (data : list Z) (pos : Z) : result Z :=
  if fe_bv e >=? 40 then unpack_u16 data (pos + 1) else unpack_le 1 data (pos + 1).
Definition read_funcvar (data : list Z) (pos : Z) : result (Z * Z) :=
  let nb := if fe_bv e >=? 40 then 2 else 1 in
  do _ <- guard (zlen (py_slice data (pos + 1) (pos + 2 + nb)) =? 1 + nb) StructError;
  do nargs <- unpack_le 1 data (pos + 1);
  do funcx <- unpack_le nb data (pos + 2);
  Ok (nargs mod 128, funcx mod 32768).

(** [stack[-nargs:]], in the order of the arguments: all of it when nargs is 0. *)
Definition last_args {A} (nargs : Z) (stk : list A) : list A :=
  if nargs =? 0 then rev stk else rev (firstn (Z.to_nat nargs) stk).
(** [del stack[-nargs:]] *)
Definition drop_args {A} (nargs : Z) (stk : list A) : list A :=
  if nargs =? 0 then [] else skipn (Z.to_nat nargs) stk.

(** [stack[-k]] *)
Definition from_top {A} (stk : list A) (k : Z) : result A :=
  if k <=? 0 then py_index (rev stk) (- k) else py_index stk (k - 1).

Definition call_text (name : list Z) (args : list operand) : list Z :=
  name ++ s2l "(" ++ join_comma (map o_text args) ++ s2l ")".

(** formula.py:1048-1066 *)
Definition do_func (funcx : Z) (stk : list operand) : result (list operand) :=
  match dget Z.eqb func_defs funcx with
  | None => Ok (unk_opnd :: stk)
  | Some (name, nargs, _) =>
      do _ <- guard (zlen stk >=? nargs) AssertionError;
      if negb (nargs =? 0) then
        Ok (mk_operand oUNK VNone FUNC_RANK (call_text name (last_args nargs stk)) :: drop_args nargs stk)
      else Ok (mk_operand oUNK VNone FUNC_RANK (name ++ s2l "()") :: stk)
  end.

(** [v not in (0, 1)] *)
Definition zero_or_one (v : oval) : bool :=
  match v with
  | VNumber n => n_eq ops n (n_int ops 0) || n_eq ops n (n_int ops 1)
  | _ => false
  end.

(** formula.py:1106-1109, 1117-1120 *)
Definition choose (o : operand) : okind * oval :=
  match o_kind o with oMSNG => (oNUM, VNumber (n_int ops 0)) | k => (k, o_value o) end.

(** formula.py:1091-1109 (IF) *)
Definition do_if (nargs : Z) (stk : list operand) : result (okind * oval) :=
  do test <- from_top stk nargs;
  match o_kind test, o_value test with
  | oNUM, VNumber v | oBOOL, VNumber v =>
      if negb (zero_or_one (VNumber v)) then Ok (oUNK, VNone)
      else if (nargs =? 2) && n_eq ops v (n_int ops 0) then Ok (oBOOL, VNumber (n_int ops 0))
      else
        do i <- n_trunc ops v;
        do chosen <- from_top stk (nargs - 2 + i);
        Ok (choose chosen)
  | _, _ => Ok (oUNK, VNone)
  end.

(** formula.py:1112-1120 (CHOOSE); comparing anything but a number with 1 is a TypeError. *)
Definition do_choose (nargs : Z) (stk : list operand) : result (okind * oval) :=
  do test <- from_top stk nargs;
  match o_kind test with
  | oNUM =>
      match o_value test with
      | VNumber v =>
          do a <- n_le ops (n_int ops 1) v;
          if negb a then Ok (oUNK, VNone) else
          do b <- n_lt ops v (n_int ops nargs);
          if negb b then Ok (oUNK, VNone) else
          do i <- n_trunc ops v;
          do chosen <- from_top stk (nargs - i);
          Ok (choose chosen)
      | _ => Err TypeError
      end
  | _ => Ok (oUNK, VNone)
  end.

(** formula.py:1075-1122 *)
Definition do_funcvar (nargs funcx : Z) (stk : list operand) : result (list operand) :=
  match dget Z.eqb func_defs funcx with
  | None => Ok (unk_opnd :: stk)
  | Some (name, minargs, maxargs) =>
      do _ <- guard ((minargs <=? nargs) && (nargs <=? maxargs)) AssertionError;
      do _ <- guard (zlen stk >=? nargs) AssertionError;
      let text := call_text name (last_args nargs stk) in
      do (kind, v) <- (if funcx =? 1 then do_if nargs stk
                       else if funcx =? 100 then do_choose nargs stk
                       else Ok (oUNK, VNone));
      Ok (mk_operand kind v FUNC_RANK text :: drop_args nargs stk)
  end.

(** ** Defined names: what book.py:945-1003 stores and evaluation fills in *)

Record nameobj : Type := mk_name {
  nm_flags : Z;                        (* option_flags *)
  nm_name : list Z;
  nm_extn : Z;                         (* extn_sheet_num *)
  nm_sheet : Z;                        (* excel_sheet_index *)
  nm_raw : list Z;                     (* raw_formula *)
  nm_len : Z;                          (* basic_formula_len *)
  nm_scope : option Z;
  nm_evaluated : bool;
  nm_stack : list operand;             (* top first *)
  nm_any_rel : bool;
  nm_any_err : bool }.

(** book.py:968-981 *)
Definition nm_macro (n : nameobj) : bool := Z.testbit (nm_flags n) 3.
Definition nm_binary (n : nameobj) : bool := Z.testbit (nm_flags n) 12.

(** formula.py:1349-1353 *)
Definition nm_result (n : nameobj) : option operand :=
  match nm_stack n with [o] => Some o | _ => None end.

(** Evaluation state: stack, flags, and all the names of the book. *)
Record est : Type := mk_est {
  s_stack : list operand; s_rel : bool; s_err : bool; s_names : list nameobj }.

Definition push (o : operand) (s : est) : est := mk_est (o :: s_stack s) (s_rel s) (s_err s) (s_names s).
Definition with_stack (s : est) (stk : list operand) : est := mk_est stk (s_rel s) (s_err s) (s_names s).

(** "%s!%s" of formula.py:1145-1149: the text for a name; the scope of a name that
    belongs to no worksheet is negative and indexes from the end. *)
Definition name_text (n : nameobj) : result (list Z) :=
  match nm_scope n with
  | None => Err TypeError
  | Some scope =>
      if scope =? -1 then Ok (nm_name n)
      else do sh <- py_index (fe_sheets e) scope; Ok (sh ++ s2l "!" ++ nm_name n)
  end.

(** formula.py:1127-1152 and 1306-1331: the value of the name number [tgtnamex]. *)
Definition use_name (rec : list nameobj -> Z -> result (list nameobj)) (tgtnamex : Z) (s : est) : result est :=
  do tgt <- py_index (s_names s) tgtnamex;
  do names <- (if nm_evaluated tgt then Ok (s_names s) else rec (s_names s) tgtnamex);
  do tgt <- py_index names tgtnamex;
  let bad := nm_macro tgt || nm_binary tgt || nm_any_err tgt in
  do res <- (if bad then Ok unk_opnd
             else match nm_stack tgt with [o] => Ok o | _ => Err AssertionError end);
  do text <- name_text tgt;
  Ok (mk_est (mk_operand (o_kind res) (o_value res) LEAF_RANK text :: s_stack s)
        (s_rel s || (bad && nm_any_rel tgt)) (s_err s || bad) names).

(** Tokens without a class, formula.py:849-1042: the new state and the token size. *)
Definition eval_plain (data : list Z) (pos opcode sz : Z) (s : est) : result (est * Z) :=
  let stk := s_stack s in
  if opcode <=? 0x02 then Err FormulaError
  else if opcode <=? 0x0E then do k <- do_binop opcode stk; Ok (with_stack s k, sz)
  else if opcode =? 0x0F then do k <- do_isect stk; Ok (with_stack s k, sz)
  else if opcode =? 0x10 then do k <- do_list stk; Ok (with_stack s k, sz)
  else if opcode =? 0x11 then do k <- do_range stk; Ok (with_stack s k, sz)
  else if opcode <=? 0x14 then do k <- do_unaryop opcode stk; Ok (with_stack s k, sz)
  else if opcode =? 0x15 then Ok (s, sz)
  else if opcode =? 0x16 then Ok (push (mk_operand oMSNG VNone LEAF_RANK []) s, sz)
  else if opcode =? 0x17 then
    do (strg, sz) <- read_str data pos;
    Ok (push (mk_operand oSTRG (VString strg) LEAF_RANK (quoted strg)) s, sz)
  else if opcode =? 0x18 then
    do _ <- guard (fe_bv e >=? 80) AssertionError; Err FormulaError
  else if opcode =? 0x19 then
    do _ <- guard (zlen (py_slice data (pos + 1) (pos + 4)) =? 3) StructError;
    do subop <- unpack_le 1 data (pos + 1);
    do nc <- unpack_u16 data (pos + 2);
    if subop =? 0x04 then Ok (s, nc * 2 + 6)
    else if subop =? 0x10 then
      match stk with
      | aop :: k => Ok (with_stack s (mk_operand oNUM VNone FUNC_RANK (s2l "SUM(" ++ o_text aop ++ s2l ")") :: k), 4)
      | [] => Err AssertionError
      end
    else Ok (s, 4)
  else if opcode <=? 0x1B then
    do _ <- guard (fe_bv e <? 50) AssertionError; Err FormulaError
  else
    do (kind, v, text) <- read_const opcode data pos;
    Ok (push (mk_operand kind (VNumber v) LEAF_RANK text) s, sz).

(** An absolute or relative 3-D reference, formula.py:1213-1231 and 1246-1264. *)
Definition ref_operand (bx : box) (rel : list bool) (optype : Z) : result operand :=
  let is_rel := existsb (fun b => b) rel in
  let r := mk_ref bx (if is_rel then rel else absolute) in
  do text <- (if is_rel then rangename3drel e r None None true else rangename3d e r);
  Ok (mk_operand (if is_rel then oREL else oREF) (if optype =? 1 then VRefs [r] else VNone) LEAF_RANK text).

(** Tokens with a class, formula.py:1043-1338. *)
Definition eval_classed (rec : list nameobj -> Z -> result (list nameobj))
    (namex : Z) (data : list Z) (pos opcode optype : Z) (s : est) : result est :=
  if opcode =? 0x00 then Ok (push unk_opnd s)
  else if opcode =? 0x01 then
    do f <- read_func data pos; do k <- do_func f (s_stack s); Ok (with_stack s k)
  else if opcode =? 0x02 then
    do (nargs, f) <- read_funcvar data pos; do k <- do_funcvar nargs f (s_stack s); Ok (with_stack s k)
  else if opcode =? 0x03 then
    do t <- unpack_u16 data (pos + 1);
    use_name rec (t - 1) s
  else if opcode =? 0x04 then
    do (rowx, colx, row_rel, col_rel) <- get_cell_addr data (pos + 1) (fe_bv e) true None None;
    let r := mk_ref (mk_box 0 1 rowx (rowx + 1) colx (colx + 1)) [true; true; row_rel; row_rel; col_rel; col_rel] in
    let o := if optype =? 1 then mk_operand oREL (VRefs [r]) 0 (s2l "?") else unk_opnd in
    Ok (mk_est (o :: s_stack s) true (s_err s) (s_names s))
  else if opcode =? 0x05 then
    do ((rowx1, colx1, row_rel1, col_rel1), (rowx2, colx2, row_rel2, col_rel2))
       <- get_cell_range_addr data (pos + 1) (fe_bv e) true None None;
    let r := mk_ref (mk_box 0 1 rowx1 (rowx2 + 1) colx1 (colx2 + 1))
               [true; true; row_rel1; row_rel2; col_rel1; col_rel2] in
    let o := if optype =? 1 then mk_operand oREL (VRefs [r]) 0 (s2l "?") else unk_opnd in
    Ok (mk_est (o :: s_stack s) true (s_err s) (s_names s))
  else if opcode =? 0x06 then Err FormulaError
  else if opcode =? 0x09 then do _ <- unpack_u16 data (pos + 1); Ok s
  else if (opcode =? 0x0C) || (opcode =? 0x0D) then Err FormulaError
  else if opcode =? 0x1A then
    do ((rowx, colx, row_rel, col_rel), (shx1, shx2)) <- read_ref3d e data pos true None None;
    do o <- ref_operand (mk_box shx1 (shx2 + 1) rowx (rowx + 1) colx (colx + 1))
              [false; false; row_rel; row_rel; col_rel; col_rel] optype;
    Ok (mk_est (o :: s_stack s) (s_rel s || row_rel || col_rel) (s_err s || (shx1 <? -1)) (s_names s))
  else if opcode =? 0x1B then
    do ((rowx1, colx1, row_rel1, col_rel1), (rowx2, colx2, row_rel2, col_rel2), (shx1, shx2))
       <- read_area3d e data pos true;
    do o <- ref_operand (mk_box shx1 (shx2 + 1) rowx1 (rowx2 + 1) colx1 (colx2 + 1))
              [false; false; row_rel1; row_rel2; col_rel1; col_rel2] optype;
    Ok (mk_est (o :: s_stack s) (s_rel s || row_rel1 || col_rel1 || row_rel2 || col_rel2)
          (s_err s || (shx1 <? -1)) (s_names s))
  else if opcode =? 0x19 then
    do (refx, origrefx, tgtnamex, dodgy) <- read_namex e data pos;
    let self := tgtnamex =? namex in
    let dodgy := dodgy || self in
    let s := mk_est (s_stack s) (s_rel s) (s_err s || self) (s_names s) in
    do external <- (if dodgy then Ok true
                    else do (shx1, _) <- namex_sheets e refx origrefx; Ok (shx1 <? -1));
    if external then Ok (push (mk_operand oUNK VNone LEAF_RANK (external_name_text tgtnamex origrefx)) s)
    else use_name rec tgtnamex s
  else if error_opcode opcode then
    Ok (mk_est (error_opnd :: s_stack s) (s_rel s) true (s_names s))
  else Ok (mk_est (s_stack s) (s_rel s) true (s_names s)).

(** One turn of the loop, formula.py:831-1341. *)
Definition eval_step (rec : list nameobj -> Z -> result (list nameobj))
    (namex : Z) (data : list Z) (pos : Z) (s : est) : result (est * Z) :=
  do (opcode, optype, sz) <- token (fe_bv e) data pos;
  do _ <- guard (negb (sz =? -2)) FormulaError;
  do (s, sz) <- (if optype =? 0 then eval_plain data pos opcode sz s
                 else do s <- eval_classed rec namex data pos opcode optype s; Ok (s, sz));
  do _ <- guard (negb (sz <=? 0)) FormulaError;
  Ok (s, pos + sz).

Fixpoint eval_loop (fuel : nat) (rec : list nameobj -> Z -> result (list nameobj))
    (namex : Z) (data : list Z) (fmlalen pos : Z) (s : est) : result est :=
  if negb ((0 <=? pos) && (pos <? fmlalen)) then Ok s else
  match fuel with
  | O => Err OutOfFuel
  | S f =>
      do (s, pos) <- eval_step rec namex data pos s;
      eval_loop f rec namex data fmlalen pos s
  end.

(** evaluate_name_formula, formula.py:752-1357.  The first argument is the number of
    levels left: at STACK_PANIC_LEVEL + 1 (formula.py:750, 763) none is. *)
Fixpoint evaluate_name_formula (levels : nat) (names : list nameobj) (namex : Z) : result (list nameobj) :=
  do n <- py_index names namex;
  match levels with
  | O => Err XLRDError
  | S lv =>
      do _ <- szdict (fe_bv e);
      let stack := if nm_len n =? 0 then [unk_opnd] else [] in
      do s <- eval_loop (Z.to_nat (nm_len n)) (evaluate_name_formula lv) namex (nm_raw n) (nm_len n) 0
                (mk_est stack false false names);
      do n <- py_index (s_names s) namex;
      list_set (s_names s) namex
        (mk_name (nm_flags n) (nm_name n) (nm_extn n) (nm_sheet n) (nm_raw n) (nm_len n) (nm_scope n)
           true (s_stack s) (s_rel s) (s_err s))
  end.

Definition TOP_LEVELS : nat := 11.
End Eval.
End Numbers.
Arguments oval : clear implicits.
Arguments operand : clear implicits.
Arguments nameobj : clear implicits.
Arguments numops : clear implicits.
Arguments est : clear implicits.
