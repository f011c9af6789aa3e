(** Formulas with references: how a file stores them and how they are written.
    This is a specification like FormulaExpr.v, which it extends. *)
From Verif Require Import Base Text Utf16 SheetObjects FormulaTables PropBytes FormulaExpr.

(** A row or column: a fixed one, counted from 0, or one so many away from the
    formula's own. *)
Inductive coord : Type := Fixed (n : Z) | Away (d : Z).
Definition moving (c : coord) : bool := match c with Fixed _ => false | Away _ => true end.

(** Where a reference to other sheets leads: to the sheets lo..hi of this book, to
    any sheet, to a sheet that is gone, or out of the book. *)
Inductive place : Type := On (lo hi : Z) | AnySheet | Gone | Outside.

(** Intersection, union and range of references. *)
Inductive setop : Type := Common | Joined | Span.

Inductive formula : Type :=
| Plain (x : expr)                                       (* without references *)
| Cell (k : class) (alt : bool) (r c : coord)            (* tRef, tRefN *)
| Area (k : class) (alt : bool) (r1 r2 c1 c2 : coord)    (* tArea, tAreaN *)
| Cell3 (k : class) (s : list Z) (w : place) (r c : coord)
| Area3 (k : class) (s : list Z) (w : place) (r1 r2 c1 c2 : coord)
| Outer (k : class) (b t : list Z)                       (* tNameX: bytes and text *)
| Lost (k : class) (area : bool) (three : bool) (b : list Z)
| FUn (o : unary) (a : formula)
| FBin (o : binary) (a b : formula)
| FSet (o : setop) (a b : formula)
| FParen (a : formula)
| Before (s w : Z) (a : formula)                         (* an attribute without effect, then a *)
| Jumps (w : Z) (l : list Z) (a : formula)               (* the jump table of CHOOSE, then a *)
| Mem (k : class) (w : Z) (a : formula)                  (* tMemFunc, then a *)
| After (s w : Z) (a : formula)                          (* a, then an attribute without effect *)
| Sum (w : Z) (a : formula)                              (* SUM of one argument as an attribute *)
| FCall (k : class) (f : Z) (args : list formula)
| FCallVar (k : class) (prompt macro : bool) (f : Z) (args : list formula).

Section Induction.
Variable P : formula -> Prop.
Hypothesis HPlain : forall x, P (Plain x).
Hypothesis HCell : forall k b r c, P (Cell k b r c).
Hypothesis HArea : forall k b r1 r2 c1 c2, P (Area k b r1 r2 c1 c2).
Hypothesis HCell3 : forall k s w r c, P (Cell3 k s w r c).
Hypothesis HArea3 : forall k s w r1 r2 c1 c2, P (Area3 k s w r1 r2 c1 c2).
Hypothesis HOuter : forall k b t, P (Outer k b t).
Hypothesis HLost : forall k a h b, P (Lost k a h b).
Hypothesis HUn : forall o a, P a -> P (FUn o a).
Hypothesis HBin : forall o a b, P a -> P b -> P (FBin o a b).
Hypothesis HSet : forall o a b, P a -> P b -> P (FSet o a b).
Hypothesis HParen : forall a, P a -> P (FParen a).
Hypothesis HBefore : forall s w a, P a -> P (Before s w a).
Hypothesis HJumps : forall w l a, P a -> P (Jumps w l a).
Hypothesis HMem : forall k w a, P a -> P (Mem k w a).
Hypothesis HAfter : forall s w a, P a -> P (After s w a).
Hypothesis HSum : forall w a, P a -> P (Sum w a).
Hypothesis HCall : forall k f args, Forall P args -> P (FCall k f args).
Hypothesis HCallVar : forall k p m f args, Forall P args -> P (FCallVar k p m f args).

Fixpoint formula_ind' (e : formula) : P e :=
  let all := fix all (l : list formula) : Forall P l :=
    match l with
    | [] => Forall_nil P
    | x :: r => Forall_cons x (formula_ind' x) (all r)
    end in
  match e with
  | Plain x => HPlain x
  | Cell k b r c => HCell k b r c
  | Area k b r1 r2 c1 c2 => HArea k b r1 r2 c1 c2
  | Cell3 k s w r c => HCell3 k s w r c
  | Area3 k s w r1 r2 c1 c2 => HArea3 k s w r1 r2 c1 c2
  | Outer k b t => HOuter k b t
  | Lost k a h b => HLost k a h b
  | FUn o a => HUn o a (formula_ind' a)
  | FBin o a b => HBin o a b (formula_ind' a) (formula_ind' b)
  | FSet o a b => HSet o a b (formula_ind' a) (formula_ind' b)
  | FParen a => HParen a (formula_ind' a)
  | Before s w a => HBefore s w a (formula_ind' a)
  | Jumps w l a => HJumps w l a (formula_ind' a)
  | Mem k w a => HMem k w a (formula_ind' a)
  | After s w a => HAfter s w a (formula_ind' a)
  | Sum w a => HSum w a (formula_ind' a)
  | FCall k f args => HCall k f args (all args)
  | FCallVar k p m f args => HCallVar k p m f args (all args)
  end.
End Induction.

(** ** Token bytes *)

Section Bytes.
Variable bv : Z.
Variable offset : bool.                 (* relative coordinates are stored as distances *)
Variable base : option (Z * Z).         (* the formula's own row and column *)

(** Rows of a sheet. *)
Definition rows : Z := if bv <? 80 then 16384 else 65536.

(** The number stored for a coordinate, in [0, size). *)
Definition row_number (r : coord) : Z :=
  match r with
  | Fixed n => n
  | Away d => if offset then d mod rows else match base with Some (b, _) => b + d | None => 0 end
  end.
Definition col_number (c : coord) : Z :=
  match c with
  | Fixed n => n
  | Away d => if offset then d mod 256 else match base with Some (_, b) => b + d | None => 0 end
  end.
(** The two flags are in the column word of BIFF8 and in the row word before. *)
Definition flags (r c : coord) : Z := 32768 * bit (moving r) + 16384 * bit (moving c).
Definition row_word (r c : coord) : Z := row_number r + (if bv <? 80 then flags r c else 0).
Definition col_word (r c : coord) : Z := col_number c + (if bv <? 80 then 0 else flags r c).
Definition col_bytes : nat := if bv <? 80 then 1 else 2.

Definition cell_bytes (r c : coord) : list Z :=
  le_enc 2 (row_word r c) ++ le_enc col_bytes (col_word r c).
Definition area_bytes (r1 r2 c1 c2 : coord) : list Z :=
  le_enc 2 (row_word r1 c1) ++ le_enc 2 (row_word r2 c2)
  ++ le_enc col_bytes (col_word r1 c1) ++ le_enc col_bytes (col_word r2 c2).

(** Bytes that say which sheets, and of a lost reference. *)
Definition sheet_bytes : Z := if bv <? 80 then 14 else 2.
Definition lost_bytes (area three : bool) : Z :=
  (if three then sheet_bytes else 0) + (if area then 2 else 1) * (2 + Z.of_nat col_bytes).
Definition outer_bytes : Z := if bv <? 80 then 24 else 6.
(** Bytes that count the bytes of a reference subexpression. *)
Definition mem_bytes : nat := if bv <? 30 then 1 else 2.

Definition set_code (o : setop) : Z := match o with Common => 0x0F | Joined => 0x10 | Span => 0x11 end.

Fixpoint tokens (f : formula) : list Z :=
  match f with
  | Plain x => codes bv x
  | Cell k alt r c => (class_code k + (if alt then 0x0C else 0x04)) :: cell_bytes r c
  | Area k alt r1 r2 c1 c2 => (class_code k + (if alt then 0x0D else 0x05)) :: area_bytes r1 r2 c1 c2
  | Cell3 k s _ r c => (class_code k + 0x1A) :: s ++ cell_bytes r c
  | Area3 k s _ r1 r2 c1 c2 => (class_code k + 0x1B) :: s ++ area_bytes r1 r2 c1 c2
  | Outer k b _ => (class_code k + 0x19) :: b
  | Lost k area three b =>
      (class_code k + (if three then 0x1C else 0x0A) + (if area then 1 else 0)) :: b
  | FUn o a => tokens a ++ [unary_code o]
  | FBin o a b => tokens a ++ tokens b ++ [binary_code o]
  | FSet o a b => tokens a ++ tokens b ++ [set_code o]
  | FParen a => tokens a ++ [0x15]
  | Before s w a => 0x19 :: s :: le_enc 2 w ++ tokens a
  | Jumps w l a => 0x19 :: 0x04 :: le_enc 2 w ++ l ++ tokens a
  | Mem k w a => (class_code k + 0x09) :: le_enc mem_bytes w ++ tokens a
  | After s w a => tokens a ++ 0x19 :: s :: le_enc 2 w
  | Sum w a => tokens a ++ 0x19 :: 0x10 :: le_enc 2 w
  | FCall k f args => flat_map tokens args ++ (class_code k + 0x01) :: le_enc (index_bytes bv) f
  | FCallVar k p m f args =>
      flat_map tokens args ++
      (class_code k + 0x02) :: (zlen args + 128 * bit p) :: le_enc (index_bytes bv) (f + 32768 * bit m)
  end.

(** ** Formulas a file can hold *)

Variable plain : expr -> Prop.
Variable leads : list Z -> place -> Prop.          (* sheet bytes and where they lead *)
Variable sheet : Z -> Prop.                        (* sheets with a name *)
Variable outer : list Z -> list Z -> Prop.         (* bytes of a foreign name and its text *)

(** A distance can be stored as one; a relative address needs the formula's cell
    and stays on the sheet.  Before BIFF8 a distance must not wrap either. *)
Definition row_ok (r : coord) : Prop :=
  match r with
  | Fixed n => 0 <= n < rows
  | Away d =>
      if offset then - (rows / 2) <= d < rows / 2 /\
        match base with Some (b, _) => bv < 80 -> 0 <= b + d < rows | None => True end
      else match base with Some (b, _) => 0 <= b + d < rows | None => False end
  end.
Definition col_ok (c : coord) : Prop :=
  match c with
  | Fixed n => 0 <= n < 256
  | Away d =>
      if offset then -128 <= d < 128
      else match base with Some (_, b) => 0 <= b + d < 256 | None => False end
  end.
Definition place_ok (s : list Z) (w : place) : Prop :=
  50 <= bv /\ zlen s = sheet_bytes /\ leads s w /\
  match w with On lo hi => 0 <= lo <= hi /\ sheet lo /\ sheet hi | _ => True end.

(** References that are errors. *)
Fixpoint plain_error (x : expr) : bool :=
  match x with ErrorCode _ => true | FormulaExpr.Paren a => plain_error a | Spaced _ _ a => plain_error a | _ => false end.
Fixpoint erroneous (f : formula) : bool :=
  match f with
  | Plain x => plain_error x
  | Lost _ _ _ _ => true
  | FSet Span _ _ => false
  | FSet _ a b => erroneous a || erroneous b
  | FParen a => erroneous a
  | Before _ _ a => erroneous a
  | Jumps _ _ a => erroneous a
  | Mem _ _ a => erroneous a
  | After _ _ a => erroneous a
  | _ => false
  end.

Fixpoint holds (f : formula) : Prop :=
  match f with
  | Plain x => plain x
  | Cell _ _ r c => row_ok r /\ col_ok c
  | Area _ _ r1 r2 c1 c2 => row_ok r1 /\ row_ok r2 /\ col_ok c1 /\ col_ok c2
  | Cell3 _ s w r c => place_ok s w /\ row_ok r /\ col_ok c
  | Area3 _ s w r1 r2 c1 c2 =>
      place_ok s w /\ row_ok r1 /\ row_ok r2 /\ col_ok c1 /\ col_ok c2 /\
      (offset = true \/ moving r1 || moving r2 || moving c1 || moving c2 = false)
  | Outer _ b t => 50 <= bv /\ zlen b = outer_bytes /\ outer b t
  | Lost _ area three b => (three = true -> 50 <= bv) /\ zlen b = lost_bytes area three
  | FUn _ a => holds a
  | FBin _ a b => holds a /\ holds b
  | FSet o a b => holds a /\ holds b /\ (o = Span -> erroneous a = false /\ erroneous b = false)
  | FParen a => holds a
  | Before s w a => 0 <= s < 256 /\ s <> 0x04 /\ s <> 0x10 /\ 0 <= w < 65536 /\ holds a
  | Jumps w l a => 0 <= w < 65536 /\ zlen l = 2 * w + 2 /\ holds a
  | Mem _ w a => 0 <= w < 256 ^ Z.of_nat mem_bytes /\ holds a
  | After s w a => 0 <= s < 256 /\ s <> 0x04 /\ s <> 0x10 /\ 0 <= w < 65536 /\ holds a
  | Sum w a => 0 <= w < 65536 /\ holds a
  | FCall _ f args =>
      0 <= f < 256 ^ Z.of_nat (index_bytes bv) /\
      (exists name most, function f = Some (name, zlen args, most)) /\
      (fix all l := match l with [] => True | x :: r => holds x /\ all r end) args
  | FCallVar _ p m f args =>
      0 <= f /\ f + 32768 * bit m < 256 ^ Z.of_nat (index_bytes bv) /\ f < 32768 /\
      1 <= zlen args < 128 /\
      (exists name least most, variadic f = Some (name, least, most) /\ least <= zlen args <= most) /\
      (fix all l := match l with [] => True | x :: r => holds x /\ all r end) args
  end.
End Bytes.

(** ** Written form *)

(** Column letters. *)
Definition letters (n : Z) : list Z := if n <? 26 then [65 + n] else [64 + n / 26; 65 + n mod 26].

(** A sheet's name, in single quotes if it has a quote or a space. *)
Definition sheet_quoted (s : list Z) : list Z :=
  if existsb (Z.eqb 39) s || existsb (Z.eqb 32) s
  then 39 :: flat_map (fun c => if c =? 39 then [39; 39] else [c]) s ++ [39] else s.

(** How tightly it binds; an intersection and a lost reference bind weaker than
    anything, a union and a range tighter than the operators. *)
Fixpoint grade (f : formula) : Z :=
  match f with
  | Plain x => if level x =? 8 then 9 else level x
  | Lost _ _ _ _ => 0
  | FUn o _ => unary_level o
  | FBin o _ _ => binary_level o
  | FSet Common _ _ => 0
  | FSet _ _ _ => 8
  | FParen a => grade a
  | Before _ _ a => grade a
  | Jumps _ _ a => grade a
  | Mem _ _ a => grade a
  | After _ _ a => grade a
  | _ => 9
  end.

Section Written.
Variable rows : Z.
Variable base : option (Z * Z).
Variable r1c1 : bool.                         (* asked for R1C1 style *)
Variable plain_text : expr -> list Z.
Variable sheet_name : Z -> list Z.

(** R1C1 style is also used for relative coordinates of a formula without a cell. *)
Definition style (relative : bool) : bool :=
  r1c1 || (relative && match base with None => true | Some _ => false end).

Definition distance (head : Z) (d : Z) : list Z :=
  if d =? 0 then [head] else head :: 91 :: fmt_d d ++ [93].
Definition row_text (rc : bool) (r : coord) : list Z :=
  match r with
  | Fixed n => (if rc then 82 else 36) :: fmt_d (n + 1)
  | Away d =>
      if rc then distance 82 d
      else match base with Some (b, _) => fmt_d ((b + d) mod rows + 1) | None => [] end
  end.
Definition col_text (rc : bool) (c : coord) : list Z :=
  match c with
  | Fixed n => if rc then 67 :: fmt_d (n + 1) else 36 :: letters n
  | Away d =>
      if rc then distance 67 d
      else match base with Some (_, b) => letters ((b + d) mod 256) | None => [] end
  end.
Definition cell_text (rc : bool) (r c : coord) : list Z :=
  if rc then row_text rc r ++ col_text rc c else col_text rc c ++ row_text rc r.
Definition area_text (rc : bool) (r1 r2 c1 c2 : coord) : list Z :=
  cell_text rc r1 c1 ++ 58 :: cell_text rc r2 c2.

Definition place_text (w : place) : list Z :=
  match w with
  | On lo hi =>
      sheet_quoted (sheet_name lo) ++ (if lo =? hi then [] else 58 :: sheet_quoted (sheet_name hi))
  | AnySheet => s2l "'?internal; any sheet?'"
  | Gone => s2l "'internal; deleted sheet'"
  | Outside => s2l "<<external>>"
  end.
(** On other sheets a fixed reference is always in A1 style, and an area of one cell
    is written as a cell; a relative one is always written as an area. *)
Definition area3_text (r1 r2 c1 c2 : coord) : list Z :=
  match r1, r2, c1, c2 with
  | Fixed a, Fixed b, Fixed c, Fixed d =>
      if (a =? b) && (c =? d) then cell_text false r1 c1 else area_text false r1 r2 c1 c2
  | _, _, _, _ => area_text (style true) r1 r2 c1 c2
  end.

Definition set_sign (o : setop) : list Z := match o with Common => s2l " " | Joined => s2l "," | Span => s2l ":" end.

Fixpoint shown (f : formula) : list Z :=
  match f with
  | Plain x => plain_text x
  | Cell _ _ r c => cell_text (style (moving r || moving c)) r c
  | Area _ _ r1 r2 c1 c2 => area_text (style (moving r1 || moving r2 || moving c1 || moving c2)) r1 r2 c1 c2
  | Cell3 _ _ w r c => place_text w ++ 33 :: area3_text r r c c
  | Area3 _ _ w r1 r2 c1 c2 => place_text w ++ 33 :: area3_text r1 r2 c1 c2
  | Outer _ _ t => t
  | Lost _ _ _ _ => s2l "?"
  | FUn o a =>
      let s := wrapped (grade a <? unary_level o) (shown a) in
      match o with Negate => 45 :: s | Affirm => 43 :: s | Percent => s ++ [37] end
  | FBin o a b =>
      wrapped (grade a <? binary_level o) (shown a) ++ binary_sign o
      ++ wrapped (grade b <? binary_level o) (shown b)
  | FSet o a b => wrapped (grade a <? 8) (shown a) ++ set_sign o ++ wrapped (grade b <? 8) (shown b)
  | FParen a => shown a
  | Before _ _ a => shown a
  | Jumps _ _ a => shown a
  | Mem _ _ a => shown a
  | After _ _ a => shown a
  | Sum _ a => s2l "SUM(" ++ shown a ++ s2l ")"
  | FCall _ f args => fname (function f) ++ 40 :: commas (map shown args) ++ [41]
  | FCallVar _ _ _ f args => fname (variadic f) ++ 40 :: commas (map shown args) ++ [41]
  end.
End Written.
