(** Formulas as trees: how a file stores them and how they are written.  This is a
    specification; it uses the function table and the string layout, nothing else
    of the model. *)
From Verif Require Import Base Text Utf16 SheetObjects FormulaTables PropBytes.

Inductive binary : Type :=
| Plus | Minus | Times | Divide | Power | Concat | Less | LessEq | Equal | GreaterEq | Greater | Unequal.
Inductive unary : Type := Negate | Affirm | Percent.

(** The class of a token: reference, value or array. *)
Inductive class : Type := Reference | Value | Array.

Inductive expr : Type :=
| Int (n : Z)                                  (* 0..65535 *)
| Num (b : list Z)                             (* the eight bytes of a double *)
| Str (u : ustring)                            (* BIFF8 text *)
| OldStr (b : list Z) (t : list Z)             (* earlier text: bytes and what they decode to *)
| Bool (b : bool)
| ErrorCode (c : Z)
| Missing
| Name (k : class) (n : Z) (unused : list Z)   (* the n-th defined name, counted from 1 *)
| Un (o : unary) (a : expr)
| Bin (o : binary) (a b : expr)
| Paren (a : expr)
| Spaced (sub : Z) (w : Z) (a : expr)          (* an attribute token without effect, then a *)
| Call (k : class) (f : Z) (args : list expr)
| CallVar (k : class) (prompt macro : bool) (f : Z) (args : list expr).

Section Induction.
Variable P : expr -> Prop.
Hypothesis HInt : forall n, P (Int n).
Hypothesis HNum : forall b, P (Num b).
Hypothesis HStr : forall u, P (Str u).
Hypothesis HOld : forall b t, P (OldStr b t).
Hypothesis HBool : forall b, P (Bool b).
Hypothesis HErr : forall c, P (ErrorCode c).
Hypothesis HMiss : P Missing.
Hypothesis HName : forall k n u, P (Name k n u).
Hypothesis HUn : forall o a, P a -> P (Un o a).
Hypothesis HBin : forall o a b, P a -> P b -> P (Bin o a b).
Hypothesis HParen : forall a, P a -> P (Paren a).
Hypothesis HSpaced : forall s w a, P a -> P (Spaced s w a).
Hypothesis HCall : forall k f args, Forall P args -> P (Call k f args).
Hypothesis HCallVar : forall k p m f args, Forall P args -> P (CallVar k p m f args).

Fixpoint expr_ind' (e : expr) : P e :=
  let all := fix all (l : list expr) : Forall P l :=
    match l with
    | [] => Forall_nil P
    | x :: r => Forall_cons x (expr_ind' x) (all r)
    end in
  match e with
  | Int n => HInt n | Num b => HNum b | Str u => HStr u | OldStr b t => HOld b t
  | Bool b => HBool b | ErrorCode c => HErr c | Missing => HMiss | Name k n u => HName k n u
  | Un o a => HUn o a (expr_ind' a)
  | Bin o a b => HBin o a b (expr_ind' a) (expr_ind' b)
  | Paren a => HParen a (expr_ind' a)
  | Spaced s w a => HSpaced s w a (expr_ind' a)
  | Call k f args => HCall k f args (all args)
  | CallVar k p m f args => HCallVar k p m f args (all args)
  end.
End Induction.

(** ** Token bytes *)

Definition binary_code (o : binary) : Z :=
  match o with
  | Plus => 0x03 | Minus => 0x04 | Times => 0x05 | Divide => 0x06 | Power => 0x07 | Concat => 0x08
  | Less => 0x09 | LessEq => 0x0A | Equal => 0x0B | GreaterEq => 0x0C | Greater => 0x0D | Unequal => 0x0E
  end.
Definition unary_code (o : unary) : Z := match o with Affirm => 0x12 | Negate => 0x13 | Percent => 0x14 end.
Definition class_code (k : class) : Z := match k with Reference => 0x20 | Value => 0x40 | Array => 0x60 end.
Definition bit (b : bool) : Z := if b then 1 else 0.

(** Bytes of a function index, and unused bytes after a name index. *)
Definition index_bytes (bv : Z) : nat := if bv <? 40 then 1 else 2.
Definition name_unused (bv : Z) : Z :=
  if bv <? 30 then 5 else if bv <? 50 then 8 else if bv <? 80 then 12 else 2.

(** The tokens of a formula, operands before operators. *)
Fixpoint codes (bv : Z) (e : expr) : list Z :=
  match e with
  | Int n => 0x1E :: le_enc 2 n
  | Num b => 0x1F :: b
  | Str u => 0x17 :: us_field 1 u
  | OldStr b _ => 0x17 :: zlen b :: b
  | Bool b => [0x1D; bit b]
  | ErrorCode c => [0x1C; c]
  | Missing => [0x16]
  | Name k n u => (class_code k + 0x03) :: le_enc 2 n ++ u
  | Un o a => codes bv a ++ [unary_code o]
  | Bin o a b => codes bv a ++ codes bv b ++ [binary_code o]
  | Paren a => codes bv a ++ [0x15]
  | Spaced s w a => 0x19 :: s :: le_enc 2 w ++ codes bv a
  | Call k f args => flat_map (codes bv) args ++ (class_code k + 0x01) :: le_enc (index_bytes bv) f
  | CallVar k p m f args =>
      flat_map (codes bv) args ++
      (class_code k + 0x02) :: (zlen args + 128 * bit p) :: le_enc (index_bytes bv) (f + 32768 * bit m)
  end.

(** ** Written form *)

(** How tightly an expression binds: comparisons 1, text joining 2, sums 3, products
    4, powers 5, percent 6, signs 7, everything else 8.  Parentheses of the source
    do not count. *)
Definition binary_level (o : binary) : Z :=
  match o with
  | Less | LessEq | Equal | GreaterEq | Greater | Unequal => 1
  | Concat => 2 | Plus | Minus => 3 | Times | Divide => 4 | Power => 5
  end.
Definition unary_level (o : unary) : Z := match o with Percent => 6 | Negate | Affirm => 7 end.
Fixpoint level (e : expr) : Z :=
  match e with
  | Un o _ => unary_level o
  | Bin o _ _ => binary_level o
  | Paren a => level a
  | Spaced _ _ a => level a
  | _ => 8
  end.

Definition binary_sign (o : binary) : list Z :=
  match o with
  | Plus => s2l "+" | Minus => s2l "-" | Times => s2l "*" | Divide => s2l "/" | Power => s2l "^"
  | Concat => s2l "&" | Less => s2l "<" | LessEq => s2l "<=" | Equal => s2l "="
  | GreaterEq => s2l ">=" | Greater => s2l ">" | Unequal => s2l "<>"
  end.

(** A text between double quotes, inner ones doubled. *)
Definition in_quotes (s : list Z) : list Z :=
  34 :: flat_map (fun c => if c =? 34 then [34; 34] else [c]) s ++ [34].

Fixpoint commas (l : list (list Z)) : list Z :=
  match l with
  | [] => []
  | [t] => t
  | t :: r => t ++ 44 :: commas r
  end.

(** Texts of the error codes. *)
Definition error_name (c : Z) : list Z :=
  match c with
  | 0x00 => s2l "#NULL!" | 0x07 => s2l "#DIV/0!" | 0x0F => s2l "#VALUE!" | 0x17 => s2l "#REF!"
  | 0x1D => s2l "#NAME?" | 0x24 => s2l "#NUM!" | 0x2A => s2l "#N/A" | _ => []
  end.

(** Name and argument range of a function. *)
Definition function (f : Z) : option (list Z * Z * Z) := dget Z.eqb func_defs f.
Definition variadic (f : Z) : option (list Z * Z * Z) :=
  if f =? 255 then Some (s2l "CALL_ADDIN", 1, 30) else function f.
Definition fname (d : option (list Z * Z * Z)) : list Z := match d with Some (n, _, _) => n | None => [] end.

Section Written.
Variable int_text : Z -> list Z.          (* how integers, doubles and names are written *)
Variable num_text : list Z -> list Z.
Variable name_text : Z -> list Z.

Definition wrapped (weaker : bool) (s : list Z) : list Z := if weaker then 40 :: s ++ [41] else s.

Fixpoint written (e : expr) : list Z :=
  match e with
  | Int n => int_text n
  | Num b => num_text b
  | Str u => in_quotes (us_text u)
  | OldStr _ t => in_quotes t
  | Bool b => if b then s2l "TRUE" else s2l "FALSE"
  | ErrorCode c => 34 :: error_name c ++ [34]
  | Missing => []
  | Name _ n _ => name_text n
  | Un o a =>
      let s := wrapped (level a <? unary_level o) (written a) in
      match o with Negate => 45 :: s | Affirm => 43 :: s | Percent => s ++ [37] end
  | Bin o a b =>
      wrapped (level a <? binary_level o) (written a) ++ binary_sign o
      ++ wrapped (level b <? binary_level o) (written b)
  | Paren a => written a
  | Spaced _ _ a => written a
  | Call _ f args => fname (function f) ++ 40 :: commas (map written args) ++ [41]
  | CallVar _ _ _ f args => fname (variadic f) ++ 40 :: commas (map written args) ++ [41]
  end.
End Written.

(** ** Formulas a file of version [bv] can hold *)

Section Storable.
Variable bv : Z.
Variable decodes : list Z -> list Z -> Prop.      (* bytes, text *)
Variable defined : Z -> Prop.                     (* numbers of the defined names *)

Fixpoint storable (e : expr) : Prop :=
  match e with
  | Int n => 0 <= n < 65536
  | Num b => zlen b = 8
  | Str u => bv = 80 /\ us_ok u /\ us_units u < 256
  | OldStr b t => bv < 80 /\ zlen b < 256 /\ decodes b t
  | Bool _ => True
  | ErrorCode c => c = 0x00 \/ c = 0x07 \/ c = 0x0F \/ c = 0x17 \/ c = 0x1D \/ c = 0x24 \/ c = 0x2A
  | Missing => True
  | Name _ n u => 0 <= n < 65536 /\ defined n /\ zlen u = name_unused bv
  | Un _ a => storable a
  | Bin _ a b => storable a /\ storable b
  | Paren a => storable a
  | Spaced s w a => 0 <= s < 256 /\ s <> 0x04 /\ s <> 0x10 /\ 0 <= w < 65536 /\ storable a
  | Call _ f args =>
      0 <= f < 256 ^ Z.of_nat (index_bytes bv) /\
      (exists name most, function f = Some (name, zlen args, most)) /\
      (fix all l := match l with [] => True | x :: r => storable x /\ all r end) args
  | CallVar _ p m f args =>
      0 <= f /\ f + 32768 * bit m < 256 ^ Z.of_nat (index_bytes bv) /\ f < 32768 /\
      1 <= zlen args < 128 /\
      (exists name least most, variadic f = Some (name, least, most) /\ least <= zlen args <= most) /\
      (fix all l := match l with [] => True | x :: r => storable x /\ all r end) args
  end.
End Storable.

Definition biff (bv : Z) : Prop :=
  bv = 20 \/ bv = 21 \/ bv = 30 \/ bv = 40 \/ bv = 45 \/ bv = 50 \/ bv = 70 \/ bv = 80.
