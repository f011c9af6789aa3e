(** Common base of the model: exceptions as values, Python slices, and the
    little-endian fields read with [struct.unpack].  The definitions model the
    Python run time rather than a particular file of /repo; the call sites cite
    the lines where they are used. *)
From Coq Require Export ZArith List Bool Lia.
From Coq Require Export ZifyBool ZifyNat ZifyN.
Export ListNotations.
Open Scope Z_scope.

Ltac Zify.zify_post_hook ::= Z.div_mod_to_equations.

(** Python exceptions that the modelled code can raise.  [OutOfFuel] is not a
    Python exception: it marks a loop cut off by the model's fuel. *)
Inductive error : Type :=
| XLRDError | CompDocError | FormulaError | StructError | AssertionError
| IndexError | KeyError | TypeError | ValueError | AttributeError
| UnboundLocalError | OverflowError | ZeroDivisionError | UnicodeDecodeError
| NameError | LookupError | NotImplementedErr | RecursionErr | OSError | BadZipFile
| XLDateNegative | XLDateAmbiguous | XLDateTooLarge | XLDateBadDatemode
| XLDateBadTuple
| OutOfFuel.

Inductive result (A : Type) : Type :=
| Ok (a : A)
| Err (e : error).
Arguments Ok {A} a.
Arguments Err {A} e.

Definition bind {A B} (m : result A) (f : A -> result B) : result B :=
  match m with Ok a => f a | Err e => Err e end.

Notation "'do' x <- m ; k" := (bind m (fun x => k))
  (at level 200, x pattern, m at level 100, k at level 200, right associativity).

Definition guard (b : bool) (e : error) : result unit :=
  if b then Ok tt else Err e.

Definition is_ok {A} (r : result A) : bool :=
  match r with Ok _ => true | Err _ => false end.

Definition error_eq_dec (a b : error) : {a = b} + {a <> b}.
Proof. decide equality. Defined.

(** ** Lists indexed by [Z] *)

Definition zlen {A} (l : list A) : Z := Z.of_nat (length l).

(** [l[i]] for 0 <= i; [None] outside. *)
Definition znth {A} (l : list A) (i : Z) : option A :=
  if i <? 0 then None else nth_error l (Z.to_nat i).

(** Python subscript [l[i]]: negative indexes count from the end, IndexError outside. *)
Definition py_index {A} (l : list A) (i : Z) : result A :=
  let j := if i <? 0 then i + zlen l else i in
  match znth l j with Some a => Ok a | None => Err IndexError end.

(** Bounds adjustment of Python slices (step 1). *)
Definition py_bound (n i : Z) : Z :=
  if i <? 0 then Z.max 0 (i + n) else Z.min i n.

(** [l[a:b]] *)
Definition py_slice {A} (l : list A) (a b : Z) : list A :=
  let a' := py_bound (zlen l) a in
  let b' := py_bound (zlen l) b in
  firstn (Z.to_nat (b' - a')) (skipn (Z.to_nat a') l).

(** [l[a:]] *)
Definition py_from {A} (l : list A) (a : Z) : list A :=
  skipn (Z.to_nat (py_bound (zlen l) a)) l.

Definition zrepeat {A} (a : A) (n : Z) : list A := repeat a (Z.to_nat n).

(** [range(a, b)] *)
Definition zrange (a b : Z) : list Z :=
  map (fun k => a + Z.of_nat k) (seq 0 (Z.to_nat (b - a))).

(** ** Little-endian integers ([struct.unpack] with '<B', '<H', '<i' ...) *)

Fixpoint le_val (bs : list Z) : Z :=
  match bs with [] => 0 | b :: r => b + 256 * le_val r end.

(** [k]-byte little-endian encoding. *)
Fixpoint le_enc (k : nat) (v : Z) : list Z :=
  match k with
  | O => []
  | S k' => v mod 256 :: le_enc k' (v / 256)
  end.

(** [unpack('<..', data[pos:pos+k])]: exactly [k] bytes or struct.error. *)
Definition unpack_le (k : Z) (data : list Z) (pos : Z) : result Z :=
  let s := py_slice data pos (pos + k) in
  if zlen s =? k then Ok (le_val s) else Err StructError.

Definition to_signed (bits : Z) (v : Z) : Z :=
  if v <? 2 ^ (bits - 1) then v else v - 2 ^ bits.

Definition unpack_u16 := unpack_le 2.
Definition unpack_u32 := unpack_le 4.
Definition unpack_i16 data pos := do v <- unpack_le 2 data pos; Ok (to_signed 16 v).
Definition unpack_i32 data pos := do v <- unpack_le 4 data pos; Ok (to_signed 32 v).

Definition byteb (b : Z) : bool := (0 <=? b) && (b <? 256).
Definition bytes (l : list Z) : Prop := Forall (fun b => 0 <= b < 256) l.

(** Equality of texts. *)
Fixpoint list_eqb (a b : list Z) : bool :=
  match a, b with
  | [], [] => true
  | x :: a', y :: b' => (x =? y) && list_eqb a' b'
  | _, _ => false
  end.
