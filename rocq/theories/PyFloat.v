(** Python floats: IEEE 754 binary64 with round-to-nearest-even arithmetic
    (Flocq), plus [int()], [round()] and [float()] of Python 3. *)
From Coq Require Import ZArith.
From Flocq Require Import Core.Zaux IEEE754.BinarySingleNaN IEEE754.Binary IEEE754.Bits.
From Verif Require Import Base.

Definition flt : Set := binary64.

Definition fadd : flt -> flt -> flt := b64_plus mode_NE.
Definition fsub : flt -> flt -> flt := b64_minus mode_NE.
Definition fmul : flt -> flt -> flt := b64_mult mode_NE.
Definition fdiv : flt -> flt -> flt := b64_div mode_NE.

Definition prec64 : FLX.Prec_gt_0 53 := eq_refl.
Definition emax64 : Prec_lt_emax 53 1024 := eq_refl.

(** [float(n)] for an int that does not overflow (all uses are far below 2**1023). *)
Definition f_of_Z (n : Z) : flt := binary_normalize 53 1024 prec64 emax64 mode_NE n 0 false.

(** Magnitude shifted right by [k] bits with truncation. *)
Definition shr_trunc (m : positive) (k : Z) : Z := Zpos m / 2 ^ k.

(** Magnitude shifted right by [k] >= 1 bits, ties to even. *)
Definition shr_even (m : positive) (k : Z) : Z :=
  let q := Zpos m / 2 ^ k in
  let r := Zpos m mod 2 ^ k in
  let half := 2 ^ (k - 1) in
  if r <? half then q
  else if r =? half then (if Z.even q then q else q + 1)
  else q + 1.

(** [int(x)]: truncation; ValueError for nan, OverflowError for infinities. *)
Definition f_int (x : flt) : result Z :=
  match x with
  | B754_zero _ _ _ => Ok 0
  | B754_infinity _ _ _ => Err OverflowError
  | B754_nan _ _ _ _ _ => Err ValueError
  | B754_finite _ _ s m e _ =>
      Ok (cond_Zopp s (if 0 <=? e then Zpos m * 2 ^ e else shr_trunc m (- e)))
  end.

(** [int(round(x))] with Python 3's round-half-to-even. *)
Definition f_round (x : flt) : result Z :=
  match x with
  | B754_zero _ _ _ => Ok 0
  | B754_infinity _ _ _ => Err OverflowError
  | B754_nan _ _ _ _ _ => Err ValueError
  | B754_finite _ _ s m e _ =>
      Ok (cond_Zopp s (if 0 <=? e then Zpos m * 2 ^ e else shr_even m (- e)))
  end.

(** [x == 0.0] *)
Definition f_is_zero (x : flt) : bool :=
  match x with B754_zero _ _ _ => true | _ => false end.

(** [x < y] *)
Definition f_ltb (x y : flt) : bool :=
  match Bcompare 53 1024 x y with Some Lt => true | _ => false end.

(** [x < 0.0] *)
Definition f_is_neg (x : flt) : bool :=
  match x with
  | B754_finite _ _ s _ _ _ => s
  | B754_infinity _ _ s => s
  | _ => false
  end.
