(** Model of /repo/xlrd/sheet.py:2219-2233 (unpack_RK). *)
From Flocq Require Import IEEE754.Binary IEEE754.Bits.
From Verif Require Import Base PyFloat.

(** [unpack('<d', s)] of exactly 8 bytes. *)
Definition f_of_bytes (s : list Z) : result flt :=
  if zlen s =? 8 then Ok (b64_of_bits (le_val s)) else Err StructError.

Definition f100 : flt := f_of_Z 100.

(** sheet.py:2219-2233 *)
Definition unpack_RK (rk_str : list Z) : result flt :=
  do flags <- py_index rk_str 0;
  if Z.testbit flags 1 then
    if negb (zlen rk_str =? 4) then Err StructError else
    do i <- unpack_i32 rk_str 0;
    let i := Z.shiftr i 2 in
    if Z.testbit flags 0 then Ok (fdiv (f_of_Z i) f100) else Ok (f_of_Z i)
  else
    do d <- f_of_bytes ([0; 0; 0; 0] ++ [Z.land flags 252] ++ py_slice rk_str 1 4);
    if Z.testbit flags 0 then Ok (fdiv d f100) else Ok d.
