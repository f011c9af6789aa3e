(** Model of the string readers of /repo/xlrd/biffh.py:247-334.
    latin_1 decoding is the identity on bytes (code point = byte). *)
From Verif Require Import Base Utf16.

Section Codec.
(** [unicode(bytes, encoding)] for the workbook's encoding. *)
Variable decode : list Z -> result (list Z).

(** biffh.py:247-250 *)
Definition unpack_string (data : list Z) (pos lenlen : Z) : result (list Z) :=
  do nchars <- unpack_le lenlen data pos;
  let pos := pos + lenlen in
  decode (py_slice data pos (pos + nchars)).

(** biffh.py:252-260 *)
Definition unpack_string_update_pos (data : list Z) (pos lenlen : Z) (known_len : option Z)
  : result (list Z * Z) :=
  do (nchars, pos) <- match known_len with
                      | Some n => Ok (n, pos)
                      | None => do n <- unpack_le lenlen data pos; Ok (n, pos + lenlen)
                      end;
  let newpos := pos + nchars in
  do s <- decode (py_slice data pos newpos);
  Ok (s, newpos).
End Codec.

(** biffh.py:262-299 *)
Definition unpack_unicode (data : list Z) (pos lenlen : Z) : result (list Z) :=
  do nchars <- unpack_le lenlen data pos;
  if nchars =? 0 then Ok [] else
  let pos := pos + lenlen in
  do options <- py_index data pos;
  let pos := pos + 1 in
  let pos := if Z.testbit options 3 then pos + 2 else pos in
  let pos := if Z.testbit options 2 then pos + 4 else pos in
  if Z.testbit options 0 then utf16_dec (py_slice data pos (pos + 2 * nchars))
  else Ok (py_slice data pos (pos + nchars)).

(** biffh.py:301-334 *)
Definition unpack_unicode_update_pos (data : list Z) (pos lenlen : Z) (known_len : option Z)
  : result (list Z * Z) :=
  do (nchars, pos) <- match known_len with
                      | Some n => Ok (n, pos)
                      | None => do n <- unpack_le lenlen data pos; Ok (n, pos + lenlen)
                      end;
  if (nchars =? 0) && (zlen (py_from data pos) =? 0) then Ok ([], pos) else
  do options <- py_index data pos;
  let pos := pos + 1 in
  let phonetic := Z.testbit options 2 in
  let richtext := Z.testbit options 3 in
  do (rt, pos) <- (if richtext then do rt <- unpack_u16 data pos; Ok (rt, pos + 2) else Ok (0, pos));
  do (sz, pos) <- (if phonetic then do sz <- unpack_i32 data pos; Ok (sz, pos + 4) else Ok (0, pos));
  do (strg, pos) <-
     (if Z.testbit options 0
      then do s <- utf16_dec (py_slice data pos (pos + 2 * nchars)); Ok (s, pos + 2 * nchars)
      else Ok (py_slice data pos (pos + nchars), pos + nchars));
  let pos := if richtext then pos + 4 * rt else pos in
  let pos := if phonetic then pos + sz else pos in
  Ok (strg, pos).

(** biffh.py:336-352: the ranges read and the new position. *)
Fixpoint cell_range_loop (k : nat) (data : list Z) (pos addr_size : Z) (acc : list (Z * Z * Z * Z))
  : result (list (Z * Z * Z * Z) * Z) :=
  match k with
  | O => Ok (acc, pos)
  | S k' =>
      if zlen (py_slice data pos (pos + addr_size)) =? addr_size then
        do ra <- unpack_u16 data pos; do rb <- unpack_u16 data (pos + 2);
        do (ca, cb) <-
          (if addr_size =? 6
           then do ca <- unpack_le 1 data (pos + 4); do cb <- unpack_le 1 data (pos + 5); Ok (ca, cb)
           else do ca <- unpack_u16 data (pos + 4); do cb <- unpack_u16 data (pos + 6); Ok (ca, cb));
        cell_range_loop k' data (pos + addr_size) addr_size (acc ++ [(ra, rb + 1, ca, cb + 1)])
      else Err StructError
  end.

Definition unpack_cell_range_address_list_update_pos
    (output_list : list (Z * Z * Z * Z)) (data : list Z) (pos addr_size : Z)
  : result (list (Z * Z * Z * Z) * Z) :=
  if negb ((addr_size =? 6) || (addr_size =? 8)) then Err AssertionError else
  do n <- unpack_u16 data pos;
  cell_range_loop (Z.to_nat n) data (pos + 2) addr_size output_list.
