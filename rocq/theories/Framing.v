(** Model of the BIFF record framing, /repo/xlrd/book.py:666-694.  The state is
    the pair of [self.mem] (constant) and [self._position]. *)
From Verif Require Import Base.

(** book.py:28, 0xF00BAAA *)
Definition MY_EOF : Z := 251706026.

(** book.py:666-674 *)
Definition get2bytes (mem : list Z) (position : Z) : result (Z * Z) :=
  let buff_two := py_slice mem position (position + 2) in
  let position := position + zlen buff_two in
  match buff_two with
  | [lo; hi] => Ok (Z.lor (Z.shiftl hi 8) lo, position)
  | _ => Ok (MY_EOF, position)
  end.

(** book.py:676-683: (code, length, data) and the new position. *)
Definition get_record_parts (mem : list Z) (position : Z) : result ((Z * Z * list Z) * Z) :=
  let pos := position in
  if negb (zlen (py_slice mem pos (pos + 4)) =? 4) then Err StructError else
  do code <- unpack_u16 mem pos;
  do length <- unpack_u16 mem (pos + 2);
  let pos := pos + 4 in
  let data := py_slice mem pos (pos + length) in
  Ok ((code, length, data), pos + length).

(** book.py:685-694: [None] when the next record is of another kind. *)
Definition get_record_parts_conditional (mem : list Z) (position reqd : Z)
  : result (option (Z * Z * list Z) * Z) :=
  let pos := position in
  if negb (zlen (py_slice mem pos (pos + 4)) =? 4) then Err StructError else
  do code <- unpack_u16 mem pos;
  do length <- unpack_u16 mem (pos + 2);
  if negb (code =? reqd) then Ok (None, position) else
  let pos := pos + 4 in
  let data := py_slice mem pos (pos + length) in
  Ok (Some (code, length, data), pos + length).

(** Specification side: a framed record. *)
Definition frame (r : Z * list Z) : list Z := le_enc 2 (fst r) ++ le_enc 2 (zlen (snd r)) ++ snd r.
Definition frames (rs : list (Z * list Z)) : list Z := flat_map frame rs.
Definition framable (r : Z * list Z) : Prop := 0 <= fst r < 65536 /\ zlen (snd r) < 65536.
