(** Model of /repo/xlrd/book.py:1160-1183 (handle_sst) and 1389-1474
    (unpack_SST_table).  [datainx] is represented by the list [rest] of record
    bodies after the current one; [datatab[datainx]] past the end is IndexError. *)
From Verif Require Import Base Utf16 Framing.

(** book.py:1422-1457, the [while 1] loop over the fragments of one string.
    Returns the text, and the new data, position and rest. *)
Fixpoint sst_chars (rest : list (list Z)) (data : list Z) (pos options nchars charsgot : Z) (accstrg : list Z)
  : result (list Z * list Z * Z * list (list Z)) :=
  let datalen := zlen data in
  let charsneed := nchars - charsgot in
  do (piece, pos, charsavail) <-
    (if Z.testbit options 0 then
       let charsavail := Z.min (Z.shiftr (datalen - pos) 1) charsneed in
       let rawstrg := py_slice data pos (pos + 2 * charsavail) in
       do s <- utf16_dec rawstrg;
       Ok (s, pos + 2 * charsavail, charsavail)
     else
       let charsavail := Z.min (datalen - pos) charsneed in
       Ok (py_slice data pos (pos + charsavail), pos + charsavail, charsavail));
  let accstrg := accstrg ++ piece in
  let charsgot := charsgot + charsavail in
  if charsgot =? nchars then Ok (accstrg, data, pos, rest) else
  match rest with
  | [] => Err IndexError
  | data' :: rest' =>
      do options' <- py_index data' 0;
      sst_chars rest' data' 1 options' nchars charsgot accstrg
  end.

(** book.py:1461-1468, the loop over the formatting runs. *)
Fixpoint sst_runs (k : nat) (rest : list (list Z)) (data : list Z) (pos : Z) (runs : list (Z * Z))
  : result (list (Z * Z) * list Z * Z * list (list Z)) :=
  match k with
  | O => Ok (runs, data, pos, rest)
  | S k' =>
      do (data, pos, rest) <-
        (if pos =? zlen data then
           match rest with [] => Err IndexError | d :: r => Ok (d, 0, r) end
         else Ok (data, pos, rest));
      if negb (zlen (py_slice data pos (pos + 4)) =? 4) then Err StructError else
      do a <- unpack_u16 data pos;
      do b <- unpack_u16 data (pos + 2);
      sst_runs k' rest data (pos + 4) (runs ++ [(a, b)])
  end.

(** book.py:1404-1473, the [for] loop; [n] strings are still to be read,
    [strings] and [runs] are the results so far. *)
Fixpoint sst_loop (n : nat) (rest : list (list Z)) (data : list Z) (pos : Z)
    (strings : list (list Z)) (richtext_runs : list (Z * list (Z * Z)))
  : result (list (list Z) * list (Z * list (Z * Z))) :=
  match n with
  | O => Ok (strings, richtext_runs)
  | S n' =>
      do nchars <- unpack_u16 data pos;
      let pos := pos + 2 in
      do options <- py_index data pos;
      let pos := pos + 1 in
      do (rtcount, pos) <- (if Z.testbit options 3 then do v <- unpack_u16 data pos; Ok (v, pos + 2) else Ok (0, pos));
      do (phosz, pos) <- (if Z.testbit options 2 then do v <- unpack_i32 data pos; Ok (v, pos + 4) else Ok (0, pos));
      do (accstrg, data, pos, rest) <- sst_chars rest data pos options nchars 0 [];
      do (data, pos, rest, richtext_runs) <-
        (if negb (rtcount =? 0) then
           do (runs, data, pos, rest) <- sst_runs (Z.to_nat rtcount) rest data pos [];
           Ok (data, pos, rest, richtext_runs ++ [(zlen strings, runs)])
         else Ok (data, pos, rest, richtext_runs));
      let pos := pos + phosz in
      do (data, pos, rest) <-
        (if pos >=? zlen data then
           let pos := pos - zlen data in
           match rest with
           | d :: r => Ok (d, pos, r)
           | [] => if (match n' with O => true | S _ => false end) then Ok (data, pos, []) else Err AssertionError
           end
         else Ok (data, pos, rest));
      sst_loop n' rest data pos (strings ++ [accstrg]) richtext_runs
  end.

(** book.py:1389-1474; [datatab] is the non-empty list data :: rest. *)
Definition unpack_SST_table (data : list Z) (rest : list (list Z)) (nstrings : Z)
  : result (list (list Z) * list (Z * list (Z * Z))) :=
  sst_loop (Z.to_nat nstrings) rest data 8 [] [].

(** book.py:1170-1177, collecting the CONTINUE bodies. *)
Fixpoint collect_continue (fuel : nat) (mem : list Z) (position : Z) (acc : list (list Z))
  : result (list (list Z) * Z) :=
  match fuel with
  | O => Err OutOfFuel
  | S f =>
      do (r, position) <- get_record_parts_conditional mem position 60;
      match r with
      | None => Ok (acc, position)
      | Some (_, _, data) => collect_continue f mem position (acc ++ [data])
      end
  end.

(** book.py:1160-1180: shared strings, rich text run list, new position. *)
Definition handle_sst (mem : list Z) (position : Z) (data : list Z)
  : result (list (list Z) * list (Z * list (Z * Z)) * Z) :=
  do uniquestrings <- unpack_i32 data 4;
  do (strlist, position) <- collect_continue (S (length mem)) mem position [];
  do (strings, runs) <- unpack_SST_table data strlist uniquestrings;
  Ok (strings, runs, position).
