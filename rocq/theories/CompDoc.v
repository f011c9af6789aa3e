(** Model of /repo/xlrd/compdoc.py.  DEBUG is 0 and logging is left out.  A file
    image is a list of bytes.  [array('B')] values are lists; storing a number
    above 255 is OverflowError. *)
From Verif Require Import Base Utf16 GridModel.

(** compdoc.py:20-26 *)
Definition SIGNATURE : list Z := [0xD0; 0xCF; 0x11; 0xE0; 0xA1; 0xB1; 0x1A; 0xE1].
Definition EOCSID : Z := -2.
Definition FREESID : Z := -1.
Definition MSATSID : Z := -4.

(** compdoc.py:32-49.  The name is what lines 42-45 give; colour and time stamps
    are only checked to be there. *)
Record dirnode : Type := mk_dirnode {
  d_did : Z;
  d_name : list Z;
  d_etype : Z;
  d_left : Z;
  d_right : Z;
  d_root : Z;
  d_first : Z;
  d_size : Z;
}.

Definition dir_node (did : Z) (dent : list Z) : result dirnode :=
  do _ <- guard (zlen (py_slice dent 64 80) =? 16) StructError;
  do cbufsize <- unpack_u16 dent 64;
  do etype <- unpack_le 1 dent 66;
  do ldid <- unpack_i32 dent 68;
  do rdid <- unpack_i32 dent 72;
  do sub <- unpack_i32 dent 76;
  do _ <- guard (zlen (py_slice dent 116 124) =? 8) StructError;
  do first <- unpack_i32 dent 116;
  do size <- unpack_i32 dent 120;
  do name <- (if cbufsize =? 0 then Ok [] else utf16_dec (py_slice dent 0 (cbufsize - 2)));
  do _ <- guard (zlen (py_slice dent 100 116) =? 16) StructError;
  Ok (mk_dirnode did name etype ldid rdid sub first size).

(** compdoc.py:230-234: the 128-byte entries of the directory. *)
Fixpoint dir_nodes (did : Z) (dbytes : list Z) (positions : list Z) : result (list dirnode) :=
  match positions with
  | [] => Ok []
  | pos :: rest =>
      do d <- dir_node did (py_slice dbytes pos (pos + 128));
      do ds <- dir_nodes (did + 1) dbytes rest;
      Ok (d :: ds)
  end.

(** [range(0, n, 128)] *)
Definition positions128 (n : Z) : list Z := map (fun k => 128 * k) (zrange 0 ((n + 127) / 128)).

(** The mutable part of the directory: the children list and the parent of each entry. *)
Record family : Type := mk_family { f_children : list (list Z); f_parent : list Z }.

(** compdoc.py:67-68 *)
Definition adopt (fam : family) (parent child : Z) : result family :=
  do kids <- py_index (f_children fam) parent;
  do ch <- list_set (f_children fam) parent (kids ++ [child]);
  do pa <- list_set (f_parent fam) child parent;
  Ok (mk_family ch pa).

(** compdoc.py:64-71.  [depth] is the number of nested calls the interpreter
    still allows; beyond it Python raises RecursionError. *)
Fixpoint build_family_tree (depth : nat) (dl : list dirnode) (fam : family) (parent child : Z) : result family :=
  match depth with
  | O => Err RecursionErr
  | S depth' =>
      if child <? 0 then Ok fam else
      do d <- py_index dl child;
      do fam <- build_family_tree depth' dl fam parent (d_left d);
      do fam <- adopt fam parent child;
      do fam <- build_family_tree depth' dl fam parent (d_right d);
      if d_etype d =? 1 then build_family_tree depth' dl fam child (d_root d) else Ok fam
  end.

(** [self.seen[s] = seen_id] *)
Definition seen_set (seen : list Z) (s seen_id : Z) : result (list Z) :=
  do seen' <- list_set seen s seen_id;
  if (0 <=? seen_id) && (seen_id <=? 255) then Ok seen' else Err OverflowError.

(** The check and the mark, e.g. compdoc.py:292-295. *)
Definition mark (seen : list Z) (s seen_id : Z) : result (list Z) :=
  do v <- py_index seen s;
  if negb (v =? 0) then Err CompDocError else seen_set seen s seen_id.

(** compdoc.py:285-332.  One function for both loops: [todo] is [None] when no
    size is given.  The result is the joined text and the new [seen]. *)
Fixpoint get_stream (fuel : nat) (mem : list Z) (base : Z) (sat : list Z) (sec_size : Z)
    (seen_id : option Z) (seen : list Z) (s : Z) (todo : option Z) : result (list Z * list Z) :=
  match fuel with
  | O => Err OutOfFuel
  | S fuel' =>
      if s <? 0 then
        do _ <- guard (s =? EOCSID) AssertionError; Ok ([], seen)
      else
        do seen <- match seen_id with None => Ok seen | Some id => mark seen s id end;
        let start_pos := base + s * sec_size in
        let grab := match todo with
                    | None => sec_size
                    | Some t => if sec_size >? t then t else sec_size
                    end in
        let piece := py_slice mem start_pos (start_pos + grab) in
        do s' <- match py_index sat s with Ok v => Ok v | Err _ => Err CompDocError end;
        do (r, seen) <- get_stream fuel' mem base sat sec_size seen_id seen s' (option_map (fun t => t - grab) todo);
        Ok (piece ++ r, seen)
  end.

(** compdoc.py:425-449, the loop of _locate_stream: [p] is the previous sector,
    the result the slices before the last, the last slice, the number of
    sectors found, the final sector id and the new [seen]. *)
Fixpoint locate_loop (fuel : nat) (ignore : bool) (base : Z) (sat : list Z) (sec_size seen_id found_limit : Z)
    (seen : list Z) (s p start_pos end_pos tot_found : Z)
  : result (list (Z * Z) * (Z * Z) * Z * Z * list Z) :=
  match fuel with
  | O => Err OutOfFuel
  | S fuel' =>
      if s <? 0 then Ok ([], (start_pos, end_pos), tot_found, s, seen) else
      do v <- py_index seen s;
      do _ <- guard ((v =? 0) || ignore) CompDocError;
      do seen <- seen_set seen s seen_id;
      let tot_found := tot_found + 1 in
      do _ <- guard (negb (tot_found >? found_limit)) CompDocError;
      let '(before, start_pos, end_pos) :=
        if s =? p + 1 then ([], start_pos, end_pos + sec_size)
        else (if p >=? 0 then [(start_pos, end_pos)] else [],
              base + s * sec_size, base + s * sec_size + sec_size) in
      do s' <- py_index sat s;
      do (slices, last, tot, fin, seen) <-
        locate_loop fuel' ignore base sat sec_size seen_id found_limit seen s' s start_pos end_pos tot_found;
      Ok (before ++ slices, last, tot, fin, seen)
  end.

(** compdoc.py:414-458: (bytes, offset, length) and the new [seen]. *)
Definition locate_stream (fuel : nat) (ignore : bool) (mem : list Z) (base : Z) (sat : list Z) (sec_size : Z)
    (start_sid expected_stream_size seen_id : Z) (seen : list Z) : result ((list Z * Z * Z) * list Z) :=
  if start_sid <? 0 then Err CompDocError else
  let found_limit := (expected_stream_size + sec_size - 1) / sec_size in
  do (slices, last, tot_found, s, seen) <-
    locate_loop fuel ignore base sat sec_size seen_id found_limit seen start_sid (-99) (-9999) (-8888) 0;
  do _ <- guard (s =? EOCSID) AssertionError;
  do _ <- guard (tot_found =? found_limit) AssertionError;
  match slices with
  | [] => Ok ((mem, fst last, expected_stream_size), seen)
  | _ :: _ =>
      Ok ((flat_map (fun ab => py_slice mem (fst ab) (snd ab)) (slices ++ [last]), 0, expected_stream_size), seen)
  end.

(** The attributes of a CompDoc object.  [cd_sscs] is [None] for the empty text
    of line 252 (a [str], not [bytes]). *)
Record compdoc : Type := mk_compdoc {
  cd_mem : list Z;
  cd_data_len : Z;                 (* mem_data_len *)
  cd_sec_size : Z;
  cd_short_sec_size : Z;
  cd_min_std : Z;                  (* min_size_std_stream *)
  cd_sat : list Z;
  cd_ssat : list Z;
  cd_sscs : option (list Z);
  cd_dirlist : list dirnode;
  cd_children : list (list Z);
  cd_seen : list Z;
  cd_ignore : bool;                (* ignore_workbook_corruption *)
}.

(** [unpack('<%di' % n, data[pos:pos+size])] *)
Definition unpack_i32s (n size : Z) (data : list Z) (pos : Z) : result (list Z) :=
  if negb (zlen (py_slice data pos (pos + size)) =? 4 * n) then Err StructError else
  mapM (fun i => unpack_i32 data (pos + 4 * i)) (zrange 0 n).

(** compdoc.py:148-174, the MSAT extension: MSAT and [seen]. *)
Fixpoint msatx_loop (fuel : nat) (mem : list Z) (sec_size nent secs : Z) (seen msat : list Z) (sid : Z)
  : result (list Z * list Z) :=
  match fuel with
  | O => Err OutOfFuel
  | S fuel' =>
      if (sid =? EOCSID) || (sid =? FREESID) || (sid =? MSATSID) then Ok (msat, seen) else
      if sid >=? secs then Err CompDocError else
      if sid <? 0 then Err CompDocError else
      do seen <- mark seen sid 1;
      do news <- unpack_i32s nent sec_size mem (512 + sec_size * sid);
      let msat := msat ++ news in
      do sid' <- py_index msat (-1);
      msatx_loop fuel' mem sec_size nent secs seen (removelast msat) sid'
  end.

(** compdoc.py:181-207: the SAT and [seen]. *)
Fixpoint sat_loop (mem : list Z) (sec_size nent secs : Z) (seen : list Z) (msat : list Z)
  : result (list Z * list Z) :=
  match msat with
  | [] => Ok ([], seen)
  | msid :: rest =>
      if (msid =? FREESID) || (msid =? EOCSID) then sat_loop mem sec_size nent secs seen rest else
      if msid >=? secs then sat_loop mem sec_size nent secs seen rest else
      if msid <? -2 then Err CompDocError else
      do seen <- mark seen msid 2;
      do news <- unpack_i32s nent sec_size mem (512 + sec_size * msid);
      do (sat, seen) <- sat_loop mem sec_size nent secs seen rest;
      Ok (news ++ sat, seen)
  end.

(** compdoc.py:265-275: the SSAT, [seen], the last sid and the remaining number
    of sectors; [nsecs] goes down by one in each turn. *)
Fixpoint ssat_loop (nsecs : nat) (mem : list Z) (sec_size nent : Z) (sat seen : list Z) (sid : Z)
  : result (list Z * list Z * Z * nat) :=
  if sid <? 0 then Ok ([], seen, sid, nsecs) else
  match nsecs with
  | O => Ok ([], seen, sid, O)
  | S n =>
      do seen <- mark seen sid 5;
      do news <- unpack_i32s nent sec_size mem (512 + sid * sec_size);
      do sid' <- py_index sat sid;
      do (ssat, seen, sid', n') <- ssat_loop n mem sec_size nent sat seen sid';
      Ok (news ++ ssat, seen, sid', n')
  end.

(** compdoc.py:84-283.  [fuel] bounds the two sector loops that follow chains,
    [depth] the nesting of calls.  The numbers 3 of line 229 and 4 of line 256
    are the marks of the directory and of the short stream container. *)
Definition open_compdoc (fuel depth : nat) (mem : list Z) (ignore : bool) : result compdoc :=
  if negb (list_eqb (py_slice mem 0 8) SIGNATURE) then Err CompDocError else
  if negb (list_eqb (py_slice mem 28 30) [0xFE; 0xFF]) then Err CompDocError else
  do _ <- guard (zlen (py_slice mem 24 28) =? 4) StructError;
  do _ <- guard (zlen (py_slice mem 30 34) =? 4) StructError;
  do ssz <- unpack_u16 mem 30;
  do sssz <- unpack_u16 mem 32;
  let ssz := if ssz >? 20 then 9 else ssz in
  let sssz := if sssz >? ssz then 6 else sssz in
  let sec_size := Z.shiftl 1 ssz in
  do _ <- guard (zlen (py_slice mem 44 76) =? 32) StructError;
  do dir_first <- unpack_i32 mem 48;
  do min_std <- unpack_i32 mem 56;
  do ssat_first <- unpack_i32 mem 60;
  do ssat_tot <- unpack_i32 mem 64;
  do msatx_first <- unpack_i32 mem 68;
  do msatx_tot <- unpack_i32 mem 72;
  let mem_data_len := zlen mem - 512 in
  let secs := if negb (mem_data_len mod sec_size =? 0) then mem_data_len / sec_size + 1 else mem_data_len / sec_size in
  let seen := zrepeat 0 secs in
  let nent := sec_size / 4 in
  do msat <- unpack_i32s 109 436 mem 76;
  do _ <- guard (negb (nent =? 0)) ZeroDivisionError;
  do _ <- guard (negb (nent =? 1)) ZeroDivisionError;
  do (msat, seen) <-
    (if (msatx_tot =? 0) && ((msatx_first =? EOCSID) || (msatx_first =? FREESID) || (msatx_first =? 0))
     then Ok (msat, seen)
     else msatx_loop fuel mem sec_size nent secs seen msat msatx_first);
  do (sat, seen) <- sat_loop mem sec_size nent secs seen msat;
  do (dbytes, seen) <- get_stream fuel mem 512 sat sec_size (Some 3) seen dir_first None;
  do dirlist <- dir_nodes 0 dbytes (positions128 (zlen dbytes));
  do root <- py_index dirlist 0;
  do fam <- build_family_tree depth dirlist
              (mk_family (map (fun _ => []) dirlist) (map (fun _ => -1) dirlist)) 0 (d_root root);
  do _ <- guard (d_etype root =? 5) AssertionError;
  do (sscs, seen) <-
    (if (d_first root <? 0) || (d_size root =? 0) then Ok (None, seen)
     else do (b, seen) <- get_stream fuel mem 512 sat sec_size (Some 4) seen (d_first root) (Some (d_size root));
          Ok (Some b, seen));
  do (ssat, seen) <-
    (if d_size root >? 0 then
       do (ssat, seen, sid, n) <- ssat_loop (Z.to_nat ssat_tot) mem sec_size nent sat seen ssat_first;
       do _ <- guard ((Z.max 0 ssat_tot =? ssat_tot) && (match n with O => true | S _ => false end) && (sid =? EOCSID))
                 AssertionError;
       Ok (ssat, seen)
     else Ok ([], seen));
  Ok (mk_compdoc mem mem_data_len sec_size (Z.shiftl 1 sssz) min_std sat ssat sscs dirlist (f_children fam) seen ignore).

(** [qname.split("/")] *)
Fixpoint split_slash (s : list Z) : list (list Z) :=
  match s with
  | [] => [[]]
  | c :: r =>
      match split_slash r with
      | w :: ws => if c =? 47 then [] :: w :: ws else (c :: w) :: ws
      | [] => [[c]]
      end
  end.

Section Lookup.
(** [str.lower] *)
Variable lower : list Z -> list Z.

(** compdoc.py:339-350, the loop over the children; [rec] searches a storage. *)
Fixpoint search_children (dl : list dirnode) (rec : Z -> result (option dirnode)) (last : bool) (head : list Z)
    (kids : list Z) : result (option dirnode) :=
  match kids with
  | [] => Ok None
  | child :: rest =>
      do d <- py_index dl child;
      if list_eqb (lower (d_name d)) (lower head) then
        if d_etype d =? 2 then Ok (Some d)
        else if d_etype d =? 1 then (if last then Err CompDocError else rec child)
        else Err CompDocError
      else search_children dl rec last head rest
  end.

(** compdoc.py:334-350 *)
Fixpoint dir_search (dl : list dirnode) (children : list (list Z)) (path : list (list Z)) (storage : Z)
  : result (option dirnode) :=
  match path with
  | [] => Err IndexError
  | head :: tail =>
      do kids <- py_index children storage;
      search_children dl (dir_search dl children tail)
        (match tail with [] => true | _ => false end) head kids
  end.

(** Reading from the short stream container, compdoc.py:368-371 and 403-407:
    joining pieces of the [str] of line 252 is TypeError. *)
Definition get_short (fuel : nat) (cd : compdoc) (d : dirnode) : result (list Z) :=
  do (b, _) <- get_stream fuel (match cd_sscs cd with Some b => b | None => [] end) 0 (cd_ssat cd)
                 (cd_short_sec_size cd) None [] (d_first d) (Some (d_size d));
  match cd_sscs cd with
  | Some _ => Ok b
  | None => if d_first d <? 0 then Ok b else Err TypeError
  end.

Definition with_seen (cd : compdoc) (seen : list Z) : compdoc :=
  mk_compdoc (cd_mem cd) (cd_data_len cd) (cd_sec_size cd) (cd_short_sec_size cd) (cd_min_std cd) (cd_sat cd)
    (cd_ssat cd) (cd_sscs cd) (cd_dirlist cd) (cd_children cd) seen (cd_ignore cd).

(** compdoc.py:353-371 *)
Definition get_named_stream (fuel : nat) (cd : compdoc) (qname : list Z) : result (option (list Z) * compdoc) :=
  do d <- dir_search (cd_dirlist cd) (cd_children cd) (split_slash qname) 0;
  match d with
  | None => Ok (None, cd)
  | Some d =>
      if d_size d >=? cd_min_std cd then
        do (b, seen) <- get_stream fuel (cd_mem cd) 512 (cd_sat cd) (cd_sec_size cd) (Some (d_did d + 6)) (cd_seen cd)
                          (d_first d) (Some (d_size d));
        Ok (Some b, with_seen cd seen)
      else do b <- get_short fuel cd d; Ok (Some b, cd)
  end.

(** compdoc.py:374-412; [None] for (None, 0, 0). *)
Definition locate_named_stream (fuel : nat) (cd : compdoc) (qname : list Z)
  : result (option (list Z * Z * Z) * compdoc) :=
  do d <- dir_search (cd_dirlist cd) (cd_children cd) (split_slash qname) 0;
  match d with
  | None => Ok (None, cd)
  | Some d =>
      if d_size d >? cd_data_len cd then Err CompDocError else
      if d_size d >=? cd_min_std cd then
        do (r, seen) <- locate_stream fuel (cd_ignore cd) (cd_mem cd) 512 (cd_sat cd) (cd_sec_size cd)
                          (d_first d) (d_size d) (d_did d + 6) (cd_seen cd);
        Ok (Some r, with_seen cd seen)
      else do b <- get_short fuel cd d; Ok (Some (b, 0, d_size d), cd)
  end.
End Lookup.
