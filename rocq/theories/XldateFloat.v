(** Model of the float entry points of /repo/xlrd/xldate.py. *)
From Flocq Require Import IEEE754.Binary.
From Verif Require Import Base XldateModel PyFloat.

(** A Python number given as [xldate]: an int or a float. *)
Inductive pynum : Type := PInt (n : Z) | PFloat (x : flt).

(** xldate.py:59-127.  For an int, [frac] is the int 0 and
    [round(0 * 86400.0)] is 0. *)
Definition xldate_as_tuple (xldate : pynum) (datemode : Z) : result dtuple :=
  if negb (datemode_ok datemode) then Err XLDateBadDatemode else
  match xldate with
  | PInt n =>
      if n =? 0 then Ok ((0, 0, 0), (0, 0, 0)) else
      if n <? 0 then Err XLDateNegative else
      as_tuple_core n 0 datemode
  | PFloat x =>
      if f_is_zero x then Ok ((0, 0, 0), (0, 0, 0)) else
      if f_is_neg x then Err XLDateNegative else
      do xldays <- f_int x;
      let frac := fsub x (f_of_Z xldays) in
      do seconds <- f_round (fmul frac (f_of_Z 86400));
      as_tuple_core xldays seconds datemode
  end.

(** xldate.py:173-217 *)
Definition xldate_from_date_tuple (p : ymd) (datemode : Z) : result flt :=
  do n <- from_date_tuple_z p datemode; Ok (f_of_Z n).

(** xldate.py:232 *)
Definition time_fraction (t : Z * Z * Z) : flt :=
  let '(hour, minute, second) := t in
  fdiv (fadd (fdiv (fadd (fdiv (f_of_Z second) (f_of_Z 60)) (f_of_Z minute)) (f_of_Z 60))
             (f_of_Z hour)) (f_of_Z 24).

(** xldate.py:220-233 *)
Definition xldate_from_time_tuple (t : Z * Z * Z) : result flt :=
  let '(hour, minute, second) := t in
  if (0 <=? hour) && (hour <? 24) && (0 <=? minute) && (minute <? 60)
     && (0 <=? second) && (second <? 60)
  then Ok (time_fraction t)
  else Err XLDateBadTuple.

(** xldate.py:236-248 *)
Definition xldate_from_datetime_tuple (p : ymd) (t : Z * Z * Z) (datemode : Z) : result flt :=
  do a <- xldate_from_date_tuple p datemode;
  do b <- xldate_from_time_tuple t;
  Ok (fadd a b).

(** xldate.py:130-159.  [datemode] is only tested for truth here. *)
Definition xldate_as_datetime (xldate : pynum) (datemode : Z) : result pydatetime :=
  let lt60 := match xldate with PInt n => n <? 60 | PFloat x => f_ltb x (f_of_Z 60) end in
  let epoch := if negb (datemode =? 0) then epoch_1904_ord
               else if lt60 then epoch_1900_ord else epoch_1900_minus_1_ord in
  match xldate with
  | PInt n => add_timedelta epoch n 0 0
  | PFloat x =>
      do days <- f_int x;
      let fraction := fsub x (f_of_Z days) in
      do seconds <- f_round (fmul fraction (f_of_Z 86400000));
      add_timedelta epoch days (seconds / 1000) (seconds mod 1000)
  end.
