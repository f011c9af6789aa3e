(** Model of /repo/xlrd/xldate.py (integer arithmetic; the float entry points
    are in XldateFloat.v). *)
From Verif Require Import Base.

(** xldate.py:23 [_JDN_delta] indexed by a valid datemode. *)
Definition jdn_delta (datemode : Z) : Z :=
  if datemode =? 0 then 2415080 - 61 else 2416482 - 1.

(** xldate.py:32 [_XLDAYS_TOO_LARGE] *)
Definition xldays_too_large (datemode : Z) : Z :=
  if datemode =? 0 then 2958466 else 2958466 - 1462.

(** xldate.py:91 [datemode not in (0, 1)] *)
Definition datemode_ok (datemode : Z) : bool := (datemode =? 0) || (datemode =? 1).

Definition ymd : Type := (Z * Z * Z)%type.

(** xldate.py:119-127, from the Julian day number to year, month, day. *)
Definition date_of_jdn (jdn : Z) : ymd :=
  let yreg := ((((jdn * 4 + 274277) / 146097) * 3 / 4) + jdn + 1363) * 4 + 3 in
  let mp := ((yreg mod 1461) / 4) * 535 + 333 in
  let d := (mp mod 16384) / 535 + 1 in
  let mp := Z.shiftr mp 14 in
  if mp >=? 10
  then (yreg / 1461 - 4715, mp - 9, d)
  else (yreg / 1461 - 4716, mp + 3, d).

(** Result tuple (year, month, day, hour, minute, second). *)
Definition dtuple : Type := (ymd * (Z * Z * Z))%type.

(** xldate.py:100-127: what happens after [xldays] and [seconds] are known. *)
Definition as_tuple_core (xldays seconds datemode : Z) : result dtuple :=
  if negb ((0 <=? seconds) && (seconds <=? 86400)) then Err AssertionError else
  let '(xldays, hms) :=
    if seconds =? 86400 then (xldays + 1, (0, 0, 0))
    else (xldays, (seconds / 60 / 60, (seconds / 60) mod 60, seconds mod 60)) in
  if xldays >=? xldays_too_large datemode then Err XLDateTooLarge else
  if xldays =? 0 then Ok ((0, 0, 0), hms) else
  if (xldays <? 61) && (datemode =? 0) then Err XLDateAmbiguous else
  Ok (date_of_jdn (xldays + jdn_delta datemode), hms).

(** xldate.py:164-168 [_leap], as a truth value. *)
Definition leap_py (y : Z) : bool :=
  if negb (y mod 4 =? 0) then false else
  if negb (y mod 100 =? 0) then true else
  if negb (y mod 400 =? 0) then false else true.

(** xldate.py:170 [_days_in_month], for 1 <= month <= 12. *)
Definition days_in_month_py (m : Z) : Z :=
  nth (Z.to_nat m) [0; 31; 28; 31; 30; 31; 30; 31; 31; 30; 31; 30; 31] 0.

(** xldate.py:203-211 *)
Definition jdn_of_date (p : ymd) : Z :=
  let '(year, month, day) := p in
  let Yp := year + 4716 in
  let '(Yp, Mp) := if month <=? 2 then (Yp - 1, month + 9) else (Yp, month - 3) in
  (1461 * Yp / 4) + ((979 * Mp + 16) / 32) + day - 1364 - (((Yp + 184) / 100) * 3 / 4).

(** xldate.py:187-217 [xldate_from_date_tuple] up to the final [float(xldays)];
    the result 0.00 of line 193 is the integer 0 here. *)
Definition from_date_tuple_z (p : ymd) (datemode : Z) : result Z :=
  let '(year, month, day) := p in
  if negb (datemode_ok datemode) then Err XLDateBadDatemode else
  if (year =? 0) && (month =? 0) && (day =? 0) then Ok 0 else
  if negb ((1900 <=? year) && (year <=? 9999)) then Err XLDateBadTuple else
  if negb ((1 <=? month) && (month <=? 12)) then Err XLDateBadTuple else
  if (day <? 1) ||
     ((day >? days_in_month_py month) && negb ((day =? 29) && (month =? 2) && leap_py year))
  then Err XLDateBadTuple else
  let xldays := jdn_of_date p - jdn_delta datemode in
  if xldays <=? 0 then Err XLDateBadTuple else
  if (xldays <? 61) && (datemode =? 0) then Err XLDateAmbiguous else
  Ok xldays.

(** CPython Lib/datetime.py [_ord2ymd]: the run-time function behind
    [datetime.datetime] arithmetic used at xldate.py:159.  Not part of /repo;
    modelled so that the fields of the resulting datetime can be stated. *)
Definition days_before_month (m : Z) : Z :=
  nth (Z.to_nat m) [0; 0; 31; 59; 90; 120; 151; 181; 212; 243; 273; 304; 334] 0.

Definition ord2ymd (n : Z) : ymd :=
  let n := n - 1 in
  let n400 := n / 146097 in let n := n mod 146097 in
  let year := n400 * 400 + 1 in
  let n100 := n / 36524 in let n := n mod 36524 in
  let n4 := n / 1461 in let n := n mod 1461 in
  let n1 := n / 365 in let n := n mod 365 in
  let year := year + n100 * 100 + n4 * 4 + n1 in
  if (n1 =? 4) || (n100 =? 4) then (year - 1, 12, 31) else
  let leapyear := (n1 =? 3) && (negb (n4 =? 24) || (n100 =? 3)) in
  let month := (n + 50) / 32 in
  let prec m := days_before_month m + (if (m >? 2) && leapyear then 1 else 0) in
  let month := if prec month >? n then month - 1 else month in
  (year, month, n - prec month + 1).

(** xldate.py:27-29 the epochs, as proleptic Gregorian ordinals
    (day 1 is 0001-01-01). *)
Definition epoch_1904_ord : Z := 695056.
Definition epoch_1900_ord : Z := 693595.
Definition epoch_1900_minus_1_ord : Z := 693594.

(** A datetime: date fields and microseconds after midnight. *)
Definition pydatetime : Type := (ymd * Z)%type.

(** [epoch + timedelta(days, seconds, 0, milliseconds)] (xldate.py:159):
    normalisation into whole days and a remainder, OverflowError outside the
    years 1..9999 (ordinals 1..3652059). *)
Definition add_timedelta (epoch days seconds milliseconds : Z) : result pydatetime :=
  let ms := (days * 86400 + seconds) * 1000 + milliseconds in
  let o := epoch + ms / 86400000 in
  if (1 <=? o) && (o <=? 3652059)
  then Ok (ord2ymd o, (ms mod 86400000) * 1000)
  else Err OverflowError.
