(** Specification of the Gregorian calendar, written independently of the code:
    month lengths, validity of a date, and the day after a date. *)
From Verif Require Import Base.

Definition greg_leap (y : Z) : Prop :=
  (4 | y) /\ (~ (100 | y) \/ (400 | y)).

Definition greg_leapb (y : Z) : bool :=
  (y mod 4 =? 0) && (negb (y mod 100 =? 0) || (y mod 400 =? 0)).

Definition month_len (y m : Z) : Z :=
  if m =? 2 then (if greg_leapb y then 29 else 28)
  else if (m =? 4) || (m =? 6) || (m =? 9) || (m =? 11) then 30 else 31.

Definition valid_date (p : Z * Z * Z) : Prop :=
  let '(y, m, d) := p in 1 <= m <= 12 /\ 1 <= d <= month_len y m.

Definition valid_dateb (p : Z * Z * Z) : bool :=
  let '(y, m, d) := p in (1 <=? m) && (m <=? 12) && (1 <=? d) && (d <=? month_len y m).

(** The day after. *)
Definition next_day (p : Z * Z * Z) : Z * Z * Z :=
  let '(y, m, d) := p in
  if d <? month_len y m then (y, m, d + 1)
  else if m <? 12 then (y, m + 1, 1)
  else (y + 1, 1, 1).

Fixpoint days_after (k : nat) (p : Z * Z * Z) : Z * Z * Z :=
  match k with O => p | S k' => next_day (days_after k' p) end.

(** Chronological order of dates: by year, then month, then day. *)
Definition date_lt (p q : Z * Z * Z) : Prop :=
  let '(y, m, d) := p in let '(y', m', d') := q in
  y < y' \/ (y = y' /\ (m < m' \/ (m = m' /\ d < d'))).

Definition valid_time (t : Z * Z * Z) : Prop :=
  let '(h, m, s) := t in 0 <= h < 24 /\ 0 <= m < 60 /\ 0 <= s < 60.
