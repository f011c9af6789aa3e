(** Proofs relating xldate's day-number arithmetic to the calendar. *)
From Verif Require Import Base BaseFacts CalendarSpec XldateModel.

Lemma greg_leapb_spec : forall y, greg_leapb y = true <-> greg_leap y.
Proof.
  intros y; unfold greg_leapb, greg_leap.
  rewrite andb_true_iff, orb_true_iff, negb_true_iff, !Z.eqb_eq, Z.eqb_neq.
  rewrite !Z.mod_divide by lia. tauto.
Qed.

Lemma valid_dateb_spec : forall p, valid_dateb p = true <-> valid_date p.
Proof. intros [[y m] d]; unfold valid_dateb, valid_date. rewrite !andb_true_iff. lia. Qed.

(** ** From day numbers to dates *)

(** Month and day within a year that starts in March, for each day number. *)
Definition doy_ok (n : Z) : bool :=
  let mp := n * 535 + 333 in
  let d := (mp mod 16384) / 535 + 1 in
  let m := mp / 16384 in
  (0 <=? m) && (m <=? 11) && ((979 * m + 16) / 32 + d - 1 =? n) && (1 <=? d) &&
  (let m' := if m >=? 10 then m - 9 else m + 3 in
   (d <=? (if m' =? 2 then if n =? 365 then 29 else 28
           else if (m' =? 4) || (m' =? 6) || (m' =? 9) || (m' =? 11) then 30 else 31)) &&
   ((m' =? 2) || negb (n =? 365))).

Lemma doy_checked : all_between 0 366 doy_ok = true.
Proof. vm_compute. reflexivity. Qed.

Lemma jdn_split : forall j, exists Y N,
  0 <= N <= 365 /\ 4 * N + (3 - Y mod 4) < 1461 /\
  ((j * 4 + 274277) / 146097 * 3 / 4 + j + 1363) * 4 + 3 = 1461 * Y + (4 * N + (3 - Y mod 4)) /\
  j = 1461 * Y / 4 + N - 1363 - (Y + 184) / 100 * 3 / 4 /\
  (N = 365 -> greg_leapb (Y - 4715) = true).
Proof.
  intros j.
  remember ((j * 4 + 274277) / 146097) as q eqn:Eq.
  remember (q * 3 / 4) as c eqn:Ec.
  remember ((c + j + 1363) * 4 + 3) as yreg eqn:Ey.
  exists (yreg / 1461), (yreg mod 1461 / 4).
  remember (yreg / 1461) as Y eqn:EY. remember (yreg mod 1461) as R eqn:ER.
  assert (R mod 4 = 3 - Y mod 4) as HR by lia.
  assert (c = (Y + 184) / 100 * 3 / 4) as HC.
  { assert ((Y + 184) / 100 = q \/ ((Y + 184) / 100 = q - 1 /\ q mod 4 = 1)) as [->|[-> Hq]] by lia; lia. }
  split; [lia|]. split; [lia|]. split; [lia|]. split; [rewrite <- HC; lia|].
  intros HN. unfold greg_leapb.
  assert ((Y - 4715) mod 4 = 0) as -> by lia.
  destruct ((Y - 4715) mod 100 =? 0) eqn:E; [|reflexivity].
  assert (exists h, Y - 4715 = 100 * h) as [h Hh] by (exists ((Y - 4715) / 100); lia).
  assert ((Y - 4715) mod 400 = 0) as ->; [|reflexivity].
  assert ((Y + 184) / 100 = h + 48) as E1 by lia. rewrite E1 in HC. lia.
Qed.

Lemma date_of_jdn_facts : forall j, valid_date (date_of_jdn j) /\ jdn_of_date (date_of_jdn j) = j.
Proof.
  intros j. destruct (jdn_split j) as (Y & N & HN & HR & Hy & Hj & HL).
  unfold date_of_jdn.
  rewrite Hy.
  replace ((1461 * Y + (4 * N + (3 - Y mod 4))) / 1461) with Y by lia.
  replace ((1461 * Y + (4 * N + (3 - Y mod 4))) mod 1461 / 4) with N by lia.
  rewrite Z.shiftr_div_pow2 by lia. change (2 ^ 14) with 16384.
  pose proof (all_between_spec _ _ _ doy_checked N ltac:(lia)) as D. unfold doy_ok in D.
  remember ((N * 535 + 333) / 16384) as m eqn:Em.
  remember (((N * 535 + 333) mod 16384) / 535 + 1) as d eqn:Ed.
  cbv zeta in D. clear Em Ed Hy.
  destruct (m >=? 10) eqn:E10.
  - unfold valid_date, jdn_of_date.
    replace (m - 9 <=? 2) with true by lia.
    replace (m - 9 + 9) with m by lia. replace (Y - 4715 + 4716 - 1) with Y by lia.
    split; [|lia]. split; [lia|]. unfold month_len.
    destruct (m - 9 =? 2) eqn:E2; [|lia].
    destruct (N =? 365) eqn:E3; [rewrite HL by lia; lia|]. destruct (greg_leapb (Y - 4715)); lia.
  - unfold valid_date, jdn_of_date.
    replace (m + 3 <=? 2) with false by lia.
    replace (m + 3 - 3) with m by lia. replace (Y - 4716 + 4716) with Y by lia.
    split; [|lia]. split; [lia|]. unfold month_len.
    replace (m + 3 =? 2) with false in * by lia. lia.
Qed.

Lemma date_of_jdn_valid : forall j, valid_date (date_of_jdn j).
Proof. intros j. apply date_of_jdn_facts. Qed.

Lemma jdn_date_jdn : forall j, jdn_of_date (date_of_jdn j) = j.
Proof. intros j. apply date_of_jdn_facts. Qed.

Lemma month_len_pos : forall y m, 28 <= month_len y m <= 31.
Proof.
  intros y m; unfold month_len. destruct (m =? 2); [destruct (greg_leapb y); lia|].
  destruct (_ || _); lia.
Qed.

Lemma next_day_valid : forall p, valid_date p -> valid_date (next_day p).
Proof.
  intros [[y m] d] [Hm Hd]; unfold next_day.
  destruct (d <? month_len y m) eqn:E; [split; lia|].
  destruct (m <? 12) eqn:E2; (split; [lia|]); pose proof (month_len_pos y (m + 1));
    pose proof (month_len_pos (y + 1) 1); lia.
Qed.

Lemma days_after_valid : forall k p, valid_date p -> valid_date (days_after k p).
Proof. induction k as [|k IH]; intros p H; cbn [days_after]; [exact H|]. apply next_day_valid, IH, H. Qed.

(** ** From dates to day numbers *)

Lemma month_cases : forall m, 1 <= m <= 12 ->
  m = 1 \/ m = 2 \/ m = 3 \/ m = 4 \/ m = 5 \/ m = 6 \/ m = 7 \/ m = 8 \/ m = 9 \/ m = 10 \/ m = 11 \/ m = 12.
Proof. lia. Qed.

Lemma jdn_add_days : forall y m d k, jdn_of_date (y, m, d + k) = jdn_of_date (y, m, d) + k.
Proof. intros; unfold jdn_of_date. destruct (m <=? 2); lia. Qed.

Lemma jdn_month_step : forall y m, 1 <= m < 12 ->
  jdn_of_date (y, m + 1, 1) = jdn_of_date (y, m, 1) + month_len y m.
Proof.
  intros y m Hm. destruct (Z.eq_dec m 2) as [->|N2].
  - unfold jdn_of_date, month_len. cbn [Z.eqb Pos.eqb Z.leb Z.compare Pos.compare Pos.compare_cont Z.add Pos.add Pos.succ].
    unfold greg_leapb.
    replace ((979 * (3 - 3) + 16) / 32) with 0 by reflexivity.
    replace ((979 * (2 + 9) + 16) / 32) with 337 by reflexivity.
    destruct (y mod 4 =? 0) eqn:E4, (y mod 100 =? 0) eqn:E100, (y mod 400 =? 0) eqn:E400; cbn [andb orb negb]; lia.
  - pose proof (month_cases m ltac:(lia)) as C.
    repeat (destruct C as [C|C]); subst m; try lia; unfold jdn_of_date, month_len;
      cbn [Z.eqb Pos.eqb Z.leb Z.compare Pos.compare Pos.compare_cont Z.add Pos.add Pos.succ orb]; lia.
Qed.

Lemma jdn_year_step : forall y, jdn_of_date (y + 1, 1, 1) = jdn_of_date (y, 12, 1) + 31.
Proof. intros y; unfold jdn_of_date. cbn [Z.leb Z.compare Pos.compare Pos.compare_cont]. lia. Qed.

Lemma jdn_of_next : forall p, valid_date p -> jdn_of_date (next_day p) = jdn_of_date p + 1.
Proof.
  intros [[y m] d] [Hm Hd]. unfold next_day.
  destruct (d <? month_len y m) eqn:E; [apply jdn_add_days|].
  assert (jdn_of_date (y, m, d) = jdn_of_date (y, m, 1) + (d - 1)) as ->.
  { rewrite <- jdn_add_days. do 2 f_equal. lia. }
  destruct (m <? 12) eqn:E2.
  - rewrite jdn_month_step by lia. lia.
  - assert (m = 12) as -> by lia. rewrite jdn_year_step.
    change (month_len y 12) with 31 in *. lia.
Qed.

Lemma jdn_days_after : forall k p, valid_date p ->
  jdn_of_date (days_after k p) = jdn_of_date p + Z.of_nat k.
Proof.
  induction k as [|k IH]; intros p H; cbn [days_after]; [lia|].
  rewrite jdn_of_next by (apply days_after_valid; exact H). rewrite IH by exact H. lia.
Qed.

(** Start of a month is monotone in the month, start of a year in the year. *)
Lemma jdn_month_mono : forall y k m, (m + Z.of_nat k <= 12) -> 1 <= m ->
  jdn_of_date (y, m, 1) + Z.of_nat k * 28 <= jdn_of_date (y, m + Z.of_nat k, 1).
Proof.
  intros y; induction k as [|k IH]; intros m H1 H2; [change (Z.of_nat 0) with 0; rewrite (Z.add_0_r m); lia|].
  specialize (IH m ltac:(lia) H2).
  replace (m + Z.of_nat (S k)) with (m + Z.of_nat k + 1) by lia.
  rewrite jdn_month_step by lia. pose proof (month_len_pos y (m + Z.of_nat k)). lia.
Qed.

Lemma jdn_in_month : forall y m d, valid_date (y, m, d) ->
  jdn_of_date (y, m, 1) <= jdn_of_date (y, m, d) < jdn_of_date (y, m, 1) + month_len y m.
Proof.
  intros y m d [Hm Hd].
  assert (jdn_of_date (y, m, d) = jdn_of_date (y, m, 1) + (d - 1)) as ->.
  { rewrite <- jdn_add_days. do 2 f_equal. lia. }
  lia.
Qed.

Lemma jdn_month_lt : forall y m m' d d', valid_date (y, m, d) -> valid_date (y, m', d') -> m < m' ->
  jdn_of_date (y, m, d) < jdn_of_date (y, m', d').
Proof.
  intros y m m' d d' H H' L. pose proof (jdn_in_month _ _ _ H). pose proof (jdn_in_month _ _ _ H').
  destruct H as [Hm _], H' as [Hm' _].
  pose proof (jdn_month_mono y (Z.to_nat (m' - (m + 1))) (m + 1) ltac:(lia) ltac:(lia)) as M.
  replace (m + 1 + Z.of_nat (Z.to_nat (m' - (m + 1)))) with m' in M by lia.
  rewrite jdn_month_step in M by lia. lia.
Qed.

Lemma jdn_in_year : forall y m d, valid_date (y, m, d) ->
  jdn_of_date (y, 1, 1) <= jdn_of_date (y, m, d) < jdn_of_date (y + 1, 1, 1).
Proof.
  intros y m d H. pose proof (jdn_in_month _ _ _ H). destruct H as [Hm Hd].
  pose proof (jdn_month_mono y (Z.to_nat (m - 1)) 1 ltac:(lia) ltac:(lia)) as M1.
  replace (1 + Z.of_nat (Z.to_nat (m - 1))) with m in M1 by lia.
  rewrite jdn_year_step. split; [lia|].
  destruct (Z.eq_dec m 12) as [->|N].
  - change (month_len y 12) with 31 in *. lia.
  - pose proof (jdn_month_mono y (Z.to_nat (12 - (m + 1))) (m + 1) ltac:(lia) ltac:(lia)) as M.
    replace (m + 1 + Z.of_nat (Z.to_nat (12 - (m + 1)))) with 12 in M by lia.
    rewrite jdn_month_step in M by lia. lia.
Qed.

Lemma jdn_year_mono : forall k y, jdn_of_date (y, 1, 1) <= jdn_of_date (y + Z.of_nat k, 1, 1).
Proof.
  induction k as [|k IH]; intros y; [change (Z.of_nat 0) with 0; rewrite (Z.add_0_r y); lia|].
  specialize (IH y). replace (y + Z.of_nat (S k)) with (y + Z.of_nat k + 1) by lia.
  assert (valid_date (y + Z.of_nat k, 1, 1)) as V by (unfold valid_date, month_len; cbn; lia).
  pose proof (jdn_in_year _ _ _ V). lia.
Qed.

Lemma jdn_lt : forall p q, valid_date p -> valid_date q -> date_lt p q -> jdn_of_date p < jdn_of_date q.
Proof.
  intros [[y m] d] [[y' m'] d'] Hp Hq [L|[<- [L|[<- L]]]].
  - pose proof (jdn_in_year _ _ _ Hp). pose proof (jdn_in_year _ _ _ Hq).
    pose proof (jdn_year_mono (Z.to_nat (y' - (y + 1))) (y + 1)) as M.
    replace (y + 1 + Z.of_nat (Z.to_nat (y' - (y + 1)))) with y' in M by lia. lia.
  - apply jdn_month_lt; assumption.
  - replace d' with (d + (d' - d)) by lia. rewrite jdn_add_days. lia.
Qed.

Lemma date_lt_total : forall p q, date_lt p q \/ p = q \/ date_lt q p.
Proof.
  intros [[y m] d] [[y' m'] d']. unfold date_lt.
  destruct (Z.lt_trichotomy y y') as [H|[H|H]]; [lia| |lia].
  destruct (Z.lt_trichotomy m m') as [H'|[H'|H']]; [lia| |lia].
  destruct (Z.lt_trichotomy d d') as [H''|[H''|H'']]; [lia| |lia].
  subst. auto.
Qed.

Lemma jdn_inj : forall p q, valid_date p -> valid_date q -> jdn_of_date p = jdn_of_date q -> p = q.
Proof.
  intros p q Hp Hq E. destruct (date_lt_total p q) as [L|[->|L]]; [|reflexivity|];
    apply jdn_lt in L; auto; lia.
Qed.

Lemma date_jdn_date : forall p, valid_date p -> date_of_jdn (jdn_of_date p) = p.
Proof.
  intros p H. apply jdn_inj; [apply date_of_jdn_valid|exact H|]. apply jdn_date_jdn.
Qed.

Lemma date_of_jdn_succ : forall j, date_of_jdn (j + 1) = next_day (date_of_jdn j).
Proof.
  intros j. apply jdn_inj; [apply date_of_jdn_valid|apply next_day_valid, date_of_jdn_valid|].
  rewrite jdn_of_next by apply date_of_jdn_valid. rewrite !jdn_date_jdn. reflexivity.
Qed.

(** ** Python's own ordinals *)

Lemma jdn_of_doy : forall y m d, 1 <= m <= 12 ->
  jdn_of_date (y, m, d) = jdn_of_date (y, 1, 1) + days_before_month m +
    (if (m >? 2) && greg_leapb y then 1 else 0) + d - 1.
Proof.
  intros y m d Hm.
  assert (jdn_of_date (y, m, d) = jdn_of_date (y, m, 1) + (d - 1)) as ->.
  { rewrite <- jdn_add_days. do 2 f_equal. lia. }
  enough (jdn_of_date (y, m, 1) = jdn_of_date (y, 1, 1) + days_before_month m +
    (if (m >? 2) && greg_leapb y then 1 else 0)) by lia.
  pose proof (jdn_month_step y 1 ltac:(lia)) as H1. pose proof (jdn_month_step y 2 ltac:(lia)) as H2.
  pose proof (jdn_month_step y 3 ltac:(lia)) as H3. pose proof (jdn_month_step y 4 ltac:(lia)) as H4.
  pose proof (jdn_month_step y 5 ltac:(lia)) as H5. pose proof (jdn_month_step y 6 ltac:(lia)) as H6.
  pose proof (jdn_month_step y 7 ltac:(lia)) as H7. pose proof (jdn_month_step y 8 ltac:(lia)) as H8.
  pose proof (jdn_month_step y 9 ltac:(lia)) as H9. pose proof (jdn_month_step y 10 ltac:(lia)) as H10.
  pose proof (jdn_month_step y 11 ltac:(lia)) as H11.
  unfold month_len in *. cbn [Z.eqb Pos.eqb orb Z.add Pos.add Pos.succ Pos.add_carry] in *.
  pose proof (month_cases m Hm) as C.
  repeat (destruct C as [C|C]); subst m;
    unfold days_before_month;
    match goal with |- context[nth ?a ?b ?c] => let v := eval cbv in (nth a b c) in change (nth a b c) with v end;
    cbn [Z.gtb Z.compare Pos.compare Pos.compare_cont andb];
    destruct (greg_leapb y); lia.
Qed.

Definition ord_ok (leapyear : bool) (n : Z) : bool :=
  let month := (n + 50) / 32 in
  let prec m := days_before_month m + (if (m >? 2) && leapyear then 1 else 0) in
  let month := if prec month >? n then month - 1 else month in
  (1 <=? month) && (month <=? 12) && (1 <=? n - prec month + 1) &&
  (n - prec month + 1 <=? (if month =? 2 then (if leapyear then 29 else 28)
     else if (month =? 4) || (month =? 6) || (month =? 9) || (month =? 11) then 30 else 31)).

Lemma ord_checked : all_between 0 365 (ord_ok true) && all_between 0 365 (ord_ok false) = true.
Proof. vm_compute. reflexivity. Qed.

Lemma ord2ymd_facts : forall n,
  valid_date (ord2ymd n) /\ jdn_of_date (ord2ymd n) = n + 1721425.
Proof.
  intros n. unfold ord2ymd.
  remember ((n - 1) / 146097) as n400 eqn:E400. remember ((n - 1) mod 146097) as r eqn:Er.
  remember (r / 36524) as n100 eqn:E100. remember (r mod 36524) as r1 eqn:Er1.
  remember (r1 / 1461) as n4 eqn:E4. remember (r1 mod 1461) as r2 eqn:Er2.
  remember (r2 / 365) as n1 eqn:E1. remember (r2 mod 365) as k eqn:Ek.
  assert (n = 1 + 146097 * n400 + 36524 * n100 + 1461 * n4 + 365 * n1 + k /\
          0 <= n100 <= 4 /\ 0 <= n4 <= 24 /\ 0 <= n1 <= 4 /\ 0 <= k < 365 /\
          (n1 = 4 -> k = 0) /\ (n100 = 4 -> n4 = 0 /\ n1 = 0 /\ k = 0) /\
          (n4 = 24 -> n1 < 4)) as (Hn & B100 & B4 & B1 & Bk & S1 & S100 & S4).
  { split; [lia|]. split; [lia|]. split; [lia|]. split; [lia|]. split; [lia|].
    split; [lia|]. split; [|lia]. intros. assert (r1 = 0) by lia. assert (r2 = 0) by lia. lia. }
  clear E400 Er E100 Er1 E4 Er2 E1 Ek.
  destruct ((n1 =? 4) || (n100 =? 4)) eqn:ES.
  - split; [unfold valid_date; change (month_len _ 12) with 31; lia|].
    unfold jdn_of_date. replace (12 <=? 2) with false by reflexivity.
    change ((979 * (12 - 3) + 16) / 32) with 275. cbv zeta. lia.
  - remember (n400 * 400 + 1 + n100 * 100 + n4 * 4 + n1) as Y eqn:EY.
    remember ((n1 =? 3) && (negb (n4 =? 24) || (n100 =? 3))) as lp eqn:Elp.
    assert (greg_leapb Y = lp) as HL.
    { unfold greg_leapb.
      assert (Y mod 4 = (n1 + 1) mod 4) as -> by lia.
      assert (Y mod 100 = (n4 * 4 + n1 + 1) mod 100) as -> by lia.
      assert (Y mod 400 = (n100 * 100 + n4 * 4 + n1 + 1) mod 400) as -> by lia.
      subst lp. lia. }
    assert (jdn_of_date (Y, 1, 1) = 1721425 + (n - k)) as HJ.
    { unfold jdn_of_date. replace (1 <=? 2) with true by reflexivity.
      change ((979 * (1 + 9) + 16) / 32) with 306. lia. }
    pose proof ord_checked as O. apply andb_true_iff in O as [O1 O2].
    assert (ord_ok lp k = true) as O.
    { destruct lp; [apply (all_between_spec _ _ _ O1)|apply (all_between_spec _ _ _ O2)]; lia. }
    clear O1 O2. unfold ord_ok in O. cbv beta zeta in O |- *.
    set (m := if days_before_month ((k + 50) / 32) + (if ((k + 50) / 32 >? 2) && lp then 1 else 0) >? k
              then (k + 50) / 32 - 1 else (k + 50) / 32) in *.
    clearbody m. repeat (apply andb_true_iff in O as [O ?Ho]).
    split; [unfold valid_date, month_len; rewrite HL; lia|].
    rewrite jdn_of_doy, HJ, HL by lia. lia.
Qed.

Lemma ord2ymd_jdn : forall n, ord2ymd n = date_of_jdn (n + 1721425).
Proof.
  intros n. destruct (ord2ymd_facts n) as [V J].
  apply jdn_inj; [exact V|apply date_of_jdn_valid|]. rewrite J, jdn_date_jdn. reflexivity.
Qed.

(** ** Order *)

Lemma date_lt_trans : forall p q r, date_lt p q -> date_lt q r -> date_lt p r.
Proof. intros [[y m] d] [[y' m'] d'] [[y'' m''] d'']; unfold date_lt; lia. Qed.

Lemma date_lt_irrefl : forall p, ~ date_lt p p.
Proof. intros [[y m] d]; unfold date_lt; lia. Qed.

Lemma next_day_lt : forall p, date_lt p (next_day p).
Proof.
  intros [[y m] d]; unfold next_day, date_lt.
  destruct (d <? month_len y m) eqn:E; [lia|]. destruct (m <? 12) eqn:E2; lia.
Qed.

Lemma date_of_jdn_mono : forall i j, i < j -> date_lt (date_of_jdn i) (date_of_jdn j).
Proof.
  intros i j H. replace j with (i + 1 + Z.of_nat (Z.to_nat (j - i - 1))) by lia.
  induction (Z.to_nat (j - i - 1)) as [|n IH].
  - rewrite Z.add_0_r, date_of_jdn_succ. apply next_day_lt.
  - replace (i + 1 + Z.of_nat (S n)) with (i + 1 + Z.of_nat n + 1) by lia.
    rewrite date_of_jdn_succ. eapply date_lt_trans; [exact IH|]. apply next_day_lt.
Qed.

Lemma jdn_lt_iff : forall p q, valid_date p -> valid_date q ->
  (jdn_of_date p < jdn_of_date q <-> date_lt p q).
Proof.
  intros p q Hp Hq. split; intros H.
  - rewrite <- (date_jdn_date p Hp), <- (date_jdn_date q Hq). apply date_of_jdn_mono; exact H.
  - destruct (Z.lt_trichotomy (jdn_of_date p) (jdn_of_date q)) as [L|[E|G]]; [exact L| |].
    + exfalso. rewrite <- (date_jdn_date p Hp), <- (date_jdn_date q Hq), E in H.
      exact (date_lt_irrefl _ H).
    + exfalso. apply date_of_jdn_mono in G. rewrite !date_jdn_date in G by assumption.
      exact (date_lt_irrefl p (date_lt_trans _ _ _ H G)).
Qed.

Lemma days_after_jdn : forall k p, valid_date p ->
  days_after k p = date_of_jdn (jdn_of_date p + Z.of_nat k).
Proof.
  induction k as [|k IH]; intros p Hp; cbn [days_after].
  - rewrite Z.add_0_r, date_jdn_date by assumption. reflexivity.
  - rewrite IH by assumption.
    replace (jdn_of_date p + Z.of_nat (S k)) with (jdn_of_date p + Z.of_nat k + 1) by lia.
    rewrite date_of_jdn_succ. reflexivity.
Qed.

(** ** Validity test of the code *)

Lemma leap_py_spec : forall y, leap_py y = greg_leapb y.
Proof.
  intros y; unfold leap_py, greg_leapb.
  destruct (y mod 4 =? 0) eqn:E4; cbn; [|reflexivity].
  destruct (y mod 100 =? 0) eqn:E100; cbn; [|reflexivity].
  destruct (y mod 400 =? 0); reflexivity.
Qed.

Lemma day_test_spec : forall y m d, 1 <= m <= 12 ->
  ((d <? 1) || ((d >? days_in_month_py m) && negb ((d =? 29) && (m =? 2) && leap_py y)) = false
   <-> valid_date (y, m, d)).
Proof.
  intros y m d Hm. rewrite leap_py_spec. unfold valid_date, month_len.
  assert (days_in_month_py m = if m =? 2 then 28
          else if (m =? 4) || (m =? 6) || (m =? 9) || (m =? 11) then 30 else 31) as ->.
  { pose proof (month_cases m Hm) as C. repeat (destruct C as [C|C]); subst m; reflexivity. }
  destruct (m =? 2) eqn:E2; [destruct (greg_leapb y); lia|].
  destruct ((m =? 4) || (m =? 6) || (m =? 9) || (m =? 11)); lia.
Qed.
