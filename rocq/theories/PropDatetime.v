(** Property theorems C92: xldate_as_datetime for every number. *)
From Coq Require Import ZArith Reals Lra.
From Flocq Require Import Core IEEE754.BinarySingleNaN IEEE754.Binary IEEE754.Bits.
From Verif Require Import Base BaseFacts CalendarSpec XldateModel CalendarFacts
  PyFloat PyFloatFacts XldateFloat XldateProofs PropDates.
Open Scope Z_scope.

(** ** Specification *)

(** The day [k] days after [p] (before, when negative). *)
Definition day_from (p : Z * Z * Z) (k : Z) (q : Z * Z * Z) : Prop :=
  valid_date q /\ (0 <= k -> q = days_after (Z.to_nat k) p) /\ (k <= 0 -> p = days_after (Z.to_nat (- k)) q).

(** Day 0 of the date system; in the 1900 system it depends on which side of the 29th of February 1900, which did not exist, the number is. *)
Definition day_zero (dm : Z) (r : R) (p : Z * Z * Z) : Prop :=
  (dm <> 0 -> p = (1904, 1, 1)) /\ (dm = 0 -> (r < 60)%R -> p = (1899, 12, 31)) /\ (dm = 0 -> (60 <= r)%R -> p = (1899, 12, 30)).

Definition year (p : Z * Z * Z) : Z := fst (fst p).

(** Day [D] and millisecond [M] of the day nearest to [r] days, up to a rounding error below 16 picoseconds. *)
Definition ms_reading (r : R) (D M : Z) : Prop :=
  0 <= M < 86400000 /\ (Rabs (IZR (D * 86400000 + M) - r * 86400000) <= / 2 + / 67108864)%R.

(** ** Proofs *)

Definition epoch_ord (dm : Z) (r : R) : Z :=
  if dm =? 0 then (if Rlt_bool r 60 then epoch_1900_ord else epoch_1900_minus_1_ord) else epoch_1904_ord.

Lemma day_zero_ord : forall dm r, exists p, day_zero dm r p /\ valid_date p /\ jdn_of_date p = epoch_ord dm r + 1721425.
Proof.
  intros dm r. unfold epoch_ord, day_zero. destruct (dm =? 0) eqn:E; [apply Z.eqb_eq in E; subst dm; destruct (Rlt_bool_spec r 60)|].
  - exists (1899, 12, 31). split; [repeat split; intros; try lia; try reflexivity; lra|]. split; [unfold valid_date, month_len; cbn; lia|reflexivity].
  - exists (1899, 12, 30). split; [repeat split; intros; try lia; try reflexivity; lra|]. split; [unfold valid_date, month_len; cbn; lia|reflexivity].
  - apply Z.eqb_neq in E. exists (1904, 1, 1). split; [repeat split; intros; try contradiction; reflexivity|]. split; [unfold valid_date, month_len; cbn; lia|reflexivity].
Qed.

Lemma day_from_jdn : forall p k q, valid_date p -> (day_from p k q <-> valid_date q /\ jdn_of_date q = jdn_of_date p + k).
Proof.
  intros p k q V. unfold day_from. split.
  - intros (W & A & B). split; [exact W|]. destruct (Z_le_gt_dec 0 k) as [L|L].
    + rewrite (A L), jdn_days_after by exact V. lia.
    + rewrite (B ltac:(lia)) at 1. rewrite jdn_days_after by exact W. lia.
  - intros [W J]. split; [exact W|]. split; intros L; apply jdn_inj; auto using days_after_valid; rewrite jdn_days_after by assumption; lia.
Qed.

Lemma day_from_ex : forall p k, valid_date p -> exists q, day_from p k q.
Proof.
  intros p k V. exists (date_of_jdn (jdn_of_date p + k)). apply day_from_jdn; [exact V|]. split; [apply date_of_jdn_valid|apply jdn_date_jdn].
Qed.

(** datetime's years *)
Lemma year_range : forall q, valid_date q -> (1 <= year q <= 9999 <-> 1 <= jdn_of_date q - 1721425 <= 3652059).
Proof.
  intros [[y m] d] V. unfold year. cbn [fst]. pose proof (jdn_in_year _ _ _ V) as B.
  assert (M : forall a b, a <= b -> jdn_of_date (a, 1, 1) <= jdn_of_date (b, 1, 1)).
  { intros a b L. pose proof (jdn_year_mono (Z.to_nat (b - a)) a) as X. rewrite Z2Nat.id in X by lia. replace (a + (b - a)) with b in X by lia. exact X. }
  assert (J1 : jdn_of_date (1, 1, 1) = 1721426) by reflexivity. assert (J2 : jdn_of_date (10000, 1, 1) = 5373485) by reflexivity.
  split; intros H.
  - pose proof (M 1 y ltac:(lia)). pose proof (M (y + 1) 10000 ltac:(lia)). lia.
  - split.
    + destruct (Z_le_gt_dec 1 y) as [L|L]; [exact L|]. pose proof (M (y + 1) 1 ltac:(lia)). lia.
    + destruct (Z_le_gt_dec y 9999) as [L|L]; [exact L|]. pose proof (M 10000 y ltac:(lia)). lia.
Qed.

Lemma trunc_bounds : forall r, (Rabs (r - IZR (Ztrunc r)) <= 1)%R.
Proof.
  intros r. destruct (Rle_lt_dec 0 r) as [L|L].
  - rewrite Ztrunc_floor by exact L. pose proof (Zfloor_lb r). pose proof (Zfloor_ub r). apply Rabs_le. lra.
  - rewrite Ztrunc_ceil by lra. pose proof (Zceil_ub r). pose proof (Zceil_lb r). apply Rabs_le. lra.
Qed.

Definition ms_round (r : R) : Z := ZnearestE (rnd64 ((r - IZR (Ztrunc r)) * 86400000)).
Definition ms_total (r : R) : Z := Ztrunc r * 86400000 + ms_round r.

Lemma as_datetime_all : forall x dm, ffin x = true ->
  xldate_as_datetime (PFloat x) dm =
    let o := epoch_ord dm (fR x) + ms_total (fR x) / 86400000 in
    if (1 <=? o) && (o <=? 3652059) then Ok (ord2ymd o, (ms_total (fR x) mod 86400000) * 1000) else Err OverflowError.
Proof.
  intros x dm Fx. unfold xldate_as_datetime. rewrite f_int_spec by exact Fx. cbn [bind].
  pose proof (f_of_Z_trunc x Fx) as [T1 T2]. pose proof (trunc_bounds (fR x)) as TB.
  destruct (fsub_spec x (f_of_Z (Ztrunc (fR x))) Fx T2) as [S1 S2].
  { rewrite T1. apply Rle_trans with 1%R; [exact TB|]. apply IZR_le. vm_compute. discriminate. }
  rewrite T1 in S1. rewrite round_generic in S1; [|apply valid_rnd_N|apply frac_in_format; exact Fx].
  destruct (f_of_Z_spec 86400000) as [K1 K2]; [vm_compute; discriminate|].
  assert (AB : (Rabs (fR (fsub x (f_of_Z (Ztrunc (fR x)))) * fR (f_of_Z 86400000)) <= 86400000)%R).
  { rewrite S1, K1, Rabs_mult, (Rabs_pos_eq 86400000) by lra. apply Rle_trans with (1 * 86400000)%R; [|lra]. apply Rmult_le_compat_r; lra. }
  destruct (fmul_spec _ _ S2 K2) as [M1 M2].
  { apply Rle_trans with 86400000%R; [exact AB|]. apply IZR_le. vm_compute. discriminate. }
  rewrite f_round_spec by exact M2. cbn [bind]. rewrite M1, S1, K1. fold (ms_round (fR x)).
  assert (EP : (if negb (dm =? 0) then epoch_1904_ord else if f_ltb x (f_of_Z 60) then epoch_1900_ord else epoch_1900_minus_1_ord) = epoch_ord dm (fR x)).
  { unfold epoch_ord. destruct (dm =? 0); cbn [negb]; [|reflexivity]. destruct (f_of_Z_small 60 ltac:(lia)) as [B1 B2].
    pose proof (f_ltb_spec _ _ Fx B2) as B. rewrite B1 in B. destruct (f_ltb x (f_of_Z 60)) eqn:E.
    - rewrite Rlt_bool_true; [reflexivity|]. apply B. reflexivity.
    - rewrite Rlt_bool_false; [reflexivity|]. destruct (Rle_lt_dec 60 (fR x)) as [L|L]; [exact L|]. apply B in L. discriminate. }
  rewrite EP. unfold add_timedelta. cbv zeta.
  replace ((Ztrunc (fR x) * 86400 + ms_round (fR x) / 1000) * 1000 + ms_round (fR x) mod 1000) with (ms_total (fR x)) by (unfold ms_total; lia).
  reflexivity.
Qed.

Lemma ms_close : forall r, (Rabs (IZR (ms_total r) - r * 86400000) <= / 2 + / 67108864)%R.
Proof.
  intros r. pose proof (trunc_bounds r) as TB. unfold ms_total, ms_round. set (z := ((r - IZR (Ztrunc r)) * 86400000)%R).
  assert (Z1 : (Rabs z <= bpow radix2 27)%R).
  { unfold z. rewrite Rabs_mult, (Rabs_pos_eq 86400000) by lra. change (bpow radix2 27) with 134217728%R. lra. }
  pose proof (rnd_err z 27 ltac:(lia) Z1) as E. change (bpow radix2 (27 - 53)) with (/ 67108864)%R in E.
  pose proof (ZnearestE_half (rnd64 z)) as H. apply Rabs_le_inv in E, H. apply Rabs_le. rewrite plus_IZR, mult_IZR.
  assert (Ez : (r * 86400000 = IZR (Ztrunc r) * 86400000 + z)%R) by (unfold z; ring). rewrite Ez. split; lra.
Qed.

Lemma ms_split : forall r, ms_reading r (ms_total r / 86400000) (ms_total r mod 86400000).
Proof.
  intros r. split; [apply Z.mod_pos_bound; lia|]. replace (ms_total r / 86400000 * 86400000 + ms_total r mod 86400000) with (ms_total r) by lia. apply ms_close.
Qed.

(** ** C92 *)

(** The datetime of any finite number is that of the nearest millisecond, if its year is one that datetime has. *)
Theorem c92_nearest : forall (x : flt) datemode, is_finite 53 1024 x = true ->
  let r := B2R 53 1024 x in
  exists D M p q, ms_reading r D M /\ day_zero datemode r p /\ day_from p D q /\
    (1 <= year q <= 9999 -> xldate_as_datetime (PFloat x) datemode = Ok (q, M * 1000)) /\
    (~ 1 <= year q <= 9999 -> xldate_as_datetime (PFloat x) datemode = Err OverflowError).
Proof.
  intros x dm Fx r. destruct (day_zero_ord dm r) as (p & Z0 & V & J). destruct (day_from_ex p (ms_total r / 86400000) V) as [q Q].
  exists (ms_total r / 86400000), (ms_total r mod 86400000), p, q. split; [apply ms_split|]. split; [exact Z0|]. split; [exact Q|].
  apply (day_from_jdn p _ q V) in Q as [W Q]. rewrite (year_range q W).
  rewrite as_datetime_all by exact Fx. cbv zeta. fold r.
  replace (jdn_of_date q - 1721425) with (epoch_ord dm r + ms_total r / 86400000) by lia.
  rewrite ord2ymd_jdn. replace (epoch_ord dm r + ms_total r / 86400000 + 1721425) with (jdn_of_date q) by lia. rewrite date_jdn_date by exact W.
  destruct ((1 <=? epoch_ord dm r + ms_total r / 86400000) && (epoch_ord dm r + ms_total r / 86400000 <=? 3652059)) eqn:E; split; intros H; try reflexivity; lia.
Qed.
Print Assumptions c92_nearest.

(** Integers are whole days; infinities and NaN raise. *)
Theorem c92_whole : forall n datemode, exists p q, day_zero datemode (IZR n) p /\ day_from p n q /\
  (1 <= year q <= 9999 -> xldate_as_datetime (PInt n) datemode = Ok (q, 0)) /\
  (~ 1 <= year q <= 9999 -> xldate_as_datetime (PInt n) datemode = Err OverflowError).
Proof.
  intros n dm. destruct (day_zero_ord dm (IZR n)) as (p & Z0 & V & J). destruct (day_from_ex p n V) as [q Q].
  exists p, q. split; [exact Z0|]. split; [exact Q|]. apply (day_from_jdn p _ q V) in Q as [W Q]. rewrite (year_range q W).
  unfold xldate_as_datetime, add_timedelta. cbv zeta.
  assert (EP : (if negb (dm =? 0) then epoch_1904_ord else if n <? 60 then epoch_1900_ord else epoch_1900_minus_1_ord) = epoch_ord dm (IZR n)).
  { unfold epoch_ord. destruct (dm =? 0); cbn [negb]; [|reflexivity]. destruct (n <? 60) eqn:E.
    - rewrite Rlt_bool_true; [reflexivity|]. apply (IZR_lt n 60). lia.
    - rewrite Rlt_bool_false; [reflexivity|]. apply (IZR_le 60 n). lia. }
  rewrite EP. replace ((n * 86400 + 0) * 1000 + 0) with (n * 86400000) by lia. rewrite Z.div_mul, Z.mod_mul by lia.
  rewrite ord2ymd_jdn. replace (epoch_ord dm (IZR n) + n + 1721425) with (jdn_of_date q) by lia. rewrite date_jdn_date by exact W.
  replace (jdn_of_date q - 1721425) with (epoch_ord dm (IZR n) + n) by lia.
  destruct ((1 <=? epoch_ord dm (IZR n) + n) && (epoch_ord dm (IZR n) + n <=? 3652059)) eqn:E; split; intros H; try reflexivity; lia.
Qed.
Print Assumptions c92_whole.

Theorem c92_nonfinite : forall (x : flt) datemode, is_finite 53 1024 x = false ->
  xldate_as_datetime (PFloat x) datemode = match x with B754_infinity _ _ _ => Err OverflowError | _ => Err ValueError end.
Proof. intros [s|s|s pl H|s m e H] dm F; try discriminate; reflexivity. Qed.
Print Assumptions c92_nonfinite.

Lemma year_before : forall p, valid_date p -> date_lt p (10000, 1, 1) -> ~ date_lt p (1, 1, 1) -> 1 <= year p <= 9999.
Proof. intros [[y m] d] [V1 V2] L1 L2. unfold year. cbn [fst]. unfold date_lt in *. lia. Qed.

(** Where xldate_as_tuple gives a date, xldate_as_datetime gives the same one with at most half a second more or less. *)
Theorem c92_agrees : forall (x : flt) datemode p h m s, is_finite 53 1024 x = true ->
  xldate_as_tuple (PFloat x) datemode = Ok (p, (h, m, s)) -> p <> (0, 0, 0) ->
  exists q us, xldate_as_datetime (PFloat x) datemode = Ok (q, us) /\
    (q = p /\ Z.abs (us - (h * 3600 + m * 60 + s) * 1000000) <= 500000 \/
     p = next_day q /\ (h, m, s) = (0, 0, 0) /\ 86400000000 - 500000 <= us < 86400000000).
Proof.
  intros x dm p h m s Fx H NZ.
  assert (Hdm : datemode_ok dm = true). { unfold xldate_as_tuple in H. destruct (datemode_ok dm); [reflexivity|discriminate]. }
  set (r := fR x) in *.
  assert (P : (0 < r)%R).
  { destruct (Rtotal_order r 0) as [L|[E|G]]; [| |exact G]; exfalso; unfold xldate_as_tuple in H; rewrite Hdm in H; cbn [negb] in H.
    - destruct (f_is_zero x) eqn:Ez; [apply f_is_zero_spec in Ez; [unfold r in L; lra|exact Fx]|]. rewrite (proj2 (f_is_neg_spec x Fx) L) in H. discriminate.
    - rewrite (proj2 (f_is_zero_spec x Fx) E) in H. congruence. }
  rewrite as_tuple_float, core_carry in H by assumption. fold r in H.
  pose proof (carry_sec_range r) as CR. destruct (hms_split _ CR) as (h' & m' & s' & E & _ & HS). rewrite E in H.
  destruct (carry_day r >=? xldays_too_large dm) eqn:TL; [discriminate|]. destruct (carry_day r =? 0) eqn:D0; [congruence|].
  destruct ((carry_day r <? 61) && (dm =? 0)) eqn:AM; [discriminate|]. injection H as <- <- <- <-. rewrite HS.
  pose proof (carry_close r) as C1. pose proof (ms_close r) as C2. apply Rabs_le_inv in C1, C2.
  pose proof (carry_day_nonneg _ P) as DN.
  (* both are integers near r *)
  assert (K : Z.abs (ms_total r - (carry_day r * 86400 + carry_sec r) * 1000) <= 500).
  { assert (A : (Rabs (IZR (ms_total r - (carry_day r * 86400 + carry_sec r) * 1000)) < IZR 501)%R).
    { rewrite minus_IZR, (mult_IZR _ 1000). apply Rabs_lt. split; lra. }
    rewrite <- abs_IZR in A. apply lt_IZR in A. lia. }
  assert (EP : epoch_ord dm r + 1721425 = jdn_delta dm).
  { unfold epoch_ord. unfold datemode_ok in Hdm. apply orb_true_iff in Hdm as [Hz|Hz]; apply Z.eqb_eq in Hz; subst dm; cbn [Z.eqb]; [|reflexivity].
    rewrite Rlt_bool_false; [reflexivity|]. assert (61 <= carry_day r) as L by lia. apply IZR_le in L. rewrite plus_IZR, mult_IZR in C1.
    assert (0 <= IZR (carry_sec r))%R by (apply IZR_le; lia). lra. }
  assert (UP : carry_day r < 2958466) by (pose proof (serial_small dm (carry_day r) Hdm); lia).
  assert (LO : epoch_ord dm r = 693594 \/ epoch_ord dm r = 695056 /\ carry_day r < 2957004).
  { unfold datemode_ok in Hdm. apply orb_true_iff in Hdm as [Hz|Hz]; apply Z.eqb_eq in Hz; subst dm; [left|right; split].
    - change (jdn_delta 0) with 2415019 in EP. lia.
    - change (jdn_delta 1) with 2416481 in EP. lia.
    - change (xldays_too_large 1) with 2957004 in TL. lia. }
  rewrite as_datetime_all by exact Fx. fold r. cbv zeta.
  set (N := ms_total r) in *. set (D := carry_day r) in *. set (T := carry_sec r) in *.
  replace ((1 <=? epoch_ord dm r + N / 86400000) && (epoch_ord dm r + N / 86400000 <=? 3652059)) with true by lia.
  eexists _, _. split; [reflexivity|]. rewrite ord2ymd_jdn.
  destruct (Z_lt_ge_dec N (D * 86400000)) as [L|L].
  - right. assert (T = 0) as T0 by lia. assert (N / 86400000 = D - 1) as -> by lia. rewrite <- date_of_jdn_succ. split; [f_equal; lia|].
    split; [|lia]. rewrite T0 in E. change (0 / 60 / 60, (0 / 60) mod 60, 0 mod 60) with (0, 0, 0) in E. congruence.
  - left. assert (N / 86400000 = D) as -> by lia. split; [f_equal; lia|]. lia.
Qed.
Print Assumptions c92_agrees.

(** The time of day is kept to the last digit from tuple to number to datetime. *)
Theorem c92_round_trip : forall y mo d h m s datemode x, (y, mo, d) <> (0, 0, 0) ->
  xldate_from_datetime_tuple (y, mo, d) (h, m, s) datemode = Ok x ->
  xldate_as_datetime (PFloat x) datemode = Ok ((y, mo, d), (h * 3600 + m * 60 + s) * 1000000).
Proof.
  intros y mo d h m s dm x NZ H. pose proof (c06_datetime_round_trip _ _ _ _ _ _ _ _ NZ H) as T.
  unfold xldate_from_datetime_tuple in H.
  apply bind_ok in H as (a & Ha & H). apply bind_ok in H as (b & Hb & H). injection H as <-.
  unfold xldate_from_date_tuple in Ha. apply bind_ok in Ha as (n & Hn & Ha). injection Ha as <-.
  destruct (from_date_accepts _ _ _ Hn NZ) as (Hdm & V & En & B). rewrite from_time_ok in Hb.
  destruct ((0 <=? h) && (h <? 24) && (0 <=? m) && (m <? 60) && (0 <=? s) && (s <? 60)) eqn:VT; [|discriminate].
  assert (b = time_fraction (h, m, s)) as -> by congruence. apply valid_time_test in VT.
  assert (1 <= first_serial dm) by (unfold first_serial; destruct (dm =? 0); lia).
  pose proof (serial_small dm n Hdm ltac:(lia)) as Hs.
  destruct (f_of_Z_small n ltac:(lia)) as [R1 R2].
  destruct (time_fraction_close h m s VT) as (F1 & F2 & F3). destruct (time_of_sec h m s VT) as [HT _].
  set (t := h * 3600 + m * 60 + s) in *. apply Rabs_le_inv in F3.
  assert (HT' : (0 <= IZR t <= 86399)%R) by (split; apply IZR_le; lia).
  assert (Hn' : (1 <= IZR n <= 2958466)%R) by (split; apply IZR_le; lia).
  destruct (fadd_spec _ _ R2 F1) as [A1 A2]. { rewrite R1. apply small_bound. lra. } rewrite R1 in A1.
  assert (Hb' : (Rabs (IZR n + fR (time_fraction (h, m, s))) <= bpow radix2 22)%R).
  { rewrite Rabs_pos_eq by lra. change (bpow radix2 22) with 4194304%R. lra. }
  pose proof (rnd_err _ 22 ltac:(lia) Hb') as E. change (bpow radix2 (22 - 53)) with (/ 2147483648)%R in E. rewrite <- A1 in E. apply Rabs_le_inv in E.
  rewrite as_datetime_all by exact A2. cbv zeta. set (r := fR (fadd (f_of_Z n) (time_fraction (h, m, s)))) in *.
  pose proof (ms_close r) as C. apply Rabs_le_inv in C.
  assert (N : ms_total r = n * 86400000 + t * 1000).
  { assert (A : (Rabs (IZR (ms_total r - (n * 86400000 + t * 1000))) < IZR 1)%R).
    { rewrite minus_IZR, plus_IZR, !mult_IZR. apply Rabs_lt. split; lra. }
    rewrite <- abs_IZR in A. apply lt_IZR in A. lia. }
  assert (EP : epoch_ord dm r + 1721425 = jdn_delta dm).
  { unfold epoch_ord. unfold datemode_ok in Hdm. apply orb_true_iff in Hdm as [Hz|Hz]; apply Z.eqb_eq in Hz; subst dm; cbn [Z.eqb]; [|reflexivity].
    rewrite Rlt_bool_false; [reflexivity|]. change (first_serial 0) with 61 in B. assert (61 <= IZR n)%R by (apply IZR_le; lia). lra. }
  assert (ED : ms_total r / 86400000 = n) by lia. assert (EM : ms_total r mod 86400000 = t * 1000) by lia. rewrite ED, EM, ord2ymd_jdn.
  replace (epoch_ord dm r + n + 1721425) with (jdn_of_date (y, mo, d)) by lia. rewrite date_jdn_date by exact V.
  replace ((1 <=? epoch_ord dm r + n) && (epoch_ord dm r + n <=? 3652059)) with true; [f_equal; f_equal; lia|]. symmetry.
  unfold datemode_ok in Hdm. apply orb_true_iff in Hdm as [Hz|Hz]; apply Z.eqb_eq in Hz; subst dm; [change (jdn_delta 0) with 2415019 in EP|change (jdn_delta 1) with 2416481 in EP; change (xldays_too_large 1) with 2957004 in B]; lia.
Qed.
Print Assumptions c92_round_trip.

(** Later numbers are later moments, on each side of the missing day. *)
Theorem c92_monotone : forall (x y : flt) datemode p q us vs, is_finite 53 1024 x = true -> is_finite 53 1024 y = true ->
  (B2R 53 1024 x <= B2R 53 1024 y)%R ->
  datemode <> 0 \/ (B2R 53 1024 y < 60)%R \/ (60 <= B2R 53 1024 x)%R ->
  xldate_as_datetime (PFloat x) datemode = Ok (p, us) -> xldate_as_datetime (PFloat y) datemode = Ok (q, vs) ->
  date_lt p q \/ (p = q /\ us <= vs).
Proof.
  intros x y dm p q us vs Fx Fy L SIDE Hx Hy.
  rewrite as_datetime_all in Hx, Hy by assumption. cbv zeta in Hx, Hy. set (r := fR x) in *. set (t := fR y) in *.
  assert (EP : epoch_ord dm t = epoch_ord dm r).
  { unfold epoch_ord. destruct (dm =? 0) eqn:E; [|reflexivity]. destruct SIDE as [NZ|[S|S]]; [lia| |].
    - rewrite !Rlt_bool_true by lra. reflexivity.
    - rewrite !Rlt_bool_false by lra. reflexivity. }
  rewrite EP in Hy.
  assert (M : ms_total r <= ms_total t).
  { unfold ms_total, ms_round. assert (TL : Ztrunc r <= Ztrunc t) by (apply Ztrunc_le; exact L).
    destruct (Z.eq_dec (Ztrunc r) (Ztrunc t)) as [E|N].
    - rewrite E. apply Z.add_le_mono_l. apply ZnearestE_mono, rnd_mono. lra.
    - assert (B1 : forall u, (Rabs (rnd64 ((u - IZR (Ztrunc u)) * 86400000)) <= IZR 86400000)%R).
      { intros u. pose proof (trunc_bounds u) as TB. apply Rabs_le_inv in TB. apply Rabs_le. split.
        - assert (X : (rnd64 (IZR (-86400000)) <= rnd64 ((u - IZR (Ztrunc u)) * 86400000))%R) by (apply rnd_mono; lra).
          rewrite rnd_int in X by (vm_compute; discriminate). lra.
        - assert (X : (rnd64 ((u - IZR (Ztrunc u)) * 86400000) <= rnd64 (IZR 86400000))%R) by (apply rnd_mono; lra).
          rewrite rnd_int in X by (vm_compute; discriminate). lra. }
      assert (B2 : forall u, -86400000 <= ZnearestE (rnd64 ((u - IZR (Ztrunc u)) * 86400000)) <= 86400000).
      { intros u. specialize (B1 u). apply Rabs_le_inv in B1. split.
        - apply Z.le_trans with (ZnearestE (IZR (-86400000))); [rewrite ZnearestE_IZR; lia|apply ZnearestE_mono; lra].
        - apply Z.le_trans with (ZnearestE (IZR 86400000)); [apply ZnearestE_mono; lra|rewrite ZnearestE_IZR; lia]. }
      pose proof (B2 r) as BR. pose proof (B2 t) as BT.
      (* the fraction has the sign of the number *)
      assert (SG : forall u, (0 <= u)%R -> 0 <= ZnearestE (rnd64 ((u - IZR (Ztrunc u)) * 86400000))).
      { intros u U. rewrite <- (ZnearestE_IZR 0). apply ZnearestE_mono. apply rnd_nonneg. rewrite Ztrunc_floor by exact U. pose proof (Zfloor_lb u). lra. }
      assert (SN : forall u, (u <= 0)%R -> ZnearestE (rnd64 ((u - IZR (Ztrunc u)) * 86400000)) <= 0).
      { intros u U. rewrite <- (ZnearestE_IZR 0). apply ZnearestE_mono. rewrite <- (rnd_int 0) by (cbn; lia). apply rnd_mono. rewrite Ztrunc_ceil by exact U. pose proof (Zceil_ub u). lra. }
      destruct (Rle_lt_dec 0 r) as [R0|R0].
      + pose proof (SG t ltac:(lra)). lia.
      + destruct (Rle_lt_dec 0 t) as [T0|T0]; [pose proof (SG t T0); pose proof (SN r ltac:(lra)); lia|]. pose proof (SN r ltac:(lra)). lia. }
  destruct ((1 <=? epoch_ord dm r + ms_total r / 86400000) && (epoch_ord dm r + ms_total r / 86400000 <=? 3652059)); [|discriminate].
  destruct ((1 <=? epoch_ord dm r + ms_total t / 86400000) && (epoch_ord dm r + ms_total t / 86400000 <=? 3652059)); [|discriminate].
  injection Hx as <- <-. injection Hy as <- <-. rewrite !ord2ymd_jdn.
  assert (DV : ms_total r / 86400000 <= ms_total t / 86400000) by (apply Z.div_le_mono; lia).
  destruct (Z.eq_dec (ms_total r / 86400000) (ms_total t / 86400000)) as [E|N].
  - right. split; [f_equal; lia|]. lia.
  - left. apply date_of_jdn_mono. lia.
Qed.
Print Assumptions c92_monotone.

(** In the 1900 system the order is lost across it: 59.5 is the noon of the day on which 60 begins. *)
Definition fifty_nine_and_a_half : flt := fdiv (f_of_Z 119) (f_of_Z 2).
Theorem c92_order_refuted : ~ (forall (x y : flt) datemode p q us vs, is_finite 53 1024 x = true -> is_finite 53 1024 y = true ->
  (B2R 53 1024 x <= B2R 53 1024 y)%R ->
  xldate_as_datetime (PFloat x) datemode = Ok (p, us) -> xldate_as_datetime (PFloat y) datemode = Ok (q, vs) ->
  date_lt p q \/ (p = q /\ us <= vs)).
Proof.
  intros H. destruct (f_of_Z_small 119 ltac:(lia)) as [A1 A2]. destruct (f_of_Z_small 2 ltac:(lia)) as [B1 B2]. destruct (f_of_Z_small 60 ltac:(lia)) as [C1 C2].
  destruct (fdiv_spec (f_of_Z 119) (f_of_Z 2) A2 B2) as [D1 D2]; [rewrite B1; lra| |].
  { rewrite A1, B1. apply small_bound. lra. }
  assert (L : (fR fifty_nine_and_a_half <= fR (f_of_Z 60))%R).
  { unfold fifty_nine_and_a_half. rewrite D1, A1, B1, C1, <- (rnd_int 60) by (cbn; lia). apply rnd_mono. lra. }
  destruct (H fifty_nine_and_a_half (f_of_Z 60) 0 (1900, 2, 28) (1900, 2, 28) 43200000000 0 D2 C2 L) as [X|[_ X]]; [vm_compute; reflexivity|vm_compute; reflexivity| |lia].
  unfold date_lt in X. lia.
Qed.
Print Assumptions c92_order_refuted.

Example c92_case : xldate_as_datetime (PFloat (fadd (f_of_Z 43831) (time_fraction (23, 59, 58)))) 0 = Ok ((2020, 1, 1), 86398000000) /\
  xldate_from_datetime_tuple (2020, 1, 1) (23, 59, 58) 0 = Ok (fadd (f_of_Z 43831) (time_fraction (23, 59, 58))) /\
  xldate_as_datetime (PInt (-1)) 1 = Ok ((1903, 12, 31), 0) /\ xldate_as_datetime (PInt 3000000) 0 = Err OverflowError.
Proof. repeat split; vm_compute; reflexivity. Qed.
