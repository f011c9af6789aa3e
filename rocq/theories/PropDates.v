(** Property theorems C01-C09: dates and times (xldate.py). *)
From Coq Require Import ZArith Reals Lra.
From Flocq Require Import Core IEEE754.BinarySingleNaN IEEE754.Binary IEEE754.Bits.
From Verif Require Import Base BaseFacts CalendarSpec XldateModel CalendarFacts
  PyFloat PyFloatFacts XldateFloat XldateProofs.
Open Scope Z_scope.

(** ** C01 *)
Theorem c01_date_round_trip : forall y m d datemode x,
  (y, m, d) <> (0, 0, 0) ->
  xldate_from_date_tuple (y, m, d) datemode = Ok x ->
  xldate_as_tuple (PFloat x) datemode = Ok ((y, m, d), (0, 0, 0)).
Proof.
  intros y m d dm x Hnz H. unfold xldate_from_date_tuple in H.
  apply bind_ok in H as (n & Hn & E). injection E as <-.
  destruct (from_date_accepts _ _ _ Hn Hnz) as (Hdm & V & -> & B).
  rewrite whole_read by assumption. do 2 f_equal.
  replace (jdn_of_date (y, m, d) - jdn_delta dm + jdn_delta dm) with (jdn_of_date (y, m, d)) by lia.
  apply date_jdn_date; exact V.
Qed.
Print Assumptions c01_date_round_trip.

Example c01_example : (2024, 2, 29) <> (0, 0, 0) /\
  xldate_from_date_tuple (2024, 2, 29) 0 = Ok (f_of_Z 45351).
Proof. split; [discriminate|]. unfold xldate_from_date_tuple. reflexivity. Qed.

(** ** C02 *)
Theorem c02_serials_enumerate_calendar : forall n datemode p t,
  xldate_as_tuple (PFloat (f_of_Z n)) datemode = Ok (p, t) -> 0 < n < 2 ^ 53 ->
  t = (0, 0, 0) /\ valid_date p /\
  p = days_after (Z.to_nat (n - first_serial datemode)) (first_date datemode) /\
  first_serial datemode <= n /\
  (forall p' t', xldate_as_tuple (PFloat (f_of_Z (n + 1))) datemode = Ok (p', t') -> p' = next_day p).
Proof.
  assert (forall n dm p t, xldate_as_tuple (PFloat (f_of_Z n)) dm = Ok (p, t) -> 0 < n <= 2 ^ 53 ->
    datemode_ok dm = true /\ first_serial dm <= n < xldays_too_large dm /\
    p = date_of_jdn (n + jdn_delta dm) /\ t = (0, 0, 0)) as H.
  { intros n dm p t H Hn.
    assert (datemode_ok dm = true) as Hdm.
    { unfold xldate_as_tuple in H. destruct (datemode_ok dm); [reflexivity|discriminate]. }
    destruct (f_of_Z_spec n) as [R1 R2]; [lia|].
    assert (0 < IZR n)%R by (apply IZR_lt; lia).
    pose proof H as Hres.
    rewrite as_tuple_float in H by (try assumption; rewrite R1; lra).
    rewrite R1, Zfloor_IZR in H.
    assert (sec_round (IZR n) = 0) as E.
    { unfold sec_round. rewrite Zfloor_IZR. replace ((IZR n - IZR n) * 86400)%R with 0%R by ring.
      rewrite rnd_int by (cbn; lia). apply ZnearestE_IZR. }
    rewrite E in H. cbn [as_tuple_core Z.leb andb negb Z.compare Z.eqb] in H.
    unfold as_tuple_core in H. cbn [Z.leb andb negb Z.compare Z.eqb] in H.
    destruct (n >=? xldays_too_large dm) eqn:E1; [discriminate|].
    destruct (n =? 0) eqn:E2; [lia|].
    destruct ((n <? 61) && (dm =? 0)) eqn:E3; [discriminate|].
    assert (first_serial dm <= n < xldays_too_large dm) as B.
    { unfold first_serial. destruct (dm =? 0) eqn:E4; lia. }
    rewrite whole_read in Hres by assumption. assert (p = date_of_jdn (n + jdn_delta dm) /\ t = (0, 0, 0)) as [Hp Ht] by (split; congruence). auto. }
  intros n dm p t H1 Hn.
  destruct (H _ _ _ _ H1 ltac:(lia)) as (Hdm & B & -> & ->).
  split; [reflexivity|]. split; [apply date_of_jdn_valid|].
  split; [apply serial_date; [exact Hdm|lia]|]. split; [lia|].
  intros p' t' H2. destruct (H _ _ _ _ H2 ltac:(lia)) as (_ & _ & -> & _).
  rewrite <- date_of_jdn_succ. f_equal. lia.
Qed.
Print Assumptions c02_serials_enumerate_calendar.

Example c02_anchors :
  xldate_as_tuple (PFloat (f_of_Z 61)) 0 = Ok ((1900, 3, 1), (0, 0, 0)) /\
  xldate_as_tuple (PFloat (f_of_Z 1)) 1 = Ok ((1904, 1, 2), (0, 0, 0)) /\
  xldate_as_tuple (PFloat (f_of_Z 2958465)) 0 = Ok ((9999, 12, 31), (0, 0, 0)).
Proof. repeat split; vm_compute; reflexivity. Qed.

(** ** C03 *)

(** What the second-resolution reading of the real number [r] is: day [D] and
    second [T] of that day, at most half a second (plus a rounding error far
    below a nanosecond) away from [r] days. *)
Definition second_reading (r : R) (D T : Z) : Prop :=
  0 <= D /\ 0 <= T < 86400 /\
  (Rabs (IZR (D * 86400 + T) - r * 86400) <= / 2 + / 68719476736)%R.

Theorem c03_outcome : forall (x : flt) datemode, is_finite 53 1024 x = true ->
  let r := B2R 53 1024 x in
  let res := xldate_as_tuple (PFloat x) datemode in
  (datemode <> 0 /\ datemode <> 1 -> res = Err XLDateBadDatemode) /\
  (datemode = 0 \/ datemode = 1 ->
     (r = 0%R -> res = Ok ((0, 0, 0), (0, 0, 0))) /\
     ((r < 0)%R -> res = Err XLDateNegative) /\
     ((0 < r)%R -> exists D T, second_reading r D T /\
        (xldays_too_large datemode <= D -> res = Err XLDateTooLarge) /\
        (D = 0 -> exists h m s, res = Ok ((0, 0, 0), (h, m, s)) /\ valid_time (h, m, s) /\
                                h * 3600 + m * 60 + s = T) /\
        (1 <= D < first_serial datemode -> res = Err XLDateAmbiguous) /\
        (first_serial datemode <= D < xldays_too_large datemode ->
           exists y mo d h m s, res = Ok ((y, mo, d), (h, m, s)) /\
             (y, mo, d) = days_after (Z.to_nat (D - first_serial datemode)) (first_date datemode) /\
             valid_date (y, mo, d) /\ y <= 9999 /\
             valid_time (h, m, s) /\ h * 3600 + m * 60 + s = T))).
Proof.
  intros x dm Fx r res. split.
  - intros [N0 N1]. unfold res, xldate_as_tuple, datemode_ok.
    replace ((dm =? 0) || (dm =? 1)) with false by lia. reflexivity.
  - intros Hd. assert (datemode_ok dm = true) as Hdm by (unfold datemode_ok; lia).
    split; [|split].
    + intros Hr. unfold res, xldate_as_tuple. rewrite Hdm. cbn [negb].
      rewrite (proj2 (f_is_zero_spec x Fx) Hr). reflexivity.
    + intros Hr. unfold res, xldate_as_tuple. rewrite Hdm. cbn [negb].
      destruct (f_is_zero x) eqn:Ez; [apply f_is_zero_spec in Ez; [fold r in Ez; lra|exact Fx]|].
      rewrite (proj2 (f_is_neg_spec x Fx) Hr). reflexivity.
    + intros Hr. exists (carry_day r), (carry_sec r).
      split; [split; [apply carry_day_nonneg; exact Hr|split; [apply carry_sec_range|apply carry_close]]|].
      apply core_cases; [exact Hdm|apply carry_sec_range|apply carry_day_nonneg; exact Hr|].
      unfold res. rewrite as_tuple_float by assumption. apply core_carry.
Qed.
Print Assumptions c03_outcome.

(** The limit is exactly the first day of the year 10000. *)
Theorem c03_too_large_is_year_10000 : forall datemode, datemode = 0 \/ datemode = 1 ->
  days_after (Z.to_nat (xldays_too_large datemode - first_serial datemode)) (first_date datemode) = (10000, 1, 1).
Proof.
  intros dm Hd. assert (datemode_ok dm = true) as Hdm by (unfold datemode_ok; lia).
  rewrite <- serial_date, too_large_date; auto.
  unfold first_serial, xldays_too_large. destruct (dm =? 0); lia.
Qed.
Print Assumptions c03_too_large_is_year_10000.

(** Non-finite numbers raise OverflowError / ValueError, or XLDateNegative for minus infinity. *)
Theorem c03_nonfinite : forall (x : flt) datemode, is_finite 53 1024 x = false ->
  datemode = 0 \/ datemode = 1 ->
  xldate_as_tuple (PFloat x) datemode =
    match x with
    | B754_infinity _ _ true => Err XLDateNegative
    | B754_infinity _ _ false => Err OverflowError
    | _ => Err ValueError
    end.
Proof.
  intros x dm Fx Hd. unfold xldate_as_tuple, datemode_ok.
  replace ((dm =? 0) || (dm =? 1)) with true by lia. cbn [negb].
  destruct x as [s|s|s pl Hp|s m e He]; try discriminate; [destruct s; reflexivity|destruct s; reflexivity].
Qed.
Print Assumptions c03_nonfinite.

Example c03_example : is_finite 53 1024 (f_of_Z 40000) = true /\
  xldate_as_tuple (PFloat (fadd (f_of_Z 40000) (time_fraction (6, 30, 15)))) 0
    = Ok ((2009, 7, 6), (6, 30, 15)).
Proof. split; vm_compute; reflexivity. Qed.

(** ** C04 *)

(** The largest double below 1.0 and a double just below 61.0. *)
Definition below_one : flt := B754_finite 53 1024 false 9007199254740991 (-53) eq_refl.
Definition below_61 : flt := B754_finite 53 1024 false 8584986789675007 (-47) eq_refl.

Theorem c04_documented_ranges_refuted :
  (exists x : flt, (0 <= B2R 53 1024 x < 1)%R /\
     xldate_as_tuple (PFloat x) 0 = Err XLDateAmbiguous /\
     xldate_as_tuple (PFloat x) 1 = Ok ((1904, 1, 2), (0, 0, 0))) /\
  (exists x : flt, (1 <= B2R 53 1024 x < 61)%R /\
     xldate_as_tuple (PFloat x) 0 = Ok ((1900, 3, 1), (0, 0, 0))).
Proof.
  split.
  - exists below_one. split; [|split; vm_compute; reflexivity].
    cbn [below_one B2R cond_Zopp]. rewrite F2R_neg_exp by lia.
    change (IZR (2 ^ (- -53))) with 9007199254740992%R. lra.
  - exists below_61. split; [|vm_compute; reflexivity].
    cbn [below_61 B2R cond_Zopp]. rewrite F2R_neg_exp by lia.
    change (IZR (2 ^ (- -47))) with 140737488355328%R. lra.
Qed.
Print Assumptions c04_documented_ranges_refuted.

(** The promise holds except in the last half second before midnight. *)
Theorem c04_documented_ranges_corrected : forall (x : flt) datemode,
  is_finite 53 1024 x = true -> datemode = 0 \/ datemode = 1 ->
  let r := B2R 53 1024 x in
  ((r - IZR (Zfloor r)) * 86400 <= 86399.5 - / 68719476736)%R ->
  ((0 <= r < 1)%R -> exists t, xldate_as_tuple (PFloat x) datemode = Ok ((0, 0, 0), t) /\ valid_time t) /\
  ((1 <= r < 61)%R -> datemode = 0 -> xldate_as_tuple (PFloat x) datemode = Err XLDateAmbiguous) /\
  ((61 <= r)%R -> xldate_as_tuple (PFloat x) datemode <> Err XLDateAmbiguous).
Proof.
  intros x dm Fx Hd r Hfrac. assert (datemode_ok dm = true) as Hdm by (unfold datemode_ok; lia).
  assert (sec_round r < 86400) as Hs.
  { assert (rnd64 ((r - IZR (Zfloor r)) * 86400) <= 86399.5 - / 68719476736)%R as Hr.
    { assert (86399.5 - / 68719476736 = F2R (Float radix2 5937328430252031 (-36)))%R as E.
      { rewrite F2R_neg_exp by lia. change (IZR (2 ^ (- -36))) with 68719476736%R. lra. }
      rewrite E in *. rewrite <- (round_generic radix2 fexp64 ZnearestE (F2R (Float radix2 5937328430252031 (-36)))).
      - apply rnd_mono. exact Hfrac.
      - rewrite fexp64_FLT. apply generic_format_FLT. eexists; [reflexivity| |]; cbn; lia. }
    pose proof (ZnearestE_mono _ _ Hr) as M.
    assert (ZnearestE (86399.5 - / 68719476736) = 86399) as E.
    { apply ZnearestE_near. apply Rabs_lt. lra. }
    unfold sec_round. lia. }
  assert (carry_day r = Zfloor r) as Hc.
  { unfold carry_day. destruct (sec_round r =? 86400) eqn:E; [lia|reflexivity]. }
  destruct (c03_outcome x dm Fx) as [_ H]. fold r in H. specialize (H Hd).
  destruct H as (Hzero & _ & _).
  assert ((0 < r)%R -> xldate_as_tuple (PFloat x) dm = as_tuple_core (Zfloor r) (sec_round r) dm) as Hpos.
  { intros Hr. apply as_tuple_float; assumption. }
  split; [|split].
  - intros Hr. destruct (Req_dec r 0) as [E|N].
    + exists (0, 0, 0). split; [apply Hzero; exact E|unfold valid_time; lia].
    + rewrite Hpos, core_carry, Hc by lra.
      assert (Zfloor r = 0) as -> by (apply Zfloor_imp; cbn; lra).
      destruct (0 >=? xldays_too_large dm) eqn:E; [unfold xldays_too_large in E; destruct (dm =? 0); lia|].
      cbn [Z.eqb]. destruct (hms_split _ (carry_sec_range r)) as (h & m & s & -> & V & _).
      exists (h, m, s). auto.
  - intros Hr ->. rewrite Hpos, core_carry, Hc by lra.
    assert (1 <= Zfloor r) by (apply Zfloor_lub; lra).
    assert (Zfloor r < 61) by (apply lt_IZR; pose proof (Zfloor_lb r); lra).
    change (xldays_too_large 0) with 2958466.
    destruct (Zfloor r >=? 2958466) eqn:E1; [lia|]. destruct (Zfloor r =? 0) eqn:E2; [lia|].
    destruct (Zfloor r <? 61) eqn:E3; [reflexivity|lia].
  - intros Hr. rewrite Hpos, core_carry, Hc by lra.
    assert (61 <= Zfloor r) by (apply Zfloor_lub; lra).
    destruct (Zfloor r >=? xldays_too_large dm); [discriminate|].
    destruct (Zfloor r =? 0); [discriminate|].
    destruct (Zfloor r <? 61) eqn:E3; [lia|discriminate].
Qed.
Print Assumptions c04_documented_ranges_corrected.

(** ** C05 *)
Theorem c05_time_round_trip : forall h m s,
  (valid_time (h, m, s) ->
     exists x, xldate_from_time_tuple (h, m, s) = Ok x /\
       forall datemode, datemode = 0 \/ datemode = 1 ->
         xldate_as_tuple (PFloat x) datemode = Ok ((0, 0, 0), (h, m, s))) /\
  (~ valid_time (h, m, s) -> xldate_from_time_tuple (h, m, s) = Err XLDateBadTuple).
Proof.
  intros h m s. rewrite from_time_ok. split; intros H.
  - rewrite (proj2 (valid_time_test h m s) H). eexists; split; [reflexivity|].
    intros dm Hd. apply time_read; [unfold datemode_ok; lia|exact H].
  - destruct ((0 <=? h) && (h <? 24) && (0 <=? m) && (m <? 60) && (0 <=? s) && (s <? 60)) eqn:E; [|reflexivity].
    exfalso. apply H. apply valid_time_test. exact E.
Qed.
Print Assumptions c05_time_round_trip.

Example c05_example : valid_time (23, 59, 59) /\ ~ valid_time (24, 0, 0).
Proof. unfold valid_time; lia. Qed.

(** ** C06 *)
Theorem c06_datetime_round_trip : forall y mo d h m s datemode x,
  (y, mo, d) <> (0, 0, 0) ->
  xldate_from_datetime_tuple (y, mo, d) (h, m, s) datemode = Ok x ->
  xldate_as_tuple (PFloat x) datemode = Ok ((y, mo, d), (h, m, s)).
Proof.
  intros y mo d h m s dm x Hnz H. unfold xldate_from_datetime_tuple in H.
  apply bind_ok in H as (a & Ha & H). apply bind_ok in H as (b & Hb & H). injection H as <-.
  unfold xldate_from_date_tuple in Ha. apply bind_ok in Ha as (n & Hn & Ha). injection Ha as <-.
  destruct (from_date_accepts _ _ _ Hn Hnz) as (Hdm & V & -> & B).
  rewrite from_time_ok in Hb.
  destruct ((0 <=? h) && (h <? 24) && (0 <=? m) && (m <? 60) && (0 <=? s) && (s <? 60)) eqn:E; [|discriminate].
  assert (b = time_fraction (h, m, s)) as -> by congruence.
  apply valid_time_test in E. rewrite datetime_read by assumption. do 2 f_equal.
  replace (jdn_of_date (y, mo, d) - jdn_delta dm + jdn_delta dm) with (jdn_of_date (y, mo, d)) by lia.
  apply date_jdn_date; exact V.
Qed.
Print Assumptions c06_datetime_round_trip.

Example c06_example : xldate_from_datetime_tuple (2019, 12, 31) (23, 59, 59) 1
  = Ok (fadd (f_of_Z 42368) (time_fraction (23, 59, 59))).
Proof. unfold xldate_from_datetime_tuple, xldate_from_date_tuple. reflexivity. Qed.

(** ** C07 *)
Theorem c07_acceptance : forall y m d datemode,
  (datemode <> 0 /\ datemode <> 1 -> xldate_from_date_tuple (y, m, d) datemode = Err XLDateBadDatemode) /\
  (datemode = 0 \/ datemode = 1 -> (y, m, d) <> (0, 0, 0) ->
     ((exists x, xldate_from_date_tuple (y, m, d) datemode = Ok x) <->
        valid_date (y, m, d) /\ ~ date_lt (y, m, d) (first_date datemode) /\ y <= 9999) /\
     (xldate_from_date_tuple (y, m, d) datemode = Err XLDateAmbiguous <->
        datemode = 0 /\ valid_date (y, m, d) /\ y = 1900 /\ m <= 2) /\
     (forall e, xldate_from_date_tuple (y, m, d) datemode = Err e ->
        e = XLDateAmbiguous \/ e = XLDateBadTuple)).
Proof.
  intros y m d dm. split.
  { intros [N0 N1]. unfold xldate_from_date_tuple, from_date_tuple_z, datemode_ok.
    replace ((dm =? 0) || (dm =? 1)) with false by lia. reflexivity. }
  intros Hd Hnz. assert (datemode_ok dm = true) as Hdm by (unfold datemode_ok; lia).
  destruct (first_date_jdn dm Hdm) as [J VJ].
  assert (forall n, from_date_tuple_z (y, m, d) dm = Ok n ->
          valid_date (y, m, d) /\ ~ date_lt (y, m, d) (first_date dm) /\ y <= 9999) as Hacc.
  { intros n Hn. destruct (from_date_accepts _ _ _ Hn Hnz) as (_ & V & -> & B).
    split; [exact V|]. split.
    - intros L. apply jdn_lt in L; [lia|exact V|exact VJ].
    - unfold from_date_tuple_z in Hn. rewrite Hdm in Hn. cbn [negb] in Hn.
      destruct ((y =? 0) && (m =? 0) && (d =? 0)) eqn:E0; [exfalso; apply Hnz; f_equal; [f_equal|]; lia|].
      destruct ((1900 <=? y) && (y <=? 9999)) eqn:Ey; [lia|discriminate]. }
  assert (from_date_tuple_z (y, m, d) dm = Err XLDateAmbiguous <->
          dm = 0 /\ valid_date (y, m, d) /\ y = 1900 /\ m <= 2) as Hamb.
  { split.
    - intros H. unfold from_date_tuple_z in H. rewrite Hdm in H. cbn [negb] in H.
      destruct ((y =? 0) && (m =? 0) && (d =? 0)) eqn:E0; [discriminate|].
      destruct ((1900 <=? y) && (y <=? 9999)) eqn:Ey; [cbn [negb] in H|discriminate].
      destruct ((1 <=? m) && (m <=? 12)) eqn:Em; [cbn [negb] in H|discriminate].
      destruct ((d <? 1) || ((d >? days_in_month_py m) && negb ((d =? 29) && (m =? 2) && leap_py y))) eqn:Ed; [discriminate|].
      apply day_test_spec in Ed; [|lia].
      destruct (jdn_of_date (y, m, d) - jdn_delta dm <=? 0) eqn:E1; [discriminate|].
      destruct ((jdn_of_date (y, m, d) - jdn_delta dm <? 61) && (dm =? 0)) eqn:E2; [|discriminate].
      assert (dm = 0) as -> by lia. split; [reflexivity|]. split; [exact Ed|].
      assert (date_lt (y, m, d) (first_date 0)) as L.
      { apply jdn_lt_iff; [exact Ed|exact VJ|]. change (first_serial 0) with 61 in J. lia. }
      destruct Ed as [_ Ed']. cbn in L. lia.
    - intros (-> & V & -> & Hm).
      assert (date_lt (1900, m, d) (first_date 0)) as L by (cbn; lia).
      apply jdn_lt in L; [|exact V|exact VJ]. change (first_serial 0) with 61 in J.
      assert (jdn_of_date (1900, 1, 1) <= jdn_of_date (1900, m, d)) as L2 by apply (jdn_in_year _ _ _ V).
      change (jdn_of_date (1900, 1, 1)) with 2415021 in L2.
      change (jdn_delta 0) with 2415019 in *.
      unfold from_date_tuple_z. cbn [datemode_ok Z.eqb orb negb andb].
      change (datemode_ok 0) with true. cbn [negb].
      replace ((1900 <=? 1900) && (1900 <=? 9999)) with true by reflexivity. cbn [negb].
      pose proof (proj1 V) as Hm'. replace ((1 <=? m) && (m <=? 12)) with true by lia. cbn [negb].
      rewrite (proj2 (day_test_spec 1900 m d Hm') V).
      change (jdn_delta 0) with 2415019.
      destruct (jdn_of_date (1900, m, d) - 2415019 <=? 0) eqn:E1; [lia|].
      destruct (jdn_of_date (1900, m, d) - 2415019 <? 61) eqn:E2; [reflexivity|lia]. }
  unfold xldate_from_date_tuple. split; [|split].
  - split.
    + intros [x H]. apply bind_ok in H as (n & Hn & _). exact (Hacc n Hn).
    + intros (V & L & Hy). rewrite from_date_complete; try assumption.
      * eexists; reflexivity.
      * pose proof (proj1 V). unfold date_lt. lia.
  - rewrite <- Hamb. destruct (from_date_tuple_z (y, m, d) dm); cbn [bind]; split; congruence.
  - intros e H. destruct (from_date_tuple_z (y, m, d) dm) eqn:E; cbn [bind] in H; [discriminate|].
    injection H as <-. unfold from_date_tuple_z in E. rewrite Hdm in E. cbn [negb] in E.
    repeat match type of E with
    | (if ?b then _ else _) = _ => destruct b
    end; try discriminate; injection E as <-; auto.
Qed.
Print Assumptions c07_acceptance.

Example c07_example : valid_date (2000, 2, 29) /\ ~ valid_date (1900, 2, 29).
Proof. unfold valid_date, month_len; cbn; lia. Qed.

(** ** C08 *)
Theorem c08_serials_ordered : forall p q datemode (x y : flt),
  p <> (0, 0, 0) -> q <> (0, 0, 0) ->
  xldate_from_date_tuple p datemode = Ok x -> xldate_from_date_tuple q datemode = Ok y ->
  ((B2R 53 1024 x < B2R 53 1024 y)%R <-> date_lt p q).
Proof.
  intros p q dm x y Hp Hq Hx Hy. unfold xldate_from_date_tuple in Hx, Hy.
  apply bind_ok in Hx as (n & Hn & Hx). apply bind_ok in Hy as (k & Hk & Hy). injection Hx as <-. injection Hy as <-.
  destruct (from_date_accepts _ _ _ Hn Hp) as (Hdm & V & E & B).
  destruct (from_date_accepts _ _ _ Hk Hq) as (_ & W & E' & B').
  assert (1 <= first_serial dm) by (unfold first_serial; destruct (dm =? 0); lia).
  pose proof (serial_small dm n Hdm ltac:(lia)) as S1. pose proof (serial_small dm k Hdm ltac:(lia)) as S2.
  destruct (f_of_Z_small n ltac:(lia)) as [R1 _]. destruct (f_of_Z_small k ltac:(lia)) as [R2 _].
  change (B2R 53 1024 (f_of_Z n)) with (fR (f_of_Z n)). change (B2R 53 1024 (f_of_Z k)) with (fR (f_of_Z k)). rewrite R1, R2. rewrite <- jdn_lt_iff by assumption.
  split; [intros L; apply lt_IZR in L; lia|intros L; apply IZR_lt; lia].
Qed.
Print Assumptions c08_serials_ordered.

Definition tuple_le (a b : dtuple) : Prop :=
  let '(p, (h, m, s)) := a in let '(q, (h', m', s')) := b in
  date_lt p q \/ (p = q /\ h * 3600 + m * 60 + s <= h' * 3600 + m' * 60 + s').

Theorem c08_as_tuple_monotone : forall (x y : flt) datemode a b,
  is_finite 53 1024 x = true -> is_finite 53 1024 y = true ->
  (B2R 53 1024 x <= B2R 53 1024 y)%R ->
  xldate_as_tuple (PFloat x) datemode = Ok a ->
  xldate_as_tuple (PFloat y) datemode = Ok b ->
  tuple_le a b.
Proof.
  intros x y dm a b Fx Fy Hle Ha Hb.
  assert (datemode_ok dm = true) as Hdm.
  { unfold xldate_as_tuple in Ha. destruct (datemode_ok dm); [reflexivity|discriminate]. }
  (* a positive result is given by its day and second *)
  assert (forall z c, ffin z = true -> xldate_as_tuple (PFloat z) dm = Ok c ->
    (fR z = 0%R /\ c = ((0, 0, 0), (0, 0, 0))) \/
    ((0 < fR z)%R /\ exists h m s, h * 3600 + m * 60 + s = carry_sec (fR z) /\ 0 <= carry_sec (fR z) /\
       c = ((if carry_day (fR z) =? 0 then (0, 0, 0) else date_of_jdn (carry_day (fR z) + jdn_delta dm)), (h, m, s))
       /\ 0 <= carry_day (fR z))) as Hcase.
  { intros z c Fz Hz. destruct (Rtotal_order (fR z) 0) as [L|[E|G]].
    - exfalso. unfold xldate_as_tuple in Hz. rewrite Hdm in Hz. cbn [negb] in Hz.
      destruct (f_is_zero z) eqn:Ez; [apply f_is_zero_spec in Ez; [lra|exact Fz]|].
      rewrite (proj2 (f_is_neg_spec z Fz) L) in Hz. discriminate.
    - left. split; [exact E|]. unfold xldate_as_tuple in Hz. rewrite Hdm in Hz. cbn [negb] in Hz.
      rewrite (proj2 (f_is_zero_spec z Fz) E) in Hz. congruence.
    - right. split; [exact G|]. rewrite as_tuple_float, core_carry in Hz by assumption.
      pose proof (carry_sec_range (fR z)) as Hr. pose proof (carry_day_nonneg _ G) as Hd.
      destruct (hms_split _ Hr) as (h & m & s & E & _ & Hs). rewrite E in Hz.
      exists h, m, s. split; [exact Hs|]. split; [lia|]. split; [|exact Hd].
      destruct (carry_day (fR z) >=? xldays_too_large dm); [discriminate|].
      destruct (carry_day (fR z) =? 0); [congruence|].
      destruct ((carry_day (fR z) <? 61) && (dm =? 0)); [discriminate|]. injection Hz as <-. reflexivity. }
  assert (forall D, 1 <= D -> date_lt (0, 0, 0) (date_of_jdn (D + jdn_delta dm))) as Hfirst.
  { intros D HD.
    assert (0 + jdn_delta dm < D + jdn_delta dm) as L by lia.
    apply date_of_jdn_mono in L.
    eapply date_lt_trans; [|exact L].
    unfold datemode_ok in Hdm. apply orb_true_iff in Hdm as [H|H]; apply Z.eqb_eq in H; subst dm.
    - change (date_of_jdn (0 + jdn_delta 0)) with (1899, 12, 30). cbn; lia.
    - change (date_of_jdn (0 + jdn_delta 1)) with (1904, 1, 1). cbn; lia. }
  (* totals are monotone *)
  assert (carry_day (fR x) * 86400 + carry_sec (fR x) <= carry_day (fR y) * 86400 + carry_sec (fR y)) as Htot.
  { assert (forall r, carry_day r * 86400 + carry_sec r = Zfloor r * 86400 + sec_round r) as Et.
    { intros r. unfold carry_day, carry_sec. destruct (sec_round r =? 86400) eqn:E; lia. }
    rewrite !Et. pose proof (Zfloor_le _ _ Hle) as Hfl.
    pose proof (sec_round_range (fR x)). pose proof (sec_round_range (fR y)).
    destruct (Z.eq_dec (Zfloor (fR x)) (Zfloor (fR y))) as [E|N]; [|lia].
    assert (sec_round (fR x) <= sec_round (fR y)); [|lia].
    unfold sec_round. apply ZnearestE_mono, rnd_mono. rewrite E. lra. }
  pose proof (carry_sec_range (fR x)). pose proof (carry_sec_range (fR y)).
  destruct (Hcase x a Fx Ha) as [[Ex ->]|(Px & h & m & s & Hs & Hs0 & -> & Hd)];
  destruct (Hcase y b Fy Hb) as [[Ey ->]|(Py & h' & m' & s' & Hs' & Hs0' & -> & Hd')].
  - right. split; [reflexivity|lia].
  - destruct (carry_day (fR y) =? 0) eqn:E.
    + right. split; [reflexivity|lia].
    + left. apply Hfirst. lia.
  - lra.
  - destruct (carry_day (fR x) =? 0) eqn:E, (carry_day (fR y) =? 0) eqn:E'.
    + right. split; [reflexivity|lia].
    + left. apply Hfirst. lia.
    + lia.
    + destruct (Z_lt_dec (carry_day (fR x)) (carry_day (fR y))) as [L|L].
      * left. apply date_of_jdn_mono. lia.
      * assert (carry_day (fR x) = carry_day (fR y)) as -> by lia. right. split; [reflexivity|lia].
Qed.
Print Assumptions c08_as_tuple_monotone.

Lemma datetime_finite : forall p t dm x, p <> (0, 0, 0) -> xldate_from_datetime_tuple p t dm = Ok x -> ffin x = true.
Proof.
  intros p [[h m] s] dm x Hp H. unfold xldate_from_datetime_tuple in H.
  apply bind_ok in H as (a & Ha & H). apply bind_ok in H as (b & Hb & H). injection H as <-.
  unfold xldate_from_date_tuple in Ha. apply bind_ok in Ha as (n & Hn & Ha). injection Ha as <-.
  destruct (from_date_accepts _ _ _ Hn Hp) as (Hdm & V & _ & B).
  rewrite from_time_ok in Hb.
  destruct ((0 <=? h) && (h <? 24) && (0 <=? m) && (m <? 60) && (0 <=? s) && (s <? 60)) eqn:E; [|discriminate].
  assert (b = time_fraction (h, m, s)) as -> by congruence. apply valid_time_test in E.
  assert (1 <= first_serial dm) by (unfold first_serial; destruct (dm =? 0); lia).
  pose proof (serial_small dm n Hdm ltac:(lia)) as Hs.
  destruct (f_of_Z_small n ltac:(lia)) as [R1 R2].
  destruct (time_fraction_close h m s E) as (F1 & F2 & F3). destruct (time_of_sec h m s E) as [HT _].
  set (T := h * 3600 + m * 60 + s) in *. apply Rabs_le_inv in F3.
  assert (0 <= IZR T <= 86399)%R as HT' by (split; apply IZR_le; lia).
  assert (0 <= IZR n <= 2958466)%R as Hn' by (split; apply IZR_le; lia).
  destruct (fadd_spec _ _ R2 F1) as [_ A2]; [|exact A2].
  rewrite R1. apply small_bound. lra.
Qed.

(** Earlier in the calendar and by the clock. *)
Definition moment_lt (a b : dtuple) : Prop :=
  let '(p, (h, m, s)) := a in let '(q, (h', m', s')) := b in
  date_lt p q \/ (p = q /\ h * 3600 + m * 60 + s < h' * 3600 + m' * 60 + s').

Theorem c08_datetimes_ordered : forall p q t u datemode (x y : flt),
  p <> (0, 0, 0) -> q <> (0, 0, 0) ->
  xldate_from_datetime_tuple p t datemode = Ok x -> xldate_from_datetime_tuple q u datemode = Ok y ->
  ((B2R 53 1024 x < B2R 53 1024 y)%R <-> moment_lt (p, t) (q, u)).
Proof.
  intros p q t u dm x y Hp Hq Hx Hy.
  pose proof (datetime_finite _ _ _ _ Hp Hx) as Fx. pose proof (datetime_finite _ _ _ _ Hq Hy) as Fy.
  assert (Rx : xldate_as_tuple (PFloat x) dm = Ok (p, t)) by (destruct p as [[? ?] ?], t as [[? ?] ?]; apply c06_datetime_round_trip; assumption).
  assert (Ry : xldate_as_tuple (PFloat y) dm = Ok (q, u)) by (destruct q as [[? ?] ?], u as [[? ?] ?]; apply c06_datetime_round_trip; assumption).
  assert (VT : forall r v z, xldate_from_datetime_tuple r v dm = Ok z -> valid_time v).
  { intros r [[h m] s] z H. unfold xldate_from_datetime_tuple in H. apply bind_ok in H as (a & _ & H). apply bind_ok in H as (b & Hb & _).
    rewrite from_time_ok in Hb. destruct ((0 <=? h) && (h <? 24) && (0 <=? m) && (m <? 60) && (0 <=? s) && (s <? 60)) eqn:E; [|discriminate].
    apply valid_time_test; exact E. }
  apply VT in Hx as V1. apply VT in Hy as V2. clear VT.
  assert (LT : forall r : ymd, ~ date_lt r r) by (intros [[? ?] ?]; cbn; lia).
  assert (LA : forall r r' : ymd, date_lt r r' -> ~ date_lt r' r) by (intros [[? ?] ?] [[? ?] ?]; cbn; lia).
  destruct t as [[h m] s], u as [[h' m'] s']. cbn [moment_lt]. split.
  - intros L. pose proof (c08_as_tuple_monotone x y dm _ _ Fx Fy (Rlt_le _ _ L) Rx Ry) as M. cbn [tuple_le] in M.
    destruct M as [M|[-> M]]; [left; exact M|right]. split; [reflexivity|].
    destruct (Z.eq_dec (h * 3600 + m * 60 + s) (h' * 3600 + m' * 60 + s')) as [E|E]; [|lia]. exfalso.
    unfold valid_time in V1, V2. assert (h = h' /\ m = m' /\ s = s') as (-> & -> & ->) by lia.
    rewrite Hx in Hy. injection Hy as ->. lra.
  - intros L. destruct (Rlt_le_dec (B2R 53 1024 x) (B2R 53 1024 y)) as [G|G]; [exact G|exfalso].
    pose proof (c08_as_tuple_monotone y x dm _ _ Fy Fx G Ry Rx) as M. cbn [tuple_le] in M.
    destruct L as [L|[-> L]], M as [M|[E M]]; [exact (LA _ _ L M)|subst; exact (LT _ L)|exact (LT _ M)|lia].
Qed.
Print Assumptions c08_datetimes_ordered.

Example c08_accepted : (exists x, xldate_from_datetime_tuple (2000, 1, 1) (1, 0, 0) 0 = Ok x) /\ (exists x, xldate_from_datetime_tuple (2000, 1, 1) (1, 0, 1) 0 = Ok x) /\
  moment_lt ((2000, 1, 1), (1, 0, 0)) ((2000, 1, 1), (1, 0, 1)).
Proof. unfold xldate_from_datetime_tuple, xldate_from_date_tuple. split; [eexists; reflexivity|]. split; [eexists; reflexivity|]. right. split; [reflexivity|lia]. Qed.

Example c08_example : tuple_le ((2000, 1, 1), (1, 0, 0)) ((2000, 1, 1), (1, 0, 1)) /\
  ~ tuple_le ((2000, 1, 1), (1, 0, 1)) ((2000, 1, 1), (1, 0, 0)).
Proof. unfold tuple_le, date_lt. split; [right; split; [reflexivity|lia]|intros [H|[_ H]]; lia]. Qed.

(** ** C09 *)

Lemma as_datetime_float : forall x dm, ffin x = true -> (0 <= fR x)%R ->
  xldate_as_datetime (PFloat x) dm =
    let ms := ZnearestE (rnd64 ((fR x - IZR (Zfloor (fR x))) * 86400000)) in
    add_timedelta (if negb (dm =? 0) then epoch_1904_ord
                   else if f_ltb x (f_of_Z 60) then epoch_1900_ord else epoch_1900_minus_1_ord)
                  (Zfloor (fR x)) (ms / 1000) (ms mod 1000).
Proof.
  intros x dm Fx Hr. unfold xldate_as_datetime.
  rewrite f_int_spec by exact Fx. cbn [bind]. rewrite Ztrunc_floor by exact Hr.
  destruct (frac_mul x 86400000 Fx Hr ltac:(lia)) as [M1 M2].
  rewrite f_round_spec by exact M2. cbn [bind]. rewrite M1. reflexivity.
Qed.

Lemma f_ltb_spec : forall x y, ffin x = true -> ffin y = true -> (f_ltb x y = true <-> (fR x < fR y)%R).
Proof.
  intros x y Fx Fy. unfold f_ltb. rewrite Bcompare_correct by assumption.
  destruct (Rcompare_spec (fR x) (fR y)); split; intros; try discriminate; try reflexivity; lra.
Qed.

Theorem c09_as_datetime_whole_days : forall n datemode p t,
  0 < n < 2 ^ 53 ->
  xldate_as_tuple (PFloat (f_of_Z n)) datemode = Ok (p, t) ->
  xldate_as_datetime (PFloat (f_of_Z n)) datemode = Ok (p, 0) /\
  xldate_as_datetime (PInt n) datemode = Ok (p, 0).
Proof.
  intros n dm p t Hn H.
  destruct (c02_serials_enumerate_calendar n dm p t H Hn) as (-> & _ & Hp & Hlo & _).
  assert (datemode_ok dm = true) as Hdm.
  { unfold xldate_as_tuple in H. destruct (datemode_ok dm); [reflexivity|discriminate]. }
  assert (n < xldays_too_large dm) as Hhi.
  { destruct (Z_lt_dec n (xldays_too_large dm)) as [L|G]; [exact L|exfalso].
    destruct (f_of_Z_spec n) as [R1 R2]; [lia|].
    rewrite as_tuple_float in H by (try assumption; rewrite R1; apply IZR_lt; lia).
    rewrite R1, Zfloor_IZR in H.
    unfold as_tuple_core, sec_round in H. rewrite Zfloor_IZR in H.
    replace ((IZR n - IZR n) * 86400)%R with 0%R in H by ring.
    rewrite rnd_int, ZnearestE_IZR in H by (cbn; lia). cbn [Z.leb andb negb Z.compare Z.eqb] in H.
    destruct (n >=? xldays_too_large dm) eqn:E; [discriminate|lia]. }
  pose proof (serial_small dm n Hdm ltac:(lia)) as Hs.
  destruct (f_of_Z_small n ltac:(lia)) as [R1 R2].
  rewrite <- (serial_date dm n Hdm Hlo) in Hp.
  assert (0 <= IZR n)%R by (apply IZR_le; lia).
  assert (forall ep, add_timedelta ep n 0 0 =
            if (1 <=? ep + n) && (ep + n <=? 3652059) then Ok (date_of_jdn (ep + n + 1721425), 0) else Err OverflowError) as Hadd.
  { intros ep. unfold add_timedelta.
    replace ((n * 86400 + 0) * 1000 + 0) with (n * 86400000) by lia.
    rewrite Z.div_mul, Z.mod_mul by lia. rewrite ord2ymd_jdn. reflexivity. }
  rewrite as_datetime_float by (try assumption; rewrite R1; lra).
  rewrite R1, Zfloor_IZR. replace ((IZR n - IZR n) * 86400000)%R with 0%R by ring.
  rewrite rnd_int, ZnearestE_IZR by (cbn; lia). cbv zeta.
  change (0 / 1000) with 0. change (0 mod 1000) with 0.
  assert (f_ltb (f_of_Z n) (f_of_Z 60) = (n <? 60)) as Hlt.
  { destruct (f_of_Z_small 60 ltac:(lia)) as [S1 S2].
    pose proof (f_ltb_spec _ _ R2 S2) as B. rewrite R1, S1 in B.
    destruct (f_ltb (f_of_Z n) (f_of_Z 60)) eqn:E, (n <? 60) eqn:E'; try reflexivity; exfalso.
    - assert (60 <= n) as G by lia. apply IZR_le in G. apply proj1 in B. specialize (B eq_refl). lra.
    - assert (n < 60) as G by lia. apply IZR_lt in G. apply B in G. discriminate. }
  unfold xldate_as_datetime. rewrite Hlt, !Hadd.
  unfold first_serial, xldays_too_large in *.
  unfold datemode_ok in Hdm. apply orb_true_iff in Hdm as [Hz|Hz]; apply Z.eqb_eq in Hz; subst dm;
    cbn [Z.eqb negb Pos.eqb] in *.
  - replace (n <? 60) with false by lia.
    unfold epoch_1900_minus_1_ord.
    replace ((1 <=? 693594 + n) && (693594 + n <=? 3652059)) with true by lia.
    replace (693594 + n + 1721425) with (n + jdn_delta 0) by (unfold jdn_delta; cbn [Z.eqb]; lia).
    rewrite Hp. auto.
  - unfold epoch_1904_ord.
    replace ((1 <=? 695056 + n) && (695056 + n <=? 3652059)) with true by lia.
    replace (695056 + n + 1721425) with (n + jdn_delta 1) by (unfold jdn_delta; cbn [Z.eqb]; lia).
    rewrite Hp. auto.
Qed.
Print Assumptions c09_as_datetime_whole_days.

Example c09_example : xldate_as_datetime (PFloat (f_of_Z 43831)) 0 = Ok ((2020, 1, 1), 0).
Proof. vm_compute; reflexivity. Qed.
