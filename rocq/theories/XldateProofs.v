(** Proofs about xldate.py on IEEE doubles. *)
From Coq Require Import ZArith Reals Lra.
From Flocq Require Import Core IEEE754.BinarySingleNaN IEEE754.Binary IEEE754.Bits.
From Verif Require Import Base BaseFacts CalendarSpec XldateModel CalendarFacts
  PyFloat PyFloatFacts XldateFloat.
Open Scope Z_scope.

(** Seconds into the day as the code computes them from the real value. *)
Definition sec_round (r : R) : Z :=
  ZnearestE (rnd64 ((r - IZR (Zfloor r)) * 86400)).

Lemma frac_bounds : forall r, (0 <= r - IZR (Zfloor r) < 1)%R.
Proof. intros r. pose proof (Zfloor_lb r). pose proof (Zfloor_ub r). lra. Qed.

Lemma small_bound : forall x, (0 <= x <= 86400000)%R -> (Rabs x <= IZR (2 ^ 100))%R.
Proof.
  intros x H. rewrite Rabs_pos_eq by lra. apply Rle_trans with 86400000%R; [lra|].
  apply IZR_le. vm_compute. discriminate.
Qed.

(** The fraction of a non-negative float, and its product with a small integer. *)
Lemma frac_mul : forall x k, ffin x = true -> (0 <= fR x)%R -> 0 <= k <= 86400000 ->
  fR (fmul (fsub x (f_of_Z (Zfloor (fR x)))) (f_of_Z k))
    = rnd64 ((fR x - IZR (Zfloor (fR x))) * IZR k) /\
  ffin (fmul (fsub x (f_of_Z (Zfloor (fR x)))) (f_of_Z k)) = true.
Proof.
  intros x k Fx Hr Hk.
  pose proof (f_of_Z_trunc x Fx) as [T1 T2].
  rewrite Ztrunc_floor in T1, T2 by exact Hr.
  pose proof (frac_bounds (fR x)) as Hf.
  destruct (fsub_spec x (f_of_Z (Zfloor (fR x))) Fx T2) as [S1 S2].
  { rewrite T1. apply small_bound. lra. }
  rewrite T1 in S1.
  rewrite round_generic in S1.
  2: apply valid_rnd_N.
  2: { pose proof (frac_in_format x Fx) as G. rewrite Ztrunc_floor in G by exact Hr. exact G. }
  destruct (f_of_Z_spec k) as [K1 K2].
  { apply Z.le_trans with 86400000; [lia|]. vm_compute; discriminate. }
  assert (0 <= IZR k <= 86400000)%R as Hk' by (split; apply IZR_le; lia).
  assert (0 <= fR (fsub x (f_of_Z (Zfloor (fR x)))) * fR (f_of_Z k) <= 86400000)%R as Hb.
  { rewrite S1, K1. split; [apply Rmult_le_pos; lra|].
    replace 86400000%R with (1 * 86400000)%R by ring. apply Rmult_le_compat; lra. }
  destruct (fmul_spec _ _ S2 K2 (small_bound _ Hb)) as [M1 M2].
  rewrite S1, K1 in M1. auto.
Qed.

Lemma as_tuple_float : forall x dm, ffin x = true -> (0 < fR x)%R -> datemode_ok dm = true ->
  xldate_as_tuple (PFloat x) dm = as_tuple_core (Zfloor (fR x)) (sec_round (fR x)) dm.
Proof.
  intros x dm Fx Hr Hdm. unfold xldate_as_tuple. rewrite Hdm. cbn [negb].
  destruct (f_is_zero x) eqn:Ez; [apply f_is_zero_spec in Ez; [lra|exact Fx]|].
  destruct (f_is_neg x) eqn:En; [apply f_is_neg_spec in En; [lra|exact Fx]|].
  rewrite f_int_spec by exact Fx. cbn [bind].
  rewrite Ztrunc_floor by lra.
  destruct (frac_mul x 86400 Fx ltac:(lra) ltac:(lia)) as [M1 M2].
  rewrite f_round_spec by exact M2. cbn [bind]. rewrite M1. reflexivity.
Qed.

Lemma sec_round_range : forall r, 0 <= sec_round r <= 86400.
Proof.
  intros r. unfold sec_round. pose proof (frac_bounds r) as Hf. split.
  - rewrite <- (ZnearestE_IZR 0). apply ZnearestE_mono.
    rewrite <- (rnd_int 0) by (cbn; lia). apply rnd_mono. apply Rmult_le_pos; lra.
  - apply Z.le_trans with (ZnearestE (IZR 86400)); [|rewrite ZnearestE_IZR; lia].
    apply ZnearestE_mono. apply Rle_trans with (rnd64 (IZR 86400)); [apply rnd_mono; lra|].
    rewrite rnd_int; [lra|]. vm_compute; discriminate.
Qed.

Lemma pow2_m36 : bpow radix2 (-36) = (/ 68719476736)%R.
Proof. reflexivity. Qed.

Lemma frac_prod_small : forall r, (Rabs ((r - IZR (Zfloor r)) * 86400) <= bpow radix2 17)%R.
Proof.
  intros r. pose proof (frac_bounds r). rewrite Rabs_pos_eq by (apply Rmult_le_pos; lra).
  change (bpow radix2 17) with 131072%R. lra.
Qed.

Lemma sec_round_close : forall r,
  (Rabs (IZR (sec_round r) - (r - IZR (Zfloor r)) * 86400) <= / 2 + / 68719476736)%R.
Proof.
  intros r. pose proof (frac_bounds r) as Hf. unfold sec_round.
  set (z := ((r - IZR (Zfloor r)) * 86400)%R) in *.
  pose proof (rnd_err z 17 ltac:(lia)) as E.
  change (17 - 53) with (-36) in E. rewrite pow2_m36 in E.
  specialize (E (frac_prod_small r)).
  pose proof (ZnearestE_half (rnd64 z)) as Hh.
  apply Rabs_le_inv in E. apply Rabs_le_inv in Hh. apply Rabs_le. lra.
Qed.

(** Day and second after carrying a full 86400 seconds into the next day. *)
Definition carry_day (r : R) : Z :=
  if sec_round r =? 86400 then Zfloor r + 1 else Zfloor r.
Definition carry_sec (r : R) : Z :=
  if sec_round r =? 86400 then 0 else sec_round r.

Lemma carry_sec_range : forall r, 0 <= carry_sec r < 86400.
Proof.
  intros r. unfold carry_sec. pose proof (sec_round_range r).
  destruct (sec_round r =? 86400) eqn:E; lia.
Qed.

Lemma carry_close : forall r,
  (Rabs (IZR (carry_day r * 86400 + carry_sec r) - r * 86400) <= / 2 + / 68719476736)%R.
Proof.
  intros r. pose proof (sec_round_close r) as H. unfold carry_day, carry_sec.
  assert (IZR ((if sec_round r =? 86400 then Zfloor r + 1 else Zfloor r) * 86400 +
               (if sec_round r =? 86400 then 0 else sec_round r))
          = IZR (Zfloor r) * 86400 + IZR (sec_round r))%R as ->.
  { destruct (sec_round r =? 86400) eqn:E.
    - replace (sec_round r) with 86400 by lia. rewrite <- mult_IZR, <- plus_IZR. f_equal. lia.
    - rewrite <- mult_IZR, <- plus_IZR. reflexivity. }
  apply Rabs_le_inv in H. apply Rabs_le. lra.
Qed.

Lemma hms_split : forall T, 0 <= T < 86400 ->
  exists h m s, (T / 60 / 60, (T / 60) mod 60, T mod 60) = (h, m, s) /\
    valid_time (h, m, s) /\ h * 3600 + m * 60 + s = T.
Proof.
  intros T HT. exists (T / 60 / 60), ((T / 60) mod 60), (T mod 60).
  split; [reflexivity|]. unfold valid_time. lia.
Qed.

(** First full date of a date mode and its serial number. *)
Definition first_serial (dm : Z) : Z := if dm =? 0 then 61 else 1.
Definition first_date (dm : Z) : ymd := if dm =? 0 then (1900, 3, 1) else (1904, 1, 2).

Lemma first_date_jdn : forall dm, datemode_ok dm = true ->
  jdn_of_date (first_date dm) = first_serial dm + jdn_delta dm /\ valid_date (first_date dm).
Proof.
  intros dm H. unfold datemode_ok in H. apply orb_true_iff in H as [H|H]; apply Z.eqb_eq in H; subst;
    (split; [reflexivity|cbn; lia]).
Qed.

Lemma serial_date : forall dm D, datemode_ok dm = true -> first_serial dm <= D ->
  date_of_jdn (D + jdn_delta dm) = days_after (Z.to_nat (D - first_serial dm)) (first_date dm).
Proof.
  intros dm D Hdm HD. destruct (first_date_jdn dm Hdm) as [J V].
  rewrite days_after_jdn by exact V. f_equal. rewrite J. lia.
Qed.

Lemma too_large_date : forall dm, datemode_ok dm = true ->
  date_of_jdn (xldays_too_large dm + jdn_delta dm) = (10000, 1, 1).
Proof.
  intros dm H. unfold datemode_ok in H. apply orb_true_iff in H as [H|H]; apply Z.eqb_eq in H; subst; reflexivity.
Qed.

Lemma core_cases : forall D T dm res, datemode_ok dm = true -> 0 <= T < 86400 -> 0 <= D ->
  res = (if D >=? xldays_too_large dm then Err XLDateTooLarge else
         if D =? 0 then Ok ((0, 0, 0), (T / 60 / 60, (T / 60) mod 60, T mod 60)) else
         if (D <? 61) && (dm =? 0) then Err XLDateAmbiguous else
         Ok (date_of_jdn (D + jdn_delta dm), (T / 60 / 60, (T / 60) mod 60, T mod 60))) ->
  (xldays_too_large dm <= D -> res = Err XLDateTooLarge) /\
  (D = 0 -> exists h m s, res = Ok ((0, 0, 0), (h, m, s)) /\ valid_time (h, m, s) /\
                          h * 3600 + m * 60 + s = T) /\
  (1 <= D < first_serial dm -> res = Err XLDateAmbiguous) /\
  (first_serial dm <= D < xldays_too_large dm ->
     exists y mo d h m s, res = Ok ((y, mo, d), (h, m, s)) /\
       (y, mo, d) = days_after (Z.to_nat (D - first_serial dm)) (first_date dm) /\
       valid_date (y, mo, d) /\ y <= 9999 /\
       valid_time (h, m, s) /\ h * 3600 + m * 60 + s = T).
Proof.
  intros D T dm res Hdm HT HD ->.
  destruct (hms_split T HT) as (h & m & s & Eh & Hv & Hs). rewrite Eh.
  assert (61 < xldays_too_large dm /\ 1 <= first_serial dm <= 61 /\ (dm = 0 -> first_serial dm = 61) /\
          (dm <> 0 -> first_serial dm = 1)) as (B1 & B2 & B3 & B4).
  { unfold xldays_too_large, first_serial. destruct (dm =? 0) eqn:E; lia. }
  repeat split; intros H.
  - destruct (D >=? xldays_too_large dm) eqn:E; [reflexivity|lia].
  - subst D. destruct (0 >=? xldays_too_large dm) eqn:E; [lia|]. cbn [Z.eqb].
    exists h, m, s. auto.
  - destruct (D >=? xldays_too_large dm) eqn:E; [lia|]. destruct (D =? 0) eqn:E0; [lia|].
    destruct (Z.eq_dec dm 0) as [->|N]; [|lia].
    destruct (D <? 61) eqn:E61; [reflexivity|]. specialize (B3 eq_refl). lia.
  - destruct (D >=? xldays_too_large dm) eqn:E; [lia|]. destruct (D =? 0) eqn:E0; [lia|].
    replace ((D <? 61) && (dm =? 0)) with false.
    2:{ destruct (Z.eq_dec dm 0) as [->|N]; [specialize (B3 eq_refl)|specialize (B4 N)]; lia. }
    destruct (date_of_jdn (D + jdn_delta dm)) as [[y mo] d] eqn:Ed.
    exists y, mo, d, h, m, s.
    pose proof (date_of_jdn_valid (D + jdn_delta dm)) as V. rewrite Ed in V.
    split; [reflexivity|]. split; [rewrite <- Ed; apply serial_date; [exact Hdm|lia]|].
    split; [exact V|]. split; [|auto].
    pose proof (date_of_jdn_mono (D + jdn_delta dm) (xldays_too_large dm + jdn_delta dm) ltac:(lia)) as M.
    rewrite too_large_date, Ed in M by exact Hdm. cbn in M. cbn in V. lia.
Qed.

Lemma core_carry : forall r dm,
  as_tuple_core (Zfloor r) (sec_round r) dm =
  (if carry_day r >=? xldays_too_large dm then Err XLDateTooLarge else
   if carry_day r =? 0 then Ok ((0, 0, 0), (carry_sec r / 60 / 60, (carry_sec r / 60) mod 60, carry_sec r mod 60)) else
   if (carry_day r <? 61) && (dm =? 0) then Err XLDateAmbiguous else
   Ok (date_of_jdn (carry_day r + jdn_delta dm), (carry_sec r / 60 / 60, (carry_sec r / 60) mod 60, carry_sec r mod 60))).
Proof.
  intros r dm. unfold as_tuple_core, carry_day, carry_sec.
  pose proof (sec_round_range r) as H.
  replace ((0 <=? sec_round r) && (sec_round r <=? 86400)) with true by lia. cbn [negb].
  destruct (sec_round r =? 86400); reflexivity.
Qed.

Lemma carry_day_nonneg : forall r, (0 < r)%R -> 0 <= carry_day r.
Proof.
  intros r Hr. assert (0 <= Zfloor r) by (apply Zfloor_lub; lra).
  unfold carry_day. destruct (sec_round r =? 86400); lia.
Qed.

(** ** Date-times *)

(** A float close to n + T/86400 from above n reads as day n, second T. *)
Lemma near_reads : forall r n T, 0 <= n -> 0 <= T < 86400 -> (IZR n <= r)%R ->
  (Rabs (r - (IZR n + IZR T / 86400)) <= / 1000000)%R ->
  Zfloor r = n /\ sec_round r = T.
Proof.
  intros r n T Hn HT Hlo Hc.
  assert (0 <= IZR T <= 86399)%R as HT' by (split; apply IZR_le; lia).
  apply Rabs_le_inv in Hc.
  assert (Zfloor r = n) as Hf.
  { apply Zfloor_imp. split; [exact Hlo|]. rewrite plus_IZR. lra. }
  split; [exact Hf|]. unfold sec_round. rewrite Hf.
  set (z := ((r - IZR n) * 86400)%R).
  assert (Rabs z <= bpow radix2 17)%R as Hz.
  { unfold z. pose proof (frac_prod_small r) as P. rewrite Hf in P. exact P. }
  pose proof (rnd_err z 17 ltac:(lia) Hz) as E.
  change (17 - 53) with (-36) in E. rewrite pow2_m36 in E.
  apply Rabs_le_inv in E.
  apply ZnearestE_near. apply Rabs_lt.
  assert (- (8640 / 100000) <= z - IZR T <= 8640 / 100000)%R by (unfold z; lra).
  lra.
Qed.

Lemma rnd_nonneg : forall x, (0 <= x)%R -> (0 <= rnd64 x)%R.
Proof. intros x H. rewrite <- (rnd_int 0) by (cbn; lia). apply rnd_mono; exact H. Qed.

Lemma time_fraction_close : forall h m s, valid_time (h, m, s) ->
  ffin (time_fraction (h, m, s)) = true /\ (0 <= fR (time_fraction (h, m, s)))%R /\
  (Rabs (fR (time_fraction (h, m, s)) - IZR (h * 3600 + m * 60 + s) / 86400) <= / 100000000000)%R.
Proof.
  intros h m s (Hh & Hm & Hs).
  assert (forall k, 0 <= k <= 100 -> fR (f_of_Z k) = IZR k /\ ffin (f_of_Z k) = true) as Hk.
  { intros k H. apply f_of_Z_spec. apply Z.le_trans with 100; [lia|]. vm_compute; discriminate. }
  assert (forall x, (0 <= x <= 1000)%R -> (Rabs x <= IZR (2 ^ 100))%R) as Hsm.
  { intros x H. apply small_bound. lra. }
  assert (forall x, (0 <= x <= 1000)%R -> (Rabs x <= bpow radix2 10)%R) as Hsm'.
  { intros x H. rewrite Rabs_pos_eq by lra. change (bpow radix2 10) with 1024%R. lra. }
  assert (forall x, (0 <= x <= 1000)%R -> (0 <= rnd64 x /\ - / 1000000000000 <= rnd64 x - x <= / 1000000000000)%R) as Hr.
  { intros x H. split; [apply rnd_nonneg; lra|].
    pose proof (rnd_err x 10 ltac:(lia) (Hsm' x H)) as E.
    apply Rabs_le_inv in E.
    assert (bpow radix2 (10 - 53) <= / 1000000000000)%R.
    { change (bpow radix2 (10 - 53)) with (/ 8796093022208)%R. lra. }
    lra. }
  assert (0 <= IZR h <= 23 /\ 0 <= IZR m <= 59 /\ 0 <= IZR s <= 59)%R as (Rh & Rm & Rs).
  { repeat split; apply IZR_le; lia. }
  unfold time_fraction.
  destruct (Hk s ltac:(lia)) as [s1 s2]. destruct (Hk m ltac:(lia)) as [m1 m2].
  destruct (Hk h ltac:(lia)) as [h1 h2]. destruct (Hk 60 ltac:(lia)) as [k1 k2].
  destruct (Hk 24 ltac:(lia)) as [j1 j2].
  destruct (fdiv_spec (f_of_Z s) (f_of_Z 60) s2 k2) as [A1 A2].
  { rewrite k1; lra. } { rewrite s1, k1. apply Hsm. lra. }
  rewrite s1, k1 in A1. destruct (Hr (IZR s / 60)%R ltac:(lra)) as [A3 A4]. rewrite <- A1 in A3, A4.
  destruct (fadd_spec _ (f_of_Z m) A2 m2) as [B1 B2].
  { rewrite m1. apply Hsm. lra. }
  rewrite m1 in B1. match type of B1 with _ = rnd64 ?z => destruct (Hr z ltac:(lra)) as [B3 B4] end.
  rewrite <- B1 in B3, B4.
  destruct (fdiv_spec _ (f_of_Z 60) B2 k2) as [C1 C2].
  { rewrite k1; lra. } { rewrite k1. apply Hsm. lra. }
  rewrite k1 in C1.
  destruct (Hr (fR (fadd (fdiv (f_of_Z s) (f_of_Z 60)) (f_of_Z m)) / 60)%R ltac:(lra)) as [C3 C4].
  rewrite <- C1 in C3, C4.
  destruct (fadd_spec _ (f_of_Z h) C2 h2) as [D1 D2].
  { rewrite h1. apply Hsm. lra. }
  rewrite h1 in D1. match type of D1 with _ = rnd64 ?z => destruct (Hr z ltac:(lra)) as [D3 D4] end.
  rewrite <- D1 in D3, D4.
  destruct (fdiv_spec _ (f_of_Z 24) D2 j2) as [E1 E2].
  { rewrite j1; lra. } { rewrite j1. apply Hsm. lra. }
  rewrite j1 in E1.
  match type of E1 with _ = rnd64 ?z => destruct (Hr z ltac:(lra)) as [E3 E4] end.
  rewrite <- E1 in E3, E4.
  split; [exact E2|]. split; [exact E3|].
  rewrite !plus_IZR, !mult_IZR. apply Rabs_le. lra.
Qed.

Lemma time_of_sec : forall h m s, valid_time (h, m, s) ->
  let T := h * 3600 + m * 60 + s in
  0 <= T < 86400 /\ (T / 60 / 60, (T / 60) mod 60, T mod 60) = (h, m, s).
Proof.
  intros h m s (Hh & Hm & Hs) T. subst T. split; [lia|].
  f_equal; [f_equal|]; lia.
Qed.

Lemma from_time_ok : forall h m s,
  xldate_from_time_tuple (h, m, s) =
    if (0 <=? h) && (h <? 24) && (0 <=? m) && (m <? 60) && (0 <=? s) && (s <? 60)
    then Ok (time_fraction (h, m, s)) else Err XLDateBadTuple.
Proof. reflexivity. Qed.

Lemma valid_time_test : forall h m s,
  (0 <=? h) && (h <? 24) && (0 <=? m) && (m <? 60) && (0 <=? s) && (s <? 60) = true
  <-> valid_time (h, m, s).
Proof. intros h m s; unfold valid_time; lia. Qed.

Lemma read_near : forall x n T dm, ffin x = true -> datemode_ok dm = true ->
  0 <= n < xldays_too_large dm -> 0 <= T < 86400 -> (IZR n <= fR x)%R ->
  (n = 0 \/ first_serial dm <= n) ->
  (Rabs (fR x - (IZR n + IZR T / 86400)) <= / 1000000)%R ->
  xldate_as_tuple (PFloat x) dm =
    Ok ((if n =? 0 then (0, 0, 0) else date_of_jdn (n + jdn_delta dm)),
        (T / 60 / 60, (T / 60) mod 60, T mod 60)).
Proof.
  intros x n T dm Fx Hdm Hn HT Hlo Hcase Hc.
  destruct (near_reads (fR x) n T ltac:(lia) HT Hlo Hc) as [Hf Hs].
  assert (0 <= IZR n)%R by (apply IZR_le; lia).
  destruct (Req_dec (fR x) 0) as [Ez|Nz].
  - (* zero *)
    assert (n = 0) as -> by (rewrite <- Hf, Ez; apply Zfloor_IZR).
    assert (T = 0) as ->.
    { rewrite <- Hs. unfold sec_round. rewrite Hf, Ez.
      replace ((0 - 0) * 86400)%R with 0%R by ring. rewrite rnd_int by (cbn; lia).
      apply ZnearestE_IZR. }
    unfold xldate_as_tuple. rewrite Hdm. cbn [negb].
    rewrite (proj2 (f_is_zero_spec x Fx) Ez). reflexivity.
  - rewrite as_tuple_float by (try assumption; lra).
    rewrite Hf, Hs. unfold as_tuple_core.
    replace ((0 <=? T) && (T <=? 86400)) with true by lia. cbn [negb].
    destruct (T =? 86400) eqn:ET; [lia|].
    destruct (n >=? xldays_too_large dm) eqn:E1; [lia|].
    destruct (n =? 0) eqn:E2; [reflexivity|].
    replace ((n <? 61) && (dm =? 0)) with false; [reflexivity|].
    unfold first_serial in Hcase. destruct (dm =? 0) eqn:E3; lia.
Qed.

(** ** Dates accepted by xldate_from_date_tuple *)

Lemma from_date_accepts : forall p dm n, from_date_tuple_z p dm = Ok n -> p <> (0, 0, 0) ->
  datemode_ok dm = true /\ valid_date p /\ n = jdn_of_date p - jdn_delta dm /\
  first_serial dm <= n < xldays_too_large dm.
Proof.
  intros [[y m] d] dm n H Hnz. unfold from_date_tuple_z in H.
  destruct (datemode_ok dm) eqn:Edm; [cbn [negb] in H|discriminate].
  destruct ((y =? 0) && (m =? 0) && (d =? 0)) eqn:E0.
  { exfalso. apply Hnz. f_equal; [f_equal|]; lia. }
  destruct ((1900 <=? y) && (y <=? 9999)) eqn:Ey; [cbn [negb] in H|discriminate].
  destruct ((1 <=? m) && (m <=? 12)) eqn:Em; [cbn [negb] in H|discriminate].
  destruct ((d <? 1) || ((d >? days_in_month_py m) && negb ((d =? 29) && (m =? 2) && leap_py y))) eqn:Ed; [discriminate|].
  apply day_test_spec in Ed; [|lia].
  destruct (jdn_of_date (y, m, d) - jdn_delta dm <=? 0) eqn:E1; [discriminate|].
  destruct ((jdn_of_date (y, m, d) - jdn_delta dm <? 61) && (dm =? 0)) eqn:E2; [discriminate|].
  assert (n = jdn_of_date (y, m, d) - jdn_delta dm) as -> by congruence.
  split; [reflexivity|]. split; [exact Ed|]. split; [reflexivity|].
  split.
  - unfold first_serial. destruct (dm =? 0) eqn:E3; lia.
  - assert (date_lt (y, m, d) (10000, 1, 1)) as L by (cbn; lia).
    apply jdn_lt in L; [|exact Ed|cbn; lia].
    rewrite <- (too_large_date dm Edm), jdn_date_jdn in L. lia.
Qed.

Lemma from_date_complete : forall p dm, datemode_ok dm = true -> valid_date p ->
  ~ date_lt p (first_date dm) -> date_lt p (10000, 1, 1) ->
  from_date_tuple_z p dm = Ok (jdn_of_date p - jdn_delta dm).
Proof.
  intros [[y m] d] dm Hdm V Hlo Hhi.
  destruct (first_date_jdn dm Hdm) as [J VJ].
  assert (first_serial dm <= jdn_of_date (y, m, d) - jdn_delta dm) as Hn.
  { destruct (Z_lt_dec (jdn_of_date (y, m, d)) (jdn_of_date (first_date dm))) as [L|L]; [|lia].
    exfalso. apply Hlo. apply jdn_lt_iff; assumption. }
  pose proof (proj1 V) as Hm.
  assert (1900 <= y <= 9999) as Hy.
  { unfold first_date in Hlo. destruct (dm =? 0); cbn in Hlo, Hhi; cbn in V; lia. }
  unfold from_date_tuple_z. rewrite Hdm. cbn [negb].
  destruct ((y =? 0) && (m =? 0) && (d =? 0)) eqn:E0; [lia|].
  replace ((1900 <=? y) && (y <=? 9999)) with true by lia.
  replace ((1 <=? m) && (m <=? 12)) with true by lia. cbn [negb].
  rewrite (proj2 (day_test_spec y m d Hm) V).
  unfold first_serial in Hn.
  destruct (jdn_of_date (y, m, d) - jdn_delta dm <=? 0) eqn:E1; [destruct (dm =? 0); lia|].
  replace ((jdn_of_date (y, m, d) - jdn_delta dm <? 61) && (dm =? 0)) with false; [reflexivity|].
  destruct (dm =? 0) eqn:E; lia.
Qed.

Lemma serial_small : forall dm n, datemode_ok dm = true -> 0 <= n < xldays_too_large dm -> n < 2958466.
Proof. intros dm n _ H. unfold xldays_too_large in H. destruct (dm =? 0); lia. Qed.

Lemma f_of_Z_small : forall n, 0 <= n < 2958466 -> fR (f_of_Z n) = IZR n /\ ffin (f_of_Z n) = true.
Proof. intros n H. apply f_of_Z_spec. apply Z.le_trans with 2958466; [lia|]. vm_compute; discriminate. Qed.

Lemma whole_read : forall n dm, datemode_ok dm = true -> first_serial dm <= n < xldays_too_large dm ->
  xldate_as_tuple (PFloat (f_of_Z n)) dm = Ok (date_of_jdn (n + jdn_delta dm), (0, 0, 0)).
Proof.
  intros n dm Hdm Hn.
  assert (1 <= first_serial dm) by (unfold first_serial; destruct (dm =? 0); lia).
  pose proof (serial_small dm n Hdm ltac:(lia)) as Hs.
  destruct (f_of_Z_small n ltac:(lia)) as [R1 R2].
  rewrite (read_near (f_of_Z n) n 0 dm R2 Hdm); try lia.
  - destruct (n =? 0) eqn:E; [lia|]. reflexivity.
  - rewrite R1. lra.
  - rewrite R1. apply Rabs_le. lra.
Qed.

Lemma datetime_read : forall n h m s dm, datemode_ok dm = true ->
  first_serial dm <= n < xldays_too_large dm -> valid_time (h, m, s) ->
  xldate_as_tuple (PFloat (fadd (f_of_Z n) (time_fraction (h, m, s)))) dm
    = Ok (date_of_jdn (n + jdn_delta dm), (h, m, s)).
Proof.
  intros n h m s dm Hdm Hn Ht.
  assert (1 <= first_serial dm) by (unfold first_serial; destruct (dm =? 0); lia).
  pose proof (serial_small dm n Hdm ltac:(lia)) as Hs.
  destruct (f_of_Z_small n ltac:(lia)) as [R1 R2].
  destruct (time_fraction_close h m s Ht) as (F1 & F2 & F3).
  destruct (time_of_sec h m s Ht) as [HT Hhms].
  set (T := h * 3600 + m * 60 + s) in *. apply Rabs_le_inv in F3.
  assert (0 <= IZR T <= 86399)%R as HT' by (split; apply IZR_le; lia).
  assert (0 <= IZR n <= 2958466)%R as Hn' by (split; apply IZR_le; lia).
  destruct (fadd_spec _ _ R2 F1) as [A1 A2].
  { rewrite R1. apply small_bound. lra. }
  rewrite R1 in A1.
  assert (Rabs (IZR n + fR (time_fraction (h, m, s))) <= bpow radix2 22)%R as Hb.
  { rewrite Rabs_pos_eq by lra. change (bpow radix2 22) with 4194304%R. lra. }
  pose proof (rnd_err _ 22 ltac:(lia) Hb) as E.
  change (bpow radix2 (22 - 53)) with (/ 2147483648)%R in E. rewrite <- A1 in E.
  apply Rabs_le_inv in E.
  rewrite (read_near _ n T dm A2 Hdm); try lia.
  - destruct (n =? 0) eqn:E0; [lia|]. rewrite Hhms. reflexivity.
  - rewrite A1. rewrite <- (rnd_int n) at 1; [apply rnd_mono; lra|].
    apply Z.le_trans with 2958466; [lia|]. vm_compute; discriminate.
  - apply Rabs_le. lra.
Qed.

Lemma time_read : forall h m s dm, datemode_ok dm = true -> valid_time (h, m, s) ->
  xldate_as_tuple (PFloat (time_fraction (h, m, s))) dm = Ok ((0, 0, 0), (h, m, s)).
Proof.
  intros h m s dm Hdm Ht.
  destruct (time_fraction_close h m s Ht) as (F1 & F2 & F3).
  destruct (time_of_sec h m s Ht) as [HT Hhms].
  rewrite (read_near _ 0 _ dm F1 Hdm ltac:(unfold xldays_too_large; destruct (dm =? 0); lia) HT); auto.
  - cbn [Z.eqb]. rewrite Hhms. reflexivity.
  - apply Rabs_le_inv in F3. apply Rabs_le. lra.
Qed.
