(** The float operations of PyFloat.v against real arithmetic. *)
From Coq Require Import ZArith Reals Lra.
From Flocq Require Import Core IEEE754.BinarySingleNaN IEEE754.Binary IEEE754.Bits.
From Verif Require Import Base PyFloat.
Open Scope Z_scope.

Notation fR := (B2R 53 1024).
Notation ffin := (is_finite 53 1024).
Notation fexp64 := (SpecFloat.fexp 53 1024).
Notation rnd64 := (round radix2 fexp64 ZnearestE).

#[global] Instance valid_exp64 : Valid_exp fexp64.
Proof. apply fexp_correct. exact prec64. Qed.

#[global] Instance mono_exp64 : Monotone_exp fexp64.
Proof. change fexp64 with (FLT_exp (SpecFloat.emin 53 1024) 53). apply FLT_exp_monotone. Qed.

Lemma fexp64_FLT : fexp64 = FLT_exp (-1074) 53.
Proof. reflexivity. Qed.

Lemma F2R_neg_exp : forall m e, e < 0 -> (F2R (Float radix2 m e) = IZR m / IZR (2 ^ (- e)))%R.
Proof.
  intros m e He. unfold F2R; cbn [Fnum Fexp]. unfold Rdiv. f_equal.
  rewrite <- (Z.opp_involutive e) at 1. rewrite bpow_opp. f_equal.
  change 2 with (radix_val radix2). rewrite IZR_Zpower by lia. reflexivity.
Qed.

Lemma F2R_pos_exp : forall m e, 0 <= e -> (F2R (Float radix2 m e) = IZR (m * 2 ^ e))%R.
Proof.
  intros m e He. unfold F2R; cbn [Fnum Fexp]. rewrite mult_IZR. f_equal.
  change 2 with (radix_val radix2). rewrite IZR_Zpower by lia. reflexivity.
Qed.

Lemma F2R_cond_opp : forall s m e,
  F2R (Float radix2 (cond_Zopp s m) e) = cond_Ropp s (F2R (Float radix2 m e)).
Proof. intros s m e; apply F2R_cond_Zopp. Qed.

Lemma Ztrunc_cond_opp : forall s x, Ztrunc (cond_Ropp s x) = cond_Zopp s (Ztrunc x).
Proof. intros [|] x; cbn; [apply Ztrunc_opp|reflexivity]. Qed.

Lemma ZnearestE_opp : forall x, ZnearestE (- x) = - ZnearestE x.
Proof.
  intros x. rewrite Znearest_opp. f_equal. unfold Znearest.
  destruct (Rcompare (x - IZR (Zfloor x)) (/ 2)); try reflexivity.
  rewrite Z.even_opp, Z.even_add. cbn.
  destruct (Z.even (Zfloor x)); reflexivity.
Qed.

Lemma ZnearestE_cond_opp : forall s x, ZnearestE (cond_Ropp s x) = cond_Zopp s (ZnearestE x).
Proof. intros [|] x; cbn; [apply ZnearestE_opp|reflexivity]. Qed.

Lemma Ztrunc_frac : forall m k, 0 <= k -> Ztrunc (IZR (Zpos m) / IZR (2 ^ k)) = shr_trunc m k.
Proof.
  intros m k Hk. unfold shr_trunc.
  assert (0 < 2 ^ k) by (apply Z.pow_pos_nonneg; lia).
  rewrite Ztrunc_floor.
  - apply Zfloor_div. lia.
  - apply Rdiv_le_0_compat || (apply Rmult_le_pos; [apply IZR_le; lia|]; apply Rlt_le, Rinv_0_lt_compat, IZR_lt; lia).
Qed.

Lemma ZnearestE_frac : forall m k, 1 <= k -> ZnearestE (IZR (Zpos m) / IZR (2 ^ k)) = shr_even m k.
Proof.
  intros m k Hk. unfold shr_even.
  assert (0 < 2 ^ (k - 1)) as Hh by (apply Z.pow_pos_nonneg; lia).
  assert (2 ^ k = 2 * 2 ^ (k - 1)) as Hp.
  { rewrite <- Z.pow_succ_r by lia. f_equal. lia. }
  set (half := 2 ^ (k - 1)) in *. rewrite Hp.
  set (M := Zpos m) in *. set (q := M / (2 * half)). set (r := M mod (2 * half)).
  assert (M = q * (2 * half) + r /\ 0 <= r < 2 * half) as [HM Hr].
  { subst q r. pose proof (Z.div_mod M (2 * half) ltac:(lia)).
    pose proof (Z.mod_pos_bound M (2 * half) ltac:(lia)). lia. }
  assert (Zfloor (IZR M / IZR (2 * half)) = q) as Hf by (apply Zfloor_div; lia).
  assert (0 < IZR half)%R as Hh' by (apply IZR_lt; lia).
  assert (IZR M / IZR (2 * half) - IZR q = IZR r / IZR (2 * half))%R as Hd.
  { rewrite HM, plus_IZR, !mult_IZR. field. lra. }
  unfold Znearest. rewrite Hf, Hd.
  assert (forall c, Rcompare (IZR r / IZR (2 * half)) (/ 2) = c <-> Z.compare r half = c) as Hcmp.
  { intros c. rewrite <- Rcompare_IZR.
    replace (/ 2)%R with (IZR half / IZR (2 * half))%R by (rewrite mult_IZR; field; lra).
    unfold Rdiv. rewrite Rcompare_mult_r; [tauto|].
    apply Rinv_0_lt_compat, IZR_lt; lia. }
  assert (Zceil (IZR M / IZR (2 * half)) = if r =? 0 then q else q + 1) as Hc.
  { destruct (r =? 0) eqn:Er.
    - replace (IZR M / IZR (2 * half))%R with (IZR q).
      + apply Zceil_IZR.
      + rewrite HM. replace r with 0 by lia. rewrite Z.add_0_r, mult_IZR, mult_IZR. field. lra.
    - rewrite Zceil_floor_neq; [rewrite Hf; reflexivity|].
      rewrite Hf. intros E.
      assert (IZR r / IZR (2 * half) = 0)%R as E0 by lra.
      assert (IZR r = 0)%R as E1.
      { assert (IZR (2 * half) <> 0)%R by (apply IZR_neq; lia).
        replace (IZR r) with (IZR r / IZR (2 * half) * IZR (2 * half))%R by (field; assumption).
        rewrite E0. ring. }
      apply eq_IZR in E1. lia. }
  destruct (Z.compare r half) eqn:E.
  - rewrite (proj2 (Hcmp Eq) eq_refl). apply Z.compare_eq in E. rewrite Hc.
    destruct (r <? half) eqn:E1; [lia|]. destruct (r =? half) eqn:E2; [|lia].
    destruct (r =? 0) eqn:E3; [lia|].
    destruct (Z.even q); reflexivity.
  - rewrite (proj2 (Hcmp Lt) eq_refl). apply (proj1 (Z.compare_lt_iff _ _)) in E.
    destruct (r <? half) eqn:E1; [reflexivity|lia].
  - rewrite (proj2 (Hcmp Gt) eq_refl). apply (proj1 (Z.compare_gt_iff _ _)) in E. rewrite Hc.
    destruct (r <? half) eqn:E1; [lia|]. destruct (r =? half) eqn:E2; [lia|].
    destruct (r =? 0) eqn:E3; [lia|]. reflexivity.
Qed.

Lemma f_int_spec : forall x, ffin x = true -> f_int x = Ok (Ztrunc (fR x)).
Proof.
  intros [s|s|s pl H|s m e H] F; try discriminate; cbn [f_int B2R].
  - rewrite Ztrunc_IZR. reflexivity.
  - f_equal. rewrite F2R_cond_opp, Ztrunc_cond_opp. f_equal.
    destruct (0 <=? e) eqn:E.
    + rewrite F2R_pos_exp by lia. rewrite Ztrunc_IZR. reflexivity.
    + rewrite F2R_neg_exp by lia. rewrite Ztrunc_frac by lia. reflexivity.
Qed.

Lemma ZnearestE_IZR : forall n, ZnearestE (IZR n) = n.
Proof. intros n. apply (@Zrnd_IZR ZnearestE). apply valid_rnd_N. Qed.

Lemma f_round_spec : forall x, ffin x = true -> f_round x = Ok (ZnearestE (fR x)).
Proof.
  intros [s|s|s pl H|s m e H] F; try discriminate; cbn [f_round B2R].
  - rewrite ZnearestE_IZR. reflexivity.
  - f_equal. rewrite F2R_cond_opp, ZnearestE_cond_opp. f_equal.
    destruct (0 <=? e) eqn:E.
    + rewrite F2R_pos_exp by lia. rewrite ZnearestE_IZR. reflexivity.
    + rewrite F2R_neg_exp by lia. rewrite ZnearestE_frac by lia. reflexivity.
Qed.

Lemma f_is_zero_spec : forall x, ffin x = true -> (f_is_zero x = true <-> fR x = 0%R).
Proof.
  intros [s|s|s pl H|s m e H] F; try discriminate; cbn [f_is_zero B2R].
  - tauto.
  - split; [discriminate|]. intros E. exfalso.
    apply eq_0_F2R in E. destruct s; cbn in E; discriminate.
Qed.

Lemma f_is_neg_spec : forall x, ffin x = true -> (f_is_neg x = true <-> (fR x < 0)%R).
Proof.
  intros [s|s|s pl H|s m e H] F; try discriminate; cbn [f_is_neg B2R].
  - split; [discriminate|]. lra.
  - destruct s; cbn [cond_Zopp].
    + split; [|reflexivity]. intros _. apply F2R_lt_0. cbn. lia.
    + split; [discriminate|]. intros E. exfalso.
      apply (Rlt_not_le _ _ E). apply F2R_ge_0. cbn. lia.
Qed.

Lemma fexp64_small : forall e, -1021 <= e -> fexp64 e = e - 53.
Proof. intros e He. rewrite fexp64_FLT. unfold FLT_exp. lia. Qed.

Lemma int_in_format : forall n, Z.abs n <= 2 ^ 53 -> generic_format radix2 fexp64 (IZR n).
Proof.
  intros n Hn. rewrite fexp64_FLT. apply generic_format_FLT.
  destruct (Z.eq_dec (Z.abs n) (2 ^ 53)) as [E|N].
  - exists (Float radix2 (Z.sgn n * 2 ^ 52) 1).
    + unfold F2R; cbn [Fnum Fexp]. change (bpow radix2 1) with (IZR 2). rewrite <- mult_IZR. f_equal.
      rewrite <- Z.mul_assoc. change (2 ^ 52 * 2) with (2 ^ 53). rewrite <- E. lia.
    + cbn [Fnum]. change (radix2 ^ 53) with (2 ^ 53).
      assert (Z.abs (Z.sgn n) <= 1) by lia. rewrite Z.abs_mul. change (Z.abs (2 ^ 52)) with (2 ^ 52).
      change (2 ^ 53) with (2 * 2 ^ 52). nia.
    + cbn. lia.
  - exists (Float radix2 n 0).
    + unfold F2R; cbn [Fnum Fexp]. rewrite Rmult_1_r. reflexivity.
    + cbn [Fnum]. change (radix2 ^ 53) with (2 ^ 53). lia.
    + cbn. lia.
Qed.

Lemma f_of_Z_spec : forall n, Z.abs n <= 2 ^ 53 -> fR (f_of_Z n) = IZR n /\ ffin (f_of_Z n) = true.
Proof.
  intros n Hn. unfold f_of_Z.
  pose proof (binary_normalize_correct 53 1024 prec64 emax64 mode_NE n 0 false) as C.
  cbv zeta in C.
  replace (F2R (Float radix2 n 0)) with (IZR n) in C by (unfold F2R; cbn [Fnum Fexp]; rewrite Rmult_1_r; reflexivity).
  change (round_mode mode_NE) with ZnearestE in C.
  rewrite round_generic in C; [|apply valid_rnd_N|apply int_in_format; exact Hn].
  rewrite Rlt_bool_true in C.
  - destruct C as (C1 & C2 & _). auto.
  - rewrite <- abs_IZR. change (bpow radix2 1024) with (IZR (2 ^ 1024)). apply IZR_lt.
    eapply Z.le_lt_trans; [exact Hn|]. reflexivity.
Qed.

Lemma bpow_big : forall x, (Rabs x <= IZR (2 ^ 100))%R ->
  (Rabs (rnd64 x) < bpow radix2 1024)%R.
Proof.
  intros x Hx. apply Rle_lt_trans with (IZR (2 ^ 100)).
  - replace (IZR (2 ^ 100)) with (bpow radix2 100) by reflexivity.
    apply abs_round_le_generic; try typeclasses eauto.
    + apply generic_format_bpow. rewrite fexp64_FLT. unfold FLT_exp. lia.
    + exact Hx.
  - change (bpow radix2 1024) with (IZR (2 ^ 1024)). apply IZR_lt. reflexivity.
Qed.

Lemma fadd_spec : forall x y, ffin x = true -> ffin y = true ->
  (Rabs (fR x + fR y) <= IZR (2 ^ 100))%R ->
  fR (fadd x y) = rnd64 (fR x + fR y) /\ ffin (fadd x y) = true.
Proof.
  intros x y Fx Fy Hb. unfold fadd, b64_plus.
  pose proof (Bplus_correct 53 1024 eq_refl eq_refl binop_nan_pl64 mode_NE x y Fx Fy) as C.
  change (round_mode mode_NE) with ZnearestE in C.
  rewrite Rlt_bool_true in C by (apply bpow_big; exact Hb). tauto.
Qed.

Lemma fsub_spec : forall x y, ffin x = true -> ffin y = true ->
  (Rabs (fR x - fR y) <= IZR (2 ^ 100))%R ->
  fR (fsub x y) = rnd64 (fR x - fR y) /\ ffin (fsub x y) = true.
Proof.
  intros x y Fx Fy Hb. unfold fsub, b64_minus.
  pose proof (Bminus_correct 53 1024 eq_refl eq_refl binop_nan_pl64 mode_NE x y Fx Fy) as C.
  change (round_mode mode_NE) with ZnearestE in C.
  rewrite Rlt_bool_true in C by (apply bpow_big; exact Hb). tauto.
Qed.

Lemma fmul_spec : forall x y, ffin x = true -> ffin y = true ->
  (Rabs (fR x * fR y) <= IZR (2 ^ 100))%R ->
  fR (fmul x y) = rnd64 (fR x * fR y) /\ ffin (fmul x y) = true.
Proof.
  intros x y Fx Fy Hb. unfold fmul, b64_mult.
  pose proof (Bmult_correct 53 1024 eq_refl eq_refl binop_nan_pl64 mode_NE x y) as C.
  change (round_mode mode_NE) with ZnearestE in C.
  rewrite Rlt_bool_true in C by (apply bpow_big; exact Hb).
  destruct C as (C1 & C2 & _). rewrite C1, C2, Fx, Fy. auto.
Qed.

(** The fraction x - trunc(x) is computed without rounding. *)
Lemma frac_in_format : forall x : flt, ffin x = true ->
  generic_format radix2 fexp64 (fR x - IZR (Ztrunc (fR x))).
Proof.
  intros x Fx. set (r := fR x).
  pose proof (generic_format_B2R 53 1024 x) as G. fold r in G.
  assert (forall r, (0 <= r)%R -> generic_format radix2 fexp64 r ->
          generic_format radix2 fexp64 (r - IZR (Ztrunc r))) as Hpos.
  { clear. intros r Hr G. rewrite Ztrunc_floor by exact Hr.
    destruct (Req_dec r 0) as [->|Nz].
    { rewrite Zfloor_IZR, Rminus_0_r. apply generic_format_0. }
    set (e := cexp radix2 fexp64 r).
    destruct (Z_lt_dec e 0) as [Le|Ge].
    - (* both are multiples of 2^e, and the difference is smaller than r *)
      unfold generic_format in G. fold e in G. set (m := Ztrunc (scaled_mantissa radix2 fexp64 r)) in G.
      assert (r - IZR (Zfloor r) = F2R (Float radix2 (m - Zfloor r * 2 ^ (- e)) e))%R as Ed.
      { unfold F2R; cbn [Fnum Fexp]. rewrite minus_IZR, mult_IZR.
        change 2 with (radix_val radix2). rewrite IZR_Zpower by lia.
        rewrite Rmult_minus_distr_r, Rmult_assoc, <- bpow_plus.
        replace (- e + e) with 0 by lia. cbn [bpow]. rewrite Rmult_1_r.
        rewrite G at 1. unfold F2R; cbn [Fnum Fexp]. reflexivity. }
      rewrite Ed. apply generic_format_F2R. intros Nm. rewrite <- Ed.
      unfold e, cexp. apply mono_exp64.
      pose proof (Zfloor_lb r). pose proof (Zfloor_ub r).
      assert (0 <= Zfloor r) by (apply Zfloor_lub; exact Hr).
      apply mag_le.
      + assert (r - IZR (Zfloor r) <> 0)%R; [|lra].
        rewrite Ed. intros Z0. apply eq_0_F2R in Z0. cbn in Z0. contradiction.
      + assert (0 <= IZR (Zfloor r))%R by (apply IZR_le; lia). lra.
    - unfold generic_format in G. fold e in G. rewrite G.
      rewrite F2R_pos_exp by lia. rewrite Zfloor_IZR, Rminus_eq_0. apply generic_format_0. }
  destruct (Rle_or_lt 0 r) as [Hr|Hr].
  - apply Hpos; assumption.
  - replace (r - IZR (Ztrunc r))%R with (- ((- r) - IZR (Ztrunc (- r))))%R.
    + apply generic_format_opp, Hpos; [lra|]. apply generic_format_opp; exact G.
    + rewrite Ztrunc_opp, opp_IZR. ring.
Qed.

(** ** Rounding error bounds *)

Lemma rnd_err : forall x k, -1000 <= k -> (Rabs x <= bpow radix2 k)%R ->
  (Rabs (rnd64 x - x) <= bpow radix2 (k - 53))%R.
Proof.
  intros x k Hk Hx.
  eapply Rle_trans; [apply error_le_half_ulp; typeclasses eauto|].
  assert (ulp radix2 fexp64 x <= bpow radix2 (k - 52))%R as Hu.
  { eapply Rle_trans.
    - apply ulp_le with (y := bpow radix2 k); try typeclasses eauto.
      rewrite (Rabs_pos_eq (bpow radix2 k)) by apply bpow_ge_0. exact Hx.
    - rewrite ulp_bpow. rewrite fexp64_small by lia. apply Req_le. f_equal. lia. }
  replace (k - 52) with (k - 53 + 1) in Hu by lia. rewrite bpow_plus in Hu.
  change (bpow radix2 1) with 2%R in Hu. lra.
Qed.

Lemma fdiv_spec : forall x y, ffin x = true -> ffin y = true -> fR y <> 0%R ->
  (Rabs (fR x / fR y) <= IZR (2 ^ 100))%R ->
  fR (fdiv x y) = rnd64 (fR x / fR y) /\ ffin (fdiv x y) = true.
Proof.
  intros x y Fx Fy Ny Hb. unfold fdiv, b64_div.
  pose proof (Bdiv_correct 53 1024 eq_refl eq_refl binop_nan_pl64 mode_NE x y Ny) as C.
  change (round_mode mode_NE) with ZnearestE in C.
  rewrite Rlt_bool_true in C by (apply bpow_big; exact Hb).
  destruct C as (C1 & C2 & _). rewrite C1, C2, Fx. auto.
Qed.

Lemma rnd_mono : forall x y, (x <= y)%R -> (rnd64 x <= rnd64 y)%R.
Proof. intros x y H. apply round_le; try typeclasses eauto. exact H. Qed.

Lemma rnd_int : forall n, Z.abs n <= 2 ^ 53 -> rnd64 (IZR n) = IZR n.
Proof. intros n H. apply round_generic; [typeclasses eauto|]. apply int_in_format; exact H. Qed.

Lemma ZnearestE_mono : forall x y, (x <= y)%R -> ZnearestE x <= ZnearestE y.
Proof. intros x y H. apply Zrnd_le; [apply valid_rnd_N|exact H]. Qed.

Lemma ZnearestE_near : forall x n, (Rabs (x - IZR n) < / 2)%R -> ZnearestE x = n.
Proof. intros x n H. apply Znearest_imp. exact H. Qed.

Lemma ZnearestE_half : forall x, (Rabs (x - IZR (ZnearestE x)) <= / 2)%R.
Proof. intros x. apply Znearest_half. Qed.

(** float(int(x)) is exact. *)
Lemma f_of_Z_trunc : forall x, ffin x = true ->
  fR (f_of_Z (Ztrunc (fR x))) = IZR (Ztrunc (fR x)) /\ ffin (f_of_Z (Ztrunc (fR x))) = true.
Proof.
  intros x Fx. set (r := fR x).
  assert (Rabs (IZR (Ztrunc r)) <= Rabs r)%R as Hle.
  { rewrite <- abs_IZR, <- Ztrunc_abs. rewrite Ztrunc_floor by apply Rabs_pos. apply Zfloor_lb. }
  pose proof (abs_B2R_lt_emax 53 1024 x) as Hmax. fold r in Hmax.
  assert (generic_format radix2 fexp64 (IZR (Ztrunc r))) as G.
  { destruct (Z_le_dec (Z.abs (Ztrunc r)) (2 ^ 53)) as [L|L]; [apply int_in_format; exact L|].
    pose proof (generic_format_B2R 53 1024 x) as G. fold r in G.
    assert (0 <= cexp radix2 fexp64 r) as He.
    { unfold cexp. rewrite fexp64_small.
      - assert (53 < mag radix2 r); [|lia]. apply mag_gt_bpow.
        change (bpow radix2 53) with (IZR (2 ^ 53)). eapply Rle_trans; [|exact Hle].
        rewrite <- abs_IZR. apply IZR_le. lia.
      - assert (53 < mag radix2 r); [|lia]. apply mag_gt_bpow.
        change (bpow radix2 53) with (IZR (2 ^ 53)). eapply Rle_trans; [|exact Hle].
        rewrite <- abs_IZR. apply IZR_le. lia. }
    assert (IZR (Ztrunc r) = r) as ->; [|exact G].
    unfold generic_format in G. rewrite G, F2R_pos_exp by exact He. rewrite Ztrunc_IZR. reflexivity. }
  unfold f_of_Z.
  pose proof (binary_normalize_correct 53 1024 prec64 emax64 mode_NE (Ztrunc r) 0 false) as C.
  cbv zeta in C.
  replace (F2R (Float radix2 (Ztrunc r) 0)) with (IZR (Ztrunc r)) in C by (unfold F2R; cbn [Fnum Fexp]; rewrite Rmult_1_r; reflexivity).
  change (round_mode mode_NE) with ZnearestE in C.
  rewrite round_generic in C; [|apply valid_rnd_N|exact G].
  rewrite Rlt_bool_true in C by lra.
  destruct C as (C1 & C2 & _). auto.
Qed.
