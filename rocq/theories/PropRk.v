(** Property theorem C14: RK numbers. *)
From Coq Require Import Reals Lra.
From Flocq Require Import Core.Core IEEE754.BinarySingleNaN IEEE754.Binary IEEE754.Bits.
From Verif Require Import Base BaseFacts PyFloat PyFloatFacts RkModel.
Local Open Scope Z_scope.

Lemma odd_eqb : forall a, Z.odd a = (a mod 2 =? 1).
Proof. intros a. rewrite Zmod_odd. destruct (Z.odd a); reflexivity. Qed.

Lemma low_bits : forall v, Z.testbit (v mod 256) 0 = Z.odd v /\ Z.testbit (v mod 256) 1 = Z.odd (v / 2).
Proof.
  intros v. change 256 with (2 ^ 8). rewrite !Z.mod_pow2_bits_low by lia. split; [reflexivity|].
  rewrite Z.testbit_odd, Z.shiftr_div_pow2 by lia. reflexivity.
Qed.

Lemma land252 : forall b, 0 <= b < 256 -> Z.land b 252 = b - b mod 4.
Proof.
  assert (forallb (fun n => Z.land (Z.of_nat n) 252 =? Z.of_nat n - Z.of_nat n mod 4) (seq 0 256) = true) as H
    by (vm_compute; reflexivity).
  intros b Hb. rewrite forallb_forall in H. specialize (H (Z.to_nat b)).
  rewrite Z2Nat.id in H by lia. apply Z.eqb_eq, H. apply in_seq. lia.
Qed.

Lemma unpack_RK_word : forall v, 0 <= v < 2 ^ 32 ->
  unpack_RK (le_enc 4 v) =
    Ok (let x := if Z.odd (v / 2) then f_of_Z ((if v <? 2 ^ 31 then v else v - 2 ^ 32) / 4)
                 else b64_of_bits ((v - v mod 4) * 2 ^ 32) in
        if Z.odd v then fdiv x f100 else x).
Proof.
  intros v Hv. pose proof (low_bits v) as [L0 L1].
  unfold unpack_RK. change (py_index (le_enc 4 v) 0) with (Ok (v mod 256)). cbn [bind]. rewrite L0, L1.
  destruct (Z.odd (v / 2)).
  - rewrite zlen_le_enc. cbn [Z.of_nat Z.eqb Pos.of_succ_nat Pos.succ Pos.eqb negb].
    assert (unpack_i32 (le_enc 4 v) 0 = Ok (to_signed 32 v)) as ->.
    { unfold unpack_i32, unpack_le. change (py_slice (le_enc 4 v) 0 (0 + 4)) with (le_enc 4 v).
      rewrite zlen_le_enc. cbn [Z.of_nat Z.eqb Pos.of_succ_nat Pos.succ Pos.eqb bind].
      rewrite le_val_enc by (change (256 ^ Z.of_nat 4) with (2 ^ 32); lia). reflexivity. }
    cbn [bind]. rewrite Z.shiftr_div_pow2 by lia. unfold to_signed.
    destruct (Z.odd v); reflexivity.
  - change (py_slice (le_enc 4 v) 1 4) with (le_enc 3 (v / 256)).
    unfold f_of_bytes. rewrite !zlen_app, zlen_le_enc.
    change (zlen [0; 0; 0; 0] + (zlen [Z.land (v mod 256) 252] + Z.of_nat 3)) with 8.
    cbn [Z.eqb Pos.eqb bind]. rewrite land252 by lia.
    assert (le_val ([0; 0; 0; 0] ++ [v mod 256 - (v mod 256) mod 4] ++ le_enc 3 (v / 256)) = (v - v mod 4) * 2 ^ 32) as ->.
    { cbn [app le_val]. rewrite le_val_enc by (change (256 ^ Z.of_nat 3) with (2 ^ 24); lia).
      replace ((v mod 256) mod 4) with (v mod 4) by lia. lia. }
    destruct (Z.odd v); reflexivity.
Qed.

(** ** Integers *)
Theorem c14_integer : forall n, - 2 ^ 29 <= n < 2 ^ 29 ->
  exists x, unpack_RK (le_enc 4 ((4 * n + 2) mod 2 ^ 32)) = Ok x /\ ffin x = true /\ fR x = IZR n.
Proof.
  intros n Hn. rewrite unpack_RK_word by lia. set (v := (4 * n + 2) mod 2 ^ 32).
  replace (Z.odd v) with false by (rewrite odd_eqb; unfold v; lia).
  replace (Z.odd (v / 2)) with true by (rewrite odd_eqb; unfold v; lia).
  cbn zeta. eexists. split; [reflexivity|].
  replace ((if v <? 2 ^ 31 then v else v - 2 ^ 32) / 4) with n
    by (unfold v; destruct (_ <? _) eqn:E; lia).
  destruct (f_of_Z_spec n ltac:(lia)) as [A B]. auto.
Qed.
Print Assumptions c14_integer.

Lemma f100_spec : fR f100 = 100%R /\ ffin f100 = true.
Proof. exact (f_of_Z_spec 100 ltac:(lia)). Qed.

Theorem c14_hundredths : forall n, - 2 ^ 29 <= n < 2 ^ 29 ->
  exists x, unpack_RK (le_enc 4 ((4 * n + 3) mod 2 ^ 32)) = Ok x /\ ffin x = true /\ fR x = rnd64 (IZR n / 100).
Proof.
  intros n Hn. rewrite unpack_RK_word by lia. set (v := (4 * n + 3) mod 2 ^ 32).
  replace (Z.odd v) with true by (rewrite odd_eqb; unfold v; lia).
  replace (Z.odd (v / 2)) with true by (rewrite odd_eqb; unfold v; lia).
  cbn zeta. eexists. split; [reflexivity|].
  replace ((if v <? 2 ^ 31 then v else v - 2 ^ 32) / 4) with n
    by (unfold v; destruct (_ <? _) eqn:E; lia).
  destruct (f_of_Z_spec n ltac:(lia)) as [A B]. destruct f100_spec as [C D].
  destruct (fdiv_spec (f_of_Z n) f100 B D) as [E F].
  - rewrite C. lra.
  - rewrite A, C. unfold Rdiv. rewrite Rabs_mult, <- abs_IZR.
    rewrite (Rabs_pos_eq (/ 100)) by lra.
    assert (IZR (Z.abs n) <= IZR (2 ^ 100))%R by (apply IZR_le; lia).
    assert (0 <= IZR (Z.abs n))%R by (apply IZR_le; lia). lra.
  - rewrite E, A, C. auto.
Qed.
Print Assumptions c14_hundredths.

(** ** Doubles whose low 34 bits are zero *)
Theorem c14_double : forall x : flt, bits_of_b64 x mod 2 ^ 34 = 0 ->
  unpack_RK (le_enc 4 (bits_of_b64 x / 2 ^ 32)) = Ok x.
Proof.
  intros x Hx. pose proof (bits_of_binary_float_range 52 11 eq_refl eq_refl x) as R.
  change (bits_of_binary_float 52 11 x) with (bits_of_b64 x) in R. change (2 ^ (52 + 11 + 1)) with (2 ^ 64) in R.
  rewrite unpack_RK_word by lia. set (w := bits_of_b64 x) in *.
  replace (Z.odd (w / 2 ^ 32)) with false by (rewrite odd_eqb; lia).
  replace (Z.odd (w / 2 ^ 32 / 2)) with false by (rewrite odd_eqb; lia).
  cbn zeta. replace ((w / 2 ^ 32 - (w / 2 ^ 32) mod 4) * 2 ^ 32) with w by lia.
  f_equal. exact (binary_float_of_bits_of_binary_float 52 11 eq_refl eq_refl eq_refl x).
Qed.
Print Assumptions c14_double.

Theorem c14_double_hundredths : forall x : flt, bits_of_b64 x mod 2 ^ 34 = 0 -> ffin x = true ->
  exists y, unpack_RK (le_enc 4 (bits_of_b64 x / 2 ^ 32 + 1)) = Ok y /\ ffin y = true /\ fR y = rnd64 (fR x / 100).
Proof.
  intros x Hx Fx. pose proof (bits_of_binary_float_range 52 11 eq_refl eq_refl x) as R.
  change (bits_of_binary_float 52 11 x) with (bits_of_b64 x) in R. change (2 ^ (52 + 11 + 1)) with (2 ^ 64) in R.
  rewrite unpack_RK_word by lia. set (w := bits_of_b64 x) in *.
  replace (Z.odd (w / 2 ^ 32 + 1)) with true by (rewrite odd_eqb; lia).
  replace (Z.odd ((w / 2 ^ 32 + 1) / 2)) with false by (rewrite odd_eqb; lia).
  cbn zeta. replace ((w / 2 ^ 32 + 1 - (w / 2 ^ 32 + 1) mod 4) * 2 ^ 32) with w by lia.
  assert (b64_of_bits w = x) as -> by exact (binary_float_of_bits_of_binary_float 52 11 eq_refl eq_refl eq_refl x).
  eexists. split; [reflexivity|]. destruct f100_spec as [C D].
  unfold fdiv, b64_div.
  assert (fR f100 <> 0%R) as N0 by (rewrite C; lra).
  pose proof (Bdiv_correct 53 1024 eq_refl eq_refl binop_nan_pl64 mode_NE x f100 N0) as B.
  change (round_mode mode_NE) with ZnearestE in B.
  rewrite Rlt_bool_true in B.
  - destruct B as (B1 & B2 & _). rewrite B1, B2, Fx, C. auto.
  - rewrite C. eapply Rle_lt_trans; [|apply (abs_B2R_lt_emax 53 1024 x)].
    apply abs_round_le_generic; try typeclasses eauto.
    + apply generic_format_abs. apply generic_format_B2R.
    + unfold Rdiv. rewrite Rabs_mult, (Rabs_pos_eq (/ 100)) by lra. pose proof (Rabs_pos (B2R 53 1024 x)).
      fold (fR x). fold (fR x) in H. lra.
Qed.
Print Assumptions c14_double_hundredths.

(** Every 4-byte value is one of the four forms. *)
Theorem c14_every_value : forall v, 0 <= v < 2 ^ 32 ->
  (exists n, - 2 ^ 29 <= n < 2 ^ 29 /\ (v = (4 * n + 2) mod 2 ^ 32 \/ v = (4 * n + 3) mod 2 ^ 32)) \/
  (exists x, v = bits_of_b64 x / 2 ^ 32 /\ bits_of_b64 x mod 2 ^ 34 = 0 \/
             v = bits_of_b64 x / 2 ^ 32 + 1 /\ bits_of_b64 x mod 2 ^ 34 = 0).
Proof.
  intros v Hv. destruct (Z.eq_dec ((v / 2) mod 2) 1) as [E|E].
  - left. exists ((if v <? 2 ^ 31 then v else v - 2 ^ 32) / 4).
    destruct (v <? 2 ^ 31) eqn:L; split; try lia.
  - right. exists (b64_of_bits ((v - v mod 4) * 2 ^ 32)).
    assert (bits_of_b64 (b64_of_bits ((v - v mod 4) * 2 ^ 32)) = (v - v mod 4) * 2 ^ 32) as ->.
    { apply (bits_of_binary_float_of_bits 52 11 eq_refl eq_refl eq_refl). change (2 ^ (52 + 11 + 1)) with (2 ^ 64). lia. }
    destruct (Z.eq_dec (v mod 2) 0); [left|right]; lia.
Qed.
Print Assumptions c14_every_value.

Example c14_example :
  (* the integer -5; the double 1.5 has bits 0x3FF8000000000000 *)
  (4 * (-5) + 2) mod 2 ^ 32 = 4294967278 /\
  bits_of_b64 (b64_of_bits 4609434218613702656) mod 2 ^ 34 = 0 /\ ffin (b64_of_bits 4609434218613702656) = true.
Proof. split; [reflexivity|]. split; vm_compute; reflexivity. Qed.
