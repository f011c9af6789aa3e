(** Facts about decimal formatting. *)
From Verif Require Import Base BaseFacts Text.

(** Reading a decimal numeral (specification side). *)
Definition dec_val (s : list Z) : Z := fold_left (fun v c => 10 * v + (c - 48)) s 0.

Definition digitb (c : Z) : bool := (48 <=? c) && (c <=? 57).

Lemma dec_val_acc : forall s v, fold_left (fun v c => 10 * v + (c - 48)) s v = 10 ^ zlen s * v + dec_val s.
Proof.
  unfold dec_val. induction s as [|c s IH]; intros v.
  - cbn [fold_left]. rewrite zlen_nil. lia.
  - cbn [fold_left]. rewrite IH, (IH (10 * 0 + (c - 48))). rewrite zlen_cons, Z.pow_add_r by (pose proof (zlen_nonneg s); lia).
    change (10 ^ 1) with 10. ring.
Qed.

Lemma digits_aux_val : forall fuel n acc, 0 <= n < 2 ^ Z.of_nat fuel ->
  dec_val (digits_aux fuel n acc) = 10 ^ zlen acc * n + dec_val acc.
Proof.
  induction fuel as [|f IH]; intros n acc H.
  - cbn [digits_aux]. change (Z.of_nat 0) with 0 in H. assert (n = 0) by lia. subst. lia.
  - assert (dec_val ((48 + n mod 10) :: acc) = 10 ^ zlen acc * (n mod 10) + dec_val acc) as E.
    { unfold dec_val at 1. cbn [fold_left]. rewrite dec_val_acc. f_equal. f_equal. lia. }
    cbn [digits_aux]. destruct (n / 10 =? 0) eqn:E0.
    + rewrite E. replace (n mod 10) with n by lia. reflexivity.
    + rewrite IH.
      * rewrite E, zlen_cons, Z.pow_add_r by (pose proof (zlen_nonneg acc); lia).
        change (10 ^ 1) with 10. pose proof (Z.div_mod n 10 ltac:(lia)) as D. nia.
      * rewrite Nat2Z.inj_succ, Z.pow_succ_r in H by lia. lia.
Qed.

Lemma log2_fuel : forall n, 0 <= n -> n < 2 ^ Z.of_nat (S (Z.to_nat (Z.log2 n))).
Proof.
  intros n H. pose proof (Z.log2_nonneg n).
  replace (Z.of_nat (S (Z.to_nat (Z.log2 n)))) with (Z.succ (Z.log2 n)) by lia.
  destruct (Z.eq_dec n 0) as [->|N]; [reflexivity|]. apply Z.log2_spec. lia.
Qed.

Lemma digits_val : forall n, 0 <= n -> dec_val (digits n) = n.
Proof.
  intros n H. unfold digits. rewrite digits_aux_val.
  - rewrite zlen_nil. unfold dec_val. cbn [fold_left]. lia.
  - split; [exact H|]. apply log2_fuel; exact H.
Qed.

Lemma digits_aux_digits : forall fuel n acc, 0 <= n -> forallb digitb acc = true ->
  forallb digitb (digits_aux fuel n acc) = true.
Proof.
  induction fuel as [|f IH]; intros n acc H Ha; [exact Ha|].
  cbn [digits_aux].
  assert (forallb digitb ((48 + n mod 10) :: acc) = true) as E.
  { cbn [forallb]. rewrite Ha. unfold digitb. lia. }
  destruct (n / 10 =? 0); [exact E|]. apply IH; [lia|exact E].
Qed.

Lemma digits_digits : forall n, 0 <= n -> forallb digitb (digits n) = true.
Proof. intros n H. apply digits_aux_digits; [exact H|reflexivity]. Qed.

Lemma digits_nonempty : forall n, digits n <> [].
Proof.
  assert (forall f k acc, acc <> [] -> digits_aux f k acc <> []) as H.
  { induction f as [|f IH]; intros k acc Ha; cbn [digits_aux]; [exact Ha|].
    destruct (k / 10 =? 0); [discriminate|]. apply IH. discriminate. }
  intros n. unfold digits. cbn [digits_aux].
  destruct (n / 10 =? 0); [discriminate|]. apply H. discriminate.
Qed.

Lemma fmt_d_inj : forall a b, fmt_d a = fmt_d b -> a = b.
Proof.
  assert (forall n l, 0 <= n -> digits n <> 45 :: l) as Hm.
  { intros n l H E. pose proof (digits_digits n H) as D. rewrite E in D. discriminate. }
  intros a b. unfold fmt_d. destruct (a <? 0) eqn:Ea, (b <? 0) eqn:Eb; intros H.
  - injection H as H. pose proof (digits_val (- a) ltac:(lia)). pose proof (digits_val (- b) ltac:(lia)).
    rewrite H in *. lia.
  - exfalso. symmetry in H. apply Hm in H; [exact H|lia].
  - exfalso. apply Hm in H; [exact H|lia].
  - pose proof (digits_val a ltac:(lia)). pose proof (digits_val b ltac:(lia)). rewrite H in *. lia.
Qed.

(** Splitting a text at the first character outside a class is unique. *)
Lemma span_unique : forall (f : Z -> bool) a b c d,
  forallb f a = true -> forallb f b = true ->
  (forall x r, c = x :: r -> f x = false) -> (forall x r, d = x :: r -> f x = false) ->
  a ++ c = b ++ d -> a = b /\ c = d.
Proof.
  intros f. induction a as [|x a IH]; intros b c d Ha Hb Hc Hd E.
  - destruct b as [|y b]; [auto|]. cbn in E. subst c. cbn in Hb. apply andb_true_iff in Hb as [Hb _].
    specialize (Hc y _ eq_refl). congruence.
  - cbn in Ha. apply andb_true_iff in Ha as [Hx Ha].
    destruct b as [|y b].
    + cbn in E. subst d. specialize (Hd x _ eq_refl). congruence.
    + cbn in Hb. apply andb_true_iff in Hb as [Hy Hb]. cbn in E. injection E as -> E.
      destruct (IH b c d Ha Hb Hc Hd E) as [-> ->]. auto.
Qed.
