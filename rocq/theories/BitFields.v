(** Bit fields packed into an integer, lowest field first, and their
    extraction by mask and shift. *)
From Verif Require Import Base BaseFacts FormatModel.

(** The integer whose bits are the fields (width, value), lowest first. *)
Fixpoint pack (fs : list (Z * Z)) : Z :=
  match fs with [] => 0 | (w, v) :: r => v + 2 ^ w * pack r end.

Definition fits (f : Z * Z) : Prop := 0 <= fst f /\ 0 <= snd f < 2 ^ fst f.

Fixpoint total (fs : list (Z * Z)) : Z :=
  match fs with [] => 0 | (w, _) :: r => w + total r end.

Lemma total_nonneg : forall fs, Forall fits fs -> 0 <= total fs.
Proof.
  induction 1 as [|[w v] r [W _] _ IH]; [simpl; lia|]. simpl in *. lia.
Qed.

Lemma pack_range : forall fs, Forall fits fs -> 0 <= pack fs < 2 ^ total fs.
Proof.
  induction 1 as [|[w v] r [W V] F IH]; [simpl; lia|]. simpl in *.
  pose proof (total_nonneg r F). rewrite Z.pow_add_r by lia.
  assert (0 < 2 ^ w) by (apply Z.pow_pos_nonneg; lia). nia.
Qed.

(** Extraction by mask and shift is division and remainder. *)
Lemma upk_div : forall src n w, 0 <= n -> 0 <= w ->
  upk src n (Z.shiftl (Z.ones w) n) = (src / 2 ^ n) mod 2 ^ w.
Proof.
  intros src n w N W. unfold upk.
  rewrite Z.shiftr_land, Z.shiftr_shiftl_l by lia. rewrite Z.sub_diag, Z.shiftl_0_r.
  rewrite Z.land_ones by lia. rewrite Z.shiftr_div_pow2 by lia. reflexivity.
Qed.

Lemma upk_here : forall w v r n, 0 <= w -> 0 <= v < 2 ^ w -> n = 0 ->
  ((v + 2 ^ w * r) / 2 ^ n) mod 2 ^ w = v.
Proof.
  intros w v r n W V ->. rewrite Z.pow_0_r, Z.div_1_r.
  rewrite Z.mul_comm, Z.mod_add by lia. apply Z.mod_small; lia.
Qed.

Lemma upk_skip : forall w v r n k, 0 <= w <= n -> 0 <= v < 2 ^ w ->
  ((v + 2 ^ w * r) / 2 ^ n) mod 2 ^ k = (r / 2 ^ (n - w)) mod 2 ^ k.
Proof.
  intros w v r n k W V. f_equal.
  replace (2 ^ n) with (2 ^ w * 2 ^ (n - w)) by (rewrite <- Z.pow_add_r by lia; f_equal; lia).
  assert (0 < 2 ^ w) by (apply Z.pow_pos_nonneg; lia).
  assert (0 < 2 ^ (n - w)) by (apply Z.pow_pos_nonneg; lia).
  rewrite <- Z.div_div by lia. f_equal.
  rewrite Z.mul_comm, Z.div_add by lia. rewrite Z.div_small by lia. lia.
Qed.

Lemma upk_pack : forall pre w v post n mask, Forall fits (pre ++ (w, v) :: post) -> n = total pre ->
  mask = Z.shiftl (Z.ones w) n -> upk (pack (pre ++ (w, v) :: post)) n mask = v.
Proof.
  intros pre w v post n mask F N ->.
  assert (W : 0 <= w /\ 0 <= v < 2 ^ w).
  { apply Forall_app in F as [_ F]. inversion F as [|? ? H _]; subst. exact H. }
  assert (0 <= n) by (subst; apply Forall_app in F as [F _]; apply total_nonneg; exact F).
  rewrite upk_div by lia. revert n N H.
  induction pre as [|[w1 v1] pre IH]; intros n N H; simpl in *.
  - apply upk_here; lia.
  - inversion F as [|? ? [W1 V1] F']; subst. simpl in *.
    assert (0 <= total pre) by (apply Forall_app in F' as [F' _]; apply total_nonneg; exact F').
    rewrite upk_skip by lia. apply IH; [exact F'|lia|lia].
Qed.

(** Reading the word as a signed integer does not change its fields. *)
Lemma upk_signed : forall x n w, 0 <= n -> 0 <= w -> n + w <= 32 -> 0 <= x < 2 ^ 32 ->
  upk (to_signed 32 x) n (Z.shiftl (Z.ones w) n) = upk x n (Z.shiftl (Z.ones w) n).
Proof.
  intros x n w N W NW X. rewrite !upk_div by lia. unfold to_signed.
  destruct (x <? 2 ^ (32 - 1)); [reflexivity|].
  replace (x - 2 ^ 32) with (x + (- 2 ^ (32 - n)) * 2 ^ n).
  2: { replace 32 with ((32 - n) + n) at 2 by lia. rewrite Z.pow_add_r by lia. lia. }
  assert (0 < 2 ^ n) by (apply Z.pow_pos_nonneg; lia).
  rewrite Z.div_add by lia.
  replace (- 2 ^ (32 - n)) with ((- 2 ^ (32 - n - w)) * 2 ^ w).
  2: { replace (32 - n) with ((32 - n - w) + w) at 2 by lia. rewrite Z.pow_add_r by lia. lia. }
  apply Z.mod_add. apply Z.pow_nonzero; lia.
Qed.

Lemma upk_signed_mask : forall x n w mask, mask = Z.shiftl (Z.ones w) n -> 0 <= n -> 0 <= w -> n + w <= 32 ->
  0 <= x < 2 ^ 32 -> upk (to_signed 32 x) n mask = upk x n mask.
Proof. intros; subst; apply upk_signed; assumption. Qed.

(** A single bit tested with a mask. *)
Lemma land_pack_bit : forall src n w, 0 <= n -> 0 <= w ->
  Z.land (Z.shiftr src n) (Z.ones w) = upk src n (Z.shiftl (Z.ones w) n).
Proof.
  intros. unfold upk. rewrite Z.shiftr_land, Z.shiftr_shiftl_l by lia. rewrite Z.sub_diag, Z.shiftl_0_r. reflexivity.
Qed.

Lemma upk_at : forall i fs n mask w v, Forall fits fs -> nth_error fs i = Some (w, v) ->
  n = total (firstn i fs) -> mask = Z.shiftl (Z.ones w) n -> upk (pack fs) n mask = v.
Proof.
  intros i fs n mask w v F NE N M.
  destruct (nth_error_split fs i NE) as (pre & post & -> & L).
  apply upk_pack with (w := w); [exact F| |exact M].
  rewrite N, <- L, firstn_app, Nat.sub_diag, firstn_all, firstn_O, app_nil_r. reflexivity.
Qed.

(** Finds the field that a goal [upk (pack fs) n mask = v] is about. *)
Ltac upk_field F :=
  first [ eapply (upk_at 0 _ _ _ _ _ F); reflexivity | eapply (upk_at 1 _ _ _ _ _ F); reflexivity
        | eapply (upk_at 2 _ _ _ _ _ F); reflexivity | eapply (upk_at 3 _ _ _ _ _ F); reflexivity
        | eapply (upk_at 4 _ _ _ _ _ F); reflexivity | eapply (upk_at 5 _ _ _ _ _ F); reflexivity
        | eapply (upk_at 6 _ _ _ _ _ F); reflexivity | eapply (upk_at 7 _ _ _ _ _ F); reflexivity ].

Lemma read_flags_pack : forall s a b c d e f, Forall fits [(2, s); (1, a); (1, b); (1, c); (1, d); (1, e); (1, f)] ->
  read_flags (Z.shiftr (pack [(2, s); (1, a); (1, b); (1, c); (1, d); (1, e); (1, f)]) 2) = mk_flags a b c d e f.
Proof.
  intros s a b c d e f F. unfold read_flags. rewrite !Z.shiftr_shiftr by lia.
  assert (L : forall src k, 0 <= k -> Z.land (Z.shiftr src k) 1 = upk src k (Z.shiftl (Z.ones 1) k)).
  { intros src k K. rewrite <- land_pack_bit by lia. reflexivity. }
  rewrite !L by lia. f_equal; upk_field F.
Qed.
