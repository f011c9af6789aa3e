(** Property theorems C25, C32, C33: default formatting, column widths, zoom.
    They speak of the records at the level of the reading loop: in
    [ran c sh rs tr sh' rs'] the loop goes from [sh] to [sh'] and [tr] lists the
    records it dispatches on (CONTINUE records and embedded substreams, which
    handlers consume, are not in [tr]). *)
From Verif Require Import Base BaseFacts Utf16 Strings Framing GridModel GridFacts PropGrid
  SheetObjects SheetModel SheetFacts SheetSteps PropSheet PropRead SheetTrace.

(** ** Specification *)

(** The unsigned 16-bit number at an offset of a record. *)
Definition u16_at (d : list Z) (pos : Z) : Z := le_val (py_slice d pos (pos + 2)).

(** The data of the last record that satisfies a condition. *)
Definition last_rec (p : Z -> list Z -> bool) (tr : list record) : option (list Z) :=
  fold_left (fun acc (r : record) => let '(rc, _, d) := r in if p rc d then Some d else acc) tr None.

Definition is_row (maxrows r rc : Z) (d : list Z) : bool := (rc =? XL_ROW) && (u16_at d 0 =? r) && (r <? maxrows).

(** A COLINFO record that covers a column; a range that ends beyond 256 is ignored. *)
Definition covers_col (k rc : Z) (d : list Z) : bool :=
  (rc =? XL_COLINFO) && (u16_at d 0 <=? k) && (k <=? u16_at d 2) && (u16_at d 2 <=? 256) && (k <? 256).

Definition is_code (code rc : Z) (d : list Z) : bool := rc =? code.

(** The XF index of a ROW record: bits 0-11 of the word at 14, if bit 7 of the byte at 12 is set. *)
Definition row_xf (d : list Z) : option Z :=
  match znth d 12 with
  | Some b => if Z.testbit b 7 then Some (u16_at d 14 mod 4096) else None
  | None => None
  end.

(** The bit of a column in a GCW record. *)
Definition gcw_bit (d : list Z) (k : Z) : bool :=
  match znth d (2 + k / 8) with Some b => Z.testbit b (k mod 8) | None => false end.

(** The zoom factor of an SCL record: its fraction in per cent, if that is one of
    the values that Excel offers, else 100. *)
Definition scl_value (d : list Z) : Z :=
  let z := (u16_at d 0 * 100) / u16_at d 2 in
  if (u16_at d 2 =? 0) || negb ((10 <=? z) && (z <=? 400)) then 100 else z.

(** A WINDOW2 record: whether the page break preview is shown, and the zoom
    factors remembered for the preview and the normal view. *)
Definition window_says (o : option (list Z)) : bool * Z * Z :=
  match o with Some d => (Z.testbit (u16_at d 0) 11, u16_at d 10, u16_at d 12) | None => (false, 0, 0) end.

(** ** Proofs *)

Section View.
Context {N : Type} (c : config N).

Lemma unpack_u16_at : forall d pos v, unpack_u16 d pos = Ok v -> v = u16_at d pos.
Proof. intros d pos v H. unfold unpack_u16, unpack_le in H. unfold u16_at. destruct (_ =? 2); congruence. Qed.

Lemma need_len : forall d n, need d n = Ok tt -> 0 <= n -> n <= zlen d.
Proof.
  intros d n H Hn. unfold need, guard in H. destruct (zlen (py_slice d 0 n) =? n) eqn:E; [|discriminate].
  rewrite py_slice_len in E. pose proof (zlen_nonneg d). unfold py_bound in E.
  destruct (n <? 0) eqn:?, (0 <? 0) eqn:?; lia.
Qed.

Lemma dget_range : forall {V} (ci : V) lo hi m k,
  dget Z.eqb (fold_left (fun m i => dset m i ci) (zrange lo hi) m) k =
  if (lo <=? k) && (k <? hi) then Some ci else dget Z.eqb m k.
Proof.
  intros V ci lo hi. remember (Z.to_nat (hi - lo)) as n eqn:En. revert lo En.
  induction n as [|n IH]; intros lo En m k.
  - rewrite zrange_nil by lia. cbn [fold_left]. destruct ((lo <=? k) && (k <? hi)) eqn:E; [lia|reflexivity].
  - rewrite zrange_cons by lia. cbn [fold_left]. rewrite IH by lia.
    cbn [dset dget]. destruct (k =? lo) eqn:E1.
    + replace ((lo <=? k) && (k <? hi)) with true by lia. replace ((lo + 1 <=? k) && (k <? hi)) with false by lia. reflexivity.
    + destruct ((lo + 1 <=? k) && (k <? hi)) eqn:E2.
      * replace ((lo <=? k) && (k <? hi)) with true by lia. reflexivity.
      * replace ((lo <=? k) && (k <? hi)) with false by lia. reflexivity.
Qed.

(** Bits of the two's complement reading of four bytes. *)
Lemma bit_b2z : forall v j, 0 <= j -> bit v j = Z.b2z (Z.testbit v j).
Proof.
  intros v j Hj. unfold bit. rewrite Z.shiftr_div_pow2 by lia. change 1 with (Z.ones 1). rewrite Z.land_ones by lia.
  change (2 ^ 1) with 2. symmetry. rewrite <- Z.bit0_mod, Z.div_pow2_bits by lia. rewrite Z.add_0_l. reflexivity.
Qed.

Lemma testbit_low : forall b x j, 0 <= b < 256 -> 0 <= j < 8 -> Z.testbit (b + 256 * x) j = Z.testbit b j.
Proof.
  intros b x j Hb Hj. rewrite <- (Z.mod_pow2_bits_low (b + 256 * x) 8 j) by lia. change (2 ^ 8) with 256.
  rewrite Z.mul_comm, Z.mod_add by lia. rewrite Z.mod_small by lia. reflexivity.
Qed.
Lemma testbit_high : forall b x j, 0 <= b < 256 -> 8 <= j -> Z.testbit (b + 256 * x) j = Z.testbit x (j - 8).
Proof.
  intros b x j Hb Hj. replace (Z.testbit x (j - 8)) with (Z.testbit ((b + 256 * x) / 2 ^ 8) (j - 8)).
  - rewrite Z.div_pow2_bits by lia. f_equal. lia.
  - f_equal. change (2 ^ 8) with 256. rewrite Z.mul_comm, Z.div_add by lia. rewrite Z.div_small by lia. lia.
Qed.

Lemma le_val_testbit : forall s j, bytes s -> 0 <= j < 8 * zlen s ->
  Z.testbit (le_val s) j = match znth s (j / 8) with Some b => Z.testbit b (j mod 8) | None => false end.
Proof.
  induction s as [|b s IH]; intros j HB Hj; [change (zlen []) with 0 in Hj; lia|].
  inversion HB as [|? ? Hb HB']; subst. rewrite zlen_cons in Hj. cbn [le_val].
  destruct (Z_lt_ge_dec j 8).
  - rewrite testbit_low by lia. replace (j / 8) with 0 by lia. rewrite znth_0. f_equal. lia.
  - rewrite testbit_high by lia. rewrite IH by (assumption || lia). rewrite znth_cons by lia.
    replace ((j - 8) / 8) with (j / 8 - 1) by lia. replace ((j - 8) mod 8) with (j mod 8) by lia. reflexivity.
Qed.

Lemma u16_testbit : forall d pos j, bytes d -> 0 <= pos -> pos + 2 <= zlen d -> 0 <= j < 16 ->
  Z.testbit (u16_at d pos) j = match znth d (pos + j / 8) with Some b => Z.testbit b (j mod 8) | None => false end.
Proof.
  intros d pos j HB Hp HL Hj. unfold u16_at. rewrite le_val_testbit.
  - rewrite znth_py_slice by lia. reflexivity.
  - apply bytes_slice. exact HB.
  - rewrite py_slice_len, !py_bound_id by lia. lia.
Qed.

Lemma i32_testbit : forall d pos v j, bytes d -> unpack_i32 d pos = Ok v -> 0 <= pos -> 0 <= j < 32 ->
  Z.testbit v j = match znth d (pos + j / 8) with Some b => Z.testbit b (j mod 8) | None => false end.
Proof.
  intros d pos v j HB H Hp Hj. unfold unpack_i32, unpack_le in H. apply bind_ok in H as (w & E & H). injection H as <-.
  destruct (zlen (py_slice d pos (pos + 4)) =? 4) eqn:EL; [|discriminate]. injection E as <-.
  assert (pos + 4 <= zlen d) as HL.
  { rewrite py_slice_len in EL. pose proof (zlen_nonneg d). unfold py_bound in EL. destruct (pos <? 0) eqn:?, (pos + 4 <? 0) eqn:?; lia. }
  assert (Z.testbit (to_signed 32 (le_val (py_slice d pos (pos + 4)))) j = Z.testbit (le_val (py_slice d pos (pos + 4))) j) as ->.
  { unfold to_signed. destruct (_ <? _); [reflexivity|]. rewrite <- (Z.mod_pow2_bits_low (_ - _) 32 j) by lia.
    rewrite <- (Z.mod_pow2_bits_low (le_val _) 32 j) by lia. f_equal.
    rewrite <- (Z.mod_add (_ - _) 1 (2 ^ 32)) by lia. f_equal. lia. }
  rewrite le_val_testbit; [|apply bytes_slice; exact HB|lia]. rewrite znth_py_slice by lia. reflexivity.
Qed.

Lemma row_bits : forall d v, bytes d -> 16 <= zlen d -> unpack_i32 d 12 = Ok v ->
  (if bit v 7 =? 0 then -1 else Z.land (Z.shiftr v 16) 0xfff) = match row_xf d with Some x => x | None => -1 end.
Proof.
  intros d v HB HL H. unfold row_xf. rewrite bit_b2z by lia. rewrite (i32_testbit _ _ _ 7 HB H) by lia.
  change (12 + 7 / 8) with 12. change (7 mod 8) with 7. destruct (znth d 12) as [b|]; [|reflexivity].
  destruct (Z.testbit b 7); [|reflexivity]. change (Z.b2z true =? 0) with false. cbv iota.
  change 0xfff with (Z.ones 12). rewrite Z.land_ones by lia. change 4096 with (2 ^ 12).
  apply Z.bits_inj'. intros i Hi. destruct (Z_lt_ge_dec i 12).
  - rewrite !Z.mod_pow2_bits_low by lia. rewrite Z.shiftr_spec by lia. rewrite (i32_testbit _ _ _ (i + 16) HB H) by lia.
    rewrite u16_testbit by (assumption || lia). replace (12 + (i + 16) / 8) with (14 + i / 8) by lia.
    replace ((i + 16) mod 8) with (i mod 8) by lia. reflexivity.
  - rewrite !Z.mod_pow2_bits_high by lia. reflexivity.
Qed.

Lemma mapM_znth : forall {A B} (f : A -> result B) l ys i x, mapM f l = Ok ys -> znth l i = Some x ->
  exists y, znth ys i = Some y /\ f x = Ok y.
Proof.
  intros A B f. induction l as [|a l IH]; intros ys i x H Hx.
  - apply znth_Some_range in Hx. change (zlen []) with 0 in Hx. lia.
  - cbn [mapM] in H. apply bind_ok in H as (y & Ey & H). apply bind_ok in H as (ys' & Eys & H). injection H as <-.
    pose proof (znth_Some_range _ _ _ Hx). destruct (Z.eq_dec i 0) as [->|Hi].
    + rewrite znth_0 in Hx. injection Hx as <-. exists y. rewrite znth_0. auto.
    + rewrite znth_cons in Hx by lia. rewrite znth_cons by lia. eauto.
Qed.

Lemma blocks_znth : forall {A B} (f : A -> list B) n l i, 0 < n -> (forall a, zlen (f a) = n) -> 0 <= i ->
  znth (flat_map f l) i = match znth l (i / n) with Some a => znth (f a) (i mod n) | None => None end.
Proof.
  intros A B f n. induction l as [|a l IH]; intros i Hn HL Hi.
  - cbn [flat_map]. rewrite !(proj2 (znth_None _ _)); [reflexivity|..]; change (zlen []) with 0; [|lia]. right. apply Z.div_pos; lia.
  - cbn [flat_map]. destruct (Z_lt_ge_dec i n).
    + rewrite znth_app_l by (rewrite HL; lia). rewrite Z.div_small by lia. rewrite znth_0, Z.mod_small by lia. reflexivity.
    + rewrite znth_app_r by (rewrite HL; lia). rewrite HL, IH by lia.
      assert (1 <= i / n) by (apply Z.div_le_lower_bound; lia). rewrite znth_cons by lia.
      replace (i - n) with (i + (-1) * n) by lia. rewrite Z.div_add, Z.mod_add by lia.
      replace (i / n + -1) with (i / n - 1) by lia. reflexivity.
Qed.

Lemma gcw_bits : forall d iguff k, bytes d -> 34 <= zlen d -> mapM (fun i => unpack_i32 d (2 + 4 * i)) (zrange 0 8) = Ok iguff ->
  0 <= k < 256 -> znth (flat_map (fun bits => map (fun j => bit bits j) (zrange 0 32)) iguff) k = Some (Z.b2z (gcw_bit d k)).
Proof.
  intros d iguff k HB HL HM Hk.
  rewrite (blocks_znth _ 32) by (lia || (intros; unfold zlen; rewrite map_length; fold (zlen (zrange 0 32)); rewrite zlen_zrange; lia)).
  destruct (mapM_znth _ _ _ (k / 32) (k / 32) HM) as (v & Ev & Hv); [rewrite znth_zrange by lia; f_equal; lia|].
  rewrite Ev, znth_map, znth_zrange by lia. cbn [option_map]. f_equal. rewrite bit_b2z by lia. f_equal.
  rewrite (i32_testbit _ _ _ _ HB Hv) by lia. unfold gcw_bit.
  replace (2 + 4 * (k / 32) + (0 + k mod 32) / 8) with (2 + k / 8) by lia.
  replace ((0 + k mod 32) mod 8) with (k mod 8) by lia. reflexivity.
Qed.

(** ** What the records of a run leave in the state *)

Definition fold_rec (p : Z -> list Z -> bool) (tr : list record) (acc : option (list Z)) : option (list Z) :=
  fold_left (fun acc (r : record) => let '(rc, _, d) := r in if p rc d then Some d else acc) tr acc.

Definition good (tr : list record) : Prop := Forall (fun r : record => bytes (snd r)) tr.

(** A field that only one record sets. *)
Lemma ran_field : forall {X} (F : sheet N -> X) (G : option (list Z) -> X) (p : Z -> list Z -> bool),
  (forall sh rc len d rs sh' rs' acc, rc <> XL_EOF -> bytes d -> step c sh rc len d rs = Ok (sh', rs') ->
     F sh = G acc -> F sh' = G (if p rc d then Some d else acc)) ->
  forall sh rs tr sh' rs', ran c sh rs tr sh' rs' -> good tr -> forall acc, F sh = G acc -> F sh' = G (fold_rec p tr acc).
Proof.
  intros X F G p HS sh rs tr sh' rs' H. induction H as [|sh rc len d rs sh1 rs1 tr sh2 rs2 E S H IH]; intros HG acc HF.
  - exact HF.
  - inversion HG as [|? ? Hb HG']; subst. cbn [snd] in Hb. cbn [fold_rec fold_left]. apply IH; [exact HG'|].
    eapply HS; eauto.
Qed.

Lemma defcolwidth_trace : forall sh rs tr sh' rs', ran c sh rs tr sh' rs' -> good tr -> forall acc,
  f_defcolwidth (sh_fmt sh) = option_map (fun d => u16_at d 0) acc ->
  f_defcolwidth (sh_fmt sh') = option_map (fun d => u16_at d 0) (fold_rec (is_code XL_DEFCOLWIDTH) tr acc).
Proof.
  apply ran_field. intros sh rc len d rs sh' rs' acc _ HB S HF. unfold is_code. destruct (Z.eqb_spec rc XL_DEFCOLWIDTH) as [->|Hn].
  - change (step c sh XL_DEFCOLWIDTH len d rs) with (plain (h_defcolwidth sh d) rs) in S. unfold plain, h_defcolwidth in S.
    apply bind_ok in S as (s1 & S & E). injection E as <- _. cbv zeta in S. apply bind_ok in S as (w & Ew & S). injection S as <-.
    apply unpack_u16_at in Ew. subst w. reflexivity.
  - rewrite (la_defcolwidth _ _ _ (step_alone c _ _ _ _ _ _ _ S) Hn). exact HF.
Qed.

Lemma standardwidth_trace : forall sh rs tr sh' rs', ran c sh rs tr sh' rs' -> good tr -> forall acc,
  f_standardwidth (sh_fmt sh) = option_map (fun d => u16_at d 0) acc ->
  f_standardwidth (sh_fmt sh') = option_map (fun d => u16_at d 0) (fold_rec (is_code XL_STANDARDWIDTH) tr acc).
Proof.
  apply ran_field. intros sh rc len d rs sh' rs' acc _ HB S HF. unfold is_code. destruct (Z.eqb_spec rc XL_STANDARDWIDTH) as [->|Hn].
  - change (step c sh XL_STANDARDWIDTH len d rs) with (plain (h_standardwidth sh d) rs) in S. unfold plain, h_standardwidth in S.
    apply bind_ok in S as (s1 & S & E). injection E as <- _. cbv zeta in S. apply bind_ok in S as (w & Ew & S). injection S as <-.
    apply unpack_u16_at in Ew. subst w. reflexivity.
  - rewrite (la_standardwidth _ _ _ (step_alone c _ _ _ _ _ _ _ S) Hn). exact HF.
Qed.

Lemma gcw_trace : forall k, 0 <= k < 256 -> c_fmt c = true -> forall sh rs tr sh' rs', ran c sh rs tr sh' rs' -> good tr -> forall acc,
  znth (f_gcw (sh_fmt sh)) k = Some (match acc with Some d => Z.b2z (gcw_bit d k) | None => 0 end) ->
  znth (f_gcw (sh_fmt sh')) k = Some (match fold_rec (is_code XL_GCW) tr acc with Some d => Z.b2z (gcw_bit d k) | None => 0 end).
Proof.
  intros k Hk HF. apply (ran_field (fun sh => znth (f_gcw (sh_fmt sh)) k) (fun acc => Some (match acc with Some d => Z.b2z (gcw_bit d k) | None => 0 end))).
  intros sh rc len d rs sh' rs' acc _ HB S HA. unfold is_code. destruct (Z.eqb_spec rc XL_GCW) as [->|Hn].
  - change (step c sh XL_GCW len d rs) with (plain (h_gcw c sh len d) rs) in S. unfold plain, h_gcw in S.
    apply bind_ok in S as (s1 & S & E). injection E as <- _. rewrite HF in S. cbn [negb] in S. cbv zeta in S.
    apply bind_ok in S as (? & _ & S). apply bind_ok in S as (? & _ & S). apply bind_ok in S as (? & E34 & S).
    apply bind_ok in S as (iguff & EM & S). injection S as <-. cbn [with_fmt sh_fmt f_gcw].
    apply gcw_bits; try assumption. unfold guard in E34. destruct (_ =? 32) eqn:E3; [|discriminate].
    rewrite py_slice_len in E3. pose proof (zlen_nonneg d). unfold py_bound in E3. destruct (34 <? 0) eqn:?, (2 <? 0) eqn:?; lia.
  - rewrite (la_gcw _ _ _ (step_alone c _ _ _ _ _ _ _ S) Hn). exact HA.
Qed.

Lemma u16_at_range : forall d pos v, bytes d -> unpack_u16 d pos = Ok v -> 0 <= v < 65536.
Proof. intros d pos v HB H. eapply unpack_u16_range; eauto. Qed.

(** Width and XF index of a column; XF index of a row. *)
Lemma cols_trace : forall k, c_fmt c = true -> forall sh rs tr sh' rs', ran c sh rs tr sh' rs' -> good tr -> forall acc,
  option_map (fun ci => (ci_width ci, ci_xf ci)) (dget Z.eqb (f_cols (sh_fmt sh)) k) = option_map (fun d => (u16_at d 4, u16_at d 6)) acc ->
  option_map (fun ci => (ci_width ci, ci_xf ci)) (dget Z.eqb (f_cols (sh_fmt sh')) k) =
    option_map (fun d => (u16_at d 4, u16_at d 6)) (fold_rec (covers_col k) tr acc).
Proof.
  intros k HF. apply (ran_field (fun sh => option_map (fun ci => (ci_width ci, ci_xf ci)) (dget Z.eqb (f_cols (sh_fmt sh)) k))
                        (option_map (fun d => (u16_at d 4, u16_at d 6)))).
  intros sh rc len d rs sh' rs' acc _ HB S HA. unfold covers_col. destruct (Z.eqb_spec rc XL_COLINFO) as [->|Hn].
  - change (step c sh XL_COLINFO len d rs) with (plain (h_colinfo c sh d) rs) in S. unfold plain, h_colinfo in S.
    apply bind_ok in S as (s1 & S & E). injection E as <- _. rewrite HF in S. cbn [negb] in S. cbv zeta in S.
    apply bind_ok in S as (? & _ & S). apply bind_ok in S as (first & E1 & S). apply bind_ok in S as (last & E2 & S).
    apply bind_ok in S as (width & E3 & S). apply bind_ok in S as (xf & E4 & S). apply bind_ok in S as (flags & E5 & S).
    pose proof (u16_at_range _ _ _ HB E1). pose proof (u16_at_range _ _ _ HB E2).
    apply unpack_u16_at in E1, E2, E3, E4. rewrite <- E1, <- E2. cbn [andb].
    destruct (negb ((0 <=? first) && (first <=? last) && (last <=? 256))) eqn:EV.
    + injection S as <-. replace ((first <=? k) && (k <=? last) && (last <=? 256) && (k <? 256)) with false by lia. exact HA.
    + injection S as <-. cbn [with_fmt sh_fmt f_cols]. rewrite dget_range.
      replace ((first <=? k) && (k <? Z.min 256 (last + 1))) with ((first <=? k) && (k <=? last) && (last <=? 256) && (k <? 256)) by lia.
      destruct ((first <=? k) && (k <=? last) && (last <=? 256) && (k <? 256)); [|exact HA]. cbn [option_map ci_width ci_xf]. congruence.
  - rewrite (la_cols _ _ _ (step_alone c _ _ _ _ _ _ _ S) Hn). exact HA.
Qed.

Lemma rows_trace : forall r, c_fmt c = true -> forall sh rs tr sh' rs', ran c sh rs tr sh' rs' -> good tr -> forall acc,
  option_map ri_xf (dget Z.eqb (f_rows (sh_fmt sh)) r) = option_map (fun d => match row_xf d with Some x => x | None => -1 end) acc ->
  option_map ri_xf (dget Z.eqb (f_rows (sh_fmt sh')) r) =
    option_map (fun d => match row_xf d with Some x => x | None => -1 end) (fold_rec (is_row (max_rows c) r) tr acc).
Proof.
  intros r HF. apply (ran_field (fun sh => option_map ri_xf (dget Z.eqb (f_rows (sh_fmt sh)) r))
                        (option_map (fun d => match row_xf d with Some x => x | None => -1 end))).
  intros sh rc len d rs sh' rs' acc _ HB S HA. unfold is_row. destruct (Z.eqb_spec rc XL_ROW) as [->|Hn].
  - change (step c sh XL_ROW len d rs) with (plain (h_row c sh d) rs) in S. unfold plain, h_row in S.
    apply bind_ok in S as (s1 & S & E). injection E as <- _. rewrite HF in S. cbn [negb] in S. cbv zeta in S.
    apply bind_ok in S as ([] & EN & S). apply bind_ok in S as (rowx & E1 & S). apply bind_ok in S as (bits1 & _ & S).
    apply bind_ok in S as (bits2 & E2 & S). pose proof (u16_at_range _ _ _ HB E1).
    apply need_len in EN; [|lia]. apply unpack_u16_at in E1. rewrite <- E1. cbn [andb].
    destruct (negb ((0 <=? rowx) && (rowx <? max_rows c))) eqn:EV.
    + injection S as <-. replace ((rowx =? r) && (r <? max_rows c)) with false by lia. exact HA.
    + injection S as <-. cbn [with_fmt sh_fmt f_rows dset dget]. rewrite (Z.eqb_sym r rowx). destruct (rowx =? r) eqn:ER.
      * replace (r <? max_rows c) with true by lia. cbn [andb option_map ri_xf]. f_equal. apply row_bits; assumption.
      * exact HA.
  - rewrite (la_rows _ _ _ (step_alone c _ _ _ _ _ _ _ S) Hn). exact HA.
Qed.

(** Zoom: the SCL value, and what the last WINDOW2 record says. *)
Lemma scl_trace : forall sh rs tr sh' rs', ran c sh rs tr sh' rs' -> good tr -> forall acc,
  v_scl (sh_view sh) = option_map scl_value acc ->
  v_scl (sh_view sh') = option_map scl_value (fold_rec (is_code XL_SCL) tr acc).
Proof.
  apply ran_field. intros sh rc len d rs sh' rs' acc _ HB S HA. unfold is_code. destruct (Z.eqb_spec rc XL_SCL) as [->|Hn].
  - change (step c sh XL_SCL len d rs) with (plain (h_scl sh d) rs) in S. unfold plain, h_scl in S.
    apply bind_ok in S as (s1 & S & E'). injection E' as <- _. cbv zeta in S.
    apply bind_ok in S as (? & _ & S). apply bind_ok in S as (num & E1 & S). apply bind_ok in S as (den & E2 & S). injection S as <-.
    apply unpack_u16_at in E1, E2. subst. cbn [with_view sh_view v_scl option_map]. f_equal. unfold scl_value.
    destruct (u16_at d 2 =? 0) eqn:E0; cbn [negb].
    + reflexivity.
    + set (z := _ / _). destruct ((10 <=? z) && (z <=? 400)); reflexivity.
  - rewrite (la_scl _ _ _ (step_alone c _ _ _ _ _ _ _ S) Hn). exact HA.
Qed.

(** Every WINDOW2 record has its fourteen bytes. *)
Definition long_window2 (tr : list record) : Prop :=
  Forall (fun r : record => let '(rc, len, _) := r in rc = XL_WINDOW2 -> 14 <= len) tr.

Definition seen (sh : sheet N) : bool * Z * Z :=
  (match znth (v_options (sh_view sh)) 11 with Some b => negb (b =? 0) | None => false end,
   v_cached_preview (sh_view sh), v_cached_normal (sh_view sh)).

Lemma window_trace : 80 <= c_bv c -> forall sh rs tr sh' rs', ran c sh rs tr sh' rs' -> good tr -> long_window2 tr -> forall acc,
  seen sh = window_says acc -> seen sh' = window_says (fold_rec (is_code XL_WINDOW2) tr acc).
Proof.
  intros HV sh rs tr sh' rs' H. induction H as [|sh rc len d rs sh1 rs1 tr sh2 rs2 E S H IH]; intros HG HL acc HA; [exact HA|].
  inversion HG as [|? ? HB HG']; subst. cbn [snd] in HB. inversion HL as [|? ? Hlen HL']; subst. cbn [fold_rec fold_left].
  apply IH; [exact HG'|exact HL'|]. unfold is_code. destruct (Z.eqb_spec rc XL_WINDOW2) as [->|Hn].
  - change (step c sh XL_WINDOW2 len d rs) with (plain (h_window2 c sh len d) rs) in S. unfold plain, h_window2 in S.
    apply bind_ok in S as (s1 & S & E'). injection E' as <- _. specialize (Hlen eq_refl).
    replace ((c_bv c >=? 80) && (len >=? 14)) with true in S by lia.
    apply bind_ok in S as (? & _ & S). apply bind_ok in S as (o & E1 & S). apply bind_ok in S as (? & _ & S). apply bind_ok in S as (? & _ & S).
    apply bind_ok in S as (? & _ & S). apply bind_ok in S as (cp & E2 & S). apply bind_ok in S as (cn & E3 & S). injection S as <-.
    apply unpack_u16_at in E1, E2, E3. subst. unfold seen. cbn [with_view sh_view v_options v_cached_preview v_cached_normal].
    match goal with |- context[znth ?l 11] => change (znth l 11) with (Some (bit (u16_at d 0) 11)) end.
    cbn [window_says]. rewrite bit_b2z by lia. destruct (Z.testbit _ 11); reflexivity.
  - pose proof (step_alone c _ _ _ _ _ _ _ S) as LA. unfold seen.
    rewrite (la_options _ _ _ LA Hn), (la_preview _ _ _ LA Hn), (la_normal _ _ _ LA Hn). exact HA.
Qed.
End View.

(** ** C25 *)

(** The XF index of a position where no XF index above -1 is stored: that of the
    row's last ROW record if it names one, else that of the column's last COLINFO
    record, else 15. *)
Definition default_xf (maxrows : Z) (tr : list record) (r k : Z) : Z :=
  let col := match last_rec (covers_col k) tr with Some d => u16_at d 6 | None => 15 end in
  match last_rec (is_row maxrows r) tr with
  | Some d => match row_xf d with Some x => x | None => col end
  | None => col
  end.

Lemma fold_rec_in : forall p tr acc d, fold_rec p tr acc = Some d -> acc = Some d \/ exists rc len, In (rc, len, d) tr /\ p rc d = true.
Proof.
  intros p. induction tr as [|[[rc len] d0] tr IH]; intros acc d H; [left; exact H|].
  cbn [fold_rec fold_left] in H. apply IH in H as [H|(rc' & len' & Hin & Hp)].
  - destruct (p rc d0) eqn:E; [|left; exact H]. injection H as <-. right. exists rc, len. split; [left; reflexivity|exact E].
  - right. exists rc', len'. split; [right; exact Hin|exact Hp].
Qed.

Lemma u16_at_nonneg : forall d pos, bytes d -> 0 <= u16_at d pos.
Proof. intros d pos HB. unfold u16_at. pose proof (le_val_range (py_slice d pos (pos + 2)) (bytes_slice _ _ _ HB)). lia. Qed.

Lemma good_in : forall tr rc len d, good tr -> In (rc, len, d) tr -> bytes d.
Proof. intros tr rc len d HG Hin. unfold good in HG. rewrite Forall_forall in HG. exact (HG _ Hin). Qed.

Theorem c25_fallback : forall {N} (c : config N) countries rs tr sh rs' g r k x, c_fmt c = true ->
  ran c (sheet0 countries) rs tr sh rs' -> good tr -> plane_get (g_xfs g) r k = Ok x ->
  cell_xf_index c (with_grid sh g) r k = Ok (if x >? -1 then x else default_xf (max_rows c) tr r k).
Proof.
  intros N c countries rs tr sh rs' g r k x HF HR HG HX.
  unfold cell_xf_index, req_fmt_info. rewrite HF. cbn [guard bind with_grid sh_grid sh_fmt]. rewrite HX. cbn [bind].
  destruct (x >? -1); [reflexivity|].
  pose proof (cols_trace c k HF _ _ _ _ _ HR HG None eq_refl) as HC.
  pose proof (rows_trace c r HF _ _ _ _ _ HR HG None eq_refl) as HW.
  unfold default_xf. change (last_rec (is_row (max_rows c) r) tr) with (fold_rec (is_row (max_rows c) r) tr None).
  change (last_rec (covers_col k) tr) with (fold_rec (covers_col k) tr None).
  assert (match dget Z.eqb (f_cols (sh_fmt sh)) k with Some ci => if ci_xf ci =? -1 then 15 else ci_xf ci | None => 15 end =
          match fold_rec (covers_col k) tr None with Some d => u16_at d 6 | None => 15 end) as ->.
  { destruct (fold_rec (covers_col k) tr None) as [d|] eqn:ED, (dget Z.eqb (f_cols (sh_fmt sh)) k) as [ci|]; try discriminate HC; [|reflexivity].
    cbn [option_map] in HC. injection HC as _ ->. apply fold_rec_in in ED as [ED|(rc & len & Hin & _)]; [discriminate|].
    pose proof (u16_at_nonneg d 6 (good_in _ _ _ _ HG Hin)). destruct (_ =? -1) eqn:?; [lia|reflexivity]. }
  destruct (fold_rec (is_row (max_rows c) r) tr None) as [d|] eqn:ED, (dget Z.eqb (f_rows (sh_fmt sh)) r) as [ri|]; try discriminate HW; [|reflexivity].
  cbn [option_map] in HW. injection HW as ->. apply fold_rec_in in ED as [ED|(rc & len & Hin & _)]; [discriminate|].
  unfold row_xf. destruct (znth d 12) as [b|]; [|reflexivity]. destruct (Z.testbit b 7); [|reflexivity].
  destruct (_ >? -1) eqn:?; [reflexivity|lia].
Qed.
Print Assumptions c25_fallback.

(** The same for a whole sheet: every position inside the sheet reports the XF
    index of the last cell stored there, or else the default. *)
Lemma xfs_hold : forall {V} (vempty : V) ragged maxrows hist merged g, 0 <= maxrows ->
  Forall (in_bounds true maxrows 256) hist -> merged_ok maxrows merged ->
  sheet_of vempty ragged true maxrows 256 hist merged = Ok g ->
  forall r k n, 0 <= r < g_nrows g -> row_len g r = Ok n -> 0 <= k < n -> plane_get (g_xfs g) r k = Ok (spec_xf hist r k).
Proof.
  intros V vempty ragged maxrows hist merged g HM0 HB HM E.
  assert (exists W, Holds vempty true hist g W) as (W & HH).
  { destruct ragged.
    - destruct (sheet_ragged vempty true maxrows 256 hist merged HM0 ltac:(lia) HB HM) as (g' & W & E' & _ & _ & HH & _).
      rewrite E in E'. injection E' as <-. eauto.
    - destruct (sheet_padded vempty true maxrows 256 hist merged HM0 ltac:(lia) HB HM) as (g' & E' & _ & _ & HH).
      rewrite E in E'. injection E' as <-. eauto. }
  intros r k n Hr Hn Hk. assert (znth W r = Some n) as Hw by (eapply row_len_width; [exact HH|lia|exact Hn]).
  destruct HH as (_ & _ & HX & _ & _ & _ & LX). rewrite (plane_get_look (-1) _ r k n) by (try rewrite HX; auto).
  rewrite LX; reflexivity.
Qed.

Lemma ran_good : forall {N} (c : config N) sh rs tr sh' rs', ran c sh rs tr sh' rs' -> good rs -> good tr.
Proof.
  intros N c sh rs tr sh' rs' H. induction H as [|sh rc len d rs sh1 rs1 tr sh2 rs2 E S H IH]; intros HG; [constructor|].
  inversion HG as [|? ? Hb HG']; subst. constructor; [exact Hb|]. apply IH.
  destruct (Local_step c _ _ _ _ _ _ _ S) as (u & -> & _). apply Forall_app in HG' as [_ HG']. exact HG'.
Qed.

Theorem c25_content : forall {N} (c : config N) countries items len d rest sh, c_fmt c = true -> 50 <= c_bv c ->
  Forall (item_ok c) items -> dims_first c items ->
  Forall (in_bounds true (max_rows c) 256) (flat_map (cells c) items) -> merged_ok (max_rows c) (flat_map (merges c) items) ->
  good (map rec_of (flat_map (enc c) items) ++ (XL_EOF, len, d) :: rest) ->
  sheet_read c countries (map rec_of (flat_map (enc c) items) ++ (XL_EOF, len, d) :: rest) = Ok sh ->
  exists tr sh1 rs', ran c (sheet0 countries) (map rec_of (flat_map (enc c) items) ++ (XL_EOF, len, d) :: rest) tr sh1 rs' /\
    forall r k n, 0 <= r < g_nrows (sh_grid sh) -> row_len (sh_grid sh) r = Ok n -> 0 <= k < n ->
      cell_xf_index c sh r k =
        Ok (let x := spec_xf (flat_map (cells c) items) r k in if x >? -1 then x else default_xf (max_rows c) tr r k).
Proof.
  intros N c countries items len d rest sh HF HV OK HD HI HM HG H.
  destruct (sheet_content c countries items len d rest sh ltac:(lia) OK HD H) as [HS _].
  unfold sheet_read in H. apply bind_ok in H as (sh1 & R & H). apply bind_ok in H as (g & _ & H). injection H as <-.
  fold (read_all c (sheet0 countries) (map rec_of (flat_map (enc c) items) ++ (XL_EOF, len, d) :: rest)) in R.
  destruct (read_ran c _ _ _ R) as (tr & len' & d' & rest' & HR). exists tr, sh1. eexists. split; [exact HR|].
  intros r k n Hr Hn Hk. cbv zeta. eapply c25_fallback; [exact HF|exact HR|eapply ran_good; eauto|].
  rewrite HF in HS. cbn [with_grid sh_grid] in *.
  eapply xfs_hold; [apply (max_rows_pos c)|exact HI|exact HM|exact HS|exact Hr|exact Hn|exact Hk].
Qed.
Print Assumptions c25_content.

(** A sheet with a ROW record (row 1, XF 21), two COLINFO records (columns 0-2 with
    XF 17, columns 1-1 with XF 18), widths and a GCW record for column 0. *)
Definition ex_fmt_records : list record :=
  map rec_of
    [(XL_DEFCOLWIDTH, [9; 0]); (XL_COLINFO, [0;0; 2;0; 100;0; 17;0; 0;0]); (XL_COLINFO, [1;0; 1;0; 200;0; 18;0; 0;0]);
     (XL_STANDARDWIDTH, [44; 1]); (XL_GCW, [0x20;0; 1] ++ repeat 0 31);
     (XL_ROW, [1;0; 0;0; 0;0; 0;0; 0;0; 0;0; 128;0; 21;0]); (XL_ROW, [2;0; 0;0; 0;0; 0;0; 0;0; 0;0; 0;0; 21;0]);
     (XL_BLANK, [1;0; 0;0; 16;0]); (XL_BLANK, [4;0; 4;0; 15;0]);
     (XL_WINDOW2, [0;8; 0;0; 0;0; 0;0; 0;0; 70;0; 80;0]); (XL_SCL, [3;0; 2;0]); (XL_EOF, [])].

Definition ex_fmt_sheet (bv : Z) : result (list Z * (Z * Z) * list Z) :=
  let c := mk_config bv true false [] [] (fun _ => Some XL_CELL_NUMBER) (fun b => Ok b) (fun b => b) (fun b => Ok b) (fun _ => 0) in
  do sh <- sheet_read c (0, 0) ex_fmt_records;
  do x <- mapM (fun p : Z * Z => cell_xf_index c sh (fst p) (snd p)) [(1, 0); (1, 1); (2, 1); (3, 0); (3, 4)];
  do w <- mapM (computed_column_width c sh) [0; 1; 2; 3];
  Ok (x, cooked_mag_factors (sh_view sh), w).

Example c25_c32_c33_example : good ex_fmt_records /\ long_window2 ex_fmt_records /\
  ex_fmt_sheet 80 = Ok ([16; 21; 18; 17; 15], (80, 150), [100; 200; 100; 300]) /\
  match ex_fmt_sheet 70 with Ok (_, _, w) => w = [300; 200; 100; 2304] | Err _ => False end.
Proof.
  split; [|split; [|split]]; [..|vm_compute; reflexivity].
  - unfold good, ex_fmt_records. repeat constructor; cbn [snd]; lia.
  - unfold long_window2, ex_fmt_records. repeat constructor; intros; try discriminate; vm_compute; discriminate.
  - vm_compute. reflexivity.
Qed.

(** ** C32 *)

(** The width of a column: BIFF8 files go by COLINFO, then STANDARDWIDTH; BIFF5-7
    files go by the GCW bit, which chooses between the two; DEFCOLWIDTH comes last. *)
Definition default_width (tr : list record) : Z :=
  match last_rec (is_code XL_DEFCOLWIDTH) tr with Some d => 256 * u16_at d 0 | None => 2048 end.
Definition own_width (tr : list record) (k : Z) : option Z := option_map (fun d => u16_at d 4) (last_rec (covers_col k) tr).
Definition standard_width (tr : list record) : option Z := option_map (fun d => u16_at d 0) (last_rec (is_code XL_STANDARDWIDTH) tr).
Definition global_col (tr : list record) (k : Z) : bool :=
  match last_rec (is_code XL_GCW) tr with Some d => gcw_bit d k | None => false end.
Definition or_else {A} (o : option A) (x : A) : A := match o with Some y => y | None => x end.

Definition width_spec (biff8 : bool) (tr : list record) (k : Z) : Z :=
  if biff8 then or_else (own_width tr k) (or_else (standard_width tr) (default_width tr))
  else if global_col tr k then or_else (standard_width tr) (default_width tr)
  else or_else (own_width tr k) (default_width tr).

Theorem c32_width : forall {N} (c : config N) countries rs tr sh rs' g k, c_fmt c = true -> 50 <= c_bv c ->
  ran c (sheet0 countries) rs tr sh rs' -> good tr -> 0 <= k < 256 ->
  computed_column_width c (with_grid sh g) k = Ok (width_spec (c_bv c >=? 80) tr k).
Proof.
  intros N c countries rs tr sh rs' g k HF HV HR HG Hk.
  pose proof (cols_trace c k HF _ _ _ _ _ HR HG None eq_refl) as HC.
  pose proof (defcolwidth_trace c _ _ _ _ _ HR HG None eq_refl) as HD.
  pose proof (standardwidth_trace c _ _ _ _ _ HR HG None eq_refl) as HS.
  assert (znth (f_gcw (sh_fmt (sheet0 (N := N) countries))) k = Some 0) as H0.
  { cbn [sheet0 sh_fmt f_gcw]. rewrite znth_zrepeat by lia. reflexivity. }
  pose proof (gcw_trace c k Hk HF _ _ _ _ _ HR HG None H0) as HW.
  unfold computed_column_width, req_fmt_info. rewrite HF. cbn [guard bind with_grid sh_fmt].
  rewrite HD, HS. unfold width_spec, own_width, standard_width, default_width, global_col.
  change (last_rec (covers_col k) tr) with (fold_rec (covers_col k) tr None).
  change (last_rec (is_code XL_DEFCOLWIDTH) tr) with (fold_rec (is_code XL_DEFCOLWIDTH) tr None).
  change (last_rec (is_code XL_STANDARDWIDTH) tr) with (fold_rec (is_code XL_STANDARDWIDTH) tr None).
  change (last_rec (is_code XL_GCW) tr) with (fold_rec (is_code XL_GCW) tr None).
  assert (match fold_rec (is_code XL_DEFCOLWIDTH) tr None with Some d => 256 * u16_at d 0 | None => 2048 end =
          match option_map (fun d => u16_at d 0) (fold_rec (is_code XL_DEFCOLWIDTH) tr None) with Some w => w * 256 | None => 8 * 256 end) as ->.
  { destruct (fold_rec (is_code XL_DEFCOLWIDTH) tr None); cbn [option_map]; lia. }
  set (rome := match option_map _ (fold_rec (is_code XL_DEFCOLWIDTH) tr None) with Some _ => _ | None => _ end).
  assert (forall y : result Z, match dget Z.eqb (f_cols (sh_fmt sh)) k with Some ci => Ok (ci_width ci) | None => y end =
          match option_map (fun d => u16_at d 4) (fold_rec (covers_col k) tr None) with Some w => Ok w | None => y end) as HCW.
  { intros y. destruct (fold_rec (covers_col k) tr None), (dget Z.eqb (f_cols (sh_fmt sh)) k); try discriminate HC; [|reflexivity].
    cbn [option_map] in *. congruence. }
  rewrite !HCW. unfold or_else. destruct (c_bv c >=? 80).
  - destruct (fold_rec (covers_col k) tr None); [reflexivity|]. destruct (fold_rec (is_code XL_STANDARDWIDTH) tr None); reflexivity.
  - replace (c_bv c >=? 40) with true by lia. apply py_index_znth in HW; [|lia]. rewrite HW. cbn [bind].
    destruct (fold_rec (is_code XL_GCW) tr None) as [d|]; [destruct (gcw_bit d k)|]; cbn [Z.b2z Z.eqb negb].
    + destruct (fold_rec (is_code XL_STANDARDWIDTH) tr None); reflexivity.
    + destruct (fold_rec (covers_col k) tr None); reflexivity.
    + destruct (fold_rec (covers_col k) tr None); reflexivity.
Qed.
Print Assumptions c32_width.

(** ** C33 *)

(** Whatever the records say, both zoom factors lie between 10 and 400. *)
Theorem c33_zoom_range : forall {N} (c : config N) countries rs tr sh rs', ran c (sheet0 countries) rs tr sh rs' -> good tr ->
  let '(normal, preview) := cooked_mag_factors (sh_view sh) in 10 <= normal <= 400 /\ 10 <= preview <= 400.
Proof.
  intros N c countries rs tr sh rs' HR HG.
  pose proof (scl_trace c _ _ _ _ _ HR HG None eq_refl) as HS.
  assert (10 <= match v_scl (sh_view sh) with None => 100 | Some x => x end <= 400) as H.
  { rewrite HS. destruct (fold_rec (is_code XL_SCL) tr None) as [d|]; cbn [option_map]; [|lia].
    unfold scl_value. set (z := _ / _). destruct ((u16_at d 2 =? 0) || negb ((10 <=? z) && (z <=? 400))) eqn:?; lia. }
  unfold cooked_mag_factors. set (scl := match v_scl _ with None => _ | Some _ => _ end) in *.
  destruct (match znth _ _ with Some _ => _ | None => _ end).
  - destruct (negb _) eqn:?; lia.
  - destruct (_ =? 0) eqn:?; [lia|]. destruct (negb _) eqn:?; lia.
Qed.
Print Assumptions c33_zoom_range.

(** In a BIFF8 sheet: the view on show has the zoom of the last SCL record (100
    without one); the other view has the zoom remembered in the last WINDOW2
    record, if that is valid, else 60 for a preview never shown, else the zoom of
    the view on show. *)
Definition shown_zoom (tr : list record) : Z :=
  or_else (option_map scl_value (last_rec (is_code XL_SCL) tr)) 100.
Definition other_zoom (remembered shown : Z) : Z :=
  if (10 <=? remembered) && (remembered <=? 400) then remembered else shown.

Theorem c33_zoom : forall {N} (c : config N) countries rs tr sh rs', 80 <= c_bv c -> ran c (sheet0 countries) rs tr sh rs' ->
  good tr -> long_window2 tr ->
  cooked_mag_factors (sh_view sh) =
    let '(in_preview, preview, normal) := window_says (last_rec (is_code XL_WINDOW2) tr) in
    let z := shown_zoom tr in
    if in_preview then (other_zoom normal z, z) else (z, if preview =? 0 then 60 else other_zoom preview z).
Proof.
  intros N c countries rs tr sh rs' HV HR HG HL.
  pose proof (scl_trace c _ _ _ _ _ HR HG None eq_refl) as HS.
  pose proof (window_trace c HV _ _ _ _ _ HR HG HL None eq_refl) as HW.
  change (last_rec (is_code XL_WINDOW2) tr) with (fold_rec (is_code XL_WINDOW2) tr None). rewrite <- HW.
  unfold seen, cooked_mag_factors, shown_zoom, other_zoom, or_else. rewrite HS.
  change (last_rec (is_code XL_SCL) tr) with (fold_rec (is_code XL_SCL) tr None).
  set (scl := match option_map _ _ with None => _ | Some _ => _ end). change (match option_map scl_value (fold_rec (is_code XL_SCL) tr None) with
    | Some y => y | None => 100 end) with scl.
  destruct (match znth _ _ with Some _ => _ | None => _ end).
  - destruct ((_ <=? v_cached_normal _) && _); reflexivity.
  - destruct (_ =? 0); [reflexivity|]. destruct ((_ <=? v_cached_preview _) && _); reflexivity.
Qed.
Print Assumptions c33_zoom.
