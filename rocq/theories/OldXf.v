(** What a BIFF2 to BIFF4 worksheet leaves in the book's XF list: specification of the
    cell attributes of BIFF2 and lemmas about [fixed_xf] of OldSheet.v. *)
From Verif Require Import Base BaseFacts Text Strings Framing GridModel GridFacts SheetObjects SheetModel SheetFacts SheetSteps
  FormatModel FormatFacts FormulaModel BookModel BookApi PropFormat OldSheet.

Definition byte (b : Z) : Prop := 0 <= b < 256.

(** ** Specification *)

(** The three attribute bytes of a BIFF2 cell: protection, format and font, alignment with
    borders and shading. *)
Record attributes (a0 a1 a2 : Z) (x : xf) : Prop := {
  at_protection : a0 = 64 * pr_locked (xf_protection x) + 128 * pr_hidden (xf_protection x);
  at_locked : 0 <= pr_locked (xf_protection x) <= 1;
  at_hidden : 0 <= pr_hidden (xf_protection x) <= 1;
  at_format : a1 = xf_format_key x + 64 * xf_font x;
  at_key : 0 <= xf_format_key x < 64;
  at_look : exists shaded,
    a2 = al_hor (xf_alignment x) + 8 * bo_left_style (xf_border x) + 16 * bo_right_style (xf_border x) +
         32 * bo_top_style (xf_border x) + 64 * bo_bottom_style (xf_border x) + 128 * shaded /\
    0 <= al_hor (xf_alignment x) < 8 /\ 0 <= shaded <= 1 /\ bg_fill (xf_background x) = 17 * shaded /\
    Forall (fun v => 0 <= v <= 1) [bo_left_style (xf_border x); bo_right_style (xf_border x);
                                   bo_top_style (xf_border x); bo_bottom_style (xf_border x)] }.

(** The type of a number with the given format. *)
Definition type_of (g : format) : Z :=
  match fm_str g with
  | Some s => if is_date_format_string s then XL_CELL_DATE else XL_CELL_NUMBER
  | None => XL_CELL_NUMBER
  end.

(** ** The tables of the book *)

Definition good_format (g : format) : Prop := exists s, fm_str g = Some s /\
  (fm_type g = FDT /\ is_date_format_string s = true \/ (fm_type g = FGE \/ fm_type g = FUN) /\ is_date_format_string s = false).

Record finv (f : fbook) : Prop := {
  fi_index : forall i x, znth (b_xfs f) i = Some x -> xf_index x = i;
  fi_typed : forall i x g, znth (b_xfs f) i = Some x -> dget Z.eqb (b_formats f) (xf_format_key x) = Some g ->
    dget Z.eqb (b_xftype f) i = Some (type_of g) \/
    xf_format_key x = 0 /\ dget Z.eqb (b_xftype f) i = Some XL_CELL_NUMBER;
  fi_formats : forall k g, dget Z.eqb (b_formats f) k = Some g -> good_format g;
  fi_range : forall i t, dget Z.eqb (b_xftype f) i = Some t -> 0 <= i < Z.max 1 (zlen (b_xfs f)) }.

Lemma good_cellty : forall g, good_format g -> cellty_from_fmtty (fm_type g) = Some (type_of g).
Proof.
  intros g (s & E & H). unfold type_of. rewrite E.
  destruct H as [[-> ->]|[[-> | ->] ->]]; reflexivity.
Qed.

(** Checking all bytes. *)
Lemma byte_all : forall p, forallb (fun n => p (Z.of_nat n)) (seq 0 256) = true -> forall b, byte b -> p b = true.
Proof.
  intros p H b B. rewrite forallb_forall in H. unfold byte in B. rewrite <- (Z2Nat.id b) by lia. apply H. apply in_seq. lia.
Qed.
Ltac ands := repeat match goal with H : _ && _ = true |- _ => apply andb_true_iff in H as [? ?] end.

(** The bits of a byte. *)
Lemma byte_bits : forall he, byte he ->
  exists h l r t b s, he = h + 8 * l + 16 * r + 32 * t + 64 * b + 128 * s /\ 0 <= h < 8 /\
    0 <= l <= 1 /\ 0 <= r <= 1 /\ 0 <= t <= 1 /\ 0 <= b <= 1 /\ 0 <= s <= 1 /\
    Z.land he 7 = h /\ Z.land he 8 = 8 * l /\ Z.land he 16 = 16 * r /\ Z.land he 32 = 32 * t /\ Z.land he 64 = 64 * b /\
    Z.land he 128 = 128 * s.
Proof.
  intros he B. exists (Z.land he 7), (Z.land he 8 / 8), (Z.land he 16 / 16), (Z.land he 32 / 32), (Z.land he 64 / 64), (Z.land he 128 / 128).
  pose proof (byte_all (fun he =>
    (he =? Z.land he 7 + 8 * (Z.land he 8 / 8) + 16 * (Z.land he 16 / 16) + 32 * (Z.land he 32 / 32) + 64 * (Z.land he 64 / 64) +
      128 * (Z.land he 128 / 128)) &&
    (0 <=? Z.land he 7) && (Z.land he 7 <? 8) &&
    forallb (fun m => (0 <=? Z.land he m / m) && (Z.land he m / m <=? 1) && (Z.land he m =? m * (Z.land he m / m))) [8; 16; 32; 64; 128])
    ltac:(vm_compute; reflexivity) he B) as A. cbv beta in A. cbn [forallb] in A. ands.
  repeat match goal with H : (_ =? _) = true |- _ => apply Z.eqb_eq in H | H : (_ <=? _) = true |- _ => apply Z.leb_le in H
    | H : (_ <? _) = true |- _ => apply Z.ltb_lt in H end.
  repeat split; assumption.
Qed.

Lemma land3F : forall b, byte b -> Z.land b 0x3F = b mod 64.
Proof. intros b B. change 0x3F with (Z.ones 6). rewrite Z.land_ones by lia. reflexivity. Qed.

Lemma ff_bits : forall ff, byte ff -> ff = Z.land ff 0x3F + 64 * Z.shiftr (Z.land ff 0xC0) 6 /\ 0 <= Z.land ff 0x3F < 64.
Proof.
  intros ff B. pose proof (byte_all (fun ff =>
    (ff =? Z.land ff 0x3F + 64 * Z.shiftr (Z.land ff 0xC0) 6) && (0 <=? Z.land ff 0x3F) && (Z.land ff 0x3F <? 64))
    ltac:(vm_compute; reflexivity) ff B) as A. cbv beta in A. ands.
  repeat split; [apply Z.eqb_eq|apply Z.leb_le|apply Z.ltb_lt]; assumption.
Qed.

Lemma prot_bits : forall p, byte p -> Z.land p 0x3F = 0 ->
  p = 64 * upk p 6 0x40 + 128 * upk p 7 0x80 /\ 0 <= upk p 6 0x40 <= 1 /\ 0 <= upk p 7 0x80 <= 1.
Proof.
  intros p B E. pose proof (byte_all (fun p => negb (Z.land p 0x3F =? 0) ||
    ((p =? 64 * upk p 6 0x40 + 128 * upk p 7 0x80) && (0 <=? upk p 6 0x40) && (upk p 6 0x40 <=? 1) && (0 <=? upk p 7 0x80) && (upk p 7 0x80 <=? 1)))
    ltac:(vm_compute; reflexivity) p B) as A. cbv beta in A.
  rewrite E in A. change (negb (0 =? 0)) with false in A. cbn [orb] in A. ands.
  repeat split; first [apply Z.eqb_eq; assumption|apply Z.leb_le; assumption].
Qed.

Lemma unpack1 : forall a0 a1 a2, unpack_le 1 [a0; a1; a2] 0 = Ok a0 /\ unpack_le 1 [a0; a1; a2] 1 = Ok a1 /\ unpack_le 1 [a0; a1; a2] 2 = Ok a2.
Proof. intros. split; [|split]; match goal with |- unpack_le 1 ?l ?p = Ok ?v => change (Ok (le_val [v]) = Ok v) end; f_equal; cbn [le_val]; lia. Qed.

Lemma fake_xf_fields : forall n a style x, fake_xf n a style = Ok x -> exists a0 a1 a2, a = [a0; a1; a2] /\ xf_index x = n /\
  (byte a0 -> byte a1 -> byte a2 -> Z.land a0 0x3F = 0 -> attributes a0 a1 a2 x).
Proof.
  intros n a style x H. unfold fake_xf in H. unfold guard in H.
  destruct (zlen a =? 3) eqn:L; [|discriminate H].
  assert (exists a0 a1 a2, a = [a0; a1; a2]) as (a0 & a1 & a2 & ->).
  { destruct a as [|a0 [|a1 [|a2 [|a3 l]]]]; try discriminate L; eauto.
    exfalso. rewrite !zlen_cons in L. pose proof (zlen_nonneg l). lia. }
  exists a0, a1, a2. split; [reflexivity|]. destruct (unpack1 a0 a1 a2) as (E0 & E1 & E2). cbn [bind] in H. rewrite E0, E1, E2 in H. cbn [bind] in H.
  change (0x3F) with 63 in *.
  destruct (negb (Z.land a2 8 =? 0)) eqn:B1, (negb (Z.land a2 16 =? 0)) eqn:B2, (negb (Z.land a2 32 =? 0)) eqn:B3,
    (negb (Z.land a2 64 =? 0)) eqn:B4; cbv zeta iota beta in H; injection H as <-; (split; [reflexivity|]; intros Y0 Y1 Y2 Z0;
    destruct (ff_bits a1 Y1) as [F1 F2]; destruct (prot_bits a0 Y0 Z0) as (P1 & P2 & P3);
    destruct (byte_bits a2 Y2) as (h & l & r & t & b & s & E & R0 & R1 & R2 & R3 & R4 & R5 & L0 & L1 & L2 & L3 & L4 & L5);
    constructor; cbn [xf_protection pr_locked pr_hidden xf_format_key xf_font xf_alignment xf_border xf_background al_hor bo_left_style
      bo_right_style bo_top_style bo_bottom_style bg_fill]; try assumption;
    exists s; rewrite L0, L5; (split; [lia|]); (split; [lia|]); (split; [lia|]); split;
    [destruct (128 * s =? 0) eqn:Es; cbn [negb]; lia|repeat constructor; lia]).
Qed.

(** The XF determines the attributes. *)
Lemma attributes_inj : forall a0 a1 a2 b0 b1 b2 x, attributes a0 a1 a2 x -> attributes b0 b1 b2 x -> [a0; a1; a2] = [b0; b1; b2].
Proof.
  intros a0 a1 a2 b0 b1 b2 x [A1 A2 A3 A4 A5 (s & A6 & A7 & A8 & A9 & _)] [B1 B2 B3 B4 B5 (s' & B6 & B7 & B8 & B9 & _)].
  assert (s = s') by lia. subst s'. rewrite A1, A4, A6, B1, B4, B6. reflexivity.
Qed.

Ltac conjs := repeat match goal with |- _ /\ _ => split end.

Section OldXf.
Context {N : Type}.
Notation ost := (@ost N).

(** The invariant of the loop: [bv] is the version of the file, [real] says whether XF records
    have been met. *)
Record sinv (bv : Z) (real : bool) (s : ost) : Prop := {
  si_f : finv (os_fmt s);
  si_version : 20 <= bv < 50;
  si_bv : bk_bv (os_book s) = bv;
  si_30 : bv >= 30 -> os_version s = bv /\ os_attrs s = [];
  si_2x : bv < 30 -> os_version s = 20 \/ os_version s = 21 /\ bv = 21;
  si_21 : os_version s = 21 -> os_attrs s = [] /\ (if real then b_xfs (os_fmt s) <> [] else b_xfs (os_fmt s) = []);
  si_20 : os_version s = 20 -> real = false /\
    (forall i x, znth (b_xfs (os_fmt s)) i = Some x -> exists g, dget Z.eqb (b_formats (os_fmt s)) (xf_format_key x) = Some g /\
       dget Z.eqb (b_xftype (os_fmt s)) i = Some (type_of g)) /\
    (forall a i, dget list_eqb (os_attrs s) a = Some i ->
       exists a0 a1 a2 x, a = [a0; a1; a2] /\ znth (b_xfs (os_fmt s)) i = Some x /\ (bytes a -> attributes a0 a1 a2 x)) }.

(** From the first cell on, the tables only grow. *)
Record grow (bv : Z) (s s' : ost) : Prop := {
  ex_fmt : b_fmt (os_fmt s') = b_fmt (os_fmt s);
  ex_enc : truthy (en_encoding (bk_enc (os_book s))) = true -> en_encoding (bk_enc (os_book s')) = en_encoding (bk_enc (os_book s));
  ex_30 : bv >= 30 -> b_xfs (os_fmt s') = b_xfs (os_fmt s) /\ b_xftype (os_fmt s') = b_xftype (os_fmt s);
  ex_xfs : forall i x, znth (b_xfs (os_fmt s)) i = Some x -> znth (b_xfs (os_fmt s')) i = Some x;
  ex_xftype : forall i t, i < zlen (b_xfs (os_fmt s)) -> dget Z.eqb (b_xftype (os_fmt s)) i = Some t ->
    dget Z.eqb (b_xftype (os_fmt s')) i = Some t }.
Definition ext (bv : Z) (s s' : ost) : Prop :=
  grow bv s s' /\ forall a i, dget list_eqb (os_attrs s) a = Some i -> dget list_eqb (os_attrs s') a = Some i.

Lemma grow_refl : forall bv s, grow bv s s.
Proof. intros. constructor; auto. Qed.
Lemma ext_refl : forall bv s, ext bv s s.
Proof. intros. split; [apply grow_refl|auto]. Qed.

Lemma znth_le : forall {A} (l l' : list A), (forall i x, znth l i = Some x -> znth l' i = Some x) -> zlen l <= zlen l'.
Proof.
  intros A l l' H. destruct (Z_le_gt_dec (zlen l) 0) as [L|L]; [pose proof (zlen_nonneg l'); lia|].
  destruct (znth_in_range l (zlen l - 1)) as (x & X); [lia|]. apply H, znth_Some_range in X. lia.
Qed.

Lemma grow_trans : forall bv a b c, grow bv a b -> grow bv b c -> grow bv a c.
Proof.
  intros bv a b c [A1 A2 A3 A4 A5] [B1 B2 B3 B4 B5]. constructor.
  - congruence.
  - intros T. rewrite B2, A2; auto. rewrite A2; auto.
  - intros V. destruct (A3 V), (B3 V). split; congruence.
  - auto.
  - intros i t L T. apply B5; [pose proof (znth_le _ _ A4); lia|]. auto.
Qed.
Lemma ext_trans : forall bv a b c, ext bv a b -> ext bv b c -> ext bv a c.
Proof. intros bv a b c [A1 A2] [B1 B2]. split; [eapply grow_trans; eauto|auto]. Qed.

(** Everything but the sheet and what only it uses. *)
Definition same_tables (s s' : ost) : Prop :=
  b_bv (os_fmt s') = b_bv (os_fmt s) /\ b_fmt (os_fmt s') = b_fmt (os_fmt s) /\ b_xfs (os_fmt s') = b_xfs (os_fmt s) /\
  b_formats (os_fmt s') = b_formats (os_fmt s) /\ b_xftype (os_fmt s') = b_xftype (os_fmt s) /\ os_attrs s' = os_attrs s /\
  bk_bv (os_book s') = bk_bv (os_book s) /\
  (truthy (en_encoding (bk_enc (os_book s))) = true -> en_encoding (bk_enc (os_book s')) = en_encoding (bk_enc (os_book s))).

Lemma same_tables_refl : forall s, same_tables s s.
Proof. intros. repeat split; auto. Qed.

Lemma same_tables_trans : forall a b c, same_tables a b -> same_tables b c -> same_tables a c.
Proof.
  intros a b c (A1 & A2 & A3 & A4 & A5 & A6 & A7 & A8) (B1 & B2 & B3 & B4 & B5 & B6 & B7 & B8).
  repeat split; try congruence. intros T. rewrite B8, A8; auto. rewrite A8; auto.
Qed.

Lemma same_ext : forall bv s s', same_tables s s' -> ext bv s s'.
Proof.
  intros bv s s' (A1 & A2 & A3 & A4 & A5 & A6 & A7 & A8). split; [constructor; auto|].
  - rewrite A3. auto.
  - rewrite A5. auto.
  - rewrite A6. auto.
Qed.

Lemma same_finv : forall f f', b_xfs f' = b_xfs f -> b_formats f' = b_formats f -> b_xftype f' = b_xftype f -> finv f -> finv f'.
Proof. intros f f' E1 E2 E3 [F1 F2 F3 F4]. constructor; rewrite ?E1, ?E2, ?E3; auto. Qed.

Lemma same_sinv : forall bv real s s', same_tables s s' -> sinv bv real s -> sinv bv real s'.
Proof.
  intros bv real s s' (A1 & A2 & A3 & A4 & A5 & A6 & A7 & A8) [I1 I2 I3 I4 I5 I6 I7].
  unfold os_version in *. constructor; unfold os_version; rewrite ?A1, ?A3, ?A4, ?A5, ?A6, ?A7; auto.
  eapply same_finv; eauto.
Qed.

(** *** insert_new_BIFF20_xf *)

Lemma znth_app_inv : forall {A} (l : list A) y i x, znth (l ++ [y]) i = Some x -> znth l i = Some x \/ i = zlen l /\ x = y.
Proof.
  intros A l y i x H. pose proof (znth_Some_range _ _ _ H) as R. rewrite zlen_app in R. change (zlen [y]) with 1 in R.
  destruct (Z_lt_ge_dec i (zlen l)).
  - rewrite znth_app_l in H by lia. auto.
  - assert (i = zlen l) by lia. subst i. rewrite znth_app_r in H by lia. rewrite Z.sub_diag in H. injection H as ->. auto.
Qed.

Definition general_if (f : fbook) (k : Z) : fbook :=
  match dget Z.eqb (b_formats f) k with
  | Some _ => f
  | None => let fmt := mk_format k FUN (Some (s2l "General")) in
            with_format_list (with_formats f (dset (b_formats f) k fmt)) (b_format_list f ++ [fmt])
  end.

Lemma general_if_fields : forall f k, b_xfs (general_if f k) = b_xfs f /\ b_xftype (general_if f k) = b_xftype f /\
  b_bv (general_if f k) = b_bv f /\ b_fmt (general_if f k) = b_fmt f /\
  (forall j g, dget Z.eqb (b_formats f) j = Some g -> dget Z.eqb (b_formats (general_if f k)) j = Some g) /\
  (forall j g, dget Z.eqb (b_formats (general_if f k)) j = Some g -> dget Z.eqb (b_formats f) j = Some g \/
     j = k /\ good_format g) /\
  dget Z.eqb (b_formats (general_if f k)) k <> None.
Proof.
  intros f k. unfold general_if. destruct (dget Z.eqb (b_formats f) k) as [g0|] eqn:E.
  - rewrite E. repeat split; auto. discriminate.
  - cbn [b_xfs b_xftype b_bv b_fmt b_formats with_format_list with_formats]. unfold dset. cbn [dget]. rewrite Z.eqb_refl.
    repeat split; try discriminate.
    + intros j g D. destruct (j =? k) eqn:J; [apply Z.eqb_eq in J; congruence|exact D].
    + intros j g D. destruct (j =? k) eqn:J; [|auto]. right. split; [lia|]. injection D as <-. exists (s2l "General").
      split; [reflexivity|]. right. split; [right; reflexivity|]. vm_compute. reflexivity.
Qed.

Lemma insert_xf_spec : forall s a style s' i real, insert_xf s a style = Ok (s', i) -> sinv (bk_bv (os_book s)) real s -> os_version s = 20 ->
  Z.land (nth 0 a 0) 0x3F = 0 ->
  sinv (bk_bv (os_book s)) real s' /\ grow (bk_bv (os_book s)) s s' /\ os_version s' = 20 /\ os_sheet s' = os_sheet s /\ os_ixfe s' = os_ixfe s /\
  os_done s' = os_done s /\ b_xfs (os_fmt s') <> [] /\ bk_enc (os_book s') = bk_enc (os_book s) /\
  bk_bv (os_book s') = bk_bv (os_book s) /\
  os_attrs s' = (a, i) :: os_attrs s.
Proof.
  intros s a style s' i real H I V Z0.
  assert (BV : bk_bv (os_book s) < 30).
  { destruct I. destruct (Z_lt_ge_dec (bk_bv (os_book s)) 30); [assumption|]. destruct (si_31 g). lia. }
  unfold insert_xf in H. cbv zeta in H.
  apply bind_ok in H as (x & FX & H).
  apply fake_xf_fields in FX as (a0 & a1 & a2 & -> & IX & AT). cbn [nth] in Z0.
  fold (general_if (with_xfs (os_fmt s) (b_xfs (os_fmt s) ++ [x])) (xf_format_key x)) in H.
  set (f1 := with_xfs (os_fmt s) (b_xfs (os_fmt s) ++ [x])) in *.
  destruct (general_if_fields f1 (xf_format_key x)) as (G1 & G2 & G3 & G4 & G5 & G6 & G7).
  set (f2 := general_if f1 (xf_format_key x)) in *. clearbody f2.
  change (b_xfs f1) with (b_xfs (os_fmt s) ++ [x]) in G1. change (b_xftype f1) with (b_xftype (os_fmt s)) in G2.
  change (b_formats f1) with (b_formats (os_fmt s)) in *. change (b_bv f1) with (b_bv (os_fmt s)) in G3. change (b_fmt f1) with (b_fmt (os_fmt s)) in G4.
  destruct I as [[F1 F2 F3 F4] I2 I3 I4 I5 I6 I7]. destruct (I7 V) as (-> & KEYS & ATT).
  assert (GOOD : forall j g, dget Z.eqb (b_formats f2) j = Some g -> good_format g).
  { intros j g D. destruct (G6 j g D) as [D'|[_ D']]; [eapply F3; eassumption|exact D']. }
  destruct (dget Z.eqb (b_formats f2) (xf_format_key x)) as [g|] eqn:D; [|discriminate H].
  rewrite (good_cellty g (GOOD _ _ D)) in H.
  match type of H with Ok (?A, ?B) = _ =>
    assert (s' = A) as -> by congruence; assert (i = B) as -> by congruence end. clear H.
  set (n := zlen (b_xfs (os_fmt s))) in *. pose proof (zlen_nonneg (b_xfs (os_fmt s))) as HN. fold n in HN.
  change (b_xfs f1) with (b_xfs (os_fmt s) ++ [x]).
  set (s1 := set_attrs _ _).
  assert (X1 : b_xfs (os_fmt s1) = b_xfs (os_fmt s) ++ [x]) by exact G1.
  assert (X2 : b_xftype (os_fmt s1) = (n, type_of g) :: b_xftype (os_fmt s)) by (cbn; unfold dset; rewrite G2; reflexivity).
  assert (X3 : b_formats (os_fmt s1) = b_formats f2) by reflexivity.
  assert (X4 : os_version s1 = 20) by (unfold os_version in *; cbn; congruence).
  assert (X5 : os_attrs s1 = ([a0; a1; a2], n) :: os_attrs s) by reflexivity.
  assert (ZL : zlen (b_xfs (os_fmt s1)) = n + 1) by (rewrite X1, zlen_app; reflexivity).
  split; [|split; [|split; [exact X4|]]].
  - constructor; auto.
    + constructor; rewrite ?X1, ?X2, ?X3, ?ZL; cbn [dget].
      * intros j y Y. apply znth_app_inv in Y as [Y|[-> ->]]; [apply F1; exact Y|exact IX].
      * intros j y g' Y D'. apply znth_app_inv in Y as [Y|[-> ->]].
        -- pose proof (znth_Some_range _ _ _ Y). replace (j =? n) with false by lia.
           destruct (KEYS _ _ Y) as (g0 & D0 & _).
           pose proof (G5 _ _ D0) as D1. rewrite D' in D1. injection D1 as ->. eapply F2; eassumption.
        -- rewrite Z.eqb_refl. left. congruence.
      * exact GOOD.
      * intros j t T. rewrite zlen_app. change (zlen [x]) with 1. fold n. destruct (j =? n) eqn:J; [lia|]. apply F4 in T. fold n in T. lia.
    + intros V2. lia.
    + intros V2. lia.
    + intros _. split; [reflexivity|]. rewrite X1, X3, X5. split.
      * intros j y Y. rewrite X2. cbn [dget]. apply znth_app_inv in Y as [Y|[-> ->]].
        -- pose proof (znth_Some_range _ _ _ Y). replace (j =? n) with false by lia.
           destruct (KEYS _ _ Y) as (g0 & D0 & D1). exists g0. split; [exact (G5 _ _ D0)|exact D1].
        -- exists g. rewrite Z.eqb_refl. auto.
      * intros b j DB. cbn [dget] in DB. destruct (list_eqb b [a0; a1; a2]) eqn:EB.
        -- apply list_eqb_eq in EB. subst b. injection DB as <-. exists a0, a1, a2, x. split; [reflexivity|].
           split; [rewrite znth_app_r by lia; replace (n - zlen (b_xfs (os_fmt s))) with 0 by lia; reflexivity|].
           intros BY. apply Forall_cons_iff in BY as [B0 BY]. apply Forall_cons_iff in BY as [B1 BY]. apply Forall_cons_iff in BY as [B2 _].
           apply AT; assumption.
        -- destruct (ATT _ _ DB) as (b0 & b1 & b2 & y & -> & Y & AY). exists b0, b1, b2, y. split; [reflexivity|]. split; [|exact AY].
           rewrite znth_app_l by (apply znth_Some_range in Y; lia). exact Y.
  - constructor.
    + exact G4.
    + reflexivity.
    + intros; lia.
    + intros j y Y. rewrite X1. rewrite znth_app_l by (apply znth_Some_range in Y; lia). exact Y.
    + intros j t L T. rewrite X2. cbn [dget]. replace (j =? n) with false by (fold n in L; lia). exact T.
  - repeat split; auto. rewrite X1. destruct (b_xfs (os_fmt s)); discriminate.
Qed.

Lemma py_index_head : forall {A} (a : A) l, py_index (a :: l) 0 = Ok a.
Proof.
  reflexivity.
Qed.

(** *** The attributes of a cell without XF records *)

Lemma insert_styles_spec : forall l s s' real, insert_styles s l = Ok s' -> sinv (bk_bv (os_book s)) real s -> os_version s = 20 ->
  sinv (bk_bv (os_book s)) real s' /\ grow (bk_bv (os_book s)) s s' /\ os_version s' = 20 /\ os_sheet s' = os_sheet s /\ os_ixfe s' = os_ixfe s /\
  os_done s' = os_done s /\ bk_enc (os_book s') = bk_enc (os_book s) /\ bk_bv (os_book s') = bk_bv (os_book s).
Proof.
  induction l as [|x l IH]; intros s s' real H I V; cbn [insert_styles] in H.
  - injection H as <-. conjs; auto using grow_refl, ext_refl.
  - apply bind_ok in H as ((s1 & i) & H1 & H). 
    destruct (insert_xf_spec _ _ _ _ _ _ H1 I V eq_refl) as (A1 & A2 & A3 & A4 & A5 & A6 & A7 & A8 & A9 & _).
    rewrite <- A9 in A1. destruct (IH _ _ _ H A1 A3) as (B1 & B2 & B3 & B4 & B5 & B6 & B7 & B8). rewrite A9 in *.
    conjs; try congruence; eauto using grow_trans.
Qed.

Lemma attr_xf_spec : forall s a s' i real, attr_xf s a = Ok (s', i) -> sinv (bk_bv (os_book s)) real s -> os_version s = 20 ->
  sinv (bk_bv (os_book s)) real s' /\ ext (bk_bv (os_book s)) s s' /\ os_version s' = 20 /\ os_sheet s' = os_sheet s /\ os_ixfe s' = os_ixfe s /\
  os_done s' = os_done s /\ bk_enc (os_book s') = bk_enc (os_book s) /\ bk_bv (os_book s') = bk_bv (os_book s) /\
  dget list_eqb (os_attrs s') a = Some i.
Proof.
  intros s a s' i real H I V. unfold attr_xf in H. apply bind_ok in H as (b & B & H). apply bind_ok in H as (u & G & H).
  assert (Z0 : Z.land (nth 0 a 0) 0x3F = 0).
  { destruct a as [|a0 l]; [discriminate B|]. rewrite py_index_head in B. injection B as <-.
    cbn [nth]. unfold guard in G. destruct (Z.land a0 63 =? 0) eqn:E; [|discriminate G]. apply Z.eqb_eq. exact E. }
  destruct (dget list_eqb (os_attrs s) a) as [i0|] eqn:D.
  - injection H as <- <-. conjs; auto using grow_refl, ext_refl.
  - apply bind_ok in H as (s1 & H1 & H).
    assert (K : sinv (bk_bv (os_book s)) real s1 /\ grow (bk_bv (os_book s)) s s1 /\ os_version s1 = 20 /\ os_sheet s1 = os_sheet s /\
      os_ixfe s1 = os_ixfe s /\ os_done s1 = os_done s /\ bk_enc (os_book s1) = bk_enc (os_book s) /\ bk_bv (os_book s1) = bk_bv (os_book s) /\
      (s1 = s \/ os_attrs s = [])).
    { destruct (zlen (b_xfs (os_fmt s)) =? 0) eqn:E.
      - destruct (insert_styles_spec _ _ _ _ H1 I V) as (A1 & A2 & A3 & A4 & A5 & A6 & A7 & A8). conjs; auto. right.
        destruct (os_attrs s) as [|[k v] r] eqn:EA; [reflexivity|]. exfalso.
        destruct (si_20 _ _ _ I V) as (_ & _ & AT). specialize (AT k v). rewrite EA in AT. cbn [dget] in AT. rewrite list_eqb_refl in AT.
        destruct (AT eq_refl) as (? & ? & ? & x & _ & X & _). apply znth_Some_range in X. lia.
      - injection H1 as <-. conjs; auto using grow_refl, ext_refl. }
    destruct K as (K1 & K2 & K3 & K4 & K5 & K6 & K7 & K8 & K9). rewrite <- K8 in K1.
    destruct (insert_xf_spec _ _ _ _ _ _ H K1 K3 Z0) as (A1 & A2 & A3 & A4 & A5 & A6 & A7 & A8 & A9 & A10). rewrite K8 in *.
    assert (DG : dget list_eqb (os_attrs s') a = Some i) by (rewrite A10; cbn [dget]; rewrite list_eqb_refl; reflexivity).
    split; [exact A1|]. split; [split; [eapply grow_trans; eauto|]|conjs; congruence].
    intros b' j DB. destruct K9 as [->|K9]; [|rewrite K9 in DB; discriminate DB].
    rewrite A10. cbn [dget]. destruct (list_eqb b' a) eqn:E; [|exact DB]. apply list_eqb_eq in E. congruence.
Qed.

(** *** fixed_BIFF2_xfindex *)

Lemma set_version_20 : forall s real, sinv (bk_bv (os_book s)) real s -> os_version s = 21 -> b_xfs (os_fmt s) = [] ->
  let s1 := set_fmt s (set_version (os_fmt s) 20) in
  sinv (bk_bv (os_book s)) real s1 /\ ext (bk_bv (os_book s)) s s1.
Proof.
  intros s real I V E s1. destruct I as [F I2 I3 I4 I5 I6 I7]. destruct (I6 V) as [A R]. split.
  - assert (BV : bk_bv (os_book s) < 30). { destruct (Z_lt_ge_dec (bk_bv (os_book s)) 30); [assumption|]. destruct (I4 g). lia. }
    constructor; auto.
    + exact (same_finv (os_fmt s) (os_fmt s1) eq_refl eq_refl eq_refl F).
    + intros; lia.
    + intros _. destruct real; [congruence|]. split; [reflexivity|]. split.
      * intros i x X. change (b_xfs (os_fmt s1)) with (b_xfs (os_fmt s)) in X. rewrite E in X. apply znth_Some_range in X. cbn in X. lia.
      * intros a i D. change (os_attrs s1) with (os_attrs s) in D. rewrite A in D. discriminate D.
  - split; [constructor; auto; reflexivity|auto].
Qed.

(** With XF records in the file the attributes hold an index; without, they get an XF of
    their own. *)
Lemma fixed_xf_spec : forall s a x s' i bv real, fixed_xf s a x = Ok (s', i) -> bv < 30 -> sinv bv real s ->
  sinv bv real s' /\ ext bv s s' /\ os_sheet s' = os_sheet s /\ os_ixfe s' = os_ixfe s /\ os_done s' = os_done s /\
  bk_enc (os_book s') = bk_enc (os_book s) /\
  (if (bv =? 21) && real then s' = s /\
     exists k, match x, a with Some x, _ => k = x | None, Some (a0 :: _) => k = Z.land a0 0x3F | _, _ => False end /\
       if k =? 0x3F then os_ixfe s = Some i else i = k
   else match a with Some a => dget list_eqb (os_attrs s') a = Some i /\ os_version s' = 20 | None => False end).
Proof.
  intros s a x s' i bv real H BV I. pose proof (si_bv _ _ _ I) as EB. subst bv.
  assert (NO : forall s1, sinv (bk_bv (os_book s)) real s1 -> ext (bk_bv (os_book s)) s s1 -> os_version s1 = 20 -> os_sheet s1 = os_sheet s ->
    os_ixfe s1 = os_ixfe s -> os_done s1 = os_done s -> bk_enc (os_book s1) = bk_enc (os_book s) -> bk_bv (os_book s1) = bk_bv (os_book s) ->
    match a with None => Err TypeError | Some a => attr_xf s1 a end = Ok (s', i) ->
    sinv (bk_bv (os_book s)) real s' /\ ext (bk_bv (os_book s)) s s' /\ os_sheet s' = os_sheet s /\ os_ixfe s' = os_ixfe s /\ os_done s' = os_done s /\
    bk_enc (os_book s') = bk_enc (os_book s) /\
    match a with Some a => dget list_eqb (os_attrs s') a = Some i /\ os_version s' = 20 | None => False end).
  { intros s1 I1 X1 V1 Q1 Q2 Q3 Q4 Q5 H1. destruct a as [a|]; [|discriminate H1]. rewrite <- Q5 in I1.
    destruct (attr_xf_spec _ _ _ _ _ H1 I1 V1) as (A1 & A2 & A3 & A4 & A5 & A6 & A7 & A8 & A9). rewrite Q5 in *.
    split; [exact A1|]. split; [eapply ext_trans; eauto|]. conjs; congruence. }
  unfold fixed_xf in H. cbv zeta in H. destruct (os_version s =? 21) eqn:V.
  - apply Z.eqb_eq in V. destruct (si_2x _ _ _ I BV) as [V2|[_ B21]]; [lia|]. replace (bk_bv (os_book s) =? 21) with true by lia. cbn [andb].
    destruct (si_21 _ _ _ I V) as [AT R].
    destruct (zlen (b_xfs (os_fmt s)) =? 0) eqn:E; cbn [negb] in H.
    + assert (b_xfs (os_fmt s) = []) as E0 by (destruct (b_xfs (os_fmt s)); [reflexivity|rewrite zlen_cons in E; pose proof (zlen_nonneg l); lia]).
      destruct real; [congruence|]. destruct (set_version_20 s false) as [S1 S2]; auto.
      eapply NO; try exact H; auto; reflexivity.
    + destruct real; [|rewrite R in E; discriminate E].
      apply bind_ok in H as (k & K & H).
      assert (s' = s /\ (if k =? 0x3F then os_ixfe s = Some i else i = k)) as [-> Q].
      { destruct (k =? 63); [destruct (os_ixfe s) as [y|]; [|discriminate H]|]; injection H as <- <-; auto. }
      split; [exact I|]. split; [apply ext_refl|]. conjs; try reflexivity. exists k. split; [|exact Q].
      destruct x as [x|]; [congruence|]. destruct a as [[|a0 l]|]; try discriminate K.
      rewrite py_index_head in K. cbn [bind] in K. congruence.
  - destruct (si_2x _ _ _ I BV) as [V2|[V2 _]]; [|lia]. destruct (si_20 _ _ _ I V2) as (-> & _). rewrite andb_false_r.
    eapply NO; try exact H; auto using ext_refl.
Qed.
End OldXf.
