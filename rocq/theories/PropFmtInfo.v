(** C101: what a workbook shows with formatting_info and without. *)
From Verif Require Import Base BaseFacts Utf16 Strings Framing GridModel GridFacts PropGrid
  SheetObjects SheetModel SheetFacts SheetSteps PropSheet SheetTrace PropView PropRowCol PropLinks SheetOwn PropRead PropFmtSheet
  Text StringFacts PropBytes SstModel PropSst FormatModel FormatFacts PropFormat PropNumType FormulaModel CompDoc CompDocFacts CompDocOpen PropChain PropDir CompDocFull
  BookModel BookFacts PropBof PropEnc BookSheets BookRefs BookApi SheetShare
  BookHistory PropGlobals PropFormulaText PropDemand PropSheetList BookContent BookFormats BookFollow BookFine PropWorkbook PropRoundTrip PropFile PropAttrs NameValues PropStorage.

(** What the globals leave for the worksheets, with formatting_info and without. *)
Record kept (f1 f2 : fbook) : Prop := {
  kp_bv : b_bv f2 = b_bv f1;
  kp_formats : b_formats f2 = b_formats f1;
  kp_xfs : b_xfs f2 = b_xfs f1;
  kp_xfcount : b_xfcount f2 = b_xfcount f1;
  kp_fmtcount : b_fmtcount f2 = b_fmtcount f1;
  kp_xftype : b_xftype f2 = b_xftype f1 }.

Lemma kept_trans_l : forall a b f, kept a f -> b_bv b = b_bv a -> b_formats b = b_formats a -> b_xfs b = b_xfs a -> b_xfcount b = b_xfcount a -> b_fmtcount b = b_fmtcount a -> b_xftype b = b_xftype a -> kept b f.
Proof. intros a b f [] ? ? ? ? ? ?. split; congruence. Qed.
Lemma kept_trans_r : forall a b f, kept f a -> b_bv b = b_bv a -> b_formats b = b_formats a -> b_xfs b = b_xfs a -> b_xfcount b = b_xfcount a -> b_fmtcount b = b_fmtcount a -> b_xftype b = b_xftype a -> kept f b.
Proof. intros a b f [] ? ? ? ? ? ?. split; congruence. Qed.

Definition same_kept (a b : fbook) : Prop :=
  b_bv b = b_bv a /\ b_formats b = b_formats a /\ b_xfs b = b_xfs a /\ b_xfcount b = b_xfcount a /\ b_fmtcount b = b_fmtcount a /\ b_xftype b = b_xftype a.
Lemma same_kept_refl : forall a, same_kept a a.
Proof. intros a. repeat split. Qed.
Lemma same_kept_trans : forall a b f, same_kept a b -> same_kept b f -> same_kept a f.
Proof. intros a b f (A1 & A2 & A3 & A4 & A5 & A6) (B1 & B2 & B3 & B4 & B5 & B6). repeat split; congruence. Qed.
Lemma mark_kept : forall b cx, same_kept b (FormatModel.mark b cx).
Proof. intros b cx. unfold FormatModel.mark. destruct (dget _ _ _); repeat split. Qed.
Lemma marks_kept : forall l b, same_kept b (fold_left FormatModel.mark l b).
Proof. induction l as [|x l IH]; intros b; [apply same_kept_refl|]. cbn [fold_left]. exact (same_kept_trans _ _ _ (mark_kept b x) (IH _)). Qed.
Lemma palette_loop_kept : forall cs b i b', palette_loop b i cs = Ok b' -> same_kept b b'.
Proof.
  induction cs as [|x cs IH]; intros b i b' H; cbn [palette_loop] in H; [injection H as <-; apply same_kept_refl|].
  destruct (dget _ _ _); [|discriminate]. apply IH in H. refine (same_kept_trans _ _ _ _ H). repeat split.
Qed.

(** Records of other kinds leave what is kept alone. *)
Lemma fstep_other : forall dec f r f', fstep dec f r = Ok f' -> match r with RFormat _ _ | RXf _ => True | _ => same_kept f f' end.
Proof.
  intros dec f r f' H. destruct r; cbn [fstep] in H; auto.
  - unfold handle_font in H. destruct (b_fmt f); cbn [negb] in H; [|injection H as <-; apply same_kept_refl]. cbv zeta in H. apply bind_ok in H as (? & _ & H). injection H as <-. repeat split.
  - unfold handle_efont in H. destruct (b_fmt f); cbn [negb] in H; [|injection H as <-; apply same_kept_refl]. repeat (apply bind_ok in H as (? & _ & H)). injection H as <-. repeat split.
  - unfold handle_palette in H. destruct (b_fmt f); cbn [negb] in H; [|injection H as <-; apply same_kept_refl]. apply bind_ok in H as (? & _ & H). cbv zeta in H.
    destruct (negb _); [discriminate|]. apply bind_ok in H as (? & _ & H). apply bind_ok in H as (? & _ & H). exact (palette_loop_kept _ _ _ _ H).
  - unfold handle_style in H. destruct (b_fmt f); cbn [negb] in H; [|injection H as <-; apply same_kept_refl]. repeat (apply bind_ok in H as ([? ?] & _ & H) || apply bind_ok in H as (? & _ & H)). injection H as <-. repeat split.
Qed.

Lemma fill_kept : forall f1 f2, kept f1 f2 -> kept (fill_in_standard_formats f1) (fill_in_standard_formats f2).
Proof. intros f1 f2 [K1 K2 K3 K4 K5 K6]. split; cbn; congruence. Qed.

Lemma fstep_kept : forall d1 d2 f1 f2 r f1' f2', kept f1 f2 -> match r with RFormat _ fm => fm = false /\ (b_bv f1 < 80 -> d2 = d1) | _ => True end ->
  fstep d1 f1 r = Ok f1' -> fstep d2 f2 r = Ok f2' -> kept f1' f2'.
Proof.
  intros d1 d2 f1 f2 r f1' f2' K D H1 H2.
  assert (Other : same_kept f1 f1' -> same_kept f2 f2' -> kept f1' f2').
  { intros (A1 & A2 & A3 & A4 & A5 & A6) (B1 & B2 & B3 & B4 & B5 & B6). destruct K. split; congruence. }
  pose proof (fstep_other _ _ _ _ H1) as O1. pose proof (fstep_other _ _ _ _ H2) as O2.
  destruct r as [d|d|d fm|d|d|d]; auto; clear O1 O2 Other; cbn [fstep] in H1, H2.
  - unfold handle_format in H1, H2. cbv zeta in H1, H2. destruct K as [K1 K2 K3 K4 K5 K6]. rewrite K1, K5 in H2.
    apply bind_ok in H1 as (key & E1 & H1). rewrite E1 in H2. cbn [bind] in H2. apply bind_ok in H1 as (s1 & T1 & H1). apply bind_ok in H2 as (s2 & T2 & H2).
    assert (s2 = s1) as ->.
    { destruct D as [-> D]. destruct (b_bv f1 >=? 80) eqn:V; [congruence|]. rewrite D in T2 by lia. congruence. }
    injection H1 as <-. injection H2 as <-. split; cbn; congruence.
  - unfold handle_xf in H1, H2. cbv zeta in H1, H2.
    set (g1 := if (b_bv f1 >=? 50) && (b_xfcount f1 =? 0) then fill_in_standard_formats f1 else f1) in *.
    set (g2 := if (b_bv f2 >=? 50) && (b_xfcount f2 =? 0) then fill_in_standard_formats f2 else f2) in *.
    assert (KG : kept g1 g2) by (unfold g1, g2; rewrite (kp_bv _ _ K), (kp_xfcount _ _ K); destruct (_ && _); [apply fill_kept; exact K|exact K]).
    clearbody g1 g2. destruct KG as [K1 K2 K3 K4 K5 K6]. rewrite K1, K3 in H2.
    apply bind_ok in H1 as (x & E1 & H1). rewrite E1 in H2. cbn [bind] in H2.
    set (m1 := if b_fmt g1 then fold_left FormatModel.mark (xf_colours x) g1 else g1) in *. set (m2 := if b_fmt g2 then fold_left FormatModel.mark (xf_colours x) g2 else g2) in *.
    assert (M1 : same_kept g1 m1) by (unfold m1; destruct (b_fmt g1); [apply marks_kept|apply same_kept_refl]).
    assert (M2 : same_kept g2 m2) by (unfold m2; destruct (b_fmt g2); [apply marks_kept|apply same_kept_refl]). clearbody m1 m2.
    destruct M1 as (A1 & A2 & A3 & A4 & A5 & A6), M2 as (B1 & B2 & B3 & B4 & B5 & B6).
    unfold xf_cell_type in H1, H2. injection H1 as <-. injection H2 as <-.
    split; cbn; rewrite ?A1, ?A2, ?A3, ?A4, ?A5, ?A6, ?B1, ?B2, ?B3, ?B4, ?B5, ?B6, ?K1, ?K2, ?K3, ?K4, ?K5, ?K6; reflexivity.
Qed.

Section Book.
Context {N : Type}.
Variable codec : list Z -> list Z -> result (list Z).
Variable ops : numops N.
Variable lower : list Z -> list Z.
Variable num8 : list Z -> N.
Variable rk : list Z -> result N.
Variable ragged : bool.
Notation loaded := (loaded (N := N)).
Notation api := (api (N := N)).
Notation book := (book N loaded).
Variable old : book -> list Z -> Z -> list Z -> Z -> result (shared * loaded).
Notation perform := (perform codec num8 rk ragged old).
Notation history := (history codec num8 rk ragged old).
Notation open_stream := (open_stream codec ops lower num8 rk ragged old).
Notation load := (load codec num8 rk ragged old).

Record twins (b1 b2 : book) : Prop := {
  tw_bv : bk_bv b2 = bk_bv b1;
  tw_fbv : b_bv (bk_fmt b1) = bk_bv b1;
  tw_override : en_override (bk_enc b2) = en_override (bk_enc b1);
  tw_codepage : bk_bv b1 < 80 -> en_codepage (bk_enc b2) = en_codepage (bk_enc b1);
  tw_enc1 : enc_inv b1;
  tw_enc2 : enc_inv b2;
  tw_sst : bk_sst b2 = bk_sst b1;
  tw_fmt : kept (bk_fmt b1) (bk_fmt b2) }.

Lemma gstep_position : forall (b1 b2 : book) mem pos rc data b1' b2' p1 p2, bk_bv b2 = bk_bv b1 -> rc <> 0x8f ->
  gstep codec load b1 mem pos rc data = Ok (b1', p1) -> gstep codec load b2 mem pos rc data = Ok (b2', p2) -> p2 = p1.
Proof.
  intros b1 b2 mem pos rc data b1' b2' p1 p2 V N8 H1 H2.
  destruct (Z.eq_dec rc 0xfc) as [->|NFC].
  { apply gstep_sst in H1 as (? & ? & E1 & _). apply gstep_sst in H2 as (? & ? & E2 & _). congruence. }
  destruct (Z.eq_dec rc 0x17) as [->|N17].
  { apply gstep_externsheet in H1 as (c1 & r1 & D1 & E1 & _). apply gstep_externsheet in H2 as (c2 & r2 & D2 & E2 & _).
    destruct (derive_alike _ _ _ D1) as ([A1 _ _ _ _] & _). destruct (derive_alike _ _ _ D2) as ([A2 _ _ _ _] & _).
    unfold handle_externsheet in E1, E2. cbv zeta in E1, E2. replace (bk_bv c2) with (bk_bv c1) in E2 by congruence. destruct (bk_bv c1 >=? 80).
    - apply bind_ok in E1 as (n & X1 & E1). rewrite X1 in E2. cbn [bind] in E2. apply bind_ok in E1 as ([dd q] & X2 & E1). rewrite X2 in E2. cbn [bind] in E2.
      apply bind_ok in E1 as (? & _ & E1). apply bind_ok in E2 as (? & _ & E2). congruence.
    - repeat (apply bind_ok in E1 as (? & _ & E1)). repeat (apply bind_ok in E2 as (? & _ & E2)). congruence. }
  assert (Same : forall b b' p, gstep codec load b mem pos rc data = Ok (b', p) -> p = pos).
  { clear - N8 NFC N17. intros b b' p H. unfold gstep in H. cbv zeta in H.
    assert (Stay : forall r : result book, (do b <- r; Ok (b, pos)) = Ok (b', p) -> p = pos) by (intros r E; apply bind_ok in E as (? & _ & E); congruence).
    replace (rc =? 0xfc) with false in H by lia. replace (rc =? 0x17) with false in H by lia. replace (rc =? 0x8f) with false in H by lia.
    repeat (lazymatch type of H with (if ?c then _ else _) = _ => destruct c end; try (exact (Stay _ H)); try discriminate). all: congruence. }
  rewrite (Same _ _ _ H1), (Same _ _ _ H2). reflexivity.
Qed.

Lemma gstep_twins : forall (b1 b2 : book) mem pos rc data b1' b2' p1 p2, twins b1 b2 -> rc <> 0x8f ->
  gstep codec load b1 mem pos rc data = Ok (b1', p1) -> gstep codec load b2 mem pos rc data = Ok (b2', p2) -> twins b1' b2'.
Proof.
  intros b1 b2 mem pos rc data b1' b2' p1 p2 [V FV OV CP I1 I2 ST K] N8 H1 H2.
  destruct (gstep_effect _ _ _ _ _ _ _ _ _ H1 N8 I1) as (I1' & S1 & F1). destruct (gstep_effect _ _ _ _ _ _ _ _ _ H2 N8 I2) as (I2' & S2 & F2).
  pose proof (gstep_version _ _ _ _ _ _ _ _ _ H1 N8) as V1. pose proof (gstep_version _ _ _ _ _ _ _ _ _ H2 N8) as V2.
  assert (E : en_override (bk_enc b2') = en_override (bk_enc b1') /\ (bk_bv b1' < 80 -> en_codepage (bk_enc b2') = en_codepage (bk_enc b1'))).
  { destruct (Z.eq_dec rc 0x42) as [->|N42].
    - destruct (gstep_codepage _ _ _ _ _ _ _ _ H1) as (cp1 & U1 & _ & _ & _ & O1 & C1). destruct (gstep_codepage _ _ _ _ _ _ _ _ H2) as (cp2 & U2 & _ & _ & _ & O2 & C2).
      split; [congruence|]. intros L. rewrite C1, C2 by lia. congruence.
    - destruct (gstep_page _ _ _ _ _ _ _ _ _ H1 N8 N42) as (O1 & C1). destruct (gstep_page _ _ _ _ _ _ _ _ _ H2 N8 N42) as (O2 & C2).
      split; [congruence|]. intros L. rewrite C1, C2 by lia. apply CP. lia. }
  destruct E as [EO EC].
  assert (ES : bk_sst b2' = bk_sst b1').
  { destruct (Z.eq_dec rc 0xfc) as [->|NFC].
    - apply gstep_sst in H1 as (? & ? & E1 & ->). apply gstep_sst in H2 as (? & ? & E2 & ->). change (x1 = x). congruence.
    - destruct (S1 NFC), (S2 NFC). congruence. }
  assert (EN : encoded b1' -> encoded b2' -> bk_bv b1 < 80 -> en_encoding (bk_enc b2') = en_encoding (bk_enc b1')).
  { intros X1 X2 L. destruct (encoding_exists (bk_bv b1') (en_override (bk_enc b1')) (en_codepage (bk_enc b1'))) as (e & Q). rewrite (X1 ltac:(lia) e Q). apply X2; [lia|].
    rewrite EO, EC by lia. replace (bk_bv b2') with (bk_bv b1') by congruence. exact Q. }
  assert (KF : kept (bk_fmt b1') (bk_fmt b2') /\ b_bv (bk_fmt b1') = bk_bv b1').
  { destruct (frec rc data) as [r|] eqn:R.
    - destruct F1 as [F1 X1], F2 as [F2 X2]. split.
      + refine (fstep_kept _ _ _ _ _ _ _ K _ F1 F2).
        assert (RF : match r with RFormat _ fm => fm = false | _ => True end).
        { unfold frec in R. repeat (lazymatch type of R with (if ?c then _ else _) = _ => destruct c end; [injection R as <-; exact I || reflexivity|]). discriminate. }
        destruct r; auto. split; [exact RF|]. intros L. rewrite (EN X1 X2 ltac:(lia)). reflexivity.
      + rewrite V1, <- FV. apply (frun_bv [(unicode codec (en_encoding (bk_enc b1')), r)]). cbn [frun]. rewrite F1. reflexivity.
    - rewrite F1, F2, V1. auto. }
  destruct KF as [KF FV']. split; auto; congruence.
Qed.

(** The two openings meet the same records. *)
Lemma globals_twins : forall f1 f2 mem rs d post b1 b2 pos b1' b2' p1 p2,
  Forall framable rs -> zlen d < 65536 -> At mem pos (frames rs ++ frame (0x0a, d) ++ post) ->
  Forall (fun r => fst r <> 0x0a /\ fst r <> 0x8f) rs -> twins b1 b2 ->
  globals codec ops lower load f1 b1 mem pos = Ok (b1', p1) -> globals codec ops lower load f2 b2 mem pos = Ok (b2', p2) ->
  exists bl1 bl2, twins bl1 bl2 /\ globals_end codec ops lower bl1 = Ok b1' /\ globals_end codec ops lower bl2 = Ok b2'.
Proof.
  induction f1 as [|f1 IH]; intros f2 mem rs d post b1 b2 pos b1' b2' p1 p2 F LD A NE T H1 H2; [discriminate|]. destruct f2 as [|f2]; [discriminate|]. cbn [globals] in H1, H2.
  assert (FD : framable (0x0a, d)) by (split; cbn; lia).
  destruct rs as [|[rc data] rs].
  - cbn [frames flat_map app] in A. rewrite (At_frame _ _ _ _ A FD) in H1, H2. cbn [bind fst snd] in H1, H2.
    change (0x0a =? 0x0a) with true in H1, H2. cbv iota in H1, H2. apply bind_ok in H1 as (e1 & G1 & H1). apply bind_ok in H2 as (e2 & G2 & H2).
    injection H1 as -> _. injection H2 as -> _. eauto.
  - inversion F as [|? ? F1 F2]; subst. inversion NE as [|? ? [N1 N2] N3]; subst. cbn [fst] in N1, N2.
    cbn [frames flat_map] in A. rewrite <- app_assoc in A.
    pose proof (At_frame _ _ _ _ A F1) as G. rewrite G in H1, H2. cbn [bind fst snd] in H1, H2.
    replace (rc =? 0x0a) with false in H1, H2 by lia.
    apply bind_ok in H1 as ([c1 q1] & G1 & H1). apply bind_ok in H2 as ([c2 q2] & G2 & H2).
    pose proof (At_skip _ _ _ _ _ A eq_refl) as A1.
    assert (A1' : At mem (pos + zlen (frame (rc, data))) (frames (rs ++ [(0x0a, d)]) ++ post)).
    { rewrite frames_app, <- app_assoc. cbn [frames flat_map]. rewrite app_nil_r. exact A1. }
    destruct (gstep_at codec lower load mem (rs ++ [(0x0a, d)]) post (pos + zlen (frame (rc, data))) b1 rc data c1 q1) as (cs & rs' & E & C1 & C2 & C3); auto.
    { apply Forall_app. split; [exact F2|]. constructor; [exact FD|constructor]. }
    { rewrite existsb_app. cbn [existsb noncont fst]. apply orb_true_intro. right. reflexivity. }
    assert (exists rs'', rs' = rs'' ++ [(0x0a, d)] /\ rs = cs ++ rs'') as (rs'' & -> & ->).
    { clear - E C3. destruct rs' as [|x l _] using rev_ind; [discriminate|].
      rewrite app_assoc in E. apply app_inj_tail in E as [E1 E2]. subst. eauto. }
    apply Forall_app in F2 as [_ F2]. apply Forall_app in N3 as [_ N3].
    rewrite frames_app, <- app_assoc in C2. cbn [frames flat_map] in C2. rewrite app_nil_r in C2.
    assert (q2 = q1) as -> by (exact (gstep_position _ _ _ _ _ _ _ _ _ _ (tw_bv _ _ T) N2 G1 G2)).
    exact (IH f2 mem rs'' d post c1 c2 q1 b1' b2' p1 p2 F2 LD C2 N3 (gstep_twins _ _ _ _ _ _ _ _ _ _ T N2 G1 G2) H1 H2).
Qed.

Lemma types_kept : forall f1 f2, kept f1 f2 -> b_xftype (palette_epilogue (xf_epilogue f2)) = b_xftype (palette_epilogue (xf_epilogue f1)).
Proof.
  intros f1 f2 [K1 K2 K3 K4 K5 K6]. rewrite !(proj2 (palette_keeps _)). unfold xf_epilogue. cbv zeta. cbn [b_xftype with_xftype]. unfold xf_cell_type. rewrite K2, K3, K6. reflexivity.
Qed.

Lemma opened_plain : forall fuel1 fuel2 mem base bv rs ov b1 b2 m1 m2, workbook mem base bv rs -> 50 <= bv ->
  open_stream fuel1 mem base ov true true = Ok (mk_api b1 m1) -> open_stream fuel2 mem base ov false true = Ok (mk_api b2 m2) ->
  let c := config_of codec num8 rk ragged b1 in
  exists rich near dec, c_fmt c = true /\ (c_bv c < 80 -> dec = c_decode c) /\ config_of codec num8 rk ragged b2 = plain_config c rich near dec.
Proof.
  intros fuel1 fuel2 mem base bv rs ov b1 b2 m1 m2 W V O1 O2 c.
  destruct (opened_options codec ops lower num8 rk ragged old _ _ _ _ _ _ _ _ _ W V O1) as [BV1 BF1].
  destruct (opened_options codec ops lower num8 rk ragged old _ _ _ _ _ _ _ _ _ W V O2) as [BV2 BF2].
  destruct W as (pos & d & post & GB & FR & LD & A & NE).
  unfold BookApi.open_stream in O1, O2. rewrite GB, bind_Ok in O1, O2.
  apply bind_ok in O1 as (? & _ & O1). apply bind_ok in O1 as (? & _ & O1). apply bind_ok in O2 as (? & _ & O2). apply bind_ok in O2 as (? & _ & O2).
  apply bind_ok in O1 as (z1 & B1 & O1). apply bind_ok in O2 as (z2 & B2 & O2).
  replace (bv <=? 40) with false in O1, O2 by lia. replace (bv =? 45) with false in O1, O2 by lia.
  apply bind_ok in O1 as ([y1 q1] & G1 & O1). apply bind_ok in O2 as ([y2 q2] & G2 & O2). cbv zeta in O1, O2.
  assert (b1 = with_list y1 (map (fun _ => None) (sl_names (bk_sheets y1)))) by congruence. assert (b2 = with_list y2 (map (fun _ => None) (sl_names (bk_sheets y2)))) by congruence. clear O1 O2. subst b1 b2.
  assert (T0 : twins z1 z2).
  { unfold book0 in B1, B2. apply bind_ok in B1 as (f1 & F1 & B1). apply bind_ok in B2 as (f2 & F2 & B2). injection B1 as <-. injection B2 as <-.
    unfold fbook0 in F1, F2. apply bind_ok in F1 as (cm & _ & F1). cbn [bind] in F2. injection F1 as <-. injection F2 as <-. split; try reflexivity; try (intros _; left; reflexivity). split; reflexivity. }
  destruct (globals_twins _ _ _ _ _ _ _ _ _ _ _ _ _ FR LD A NE T0 G1 G2) as (u1 & u2 & [T1 T2 T3 T4 T5 T6 T7 T8] & E1 & E2).
  destruct (globals_end_effect _ _ _ _ _ E1 T5) as (N1 & S1 & _ & F1). destruct (globals_end_effect _ _ _ _ _ E2 T6) as (N2 & S2 & _ & F2).
  destruct (globals_end_alike _ _ _ _ _ E1) as [K1 _ _ K4 K5]. destruct (globals_end_alike _ _ _ _ _ E2) as [L1 _ _ L4 L5].
  exists (bk_rich y2), (nearest_colour_index (b_colours (bk_fmt y2))), (unicode codec (en_encoding (bk_enc y2))).
  split; [exact BF1|]. split.
  - intros L. change (bk_bv y1 < 80) in L. change (unicode codec (en_encoding (bk_enc y2)) = unicode codec (en_encoding (bk_enc y1))). f_equal.
    destruct (encoding_exists (bk_bv y1) (en_override (bk_enc y1)) (en_codepage (bk_enc y1))) as (e & Q). rewrite (N1 L e Q). apply N2; [lia|].
    rewrite K4, K5, K1 in Q by lia. rewrite L4, L5, L1, T1, T3, T4 by lia. exact Q.
  - unfold plain_config, c, config_of. cbn [c_bv c_ragged c_sst c_xftype c_num8 c_rk with_list bk_bv bk_sst bk_rich].
    change (mk_config (bk_bv y2) (b_fmt (bk_fmt y2)) ragged (bk_sst y2) (bk_rich y2) (dget Z.eqb (b_xftype (bk_fmt y2))) (unicode codec (en_encoding (bk_enc y2))) num8 rk (nearest_colour_index (b_colours (bk_fmt y2)))
      = mk_config (bk_bv y1) false ragged (bk_sst y1) (bk_rich y2) (dget Z.eqb (b_xftype (bk_fmt y1))) (unicode codec (en_encoding (bk_enc y2))) num8 rk (nearest_colour_index (b_colours (bk_fmt y2)))).
    change (b_fmt (bk_fmt y2) = false) in BF2. change (bk_bv y2 = bv) in BV2. change (bk_bv y1 = bv) in BV1.
    assert (TY : b_xftype (bk_fmt y2) = b_xftype (bk_fmt y1)) by (rewrite F1, F2; apply types_kept; exact T8).
    rewrite BF2, TY, BV2, BV1, S1, S2, T7. reflexivity.
Qed.

(** However a workbook is stored and opened and whatever was done before, its worksheets show
    the same with formatting_info and without, except for blank cells and formatting. *)
Theorem c101_workbook : forall bv override s rs es e file fuel depth on_demand1 on_demand2 ignore a1 a2 h1 h2 k1 k2 j recs sh1 sh2,
  50 <= bv -> contains lower depth file s -> zlen file < Z.of_nat fuel -> book_stream s bv rs -> lists codec bv override None rs es ->
  open_workbook_xls codec ops lower num8 rk ragged old fuel depth file override true on_demand1 ignore = Ok a1 ->
  open_workbook_xls codec ops lower num8 rk ragged old fuel depth file override false on_demand2 ignore = Ok a2 ->
  znth (filter worksheet es) j = Some e -> 0 <= e_posn e -> sheet_at s (e_posn e) recs -> dimension_first false (own_records false (map rec_of recs)) ->
  fst (perform k1 (snd (history a1 h1)) (SheetByIndex j)) = Ok (Got sh1) ->
  fst (perform k2 (snd (history a2 h2)) (SheetByIndex j)) = Ok (Got sh2) ->
  ls_name sh1 = ls_name sh2 /\ ls_visibility sh1 = ls_visibility sh2 /\ same_but_formatting (ls_sheet sh1) (ls_sheet sh2).
Proof.
  intros bv ov s rs es e file f d od1 od2 ig a1 a2 h1 h2 k1 k2 j recs sh1 sh2 V C L BS LS O1 O2 E P SA DF Q1 Q2.
  destruct (found lower f d file s bv rs ig C BS L) as (m & base & post & F & BM & PB & A & LM & L0).
  unfold BookApi.open_workbook_xls in O1, O2. replace (zlen file =? 0) with false in O1, O2 by lia. cbn [negb guard] in O1, O2. rewrite bind_Ok, F, bind_Ok in O1, O2.
  pose proof (book_at _ _ _ _ _ _ BM PB A BS) as W. assert (PL : placed s m base) by (split; [exact BM|]; split; [exact PB|]; exists post; exact A).
  destruct (by_index codec ops lower num8 rk ragged old _ _ _ _ _ _ _ _ _ _ h1 j j k1 _ _ W V LS O1 (or_introl eq_refl) E Q1) as (b1 & version1 & pos1 & countries1 & x1 & OO1 & GB1 & SR1 & NM1 & VS1 & SX1).
  destruct (by_index codec ops lower num8 rk ragged old _ _ _ _ _ _ _ _ _ _ h2 j j k2 _ _ W V LS O2 (or_introl eq_refl) E Q2) as (b2 & version2 & pos2 & countries2 & x2 & OO2 & GB2 & SR2 & NM2 & VS2 & SX2).
  split; [congruence|]. split; [congruence|].
  rewrite GB1 in GB2. injection GB2 as <- <-.
  destruct (sheet_place codec lower num8 rk old s _ recs P SA) as (v & n & HS). destruct (HS m base PL) as (t & GB3 & RE). change XL_WORKSHEET with 0x10 in GB3. rewrite GB1 in GB3. injection GB3 as -> ->.
  rewrite RE in SR1, SR2.
  destruct SA as (op & body & v' & t' & AT & _ & _ & _ & FR & CL).
  assert (BR : Forall (fun r => bytes (snd r)) recs).
  { pose proof (At_in _ _ _ _ _ _ A AT) as A2. destruct A2 as (before & EM & _). rewrite EM in BM. apply Forall_app in BM as [_ BM]. apply Forall_app in BM as [BM _]. apply Forall_app in BM as [_ BM]. apply Forall_app in BM as [BM _].
    apply bytes_frames. unfold frames in *. rewrite flat_map_app in BM. apply Forall_app in BM as [BM _]. exact BM. }
  destruct (opened_plain _ _ _ _ _ _ _ _ _ _ _ W V OO1 OO2) as (rich & near & dec & FM & DE & EC). rewrite EC in SR2.
  assert (CO : complete false (PropStorage.R recs t)) by (apply complete_closed; assumption).
  assert (DF2 : dimension_first false (own_records false (PropStorage.R recs t))) by (unfold PropStorage.R; rewrite own_closed by exact CL; exact DF).
  destruct (c101_sheet _ rich near dec _ _ _ FM DE CO DF2 SR1) as (x & SR3 & SB & _).
  destruct (sheet_read_weaker _ _ (0, 0) _ _ SR3 (or_intror eq_refl)) as (k3 & R3). destruct (sheet_read_weaker _ _ (0, 0) _ _ SR2 (or_intror eq_refl)) as (k4 & R4).
  rewrite R3 in R4. assert (EQ : set_c x k3 = set_c x2 k4) by congruence.
  assert (X1 : same_but_formatting (set_c x1 (0, 0)) (set_c x2 (0, 0))).
  { assert (E2 : set_c x2 (0, 0) = set_c x (0, 0)) by (transitivity (set_c (set_c x2 k4) (0, 0)); [destruct x2; reflexivity|rewrite <- EQ; destruct x; reflexivity]). rewrite E2. destruct x1, x. exact SB. }
  rewrite <- SX1, <- SX2 in X1. destruct (ls_sheet sh1), (ls_sheet sh2). exact X1.
Qed.
End Book.
Print Assumptions c101_workbook.

(** The globals of the workbook of PropWorkbook.v, and a worksheet with DIMENSION, two cells
    with contents, a blank cell further out, and merged cells. *)
Definition blank_records : list (Z * list Z) :=
  (0x200, [0; 0; 0; 0; 3; 0; 0; 0; 0; 0; 4; 0; 0; 0]) :: flat_map (enc Small.config) (firstn 3 Small.items) ++
  [(0x201, [2; 0; 3; 0; 1; 0]); (0xe5, [1; 0; 0; 0; 1; 0; 0; 0; 1; 0])].
Definition blank_file : list Z :=
  frame (Small.bof 5) ++ frames Small.records ++ frame (0x0a, []) ++ frame (Small.bof 0x10) ++ frames (blank_records ++ [(0x0a, [])]).

Example c101_hypotheses :
  let codec := fun _ b => Ok b in let rk := fun b => Ok (le_val b) in let none := fun _ _ _ _ _ => Err XLRDError in
  contains ascii_low 1 blank_file blank_file /\ zlen blank_file < Z.of_nat 400 /\ book_stream blank_file 80 Small.records /\
  lists codec 80 None None Small.records [mk_entry 130 1 0 (s2l "S")] /\ sheet_at blank_file 130 blank_records /\
  dimension_first false (own_records false (map rec_of blank_records)) /\
  match open_workbook_xls codec int_ops ascii_low le_val rk false none 400 1 blank_file None true true true, open_workbook_xls codec int_ops ascii_low le_val rk false none 400 1 blank_file None false false true with
  | Ok a1, Ok a2 => match fst (perform codec le_val rk false none (0, 0) a1 (SheetByIndex 0)), fst (perform codec le_val rk false none (0, 0) a2 (SheetByIndex 0)) with
                    | Ok (Got sh1), Ok (Got sh2) =>
                        let g1 := sh_grid (ls_sheet sh1) in let g2 := sh_grid (ls_sheet sh2) in
                        (g_nrows g1, g_ncols g1, g_nrows g2, g_ncols g2) = (3, 4, 2, 2) /\ shown g1 0 1 = Some (3, VNum 2) /\ shown g2 0 1 = Some (3, VNum 2) /\
                        cell_type g1 2 3 = Ok 6 /\ f_merged (sh_fmt (ls_sheet sh1)) = [(0, 2, 0, 2)] /\ f_merged (sh_fmt (ls_sheet sh2)) = []
                    | _, _ => False
                    end
  | _, _ => False
  end.
Proof.
  cbv zeta. destruct c75_hypotheses as (_ & _ & L & _).
  split; [apply Bare; [apply bytes_check; vm_compute; reflexivity|reflexivity]|]. split; [vm_compute; reflexivity|].
  split.
  { exists 0x809, (snd (Small.bof 5)), [], (frame (Small.bof 0x10) ++ frames (blank_records ++ [(0x0a, [])])). split; [reflexivity|]. split; [vm_compute; split; discriminate|]. split; [apply Excel97; reflexivity|]. split; [reflexivity|].
    split; [apply Forall_forall; intros [rc d] I; vm_compute in I; repeat (destruct I as [I|I]; [injection I as <- <-; split; cbn; lia|]); destruct I|].
    split; [reflexivity|]. vm_compute. repeat constructor; discriminate. }
  split; [exact L|]. split.
  { exists 0x809, (snd (Small.bof 0x10)), 80, []. split.
    { exists (firstn 130 blank_file). split; [vm_compute; reflexivity|reflexivity]. }
    split; [vm_compute; split; discriminate|]. split; [apply Excel97; reflexivity|]. split; [reflexivity|].
    split; [apply Forall_forall; intros [rc d] I; vm_compute in I; repeat (destruct I as [I|I]; [injection I as <- <-; split; cbn; lia|]); destruct I|].
    vm_compute. reflexivity. }
  split; [vm_compute; repeat split; intros; discriminate|]. vm_compute. repeat split.
Qed.
