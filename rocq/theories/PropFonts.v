(** Property theorems C86-C88: the fonts, the colours in use and the named styles of a
    workbook.  The records of [files] are those with formatting information, each with
    the decoder of the text encoding in force where it stands; FormatRun.v finds them
    in the globals of a workbook. *)
From Verif Require Import Base BaseFacts Text Strings Utf16 StringFacts PropBytes Framing GridModel GridFacts SheetObjects SheetModel SheetSteps PropView PropRowCol
  SstModel FormatModel FormatFacts PropFormat PropColour FormulaModel BookModel BookApi BookHistory PropSheetList BookContent FormatRun.

(** ** Specification *)

(** [tail] begins with the string [s], with a length field of [lenlen] bytes: of BIFF8, or
    one byte and encoded text. *)
Definition string_at (bv : Z) (dec : decoder) (lenlen : nat) (tail s : list Z) : Prop :=
  if 80 <=? bv then
    (s = [] /\ exists post, tail = le_enc lenlen 0 ++ post) \/
    (exists u post, tail = us_field lenlen u ++ post /\ us_ok u /\ us_units u < 256 ^ Z.of_nat lenlen /\ s = us_text u)
  else exists raw post, tail = zlen raw :: raw ++ post /\ dec raw = Ok s.

(** A FONT record: fixed fields, then the name. *)
Definition font_record (bv : Z) (dec : decoder) (d name : list Z) : Prop :=
  bytes d /\ exists fixed tail, d = fixed ++ tail /\ string_at bv dec 1 tail name /\
    zlen fixed = if 50 <=? bv then 14 else if 30 <=? bv then 6 else 4.

(** What it says; BIFF2 has EFONT records for the colours. *)
Definition font_of (bv : Z) (d name : list Z) (efont : option Z) (i : Z) : font :=
  {| fo_index := i; fo_name := name; fo_height := bits d 0 16;
     fo_bold := bits d 16 1; fo_italic := bits d 17 1; fo_underlined := bits d 18 1; fo_struck_out := bits d 19 1;
     fo_outline := if 30 <=? bv then bits d 20 1 else 0;
     fo_shadow := if 30 <=? bv then bits d 21 1 else 0;
     fo_colour_index := match efont with Some c => c | None => if 30 <=? bv then bits d 32 16 else 0x7fff end;
     fo_weight := if 50 <=? bv then bits d 48 16 else if bits d 16 1 =? 1 then 700 else 400;
     fo_escapement := if 50 <=? bv then bits d 64 16 else 0;
     fo_underline_type := if 50 <=? bv then bits d 80 8 else bits d 18 1;
     fo_family := if 50 <=? bv then bits d 88 8 else 0;
     fo_character_set := if 50 <=? bv then bits d 96 8 else 1 |}.

(** The colour of the last EFONT record before the next FONT record. *)
Fixpoint efont (q : files) (c : option Z) : option Z :=
  match q with
  | [] => c
  | (_, RFont _) :: _ => c
  | (_, REfont e) :: r => efont r (Some (le_val e))
  | _ :: r => efont r c
  end.

(** ** C86 *)

Lemma string_read : forall bv dec n d fixed tail s, bytes d -> d = fixed ++ tail -> string_at bv dec n tail s -> n = 1%nat \/ n = 2%nat ->
  (if bv >=? 80 then unpack_unicode d (zlen fixed) (Z.of_nat n) = Ok s else unpack_string dec d (zlen fixed) 1 = Ok s).
Proof.
  intros bv dec n d fixed tail s B -> H HN. unfold string_at in H. destruct (80 <=? bv) eqn:E.
  - replace (bv >=? 80) with true by lia. destruct H as [(-> & post & ->)|(u & post & -> & UO & UL & ->)].
    + unfold unpack_unicode. rewrite (At_le _ post n 0 (zlen fixed) (Z.of_nat n)).
      * reflexivity.
      * exists fixed. split; reflexivity.
      * reflexivity.
      * split; [lia|]. destruct HN as [->| ->]; reflexivity.
    + apply c13_unpack_unicode; assumption.
  - replace (bv >=? 80) with false by lia. destruct H as (raw & post & -> & D).
    assert (R : 0 <= zlen raw < 256). { unfold bytes in B. rewrite Forall_app in B. destruct B as [_ B]. inversion B; subst. assumption. }
    assert (A : At (fixed ++ zlen raw :: raw ++ post) (zlen fixed) (zlen raw :: raw ++ post)) by (exists fixed; auto).
    unfold unpack_string.
    assert (unpack_le 1 (fixed ++ zlen raw :: raw ++ post) (zlen fixed) = Ok (zlen raw)) as ->.
    { apply (At_le _ (raw ++ post) 1 (zlen raw)); [|reflexivity|exact R]. change (le_enc 1 (zlen raw)) with [zlen raw mod 256]. rewrite (Z.mod_small (zlen raw)) by lia. exact A. }
    rewrite bind_Ok. cbv zeta. pose proof (At_skip1 _ _ _ _ (zlen fixed + 1) A eq_refl) as A2.
    rewrite (At_slice _ _ _ _ (zlen fixed + 1 + zlen raw) A2 eq_refl). exact D.
Qed.

Lemma u16_ok : forall d pos, bytes d -> 0 <= pos -> pos + 2 <= zlen d -> unpack_u16 d pos = Ok (bits d (8 * pos) 16).
Proof.
  intros d pos B P L. rewrite <- (u16_bits d pos B P L). destruct (unpack_u16 d pos) as [v|e] eqn:E.
  - apply unpack_u16_at in E. congruence.
  - exfalso. unfold unpack_u16, unpack_le in E. destruct (_ =? 2) eqn:E2; [discriminate|].
    rewrite py_slice_len, !py_bound_id in E2 by lia. lia.
Qed.

Lemma u8_ok : forall d pos, bytes d -> 0 <= pos -> pos + 1 <= zlen d -> unpack_le 1 d pos = Ok (bits d (8 * pos) 8).
Proof.
  intros d pos B P L. destruct (unpack_le 1 d pos) as [v|e] eqn:E.
  - rewrite (bits_u8 d pos v B E P). reflexivity.
  - exfalso. unfold unpack_le in E. destruct (_ =? 1) eqn:E2; [discriminate|].
    rewrite py_slice_len, !py_bound_id in E2 by lia. lia.
Qed.

Lemma need_ok : forall d n, 0 <= n <= zlen d -> need d n = Ok tt.
Proof. intros d n L. unfold need. rewrite py_slice_len, !py_bound_id by lia. replace (_ =? n) with true by lia. reflexivity. Qed.

Lemma flag_bits : forall d pos i, bytes d -> 0 <= pos -> pos + 2 <= zlen d -> 0 <= i < 16 ->
  Z.shiftr (Z.land (bits d (8 * pos) 16) (2 ^ i)) i = bits d (8 * pos + i) 1.
Proof.
  intros d pos i B P L I. rewrite <- (bits_u16 d pos _ i 1 B (u16_ok d pos B P L) P L) by lia.
  rewrite Z.shiftr_land. f_equal. change (Z.ones 1) with 1. rewrite Z.shiftr_div_pow2 by lia. apply Z.div_same. pose proof (Z.pow_pos_nonneg 2 i). lia.
Qed.

Lemma font_read : forall bv dec d name i, font_record bv dec d name -> read_font dec bv i d = Ok (font_of bv d name None i).
Proof.
  intros bv dec d name i (B & fixed & tail & ED & S & LF).
  assert (LT : 0 < zlen tail).
  { unfold string_at in S. destruct (80 <=? bv).
    - destruct S as [(_ & post & ->)|(u & post & -> & _)]; [|unfold us_field]; rewrite !zlen_app, zlen_le_enc; pose proof (zlen_nonneg post).
      + lia.
      + pose proof (zlen_nonneg (us_rest u)). lia.
    - destruct S as (raw & post & -> & _). unfold zlen. cbn [List.length]. lia. }
  assert (LD : zlen d = zlen fixed + zlen tail) by (rewrite ED; apply zlen_app).
  pose proof (string_read bv dec 1 d fixed tail name B ED S (or_introl eq_refl)) as N. change (Z.of_nat 1) with 1 in N.
  assert (L4 : 4 <= zlen d) by (rewrite LD, LF; destruct (50 <=? bv); [lia|]; destruct (30 <=? bv); lia).
  assert (F : forall k, 0 <= k < 16 -> Z.shiftr (Z.land (bits d 16 16) (2 ^ k)) k = bits d (16 + k) 1).
  { intros k K. exact (flag_bits d 2 k B ltac:(lia) L4 K). }
  assert (F0 : Z.land (bits d 16 16) 1 = bits d 16 1) by (pose proof (F 0 ltac:(lia)) as Q; rewrite Z.shiftr_0_r in Q; exact Q).
  assert (F1 : Z.shiftr (Z.land (bits d 16 16) 2) 1 = bits d 17 1) by exact (F 1 ltac:(lia)).
  assert (F2 : Z.shiftr (Z.land (bits d 16 16) 4) 2 = bits d 18 1) by exact (F 2 ltac:(lia)).
  assert (F3 : Z.shiftr (Z.land (bits d 16 16) 8) 3 = bits d 19 1) by exact (F 3 ltac:(lia)).
  assert (F4 : Z.shiftr (Z.land (bits d 16 16) 16) 4 = bits d 20 1) by exact (F 4 ltac:(lia)).
  assert (F5 : Z.shiftr (Z.land (bits d 16 16) 32) 5 = bits d 21 1) by exact (F 5 ltac:(lia)).
  assert (W : py_index [400; 700] (bits d 16 1) = Ok (if bits d 16 1 =? 1 then 700 else 400)).
  { destruct (bits_1 d 16) as [->| ->]; reflexivity. }
  unfold read_font, font_of.
  destruct (50 <=? bv) eqn:V5; [|destruct (30 <=? bv) eqn:V3].
  - replace (bv >=? 50) with true by lia. replace (30 <=? bv) with true by lia. rewrite LF in *.
    rewrite need_ok, bind_Ok by lia.
    rewrite !u16_ok by (assumption || lia). rewrite !bind_Ok. rewrite !u8_ok by (assumption || lia). rewrite !bind_Ok.
    assert ((if bv >=? 80 then unpack_unicode d 14 1 else unpack_string dec d 14 1) = Ok name) as -> by (destruct (bv >=? 80); exact N).
    rewrite bind_Ok. change (8 * 2) with 16. rewrite F0.
    rewrite F1, F2, F3, F4, F5. reflexivity.
  - replace (bv >=? 50) with false by lia. replace (bv >=? 30) with true by lia. rewrite LF in *.
    rewrite need_ok, bind_Ok by lia.
    rewrite !u16_ok by (assumption || lia). rewrite !bind_Ok.
    replace (bv >=? 80) with false in N by lia. rewrite N, bind_Ok. change (8 * 2) with 16. rewrite F0. rewrite W, bind_Ok.
    rewrite F1, F2, F3, F4, F5. reflexivity.
  - replace (bv >=? 50) with false by lia. replace (bv >=? 30) with false by lia. rewrite LF in *.
    rewrite need_ok, bind_Ok by lia.
    rewrite !u16_ok by (assumption || lia). rewrite !bind_Ok.
    replace (bv >=? 80) with false in N by lia. rewrite N, bind_Ok. change (8 * 2) with 16. rewrite F0. rewrite W, bind_Ok.
    rewrite F1, F2, F3. reflexivity.
Qed.

Definition recolour (f : font) (c : option Z) : font :=
  match c with
  | None => f
  | Some c => mk_font (fo_index f) (fo_height f) (fo_bold f) (fo_italic f) (fo_underlined f) (fo_struck_out f)
       (fo_outline f) (fo_shadow f) c (fo_weight f) (fo_escapement f) (fo_underline_type f) (fo_family f)
       (fo_character_set f) (fo_name f)
  end.

Lemma efont_default : forall q c, efont q (Some c) = match efont q None with Some x => Some x | None => Some c end.
Proof.
  induction q as [|[d r] q IH]; intros c; [reflexivity|]. destruct r; cbn [efont]; auto. rewrite IH. destruct (efont q None); reflexivity.
Qed.

Lemma efont_step : forall b data b', b_fmt b = true -> handle_efont b data = Ok b' ->
  exists l f, b_fonts b = l ++ [f] /\ b_fonts b' = l ++ [recolour f (Some (le_val data))].
Proof.
  intros b data b' F H. unfold handle_efont in H. rewrite F in H. cbn [negb] in H.
  apply bind_ok in H as (f & I & H). apply bind_ok in H as ([] & LG & H). apply bind_ok in H as (cx & U & H). apply bind_ok in H as (fs & S & H).
  injection H as <-. apply last_set in S as (l & x & E & ->). exists l, x. cbn [b_fonts with_fonts]. split; [exact E|].
  assert (f = x) as ->.
  { rewrite E in I. unfold py_index in I. rewrite zlen_app in I. change (zlen [x]) with 1 in I. pose proof (zlen_nonneg l).
    change (-1 <? 0) with true in I. cbv iota zeta in I. rewrite znth_app_r in I by lia. replace (-1 + (zlen l + 1) - zlen l) with 0 in I by lia. cbn in I. congruence. }
  assert (cx = le_val data) as ->; [|reflexivity].
  unfold guard in LG. destruct (zlen data =? 2) eqn:L; [|discriminate]. unfold unpack_u16, unpack_le in U.
  assert (py_slice data 0 (0 + 2) = data) as Q by (apply py_slice_all; lia). rewrite Q in U. rewrite L in U. congruence.
Qed.

Lemma font_step : forall dec b data b', b_fmt b = true -> handle_font dec b data = Ok b' ->
  exists more f, b_fonts b' = b_fonts b ++ more ++ [f] /\ read_font dec (b_bv b) (zlen (b_fonts b ++ more)) data = Ok f /\
    more = if zlen (b_fonts b) =? 4 then [dummy_font] else [].
Proof.
  intros dec b data b' F H. unfold handle_font in H. rewrite F in H. cbn [negb] in H. cbv zeta in H. apply bind_ok in H as (f & R & H). injection H as <-.
  exists (if zlen (b_fonts b) =? 4 then [dummy_font] else []), f. cbn [b_fonts with_fonts].
  destruct (zlen (b_fonts b) =? 4); rewrite ?app_nil_r; cbn [app]; (split; [rewrite <- ?app_assoc; reflexivity|]); split; auto.
Qed.

Lemma fonts_grow : forall q b1 b l r, b_fmt b1 = true -> b_fonts b1 = l ++ r -> r <> [] -> frun b1 q = Ok b ->
  exists r', b_fonts b = l ++ r' /\ r' <> [].
Proof.
  induction q as [|[d rc] q IH]; intros b1 b l r F E NE H; cbn [frun] in H.
  - injection H as <-. eauto.
  - apply bind_ok in H as (b2 & S & H). destruct (step_frame _ _ _ _ S) as (_ & F2 & _ & K). rewrite F in F2.
    destruct rc as [data|data|data f2|data|data|data]; try (eapply IH; [exact F2|rewrite K; exact E|exact NE|exact H]).
    + cbn [fstep] in S. destruct (font_step _ _ _ _ F S) as (more & f & S1 & _). eapply IH; [exact F2| | |exact H].
      * rewrite S1, E, <- app_assoc. reflexivity.
      * destruct r; [congruence|discriminate].
    + cbn [fstep] in S. destruct (efont_step _ _ _ F S) as (l' & f & S1 & S2). destruct r as [|x r _] using rev_ind; [congruence|].
      rewrite E, app_assoc in S1. apply app_inj_tail in S1 as [S1 <-]. rewrite <- S1, <- app_assoc in S2. eapply IH; [exact F2|exact S2| |exact H]. destruct r; discriminate.
Qed.

Lemma font_after : forall q b1 b l f, b_fmt b1 = true -> b_fonts b1 = l ++ [f] -> frun b1 q = Ok b ->
  exists more, b_fonts b = l ++ recolour f (efont q None) :: more.
Proof.
  induction q as [|[d rc] q IH]; intros b1 b l f F E H; cbn [frun] in H.
  - injection H as <-. exists []. exact E.
  - apply bind_ok in H as (b2 & S & H). destruct (step_frame _ _ _ _ S) as (_ & F2 & _ & K). rewrite F in F2.
    destruct rc as [data|data|data f2|data|data|data]; cbn [efont]; try (eapply IH; [exact F2|rewrite K; exact E|exact H]).
    + cbn [fstep] in S. destruct (font_step _ _ _ _ F S) as (more & g & S1 & _).
      destruct (fonts_grow q b2 b (l ++ [f]) (more ++ [g]) F2) as (r' & R & _); [rewrite S1, E; reflexivity|destruct more; discriminate|exact H|].
      exists r'. rewrite R, <- app_assoc. reflexivity.
    + cbn [fstep] in S. destruct (efont_step _ _ _ F S) as (l' & g & S1 & S2). rewrite E in S1. apply app_inj_tail in S1 as [<- <-].
      destruct (IH _ _ _ _ F2 S2 H) as (more & M). exists more. rewrite M, efont_default. destruct (efont q None); reflexivity.
Qed.

(** With formatting information, the FONT record number k gives the font of that number
    (from 4 on, of the next number), with the attributes that the record holds. *)
Theorem c86_fonts : forall bv p dec d name q b0 b, fbook0 bv true = Ok b0 -> frun b0 (p ++ (dec, RFont d) :: q) = Ok b ->
  font_record bv dec d name ->
  let i := place (zlen (font_records p)) in
  znth (b_fonts b) i = Some (font_of bv d name (efont q None) i).
Proof.
  intros bv p dec d name q b0 b F0 R W i. rewrite frun_app in R. apply bind_ok in R as (b1 & R1 & R). cbn [frun] in R. apply bind_ok in R as (b2 & S & R).
  destruct (font_inv_run _ _ _ _ _ F0 R1) as (BV & FM & L & _). cbn [fstep] in S. destruct (font_step _ _ _ _ FM S) as (more & f & S1 & S2 & S3).
  assert (LI : zlen (b_fonts b1 ++ more) = i).
  { rewrite zlen_app, S3. unfold i, place. pose proof (zlen_nonneg (font_records p)).
    destruct (zlen (b_fonts b1) =? 4) eqn:E4; rewrite L in *; [change (zlen [dummy_font]) with 1|change (zlen (@nil font)) with 0];
      destruct (zlen (font_records p) <=? 4) eqn:E; destruct (zlen (font_records p) <? 4) eqn:E1; lia. }
  rewrite LI, BV, (font_read _ _ _ _ i W) in S2. injection S2 as <-.
  assert (FM2 : b_fmt b2 = true) by (rewrite (proj1 (proj2 (step_frame dec b1 (RFont d) b2 S))); exact FM).
  rewrite app_assoc in S1. destruct (font_after q b2 b _ _ FM2 S1 R) as (r & ->).
  rewrite znth_app_r by lia. rewrite LI, Z.sub_diag. cbn. destruct (efont q None); reflexivity.
Qed.
Print Assumptions c86_fonts.

(** Such a record is always read. *)
Theorem c86_readable : forall bv dec d name b, b_bv b = bv -> font_record bv dec d name -> exists b', fstep dec b (RFont d) = Ok b'.
Proof.
  intros bv dec d name b BV W. cbn [fstep]. unfold handle_font. destruct (negb (b_fmt b)); [eauto|]. cbv zeta. rewrite BV, (font_read _ _ _ _ _ W). cbn [bind]. eauto.
Qed.
Print Assumptions c86_readable.

(** A BIFF8 FONT record: 10 points, italic and struck out, bold weight, double underline, "A". *)
Definition sample_font : list Z := [200; 0; 0x0a; 0; 0xff; 0x7f; 0xbc; 2; 1; 0; 0x21; 2; 0x12; 0; 1; 0; 65].
Example c86_case : font_record 80 (fun s => Ok s) sample_font [65] /\
  font_of 80 sample_font [65] None 0 = mk_font 0 200 0 1 0 1 0 0 0x7fff 700 1 0x21 2 0x12 [65] /\
  match (do b0 <- fbook0 80 true; frun b0 ([] ++ (fun s => Ok s, RFont sample_font) :: [(fun s => Ok s, RFont sample_font)])) with
  | Ok b => zlen (b_fonts b) = 2
  | Err _ => False
  end.
Proof.
  split; [|split; reflexivity]. split; [repeat constructor; discriminate|]. exists (firstn 14 sample_font), [1; 0; 65]. split; [reflexivity|]. split; [|reflexivity].
  right. exists {| us_text := [65]; us_wide := false; us_opts := 0; us_runs := None; us_phon := None |}, []. split; [reflexivity|].
  split; [|split; reflexivity]. unfold us_ok. cbn [us_text us_wide us_opts us_runs us_phon]. repeat split; try reflexivity; repeat constructor; discriminate.
Qed.

(** A BIFF2 FONT record and its EFONT record. *)
Example c86_old_case : font_record 21 (fun s => Ok s) [200; 0; 1; 0; 1; 65] [65] /\
  match (do b0 <- fbook0 21 true; frun b0 ([] ++ (fun s => Ok s, RFont [200; 0; 1; 0; 1; 65]) :: [(fun s => Ok s, REfont [9; 0])])) with
  | Ok b => b_fonts b = [mk_font 0 200 1 0 0 0 0 0 9 700 0 0 0 1 [65]]
  | Err _ => False
  end.
Proof.
  split; [|reflexivity]. split; [repeat constructor; discriminate|]. exists [200; 0; 1; 0], [1; 65]. split; [reflexivity|]. split; [|reflexivity].
  exists [65], []. split; reflexivity.
Qed.

(** ** C87: colour_indexes_used *)

(** The seven colour attributes of an XF: five borders, two of the background. *)
Definition uses_colour (x : xf) (c : Z) : Prop :=
  let bo := xf_border x in let bg := xf_background x in
  c = bo_left_colour bo \/ c = bo_right_colour bo \/ c = bo_top_colour bo \/ c = bo_bottom_colour bo \/ c = bo_diag_colour bo \/
  c = bg_pattern_colour bg \/ c = bg_background_colour bg.

Definition has_colour (f : fbook) (c : Z) : Prop := exists v, dget Z.eqb (b_colours f) c = Some v.

Lemma uses_xf_colours : forall x c, In c (xf_colours x) <-> uses_colour x c.
Proof. intros x c. unfold xf_colours, uses_colour. cbn [In]. intuition congruence. Qed.

Lemma mark_keeps : forall b c, b_colours (mark b c) = b_colours b /\ b_fonts (mark b c) = b_fonts b /\ b_xfs (mark b c) = b_xfs b /\ b_styles (mark b c) = b_styles b.
Proof. intros b c. unfold mark. destruct (dget _ _ _); repeat split. Qed.

Lemma mark_used : forall b c x, In x (b_used (mark b c)) <-> In x (b_used b) \/ (x = c /\ has_colour b c).
Proof.
  intros b c x. unfold mark, has_colour. destruct (dget Z.eqb (b_colours b) c) as [v|]; cbn [b_used with_used].
  - rewrite in_app_iff. cbn [In]. split; [intros [H|[H|[]]]; [auto|right; split; [auto|eauto]]|intros [H|[-> _]]; auto].
  - split; [auto|]. intros [H|[_ (v & V)]]; [exact H|discriminate].
Qed.

Lemma marks : forall cs b, let b' := fold_left mark cs b in
  b_colours b' = b_colours b /\ b_fonts b' = b_fonts b /\ b_xfs b' = b_xfs b /\ b_styles b' = b_styles b /\
  forall x, In x (b_used b') <-> In x (b_used b) \/ (In x cs /\ has_colour b x).
Proof.
  induction cs as [|c cs IH]; intros b; cbn [fold_left]; cbv zeta.
  - repeat split; auto. intros [H|[[] _]]; exact H.
  - destruct (IH (mark b c)) as (I1 & I2 & I3 & I4 & I5). destruct (mark_keeps b c) as (M1 & M2 & M3 & M4).
    rewrite I1, I2, I3, I4. repeat (split; [assumption|]). intros x. rewrite I5, mark_used. unfold has_colour. rewrite M1. cbn [In].
    intuition (subst; auto).
Qed.

Lemma epilogue_marks : forall l b, let b' := fold_left (fun b f => if fo_index f =? 4 then b else if fo_colour_index f =? 0x7fff then b else mark b (fo_colour_index f)) l b in
  b_colours b' = b_colours b /\ b_fonts b' = b_fonts b /\ b_xfs b' = b_xfs b /\ b_styles b' = b_styles b /\
  forall x, In x (b_used b') <-> In x (b_used b) \/ (exists f, In f l /\ fo_index f <> 4 /\ fo_colour_index f = x /\ x <> 0x7fff /\ has_colour b x).
Proof.
  induction l as [|f l IH]; intros b; cbn [fold_left]; cbv zeta.
  - repeat split; auto. intros [H|(f & [] & _)]; exact H.
  - set (b1 := if fo_index f =? 4 then b else if fo_colour_index f =? 0x7fff then b else mark b (fo_colour_index f)).
    assert (K : b_colours b1 = b_colours b /\ b_fonts b1 = b_fonts b /\ b_xfs b1 = b_xfs b /\ b_styles b1 = b_styles b /\
      forall x, In x (b_used b1) <-> In x (b_used b) \/ (fo_index f <> 4 /\ fo_colour_index f = x /\ x <> 0x7fff /\ has_colour b x)).
    { subst b1. destruct (fo_index f =? 4) eqn:E1; [|destruct (fo_colour_index f =? 0x7fff) eqn:E2].
      - repeat (split; [reflexivity|]). intros x. split; [auto|]. intros [H|(A & _)]; [exact H|lia].
      - repeat (split; [reflexivity|]). intros x. split; [auto|]. intros [H|(_ & A & B & _)]; [exact H|lia].
      - destruct (mark_keeps b (fo_colour_index f)) as (M1 & M2 & M3 & M4). repeat (split; [assumption|]). intros x. rewrite mark_used.
        split; [intros [H|[-> H]]; [auto|]|intros [H|(_ & <- & _ & H)]; auto]. right. repeat split; auto; lia. }
    destruct K as (K1 & K2 & K3 & K4 & K5). destruct (IH b1) as (I1 & I2 & I3 & I4 & I5). rewrite I1, I2, I3, I4. repeat (split; [assumption|]).
    intros x. rewrite I5, K5. unfold has_colour. rewrite K1. split.
    + intros [[H|H]|(g & G & H)]; [auto|right; exists f; split; [left; reflexivity|exact H]|right; exists g; split; [right; exact G|exact H]].
    + intros [H|(g & [<-|G] & H)]; [auto|left; right; exact H|right; exists g; split; [exact G|exact H]].
Qed.

Lemma palette_colours : forall cs b i b', palette_loop b i cs = Ok b' ->
  b_used b' = b_used b /\ b_styles b' = b_styles b /\ forall c, has_colour b' c <-> has_colour b c.
Proof.
  induction cs as [|c cs IH]; intros b i b' H; cbn [palette_loop] in H.
  - injection H as <-. repeat split; auto.
  - destruct (dget Z.eqb (b_colours b) (8 + i)) eqn:E; [|discriminate]. apply IH in H as (H1 & H2 & H3). split; [exact H1|]. split; [exact H2|].
    intros k. rewrite H3. unfold has_colour. cbn [b_colours with_colours with_palette]. rewrite dget_od_set. destruct (k =? 8 + i) eqn:K.
    + split; intros _; [|eexists; reflexivity]. assert (k = 8 + i) as -> by lia. eauto.
    + reflexivity.
Qed.

(** What one record does to the colours in use. *)
Lemma step_used : forall d b r b', fstep d b r = Ok b' -> (forall c, has_colour b' c <-> has_colour b c) /\
  match r with
  | RXf _ => exists x, b_xfs b' = b_xfs b ++ [x] /\
      if b_fmt b then forall c, In c (b_used b') <-> In c (b_used b) \/ (uses_colour x c /\ has_colour b c) else b_used b' = b_used b
  | _ => b_used b' = b_used b /\ b_xfs b' = b_xfs b
  end.
Proof.
  intros d b r b' H. destruct r as [data|data|data f2|data|data|data]; cbn [fstep] in H.
  - unfold handle_font in H. destruct (negb (b_fmt b)); [injection H as <-; repeat split; auto|].
    apply bind_ok in H as (f & _ & H). injection H as <-. repeat split; auto.
  - unfold handle_efont in H. destruct (negb (b_fmt b)); [injection H as <-; repeat split; auto|].
    apply bind_ok in H as (f & _ & H). apply bind_ok in H as (u & _ & H). apply bind_ok in H as (cx & _ & H).
    apply bind_ok in H as (fs & _ & H). injection H as <-. repeat split; auto.
  - unfold handle_format in H. cbv zeta in H. apply bind_ok in H as (k & _ & H). apply bind_ok in H as (s & _ & H).
    injection H as <-. repeat split; auto.
  - unfold handle_palette in H. destruct (negb (b_fmt b)); [injection H as <-; repeat split; auto|].
    apply bind_ok in H as (n & _ & H). cbv zeta in H. destruct (negb _) in H; [discriminate|].
    apply bind_ok in H as (cs & _ & H). apply bind_ok in H as (u & _ & H).
    destruct (palette_colours _ _ _ _ H) as (P1 & _ & P3). apply palette_loop_same in H. split; [exact P3|]. split; [exact P1|tauto].
  - unfold handle_style in H. destruct (negb (b_fmt b)); [injection H as <-; repeat split; auto|].
    apply bind_ok in H as (u & _ & H). apply bind_ok in H as (w & _ & H). apply bind_ok in H as (i & _ & H). apply bind_ok in H as (l & _ & H).
    cbv zeta in H. apply bind_ok in H as ((nm & e) & _ & H). injection H as <-. repeat split; auto.
  - pose proof (handle_xf_inv _ _ _ H) as (b0 & x & B0 & R & _ & _ & KC & _ & _ & _ & _ & _ & KX & _).
    split; [intros c; unfold has_colour; rewrite KC; reflexivity|].
    eexists. split; [exact KX|]. unfold handle_xf in H. rewrite <- B0 in H.
    assert (S0 : b_fmt b0 = b_fmt b /\ b_colours b0 = b_colours b /\ b_used b0 = b_used b /\ b_bv b0 = b_bv b /\ b_xfs b0 = b_xfs b).
    { rewrite B0. destruct (_ && _); repeat split. }
    destruct S0 as (S1 & S2 & S3 & S4 & S5). rewrite S4, S5, R, bind_Ok in H. cbv zeta in H. injection H as <-. cbn [b_used with_xfcount with_xfs with_xftype].
    rewrite S1. destruct (b_fmt b); [|exact S3]. destruct (marks (xf_colours x) b0) as (_ & _ & _ & _ & M). intros c. rewrite M, S3.
    unfold has_colour. rewrite S2, uses_xf_colours. clear. destruct (dget _ (b_formats b0) _); reflexivity.
Qed.

Lemma used_run : forall bv rs b0 b, fbook0 bv true = Ok b0 -> frun b0 rs = Ok b ->
  (forall c, has_colour b c <-> has_colour b0 c) /\
  (forall c, In c (b_used b) <-> has_colour b0 c /\ exists x, In x (b_xfs b) /\ uses_colour x c).
Proof.
  intros bv rs b0 b F0. revert b. induction rs as [|[d r] rs IH] using rev_ind; intros b H.
  - injection H as <-. split; [reflexivity|]. unfold fbook0 in F0. apply bind_ok in F0 as (m & _ & F0). injection F0 as <-. cbn.
    intros c. split; [intros []|intros (_ & x & [] & _)].
  - apply frun_snoc in H as (b1 & R & S). destruct (IH _ R) as [I1 I2]. destruct (step_used _ _ _ _ S) as [S1 S2].
    split; [intros c; rewrite S1; apply I1|]. assert (FM : b_fmt b1 = true).
    { rewrite (proj2 (frun_bv _ _ _ R)). unfold fbook0 in F0. apply bind_ok in F0 as (m & _ & F0). injection F0 as <-. reflexivity. }
    intros c. destruct r; try (destruct S2 as [-> ->]; apply I2). destruct S2 as (x & -> & S2). rewrite FM in S2. rewrite S2, I2, I1. split.
    + intros [(H & y & Y & U)|[U H]]; (split; [exact H|]); [exists y|exists x]; (split; [|exact U]); apply in_or_app; cbn; auto.
    + intros (H & y & Y & U). apply in_app_or in Y as [Y|[<-|[]]]; [left|right; auto]. split; [exact H|]. eauto.
Qed.

Lemma In_znth : forall {A} (l : list A) x, In x l <-> exists i, znth l i = Some x.
Proof.
  intros A l x. split.
  - intros H. apply in_split in H as (p & q & ->). exists (zlen p). rewrite znth_app_r, Z.sub_diag by lia. reflexivity.
  - intros (i & H). unfold znth in H. destruct (i <? 0); [discriminate|]. exact (nth_error_In _ _ H).
Qed.

Lemma uses_conform : forall fmt n x c, uses_colour (conform fmt n x) c <-> uses_colour x c.
Proof. intros fmt n x c. unfold conform. repeat match goal with |- context [if ?e then _ else _] => destruct e end; reflexivity. Qed.

(** What the end of the globals leaves. *)
Definition finished (f : fbook) : fbook := palette_epilogue (xf_epilogue f).

Lemma finished_keeps : forall f, b_fonts (finished f) = b_fonts f /\ b_styles (finished f) = b_styles f /\ b_colours (finished f) = b_colours f /\
  b_xfs (finished f) = map (conform (b_fmt f) (zlen (b_xfs f))) (b_xfs f).
Proof.
  intros f. unfold finished, palette_epilogue. destruct (epilogue_marks (b_fonts (xf_epilogue f)) (xf_epilogue f)) as (K1 & K2 & K3 & K4 & _).
  rewrite K1, K2, K3, K4. repeat split.
Qed.

(** colour_indexes_used has the indexes of colour_map that some XF uses for a border or
    the background, or some font (not the placeholder) for its text; the special index
    0x7fff (automatic text colour) does not count for fonts. *)
Theorem c87_used : forall bv rs b0 f, fbook0 bv true = Ok b0 -> frun b0 rs = Ok f ->
  let b := finished f in
  (forall c, has_colour b c <-> has_colour b0 c) /\
  forall c, In c (b_used b) <-> has_colour b c /\
    ((exists x, In x (b_xfs b) /\ uses_colour x c) \/
     (exists i t, znth (b_fonts b) i = Some t /\ i <> 4 /\ fo_colour_index t = c /\ c <> 0x7fff)).
Proof.
  intros bv rs b0 f F0 R b. destruct (used_run _ _ _ _ F0 R) as [U1 U2]. destruct (finished_keeps f) as (K1 & K2 & K3 & K4). fold b in K1, K2, K3, K4.
  assert (HC : forall c, has_colour b c <-> has_colour b0 c) by (intros c; rewrite <- U1; unfold has_colour; rewrite K3; reflexivity).
  split; [exact HC|]. intros c. rewrite HC. destruct (epilogue_marks (b_fonts (xf_epilogue f)) (xf_epilogue f)) as (_ & _ & _ & _ & M).
  unfold b at 1, finished, palette_epilogue. rewrite M. change (b_used (xf_epilogue f)) with (b_used f). change (b_fonts (xf_epilogue f)) with (b_fonts f).
  assert (HF : has_colour (xf_epilogue f) c <-> has_colour b0 c) by (rewrite <- U1; reflexivity). rewrite U2, K1, K4.
  assert (FI : forall i t, znth (b_fonts f) i = Some t -> fo_index t = i) by exact (proj1 (proj2 (c58_fonts _ _ _ _ F0 R))).
  split.
  - intros [(H & x & X & U)|(t & T & NI & CI & N7 & H)]; (split; [first [exact H|apply HF; exact H]|]).
    + left. exists (conform (b_fmt f) (zlen (b_xfs f)) x). split; [apply in_map; exact X|]. apply uses_conform. exact U.
    + right. apply In_znth in T as (i & T). exists i, t. rewrite (FI _ _ T) in NI. auto.
  - intros [H [(x & X & U)|(i & t & T & NI & CI & N7)]].
    + left. apply in_map_iff in X as (y & <- & Y). split; [exact H|]. exists y. split; [exact Y|]. apply uses_conform in U. exact U.
    + right. exists t. split; [apply In_znth; eauto|]. rewrite (FI _ _ T). apply HF in H. auto.
Qed.
Print Assumptions c87_used.

(** Without formatting information there are none. *)
Theorem c87_no_formatting : forall bv rs b0 f, fbook0 bv false = Ok b0 -> frun b0 rs = Ok f -> b_used (finished f) = [].
Proof.
  intros bv rs b0 f F0 R. assert (FM : b_fmt b0 = false /\ b_used b0 = []).
  { unfold fbook0 in F0. cbn [bind] in F0. injection F0 as <-. split; reflexivity. }
  destruct FM as [FM UM]. assert (U : b_used f = []).
  { revert f R. induction rs as [|[d r] rs IH] using rev_ind; intros f R; [injection R as <-; exact UM|]. apply frun_snoc in R as (b1 & R & S).
    pose proof (IH _ R) as I. destruct (step_used _ _ _ _ S) as [_ S2]. destruct r; try (rewrite (proj1 S2); exact I).
    destruct S2 as (x & _ & S2). rewrite (proj2 (frun_bv _ _ _ R)), FM in S2. congruence. }
  unfold finished, palette_epilogue. change (b_fonts (xf_epilogue f)) with (b_fonts f). rewrite (c58_no_formatting _ _ _ _ F0 R). exact U.
Qed.
Print Assumptions c87_no_formatting.

(** An XF with a red left border, a font in colour 12. *)
Example c87_case :
  match (do b0 <- fbook0 80 true; frun b0 [(fun s => Ok s, RFont [200; 0; 0; 0; 12; 0; 144; 1; 0; 0; 0; 0; 0; 0; 1; 0; 65]);
           (fun s => Ok s, RXf [0; 0; 0; 0; 0; 0; 0; 0; 0; 0; 1; 0; 10; 0; 0; 0; 0; 0; 65; 32])]) with
  | Ok f => In 10 (b_used (finished f)) /\ In 12 (b_used (finished f)) /\ ~ In 11 (b_used (finished f))
  | Err _ => False
  end.
Proof. vm_compute. intuition discriminate. Qed.

(** ** C88: style_name_map *)

(** The names of the built-in styles; those of outline levels carry the level. *)
Definition built_in_name (id level : Z) : option (list Z) :=
  if id =? 0 then Some (s2l "Normal")
  else if id =? 1 then Some (s2l "RowLevel_" ++ fmt_d (level + 1))
  else if id =? 2 then Some (s2l "ColLevel_" ++ fmt_d (level + 1))
  else if id =? 3 then Some (s2l "Comma")
  else if id =? 4 then Some (s2l "Currency")
  else if id =? 5 then Some (s2l "Percent")
  else if id =? 6 then Some (s2l "Comma [0]")
  else if id =? 7 then Some (s2l "Currency [0]")
  else if id =? 8 then Some (s2l "Hyperlink")
  else if id =? 9 then Some (s2l "Followed Hyperlink")
  else None.

(** A STYLE record gives a style its name, says whether it is built in, and where its XF is.
    [normal]: a style "Normal" is already there. *)
Inductive style_says (bv : Z) (dec : decoder) (d : list Z) (normal : bool) : list Z -> Z * Z -> Prop :=
  | S_built_in : forall name, bytes d -> 4 <= zlen d -> bits d 15 1 = 1 -> built_in_name (bits d 16 8) (bits d 24 8) = Some name ->
      style_says bv dec d normal name (1, bits d 0 12)
  | S_user : forall name fixed tail, bytes d -> 4 <= zlen d -> bits d 15 1 = 0 -> (d = [0; 0; 0; 0] -> normal = true) ->
      d = fixed ++ tail -> zlen fixed = 2 -> string_at bv dec 2 tail name ->
      style_says bv dec d normal name (0, bits d 0 12)
  | S_faulty : d = [0; 0; 0; 0] -> normal = false -> style_says bv dec d normal (s2l "Normal") (1, 0).

(** The styles of the records in order. *)
Inductive styles (bv : Z) : files -> list (list Z * (Z * Z)) -> Prop :=
  | Y_none : styles bv [] []
  | Y_other : forall rs d r l, styles bv rs l -> (forall data, r <> RStyle data) -> styles bv (rs ++ [(d, r)]) l
  | Y_style : forall rs dec d l name e normal, styles bv rs l -> (normal = true <-> In (s2l "Normal") (map fst l)) ->
      style_says bv dec d normal name e -> styles bv (rs ++ [(dec, RStyle d)]) (l ++ [(name, e)]).

Lemma built_in_read : forall id level name, 0 <= id -> built_in_name id level = Some name ->
  (do name <- py_index built_in_style_names id; Ok (if (1 <=? id) && (id <=? 2) then name ++ fmt_d (level + 1) else name)) = Ok name.
Proof.
  intros id level name I H. unfold built_in_name in H.
  repeat match type of H with (if ?a =? ?b then _ else _) = _ => let E := fresh in destruct (a =? b) eqn:E;
    [assert (a = b) as -> by lia; injection H as <-; reflexivity|] end. discriminate.
Qed.

Lemma mask12 : forall d, bytes d -> 2 <= zlen d -> Z.land (bits d 0 16) 0x0fff = bits d 0 12.
Proof.
  intros d B L. change 0x0fff with (Z.ones 12). rewrite Z.land_ones by lia. unfold bits. change (2 ^ 0) with 1. rewrite Z.div_1_r.
  change (2 ^ 12) with 4096. change (2 ^ 16) with 65536. lia.
Qed.

Lemma bit15 : forall d, bytes d -> 2 <= zlen d -> Z.testbit (bits d 0 16) 15 = (bits d 15 1 =? 1).
Proof.
  intros d B L. unfold bits. rewrite Z.mod_pow2_bits_low by lia. rewrite Z.div_pow2_bits by lia. change (15 + 0) with 15.
  change (2 ^ 1) with 2. rewrite Z.testbit_odd, Z.shiftr_div_pow2 by lia. rewrite Zmod_odd. destruct (Z.odd _); reflexivity.
Qed.

Lemma style_read : forall bv dec d name e b, b_fmt b = true -> b_bv b = bv ->
  style_says bv dec d (match dget list_eqb (b_styles b) (s2l "Normal") with None => false | Some _ => true end) name e ->
  handle_style dec b d = Ok (with_styles b (dset (b_styles b) name e)).
Proof.
  intros bv dec d name e b F V H. unfold handle_style. rewrite F. cbn [negb].
  assert (D0 : d = [0; 0; 0; 0] -> list_eqb d [0; 0; 0; 0] = true) by (intros ->; reflexivity).
  assert (D1 : d <> [0; 0; 0; 0] -> list_eqb d [0; 0; 0; 0] = false).
  { intros X. destruct (list_eqb d [0; 0; 0; 0]) eqn:E; [|reflexivity]. apply list_eqb_eq in E. contradiction. }
  destruct H as [name B L B15 BN|name fixed tail B L B15 NF ED LF S| -> NN].
  - rewrite need_ok, bind_Ok by lia. rewrite u16_ok, bind_Ok by (assumption || lia). rewrite !u8_ok, !bind_Ok by (assumption || lia). cbv zeta.
    change (8 * 0) with 0. change (8 * 2) with 16. change (8 * 3) with 24.
    assert (D : d <> [0; 0; 0; 0]) by (intros ->; discriminate B15). rewrite (D1 D). cbn [andb].
    rewrite bit15, B15, mask12 by (assumption || lia). change (1 =? 1) with true. cbv iota.
    assert (0 <= bits d 16 8) as NN by (unfold bits; apply Z.mod_pos_bound; lia).
    pose proof (built_in_read _ _ _ NN BN) as Q. apply bind_ok in Q as (nm & Q1 & Q2). injection Q2 as Q2. rewrite Q1, bind_Ok. rewrite Q2. reflexivity.
  - rewrite need_ok, bind_Ok by lia. rewrite u16_ok, bind_Ok by (assumption || lia). rewrite !u8_ok, !bind_Ok by (assumption || lia). cbv zeta.
    change (8 * 0) with 0. change (8 * 2) with 16. change (8 * 3) with 24.
    assert (X : list_eqb d [0; 0; 0; 0] && match dget list_eqb (b_styles b) (s2l "Normal") with None => true | Some _ => false end = false).
    { destruct (list_eqb d [0; 0; 0; 0]) eqn:E; [|reflexivity]. apply list_eqb_eq in E. specialize (NF E). destruct (dget _ _ _); [reflexivity|discriminate]. }
    rewrite X. rewrite bit15, B15, mask12 by (assumption || lia). change (0 =? 1) with false. cbv iota.
    pose proof (string_read bv dec 2 d fixed tail name B ED S (or_intror eq_refl)) as N. rewrite LF in N. change (Z.of_nat 2) with 2 in N. rewrite V.
    destruct (bv >=? 80); rewrite N, !bind_Ok; reflexivity.
  - rewrite (D0 eq_refl). destruct (dget list_eqb (b_styles b) (s2l "Normal")); [discriminate|]. reflexivity.
Qed.

Lemma styles_run : forall bv rs l, styles bv rs l -> forall b0 b, fbook0 bv true = Ok b0 -> frun b0 rs = Ok b -> b_styles b = rev l.
Proof.
  intros bv rs l H. induction H as [|rs d r l H IH N|rs dec d l name e normal H IH NM S]; intros b0 b F0 R.
  - injection R as <-. unfold fbook0 in F0. apply bind_ok in F0 as (m & _ & F0). injection F0 as <-. reflexivity.
  - apply frun_snoc in R as (b1 & R & S). rewrite <- (IH _ _ F0 R). clear IH. destruct r as [data|data|data f2|data|data|data]; cbn [fstep] in S.
    + unfold handle_font in S. destruct (negb (b_fmt b1)); [injection S as <-; reflexivity|]. apply bind_ok in S as (f & _ & S). injection S as <-. reflexivity.
    + unfold handle_efont in S. destruct (negb (b_fmt b1)); [injection S as <-; reflexivity|].
      apply bind_ok in S as (f & _ & S). apply bind_ok in S as (u & _ & S). apply bind_ok in S as (cx & _ & S). apply bind_ok in S as (fs & _ & S). injection S as <-. reflexivity.
    + unfold handle_format in S. cbv zeta in S. apply bind_ok in S as (k & _ & S). apply bind_ok in S as (s & _ & S). injection S as <-. reflexivity.
    + unfold handle_palette in S. destruct (negb (b_fmt b1)); [injection S as <-; reflexivity|].
      apply bind_ok in S as (n & _ & S). cbv zeta in S. destruct (negb _) in S; [discriminate|].
      apply bind_ok in S as (cs & _ & S). apply bind_ok in S as (u & _ & S). apply palette_colours in S. tauto.
    + exfalso. exact (N _ eq_refl).
    + apply handle_xf_inv in S as (b2 & x & S). tauto.
  - apply frun_snoc in R as (b1 & R & T). pose proof (IH _ _ F0 R) as E. cbn [fstep] in T.
    assert (BF : b_bv b1 = bv /\ b_fmt b1 = true).
    { destruct (frun_bv _ _ _ R) as [-> ->]. unfold fbook0 in F0. apply bind_ok in F0 as (m & _ & F0). injection F0 as <-. split; reflexivity. }
    destruct BF as [BV BF].
    assert (NQ : normal = match dget list_eqb (b_styles b1) (s2l "Normal") with None => false | Some _ => true end).
    { rewrite E. assert (X : forall m : list (list Z * (Z * Z)), match dget list_eqb m (s2l "Normal") with None => false | Some _ => true end = true <-> In (s2l "Normal") (map fst m)).
      { clear. induction m as [|[k v] m IH]; [split; [discriminate|intros []]|]. cbn [dget map fst In].
        destruct (list_eqb (s2l "Normal") k) eqn:E; [apply list_eqb_eq in E; split; auto|]. rewrite IH.
        split; [auto|]. intros [->|H]; [rewrite list_eqb_refl in E; discriminate|exact H]. }
      specialize (X (rev l)). rewrite map_rev, <- in_rev in X. destruct normal, (match dget _ _ _ with None => _ | _ => _ end); auto; exfalso.
      - assert (false = true) by tauto. discriminate.
      - assert (false = true) by tauto. discriminate. }
    rewrite NQ in S. rewrite (style_read _ _ _ _ _ _ BF BV S) in T. injection T as <-. cbn [b_styles with_styles]. rewrite E, rev_unit. reflexivity.
Qed.

Lemma last_wins : forall (l : list (list Z * (Z * Z))) name e,
  dget list_eqb (rev l) name = Some e <-> exists p q, l = p ++ (name, e) :: q /\ ~ In name (map fst q).
Proof.
  induction l as [|[k v] l IH] using rev_ind; intros name e.
  - split; [discriminate|]. intros ([|? ?] & q & H & _); discriminate.
  - rewrite rev_unit. cbn [dget]. destruct (list_eqb name k) eqn:E.
    + apply list_eqb_eq in E. subst k. split.
      * intros H. injection H as ->. exists l, []. split; [reflexivity|intros []].
      * intros (p & q & H & N). apply snoc_split in H as [(-> & -> & H)|(q' & -> & H)]; [injection H as ->; reflexivity|].
        exfalso. apply N. rewrite map_app. apply in_or_app. right. left. reflexivity.
    + rewrite IH. split.
      * intros (p & q & -> & N). exists p, (q ++ [(k, v)]). split; [rewrite <- app_assoc; reflexivity|]. rewrite map_app. intros H.
        apply in_app_or in H as [H|[H|[]]]; [exact (N H)|]. cbn [fst] in H. subst k. rewrite list_eqb_refl in E. discriminate.
      * intros (p & q & H & N). apply snoc_split in H as [(-> & -> & H)|(q' & -> & H)]; [injection H as <- <-; rewrite list_eqb_refl in E; discriminate|].
        exists p, q'. split; [exact H|]. intros X. apply N. rewrite map_app. apply in_or_app. left. exact X.
Qed.

(** style_name_map has the styles of the STYLE records; of two with one name, the later. *)
Theorem c88_styles : forall bv rs l b0 b, fbook0 bv true = Ok b0 -> frun b0 rs = Ok b -> styles bv rs l ->
  forall name e, dget list_eqb (b_styles b) name = Some e <-> exists p q, l = p ++ (name, e) :: q /\ ~ In name (map fst q).
Proof. intros bv rs l b0 b F0 R S name e. rewrite (styles_run _ _ _ S _ _ F0 R). apply last_wins. Qed.
Print Assumptions c88_styles.

(** A faulty record for Normal, an outline level, a style "A" of the user, Normal again. *)
Example c88_case :
  let ok := fun s => Ok s in
  let rs := [(ok, RStyle [0; 0; 0; 0]); (ok, RStyle [5; 0x80; 1; 2]); (ok, RStyle [7; 0; 1; 0; 0; 65]); (ok, RStyle [9; 0x80; 0; 0])] in
  styles 80 rs [(s2l "Normal", (1, 0)); (s2l "RowLevel_3", (1, 5)); (s2l "A", (0, 7)); (s2l "Normal", (1, 9))] /\
  match (do b0 <- fbook0 80 true; frun b0 rs) with
  | Ok b => map (dget list_eqb (b_styles b)) [s2l "Normal"; s2l "RowLevel_3"; s2l "A"; s2l "B"] = [Some (1, 9); Some (1, 5); Some (0, 7); None]
  | Err _ => False
  end.
Proof.
  cbv zeta. split; [|vm_compute; reflexivity]. set (ok := fun s : list Z => @Ok (list Z) s).
  assert (Y1 : styles 80 [(ok, RStyle [0; 0; 0; 0])] [(s2l "Normal", (1, 0))]).
  { apply (Y_style 80 [] ok [0; 0; 0; 0] [] (s2l "Normal") (1, 0) false); [apply Y_none|split; [discriminate|intros []]|apply S_faulty; reflexivity]. }
  assert (Y2 : styles 80 [(ok, RStyle [0; 0; 0; 0]); (ok, RStyle [5; 0x80; 1; 2])] [(s2l "Normal", (1, 0)); (s2l "RowLevel_3", (1, 5))]).
  { apply (Y_style 80 _ ok [5; 0x80; 1; 2] _ (s2l "RowLevel_3") (1, 5) true Y1); [split; [left; reflexivity|reflexivity]|].
    apply (S_built_in 80 ok [5; 0x80; 1; 2] true); [repeat constructor; discriminate|discriminate|reflexivity|reflexivity]. }
  assert (Y3 : styles 80 [(ok, RStyle [0; 0; 0; 0]); (ok, RStyle [5; 0x80; 1; 2]); (ok, RStyle [7; 0; 1; 0; 0; 65])]
    [(s2l "Normal", (1, 0)); (s2l "RowLevel_3", (1, 5)); (s2l "A", (0, 7))]).
  { apply (Y_style 80 _ ok [7; 0; 1; 0; 0; 65] _ (s2l "A") (0, 7) true Y2); [split; [left; reflexivity|reflexivity]|].
    apply (S_user 80 ok [7; 0; 1; 0; 0; 65] true (s2l "A") [7; 0] [1; 0; 0; 65]); try reflexivity; try discriminate; [repeat constructor; discriminate|].
    right. exists {| us_text := [65]; us_wide := false; us_opts := 0; us_runs := None; us_phon := None |}, []. split; [reflexivity|].
    split; [|split; reflexivity]. unfold us_ok. cbn [us_text us_wide us_opts us_runs us_phon]. repeat split; try reflexivity; repeat constructor; discriminate. }
  apply (Y_style 80 _ ok [9; 0x80; 0; 0] _ (s2l "Normal") (1, 9) true Y3); [split; [left; reflexivity|reflexivity]|].
  apply (S_built_in 80 ok [9; 0x80; 0; 0] true); [repeat constructor; discriminate|discriminate|reflexivity|reflexivity].
Qed.

(** A STYLE record for a built-in style that the reader does not know stops it, though
    without formatting information it does no harm. *)
Theorem c88_unknown_built_in : forall dec b d, bytes d -> 4 <= zlen d -> bits d 15 1 = 1 -> 10 <= bits d 16 8 ->
  fstep dec b (RStyle d) = if b_fmt b then Err IndexError else Ok b.
Proof.
  intros dec b d B L B15 I. cbn [fstep]. unfold handle_style. destruct (b_fmt b); cbn [negb]; [|reflexivity].
  rewrite need_ok, bind_Ok by lia. rewrite u16_ok, bind_Ok by (assumption || lia). rewrite !u8_ok, !bind_Ok by (assumption || lia). cbv zeta.
  change (8 * 0) with 0. change (8 * 2) with 16. change (8 * 3) with 24.
  assert (list_eqb d [0; 0; 0; 0] = false) as ->.
  { destruct (list_eqb d [0; 0; 0; 0]) eqn:E; [|reflexivity]. apply list_eqb_eq in E. subst d. discriminate B15. }
  cbn [andb]. rewrite bit15, B15 by (assumption || lia). change (1 =? 1) with true. cbv iota.
  assert (py_index built_in_style_names (bits d 16 8) = Err IndexError) as ->; [|reflexivity].
  unfold py_index. replace (bits d 16 8 <? 0) with false by lia. destruct (znth built_in_style_names (bits d 16 8)) as [x|] eqn:E; [|reflexivity].
  exfalso. apply znth_Some_range in E. change (zlen built_in_style_names) with 10 in E. lia.
Qed.
Print Assumptions c88_unknown_built_in.

(** ** Opened workbooks *)

Lemma formatting_no_efont : forall codec bv ov cp rs fs, formatting codec bv ov cp rs fs -> forall d e, ~ In (d, REfont e) fs.
Proof.
  intros codec bv ov cp rs fs H. induction H as [|? ? ? ? ? ? ? IH|cp rc data r e rs fs X EE H IH|? ? ? ? ? ? ? ? IH]; intros d x I; try (exact (IH _ _ I)); [destruct I|].
  destruct I as [I|I]; [|exact (IH _ _ I)]. injection I as <- ->. unfold frec in X.
  repeat match type of X with (if ?c then _ else _) = _ => destruct c end; discriminate.
Qed.

Lemma efont_none : forall q, (forall d e, ~ In (d, REfont e) q) -> efont q None = None.
Proof.
  induction q as [|[d r] q IH]; intros H; [reflexivity|]. assert (I : forall d e, ~ In (d, REfont e) q) by (intros d0 e X; exact (H d0 e (or_intror X))).
  destruct r; cbn [efont]; auto. exfalso. exact (H _ _ (or_introl eq_refl)).
Qed.

Section Opened.
Context {N : Type}.
Variable codec : list Z -> list Z -> result (list Z).
Variable ops : numops N.
Variable lower : list Z -> list Z.
Variable num8 : list Z -> N.
Variable rk : list Z -> result N.
Variable ragged : bool.
Notation loaded := (loaded (N := N)).
Notation api := (api (N := N)).
Notation book := (book N loaded).
Variable old : book -> list Z -> Z -> list Z -> Z -> result (shared * loaded).
Notation history := (history codec num8 rk ragged old).
Notation open_stream := (open_stream codec ops lower num8 rk ragged old).

Definition font_list (a : api) : list font := b_fonts (bk_fmt (a_book a)).
Definition xf_list (a : api) : list xf := b_xfs (bk_fmt (a_book a)).
Definition colour_map (a : api) (c : Z) : option (option rgb) := dget Z.eqb (b_colours (bk_fmt (a_book a))) c.
Definition colour_indexes_used (a : api) : list Z := b_used (bk_fmt (a_book a)).
Definition style_name_map (a : api) (name : list Z) : option (Z * Z) := dget list_eqb (b_styles (bk_fmt (a_book a))) name.
Definition format_map (a : api) (k : Z) : option format := dget Z.eqb (b_formats (bk_fmt (a_book a))) k.

(** In a workbook opened with formatting_info: *)
Theorem c86_book : forall fuel mem base bv rs override on_demand a es h fs,
  workbook mem base bv rs -> 50 <= bv -> lists codec bv override None rs es -> formatting codec bv override None rs fs ->
  open_stream fuel mem base override true on_demand = Ok a ->
  let fonts := font_list (snd (history a h)) in
  zlen fonts = (let n := zlen (font_records fs) in if n <=? 4 then n else n + 1) /\
  forall p dec d name q, fs = p ++ (dec, RFont d) :: q -> font_record bv dec d name ->
    let i := place (zlen (font_records p)) in znth fonts i = Some (font_of bv d name None i).
Proof.
  intros fuel mem base bv rs ov od a es h fs W V L FS H fonts.
  destruct (opened_formatting codec ops lower num8 rk ragged old _ _ _ _ _ _ _ _ _ _ h _ W V L H FS) as (f0 & f & F0 & R & E).
  assert (K : fonts = b_fonts f) by (subst fonts; unfold font_list; rewrite E; apply finished_keeps). rewrite K.
  split; [exact (proj1 (c58_fonts _ _ _ _ F0 R))|]. intros p dec d name q -> FR i.
  pose proof (c86_fonts _ _ _ _ _ _ _ _ F0 R FR) as X. cbv zeta in X. rewrite efont_none in X; [exact X|].
  intros d0 e I. apply (formatting_no_efont _ _ _ _ _ _ FS d0 e). apply in_or_app. right. right. exact I.
Qed.

Theorem c87_book : forall fuel mem base bv rs override on_demand a es h fs,
  workbook mem base bv rs -> 50 <= bv -> lists codec bv override None rs es -> formatting codec bv override None rs fs ->
  open_stream fuel mem base override true on_demand = Ok a ->
  let a' := snd (history a h) in
  forall c, In c (colour_indexes_used a') <-> (exists v, colour_map a' c = Some v) /\
    ((exists i x, znth (xf_list a') i = Some x /\ uses_colour x c) \/
     (exists i t, znth (font_list a') i = Some t /\ i <> 4 /\ fo_colour_index t = c /\ c <> 0x7fff)).
Proof.
  intros fuel mem base bv rs ov od a es h fs W V L FS H a' c.
  destruct (opened_formatting codec ops lower num8 rk ragged old _ _ _ _ _ _ _ _ _ _ h _ W V L H FS) as (f0 & f & F0 & R & E).
  unfold colour_indexes_used, colour_map, xf_list, font_list. subst a'. rewrite E. fold (finished f).
  destruct (c87_used _ _ _ _ F0 R) as [_ K]. rewrite K. fold (has_colour (finished f) c).
  assert (X : (exists x, In x (b_xfs (finished f)) /\ uses_colour x c) <-> (exists i x, znth (b_xfs (finished f)) i = Some x /\ uses_colour x c)).
  { split; [intros (x & I & U); apply In_znth in I as (i & I); eauto|intros (i & x & I & U); exists x; split; [apply In_znth; eauto|exact U]]. }
  rewrite X. reflexivity.
Qed.

Theorem c88_book : forall fuel mem base bv rs override on_demand a es h fs l,
  workbook mem base bv rs -> 50 <= bv -> lists codec bv override None rs es -> formatting codec bv override None rs fs ->
  open_stream fuel mem base override true on_demand = Ok a -> styles bv fs l ->
  forall name e, style_name_map (snd (history a h)) name = Some e <-> exists p q, l = p ++ (name, e) :: q /\ ~ In name (map fst q).
Proof.
  intros fuel mem base bv rs ov od a es h fs l W V L FS H S name e.
  destruct (opened_formatting codec ops lower num8 rk ragged old _ _ _ _ _ _ _ _ _ _ h _ W V L H FS) as (f0 & f & F0 & R & E).
  unfold style_name_map. rewrite E. fold (finished f). destruct (finished_keeps f) as (_ & -> & _). exact (c88_styles _ _ _ _ _ F0 R S name e).
Qed.

(** Without formatting_info these are empty. *)
Theorem c86_no_formatting : forall fuel mem base bv rs override on_demand a es h fs,
  workbook mem base bv rs -> 50 <= bv -> lists codec bv override None rs es -> formatting codec bv override None rs fs ->
  open_stream fuel mem base override false on_demand = Ok a ->
  let a' := snd (history a h) in font_list a' = [] /\ colour_indexes_used a' = [].
Proof.
  intros fuel mem base bv rs ov od a es h fs W V L FS H a'.
  destruct (opened_formatting codec ops lower num8 rk ragged old _ _ _ _ _ _ _ _ _ _ h _ W V L H FS) as (f0 & f & F0 & R & E).
  unfold font_list, colour_indexes_used. subst a'. rewrite E. fold (finished f). split; [|exact (c87_no_formatting _ _ _ _ F0 R)].
  destruct (finished_keeps f) as (-> & _). exact (c58_no_formatting _ _ _ _ F0 R).
Qed.
End Opened.
Print Assumptions c86_book.
Print Assumptions c87_book.
Print Assumptions c88_book.
Print Assumptions c86_no_formatting.
