(** C52: every attribute of an XF record is read from its own bits. *)
From Verif Require Import Base BaseFacts Text Strings GridModel GridFacts SheetObjects SheetModel SheetSteps FormatModel FormatFacts BitFields.

(** *** The record layouts

    Each word of the record is a list of fields (width in bits, value), lowest
    bits first; [s1], [s2] ... are bits without a meaning.  [w1], [w2] and [w4]
    are words of one, two and four bytes. *)

Inductive word : Type := Word (size : nat) (fields : list (Z * Z)).

Definition word_ok (w : word) : Prop :=
  let 'Word n fs := w in Forall fits fs /\ total fs = 8 * Z.of_nat n.

Definition word_bytes (w : word) : list Z := let 'Word n fs := w in le_enc n (pack fs).

Definition encode (ws : list word) : list Z := flat_map word_bytes ws.

Definition flag_bits (s : Z) (f : flags) : list (Z * Z) :=
  [(2, s); (1, fl_format f); (1, fl_font f); (1, fl_alignment f); (1, fl_border f); (1, fl_background f); (1, fl_protection f)].

Definition type_bits (x : xf) : list (Z * Z) :=
  [(1, pr_locked (xf_protection x)); (1, pr_hidden (xf_protection x)); (1, xf_is_style x); (1, xf_lotus x); (12, xf_parent x)].

(** BIFF8 *)
Definition layout8 (x : xf) (s1 s2 s3 s4 s5 : Z) : list word :=
  let a := xf_alignment x in let b := xf_border x in let g := xf_background x in
  [ Word 2 [(16, xf_font x)]; Word 2 [(16, xf_format_key x)];
    Word 2 (type_bits x);
    Word 1 [(3, al_hor a); (1, al_wrapped a); (3, al_vert a); (1, s1)];
    Word 1 [(8, al_rotation a)];
    Word 1 [(4, al_indent a); (1, al_shrink a); (1, s2); (2, al_direction a)];
    Word 1 (flag_bits s3 (xf_flags x));
    Word 4 [(4, bo_left_style b); (4, bo_right_style b); (4, bo_top_style b); (4, bo_bottom_style b);
            (7, bo_left_colour b); (7, bo_right_colour b); (1, bo_diag_down b); (1, bo_diag_up b)];
    Word 4 [(7, bo_top_colour b); (7, bo_bottom_colour b); (7, bo_diag_colour b); (4, bo_diag_style b); (1, s4); (6, bg_fill g)];
    Word 2 [(7, bg_pattern_colour g); (7, bg_background_colour g); (2, s5)] ].

(** Orientation codes of BIFF4 to BIFF7: horizontal, stacked, 90 degrees
    anticlockwise, 90 degrees clockwise. *)
Definition orientation (o rotation : Z) : Prop :=
  (o = 0 /\ rotation = 0) \/ (o = 1 /\ rotation = 255) \/ (o = 2 /\ rotation = 90) \/ (o = 3 /\ rotation = 180).

(** The attributes that only BIFF8 has. *)
Definition no_biff8 (x : xf) : Prop :=
  let a := xf_alignment x in let b := xf_border x in
  al_indent a = 0 /\ al_shrink a = 0 /\ al_direction a = 0 /\
  bo_diag_style b = 0 /\ bo_diag_colour b = 0 /\ bo_diag_down b = 0 /\ bo_diag_up b = 0.

(** BIFF5 and BIFF7 *)
Definition layout5 (x : xf) (o s1 s2 s3 : Z) : list word :=
  let a := xf_alignment x in let b := xf_border x in let g := xf_background x in let f := xf_flags x in
  [ Word 2 [(16, xf_font x)]; Word 2 [(16, xf_format_key x)];
    Word 2 (type_bits x);
    Word 1 [(3, al_hor a); (1, al_wrapped a); (3, al_vert a); (1, s1)];
    Word 1 (flag_bits o f);
    Word 4 [(7, bg_pattern_colour g); (7, bg_background_colour g); (2, s2); (6, bg_fill g);
            (3, bo_bottom_style b); (7, bo_bottom_colour b)];
    Word 4 [(3, bo_top_style b); (3, bo_left_style b); (3, bo_right_style b);
            (7, bo_top_colour b); (7, bo_left_colour b); (7, bo_right_colour b); (2, s3)] ].

Definition background_word (g : background) : word :=
  Word 2 [(6, bg_fill g); (5, bg_pattern_colour g); (5, bg_background_colour g)].

Definition border_word (b : border) : word :=
  Word 4 [(3, bo_top_style b); (5, bo_top_colour b); (3, bo_left_style b); (5, bo_left_colour b);
          (3, bo_bottom_style b); (5, bo_bottom_colour b); (3, bo_right_style b); (5, bo_right_colour b)].

(** BIFF4 *)
Definition layout4 (x : xf) (o s1 : Z) : list word :=
  let a := xf_alignment x in
  [ Word 1 [(8, xf_font x)]; Word 1 [(8, xf_format_key x)];
    Word 2 (type_bits x);
    Word 1 [(3, al_hor a); (1, al_wrapped a); (2, al_vert a); (2, o)];
    Word 1 (flag_bits s1 (xf_flags x));
    background_word (xf_background x); border_word (xf_border x) ].

(** BIFF3: text is at the bottom of the cell and horizontal. *)
Definition layout3 (x : xf) (s1 s2 : Z) : list word :=
  let a := xf_alignment x in
  [ Word 1 [(8, xf_font x)]; Word 1 [(8, xf_format_key x)];
    Word 1 [(1, pr_locked (xf_protection x)); (1, pr_hidden (xf_protection x)); (1, xf_is_style x); (1, xf_lotus x); (4, s1)];
    Word 1 (flag_bits s2 (xf_flags x));
    Word 2 [(3, al_hor a); (1, al_wrapped a); (12, xf_parent x)];
    background_word (xf_background x); border_word (xf_border x) ].

(** BIFF2: a border side is absent or thin black, the fill is absent or a pattern. *)
Definition side (on style colour : Z) : Prop := (on = 0 /\ style = 0 /\ colour = 0) \/ (on = 1 /\ style = 1 /\ colour = 8).

Definition layout2 (x : xf) (l r t b fill s1 : Z) : list word :=
  [ Word 1 [(8, xf_font x)]; Word 1 [(8, s1)];
    Word 1 [(6, xf_format_key x); (1, pr_locked (xf_protection x)); (1, pr_hidden (xf_protection x))];
    Word 1 [(3, al_hor (xf_alignment x)); (1, l); (1, r); (1, t); (1, b); (1, fill)] ].

(** *** Reading *)


Lemma word_at : forall ws n fs data pos rest k, At data pos (encode (Word n fs :: ws) ++ rest) ->
  Forall word_ok (Word n fs :: ws) -> k = Z.of_nat n ->
  unpack_le k data pos = Ok (pack fs) /\ At data (pos + k) (encode ws ++ rest) /\ Forall fits fs /\ Forall word_ok ws.
Proof.
  intros ws n fs data pos rest k A W ->. inversion W as [|? ? FT W']; subst. destruct FT as [F T].
  assert (R := pack_range fs F). rewrite T in R.
  unfold encode in A. simpl in A. rewrite <- app_assoc in A.
  split; [|split; [|split; assumption]].
  - eapply At_le; [exact A|reflexivity|].
    replace 256 with (2 ^ 8) by reflexivity. rewrite <- Z.pow_mul_r by lia. lia.
  - eapply At_skip; [exact A|]. rewrite zlen_le_enc. reflexivity.
Qed.

Lemma encode_len : forall ws, zlen (encode ws) = fold_right (fun w n => (let 'Word k _ := w in Z.of_nat k) + n) 0 ws.
Proof.
  induction ws as [|[k fs] ws IH]; [reflexivity|]. unfold encode in *. simpl. rewrite zlen_app, zlen_le_enc, IH. reflexivity.
Qed.

Lemma xf_eta : forall x : xf, mk_xf (xf_index x) (xf_font x) (xf_format_key x) (xf_is_style x) (xf_lotus x) (xf_parent x)
  (xf_flags x) (xf_alignment x) (xf_border x) (xf_background x) (xf_protection x) = x.
Proof. destruct x; reflexivity. Qed.

Lemma one_field : forall w v, pack [(w, v)] = v.
Proof. intros. simpl. lia. Qed.

Ltac step W A E F :=
  match type of A with
  | At ?d ?p (encode (Word ?n ?fs :: ?ws) ++ ?rest) =>
      destruct (word_at ws n fs d p rest (Z.of_nat n) A W eq_refl) as (E & ? & F & ?);
      clear A W; rename H into A, H0 into W; simpl Z.of_nat in E, A; simpl (_ + _) in A
  end.

(** Equations for all words of a layout. *)
Ltac start x W A L n :=
  assert (L : n <= zlen x); [rewrite (At_len _ _ _ A), zlen_app, encode_len;
    match type of A with At _ _ (_ ++ ?extra) => pose proof (zlen_nonneg extra) end;
    cbn [fold_right Z.of_nat Pos.of_succ_nat Pos.succ]; lia|].

Ltac fields :=
  match goal with
  | F : Forall fits ?fs |- upk (pack ?fs) _ _ = _ => upk_field F
  | F : Forall fits ?fs |- read_flags (Z.shiftr (pack ?fs) 2) = _ => rewrite (read_flags_pack _ _ _ _ _ _ _ F)
  end.

Lemma signed_fields : forall fs i n mask w v, Forall fits fs -> total fs = 32 -> nth_error fs i = Some (w, v) ->
  n = total (firstn i fs) -> mask = Z.shiftl (Z.ones w) n -> n + w <= 32 -> 0 <= n -> 0 <= w ->
  upk (to_signed 32 (pack fs)) n mask = v.
Proof.
  intros fs i n mask w v F T NE N M NW N0 W0. pose proof (pack_range fs F) as R. rewrite T in R.
  rewrite upk_signed_mask with (w := w); [|exact M|exact N0|exact W0|exact NW|exact R].
  eapply upk_at; eassumption.
Qed.

Ltac sfield F :=
  first [ eapply (signed_fields _ 0 _ _ _ _ F); first [reflexivity|lia] | eapply (signed_fields _ 1 _ _ _ _ F); first [reflexivity|lia]
        | eapply (signed_fields _ 2 _ _ _ _ F); first [reflexivity|lia] | eapply (signed_fields _ 3 _ _ _ _ F); first [reflexivity|lia]
        | eapply (signed_fields _ 4 _ _ _ _ F); first [reflexivity|lia] | eapply (signed_fields _ 5 _ _ _ _ F); first [reflexivity|lia]
        | eapply (signed_fields _ 6 _ _ _ _ F); first [reflexivity|lia] ].

Ltac dest x :=
  destruct x as [xi xfo xk xst xlo xpa [f1 f2 f3 f4 f5 f6] [a1 a2 a3 a4 a5 a6 a7] [b1 b2 b3 b4 b5 b6 b7 b8 b9 b10 b11 b12] [g1 g2 g3] [p1 p2]].

Lemma read8 : forall x s1 s2 s3 s4 s5 extra data, Forall word_ok (layout8 x s1 s2 s3 s4 s5) ->
  At data 0 (encode (layout8 x s1 s2 s3 s4 s5) ++ extra) -> read_xf80 (xf_index x) data = Ok x.
Proof.
  intros x s1 s2 s3 s4 s5 extra data W A. dest x. unfold layout8, type_bits, flag_bits in W, A. cbn -[encode Z.add] in W, A.
  start data W A L 20.
  step W A E1 F1. step W A E2 F2. step W A E3 F3. step W A E4 F4. step W A E5 F5. step W A E6 F6. step W A E7 F7.
  step W A E8 F8. step W A E9 F9. step W A E10 F10.
  unfold read_xf80. rewrite need_ok by lia.
  unfold unpack_i32, unpack_u16, unpack_u32. cbn [bind].
  rewrite E1. cbn [bind]. rewrite E2. cbn [bind]. rewrite E3. cbn [bind]. rewrite E4. cbn [bind]. rewrite E5. cbn [bind].
  rewrite E6. cbn [bind]. rewrite E7. cbn [bind]. rewrite E8. cbn [bind]. rewrite E9. cbn [bind]. rewrite E10. cbn [bind].
  rewrite !one_field. cbn [xf_index].
  f_equal. f_equal; try (f_equal); try fields; try sfield F9; reflexivity.
Qed.

Ltac proj H := cbn [xf_index xf_font xf_format_key xf_is_style xf_lotus xf_parent xf_flags xf_alignment xf_border xf_background xf_protection
  al_hor al_vert al_rotation al_wrapped al_indent al_shrink al_direction bo_left_style bo_right_style bo_top_style bo_bottom_style bo_diag_style
  bo_left_colour bo_right_colour bo_top_colour bo_bottom_colour bo_diag_colour bo_diag_down bo_diag_up bg_fill bg_pattern_colour bg_background_colour
  pr_locked pr_hidden fl_format fl_font fl_alignment fl_border fl_background fl_protection] in H.

Ltac nb NB := unfold no_biff8 in NB; proj NB; destruct NB as (-> & -> & -> & -> & -> & -> & ->).

Lemma land_upk : forall x m, Z.land x m = upk x 0 m.
Proof. intros. unfold upk. rewrite Z.shiftr_0_r. reflexivity. Qed.

Lemma orient_index : forall o r, orientation o r -> py_index [0; 255; 90; 180] o = Ok r.
Proof. intros o r [[-> ->]|[[-> ->]|[[-> ->]|[-> ->]]]]; reflexivity. Qed.

Lemma read5 : forall x o s1 s2 s3 extra data, orientation o (al_rotation (xf_alignment x)) -> no_biff8 x ->
  Forall word_ok (layout5 x o s1 s2 s3) ->
  At data 0 (encode (layout5 x o s1 s2 s3) ++ extra) -> read_xf50 (xf_index x) data = Ok x.
Proof.
  intros x o s1 s2 s3 extra data O NB W A. dest x. unfold layout5, type_bits, flag_bits in W, A. cbn -[encode Z.add] in W, A.
  proj O. nb NB.
  start data W A L 16.
  step W A E1 F1. step W A E2 F2. step W A E3 F3. step W A E4 F4. step W A E5 F5. step W A E6 F6. step W A E7 F7.
  unfold read_xf50. rewrite need_ok by lia.
  unfold unpack_i32, unpack_u16, unpack_u32. cbn [bind].
  rewrite E1. cbn [bind]. rewrite E2. cbn [bind]. rewrite E3. cbn [bind]. rewrite E4. cbn [bind]. rewrite E5. cbn [bind].
  rewrite E6. cbn [bind]. rewrite E7. cbn [bind].
  rewrite land_upk. replace (upk _ 0 3) with o by (symmetry; upk_field F5).
  rewrite (orient_index _ _ O). cbn [bind].
  rewrite !one_field. cbn [xf_index].
  f_equal. f_equal; try (f_equal); try fields; try sfield F7; reflexivity.
Qed.

Lemma border34_pack : forall b, word_ok (border_word b) -> bo_diag_style b = 0 -> bo_diag_colour b = 0 -> bo_diag_down b = 0 ->
  bo_diag_up b = 0 -> border34 (let 'Word _ fs := border_word b in pack fs) = b.
Proof.
  intros b [F _]. destruct b as [b1 b2 b3 b4 b5 b6 b7 b8 b9 b10 b11 b12]. cbn [bo_diag_style bo_diag_colour bo_diag_down bo_diag_up].
  intros -> -> -> ->. unfold border_word in *. cbn [bo_left_style bo_right_style bo_top_style bo_bottom_style bo_left_colour bo_right_colour bo_top_colour bo_bottom_colour] in *.
  unfold border34. f_equal; upk_field F.
Qed.

Lemma background34_pack : forall g, word_ok (background_word g) -> background34 (let 'Word _ fs := background_word g in pack fs) = g.
Proof.
  intros g [F _]. destruct g as [g1 g2 g3]. unfold background_word in *. cbn [bg_fill bg_pattern_colour bg_background_colour] in *.
  unfold background34. f_equal; upk_field F.
Qed.

Lemma read4 : forall x o s1 extra data, orientation o (al_rotation (xf_alignment x)) -> no_biff8 x ->
  Forall word_ok (layout4 x o s1) ->
  At data 0 (encode (layout4 x o s1) ++ extra) -> read_xf40 (xf_index x) data = Ok x.
Proof.
  intros x o s1 extra data O NB W A.
  assert (WB : word_ok (border_word (xf_border x)) /\ word_ok (background_word (xf_background x))).
  { rewrite Forall_forall in W. split; apply W; simpl; tauto. }
  destruct WB as [WB WG].
  dest x. proj O. nb NB. proj WB. proj WG.
  pose proof (border34_pack _ WB eq_refl eq_refl eq_refl eq_refl) as HB. pose proof (background34_pack _ WG) as HG. cbn -[pack] in HB, HG.
  unfold layout4, type_bits, flag_bits, border_word, background_word in W, A. cbn -[encode Z.add] in W, A.
  start data W A L 12.
  step W A E1 F1. step W A E2 F2. step W A E3 F3. step W A E4 F4. step W A E5 F5. step W A E6 F6. step W A E7 F7.
  unfold read_xf40. rewrite need_ok by lia.
  unfold unpack_u16, unpack_u32. cbn [bind].
  rewrite E1. cbn [bind]. rewrite E2. cbn [bind]. rewrite E3. cbn [bind]. rewrite E4. cbn [bind]. rewrite E5. cbn [bind].
  rewrite E6. cbn [bind]. rewrite E7. cbn [bind].
  replace (Z.shiftr (Z.land _ 0xC0) 6) with o by (symmetry; match goal with |- Z.shiftr (Z.land ?p 0xC0) 6 = _ => change (upk p 6 0xC0 = o) end; upk_field F4).
  rewrite (orient_index _ _ O). cbn [bind].
  rewrite !one_field. cbn [xf_index].
  rewrite HB, HG. f_equal. f_equal; try (f_equal); try fields; reflexivity.
Qed.

Lemma read3 : forall x s1 s2 extra data, al_rotation (xf_alignment x) = 0 -> al_vert (xf_alignment x) = 2 -> no_biff8 x ->
  Forall word_ok (layout3 x s1 s2) ->
  At data 0 (encode (layout3 x s1 s2) ++ extra) -> read_xf30 (xf_index x) data = Ok x.
Proof.
  intros x s1 s2 extra data R V NB W A.
  assert (WB : word_ok (border_word (xf_border x)) /\ word_ok (background_word (xf_background x))).
  { rewrite Forall_forall in W. split; apply W; simpl; tauto. }
  destruct WB as [WB WG].
  dest x. proj R. proj V. subst. nb NB. proj WB. proj WG.
  pose proof (border34_pack _ WB eq_refl eq_refl eq_refl eq_refl) as HB. pose proof (background34_pack _ WG) as HG. cbn -[pack] in HB, HG.
  unfold layout3, flag_bits, border_word, background_word in W, A. cbn -[encode Z.add] in W, A.
  start data W A L 12.
  step W A E1 F1. step W A E2 F2. step W A E3 F3. step W A E4 F4. step W A E5 F5. step W A E6 F6. step W A E7 F7.
  unfold read_xf30. rewrite need_ok by lia.
  unfold unpack_u16, unpack_u32. cbn [bind].
  rewrite E1. cbn [bind]. rewrite E2. cbn [bind]. rewrite E3. cbn [bind]. rewrite E4. cbn [bind]. rewrite E5. cbn [bind].
  rewrite E6. cbn [bind]. rewrite E7. cbn [bind].
  rewrite !one_field. cbn [xf_index].
  rewrite HB, HG. f_equal. f_equal; try (f_equal); try fields; reflexivity.
Qed.

Lemma bit_test : forall fs i n v, Forall fits fs -> nth_error fs i = Some (1, v) -> n = total (firstn i fs) -> 0 <= n ->
  negb (Z.land (pack fs) (2 ^ n) =? 0) = (v =? 1).
Proof.
  intros fs i n v F NE N N0.
  assert (V : 0 <= v < 2).
  { apply nth_error_In in NE. rewrite Forall_forall in F. apply F in NE. destruct NE as [_ NE]. exact NE. }
  assert (U := upk_at i fs n (Z.shiftl (Z.ones 1) n) 1 v F NE N eq_refl).
  rewrite Z.shiftl_mul_pow2 in U by lia. change (Z.ones 1) with 1 in U. rewrite Z.mul_1_l in U.
  unfold upk in U.
  destruct (Z.eqb_spec (Z.land (pack fs) (2 ^ n)) 0) as [E|E].
  - rewrite E, Z.shiftr_0_l in U. subst v. reflexivity.
  - destruct (Z.eqb_spec v 1) as [|NV]; [reflexivity|]. exfalso. apply E.
    assert (V0 : v = 0) by lia. rewrite V0 in U.
    apply Z.bits_inj'. intros k K. rewrite Z.bits_0, Z.land_spec, Z.pow2_bits_eqb by lia.
    destruct (Z.eqb_spec n k) as [<-|]; [|apply Bool.andb_false_r].
    assert (T := f_equal (fun z => Z.testbit z 0) U). cbv beta in T. rewrite Z.shiftr_spec, Z.land_spec, Z.pow2_bits_eqb in T by lia.
    rewrite Z.add_0_l, Z.eqb_refl, Z.bits_0 in T. exact T.
Qed.

Lemma read2 : forall x l r t b fill s1 data,
  side l (bo_left_style (xf_border x)) (bo_left_colour (xf_border x)) ->
  side r (bo_right_style (xf_border x)) (bo_right_colour (xf_border x)) ->
  side t (bo_top_style (xf_border x)) (bo_top_colour (xf_border x)) ->
  side b (bo_bottom_style (xf_border x)) (bo_bottom_colour (xf_border x)) ->
  (fill = 0 /\ bg_fill (xf_background x) = 0) \/ (fill = 1 /\ bg_fill (xf_background x) = 17) ->
  bg_pattern_colour (xf_background x) = 8 -> bg_background_colour (xf_background x) = 9 ->
  xf_is_style x = 0 -> xf_lotus x = 0 -> xf_parent x = 0 -> xf_flags x = mk_flags 1 1 1 1 1 1 ->
  al_rotation (xf_alignment x) = 0 -> al_vert (xf_alignment x) = 2 -> al_wrapped (xf_alignment x) = 0 -> no_biff8 x ->
  Forall word_ok (layout2 x l r t b fill s1) ->
  data = encode (layout2 x l r t b fill s1) -> read_xf21 (xf_index x) data = Ok x.
Proof.
  intros x l r t b fill s1 data SL SR ST SB SF GP GB ES EL EP EF AR AV AW NB W D.
  assert (A : At data 0 (encode (layout2 x l r t b fill s1) ++ [])) by (rewrite app_nil_r, D; apply At_0).
  assert (L : zlen data = 4) by (rewrite D, encode_len; reflexivity). clear D.
  dest x. nb NB. unfold side in *. unfold layout2 in *.
  proj SL. proj SR. proj ST. proj SB. proj SF. proj GP. proj GB. proj ES. proj EL. proj EP. proj EF. proj AR. proj AV. proj AW. proj W. proj A.
  injection EF as -> -> -> -> -> ->. subst.
  step W A E1 F1. step W A E2 F2. step W A E3 F3. step W A E4 F4.
  unfold read_xf21. rewrite L. cbn [guard bind Z.eqb Pos.eqb].
  rewrite E1. cbn [bind]. rewrite E3. cbn [bind]. rewrite E4. cbn [bind]. rewrite !one_field.
  assert (B1 := bit_test _ 1 3 l F4 eq_refl eq_refl ltac:(lia)). change (2 ^ 3) with 8 in B1. rewrite B1.
  assert (B2 := bit_test _ 2 4 r F4 eq_refl eq_refl ltac:(lia)). change (2 ^ 4) with 16 in B2. rewrite B2.
  assert (B3 := bit_test _ 3 5 t F4 eq_refl eq_refl ltac:(lia)). change (2 ^ 5) with 32 in B3. rewrite B3.
  assert (B4 := bit_test _ 4 6 b F4 eq_refl eq_refl ltac:(lia)). change (2 ^ 6) with 64 in B4. rewrite B4.
  assert (B5 := bit_test _ 5 7 fill F4 eq_refl eq_refl ltac:(lia)). change (2 ^ 7) with 128 in B5. rewrite B5.
  rewrite land_upk. rewrite (upk_at 0 _ 0 0x3F _ _ F3 eq_refl eq_refl eq_refl).
  rewrite (upk_at 0 _ 0 0x07 _ _ F4 eq_refl eq_refl eq_refl).
  rewrite (upk_at 1 _ 6 0x40 _ _ F3 eq_refl eq_refl eq_refl).
  rewrite (upk_at 2 _ 7 0x80 _ _ F3 eq_refl eq_refl eq_refl).
  destruct SL as [(-> & -> & ->)|(-> & -> & ->)]; destruct SR as [(-> & -> & ->)|(-> & -> & ->)];
  destruct ST as [(-> & -> & ->)|(-> & -> & ->)]; destruct SB as [(-> & -> & ->)|(-> & -> & ->)];
  destruct SF as [(-> & ->)|(-> & ->)]; reflexivity.
Qed.

(** *** C52 *)

Definition known (b : fbook) (key : Z) : Prop := exists f, dget Z.eqb (b_formats b) key = Some f.

(** The XF [x] has been appended, with format key 0 if its own key is unknown. *)
Definition added (b b' : fbook) (x : xf) : Prop :=
  (known b' (xf_format_key x) -> b_xfs b' = b_xfs b ++ [x]) /\
  (~ known b' (xf_format_key x) -> b_xfs b' = b_xfs b ++ [set_key x 0]).

Lemma added_of_read : forall b data x, read_xf (b_bv b) (zlen (b_xfs b)) data = Ok x ->
  exists b', handle_xf b data = Ok b' /\ added b b' x.
Proof.
  intros b data x R. destruct (handle_xf_ok b data x R) as [b' H]. exists b'. split; [exact H|].
  destruct (handle_xf_inv _ _ _ H) as (b0 & x' & _ & R' & _ & _ & _ & _ & _ & F & _ & _ & X & _).
  rewrite R in R'. injection R' as <-. unfold added, known. rewrite F, X.
  destruct (dget Z.eqb (b_formats b0) (xf_format_key x)) as [f|] eqn:D.
  - split; intros K; [reflexivity|]. exfalso. apply K. exists f. reflexivity.
  - split; intros K; [|reflexivity]. destruct K as [f K]. discriminate.
Qed.

(** C52 (BIFF8): a record made from any attribute values reads back as them. *)
Theorem c52_biff8 : forall b x s1 s2 s3 s4 s5 extra, b_bv b = 80 -> xf_index x = zlen (b_xfs b) ->
  Forall word_ok (layout8 x s1 s2 s3 s4 s5) ->
  exists b', handle_xf b (encode (layout8 x s1 s2 s3 s4 s5) ++ extra) = Ok b' /\ added b b' x.
Proof.
  intros b x s1 s2 s3 s4 s5 extra BV X W. apply added_of_read. rewrite BV, <- X.
  change (read_xf 80) with read_xf80. eapply read8; [exact W|apply At_0].
Qed.
Print Assumptions c52_biff8.

(** C52 (BIFF5 and BIFF7). *)
Theorem c52_biff5 : forall b x o s1 s2 s3 extra, b_bv b = 50 \/ b_bv b = 70 -> xf_index x = zlen (b_xfs b) ->
  orientation o (al_rotation (xf_alignment x)) -> no_biff8 x -> Forall word_ok (layout5 x o s1 s2 s3) ->
  exists b', handle_xf b (encode (layout5 x o s1 s2 s3) ++ extra) = Ok b' /\ added b b' x.
Proof.
  intros b x o s1 s2 s3 extra BV X O NB W. apply added_of_read. rewrite <- X.
  replace (read_xf (b_bv b)) with read_xf50 by (destruct BV as [-> | ->]; reflexivity).
  eapply read5; [exact O|exact NB|exact W|apply At_0].
Qed.
Print Assumptions c52_biff5.

(** C52 (BIFF4, worksheet or workbook). *)
Theorem c52_biff4 : forall b x o s1 extra, b_bv b = 40 \/ b_bv b = 45 -> xf_index x = zlen (b_xfs b) ->
  orientation o (al_rotation (xf_alignment x)) -> no_biff8 x -> Forall word_ok (layout4 x o s1) ->
  exists b', handle_xf b (encode (layout4 x o s1) ++ extra) = Ok b' /\ added b b' x.
Proof.
  intros b x o s1 extra BV X O NB W. apply added_of_read. rewrite <- X.
  replace (read_xf (b_bv b)) with read_xf40 by (destruct BV as [-> | ->]; reflexivity).
  eapply read4; [exact O|exact NB|exact W|apply At_0].
Qed.
Print Assumptions c52_biff4.

(** C52 (BIFF3). *)
Theorem c52_biff3 : forall b x s1 s2 extra, b_bv b = 30 -> xf_index x = zlen (b_xfs b) ->
  al_rotation (xf_alignment x) = 0 -> al_vert (xf_alignment x) = 2 -> no_biff8 x -> Forall word_ok (layout3 x s1 s2) ->
  exists b', handle_xf b (encode (layout3 x s1 s2) ++ extra) = Ok b' /\ added b b' x.
Proof.
  intros b x s1 s2 extra BV X R V NB W. apply added_of_read. rewrite BV, <- X.
  change (read_xf 30) with read_xf30. eapply read3; [exact R|exact V|exact NB|exact W|apply At_0].
Qed.
Print Assumptions c52_biff3.

(** C52 (BIFF2). *)
Theorem c52_biff2 : forall b x l r t bo fill s1, b_bv b = 21 -> xf_index x = zlen (b_xfs b) ->
  side l (bo_left_style (xf_border x)) (bo_left_colour (xf_border x)) ->
  side r (bo_right_style (xf_border x)) (bo_right_colour (xf_border x)) ->
  side t (bo_top_style (xf_border x)) (bo_top_colour (xf_border x)) ->
  side bo (bo_bottom_style (xf_border x)) (bo_bottom_colour (xf_border x)) ->
  (fill = 0 /\ bg_fill (xf_background x) = 0) \/ (fill = 1 /\ bg_fill (xf_background x) = 17) ->
  bg_pattern_colour (xf_background x) = 8 -> bg_background_colour (xf_background x) = 9 ->
  xf_is_style x = 0 -> xf_lotus x = 0 -> xf_parent x = 0 -> xf_flags x = mk_flags 1 1 1 1 1 1 ->
  al_rotation (xf_alignment x) = 0 -> al_vert (xf_alignment x) = 2 -> al_wrapped (xf_alignment x) = 0 -> no_biff8 x ->
  Forall word_ok (layout2 x l r t bo fill s1) ->
  exists b', handle_xf b (encode (layout2 x l r t bo fill s1)) = Ok b' /\ added b b' x.
Proof.
  intros b x l r t bo fill s1 BV X SL SR ST SB SF GP GB ES EL EP EF AR AV AW NB W. apply added_of_read. rewrite BV, <- X.
  change (read_xf 21) with read_xf21. eapply read2; eauto.
Qed.
Print Assumptions c52_biff2.

(** A record of each kind meets the hypotheses. *)
Definition demo8 : xf :=
  mk_xf 0 5 14 0 1 4095 (mk_flags 1 0 1 0 1 0) (mk_alignment 7 4 90 1 9 1 2)
    (mk_border 1 2 3 4 13 64 65 66 67 68 1 1) (mk_background 63 10 9) (mk_protection 1 1).

Ltac words := repeat (apply Forall_cons || apply Forall_nil || split || (simpl; lia) || exact I).

Example c52_biff8_case : exists b b', fbook0 80 true = Ok b /\
  Forall word_ok (layout8 demo8 1 1 3 1 3) /\ handle_xf b (encode (layout8 demo8 1 1 3 1 3)) = Ok b' /\ b_xfs b' = [demo8].
Proof.
  eexists. eexists. split; [reflexivity|]. split; [words|]. split; reflexivity.
Qed.

Definition demo5 : xf :=
  mk_xf 0 5 200 1 0 4095 (mk_flags 1 0 1 0 1 0) (mk_alignment 7 4 255 1 0 0 0)
    (mk_border 1 2 3 4 0 64 65 66 67 0 0 0) (mk_background 63 10 9) (mk_protection 1 1).

Example c52_biff5_case : exists b b', fbook0 70 false = Ok b /\ orientation 1 255 /\ no_biff8 demo5 /\
  Forall word_ok (layout5 demo5 1 1 3 3) /\ handle_xf b (encode (layout5 demo5 1 1 3 3)) = Ok b' /\ b_xfs b' = [set_key demo5 0].
Proof.
  eexists. eexists. split; [reflexivity|]. split; [right; left; split; reflexivity|]. split; [repeat split|].
  split; [words|]. split; reflexivity.
Qed.

Definition demo4 : xf :=
  mk_xf 0 5 200 1 0 4095 (mk_flags 1 0 1 0 1 0) (mk_alignment 7 2 180 1 0 0 0)
    (mk_border 1 2 3 4 0 31 30 29 28 0 0 0) (mk_background 63 10 9) (mk_protection 1 1).

Example c52_biff4_case : exists b b', fbook0 40 false = Ok b /\ orientation 3 180 /\ no_biff8 demo4 /\
  Forall word_ok (layout4 demo4 3 1) /\ handle_xf b (encode (layout4 demo4 3 1)) = Ok b' /\ b_xfs b' = [set_key demo4 0].
Proof.
  eexists. eexists. split; [reflexivity|]. split; [right; right; right; split; reflexivity|]. split; [repeat split|].
  split; [words|]. split; reflexivity.
Qed.

Definition demo3 : xf :=
  mk_xf 0 5 200 1 0 4095 (mk_flags 1 0 1 0 1 0) (mk_alignment 7 2 0 1 0 0 0)
    (mk_border 1 2 3 4 0 31 30 29 28 0 0 0) (mk_background 63 10 9) (mk_protection 1 1).

Example c52_biff3_case : exists b b', fbook0 30 false = Ok b /\ no_biff8 demo3 /\
  Forall word_ok (layout3 demo3 15 1) /\ handle_xf b (encode (layout3 demo3 15 1)) = Ok b' /\ b_xfs b' = [set_key demo3 0].
Proof.
  eexists. eexists. split; [reflexivity|]. split; [repeat split|].
  split; [words|]. split; reflexivity.
Qed.

Definition demo2 : xf :=
  mk_xf 0 5 33 0 0 0 (mk_flags 1 1 1 1 1 1) (mk_alignment 7 2 0 0 0 0 0)
    (mk_border 1 0 1 0 0 8 0 8 0 0 0 0) (mk_background 17 8 9) (mk_protection 1 0).

Example c52_biff2_case : exists b b', fbook0 21 false = Ok b /\ no_biff8 demo2 /\ side 1 1 8 /\ side 0 0 0 /\
  Forall word_ok (layout2 demo2 1 0 1 0 1 255) /\ handle_xf b (encode (layout2 demo2 1 0 1 0 1 255)) = Ok b' /\
  b_xfs b' = [set_key demo2 0].
Proof.
  eexists. eexists. split; [reflexivity|]. split; [repeat split|]. split; [right; repeat split|]. split; [left; repeat split|].
  split; [words|]. split; reflexivity.
Qed.
