(** Property theorems C81-C83: the attributes of rows and columns; the view of a
    sheet; page breaks and label ranges.  As in PropView.v, [tr] lists the records
    that the reading loop of the sheet dispatches on. *)
From Verif Require Import Base BaseFacts Utf16 Strings Framing GridModel GridFacts PropGrid
  SheetObjects SheetModel SheetFacts SheetSteps PropSheet PropRead SheetTrace PropView.

(** ** Specification *)

(** The number in bits [lo] to [lo + w - 1] of a record's data, counted from the
    lowest bit of its first byte. *)
Definition bits (d : list Z) (lo w : Z) : Z := (le_val d / 2 ^ lo) mod 2 ^ w.

(** What a ROW record says. *)
Definition row_says (d : list Z) : rowinfo :=
  {| ri_height := bits d 48 15; ri_has_default_height := bits d 63 1;
     ri_outline_level := bits d 96 3; ri_outline_group := bits d 100 1; ri_hidden := bits d 101 1;
     ri_height_mismatch := bits d 102 1; ri_has_default_xf := bits d 103 1;
     ri_xf := if bits d 103 1 =? 1 then bits d 112 12 else -1;
     ri_above := bits d 124 1; ri_below := bits d 125 1 |}.

(** What a COLINFO record says. *)
Definition col_says (d : list Z) : colinfo :=
  {| ci_width := bits d 32 16; ci_xf := bits d 48 16; ci_hidden := bits d 64 1; ci_bit1 := bits d 65 1;
     ci_outline_level := bits d 72 3; ci_collapsed := bits d 76 1 |}.

(** ** Bits *)

Lemma bits_testbit : forall d lo w i, bytes d -> 0 <= lo -> 0 <= w -> lo + w <= 8 * zlen d -> 0 <= i ->
  Z.testbit (bits d lo w) i =
    if i <? w then match znth d ((lo + i) / 8) with Some b => Z.testbit b ((lo + i) mod 8) | None => false end else false.
Proof.
  intros d lo w i HB Hlo Hw HL Hi. unfold bits. destruct (i <? w) eqn:E.
  - rewrite Z.mod_pow2_bits_low by lia. rewrite Z.div_pow2_bits by lia. rewrite (Z.add_comm i lo).
    apply le_val_testbit; [exact HB|lia].
  - apply Z.mod_pow2_bits_high. lia.
Qed.

Lemma bits_u16 : forall d pos v lo w, bytes d -> unpack_u16 d pos = Ok v -> 0 <= pos -> pos + 2 <= zlen d ->
  0 <= lo -> 0 <= w -> lo + w <= 16 -> Z.land (Z.shiftr v lo) (Z.ones w) = bits d (8 * pos + lo) w.
Proof.
  intros d pos v lo w HB H Hp HL Hlo Hw Hs. apply unpack_u16_at in H. subst v. apply Z.bits_inj'. intros i Hi.
  rewrite bits_testbit by (assumption || lia). rewrite Z.land_spec, Z.shiftr_spec by lia. destruct (i <? w) eqn:E.
  - rewrite Z.ones_spec_low by lia. rewrite andb_true_r. rewrite u16_testbit by (assumption || lia).
    replace ((8 * pos + lo + i) / 8) with (pos + (i + lo) / 8) by lia.
    replace ((8 * pos + lo + i) mod 8) with ((i + lo) mod 8) by lia. reflexivity.
  - rewrite Z.ones_spec_high by lia. apply andb_false_r.
Qed.

Lemma bits_i32 : forall d pos v lo w, bytes d -> unpack_i32 d pos = Ok v -> 0 <= pos -> pos + 4 <= zlen d ->
  0 <= lo -> 0 <= w -> lo + w <= 32 -> Z.land (Z.shiftr v lo) (Z.ones w) = bits d (8 * pos + lo) w.
Proof.
  intros d pos v lo w HB H Hp HL Hlo Hw Hs. apply Z.bits_inj'. intros i Hi.
  rewrite bits_testbit by (assumption || lia). rewrite Z.land_spec, Z.shiftr_spec by lia. destruct (i <? w) eqn:E.
  - rewrite Z.ones_spec_low by lia. rewrite andb_true_r. rewrite (i32_testbit _ _ _ _ HB H) by lia.
    replace ((8 * pos + lo + i) / 8) with (pos + (i + lo) / 8) by lia.
    replace ((8 * pos + lo + i) mod 8) with ((i + lo) mod 8) by lia. reflexivity.
  - rewrite Z.ones_spec_high by lia. apply andb_false_r.
Qed.

Lemma u16_bits : forall d pos, bytes d -> 0 <= pos -> pos + 2 <= zlen d -> u16_at d pos = bits d (8 * pos) 16.
Proof.
  intros d pos HB Hp HL. destruct (unpack_u16 d pos) as [v|e] eqn:E.
  - pose proof (bits_u16 d pos v 0 16 HB E Hp HL ltac:(lia) ltac:(lia) ltac:(lia)) as H.
    rewrite Z.shiftr_0_r, Z.land_ones in H by lia. rewrite Z.add_0_r in H. rewrite <- H.
    pose proof (u16_at_range _ _ _ HB E). apply unpack_u16_at in E. subst v. symmetry. apply Z.mod_small. lia.
  - exfalso. unfold unpack_u16, unpack_le in E. destruct (_ =? 2) eqn:E2; [discriminate|].
    rewrite py_slice_len, !py_bound_id in E2 by lia. lia.
Qed.

Lemma bits_1 : forall d lo, bits d lo 1 = 0 \/ bits d lo 1 = 1.
Proof. intros. unfold bits. change (2 ^ 1) with 2. pose proof (Z.mod_pos_bound (le_val d / 2 ^ lo) 2 ltac:(lia)). lia. Qed.

(** ** C81 *)

Section Trace.
Context {N : Type} (c : config N).

Lemma row_reads : forall d rowx b1 b2, bytes d -> 16 <= zlen d ->
  unpack_u16 d 0 = Ok rowx -> unpack_u16 d 6 = Ok b1 -> unpack_i32 d 12 = Ok b2 ->
  mk_rowinfo (Z.land b1 0x7fff) (bit b1 15) (Z.land b2 7) (bit b2 4) (bit b2 5) (bit b2 6) (bit b2 7)
    (if bit b2 7 =? 0 then -1 else Z.land (Z.shiftr b2 16) 0xfff) (bit b2 28) (bit b2 29) = row_says d.
Proof.
  intros d rowx b1 b2 HB HL _ E1 E2. unfold row_says, bit. change 1 with (Z.ones 1) at 1 2 3 4 5 6 7 8.
  rewrite <- (Z.shiftr_0_r b1) at 1. rewrite <- (Z.shiftr_0_r b2) at 1.
  change 0x7fff with (Z.ones 15). change (Z.land (Z.shiftr b2 0) 7) with (Z.land (Z.shiftr b2 0) (Z.ones 3)). change 0xfff with (Z.ones 12).
  rewrite !(bits_u16 d 6 b1) by (assumption || lia). rewrite !(bits_i32 d 12 b2) by (assumption || lia).
  change (8 * 6 + 0) with 48. change (8 * 6 + 15) with 63. change (8 * 12 + 0) with 96. change (8 * 12 + 4) with 100.
  change (8 * 12 + 5) with 101. change (8 * 12 + 6) with 102. change (8 * 12 + 7) with 103. change (8 * 12 + 16) with 112.
  change (8 * 12 + 28) with 124. change (8 * 12 + 29) with 125.
  destruct (bits_1 d 103) as [-> | ->]; reflexivity.
Qed.

Lemma all_rows_trace : forall r, c_fmt c = true -> forall sh rs tr sh' rs', ran c sh rs tr sh' rs' -> good tr -> forall acc,
  dget Z.eqb (f_rows (sh_fmt sh)) r = option_map row_says acc ->
  dget Z.eqb (f_rows (sh_fmt sh')) r = option_map row_says (fold_rec (is_row (max_rows c) r) tr acc).
Proof.
  intros r HF. apply (ran_field c (fun sh => dget Z.eqb (f_rows (sh_fmt sh)) r) (option_map row_says)).
  intros sh rc len d rs sh' rs' acc _ HB S HA. unfold is_row. destruct (Z.eqb_spec rc XL_ROW) as [->|Hn].
  - change (step c sh XL_ROW len d rs) with (plain (h_row c sh d) rs) in S. unfold plain, h_row in S.
    apply bind_ok in S as (s1 & S & E). injection E as <- _. rewrite HF in S. cbn [negb] in S. cbv zeta in S.
    apply bind_ok in S as ([] & EN & S). apply bind_ok in S as (rowx & E1 & S). apply bind_ok in S as (bits1 & E3 & S).
    apply bind_ok in S as (bits2 & E2 & S). pose proof (u16_at_range _ _ _ HB E1).
    apply need_len in EN; [|lia]. pose proof (row_reads _ _ _ _ HB EN E1 E3 E2) as HR.
    apply unpack_u16_at in E1. rewrite <- E1. cbn [andb].
    destruct (negb ((0 <=? rowx) && (rowx <? max_rows c))) eqn:EV.
    + injection S as <-. replace ((rowx =? r) && (r <? max_rows c)) with false by lia. exact HA.
    + injection S as <-. cbn [with_fmt sh_fmt f_rows dset dget]. rewrite (Z.eqb_sym r rowx). destruct (rowx =? r) eqn:ER.
      * replace (r <? max_rows c) with true by lia. cbn [andb option_map]. f_equal. exact HR.
      * exact HA.
  - rewrite (la_rows _ _ _ (step_alone c _ _ _ _ _ _ _ S) Hn). exact HA.
Qed.

Lemma col_reads : forall d w x fl, bytes d -> 10 <= zlen d -> unpack_u16 d 4 = Ok w -> unpack_u16 d 6 = Ok x -> unpack_u16 d 8 = Ok fl ->
  mk_colinfo w x (Z.land fl 1) (Z.shiftr (Z.land fl 2) 1) (Z.shiftr (Z.land fl 0x700) 8) (Z.shiftr (Z.land fl 0x1000) 12) = col_says d.
Proof.
  intros d w x fl HB HL E1 E2 E3. unfold col_says. apply unpack_u16_at in E1, E2. subst w x.
  rewrite !Z.shiftr_land. change (Z.shiftr 2 1) with (Z.ones 1). change (Z.shiftr 0x700 8) with (Z.ones 3).
  change (Z.shiftr 0x1000 12) with (Z.ones 1). rewrite <- (Z.shiftr_0_r fl) at 1. change (Z.land (Z.shiftr fl 0) 1) with (Z.land (Z.shiftr fl 0) (Z.ones 1)).
  rewrite !(bits_u16 d 8 fl) by (assumption || lia). rewrite !u16_bits by (assumption || lia). reflexivity.
Qed.

Lemma all_cols_trace : forall k, c_fmt c = true -> forall sh rs tr sh' rs', ran c sh rs tr sh' rs' -> good tr -> forall acc,
  dget Z.eqb (f_cols (sh_fmt sh)) k = option_map col_says acc ->
  dget Z.eqb (f_cols (sh_fmt sh')) k = option_map col_says (fold_rec (covers_col k) tr acc).
Proof.
  intros k HF. apply (ran_field c (fun sh => dget Z.eqb (f_cols (sh_fmt sh)) k) (option_map col_says)).
  intros sh rc len d rs sh' rs' acc _ HB S HA. unfold covers_col. destruct (Z.eqb_spec rc XL_COLINFO) as [->|Hn].
  - change (step c sh XL_COLINFO len d rs) with (plain (h_colinfo c sh d) rs) in S. unfold plain, h_colinfo in S.
    apply bind_ok in S as (s1 & S & E). injection E as <- _. rewrite HF in S. cbn [negb] in S. cbv zeta in S.
    apply bind_ok in S as ([] & EN & S). apply bind_ok in S as (first & E1 & S). apply bind_ok in S as (last & E2 & S).
    apply bind_ok in S as (width & E3 & S). apply bind_ok in S as (xf & E4 & S). apply bind_ok in S as (flags & E5 & S).
    pose proof (u16_at_range _ _ _ HB E1). pose proof (u16_at_range _ _ _ HB E2). apply need_len in EN; [|lia].
    pose proof (col_reads _ _ _ _ HB EN E3 E4 E5) as HR.
    apply unpack_u16_at in E1, E2. rewrite <- E1, <- E2. cbn [andb].
    destruct (negb ((0 <=? first) && (first <=? last) && (last <=? 256))) eqn:EV.
    + injection S as <-. replace ((first <=? k) && (k <=? last) && (last <=? 256) && (k <? 256)) with false by lia. exact HA.
    + injection S as <-. cbn [with_fmt sh_fmt f_cols]. rewrite dget_range.
      replace ((first <=? k) && (k <? Z.min 256 (last + 1))) with ((first <=? k) && (k <=? last) && (last <=? 256) && (k <? 256)) by lia.
      destruct ((first <=? k) && (k <=? last) && (last <=? 256) && (k <? 256)); [|exact HA]. cbn [option_map]. f_equal. exact HR.
  - rewrite (la_cols _ _ _ (step_alone c _ _ _ _ _ _ _ S) Hn). exact HA.
Qed.
End Trace.

Lemma sheet_read_ran : forall {N} (c : config N) countries rs sh, good rs -> sheet_read c countries rs = Ok sh ->
  exists tr sh1 rs', ran c (sheet0 countries) rs tr sh1 rs' /\ good tr /\ sh_fmt sh = sh_fmt sh1 /\ sh_view sh = sh_view sh1.
Proof.
  intros N c countries rs sh HG H. unfold sheet_read in H. apply bind_ok in H as (sh1 & R & H). apply bind_ok in H as (g & _ & H). injection H as <-.
  fold (read_all c (sheet0 countries) rs) in R.
  destruct (read_ran c _ _ _ R) as (tr & len' & d' & rest' & HR). exists tr, sh1. eexists. split; [exact HR|].
  split; [eapply ran_good; eauto|]. split; reflexivity.
Qed.

Lemma no_fmt_trace : forall {N} (c : config N), c_fmt c = false -> forall sh rs tr sh' rs', ran c sh rs tr sh' rs' ->
  f_rows (sh_fmt sh') = f_rows (sh_fmt sh) /\ f_cols (sh_fmt sh') = f_cols (sh_fmt sh).
Proof.
  intros N c HF sh rs tr sh' rs' H. induction H as [|sh rc len d rs sh1 rs1 tr sh2 rs2 E S H IH]; [split; reflexivity|].
  destruct IH as [-> ->]. pose proof (step_alone c _ _ _ _ _ _ _ S) as LA. split.
  - destruct (Z.eq_dec rc XL_ROW) as [->|Hn]; [|exact (la_rows _ _ _ LA Hn)].
    change (step c sh XL_ROW len d rs) with (plain (h_row c sh d) rs) in S. unfold plain, h_row in S. rewrite HF in S. injection S as <- _. reflexivity.
  - destruct (Z.eq_dec rc XL_COLINFO) as [->|Hn]; [|exact (la_cols _ _ _ LA Hn)].
    change (step c sh XL_COLINFO len d rs) with (plain (h_colinfo c sh d) rs) in S. unfold plain, h_colinfo in S. rewrite HF in S. injection S as <- _. reflexivity.
Qed.

(** With formatting_info the entry for a row in rowinfo_map is what the last ROW
    record for that row says, and the entry for a column in colinfo_map what the
    last COLINFO record that covers the column says; there are no other entries.
    Without formatting_info both maps are empty. *)
Theorem c81_rows_columns : forall {N} (c : config N) countries rs sh, good rs -> sheet_read c countries rs = Ok sh ->
  exists tr sh1 rs', ran c (sheet0 countries) rs tr sh1 rs' /\
    (forall r, dget Z.eqb (f_rows (sh_fmt sh)) r = if c_fmt c then option_map row_says (last_rec (is_row (max_rows c) r) tr) else None) /\
    (forall k, dget Z.eqb (f_cols (sh_fmt sh)) k = if c_fmt c then option_map col_says (last_rec (covers_col k) tr) else None).
Proof.
  intros N c countries rs sh HG H. destruct (sheet_read_ran c _ _ _ HG H) as (tr & sh1 & rs' & HR & HT & E & _).
  exists tr, sh1, rs'. split; [exact HR|]. rewrite E. destruct (c_fmt c) eqn:HF.
  - split; intros x.
    + exact (all_rows_trace c x HF _ _ _ _ _ HR HT None eq_refl).
    + exact (all_cols_trace c x HF _ _ _ _ _ HR HT None eq_refl).
  - destruct (no_fmt_trace c HF _ _ _ _ _ HR) as [-> ->]. split; reflexivity.
Qed.
Print Assumptions c81_rows_columns.

(** Two ROW records for row 1 and one for row 2, two overlapping COLINFO records. *)
Definition ex_attr_records : list record :=
  map rec_of
    [(XL_ROW, [1;0; 0;0; 0;0; 0;1; 0;0; 0;0; 0;0; 0;0]); (XL_ROW, [1;0; 0;0; 0;0; 44;129; 0;0; 0;0; 211;1; 21;16]);
     (XL_ROW, [2;0; 0;0; 0;0; 255;0; 0;0; 0;0; 38;1; 21;32]);
     (XL_COLINFO, [0;0; 2;0; 100;1; 17;0; 3;0]); (XL_COLINFO, [1;0; 0;1; 200;0; 18;1; 0;23]); (XL_EOF, [])].

Definition ex_attr_config : config (list Z) :=
  mk_config 80 true false [] [] (fun _ => Some XL_CELL_NUMBER) (fun b => Ok b) (fun b => b) (fun b => Ok b) (fun _ => 0).

Example c81_example : good ex_attr_records /\
  match sheet_read ex_attr_config (0, 0) ex_attr_records with
  | Ok sh =>
      map (dget Z.eqb (f_rows (sh_fmt sh))) [0; 1; 2] =
        [None; Some (mk_rowinfo 300 1 3 1 0 1 1 21 1 0); Some (mk_rowinfo 255 0 6 0 1 0 0 (-1) 0 1)] /\
      map (dget Z.eqb (f_cols (sh_fmt sh))) [0; 1; 255; 256] =
        [Some (mk_colinfo 356 17 1 1 0 0); Some (mk_colinfo 200 274 0 0 7 1); Some (mk_colinfo 200 274 0 0 7 1); None]
  | Err _ => False
  end.
Proof.
  split; [unfold good, ex_attr_records; repeat constructor; cbn [snd]; lia|]. vm_compute. split; reflexivity.
Qed.

(** ** C82 *)

(** Every record has the length it announces. *)
Definition framed (tr : list record) : Prop := Forall (fun r : record => let '(_, len, d) := r in bytes d /\ len = zlen d) tr.

(** A WINDOW2 record in its long form (BIFF8), and in its short form. *)
Definition window_code (rc : Z) (d : list Z) : bool := rc =? XL_WINDOW2.
Definition long_form (bv : Z) (d : list Z) : bool := (80 <=? bv) && (14 <=? zlen d).
Definition window_long (bv rc : Z) (d : list Z) : bool := (rc =? XL_WINDOW2) && long_form bv d.
Definition window_short (bv rc : Z) (d : list Z) : bool := (rc =? XL_WINDOW2) && negb (long_form bv d).

Definition rgb_of (d : list Z) : Z * Z * Z := (bits d 48 8, bits d 56 8, bits d 64 8).

(** show_formulas, show_grid_lines, show_sheet_headers, panes_are_frozen,
    show_zero_values, automatic_grid_line_colour, columns_from_right_to_left,
    show_outline_symbols, remove_splits_if_pane_freeze_is_removed, sheet_selected,
    sheet_visible, show_in_page_break_preview. *)
Definition options_of (d : list Z) : list Z := map (fun j => bits d j 1) [0; 1; 2; 3; 4; 5; 6; 7; 8; 9; 10; 11].
Definition options_default : list Z := [0; 1; 1; 0; 1; 1; 0; 1; 0; 0; 0; 0].

Definition pane_of (d : list Z) : Z * Z * Z * Z * Z := (bits d 0 16, bits d 16 16, bits d 32 16, bits d 48 16, bits d 64 8).

(** DEFAULTROWHEIGHT has four bytes: flags, height; or two (BIFF2): the height. *)
Definition has_height (rc : Z) (d : list Z) : bool := (rc =? XL_DEFAULTROWHEIGHT) && ((zlen d =? 4) || (zlen d =? 2)).
Definition height_of (d : list Z) : Z := if zlen d =? 4 then bits d 16 16 else bits d 0 16.
Definition height_flags (d : list Z) : Z := if zlen d =? 4 then bits d 0 4 else 0.

(** Everything the view of a sheet takes from a list of records. *)
Record view_says {N} (c : config N) (tr : list record) (v : viewst) : Prop := {
  vs_options : v_options v = or_else (option_map options_of (last_rec (is_code XL_WINDOW2) tr)) options_default;
  vs_first_row : v_first_row v = or_else (option_map (fun d => bits d 16 16) (last_rec (is_code XL_WINDOW2) tr)) 0;
  vs_first_col : v_first_col v = or_else (option_map (fun d => bits d 32 16) (last_rec (is_code XL_WINDOW2) tr)) 0;
  vs_gridline : v_gridline_colour v =
    or_else (option_map (fun d => if long_form (c_bv c) d then bits d 48 16 else c_nearest c (rgb_of d)) (last_rec (is_code XL_WINDOW2) tr)) 0x40;
  vs_rgb : v_gridline_rgb v = option_map rgb_of (last_rec (window_short (c_bv c)) tr);
  vs_preview : v_cached_preview v = or_else (option_map (fun d => bits d 80 16) (last_rec (window_long (c_bv c)) tr)) 0;
  vs_normal : v_cached_normal v = or_else (option_map (fun d => bits d 96 16) (last_rec (window_long (c_bv c)) tr)) 0;
  vs_pane : v_pane v = option_map pane_of (last_rec (is_code XL_PANE) tr);
  vs_height : v_default_height v = option_map height_of (last_rec has_height tr);
  vs_height_flags : v_height_bits v = or_else (option_map height_flags (last_rec (is_code XL_DEFAULTROWHEIGHT) tr)) 0 }.

Section View.
Context {N : Type} (c : config N).

Lemma ran_framed : forall {X} (F : sheet N -> X) (G : option (list Z) -> X) (p : Z -> list Z -> bool),
  (forall sh rc d rs sh' rs' acc, rc <> XL_EOF -> bytes d -> step c sh rc (zlen d) d rs = Ok (sh', rs') ->
     F sh = G acc -> F sh' = G (if p rc d then Some d else acc)) ->
  forall sh rs tr sh' rs', ran c sh rs tr sh' rs' -> framed tr -> F sh = G None -> F sh' = G (last_rec p tr).
Proof.
  intros X F G p HS sh rs tr sh' rs' H HG. unfold last_rec. generalize (@None (list Z)).
  induction H as [|sh rc len d rs sh1 rs1 tr sh2 rs2 E S H IH]; intros acc HF; [exact HF|].
  inversion HG as [|? ? Hb HG']; subst. cbn beta iota in Hb. destruct Hb as [Hb ->]. cbn [fold_left]. apply IH; [exact HG'|]. eapply HS; eauto.
Qed.

Lemma bits_u8 : forall d pos v, bytes d -> unpack_le 1 d pos = Ok v -> 0 <= pos -> v = bits d (8 * pos) 8.
Proof.
  intros d pos v HB H Hp. unfold unpack_le in H. destruct (zlen (py_slice d pos (pos + 1)) =? 1) eqn:EL; [|discriminate]. injection H as <-.
  assert (pos + 1 <= zlen d) as HL.
  { rewrite py_slice_len in EL. pose proof (zlen_nonneg d). unfold py_bound in EL. destruct (pos <? 0) eqn:?, (pos + 1 <? 0) eqn:?; lia. }
  assert (bytes (py_slice d pos (pos + 1))) as HB' by (apply bytes_slice; exact HB).
  apply Z.bits_inj'. intros i Hi. rewrite bits_testbit by (assumption || lia). destruct (i <? 8) eqn:E.
  - rewrite le_val_testbit by (assumption || lia). rewrite znth_py_slice by lia.
    replace ((8 * pos + i) / 8) with (pos + i / 8) by lia. replace ((8 * pos + i) mod 8) with (i mod 8) by lia. reflexivity.
  - pose proof (le_val_range _ HB') as HR. replace (zlen (py_slice d pos (pos + 1))) with 1 in HR by lia.
    rewrite <- (Z.mod_small (le_val (py_slice d pos (pos + 1))) (2 ^ 8)).
    + apply Z.mod_pow2_bits_high. lia.
    + change (2 ^ 8) with 256. lia.
Qed.

Definition window_of (v : viewst) := (v_options v, v_first_row v, v_first_col v, v_gridline_colour v).

(** One WINDOW2 record. *)
Lemma window_step : forall sh d rs sh' rs', bytes d -> step c sh XL_WINDOW2 (zlen d) d rs = Ok (sh', rs') ->
  v_options (sh_view sh') = options_of d /\ v_first_row (sh_view sh') = bits d 16 16 /\ v_first_col (sh_view sh') = bits d 32 16 /\
  v_gridline_colour (sh_view sh') = (if long_form (c_bv c) d then bits d 48 16 else c_nearest c (rgb_of d)) /\
  v_gridline_rgb (sh_view sh') = (if long_form (c_bv c) d then v_gridline_rgb (sh_view sh) else Some (rgb_of d)) /\
  v_cached_preview (sh_view sh') = (if long_form (c_bv c) d then bits d 80 16 else v_cached_preview (sh_view sh)) /\
  v_cached_normal (sh_view sh') = (if long_form (c_bv c) d then bits d 96 16 else v_cached_normal (sh_view sh)).
Proof.
  intros sh d rs sh' rs' HB S.
  assert (forall o, unpack_u16 d 0 = Ok o -> 2 <= zlen d ->
    map (fun j => bit o j) [0; 1; 2; 3; 4; 5; 6; 7; 8; 9; 10; 11] = options_of d) as HO.
  { intros o Eo HL. unfold options_of. apply map_ext_in. intros j Hj.
    unfold bit. change 1 with (Z.ones 1) at 1. rewrite (bits_u16 d 0 o) by (assumption || lia || (cbn [In] in Hj; lia)). f_equal. }
  cbn [map] in HO.
  change (step c sh XL_WINDOW2 (zlen d) d rs) with (plain (h_window2 c sh (zlen d) d) rs) in S. unfold plain, h_window2 in S. cbv zeta beta in S.
  apply bind_ok in S as (s1 & S & E). injection E as <- _. unfold long_form.
  replace ((c_bv c >=? 80) && (zlen d >=? 14)) with ((80 <=? c_bv c) && (14 <=? zlen d)) in S by lia.
  destruct ((80 <=? c_bv c) && (14 <=? zlen d)) eqn:EL.
  - apply bind_ok in S as (? & _ & S). apply bind_ok in S as (o & E1 & S). apply bind_ok in S as (fr & E2 & S).
    apply bind_ok in S as (fc & E3 & S). apply bind_ok in S as (gl & E4 & S). apply bind_ok in S as (cp & E5 & S).
    apply bind_ok in S as (cn & E6 & S). injection S as <-.
    cbn [with_view sh_view v_options v_first_row v_first_col v_gridline_colour v_gridline_rgb v_cached_preview v_cached_normal].
    rewrite (HO _ E1) by lia. apply unpack_u16_at in E2, E3, E4, E5, E6. subst. rewrite !u16_bits by (assumption || lia). repeat split.
  - apply bind_ok in S as ([] & EN & S). apply bind_ok in S as (o & E1 & S). apply bind_ok in S as (fr & E2 & S).
    apply bind_ok in S as (fc & E3 & S). apply bind_ok in S as (? & _ & S). apply bind_ok in S as (r & E4 & S).
    apply bind_ok in S as (g & E5 & S). apply bind_ok in S as (b & E6 & S). injection S as <-. apply need_len in EN; [|lia].
    cbn [with_view sh_view v_options v_first_row v_first_col v_gridline_colour v_gridline_rgb v_cached_preview v_cached_normal].
    rewrite (HO _ E1) by lia. apply unpack_u16_at in E2, E3. apply bits_u8 in E4, E5, E6; try assumption; try lia. subst.
    rewrite !u16_bits by (assumption || lia). repeat split.
Qed.

Ltac window_field la :=
  let s := fresh "s" in let rc := fresh "rc" in let d := fresh "d" in let r := fresh "r" in let s' := fresh "s'" in let r' := fresh "r'" in
  let acc := fresh "acc" in let HB := fresh "HB" in let S := fresh "S" in let HA := fresh "HA" in let Hn := fresh "Hn" in
  let A := fresh "A" in let EL := fresh "EL" in
  let W1 := fresh in let W2 := fresh in let W3 := fresh in let W4 := fresh in let W5 := fresh in let W6 := fresh in let W7 := fresh in
  intros s rc d r s' r' acc _ HB S HA; unfold is_code, window_short, window_long;
  destruct (Z.eqb_spec rc XL_WINDOW2) as [->|Hn];
  [ cbn [andb]; destruct (window_step _ _ _ _ _ HB S) as (W1 & W2 & W3 & W4 & W5 & W6 & W7);
    rewrite ?W1, ?W2, ?W3, ?W4, ?W5, ?W6, ?W7; destruct (long_form (c_bv c) d) eqn:EL; cbn [negb option_map or_else];
    rewrite ?EL; first [reflexivity | exact HA]
  | pose proof (la _ _ _ (step_alone c _ _ _ _ _ _ _ S) Hn) as A; cbn [andb]; congruence ].

Lemma window_traces : forall countries rs tr sh rs', ran c (sheet0 countries) rs tr sh rs' -> framed tr -> view_says c tr (sh_view sh).
Proof.
  intros countries rs tr sh rs' HR HG. constructor.
  - apply (ran_framed (fun sh => v_options (sh_view sh)) (fun o => or_else (option_map options_of o) options_default) (is_code XL_WINDOW2)) with (2 := HR);
      [|exact HG|reflexivity]. window_field (@la_options N).
  - apply (ran_framed (fun sh => v_first_row (sh_view sh)) (fun o => or_else (option_map (fun d => bits d 16 16) o) 0) (is_code XL_WINDOW2)) with (2 := HR);
      [|exact HG|reflexivity]. window_field (@la_visible N).
  - apply (ran_framed (fun sh => v_first_col (sh_view sh)) (fun o => or_else (option_map (fun d => bits d 32 16) o) 0) (is_code XL_WINDOW2)) with (2 := HR);
      [|exact HG|reflexivity]. window_field (@la_visible N).
  - apply (ran_framed (fun sh => v_gridline_colour (sh_view sh))
             (fun o => or_else (option_map (fun d => if long_form (c_bv c) d then bits d 48 16 else c_nearest c (rgb_of d)) o) 0x40) (is_code XL_WINDOW2)) with (2 := HR);
      [|exact HG|reflexivity]. window_field (@la_gridline N).
  - apply (ran_framed (fun sh => v_gridline_rgb (sh_view sh)) (option_map rgb_of) (window_short (c_bv c))) with (2 := HR);
      [|exact HG|reflexivity]. window_field (@la_gridline N).
  - apply (ran_framed (fun sh => v_cached_preview (sh_view sh)) (fun o => or_else (option_map (fun d => bits d 80 16) o) 0) (window_long (c_bv c))) with (2 := HR);
      [|exact HG|reflexivity]. window_field (@la_preview N).
  - apply (ran_framed (fun sh => v_cached_normal (sh_view sh)) (fun o => or_else (option_map (fun d => bits d 96 16) o) 0) (window_long (c_bv c))) with (2 := HR);
      [|exact HG|reflexivity]. window_field (@la_normal N).
  - apply (ran_framed (fun sh => v_pane (sh_view sh)) (option_map pane_of) (is_code XL_PANE)) with (2 := HR); [|exact HG|reflexivity].
    intros sh1 rc d rs1 sh' rs1' acc _ HB S HA. unfold is_code. destruct (Z.eqb_spec rc XL_PANE) as [->|Hn];
      [|rewrite (la_pane _ _ _ (step_alone c _ _ _ _ _ _ _ S) Hn); exact HA].
    change (step c sh1 XL_PANE (zlen d) d rs1) with (plain (h_pane sh1 d) rs1) in S. unfold plain, h_pane in S. cbv zeta in S.
    apply bind_ok in S as (s1 & S & E). injection E as <- _. apply bind_ok in S as ([] & EN & S). apply need_len in EN; [|lia].
    apply bind_ok in S as (a & E1 & S). apply bind_ok in S as (b & E2 & S). apply bind_ok in S as (e & E3 & S).
    apply bind_ok in S as (f & E4 & S). apply bind_ok in S as (g & E5 & S). injection S as <-. cbn [with_view sh_view v_pane option_map].
    apply unpack_u16_at in E1, E2, E3, E4. apply bits_u8 in E5; try assumption; try lia. subst. rewrite !u16_bits by (assumption || lia). reflexivity.
  - apply (ran_framed (fun sh => v_default_height (sh_view sh)) (option_map height_of) has_height) with (2 := HR); [|exact HG|reflexivity].
    intros sh1 rc d rs1 sh' rs1' acc _ HB S HA. unfold has_height. destruct (Z.eqb_spec rc XL_DEFAULTROWHEIGHT) as [->|Hn].
    + change (step c sh1 XL_DEFAULTROWHEIGHT (zlen d) d rs1) with (plain (h_defaultrowheight sh1 (zlen d) d) rs1) in S.
      unfold plain, h_defaultrowheight in S. cbv zeta in S. apply bind_ok in S as (s1 & S & E). injection E as <- _.
      apply bind_ok in S as ([h fl] & E & S). injection S as <-. cbn [with_view sh_view v_default_height andb].
      destruct (zlen d =? 4) eqn:E4; cbn [orb].
      * apply bind_ok in E as (? & _ & E). apply bind_ok in E as (b & E1 & E). apply bind_ok in E as (h' & E2 & E). injection E as <- <-.
        unfold height_of. cbn [option_map]. rewrite E4. apply unpack_u16_at in E2. subst. rewrite u16_bits by (assumption || lia). reflexivity.
      * destruct (zlen d =? 2) eqn:E2.
        -- apply bind_ok in E as (? & _ & E). apply bind_ok in E as (h' & E1 & E). injection E as <- <-.
           unfold height_of. cbn [option_map]. rewrite E4. apply unpack_u16_at in E1. subst. rewrite u16_bits by (assumption || lia). reflexivity.
        -- injection E as <- <-. exact HA.
    + pose proof (la_height _ _ _ (step_alone c _ _ _ _ _ _ _ S) Hn) as A. cbn [andb]. congruence.
  - apply (ran_framed (fun sh => v_height_bits (sh_view sh)) (fun o => or_else (option_map height_flags o) 0) (is_code XL_DEFAULTROWHEIGHT)) with (2 := HR);
      [|exact HG|reflexivity].
    intros sh1 rc d rs1 sh' rs1' acc _ HB S HA. unfold is_code. destruct (Z.eqb_spec rc XL_DEFAULTROWHEIGHT) as [->|Hn].
    + change (step c sh1 XL_DEFAULTROWHEIGHT (zlen d) d rs1) with (plain (h_defaultrowheight sh1 (zlen d) d) rs1) in S.
      unfold plain, h_defaultrowheight in S. cbv zeta in S. apply bind_ok in S as (s1 & S & E). injection E as <- _.
      apply bind_ok in S as ([h fl] & E & S). injection S as <-. cbn [with_view sh_view v_height_bits option_map or_else]. unfold height_flags.
      destruct (zlen d =? 4) eqn:E4.
      * apply bind_ok in E as (? & _ & E). apply bind_ok in E as (b & E1 & E). apply bind_ok in E as (h' & E2 & E). injection E as <- <-.
        rewrite <- (Z.shiftr_0_r b). change 15 with (Z.ones 4). rewrite (bits_u16 d 0 b) by (assumption || lia). reflexivity.
      * destruct (zlen d =? 2) eqn:E2.
        -- apply bind_ok in E as (? & _ & E). apply bind_ok in E as (h' & E1 & E). injection E as <- <-. reflexivity.
        -- injection E as <- <-. reflexivity.
    + pose proof (la_height _ _ _ (step_alone c _ _ _ _ _ _ _ S) Hn) as A. congruence.
Qed.
End View.

Lemma ran_framed_tr : forall {N} (c : config N) sh rs tr sh' rs', ran c sh rs tr sh' rs' -> framed rs -> framed tr.
Proof.
  intros N c sh rs tr sh' rs' H. induction H as [|sh rc len d rs sh1 rs1 tr sh2 rs2 E S H IH]; intros HG; [constructor|].
  inversion HG as [|? ? Hb HG']; subst. constructor; [exact Hb|]. apply IH.
  destruct (Local_step c _ _ _ _ _ _ _ S) as (u & -> & _). apply Forall_app in HG' as [_ HG']. exact HG'.
Qed.

Lemma framed_good : forall rs, framed rs -> good rs.
Proof. intros rs H. unfold good. eapply Forall_impl; [|exact H]. intros [[rc len] d] [HB _]. exact HB. Qed.

Lemma sheet_read_framed : forall {N} (c : config N) countries rs sh, framed rs -> sheet_read c countries rs = Ok sh ->
  exists tr sh1 rs', ran c (sheet0 countries) rs tr sh1 rs' /\ framed tr /\ sh_view sh = sh_view sh1.
Proof.
  intros N c countries rs sh HG H. destruct (sheet_read_ran c _ _ _ (framed_good _ HG) H) as (tr & sh1 & rs' & HR & _ & _ & E).
  exists tr, sh1, rs'. split; [exact HR|]. split; [eapply ran_framed_tr; eauto|exact E].
Qed.

(** Each attribute of the view comes from its own bits of the last record that
    carries it, and has its documented default if there is none. *)
Theorem c82_view : forall {N} (c : config N) countries rs sh, framed rs -> sheet_read c countries rs = Ok sh ->
  exists tr sh1 rs', ran c (sheet0 countries) rs tr sh1 rs' /\ view_says c tr (sh_view sh).
Proof.
  intros N c countries rs sh HG H. destruct (sheet_read_framed c _ _ _ HG H) as (tr & sh1 & rs' & HR & HT & E).
  exists tr, sh1, rs'. split; [exact HR|]. rewrite E. exact (window_traces c _ _ _ _ _ HR HT).
Qed.
Print Assumptions c82_view.

(** ** C83 *)

(** The breaks of a page break record: their number, then three numbers for each
    (position, first, last), or in files before BIFF8 the position alone. *)
Definition breaks_in (bv last : Z) (d : list Z) : list (Z * Z * Z) :=
  map (fun i => if 80 <=? bv then (bits d (16 + 48 * i) 16, bits d (32 + 48 * i) 16, bits d (48 + 48 * i) 16)
                else (bits d (16 + 16 * i) 16, 0, last))
    (zrange 0 (bits d 0 16)).

(** A list of cell ranges at byte [p]: their number, then first row, last row,
    first column, last column of each.  Ranges are reported with exclusive ends. *)
Definition ranges_in (d : list Z) (p : Z) : list mrange :=
  map (fun i => (bits d (8 * p + 16 + 64 * i) 16, bits d (8 * p + 32 + 64 * i) 16 + 1,
                 bits d (8 * p + 48 + 64 * i) 16, bits d (8 * p + 64 + 64 * i) 16 + 1))
    (zrange 0 (bits d (8 * p) 16)).

(** Of the records with one code, all that they list, in order. *)
Definition listed {A} (code : Z) (f : list Z -> list A) (tr : list record) : list A :=
  flat_map (fun r : record => let '(rc, _, d) := r in if rc =? code then f d else []) tr.

Definition row_ranges (d : list Z) : list mrange := ranges_in d 0.
Definition col_ranges (d : list Z) : list mrange := ranges_in d (2 + 8 * bits d 0 16).

Ltac same_bits :=
  cbv beta iota;
  repeat match goal with
  | |- bits ?d ?a ?w = bits ?d ?b ?w => apply (f_equal (fun x => bits d x w)); lia
  | |- (_, _) = (_, _) => f_equal
  | |- _ + 1 = _ + 1 => f_equal
  | |- _ => reflexivity
  end.

Lemma zrange_shift : forall a b, map (fun i => i + 1) (zrange a b) = zrange (a + 1) (b + 1).
Proof.
  intros a b. unfold zrange. rewrite map_map. replace (b + 1 - (a + 1)) with (b - a) by lia. apply map_ext. intros i. lia.
Qed.

Section Lists.
Context {N : Type} (c : config N).

Lemma ran_listed : forall {A} (F : sheet N -> list A) code (f : list Z -> list A),
  (forall sh rc d rs sh' rs', rc <> XL_EOF -> bytes d -> step c sh rc (zlen d) d rs = Ok (sh', rs') ->
     F sh' = F sh ++ (if rc =? code then f d else [])) ->
  forall sh rs tr sh' rs', ran c sh rs tr sh' rs' -> framed tr -> F sh' = F sh ++ listed code f tr.
Proof.
  intros A F code f HS sh rs tr sh' rs' H HG.
  induction H as [|sh rc len d rs sh1 rs1 tr sh2 rs2 E S H IH]; [symmetry; apply app_nil_r|].
  inversion HG as [|? ? Hb HG']; subst. cbn beta iota in Hb. destruct Hb as [Hb ->]. rewrite (IH HG').
  rewrite (HS _ _ _ _ _ _ E Hb S). unfold listed at 2. cbn [flat_map]. rewrite <- app_assoc. reflexivity.
Qed.

Lemma u16_ok_bits : forall d pos v, bytes d -> 0 <= pos -> unpack_u16 d pos = Ok v -> v = bits d (8 * pos) 16 /\ pos + 2 <= zlen d.
Proof.
  intros d pos v HB Hp H. assert (pos + 2 <= zlen d) as HL.
  { unfold unpack_u16, unpack_le in H. destruct (zlen (py_slice d pos (pos + 2)) =? 2) eqn:EL; [|discriminate].
    rewrite py_slice_len in EL. pose proof (zlen_nonneg d). unfold py_bound in EL. destruct (pos <? 0) eqn:?, (pos + 2 <? 0) eqn:?; lia. }
  split; [|exact HL]. apply unpack_u16_at in H. subst. apply u16_bits; assumption.
Qed.

Lemma breaks_loop_bits : forall last d k pos l, bytes d -> 0 <= pos -> breaks_loop c k d pos last = Ok l ->
  l = map (fun i => if 80 <=? c_bv c then (bits d (8 * pos + 48 * i) 16, bits d (8 * pos + 16 + 48 * i) 16, bits d (8 * pos + 32 + 48 * i) 16)
                    else (bits d (8 * pos + 16 * i) 16, 0, last)) (zrange 0 (Z.of_nat k)).
Proof.
  intros last d. induction k as [|k IH]; intros pos l HB Hp H; cbn [breaks_loop] in H.
  - injection H as <-. reflexivity.
  - rewrite zrange_cons by lia. cbn [map].
    replace (zrange (0 + 1) (Z.of_nat (S k))) with (map (fun i => i + 1) (zrange 0 (Z.of_nat k))).
    2: { rewrite zrange_shift. f_equal; lia. }
    rewrite map_map. replace (c_bv c <? 80) with (negb (80 <=? c_bv c)) in H by lia. destruct (80 <=? c_bv c); cbn [negb] in H.
    + apply bind_ok in H as (? & _ & H). apply bind_ok in H as (a & E1 & H). apply bind_ok in H as (b & E2 & H).
      apply bind_ok in H as (e & E3 & H). apply bind_ok in H as (r & E4 & H). injection H as <-.
      apply u16_ok_bits in E1 as [-> _], E2 as [-> _], E3 as [-> _]; try assumption; try lia.
      apply IH in E4; [|exact HB|lia]. subst r. f_equal.
      * same_bits.
      * apply map_ext. intros i. same_bits.
    + apply bind_ok in H as (a & E1 & H). apply bind_ok in H as (r & E4 & H). injection H as <-.
      apply u16_ok_bits in E1 as [-> _]; try assumption; try lia.
      apply IH in E4; [|exact HB|lia]. subst r. f_equal.
      * same_bits.
      * apply map_ext. intros i. same_bits.
Qed.

Lemma read_breaks_bits : forall len d last l, bytes d -> read_breaks c len d last = Ok l -> l = breaks_in (c_bv c) last d.
Proof.
  intros len d last l HB H. unfold read_breaks in H. apply bind_ok in H as (n & E1 & H). apply bind_ok in H as (? & _ & H).
  apply u16_ok_bits in E1 as [-> _]; [|assumption|lia]. apply breaks_loop_bits in H; [|exact HB|lia]. subst l.
  unfold breaks_in. change (8 * 0) with 0. assert (0 <= bits d 0 16) by (unfold bits; apply Z.mod_pos_bound; lia).
  rewrite Z2Nat.id by assumption. reflexivity.
Qed.

Lemma cell_range_bits : forall d k pos acc l q, bytes d -> 0 <= pos -> cell_range_loop k d pos 8 acc = Ok (l, q) ->
  q = pos + 8 * Z.of_nat k /\
  l = acc ++ map (fun i => (bits d (8 * pos + 64 * i) 16, bits d (8 * pos + 16 + 64 * i) 16 + 1,
                            bits d (8 * pos + 32 + 64 * i) 16, bits d (8 * pos + 48 + 64 * i) 16 + 1)) (zrange 0 (Z.of_nat k)).
Proof.
  intros d. induction k as [|k IH]; intros pos acc l q HB Hp H; cbn [cell_range_loop] in H.
  - injection H as <- <-. split; [lia|]. symmetry. apply app_nil_r.
  - destruct (zlen _ =? 8); [|discriminate]. change (8 =? 6) with false in H. cbv iota in H.
    apply bind_ok in H as (ra & E1 & H). apply bind_ok in H as (rb & E2 & H). apply bind_ok in H as ([ca cb] & E & H).
    apply bind_ok in E as (ca' & E3 & E). apply bind_ok in E as (cb' & E4 & E). injection E as <- <-.
    apply u16_ok_bits in E1 as [-> _], E2 as [-> _], E3 as [-> _], E4 as [-> _]; try assumption; try lia.
    apply IH in H as [-> ->]; [|exact HB|lia]. split; [lia|]. rewrite <- app_assoc. f_equal. cbn [app].
    rewrite (zrange_cons 0 (Z.of_nat (S k))) by lia. cbn [map].
    replace (zrange (0 + 1) (Z.of_nat (S k))) with (map (fun i => i + 1) (zrange 0 (Z.of_nat k))).
    2: { rewrite zrange_shift. f_equal; lia. }
    rewrite map_map. f_equal.
    + same_bits.
    + apply map_ext. intros i. same_bits.
Qed.

Lemma range_list_bits : forall d pos acc l q, bytes d -> 0 <= pos -> unpack_cell_range_address_list_update_pos acc d pos 8 = Ok (l, q) ->
  q = pos + 2 + 8 * bits d (8 * pos) 16 /\ l = acc ++ ranges_in d pos.
Proof.
  intros d pos acc l q HB Hp H. unfold unpack_cell_range_address_list_update_pos in H.
  change (negb ((8 =? 6) || (8 =? 8))) with false in H. cbv iota in H. apply bind_ok in H as (n & E1 & H).
  apply u16_ok_bits in E1 as [-> _]; try assumption. apply cell_range_bits in H as [-> ->]; [|exact HB|lia].
  assert (0 <= bits d (8 * pos) 16) by (unfold bits; apply Z.mod_pos_bound; lia). rewrite Z2Nat.id by assumption.
  split; [reflexivity|]. f_equal. unfold ranges_in. apply map_ext. intros i. same_bits.
Qed.

Lemma lists_trace : c_fmt c = true -> forall countries rs tr sh rs', ran c (sheet0 countries) rs tr sh rs' -> framed tr ->
  v_hbreaks (sh_view sh) = listed XL_HORIZONTALPAGEBREAKS (breaks_in (c_bv c) 255) tr /\
  v_vbreaks (sh_view sh) = listed XL_VERTICALPAGEBREAKS (breaks_in (c_bv c) 65535) tr.
Proof.
  intros HF countries rs tr sh rs' HR HG. split.
  - apply (ran_listed (fun sh => v_hbreaks (sh_view sh)) XL_HORIZONTALPAGEBREAKS (breaks_in (c_bv c) 255)) with (2 := HR); [|exact HG].
    intros s rc d r s' r' _ HB S. destruct (Z.eqb_spec rc XL_HORIZONTALPAGEBREAKS) as [->|Hn].
    + change (step c s XL_HORIZONTALPAGEBREAKS (zlen d) d r) with (plain (h_hbreaks c s (zlen d) d) r) in S. unfold plain, h_hbreaks in S.
      rewrite HF in S. cbn [negb] in S. cbv zeta in S. apply bind_ok in S as (s1 & S & E). injection E as <- _.
      apply bind_ok in S as (b & E & S). injection S as <-. apply read_breaks_bits in E; [|exact HB]. subst b. reflexivity.
    + rewrite app_nil_r. exact (la_hbreaks _ _ _ (step_alone c _ _ _ _ _ _ _ S) Hn).
  - apply (ran_listed (fun sh => v_vbreaks (sh_view sh)) XL_VERTICALPAGEBREAKS (breaks_in (c_bv c) 65535)) with (2 := HR); [|exact HG].
    intros s rc d r s' r' _ HB S. destruct (Z.eqb_spec rc XL_VERTICALPAGEBREAKS) as [->|Hn].
    + change (step c s XL_VERTICALPAGEBREAKS (zlen d) d r) with (plain (h_vbreaks c s (zlen d) d) r) in S. unfold plain, h_vbreaks in S.
      rewrite HF in S. cbn [negb] in S. cbv zeta in S. apply bind_ok in S as (s1 & S & E). injection E as <- _.
      apply bind_ok in S as (b & E & S). injection S as <-. apply read_breaks_bits in E; [|exact HB]. subst b. reflexivity.
    + rewrite app_nil_r. exact (la_vbreaks _ _ _ (step_alone c _ _ _ _ _ _ _ S) Hn).
Qed.

Lemma no_breaks_trace : c_fmt c = false -> forall sh rs tr sh' rs', ran c sh rs tr sh' rs' ->
  v_hbreaks (sh_view sh') = v_hbreaks (sh_view sh) /\ v_vbreaks (sh_view sh') = v_vbreaks (sh_view sh).
Proof.
  intros HF sh rs tr sh' rs' H. induction H as [|sh rc len d rs sh1 rs1 tr sh2 rs2 E S H IH]; [split; reflexivity|].
  destruct IH as [-> ->]. pose proof (step_alone c _ _ _ _ _ _ _ S) as LA. split.
  - destruct (Z.eq_dec rc XL_HORIZONTALPAGEBREAKS) as [->|Hn]; [|exact (la_hbreaks _ _ _ LA Hn)].
    change (step c sh XL_HORIZONTALPAGEBREAKS len d rs) with (plain (h_hbreaks c sh len d) rs) in S. unfold plain, h_hbreaks in S.
    rewrite HF in S. injection S as <- _. reflexivity.
  - destruct (Z.eq_dec rc XL_VERTICALPAGEBREAKS) as [->|Hn]; [|exact (la_vbreaks _ _ _ LA Hn)].
    change (step c sh XL_VERTICALPAGEBREAKS len d rs) with (plain (h_vbreaks c sh len d) rs) in S. unfold plain, h_vbreaks in S.
    rewrite HF in S. injection S as <- _. reflexivity.
Qed.

Lemma labels_trace : forall countries rs tr sh rs', ran c (sheet0 countries) rs tr sh rs' -> framed tr ->
  v_row_labels (sh_view sh) = listed XL_LABELRANGES row_ranges tr /\ v_col_labels (sh_view sh) = listed XL_LABELRANGES col_ranges tr.
Proof.
  assert (forall sh d rs sh' rs', bytes d -> step c sh XL_LABELRANGES (zlen d) d rs = Ok (sh', rs') ->
    v_row_labels (sh_view sh') = v_row_labels (sh_view sh) ++ row_ranges d /\
    v_col_labels (sh_view sh') = v_col_labels (sh_view sh) ++ col_ranges d) as HL.
  { intros sh d rs sh' rs' HB S. change (step c sh XL_LABELRANGES (zlen d) d rs) with (plain (h_labelranges sh (zlen d) d) rs) in S.
    unfold plain, h_labelranges in S. cbv zeta in S. apply bind_ok in S as (s1 & S & E). injection E as <- _.
    apply bind_ok in S as ([rl p] & E1 & S). apply bind_ok in S as ([cl q] & E2 & S). apply bind_ok in S as (? & _ & S). injection S as <-.
    apply range_list_bits in E1 as [-> ->]; [|exact HB|lia]. change (8 * 0) with 0 in E2.
    assert (0 <= bits d 0 16) by (unfold bits; apply Z.mod_pos_bound; lia).
    apply range_list_bits in E2 as [_ ->]; [|exact HB|lia]. split; reflexivity. }
  intros countries rs tr sh rs' HR HG. split.
  - apply (ran_listed (fun sh => v_row_labels (sh_view sh)) XL_LABELRANGES row_ranges) with (2 := HR); [|exact HG].
    intros s rc d r s' r' _ HB S. destruct (Z.eqb_spec rc XL_LABELRANGES) as [->|Hn]; [exact (proj1 (HL _ _ _ _ _ HB S))|].
    pose proof (la_labels _ _ _ (step_alone c _ _ _ _ _ _ _ S) Hn) as A. rewrite app_nil_r. congruence.
  - apply (ran_listed (fun sh => v_col_labels (sh_view sh)) XL_LABELRANGES col_ranges) with (2 := HR); [|exact HG].
    intros s rc d r s' r' _ HB S. destruct (Z.eqb_spec rc XL_LABELRANGES) as [->|Hn]; [exact (proj2 (HL _ _ _ _ _ HB S))|].
    pose proof (la_labels _ _ _ (step_alone c _ _ _ _ _ _ _ S) Hn) as A. rewrite app_nil_r. congruence.
Qed.
End Lists.

(** The page breaks (with formatting_info) and the label ranges of a sheet are
    those that its records list, all of them and in order. *)
Theorem c83_lists : forall {N} (c : config N) countries rs sh, framed rs -> sheet_read c countries rs = Ok sh ->
  exists tr sh1 rs', ran c (sheet0 countries) rs tr sh1 rs' /\
    v_hbreaks (sh_view sh) = (if c_fmt c then listed XL_HORIZONTALPAGEBREAKS (breaks_in (c_bv c) 255) tr else []) /\
    v_vbreaks (sh_view sh) = (if c_fmt c then listed XL_VERTICALPAGEBREAKS (breaks_in (c_bv c) 65535) tr else []) /\
    v_row_labels (sh_view sh) = listed XL_LABELRANGES row_ranges tr /\
    v_col_labels (sh_view sh) = listed XL_LABELRANGES col_ranges tr.
Proof.
  intros N c countries rs sh HG H. destruct (sheet_read_framed c _ _ _ HG H) as (tr & sh1 & rs' & HR & HT & E).
  exists tr, sh1, rs'. split; [exact HR|]. rewrite E. destruct (labels_trace c _ _ _ _ _ HR HT) as [L1 L2].
  destruct (c_fmt c) eqn:HF.
  - destruct (lists_trace c HF _ _ _ _ _ HR HT) as [B1 B2]. auto.
  - destruct (no_breaks_trace c HF _ _ _ _ _ HR) as [B1 B2]. rewrite B1, B2. auto.
Qed.
Print Assumptions c83_lists.

Definition ex_view_records (bv : Z) : list record :=
  map rec_of
    [(XL_WINDOW2, [182;6; 5;0; 3;1; 64;0; 0;0; 70;0; 80;0]); (XL_PANE, [1;0; 2;0; 3;1; 4;0; 3]); (XL_DEFAULTROWHEIGHT, [6;0; 255;0]);
     (XL_WINDOW2, [9;0; 7;0; 8;0; 1;2;3]); (XL_DEFAULTROWHEIGHT, [1;2;3]);
     (XL_HORIZONTALPAGEBREAKS, if 80 <=? bv then [2;0; 3;0; 0;0; 255;0; 9;0; 1;0; 2;0] else [2;0; 3;0; 9;0]);
     (XL_VERTICALPAGEBREAKS, [0; 0]); (XL_HORIZONTALPAGEBREAKS, if 80 <=? bv then [1;0; 4;0; 0;0; 255;0] else [1;0; 4;0]);
     (XL_LABELRANGES, [1;0; 1;0; 2;0; 3;0; 4;0; 2;0; 5;0; 5;0; 0;0; 0;0; 7;0; 8;0; 0;0; 1;0]); (XL_EOF, [])].

Definition ex_view (bv : Z) : result viewst :=
  let c := mk_config bv true false [] [] (fun _ => Some XL_CELL_NUMBER) (fun b => Ok b) (fun b => b) (fun b => Ok b) (fun _ => 12) in
  do sh <- sheet_read c (0, 0) (ex_view_records bv); Ok (sh_view sh).

Example c82_c83_example : framed (ex_view_records 80) /\ framed (ex_view_records 70) /\
  ex_view 80 = Ok (mk_viewst [1; 0; 0; 1; 0; 0; 0; 0; 0; 0; 0; 0] 7 8 12 (Some (1, 2, 3)) 70 80 None (Some (1, 2, 259, 4, 3))
                     [(3, 0, 255); (9, 1, 2); (4, 0, 255)] [] [(1, 3, 3, 5)] [(5, 6, 0, 1); (7, 9, 0, 2)] (Some 255) 0 (0, 0)) /\
  match ex_view 70 with Ok v => v_hbreaks v = [(3, 0, 255); (9, 0, 255); (4, 0, 255)] /\ v_cached_normal v = 0 | Err _ => False end.
Proof.
  split; [|split; [|split]].
  - unfold framed, ex_view_records. repeat constructor; lia.
  - unfold framed, ex_view_records. repeat constructor; lia.
  - vm_compute. reflexivity.
  - vm_compute. split; reflexivity.
Qed.
