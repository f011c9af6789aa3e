(** Property theorems C95: rows, columns, the view, page breaks, ranges and
    hyperlinks of the worksheets of an opened workbook are those that the sheet's
    own records describe (SheetOwn.v says which those are). *)
From Verif Require Import Base BaseFacts Text Strings Utf16 StringFacts PropBytes Framing GridModel GridFacts PropGrid SheetObjects SheetModel SheetFacts SheetSteps
  PropSheet PropRead SheetTrace PropView PropRowCol PropLinks SheetOwn SstModel PropSst FormatModel FormatFacts PropFormat PropNumType FormulaModel CompDoc BookModel BookFacts PropBof PropEnc
  BookSheets BookRefs BookApi SheetShare BookHistory PropGlobals PropFormulaText PropDemand PropSheetList BookContent BookFormats BookFollow PropWorkbook.

(** ** Specification *)

Definition rows_limit (bv : Z) : Z := if 80 <=? bv then 65536 else 16384.

(** The ROW record of a row, and a COLINFO record that covers a column. *)
Definition row_record (bv r rc : Z) (d : list Z) : bool := (rc =? 0x208) && (u16_at d 0 =? r) && (r <? rows_limit bv).
Definition col_record (k rc : Z) (d : list Z) : bool :=
  (rc =? 0x7D) && (u16_at d 0 <=? k) && (k <=? u16_at d 2) && (u16_at d 2 <=? 256) && (k <? 256).

(** The XF of a cell that has no record: that of its row, else that of its column, else 15. *)
Definition inherited_xf (bv : Z) (rs : list record) (r k : Z) : Z :=
  let col := match last_rec (col_record k) rs with Some d => u16_at d 6 | None => 15 end in
  match last_rec (row_record bv r) rs with
  | Some d => match row_xf d with Some x => x | None => col end
  | None => col
  end.

(** The width of a column in 1/256 of a character. *)
Definition column_width (bv : Z) (rs : list record) (k : Z) : Z :=
  let default := match last_rec (is_code 0x55) rs with Some d => 256 * u16_at d 0 | None => 2048 end in
  let standard := or_else (option_map (fun d => u16_at d 0) (last_rec (is_code 0x99) rs)) default in
  let own := option_map (fun d => u16_at d 4) (last_rec (col_record k) rs) in
  if 80 <=? bv then or_else own standard
  else match last_rec (is_code 0xAB) rs with
       | Some d => if gcw_bit d k then standard else or_else own default
       | None => or_else own default
       end.

(** The view: every attribute comes from the last record that has it. *)
Definition window (rs : list record) : option (list Z) := last_rec (is_code 0x23E) rs.
Definition window_if (p : list Z -> bool) (rs : list record) : option (list Z) := last_rec (fun rc d => (rc =? 0x23E) && p d) rs.
Definition height_record (rc : Z) (d : list Z) : bool := (rc =? 0x225) && ((zlen d =? 4) || (zlen d =? 2)).

Record view_shown (bv : Z) (nearest : Z * Z * Z -> Z) (rs : list record) (v : viewst) : Prop := {
  vw_options : v_options v = or_else (option_map options_of (window rs)) [0; 1; 1; 0; 1; 1; 0; 1; 0; 0; 0; 0];
  vw_first : (v_first_row v, v_first_col v) = or_else (option_map (fun d => (bits d 16 16, bits d 32 16)) (window rs)) (0, 0);
  vw_gridline : v_gridline_colour v = or_else (option_map (fun d => if long_form bv d then bits d 48 16 else nearest (rgb_of d)) (window rs)) 0x40;
  vw_rgb : v_gridline_rgb v = option_map rgb_of (window_if (fun d => negb (long_form bv d)) rs);
  vw_zooms : (v_cached_preview v, v_cached_normal v) =
    or_else (option_map (fun d => (bits d 80 16, bits d 96 16)) (window_if (long_form bv) rs)) (0, 0);
  vw_pane : v_pane v = option_map pane_of (last_rec (is_code 0x41) rs);
  vw_height : v_default_height v = option_map height_of (last_rec height_record rs);
  vw_height_flags : v_height_bits v = or_else (option_map height_flags (last_rec (is_code 0x225) rs)) 0 }.

(** The zoom factors of the normal view and of the page break preview (C33). *)
Definition zooms (rs : list record) : Z * Z :=
  let '(in_preview, preview, normal) := window_says (window rs) in
  let z := or_else (option_map scl_value (last_rec (is_code 0xA0) rs)) 100 in
  if in_preview then (other_zoom normal z, z) else (z, if preview =? 0 then 60 else other_zoom preview z).

(** The data of the HLINK records, each with that of the last QUICKTIP record after
    it and before the next HLINK record. *)
Definition with_tip (l : list (list Z * option (list Z))) (q : list Z) : list (list Z * option (list Z)) :=
  match rev l with [] => [] | (d, _) :: r => rev r ++ [(d, Some q)] end.
Definition link_data (rs : list record) : list (list Z * option (list Z)) :=
  fold_left (fun acc (r : record) => let '(rc, _, d) := r in if rc =? 0x1B8 then acc ++ [(d, None)] else if rc =? 0x800 then with_tip acc d else acc) rs [].

(** What an HLINK record and a QUICKTIP record say of a hyperlink (C68). *)
Definition link_says (x : list Z * option (list Z)) (h : hyperlink) : Prop :=
  (forall p rest, hspec_ok p -> fst x = hlink_bytes p ++ rest ->
     untip h = mk_hyperlink (p_r1 p) (p_r2 p) (p_c1 p) (p_c2 p) (Some (goal_type (p_goal p))) (goal_path (p_goal p)) (p_desc p) (p_target p) (p_textmark p) None) /\
  match snd x with
  | None => h_quicktip h = None
  | Some q => forall t, text t -> q = quicktip_data h t -> h_quicktip h = Some t
  end.

(** What a sheet shows, given its own records. *)
Record shows {N} (bv : Z) (fmt : bool) (nearest : Z * Z * Z -> Z) (rs : list record) (sh : sheet N) : Prop := {
  sw_rows : forall r, dget Z.eqb (f_rows (sh_fmt sh)) r = if fmt then option_map row_says (last_rec (row_record bv r) rs) else None;
  sw_cols : forall k, dget Z.eqb (f_cols (sh_fmt sh)) k = if fmt then option_map col_says (last_rec (col_record k) rs) else None;
  sw_width : forall c : config N, c_bv c = bv -> c_fmt c = true -> fmt = true -> forall k, 0 <= k < 256 ->
    computed_column_width c sh k = Ok (column_width bv rs k);
  sw_xf : forall c : config N, c_bv c = bv -> c_fmt c = true -> fmt = true -> forall r k x, plane_get (g_xfs (sh_grid sh)) r k = Ok x ->
    cell_xf_index c sh r k = Ok (if x >? -1 then x else inherited_xf bv rs r k);
  sw_merged : f_merged (sh_fmt sh) = if fmt then listed 0xE5 row_ranges rs else [];
  sw_hbreaks : v_hbreaks (sh_view sh) = if fmt then listed 0x1B (breaks_in bv 255) rs else [];
  sw_vbreaks : v_vbreaks (sh_view sh) = if fmt then listed 0x1A (breaks_in bv 65535) rs else [];
  sw_row_labels : v_row_labels (sh_view sh) = listed 0x15F row_ranges rs;
  sw_col_labels : v_col_labels (sh_view sh) = listed 0x15F col_ranges rs;
  sw_view : view_shown bv nearest rs (sh_view sh);
  sw_zooms : 80 <= bv -> Forall (fun r : record => fst (fst r) = 0x23E -> 14 <= zlen (snd r)) rs -> cooked_mag_factors (sh_view sh) = zooms rs;
  sw_links : Forall2 link_says (link_data rs) (l_list (o_links (sh_obj sh)));
  sw_link_map : forall r k, link_at (o_links (sh_obj sh)) r k = last_link (l_list (o_links (sh_obj sh))) r k }.

(** ** Proofs *)

(** The links, from the records that the loop handles. *)
Definition link_inv (x : list Z * option (list Z)) (h : hyperlink) : Prop :=
  parse_hlink (fst x) = Ok (untip h) /\
  match snd x with None => h_quicktip h = None | Some q => exists t, utf16_dec (py_slice q 10 (-2)) = Ok t /\ h_quicktip h = Some t end.

Definition add_data (acc : list (list Z * option (list Z))) (r : record) : list (list Z * option (list Z)) :=
  let '(rc, _, d) := r in if rc =? 0x1B8 then acc ++ [(d, None)] else if rc =? 0x800 then with_tip acc d else acc.

Lemma links_follow : forall {N} (c : config N) sh rs tr sh' rs', ran c sh rs tr sh' rs' -> forall acc,
  Forall2 link_inv acc (l_list (o_links (sh_obj sh))) -> Forall2 link_inv (fold_left add_data tr acc) (l_list (o_links (sh_obj sh'))).
Proof.
  intros N c sh rs tr sh' rs' H. induction H as [|sh rc len d rs sh1 rs1 tr sh2 rs2 E S H IH]; intros acc HA; [exact HA|].
  cbn [fold_left]. apply IH. clear IH H. unfold add_data. destruct (Z.eqb_spec rc 0x1B8) as [->|N1]; [|destruct (Z.eqb_spec rc 0x800) as [->|N2]].
  - change (step c sh 0x1B8 len d rs) with (do l <- handle_hlink (o_links (sh_obj sh)) d; Ok (set_links sh l, rs)) in S.
    apply bind_ok in S as (l & E1 & E2). injection E2 as <- _. unfold handle_hlink in E1. apply bind_ok in E1 as (h & P & E1). injection E1 as <-.
    change (l_list (o_links (sh_obj (set_links sh (add_link (o_links (sh_obj sh)) h))))) with (l_list (o_links (sh_obj sh)) ++ [h]).
    apply Forall2_app; [exact HA|]. constructor; [|constructor]. pose proof (parse_no_tip _ _ P) as T. split; cbn [fst snd]; [|exact T].
    rewrite P. f_equal. unfold untip. rewrite <- T. destruct h; reflexivity.
  - change (step c sh 0x800 len d rs) with (do l <- handle_quicktip (o_links (sh_obj sh)) d; Ok (set_links sh l, rs)) in S.
    apply bind_ok in S as (l & E1 & E2). injection E2 as <- _. unfold handle_quicktip in E1. do 7 (apply bind_ok in E1 as (? & _ & E1)).
    destruct (rev (l_list (o_links (sh_obj sh)))) as [|h before] eqn:EL; [discriminate|]. do 2 (apply bind_ok in E1 as (? & _ & E1)).
    apply bind_ok in E1 as (t & ET & E1). injection E1 as <-.
    change (l_list (o_links (sh_obj (set_links sh (mk_links (rev before ++ [set_quicktip h t]) (l_map (o_links (sh_obj sh)))))))) with (rev before ++ [set_quicktip h t]).
    assert (EL2 : l_list (o_links (sh_obj sh)) = rev before ++ [h]) by (rewrite <- (rev_involutive (l_list _)), EL; reflexivity).
    rewrite EL2 in HA. apply Forall2_app_inv_r in HA as (a1 & a2 & F1 & F2 & ->). inversion F2 as [|[b q] ? a3 ? P F3]; subst. inversion F3; subst.
    unfold with_tip. rewrite rev_app_distr. cbn [rev app]. rewrite rev_involutive. apply Forall2_app; [exact F1|]. constructor; [|constructor].
    split; cbn [fst snd]; [exact (proj1 P)|]. exists t. split; [exact ET|reflexivity].
  - change XL_HLINK with 0x1B8 in *. rewrite (la_links _ _ _ (step_alone c _ _ _ _ _ _ _ S) N1 N2). exact HA.
Qed.

Lemma link_data_attributes : forall tr, link_data (attributes tr) = link_data tr.
Proof.
  intros tr. change (fold_left add_data (attributes tr) [] = fold_left add_data tr []). generalize (@nil (list Z * option (list Z))). induction tr as [|[[rc len] d] tr IH]; intros acc; [reflexivity|].
  rewrite attributes_cons. destruct (attribute_code rc) eqn:E; cbn [app fold_left]; [apply IH|]. rewrite IH. f_equal. unfold add_data.
  destruct (Z.eqb_spec rc 0x1B8) as [->|]; [discriminate|]. destruct (Z.eqb_spec rc 0x800) as [->|]; [discriminate|]. reflexivity.
Qed.

Lemma link_inv_says : forall x h, link_inv x h -> link_says x h.
Proof.
  intros [d q] h [P Q]. split; cbn [fst snd] in *.
  - intros p rest OK ->. rewrite (c68_hlink p rest OK) in P. congruence.
  - destruct q as [q|]; [|exact Q]. destruct Q as (t0 & D & ->). intros t T ->. f_equal.
    assert (A0 : At (quicktip_data h t) 0 (quicktip_data h t)) by apply At_0. unfold quicktip_data in A0 at 2.
    pose proof (At_skip _ _ _ _ 2 A0 ltac:(rewrite zlen_le_enc; lia)) as A1. pose proof (At_skip _ _ _ _ 4 A1 ltac:(rewrite zlen_le_enc; lia)) as A2.
    pose proof (At_skip _ _ _ _ 6 A2 ltac:(rewrite zlen_le_enc; lia)) as A3. pose proof (At_skip _ _ _ _ 8 A3 ltac:(rewrite zlen_le_enc; lia)) as A4.
    pose proof (At_skip _ _ _ _ 10 A4 ltac:(rewrite zlen_le_enc; lia)) as A5.
    assert (ZL : zlen (quicktip_data h t) = 12 + zlen (utf16_enc t)).
    { unfold quicktip_data. rewrite !zlen_app, !zlen_le_enc. change (zlen [0; 0]) with 2. lia. }
    assert (SL : py_slice (quicktip_data h t) 10 (-2) = utf16_enc t).
    { rewrite <- (At_slice _ _ _ _ (10 + zlen (utf16_enc t)) A5 eq_refl). unfold py_slice. pose proof (zlen_nonneg (utf16_enc t)).
      replace (py_bound (zlen (quicktip_data h t)) (-2)) with (py_bound (zlen (quicktip_data h t)) (10 + zlen (utf16_enc t))); [reflexivity|].
      unfold py_bound. destruct (-2 <? 0) eqn:?, (_ + _ <? 0) eqn:?; lia. }
    rewrite SL, utf16_dec_enc in D by exact T. injection D as <-. reflexivity.
Qed.

Section Sheet.
Context {N : Type} (c : config N).

Lemma merged_trace : forall countries rs tr sh rs', ran c (sheet0 countries) rs tr sh rs' -> framed tr ->
  f_merged (sh_fmt sh) = if c_fmt c then listed 0xE5 row_ranges tr else [].
Proof.
  intros countries rs tr sh rs' HR HG. destruct (c_fmt c) eqn:HF.
  - apply (ran_listed c (fun sh => f_merged (sh_fmt sh)) 0xE5 row_ranges) with (2 := HR); [|exact HG].
    intros s rc d r s' r' _ HB S. destruct (Z.eqb_spec rc 0xE5) as [->|Hn].
    + change (step c s 0xE5 (zlen d) d r) with (plain (h_mergedcells c s (zlen d) d) r) in S. unfold plain, h_mergedcells in S.
      rewrite HF in S. cbn [negb] in S. cbv zeta in S. apply bind_ok in S as (s1 & S & E). injection E as <- _.
      apply bind_ok in S as ([m p] & E1 & S). apply bind_ok in S as (? & _ & S). injection S as <-.
      apply range_list_bits in E1 as [_ ->]; [reflexivity|exact HB|lia].
    + rewrite app_nil_r. exact (la_merged _ _ _ (step_alone c _ _ _ _ _ _ _ S) Hn).
  - clear HG. assert (G : f_merged (sh_fmt sh) = f_merged (sh_fmt (sheet0 (N := N) countries))); [|exact G].
    induction HR as [|s rc len d r s1 r1 tr s2 r2 E S H IH]; [reflexivity|]. rewrite IH. clear IH. destruct (Z.eq_dec rc 0xE5) as [->|Hn].
    + change (step c s 0xE5 len d r) with (plain (h_mergedcells c s len d) r) in S. unfold plain, h_mergedcells in S. rewrite HF in S. injection S as <- _. reflexivity.
    + exact (la_merged _ _ _ (step_alone c _ _ _ _ _ _ _ S) Hn).
Qed.

Lemma rows_limit_max : max_rows c = rows_limit (c_bv c).
Proof. unfold max_rows, rows_limit. destruct (c_bv c >=? 80) eqn:?, (80 <=? c_bv c) eqn:?; (reflexivity || lia). Qed.

Ltac code_of := intros ? ? P; rewrite ?andb_true_iff in P; repeat match goal with H : _ /\ _ |- _ => destruct H end;
  match goal with H : (_ =? _) = true |- _ => apply Z.eqb_eq in H; subst; reflexivity end.

(** What the loop has made of the records it handled, in terms of those of the sheet. *)
Theorem c95_sheet : forall countries rs sh, 50 <= c_bv c -> complete false rs -> sheet_read c countries rs = Ok sh ->
  shows (c_bv c) (c_fmt c) (c_nearest c) (own_records false rs) sh.
Proof.
  intros countries rs sh HV HG H. unfold sheet_read in H. apply bind_ok in H as (sh1 & R & H). apply bind_ok in H as (g & _ & H). injection H as <-.
  fold (read_all c (sheet0 countries) rs) in R. destruct (read_ran c _ _ _ R) as (tr & len' & d' & rest' & HR).
  assert (FT : framed tr) by exact (ran_complete c _ _ _ _ _ HR HG). pose proof (framed_good _ FT) as GT.
  pose proof (ran_own c _ _ _ _ _ _ _ HR) as AT. set (own := own_records false rs) in *.
  assert (LR : forall p, (forall rc d, p rc d = true -> attribute_code rc = true) -> last_rec p own = last_rec p tr).
  { intros p HP. rewrite <- (last_rec_attributes p tr HP), <- (last_rec_attributes p own HP), AT. reflexivity. }
  assert (LL : forall A code (f : list Z -> list A), attribute_code code = true -> listed code f own = listed code f tr).
  { intros A code f HC. rewrite <- (listed_attributes code f tr HC), <- (listed_attributes code f own HC), AT. reflexivity. }
  assert (RR : forall r, last_rec (row_record (c_bv c) r) own = last_rec (is_row (max_rows c) r) tr).
  { intros r. rewrite LR; [|unfold row_record; code_of]. unfold row_record, is_row. rewrite rows_limit_max. reflexivity. }
  assert (CR : forall k, last_rec (col_record k) own = last_rec (covers_col k) tr).
  { intros k. rewrite LR; [reflexivity|unfold col_record; code_of]. }
  assert (CODE : forall code, attribute_code code = true -> last_rec (is_code code) own = last_rec (is_code code) tr).
  { intros code HC. apply LR. unfold is_code. intros rc d E. apply Z.eqb_eq in E. subst rc. exact HC. }
  assert (WI : forall p, window_if p own = window_if p tr).
  { intros p. apply LR. code_of. }
  assert (W : window own = window tr) by (apply CODE; reflexivity).
  split; cbn [with_grid sh_fmt sh_view sh_obj sh_grid].
  - intros r. rewrite RR. destruct (c_fmt c) eqn:HF.
    + exact (all_rows_trace c r HF _ _ _ _ _ HR GT None eq_refl).
    + destruct (no_fmt_trace c HF _ _ _ _ _ HR) as [-> _]. reflexivity.
  - intros k. rewrite CR. destruct (c_fmt c) eqn:HF.
    + exact (all_cols_trace c k HF _ _ _ _ _ HR GT None eq_refl).
    + destruct (no_fmt_trace c HF _ _ _ _ _ HR) as [_ ->]. reflexivity.
  - intros c1 V1 F1 HF k K. pose proof (c32_width c countries rs tr sh1 _ g k HF HV HR GT K) as E.
    assert (EQ : computed_column_width c1 (with_grid sh1 g) k = computed_column_width c (with_grid sh1 g) k) by (unfold computed_column_width, req_fmt_info; rewrite V1, F1, HF; reflexivity).
    change (with_grid sh1 g) with (with_grid sh1 g) in EQ. rewrite EQ, E. f_equal.
    unfold width_spec, column_width, own_width, standard_width, default_width, global_col.
    rewrite CR, (CODE 0x55 eq_refl), (CODE 0x99 eq_refl), (CODE 0xAB eq_refl). change XL_DEFCOLWIDTH with 0x55. change XL_STANDARDWIDTH with 0x99. change XL_GCW with 0xAB.
    replace (c_bv c >=? 80) with (80 <=? c_bv c) by (destruct (80 <=? c_bv c) eqn:?, (c_bv c >=? 80) eqn:?; (reflexivity || lia)).
    destruct (80 <=? c_bv c); [reflexivity|]. destruct (last_rec (is_code 0xAB) tr) as [d|]; [destruct (gcw_bit d k)|]; reflexivity.
  - intros c1 V1 F1 HF r k x X. pose proof (c25_fallback c countries rs tr sh1 _ g r k x HF HR GT X) as E.
    assert (EQ : cell_xf_index c1 (with_grid sh1 g) r k = cell_xf_index c (with_grid sh1 g) r k) by (unfold cell_xf_index, req_fmt_info; rewrite F1, HF; reflexivity).
    rewrite EQ, E. unfold inherited_xf, default_xf. rewrite CR, RR. reflexivity.
  - rewrite (LL _ 0xE5 _ eq_refl). exact (merged_trace _ _ _ _ _ HR FT).
  - rewrite (LL _ 0x1B _ eq_refl). destruct (c_fmt c) eqn:HF; [exact (proj1 (lists_trace c HF _ _ _ _ _ HR FT))|exact (proj1 (no_breaks_trace c HF _ _ _ _ _ HR))].
  - rewrite (LL _ 0x1A _ eq_refl). destruct (c_fmt c) eqn:HF; [exact (proj2 (lists_trace c HF _ _ _ _ _ HR FT))|exact (proj2 (no_breaks_trace c HF _ _ _ _ _ HR))].
  - rewrite (LL _ 0x15F _ eq_refl). exact (proj1 (labels_trace c _ _ _ _ _ HR FT)).
  - rewrite (LL _ 0x15F _ eq_refl). exact (proj2 (labels_trace c _ _ _ _ _ HR FT)).
  - destruct (window_traces c _ _ _ _ _ HR FT) as [V1 V2 V3 V4 V5 V6 V7 V8 V9 V10].
    split; rewrite ?W, ?WI, ?(CODE 0x41 eq_refl), ?(CODE 0x225 eq_refl).
    + exact V1.
    + rewrite V2, V3. change (last_rec (is_code XL_WINDOW2) tr) with (window tr). destruct (window tr); reflexivity.
    + exact V4.
    + exact V5.
    + rewrite V6, V7. change (last_rec (window_long (c_bv c)) tr) with (window_if (long_form (c_bv c)) tr). destruct (window_if _ tr); reflexivity.
    + exact V8.
    + rewrite LR; [exact V9|unfold height_record; code_of].
    + exact V10.
  - intros HV8 HL. unfold zooms. rewrite W, (CODE 0xA0 eq_refl). apply (c33_zoom c countries rs tr sh1 _ HV8 HR GT).
    assert (L1 : Forall (fun r : record => fst (fst r) = 0x23E -> 14 <= zlen (snd r)) (attributes tr)).
    { rewrite AT. apply Forall_forall. intros r I. apply filter_In in I as [I _]. rewrite Forall_forall in HL. exact (HL r I). }
    apply Forall_forall. intros [[rc len] d] I E. unfold framed in FT. rewrite Forall_forall in FT, L1. destruct (FT _ I) as [_ ->].
    apply (L1 (rc, zlen d, d)); [|exact E]. apply filter_In. split; [exact I|]. cbn [fst]. rewrite E. reflexivity.
  - rewrite <- (link_data_attributes own), <- AT, link_data_attributes.
    assert (F : Forall2 link_inv (link_data tr) (l_list (o_links (sh_obj sh1)))) by (apply (links_follow c _ _ _ _ _ HR []); constructor).
    clear - F. induction F; constructor; [apply link_inv_says; assumption|assumption].
  - exact (proj1 (c30_links c _ _ _ _ _ HR)).
Qed.
End Sheet.
Print Assumptions c95_sheet.

(** ** Opened workbooks *)

(** The records of a sheet leave no embedded stream open. *)
Fixpoint closed (embedded : bool) (rs : list (Z * list Z)) : Prop :=
  match rs with
  | [] => embedded = false
  | (rc, _) :: rs => if embedded then closed (negb (rc =? 0x0A)) rs else if rc =? 0x0A then True else closed (opens_stream rc) rs
  end.

(** At [pos] there is a worksheet: a BOF record, the records [recs], and EOF. *)
Definition sheet_at (mem : list Z) (pos : Z) (recs : list (Z * list Z)) : Prop :=
  exists op body v t, At mem pos (frame (op, body) ++ frames (recs ++ [(0x0A, [])]) ++ t) /\
    4 <= zlen body <= 20 /\ bof_says body op v /\ word body 1 = 0x10 /\ Forall framable recs /\ closed false recs.

Lemma own_closed : forall recs emb len d rest, closed emb recs ->
  own_records emb (map rec_of recs ++ (0x0A, len, d) :: rest) = own_records emb (map rec_of recs).
Proof.
  induction recs as [|[rc b] recs IH]; intros emb len d rest H; cbn [closed] in H.
  - subst emb. reflexivity.
  - cbn [map app]. unfold rec_of at 1 3. cbn [fst snd own_records]. destruct emb; [apply IH; exact H|].
    destruct (rc =? 0x0A); [reflexivity|]. destruct (opens_stream rc); [apply IH; exact H|]. f_equal. apply IH. exact H.
Qed.

Lemma complete_closed : forall recs emb len d rest, closed emb recs -> Forall (fun r => bytes (snd r)) recs ->
  complete emb (map rec_of recs ++ (0x0A, len, d) :: rest).
Proof.
  induction recs as [|[rc b] recs IH]; intros emb len d rest H B; cbn [closed] in H.
  - subst emb. exact I.
  - inversion B; subst. cbn [map app]. unfold rec_of at 1. cbn [fst snd complete]. destruct emb; cbn [negb andb].
    + split; [split; [assumption|reflexivity]|apply IH; assumption].
    + destruct (rc =? 0x0A); [exact I|]. split; [split; [assumption|reflexivity]|apply IH; assumption].
Qed.

Lemma bytes_frames : forall recs, bytes (frames recs) -> Forall (fun r => bytes (snd r)) recs.
Proof.
  induction recs as [|[rc b] recs IH]; intros B; [constructor|]. unfold frames in B. cbn [flat_map] in B. fold (frames recs) in B.
  apply Forall_app in B as [B1 B2]. constructor; [|apply IH; exact B2]. unfold frame in B1. cbn [fst snd] in *. apply Forall_app in B1 as [_ B1]. apply Forall_app in B1 as [_ B1]. exact B1.
Qed.

Section Opened.
Context {N : Type}.
Variable codec : list Z -> list Z -> result (list Z).
Variable ops : numops N.
Variable lower : list Z -> list Z.
Variable num8 : list Z -> N.
Variable rk : list Z -> result N.
Variable ragged : bool.
Notation loaded := (loaded (N := N)).
Notation api := (api (N := N)).
Notation book := (book N loaded).
Variable old : book -> list Z -> Z -> list Z -> Z -> result (shared * loaded).
Notation perform := (perform codec num8 rk ragged old).
Notation history := (history codec num8 rk ragged old).
Notation open_stream := (open_stream codec ops lower num8 rk ragged old).
Notation load := (load codec num8 rk ragged old).

Lemma ensure_fmt : forall (b b' : book), ensure codec b = Ok b' -> bk_fmt b' = bk_fmt b.
Proof. intros b b' H. unfold ensure in H. apply bind_ok in H as (s & _ & H). injection H as <-. reflexivity. Qed.

Lemma format_fmt : forall (b b' : book) r, format_record codec b r = Ok b' -> b_fmt (bk_fmt b') = b_fmt (bk_fmt b).
Proof.
  intros b b' r H. unfold format_record in H. apply bind_ok in H as (b1 & E & H). apply bind_ok in H as (f & S & H). injection H as <-.
  cbn. assert (X : bk_fmt b1 = bk_fmt b).
  { destruct r; try destruct (b_fmt (bk_fmt b)); try (injection E as <-; reflexivity); exact (ensure_fmt _ _ E). }
  rewrite <- X. exact (proj1 (proj2 (step_frame _ _ _ _ S))).
Qed.

Lemma gstep_fmt : forall (b : book) mem pos rc data b' p, gstep codec load b mem pos rc data = Ok (b', p) -> rc <> 0x8f -> b_fmt (bk_fmt b') = b_fmt (bk_fmt b).
Proof.
  intros b mem pos rc data b' p H N3. unfold gstep in H. cbv zeta in H.
  assert (Stay : forall r : result book, (do b <- r; Ok (b, pos)) = Ok (b', p) -> r = Ok b').
  { intros r E. apply bind_ok in E as (? & ? & E). injection E as <- <-. assumption. }
  destruct (rc =? 0xfc); [apply bind_ok in H as ([[? ?] ?] & _ & H); injection H as <- <-; reflexivity|].
  destruct ((rc =? 0x31) || (rc =? 0x231)); [apply Stay in H; exact (format_fmt _ _ _ H)|].
  destruct (rc =? 0x41e); [apply Stay in H; exact (format_fmt _ _ _ H)|].
  destruct (rc =? 0xe0); [apply Stay in H; exact (format_fmt _ _ _ H)|].
  destruct (rc =? 0x85).
  { apply Stay in H. apply bind_ok in H as (b1 & D & H). apply bind_ok in H as (s & _ & H). injection H as <-.
    destruct (derive_enc _ _ _ D) as (x & ->). reflexivity. }
  destruct (rc =? 0x22).
  { apply Stay in H. unfold handle_datemode in H. apply bind_ok in H as (? & _ & H). apply bind_ok in H as (? & _ & H). injection H as <-. reflexivity. }
  destruct (rc =? 0x42); [apply Stay in H; apply bind_ok in H as (r & _ & H); injection H as <-; reflexivity|].
  destruct (rc =? 0x8c).
  { apply Stay in H. unfold handle_country in H. do 4 (apply bind_ok in H as (? & _ & H)). injection H as <-. reflexivity. }
  destruct (rc =? 0x23); [apply Stay in H; apply bind_ok in H as (r & _ & H); injection H as <-; reflexivity|].
  destruct (rc =? 0x17).
  { apply bind_ok in H as (b1 & D & H). apply bind_ok in H as ([r q] & _ & H). injection H as <- <-. destruct (derive_enc _ _ _ D) as (x & ->). reflexivity. }
  destruct (rc =? 0x2f); [discriminate|].
  destruct (rc =? 0x5c); [apply Stay in H; apply bind_ok in H as (s & W & H); injection H as <-; reflexivity|].
  destruct (rc =? 0x8e).
  { apply Stay in H. apply bind_ok in H as (? & _ & H). apply bind_ok in H as (? & _ & H). injection H as <-. reflexivity. }
  replace (rc =? 0x8f) with false in H by lia.
  destruct (rc =? 0x1ae); [apply Stay in H; apply bind_ok in H as (r & _ & H); injection H as <-; reflexivity|].
  destruct (rc =? 0x18).
  { destruct (bk_bv b <? 50); [injection H as <- <-; reflexivity|].
    apply Stay in H. apply bind_ok in H as (b1 & D & H). apply bind_ok in H as (n & _ & H). injection H as <-. destruct (derive_enc _ _ _ D) as (x & ->). reflexivity. }
  destruct (rc =? 0x92); [apply Stay in H; exact (format_fmt _ _ _ H)|].
  destruct (rc =? 0x293); [apply Stay in H; exact (format_fmt _ _ _ H)|].
  injection H as <- <-. reflexivity.
Qed.

(** The version and the choice of formatting_info when the globals have been read. *)
Lemma opened_options : forall fuel mem base bv rs ov fmt b0 m, workbook mem base bv rs -> 50 <= bv ->
  open_stream fuel mem base ov fmt true = Ok (mk_api b0 m) -> bk_bv b0 = bv /\ b_fmt (bk_fmt b0) = fmt.
Proof.
  intros fuel mem base bv rs ov fmt b0 m (pos & d & post & GB & FR & LD & A & NE) V O.
  unfold BookApi.open_stream in O. rewrite GB, bind_Ok in O.
  apply bind_ok in O as (? & _ & O). apply bind_ok in O as (? & _ & O). apply bind_ok in O as (b & B & O).
  replace (bv <=? 40) with false in O by lia. replace (bv =? 45) with false in O by lia.
  apply bind_ok in O as ([b1 p1] & G & O). cbv zeta in O.
  assert (b0 = with_list b1 (map (fun _ => None) (sl_names (bk_sheets b1)))) as -> by congruence.
  change (bk_bv b1 = bv /\ b_fmt (bk_fmt b1) = fmt).
  set (P := fun (b : book) (_ : list (Z * list Z)) => bk_bv b = bv /\ b_fmt (bk_fmt b) = fmt).
  assert (PB : P b rs).
  { unfold book0 in B. apply bind_ok in B as (f & F & B). injection B as <-. split; [reflexivity|].
    unfold fbook0 in F. apply bind_ok in F as (cm & _ & F). injection F as <-. reflexivity. }
  destruct (globals_walk codec load ops lower P mem d post LD) with (fuel := fuel) (rs := rs) (b := b) (pos := pos) (b' := b1) (p' := p1) as (bl & [P1 P2] & GE); auto.
  { intros b2 pos2 rc data rs2 b3 p3 cs rs3 [Q1 Q2] _ _ _ _ N8 S _. split; [rewrite (gstep_version _ _ _ _ _ _ _ _ _ S N8); exact Q1|].
    rewrite (gstep_fmt _ _ _ _ _ _ _ S N8). exact Q2. }
  destruct (globals_end_alike _ _ _ _ _ GE) as [K1 _ _ _ _]. split; [congruence|].
  unfold globals_end in GE. cbv zeta in GE. apply bind_ok in GE as ([names maps] & _ & GE).
  assert (Y : forall (l : list font) (f0 : fbook), b_fmt (fold_left (fun b f => if fo_index f =? 4 then b else if fo_colour_index f =? 0x7fff then b else FormatModel.mark b (fo_colour_index f)) l f0) = b_fmt f0).
  { induction l as [|z l IH]; intros f0; [reflexivity|]. cbn [fold_left]. rewrite IH. destruct (_ =? 4); [reflexivity|]. destruct (_ =? 0x7fff); [reflexivity|]. unfold FormatModel.mark. destruct (dget _ _ _); reflexivity. }
  assert (X : b_fmt (palette_epilogue (xf_epilogue (bk_fmt bl))) = b_fmt (bk_fmt bl)) by (unfold palette_epilogue; rewrite Y; reflexivity).
  destruct (truthy _); [injection GE as <-; rewrite <- P2; exact X|]. destruct (derive_enc _ _ _ GE) as (? & ->). rewrite <- P2. exact X.
Qed.

Lemma sheet_records : forall mem pos recs version p, bytes mem -> 0 <= pos ->
  sheet_at mem pos recs -> getbof mem pos 0x10 = Ok (version, p) ->
  exists pre t, mem = pre ++ frames (recs ++ [(XL_EOF, [])]) ++ t /\ zlen pre = p /\ Forall framable recs.
Proof using.
  clear codec ops lower num8 rk ragged old.
  intros mem pos recs version p B P (op & body & v & t & A & LB & BS & WB & FR & _) GB.
  assert (S : stands mem pos op body).
  { destruct A as (before & EM & EP). eexists before, _. split; [|symmetry; exact EP]. rewrite EM at 1. unfold frame. cbn [fst snd]. rewrite <- !app_assoc. reflexivity. }
  assert (GB2 : getbof mem pos 0x10 = Ok (v, pos + 4 + zlen body)).
  { apply (c47_getbof _ _ _ _ _ B P). exists op, body. split; [exact S|]. split; [exact LB|]. split; [exact BS|]. split; [left; exact WB|reflexivity]. }
  rewrite GB in GB2. injection GB2 as -> ->.
  destruct A as (before & EM & EP). exists (before ++ frame (op, body)), t. split; [rewrite <- app_assoc; exact EM|]. split; [|exact FR].
  rewrite zlen_app. unfold frame. cbn [fst snd]. rewrite !zlen_app, !zlen_le_enc. lia.
Qed.

(** Every worksheet of an opened workbook shows what its own records in the file describe. *)
Theorem c95_workbook : forall fuel mem base bv rs override fmt on_demand a es h i j k e sh recs,
  bytes mem -> 0 <= base -> workbook mem base bv rs -> 50 <= bv -> lists codec bv override None rs es ->
  open_stream fuel mem base override fmt on_demand = Ok a ->
  let a' := snd (history a h) in let ws := filter worksheet es in
  i = j \/ i = j - zlen ws -> znth ws j = Some e -> 0 <= e_posn e ->
  fst (perform k a' (SheetByIndex i)) = Ok (Got sh) ->
  sheet_at mem (e_posn e + base) recs ->
  shows bv fmt (nearest_colour_index (b_colours (bk_fmt (a_book a)))) (own_records false (map rec_of recs)) (ls_sheet sh).
Proof.
  intros fuel mem base bv rs ov fmt od a es h i j k e sh recs B PB W V L H a' ws IJ E PE Q SA.
  destruct (by_index codec ops lower num8 rk ragged old _ _ _ _ _ _ _ _ _ _ h _ _ k _ _ W V L H IJ E Q) as (b0 & version & pos & countries & s & O & GB & SR & N1 & N2 & SX).
  destruct (opened_options _ _ _ _ _ _ _ _ _ W V O) as [BV BF].
  assert (CM : bk_fmt (a_book a) = bk_fmt b0).
  { destruct (opened codec ops lower num8 rk ragged old _ _ _ _ _ _ _ _ _ _ W V L H) as (b1 & (k1 & l1 & EA & _) & _ & _ & _ & O1 & _).
    rewrite O1 in O. injection O as <-. rewrite EA. reflexivity. }
  destruct (sheet_records mem (e_posn e + base) _ _ _ B ltac:(lia) SA GB) as (pre & t & EM & EP & FR). destruct SA as (_ & _ & _ & _ & _ & _ & _ & _ & _ & CL).
  assert (FR2 : Forall framable (recs ++ [(XL_EOF, [])])).
  { apply Forall_app; split; [exact FR|constructor; [split; [cbn [fst]; unfold XL_EOF; lia|reflexivity]|constructor]]. }
  change (records_of (S (2 * List.length mem)) mem pos) with (stream mem pos) in SR.
  assert (ES : exists rest, stream mem pos = map rec_of recs ++ (0x0A, 0, []) :: rest).
  { rewrite EM in B. rewrite EM, <- EP, stream_frames by assumption. rewrite map_app, <- app_assoc. eexists. reflexivity. }
  destruct ES as (rest & ES).
  assert (BR : Forall (fun r => bytes (snd r)) recs).
  { apply bytes_frames. rewrite EM in B. apply Forall_app in B as [_ B]. apply Forall_app in B as [B _]. unfold frames in *. rewrite flat_map_app in B. apply Forall_app in B as [B _]. exact B. }
  assert (FD : complete false (stream mem pos)) by (rewrite ES; apply complete_closed; assumption).
  assert (V2 : 50 <= c_bv (config_of codec num8 rk ragged b0)) by (cbn [config_of c_bv]; lia).
  pose proof (c95_sheet (config_of codec num8 rk ragged b0) _ _ _ V2 FD SR) as G.
  cbn [config_of c_bv c_fmt c_nearest] in G. rewrite BV, BF in G. rewrite CM.
  assert (EO : own_records false (stream mem pos) = own_records false (map rec_of recs)).
  { rewrite ES. apply own_closed. exact CL. }
  rewrite EO in G. assert (S1 : sh_fmt (ls_sheet sh) = sh_fmt s) by exact (f_equal sh_fmt SX). assert (S2 : sh_view (ls_sheet sh) = sh_view s) by exact (f_equal sh_view SX).
  assert (S3 : sh_obj (ls_sheet sh) = sh_obj s) by exact (f_equal sh_obj SX). assert (S4 : sh_grid (ls_sheet sh) = sh_grid s) by exact (f_equal sh_grid SX).
  destruct G as [G1 G2 G3 G4 G5 G6 G7 G8 G9 G10 G11 G12 G13].
  split; rewrite ?S1, ?S2, ?S3, ?S4; try assumption.
  - intros c C1 C2 C3 x X. rewrite <- (G3 c C1 C2 C3 x X). unfold computed_column_width. rewrite S1. reflexivity.
  - intros c C1 C2 C3 r x y Y. rewrite <- (G4 c C1 C2 C3 r x y Y). unfold cell_xf_index. rewrite S1, S4. reflexivity.
Qed.
End Opened.
Print Assumptions c95_workbook.

(** The hypotheses hold of a workbook whose sheet has an embedded chart with a ROW
    record and a WINDOW2 record of its own. *)
Module Fancy.
Definition records : list (Z * list Z) :=
  [Small.xf 0; (0x85, fixed_part (mk_entry 53 1 0 (s2l "S")) ++ us_field 1 (Small.plain (s2l "S")) ++ [])].
Definition link : hspec := mk_hspec 1 2 3 4 None None GBook (Some [65]).
Definition row (r h : Z) : Z * list Z := (0x208, le_enc 2 r ++ [0; 0; 5; 0] ++ le_enc 2 h ++ [0; 0; 0; 0; 0; 0; 15; 0]).
Definition sheet : list (Z * list Z) :=
  [row 3 300; Small.bof 0x20; row 5 400; row 3 400; (0x23E, repeat 255 18); (0x0A, []); (0x7D, [1; 0; 2; 0; 0; 9; 0; 0; 1; 0; 0; 0]);
   (0x23E, [0xB6; 6; 7; 0; 2; 0; 64; 0; 0; 0; 0; 0; 0; 0; 0; 0; 0; 0]); (0xE5, [1; 0; 1; 0; 2; 0; 3; 0; 4; 0]);
   (0x1B8, hlink_bytes link); (0x800, le_enc 2 0x800 ++ [1; 0; 2; 0; 3; 0; 4; 0] ++ [72; 0; 105; 0] ++ [0; 0])].
Definition file : list Z := frame (Small.bof 5) ++ frames records ++ frame (0x0a, []) ++ frame (Small.bof 0x10) ++ frames (sheet ++ [(0x0A, [])]).
End Fancy.

Example c95_example :
  let codec := fun _ b => Ok b in let rk := fun b => Ok (le_val b) in
  bytes Fancy.file /\ workbook Fancy.file 0 80 Fancy.records /\
  lists codec 80 None None Fancy.records [mk_entry 53 1 0 (s2l "S")] /\ sheet_at Fancy.file 53 Fancy.sheet /\
  map (fun r => option_map row_says (last_rec (row_record 80 r) (own_records false (map rec_of Fancy.sheet)))) [5] = [None] /\
  match open_stream codec int_ops (fun s => s) le_val rk false (fun _ _ _ _ _ => Err XLRDError) 50 Fancy.file 0 None true true with
  | Ok a => match fst (perform codec le_val rk false (fun _ _ _ _ _ => Err XLRDError) (0, 0) a (SheetByIndex 0)) with
            | Ok (Got sh) => map (fun r => option_map ri_height (dget Z.eqb (f_rows (sh_fmt (ls_sheet sh))) r)) [3; 5] = [Some 300; None] /\
                             v_first_row (sh_view (ls_sheet sh)) = 7 /\ f_merged (sh_fmt (ls_sheet sh)) = [(1, 3, 3, 5)] /\
                             map h_quicktip (l_list (o_links (sh_obj (ls_sheet sh)))) = [Some [72; 105]]
            | _ => False
            end
  | Err _ => False
  end.
Proof.
  cbv zeta.
  assert (U : forall s, forallb (fun c => (0 <=? c) && (c <? 128)) s = true -> us_ok (Small.plain s)).
  { intros s F. rewrite forallb_forall in F. repeat split; auto; [|intros _]; apply Forall_forall; intros x X; specialize (F x X); unfold scalar; lia. }
  split. { apply Forall_forall. assert (F : forallb (fun b => (0 <=? b) && (b <? 256)) Fancy.file = true) by (vm_compute; reflexivity).
           rewrite forallb_forall in F. intros b I. specialize (F b I). lia. }
  split. { exists 12, [], (skipn 53 Fancy.file). split; [vm_compute; reflexivity|]. split; [apply Forall_forall; intros [rc d] I; vm_compute in I; repeat (destruct I as [I|I]; [injection I as <- <-; split; cbn; lia|]); destruct I|].
           split; [reflexivity|]. split; [exists (firstn 12 Fancy.file); split; vm_compute; reflexivity|].
           vm_compute. repeat constructor; discriminate. }
  split. { apply L_other; [lia|lia|]. apply L_sheet; [apply Biff8; [lia|repeat split; cbn; lia|apply U; reflexivity|vm_compute; reflexivity|reflexivity]|].
           apply L_nil. }
  split. { exists 0x0809, [0x00; 0x06; 0x10; 0; 0; 0; 0xcd; 7], 80, []. split; [exists (firstn 53 Fancy.file); split; vm_compute; reflexivity|].
           split; [vm_compute; split; discriminate|]. split; [vm_compute; repeat constructor; discriminate|]. split; [reflexivity|].
           split; [apply Forall_forall; intros [rc d] I; vm_compute in I; repeat (destruct I as [I|I]; [injection I as <- <-; split; cbn; lia|]); destruct I|].
           vm_compute. reflexivity. }
  split; [vm_compute; reflexivity|].
  vm_compute. repeat split.
Qed.
