(** Which part of a sheet each record can change. *)
From Verif Require Import Base BaseFacts Utf16 Strings Framing GridModel GridFacts
  SheetObjects SheetModel SheetFacts SheetSteps PropSheet.

Section Trace.
Context {N : Type} (c : config N).

(** Only cells and rich text may differ. *)
Definition same (sh sh' : sheet N) : Prop :=
  sh_fmt sh' = sh_fmt sh /\ sh_view sh' = sh_view sh /\ o_links (sh_obj sh') = o_links (sh_obj sh) /\
  o_notes (sh_obj sh') = o_notes (sh_obj sh) /\ o_txos (sh_obj sh') = o_txos (sh_obj sh) /\
  o_saved (sh_obj sh') = o_saved (sh_obj sh).

Lemma same_refl : forall sh, same sh sh.
Proof. intros. repeat split. Qed.
Lemma same_trans : forall a b d, same a b -> same b d -> same a d.
Proof. unfold same. intros a b d (?&?&?&?&?&?) (?&?&?&?&?&?). repeat split; congruence. Qed.

Lemma put_same : forall sh r k t v x sh', put c sh r k t v x = Ok sh' -> same sh sh'.
Proof. intros sh r k t v x sh' H. unfold put in H. inv_ok H; destruct sh; repeat split. Qed.
Lemma set_rich_same : forall sh r k runs, same sh (set_rich sh r k runs).
Proof. intros. destruct sh as [? ? ? [] ?]. repeat split. Qed.

Lemma mulrk_same : forall cols sh r d pos sh', mulrk_loop c cols sh r d pos = Ok sh' -> same sh sh'.
Proof.
  induction cols as [|k cols IH]; intros sh r d pos sh' H; cbn [mulrk_loop] in H.
  - injection H as <-. apply same_refl.
  - repeat (apply bind_ok in H as (? & ? & H)). apply IH in H. eapply same_trans; [|exact H]. eapply put_same. eassumption.
Qed.
Lemma mulblank_same : forall cols sh r items pos sh', mulblank_loop c cols sh r items pos = Ok sh' -> same sh sh'.
Proof.
  induction cols as [|k cols IH]; intros sh r d pos sh' H; cbn [mulblank_loop] in H.
  - injection H as <-. apply same_refl.
  - repeat (apply bind_ok in H as (? & ? & H)). apply IH in H. eapply same_trans; [|exact H]. eapply put_same. eassumption.
Qed.

(** What one turn of the loop leaves alone. *)
Record left_alone (rc : Z) (sh sh' : sheet N) : Prop := {
  la_rows : rc <> XL_ROW -> f_rows (sh_fmt sh') = f_rows (sh_fmt sh);
  la_cols : rc <> XL_COLINFO -> f_cols (sh_fmt sh') = f_cols (sh_fmt sh);
  la_defcolwidth : rc <> XL_DEFCOLWIDTH -> f_defcolwidth (sh_fmt sh') = f_defcolwidth (sh_fmt sh);
  la_standardwidth : rc <> XL_STANDARDWIDTH -> f_standardwidth (sh_fmt sh') = f_standardwidth (sh_fmt sh);
  la_gcw : rc <> XL_GCW -> f_gcw (sh_fmt sh') = f_gcw (sh_fmt sh);
  la_merged : rc <> XL_MERGEDCELLS -> f_merged (sh_fmt sh') = f_merged (sh_fmt sh);
  la_scl : rc <> XL_SCL -> v_scl (sh_view sh') = v_scl (sh_view sh);
  la_options : rc <> XL_WINDOW2 -> v_options (sh_view sh') = v_options (sh_view sh);
  la_preview : rc <> XL_WINDOW2 -> v_cached_preview (sh_view sh') = v_cached_preview (sh_view sh);
  la_normal : rc <> XL_WINDOW2 -> v_cached_normal (sh_view sh') = v_cached_normal (sh_view sh);
  la_hbreaks : rc <> XL_HORIZONTALPAGEBREAKS -> v_hbreaks (sh_view sh') = v_hbreaks (sh_view sh);
  la_vbreaks : rc <> XL_VERTICALPAGEBREAKS -> v_vbreaks (sh_view sh') = v_vbreaks (sh_view sh);
  la_visible : rc <> XL_WINDOW2 -> (v_first_row (sh_view sh'), v_first_col (sh_view sh')) = (v_first_row (sh_view sh), v_first_col (sh_view sh));
  la_gridline : rc <> XL_WINDOW2 ->
    (v_gridline_colour (sh_view sh'), v_gridline_rgb (sh_view sh')) = (v_gridline_colour (sh_view sh), v_gridline_rgb (sh_view sh));
  la_pane : rc <> XL_PANE -> v_pane (sh_view sh') = v_pane (sh_view sh);
  la_labels : rc <> XL_LABELRANGES -> (v_row_labels (sh_view sh'), v_col_labels (sh_view sh')) = (v_row_labels (sh_view sh), v_col_labels (sh_view sh));
  la_height : rc <> XL_DEFAULTROWHEIGHT ->
    (v_default_height (sh_view sh'), v_height_bits (sh_view sh')) = (v_default_height (sh_view sh), v_height_bits (sh_view sh));
  la_links : rc <> XL_HLINK -> rc <> XL_QUICKTIP -> o_links (sh_obj sh') = o_links (sh_obj sh);
  la_saved : rc <> XL_OBJ -> rc <> XL_TXO -> o_saved (sh_obj sh') = o_saved (sh_obj sh);
  la_txos : rc <> XL_TXO -> o_txos (sh_obj sh') = o_txos (sh_obj sh);
  la_notes : rc <> XL_NOTE -> o_notes (sh_obj sh') = o_notes (sh_obj sh) }.

Lemma same_alone : forall rc sh sh', same sh sh' -> left_alone rc sh sh'.
Proof. intros rc sh sh' (E1 & E2 & E3 & E4 & E5 & E6). constructor; intros; congruence. Qed.

Ltac done_here := constructor; intros; try contradiction; try reflexivity.

Lemma step_alone : forall sh rc len d rs sh' rs', step c sh rc len d rs = Ok (sh', rs') -> left_alone rc sh sh'.
Proof.
  intros sh rc len d rs sh' rs' H. unfold step, plain in H.
  destruct (Z.eqb_spec rc XL_NUMBER) as [->|_].
  { apply bind_ok in H as (s1 & H & E). injection E as <- _. unfold h_number in H. inv_ok H. apply same_alone. eapply put_same; eauto. }
  destruct (Z.eqb_spec rc XL_LABELSST) as [->|_].
  { apply bind_ok in H as (s1 & H & E). injection E as <- _. unfold h_labelsst in H. cbv zeta in H. inv_ok H;
      apply same_alone; eauto using put_same, set_rich_same, same_trans. }
  destruct (Z.eqb_spec rc XL_LABEL) as [->|_].
  { apply bind_ok in H as (s1 & H & E). injection E as <- _. unfold h_label in H. inv_ok H. apply same_alone. eapply put_same; eauto. }
  destruct (Z.eqb_spec rc XL_RSTRING) as [->|_].
  { apply bind_ok in H as (s1 & H & E). injection E as <- _. unfold h_rstring in H. cbv zeta in H. inv_ok H;
      apply same_alone; eauto using put_same, set_rich_same, same_trans. }
  destruct (Z.eqb_spec rc XL_RK) as [->|_].
  { apply bind_ok in H as (s1 & H & E). injection E as <- _. unfold h_rk in H. inv_ok H. apply same_alone. eapply put_same; eauto. }
  destruct (Z.eqb_spec rc XL_MULRK) as [->|_].
  { apply bind_ok in H as (s1 & H & E). injection E as <- _. unfold h_mulrk in H. inv_ok H. apply same_alone. eapply mulrk_same; eauto. }
  destruct (Z.eqb_spec rc XL_ROW) as [->|_]. { unfold h_row in H. cbv zeta in H. inv_ok H. inv_ok E; done_here. }
  destruct (is_formula_code rc).
  { unfold h_formula in H. cbv zeta in H. inv_ok H; apply same_alone; eauto using put_same. }
  destruct (Z.eqb_spec rc XL_BOOLERR) as [->|_].
  { apply bind_ok in H as (s1 & H & E). injection E as <- _. unfold h_boolerr in H. inv_ok H. apply same_alone. eapply put_same; eauto. }
  destruct (Z.eqb_spec rc XL_COLINFO) as [->|_]. { unfold h_colinfo in H. cbv zeta in H. inv_ok H. inv_ok E; done_here. }
  destruct (Z.eqb_spec rc XL_DEFCOLWIDTH) as [->|_]. { unfold h_defcolwidth in H. cbv zeta in H. inv_ok H. inv_ok E; done_here. }
  destruct (Z.eqb_spec rc XL_STANDARDWIDTH) as [->|_]. { unfold h_standardwidth in H. cbv zeta in H. inv_ok H. inv_ok E; done_here. }
  destruct (Z.eqb_spec rc XL_GCW) as [->|_]. { unfold h_gcw in H. cbv zeta in H. inv_ok H. inv_ok E; done_here. }
  destruct (Z.eqb_spec rc XL_BLANK) as [->|_].
  { apply bind_ok in H as (s1 & H & E). injection E as <- _. unfold h_blank in H. apply same_alone.
    destruct (negb (c_fmt c)); [injection H as <-; apply same_refl|]. inv_ok H. eapply put_same; eauto. }
  destruct (Z.eqb_spec rc XL_MULBLANK) as [->|_].
  { apply bind_ok in H as (s1 & H & E). injection E as <- _. unfold h_mulblank in H. cbv zeta in H. apply same_alone.
    destruct (negb (c_fmt c)); [injection H as <-; apply same_refl|]. inv_ok H. eapply mulblank_same; eauto. }
  destruct ((rc =? XL_DIMENSION) || (rc =? XL_DIMENSION2)). { unfold h_dimension in H. cbv zeta in H. inv_ok H. inv_ok E; done_here. }
  destruct (Z.eqb_spec rc XL_HLINK) as [->|_]. { inv_ok H; done_here. }
  destruct (Z.eqb_spec rc XL_QUICKTIP) as [->|_]. { inv_ok H; done_here. }
  destruct (Z.eqb_spec rc XL_OBJ) as [->|_]. { unfold h_obj in H. cbv zeta in H. inv_ok H. inv_ok E; done_here. }
  destruct (Z.eqb_spec rc XL_MSO_DRAWING) as [->|_]. { inv_ok H; done_here. }
  destruct (Z.eqb_spec rc XL_TXO) as [->|_]. { unfold h_txo in H. cbv zeta in H. inv_ok H; done_here. }
  destruct (Z.eqb_spec rc XL_NOTE) as [->|_]. { unfold h_note in H. cbv zeta in H. inv_ok H; done_here. }
  destruct (Z.eqb_spec rc XL_FEAT11) as [->|_]. { inv_ok H; done_here. }
  destruct (is_bof_code rc). { inv_ok H; done_here. }
  destruct (Z.eqb_spec rc XL_COUNTRY) as [->|_]. { unfold h_country in H. inv_ok H. inv_ok E; done_here. }
  destruct (Z.eqb_spec rc XL_LABELRANGES) as [->|_]. { unfold h_labelranges in H. cbv zeta in H. inv_ok H. inv_ok E; done_here. }
  destruct (Z.eqb_spec rc XL_ARRAY) as [->|_]. { inv_ok H; done_here. }
  destruct (Z.eqb_spec rc XL_SHRFMLA) as [->|_]. { inv_ok H; done_here. }
  destruct (Z.eqb_spec rc XL_CONDFMT) as [->|_]. { unfold h_condfmt in H. cbv zeta in H. inv_ok H. inv_ok E; done_here. }
  destruct (Z.eqb_spec rc XL_CF) as [->|_]. { unfold h_cf in H. cbv zeta in H. inv_ok H. inv_ok E; done_here. }
  destruct (Z.eqb_spec rc XL_DEFAULTROWHEIGHT) as [->|_]. { unfold h_defaultrowheight in H. cbv zeta in H. inv_ok H. inv_ok E; done_here. }
  destruct (Z.eqb_spec rc XL_MERGEDCELLS) as [->|_]. { unfold h_mergedcells in H. cbv zeta in H. inv_ok H. inv_ok E; done_here. }
  destruct (Z.eqb_spec rc XL_WINDOW2) as [->|_]. { unfold h_window2 in H. cbv zeta in H. inv_ok H. inv_ok E; done_here. }
  destruct (Z.eqb_spec rc XL_SCL) as [->|_]. { unfold h_scl in H. cbv zeta in H. inv_ok H. inv_ok E; done_here. }
  destruct (Z.eqb_spec rc XL_PANE) as [->|_]. { unfold h_pane in H. cbv zeta in H. inv_ok H. inv_ok E; done_here. }
  destruct (Z.eqb_spec rc XL_HORIZONTALPAGEBREAKS) as [->|_]. { unfold h_hbreaks in H. cbv zeta in H. inv_ok H. inv_ok E; done_here. }
  destruct (Z.eqb_spec rc XL_VERTICALPAGEBREAKS) as [->|_]. { unfold h_vbreaks in H. cbv zeta in H. inv_ok H. inv_ok E; done_here. }
  inv_ok H; done_here.
Qed.

End Trace.
