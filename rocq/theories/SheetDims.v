(** The numbers of rows and columns of a worksheet are never negative. *)
From Verif Require Import Base BaseFacts Utf16 Strings Framing GridModel GridFacts
  SheetObjects SheetModel SheetFacts SheetSteps PropSheet.

Definition counted {V} (g : grid (V := V)) : Prop := 0 <= g_nrows g /\ 0 <= g_ncols g.

Lemma put_counted : forall {V} (ve : V) ragged fmt mr mc g s g', put_cell ve ragged fmt mr mc g s = Ok g' -> counted g -> counted g'.
Proof.
  intros V ve ragged fmt mr mc g s g' H [R C]. unfold put_cell in H. destruct ragged.
  - unfold put_cell_ragged in H. cbv zeta in H. apply bind_ok in H as (? & G1 & H). apply bind_ok in H as (? & G2 & H).
    unfold guard in G1, G2. destruct ((0 <=? s_col s) && _) eqn:Q1; [|discriminate]. destruct ((0 <=? s_row s) && _) eqn:Q2; [|discriminate].
    destruct (if g_nrows g <? s_row s + 1 then _ else _) as [[[nrows tt0] vv0] xx0] eqn:Q.
    assert (0 <= nrows) by (destruct (g_nrows g <? _); injection Q as <- _ _ _; lia).
    repeat (apply bind_ok in H as (? & _ & H)). injection H as <-. split; cbn; [assumption|]. destruct (_ >=? _); lia.
  - unfold put_cell_unragged in H. destruct (set3 fmt g s); [injection H as <-; split; assumption| |discriminate].
    cbv zeta in H. apply bind_ok in H as (? & G1 & H). apply bind_ok in H as (? & G2 & H).
    unfold guard in G1, G2. destruct ((1 <=? s_col s + 1) && _) eqn:Q1; [|discriminate]. destruct ((1 <=? s_row s + 1) && _) eqn:Q2; [|discriminate].
    destruct (if s_col s + 1 >? g_ncols g then _ else _) as [ncols ffr] eqn:Q.
    assert (0 <= ncols) by (destruct (s_col s + 1 >? _); injection Q as <- _; lia).
    apply bind_ok in H as ([[[nrows t1] v1] x1] & E & H).
    assert (0 <= nrows).
    { destruct (s_row s + 1 <=? g_nrows g); [|injection E as <- _ _ _; lia]. apply bind_ok in E as (? & _ & E). destruct (_ >? 0); inv_ok E; congruence || lia. }
    destruct (set3 fmt _ s); [injection H as <-; split; assumption|discriminate|discriminate].
Qed.

Lemma fix_rows_dims : forall {V} (ve : V) fmt nc rows g g', fix_rows ve fmt nc g rows = Ok g' -> g_nrows g' = g_nrows g /\ g_ncols g' = g_ncols g.
Proof.
  intros V ve fmt nc. induction rows as [|r rows IH]; intros g g' H; cbn [fix_rows] in H; [injection H as <-; auto|].
  apply bind_ok in H as (g1 & E & H). destruct (IH _ _ H) as [-> ->]. unfold fix_row in E. apply bind_ok in E as (? & _ & E). cbv zeta in E.
  destruct (_ >? 0); [|injection E as <-; auto]. repeat (apply bind_ok in E as (? & _ & E)). injection E as <-. auto.
Qed.

Lemma tidy_counted : forall {V} (ve : V) ragged fmt mr mc ms g g', tidy_dimensions ve ragged fmt mr mc ms g = Ok g' -> counted g -> counted g'.
Proof.
  intros V ve ragged fmt mr mc ms g g' H C. unfold tidy_dimensions in H. apply bind_ok in H as (g1 & E & H).
  assert (C1 : counted g1).
  { destruct ms as [|m ms]; [injection E as <-; exact C|]. destruct (merged_extent (m :: ms)) as [nr nc]. cbv zeta in E.
    set (g2 := if nc >? g_ncols g then _ else g) in E.
    assert (C2 : counted g2) by (unfold g2; destruct C as [C1 C2]; destruct (nc >? g_ncols g) eqn:Q; split; cbn; auto; lia).
    destruct (nr >? _); [exact (put_counted _ _ _ _ _ _ _ _ E C2)|injection E as <-; exact C2]. }
  destruct ragged; [injection H as <-; exact C1|]. cbv zeta in H. apply fix_rows_dims in H as [A B]. unfold counted. rewrite A, B. exact C1.
Qed.

Section Dims.
Context {N : Type} (c : config N).
Notation ok sh := (counted (sh_grid sh)).

Lemma sheet_put_counted : forall sh r k t v x sh', put c sh r k t v x = Ok sh' -> ok sh -> ok sh'.
Proof.
  intros sh r k t v x sh' H C. unfold put in H. inv_ok H; cbn; eauto using put_counted.
Qed.
Lemma rich_counted : forall sh r k runs, ok sh -> ok (set_rich (N := N) sh r k runs).
Proof. intros [? ? ? [] ?] r k runs C. exact C. Qed.
Lemma mulrk_counted : forall cols sh r d pos sh', mulrk_loop c cols sh r d pos = Ok sh' -> ok sh -> ok sh'.
Proof.
  induction cols as [|k cols IH]; intros sh r d pos sh' H C; cbn [mulrk_loop] in H; [injection H as <-; exact C|].
  repeat (apply bind_ok in H as (? & ? & H)). apply IH in H; [exact H|]. eapply sheet_put_counted; eassumption.
Qed.
Lemma mulblank_counted : forall cols sh r items pos sh', mulblank_loop c cols sh r items pos = Ok sh' -> ok sh -> ok sh'.
Proof.
  induction cols as [|k cols IH]; intros sh r d pos sh' H C; cbn [mulblank_loop] in H; [injection H as <-; exact C|].
  repeat (apply bind_ok in H as (? & ? & H)). apply IH in H; [exact H|]. eapply sheet_put_counted; eassumption.
Qed.

Lemma step_counted : forall sh rc len d rs sh' rs', step c sh rc len d rs = Ok (sh', rs') -> ok sh -> ok sh'.
Proof.
  intros sh rc len d rs sh' rs' H C. unfold step, plain in H.
  destruct (rc =? XL_NUMBER). { apply bind_ok in H as (s1 & H & E). injection E as <- _. unfold h_number in H. inv_ok H. eauto using sheet_put_counted. }
  destruct (rc =? XL_LABELSST). { apply bind_ok in H as (s1 & H & E). injection E as <- _. unfold h_labelsst in H. cbv zeta in H. inv_ok H; eauto using sheet_put_counted, rich_counted. }
  destruct (rc =? XL_LABEL). { apply bind_ok in H as (s1 & H & E). injection E as <- _. unfold h_label in H. inv_ok H. eauto using sheet_put_counted. }
  destruct (rc =? XL_RSTRING). { apply bind_ok in H as (s1 & H & E). injection E as <- _. unfold h_rstring in H. cbv zeta in H. inv_ok H; eauto using sheet_put_counted, rich_counted. }
  destruct (rc =? XL_RK). { apply bind_ok in H as (s1 & H & E). injection E as <- _. unfold h_rk in H. inv_ok H. eauto using sheet_put_counted. }
  destruct (rc =? XL_MULRK). { apply bind_ok in H as (s1 & H & E). injection E as <- _. unfold h_mulrk in H. inv_ok H. eauto using mulrk_counted. }
  destruct (rc =? XL_ROW). { unfold h_row in H. cbv zeta in H. inv_ok H. inv_ok E; exact C. }
  destruct (is_formula_code rc). { unfold h_formula in H. cbv zeta in H. inv_ok H; eauto using sheet_put_counted. }
  destruct (rc =? XL_BOOLERR). { apply bind_ok in H as (s1 & H & E). injection E as <- _. unfold h_boolerr in H. inv_ok H. eauto using sheet_put_counted. }
  destruct (rc =? XL_COLINFO). { unfold h_colinfo in H. cbv zeta in H. inv_ok H. inv_ok E; exact C. }
  destruct (rc =? XL_DEFCOLWIDTH). { unfold h_defcolwidth in H. cbv zeta in H. inv_ok H. inv_ok E; exact C. }
  destruct (rc =? XL_STANDARDWIDTH). { unfold h_standardwidth in H. cbv zeta in H. inv_ok H. inv_ok E; exact C. }
  destruct (rc =? XL_GCW). { unfold h_gcw in H. cbv zeta in H. inv_ok H. inv_ok E; exact C. }
  destruct (rc =? XL_BLANK).
  { apply bind_ok in H as (s1 & H & E). injection E as <- _. unfold h_blank in H. destruct (negb (c_fmt c)); [injection H as <-; exact C|]. inv_ok H. eauto using sheet_put_counted. }
  destruct (rc =? XL_MULBLANK).
  { apply bind_ok in H as (s1 & H & E). injection E as <- _. unfold h_mulblank in H. cbv zeta in H.
    destruct (negb (c_fmt c)); [injection H as <-; exact C|]. inv_ok H. eauto using mulblank_counted. }
  destruct ((rc =? XL_DIMENSION) || (rc =? XL_DIMENSION2)). { unfold h_dimension in H. cbv zeta in H. inv_ok H. inv_ok E; try exact C; split; cbn; lia. }
  destruct (rc =? XL_HLINK). { inv_ok H; exact C. }
  destruct (rc =? XL_QUICKTIP). { inv_ok H; exact C. }
  destruct (rc =? XL_OBJ). { unfold h_obj in H. cbv zeta in H. inv_ok H. inv_ok E; exact C. }
  destruct (rc =? XL_MSO_DRAWING). { inv_ok H; exact C. }
  destruct (rc =? XL_TXO). { unfold h_txo in H. cbv zeta in H. inv_ok H; exact C. }
  destruct (rc =? XL_NOTE). { unfold h_note in H. cbv zeta in H. inv_ok H; exact C. }
  destruct (rc =? XL_FEAT11). { inv_ok H; exact C. }
  destruct (is_bof_code rc). { inv_ok H; exact C. }
  destruct (rc =? XL_COUNTRY). { unfold h_country in H. inv_ok H. inv_ok E; exact C. }
  destruct (rc =? XL_LABELRANGES). { unfold h_labelranges in H. cbv zeta in H. inv_ok H. inv_ok E; exact C. }
  destruct (rc =? XL_ARRAY). { inv_ok H; exact C. }
  destruct (rc =? XL_SHRFMLA). { inv_ok H; exact C. }
  destruct (rc =? XL_CONDFMT). { unfold h_condfmt in H. cbv zeta in H. inv_ok H. inv_ok E; exact C. }
  destruct (rc =? XL_CF). { unfold h_cf in H. cbv zeta in H. inv_ok H. inv_ok E; exact C. }
  destruct (rc =? XL_DEFAULTROWHEIGHT). { unfold h_defaultrowheight in H. cbv zeta in H. inv_ok H. inv_ok E; exact C. }
  destruct (rc =? XL_MERGEDCELLS). { unfold h_mergedcells in H. cbv zeta in H. inv_ok H. inv_ok E; exact C. }
  destruct (rc =? XL_WINDOW2). { unfold h_window2 in H. cbv zeta in H. inv_ok H. inv_ok E; exact C. }
  destruct (rc =? XL_SCL). { unfold h_scl in H. cbv zeta in H. inv_ok H. inv_ok E; exact C. }
  destruct (rc =? XL_PANE). { unfold h_pane in H. cbv zeta in H. inv_ok H. inv_ok E; exact C. }
  destruct (rc =? XL_HORIZONTALPAGEBREAKS). { unfold h_hbreaks in H. cbv zeta in H. inv_ok H. inv_ok E; exact C. }
  destruct (rc =? XL_VERTICALPAGEBREAKS). { unfold h_vbreaks in H. cbv zeta in H. inv_ok H. inv_ok E; exact C. }
  inv_ok H; exact C.
Qed.

Lemma read_counted : forall countries rs sh, sheet_read c countries rs = Ok sh -> ok sh.
Proof.
  intros k rs sh H. unfold sheet_read in H. apply bind_ok in H as (s1 & R & H). apply bind_ok in H as (g & T & H). injection H as <-.
  change (counted g). apply (tidy_counted _ _ _ _ _ _ _ _ T). clear T g.
  assert (C0 : ok (sheet0 (N := N) k)) by (split; cbn; lia). revert R C0. generalize (sheet0 (N := N) k) as s0. generalize (S (List.length rs)) as fuel. intros fuel. revert rs.
  induction fuel as [|f IH]; intros rs s0 R C0; [discriminate|]. cbn [read_loop] in R. apply bind_ok in R as ([[[rc len] data] rs'] & _ & R).
  destruct (rc =? XL_EOF); [injection R as <-; exact C0|]. apply bind_ok in R as ([s2 rs2] & ST & R). exact (IH _ _ R (step_counted _ _ _ _ _ _ _ ST C0)).
Qed.
End Dims.
