(** Which part of a sheet of BIFF2 to BIFF4W each record can change. *)
From Verif Require Import Base BaseFacts Text Strings Framing GridModel GridFacts PropGrid SheetObjects SheetModel SheetFacts
  SheetSteps PropSheet SheetTrace FormatModel FormatFacts FormulaModel BookModel BookApi PropFormat OldSheet OldXf.

Section OldTrace.
Context {N : Type}.
Variable codec : list Z -> list Z -> result (list Z).
Variable num8 : list Z -> N.
Variable rk : list Z -> result N.
Variable of_int : Z -> N.
Variable ragged : bool.
Notation ost := (@ost N).
Notation cfg := (cfg codec num8 rk ragged).
Notation old_step := (old_step codec num8 rk of_int ragged).

(** [oran bv s rs tr s' rs']: with [rs] still to read the loop goes from [s] to [s'];
    [tr] lists the records it dispatches on. *)
Inductive oran (bv : Z) : ost -> list record -> list record -> ost -> list record -> Prop :=
| oran_nil : forall s rs, oran bv s rs [] s rs
| oran_cons : forall s rc len d rs s1 rs1 tr s2 rs2, rc <> XL_EOF -> old_step bv s rc len d rs = Ok (s1, rs1) ->
    oran bv s1 rs1 tr s2 rs2 -> oran bv s ((rc, len, d) :: rs) ((rc, len, d) :: tr) s2 rs2.

Lemma loop_oran : forall fuel bv s rs s', old_loop codec num8 rk of_int ragged fuel bv s rs = Ok s' ->
  exists tr len d rest, oran bv s rs tr s' ((XL_EOF, len, d) :: rest).
Proof.
  induction fuel as [|fuel IH]; intros bv s rs s' H; [discriminate|]. cbn [old_loop] in H.
  destruct rs as [|[[rc len] d] rs]; [discriminate|]. cbn [next bind] in H. destruct (Z.eqb_spec rc XL_EOF) as [->|E].
  - injection H as <-. exists [], len, d, rs. apply oran_nil.
  - apply bind_ok in H as ((s1 & rs1) & S & H). apply IH in H as (tr & len' & d' & rest & R).
    exists ((rc, len, d) :: tr), len', d', rest. eapply oran_cons; eauto.
Qed.

(** The XFs made from cell attributes have these attributes. *)
Definition attr_inv (s : ost) : Prop := forall a i, dget list_eqb (os_attrs s) a = Some i ->
  exists a0 a1 a2 x, a = [a0; a1; a2] /\ znth (b_xfs (os_fmt s)) i = Some x /\ (bytes a -> attributes a0 a1 a2 x).

(** An XF, once made, stays. *)
Definition keep (s s' : ost) : Prop := attr_inv s ->
  attr_inv s' /\ (forall a i, dget list_eqb (os_attrs s) a = Some i -> dget list_eqb (os_attrs s') a = Some i).
Lemma keep_refl : forall s, keep s s.
Proof. clear codec num8 rk of_int ragged. intros s I. auto. Qed.
Lemma keep_trans : forall a b c, keep a b -> keep b c -> keep a c.
Proof. clear codec num8 rk of_int ragged. intros a b c H K I. destruct (H I) as [H1 H2]. destruct (K H1) as [K1 K2]. auto. Qed.
Lemma keep_more : forall s s', os_attrs s' = os_attrs s ->
  (forall i x, znth (b_xfs (os_fmt s)) i = Some x -> exists x', znth (b_xfs (os_fmt s')) i = Some x' /\
     forall a0 a1 a2, attributes a0 a1 a2 x -> attributes a0 a1 a2 x') -> keep s s'.
Proof. clear codec num8 rk of_int ragged.
  intros s s' E H I. split; [|rewrite E; auto]. intros a i D. rewrite E in D. destruct (I a i D) as (a0 & a1 & a2 & x & -> & X & A).
  destruct (H _ _ X) as (x' & X' & A'). exists a0, a1, a2, x'. auto.
Qed.
Lemma keep_same : forall s s', os_attrs s' = os_attrs s -> b_xfs (os_fmt s') = b_xfs (os_fmt s) -> keep s s'.
Proof. clear codec num8 rk of_int ragged. intros s s' E1 E2. apply keep_more; [exact E1|]. rewrite E2. eauto. Qed.

Definition version_kept (s s' : ost) : Prop := os_version s' = os_version s \/ os_version s = 21 /\ os_version s' = 20.
Lemma version_trans : forall a b c, version_kept a b -> version_kept b c -> version_kept a c.
Proof. clear codec num8 rk of_int ragged. unfold version_kept. intros a b c [H|[H1 H2]] [K|[K1 K2]]; [left|right|right|right]; first [congruence | split; congruence]. Qed.

(** The sheet, the version, the formatting_info and the XFs in use stay. *)
Definition calm (s s' : ost) : Prop :=
  os_sheet s' = os_sheet s /\ b_fmt (os_fmt s') = b_fmt (os_fmt s) /\ bk_bv (os_book s') = bk_bv (os_book s) /\
  keep s s' /\ os_ixfe s' = os_ixfe s /\ version_kept s s'.
Lemma calm_refl : forall s, calm s s.
Proof. clear codec num8 rk of_int ragged. intros s. split; [reflexivity|]. split; [reflexivity|]. split; [reflexivity|]. split; [apply keep_refl|]. split; [reflexivity|]. left. reflexivity. Qed.
Lemma calm_trans : forall a b c, calm a b -> calm b c -> calm a c.
Proof. clear codec num8 rk of_int ragged.
  unfold calm. intros a b c (? & ? & ? & ? & ? & ?) (? & ? & ? & ? & ? & ?). split; [congruence|]. split; [congruence|]. split; [congruence|].
  split; [eapply keep_trans; eauto|]. split; [congruence|]. eapply version_trans; eauto.
Qed.
Ltac calmly := split; [reflexivity|]; split; [reflexivity|]; split; [reflexivity|]; split; [apply keep_same; reflexivity|]; split; [reflexivity|left; reflexivity].

Lemma ensure_calm : forall (s s' : ost), os_ensure codec s = Ok s' -> calm s s'.
Proof.
  intros s s' H. unfold os_ensure, ensure in H. apply bind_ok in H as (b & E & H). apply bind_ok in E as (e & _ & E).
  assert (s' = set_book s b) as -> by congruence. assert (b = with_enc (os_book s) e) as -> by congruence. calmly.
Qed.

Lemma fstep_xfs : forall dec f r f', fstep dec f r = Ok f' -> forall i x, znth (b_xfs f) i = Some x -> znth (b_xfs f') i = Some x.
Proof. clear codec num8 rk of_int ragged.
  intros dec f r f' H i x X. destruct (step_frame _ _ _ _ H) as (_ & _ & E & _). unfold rest_same in E.
  destruct r; try (destruct E as (E & _); rewrite E; exact X); try (replace (b_xfs f') with (b_xfs f) by (symmetry; tauto); exact X).
  cbn [fstep] in H. apply handle_xf_inv in H as (b0 & y & _ & _ & _ & _ & _ & _ & _ & _ & _ & _ & H & _). rewrite H.
  rewrite znth_app_l by (apply znth_Some_range in X; lia). exact X.
Qed.

Lemma format_calm : forall (s s' : ost) r, o_format codec s r = Ok s' -> calm s s'.
Proof.
  intros s s' r H. unfold o_format, format_record in H. apply bind_ok in H as (b & E & H). assert (s' = set_book s b) as -> by congruence. clear H.
  apply bind_ok in E as (b1 & E1 & E). apply bind_ok in E as (f & F & E). assert (b = BookModel.with_fmt b1 f) as -> by congruence. clear E.
  assert (bk_fmt b1 = bk_fmt (os_book s) /\ bk_bv b1 = bk_bv (os_book s)) as [K1 K2].
  { assert (EN : ensure codec (os_book s) = Ok b1 -> bk_fmt b1 = bk_fmt (os_book s) /\ bk_bv b1 = bk_bv (os_book s)).
    { intros K. unfold ensure in K. apply bind_ok in K as (e & _ & K). assert (b1 = with_enc (os_book s) e) as -> by congruence. repeat split. }
    assert (ID : Ok (os_book s) = Ok b1 -> bk_fmt b1 = bk_fmt (os_book s) /\ bk_bv b1 = bk_bv (os_book s)).
    { intros K. assert (b1 = os_book s) as -> by congruence. repeat split. }
    destruct r; auto. destruct (b_fmt _); auto. }
  destruct (step_frame _ _ _ _ F) as (F1 & F2 & _). split; [reflexivity|].
  split; [change (b_fmt f = b_fmt (bk_fmt (os_book s))); congruence|]. split; [exact K2|].
  split; [|split; [reflexivity|left; change (b_bv f = b_bv (bk_fmt (os_book s))); congruence]].
  apply keep_more; [reflexivity|]. rewrite K1 in F. change (b_xfs (os_fmt (set_book s (BookModel.with_fmt b1 f)))) with (b_xfs f).
  intros i x X. exists x. split; [|auto]. exact (fstep_xfs _ _ _ _ F _ _ X).
Qed.

Lemma epilogue_calm : forall s : ost, calm s (epilogue s).
Proof.
  intros s. split; [reflexivity|]. split; [reflexivity|]. split; [reflexivity|]. split; [|split; [reflexivity|left; reflexivity]].
  apply keep_more; [reflexivity|]. intros i x X. exists (conform (b_fmt (os_fmt s)) (zlen (b_xfs (os_fmt s))) x). split.
  - change (b_xfs (os_fmt (epilogue s))) with (map (conform (b_fmt (os_fmt s)) (zlen (b_xfs (os_fmt s)))) (b_xfs (os_fmt s))).
    rewrite znth_map, X. reflexivity.
  - intros a0 a1 a2 []. unfold conform. destruct (negb _); [constructor; assumption|]. destruct (negb _); [constructor; assumption|].
    destruct (negb _); constructor; assumption.
Qed.

Lemma insert_facts : forall (s s' : ost) a st i, insert_xf s a st = Ok (s', i) ->
  os_sheet s' = os_sheet s /\ b_fmt (os_fmt s') = b_fmt (os_fmt s) /\ bk_bv (os_book s') = bk_bv (os_book s) /\
  os_ixfe s' = os_ixfe s /\ os_version s' = os_version s /\ os_attrs s' = (a, i) :: os_attrs s /\
  (Z.land (nth 0 a 0) 0x3F = 0 -> attr_inv s -> attr_inv s').
Proof. clear codec num8 rk of_int ragged.
  intros s s' a st i H. unfold insert_xf in H. cbv zeta in H. apply bind_ok in H as (x & FX & H).
  fold (general_if (with_xfs (os_fmt s) (b_xfs (os_fmt s) ++ [x])) (xf_format_key x)) in H.
  set (f1 := with_xfs (os_fmt s) (b_xfs (os_fmt s) ++ [x])) in *.
  destruct (general_if_fields f1 (xf_format_key x)) as (G1 & _ & G3 & G4 & _). set (f2 := general_if f1 (xf_format_key x)) in *. clearbody f2.
  destruct (dget Z.eqb (b_formats f2) (xf_format_key x)); [|discriminate]. destruct (cellty_from_fmtty _); [|discriminate].
  match type of H with Ok (?A, ?B) = _ => assert (s' = A) as -> by congruence; assert (i = B) as -> by congruence end. clear H.
  apply fake_xf_fields in FX as (a0 & a1 & a2 & -> & _ & AT). set (n := zlen (b_xfs (os_fmt s))).
  split; [reflexivity|]. split; [exact G4|]. split; [reflexivity|]. split; [reflexivity|]. split; [exact G3|]. split; [reflexivity|].
  cbn [nth]. intros Z0 I b j D. cbn [os_attrs set_attrs] in D. unfold dset in D. cbn [dget] in D.
  assert (X1 : forall l, b_xfs (os_fmt (set_attrs (set_fmt s (with_xftype f2 l)) (([a0; a1; a2], n) :: os_attrs s))) = b_xfs (os_fmt s) ++ [x])
    by (intros l; exact G1).
  destruct (list_eqb b [a0; a1; a2]) eqn:EB.
  - apply list_eqb_eq in EB. subst b. injection D as <-. exists a0, a1, a2, x. split; [reflexivity|]. split.
    + rewrite X1. rewrite znth_app_r by (subst n; lia). subst n. rewrite Z.sub_diag. reflexivity.
    + intros BY. apply Forall_cons_iff in BY as [B0 BY]. apply Forall_cons_iff in BY as [B1 BY]. apply Forall_cons_iff in BY as [B2 _]. apply AT; assumption.
  - destruct (I _ _ D) as (b0 & b1 & b2 & y & -> & Y & AY). exists b0, b1, b2, y. split; [reflexivity|]. split; [|exact AY].
    rewrite X1. rewrite znth_app_l by (apply znth_Some_range in Y; lia). exact Y.
Qed.

Lemma styles_facts : forall l (s s' : ost), insert_styles s l = Ok s' ->
  os_sheet s' = os_sheet s /\ b_fmt (os_fmt s') = b_fmt (os_fmt s) /\ bk_bv (os_book s') = bk_bv (os_book s) /\
  os_ixfe s' = os_ixfe s /\ os_version s' = os_version s /\ (attr_inv s -> attr_inv s').
Proof. clear codec num8 rk of_int ragged.
  induction l as [|x l IH]; intros s s' H; cbn [insert_styles] in H.
  - assert (s' = s) as -> by congruence. auto 10.
  - apply bind_ok in H as ((s1 & i) & E & H). destruct (insert_facts _ _ _ _ _ E) as (A1 & A2 & A3 & A4 & A5 & _ & A6).
    destruct (IH _ _ H) as (B1 & B2 & B3 & B4 & B5 & B6). repeat (split; [congruence|]). auto.
Qed.

Lemma attr_calm : forall (s s' : ost) a i, attr_xf s a = Ok (s', i) -> calm s s' /\ dget list_eqb (os_attrs s') a = Some i.
Proof. clear codec num8 rk of_int ragged.
  intros s s' a i H. unfold attr_xf in H. apply bind_ok in H as (b & B & H). apply bind_ok in H as (u & G & H).
  assert (Z0 : Z.land (nth 0 a 0) 0x3F = 0).
  { destruct a as [|a0 l]; [discriminate B|]. rewrite py_index_head in B. injection B as <-. cbn [nth].
    unfold guard in G. destruct (Z.eqb_spec (Z.land a0 63) 0); [assumption|discriminate]. }
  destruct (dget list_eqb _ a) as [j|] eqn:D; [assert (s' = s) as -> by congruence; split; [apply calm_refl|congruence]|].
  apply bind_ok in H as (s1 & E & H). destruct (insert_facts _ _ _ _ _ H) as (A1 & A2 & A3 & A4 & A5 & A7 & A6).
  split; [|rewrite A7; cbn [dget]; rewrite list_eqb_refl; reflexivity].
  assert (K : os_sheet s1 = os_sheet s /\ b_fmt (os_fmt s1) = b_fmt (os_fmt s) /\ bk_bv (os_book s1) = bk_bv (os_book s) /\
    os_ixfe s1 = os_ixfe s /\ os_version s1 = os_version s /\ (attr_inv s -> attr_inv s1) /\ (os_attrs s1 = os_attrs s \/ b_xfs (os_fmt s) = [])).
  { destruct (zlen (b_xfs (os_fmt s)) =? 0) eqn:L.
    - destruct (styles_facts _ _ _ E) as (B1 & B2 & B3 & B4 & B5 & B6). repeat (split; [assumption|]). right.
      destruct (b_xfs (os_fmt s)) as [|y l]; [reflexivity|]. rewrite zlen_cons in L. pose proof (zlen_nonneg l). lia.
    - assert (s1 = s) as -> by congruence. auto 10. }
  destruct K as (K1 & K2 & K3 & K4 & K5 & K6 & K7).
  split; [congruence|]. split; [congruence|]. split; [congruence|]. split; [|split; [congruence|left; congruence]].
  intros I. split; [auto|]. intros b' j DB. destruct K7 as [K7|K7].
  - rewrite A7, K7. cbn [dget]. destruct (list_eqb b' a) eqn:EB; [|exact DB]. apply list_eqb_eq in EB. congruence.
  - destruct (I _ _ DB) as (b0 & b1 & b2 & y & _ & Y & _). rewrite K7 in Y. apply znth_Some_range in Y. cbn in Y. lia.
Qed.

Lemma fixed_facts : forall (s s' : ost) a x i, fixed_xf s a x = Ok (s', i) -> calm s s' /\
  (s' = s /\ os_version s = 21 /\
     (exists k, match x, a with Some x, _ => k = x | None, Some (a0 :: _) => k = Z.land a0 0x3F | _, _ => False end /\
       if k =? 0x3F then os_ixfe s = Some i else i = k)
   \/ exists a', a = Some a' /\ dget list_eqb (os_attrs s') a' = Some i).
Proof. clear codec num8 rk of_int ragged.
  intros s s' a x i H. unfold fixed_xf in H. cbv zeta in H.
  assert (NO : forall s0, match a with None => Err TypeError | Some a => attr_xf s0 a end = Ok (s', i) -> calm s0 s' /\
    exists a', a = Some a' /\ dget list_eqb (os_attrs s') a' = Some i).
  { intros s0 E. destruct a as [a|]; [|discriminate]. destruct (attr_calm _ _ _ _ E). eauto. }
  destruct (os_version s =? 21) eqn:V; [|destruct (NO _ H); auto]. destruct (negb _).
  - apply bind_ok in H as (k & K & H).
    assert (s' = s /\ (if k =? 0x3F then os_ixfe s = Some i else i = k)) as [-> Q].
    { destruct (k =? 63); [destruct (os_ixfe s) as [y|]; [|discriminate H]|]; injection H as <- <-; auto. }
    split; [apply calm_refl|]. left. split; [reflexivity|]. split; [lia|]. exists k. split; [|exact Q].
    destruct x as [x|]; [congruence|]. destruct a as [[|a0 l]|]; try discriminate K. rewrite py_index_head in K. cbn [bind] in K. congruence.
  - destruct (NO _ H) as [C E]. split; [|auto]. eapply calm_trans; [|exact C].
    split; [reflexivity|]. split; [reflexivity|]. split; [reflexivity|]. split; [apply keep_same; reflexivity|]. split; [reflexivity|right; split; [lia|reflexivity]].
Qed.
Lemma fixed_calm : forall (s s' : ost) a x i, fixed_xf s a x = Ok (s', i) -> calm s s'.
Proof. clear codec num8 rk of_int ragged. intros s s' a x i H. exact (proj1 (fixed_facts _ _ _ _ _ H)). Qed.

(** What one turn of the loop leaves alone. *)
Record old_alone (rc : Z) (s s' : ost) : Prop := {
  oa_fmt : b_fmt (os_fmt s') = b_fmt (os_fmt s);
  oa_bv : bk_bv (os_book s') = bk_bv (os_book s);
  oa_keep : keep s s';
  oa_ixfe : rc <> XL_IXFE -> os_ixfe s' = os_ixfe s;
  oa_version : version_kept s s';
  oa_rows : rc <> XL_ROW -> rc <> XL_ROW_B2 -> f_rows (sh_fmt (os_sheet s')) = f_rows (sh_fmt (os_sheet s));
  oa_cols : rc <> XL_COLINFO -> rc <> XL_COLWIDTH -> rc <> XL_COLUMNDEFAULT ->
    f_cols (sh_fmt (os_sheet s')) = f_cols (sh_fmt (os_sheet s)) /\ os_share s' = os_share s;
  oa_defcolwidth : rc <> XL_DEFCOLWIDTH -> f_defcolwidth (sh_fmt (os_sheet s')) = f_defcolwidth (sh_fmt (os_sheet s));
  oa_standardwidth : rc <> XL_STANDARDWIDTH -> f_standardwidth (sh_fmt (os_sheet s')) = f_standardwidth (sh_fmt (os_sheet s));
  oa_gcw : rc <> XL_GCW -> f_gcw (sh_fmt (os_sheet s')) = f_gcw (sh_fmt (os_sheet s));
  oa_options : rc <> XL_WINDOW2 -> rc <> XL_WINDOW2_B2 -> v_options (sh_view (os_sheet s')) = v_options (sh_view (os_sheet s));
  oa_visible : rc <> XL_WINDOW2 -> rc <> XL_WINDOW2_B2 ->
    (v_first_row (sh_view (os_sheet s')), v_first_col (sh_view (os_sheet s'))) = (v_first_row (sh_view (os_sheet s)), v_first_col (sh_view (os_sheet s)));
  oa_gridline : rc <> XL_WINDOW2 -> rc <> XL_WINDOW2_B2 -> 
    (v_gridline_colour (sh_view (os_sheet s')), v_gridline_rgb (sh_view (os_sheet s'))) =
    (v_gridline_colour (sh_view (os_sheet s)), v_gridline_rgb (sh_view (os_sheet s))) }.

Lemma calm_alone : forall rc s s', calm s s' -> os_share s' = os_share s -> old_alone rc s s'.
Proof. intros rc s s' (E1 & E2 & E3 & E5 & E6 & E7) E4. constructor; intros; rewrite ?E1; auto. Qed.

(** As [calm], but cells may have been stored. *)
Definition calm_but_cells (s s' : ost) : Prop :=
  same (os_sheet s) (os_sheet s') /\ b_fmt (os_fmt s') = b_fmt (os_fmt s) /\ bk_bv (os_book s') = bk_bv (os_book s) /\ os_share s' = os_share s /\
  keep s s' /\ os_ixfe s' = os_ixfe s /\ version_kept s s'.
Lemma cells_alone : forall rc s s', calm_but_cells s s' -> old_alone rc s s'.
Proof. intros rc s s' ((F & V & _) & E2 & E3 & E4 & E5 & E6 & E7). constructor; intros; rewrite ?F, ?V; auto. Qed.

Lemma ensure_share : forall (s s' : ost), os_ensure codec s = Ok s' -> os_share s' = os_share s.
Proof. intros s s' H. unfold os_ensure in H. apply bind_ok in H as (b & _ & H). assert (s' = set_book s b) as -> by congruence. reflexivity. Qed.
Lemma format_share : forall (s s' : ost) r, o_format codec s r = Ok s' -> os_share s' = os_share s.
Proof. intros s s' r H. unfold o_format in H. apply bind_ok in H as (b & _ & H). assert (s' = set_book s b) as -> by congruence. reflexivity. Qed.
Lemma insert_share : forall (s s' : ost) a st i, insert_xf s a st = Ok (s', i) -> os_share s' = os_share s.
Proof. clear codec num8 rk of_int ragged.
  intros s s' a st i H. unfold insert_xf in H. cbv zeta in H. apply bind_ok in H as (x & _ & H).
  match type of H with (match ?d with _ => _ end) = _ => destruct d; [|discriminate] end.
  destruct (cellty_from_fmtty _); [|discriminate].
  match type of H with Ok (set_attrs (set_fmt s ?f) ?m, _) = _ => assert (s' = set_attrs (set_fmt s f) m) as -> by congruence end. reflexivity.
Qed.
Lemma styles_share : forall l (s s' : ost), insert_styles s l = Ok s' -> os_share s' = os_share s.
Proof. clear codec num8 rk of_int ragged.
  induction l as [|x l IH]; intros s s' H; cbn [insert_styles] in H; [congruence|].
  apply bind_ok in H as ((s1 & i) & E & H). apply insert_share in E. apply IH in H. congruence.
Qed.
Lemma fixed_share : forall (s s' : ost) a x i, fixed_xf s a x = Ok (s', i) -> os_share s' = os_share s.
Proof. clear codec num8 rk of_int ragged.
  intros s s' a x i H. unfold fixed_xf in H. cbv zeta in H.
  assert (AT : forall s0 a0, attr_xf s0 a0 = Ok (s', i) -> os_share s' = os_share s0).
  { clear H. intros s0 a0 H. unfold attr_xf in H. apply bind_ok in H as (? & _ & H). apply bind_ok in H as (? & _ & H).
    destruct (dget list_eqb _ a0); [congruence|]. apply bind_ok in H as (s1 & E & H). apply insert_share in H. rewrite H.
    destruct (_ =? 0); [exact (styles_share _ _ _ E)|congruence]. }
  assert (NO : forall s0, match a with None => Err TypeError | Some a => attr_xf s0 a end = Ok (s', i) -> os_share s' = os_share s0).
  { intros s0 E. destruct a; [exact (AT _ _ E)|discriminate]. }
  destruct (os_version s =? 21); [|exact (NO _ H)]. destruct (negb _).
  - apply bind_ok in H as (k & _ & H). destruct (k =? 0x3F); [destruct (os_ixfe s); [congruence|discriminate]|congruence].
  - apply NO in H. exact H.
Qed.

Lemma o_put_cells : forall (s s' : ost) r k t v x, o_put codec num8 rk ragged s r k t v x = Ok s' -> calm_but_cells s s'.
Proof.
  intros s s' r k t v x H. unfold o_put in H. apply bind_ok in H as (sh & E & H). assert (s' = set_sheet s sh) as -> by congruence.
  split; [exact (put_same _ _ _ _ _ _ _ _ E)|]. split; [reflexivity|]. split; [reflexivity|]. split; [reflexivity|].
  split; [apply keep_same; reflexivity|]. split; [reflexivity|left; reflexivity].
Qed.
Lemma calm_put : forall (s s1 s' : ost), calm s s1 -> os_share s1 = os_share s -> calm_but_cells s1 s' -> calm_but_cells s s'.
Proof.
  intros s s1 s' (E1 & E2 & E3 & E5 & E6 & E7) E4 (S & F2 & F3 & F4 & F5 & F6 & F7). rewrite E1 in S. split; [exact S|].
  split; [congruence|]. split; [congruence|]. split; [congruence|]. split; [eapply keep_trans; eauto|]. split; [congruence|eapply version_trans; eauto].
Qed.

Lemma attr_cell_cells : forall (s s' : ost) d t v, attr_cell codec num8 rk ragged s d t v = Ok s' -> calm_but_cells s s'.
Proof.
  intros s s' d t v H. unfold attr_cell in H. apply bind_ok in H as (r & _ & H). apply bind_ok in H as (k & _ & H).
  apply bind_ok in H as ((s1 & x) & E & H). apply o_put_cells in H.
  eapply calm_put; [exact (fixed_calm _ _ _ _ _ E)|exact (fixed_share _ _ _ _ _ E)|exact H].
Qed.

(** Records that all versions have. *)
Lemma o_step_alone : forall (s s' : ost) rc len d rs rs', rc <> XL_COLINFO ->
  o_step codec num8 rk ragged s rc len d rs = Ok (s', rs') -> old_alone rc s s'.
Proof.
  intros s s' rc len d rs rs' Hc H. unfold o_step in H. apply bind_ok in H as ((sh & rs1) & E & H).
  assert (s' = set_sheet s sh) as -> by congruence. pose proof (step_alone _ _ _ _ _ _ _ _ E) as LA. destruct LA.
  constructor; intros; cbn [set_sheet os_sheet]; auto; [apply keep_same; reflexivity|left; reflexivity].
Qed.

Lemma alone_calm : forall rc (s s1 s' : ost), calm s s1 -> os_share s1 = os_share s -> old_alone rc s1 s' -> old_alone rc s s'.
Proof.
  intros rc s s1 s' (E1 & E2 & E3 & E5 & E6 & E7) E4 [].
  constructor; intros; rewrite <- ?E1, <- ?E2, <- ?E3, <- ?E4, <- ?E6; auto; [eapply keep_trans; eauto|eapply version_trans; eauto].
Qed.
Lemma alone_then_calm : forall rc (s s1 s' : ost), old_alone rc s s1 -> calm s1 s' -> os_share s' = os_share s1 -> old_alone rc s s'.
Proof.
  intros rc s s1 s' [] (E1 & E2 & E3 & E5 & E6 & E7) E4.
  constructor; intros; rewrite ?E1, ?E2, ?E3, ?E4, ?E6; auto; [eapply keep_trans; eauto|eapply version_trans; eauto].
Qed.

Lemma update_alone : forall (s : ost) k u, let s' := update_colinfo s k u in
  b_fmt (os_fmt s') = b_fmt (os_fmt s) /\ bk_bv (os_book s') = bk_bv (os_book s) /\
  f_rows (sh_fmt (os_sheet s')) = f_rows (sh_fmt (os_sheet s)) /\ f_defcolwidth (sh_fmt (os_sheet s')) = f_defcolwidth (sh_fmt (os_sheet s)) /\
  f_standardwidth (sh_fmt (os_sheet s')) = f_standardwidth (sh_fmt (os_sheet s)) /\ f_gcw (sh_fmt (os_sheet s')) = f_gcw (sh_fmt (os_sheet s)) /\
  sh_view (os_sheet s') = sh_view (os_sheet s) /\ keep s s' /\ os_ixfe s' = os_ixfe s /\ version_kept s s'.
Proof. clear codec num8 rk of_int ragged.
  intros s k u s'. subst s'. unfold update_colinfo. cbv zeta. destruct (dget Z.eqb _ k);
    repeat (split; [reflexivity|]); (split; [apply keep_same; reflexivity|split; [reflexivity|left; reflexivity]]).
Qed.

(** Everything but the columns. *)
Definition but_cols (s s' : ost) : Prop :=
  b_fmt (os_fmt s') = b_fmt (os_fmt s) /\ bk_bv (os_book s') = bk_bv (os_book s) /\
  f_rows (sh_fmt (os_sheet s')) = f_rows (sh_fmt (os_sheet s)) /\ f_defcolwidth (sh_fmt (os_sheet s')) = f_defcolwidth (sh_fmt (os_sheet s)) /\
  f_standardwidth (sh_fmt (os_sheet s')) = f_standardwidth (sh_fmt (os_sheet s)) /\ f_gcw (sh_fmt (os_sheet s')) = f_gcw (sh_fmt (os_sheet s)) /\
  sh_view (os_sheet s') = sh_view (os_sheet s) /\ keep s s' /\ os_ixfe s' = os_ixfe s /\ version_kept s s'.
Ltac cols_only := repeat (split; [reflexivity|]); split; [apply keep_same; reflexivity|split; [reflexivity|left; reflexivity]].
Lemma but_cols_refl : forall s, but_cols s s.
Proof. intros s. cols_only. Qed.
Lemma but_cols_trans : forall a b c, but_cols a b -> but_cols b c -> but_cols a c.
Proof.
  unfold but_cols. intros a b c (?&?&?&?&?&?&?&?&?&?) (?&?&?&?&?&?&?&?&?&?). repeat (split; [congruence|]).
  split; [eapply keep_trans; eauto|]. split; [congruence|eapply version_trans; eauto].
Qed.
Lemma calm_but_cols : forall a b, calm a b -> but_cols a b.
Proof. intros a b (E1 & E2 & E3 & E4 & E5 & E6). unfold but_cols. rewrite E1. auto 15. Qed.
Lemma but_cols_alone : forall rc (s s' : ost), rc = XL_COLINFO \/ rc = XL_COLWIDTH \/ rc = XL_COLUMNDEFAULT -> but_cols s s' -> old_alone rc s s'.
Proof.
  intros rc s s' Hrc (E1 & E2 & E3 & E4 & E5 & E6 & E7 & E8 & E9 & E10). constructor; intros; rewrite ?E7; auto. exfalso. tauto.
Qed.

Lemma fold_update_but_cols : forall u cols (s : ost), but_cols s (fold_left (fun s k => update_colinfo s k u) cols s).
Proof.
  intros u. induction cols as [|k cols IH]; intros s; cbn [fold_left]; [apply but_cols_refl|].
  eapply but_cols_trans; [exact (update_alone s k u)|apply IH].
Qed.

Lemma columndefault_but_cols : forall cols (s s' : ost) first d, columndefault_loop s cols first d = Ok s' -> but_cols s s'.
Proof.
  induction cols as [|k cols IH]; intros s s' first d H; cbn [columndefault_loop] in H.
  - assert (s' = s) as -> by congruence. apply but_cols_refl.
  - apply bind_ok in H as ((s1 & x) & E & H). apply IH in H. eapply but_cols_trans; [apply calm_but_cols; exact (fixed_calm _ _ _ _ _ E)|].
    eapply but_cols_trans; [|exact H]. exact (update_alone s1 k _).
Qed.

Lemma old_step_alone : forall bv (s s' : ost) rc len d rs rs', old_step bv s rc len d rs = Ok (s', rs') -> old_alone rc s s'.
Proof.
  intros bv s s' rc len d rs rs' H. unfold OldSheet.old_step in H. cbv zeta in H.
  assert (STAY : forall m, (do s <- m; Ok (s, rs)) = Ok (s', rs') -> m = Ok s').
  { intros m E. apply bind_ok in E as (s1 & E & E1). congruence. }
  assert (FMT : forall r, o_format codec s r = Ok s' -> old_alone rc s s').
  { intros r E. apply calm_alone; [exact (format_calm _ _ _ E)|exact (format_share _ _ _ E)]. }
  destruct ((rc =? XL_LABEL) || (rc =? XL_RSTRING)) eqn:Q1.
  { apply bind_ok in H as (? & _ & H). apply bind_ok in H as (s1 & E & H). apply o_step_alone in H; [|intros ->; discriminate Q1].
    eapply alone_calm; [exact (ensure_calm _ _ E)|exact (ensure_share _ _ E)|exact H]. }
  destruct (is_formula_code rc) eqn:Q2.
  { apply cells_alone. unfold o_formula in H. apply bind_ok in H as (? & _ & H). apply bind_ok in H as (r & _ & H). apply bind_ok in H as (k & _ & H).
    apply bind_ok in H as ([[s1 xf] res] & E & H).
    assert (calm s s1 /\ os_share s1 = os_share s) as [C1 C2].
    { destruct (bv >=? 30).
      - apply bind_ok in E as (? & _ & E). assert (s1 = s) as -> by congruence. split; [apply calm_refl|reflexivity].
      - apply bind_ok in E as ((s2 & y) & E & E1). assert (s1 = s2) as -> by congruence.
        split; [exact (fixed_calm _ _ _ _ _ E)|exact (fixed_share _ _ _ _ _ E)]. }
    assert (PUT : forall t v, (do s0 <- o_put codec num8 rk ragged s1 r k t v xf; Ok (s0, rs)) = Ok (s', rs') -> calm_but_cells s s').
    { intros t v E0. apply STAY in E0. eapply calm_put; [exact C1|exact C2|exact (o_put_cells _ _ _ _ _ _ _ E0)]. }
    destruct (list_eqb _ _); [|exact (PUT _ _ H)]. apply bind_ok in H as (fb & _ & H).
    destruct (fb =? 0).
    - apply bind_ok in H as ((d2 & rs2) & _ & H). cbv zeta in H. apply bind_ok in H as (n & _ & H). apply bind_ok in H as (s2 & EN & H).
      apply bind_ok in H as ((st & rs3) & _ & H). apply bind_ok in H as (s3 & EP & H). assert (s' = s3) as -> by congruence.
      eapply calm_put; [eapply calm_trans; [exact C1|exact (ensure_calm _ _ EN)]| |exact (o_put_cells _ _ _ _ _ _ _ EP)].
      rewrite (ensure_share _ _ EN). exact C2.
    - destruct (fb =? 1); [apply bind_ok in H as (v & _ & H); exact (PUT _ _ H)|].
      destruct (fb =? 2); [apply bind_ok in H as (v & _ & H); exact (PUT _ _ H)|].
      destruct (fb =? 3); [exact (PUT _ _ H)|discriminate]. }
  destruct (Z.eqb_spec rc XL_COLINFO) as [->|Q3].
  { apply STAY in H. unfold o_colinfo in H. apply bind_ok in H as (sh & E & H).
    assert (but_cols s (set_sheet s sh)) as BC.
    { unfold h_colinfo in E. destruct (negb _); [assert (sh = os_sheet s) as -> by congruence; cols_only|].
      do 6 apply bind_ok in E as (? & _ & E). destruct (negb _); [assert (sh = os_sheet s) as -> by congruence; cols_only|].
      cbv zeta in E. match type of E with Ok ?x = _ => assert (sh = x) as -> by congruence end. cols_only. }
    apply but_cols_alone; [auto|]. destruct (negb (b_fmt (os_fmt s))); [assert (s' = set_sheet s sh) as -> by congruence; exact BC|].
    do 2 apply bind_ok in H as (? & _ & H). destruct (negb _); [assert (s' = set_sheet s sh) as -> by congruence; exact BC|].
    match type of H with Ok (set_share _ ?m) = _ => assert (s' = set_share (set_sheet s sh) m) as -> by congruence end. exact BC. }
  destruct ((rc =? XL_DIMENSION) || (rc =? XL_DIMENSION2)).
  { apply bind_ok in H as ((s1 & rs1) & E & H). apply o_step_alone in E; [|exact Q3].
    destruct (len =? 0); [assert (s' = s1) as -> by congruence; exact E|].
    match type of H with (if ?b then _ else _) = _ => destruct b end.
    - assert (s' = epilogue s1) as -> by congruence. eapply alone_then_calm; [exact E|apply epilogue_calm|reflexivity].
    - assert (s' = s1) as -> by congruence. exact E. }
  destruct (Z.eqb_spec rc XL_NOTE) as [->|Q4].
  { apply bind_ok in H as ((sh & rs1) & E & H). apply bind_ok in H as (s1 & EN & H). assert (s' = s1) as -> by congruence.
    eapply alone_then_calm; [|exact (ensure_calm _ _ EN)|exact (ensure_share _ _ EN)].
    pose proof (step_alone _ _ _ _ _ _ _ _ E) as LA. destruct LA. constructor; intros; cbn [set_sheet os_sheet]; auto; [apply keep_same; reflexivity|left; reflexivity]. }
  destruct (Z.eqb_spec rc XL_WINDOW2) as [->|Q5].
  { apply bind_ok in H as (? & _ & H). exact (o_step_alone _ _ _ _ _ _ _ Q3 H). }
  destruct ((rc =? XL_FORMAT) || (rc =? XL_FORMAT2)); [exact (FMT _ (STAY _ H))|].
  destruct ((rc =? XL_FONT) || (rc =? XL_FONT_B3B4)); [exact (FMT _ (STAY _ H))|].
  destruct (rc =? XL_STYLE).
  { apply STAY in H. apply calm_alone.
    - apply format_calm in H. eapply calm_trans; [|exact H]. destruct (os_done s); [apply calm_refl|apply epilogue_calm].
    - apply format_share in H. rewrite H. destruct (os_done s); reflexivity. }
  destruct (rc =? XL_PALETTE); [exact (FMT _ (STAY _ H))|].
  destruct (rc =? XL_BUILTINFMTCOUNT).
  { apply bind_ok in H as (? & _ & H). assert (s' = s) as -> by congruence. apply calm_alone; [apply calm_refl|reflexivity]. }
  destruct ((rc =? XL_XF4) || (rc =? XL_XF3) || (rc =? XL_XF2)); [exact (FMT _ (STAY _ H))|].
  destruct (rc =? XL_DATEMODE).
  { apply STAY in H. unfold handle_datemode in H. cbv zeta in H. rewrite bind_assoc in H. apply bind_ok in H as (x & _ & H).
    rewrite bind_assoc in H. apply bind_ok in H as (? & _ & H). cbn [bind] in H. injection H as <-. apply calm_alone; [calmly|reflexivity]. }
  destruct (rc =? XL_CODEPAGE).
  { apply STAY in H. apply bind_ok in H as (e & _ & H). injection H as <-. apply calm_alone; [calmly|reflexivity]. }
  destruct (rc =? XL_FILEPASS); [discriminate|].
  destruct (rc =? XL_WRITEACCESS).
  { apply STAY in H. apply bind_ok in H as (e & _ & H). injection H as <-. apply calm_alone; [calmly|reflexivity]. }
  destruct (Z.eqb_spec rc XL_IXFE) as [->|QI].
  { apply STAY in H. apply bind_ok in H as (? & _ & H). apply bind_ok in H as (xi & _ & H). injection H as <-.
    constructor; intros; try reflexivity; try contradiction; [apply keep_same; reflexivity|left; reflexivity|split; reflexivity]. }
  destruct (rc =? XL_NUMBER_B2). { apply STAY in H. unfold h_number_b2 in H. apply bind_ok in H as (? & _ & H). apply cells_alone. exact (attr_cell_cells _ _ _ _ _ H). }
  destruct (rc =? XL_INTEGER). { apply STAY in H. unfold h_integer in H. do 2 apply bind_ok in H as (? & _ & H). apply cells_alone. exact (attr_cell_cells _ _ _ _ _ H). }
  destruct (rc =? XL_LABEL_B2).
  { apply STAY in H. unfold h_label_b2 in H. apply bind_ok in H as (? & _ & H). apply bind_ok in H as (s1 & E & H). apply bind_ok in H as (? & _ & H).
    apply cells_alone. eapply calm_put; [exact (ensure_calm _ _ E)|exact (ensure_share _ _ E)|exact (attr_cell_cells _ _ _ _ _ H)]. }
  destruct (rc =? XL_BOOLERR_B2). { apply STAY in H. unfold h_boolerr_b2 in H. do 4 apply bind_ok in H as (? & _ & H). apply cells_alone. exact (attr_cell_cells _ _ _ _ _ H). }
  destruct (rc =? XL_BLANK_B2).
  { apply STAY in H. unfold h_blank_b2 in H. destruct (negb _); [assert (s' = s) as -> by congruence; apply calm_alone; [apply calm_refl|reflexivity]|].
    apply bind_ok in H as (? & _ & H). apply cells_alone. exact (attr_cell_cells _ _ _ _ _ H). }
  destruct (rc =? XL_EFONT); [exact (FMT _ (STAY _ H))|].
  destruct (Z.eqb_spec rc XL_ROW_B2) as [->|Q6].
  { apply STAY in H. unfold h_row_b2 in H. destruct (negb _); [assert (s' = s) as -> by congruence; apply calm_alone; [apply calm_refl|reflexivity]|].
    do 4 apply bind_ok in H as (? & _ & H). destruct (negb _); [assert (s' = s) as -> by congruence; apply calm_alone; [apply calm_refl|reflexivity]|].
    apply bind_ok in H as ((s1 & x3) & E & H). cbv zeta in H.
    match type of H with Ok (set_sheet s1 ?sh) = _ => assert (s' = set_sheet s1 sh) as -> by congruence end.
    assert (calm s s1 /\ os_share s1 = os_share s) as [C1 C2].
    { destruct (_ =? 0); [assert (s1 = s) as -> by congruence; split; [apply calm_refl|reflexivity]|]. destruct (len =? 18).
      - do 2 apply bind_ok in E as (? & _ & E). split; [exact (fixed_calm _ _ _ _ _ E)|exact (fixed_share _ _ _ _ _ E)].
      - split; [exact (fixed_calm _ _ _ _ _ E)|exact (fixed_share _ _ _ _ _ E)]. }
    eapply alone_calm; [exact C1|exact C2|]. constructor; intros; try reflexivity; try contradiction; [apply keep_same; reflexivity|left; reflexivity|split; reflexivity]. }
  destruct (Z.eqb_spec rc XL_COLWIDTH) as [->|Q7].
  { apply STAY in H. apply but_cols_alone; [auto|]. unfold h_colwidth in H. destruct (negb _); [assert (s' = s) as -> by congruence; apply but_cols_refl|].
    do 4 apply bind_ok in H as (? & _ & H). destruct (negb _); [assert (s' = s) as -> by congruence; apply but_cols_refl|].
    match type of H with Ok ?x = _ => assert (s' = x) as -> by congruence end. apply fold_update_but_cols. }
  destruct (Z.eqb_spec rc XL_COLUMNDEFAULT) as [->|Q8].
  { apply STAY in H. apply but_cols_alone; [auto|]. unfold h_columndefault in H. destruct (negb _); [assert (s' = s) as -> by congruence; apply but_cols_refl|].
    do 3 apply bind_ok in H as (? & _ & H). cbv zeta in H. exact (columndefault_but_cols _ _ _ _ _ H). }
  destruct (Z.eqb_spec rc XL_WINDOW2_B2) as [->|Q9].
  { apply STAY in H. unfold h_window2_b2 in H. cbv zeta in H. do 8 apply bind_ok in H as (? & _ & H).
    match type of H with Ok (set_sheet s ?sh) = _ => assert (s' = set_sheet s sh) as -> by congruence end.
    constructor; intros; try reflexivity; try contradiction; [apply keep_same; reflexivity|left; reflexivity|split; reflexivity]. }
  exact (o_step_alone _ _ _ _ _ _ _ Q3 H).
Qed.
End OldTrace.
