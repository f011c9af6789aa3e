(** Property theorems C19, C20, C21, C22: the cell store of a sheet. *)
From Verif Require Import Base BaseFacts GridModel GridFacts.

Section GridProps.
Context {V : Type} (vempty : V).

(** ** Specification: a sheet as its history of stores *)

(** The last store at a position. *)
Definition last_at (hist : list (@store V)) (r c : Z) : option (@store V) :=
  fold_left (fun acc s => if (r =? s_row s) && (c =? s_col s) then Some s else acc) hist None.

Definition spec_type (hist : list (@store V)) (r c : Z) : Z :=
  match last_at hist r c with Some s => s_type s | None => XL_CELL_EMPTY end.
Definition spec_val (hist : list (@store V)) (r c : Z) : V :=
  match last_at hist r c with Some s => s_val s | None => vempty end.
Definition spec_xf (hist : list (@store V)) (r c : Z) : Z :=
  match last_at hist r c with Some s => s_xf s | None => -1 end.

(** One more than the largest of the numbers, 0 for none. *)
Definition extent (l : list Z) : Z := fold_right (fun i acc => Z.max (i + 1) acc) 0 l.

Definition rows_of (hist : list (@store V)) : Z := extent (map s_row hist).
Definition cols_of (hist : list (@store V)) : Z := extent (map s_col hist).

(** The used width of one row. *)
Definition row_extent (hist : list (@store V)) (r : Z) : Z :=
  extent (map s_col (filter (fun s => s_row s =? r) hist)).

Definition merged_rows (merged : list mrange) : Z := fold_right (fun m acc => let '(_, rhi, _, _) := m in Z.max rhi acc) 0 merged.
Definition merged_cols (merged : list mrange) : Z := fold_right (fun m acc => let '(_, _, _, chi) := m in Z.max chi acc) 0 merged.

(** A store that respects the limits of the format. *)
Definition in_bounds (fmt : bool) (maxrows maxcols : Z) (s : @store V) : Prop :=
  0 <= s_row s < maxrows /\ 0 <= s_col s < maxcols /\ (fmt = true -> fits_h (s_xf s) = true).

(** ** Proofs *)

Lemma extent_nonneg : forall l, 0 <= extent l.
Proof. induction l; unfold extent in *; cbn [fold_right]; lia. Qed.

Lemma extent_app : forall l m, extent (l ++ m) = Z.max (extent l) (extent m).
Proof.
  induction l as [|a l IH]; intros m.
  - cbn [app]. pose proof (extent_nonneg m). change (extent []) with 0. lia.
  - change (extent ((a :: l) ++ m)) with (Z.max (a + 1) (extent (l ++ m))).
    change (extent (a :: l)) with (Z.max (a + 1) (extent l)). rewrite IH. lia.
Qed.

Lemma extent_one : forall a, 0 <= a -> extent [a] = a + 1.
Proof. intros. unfold extent. cbn [fold_right]. lia. Qed.

Lemma last_at_snoc : forall hist s r c,
  last_at (hist ++ [s]) r c = if (r =? s_row s) && (c =? s_col s) then Some s else last_at hist r c.
Proof. intros. unfold last_at. rewrite fold_left_app. reflexivity. Qed.

Lemma rows_of_snoc : forall hist s, 0 <= s_row s -> rows_of (hist ++ [s]) = Z.max (rows_of hist) (s_row s + 1).
Proof. intros. unfold rows_of. rewrite map_app, extent_app. cbn [map]. rewrite extent_one by lia. reflexivity. Qed.
Lemma cols_of_snoc : forall hist s, 0 <= s_col s -> cols_of (hist ++ [s]) = Z.max (cols_of hist) (s_col s + 1).
Proof. intros. unfold cols_of. rewrite map_app, extent_app. cbn [map]. rewrite extent_one by lia. reflexivity. Qed.
Lemma row_extent_snoc : forall hist s r, 0 <= s_col s ->
  row_extent (hist ++ [s]) r = if r =? s_row s then Z.max (row_extent hist r) (s_col s + 1) else row_extent hist r.
Proof.
  intros hist s r H. unfold row_extent. rewrite filter_app, map_app, extent_app. cbn [filter].
  replace (s_row s =? r) with (r =? s_row s) by lia.
  destruct (r =? s_row s); cbn [map].
  - rewrite extent_one by lia. reflexivity.
  - pose proof (extent_nonneg (map s_col (filter (fun s0 => s_row s0 =? r) hist))). change (extent []) with 0. lia.
Qed.

(** Contents: what the three planes hold, at every position. *)
Definition Holds (fmt : bool) (hist : list (@store V)) (g : @grid V) (W : list Z) : Prop :=
  widths (g_types g) = W /\ widths (g_vals g) = W /\ (if fmt then widths (g_xfs g) = W else g_xfs g = []) /\
  zlen W = g_nrows g /\
  (forall r c, look XL_CELL_EMPTY (g_types g) r c = spec_type hist r c) /\
  (forall r c, look vempty (g_vals g) r c = spec_val hist r c) /\
  (fmt = true -> forall r c, look (-1) (g_xfs g) r c = spec_xf hist r c).

Lemma set3_in : forall fmt hist g W s w, Holds fmt hist g W -> znth W (s_row s) = Some w -> 0 <= s_col s < w ->
  (fmt = true -> fits_h (s_xf s) = true) ->
  exists t v x, set3 fmt g s = SetOk t v x /\
    forall ncols ffr, Holds fmt (hist ++ [s]) (mk_grid (g_nrows g) ncols ffr t v x) W.
Proof.
  intros fmt hist g W s w (HT & HV & HX & HN & LT & LV & LX) Hw Hc Hf.
  destruct (plane_set_in (g_types g) (s_row s) (s_col s) (s_type s) w) as (t & Et & Wt & Lt); [rewrite HT; exact Hw|exact Hc|].
  destruct (plane_set_in (g_vals g) (s_row s) (s_col s) (s_val s) w) as (v & Ev & Wv & Lv); [rewrite HV; exact Hw|exact Hc|].
  unfold set3. rewrite Et, Ev.
  assert (forall r c, look XL_CELL_EMPTY t r c = spec_type (hist ++ [s]) r c) as LT'.
  { intros r c. rewrite Lt. unfold spec_type. rewrite last_at_snoc. destruct (_ && _); [reflexivity|]. apply LT. }
  assert (forall r c, look vempty v r c = spec_val (hist ++ [s]) r c) as LV'.
  { intros r c. rewrite Lv. unfold spec_val. rewrite last_at_snoc. destruct (_ && _); [reflexivity|]. apply LV. }
  destruct fmt.
  - destruct (plane_set_in (g_xfs g) (s_row s) (s_col s) (s_xf s) w) as (x & Ex & Wx & Lx); [rewrite HX; exact Hw|exact Hc|].
    unfold set_xf. rewrite Ex, (Hf eq_refl). exists t, v, x. split; [reflexivity|].
    intros ncols ffr. unfold Holds. cbn [g_types g_vals g_xfs g_nrows].
    rewrite Wt, Wv, Wx, HT, HV, HX. repeat split; auto.
    intros _ r c. rewrite Lx. unfold spec_xf. rewrite last_at_snoc. destruct (_ && _); [reflexivity|]. apply LX. reflexivity.
  - exists t, v, (g_xfs g). split; [reflexivity|].
    intros ncols ffr. unfold Holds. cbn [g_types g_vals g_xfs g_nrows].
    rewrite Wt, Wv, HT, HV. repeat split; auto. discriminate.
Qed.

Lemma set3_out : forall fmt hist g W s, Holds fmt hist g W -> 0 <= s_row s -> 0 <= s_col s ->
  (forall w, znth W (s_row s) = Some w -> w <= s_col s) ->
  set3 fmt g s = SetIndex (g_types g) (g_vals g).
Proof.
  intros fmt hist g W s (HT & _) Hr Hc H. unfold set3. rewrite plane_set_out; auto. rewrite HT. exact H.
Qed.

(** *** Padded rows *)

(** Widths never exceed the column count; from the first full row on they equal it. *)
Definition Full (g : @grid V) (W : list Z) : Prop :=
  (forall r w, znth W r = Some w -> 0 <= w <= g_ncols g) /\
  (g_ffr g = -2 \/ g_ffr g = -1 /\ g_nrows g = 0 /\ g_ncols g = 0 \/
   0 <= g_ffr g < g_nrows g /\ forall r w, g_ffr g <= r -> znth W r = Some w -> w = g_ncols g).

Lemma put_unragged_step : forall fmt maxrows maxcols hist g W s,
  Holds fmt hist g W -> Full g W -> 0 <= g_ncols g -> in_bounds fmt maxrows maxcols s ->
  exists g' W', put_cell_unragged vempty fmt maxrows maxcols g s = Ok g' /\
    Holds fmt (hist ++ [s]) g' W' /\ Full g' W' /\
    g_nrows g' = Z.max (g_nrows g) (s_row s + 1) /\ g_ncols g' = Z.max (g_ncols g) (s_col s + 1).
Proof.
  intros fmt maxrows maxcols hist g W s HH HF HC (Hr & Hc & Hx).
  unfold put_cell_unragged.
  pose proof HH as (HT & HV & HX & HN & LT & LV & LX). pose proof HF as (HF1 & HF2).
  destruct (znth W (s_row s)) as [w|] eqn:Ew; [destruct (Z_lt_le_dec (s_col s) w) as [Hlt|Hge]|].
  - (* the cell is there *)
    destruct (set3_in fmt hist g W s w HH Ew ltac:(lia) Hx) as (t & v & x & E & HH').
    rewrite E. do 2 eexists. split; [reflexivity|]. split; [apply HH'|].
    pose proof (znth_Some_range _ _ _ Ew). pose proof (HF1 _ _ Ew).
    split; [exact HF|]. cbn [g_nrows g_ncols]. lia.
  - (* the row is there but too short *)
    pose proof (znth_Some_range _ _ _ Ew) as Rr. pose proof (HF1 _ _ Ew) as Rw.
    rewrite (set3_out fmt hist g W s HH) by (try lia; intros w' E'; rewrite Ew in E'; injection E' as <-; lia).
    replace ((1 <=? s_col s + 1) && (s_col s + 1 <=? maxcols)) with true by lia.
    replace ((1 <=? s_row s + 1) && (s_row s + 1 <=? maxrows)) with true by lia. cbn [guard bind].
    set (ncols := if s_col s + 1 >? g_ncols g then s_col s + 1 else g_ncols g).
    set (ffr := if s_col s + 1 >? g_ncols g then
       (if s_row s + 1 <? g_nrows g then -2 else if (s_row s >? g_ffr g) && (g_ffr g >? -2) then s_row s else g_ffr g)
       else g_ffr g).
    replace (if s_col s + 1 >? g_ncols g then _ else (g_ncols g, g_ffr g)) with (ncols, ffr)
      by (unfold ncols, ffr; destruct (s_col s + 1 >? g_ncols g); reflexivity).
    assert (ncols = Z.max (g_ncols g) (s_col s + 1)) as Hnc by (unfold ncols; destruct (_ >? _) eqn:E; lia).
    replace (s_row s + 1 <=? g_nrows g) with true by lia.
    assert (py_index (g_types g) (s_row s) = Ok (match znth (g_types g) (s_row s) with Some row => row | None => [] end)
            /\ zlen (match znth (g_types g) (s_row s) with Some row => row | None => [] end) = w) as [E1 E2].
    { assert (znth (widths (g_types g)) (s_row s) = Some w) as A by (rewrite HT; exact Ew).
      apply width_row in A as (row & A1 & A2). rewrite (py_index_some _ _ _ A1), A1. auto. }
    rewrite E1. cbn [bind]. rewrite E2. replace (ncols - w >? 0) with true by lia.
    destruct (row_extend_spec XL_CELL_EMPTY (g_types g) (s_row s) w (ncols - w)) as (t & Et & Wt & Lt); [rewrite HT; exact Ew|lia|].
    destruct (row_extend_spec vempty (g_vals g) (s_row s) w (ncols - w)) as (v & Ev & Wv & Lv); [rewrite HV; exact Ew|lia|].
    rewrite Et. cbn [bind].
    set (W' := zset W (s_row s) ncols).
    replace (w + (ncols - w)) with ncols in * by lia.
    assert (exists x, (if fmt then row_extend (g_xfs g) (s_row s) (zrepeat (-1) (ncols - w)) else Ok (g_xfs g)) = Ok x /\
       (if fmt then widths x = W' else x = []) /\ (fmt = true -> forall r c, look (-1) x r c = spec_xf hist r c)) as (x & Ex & Wx & Lx).
    { destruct fmt.
      - destruct (row_extend_spec (-1) (g_xfs g) (s_row s) w (ncols - w)) as (x & Ex & Wx & Lx); [rewrite HX; exact Ew|lia|].
        exists x. split; [exact Ex|]. split; [rewrite Wx, HX; unfold W'; f_equal; lia|].
        intros _ r c. rewrite Lx. apply LX. reflexivity.
      - exists (g_xfs g). split; [reflexivity|]. split; [exact HX|discriminate]. }
    rewrite Ex. cbn [bind]. rewrite Ev. cbn [bind].
    assert (Holds fmt hist (mk_grid (g_nrows g) ncols ffr t v x) W') as HH1.
    { unfold Holds. cbn [g_types g_vals g_xfs g_nrows]. rewrite Wt, Wv, HT, HV.
      repeat split; auto.
      - unfold W'. rewrite zlen_zset by lia. exact HN.
      - intros r c. rewrite Lt. apply LT.
      - intros r c. rewrite Lv. apply LV. }
    assert (znth W' (s_row s) = Some ncols) as Ew' by (unfold W'; rewrite znth_zset by lia; rewrite Z.eqb_refl; reflexivity).
    destruct (set3_in fmt hist _ W' s ncols HH1 Ew' ltac:(lia) Hx) as (t2 & v2 & x2 & E3 & HH2).
    rewrite E3. do 2 eexists. split; [reflexivity|]. split; [apply HH2|].
    cbn [g_nrows g_ncols]. split; [|lia].
    split; cbn [g_nrows g_ncols g_ffr].
    + intros r w' E. unfold W' in E. rewrite znth_zset in E by lia. destruct (r =? s_row s) eqn:Er.
      * assert (w' = ncols) by congruence. lia.
      * apply HF1 in E. lia.
    + destruct (s_col s + 1 >? g_ncols g) eqn:Ec; unfold ffr.
      * destruct (s_row s + 1 <? g_nrows g) eqn:En; [left; reflexivity|].
        destruct HF2 as [->|[HF2|[HF2 HF4]]].
        { cbn. rewrite andb_false_r. left. reflexivity. }
        { lia. }
        right. right. replace (g_ffr g >? -2) with true by lia. rewrite andb_true_r.
        assert ((if s_row s >? g_ffr g then s_row s else g_ffr g) = s_row s) as -> by (destruct (s_row s >? g_ffr g) eqn:E; [reflexivity|clear - En Rr HN HF2 E; lia]).
        split; [lia|].
        intros r w' Hrr E. unfold W' in E. rewrite znth_zset in E by lia.
        destruct (r =? s_row s) eqn:Er; [congruence|]. apply znth_Some_range in E. lia.
      * destruct HF2 as [HF2|[HF2|[HF2 HF4]]]; [left; exact HF2|lia|]. right. right.
        split; [exact HF2|].
        intros r w' Hrr E. unfold W' in E. rewrite znth_zset in E by lia.
        destruct (r =? s_row s) eqn:Er; [congruence|]. rewrite (HF4 r w' Hrr E). lia.
  - (* a new row *)
    apply znth_None in Ew. assert (g_nrows g <= s_row s) as Hge by lia.
    rewrite (set3_out fmt hist g W s HH) by (try lia; intros w' E'; apply znth_Some_range in E'; lia).
    replace ((1 <=? s_col s + 1) && (s_col s + 1 <=? maxcols)) with true by lia.
    replace ((1 <=? s_row s + 1) && (s_row s + 1 <=? maxrows)) with true by lia. cbn [guard bind].
    set (ncols := if s_col s + 1 >? g_ncols g then s_col s + 1 else g_ncols g).
    set (ffr := if s_col s + 1 >? g_ncols g then
       (if s_row s + 1 <? g_nrows g then -2 else if (s_row s >? g_ffr g) && (g_ffr g >? -2) then s_row s else g_ffr g)
       else g_ffr g).
    replace (if s_col s + 1 >? g_ncols g then _ else (g_ncols g, g_ffr g)) with (ncols, ffr)
      by (unfold ncols, ffr; destruct (s_col s + 1 >? g_ncols g); reflexivity).
    assert (ncols = Z.max (g_ncols g) (s_col s + 1)) as Hnc by (unfold ncols; destruct (_ >? _) eqn:E; lia).
    replace (s_row s + 1 <=? g_nrows g) with false by lia. cbn [bind].
    set (k := s_row s + 1 - g_nrows g). set (W' := W ++ zrepeat ncols k).
    assert (Holds fmt hist (mk_grid (s_row s + 1) ncols ffr (g_types g ++ zrepeat (zrepeat XL_CELL_EMPTY ncols) k)
       (g_vals g ++ zrepeat (zrepeat vempty ncols) k)
       (if fmt then g_xfs g ++ zrepeat (zrepeat (-1) ncols) k else g_xfs g)) W') as HH1.
    { unfold Holds. cbn [g_types g_vals g_xfs g_nrows]. rewrite !widths_app, !widths_new_rows by lia. rewrite HT, HV.
      repeat split.
      - destruct fmt; [|exact HX]. rewrite widths_app, widths_new_rows, HX by lia. reflexivity.
      - unfold W'. rewrite zlen_app, zlen_zrepeat by lia. lia.
      - intros r c. rewrite look_new_rows. apply LT.
      - intros r c. rewrite look_new_rows. apply LV.
      - intros ->. intros r c. rewrite look_new_rows. apply LX. reflexivity. }
    assert (znth W' (s_row s) = Some ncols) as Ew'.
    { unfold W'. rewrite znth_app_r by lia. apply znth_zrepeat. lia. }
    destruct (set3_in fmt hist _ W' s ncols HH1 Ew' ltac:(lia) Hx) as (t2 & v2 & x2 & E3 & HH2).
    rewrite E3. do 2 eexists. split; [reflexivity|]. split; [apply HH2|].
    cbn [g_nrows g_ncols]. pose proof (zlen_nonneg W). split; [|lia].
    split; cbn [g_nrows g_ncols g_ffr].
    + intros r w' E. unfold W' in E. destruct (Z_lt_le_dec r (zlen W)) as [L|L].
      * pose proof (znth_Some_range _ _ _ E). rewrite znth_app_l in E by lia. apply HF1 in E. lia.
      * rewrite znth_app_r in E by lia. apply znth_zrepeat_inv in E. lia.
    + assert (forall r w', zlen W <= r -> znth W' r = Some w' -> w' = ncols) as Hnew.
      { intros r w' L E. unfold W' in E. rewrite znth_app_r in E by lia. apply znth_zrepeat_inv in E. exact E. }
      destruct (s_col s + 1 >? g_ncols g) eqn:Ec; unfold ffr.
      * replace (s_row s + 1 <? g_nrows g) with false by lia.
        destruct HF2 as [->|HF2].
        { cbn. rewrite andb_false_r. left. reflexivity. }
        right. right. replace (g_ffr g >? -2) with true by lia. rewrite andb_true_r.
        assert ((if s_row s >? g_ffr g then s_row s else g_ffr g) = s_row s) as -> by (destruct (s_row s >? g_ffr g) eqn:E; [reflexivity|clear - Hge HF2 E Hr; lia]).
        split; [lia|]. intros r w' Hrr E. apply (Hnew r); [lia|exact E].
      * destruct HF2 as [HF2|[HF2|[HF2 HF4]]]; [left; exact HF2|lia|]. right. right.
        split; [lia|].
        intros r w' Hrr E. destruct (Z_lt_le_dec r (zlen W)) as [L|L].
        -- pose proof (znth_Some_range _ _ _ E). unfold W' in E. rewrite znth_app_l in E by lia. rewrite (HF4 r w' Hrr E). lia.
        -- rewrite (Hnew r w' L E). reflexivity.
Qed.

Lemma grid0_holds : forall fmt, Holds fmt [] (@grid0 V) [].
Proof.
  intros fmt. unfold Holds, grid0. cbn [g_types g_vals g_xfs g_nrows].
  assert (forall A (d : A) r c, look d [] r c = d) as L.
  { intros A d r c. unfold look. replace (znth [] r) with (@None (list A)); [reflexivity|].
    symmetry. apply znth_None. unfold zlen. cbn [length]. lia. }
  repeat split; try reflexivity; try (destruct fmt; reflexivity); intros; rewrite L; reflexivity.
Qed.

Lemma put_unragged_all : forall fmt maxrows maxcols ss hist g W,
  Holds fmt hist g W -> Full g W -> g_nrows g = rows_of hist -> g_ncols g = cols_of hist ->
  Forall (in_bounds fmt maxrows maxcols) ss ->
  exists g' W', put_cells vempty false fmt maxrows maxcols g ss = Ok g' /\
    Holds fmt (hist ++ ss) g' W' /\ Full g' W' /\
    g_nrows g' = rows_of (hist ++ ss) /\ g_ncols g' = cols_of (hist ++ ss).
Proof.
  intros fmt maxrows maxcols. induction ss as [|s ss IH]; intros hist g W HH HF HR HC HB.
  - rewrite app_nil_r. exists g, W. cbn [put_cells]. auto.
  - inversion HB as [|x l Hs HB']; subst. cbn [put_cells]. unfold put_cell at 1.
    pose proof (extent_nonneg (map s_col hist)) as Hn. fold (cols_of hist) in Hn.
    destruct (put_unragged_step fmt maxrows maxcols hist g W s HH HF ltac:(lia) Hs) as (g1 & W1 & E & HH1 & HF1 & HR1 & HC1).
    rewrite E. cbn [bind]. destruct Hs as (Hs1 & Hs2 & _).
    destruct (IH (hist ++ [s]) g1 W1 HH1 HF1) as (g2 & W2 & E2 & HH2 & HF2 & HR2 & HC2).
    + rewrite rows_of_snoc by lia. lia.
    + rewrite cols_of_snoc by lia. lia.
    + exact HB'.
    + rewrite <- app_assoc in *. cbn [app] in *. exists g2, W2. auto.
Qed.

(** *** Ragged rows *)

Definition Ragged (hist : list (@store V)) (W : list Z) : Prop :=
  forall r w, znth W r = Some w -> w = row_extent hist r.

Lemma filter_nil_iff : forall {A} (f : A -> bool) l, filter f l = [] <-> forall x, In x l -> f x = false.
Proof.
  intros A f l. induction l as [|a l IH]; cbn [filter]; [split; [intros _ x []|reflexivity]|].
  destruct (f a) eqn:E.
  - split; [discriminate|]. intros H. rewrite (H a) in E; [discriminate|left; reflexivity].
  - rewrite IH. split; [intros H x [->|Hx]; [exact E|auto]|intros H x Hx; apply H; right; exact Hx].
Qed.

Lemma row_extent_none : forall hist r, rows_of hist <= r -> row_extent hist r = 0.
Proof.
  intros hist r H. unfold row_extent. rewrite (proj2 (filter_nil_iff _ _)); [reflexivity|].
  intros s Hs. destruct (s_row s =? r) eqn:E; [|reflexivity].
  assert (s_row s + 1 <= rows_of hist); [|lia]. unfold rows_of. clear -Hs.
  induction hist as [|a l IH]; [contradiction|]. cbn [map].
  change (extent (s_row a :: map s_row l)) with (Z.max (s_row a + 1) (extent (map s_row l))).
  destruct Hs as [->|Hs]; [lia|]. specialize (IH Hs). lia.
Qed.

Lemma ragged_plane : forall {A} (d a : A) p r c w, znth (widths p) r = Some w -> 0 <= c ->
  exists row row' p', py_index p r = Ok row /\ zlen row = w /\ ragged_row d row w c a = Ok row' /\
    list_set p r row' = Ok p' /\ widths p' = zset (widths p) r (Z.max w (c + 1)) /\
    forall r' c', look d p' r' c' = if (r' =? r) && (c' =? c) then a else look d p r' c'.
Proof.
  intros A d a p r c w H Hc. pose proof H as H0. apply width_row in H as (row & H1 & H2).
  pose proof (znth_Some_range _ _ _ H1) as R. exists row. pose proof (zlen_nonneg row) as Hw.
  assert (exists row', ragged_row d row w c a = Ok row' /\ zlen row' = Z.max w (c + 1) /\
     forall c', match znth row' c' with Some x => x | None => d end =
                if c' =? c then a else match znth row c' with Some x => x | None => d end) as (row' & E & L & K).
  { unfold ragged_row. destruct (c - w =? 0) eqn:E0.
    - eexists. split; [reflexivity|]. split; [rewrite zlen_app; change (zlen [a]) with 1; lia|].
      intros c'. destruct (c' =? c) eqn:Ec.
      + replace c' with (zlen row) by lia. rewrite znth_app_r by lia. rewrite Z.sub_diag. reflexivity.
      + destruct (Z_lt_le_dec c' (zlen row)).
        * destruct (c' <? 0) eqn:En.
          -- assert (forall m : list A, znth m c' = None) as N by (intros; apply znth_None; lia). rewrite !N. reflexivity.
          -- rewrite znth_app_l by lia. reflexivity.
        * assert (znth (row ++ [a]) c' = None) as -> by (apply znth_None; rewrite zlen_app; change (zlen [a]) with 1; lia).
          assert (znth row c' = None) as -> by (apply znth_None; lia). reflexivity.
    - destruct (c - w >? 0) eqn:E1.
      + rewrite py_slice_all by lia.
        assert (zlen (row ++ zrepeat d (c - w + 1)) = c + 1) as L1 by (rewrite zlen_app, zlen_zrepeat; lia).
        rewrite list_set_spec by lia. eexists. split; [reflexivity|].
        fold (zset (row ++ zrepeat d (c - w + 1)) c a). split; [rewrite zlen_zset by lia; lia|].
        intros c'. rewrite znth_zset by lia. destruct (c' =? c) eqn:Ec; [reflexivity|].
        destruct (Z_lt_le_dec c' (zlen row)).
        * destruct (c' <? 0) eqn:En.
          -- assert (forall m : list A, znth m c' = None) as N by (intros; apply znth_None; lia). rewrite !N. reflexivity.
          -- rewrite znth_app_l by lia. reflexivity.
        * rewrite znth_app_r by lia. assert (znth row c' = None) as -> by (apply znth_None; lia).
          destruct (znth (zrepeat d _) _) as [b|] eqn:Eb; [|reflexivity]. apply znth_zrepeat_inv in Eb. exact Eb.
      + rewrite list_set_spec by lia. eexists. split; [reflexivity|].
        fold (zset row c a). split; [rewrite zlen_zset by lia; lia|].
        intros c'. rewrite znth_zset by lia. destruct (c' =? c) eqn:Ec; reflexivity. }
  exists row'. rewrite list_set_spec by exact R. eexists.
  split; [apply py_index_some; exact H1|]. split; [exact H2|]. split; [exact E|]. split; [reflexivity|].
  fold (zset p r row'). split.
  - unfold widths. rewrite map_zset, L. reflexivity.
  - intros r' c'. unfold look at 1. rewrite znth_zset by exact R. destruct (r' =? r) eqn:Er; cbn [andb]; [|reflexivity].
    unfold look. replace r' with r by lia. rewrite H1. apply K.
Qed.

Lemma widths_no_rows : forall {A} (p : list (list A)) k W, widths p = W -> widths (p ++ zrepeat [] k) = W ++ zrepeat 0 k.
Proof.
  intros A p k W <-. rewrite widths_app. f_equal. unfold zrepeat, widths.
  induction (Z.to_nat k) as [|j IH]; [reflexivity|]. cbn [repeat map]. rewrite IH. reflexivity.
Qed.

Lemma look_no_rows : forall {A} (d : A) p k r c, look d (p ++ zrepeat [] k) r c = look d p r c.
Proof. intros A d p k r c. exact (look_new_rows d p 0 k r c). Qed.

Lemma put_ragged_step : forall fmt maxrows maxcols hist g W s,
  Holds fmt hist g W -> Ragged hist W -> rows_of hist <= g_nrows g -> in_bounds fmt maxrows maxcols s ->
  exists g' W', put_cell_ragged vempty fmt maxrows maxcols g s = Ok g' /\
    Holds fmt (hist ++ [s]) g' W' /\ Ragged (hist ++ [s]) W' /\
    g_nrows g' = Z.max (g_nrows g) (s_row s + 1) /\ g_ncols g' = Z.max (g_ncols g) (s_col s + 1).
Proof.
  intros fmt maxrows maxcols hist g W s HH HG HR (Hr & Hc & Hx).
  unfold put_cell_ragged.
  replace ((0 <=? s_col s) && (s_col s <? maxcols)) with true by lia.
  replace ((0 <=? s_row s) && (s_row s <? maxrows)) with true by lia. cbn [guard bind].
  set (nrows := Z.max (g_nrows g) (s_row s + 1)). set (k := nrows - g_nrows g).
  assert (exists t v x W1,
    (if g_nrows g <? s_row s + 1 then
       (s_row s + 1, g_types g ++ zrepeat [] (s_row s + 1 - g_nrows g), g_vals g ++ zrepeat [] (s_row s + 1 - g_nrows g),
        if fmt then g_xfs g ++ zrepeat [] (s_row s + 1 - g_nrows g) else g_xfs g)
     else (g_nrows g, g_types g, g_vals g, g_xfs g)) = (nrows, t, v, x) /\
    Holds fmt hist (mk_grid nrows (g_ncols g) (g_ffr g) t v x) W1 /\ Ragged hist W1) as (t & v & x & W1 & -> & HH1 & HG1).
  { pose proof HH as (HT & HV & HX & HN & LT & LV & LX).
    destruct (g_nrows g <? s_row s + 1) eqn:E.
    - exists (g_types g ++ zrepeat [] (s_row s + 1 - g_nrows g)), (g_vals g ++ zrepeat [] (s_row s + 1 - g_nrows g)),
        (if fmt then g_xfs g ++ zrepeat [] (s_row s + 1 - g_nrows g) else g_xfs g), (W ++ zrepeat 0 (s_row s + 1 - g_nrows g)).
      split; [replace nrows with (s_row s + 1) by lia; reflexivity|].
      pose proof (zlen_nonneg W).
      split.
      + unfold Holds. cbn [g_types g_vals g_xfs g_nrows].
        repeat split.
        * apply widths_no_rows. exact HT.
        * apply widths_no_rows. exact HV.
        * destruct fmt; [|exact HX]. apply widths_no_rows. exact HX.
        * rewrite zlen_app, zlen_zrepeat by lia. lia.
        * intros r c. rewrite look_no_rows. apply LT.
        * intros r c. rewrite look_no_rows. apply LV.
        * intros ->. intros r c. rewrite look_no_rows. apply LX. reflexivity.
      + intros r w E1. pose proof (znth_Some_range _ _ _ E1). destruct (Z_lt_le_dec r (zlen W)).
        * rewrite znth_app_l in E1 by lia. apply HG. exact E1.
        * rewrite znth_app_r in E1 by lia. apply znth_zrepeat_inv in E1. rewrite row_extent_none by lia. exact E1.
    - exists (g_types g), (g_vals g), (g_xfs g), W. split; [replace nrows with (g_nrows g) by lia; reflexivity|].
      split; [|exact HG]. replace nrows with (g_nrows g) by lia. destruct g; exact HH. }
  pose proof HH1 as (HT & HV & HX & HN & LT & LV & LX). cbn [g_types g_vals g_xfs g_nrows] in *.
  destruct (znth_in_range W1 (s_row s) ltac:(lia)) as [w Ew].
  destruct (ragged_plane XL_CELL_EMPTY (s_type s) t (s_row s) (s_col s) w) as (tr & tr' & t' & Et1 & Et2 & Et3 & Et4 & Wt & Lt);
    [rewrite HT; exact Ew|lia|].
  destruct (ragged_plane vempty (s_val s) v (s_row s) (s_col s) w) as (vr & vr' & v' & Ev1 & Ev2 & Ev3 & Ev4 & Wv & Lv);
    [rewrite HV; exact Ew|lia|].
  rewrite Et1, Ev1. cbn [bind].
  set (W2 := zset W1 (s_row s) (Z.max w (s_col s + 1))).
  assert (Ragged (hist ++ [s]) W2) as HG2.
  { intros r w' E. unfold W2 in E. rewrite znth_zset in E by (apply znth_Some_range in Ew; exact Ew).
    rewrite row_extent_snoc by lia. destruct (r =? s_row s) eqn:Er.
    - replace r with (s_row s) by lia. rewrite <- (HG1 _ _ Ew). congruence.
    - apply HG1. exact E. }
  assert (zlen W2 = nrows) as HN2 by (unfold W2; rewrite zlen_zset by (apply znth_Some_range in Ew; exact Ew); exact HN).
  assert ((if s_col s >=? g_ncols g then s_col s + 1 else g_ncols g) = Z.max (g_ncols g) (s_col s + 1)) as Hnc
    by (destruct (s_col s >=? g_ncols g) eqn:E; lia).
  assert (forall r c, look XL_CELL_EMPTY t' r c = spec_type (hist ++ [s]) r c) as LT'.
  { intros r c. rewrite Lt. unfold spec_type. rewrite last_at_snoc. destruct (_ && _); [reflexivity|]. apply LT. }
  assert (forall r c, look vempty v' r c = spec_val (hist ++ [s]) r c) as LV'.
  { intros r c. rewrite Lv. unfold spec_val. rewrite last_at_snoc. destruct (_ && _); [reflexivity|]. apply LV. }
  destruct fmt.
  - destruct (ragged_plane (-1) (s_xf s) x (s_row s) (s_col s) w) as (xr & xr' & x' & Ex1 & Ex2 & Ex3 & Ex4 & Wx & Lx);
      [rewrite HX; exact Ew|lia|].
    rewrite Ex1. cbn [bind]. rewrite Et2, Et3. cbn [bind]. rewrite Ev3. cbn [bind]. rewrite Et4. cbn [bind].
    rewrite Ev4. cbn [bind]. rewrite Ex3. cbn [bind]. rewrite (Hx eq_refl), Ex4. cbn [bind]. rewrite Hnc.
    do 2 eexists. split; [reflexivity|]. split; [|split; [exact HG2|split; reflexivity]].
    unfold Holds. cbn [g_types g_vals g_xfs g_nrows]. rewrite Wt, Wv, Wx, HT, HV, HX. repeat split; auto.
    intros _ r c. rewrite Lx. unfold spec_xf. rewrite last_at_snoc. destruct (_ && _); [reflexivity|]. apply LX. reflexivity.
  - cbn [bind]. rewrite Et2, Et3. cbn [bind]. rewrite Ev3. cbn [bind]. rewrite Et4. cbn [bind].
    rewrite Ev4. cbn [bind]. rewrite Hnc.
    do 2 eexists. split; [reflexivity|]. split; [|split; [exact HG2|split; reflexivity]].
    unfold Holds. cbn [g_types g_vals g_xfs g_nrows]. rewrite Wt, Wv, HT, HV. repeat split; auto. discriminate.
Qed.

Lemma put_ragged_all : forall fmt maxrows maxcols ss hist g W,
  Holds fmt hist g W -> Ragged hist W -> g_nrows g = rows_of hist -> g_ncols g = cols_of hist ->
  Forall (in_bounds fmt maxrows maxcols) ss ->
  exists g' W', put_cells vempty true fmt maxrows maxcols g ss = Ok g' /\
    Holds fmt (hist ++ ss) g' W' /\ Ragged (hist ++ ss) W' /\
    g_nrows g' = rows_of (hist ++ ss) /\ g_ncols g' = cols_of (hist ++ ss).
Proof.
  intros fmt maxrows maxcols. induction ss as [|s ss IH]; intros hist g W HH HF HR HC HB.
  - rewrite app_nil_r. exists g, W. cbn [put_cells]. auto.
  - inversion HB as [|x l Hs HB']; subst. cbn [put_cells]. unfold put_cell at 1.
    destruct (put_ragged_step fmt maxrows maxcols hist g W s HH HF ltac:(lia) Hs) as (g1 & W1 & E & HH1 & HF1 & HR1 & HC1).
    rewrite E. cbn [bind]. destruct Hs as (Hs1 & Hs2 & _).
    destruct (IH (hist ++ [s]) g1 W1 HH1 HF1) as (g2 & W2 & E2 & HH2 & HF2 & HR2 & HC2).
    + rewrite rows_of_snoc by lia. lia.
    + rewrite cols_of_snoc by lia. lia.
    + exact HB'.
    + rewrite <- app_assoc in *. cbn [app] in *. exists g2, W2. auto.
Qed.

(** *** Tidying up *)

Lemma merged_extent_spec : forall merged, merged_extent merged = (merged_rows merged, merged_cols merged).
Proof.
  intros merged. unfold merged_extent.
  assert (forall l a b, 0 <= a -> 0 <= b ->
    fold_left (fun acc m => let '(nr, nc) := acc in let '(_, rhi, _, chi) := m in
                          (if rhi >? nr then rhi else nr, if chi >? nc then chi else nc)) l (a, b)
    = (Z.max a (merged_rows l), Z.max b (merged_cols l))) as K.
  { induction l as [|[[[rlo rhi] clo] chi] l IH]; intros a b Ha Hb.
    - cbn [fold_left merged_rows merged_cols fold_right]. f_equal; lia.
    - cbn [fold_left]. rewrite IH by (destruct (_ >? _) eqn:E; lia).
      change (merged_rows ((rlo, rhi, clo, chi) :: l)) with (Z.max rhi (merged_rows l)).
      change (merged_cols ((rlo, rhi, clo, chi) :: l)) with (Z.max chi (merged_cols l)).
      f_equal; destruct (_ >? _) eqn:E; lia. }
  rewrite K by lia.
  assert (forall l, 0 <= merged_rows l) as P by (induction l as [|[[[? ?] ?] ?] l IH]; [cbn; lia|];
    change (0 <= Z.max z0 (merged_rows l)); lia).
  assert (forall l, 0 <= merged_cols l) as Q by (induction l as [|[[[? ?] ?] ?] l IH]; [cbn; lia|];
    change (0 <= Z.max z2 (merged_cols l)); lia).
  specialize (P merged). specialize (Q merged). f_equal; lia.
Qed.

Lemma merged_nonneg : forall l, 0 <= merged_rows l /\ 0 <= merged_cols l.
Proof.
  induction l as [|[[[a b] c] d] l IH]; [cbn; lia|].
  change (merged_rows ((a, b, c, d) :: l)) with (Z.max b (merged_rows l)).
  change (merged_cols ((a, b, c, d) :: l)) with (Z.max d (merged_cols l)). lia.
Qed.

Lemma fix_rows_spec : forall fmt hist ncols rows g W, Holds fmt hist g W ->
  (forall r w, znth W r = Some w -> w <= ncols) -> Forall (fun r => 0 <= r < zlen W) rows ->
  exists g' W', fix_rows vempty fmt ncols g rows = Ok g' /\ Holds fmt hist g' W' /\
    g_nrows g' = g_nrows g /\ g_ncols g' = g_ncols g /\ g_ffr g' = g_ffr g /\
    (forall r w, znth W' r = Some w -> w = ncols \/ znth W r = Some w /\ ~ In r rows).
Proof.
  intros fmt hist ncols. induction rows as [|r0 rows IH]; intros g W HH HW HR.
  - exists g, W. cbn [fix_rows]. split; [reflexivity|]. split; [exact HH|]. do 3 (split; [reflexivity|]).
    intros r w E. right. split; [exact E|intros []].
  - inversion HR as [|x l R0 HR']; subst x l. cbn [fix_rows]. unfold fix_row.
    pose proof HH as (HT & HV & HX & HN & LT & LV & LX).
    destruct (znth_in_range W r0 R0) as [w0 E0].
    assert (exists trow, py_index (g_types g) r0 = Ok trow /\ zlen trow = w0) as (trow & Etr & Ltr).
    { assert (znth (widths (g_types g)) r0 = Some w0) as A by (rewrite HT; exact E0).
      apply width_row in A as (row & A1 & A2). rewrite (py_index_some _ _ _ A1). eauto. }
    rewrite Etr. cbn [bind]. rewrite Ltr. destruct (ncols - w0 >? 0) eqn:Ex.
    + destruct (row_tail_spec vempty (g_vals g) r0 w0 (ncols - w0)) as (v & Ev & Wv & Lv); [rewrite HV; exact E0|lia|].
      destruct (row_tail_spec XL_CELL_EMPTY (g_types g) r0 w0 (ncols - w0)) as (t & Et & Wt & Lt); [rewrite HT; exact E0|lia|].
      rewrite Ev. cbn [bind]. rewrite Et. cbn [bind].
      set (W1 := zset W r0 (w0 + (ncols - w0))) in *.
      assert (exists x, (if fmt then row_tail (g_xfs g) r0 w0 (zrepeat (-1) (ncols - w0)) else Ok (g_xfs g)) = Ok x /\
        (if fmt then widths x = W1 else x = []) /\ (fmt = true -> forall r c, look (-1) x r c = spec_xf hist r c)) as (x & Exx & Wx & Lx).
      { destruct fmt.
        - destruct (row_tail_spec (-1) (g_xfs g) r0 w0 (ncols - w0)) as (x & Exx & Wx & Lx); [rewrite HX; exact E0|lia|].
          exists x. split; [exact Exx|]. split; [rewrite Wx, HX; reflexivity|]. intros _ r c. rewrite Lx. apply LX. reflexivity.
        - exists (g_xfs g). split; [reflexivity|]. split; [exact HX|discriminate]. }
      rewrite Exx. cbn [bind].
      destruct (IH (mk_grid (g_nrows g) (g_ncols g) (g_ffr g) t v x) W1) as (g2 & W2 & E2 & H2 & N2 & C2 & F2 & K2).
      * unfold Holds. cbn [g_types g_vals g_xfs g_nrows]. rewrite Wt, Wv, HT, HV. repeat split; auto.
        -- unfold W1. rewrite zlen_zset by exact R0. exact HN.
        -- intros r c. rewrite Lt. apply LT.
        -- intros r c. rewrite Lv. apply LV.
      * intros r w E. unfold W1 in E. rewrite znth_zset in E by exact R0. destruct (r =? r0); [injection E as <-; lia|]. eapply HW. exact E.
      * unfold W1. rewrite zlen_zset by exact R0. exact HR'.
      * exists g2, W2. split; [exact E2|]. split; [exact H2|]. split; [exact N2|]. split; [exact C2|]. split; [exact F2|].
        intros r w E. destruct (K2 r w E) as [->|[E3 NI]]; [left; reflexivity|].
        unfold W1 in E3. rewrite znth_zset in E3 by exact R0. destruct (r =? r0) eqn:Er; [left; injection E3 as <-; lia|].
        right. split; [exact E3|]. intros [->|I]; [lia|contradiction].
    + destruct (IH g W HH HW HR') as (g2 & W2 & E2 & H2 & N2 & C2 & F2 & K2). cbn [bind].
      exists g2, W2. split; [exact E2|]. split; [exact H2|]. split; [exact N2|]. split; [exact C2|]. split; [exact F2|].
      intros r w E. destruct (K2 r w E) as [->|[E3 NI]]; [left; reflexivity|].
      destruct (Z.eq_dec r r0) as [->|D].
      * left. rewrite E0 in E3. assert (w = w0) as -> by congruence. specialize (HW _ _ E0). lia.
      * right. split; [exact E3|]. intros [->|I]; [contradiction|contradiction].
Qed.

(** A placeholder for a merged range below the last stored row. *)
Definition placeholder (hist : list (@store V)) (merged : list mrange) : list (@store V) :=
  if rows_of hist <? merged_rows merged then [mk_store (merged_rows merged - 1) 0 XL_CELL_EMPTY vempty (-1)] else [].

Definition nrows_spec (hist : list (@store V)) (merged : list mrange) : Z := Z.max (rows_of hist) (merged_rows merged).
Definition ncols_spec (hist : list (@store V)) (merged : list mrange) : Z := Z.max (cols_of hist) (merged_cols merged).

(** Merged ranges as they come from the file: upper bounds are at least 1
    (they are exclusive) and rows respect the limit. *)
Definition merged_ok (maxrows : Z) (merged : list mrange) : Prop :=
  Forall (fun m => let '(_, rhi, _, chi) := m in 1 <= rhi <= maxrows /\ 1 <= chi) merged.

Lemma merged_ok_bounds : forall maxrows merged, 0 <= maxrows -> merged_ok maxrows merged ->
  merged_rows merged <= maxrows /\ (merged <> [] -> 1 <= merged_rows merged /\ 1 <= merged_cols merged).
Proof.
  intros maxrows merged H0 H. induction H as [|[[[a b] c] d] l Hm Hl IH].
  - split; [exact H0|]. intros E. exfalso. apply E. reflexivity.
  - change (merged_rows ((a, b, c, d) :: l)) with (Z.max b (merged_rows l)).
    change (merged_cols ((a, b, c, d) :: l)) with (Z.max d (merged_cols l)).
    split; [lia|]. intros _. pose proof (merged_nonneg l). lia.
Qed.

Lemma last_placeholder : forall hist merged r c, 
  spec_type (hist ++ placeholder hist merged) r c = spec_type hist r c /\
  spec_val (hist ++ placeholder hist merged) r c = spec_val hist r c /\
  spec_xf (hist ++ placeholder hist merged) r c = spec_xf hist r c.
Proof.
  intros hist merged r c. unfold placeholder. destruct (rows_of hist <? merged_rows merged) eqn:E; [|rewrite app_nil_r; auto].
  unfold spec_type, spec_val, spec_xf. rewrite last_at_snoc. cbn [s_row s_col].
  destruct ((r =? merged_rows merged - 1) && (c =? 0)) eqn:E1; [|auto].
  assert (last_at hist r c = None) as ->; [|auto].
  assert (r + 1 > rows_of hist) as Hr by lia. clear -Hr. unfold rows_of in Hr.
  assert (forall (l : list (@store V)) acc, (forall s, In s l -> s_row s <> r) ->
    fold_left (fun acc (s : @store V) => if (r =? s_row s) && (c =? s_col s) then Some s else acc) l acc = acc) as K.
  { induction l as [|s l IH]; intros acc H; [reflexivity|]. cbn [fold_left]. 
    replace (r =? s_row s) with false by (specialize (H s (or_introl eq_refl)); lia). cbn [andb].
    apply IH. intros s' Hs'. apply H. right. exact Hs'. }
  unfold last_at. apply K. intros s Hs.
  assert (s_row s + 1 <= extent (map s_row hist)); [|lia]. clear -Hs.
  induction hist as [|a l IH]; [contradiction|]. cbn [map].
  change (extent (s_row a :: map s_row l)) with (Z.max (s_row a + 1) (extent (map s_row l))).
  destruct Hs as [->|Hs]; [lia|]. specialize (IH Hs). lia.
Qed.

(** The whole story for one sheet: all stores, then the tidying. *)
Definition sheet_of (ragged fmt : bool) (maxrows maxcols : Z) (hist : list (@store V)) (merged : list mrange) : result (@grid V) :=
  do g <- put_cells vempty ragged fmt maxrows maxcols grid0 hist;
  tidy_dimensions vempty ragged fmt maxrows maxcols merged g.

Lemma sheet_padded : forall fmt maxrows maxcols hist merged, 0 <= maxrows -> 1 <= maxcols ->
  Forall (in_bounds fmt maxrows maxcols) hist -> merged_ok maxrows merged ->
  exists g, sheet_of false fmt maxrows maxcols hist merged = Ok g /\
    g_nrows g = nrows_spec hist merged /\ g_ncols g = ncols_spec hist merged /\
    Holds fmt hist g (zrepeat (g_ncols g) (g_nrows g)).
Proof.
  intros fmt maxrows maxcols hist merged M1 M2 HB HM. unfold sheet_of.
  destruct (put_unragged_all fmt maxrows maxcols hist [] grid0 [] (grid0_holds fmt)) as (g & W & E & HH & HF & HR & HC);
    [split; [intros r w Ew; apply znth_Some_range in Ew; cbn in Ew; lia|right; left; auto]|reflexivity|reflexivity|exact HB|].
  cbn [app] in *. rewrite E. cbn [bind]. unfold tidy_dimensions.
  pose proof (merged_ok_bounds maxrows merged M1 HM) as [HM1 HM2].
  assert (0 <= cols_of hist) as Hc0 by apply extent_nonneg. assert (0 <= rows_of hist) as Hr0 by apply extent_nonneg.
  match goal with |- context[bind ?m _] => assert (exists g1 W1, m = Ok g1 /\ Holds fmt (hist ++ placeholder hist merged) g1 W1 /\ Full g1 W1 /\
    g_nrows g1 = nrows_spec hist merged /\ g_ncols g1 = ncols_spec hist merged) as (g1 & W1 & -> & HH1 & HF1 & HR1 & HC1) end.
  { unfold nrows_spec, ncols_spec, placeholder. destruct merged as [|m0 merged0] eqn:Em.
    - change (merged_rows []) with 0. change (merged_cols []) with 0.
      replace (rows_of hist <? 0) with false by lia. rewrite app_nil_r. exists g, W.
      split; [reflexivity|]. split; [exact HH|]. split; [exact HF|]. lia.
    - rewrite <- Em in *. assert (1 <= merged_rows merged /\ 1 <= merged_cols merged) as [P1 P2] by (apply HM2; congruence).
      rewrite merged_extent_spec. cbv zeta.
      set (g0 := if merged_cols merged >? g_ncols g then mk_grid (g_nrows g) (merged_cols merged) (-2) (g_types g) (g_vals g) (g_xfs g) else g).
      assert (Holds fmt hist g0 W /\ Full g0 W /\ g_nrows g0 = g_nrows g /\ g_ncols g0 = Z.max (g_ncols g) (merged_cols merged)) as (HH0 & HF0 & HR0 & HC0).
      { unfold g0. destruct (merged_cols merged >? g_ncols g) eqn:Ec.
        - cbn [g_nrows g_ncols]. split; [exact HH|]. split; [|lia]. split; [|left; reflexivity].
          intros r w Ew. destruct HF as [HF _]. apply HF in Ew. cbn [g_ncols]. lia.
        - split; [exact HH|]. split; [exact HF|]. lia. }
      rewrite HR0. destruct (merged_rows merged >? g_nrows g) eqn:Er.
      + replace (rows_of hist <? merged_rows merged) with true by lia.
        destruct (put_unragged_step fmt maxrows maxcols hist g0 W (mk_store (merged_rows merged - 1) 0 XL_CELL_EMPTY vempty (-1)) HH0 HF0)
          as (g1 & W1 & E1 & HH1 & HF1 & HR1 & HC1); [lia|cbn; unfold in_bounds; cbn; repeat split; lia|].
        cbn [s_row s_col] in *. exists g1, W1. unfold put_cell. split; [exact E1|]. split; [exact HH1|]. split; [exact HF1|]. lia.
      + replace (rows_of hist <? merged_rows merged) with false by lia. rewrite app_nil_r.
        exists g0, W. split; [reflexivity|]. split; [exact HH0|]. split; [exact HF0|]. lia. }
  cbn [bind].
  assert (Holds fmt hist g1 W1) as HH2.
  { destruct HH1 as (A & B & C & D & L1 & L2 & L3). unfold Holds. repeat split; auto.
    - intros r c. rewrite L1. apply last_placeholder.
    - intros r c. rewrite L2. apply last_placeholder.
    - intros Hf r c. rewrite (L3 Hf). apply last_placeholder. }
  pose proof HH2 as (_ & _ & _ & HN & _). destruct HF1 as [HF1 HF2].
  destruct (fix_rows_spec fmt hist (g_ncols g1) (zrange 0 (if g_ffr g1 =? -2 then g_nrows g1 else g_ffr g1)) g1 W1 HH2)
    as (g2 & W2 & E2 & HH3 & N2 & C2 & F2 & K2).
  - intros r w Ew. apply HF1 in Ew. lia.
  - apply Forall_forall. intros r Hr. apply in_zrange in Hr. destruct (g_ffr g1 =? -2) eqn:Ef; lia.
  - exists g2. split; [exact E2|]. split; [lia|]. split; [lia|].
    assert (W2 = zrepeat (g_ncols g2) (g_nrows g2)) as <-; [|exact HH3].
    pose proof HH3 as (_ & _ & _ & HN2 & _). pose proof (zlen_nonneg W2).
    apply znth_ext. intros r Hr. destruct (Z_lt_le_dec r (zlen W2)) as [L|L].
    + destruct (znth_in_range W2 r ltac:(lia)) as [w Ew]. rewrite Ew, znth_zrepeat by lia. f_equal.
      destruct (K2 r w Ew) as [->|[Ew1 NI]]; [lia|]. rewrite in_zrange in NI.
      destruct (g_ffr g1 =? -2) eqn:Ef; [lia|]. destruct HF2 as [HF2|[HF2|[HF2 HF4]]]; [lia|lia|].
      rewrite C2. apply (HF4 r w); [lia|exact Ew1].
    + assert (znth W2 r = None) as -> by (apply znth_None; lia). symmetry. apply znth_None. rewrite zlen_zrepeat by lia. lia.
Qed.

Lemma sheet_ragged : forall fmt maxrows maxcols hist merged, 0 <= maxrows -> 1 <= maxcols ->
  Forall (in_bounds fmt maxrows maxcols) hist -> merged_ok maxrows merged ->
  exists g W, sheet_of true fmt maxrows maxcols hist merged = Ok g /\
    g_nrows g = nrows_spec hist merged /\ g_ncols g = ncols_spec hist merged /\
    Holds fmt hist g W /\ Ragged (hist ++ placeholder hist merged) W.
Proof.
  intros fmt maxrows maxcols hist merged M1 M2 HB HM. unfold sheet_of.
  destruct (put_ragged_all fmt maxrows maxcols hist [] grid0 [] (grid0_holds fmt)) as (g & W & E & HH & HF & HR & HC);
    [intros r w Ew; apply znth_Some_range in Ew; cbn in Ew; lia|reflexivity|reflexivity|exact HB|].
  cbn [app] in *. rewrite E. cbn [bind]. unfold tidy_dimensions.
  pose proof (merged_ok_bounds maxrows merged M1 HM) as [HM1 HM2].
  assert (0 <= cols_of hist) as Hc0 by apply extent_nonneg. assert (0 <= rows_of hist) as Hr0 by apply extent_nonneg.
  match goal with |- context[bind ?m _] => assert (exists g1 W1, m = Ok g1 /\ Holds fmt (hist ++ placeholder hist merged) g1 W1 /\ Ragged (hist ++ placeholder hist merged) W1 /\
    g_nrows g1 = nrows_spec hist merged /\ g_ncols g1 = ncols_spec hist merged) as (g1 & W1 & -> & HH1 & HF1 & HR1 & HC1) end.
  { unfold nrows_spec, ncols_spec, placeholder. destruct merged as [|m0 merged0] eqn:Em.
    - change (merged_rows []) with 0. change (merged_cols []) with 0.
      replace (rows_of hist <? 0) with false by lia. rewrite app_nil_r. exists g, W.
      split; [reflexivity|]. split; [exact HH|]. split; [exact HF|]. lia.
    - rewrite <- Em in *. assert (1 <= merged_rows merged /\ 1 <= merged_cols merged) as [P1 P2] by (apply HM2; congruence).
      rewrite merged_extent_spec. cbv zeta.
      set (g0 := if merged_cols merged >? g_ncols g then mk_grid (g_nrows g) (merged_cols merged) (-2) (g_types g) (g_vals g) (g_xfs g) else g).
      assert (Holds fmt hist g0 W /\ g_nrows g0 = g_nrows g /\ g_ncols g0 = Z.max (g_ncols g) (merged_cols merged)) as (HH0 & HR0 & HC0).
      { unfold g0. destruct (merged_cols merged >? g_ncols g) eqn:Ec.
        - cbn [g_nrows g_ncols]. split; [exact HH|]. lia.
        - split; [exact HH|]. lia. }
      rewrite HR0. destruct (merged_rows merged >? g_nrows g) eqn:Er.
      + replace (rows_of hist <? merged_rows merged) with true by lia.
        destruct (put_ragged_step fmt maxrows maxcols hist g0 W (mk_store (merged_rows merged - 1) 0 XL_CELL_EMPTY vempty (-1)) HH0 HF)
          as (g1 & W1 & E1 & HH1 & HF1 & HR1 & HC1); [lia|cbn; unfold in_bounds; cbn; repeat split; lia|].
        cbn [s_row s_col] in *. exists g1, W1. unfold put_cell. split; [exact E1|]. split; [exact HH1|]. split; [exact HF1|]. lia.
      + replace (rows_of hist <? merged_rows merged) with false by lia. rewrite app_nil_r.
        exists g0, W. split; [reflexivity|]. split; [exact HH0|]. split; [exact HF|]. lia. }
  cbn [bind]. exists g1, W1. split; [reflexivity|]. split; [exact HR1|]. split; [exact HC1|]. split; [|exact HF1].
  destruct HH1 as (A & B & C & D & L1 & L2 & L3). unfold Holds. repeat split; auto.
  - intros r c. rewrite L1. apply last_placeholder.
  - intros r c. rewrite L2. apply last_placeholder.
  - intros Hf r c. rewrite (L3 Hf). apply last_placeholder.
Qed.

End GridProps.

Lemma Holds_cell : forall {V} (vempty : V) fmt hist g W r c w, Holds vempty fmt hist g W -> znth W r = Some w -> 0 <= c < w ->
  cell_type g r c = Ok (spec_type hist r c) /\ cell_value g r c = Ok (spec_val vempty hist r c).
Proof.
  intros V vempty fmt hist g W r c w (HT & HV & _ & _ & LT & LV & _) Hw Hc. unfold cell_type, cell_value. split.
  - rewrite (plane_get_look XL_CELL_EMPTY _ r c w) by (try rewrite HT; auto). rewrite LT. reflexivity.
  - rewrite (plane_get_look vempty _ r c w) by (try rewrite HV; auto). rewrite LV. reflexivity.
Qed.

Lemma Holds_row_len : forall {V} (vempty : V) fmt hist g W r w, Holds vempty fmt hist g W -> znth W r = Some w ->
  row_len g r = Ok w.
Proof.
  intros V vempty fmt hist g W r w (_ & HV & _) Hw. unfold row_len. rewrite <- HV in Hw.
  apply width_row in Hw as (row & H1 & H2). rewrite (py_index_some _ _ _ H1). cbn [bind]. rewrite H2. reflexivity.
Qed.

Lemma row_len_width : forall {V} (vempty : V) fmt hist g W r n, Holds vempty fmt hist g W -> 0 <= r -> row_len g r = Ok n ->
  znth W r = Some n.
Proof.
  intros V vempty fmt hist g W r n (_ & HV & _) Hr H. unfold row_len in H. rewrite <- HV.
  destruct (znth (g_vals g) r) as [row|] eqn:E.
  - rewrite (py_index_some _ _ _ E) in H. cbn [bind] in H. unfold widths. rewrite znth_map, E. cbn. congruence.
  - rewrite py_index_none in H by (apply znth_None in E; lia). discriminate.
Qed.

Lemma extent_upper : forall l x, In x l -> x < extent l.
Proof.
  induction l as [|a l IH]; intros x H; [contradiction|]. change (extent (a :: l)) with (Z.max (a + 1) (extent l)).
  destruct H as [->|H]; [lia|]. specialize (IH x H). lia.
Qed.

Lemma extent_reached : forall l, (forall x, In x l -> 0 <= x) -> extent l = 0 \/ exists x, In x l /\ x + 1 = extent l.
Proof.
  induction l as [|a l IH]; intros H; [left; reflexivity|]. change (extent (a :: l)) with (Z.max (a + 1) (extent l)).
  pose proof (H a (or_introl eq_refl)). right.
  destruct (IH (fun x Hx => H x (or_intror Hx))) as [E|(x & Hx & E)].
  - exists a. split; [left; reflexivity|]. lia.
  - destruct (Z_lt_le_dec (a + 1) (extent l)).
    + exists x. split; [right; exact Hx|]. lia.
    + exists a. split; [left; reflexivity|]. lia.
Qed.

(** ** C19 *)
Theorem c19_last_store : forall {V} (vempty : V) ragged fmt maxrows maxcols hist merged, 0 <= maxrows -> 1 <= maxcols ->
  Forall (in_bounds fmt maxrows maxcols) hist -> merged_ok maxrows merged ->
  exists g, sheet_of vempty ragged fmt maxrows maxcols hist merged = Ok g /\
    (forall s, In s hist -> s_row s < g_nrows g /\ exists n, row_len g (s_row s) = Ok n /\ s_col s < n) /\
    forall r c n, 0 <= r < g_nrows g -> row_len g r = Ok n -> 0 <= c < n ->
      cell_type g r c = Ok (spec_type hist r c) /\ cell_value g r c = Ok (spec_val vempty hist r c).
Proof.
  intros V vempty ragged fmt maxrows maxcols hist merged M1 M2 HB HM. destruct ragged.
  - destruct (sheet_ragged vempty fmt maxrows maxcols hist merged M1 M2 HB HM) as (g & W & E & HR & HC & HH & HG).
    exists g. split; [exact E|]. split.
    + intros s Hs. pose proof (extent_upper _ _ (in_map s_row _ _ Hs)) as U. fold (rows_of hist) in U.
      unfold nrows_spec in HR. split; [lia|].
      pose proof HH as (_ & _ & _ & HN & _).
      rewrite Forall_forall in HB. destruct (HB s Hs) as (B1 & B2 & _).
      destruct (znth_in_range W (s_row s) ltac:(lia)) as [w Ew]. exists w.
      split; [eapply Holds_row_len; eauto|]. rewrite (HG _ _ Ew). unfold row_extent. apply extent_upper.
      apply in_map. apply filter_In. split; [apply in_or_app; left; exact Hs|]. lia.
    + intros r c n Hr Hn Hc. eapply Holds_cell; [exact HH| |exact Hc]. eapply row_len_width; [exact HH|lia|exact Hn].
  - destruct (sheet_padded vempty fmt maxrows maxcols hist merged M1 M2 HB HM) as (g & E & HR & HC & HH).
    exists g. split; [exact E|]. split.
    + intros s Hs. pose proof (extent_upper _ _ (in_map s_row _ _ Hs)) as U. fold (rows_of hist) in U.
      pose proof (extent_upper _ _ (in_map s_col _ _ Hs)) as U2. fold (cols_of hist) in U2.
      unfold nrows_spec in HR. unfold ncols_spec in HC. split; [lia|]. exists (g_ncols g). split; [|lia].
      rewrite Forall_forall in HB. destruct (HB s Hs) as (B1 & B2 & _).
      eapply Holds_row_len; [exact HH|]. apply znth_zrepeat. lia.
    + intros r c n Hr Hn Hc. eapply Holds_cell; [exact HH| |exact Hc]. eapply row_len_width; [exact HH|lia|exact Hn].
Qed.
Print Assumptions c19_last_store.

(** ** C20 *)
Theorem c20_dimensions : forall {V} (vempty : V) fmt maxrows maxcols hist merged, 0 <= maxrows -> 1 <= maxcols ->
  Forall (in_bounds fmt maxrows maxcols) hist -> merged_ok maxrows merged ->
  exists g, sheet_of vempty false fmt maxrows maxcols hist merged = Ok g /\
    (* every store and merged range is inside, and the bounds are the least such *)
    (forall s, In s hist -> s_row s < g_nrows g /\ s_col s < g_ncols g) /\
    (forall rlo rhi clo chi, In (rlo, rhi, clo, chi) merged -> rhi <= g_nrows g /\ chi <= g_ncols g) /\
    (g_nrows g = 0 \/ (exists s, In s hist /\ s_row s + 1 = g_nrows g) \/
       exists rlo rhi clo chi, In (rlo, rhi, clo, chi) merged /\ rhi = g_nrows g) /\
    (g_ncols g = 0 \/ (exists s, In s hist /\ s_col s + 1 = g_ncols g) \/
       exists rlo rhi clo chi, In (rlo, rhi, clo, chi) merged /\ chi = g_ncols g) /\
    (* the sheet has exactly that many rows, all of the same length *)
    zlen (g_vals g) = g_nrows g /\ zlen (g_types g) = g_nrows g /\
    (forall r, 0 <= r < g_nrows g -> row_len g r = Ok (g_ncols g)) /\
    (forall r row, znth (g_types g) r = Some row -> zlen row = g_ncols g).
Proof.
  intros V vempty fmt maxrows maxcols hist merged M1 M2 HB HM.
  destruct (sheet_padded vempty fmt maxrows maxcols hist merged M1 M2 HB HM) as (g & E & HR & HC & HH).
  exists g. split; [exact E|].
  unfold nrows_spec in HR. unfold ncols_spec in HC.
  assert (forall rlo rhi clo chi, In (rlo, rhi, clo, chi) merged -> rhi <= merged_rows merged /\ chi <= merged_cols merged) as MU.
  { clear. intros rlo rhi clo chi. induction merged as [|[[[a b] c] d] l IH]; [intros []|].
    change (merged_rows ((a, b, c, d) :: l)) with (Z.max b (merged_rows l)).
    change (merged_cols ((a, b, c, d) :: l)) with (Z.max d (merged_cols l)).
    intros [H|H]; [injection H as -> -> -> ->; lia|]. specialize (IH H). lia. }
  assert ((merged_rows merged = 0 \/ exists rlo rhi clo chi, In (rlo, rhi, clo, chi) merged /\ rhi = merged_rows merged) /\
          (merged_cols merged = 0 \/ exists rlo rhi clo chi, In (rlo, rhi, clo, chi) merged /\ chi = merged_cols merged)) as [MR MC].
  { clear. induction merged as [|[[[a b] c] d] l [IH1 IH2]]; [split; left; reflexivity|].
    change (merged_rows ((a, b, c, d) :: l)) with (Z.max b (merged_rows l)).
    change (merged_cols ((a, b, c, d) :: l)) with (Z.max d (merged_cols l)). split.
    - destruct (Z_lt_le_dec b (merged_rows l)) as [L|L].
      + destruct IH1 as [IH1|(w & x & y & z & I & IH1)]; [left; lia|].
        right. exists w, x, y, z. split; [right; exact I|lia].
      + right. exists a, b, c, d. split; [left; reflexivity|lia].
    - destruct (Z_lt_le_dec d (merged_cols l)) as [L|L].
      + destruct IH2 as [IH2|(w & x & y & z & I & IH2)]; [left; lia|].
        right. exists w, x, y, z. split; [right; exact I|lia].
      + right. exists a, b, c, d. split; [left; reflexivity|lia]. }
  assert (rows_of hist = 0 \/ exists s, In s hist /\ s_row s + 1 = rows_of hist) as RR.
  { unfold rows_of. destruct (extent_reached (map s_row hist)) as [H|(x & Hx & H)].
    - intros x Hx. apply in_map_iff in Hx as (s & <- & Hs). rewrite Forall_forall in HB. destruct (HB s Hs) as (B1 & _). lia.
    - left; exact H.
    - right. apply in_map_iff in Hx as (s & <- & Hs). eauto. }
  assert (cols_of hist = 0 \/ exists s, In s hist /\ s_col s + 1 = cols_of hist) as CC.
  { unfold cols_of. destruct (extent_reached (map s_col hist)) as [H|(x & Hx & H)].
    - intros x Hx. apply in_map_iff in Hx as (s & <- & Hs). rewrite Forall_forall in HB. destruct (HB s Hs) as (_ & B1 & _). lia.
    - left; exact H.
    - right. apply in_map_iff in Hx as (s & <- & Hs). eauto. }
  assert (0 <= rows_of hist) as R0 by apply extent_nonneg. assert (0 <= cols_of hist) as C0 by apply extent_nonneg.
  pose proof (merged_nonneg merged) as [R1 C1].
  split; [|split; [|split; [|split; [|split; [|split; [|split]]]]]].
  - intros s Hs. pose proof (extent_upper _ _ (in_map s_row _ _ Hs)) as U. fold (rows_of hist) in U.
    pose proof (extent_upper _ _ (in_map s_col _ _ Hs)) as U2. fold (cols_of hist) in U2. lia.
  - intros rlo rhi clo chi I. specialize (MU _ _ _ _ I). lia.
  - destruct (Z_lt_le_dec (rows_of hist) (merged_rows merged)) as [L|L].
    + right. right. destruct MR as [MR|(w & x & y & z & I & MR)]; [lia|]. exists w, x, y, z. split; [exact I|lia].
    + destruct RR as [RR|(s & Hs & RR)]; [left; lia|]. right. left. exists s. split; [exact Hs|lia].
  - destruct (Z_lt_le_dec (cols_of hist) (merged_cols merged)) as [L|L].
    + right. right. destruct MC as [MC|(w & x & y & z & I & MC)]; [lia|]. exists w, x, y, z. split; [exact I|lia].
    + destruct CC as [CC|(s & Hs & CC)]; [left; lia|]. right. left. exists s. split; [exact Hs|lia].
  - destruct HH as (_ & HV & _ & HN & _). rewrite <- zlen_widths, HV. exact HN.
  - destruct HH as (HT & _ & _ & HN & _). rewrite <- zlen_widths, HT. exact HN.
  - intros r Hr. eapply Holds_row_len; [exact HH|]. apply znth_zrepeat. exact Hr.
  - intros r row Hrow. destruct HH as (HT & _). 
    assert (znth (widths (g_types g)) r = Some (zlen row)) as A by (unfold widths; rewrite znth_map, Hrow; reflexivity).
    rewrite HT in A. apply znth_zrepeat_inv in A. exact A.
Qed.
Print Assumptions c20_dimensions.

(** ** C21 *)
Lemma plane_row : forall {A} (d : A) p r w, znth (widths p) r = Some w ->
  py_index p r = Ok (map (look d p r) (zrange 0 w)).
Proof.
  intros A d p r w H. apply width_row in H as (row & H1 & H2). rewrite (py_index_some _ _ _ H1). f_equal.
  apply znth_ext. intros c Hc. rewrite znth_map. pose proof (zlen_nonneg row). destruct (Z_lt_le_dec c w) as [L|L].
  - rewrite znth_zrange by lia. cbn [option_map]. unfold look. rewrite H1. rewrite Z.add_0_l.
    destruct (znth_in_range row c ltac:(lia)) as [a ->]. reflexivity.
  - assert (znth (zrange 0 w) c = None) as -> by (apply znth_None; rewrite zlen_zrange; lia).
    cbn. apply znth_None. lia.
Qed.

Lemma firstn_zrange : forall w n, 0 <= w <= n -> firstn (Z.to_nat w) (zrange 0 n) = zrange 0 w.
Proof.
  intros w n H. rewrite (zrange_app 0 w n) by lia. rewrite firstn_app.
  replace (Z.to_nat w - length (zrange 0 w))%nat with 0%nat.
  - cbn [firstn]. rewrite app_nil_r. apply firstn_all2.
    pose proof (zlen_zrange 0 w) as L. unfold zlen in L. lia.
  - pose proof (zlen_zrange 0 w) as L. unfold zlen in L. lia.
Qed.

Lemma row_extent_le : forall {V} (hist : list (@store V)) r, row_extent hist r <= cols_of hist.
Proof.
  intros V hist r. unfold row_extent, cols_of. induction hist as [|s l IH]; [reflexivity|]. cbn [filter map].
  change (extent (s_col s :: map s_col l)) with (Z.max (s_col s + 1) (extent (map s_col l))).
  destruct (s_row s =? r); [|lia]. cbn [map].
  change (extent (s_col s :: map s_col (filter (fun s0 => s_row s0 =? r) l)))
    with (Z.max (s_col s + 1) (extent (map s_col (filter (fun s0 => s_row s0 =? r) l)))). lia.
Qed.

(** A row of the ragged sheet is the row of the padded one cut after the last
    column stored in it; a merged range below the last store counts as a store
    in column 0 of its last row. *)
Theorem c21_ragged_is_cut : forall {V} (vempty : V) fmt maxrows maxcols hist merged, 0 <= maxrows -> 1 <= maxcols ->
  Forall (in_bounds fmt maxrows maxcols) hist -> merged_ok maxrows merged ->
  exists gp gr, sheet_of vempty false fmt maxrows maxcols hist merged = Ok gp /\
    sheet_of vempty true fmt maxrows maxcols hist merged = Ok gr /\
    g_nrows gr = g_nrows gp /\ g_ncols gr = g_ncols gp /\ zlen (g_vals gr) = g_nrows gr /\
    forall r, 0 <= r < g_nrows gr ->
      let w := row_extent (hist ++ placeholder vempty hist merged) r in
      exists ts vs, row_types gp r 0 None = Ok ts /\ row_values gp r 0 None = Ok vs /\
        row_types gr r 0 None = Ok (firstn (Z.to_nat w) ts) /\ row_values gr r 0 None = Ok (firstn (Z.to_nat w) vs) /\
        row_len gr r = Ok w.
Proof.
  intros V vempty fmt maxrows maxcols hist merged M1 M2 HB HM.
  destruct (sheet_padded vempty fmt maxrows maxcols hist merged M1 M2 HB HM) as (gp & Ep & HRp & HCp & HHp).
  destruct (sheet_ragged vempty fmt maxrows maxcols hist merged M1 M2 HB HM) as (gr & W & Er & HRr & HCr & HHr & HG).
  exists gp, gr. split; [exact Ep|]. split; [exact Er|]. split; [lia|]. split; [lia|].
  pose proof HHr as (HTr & HVr & _ & HNr & LTr & LVr & _). pose proof HHp as (HTp & HVp & _ & HNp & LTp & LVp & _).
  split; [rewrite <- zlen_widths, HVr; exact HNr|].
  intros r Hr w. destruct (znth_in_range W r ltac:(lia)) as [w' Ew]. pose proof (HG _ _ Ew) as Hw. fold w in Hw. subst w'.
  assert (znth (zrepeat (g_ncols gp) (g_nrows gp)) r = Some (g_ncols gp)) as Ep' by (apply znth_zrepeat; lia).
  exists (map (spec_type hist r) (zrange 0 (g_ncols gp))), (map (spec_val vempty hist r) (zrange 0 (g_ncols gp))).
  assert (0 <= w <= g_ncols gp) as Bw.
  { split; [apply extent_nonneg|]. unfold w, placeholder. unfold ncols_spec in HCp. unfold nrows_spec in HRr.
    pose proof (row_extent_le hist r). pose proof (extent_nonneg (map s_col hist)) as P. fold (cols_of hist) in P.
    destruct (rows_of hist <? merged_rows merged) eqn:E1; [|rewrite app_nil_r; lia].
    rewrite row_extent_snoc by (cbn; lia). cbn [s_row s_col].
    pose proof (merged_ok_bounds maxrows merged M1 HM) as [_ HM2].
    assert (0 <= rows_of hist) by apply extent_nonneg.
    assert (merged <> []) as NE by (intros ->; cbn in E1; lia). specialize (HM2 NE).
    destruct (r =? merged_rows merged - 1); lia. }
  unfold row_types, row_values, py_slice_opt.
  rewrite (plane_row XL_CELL_EMPTY (g_types gp) r (g_ncols gp)) by (rewrite HTp; exact Ep').
  rewrite (plane_row vempty (g_vals gp) r (g_ncols gp)) by (rewrite HVp; exact Ep').
  rewrite (plane_row XL_CELL_EMPTY (g_types gr) r w) by (rewrite HTr; exact Ew).
  rewrite (plane_row vempty (g_vals gr) r w) by (rewrite HVr; exact Ew).
  cbn [bind].
  assert (forall A (l : list A), py_from l 0 = l) as F0.
  { intros A l. unfold py_from. rewrite py_bound_id by (pose proof (zlen_nonneg l); lia). reflexivity. }
  rewrite !F0, !firstn_map, !firstn_zrange by exact Bw.
  split; [f_equal; apply map_ext; intros; apply LTp|]. split; [f_equal; apply map_ext; intros; apply LVp|].
  split; [f_equal; apply map_ext; intros; apply LTr|]. split; [f_equal; apply map_ext; intros; apply LVr|].
  eapply Holds_row_len; eauto.
Qed.
Print Assumptions c21_ragged_is_cut.

(** ** C22 *)
Lemma mapM_ok : forall {A B} (f : A -> result B) h l, (forall x, In x l -> f x = Ok (h x)) -> mapM f l = Ok (map h l).
Proof.
  intros A B f h l. induction l as [|a l IH]; intros H; [reflexivity|]. cbn [mapM map].
  rewrite (H a (or_introl eq_refl)). cbn [bind]. rewrite IH by (intros; apply H; right; assumption). reflexivity.
Qed.

Lemma slice_of_range : forall {B} (h : Z -> B) n a b, 0 <= n -> 0 <= a -> b <= n ->
  map h (zrange a b) = py_slice (map h (zrange 0 n)) a (Z.max 0 b).
Proof.
  intros B h n a b Hn Ha Hb. destruct (Z_lt_le_dec a b) as [L|L].
  - rewrite (zrange_app 0 a n), (zrange_app a b n), !map_app by lia.
    rewrite (py_slice_mid (map h (zrange 0 a)) (map h (zrange a b)) (map h (zrange b n))); [reflexivity|..];
      rewrite ?zlen_map, ?zlen_zrange; lia.
  - rewrite zrange_nil by lia. symmetry. apply zlen_zero_nil. rewrite py_slice_len. rewrite zlen_map, zlen_zrange.
    unfold py_bound. destruct (a <? 0) eqn:E1; destruct (Z.max 0 b <? 0) eqn:E2; lia.
Qed.

Lemma slice_bounds_spec : forall {B} (f : Z -> result B) h n start stop, 0 <= n ->
  (forall i, 0 <= i < n -> f i = Ok (h i)) ->
  (let '(a, b) := slice_bounds n start stop in mapM f (zrange a b))
    = Ok (py_slice_opt (map h (zrange 0 n)) start stop).
Proof.
  intros B f h n start stop Hn Hf. unfold slice_bounds. cbv zeta.
  set (a := if start <? 0 then (if start + n <? 0 then 0 else start + n) else start).
  set (b := match stop with None => n | Some e => if e >? n then n else if e <? 0 then e + n else e end).
  assert (0 <= a) as Ha by (unfold a; destruct (start <? 0) eqn:E; [destruct (start + n <? 0) eqn:E1|]; lia).
  assert (b <= n) as Hb by (unfold b; destruct stop as [e|]; [destruct (e >? n) eqn:E; [|destruct (e <? 0) eqn:E1]|]; lia).
  rewrite (mapM_ok f h) by (intros i Hi; apply in_zrange in Hi; apply Hf; lia). f_equal.
  rewrite (slice_of_range h n a b) by lia.
  assert (zlen (map h (zrange 0 n)) = n) as L by (rewrite zlen_map, zlen_zrange; lia).
  unfold py_slice_opt, py_from, py_slice. rewrite L. destruct stop as [e|].
  - assert (py_bound n a = py_bound n start) as ->.
    { unfold a, py_bound. destruct (start <? 0) eqn:E; [destruct (start + n <? 0) eqn:E1|]; 
      repeat match goal with |- context[if ?b then _ else _] => destruct b eqn:? end; lia. }
    assert (py_bound n (Z.max 0 b) = py_bound n e) as ->; [|reflexivity].
    unfold b, py_bound. destruct (e >? n) eqn:E; [|destruct (e <? 0) eqn:E1];
      repeat match goal with |- context[if ?b then _ else _] => destruct b eqn:? end; lia.
  - assert (py_bound n a = py_bound n start) as ->.
    { unfold a, py_bound. destruct (start <? 0) eqn:E; [destruct (start + n <? 0) eqn:E1|]; 
      repeat match goal with |- context[if ?b then _ else _] => destruct b eqn:? end; lia. }
    unfold b. rewrite (py_bound_id n (Z.max 0 n)) by lia.
    apply firstn_all2. rewrite skipn_length.
    assert (Z.of_nat (length (map h (zrange 0 n))) = n) as L' by exact L.
    pose proof (py_bound_range n start Hn). lia.
Qed.

(** Rows: for any row index that exists (negative ones included). *)
Theorem c22_rows : forall {V} (vempty : V) ragged fmt maxrows maxcols hist merged, 0 <= maxrows -> 1 <= maxcols ->
  Forall (in_bounds fmt maxrows maxcols) hist -> merged_ok maxrows merged ->
  exists g, sheet_of vempty ragged fmt maxrows maxcols hist merged = Ok g /\
    forall rowx start stop, - g_nrows g <= rowx < g_nrows g ->
      exists full, row g rowx = Ok full /\
        row_slice g rowx start stop = Ok (py_slice_opt full start stop) /\
        row_types g rowx start stop = Ok (py_slice_opt (map fst full) start stop) /\
        row_values g rowx start stop = Ok (py_slice_opt (map snd full) start stop).
Proof.
  intros V vempty ragged fmt maxrows maxcols hist merged M1 M2 HB HM.
  assert (exists g W, sheet_of vempty ragged fmt maxrows maxcols hist merged = Ok g /\ Holds vempty fmt hist g W) as (g & W & E & HH).
  { destruct ragged.
    - destruct (sheet_ragged vempty fmt maxrows maxcols hist merged M1 M2 HB HM) as (g & W & E & _ & _ & HH & _). eauto.
    - destruct (sheet_padded vempty fmt maxrows maxcols hist merged M1 M2 HB HM) as (g & E & _ & _ & HH). eauto. }
  exists g. split; [exact E|]. intros rowx start stop Hr.
  pose proof HH as (HT & HV & _ & HN & _).
  set (r := if rowx <? 0 then rowx + g_nrows g else rowx).
  assert (forall A (p : list (list A)), widths p = W -> py_index p rowx = py_index p r) as PI.
  { intros A p Hp. unfold py_index. rewrite <- (zlen_widths p), Hp, HN. unfold r.
    destruct (rowx <? 0) eqn:E1; [|rewrite E1; reflexivity].
    replace (rowx + g_nrows g <? 0) with false by lia. reflexivity. }
  assert (0 <= r < g_nrows g) as Br by (unfold r; destruct (rowx <? 0) eqn:E1; lia).
  destruct (znth_in_range W r ltac:(lia)) as [w Ew].
  assert (row_len g rowx = Ok w) as RL.
  { pose proof (Holds_row_len vempty fmt hist g W r w HH Ew) as RL. unfold row_len in *. rewrite (PI _ _ HV). exact RL. }
  assert (0 <= w) as W0.
  { assert (znth (widths (g_vals g)) r = Some w) as A by (rewrite HV; exact Ew).
    apply width_row in A as (row0 & _ & <-). apply zlen_nonneg. }
  set (h := fun c => (spec_type hist r c, spec_val vempty hist r c)).
  assert (forall c, 0 <= c < w -> cell g rowx c = Ok (h c)) as CELL.
  { intros c Hc. destruct (Holds_cell vempty fmt hist g W r c w HH Ew Hc) as [C1 C2].
    unfold cell, cell_type, cell_value, plane_get in *. rewrite (PI _ _ HV), (PI _ _ HT), C1, C2. reflexivity. }
  exists (map h (zrange 0 w)).
  assert (row g rowx = Ok (map h (zrange 0 w))) as R1.
  { unfold row. rewrite RL. cbn [bind]. apply mapM_ok. intros c Hc. apply in_zrange in Hc. apply CELL. lia. }
  split; [exact R1|]. split; [|split].
  - unfold row_slice. rewrite RL. cbn [bind]. apply slice_bounds_spec; [lia|exact CELL].
  - unfold row_types. rewrite (PI _ _ HT), (plane_row XL_CELL_EMPTY (g_types g) r w) by (rewrite HT; exact Ew).
    cbn [bind]. f_equal. f_equal. rewrite map_map. apply map_ext_in. intros c Hc. unfold h. cbn [fst].
    destruct HH as (_ & _ & _ & _ & LT & _). apply LT.
  - unfold row_values. rewrite (PI _ _ HV), (plane_row vempty (g_vals g) r w) by (rewrite HV; exact Ew).
    cbn [bind]. f_equal. f_equal. rewrite map_map. apply map_ext_in. intros c Hc. unfold h. cbn [snd].
    destruct HH as (_ & _ & _ & _ & _ & LV & _). apply LV.
Qed.
Print Assumptions c22_rows.

(** Columns, for a padded sheet: the full column has one cell per row, and a
    slice of it is what list slicing gives. *)
Theorem c22_columns : forall {V} (vempty : V) fmt maxrows maxcols hist merged, 0 <= maxrows -> 1 <= maxcols ->
  Forall (in_bounds fmt maxrows maxcols) hist -> merged_ok maxrows merged ->
  exists g, sheet_of vempty false fmt maxrows maxcols hist merged = Ok g /\
    forall colx start stop, 0 <= colx < g_ncols g ->
      let full := map (fun r => (spec_type hist r colx, spec_val vempty hist r colx)) (zrange 0 (g_nrows g)) in
      col_slice g colx start stop = Ok (py_slice_opt full start stop) /\
      col_types g colx start stop = Ok (py_slice_opt (map fst full) start stop) /\
      col_values g colx start stop = Ok (py_slice_opt (map snd full) start stop).
Proof.
  intros V vempty fmt maxrows maxcols hist merged M1 M2 HB HM.
  destruct (sheet_padded vempty fmt maxrows maxcols hist merged M1 M2 HB HM) as (g & E & HR & HC & HH).
  exists g. split; [exact E|]. intros colx start stop Hc full. unfold full.
  assert (0 <= g_nrows g) as N0.
  { unfold nrows_spec in HR. assert (0 <= rows_of hist) by apply extent_nonneg. lia. }
  assert (forall r, 0 <= r < g_nrows g -> cell_type g r colx = Ok (spec_type hist r colx) /\ cell_value g r colx = Ok (spec_val vempty hist r colx)) as K.
  { intros r Hr. eapply Holds_cell; [exact HH|apply znth_zrepeat; exact Hr|exact Hc]. }
  rewrite !map_map. cbn [fst snd]. split; [|split].
  - unfold col_slice. apply slice_bounds_spec; [exact N0|]. intros r Hr. destruct (K r Hr) as [K1 K2].
    unfold cell. rewrite K1, K2. reflexivity.
  - unfold col_types. apply slice_bounds_spec; [exact N0|]. intros r Hr. apply K. exact Hr.
  - unfold col_values. apply slice_bounds_spec; [exact N0|]. intros r Hr. apply K. exact Hr.
Qed.
Print Assumptions c22_columns.

(** A sheet with out-of-order stores, an overwritten cell, and a merged range
    beyond the data. *)
Definition ex_hist : list (@store Z) :=
  [mk_store 2 3 2 100 15; mk_store 0 0 1 7 16; mk_store 2 3 2 101 15; mk_store 1 5 2 8 17].
Definition ex_merged : list mrange := [(0, 2, 0, 2); (3, 5, 1, 8)].

Example grid_example :
  Forall (in_bounds true 65536 256) ex_hist /\ merged_ok 65536 ex_merged /\
  (exists g, sheet_of 0 false true 65536 256 ex_hist ex_merged = Ok g /\ g_nrows g = 5 /\ g_ncols g = 8 /\
     cell_value g 2 3 = Ok 101 /\ cell_type g 4 7 = Ok 0) /\
  row_extent (ex_hist ++ placeholder 0 ex_hist ex_merged) 2 = 4 /\
  row_extent (ex_hist ++ placeholder 0 ex_hist ex_merged) 4 = 1.
Proof.
  split; [repeat constructor; cbn; lia|]. split; [repeat constructor; cbn; lia|].
  split; [eexists; split; [vm_compute; reflexivity|repeat split]|]. split; reflexivity.
Qed.
