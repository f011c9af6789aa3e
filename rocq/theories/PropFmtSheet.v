(** C101: formatting_info adds blank cells and formatting to a worksheet, and nothing else. *)
From Verif Require Import Base BaseFacts Utf16 Strings Framing GridModel GridFacts PropGrid
  SheetObjects SheetModel SheetFacts SheetSteps PropSheet SheetTrace PropView PropRowCol PropLinks SheetOwn PropRead.

(** ** Specification *)

(** A cell with contents: neither empty nor blank. *)
Definition shown {V} (g : grid (V := V)) (r k : Z) : option (Z * V) :=
  match cell g r k with
  | Ok (t, v) => if (t =? 0) || (t =? 6) then None else Some (t, v)
  | Err _ => None
  end.

(** The records of cells: NUMBER, LABELSST, LABEL, RSTRING, RK, MULRK, FORMULA, BOOLERR,
    BLANK and MULBLANK. *)
Definition cell_code (rc : Z) : bool :=
  existsb (Z.eqb rc) [0x203; 0xFD; 0x204; 0xD6; 0x27E; 0xBD; 0x06; 0x206; 0x406; 0x205; 0x201; 0xBE].
Definition dimension_code (rc : Z) : bool := (rc =? 0x200) || (rc =? 0x00).

(** No DIMENSION record after the first cell. *)
Fixpoint dimension_first (seen : bool) (rs : list record) : Prop :=
  match rs with
  | [] => True
  | (rc, len, _) :: rs => (seen = true -> dimension_code rc = true -> len = 0) /\ dimension_first (seen || cell_code rc) rs
  end.

(** ** Stores *)

Section Thin.
Context {V : Type} (vempty : V).
Notation store := (@store V).

(** The second list is the first without some of the blank cells. *)
Inductive thin : list store -> list store -> Prop :=
| Thin_nil : thin [] []
| Thin_keep : forall s a b, thin a b -> thin (a ++ [s]) (b ++ [s])
| Thin_drop : forall s a b, s_type s = 6 -> thin a b -> thin (a ++ [s]) b.

Lemma thin_last : forall a b, thin a b -> forall r k, last_at b r k = last_at a r k \/ exists s, last_at a r k = Some s /\ s_type s = 6.
Proof.
  induction 1 as [|s a b T IH|s a b E T IH]; intros r k; [left; reflexivity| |]; rewrite ?last_at_snoc; destruct ((r =? s_row s) && (k =? s_col s)); auto. right. eauto.
Qed.
Lemma thin_in : forall a b, thin a b -> forall s, In s b -> In s a.
Proof.
  induction 1 as [|s a b T IH|s a b E T IH]; intros x I; [exact I| |]; apply in_or_app; [apply in_app_or in I as [I|I]; [left; auto|right; exact I]|left; auto].
Qed.
Lemma thin_nil : forall b, thin [] b -> b = [].
Proof. intros b T. destruct b as [|s b]; [reflexivity|]. destruct (thin_in _ _ T s (or_introl eq_refl)). Qed.

Lemma extent_le : forall l n, 0 <= n -> (forall x, In x l -> x < n) -> extent l <= n.
Proof. induction l as [|a l IH]; intros n N H; unfold extent; cbn [fold_right]; [lia|]. pose proof (H a (or_introl eq_refl)). fold (extent l). pose proof (IH n N (fun x I => H x (or_intror I))). lia. Qed.
Lemma thin_extent : forall (f : store -> Z) a b, thin a b -> extent (map f b) <= extent (map f a).
Proof.
  intros f a b T. apply extent_le; [apply extent_nonneg|]. intros x I. apply in_map_iff in I as (s & <- & I). apply extent_upper. apply in_map_iff. exists s. split; [reflexivity|exact (thin_in _ _ T s I)].
Qed.

Lemma bounds_off : forall mr mc (s : store), in_bounds true mr mc s -> in_bounds false mr mc s.
Proof. intros mr mc s (A & B & _). split; [exact A|]. split; [exact B|discriminate]. Qed.
Lemma bounds_thin : forall mr mc a b, thin a b -> Forall (in_bounds true mr mc) a -> Forall (in_bounds false mr mc) b.
Proof. intros mr mc a b T F. rewrite Forall_forall in *. intros s I. apply bounds_off, F. exact (thin_in _ _ T s I). Qed.

Lemma set3_fits : forall (g : grid) (s : store) t v x, set3 true g s = SetOk t v x -> fits_h (s_xf s) = true.
Proof.
  intros g s t v x H. unfold set3 in H. destruct (plane_set (g_types g) _ _ _); [|discriminate]. destruct (plane_set (g_vals g) _ _ _); [|discriminate].
  unfold set_xf in H. destruct (plane_set (g_xfs g) _ _ _) as [p|[]]; try discriminate. destruct (fits_h (s_xf s)); [reflexivity|discriminate].
Qed.

Lemma rows_bound : forall fmt mr mc (hist : list store), 0 <= mr -> Forall (in_bounds fmt mr mc) hist -> rows_of hist <= mr.
Proof. intros fmt mr mc hist M F. apply extent_le; [exact M|]. intros x I. apply in_map_iff in I as (s & <- & I). rewrite Forall_forall in F. destruct (F s I) as (? & _). lia. Qed.
Lemma cols_bound : forall fmt mr mc (hist : list store), 0 <= mc -> Forall (in_bounds fmt mr mc) hist -> cols_of hist <= mc.
Proof. intros fmt mr mc hist M F. apply extent_le; [exact M|]. intros x I. apply in_map_iff in I as (s & <- & I). rewrite Forall_forall in F. destruct (F s I) as (_ & ? & _). lia. Qed.

(** A store that succeeds is within the limits. *)
Lemma put_bounds : forall ragged fmt mr mc (hist : list store) g s g', 0 <= mr -> 0 <= mc -> Forall (in_bounds fmt mr mc) hist ->
  put_cells vempty ragged fmt mr mc grid0 hist = Ok g -> put_cell vempty ragged fmt mr mc g s = Ok g' -> 0 <= s_row s -> 0 <= s_col s -> in_bounds fmt mr mc s.
Proof.
  intros ragged fmt mr mc hist g s g' M1 M2 F P PC R C. unfold put_cell in PC. destruct ragged.
  - unfold put_cell_ragged in PC. cbv zeta in PC. apply bind_ok in PC as (? & G1 & PC). apply bind_ok in PC as (? & G2 & PC). unfold guard in G1, G2.
    destruct ((0 <=? s_col s) && (s_col s <? mc)) eqn:B1; [|discriminate]. destruct ((0 <=? s_row s) && (s_row s <? mr)) eqn:B2; [|discriminate].
    split; [lia|]. split; [lia|]. intros ->. destruct (if g_nrows g <? s_row s + 1 then _ else _) as [[[nrows tt0] vv0] xx0] in PC.
    do 7 (apply bind_ok in PC as (? & ? & PC)). match goal with H : bind (ragged_row (-1) _ _ _ _) _ = Ok _ |- _ => apply bind_ok in H as (? & _ & H); destruct (fits_h (s_xf s)); [reflexivity|discriminate] | _ => idtac end.
    apply bind_ok in PC as (? & PX & PC). apply bind_ok in PX as (? & _ & PX). destruct (fits_h (s_xf s)); [reflexivity|discriminate].
  - destruct (put_unragged_all vempty fmt mr mc hist [] grid0 [] (grid0_holds vempty fmt)) as (g2 & W & P2 & HH & FU & NR & NC); [| reflexivity | reflexivity | exact F |].
    { split; [|right; left; auto]. intros r w E. unfold znth in E. destruct (r <? 0); [discriminate|]. destruct (Z.to_nat r); discriminate. }
    rewrite P in P2. injection P2 as <-. cbn [app] in *. pose proof (rows_bound _ _ _ _ M1 F) as RB. pose proof (cols_bound _ _ _ _ M2 F) as CB.
    assert (X : fmt = true -> fits_h (s_xf s) = true).
    { intros ->. unfold put_cell_unragged in PC. destruct (set3 true g s) as [t v x| |] eqn:S3; [exact (set3_fits _ _ _ _ _ S3)| |discriminate].
      cbv zeta in PC. apply bind_ok in PC as (? & _ & PC). apply bind_ok in PC as (? & _ & PC). destruct (if s_col s + 1 >? g_ncols g then _ else _) as [ncols ffr].
      apply bind_ok in PC as ([[[nr t1] v1] x1] & _ & PC). destruct (set3 true (mk_grid nr ncols ffr t1 v1 x1) s) as [t2 v2 x2| |] eqn:S4; [exact (set3_fits _ _ _ _ _ S4)|discriminate|discriminate]. }
    destruct (Z_lt_le_dec (s_row s) mr) as [L1|L1]; [destruct (Z_lt_le_dec (s_col s) mc) as [L2|L2]; [split; [lia|]; split; [lia|exact X]|]|]; exfalso.
    + assert (O : set3 fmt g s = SetIndex (g_types g) (g_vals g)) by (apply (set3_out vempty fmt hist g W s HH R C); intros w E; destruct FU as [FU _]; pose proof (FU _ _ E); lia).
      unfold put_cell_unragged in PC. rewrite O in PC. cbv zeta in PC. replace ((1 <=? s_col s + 1) && (s_col s + 1 <=? mc)) with false in PC by lia. discriminate.
    + assert (O : set3 fmt g s = SetIndex (g_types g) (g_vals g)).
      { apply (set3_out vempty fmt hist g W s HH R C); intros w E. apply znth_Some_range in E. destruct HH as (_ & _ & _ & LW & _). lia. }
      unfold put_cell_unragged in PC. rewrite O in PC. cbv zeta in PC. apply bind_ok in PC as (? & _ & PC). replace ((1 <=? s_row s + 1) && (s_row s + 1 <=? mr)) with false in PC by lia. discriminate.
Qed.

(** What a finished sheet with the given stores shows. *)
Lemma shown_spec : forall ragged fmt mr mc (hist : list store) merged g, 0 <= mr -> 1 <= mc -> Forall (in_bounds fmt mr mc) hist -> merged_ok mr merged ->
  sheet_of vempty ragged fmt mr mc hist merged = Ok g -> forall r k, 0 <= r -> 0 <= k ->
  shown g r k = match last_at hist r k with Some s => if (s_type s =? 0) || (s_type s =? 6) then None else Some (s_type s, s_val s) | None => None end /\
  (forall s, last_at hist r k = Some s -> cell_type g r k = Ok (s_type s)).
Proof.
  intros ragged fmt mr mc hist merged g M1 M2 F MO SO r k R K.
  destruct (c19_last_store vempty ragged fmt mr mc hist merged M1 M2 F MO) as (g' & E' & H1 & H2). rewrite SO in E'. injection E' as <-.
  destruct (last_at hist r k) as [s|] eqn:LA.
  - assert (I : In s hist /\ s_row s = r /\ s_col s = k).
    { clear - LA. revert LA. induction hist as [|x h IH] using rev_ind; [discriminate|]. rewrite last_at_snoc. destruct ((r =? s_row x) && (k =? s_col x)) eqn:E.
      - intros [= <-]. split; [apply in_or_app; right; left; reflexivity|lia].
      - intros H. destruct (IH H) as (I & A). split; [apply in_or_app; left; exact I|exact A]. }
    destruct I as (I & <- & <-). destruct (H1 s I) as (RN & n & RL & CN). destruct (H2 (s_row s) (s_col s) n (conj R RN) RL (conj K CN)) as (CT & CV).
    unfold spec_type, spec_val in CT, CV. rewrite LA in CT, CV. split; [|intros s0 [= <-]; exact CT]. unfold shown, cell. rewrite CT, CV. cbn [bind]. reflexivity.
  - split; [|discriminate]. unfold shown, cell. destruct (cell_type g r k) as [t|] eqn:CT; [|reflexivity]. cbn [bind]. destruct (cell_value g r k) as [v|] eqn:CV; [|reflexivity]. cbn [bind].
    assert (RN : r < g_nrows g /\ exists n, row_len g r = Ok n /\ k < n).
    { unfold cell_value, plane_get in CV. apply bind_ok in CV as (row & E1 & E2). split.
      - destruct (Z_lt_le_dec r (g_nrows g)) as [L|L]; [exact L|exfalso]. destruct (c19_last_store vempty ragged fmt mr mc hist merged M1 M2 F MO) as (g' & E' & _).
        assert (ZL : zlen (g_vals g) = g_nrows g).
        { destruct ragged.
          - destruct (sheet_ragged vempty fmt mr mc hist merged M1 M2 F MO) as (g2 & W & S2 & _ & _ & (_ & HV & _ & LW & _) & _). rewrite SO in S2. injection S2 as <-. rewrite <- zlen_widths, HV. exact LW.
          - destruct (sheet_padded vempty fmt mr mc hist merged M1 M2 F MO) as (g2 & S2 & _ & _ & (_ & HV & _ & LW & _)). rewrite SO in S2. injection S2 as <-. rewrite <- zlen_widths, HV. exact LW. }
        rewrite py_index_none in E1 by lia. discriminate.
      - exists (zlen row). unfold row_len. rewrite E1. split; [reflexivity|]. destruct (Z_lt_le_dec k (zlen row)) as [L|L]; [exact L|]. rewrite py_index_none in E2 by lia. discriminate. }
    destruct RN as (RN & n & RL & CN). destruct (H2 r k n (conj R RN) RL (conj K CN)) as (CT2 & CV2). unfold spec_type in CT2. rewrite LA, CT in CT2. injection CT2 as ->. reflexivity.
Qed.
End Thin.

(** The extra row that merged cells may need is within the limits. *)
Lemma tidy_merged {V} (vempty : V) : forall ragged fmt mr mc (hist : list store) merged g g', 0 <= mr -> 0 <= mc -> Forall (in_bounds fmt mr mc) hist ->
  put_cells vempty ragged fmt mr mc grid0 hist = Ok g -> Forall (fun m => let '(_, rhi, _, chi) := m in 1 <= rhi /\ 1 <= chi) merged ->
  tidy_dimensions vempty ragged fmt mr mc merged g = Ok g' -> merged_ok mr merged.
Proof.
  intros ragged fmt mr mc hist merged g g' M1 M2 F P MP T.
  assert (MR : merged_rows merged <= mr).
  { destruct merged as [|m merged]; [cbn; lia|]. set (M := m :: merged) in *. unfold tidy_dimensions in T. change (match M with [] => Ok g | _ :: _ => ?x end) with x in T.
    rewrite merged_extent_spec in T. pose proof (rows_bound _ _ _ _ M1 F) as RB. apply bind_ok in T as (g1 & T & _).
    destruct ragged.
    - destruct (put_ragged_all vempty fmt mr mc hist [] grid0 [] (grid0_holds vempty fmt)) as (g2 & W & P2 & HH & FU & NR & NC);
        [intros r w Ew; apply znth_Some_range in Ew; cbn in Ew; lia|reflexivity|reflexivity|exact F|]. rewrite P in P2. injection P2 as <-. cbn [app] in *.
      match type of T with (if ?b then _ else _) = _ => destruct b eqn:B end.
      + unfold put_cell, put_cell_ragged in T. cbv zeta in T. cbn [s_row s_col] in T. apply bind_ok in T as (? & _ & T). apply bind_ok in T as (? & G2 & _). unfold guard in G2.
        match type of G2 with (if ?b then _ else _) = _ => destruct b eqn:B2 end; [lia|discriminate].
      + destruct (merged_cols M >? g_ncols g); cbn [g_nrows] in B; lia.
    - destruct (put_unragged_all vempty fmt mr mc hist [] grid0 [] (grid0_holds vempty fmt)) as (g2 & W & P2 & HH & FU & NR & NC);
        [split; [intros r w Ew; apply znth_Some_range in Ew; cbn in Ew; lia|right; left; auto]|reflexivity|reflexivity|exact F|]. rewrite P in P2. injection P2 as <-. cbn [app] in *.
      match type of T with (if ?b then _ else _) = _ => destruct b eqn:B end.
      2: destruct (merged_cols M >? g_ncols g); cbn [g_nrows] in B; lia.
      assert (NN : g_nrows (if merged_cols M >? g_ncols g then mk_grid (g_nrows g) (merged_cols M) (-2) (g_types g) (g_vals g) (g_xfs g) else g) = g_nrows g) by (destruct (merged_cols M >? g_ncols g); reflexivity).
      rewrite NN in B. set (s := mk_store (merged_rows M - 1) 0 XL_CELL_EMPTY vempty (-1)) in *.
      assert (O : set3 fmt (if merged_cols M >? g_ncols g then mk_grid (g_nrows g) (merged_cols M) (-2) (g_types g) (g_vals g) (g_xfs g) else g) s = SetIndex (g_types g) (g_vals g)).
      { assert (O : set3 fmt g s = SetIndex (g_types g) (g_vals g)).
        { assert (0 <= rows_of hist) by apply extent_nonneg. apply (set3_out vempty fmt hist g W s HH); cbn [s s_row s_col]; try lia. intros w E. apply znth_Some_range in E. destruct HH as (_ & _ & _ & LW & _). lia. }
        destruct (merged_cols M >? g_ncols g); exact O. }
      unfold put_cell, put_cell_unragged in T. rewrite O in T. cbv zeta in T. apply bind_ok in T as (? & _ & T). apply bind_ok in T as (? & G2 & _). unfold guard in G2. cbn [s s_row] in G2.
      match type of G2 with (if ?b then _ else _) = _ => destruct b eqn:B2 end; [lia|discriminate]. }
  unfold merged_ok. clear T P F. induction merged as [|[[[a b] cc] d] l IH]; [constructor|]. inversion MP; subst. change (merged_rows ((a, b, cc, d) :: l)) with (Z.max b (merged_rows l)) in MR.
  constructor; [lia|]. apply IH; [assumption|lia].
Qed.

(** ** One sheet *)

Section One.
Context {N : Type}.
Variable c : config N.
Hypothesis FMT : c_fmt c = true.
Variable rich : list (Z * list (Z * Z)).
Variable near : Z * Z * Z -> Z.
Variable dec : list Z -> result (list Z).
Hypothesis DEC : c_bv c < 80 -> dec = c_decode c.

(** The same options and workbook, without formatting_info.  Before BIFF8, also the same
    text encoding. *)
Definition plain_config : config N := mk_config (c_bv c) false (c_ragged c) (c_sst c) rich (c_xftype c) dec (c_num8 c) (c_rk c) near.
Notation c2 := plain_config.

Definition bare (sh : sheet N) (g : grid) (rt : list ((Z * Z) * list (Z * Z))) (gl : Z) : sheet N :=
  let f := sh_fmt sh in let v := sh_view sh in let o := sh_obj sh in
  mk_sheet g (mk_fmtst [] [] [] (f_defcolwidth f) (f_standardwidth f) (zrepeat 0 256))
    (mk_viewst (v_options v) (v_first_row v) (v_first_col v) gl (v_gridline_rgb v) (v_cached_preview v) (v_cached_normal v) (v_scl v) (v_pane v) [] []
       (v_row_labels v) (v_col_labels v) (v_default_height v) (v_height_bits v) (v_dims v))
    (mk_objst (o_links o) (o_notes o) (o_txos o) (o_saved o) rt) (sh_countries sh).

Definition G (seen : bool) (g1 g2 : @grid (value N)) : Prop :=
  exists h1 h2, thin h1 h2 /\ Forall (in_bounds true (max_rows c) 256) h1 /\
    put_cells vempty (c_ragged c) true (max_rows c) 256 grid0 h1 = Ok g1 /\ put_cells vempty (c_ragged c) false (max_rows c) 256 grid0 h2 = Ok g2 /\ (seen = false -> h1 = []).

Definition range_pos (m : mrange) : Prop := let '(_, rhi, _, chi) := m in 1 <= rhi /\ 1 <= chi.
Definition R (seen : bool) (sh1 sh2 : sheet N) : Prop :=
  exists g2 rt gl, sh2 = bare sh1 g2 rt gl /\ G seen (sh_grid sh1) g2 /\ Forall range_pos (f_merged (sh_fmt sh1)).

Lemma mr_nonneg : 0 <= max_rows c.
Proof. unfold max_rows. destruct (_ >=? _); lia. Qed.

Lemma R_weak : forall b sh1 sh2, R b sh1 sh2 -> R true sh1 sh2.
Proof. intros b sh1 sh2 (g2 & rt & gl & E & (h1 & h2 & A & B & C & D & _) & M). exists g2, rt, gl. split; [exact E|]. split; [|exact M]. exists h1, h2. repeat split; auto. discriminate. Qed.

Lemma G_put : forall b g1 g2 s g1', G b g1 g2 -> 0 <= s_row s -> 0 <= s_col s ->
  put_cell vempty (c_ragged c) true (max_rows c) 256 g1 s = Ok g1' ->
  (exists g2', put_cell vempty (c_ragged c) false (max_rows c) 256 g2 s = Ok g2' /\ G true g1' g2') /\ (s_type s = 6 -> G true g1' g2).
Proof.
  intros b g1 g2 s g1' (h1 & h2 & T & F & P1 & P2 & _) R0 K0 P.
  assert (IB : in_bounds true (max_rows c) 256 s) by (apply (put_bounds vempty (c_ragged c) true (max_rows c) 256 h1 g1 s g1'); auto; [exact mr_nonneg|lia]).
  assert (P1' : put_cells vempty (c_ragged c) true (max_rows c) 256 grid0 (h1 ++ [s]) = Ok g1') by (rewrite put_cells_app, P1; cbn [bind put_cells]; rewrite P; reflexivity).
  assert (F' : Forall (in_bounds true (max_rows c) 256) (h1 ++ [s])) by (apply Forall_app; split; [exact F|constructor; [exact IB|constructor]]).
  split.
  - destruct (put_cells_fine c2 (h2 ++ [s])) as (g2' & E).
    { apply (bounds_thin _ _ (h1 ++ [s])); [apply Thin_keep; exact T|exact F']. }
    change (c_fmt c2) with false in E. change (c_ragged c2) with (c_ragged c) in E. change (max_rows c2) with (max_rows c) in E.
    exists g2'. split.
    + rewrite put_cells_app, P2 in E. cbn [bind put_cells] in E. destruct (put_cell _ _ _ _ _ g2 s) as [x|]; [cbn [bind] in E; congruence|discriminate].
    + exists (h1 ++ [s]), (h2 ++ [s]). split; [apply Thin_keep; exact T|]. split; [exact F'|]. split; [exact P1'|]. split; [exact E|discriminate].
  - intros ST. exists (h1 ++ [s]), h2. split; [apply Thin_drop; [exact ST|exact T]|]. split; [exact F'|]. split; [exact P1'|]. split; [exact P2|discriminate].
Qed.

(** Results of the two readings. *)
Definition sim (b : bool) (r1 r2 : result (sheet N)) : Prop := forall sh', r1 = Ok sh' -> exists sh2', r2 = Ok sh2' /\ R b sh' sh2'.
Definition sims (b : bool) (r1 r2 : result (sheet N * list record)) : Prop := forall sh' rs', r1 = Ok (sh', rs') -> exists sh2', r2 = Ok (sh2', rs') /\ R b sh' sh2'.

Lemma sim_bind : forall A b (x : result A) f g, (forall a, x = Ok a -> sim b (f a) (g a)) -> sim b (bind x f) (bind x g).
Proof. intros A b x f g H sh' E. destruct x as [a|e]; [|discriminate]. exact (H a eq_refl sh' E). Qed.
Lemma sims_bind : forall A b (x : result A) f g, (forall a, x = Ok a -> sims b (f a) (g a)) -> sims b (bind x f) (bind x g).
Proof. intros A b x f g H sh' rs' E. destruct x as [a|e]; [|discriminate]. exact (H a eq_refl sh' rs' E). Qed.
Lemma sim_then : forall b b' r1 r2 f g, sim b r1 r2 -> (forall s1 s2, R b s1 s2 -> sim b' (f s1) (g s2)) -> sim b' (bind r1 f) (bind r2 g).
Proof. intros b b' r1 r2 f g H K sh' E. destruct r1 as [s1|e]; [|discriminate]. destruct (H s1 eq_refl) as (s2 & -> & RR). exact (K s1 s2 RR sh' E). Qed.
Lemma sims_then : forall b b' r1 r2 f g, sim b r1 r2 -> (forall s1 s2, R b s1 s2 -> sims b' (f s1) (g s2)) -> sims b' (bind r1 f) (bind r2 g).
Proof. intros b b' r1 r2 f g H K sh' rs' E. destruct r1 as [s1|e]; [|discriminate]. destruct (H s1 eq_refl) as (s2 & -> & RR). exact (K s1 s2 RR sh' rs' E). Qed.
Lemma sim_ret : forall b s1 s2, R b s1 s2 -> sim b (Ok s1) (Ok s2).
Proof. intros b s1 s2 RR sh' [= <-]. eauto. Qed.
Lemma sims_ret : forall b s1 s2 rs, R b s1 s2 -> sims b (Ok (s1, rs)) (Ok (s2, rs)).
Proof. intros b s1 s2 rs RR sh' rs' [= <- <-]. eauto. Qed.
Lemma sim_err : forall b e r, sim b (Err e) r.
Proof. intros b e r sh' E. discriminate. Qed.
Lemma sims_err : forall b e r, sims b (Err e) r.
Proof. intros b e r sh' rs' E. discriminate. Qed.
Lemma sims_plain : forall b r1 r2 rs, sim b r1 r2 -> sims b (plain r1 rs) (plain r2 rs).
Proof. intros b r1 r2 rs H. unfold plain. apply (sims_then b b); [exact H|]. intros. apply sims_ret. assumption. Qed.

Lemma put_sim : forall b sh1 sh2 r k ct v xf, R b sh1 sh2 -> 0 <= r -> 0 <= k -> sim true (put c sh1 r k ct v xf) (put c2 sh2 r k ct v xf).
Proof.
  intros b sh1 sh2 r k ct v xf (g2 & rt & gl & -> & GG & M) R0 K0. unfold put. change (c_xftype c2) with (c_xftype c). apply sim_bind. intros t _.
  intros sh' E. apply bind_ok in E as (g1' & E & E2). injection E2 as <-. rewrite FMT in E.
  destruct (G_put b _ _ (mk_store r k t v xf) g1' GG R0 K0 E) as ((g2' & P & G') & _).
  change (put_cell vempty (c_ragged c2) (c_fmt c2) (max_rows c2) 256 (sh_grid (bare sh1 g2 rt gl)) (mk_store r k t v xf)) with (put_cell vempty (c_ragged c) false (max_rows c) 256 g2 (mk_store r k t v xf)).
  rewrite P. cbn [bind]. eexists. split; [reflexivity|]. exists g2', rt, gl. split; [reflexivity|]. split; [exact G'|exact M].
Qed.
Lemma blank_sim : forall b sh1 sh2 r k v xf, R b sh1 sh2 -> 0 <= r -> 0 <= k -> sim true (put c sh1 r k (Some XL_CELL_BLANK) v xf) (Ok sh2).
Proof.
  intros b sh1 sh2 r k v xf (g2 & rt & gl & -> & GG & M) R0 K0. unfold put. cbn [bind]. intros sh' E. apply bind_ok in E as (g1' & E & E2). injection E2 as <-. rewrite FMT in E.
  destruct (G_put b _ _ (mk_store r k XL_CELL_BLANK v xf) g1' GG R0 K0 E) as (_ & G'). eexists. split; [reflexivity|]. exists g2, rt, gl. split; [reflexivity|]. split; [apply G'; reflexivity|exact M].
Qed.

Lemma rich_sim : forall b sh1 sh2 r k runs, R b sh1 sh2 -> R b (set_rich sh1 r k runs) (set_rich sh2 r k runs).
Proof. intros b sh1 sh2 r k runs (g2 & rt & gl & -> & GG & M). exists g2, (dset rt (r, k) runs), gl. split; [reflexivity|]. split; assumption. Qed.
Lemma rich_left : forall b sh1 sh2 r k runs, R b sh1 sh2 -> R b (set_rich sh1 r k runs) sh2.
Proof. intros b sh1 sh2 r k runs (g2 & rt & gl & -> & GG & M). exists g2, rt, gl. split; [reflexivity|]. split; assumption. Qed.

(** Cells. *)
Lemma u16_nonneg : forall d p v, bytes d -> unpack_u16 d p = Ok v -> 0 <= v.
Proof. intros d p v B E. pose proof (unpack_u16_range d p v B E). lia. Qed.

Ltac prefix := repeat match goal with |- sim _ (bind _ _) (bind _ _) => apply sim_bind; let a := fresh "a" in let E := fresh "E" in intros a E end.
Ltac cells := first [eapply u16_nonneg; eassumption].

Section Handler.
Variables (b : bool) (sh1 sh2 : sheet N) (d : list Z).
Hypothesis RR : R b sh1 sh2.
Hypothesis HB : bytes d.

Lemma number_sim : sim true (h_number c sh1 d) (h_number c2 sh2 d).
Proof. unfold h_number. prefix. apply (put_sim b); auto; cells. Qed.
Lemma labelsst_sim : sim true (h_labelsst c sh1 d) (h_labelsst c2 sh2 d).
Proof.
  unfold h_labelsst. rewrite FMT. change (c_fmt c2) with false. cbv iota. apply sim_bind; intros ? ?. apply sim_bind; intros r0 ?. apply sim_bind; intros k0 ?. apply sim_bind; intros x0 ?. apply sim_bind; intros ix ?. change (c_sst c2) with (c_sst c). apply sim_bind; intros ? ?.
  intros sh' E. apply bind_ok in E as (s1 & E & E2). destruct (put_sim b sh1 sh2 r0 k0 (Some XL_CELL_TEXT) _ _ RR ltac:(cells) ltac:(cells) s1 E) as (s2 & P & R2). rewrite P. cbn [bind]. exists s2. split; [reflexivity|].
  destruct (dget Z.eqb (c_rich c) ix) as [[|r runs]|]; injection E2 as <-; [exact R2|apply rich_left; exact R2|exact R2].
Qed.
Lemma label_sim : sim true (h_label c sh1 d) (h_label c2 sh2 d).
Proof. unfold h_label. change (c_bv c2) with (c_bv c). change (c_decode c2) with dec. destruct (c_bv c <? 80) eqn:V; [rewrite DEC by lia|]; prefix; apply (put_sim b); auto; cells. Qed.
Lemma rstring_sim : sim true (h_rstring c sh1 d) (h_rstring c2 sh2 d).
Proof.
  unfold h_rstring. change (c_bv c2) with (c_bv c). change (c_decode c2) with dec. destruct (c_bv c <? 80) eqn:V; [rewrite DEC by lia|]; do 4 (apply sim_bind; intros ? ?); apply sim_bind; intros [strg runs] _;
  (apply (sim_then true true); [apply (put_sim b); auto; cells|]; intros s1 s2 R2; apply sim_ret, rich_sim; exact R2).
Qed.
Lemma rk_sim : sim true (h_rk c sh1 d) (h_rk c2 sh2 d).
Proof. unfold h_rk. change (c_rk c2) with (c_rk c). prefix. apply (put_sim b); auto; cells. Qed.
Lemma boolerr_sim : sim true (h_boolerr c sh1 d) (h_boolerr c2 sh2 d).
Proof. unfold h_boolerr. prefix. apply (put_sim b); auto; cells. Qed.
End Handler.

Lemma mulrk_loop_sim : forall cols row d pos, 0 <= row -> Forall (fun k => 0 <= k) cols -> forall b sh1 sh2, R b sh1 sh2 -> sim true (mulrk_loop c cols sh1 row d pos) (mulrk_loop c2 cols sh2 row d pos).
Proof.
  induction cols as [|k cols IH]; intros row d pos R0 F b sh1 sh2 RR; cbn [mulrk_loop]; [apply sim_ret, (R_weak b), RR|]. inversion F; subst.
  apply sim_bind. intros xf _. change (c_rk c2) with (c_rk c). apply sim_bind. intros v _. apply (sim_then true true); [apply (put_sim b); auto|]. intros s1 s2 R2. apply (IH row d (pos + 6) R0 H2 true). exact R2.
Qed.
Lemma zrange_nonneg : forall a b, 0 <= a -> Forall (fun k => 0 <= k) (zrange a b).
Proof. intros a b A. apply Forall_forall. intros x I. apply in_zrange in I. lia. Qed.

Lemma mulrk_sim : forall b sh1 sh2 d, R b sh1 sh2 -> bytes d -> sim true (h_mulrk c sh1 d) (h_mulrk c2 sh2 d).
Proof.
  intros b sh1 sh2 d RR HB. unfold h_mulrk. apply sim_bind; intros ? ?. apply sim_bind; intros row ?. apply sim_bind; intros first ?. apply sim_bind; intros last ?.
  apply (mulrk_loop_sim (zrange first (last + 1)) row _ _ ltac:(cells) (zrange_nonneg first _ ltac:(cells)) b). exact RR.
Qed.

Lemma mulblank_loop_sim : forall cols row items pos, 0 <= row -> Forall (fun k => 0 <= k) cols -> forall b sh1 sh2, R b sh1 sh2 -> sim true (mulblank_loop c cols sh1 row items pos) (Ok sh2).
Proof.
  induction cols as [|k cols IH]; intros row items pos R0 F b sh1 sh2 RR; cbn [mulblank_loop]; [apply sim_ret, (R_weak b), RR|]. inversion F; subst.
  intros sh' E. apply bind_ok in E as (xf & _ & E). apply bind_ok in E as (s1 & E1 & E). destruct (blank_sim b sh1 sh2 _ _ _ _ RR R0 H1 s1 E1) as (s2 & [= <-] & R2).
  exact (IH row items (pos + 1) R0 H2 true s1 sh2 R2 sh' E).
Qed.
Lemma u16s_nonneg : forall n l, (length l <= n)%nat -> bytes l -> Forall (fun x => 0 <= x) (u16s l).
Proof.
  induction n as [|n IH]; intros l L B; [destruct l; [constructor|cbn in L; lia]|]. destruct l as [|x [|y l]]; try constructor; cbn [u16s].
  - inversion B as [|? ? B1 B2]; subst. inversion B2; subst. cbn [le_val]. lia.
  - apply IH; [cbn in L; lia|]. inversion B as [|? ? B1 B2]; subst. inversion B2; subst. assumption.
Qed.
Lemma blank_rec_sim : forall b sh1 sh2 d, R b sh1 sh2 -> bytes d -> sim true (h_blank c sh1 d) (h_blank c2 sh2 d).
Proof.
  intros b sh1 sh2 d RR HB. unfold h_blank. rewrite FMT. change (negb (c_fmt c2)) with true. cbn [negb]. intros sh' E. apply bind_ok in E as (? & ? & E). apply bind_ok in E as (r & ? & E). apply bind_ok in E as (k & ? & E). apply bind_ok in E as (xf & ? & E).
  exact (blank_sim b sh1 sh2 r k vempty xf RR ltac:(cells) ltac:(cells) sh' E).
Qed.
Lemma mulblank_sim : forall b sh1 sh2 len d, R b sh1 sh2 -> bytes d -> sim true (h_mulblank c sh1 len d) (h_mulblank c2 sh2 len d).
Proof.
  intros b sh1 sh2 len d RR HB. unfold h_mulblank. rewrite FMT. change (negb (c_fmt c2)) with true. cbn [negb]. cbv zeta. intros sh' E. apply bind_ok in E as (? & ? & E).
  pose proof (u16s_nonneg _ d (le_n _) HB) as NN. destruct (u16s d) as [|r [|k items]] eqn:U; try discriminate. inversion NN as [|? ? N1 N2]; subst. inversion N2 as [|? ? N3 _]; subst.
  apply bind_ok in E as (last & ? & E). apply bind_ok in E as (? & ? & E). exact (mulblank_loop_sim _ _ _ _ N1 (zrange_nonneg k _ N3) b sh1 sh2 RR sh' E).
Qed.

Lemma string_loop_dec : forall rs data offset nexp nfound acc, string_loop c2 rs data offset nexp nfound acc = string_loop c rs data offset nexp nfound acc.
Proof.
  induction rs as [|[[rc len] d] rs IH]; intros data offset nexp nfound acc; cbn [string_loop]; change (c_bv c2) with (c_bv c); change (c_decode c2) with dec.
  - destruct (c_bv c >=? 80) eqn:V; [reflexivity|]. rewrite DEC by lia. reflexivity.
  - destruct (c_bv c >=? 80) eqn:V; [|rewrite DEC by lia]; (match goal with |- bind ?x _ = _ => destruct x as [chunk|]; [|reflexivity] end; cbn [bind]; rewrite IH; reflexivity).
Qed.
Lemma formula_string_dec : forall rs, formula_string c2 rs = formula_string c rs.
Proof.
  intros rs. unfold formula_string. destruct (next rs) as [[[[rc2 len2] data2] rs1]|]; [|reflexivity]. cbn [bind].
  match goal with |- bind ?x _ = _ => destruct x as [[data3 rs3]|]; [|reflexivity] end. cbn [bind]. unfold string_record_contents. change (c_bv c2) with (c_bv c).
  cbv zeta. destruct (unpack_le _ data3 0); [|reflexivity]. cbn [bind]. apply string_loop_dec.
Qed.

Lemma formula_sim : forall b sh1 sh2 d rs, R b sh1 sh2 -> bytes d -> sims true (h_formula c sh1 d rs) (h_formula c2 sh2 d rs).
Proof.
  intros b sh1 sh2 d rs RR HB. unfold h_formula. do 4 (apply sims_bind; intros ? ?). cbv zeta. change (c_num8 c2) with (c_num8 c). rewrite formula_string_dec.
  destruct (list_eqb _ _).
  - apply sims_bind. intros fb _. destruct (fb =? 0); [apply sims_bind; intros [strg rs1] _|destruct (fb =? 1); [apply sims_bind; intros v _|destruct (fb =? 2); [apply sims_bind; intros v _|destruct (fb =? 3); [|apply sims_err]]]];
    (apply (sims_then true true); [apply (put_sim b); auto; cells|intros; apply sims_ret; assumption]).
  - apply (sims_then true true); [apply (put_sim b); auto; cells|intros; apply sims_ret; assumption].
Qed.

(** Everything else. *)
Section Other.
Variables (b : bool) (sh1 sh2 : sheet N) (d : list Z).
Hypothesis RR : R b sh1 sh2.
Hypothesis HB : bytes d.

Ltac keep := match goal with |- R _ _ _ => destruct RR as (g2 & rt & gl & -> & GG & M); exists g2, rt, gl; split; [reflexivity|split; [exact GG|exact M]] end.
Ltac open := destruct RR as (g2 & rt & gl & E0 & GG & M).
Ltac only_fmt := rewrite FMT; change (negb (c_fmt c2)) with true; cbn [negb]; cbv zeta iota.

Lemma row_sim : sim b (h_row c sh1 d) (h_row c2 sh2 d).
Proof.
  unfold h_row. only_fmt. intros sh' E. exists sh2. split; [reflexivity|]. do 4 (apply bind_ok in E as (? & _ & E)). destruct (negb _); injection E as <-; [exact RR|keep].
Qed.
Lemma colinfo_sim : sim b (h_colinfo c sh1 d) (h_colinfo c2 sh2 d).
Proof.
  unfold h_colinfo. only_fmt. intros sh' E. exists sh2. split; [reflexivity|]. do 6 (apply bind_ok in E as (? & _ & E)). destruct (negb _); injection E as <-; [exact RR|keep].
Qed.
Lemma defcolwidth_sim : sim b (h_defcolwidth sh1 d) (h_defcolwidth sh2 d).
Proof. unfold h_defcolwidth. apply sim_bind. intros w _. apply sim_ret. keep. Qed.
Lemma standardwidth_sim : sim b (h_standardwidth sh1 d) (h_standardwidth sh2 d).
Proof. unfold h_standardwidth. apply sim_bind. intros w _. apply sim_ret. keep. Qed.
Lemma gcw_sim : forall len, sim b (h_gcw c sh1 len d) (h_gcw c2 sh2 len d).
Proof.
  intros len. unfold h_gcw. only_fmt. intros sh' E. exists sh2. split; [reflexivity|]. do 4 (apply bind_ok in E as (? & _ & E)). injection E as <-. keep.
Qed.
Lemma dimension_sim : forall len, (b = true -> len = 0) -> sim b (h_dimension c sh1 len d) (h_dimension c2 sh2 len d).
Proof.
  intros len L. unfold h_dimension. destruct (len =? 0) eqn:E; [apply sim_ret; exact RR|]. destruct b; [exfalso; lia|].
  change (c_bv c2) with (c_bv c). apply sim_bind. intros dims _. apply sim_ret. destruct RR as (g2 & rt & gl & -> & (h1 & h2 & T & F & P1 & P2 & S0) & M). specialize (S0 eq_refl). subst h1.
  apply thin_nil in T. subst h2. cbn [put_cells] in P1, P2. injection P1 as P1. injection P2 as P2. exists grid0, rt, gl. split.
  - rewrite <- P2. reflexivity.
  - split; [|exact M]. exists [], []. cbn [with_view with_grid sh_grid]. rewrite <- P1. repeat split; auto. constructor.
Qed.
Lemma links_sim : forall (f : links -> list Z -> result links) rs, sims b (do l <- f (o_links (sh_obj sh1)) d; Ok (set_links sh1 l, rs)) (do l <- f (o_links (sh_obj sh2)) d; Ok (set_links sh2 l, rs)).
Proof.
  intros f rs. assert (EL : o_links (sh_obj sh2) = o_links (sh_obj sh1)) by (open; rewrite E0; reflexivity). rewrite EL. apply sims_bind. intros l _. apply sims_ret. keep.
Qed.
Lemma obj_sim : sim b (h_obj c sh1 d) (h_obj c2 sh2 d).
Proof. unfold h_obj. change (c_bv c2) with (c_bv c). apply sim_bind. intros saved _. apply sim_bind. intros id _. apply sim_ret. keep. Qed.
Lemma txo_sim : forall rs, sims b (h_txo c sh1 d rs) (h_txo c2 sh2 d rs).
Proof.
  intros rs. unfold h_txo. change (c_bv c2) with (c_bv c). apply sims_bind. intros [txo rs1] _. assert (ES : o_saved (sh_obj sh2) = o_saved (sh_obj sh1)) by (open; rewrite E0; reflexivity).
  cbv zeta. rewrite ES. destruct txo as [t|]; [|apply sims_ret; exact RR]. destruct (o_saved (sh_obj sh1)) as [[id|]|]; [|apply sims_ret; exact RR|apply sims_err].
  destruct (id =? 0); apply sims_ret; [exact RR|keep].
Qed.
Lemma note_sim : forall rs, sims b (h_note c sh1 d rs) (h_note c2 sh2 d rs).
Proof.
  intros rs. unfold h_note. cbv zeta. change (c_bv c2) with (c_bv c). change (c_decode c2) with dec.
  assert (HN : forall txos m, handle_note dec (c_bv c) txos m d rs = handle_note (c_decode c) (c_bv c) txos m d rs) by (intros txos m; unfold handle_note; destruct (c_bv c <? 80) eqn:V; [rewrite DEC by lia|]; reflexivity).
  assert (ES : o_txos (sh_obj sh2) = o_txos (sh_obj sh1) /\ o_notes (sh_obj sh2) = o_notes (sh_obj sh1)) by (open; rewrite E0; split; reflexivity). destruct ES as (ES1 & ES2).
  rewrite ES1, ES2, HN. apply sims_bind. intros [m rs1] _. apply sims_ret. destruct RR as (g2 & rt & gl & -> & GG & M). exists g2, rt, gl. split; [reflexivity|split; [exact GG|exact M]].
Qed.
Lemma country_sim : sim b (h_country sh1 d) (h_country sh2 d).
Proof.
  unfold h_country. assert (ES : sh_countries sh2 = sh_countries sh1) by (open; rewrite E0; reflexivity). rewrite ES. do 4 (apply sim_bind; intros ? _). apply sim_ret. keep.
Qed.
Lemma labelranges_sim : forall len, sim b (h_labelranges sh1 len d) (h_labelranges sh2 len d).
Proof.
  intros len. unfold h_labelranges. assert (ES : v_row_labels (sh_view sh2) = v_row_labels (sh_view sh1) /\ v_col_labels (sh_view sh2) = v_col_labels (sh_view sh1)) by (open; rewrite E0; split; reflexivity). destruct ES as (-> & ->).
  apply sim_bind. intros [rl p] _. apply sim_bind. intros [cl p2] _. apply sim_bind. intros ? _. apply sim_ret. keep.
Qed.
Lemma condfmt_sim : sim b (h_condfmt c sh1 d) (h_condfmt c2 sh2 d).
Proof. unfold h_condfmt. only_fmt. intros sh' E. exists sh2. split; [reflexivity|]. do 3 (apply bind_ok in E as (? & _ & E)). injection E as <-. exact RR. Qed.
Lemma cf_sim : forall len, sim b (h_cf c sh1 len d) (h_cf c2 sh2 len d).
Proof. intros len. unfold h_cf. only_fmt. intros sh' E. exists sh2. split; [reflexivity|]. do 6 (apply bind_ok in E as (? & _ & E)). injection E as <-. exact RR. Qed.
Lemma defaultrowheight_sim : forall len, sim b (h_defaultrowheight sh1 len d) (h_defaultrowheight sh2 len d).
Proof.
  intros len. unfold h_defaultrowheight. assert (ES : v_default_height (sh_view sh2) = v_default_height (sh_view sh1)) by (open; rewrite E0; reflexivity). rewrite ES.
  apply sim_bind. intros [h bits0] _. apply sim_ret. keep.
Qed.
Lemma mergedcells_sim : forall len, sim b (h_mergedcells c sh1 len d) (h_mergedcells c2 sh2 len d).
Proof.
  intros len. unfold h_mergedcells. only_fmt. intros sh' E. exists sh2. split; [reflexivity|]. apply bind_ok in E as ([m pos] & E1 & E). apply bind_ok in E as (? & _ & E). injection E as <-.
  apply range_list_bits in E1 as (_ & ->); [|exact HB|lia]. destruct RR as (g2 & rt & gl & -> & GG & M). exists g2, rt, gl. split; [reflexivity|]. split; [exact GG|].
  cbn [with_fmt sh_fmt f_merged]. apply Forall_app. split; [exact M|]. unfold ranges_in. apply Forall_forall. intros rg I. apply in_map_iff in I as (i & <- & _). unfold range_pos, bits.
  split; match goal with |- 1 <= ?x mod ?y + 1 => assert (0 <= x mod y) by (apply Z.mod_pos_bound; lia); lia end.
Qed.
Lemma window2_sim : forall len, sim b (h_window2 c sh1 len d) (h_window2 c2 sh2 len d).
Proof.
  intros len. unfold h_window2. cbv zeta. change (c_bv c2) with (c_bv c). change (c_nearest c2) with near. destruct ((c_bv c >=? 80) && (len >=? 14)).
  - do 4 (apply sim_bind; intros ? _). apply sim_bind; intros gl' _. do 2 (apply sim_bind; intros ? _). apply sim_ret. destruct RR as (g2 & rt & gl & -> & GG & M). exists g2, rt, gl'. split; [reflexivity|split; [exact GG|exact M]].
  - do 5 (apply sim_bind; intros ? _). apply sim_bind; intros r' _. apply sim_bind; intros g' _. apply sim_bind; intros b' _. apply sim_ret. destruct RR as (g2 & rt & gl & -> & GG & M). exists g2, rt, (near (r', g', b')). split; [reflexivity|split; [exact GG|exact M]].
Qed.
Lemma scl_sim : sim b (h_scl sh1 d) (h_scl sh2 d).
Proof. unfold h_scl. cbv zeta. do 3 (apply sim_bind; intros ? _). apply sim_ret. keep. Qed.
Lemma pane_sim : sim b (h_pane sh1 d) (h_pane sh2 d).
Proof. unfold h_pane. cbv zeta. do 6 (apply sim_bind; intros ? _). apply sim_ret. keep. Qed.
Lemma hbreaks_sim : forall len, sim b (h_hbreaks c sh1 len d) (h_hbreaks c2 sh2 len d).
Proof. intros len. unfold h_hbreaks. only_fmt. intros sh' E. exists sh2. split; [reflexivity|]. apply bind_ok in E as (? & _ & E). injection E as <-. keep. Qed.
Lemma vbreaks_sim : forall len, sim b (h_vbreaks c sh1 len d) (h_vbreaks c2 sh2 len d).
Proof. intros len. unfold h_vbreaks. only_fmt. intros sh' E. exists sh2. split; [reflexivity|]. apply bind_ok in E as (? & _ & E). injection E as <-. keep. Qed.
End Other.

Lemma sims_weak : forall b x r1 r2, sims b r1 r2 -> sims (b || x) r1 r2.
Proof. intros b x r1 r2 H sh' rs' E. destruct (H sh' rs' E) as (s2 & E2 & RR). exists s2. split; [exact E2|]. destruct b, x; try exact RR. exact (R_weak _ _ _ RR). Qed.


Lemma step_sim : forall b sh1 sh2 rc len d rs, R b sh1 sh2 -> bytes d -> (b = true -> dimension_code rc = true -> len = 0) ->
  sims (b || cell_code rc) (step c sh1 rc len d rs) (step c2 sh2 rc len d rs).
Proof.
  intros b sh1 sh2 rc len d rs RR HB HD. unfold step.
  destruct (Z.eqb_spec rc XL_NUMBER) as [->|_]; [rewrite orb_true_r; apply sims_plain, (number_sim b); assumption|].
  destruct (Z.eqb_spec rc XL_LABELSST) as [->|_]; [rewrite orb_true_r; apply sims_plain, (labelsst_sim b); assumption|].
  destruct (Z.eqb_spec rc XL_LABEL) as [->|_]; [rewrite orb_true_r; apply sims_plain, (label_sim b); assumption|].
  destruct (Z.eqb_spec rc XL_RSTRING) as [->|_]; [rewrite orb_true_r; apply sims_plain, (rstring_sim b); assumption|].
  destruct (Z.eqb_spec rc XL_RK) as [->|_]; [rewrite orb_true_r; apply sims_plain, (rk_sim b); assumption|].
  destruct (Z.eqb_spec rc XL_MULRK) as [->|_]; [rewrite orb_true_r; apply sims_plain, (mulrk_sim b); assumption|].
  destruct (Z.eqb_spec rc XL_ROW) as [->|_]; [apply sims_weak, sims_plain, row_sim; assumption|].
  destruct (is_formula_code rc) eqn:FC.
  { assert (CC : cell_code rc = true).
    { unfold is_formula_code in FC. unfold cell_code. cbn [existsb]. rewrite !orb_true_iff, !Z.eqb_eq in FC. destruct FC as [[->| ->]| ->]; reflexivity. }
    rewrite CC, orb_true_r. apply (formula_sim b); assumption. }
  destruct (Z.eqb_spec rc XL_BOOLERR) as [->|_]; [rewrite orb_true_r; apply sims_plain, (boolerr_sim b); assumption|].
  destruct (rc =? XL_COLINFO); [apply sims_weak, sims_plain, colinfo_sim; assumption|].
  destruct (rc =? XL_DEFCOLWIDTH); [apply sims_weak, sims_plain, defcolwidth_sim; assumption|].
  destruct (rc =? XL_STANDARDWIDTH); [apply sims_weak, sims_plain, standardwidth_sim; assumption|].
  destruct (rc =? XL_GCW); [apply sims_weak, sims_plain, gcw_sim; assumption|].
  destruct (Z.eqb_spec rc XL_BLANK) as [->|_]; [rewrite orb_true_r; apply sims_plain, (blank_rec_sim b); assumption|].
  destruct (Z.eqb_spec rc XL_MULBLANK) as [->|_]; [rewrite orb_true_r; apply sims_plain, (mulblank_sim b); assumption|].
  destruct ((rc =? XL_DIMENSION) || (rc =? XL_DIMENSION2)) eqn:DC; [apply sims_weak, sims_plain, dimension_sim; [assumption|intros X; apply HD; [exact X|exact DC]]|].
  destruct (rc =? XL_HLINK); [apply sims_weak, links_sim; assumption|].
  destruct (rc =? XL_QUICKTIP); [apply sims_weak, links_sim; assumption|].
  destruct (rc =? XL_OBJ); [apply sims_weak, sims_plain, obj_sim; assumption|].
  destruct (rc =? XL_MSO_DRAWING); [apply sims_weak, sims_ret; assumption|].
  destruct (rc =? XL_TXO); [apply sims_weak, txo_sim; assumption|].
  destruct (rc =? XL_NOTE); [apply sims_weak, note_sim; assumption|].
  destruct (rc =? XL_FEAT11); [apply sims_weak, sims_ret; assumption|].
  destruct (is_bof_code rc); [apply sims_weak, sims_bind; intros ? _; apply sims_bind; intros ? _; apply sims_ret; assumption|].
  destruct (rc =? XL_COUNTRY); [apply sims_weak, sims_plain, country_sim; assumption|].
  destruct (rc =? XL_LABELRANGES); [apply sims_weak, sims_plain, labelranges_sim; assumption|].
  destruct (rc =? XL_ARRAY); [apply sims_weak, sims_bind; intros ? _; apply sims_ret; assumption|].
  destruct (rc =? XL_SHRFMLA); [apply sims_weak, sims_bind; intros ? _; apply sims_ret; assumption|].
  destruct (rc =? XL_CONDFMT); [apply sims_weak, sims_plain, condfmt_sim; assumption|].
  destruct (rc =? XL_CF); [apply sims_weak, sims_plain, cf_sim; assumption|].
  destruct (rc =? XL_DEFAULTROWHEIGHT); [apply sims_weak, sims_plain, defaultrowheight_sim; assumption|].
  destruct (rc =? XL_MERGEDCELLS); [apply sims_weak, sims_plain, mergedcells_sim; assumption|].
  destruct (rc =? XL_WINDOW2); [apply sims_weak, sims_plain, window2_sim; assumption|].
  destruct (rc =? XL_SCL); [apply sims_weak, sims_plain, scl_sim; assumption|].
  destruct (rc =? XL_PANE); [apply sims_weak, sims_plain, pane_sim; assumption|].
  destruct (rc =? XL_HORIZONTALPAGEBREAKS); [apply sims_weak, sims_plain, hbreaks_sim; assumption|].
  destruct (rc =? XL_VERTICALPAGEBREAKS); [apply sims_weak, sims_plain, vbreaks_sim; assumption|].
  apply sims_weak, sims_ret. assumption.
Qed.

(** The loop. *)
Lemma parts_first : forall note used rs, Forall (fun r : record => part_code note (fst (fst r)) = true) used -> forall b,
  dimension_first b (own_records false (used ++ rs)) -> dimension_first b (own_records false rs).
Proof.
  intros note. induction used as [|[[rc len] d] used IH]; intros rs H b D; [exact D|]. inversion H as [|? ? P H']; subst. cbn [fst] in P.
  destruct (part_not_special _ _ P) as (_ & P2 & P3). cbn [app own_records] in D. replace (rc =? 0x0A) with false in D by lia. rewrite P3 in D. cbn [dimension_first] in D. destruct D as (_ & D).
  assert (CC : cell_code rc = false).
  { unfold part_code in P. apply orb_true_iff in P as [P|P].
    - apply existsb_exists in P as (x & I & E). apply Z.eqb_eq in E. subst x. cbn [In] in I. repeat (destruct I as [<-|I]; [reflexivity|]). destruct I.
    - apply andb_true_iff in P as [_ P]. apply Z.eqb_eq in P as ->. reflexivity. }
  rewrite CC, orb_false_r in D. apply IH; assumption.
Qed.

Lemma bof_no_cell : forall rc, opens_stream rc = true -> cell_code rc = false.
Proof. intros rc H. unfold opens_stream in H. rewrite !orb_true_iff, !Z.eqb_eq in H. destruct H as [[[->| ->]| ->]| ->]; reflexivity. Qed.

Lemma loop_sim : forall n b sh1 sh2 rs sh1', (length rs <= n)%nat -> R b sh1 sh2 -> complete false rs -> dimension_first b (own_records false rs) ->
  read_all c sh1 rs = Ok sh1' -> exists b' sh2', read_all c2 sh2 rs = Ok sh2' /\ R b' sh1' sh2'.
Proof.
  induction n as [|n IH]; intros b sh1 sh2 rs sh1' L RR C D E; destruct rs as [|[[rc len] d] rs]; try discriminate; [cbn in L; lia|].
  rewrite read_all_cons in *. change XL_EOF with 0x0A in *. cbn [complete negb andb own_records] in C, D. destruct (rc =? 0x0A) eqn:EF; [injection E as <-; eauto|].
  apply bind_ok in E as ([s1 rs1] & ES & E). destruct C as ((HB & _) & C).
  assert (HD : b = true -> dimension_code rc = true -> len = 0).
  { intros Hb Hd. destruct (opens_stream rc) eqn:OS; [exfalso|exact (proj1 D Hb Hd)]. unfold opens_stream in OS. unfold dimension_code in Hd. lia. }
  destruct (step_sim b sh1 sh2 rc len d rs RR HB HD s1 rs1 ES) as (s2 & E2 & R2). rewrite E2. cbn [bind].
  pose proof (step_length c _ _ _ _ _ _ _ ES) as SL. cbn [length] in L.
  apply (IH (b || cell_code rc) s1 s2 rs1 sh1'); auto; [lia| |].
  - destruct (opens_stream rc) eqn:OS.
    + exact (complete_embedded _ _ (step_embedded c _ _ _ _ _ _ _ OS ES) C).
    + destruct (step_takes c _ _ _ _ _ _ _ OS ES) as (u & -> & U). exact (complete_parts _ _ _ U C).
  - destruct (opens_stream rc) eqn:OS.
    + rewrite (bof_no_cell _ OS), orb_false_r. rewrite (own_embedded _ _ (step_embedded c _ _ _ _ _ _ _ OS ES)) in D. exact D.
    + destruct (step_takes c _ _ _ _ _ _ _ OS ES) as (u & -> & U). destruct D as (_ & D). exact (parts_first _ _ _ U _ D).
Qed.
End One.

(** What is the same in a sheet [s1] read with formatting_info and the same sheet [s2] read
    without: the cells with contents, except where the first shows a blank cell; the links,
    the notes, the default widths and height, the view.  The second has no merged cells, rows
    and columns with attributes, and page breaks. *)
Definition same_but_formatting {N} (s1 s2 : sheet N) : Prop :=
  let g1 := sh_grid s1 in let g2 := sh_grid s2 in
  (g_nrows g2 <= g_nrows g1 /\ g_ncols g2 <= g_ncols g1) /\
  (forall r k, 0 <= r -> 0 <= k -> shown g2 r k = shown g1 r k \/ cell_type g1 r k = Ok 6) /\
  (f_merged (sh_fmt s2) = [] /\ f_rows (sh_fmt s2) = [] /\ f_cols (sh_fmt s2) = []) /\
  (f_defcolwidth (sh_fmt s2) = f_defcolwidth (sh_fmt s1) /\ f_standardwidth (sh_fmt s2) = f_standardwidth (sh_fmt s1)) /\
  (o_links (sh_obj s2) = o_links (sh_obj s1) /\ o_notes (sh_obj s2) = o_notes (sh_obj s1)) /\
  (let v1 := sh_view s1 in let v2 := sh_view s2 in
   v_options v2 = v_options v1 /\ v_first_row v2 = v_first_row v1 /\ v_first_col v2 = v_first_col v1 /\ v_gridline_rgb v2 = v_gridline_rgb v1 /\
   cooked_mag_factors v2 = cooked_mag_factors v1 /\ v_scl v2 = v_scl v1 /\ v_pane v2 = v_pane v1 /\
   v_row_labels v2 = v_row_labels v1 /\ v_col_labels v2 = v_col_labels v1 /\
   v_default_height v2 = v_default_height v1 /\ v_height_bits v2 = v_height_bits v1 /\ v_dims v2 = v_dims v1 /\
   v_hbreaks v2 = [] /\ v_vbreaks v2 = []).

Theorem c101_sheet : forall {N} (c : config N) rich near dec countries rs s1, c_fmt c = true -> (c_bv c < 80 -> dec = c_decode c) -> complete false rs -> dimension_first false (own_records false rs) ->
  sheet_read c countries rs = Ok s1 ->
  exists s2, sheet_read (plain_config c rich near dec) countries rs = Ok s2 /\ same_but_formatting s1 s2 /\ sh_countries s2 = sh_countries s1.
Proof.
  intros N c rich near dec countries rs s1 FMT DEC C D H. unfold sheet_read in H. apply bind_ok in H as (sh1 & L & H). apply bind_ok in H as (g1' & T1 & H). injection H as <-. rewrite FMT in T1.
  assert (R0 : R c false (sheet0 countries) (sheet0 countries)).
  { exists grid0, [], 0x40. split; [reflexivity|]. split; [|constructor]. exists [], []. repeat split; constructor. }
  destruct (loop_sim c FMT rich near dec DEC (length rs) false _ _ rs sh1 (le_n _) R0 C D L) as (b' & sh2 & L2 & (g2 & rt & gl & -> & (h1 & h2 & T & F & P1 & P2 & _) & M)).
  pose proof (mr_nonneg c) as MN.
  pose proof (tidy_merged vempty (c_ragged c) true (max_rows c) 256 h1 _ _ _ MN ltac:(lia) F P1 M T1) as MO.
  assert (SO1 : sheet_of vempty (c_ragged c) true (max_rows c) 256 h1 (f_merged (sh_fmt sh1)) = Ok g1') by (unfold sheet_of; rewrite P1; exact T1).
  pose proof (bounds_thin _ _ _ _ T F) as F2. assert (MO2 : merged_ok (max_rows c) []) by constructor.
  assert (S2 : exists g2', sheet_of vempty (c_ragged c) false (max_rows c) 256 h2 [] = Ok g2' /\ g_nrows g2' = nrows_spec h2 [] /\ g_ncols g2' = ncols_spec h2 []).
  { destruct (c_ragged c); [destruct (sheet_ragged vempty false (max_rows c) 256 h2 [] MN ltac:(lia) F2 MO2) as (g & W & E & A & B & _)|destruct (sheet_padded vempty false (max_rows c) 256 h2 [] MN ltac:(lia) F2 MO2) as (g & E & A & B & _)]; eauto. }
  assert (S1 : g_nrows g1' = nrows_spec h1 (f_merged (sh_fmt sh1)) /\ g_ncols g1' = ncols_spec h1 (f_merged (sh_fmt sh1))).
  { destruct (c_ragged c); [destruct (sheet_ragged vempty true (max_rows c) 256 h1 _ MN ltac:(lia) F MO) as (g & W & E & A & B & _)|destruct (sheet_padded vempty true (max_rows c) 256 h1 _ MN ltac:(lia) F MO) as (g & E & A & B & _)]; rewrite SO1 in E; injection E as <-; auto. }
  destruct S2 as (g2' & SO2 & NR2 & NC2). destruct S1 as (NR1 & NC1).
  assert (T2 : tidy_dimensions vempty (c_ragged c) false (max_rows c) 256 [] g2 = Ok g2') by (unfold sheet_of in SO2; rewrite P2 in SO2; exact SO2).
  exists (with_grid (bare sh1 g2 rt gl) g2'). split; [|split; [|reflexivity]].
  - unfold sheet_read. change (read_loop (plain_config c rich near dec) (S (length rs)) (sheet0 countries) rs) with (read_all (plain_config c rich near dec) (sheet0 countries) rs). rewrite L2. cbn [bind].
    change (tidy_dimensions vempty (c_ragged (plain_config c rich near dec)) (c_fmt (plain_config c rich near dec)) (max_rows (plain_config c rich near dec)) 256 (f_merged (sh_fmt (bare sh1 g2 rt gl))) (sh_grid (bare sh1 g2 rt gl)))
      with (tidy_dimensions vempty (c_ragged c) false (max_rows c) 256 [] g2). rewrite T2. reflexivity.
  - split; [|split].
    + cbn [with_grid bare sh_grid]. rewrite NR1, NC1, NR2, NC2. pose proof (thin_extent s_row _ _ T) as TR. pose proof (thin_extent s_col _ _ T) as TC. fold (rows_of h1) (rows_of h2) in TR. fold (cols_of h1) (cols_of h2) in TC.
      unfold nrows_spec, ncols_spec. cbn [merged_rows merged_cols fold_right]. assert (0 <= rows_of h1 /\ 0 <= cols_of h1) by (split; apply extent_nonneg). lia.
    + intros r k R0' K0. cbn [with_grid bare sh_grid].
      destruct (shown_spec vempty (c_ragged c) true (max_rows c) 256 h1 _ _ MN ltac:(lia) F MO SO1 r k R0' K0) as (A1 & B1). destruct (shown_spec vempty (c_ragged c) false (max_rows c) 256 h2 _ _ MN ltac:(lia) F2 MO2 SO2 r k R0' K0) as (A2 & _).
      destruct (thin_last _ _ T r k) as [E|(s & E & TY)]; [left; rewrite A1, A2, E; reflexivity|right; rewrite <- TY; apply B1; exact E].
    + repeat split.
Qed.
Print Assumptions c101_sheet.
