(** C78: Cell objects, indexing a sheet in brackets and iterating over it. *)
From Verif Require Import Base BaseFacts Text Framing GridModel GridFacts PropGrid SheetObjects SheetModel SheetFacts SheetSteps PropSheet PropRead SheetTrace PropView CellAccess.

(** ** Specification *)

(** The cell that the stores [hist] and the records [tr] leave at a position *)
Definition wanted {N} (c : config N) (hist : list (@store (value N))) (tr : list record) (r k : Z) : cellobj N :=
  mk_cellobj (spec_type hist r k) (spec_val vempty hist r k)
    (if c_fmt c then Some (let x := spec_xf hist r k in if x >? -1 then x else default_xf (max_rows c) tr r k) else None).

(** ** Proofs *)

Section Content.
Context {N : Type}.
Variable c : config N.
Variables (countries : Z * Z) (items : list (@item N)) (len : Z) (d : list Z) (rest : list record) (sh : sheet N).
Notation records := (map rec_of (flat_map (enc c) items) ++ (XL_EOF, len, d) :: rest).
Notation hist := (flat_map (cells c) items).
Hypothesis V : 50 <= c_bv c.
Hypothesis OK : Forall (item_ok c) items.
Hypothesis DF : dims_first c items.
Hypothesis HB : Forall (in_bounds (c_fmt c) (max_rows c) 256) hist.
Hypothesis HM : merged_ok (max_rows c) (flat_map (merges c) items).
Hypothesis HG : good records.
Hypothesis R : sheet_read c countries records = Ok sh.

Lemma grid_there : exists W, Holds vempty (c_fmt c) hist (sh_grid sh) W.
Proof.
  destruct (sheet_content c countries items len d rest sh ltac:(lia) OK DF R) as [E _]. pose proof (max_rows_pos c) as M0.
  destruct (c_ragged c).
  - destruct (sheet_ragged vempty (c_fmt c) (max_rows c) 256 hist (flat_map (merges c) items) M0 ltac:(lia) HB HM) as (g' & W & E' & _ & _ & HH & _).
    rewrite E in E'. injection E' as <-. eauto.
  - destruct (sheet_padded vempty (c_fmt c) (max_rows c) 256 hist (flat_map (merges c) items) M0 ltac:(lia) HB HM) as (g' & E' & _ & _ & HH).
    rewrite E in E'. injection E' as <-. eauto.
Qed.

Lemma cells_there : exists tr sh1 rs', ran c (sheet0 countries) records tr sh1 rs' /\
  forall r k n, 0 <= r < g_nrows (sh_grid sh) -> row_len (sh_grid sh) r = Ok n -> 0 <= k < n -> cell_of c sh r k = Ok (wanted c hist tr r k).
Proof.
  destruct grid_there as (W & HH).
  assert (TV : forall r k n, 0 <= r < g_nrows (sh_grid sh) -> row_len (sh_grid sh) r = Ok n -> 0 <= k < n ->
    cell_type (sh_grid sh) r k = Ok (spec_type hist r k) /\ cell_value (sh_grid sh) r k = Ok (spec_val vempty hist r k)).
  { intros r k n Hr Hn Hk. eapply Holds_cell; [exact HH|eapply row_len_width; [exact HH|lia|exact Hn]|exact Hk]. }
  destruct (c_fmt c) eqn:F.
  - destruct (c25_content c countries items len d rest sh F V OK DF HB HM HG R) as (tr & sh1 & rs' & RN & X).
    exists tr, sh1, rs'. split; [exact RN|]. intros r k n Hr Hn Hk. destruct (TV r k n Hr Hn Hk) as [T1 T2].
    unfold cell_of, wanted. rewrite F, (X r k n Hr Hn Hk). cbn [bind]. rewrite T1, T2. reflexivity.
  - pose proof R as R'. unfold sheet_read in R'. apply bind_ok in R' as (sh1 & RD & _).
    fold (read_all c (sheet0 countries) records) in RD. destruct (read_ran c _ _ _ RD) as (tr & len' & d' & rest' & RN).
    exists tr, sh1. eexists. split; [exact RN|]. intros r k n Hr Hn Hk. destruct (TV r k n Hr Hn Hk) as [T1 T2].
    unfold cell_of, wanted. rewrite F. cbn [bind]. rewrite T1, T2. reflexivity.
Qed.
End Content.

(** Iterating over the sheet gives its rows from the first to the last; each is what row()
    and one index in brackets give, its slices are those of row_slice, and its cells are
    those that cell() and two indices in brackets give: the last type and value stored
    there, with its XF index when there is formatting information. *)
Theorem c78_cells : forall {N} (c : config N) countries items len d rest sh, 50 <= c_bv c ->
  Forall (item_ok c) items -> dims_first c items ->
  Forall (in_bounds (c_fmt c) (max_rows c) 256) (flat_map (cells c) items) -> merged_ok (max_rows c) (flat_map (merges c) items) ->
  let records := map rec_of (flat_map (enc c) items) ++ (XL_EOF, len, d) :: rest in
  good records -> sheet_read c countries records = Ok sh ->
  exists tr sh1 rs', ran c (sheet0 countries) records tr sh1 rs' /\
  exists rows, get_rows c sh = Ok rows /\ zlen rows = g_nrows (sh_grid sh) /\
  forall r row, znth rows r = Some row ->
    row_len (sh_grid sh) r = Ok (zlen row) /\ row_of c sh r = Ok row /\ get_item c sh (One r) = Ok (ARow row) /\
    (forall start stop, row_slice_of c sh r start stop = Ok (py_slice_opt row start stop)) /\
    forall k x, znth row k = Some x ->
      x = wanted c (flat_map (cells c) items) tr r k /\ cell_of c sh r k = Ok x /\ get_item c sh (Several [r; k]) = Ok (ACell x).
Proof.
  intros N c countries items len d rest sh V OK DF HB HM records HG R. unfold records in *.
  destruct (cells_there c countries items len d rest sh V OK DF HB HM HG R) as (tr & sh1 & rs' & RN & CT).
  destruct (grid_there c countries items len d rest sh V OK DF HB HM R) as (W & HH).
  exists tr, sh1, rs'. split; [exact RN|].
  set (hist := flat_map (cells c) items) in *. set (g := sh_grid sh) in *.
  pose proof HH as (_ & HV & _ & HN & _).
  set (width := fun r => match znth W r with Some n => n | None => 0 end).
  assert (RL : forall r, 0 <= r < g_nrows g -> row_len g r = Ok (width r) /\ 0 <= width r).
  { intros r Hr. destruct (znth_in_range W r ltac:(lia)) as [w Ew]. unfold width. rewrite Ew.
    split; [exact (Holds_row_len vempty (c_fmt c) hist g W r w HH Ew)|].
    assert (znth (widths (g_vals g)) r = Some w) as A by (rewrite HV; exact Ew). apply width_row in A as (row0 & _ & <-). apply zlen_nonneg. }
  set (full := fun r => map (wanted c hist tr r) (zrange 0 (width r))).
  assert (RO : forall r, 0 <= r < g_nrows g -> row_of c sh r = Ok (full r)).
  { intros r Hr. destruct (RL r Hr) as [RL1 RL2]. unfold row_of. fold g. rewrite RL1. cbn [bind]. apply mapM_ok. intros k Hk. apply in_zrange in Hk.
    apply (CT r k (width r)); [exact Hr|exact RL1|lia]. }
  exists (map full (zrange 0 (g_nrows g))).
  assert (N0 : 0 <= g_nrows g) by (rewrite <- HN; apply zlen_nonneg).
  split. { unfold get_rows. fold g. apply mapM_ok. intros r Hr. apply in_zrange in Hr. apply RO. lia. }
  split. { rewrite zlen_map, zlen_zrange. lia. }
  intros r row E. assert (Hr : 0 <= r < g_nrows g).
  { apply znth_Some_range in E. rewrite zlen_map, zlen_zrange in E. lia. }
  assert (row = full r) as ->.
  { rewrite znth_map in E. destruct (znth (zrange 0 (g_nrows g)) r) as [x|] eqn:X; [|discriminate]. injection E as <-.
    rewrite znth_zrange in X by lia. injection X as <-. reflexivity. }
  destruct (RL r Hr) as [RL1 RL2]. assert (ZL : zlen (full r) = width r) by (unfold full; rewrite zlen_map, zlen_zrange; lia).
  split; [rewrite ZL; exact RL1|]. split; [exact (RO r Hr)|]. split; [unfold get_item; rewrite (RO r Hr); reflexivity|]. split.
  { intros start stop. unfold row_slice_of. fold g. rewrite RL1. cbn [bind]. apply slice_bounds_spec; [exact RL2|].
    intros k Hk. apply (CT r k (width r)); assumption. }
  intros k x X. assert (Hk : 0 <= k < width r) by (apply znth_Some_range in X; lia).
  assert (x = wanted c hist tr r k) as ->.
  { unfold full in X. rewrite znth_map in X. destruct (znth (zrange 0 (width r)) k) as [y|] eqn:Y; [|discriminate]. injection X as <-.
    rewrite znth_zrange in Y by lia. injection Y as <-. reflexivity. }
  pose proof (CT r k (width r) Hr RL1 Hk) as CK. split; [reflexivity|]. split; [exact CK|]. unfold get_item. rewrite CK. reflexivity.
Qed.
Print Assumptions c78_cells.

(** col_slice is a slice of the column, in a sheet whose rows all reach that column
    (without ragged_rows all rows have the same length). *)
Theorem c78_columns : forall {N} (c : config N) countries items len d rest sh, 50 <= c_bv c ->
  Forall (item_ok c) items -> dims_first c items ->
  Forall (in_bounds (c_fmt c) (max_rows c) 256) (flat_map (cells c) items) -> merged_ok (max_rows c) (flat_map (merges c) items) ->
  let records := map rec_of (flat_map (enc c) items) ++ (XL_EOF, len, d) :: rest in
  good records -> sheet_read c countries records = Ok sh ->
  exists tr sh1 rs', ran c (sheet0 countries) records tr sh1 rs' /\
  forall k, 0 <= k -> (forall r n, 0 <= r < g_nrows (sh_grid sh) -> row_len (sh_grid sh) r = Ok n -> k < n) ->
  exists column, zlen column = g_nrows (sh_grid sh) /\
    (forall r, 0 <= r < zlen column -> znth column r = Some (wanted c (flat_map (cells c) items) tr r k)) /\
    forall start stop, col_slice_of c sh k start stop = Ok (py_slice_opt column start stop).
Proof.
  intros N c countries items len d rest sh V OK DF HB HM records HG R. unfold records in *.
  destruct (cells_there c countries items len d rest sh V OK DF HB HM HG R) as (tr & sh1 & rs' & RN & CT).
  destruct (grid_there c countries items len d rest sh V OK DF HB HM R) as (W & HH).
  exists tr, sh1, rs'. split; [exact RN|]. intros k Hk HW.
  set (hist := flat_map (cells c) items) in *. set (g := sh_grid sh) in *. pose proof HH as (_ & _ & _ & HN & _).
  assert (N0 : 0 <= g_nrows g) by (rewrite <- HN; apply zlen_nonneg).
  exists (map (fun r => wanted c hist tr r k) (zrange 0 (g_nrows g))).
  assert (ZL : zlen (map (fun r => wanted c hist tr r k) (zrange 0 (g_nrows g))) = g_nrows g) by (rewrite zlen_map, zlen_zrange; lia).
  split; [exact ZL|]. split.
  { intros r Hr. rewrite ZL in Hr. rewrite znth_map, znth_zrange by lia. reflexivity. }
  intros start stop. unfold col_slice_of. fold g. apply (slice_bounds_spec (fun r => cell_of c sh r k)); [exact N0|].
  intros r Hr. destruct (znth_in_range W r ltac:(lia)) as [w Ew].
  pose proof (Holds_row_len vempty (c_fmt c) hist g W r w HH Ew) as RL. apply (CT r k w); [exact Hr|exact RL|]. split; [exact Hk|eauto].
Qed.
Print Assumptions c78_columns.

Lemma index_back : forall {A} (l : list A) i, 0 <= i < zlen l -> py_index l (i - zlen l) = py_index l i.
Proof.
  intros A l i H. unfold py_index. destruct (Z.ltb_spec (i - zlen l) 0); [|lia]. destruct (Z.ltb_spec i 0); [lia|].
  replace (i - zlen l + zlen l) with i by lia. reflexivity.
Qed.

Lemma plane_back : forall {A} (p : list (list A)) r k n W, widths p = W -> znth W r = Some n -> 0 <= k < n ->
  plane_get p (r - zlen W) (k - n) = plane_get p r k /\ plane_get p (r - zlen W) k = plane_get p r k /\ plane_get p r (k - n) = plane_get p r k.
Proof.
  intros A p r k n W <- E Hk. pose proof (width_row p r n E) as (row & E' & <-).
  assert (zlen (widths p) = zlen p) as -> by (unfold widths; apply zlen_map). pose proof (znth_Some_range _ _ _ E') as Hr.
  unfold plane_get. rewrite !index_back by lia.
  assert (py_index p r = Ok row) as -> by (unfold py_index; destruct (Z.ltb_spec r 0); [lia|rewrite E'; reflexivity]).
  cbn [bind]. rewrite !index_back by lia. auto.
Qed.

(** Negative indices count from the end, as in a list: the type and the value are those of
    the cell so named, and so is the Cell object without formatting information, or if the
    cell has an XF index of its own. *)
Theorem c78_negative : forall {N} (c : config N) countries items len d rest sh, 50 <= c_bv c ->
  Forall (item_ok c) items -> dims_first c items ->
  Forall (in_bounds (c_fmt c) (max_rows c) 256) (flat_map (cells c) items) -> merged_ok (max_rows c) (flat_map (merges c) items) ->
  let records := map rec_of (flat_map (enc c) items) ++ (XL_EOF, len, d) :: rest in
  good records -> sheet_read c countries records = Ok sh ->
  forall r k n, 0 <= r < g_nrows (sh_grid sh) -> row_len (sh_grid sh) r = Ok n -> 0 <= k < n ->
  forall r' k', r' = r \/ r' = r - g_nrows (sh_grid sh) -> k' = k \/ k' = k - n ->
    row_len (sh_grid sh) r' = Ok n /\
    cell_type (sh_grid sh) r' k' = Ok (spec_type (flat_map (cells c) items) r k) /\
    cell_value (sh_grid sh) r' k' = Ok (spec_val vempty (flat_map (cells c) items) r k) /\
    (c_fmt c = true -> -1 < spec_xf (flat_map (cells c) items) r k -> cell_of c sh r' k' = cell_of c sh r k) /\
    (c_fmt c = false -> cell_of c sh r' k' = cell_of c sh r k /\ row_of c sh r' = row_of c sh r).
Proof.
  intros N c countries items len d rest sh V OK DF HB HM records HG R r k n Hr Hn Hk r' k' Er Ek. unfold records in *.
  destruct (grid_there c countries items len d rest sh V OK DF HB HM R) as (W & HH).
  set (hist := flat_map (cells c) items) in *. set (g := sh_grid sh) in *.
  pose proof HH as (HT & HV & HX & HN & _ & _ & LX).
  assert (EW : znth W r = Some n) by (eapply row_len_width; [exact HH|lia|exact Hn]).
  assert (BACK : forall {A} (p : list (list A)) k0 k1, widths p = W -> 0 <= k0 < n -> k1 = k0 \/ k1 = k0 - n -> plane_get p r' k1 = plane_get p r k0).
  { intros A p k0 k1 EP Hk0 Ek1. destruct (plane_back p r k0 n W EP EW Hk0) as (B1 & B2 & B3). rewrite HN in *.
    destruct Er as [-> | ->], Ek1 as [-> | ->]; auto. }
  destruct (Holds_cell vempty (c_fmt c) hist g W r k n HH EW Hk) as [T1 T2].
  assert (RL : row_len g r' = Ok n).
  { destruct Er as [-> | ->]; [exact Hn|]. rewrite <- Hn. unfold row_len. rewrite <- HN, <- HV.
    assert (zlen (widths (g_vals g)) = zlen (g_vals g)) as Z by (unfold widths; apply zlen_map). rewrite Z.
    rewrite index_back; [reflexivity|]. rewrite <- Z, HV, HN. lia. }
  assert (TB : forall k0 k1, 0 <= k0 < n -> k1 = k0 \/ k1 = k0 - n -> cell_type g r' k1 = cell_type g r k0) by (intros; apply BACK; assumption).
  assert (VB : forall k0 k1, 0 <= k0 < n -> k1 = k0 \/ k1 = k0 - n -> cell_value g r' k1 = cell_value g r k0) by (intros; apply BACK; assumption).
  split; [exact RL|]. split; [rewrite (TB k k' Hk Ek); exact T1|]. split; [rewrite (VB k k' Hk Ek); exact T2|]. split.
  - intros F HS. unfold cell_of. fold g. rewrite F, (TB k k' Hk Ek), (VB k k' Hk Ek). rewrite F in HX.
    assert (cell_xf_index c sh r' k' = cell_xf_index c sh r k) as ->; [|reflexivity].
    unfold cell_xf_index, req_fmt_info. rewrite F. fold g. rewrite (BACK _ (g_xfs g) k k' HX Hk Ek). cbn [bind].
    assert (plane_get (g_xfs g) r k = Ok (spec_xf hist r k)) as ->.
    { rewrite (plane_get_look (-1) (g_xfs g) r k n); [f_equal; apply LX; exact F|rewrite HX; exact EW|exact Hk]. }
    cbn [bind]. destruct (spec_xf hist r k >? -1) eqn:G; [reflexivity|lia].
  - intros F. assert (CO : forall k0 k1, 0 <= k0 < n -> k1 = k0 \/ k1 = k0 - n -> cell_of c sh r' k1 = cell_of c sh r k0).
    { intros k0 k1 H1 H2. unfold cell_of. fold g. rewrite F, (TB k0 k1 H1 H2), (VB k0 k1 H1 H2). reflexivity. }
    split; [apply CO; assumption|]. unfold row_of. fold g. rewrite RL, Hn. cbn [bind].
    assert (forall l, (forall x, In x l -> 0 <= x < n) -> mapM (cell_of c sh r') l = mapM (cell_of c sh r) l) as M.
    { induction l as [|a l IH]; intros HL; [reflexivity|]. cbn [mapM]. rewrite (CO a a), IH; [reflexivity| |apply HL; left; reflexivity|left; reflexivity].
      intros x Hx. apply HL. right. exact Hx. }
    apply M. intros x Hx. apply in_zrange in Hx. lia.
Qed.
Print Assumptions c78_negative.

(** A sheet with formatting information: a row with a format of its own and an empty cell. *)
Definition ex_config (fmt : bool) : config (list Z) :=
  mk_config 80 fmt false [] [] (fun _ => Some XL_CELL_NUMBER) (fun b => Ok b) (fun b => b) (fun b => Ok b) (fun _ => 0).
Definition ex_items : list (@item (list Z)) :=
  [INoise XL_ROW [1;0; 0;0; 0;0; 0;0; 0;0; 0;0; 128;0; 21;0]; INumber 0 1 16 [0;0;0;0;0;0;240;63]; INumber 1 2 15 [0;0;0;0;0;0;0;64]].
Definition ex_records (fmt : bool) : list record := map rec_of (flat_map (enc (ex_config fmt)) ex_items) ++ [(XL_EOF, 0, [])].

Lemma ex_ok : forall fmt, Forall (item_ok (ex_config fmt)) ex_items /\ dims_first (ex_config fmt) ex_items /\
  Forall (in_bounds (c_fmt (ex_config fmt)) (max_rows (ex_config fmt)) 256) (flat_map (cells (ex_config fmt)) ex_items) /\
  merged_ok (max_rows (ex_config fmt)) (flat_map (merges (ex_config fmt)) ex_items) /\ good (ex_records fmt).
Proof.
  intros fmt. split; [|split; [|split; [|split]]].
  - unfold ex_items. constructor; [reflexivity|]. constructor; [|constructor; [|constructor]]; cbn [item_ok]; unfold u16v; repeat split; try lia; try reflexivity; discriminate.
  - destruct fmt; reflexivity.
  - constructor; [|constructor; [|constructor]]; unfold in_bounds; cbn; repeat split; lia.
  - constructor.
  - unfold good, ex_records. cbn -[le_enc]. repeat constructor; cbn; lia.
Qed.

Definition ex_seen (fmt : bool) : result (Z * Z * option Z * option Z) :=
  do sh <- sheet_read (ex_config fmt) (0, 0) (ex_records fmt);
  do n <- row_len (sh_grid sh) 1;
  do x <- cell_of (ex_config fmt) sh 1 0;
  do y <- cell_of (ex_config fmt) sh (-1) 0;
  Ok (g_nrows (sh_grid sh), n, co_xf x, co_xf y).
Lemma ex_cells : forall fmt, ex_seen fmt = Ok (2, 3, (if fmt then Some 21 else None), (if fmt then Some 15 else None)).
Proof. destruct fmt; vm_compute; reflexivity. Qed.

(** The hypotheses of c78_cells, c78_columns and c78_negative hold of this sheet, with and without formatting information. *)
Example c78_hypotheses : forall fmt, Forall (item_ok (ex_config fmt)) ex_items /\ dims_first (ex_config fmt) ex_items /\
  Forall (in_bounds (c_fmt (ex_config fmt)) (max_rows (ex_config fmt)) 256) (flat_map (cells (ex_config fmt)) ex_items) /\
  merged_ok (max_rows (ex_config fmt)) (flat_map (merges (ex_config fmt)) ex_items) /\ good (ex_records fmt) /\
  exists sh, sheet_read (ex_config fmt) (0, 0) (ex_records fmt) = Ok sh /\ g_nrows (sh_grid sh) = 2.
Proof.
  intros fmt. destruct (ex_ok fmt) as (A1 & A2 & A3 & A4 & A5). pose proof (ex_cells fmt) as E. unfold ex_seen in E.
  destruct (sheet_read (ex_config fmt) (0, 0) (ex_records fmt)) as [sh|] eqn:R; [|discriminate E]. cbn [bind] in E.
  apply bind_ok in E as (n & _ & E). apply bind_ok in E as (x & _ & E). apply bind_ok in E as (y & _ & E). injection E as E1 _ _ _.
  repeat (split; [assumption|]). eauto.
Qed.

(** With formatting information a negative row index may give another XF index than the
    row it names: sheet.cell(-1, 0) is not sheet.cell(sheet.nrows - 1, 0). *)
Theorem c78_negative_refuted : ~ (forall {N} (c : config N) countries items len d rest sh, 50 <= c_bv c ->
  Forall (item_ok c) items -> dims_first c items ->
  Forall (in_bounds (c_fmt c) (max_rows c) 256) (flat_map (cells c) items) -> merged_ok (max_rows c) (flat_map (merges c) items) ->
  let records := map rec_of (flat_map (enc c) items) ++ (XL_EOF, len, d) :: rest in
  good records -> sheet_read c countries records = Ok sh ->
  forall r k n, 0 <= r < g_nrows (sh_grid sh) -> row_len (sh_grid sh) r = Ok n -> 0 <= k < n ->
    cell_of c sh (r - g_nrows (sh_grid sh)) k = cell_of c sh r k).
Proof.
  intros H. destruct (ex_ok true) as (A1 & A2 & A3 & A4 & A5). pose proof (ex_cells true) as E. unfold ex_seen in E.
  destruct (sheet_read (ex_config true) (0, 0) (ex_records true)) as [sh|] eqn:R; [|discriminate E]. cbn [bind] in E.
  specialize (H (list Z) (ex_config true) (0, 0) ex_items 0 [] [] sh ltac:(cbn; lia) A1 A2 A3 A4 A5 R 1 0 3).
  destruct (row_len (sh_grid sh) 1) as [n|] eqn:RL; [|discriminate E]. cbn [bind] in E.
  destruct (cell_of (ex_config true) sh 1 0) as [x|] eqn:C1; [|discriminate E]. cbn [bind] in E.
  destruct (cell_of (ex_config true) sh (-1) 0) as [y|] eqn:C2; [|discriminate E]. cbn [bind] in E.
  injection E as E1 E2 E3 E4. rewrite E1 in H. specialize (H ltac:(lia) ltac:(rewrite E2; reflexivity) ltac:(lia)).
  change (1 - 2) with (-1) in H. rewrite C2 in H. injection H as H. rewrite H, E3 in E4. discriminate E4.
Qed.
Print Assumptions c78_negative_refuted.
