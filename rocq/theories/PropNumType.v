(** C24: a number cell is a date exactly when its format says so. *)
From Verif Require Import Base BaseFacts Text Utf16 Strings Framing PropBytes GridModel GridFacts PropGrid SheetObjects SheetModel SheetFacts SheetSteps
  PropSheet PropRead FormatModel FormatFacts PropFormat.

(** The format of an XF is a date format. *)
Definition date_xf (b : fbook) (xf : Z) : bool :=
  match znth (b_xfs (xf_epilogue b)) xf with
  | Some x => match dget Z.eqb (b_formats b) (xf_format_key x) with Some f => fm_type f =? FDT | None => false end
  | None => false
  end.

(** What worksheets look up: book.py's [_xf_index_to_xl_type_map] after the globals. *)
Definition book_types (b : fbook) (xf : Z) : option Z := dget Z.eqb (b_xftype (xf_epilogue b)) xf.

Lemma types_beyond : forall bv fmt rs b0 b, fbook0 bv fmt = Ok b0 -> frun b0 rs = Ok b ->
  forall i, i < 0 \/ zlen (b_xfs b) <= i -> dget Z.eqb (b_xftype b) i = if i =? 0 then Some XL_CELL_NUMBER else None.
Proof.
  intros bv fmt rs b0 b F. revert b. induction rs as [|[d r] rs IH] using rev_ind; intros b R i I.
  - injection R as <-. unfold fbook0 in F. apply bind_ok in F as (m & _ & F). injection F as <-. cbn [b_xftype dget]. reflexivity.
  - apply frun_snoc in R as (b1 & R & S). pose proof (step_frame _ _ _ _ S) as (_ & _ & Q & _).
    destruct r; try (destruct Q as (_ & _ & _ & Q1 & _ & Q2); rewrite Q1 in I; rewrite Q2; apply (IH b1); assumption).
    + destruct Q as (Q1 & _ & Q2). rewrite Q1 in I. rewrite Q2. apply (IH b1); assumption.
    + cbn [fstep] in S. apply handle_xf_inv in S as (b2 & y & _ & _ & _ & _ & _ & _ & _ & _ & _ & _ & E1 & _ & E2 & _).
      rewrite E1, zlen_app in I. rewrite E2. unfold dset. cbn [dget].
      match type of I with context [zlen [?z]] => change (zlen [z]) with 1 in I end. pose proof (zlen_nonneg (b_xfs b1)).
      replace (i =? zlen (b_xfs b1)) with false by lia. apply (IH b1); [exact R|lia].
Qed.

Lemma type_of_xf : forall bv fmt rs b0 b, fbook0 bv fmt = Ok b0 -> frun b0 rs = Ok b -> 50 <= bv ->
  forall xf, book_types b xf =
    if (0 <=? xf) && (xf <? zlen (b_xfs b)) then Some (if date_xf b xf then XL_CELL_DATE else XL_CELL_NUMBER)
    else if xf =? 0 then Some XL_CELL_NUMBER else None.
Proof.
  intros bv fmt rs b0 b F R BV xf. unfold book_types, date_xf.
  assert (L : zlen (b_xfs (xf_epilogue b)) = zlen (b_xfs b)) by (unfold xf_epilogue; cbn [b_xfs with_xftype with_xfs]; apply zlen_map).
  destruct ((0 <=? xf) && (xf <? zlen (b_xfs b))) eqn:E.
  - destruct (znth_in_range (b_xfs (xf_epilogue b)) xf) as (x & X); [lia|]. rewrite X.
    destruct (c57_types _ _ _ _ _ _ _ F R BV X) as (f & D & T). rewrite D, T. reflexivity.
  - rewrite <- (types_beyond _ _ _ _ _ F R xf) by lia. unfold xf_epilogue. cbn [b_xftype with_xftype].
    destruct (xf_inv_run _ _ _ _ _ F R) as (_ & IX & _).
    rewrite (dget_fold_index _ _ _ _ 0) by (intros j z Z1; rewrite Z.add_0_l; apply IX; exact Z1).
    rewrite Z.sub_0_r. replace (znth (b_xfs b) xf) with (@None FormatModel.xf) by (symmetry; apply znth_None; lia). reflexivity.
Qed.

(** The number cells of an item: at row r, column k, with the XF index. *)
Inductive numeric {N} : @item N -> Z -> Z -> Z -> Prop :=
  | num_number : forall r k xf d8, numeric (INumber r k xf d8) r k xf
  | num_rk : forall r k xf b x, numeric (IRk r k xf b x) r k xf
  | num_mulrk : forall r k its xs i xf b, znth its i = Some (xf, b) -> numeric (IMulRk r k its xs) r (k + i) xf
  | num_formula : forall rc r k xf u res rest, numeric (IFormula rc r k xf u (FNum res) rest) r k xf.

Lemma rk_cells_split : forall {N} (c : config N) its xs r k i xf b, List.length its = List.length xs -> znth its i = Some (xf, b) ->
  exists pre v post, rk_cells c r k its xs = pre ++ mk_store r (k + i) (numtype c xf) v xf :: post /\ forall s, In s post -> s_col s > k + i.
Proof.
  intros N c. induction its as [|[xf0 b0] its IH]; intros xs r k i xf b L H.
  - apply znth_Some_range in H. change (zlen (@nil (Z * list Z))) with 0 in H. lia.
  - destruct xs as [|x xs]; [discriminate|]. cbn [rk_cells]. injection L as L.
    assert (AFTER : forall its xs k' s, In s (rk_cells c r k' its xs) -> s_col s >= k').
    { clear. induction its as [|[a b] its IH]; intros xs k' s I; [destruct I|]. destruct xs; [destruct I|]. cbn [rk_cells] in I. destruct I as [<-|I]; [cbn; lia|]. apply IH in I. lia. }
    destruct (Z.eq_dec i 0) as [->|NE].
    + injection H as <- <-. exists [], (VNum x), (rk_cells c r (k + 1) its xs). rewrite Z.add_0_r. split; [reflexivity|].
      intros s I. apply AFTER in I. lia.
    + pose proof (znth_Some_range _ _ _ H). rewrite znth_cons in H by lia.
      destruct (IH xs r (k + 1) (i - 1) xf b L H) as (pre & v & post & E & P).
      exists (mk_store r k (numtype c xf0) (VNum x) xf0 :: pre), v, post. rewrite E. replace (k + 1 + (i - 1)) with (k + i) in * by lia. split; [reflexivity|exact P].
Qed.

Lemma numeric_cell : forall {N} (c : config N) it r k xf, item_ok c it -> numeric it r k xf ->
  c_xftype c xf <> None /\ 0 <= r /\ 0 <= k /\
  exists pre v post, cells c it = pre ++ mk_store r k (numtype c xf) v xf :: post /\ forall s, In s post -> s_col s > k.
Proof.
  intros N c it r k xf OK H. destruct H as [r k xf d8|r k xf b x|r k its xs i xf b H|rc r k xf u res rest]; cbn [item_ok cells] in *.
  - destruct OK as (R & K & _ & _ & X). unfold u16v in *. split; [exact X|]. split; [lia|]. split; [lia|]. exists [], (VNum (c_num8 c d8)), []. split; [reflexivity|intros s []].
  - destruct OK as (R & K & _ & _ & X & _). unfold u16v in *. split; [exact X|]. split; [lia|]. split; [lia|]. exists [], (VNum x), []. split; [reflexivity|intros s []].
  - destruct OK as (R & K & _ & _ & _ & X & V). unfold u16v in *. pose proof (znth_Some_range _ _ _ H). split.
    { rewrite Forall_forall in X. apply (X (xf, b)). unfold znth in H. destruct (i <? 0); [discriminate|]. apply nth_error_In in H. exact H. }
    split; [lia|]. split; [lia|]. apply (rk_cells_split c its xs r k i xf b); [|exact H]. clear - V. induction V; [reflexivity|cbn [List.length]; congruence].
  - destruct OK as (_ & R & K & _ & _ & _ & _ & X). unfold u16v in *. split; [exact X|]. split; [lia|]. split; [lia|]. exists [], (VNum (c_num8 c res)), []. split; [reflexivity|intros s []].
Qed.

(** The type of a number cell of a sheet: 3 if the format of its XF is a date format, else 2; whichever record it comes from. *)
Theorem c24_type : forall {N} (c : config N) bv fmt rs b0 b countries before it after len d rest sh r k xf,
  fbook0 bv fmt = Ok b0 -> frun b0 rs = Ok b -> 50 <= bv -> (forall x, c_xftype c x = book_types b x) -> c_bv c >= 50 ->
  let items := before ++ it :: after in
  Forall (item_ok c) items -> dims_first c items ->
  Forall (in_bounds (c_fmt c) (max_rows c) 256) (flat_map (cells c) items) -> merged_ok (max_rows c) (flat_map (merges c) items) ->
  sheet_read c countries (map rec_of (flat_map (enc c) items) ++ (XL_EOF, len, d) :: rest) = Ok sh ->
  numeric it r k xf -> (forall s, In s (flat_map (cells c) after) -> ~ (s_row s = r /\ s_col s = k)) ->
  cell_type (sh_grid sh) r k = Ok (if date_xf b xf then 3 else 2).
Proof.
  intros N c bv fmt rs b0 b countries before it after len d rest sh r k xf F R BV CT CB items OK DF IB MO SR NU LAST.
  assert (SH : shows sh (flat_map (cells c) items) (flat_map (merges c) items)).
  { destruct (sheet_content c countries items _ _ _ sh CB OK DF SR) as (K1 & K2 & _). eapply shows_of; eauto. }
  assert (OKI : item_ok c it) by (apply Forall_app in OK as [_ OK]; inversion OK; assumption).
  destruct (numeric_cell c it r k xf OKI NU) as (X & R0 & K0 & pre & v & post & E & P).
  assert (SPLIT : flat_map (cells c) items = (flat_map (cells c) before ++ pre) ++ mk_store r k (numtype c xf) v xf :: (post ++ flat_map (cells c) after)).
  { unfold items. rewrite flat_map_app. cbn [flat_map]. rewrite E, <- !app_assoc. reflexivity. }
  rewrite SPLIT in SH.
  destruct (c29_cell _ _ _ _ _ SH R0 K0) as [T _].
  { intros s I. apply in_app_or in I as [I|I]; [|apply LAST; exact I]. apply P in I. cbn [s_row s_col]. lia. }
  cbn [s_row s_col s_type] in T. rewrite T. f_equal. unfold numtype. rewrite CT in X |- *.
  rewrite (type_of_xf _ _ _ _ _ F R BV) in X |- *. destruct ((0 <=? xf) && (xf <? zlen (b_xfs b))) eqn:Q; [reflexivity|].
  destruct (xf =? 0) eqn:Q0; [|contradiction]. unfold date_xf.
  replace (znth (b_xfs (xf_epilogue b)) xf) with (@None FormatModel.xf); [reflexivity|]. symmetry. apply znth_None.
  unfold xf_epilogue. cbn [b_xfs with_xftype with_xfs]. rewrite zlen_map. lia.
Qed.
Print Assumptions c24_type.

(** An XF index beyond the XF records: the sheet cannot be read. *)
Theorem c24_unknown : forall {N} (c : config N) bv fmt rs b0 b sh r k xf d8 rs',
  fbook0 bv fmt = Ok b0 -> frun b0 rs = Ok b -> 50 <= bv -> (forall x, c_xftype c x = book_types b x) ->
  u16v r -> u16v k -> u16v xf -> zlen d8 = 8 -> zlen (xf_records rs) <= xf -> xf <> 0 ->
  read_all c sh ((XL_NUMBER, 14, head r k xf ++ d8) :: rs') = Err KeyError.
Proof.
  intros N c bv fmt rs b0 b sh r k xf d8 rs' F R BV CT Hr Hk Hx H8 L NZ.
  assert (T : c_xftype c xf = None).
  { rewrite CT, (type_of_xf _ _ _ _ _ F R BV). destruct (format_inv_run _ _ _ _ _ F R) as (_ & _ & _ & _ & L5 & _).
    replace ((0 <=? xf) && (xf <? zlen (b_xfs b))) with false by lia. replace (xf =? 0) with false by lia. reflexivity. }
  rewrite read_all_cons. change (XL_NUMBER =? XL_EOF) with false. cbv iota.
  change (step c sh XL_NUMBER 14 (head r k xf ++ d8) rs') with (plain (h_number c sh (head r k xf ++ d8)) rs').
  replace (h_number c sh (head r k xf ++ d8)) with (@Err (sheet N) KeyError); [reflexivity|].
  unfold h_number. destruct (head_read r k xf d8 Hr Hk Hx) as (E1 & E2 & E3 & A).
  rewrite need_ok by (rewrite zlen_app, zlen_head; lia). rewrite E1, E2, E3. cbn [bind]. unfold put. rewrite T. reflexivity.
Qed.
Print Assumptions c24_unknown.

(** XF 0 is General and XF 1 is m/d/yy; one cell from each kind of record. *)
Definition demo_book : result fbook :=
  do b0 <- fbook0 70 false; frun b0 (map (fun r => (fun s => Ok s, r)) [RXf (xf_bytes 0 0); RXf (xf_bytes 14 0)]).
Definition demo_config : config (list Z) :=
  mk_config 80 false false [] [] (fun xf => match demo_book with Ok b => book_types b xf | Err _ => None end)
    (fun b => Ok b) (fun b => b) (fun b => Ok b) (fun _ => 0).
Definition demo_items : list (@item (list Z)) :=
  [INumber 0 0 1 (zrepeat 0 8); IRk 0 1 0 [0; 0; 0; 0] [0; 0; 0; 0];
   IMulRk 1 0 [(0, [0; 0; 0; 0]); (1, [0; 0; 0; 0])] [[0; 0; 0; 0]; [0; 0; 0; 0]];
   IFormula 6 2 0 1 (0, 0, 0, 0) (FNum (zrepeat 0 8)) [0; 0]].

Example c24_case :
  (exists b0 b, fbook0 70 false = Ok b0 /\ demo_book = Ok b /\ forall x, c_xftype demo_config x = book_types b x) /\
  Forall (item_ok demo_config) demo_items /\ dims_first demo_config demo_items /\
  Forall (in_bounds false (max_rows demo_config) 256) (flat_map (cells demo_config) demo_items) /\
  numeric (nth 2 demo_items (IMerged [])) 1 1 1 /\
  match sheet_read demo_config (0, 0) (map rec_of (flat_map (enc demo_config) demo_items) ++ [(XL_EOF, 0, [])]) with
  | Ok sh => map (fun '(r, k) => cell_type (sh_grid sh) r k) [(0, 0); (0, 1); (1, 0); (1, 1); (2, 0)] = [Ok 3; Ok 2; Ok 2; Ok 3; Ok 3]
  | Err _ => False
  end.
Proof.
  assert (T : c_xftype demo_config 0 = Some 2 /\ c_xftype demo_config 1 = Some 3) by (split; vm_compute; reflexivity). destruct T as [T0 T1].
  split; [|split; [|split; [|split; [|split]]]].
  - destruct demo_book as [b|e] eqn:E; [|exfalso; vm_compute in E; discriminate].
    eexists. exists b. split; [reflexivity|]. split; [reflexivity|]. intros x. unfold demo_config. cbn [c_xftype]. rewrite E. reflexivity.
  - unfold demo_items. repeat (apply Forall_cons; [cbn [item_ok fresult_ok]; rewrite ?T0, ?T1; unfold u16v|]); [| | | |constructor].
    + repeat split; try lia; discriminate.
    + repeat split; try lia; discriminate.
    + repeat split; try (cbn; lia).
      * repeat (apply Forall_cons; [split; [unfold u16v; cbn; lia|reflexivity]|]); constructor.
      * repeat (apply Forall_cons; [cbn [fst]; rewrite ?T0, ?T1; discriminate|]); constructor.
      * repeat constructor.
    + repeat split; try lia; discriminate.
  - vm_compute. reflexivity.
  - repeat (apply Forall_cons; [vm_compute; repeat split; discriminate|]). constructor.
  - change 1 with (0 + 1) at 2. apply (num_mulrk _ _ _ _ 1 1 [0; 0; 0; 0]). reflexivity.
  - vm_compute. reflexivity.
Qed.
