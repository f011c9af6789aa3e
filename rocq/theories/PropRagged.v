(** C102: what a workbook shows with ragged_rows and without. *)
From Verif Require Import Base BaseFacts Utf16 Strings Framing GridModel GridFacts PropGrid
  SheetObjects SheetModel SheetFacts SheetSteps PropSheet SheetTrace PropView PropRowCol PropLinks SheetOwn PropRead CellAccess PropFmtSheet PropRagSheet
  Text StringFacts PropBytes SstModel PropSst FormatModel FormatFacts PropFormat PropNumType FormulaModel CompDoc CompDocFacts CompDocOpen PropChain PropDir CompDocFull
  BookModel BookFacts PropBof PropEnc BookSheets BookRefs BookApi SheetShare
  BookHistory PropGlobals PropFormulaText PropDemand PropSheetList BookContent BookFormats BookFollow BookFine PropWorkbook PropRoundTrip PropFile PropAttrs NameValues PropStorage PropFmtInfo.

Section Book.
Context {N : Type}.
Variable codec : list Z -> list Z -> result (list Z).
Variable ops : numops N.
Variable lower : list Z -> list Z.
Variable num8 : list Z -> N.
Variable rk : list Z -> result N.
Notation loaded := (loaded (N := N)).
Notation book := (book N loaded).
Notation loader := (book -> list Z -> Z -> list Z -> Z -> result (shared * loaded)).

(** Without SHEETHDR records the globals load no sheets. *)
Lemma globals_load : forall (ld1 ld2 : loader) fuel mem rs d post b pos b' p,
  Forall framable rs -> zlen d < 65536 -> At mem pos (frames rs ++ frame (0x0a, d) ++ post) -> Forall (fun r => fst r <> 0x0a /\ fst r <> 0x8f) rs ->
  globals codec ops lower ld1 fuel b mem pos = Ok (b', p) -> globals codec ops lower ld2 fuel b mem pos = Ok (b', p).
Proof.
  intros ld1 ld2. induction fuel as [|f IH]; intros mem rs d post b pos b' p F LD A NE H; [discriminate|]. cbn [globals] in *.
  assert (FD : framable (0x0a, d)) by (split; cbn; lia).
  destruct rs as [|[rc data] rs].
  - cbn [frames flat_map app] in A. rewrite (At_frame _ _ _ _ A FD) in *. cbn [bind fst snd] in *. change (0x0a =? 0x0a) with true in *. cbv iota in *. exact H.
  - inversion F as [|? ? F1 F2]; subst. inversion NE as [|? ? [N1 N2] N3]; subst. cbn [fst] in N1, N2.
    cbn [frames flat_map] in A. rewrite <- app_assoc in A. rewrite (At_frame _ _ _ _ A F1) in *. cbn [bind fst snd] in *.
    replace (rc =? 0x0a) with false in * by lia. apply bind_ok in H as ([b1 q1] & G1 & H).
    match goal with |- bind ?x _ = _ => assert (G2 : x = Ok (b1, q1)) end.
    { rewrite <- G1. unfold gstep. replace (rc =? 0x8f) with false by lia. reflexivity. }
    rewrite G2. clear G2. cbn [bind]. pose proof (At_skip _ _ _ _ _ A eq_refl) as A1.
    assert (A1' : At mem (pos + zlen (frame (rc, data))) (frames (rs ++ [(0x0a, d)]) ++ post)).
    { rewrite frames_app, <- app_assoc. cbn [frames flat_map]. rewrite app_nil_r. exact A1. }
    assert (FA : Forall framable (rs ++ [(0x0a, d)])) by (apply Forall_app; split; [exact F2|constructor; [exact FD|constructor]]).
    assert (XA : existsb noncont (rs ++ [(0x0a, d)]) = true) by (rewrite existsb_app; apply orb_true_intro; right; reflexivity).
    destruct (gstep_at codec lower ld1 mem (rs ++ [(0x0a, d)]) post (pos + zlen (frame (rc, data))) b rc data b1 q1 FA A1' XA N2 G1) as (cs & rs' & E & C1 & C2 & C3).
    assert (exists rs'', rs' = rs'' ++ [(0x0a, d)] /\ rs = cs ++ rs'') as (rs'' & -> & ->).
    { clear - E C3. destruct rs' as [|x l _] using rev_ind; [discriminate|].
      rewrite app_assoc in E. apply app_inj_tail in E as [E1 E2]. subst. eauto. }
    apply Forall_app in F2 as [_ F2]. apply Forall_app in N3 as [_ N3].
    rewrite frames_app, <- app_assoc in C2. cbn [frames flat_map] in C2. rewrite app_nil_r in C2.
    exact (IH mem rs'' d post b1 q1 b' p F2 LD C2 N3 H).
Qed.

Lemma opened_ragged : forall old1 old2 fuel mem base bv rs ov fmt b1 b2 m1 m2, workbook mem base bv rs -> 50 <= bv ->
  open_stream codec ops lower num8 rk true old1 fuel mem base ov fmt true = Ok (mk_api b1 m1) ->
  open_stream codec ops lower num8 rk false old2 fuel mem base ov fmt true = Ok (mk_api b2 m2) -> b1 = b2.
Proof.
  intros old1 old2 fuel mem base bv rs ov fmt b1 b2 m1 m2 (pos & d & post & GB & FR & LD & A & NE) V O1 O2.
  unfold BookApi.open_stream in O1, O2. rewrite GB, bind_Ok in O1, O2.
  apply bind_ok in O1 as (? & _ & O1). apply bind_ok in O1 as (? & _ & O1). apply bind_ok in O2 as (? & _ & O2). apply bind_ok in O2 as (? & _ & O2).
  apply bind_ok in O1 as (z1 & B1 & O1). rewrite B1 in O2. cbn [bind] in O2.
  replace (bv <=? 40) with false in O1, O2 by lia. replace (bv =? 45) with false in O1, O2 by lia.
  apply bind_ok in O1 as ([y1 q1] & G1 & O1).
  rewrite (globals_load _ (load codec num8 rk false old2) _ _ _ _ _ _ _ _ _ FR LD A NE G1) in O2. cbn [bind] in O2. cbv zeta in O1, O2. congruence.
Qed.

(** Cells with numbers are numbers or dates. *)
Lemma opened_typed : forall ragged old fuel mem base bv rs ov fmt b m, workbook mem base bv rs -> 50 <= bv ->
  open_stream codec ops lower num8 rk ragged old fuel mem base ov fmt true = Ok (mk_api b m) -> forall x, dget Z.eqb (b_xftype (bk_fmt b)) x <> Some 0.
Proof.
  intros ragged old fuel mem base bv rs ov fmt b0 m (pos & d & post & GB & FR & LD & A & NE) V O x.
  unfold BookApi.open_stream in O. rewrite GB, bind_Ok in O.
  apply bind_ok in O as (? & _ & O). apply bind_ok in O as (? & _ & O). apply bind_ok in O as (b & B & O).
  replace (bv <=? 40) with false in O by lia. replace (bv =? 45) with false in O by lia.
  apply bind_ok in O as ([b1 p1] & G & O). cbv zeta in O.
  assert (b0 = with_list b1 (map (fun _ => None) (sl_names (bk_sheets b1)))) as -> by congruence.
  change (dget Z.eqb (b_xftype (bk_fmt b1)) x <> Some 0).
  unfold book0 in B. apply bind_ok in B as (f & F & B).
  set (P := fun (b : book) (_ : list (Z * list Z)) => enc_inv b /\ exists fs, frun f fs = Ok (bk_fmt b)).
  assert (PB : P b rs) by (injection B as <-; split; [intros _; left; reflexivity|exists []; reflexivity]).
  destruct (globals_walk codec (load codec num8 rk ragged old) ops lower P mem d post LD) with (fuel := fuel) (rs := rs) (b := b) (pos := pos) (b' := b1) (p' := p1) as (bl & (I & fs & RU) & GE); auto.
  { intros b2 pos2 rc data rs2 b3 p3 cs rs3 (I2 & fs2 & R2) _ _ _ _ N8 S0 _. destruct (gstep_effect _ _ _ _ _ _ _ _ _ S0 N8 I2) as (I3 & _ & FE). split; [exact I3|].
    destruct (frec rc data) as [r|]; [|rewrite FE; eauto]. destruct FE as [FE _]. exists (fs2 ++ [(unicode codec (en_encoding (bk_enc b3)), r)]). exact (frun_one _ _ _ _ _ _ R2 FE). }
  destruct (globals_end_effect _ _ _ _ _ GE I) as (_ & _ & _ & FE). rewrite FE, (proj2 (palette_keeps _)).
  pose proof (type_of_xf _ _ _ _ _ F RU V x) as T. unfold book_types in T. rewrite T. destruct (_ && _); [destruct (date_xf _ _); discriminate|]. destruct (x =? 0); discriminate.
Qed.

Lemma cut_options : forall (c c' : config N) s1 s2, c_fmt c = c_fmt c' -> same_but_cut c s1 s2 -> same_but_cut c' s1 s2.
Proof.
  intros c c' s1 s2 E. unfold same_but_cut, row_cut, row_of, cell_of, cell_xf_index, req_fmt_info. rewrite E. exact (fun H => H).
Qed.

(** However a workbook is stored and opened and whatever was done before, its worksheets show
    the same with ragged_rows and without, except that rows are cut. *)
Theorem c102_workbook : forall old1 old2 bv override fmt s rs es e file fuel depth on_demand1 on_demand2 ignore a1 a2 h1 h2 k1 k2 j recs sh1 sh2 c,
  50 <= bv -> contains lower depth file s -> zlen file < Z.of_nat fuel -> book_stream s bv rs -> lists codec bv override None rs es ->
  open_workbook_xls codec ops lower num8 rk true old1 fuel depth file override fmt on_demand1 ignore = Ok a1 ->
  open_workbook_xls codec ops lower num8 rk false old2 fuel depth file override fmt on_demand2 ignore = Ok a2 ->
  znth (filter worksheet es) j = Some e -> 0 <= e_posn e -> sheet_at s (e_posn e) recs -> dimension_first false (own_records false (map rec_of recs)) ->
  fst (perform codec num8 rk true old1 k1 (snd (history codec num8 rk true old1 a1 h1)) (SheetByIndex j)) = Ok (Got sh1) ->
  fst (perform codec num8 rk false old2 k2 (snd (history codec num8 rk false old2 a2 h2)) (SheetByIndex j)) = Ok (Got sh2) ->
  c_fmt c = fmt ->
  ls_name sh1 = ls_name sh2 /\ ls_visibility sh1 = ls_visibility sh2 /\ same_but_cut c (ls_sheet sh1) (ls_sheet sh2).
Proof.
  intros old1 old2 bv ov fmt s rs es e file f d od1 od2 ig a1 a2 h1 h2 k1 k2 j recs sh1 sh2 c V C L BS LS O1 O2 E P SA DF Q1 Q2 FMT.
  destruct (found lower f d file s bv rs ig C BS L) as (m & base & post & F & BM & PB & A & LM & L0).
  unfold BookApi.open_workbook_xls in O1, O2. replace (zlen file =? 0) with false in O1, O2 by lia. cbn [negb guard] in O1, O2. rewrite bind_Ok, F, bind_Ok in O1, O2.
  pose proof (book_at _ _ _ _ _ _ BM PB A BS) as W. assert (PL : placed s m base) by (split; [exact BM|]; split; [exact PB|]; exists post; exact A).
  destruct (by_index codec ops lower num8 rk true old1 _ _ _ _ _ _ _ _ _ _ h1 j j k1 _ _ W V LS O1 (or_introl eq_refl) E Q1) as (b1 & version1 & pos1 & countries1 & x1 & OO1 & GB1 & SR1 & NM1 & VS1 & SX1).
  destruct (by_index codec ops lower num8 rk false old2 _ _ _ _ _ _ _ _ _ _ h2 j j k2 _ _ W V LS O2 (or_introl eq_refl) E Q2) as (b2 & version2 & pos2 & countries2 & x2 & OO2 & GB2 & SR2 & NM2 & VS2 & SX2).
  split; [congruence|]. split; [congruence|].
  rewrite GB1 in GB2. injection GB2 as <- <-.
  destruct (sheet_place codec lower num8 rk old1 s _ recs P SA) as (v & n & HS). destruct (HS m base PL) as (t & GB3 & RE). change XL_WORKSHEET with 0x10 in GB3. rewrite GB1 in GB3. injection GB3 as -> ->.
  rewrite RE in SR1, SR2.
  destruct SA as (op & body & v' & t' & AT & _ & _ & _ & FR & CL).
  assert (BR : Forall (fun r => bytes (snd r)) recs).
  { pose proof (At_in _ _ _ _ _ _ A AT) as A2. destruct A2 as (before & EM & _). rewrite EM in BM. apply Forall_app in BM as [_ BM]. apply Forall_app in BM as [BM _]. apply Forall_app in BM as [_ BM]. apply Forall_app in BM as [BM _].
    apply bytes_frames. unfold frames in *. rewrite flat_map_app in BM. apply Forall_app in BM as [BM _]. exact BM. }
  pose proof (opened_ragged _ _ _ _ _ _ _ _ _ _ _ _ _ W V OO1 OO2) as <-. pose proof (opened_typed _ _ _ _ _ _ _ _ _ _ _ W V OO1) as TY.
  destruct (opened_options codec ops lower num8 rk true old1 _ _ _ _ _ _ _ _ _ W V OO1) as [_ BF].
  set (c0 := config_of codec num8 rk true b1) in *. change (config_of codec num8 rk false b1) with (rag_config c0 false) in SR2. change c0 with (rag_config c0 true) in SR1.
  assert (CO : complete false (PropStorage.R recs t)) by (apply complete_closed; assumption).
  assert (DF2 : dimension_first false (own_records false (PropStorage.R recs t))) by (unfold PropStorage.R; rewrite own_closed by exact CL; exact DF).
  pose proof (c102_sheet c0 countries1 _ TY CO DF2) as T. rewrite SR1 in T. destruct (sheet_read (rag_config c0 false) countries1 _) as [x|] eqn:SR3; [|destruct T]. destruct T as [SB _].
  destruct (sheet_read_weaker _ _ (0, 0) _ _ SR3 (or_intror eq_refl)) as (k3 & R3). destruct (sheet_read_weaker _ _ (0, 0) _ _ SR2 (or_intror eq_refl)) as (k4 & R4).
  rewrite R3 in R4. assert (EQ : set_c x k3 = set_c x2 k4) by congruence.
  apply (cut_options c0); [transitivity fmt; [exact BF|symmetry; exact FMT]|].
  assert (X1 : same_but_cut c0 (set_c x1 (0, 0)) (set_c x2 (0, 0))).
  { assert (E2 : set_c x2 (0, 0) = set_c x (0, 0)) by (transitivity (set_c (set_c x2 k4) (0, 0)); [destruct x2; reflexivity|rewrite <- EQ; destruct x; reflexivity]). rewrite E2. destruct x1, x. exact SB. }
  rewrite <- SX1, <- SX2 in X1. destruct (ls_sheet sh1), (ls_sheet sh2). exact X1.
Qed.
End Book.
Print Assumptions c102_workbook.

(** The workbook of PropFmtInfo.v. *)
Example c102_hypotheses :
  let codec := fun _ b => Ok b in let rk := fun b => Ok (le_val b) in let none := fun _ _ _ _ _ => Err XLRDError in
  contains ascii_low 1 blank_file blank_file /\ zlen blank_file < Z.of_nat 400 /\ book_stream blank_file 80 Small.records /\
  lists codec 80 None None Small.records [mk_entry 130 1 0 (s2l "S")] /\ sheet_at blank_file 130 blank_records /\
  dimension_first false (own_records false (map rec_of blank_records)) /\
  match open_workbook_xls codec int_ops ascii_low le_val rk true none 400 1 blank_file None true true true, open_workbook_xls codec int_ops ascii_low le_val rk false none 400 1 blank_file None true false true with
  | Ok a1, Ok a2 => match fst (perform codec le_val rk true none (0, 0) a1 (SheetByIndex 0)), fst (perform codec le_val rk false none (0, 0) a2 (SheetByIndex 0)) with
                    | Ok (Got sh1), Ok (Got sh2) =>
                        let g1 := sh_grid (ls_sheet sh1) in let g2 := sh_grid (ls_sheet sh2) in
                        (g_nrows g1, g_ncols g1, g_nrows g2, g_ncols g2) = (3, 4, 3, 4) /\
                        map (row_len g1) [0; 1; 2] = [Ok 2; Ok 1; Ok 4] /\ map (row_len g2) [0; 1; 2] = [Ok 4; Ok 4; Ok 4]
                    | _, _ => False
                    end
  | _, _ => False
  end.
Proof.
  cbv zeta. destruct c101_hypotheses as (H1 & H2 & H3 & H4 & H5 & H6 & _).
  split; [exact H1|]. split; [exact H2|]. split; [exact H3|]. split; [exact H4|]. split; [exact H5|]. split; [exact H6|]. vm_compute. repeat split.
Qed.
