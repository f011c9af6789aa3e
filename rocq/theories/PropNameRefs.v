(** C45 and C46: Name.area2d and Name.cell. *)
From Verif Require Import Base BaseFacts Text Strings Utf16 StringFacts PropBytes Framing GridModel GridFacts SheetObjects SheetModel SstModel FormatModel
  FormulaModel CompDoc BookModel PropEnc BookFacts BookSheets BookRefs BookApi SheetShare BookHistory PropGlobals PropFormulaText PropDemand PropSheetList
  PropRefs NameFacts NameMaps PropDefined BookNames NameRefs SheetDims.

(** ** What a name refers to *)

(** The name is one absolute reference: to the box [b]. *)
Definition reference {N} (n : nameobj N) (b : box) : Prop :=
  exists o rel, nm_result n = Some o /\ o_kind o = oREF /\ o_value o = VRefs [mk_ref b rel].
(** ... an area of one worksheet, with its number. *)
Definition area {N} (n : nameobj N) (b : box) : Prop := reference n b /\ 0 <= b_slo b /\ b_shi b = b_slo b + 1.
(** ... one cell. *)
Definition one_cell {N} (n : nameobj N) (b : box) : Prop := area n b /\ b_rhi b = b_rlo b + 1 /\ b_chi b = b_clo b + 1.
(** A reference of which the value is not known. *)
Definition valueless {N} (n : nameobj N) : Prop := exists o, nm_result n = Some o /\ o_kind o = oREF /\ o_value o = VNone.

(** [lo, hi) is what [from, to) and [0, limit) have in common. *)
Definition common (lo hi from to limit : Z) : Prop :=
  0 <= lo <= hi /\ hi <= limit /\ forall i, lo <= i < hi <-> from <= i < to /\ 0 <= i < limit.

Section Named.
Context {N : Type}.
Variable codec : list Z -> list Z -> result (list Z).
Variable ops : numops N.
Variable lower : list Z -> list Z.
Variable num8 : list Z -> N.
Variable rk : list Z -> result N.
Variable ragged : bool.
Notation loaded := (loaded (N := N)).
Notation api := (api (N := N)).
Notation book := (book N loaded).
Variable old : book -> list Z -> Z -> list Z -> Z -> result (shared * loaded).
Notation open_stream := (open_stream codec ops lower num8 rk ragged old).
Notation history := (history codec num8 rk ragged old).
Notation perform := (perform codec num8 rk ragged old).
Notation name_cell := (name_cell codec num8 rk ragged old).
Notation name_area2d := (name_area2d codec num8 rk ragged old).
Notation sheet_cell := (sheet_cell codec num8 rk ragged).

Lemma frames_bytes : forall rs, bytes (frames rs) -> Forall (fun r => bytes (snd r)) rs.
Proof.
  induction rs as [|[rc d] rs IH]; intros B; constructor.
  - cbn [frames flat_map] in B. apply bytes_app in B as [B _]. unfold frame in B. repeat (apply bytes_app in B as [? B]). exact B.
  - apply IH. cbn [frames flat_map] in B. apply bytes_app in B as [_ B]. exact B.
Qed.

Lemma from_bytes : forall l p, bytes l -> bytes (py_from l p).
Proof.
  intros l p B. unfold py_from. unfold bytes in *. rewrite Forall_forall in *. intros x X. apply B.
  rewrite <- (firstn_skipn (Z.to_nat (py_bound (zlen l) p)) l). apply in_or_app. right. exact X.
Qed.

(** The names before they are evaluated. *)
Lemma opened_raw : forall fuel mem base bv rs ov fmt b0, workbook mem base bv rs -> 50 <= bv -> bytes mem ->
  open_stream fuel mem base ov fmt true = Ok (mk_api b0 (Some mem)) ->
  exists enc ns, Forall (fun n => bytes (nm_raw n) /\ nm_stack n = []) ns /\
    names_epilogue codec ops lower bv enc (bk_sheets b0) (bk_refs b0) ns = Ok (bk_names b0, bk_maps b0).
Proof.
  intros fuel mem base bv rs ov fmt b0 (pos & d & post & GB & FR & LD & A & NE) V BM O.
  unfold BookApi.open_stream in O. rewrite GB, bind_Ok in O.
  apply bind_ok in O as (? & _ & O). apply bind_ok in O as (? & _ & O). apply bind_ok in O as (b & B & O).
  replace (bv <=? 40) with false in O by lia. replace (bv =? 45) with false in O by lia.
  apply bind_ok in O as ([b1 p1] & G & O). cbv zeta in O. injection O as <-.
  assert (Q : bk_bv b = bv /\ bk_names b = []).
  { unfold book0 in B. apply bind_ok in B as (f & _ & B). injection B as <-. repeat split; reflexivity. }
  destruct Q as (Q1 & Q2). cbn [bk_refs bk_names bk_maps bk_sheets bk_bv with_list].
  assert (BR : Forall (fun r => bytes (snd r)) rs).
  { apply frames_bytes. destruct A as (p & E & _). rewrite E in BM. apply bytes_app in BM as [_ BM]. apply bytes_app in BM as [BM _]. exact BM. }
  pose (P := fun (b : book) (rs : list (Z * list Z)) => bk_bv b = bv /\ Forall (fun n => bytes (nm_raw n) /\ nm_stack n = []) (bk_names b) /\ Forall (fun r => bytes (snd r)) rs).
  destruct (globals_walk codec (load codec num8 rk ragged old) ops lower P mem d post LD) with (fuel := fuel) (rs := rs) (b := b) (pos := pos) (b' := b1) (p' := p1)
    as (bl & (VL & FL & _) & GE); auto.
  - clear - V. intros b pos rc data rs b' p cs rs' (P1 & P2 & P3) _ _ _ _ N2 G' _.
    apply Forall_cons_iff in P3 as [P3 P4]. apply Forall_app in P4 as [_ P4]. cbn [snd] in P3.
    split; [rewrite (gstep_version _ _ _ _ _ _ _ _ _ G' N2); exact P1|]. split; [|exact P4].
    destruct (Z.eq_dec rc 0x18) as [->|N3]; [|rewrite (proj2 (gstep_keeps _ _ _ _ _ _ _ _ _ G' N2) N3); exact P2].
    apply gstep_name in G' as (b2 & n & D & HN & ->); [|lia]. cbn [bk_names with_names]. apply Forall_app.
    apply derive_enc in D as (s & ->). cbn [bk_names with_enc with_shared]. split; [exact P2|]. constructor; [|constructor].
    unfold handle_name in HN. repeat (apply bind_ok in HN as (? & _ & HN)). destruct x5 as [name q]. injection HN as <-. cbn. split; [apply from_bytes; exact P3|reflexivity].
  - split; [exact Q1|]. split; [rewrite Q2; constructor|exact BR].
  - destruct (globals_end_spec _ _ _ _ _ GE) as (X1 & X2 & _ & X3). rewrite X1, X2, <- VL. eauto.
Qed.

(** References never start before the first row or column, nor go beyond the last sheet. *)
Lemma opened_good : forall fuel mem base bv rs ov fmt od a es h, workbook mem base bv rs -> 50 <= bv -> bytes mem -> lists codec bv ov None rs es ->
  open_stream fuel mem base ov fmt od = Ok a ->
  let a' := snd (history a h) in
  Forall (good_name (nsheets a')) (name_obj_list a') /\
  forall k i sh a2, perform k a' (SheetByIndex i) = (Ok (Got sh), a2) -> counted (sh_grid (ls_sheet sh)).
Proof.
  intros fuel mem base bv rs ov fmt od a es h W V BM L H a'.
  destruct (opened codec ops lower num8 rk ragged old _ _ _ _ _ _ _ _ _ _ W V L H) as (b0 & I & V0 & LS & LB & O & E1 & _ & _ & E4).
  destruct (history_inv codec num8 rk ragged old b0 mem V0 LS LB h a I) as [I' _].
  assert (NSE : nsheets a' = zlen (filter worksheet es)) by exact (proj2 (c43_listed codec ops lower num8 rk ragged old _ _ _ _ _ _ _ _ _ _ h W V L H)).
  split.
  - destruct I' as (k & sl & E & _). fold a' in E.
    destruct (opened_raw _ _ _ _ _ _ _ _ W V BM O) as (enc & ns & F & EP). unfold name_obj_list. rewrite E. cbn [later with_list set_countries with_shared bk_names].
    unfold names_epilogue in EP. apply bind_ok in EP as (n1 & M & EP). apply bind_ok in EP as (n2 & EV & EP). apply bind_ok in EP as (mp & _ & EP).
    injection EP as EP _. subst n2. rewrite NSE.
    eapply eval_names_good; [apply zlen_nonneg| |exact EV|].
    + cbn [env_of fe_allmap]. rewrite E4. apply Forall_forall. intros x X. apply In_nth_error in X as (j & X).
      assert (ZN : znth (numbering 0 es) (Z.of_nat j) = Some x) by (unfold znth; replace (Z.of_nat j <? 0) with false by lia; rewrite Nat2Z.id; exact X).
      pose proof (zlen_nonneg (filter worksheet es)).
      apply numbering_znth in ZN as (e & E' & EX). destruct (worksheet e) eqn:WS; [|lia].
      assert (WN : worksheet_number es (Z.of_nat j) x) by (exists e; auto). exact (proj2 (proj2 (number_sheet _ _ _ WN))).
    + apply mapM_Forall2 in M. clear - F M. induction M as [|n n' ns ns' Q M IH]; constructor; apply Forall_cons_iff in F as [[F1 F2] F3]; [|auto].
      apply bind_ok in Q as (k & _ & Q). injection Q as <-. split; cbn; [exact F1|rewrite F2; constructor].
  - intros k i sh a2 P. destruct (perform_inv codec num8 rk ragged old b0 mem V0 LS LB _ _ _ _ _ I' P) as [_ [(b' & s0 & G & C) _]].
    unfold BookApi.get_sheet in G. apply bind_ok in G as (? & _ & G). apply bind_ok in G as ([? ?] & _ & G). apply bind_ok in G as (? & _ & G).
    apply bind_ok in G as ([g s1] & LD & G). apply bind_ok in G as (? & _ & G). injection G as _ ->.
    unfold BookApi.load in LD. replace (bk_bv b0 <=? 45) with false in LD by lia. apply bind_ok in LD as (? & _ & LD). cbv zeta in LD.
    apply bind_ok in LD as (sd & R & LD). injection LD as _ <-. apply read_counted in R.
    assert (CG := f_equal (fun x => sh_grid (snd x)) C). cbn in CG. rewrite CG. exact R.
Qed.

Lemma only_ref_spec : forall ns (n : nameobj N), good_name ns n ->
  match only_ref n with
  | Ok (Some b) => reference n b /\ 0 <= b_rlo b /\ 0 <= b_clo b /\ b_shi b <= ns
  | Ok None => ~ valueless n /\ forall b, ~ reference n b
  | Err e => e = TypeError /\ valueless n /\ forall b, ~ reference n b
  end.
Proof.
  intros ns n [_ G]. unfold only_ref, valueless, reference.
  destruct (nm_result n) as [o|] eqn:R.
  2:{ split; [intros (o & Q & _); discriminate|]. intros b (o & rel & Q & _). discriminate. }
  assert (GO : good ns o).
  { unfold nm_result in R. destruct (nm_stack n) as [|x [|y l]]; try discriminate. injection R as ->. apply Forall_cons_iff in G as [G _]. exact G. }
  destruct (okind_eqb (o_kind o) oREF) eqn:K; cbn [negb].
  2:{ assert (NK : o_kind o <> oREF) by (intros E; rewrite E in K; discriminate).
      split; [intros (o' & Q & E & _)|intros b (o' & rel & Q & E & _)]; injection Q as <-; contradiction. }
  assert (KO : o_kind o = oREF) by (destruct (o_kind o); cbn in K; congruence). specialize (GO KO).
  destruct (o_value o) as [| | |[|[bx rel] [|r2 l]]] eqn:VO; try contradiction.
  - split; [reflexivity|]. split; [exists o; auto|]. intros b (o' & rel & Q & _ & E). injection Q as <-. rewrite VO in E. discriminate.
  - split; [intros (o' & Q & _ & E)|intros b (o' & rel & Q & _ & E)]; injection Q as <-; rewrite VO in E; discriminate.
  - apply Forall_cons_iff in GO as [(G1 & G2 & G3) _]. cbn [r_box] in *. split; [exists o, rel; auto|]. auto.
  - split; [intros (o' & Q & _ & E)|intros b (o' & rel' & Q & _ & E)]; injection Q as <-; rewrite VO in E; discriminate.
Qed.

Lemma reference_unique : forall (n : nameobj N) b b', reference n b -> reference n b' -> b = b'.
Proof. intros n b b' (o & rel & R & _ & V) (o' & rel' & R' & _ & V'). congruence. Qed.

Lemma sheet_by_index : forall k a i, m_sheet_by_index codec num8 rk ragged old k a i =
  match perform k a (SheetByIndex i) with
  | (Ok (Got sh), a) => (Ok sh, a)
  | (Ok _, a) => (Err XLRDError, a)
  | (Err e, a) => (Err e, a)
  end.
Proof. intros k a i. cbn [BookApi.perform]. unfold got. destruct (m_sheet_by_index _ _ _ _ _ _ _ _) as [[sh|e] a1]; reflexivity. Qed.

Lemma perform_got : forall k a i, match perform k a (SheetByIndex i) with (Ok (Got _), _) | (Err _, _) => True | _ => False end.
Proof. intros k a i. cbn [BookApi.perform]. unfold got. destruct (m_sheet_by_index _ _ _ _ _ _ _ _) as [[sh|e] a1]; exact I. Qed.

Lemma clip_common : forall b nr nc, 0 <= b_rlo b -> 0 <= b_clo b -> 0 <= nr -> 0 <= nc ->
  exists r0 r1 c0 c1, clip b nr nc = Ok (r0, r1, c0, c1) /\ common r0 r1 (b_rlo b) (b_rhi b) nr /\ common c0 c1 (b_clo b) (b_chi b) nc.
Proof.
  intros b nr nc R C NR NC. unfold clip. cbv zeta.
  exists (Z.min (b_rlo b) nr), (Z.max (Z.min (b_rlo b) nr) (Z.min (b_rhi b) nr)), (Z.min (b_clo b) nc), (Z.max (Z.min (b_clo b) nc) (Z.min (b_chi b) nc)).
  split; [|split; (split; [lia|split; [lia|intros i; lia]])]. unfold guard.
  replace (_ && _ && _) with true by lia. cbn [bind]. replace (_ && _ && _) with true by lia. reflexivity.
Qed.

(** An area of one worksheet: the sheet is that of sheet_by_index, with the error of that if
    there is one, and the clipped bounds are what the area and the sheet have in common. *)
Theorem c45_area2d : forall fuel mem base bv rs override fmt on_demand a es h k (n : nameobj N) b,
  workbook mem base bv rs -> 50 <= bv -> bytes mem -> lists codec bv override None rs es ->
  open_stream fuel mem base override fmt on_demand = Ok a ->
  let a' := snd (history a h) in
  In n (name_obj_list a') -> area n b ->
  b_slo b < nsheets a' /\
  match perform k a' (SheetByIndex (b_slo b)) with
  | (Ok (Got sh), a2) =>
      name_area2d k a' n false = (Ok (sh, (b_rlo b, b_rhi b, b_clo b, b_chi b)), a2) /\
      exists r0 r1 c0 c1, name_area2d k a' n true = (Ok (sh, (r0, r1, c0, c1)), a2) /\
        common r0 r1 (b_rlo b) (b_rhi b) (g_nrows (sh_grid (ls_sheet sh))) /\
        common c0 c1 (b_clo b) (b_chi b) (g_ncols (sh_grid (ls_sheet sh)))
  | (Err e, a2) => forall clipped, name_area2d k a' n clipped = (Err e, a2)
  | _ => False
  end.
Proof.
  intros fuel mem base bv rs ov fmt od a es h k n b W V BM L H a' IN (RF & S0 & S1).
  destruct (opened_good _ _ _ _ _ _ _ _ _ _ h W V BM L H) as [G CT]. fold a' in G, CT. rewrite Forall_forall in G.
  pose proof (only_ref_spec _ _ (G n IN)) as OR. unfold BookNames.name_area2d.
  destruct (only_ref n) as [[b'|]|e] eqn:Q; [|destruct OR as [_ NR]; destruct (NR b RF)|destruct OR as (_ & _ & NR); destruct (NR b RF)].
  destruct OR as (RF' & R0 & C0 & SH). rewrite (reference_unique _ _ _ RF' RF) in *. clear b' RF'.
  split; [lia|]. replace ((0 <=? b_slo b) && (b_slo b =? b_shi b - 1)) with true by lia.
  rewrite !sheet_by_index. pose proof (perform_got k a' (b_slo b)) as PG. specialize (CT k (b_slo b)).
  destruct (perform k a' (SheetByIndex (b_slo b))) as [[[sh| | |]|e] a2]; try destruct PG.
  - split; [reflexivity|]. cbv zeta. destruct (CT _ _ eq_refl) as [CR CC].
    destruct (clip_common b _ _ R0 C0 CR CC) as (r0 & r1 & c0 & c1 & -> & X & Y). exists r0, r1, c0, c1. auto.
  - intros clipped. reflexivity.
Qed.

(** A name that is no such area: the documented error, or TypeError when it is a reference
    of which the value is not known. *)
Theorem c46_area2d : forall fuel mem base bv rs override fmt on_demand a es h k (n : nameobj N) clipped,
  workbook mem base bv rs -> 50 <= bv -> bytes mem -> lists codec bv override None rs es ->
  open_stream fuel mem base override fmt on_demand = Ok a ->
  let a' := snd (history a h) in
  In n (name_obj_list a') -> (forall b, ~ area n b) ->
  (valueless n -> name_area2d k a' n clipped = (Err TypeError, a')) /\
  (~ valueless n -> name_area2d k a' n clipped = (Err XLRDError, a')).
Proof.
  intros fuel mem base bv rs ov fmt od a es h k n clipped W V BM L H a' IN NA.
  destruct (opened_good _ _ _ _ _ _ _ _ _ _ h W V BM L H) as [G _]. fold a' in G. rewrite Forall_forall in G.
  pose proof (only_ref_spec _ _ (G n IN)) as OR. unfold BookNames.name_area2d.
  destruct (only_ref n) as [[b|]|e] eqn:Q.
  - destruct OR as (RF & _). split; [intros (o & R & K & X); destruct RF as (o' & rel & R' & _ & X'); congruence|]. intros _.
    destruct ((0 <=? b_slo b) && (b_slo b =? b_shi b - 1)) eqn:B; [|reflexivity]. destruct (NA b). split; [exact RF|lia].
  - destruct OR as [NV _]. split; [intros X; contradiction|reflexivity].
  - destruct OR as (-> & VL & _). split; [reflexivity|intros X; contradiction].
Qed.

(** A reference to one cell: that cell of the sheet of sheet_by_index. *)
Theorem c46_cell : forall fuel mem base bv rs override fmt on_demand a es h k (n : nameobj N) b,
  workbook mem base bv rs -> 50 <= bv -> bytes mem -> lists codec bv override None rs es ->
  open_stream fuel mem base override fmt on_demand = Ok a ->
  let a' := snd (history a h) in
  In n (name_obj_list a') -> one_cell n b ->
  b_slo b < nsheets a' /\
  match perform k a' (SheetByIndex (b_slo b)) with
  | (Ok (Got sh), a2) => name_cell k a' n = (sheet_cell a2 sh (b_rlo b) (b_clo b), a2)
  | (Err e, a2) => name_cell k a' n = (Err e, a2)
  | _ => False
  end.
Proof.
  intros fuel mem base bv rs ov fmt od a es h k n b W V BM L H a' IN ((RF & S0 & S1) & R1 & C1).
  destruct (opened_good _ _ _ _ _ _ _ _ _ _ h W V BM L H) as [G _]. fold a' in G. rewrite Forall_forall in G.
  pose proof (only_ref_spec _ _ (G n IN)) as OR. unfold BookNames.name_cell.
  destruct (only_ref n) as [[b'|]|e] eqn:Q; [|destruct OR as [_ NR]; destruct (NR b RF)|destruct OR as (_ & _ & NR); destruct (NR b RF)].
  destruct OR as (RF' & R0 & C0 & SH). rewrite (reference_unique _ _ _ RF' RF) in *. clear b' RF'.
  split; [lia|]. replace (_ && _ && _ && _) with true by lia.
  rewrite !sheet_by_index. pose proof (perform_got k a' (b_slo b)) as PG.
  destruct (perform k a' (SheetByIndex (b_slo b))) as [[[sh| | |]|e] a2]; try destruct PG; reflexivity.
Qed.

Theorem c46_not_cell : forall fuel mem base bv rs override fmt on_demand a es h k (n : nameobj N),
  workbook mem base bv rs -> 50 <= bv -> bytes mem -> lists codec bv override None rs es ->
  open_stream fuel mem base override fmt on_demand = Ok a ->
  let a' := snd (history a h) in
  In n (name_obj_list a') -> (forall b, ~ one_cell n b) ->
  (valueless n -> name_cell k a' n = (Err TypeError, a')) /\
  (~ valueless n -> name_cell k a' n = (Err XLRDError, a')).
Proof.
  intros fuel mem base bv rs ov fmt od a es h k n W V BM L H a' IN NA.
  destruct (opened_good _ _ _ _ _ _ _ _ _ _ h W V BM L H) as [G _]. fold a' in G. rewrite Forall_forall in G.
  pose proof (only_ref_spec _ _ (G n IN)) as OR. unfold BookNames.name_cell.
  destruct (only_ref n) as [[b|]|e] eqn:Q.
  - destruct OR as (RF & _). split; [intros (o & R & K & X); destruct RF as (o' & rel & R' & _ & X'); congruence|]. intros _.
    destruct ((0 <=? b_slo b) && (b_slo b =? b_shi b - 1) && (b_rlo b =? b_rhi b - 1) && (b_clo b =? b_chi b - 1)) eqn:B; [|reflexivity].
    destruct (NA b). split; [|lia]. split; [exact RF|lia].
  - destruct OR as [NV _]. split; [intros X; contradiction|reflexivity].
  - destruct OR as (-> & VL & _). split; [reflexivity|intros X; contradiction].
Qed.
End Named.
Print Assumptions c45_area2d.
Print Assumptions c46_area2d.
Print Assumptions c46_cell.
Print Assumptions c46_not_cell.

(** A BIFF8 workbook of one worksheet, with a number in its second row and second column,
    and names for that cell, for an area that sticks out of the sheet, for a cell outside
    the sheet, for a reference of value class and for a number. *)
Module Named.
Definition sheet (posn name : Z) : list Z := le_enc 4 posn ++ [0; 0] ++ [1; 0; name].
Definition cell_codes (token row col : Z) : list Z := [token; 0; 0] ++ le_enc 2 row ++ le_enc 2 col.
Definition area_codes : list Z := [0x3b; 0; 0] ++ le_enc 2 0 ++ le_enc 2 9 ++ le_enc 2 1 ++ le_enc 2 9.
Definition definitions : list definition :=
  [mk_def 0 [65] 0 0 7 (cell_codes 0x3a 1 1); mk_def 0 [66] 0 0 11 area_codes; mk_def 0 [67] 0 0 7 (cell_codes 0x3a 5 5);
   mk_def 0 [68] 0 0 7 (cell_codes 0x5a 1 1); mk_def 0 [69] 0 0 3 [0x1e; 1; 0]].
Definition body (d : definition) (c : Z) : list Z := name_head d 0 1 ++ [0; 0; 0; 0] ++ us_rest (Defs.char c) ++ d_formula d.
Definition records : list (Z * list Z) :=
  [(0x85, sheet 184 65); (0x1ae, [1; 0; 1; 4]); (0x17, [1; 0; 0; 0; 0; 0; 0; 0])] ++
  map (pair 0x18) (map (fun '(d, c) => body d c) (List.combine definitions [65; 66; 67; 68; 69])).
Definition bof (kind : Z) : list Z := frame (0x0809, [0x00; 0x06; kind; 0; 0; 0; 0xcd; 7]).
Definition file : list Z :=
  bof 5 ++ frames records ++ frame (0x0a, []) ++ bof 0x10 ++ frame (0x0203, [1; 0; 1; 0; 0; 0] ++ [0; 0; 0; 0; 0; 0; 0xf0; 0x3f]) ++ frame (0x0a, []).
Definition entries : list entry := [mk_entry 184 0 0 [65]].
Notation codec := (fun _ b => Ok b).
Notation old := (fun _ _ _ _ _ => Err XLRDError).
Notation opened :=
  (open_stream codec int_ops Defs.lower (fun _ => 7) (fun _ => Ok 0) false old 50 file 0 None false true).
Notation cell := (name_cell codec (fun _ => 7) (fun _ => Ok 0) false old (0, 0)).
Notation area2d := (name_area2d codec (fun _ => 7) (fun _ => Ok 0) false old (0, 0)).
End Named.

Lemma c45_run : match Named.opened with
      | Ok a => map nm_stack (name_obj_list a) = [
          [mk_operand oREF (VRefs [mk_ref (mk_box 0 1 1 2 1 2) (repeat false 6)]) 90 (s2l "A!$B$2")];
          [mk_operand oREF (VRefs [mk_ref (mk_box 0 1 0 10 1 10) (repeat false 6)]) 90 (s2l "A!$B$1:$J$10")];
          [mk_operand oREF (VRefs [mk_ref (mk_box 0 1 5 6 5 6) (repeat false 6)]) 90 (s2l "A!$F$6")];
          [mk_operand oREF VNone 90 (s2l "A!$B$2")]; [mk_operand oNUM (VNumber 1) 90 (s2l "1.0")]] /\
        map (fun n => fst (Named.cell a n)) (name_obj_list a) = [Ok (2, VNum 7, None); Err XLRDError; Err IndexError; Err TypeError; Err XLRDError] /\
        map (fun n => match fst (Named.area2d a n true) with Ok (_, r) => Ok r | Err e => Err e end) (name_obj_list a) =
          [Ok (1, 2, 1, 2); Ok (0, 2, 1, 2); Ok (2, 2, 2, 2); Err TypeError; Err XLRDError]
      | Err _ => False end.
Proof. vm_compute. repeat split. Qed.

(** The names, in order: for each, what kind it is and what cell() and area2d() give. *)
Example c45_hypotheses :
  workbook Named.file 0 80 Named.records /\ bytes Named.file /\ lists Named.codec 80 None None Named.records Named.entries /\
  match Named.opened with
  | Ok a => exists n1 n2 n3 n4 n5, name_obj_list a = [n1; n2; n3; n4; n5] /\
      one_cell n1 (mk_box 0 1 1 2 1 2) /\ area n2 (mk_box 0 1 0 10 1 10) /\ one_cell n3 (mk_box 0 1 5 6 5 6) /\ valueless n4 /\
      nm_result n5 <> None /\ ~ valueless n5 /\ (forall b, ~ area n5 b) /\
      map (fun n => fst (Named.cell a n)) [n1; n2; n3; n4; n5] =
        [Ok (2, VNum 7, None); Err XLRDError; Err IndexError; Err TypeError; Err XLRDError] /\
      map (fun n => match fst (Named.area2d a n true) with Ok (_, r) => Ok r | Err e => Err e end) [n1; n2; n3; n4; n5] =
        [Ok (1, 2, 1, 2); Ok (0, 2, 1, 2); Ok (2, 2, 2, 2); Err TypeError; Err XLRDError]
  | Err _ => False
  end.
Proof.
  split; [|split; [|split]].
  - exists 12, [], (skipn 184 Named.file). split; [vm_compute; reflexivity|]. split; [repeat constructor; cbn; lia|]. split; [reflexivity|].
    split; [exists (firstn 12 Named.file); split; vm_compute; reflexivity|]. repeat constructor; cbn; discriminate.
  - unfold bytes. apply Forall_forall. intros b B.
    assert (F : forallb (fun b => (0 <=? b) && (b <? 256)) Named.file = true) by (vm_compute; reflexivity).
    rewrite forallb_forall in F. specialize (F b B). lia.
  - apply L_sheet.
    { pose proof (Biff8 Named.codec 80 None None (mk_entry 184 0 0 [65]) (Defs.char 65) []) as Q.
      apply Q; clear Q; [lia|repeat split; cbn; lia| |reflexivity|reflexivity].
      unfold us_ok, text; cbn; repeat split; try (intros _); repeat constructor; try lia. }
    repeat (apply L_other; [lia|lia|]). apply L_nil.
  - pose proof c45_run as M. destruct Named.opened as [a|]; [|destruct M].
    destruct M as (S & C & A).
    destruct (name_obj_list a) as [|n1 [|n2 [|n3 [|n4 [|n5 [|]]]]]]; try discriminate. exists n1, n2, n3, n4, n5.
    cbn [map] in S. injection S as S1 S2 S3 S4 S5. unfold one_cell, area, reference, valueless, nm_result. rewrite S1, S2, S3, S4, S5.
    split; [reflexivity|]. split; [split; [split; [eexists _, _; split; [reflexivity|split; reflexivity]|cbn; lia]|cbn; lia]|]. split; [split; [eexists _, _; split; [reflexivity|split; reflexivity]|cbn; lia]|].
    split; [split; [split; [eexists _, _; split; [reflexivity|split; reflexivity]|cbn; lia]|cbn; lia]|]. split; [eexists; split; [reflexivity|split; reflexivity]|]. split; [discriminate|].
    split; [intros (o & E & _ & V); injection E as <-; discriminate|].
    split; [intros b ((o & rel & E & _ & V) & _); injection E as <-; discriminate|]. split; [exact C|exact A].
Qed.

(** The documented XLRDError is not the only one: TypeError for a reference without a value,
    IndexError for a cell outside the sheet. *)
Theorem c46_documented_error_refuted :
  exists codec ops lower num8 rk old (a : api (N := Z)) mem rs es n m,
    workbook mem 0 80 rs /\ bytes mem /\ lists codec 80 None None rs es /\
    open_stream codec ops lower num8 rk false old 50 mem 0 None false true = Ok a /\
    In n (name_obj_list a) /\ In m (name_obj_list a) /\
    fst (name_cell codec num8 rk false old (0, 0) a n) = Err TypeError /\
    fst (name_area2d codec num8 rk false old (0, 0) a n true) = Err TypeError /\
    fst (name_cell codec num8 rk false old (0, 0) a m) = Err IndexError.
Proof.
  destruct c45_hypotheses as (W & B & L & M).
  destruct Named.opened as [a|] eqn:O; [|destruct M].
  destruct M as (n1 & n2 & n3 & n4 & n5 & NL & _ & _ & _ & _ & _ & _ & _ & C & A).
  exists Named.codec, int_ops, Defs.lower, (fun _ => 7), (fun _ => Ok 0), Named.old, a, Named.file, Named.records, Named.entries, n4, n3.
  split; [exact W|]. split; [exact B|]. split; [exact L|]. split; [exact O|]. rewrite NL. split; [cbn; tauto|]. split; [cbn; tauto|].
  cbn [map] in C, A. injection C as _ _ C3 C4 _. injection A as _ _ _ A4 _. split; [exact C4|]. split; [|exact C3].
  destruct (fst (Named.area2d a n4 true)) as [[? ?]|]; [discriminate|congruence].
Qed.
Print Assumptions c46_documented_error_refuted.
