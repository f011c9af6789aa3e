(** Property theorems C84 and C85 in terms of the records of the file: what a sheet
    of BIFF2 to BIFF4W shows is determined by its own records, and so is what a
    file with such a sheet shows once it has been opened. *)
From Verif Require Import Base BaseFacts Text Strings Framing GridModel GridFacts PropGrid SheetObjects SheetModel SheetFacts
  SheetSteps PropSheet PropRead SheetTrace PropView PropRowCol SheetOwn FormatModel FormatFacts FormulaModel BookModel BookApi PropFormat PropBof
  CompDoc PropFormulaText OldSheet OldXf OldRead OldTrace PropOldSheet PropOldView PropAttrs.

(** ** Specification *)

(** What is shown of the columns, rows, widths and the window, given the records [own] of the sheet
    (see SheetOwn.v) and the XFs of the workbook. *)
Record old_shows {N} (bv : Z) (own : list record) (xfs : list xf) (sh : sheet N) : Prop := {
  osh_cols : forall k, matched (xf_of bv own xfs) (dget Z.eqb (f_cols (sh_fmt sh)) k) (col_state k own);
  osh_rows : forall r, row_matched (xf_of bv own xfs) (dget Z.eqb (f_rows (sh_fmt sh)) r) (row_state r own);
  osh_widths : forall c : config N, c_bv c = bv -> c_fmt c = true -> forall k, 0 <= k < 256 -> computed_column_width c sh k = Ok (old_width bv own k);
  osh_window : let v := sh_view sh in (v_options v, v_first_row v, v_first_col v, v_gridline_rgb v) = window_state own }.

(** A file that consists of one worksheet: BOF, records, EOF, anything. *)
Definition sheet_bytes (op : Z) (body : list Z) (recs : list (Z * list Z)) (t : list Z) : list Z :=
  frame (op, body) ++ frames (recs ++ [(0x0A, [])]) ++ t.

(** ** Proofs *)

(** The codes of COLINFO, COLWIDTH, COLUMNDEFAULT, ROW, WINDOW2, DEFCOLWIDTH, STANDARDWIDTH, GCW and IXFE. *)
Definition old_code (rc : Z) : bool := existsb (Z.eqb rc) [0x7D; 0x24; 0x20; 0x208; 0x8; 0x23E; 0x3E; 0x55; 0x99; 0xAB; 0x44].
Definition olds (rs : list record) : list record := filter (fun r : record => old_code (fst (fst r))) rs.

Lemma olds_cons : forall rc len d rs, olds ((rc, len, d) :: rs) = (if old_code rc then [(rc, len, d)] else []) ++ olds rs.
Proof. intros. unfold olds. cbn [filter fst]. destruct (old_code rc); reflexivity. Qed.

Lemma part_no_old : forall note rc, part_code note rc = true -> old_code rc = false.
Proof.
  intros note rc H. unfold part_code in H. apply orb_true_iff in H as [H|H].
  2: { apply andb_true_iff in H as [_ H]. apply Z.eqb_eq in H as ->. reflexivity. }
  apply existsb_exists in H as (x & I & E). apply Z.eqb_eq in E. subst x. cbn [In] in I. repeat (destruct I as [<-|I]; [reflexivity|]). destruct I.
Qed.
Lemma bof_no_old : forall rc, opens_stream rc = true -> old_code rc = false.
Proof. intros rc H. unfold opens_stream in H. rewrite !orb_true_iff, !Z.eqb_eq in H. destruct H as [[[->| ->]| ->]| ->]; reflexivity. Qed.

Lemma olds_parts : forall note used rs, Forall (fun r : record => part_code note (fst (fst r)) = true) used -> olds (own_records false (used ++ rs)) = olds (own_records false rs).
Proof.
  intros note. induction used as [|[[rc len] d] used IH]; intros rs H; [reflexivity|]. inversion H as [|? ? P H']; subst. cbn [fst] in P.
  destruct (part_not_special _ _ P) as (P1 & P2 & P3). cbn [app own_records]. replace (rc =? 0x0A) with false by lia. rewrite P3.
  rewrite olds_cons, (part_no_old _ _ P). apply IH. exact H'.
Qed.

(** A fold over the records that ignores the other ones. *)
Lemma fold_olds : forall {A} (f : A -> record -> A) tr a, (forall a r, old_code (fst (fst r)) = false -> f a r = a) -> fold_left f (olds tr) a = fold_left f tr a.
Proof.
  intros A f tr a HF. revert a. induction tr as [|[[rc len] d] tr IH]; intros a; [reflexivity|]. rewrite olds_cons. destruct (old_code rc) eqn:E; cbn [app fold_left].
  - apply IH.
  - rewrite HF by exact E. apply IH.
Qed.
Lemma not_old : forall rc, old_code rc = false ->
  rc <> XL_COLINFO /\ rc <> XL_COLWIDTH /\ rc <> XL_COLUMNDEFAULT /\ rc <> XL_ROW /\ rc <> XL_ROW_B2 /\ rc <> XL_WINDOW2 /\ rc <> XL_WINDOW2_B2 /\
  rc <> XL_DEFCOLWIDTH /\ rc <> XL_STANDARDWIDTH /\ rc <> XL_GCW.
Proof. intros rc H. repeat split; intros ->; discriminate H. Qed.

Lemma col_state_olds : forall k tr, col_state k (olds tr) = col_state k tr.
Proof.
  intros k tr. apply fold_olds. intros st [[rc len] d] E. destruct (not_old _ E) as (N1 & N2 & N3 & _). unfold col_rec. cbn [fst] in *.
  replace (rc =? XL_COLINFO) with false by lia. replace (rc =? XL_COLWIDTH) with false by lia. replace (rc =? XL_COLUMNDEFAULT) with false by lia. reflexivity.
Qed.
Lemma row_state_olds : forall k tr, row_state k (olds tr) = row_state k tr.
Proof.
  intros k tr. apply fold_olds. intros st [[rc len] d] E. destruct (not_old _ E) as (_ & _ & _ & N4 & N5 & _). unfold row_rec. cbn [fst] in *.
  replace (rc =? XL_ROW) with false by lia. replace (rc =? XL_ROW_B2) with false by lia. reflexivity.
Qed.
Lemma window_state_olds : forall tr, window_state (olds tr) = window_state tr.
Proof.
  intros tr. apply fold_olds. intros st [[rc len] d] E. destruct (not_old _ E) as (_ & _ & _ & _ & _ & N6 & N7 & _). unfold window_rec. cbn [fst] in *.
  replace (rc =? XL_WINDOW2) with false by lia. replace (rc =? XL_WINDOW2_B2) with false by lia. reflexivity.
Qed.
Lemma last_code_olds : forall code tr, old_code code = true -> last_rec (is_code code) (olds tr) = last_rec (is_code code) tr.
Proof.
  intros code tr HC. apply fold_olds. intros st [[rc len] d] E. cbn [fst] in E. unfold is_code. destruct (Z.eqb_spec rc code) as [->|]; [congruence|reflexivity].
Qed.
Lemma old_width_olds : forall bv tr k, old_width bv (olds tr) k = old_width bv tr k.
Proof.
  intros bv tr k. unfold old_width, global_col, standard_width, default_width. rewrite col_state_olds, !last_code_olds by reflexivity. reflexivity.
Qed.
Lemma ixfe_olds : forall tr i, ixfe_in (olds tr) i <-> ixfe_in tr i.
Proof.
  intros tr i. unfold ixfe_in, olds. split; intros (len & d & I & B); exists len, d; (split; [|exact B]); [apply filter_In in I; tauto|].
  apply filter_In. split; [exact I|reflexivity].
Qed.
Lemma xf_of_olds : forall bv tr xfs src i, xf_of bv (olds tr) xfs src i <-> xf_of bv tr xfs src i.
Proof.
  intros bv tr xfs src i. unfold xf_of. cbv zeta. destruct src as [|j|j|a]; try reflexivity.
  - destruct (j =? 63); [rewrite ixfe_olds|]; reflexivity.
  - split; (intros [H|(a0 & l & E & V & H)]; [left; exact H|right; exists a0, l; split; [exact E|split; [exact V|]]]);
      (destruct (a0 mod 64 =? 63); [apply ixfe_olds; exact H|exact H]).
Qed.
Lemma shows_olds : forall {N} bv tr own xfs (sh : sheet N), olds tr = olds own -> old_shows bv tr xfs sh -> old_shows bv own xfs sh.
Proof.
  intros N bv tr own xfs sh E [S1 S2 S3 S4].
  assert (X : forall src i, xf_of bv tr xfs src i -> xf_of bv own xfs src i) by (intros src i H; apply xf_of_olds; rewrite <- E; apply xf_of_olds; exact H).
  constructor.
  - intros k. rewrite <- col_state_olds, <- E, col_state_olds. eapply matched_weaken; [exact X|apply S1].
  - intros r. rewrite <- row_state_olds, <- E, row_state_olds. eapply row_weaken; [exact X|apply S2].
  - intros c C1 C2 k Hk. rewrite <- old_width_olds, <- E, old_width_olds. apply S3; assumption.
  - rewrite <- window_state_olds, <- E, window_state_olds. exact S4.
Qed.

Section OldOwn.
Context {N : Type}.
Variable codec : list Z -> list Z -> result (list Z).
Variable num8 : list Z -> N.
Variable rk : list Z -> result N.
Variable of_int : Z -> N.
Variable ragged : bool.
Notation ost := (@ost N).
Notation cfg := (cfg codec num8 rk ragged).
Notation old_step := (old_step codec num8 rk of_int ragged).
Notation oran := (oran codec num8 rk of_int ragged).
Notation old_read := (old_read codec num8 rk of_int ragged).

Lemma Parts_string_record : forall note, Parts note string_record.
Proof.
  intros note rs a rs' H. unfold string_record in H. destruct rs as [|[[rc len] d] rs]; [discriminate|]. cbn [next bind] in H.
  destruct ((rc =? XL_STRING) || (rc =? XL_STRING_B2)) eqn:E1.
  - injection H as _ <-. exists [(rc, len, d)]. split; [reflexivity|]. constructor; [exact (string_part _ _ E1)|constructor].
  - apply bind_ok in H as (x & H1 & H).
    destruct rs as [|[[rc3 len3] d3] rs]; [discriminate|]. cbn [next bind] in H.
    destruct ((rc3 =? XL_STRING) || (rc3 =? XL_STRING_B2)) eqn:E3; [|discriminate]. injection H as _ <-.
    exists [(rc, len, d); (rc3, len3, d3)]. split; [reflexivity|].
    constructor; [|constructor; [exact (string_part _ _ E3)|constructor]]. clear - H1. cbn [fst].
    destruct (Z.eqb_spec rc XL_ARRAY) as [->|]; [reflexivity|]. destruct (Z.eqb_spec rc XL_SHRFMLA) as [->|]; [reflexivity|].
    destruct (Z.eqb_spec rc XL_TABLEOP) as [->|]; [reflexivity|]. destruct (Z.eqb_spec rc XL_TABLEOP2) as [->|]; [reflexivity|].
    destruct (Z.eqb_spec rc XL_ARRAY2) as [->|]; [reflexivity|]. destruct (Z.eqb_spec rc XL_TABLEOP_B2) as [->|]; [reflexivity|]. discriminate.
Qed.

Lemma Parts_o_formula : forall note bv s d, Parts note (fun rs => o_formula codec num8 rk ragged bv s d rs).
Proof.
  intros note bv s d. unfold o_formula. do 3 (apply Parts_const; intros ?). apply Parts_const; intros [[s1 xf] res].
  destruct (list_eqb _ _); [|apply Parts_const; intros; apply Parts_ret]. apply Parts_const; intros fb.
  destruct (fb =? 0).
  { apply (Parts_bind _ string_record (fun data2 rs => let lenlen := if bv >=? 30 then 2 else 1 in do nexp <- unpack_le lenlen data2 0; do s <- os_ensure codec s1;
      do (strg, rs) <- string_loop (cfg s) rs data2 lenlen nexp 0 []; do s <- o_put codec num8 rk ragged s _ _ (Some XL_CELL_TEXT) (VText strg) xf; Ok (s, rs)) (Parts_string_record _)).
    intros data2. cbv zeta. do 2 (apply Parts_const; intros ?).
    apply (Parts_bind _ (fun rs => string_loop _ rs data2 _ _ 0 []) (fun strg rs => do s <- o_put codec num8 rk ragged _ _ _ (Some XL_CELL_TEXT) (VText strg) xf; Ok (s, rs)) (Parts_string_loop _ _ _ _ _ _ _)).
    intros strg. apply Parts_const; intros. apply Parts_ret. }
  destruct (fb =? 1); [do 2 (apply Parts_const; intros ?); apply Parts_ret|]. destruct (fb =? 2); [do 2 (apply Parts_const; intros ?); apply Parts_ret|].
  destruct (fb =? 3); [apply Parts_const; intros; apply Parts_ret|]. apply Parts_err.
Qed.

Lemma Parts_o_step : forall s rc len d, opens_stream rc = false -> Parts (rc =? XL_NOTE) (fun rs => o_step codec num8 rk ragged s rc len d rs).
Proof.
  intros s rc len d HB rs s' rs' H. unfold o_step in H. apply bind_ok in H as ([sh r1] & H1 & H). injection H as _ <-. exact (step_takes _ _ _ _ _ _ _ _ HB H1).
Qed.

Lemma old_takes : forall bv s rc len d rs s' rs', opens_stream rc = false -> old_step bv s rc len d rs = Ok (s', rs') ->
  exists used, rs = used ++ rs' /\ Forall (fun r : record => part_code (rc =? XL_NOTE) (fst (fst r)) = true) used.
Proof.
  intros bv s rc len d rs s' rs' HB.
  enough (P : Parts (rc =? XL_NOTE) (fun rs => old_step bv s rc len d rs)) by exact (P rs s' rs').
  assert (PO : forall s, Parts (rc =? XL_NOTE) (fun rs => o_step codec num8 rk ragged s rc len d rs)) by (intros s0; apply Parts_o_step; exact HB).
  assert (PS : forall (c : config N) sh, Parts (rc =? XL_NOTE) (fun rs => step c sh rc len d rs)) by (intros c sh r x r' H; exact (step_takes _ _ _ _ _ _ _ _ HB H)).
  unfold OldSheet.old_step. remember (rc =? XL_NOTE) as note eqn:EN. clear EN. cbv zeta.
  repeat match goal with
  | |- Parts _ (fun rs => if is_formula_code _ then _ else _) => destruct (is_formula_code rc)
  | |- Parts _ (fun rs => o_formula _ _ _ _ _ _ _ rs) => apply Parts_o_formula
  | |- Parts _ (fun rs => o_step _ _ _ _ _ _ _ _ rs) => apply PO
  | |- Parts _ (fun rs => Err _) => apply Parts_err
  | |- Parts _ (fun rs => Ok (_, rs)) => apply Parts_ret
  | |- Parts _ (fun rs => bind (o_step _ _ _ _ _ _ _ _ rs) _) => apply (Parts_bind _ _ (fun s rs => _) (PO _)); intros ?
  | |- Parts _ (fun rs => bind (step _ _ _ _ _ rs) _) => apply (Parts_bind _ _ (fun s rs => _) (PS _ _)); intros ?
  | |- Parts _ (fun rs => if ?b then _ else _) => destruct b
  | |- Parts _ (fun rs => bind _ _) => apply Parts_const; intros ?
  end.
Qed.

Lemma old_embedded : forall bv s rc len d rs s' rs', opens_stream rc = true -> old_step bv s rc len d rs = Ok (s', rs') -> skip_to_eof rs = Ok rs'.
Proof.
  intros bv s rc len d rs s' rs' HB H.
  assert (E : old_step bv s rc len d rs = o_step codec num8 rk ragged s rc len d rs).
  { unfold opens_stream in HB. rewrite !orb_true_iff, !Z.eqb_eq in HB. destruct HB as [[[->| ->]| ->]| ->]; reflexivity. }
  rewrite E in H. unfold o_step in H. apply bind_ok in H as ([sh r1] & H1 & H). injection H as _ <-. exact (step_embedded _ _ _ _ _ _ _ _ HB H1).
Qed.

Lemma oran_own : forall bv s rs tr s' len d rest, oran bv s rs tr s' ((XL_EOF, len, d) :: rest) -> olds tr = olds (own_records false rs).
Proof.
  intros bv s rs tr s' len d rest H. remember ((XL_EOF, len, d) :: rest) as e eqn:EE. induction H as [|s rc ln dd rs s1 rs1 tr s2 rs2 E S H IH].
  - subst. reflexivity.
  - specialize (IH EE). cbn [own_records]. change XL_EOF with 0x0A in E. replace (rc =? 0x0A) with false by lia.
    rewrite olds_cons, IH. destruct (opens_stream rc) eqn:HB.
    + rewrite (bof_no_old _ HB). apply old_embedded in S; [|exact HB]. rewrite (own_embedded _ _ S). reflexivity.
    + destruct (old_takes _ _ _ _ _ _ _ _ HB S) as (u & -> & U). rewrite olds_cons, (olds_parts _ _ _ U). reflexivity.
Qed.

Lemma oran_complete : forall bv s rs tr s' rs', oran bv s rs tr s' rs' -> complete false rs -> framed tr.
Proof.
  intros bv s rs tr s' rs' H. induction H as [|s rc ln dd rs s1 rs1 tr s2 rs2 E S H IH]; intros C; [constructor|].
  cbn [complete negb andb] in C. change XL_EOF with 0x0A in E. replace (rc =? 0x0A) with false in C by lia. destruct C as [C1 C].
  constructor; [exact C1|]. apply IH. destruct (opens_stream rc) eqn:HB.
  - exact (complete_embedded _ _ (old_embedded _ _ _ _ _ _ _ _ HB S) C).
  - destruct (old_takes _ _ _ _ _ _ _ _ HB S) as (u & -> & U). exact (complete_parts _ _ _ U C).
Qed.

Lemma says_shows : forall bv tr (s1 : ost) g, In bv [20; 21; 30; 40; 45] -> old_says bv tr s1 ->
  old_shows bv tr (b_xfs (os_fmt s1)) (with_grid (os_sheet s1) g).
Proof. clear codec num8 rk of_int ragged.
  intros bv tr s1 g KV [O1 O2 O3 O4 [W1 W2 W3]]. constructor.
  - intros k. eapply matched_weaken; [|exact (ag_info _ _ _ O2 k)]. intros src i. apply (xf_found bv tr s1). exact (ba_attr _ _ _ _ O1).
  - intros r. eapply row_weaken; [|exact (O3 r)]. intros src i. apply (xf_found bv tr s1). exact (ba_attr _ _ _ _ O1).
  - intros c C1 C2 k Hk. unfold computed_column_width, req_fmt_info. rewrite C1, C2. cbn [guard bind with_grid sh_fmt]. cbv zeta. rewrite W1, W2.
    assert (match option_map (fun d => u16_at d 0) (last_rec (is_code XL_DEFCOLWIDTH) tr) with Some w => w * 256 | None => 8 * 256 end = default_width tr) as ->.
    { unfold default_width. destruct (last_rec (is_code XL_DEFCOLWIDTH) tr); cbn [option_map]; lia. }
    assert (OWN : match dget Z.eqb (f_cols (sh_fmt (os_sheet s1))) k with Some ci => Ok (ci_width ci) | None => Ok (default_width tr) end =
      Ok (or_else (option_map cs_width (col_state k tr)) (default_width tr))).
    { pose proof (ag_info _ _ _ O2 k) as M. destruct (dget Z.eqb (f_cols (sh_fmt (os_sheet s1))) k), (col_state k tr); cbn [matched] in M; try contradiction; [|reflexivity].
      destruct M as (M & _). cbn [option_map or_else]. rewrite M. reflexivity. }
    rewrite OWN. unfold old_width, standard_width, global_col. cbn [In] in KV. replace (bv >=? 80) with false by lia.
    rewrite Z.geb_leb. destruct (40 <=? bv).
    + pose proof (W3 k Hk) as HW. apply py_index_znth in HW; [|lia]. rewrite HW. cbn [bind].
      destruct (last_rec (is_code XL_GCW) tr) as [dd|]; [destruct (gcw_bit dd k)|]; cbn [Z.b2z Z.eqb negb]; try reflexivity.
      destruct (last_rec (is_code XL_STANDARDWIDTH) tr); reflexivity.
    + destruct (bv =? 30); reflexivity.
  - exact O4.
Qed.

(** ** A sheet *)

(** The sheet shows what its own records say; records after its EOF record, in embedded streams or
    that are parts of other records have no influence. *)
Theorem c84_own : forall bv b rs s, fresh bv b -> complete false rs -> b_fmt (bk_fmt b) = true -> old_read b rs = Ok s ->
  old_shows bv (own_records false rs) (b_xfs (os_fmt s)) (os_sheet s).
Proof.
  intros bv b rs s F HG HF H. unfold OldSheet.old_read in H. apply bind_ok in H as (s1 & HL & H). cbv zeta in H. apply bind_ok in H as (g & _ & H).
  rewrite (fr_bv _ _ F) in HL. destruct (loop_oran _ _ _ _ _ _ _ _ _ _ HL) as (tr & len & d & rest & R).
  assert (s = set_sheet s1 (with_grid (os_sheet s1) g)) as -> by congruence.
  apply (shows_olds _ tr); [exact (oran_own _ _ _ _ _ _ _ _ R)|]. refine (says_shows bv tr s1 g (fr_known _ _ F) _).
  apply (old_says_oran codec num8 rk of_int ragged _ _ _ _ _ _) with (2 := R) (pre := []); [|exact (oran_complete _ _ _ _ _ _ R HG)|apply old_says_start; assumption].
  pose proof (fr_known _ _ F) as K. cbn [In] in K. lia.
Qed.

Theorem c84_none : forall bv b rs s, fresh bv b -> complete false rs -> b_fmt (bk_fmt b) = false -> old_read b rs = Ok s ->
  f_cols (sh_fmt (os_sheet s)) = [] /\ f_rows (sh_fmt (os_sheet s)) = [].
Proof.
  intros bv b rs s F HG HF H. unfold OldSheet.old_read in H. apply bind_ok in H as (s1 & HL & H). cbv zeta in H. apply bind_ok in H as (g & _ & H).
  rewrite (fr_bv _ _ F) in HL. destruct (loop_oran _ _ _ _ _ _ _ _ _ _ HL) as (tr & len & d & rest & R).
  destruct (oran_nothing _ _ _ _ _ _ _ _ _ _ _ R (oran_complete _ _ _ _ _ _ R HG) HF eq_refl eq_refl) as (_ & K).
  assert (s = set_sheet s1 (with_grid (os_sheet s1) g)) as -> by congruence. exact K.
Qed.

(** ** An opened file *)

Notation old_load := (old_load codec num8 rk of_int ragged).

Lemma opened_records : forall ops lower fuel depth op body bv recs t override fmt od ignore a,
  let file := sheet_bytes op body recs t in
  bytes file -> bof_says body op bv -> bv <= 40 -> bv <> 0 -> 4 <= zlen body <= 20 -> word body 1 = 0x10 -> Forall framable recs ->
  open_workbook_xls codec ops lower num8 rk ragged old_load fuel depth file override fmt od ignore = Ok a ->
  exists b s rest, fresh bv b /\ b_fmt (bk_fmt b) = fmt /\ old_read b (map rec_of recs ++ (0x0A, 0, []) :: rest) = Ok s /\
    a_mem a = None /\ sl_names (bk_sheets (a_book a)) = [s2l "Sheet 1"] /\ bk_fmt (a_book a) = os_fmt s /\
    bk_list (a_book a) = [Some (mk_loaded 0 (s2l "Sheet 1") 0 (os_sheet s))].
Proof.
  intros ops lower fuel depth op body bv recs t override fmt od ignore a file B BS L NZ LB W F H.
  destruct (bof_known _ _ _ BS L NZ) as [KV KO].
  assert (GB : forall wanted, wanted = 5 \/ wanted = 0x10 -> getbof file 0 wanted = Ok (bv, 4 + zlen body)).
  { intros wanted WW. apply c47_getbof; [exact B|lia|]. exists op, body. split.
    { exists [], (frames (recs ++ [(XL_EOF, [])]) ++ t). split; [|reflexivity]. unfold file, sheet_bytes, frame. cbn [fst snd app].
      rewrite <- !app_assoc. reflexivity. }
    split; [exact LB|]. split; [exact BS|]. split; [|lia]. unfold right_stream. rewrite W. right. right. split; [reflexivity|lia]. }
  unfold open_workbook_xls in H. apply bind_ok in H as (? & _ & H). apply bind_ok in H as ((mem & base) & HS & H).
  assert (mem = file /\ base = 0) as [-> ->].
  { unfold find_stream in HS. replace (list_eqb (py_slice file 0 8) SIGNATURE) with false in HS; [cbn [negb] in HS; split; congruence|].
    symmetry. apply not_true_is_false. intros E. apply list_eqb_eq in E.
    assert (E0 : znth (py_slice file 0 8) 0 = Some (op mod 256)).
    { unfold file, sheet_bytes, frame. cbn [fst snd]. rewrite <- !app_assoc. cbn [le_enc app]. destruct body as [|b0 [|b1 [|b2 [|b3 body]]]]; try (exfalso; cbn in LB; lia).
      match goal with |- context [py_slice (?x0 :: ?x1 :: ?x2 :: ?x3 :: (?x4 :: ?x5 :: ?x6 :: ?x7 :: ?l) ++ ?l') 0 8] =>
        change (x0 :: x1 :: x2 :: x3 :: (x4 :: x5 :: x6 :: x7 :: l) ++ l') with ([x0; x1; x2; x3; x4; x5; x6; x7] ++ (l ++ l')) end.
      rewrite py_slice_pre by reflexivity. reflexivity. }
    rewrite E in E0. cbn [In] in KO. clear - E0 KO. vm_compute in E0. destruct KO as [<-|[<-|[<-|[<-|[]]]]]; vm_compute in E0; discriminate E0. }
  unfold open_stream in H. change XL_WORKBOOK_GLOBALS with 5 in H. rewrite (GB 5) in H by (left; reflexivity). cbn [bind] in H.
  apply bind_ok in H as (? & _ & H). apply bind_ok in H as (? & _ & H). apply bind_ok in H as (b0 & HB & H).
  replace (bv <=? 40) with true in H by lia. cbv zeta in H. apply bind_ok in H as (b1 & HG & H). injection H as <-.
  destruct (fresh0 bv 0 fmt override b0 (mk_shst [s2l "Sheet 1"] [0] [0] [] []) KV HB) as [FR FM].
  set (b := with_list _ _) in *.
  change (get_sheets_in codec num8 rk ragged old_load b file [0] = Ok b1) in HG. cbn [get_sheets_in] in HG.
  apply bind_ok in HG as ((b2 & sh) & HG & E). injection E as ->. unfold get_sheet in HG.
  change (py_index (sl_posn (bk_sheets b)) 0) with (@Ok Z 0) in HG. cbn [bind] in HG. change XL_WORKSHEET with 0x10 in HG. rewrite (GB 0x10) in HG by (right; reflexivity). cbn [bind] in HG.
  change (py_index (sl_names (bk_sheets b)) 0) with (@Ok (list Z) (s2l "Sheet 1")) in HG. cbn [bind] in HG.
  apply bind_ok in HG as ((g & sh') & HL & HG). apply bind_ok in HG as (l & HL2 & HG).
  unfold load in HL. rewrite (fr_bv _ _ FR) in HL. replace (bv <=? 45) with true in HL by lia.
  unfold OldSheet.old_load in HL. change (py_index (sl_visibility (bk_sheets b)) 0) with (@Ok Z 0) in HL. cbn [bind] in HL.
  apply bind_ok in HL as (s & HR & HL). cbv zeta in HL.
  assert (exists rest, stream file (4 + zlen body) = map rec_of recs ++ (0x0A, 0, []) :: rest) as (rest & ES).
  { assert (HF2 : Forall framable (recs ++ [(0x0A, [])])) by (apply Forall_app; split; [exact F|constructor; [split; [cbn [fst]; lia|reflexivity]|constructor]]).
    pose proof (stream_frames (recs ++ [(0x0A, [])]) (frame (op, body)) t HF2 B) as K. rewrite frame_zlen in K. cbn [snd] in K.
    unfold file, sheet_bytes. rewrite K, map_app, <- app_assoc. eexists. reflexivity. }
  change (records_of (S (2 * List.length file)) file (4 + zlen body)) with (stream file (4 + zlen body)) in HR. rewrite ES in HR.
  exists b, s, rest. split; [exact FR|]. split; [exact FM|]. split; [exact HR|].
  injection HL as <- <-. injection HG as <- <-. injection HL2 as <-.
  repeat split.
Qed.

(** Opening a file that consists of a worksheet of BIFF2, BIFF3 or BIFF4 gives a workbook with one sheet,
    which shows what the records of the file say.  Without formatting_info there are no columns or rows. *)
Theorem c84_opened : forall ops lower fuel depth op body bv recs t override fmt od ignore a,
  let file := sheet_bytes op body recs t in
  bytes file -> bof_says body op bv -> bv <= 40 -> bv <> 0 -> 4 <= zlen body <= 20 -> word body 1 = 0x10 ->
  Forall framable recs -> closed false recs ->
  open_workbook_xls codec ops lower num8 rk ragged old_load fuel depth file override fmt od ignore = Ok a ->
  exists sh, bk_list (a_book a) = [Some (mk_loaded 0 (s2l "Sheet 1") 0 sh)] /\
    if fmt then old_shows bv (own_records false (map rec_of recs)) (b_xfs (bk_fmt (a_book a))) sh
    else f_cols (sh_fmt sh) = [] /\ f_rows (sh_fmt sh) = [].
Proof.
  intros ops lower fuel depth op body bv recs t override fmt od ignore a file B BS L NZ LB W F CL H.
  destruct (opened_records _ _ _ _ _ _ _ _ _ _ _ _ _ _ B BS L NZ LB W F H) as (b & s & rest & FR & FM & HR & _ & _ & EF & EL).
  exists (os_sheet s). split; [exact EL|].
  assert (C : complete false (map rec_of recs ++ (0x0A, 0, []) :: rest)).
  { apply complete_closed; [exact CL|]. apply bytes_frames. unfold file, sheet_bytes in B. apply Forall_app in B as [_ B]. apply Forall_app in B as [B _].
    unfold frames in *. rewrite flat_map_app in B. apply Forall_app in B as [B _]. exact B. }
  destruct fmt.
  - rewrite EF, <- (own_closed recs false 0 [] rest CL). exact (c84_own bv b _ s FR C FM HR).
  - destruct (c84_none bv b _ s FR C FM HR) as [K1 K2]. split; assumption.
Qed.

(** The part of [c84_opened] that C85 is about. *)
Theorem c85_opened : forall ops lower fuel depth op body bv recs t override od ignore a,
  let file := sheet_bytes op body recs t in
  let own := own_records false (map rec_of recs) in
  bytes file -> bof_says body op bv -> bv <= 40 -> bv <> 0 -> 4 <= zlen body <= 20 -> word body 1 = 0x10 ->
  Forall framable recs -> closed false recs ->
  open_workbook_xls codec ops lower num8 rk ragged old_load fuel depth file override true od ignore = Ok a ->
  exists sh, bk_list (a_book a) = [Some (mk_loaded 0 (s2l "Sheet 1") 0 sh)] /\
    (forall c : config N, c_bv c = bv -> c_fmt c = true -> forall k, 0 <= k < 256 -> computed_column_width c sh k = Ok (old_width bv own k)) /\
    (v_options (sh_view sh), v_first_row (sh_view sh), v_first_col (sh_view sh), v_gridline_rgb (sh_view sh)) = window_state own.
Proof.
  intros ops lower fuel depth op body bv recs t override od ignore a file own B BS L NZ LB W F CL H.
  destruct (c84_opened _ _ _ _ _ _ _ _ _ _ _ _ _ _ B BS L NZ LB W F CL H) as (sh & E & [_ _ S3 S4]). exists sh. split; [exact E|]. split; assumption.
Qed.
End OldOwn.
Print Assumptions c84_own.
Print Assumptions c84_none.
Print Assumptions c85_opened.
Print Assumptions c84_opened.

(** ** Examples *)

Module ExOwn.
Definition body : list Z := [0; 4; 0x10; 0; 0; 0].
(** COLINFO for columns 3 and 4; a chart with a COLINFO record for column 3 of its own; a FORMULA record with
    its text; WINDOW2. *)
Definition recs : list (Z * list Z) :=
  [(0x7D, [3; 0; 4; 0; 0; 8; 15; 0; 1; 2]);
   (0x409, [0; 4; 0x20; 0; 0; 0]); (0x7D, [3; 0; 3; 0; 0; 9; 15; 0; 0; 0]); (0x0A, []);
   (0x406, [1; 0; 2; 0; 0; 0; 0; 0; 0; 0; 0; 0; 255; 255; 0; 0; 0; 0]); (0x207, [2; 0; 104; 105]);
   (0x23E, [0x36; 2; 7; 0; 3; 0; 10; 20; 30; 0])].
Definition file : list Z := sheet_bytes 0x409 body recs [1; 2; 3].
Definition opened : result (@api Z) :=
  open_workbook_xls (fun _ b => Ok b) int_ops (fun x => x) le_val (fun b => Ok (le_val b)) false (old_load (fun _ b => Ok b) le_val (fun b => Ok (le_val b)) (fun n => n) false)
    300 100 file None true false false.
End ExOwn.

Example c84_opened_hypotheses :
  bytes ExOwn.file /\ bof_says ExOwn.body 0x409 40 /\ 4 <= zlen ExOwn.body <= 20 /\ word ExOwn.body 1 = 0x10 /\ Forall framable ExOwn.recs /\ closed false ExOwn.recs.
Proof.
  split; [unfold bytes; repeat constructor; lia|]. split; [apply Biff4; vm_compute; discriminate|].
  split; [split; vm_compute; discriminate|]. split; [reflexivity|]. split; [|cbn; reflexivity].
  repeat constructor; cbn [fst]; try lia; vm_compute; reflexivity.
Qed.
Example c84_opened_runs : match ExOwn.opened with
  | Ok a => match bk_list (a_book a) with
            | [Some l] => map (fun k => option_map ci_width (dget Z.eqb (f_cols (sh_fmt (ls_sheet l))) k)) [2; 3; 4] = [None; Some 2048; Some 2048] /\
                v_first_row (sh_view (ls_sheet l)) = 7
            | _ => False
            end
  | Err _ => False
  end.
Proof. vm_compute. split; reflexivity. Qed.
