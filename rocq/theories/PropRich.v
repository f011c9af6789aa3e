(** Property theorems C90: the formatting runs of the texts of a worksheet.
    [rich] (PropSheet.v) says which runs the records of an item give to its cell. *)
From Verif Require Import Base BaseFacts Text Strings Utf16 StringFacts PropBytes Framing GridModel GridFacts PropGrid SheetObjects SheetModel SheetFacts SheetSteps
  PropSheet PropRead SstModel PropSst FormatModel FormatFacts PropFormat PropNumType FormulaModel CompDoc BookModel BookFacts PropBof PropEnc BookSheets BookRefs BookApi SheetShare
  BookHistory PropGlobals PropFormulaText PropDemand PropSheetList BookContent BookFormats BookFollow PropWorkbook.

(** ** Specification *)

Definition runlist {N} (sh : sheet N) (cell : Z * Z) : option (list (Z * Z)) := dget pair_eqb (o_rich (sh_obj sh)) cell.

(** Of several runs for a cell, the last. *)
Definition last_runs (l : list ((Z * Z) * list (Z * Z))) (cell : Z * Z) (runs : list (Z * Z)) : Prop :=
  exists p q, l = p ++ (cell, runs) :: q /\ ~ In cell (map fst q).

(** ** Proofs *)

Lemma pair_eqb_eq : forall a b, pair_eqb a b = true <-> a = b.
Proof.
  intros [a1 a2] [b1 b2]. unfold pair_eqb. cbn [fst snd]. rewrite andb_true_iff, !Z.eqb_eq.
  split; [intros [-> ->]; reflexivity|intros H; injection H; auto].
Qed.

Lemma last_runs_get : forall l cell runs, dget pair_eqb (rev l) cell = Some runs <-> last_runs l cell runs.
Proof.
  induction l as [|[k v] l IH] using rev_ind; intros cell runs.
  - split; [discriminate|]. intros ([|? ?] & q & H & _); discriminate.
  - rewrite rev_unit. cbn [dget]. destruct (pair_eqb cell k) eqn:E.
    + apply pair_eqb_eq in E. subst k. split.
      * intros H. injection H as ->. exists l, []. split; [reflexivity|intros []].
      * intros (p & q & H & NI). apply snoc_split in H as [(-> & -> & H)|(q' & -> & H)]; [injection H as ->; reflexivity|].
        exfalso. apply NI. rewrite map_app. apply in_or_app. right. left. reflexivity.
    + rewrite IH. split.
      * intros (p & q & -> & NI). exists p, (q ++ [(k, v)]). split; [rewrite <- app_assoc; reflexivity|]. rewrite map_app. intros H.
        apply in_app_or in H as [H|[H|[]]]; [exact (NI H)|]. cbn [fst] in H. subst k. rewrite (proj2 (pair_eqb_eq cell cell) eq_refl) in E. discriminate.
      * intros (p & q & H & NI). apply snoc_split in H as [(-> & -> & H)|(q' & -> & H)].
        { injection H as <- <-. rewrite (proj2 (pair_eqb_eq cell cell) eq_refl) in E. discriminate. }
        exists p, q'. split; [exact H|]. intros X. apply NI. rewrite map_app. apply in_or_app. left. exact X.
Qed.

(** ** C90 *)

(** rich_text_runlist_map has the runs that the records of the sheet give to its cells. *)
Theorem c90_content : forall {N} (c : config N) countries p items t sh, c_bv c >= 50 ->
  bytes (p ++ frames (flat_map (enc c) items ++ [(XL_EOF, [])]) ++ t) ->
  Forall framable (flat_map (enc c) items) ->
  Forall (item_ok c) items -> dims_first c items ->
  sheet_read c countries (stream (p ++ frames (flat_map (enc c) items ++ [(XL_EOF, [])]) ++ t) (zlen p)) = Ok sh ->
  forall cell runs, runlist sh cell = Some runs <-> last_runs (flat_map (rich c) items) cell runs.
Proof.
  intros N c countries p items t sh HV HB HF OK HD H.
  assert (Forall framable (flat_map (enc c) items ++ [(XL_EOF, [])])) as HF2
    by (apply Forall_app; split; [exact HF|constructor; [split; [cbn [fst]; unfold XL_EOF; lia|reflexivity]|constructor]]).
  rewrite stream_frames in H by assumption.
  rewrite map_app, <- app_assoc in H. cbn [map app] in H. unfold rec_of at 2 in H. cbn [fst snd] in H.
  destruct (sheet_content c countries items _ _ _ sh HV OK HD H) as (_ & _ & K).
  intros cell runs. unfold runlist. rewrite K. apply last_runs_get.
Qed.
Print Assumptions c90_content.

(** The runs by string number: those of the strings that have any. *)
Theorem c90_strings : forall l i r, dget Z.eqb (runs_from 0 l) i = Some r <->
  exists s, znth l i = Some s /\ ss_runs s <> [] /\ r = map snd (ss_runs s).
Proof.
  intros l i r.
  assert (G : forall l j, dget Z.eqb (runs_from j l) i = Some r <-> exists s, znth l (i - j) = Some s /\ ss_runs s <> [] /\ r = map snd (ss_runs s)).
  { clear l. induction l as [|s l IH]; intros j; cbn [runs_from].
    - split; [discriminate|]. intros (s & E & _). apply znth_Some_range in E. cbn in E. lia.
    - assert (LT : forall l j i, i < j -> dget Z.eqb (runs_from j l) i = None).
      { clear. induction l as [|s l IH]; intros j i L; [reflexivity|]. cbn [runs_from]. destruct (ss_runs s) as [|x y].
        - cbn [app]. apply IH. lia.
        - cbn [app dget]. replace (i =? j) with false by lia. apply IH. lia. }
      destruct (Z.eq_dec i j) as [->|NE].
      + rewrite Z.sub_diag, znth_0. destruct (ss_runs s) as [|x y] eqn:E.
        * cbn [app]. rewrite LT by lia. split; [discriminate|]. intros (s' & S & NR & _). injection S as <-. congruence.
        * cbn [app dget]. rewrite Z.eqb_refl. split; [intros H; injection H as <-; exists s; rewrite E; repeat split; discriminate|].
          intros (s' & S & _ & ->). injection S as <-. rewrite E. reflexivity.
      + assert (dget Z.eqb ((match ss_runs s with [] => [] | _ => [(j, map snd (ss_runs s))] end) ++ runs_from (j + 1) l) i = dget Z.eqb (runs_from (j + 1) l) i) as ->.
        { destruct (ss_runs s); [reflexivity|]. cbn [app dget]. replace (i =? j) with false by lia. reflexivity. }
        rewrite IH. destruct (Z_lt_ge_dec i j) as [L|L].
        * split; intros (s' & S & _); apply znth_Some_range in S; lia.
        * rewrite znth_cons by lia. replace (i - j - 1) with (i - (j + 1)) by lia. reflexivity. }
  rewrite G, Z.sub_0_r. reflexivity.
Qed.
Print Assumptions c90_strings.

Section Opened.
Context {N : Type}.
Variable codec : list Z -> list Z -> result (list Z).
Variable ops : numops N.
Variable lower : list Z -> list Z.
Variable num8 : list Z -> N.
Variable rk : list Z -> result N.
Variable ragged : bool.
Notation loaded := (loaded (N := N)).
Notation api := (api (N := N)).
Notation book := (book N loaded).
Variable old : book -> list Z -> Z -> list Z -> Z -> result (shared * loaded).
Notation perform := (perform codec num8 rk ragged old).
Notation history := (history codec num8 rk ragged old).
Notation open_stream := (open_stream codec ops lower num8 rk ragged old).
Notation described := (described codec num8 rk ragged).

Theorem c90_book : forall fuel mem base bv rs override fmt on_demand a es h i j k e sh c items,
  bytes mem -> 0 <= base -> workbook mem base bv rs -> 50 <= bv -> lists codec bv override None rs es ->
  described bv override fmt rs c ->
  open_stream fuel mem base override fmt on_demand = Ok a ->
  let a' := snd (history a h) in let ws := filter worksheet es in
  i = j \/ i = j - zlen ws -> znth ws j = Some e -> 0 <= e_posn e ->
  fst (perform k a' (SheetByIndex i)) = Ok (Got sh) ->
  worksheet_at c mem (e_posn e + base) items -> fits c items ->
  forall cell runs, runlist (ls_sheet sh) cell = Some runs <-> last_runs (flat_map (rich c) items) cell runs.
Proof.
  intros fuel mem base bv rs ov fmt od a es h i j k e sh c items B PB W V L D H a' ws IJ E PE Q WA F cell runs.
  destruct (by_index codec ops lower num8 rk ragged old _ _ _ _ _ _ _ _ _ _ h _ _ k _ _ W V L H IJ E Q) as (b0 & version & pos & countries & s & O & GB & SR & N1 & N2 & S).
  destruct (opened_config codec ops lower num8 rk ragged old _ _ _ _ _ _ _ _ _ _ W V D O) as [C CR].
  assert (P0 : 0 <= e_posn e + base) by lia. destruct (worksheet_read _ _ _ _ _ _ _ B P0 C WA GB) as (pre & t & EM & EP & FR).
  destruct (covered_fits _ _ C items F) as ((F1 & F2 & F3 & F4) & K1 & K2 & K3).
  rewrite <- K1 in EM, FR. pose proof (v_bv _ _ C) as V1. pose proof (d_bv _ _ _ _ _ _ _ _ _ D) as V2.
  assert (V3 : c_bv (config_of codec num8 rk ragged b0) >= 50) by (rewrite V1, V2; lia).
  assert (R : flat_map (rich (config_of codec num8 rk ragged b0)) items = flat_map (rich c) items).
  { clear - C CR. induction items as [|it l IH]; [reflexivity|]. cbn [flat_map]. rewrite IH. f_equal. destruct it; cbn [rich]; rewrite ?CR, ?(v_fmt _ _ C); reflexivity. }
  rewrite EM in SR, B. rewrite <- EP in SR.
  pose proof (c90_content (config_of codec num8 rk ragged b0) countries pre items t s V3 B FR F1 F2 SR cell runs) as K. rewrite R in K.
  assert (S1 : sh_obj (ls_sheet sh) = sh_obj s) by exact (f_equal sh_obj S). unfold runlist in *. rewrite S1. exact K.
Qed.

(** A cell with a shared string: the runs of that string in the SST record. *)
Theorem c90_shared : forall fuel mem base bv rs override on_demand a es h i j k e sh c items before tot l tl after,
  bytes mem -> 0 <= base -> workbook mem base bv rs -> 50 <= bv -> lists codec bv override None rs es ->
  described bv override true rs c -> c_rich c = runs_from 0 (map fst l) ->
  rs = before ++ (0xfc, fst (sst_records tot l tl)) :: map (pair 0x3c) (snd (sst_records tot l tl)) ++ after ->
  open_stream fuel mem base override true on_demand = Ok a ->
  let a' := snd (history a h) in let ws := filter worksheet es in
  i = j \/ i = j - zlen ws -> znth ws j = Some e -> 0 <= e_posn e ->
  fst (perform k a' (SheetByIndex i)) = Ok (Got sh) ->
  worksheet_at c mem (e_posn e + base) items -> fits c items ->
  forall p row col xf n s q x b, items = p ++ ISst row col xf n s :: q -> znth l n = Some (x, b) ->
    (forall it, In it q -> forall cl, In cl (cells c it) -> (s_row cl, s_col cl) <> (row, col)) ->
    (ss_runs x <> [] -> runlist (ls_sheet sh) (row, col) = Some (map snd (ss_runs x))) /\
    (ss_runs x = [] -> (forall it, In it p -> forall cl, In cl (cells c it) -> (s_row cl, s_col cl) <> (row, col)) -> runlist (ls_sheet sh) (row, col) = None).
Proof.
  intros fuel mem base bv rs ov od a es h i j k e sh c items before tot l tl after B PB W V L D CR RS H a' ws IJ E PE Q WA F p row col xf n s q x b IT X NQ.
  pose proof (c90_book _ _ _ _ _ _ _ _ _ _ h _ _ k _ _ _ _ B PB W V L D H IJ E PE Q WA F (row, col)) as G.
  assert (ONE : forall it cell rr, In (cell, rr) (rich c it) -> exists cl, In cl (cells c it) /\ (s_row cl, s_col cl) = cell).
  { intros it cell rr I. destruct it; cbn [rich] in I; try contradiction.
    - destruct (c_fmt c); [|contradiction]. destruct (dget Z.eqb (c_rich c) _) as [[|y z]|]; try contradiction. destruct I as [I|[]].
      injection I as <- <-. eexists. split; [left; reflexivity|reflexivity].
    - destruct I as [I|[]]. injection I as <- <-. eexists. split; [left; reflexivity|reflexivity]. }
  assert (NO : forall m, (forall it, In it m -> forall cl, In cl (cells c it) -> (s_row cl, s_col cl) <> (row, col)) -> ~ In (row, col) (map fst (flat_map (rich c) m))).
  { intros m NM I. apply in_map_iff in I as ([cell rr] & EC & I). cbn [fst] in EC. subst cell. apply in_flat_map in I as (it & I1 & I2).
    destruct (ONE _ _ _ I2) as (cl & C1 & C2). exact (NM it I1 cl C1 C2). }
  assert (DG : dget Z.eqb (c_rich c) n = match ss_runs x with [] => None | _ => Some (map snd (ss_runs x)) end).
  { rewrite CR. destruct (dget Z.eqb (runs_from 0 (map fst l)) n) as [r|] eqn:EQ.
    - apply c90_strings in EQ as (s' & S1 & S2 & ->). rewrite znth_map, X in S1. injection S1 as <-. cbn [fst] in *. destruct (ss_runs x); [contradiction|reflexivity].
    - destruct (ss_runs x) as [|y z] eqn:EX; [reflexivity|]. exfalso. assert (Y : dget Z.eqb (runs_from 0 (map fst l)) n = Some (map snd (ss_runs x))).
      { apply c90_strings. exists x. rewrite znth_map, X. split; [reflexivity|]. rewrite EX. split; [discriminate|reflexivity]. }
      congruence. }
  pose proof (d_fmt _ _ _ _ _ _ _ _ _ D) as FM. subst items. rewrite flat_map_app in G. cbn [flat_map] in G.
  split.
  - intros NR. apply G. exists (flat_map (rich c) p), (flat_map (rich c) q). split; [|exact (NO q NQ)].
    cbn [rich]. rewrite FM, DG. destruct (ss_runs x) as [|y z]; [contradiction|]. cbn [map]. reflexivity.
  - intros ER NP. destruct (runlist (ls_sheet sh) (row, col)) as [rr|]; [|reflexivity]. exfalso. destruct (proj1 (G rr) eq_refl) as (p' & q' & EQ & _).
    cbn [rich] in EQ. rewrite FM, DG, ER in EQ. cbn [app] in EQ.
    assert (I : In (row, col) (map fst (flat_map (rich c) p ++ flat_map (rich c) q))) by (rewrite EQ, map_app; apply in_or_app; right; left; reflexivity).
    rewrite map_app in I. apply in_app_or in I as [I|I]; [exact (NO p NP I)|exact (NO q NQ I)].
Qed.
End Opened.
Print Assumptions c90_book.
Print Assumptions c90_shared.

(** BIFF7 sheets with an RSTRING record, and a number written over it. *)
Definition ex_config (fmt : bool) : config Z := mk_config 70 fmt false [] [] (fun _ => Some 2) (fun b => Ok b) le_val (fun b => Ok (le_val b)) (fun _ => 0).
Definition ex_rich : item (N := Z) := IRString 0 0 0 [2; 0; 72; 105] [72; 105] [(1, 6)].
Definition ex_number : item (N := Z) := INumber 0 0 0 [1; 0; 0; 0; 0; 0; 0; 0].
Definition ex_sheet (fmt : bool) (items : list (item (N := Z))) : result (sheet Z) :=
  sheet_read (ex_config fmt) (0, 0) (map rec_of (flat_map (enc (ex_config fmt)) items ++ [(XL_EOF, [])])).

Example c90_case : Forall (item_ok (ex_config true)) [ex_rich] /\ flat_map (rich (ex_config true)) [ex_rich] = [((0, 0), [(1, 6)])] /\
  match ex_sheet true [ex_rich] with Ok sh => runlist sh (0, 0) = Some [(1, 6)] /\ runlist sh (0, 1) = None | Err _ => False end.
Proof.
  split; [|split; [reflexivity|vm_compute; split; reflexivity]]. constructor; [|constructor]. split; [split; cbn; lia|]. split; [split; cbn; lia|]. split; [split; cbn; lia|].
  split; [exists [72; 105]; repeat split|]. repeat constructor; cbn; lia.
Qed.

(** The documentation says that the map is filled only with formatting_info: not so. *)
Theorem c90_formatting_only_refuted : ~ (forall (c : config Z) countries items sh, c_bv c >= 50 -> c_fmt c = false -> Forall (item_ok c) items -> dims_first c items ->
  sheet_read c countries (map rec_of (flat_map (enc c) items ++ [(XL_EOF, [])])) = Ok sh -> forall cell, runlist sh cell = None).
Proof.
  intros H. assert (X : match ex_sheet false [ex_rich] with Ok sh => runlist sh (0, 0) = Some [(1, 6)] | Err _ => False end) by (vm_compute; reflexivity).
  destruct (ex_sheet false [ex_rich]) as [sh|] eqn:E; [|destruct X].
  rewrite (H (ex_config false) (0, 0) [ex_rich] sh) in X; [discriminate|cbn; lia|reflexivity| |reflexivity|exact E].
  constructor; [|constructor]. split; [split; cbn; lia|]. split; [split; cbn; lia|]. split; [split; cbn; lia|].
  split; [exists [72; 105]; repeat split|]. repeat constructor; cbn; lia.
Qed.
Print Assumptions c90_formatting_only_refuted.

(** Nor is a cell with runs always a text: a later record for the cell leaves them. *)
Theorem c90_text_refuted : ~ (forall (c : config Z) countries items sh r k runs t, c_bv c >= 50 -> c_fmt c = true -> Forall (item_ok c) items -> dims_first c items ->
  sheet_read c countries (map rec_of (flat_map (enc c) items ++ [(XL_EOF, [])])) = Ok sh ->
  runlist sh (r, k) = Some runs -> cell_type (sh_grid sh) r k = Ok t -> t = XL_CELL_TEXT).
Proof.
  intros H. assert (X : match ex_sheet true [ex_rich; ex_number] with Ok sh => runlist sh (0, 0) = Some [(1, 6)] /\ cell_type (sh_grid sh) 0 0 = Ok 2 | Err _ => False end)
    by (vm_compute; split; reflexivity).
  destruct (ex_sheet true [ex_rich; ex_number]) as [sh|] eqn:E; [|destruct X]. destruct X as [X1 X2].
  assert (2 = XL_CELL_TEXT); [|discriminate].
  apply (H (ex_config true) (0, 0) [ex_rich; ex_number] sh 0 0 [(1, 6)] 2); [cbn; lia|reflexivity| |reflexivity|exact E|exact X1|exact X2].
  constructor; [|constructor; [|constructor]].
  - split; [split; cbn; lia|]. split; [split; cbn; lia|]. split; [split; cbn; lia|].
    split; [exists [72; 105]; repeat split|]. repeat constructor; cbn; lia.
  - repeat split; cbn; try lia. discriminate.
Qed.
Print Assumptions c90_text_refuted.

(** The workbook of c75_hypotheses (PropWorkbook) meets the hypotheses of c90_book and c90_shared: its cell (1, 1) has the second shared string. *)
Example c90_shared_case :
  c_rich Small.config = runs_from 0 (map fst Small.shared_strings) /\
  match open_stream (fun _ b => Ok b) int_ops (fun s => s) le_val (fun b => Ok (le_val b)) false (fun _ _ _ _ _ => Err XLRDError) 50 Small.file 0 None true true with
  | Ok a => match fst (perform (fun _ b => Ok b) le_val (fun b => Ok (le_val b)) false (fun _ _ _ _ _ => Err XLRDError) (0, 0) a (SheetByIndex 0)) with
            | Ok (Got sh) => runlist (ls_sheet sh) (1, 1) = Some [(1, 6)] /\ runlist (ls_sheet sh) (1, 0) = None
            | _ => False
            end
  | Err _ => False
  end.
Proof. split; [reflexivity|]. vm_compute. split; reflexivity. Qed.
