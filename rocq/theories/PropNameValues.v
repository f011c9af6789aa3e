(** C45, C64 and C65 for the names of whole workbooks. *)
From Verif Require Import Base BaseFacts Text Strings Utf16 StringFacts PropBytes Framing GridModel GridFacts SheetObjects SheetModel SstModel FormatModel
  FormulaTables FormulaModel FormulaFacts FormulaExpr CompDoc BookModel PropEnc BookFacts BookSheets BookRefs BookApi SheetShare BookHistory PropGlobals PropFormulaText
  PropFormulaBox PropFormulaValue PropDemand PropSheetList PropRefs NameFacts NameMaps PropDefined BookNames NameRefs SheetDims PropNameRefs NameValues.

(** The references of a formula lead to worksheets of the workbook, and its rows and columns
    are absolute. *)
Fixpoint leads (es : list entry) (ks : list kind) (l : list PropRefs.reference) (x : refs) : Prop :=
  match x with
  | Area k s1 s2 r1 r2 c1 c2 => 0 <= k < 65536 /\ target es ks l k (s1, s2) /\ 0 <= s1 /\ 0 <= r1 < 65536 /\ 0 <= r2 < 65536 /\ 0 <= c1 < 256 /\ 0 <= c2 < 256
  | Cell k s1 s2 r c => 0 <= k < 65536 /\ target es ks l k (s1, s2) /\ 0 <= s1 /\ 0 <= r < 65536 /\ 0 <= c < 256
  | Isect a b | Range a b => leads es ks l a /\ leads es ks l b
  | Grouped a => leads es ks l a
  end.

(** A name that is evaluated: not a macro's (bit 3 of the options) nor binary (bit 12). *)
Definition ordinary (d : definition) : Prop := Z.testbit (d_flags d) 3 = false /\ Z.testbit (d_flags d) 12 = false.

Section Workbook.
Context {N : Type}.
Variable codec : list Z -> list Z -> result (list Z).
Variable ops : numops N.
Variable lower : list Z -> list Z.
Variable num8 : list Z -> N.
Variable rk : list Z -> result N.
Variable ragged : bool.
Notation loaded := (loaded (N := N)).
Notation api := (api (N := N)).
Notation book := (book N loaded).
Variable old : book -> list Z -> Z -> list Z -> Z -> result (shared * loaded).
Notation open_stream := (open_stream codec ops lower num8 rk ragged old).
Notation history := (history codec num8 rk ragged old).
Notation perform := (perform codec num8 rk ragged old).
Notation name_cell := (name_cell codec num8 rk ragged old).
Notation name_area2d := (name_area2d codec num8 rk ragged old).

(** A name holds what a run over its formula leaves. *)
Lemma name_run : forall fuel mem base bv rs ov fmt od a es ds h j d, workbook mem base bv rs -> 50 <= bv ->
  lists codec bv ov None rs es -> names_in codec bv ov rs ds -> open_stream fuel mem base ov fmt od = Ok a ->
  znth ds j = Some d -> ordinary d ->
  let a' := snd (history a h) in
  exists enc ids n s, znth (name_obj_list a') j = Some n /\
    run_of ops (env_of codec bv enc (bk_sheets (a_book a')) (bk_refs (a_book a'))) ids (d_formula d) (d_len d) s /\
    sl_names (bk_sheets (a_book a')) = map e_name (filter worksheet es) /\ bk_bv (a_book a') = bv /\
    reads d n /\ nm_stack n = s_stack s /\ nm_any_rel n = s_rel s /\ nm_any_err n = s_err s.
Proof.
  intros fuel mem base bv rs ov fmt od a es ds h j d W V L NI H ZD [OR1 OR2] a'.
  destruct (opened codec ops lower num8 rk ragged old _ _ _ _ _ _ _ _ _ _ W V L H) as (b0 & I & V0 & LS & LB & O & E1 & _ & _ & E4).
  destruct (history_inv codec num8 rk ragged old b0 mem V0 LS LB h a I) as [(k & sl & E & _) _]. fold a' in E.
  destruct (opened_names codec ops lower num8 rk ragged old _ _ _ _ _ _ _ _ W V O) as (_ & BV & _ & NE). destruct (NE _ NI) as (enc & ns & RD & EP). clear NE.
  unfold name_obj_list. rewrite E. cbn [later with_list set_countries with_shared bk_names bk_sheets bk_refs bk_bv].
  unfold names_epilogue in EP. apply bind_ok in EP as (n1 & M & EP). apply bind_ok in EP as (n2 & EV & EP). apply bind_ok in EP as (mp & _ & EP).
  injection EP as EP _. subst n2. apply mapM_Forall2 in M.
  assert (R1 : Forall2 reads_new ds n1).
  { clear - RD M. revert n1 M. induction RD as [|d n ds ns R RD IH]; intros n1 M; inversion M as [|? y ? ys Q M']; subst; [constructor|].
    constructor; [|apply IH; assumption]. apply bind_ok in Q as (k & Q & S). injection S as <-. exact R. }
  assert (U : Forall (fun n => nm_evaluated n = false) n1) by (clear - R1; induction R1 as [|d n ds ns [_ R] RD IH]; constructor; auto).
  assert (X : exists n, znth n1 j = Some n /\ reads_new d n).
  { clear - R1 ZD. pose proof (znth_Some_range _ _ _ ZD) as R. unfold znth in ZD. unfold znth. replace (j <? 0) with false in * by lia.
    revert ZD. generalize (Z.to_nat j). clear R. induction R1 as [|d0 n ds ns RN R1 IH]; intros [|q] Q; try discriminate; cbn in *; [|auto].
    injection Q as ->. eauto. }
  destruct X as (n & ZN & (R & _)).
  destruct (eval_names_values ops _ _ _ j n EV U ZN) as (n' & s & ZN' & ID & _ & RUN & S1 & S2 & S3).
  { unfold nm_macro, nm_binary. destruct R as (-> & _). rewrite OR1, OR2. reflexivity. }
  exists enc, (map ident n1), n', s. split; [exact ZN'|]. unfold ident in ID. injection ID as I1 I2 I3 I4 I5 I6 I7. unfold reads in *.
  destruct R as (R2 & R3 & R4 & R5 & R6 & R7). rewrite <- R6, <- R7. split; [exact RUN|]. split; [exact E1|]. split; [exact BV|]. split; [repeat split; congruence|]. auto.
Qed.

(** C64: such a name is one reference, to exactly the cells meant. *)
Theorem c64_workbook : forall fuel mem base rs override fmt on_demand a es ks l ds h j d x extra,
  workbook mem base 80 rs -> lists codec 80 override None rs es -> tables rs l -> supbooks rs ks -> names_in codec 80 override rs ds ->
  open_stream fuel mem base override fmt on_demand = Ok a ->
  znth ds j = Some d -> ordinary d -> d_formula d = ref_codes x ++ extra -> d_len d = zlen (ref_codes x) -> leads es ks l x -> proper x ->
  let a' := snd (history a h) in
  exists n b, znth (name_obj_list a') j = Some n /\ reads d n /\ reference n b /\ (forall y, inside b y <-> denotes x y) /\
    nm_any_err n = false /\ nm_any_rel n = false.
Proof.
  intros fuel mem base rs ov fmt od a es ks l ds h j d x extra W L T S NI H ZD OR DF DL LE P a'.
  destruct (name_run _ _ _ _ _ _ _ _ _ _ _ h _ _ W ltac:(lia) L NI H ZD OR) as (enc & ids & n & s & ZN & (lv & k & names & _ & RUN) & SN & BV & RD & S1 & S2 & S3).
  fold a' in ZN, RUN, SN, BV. set (e := env_of codec 80 enc (bk_sheets (a_book a')) (bk_refs (a_book a'))) in *.
  assert (IB : in_book e x).
  { assert (G : forall q s1 s2, 0 <= q -> target es ks l q (s1, s2) -> 0 <= s1 -> get_externsheet_local_range e q = Ok (s1, s2) /\ 0 <= s1 <= s2 /\ s2 < zlen (fe_sheets e)).
    { intros q s1 s2 Q TG S0. pose proof (c51_resolves codec ops lower num8 rk ragged old _ _ _ _ _ _ _ _ _ _ _ _ h q W ltac:(lia) L T S H Q) as R. fold a' in R.
      change (get_externsheet_local_range (formulas_of codec a') q) with (get_externsheet_local_range e q) in R.
      assert (VR : 0 <= s1 <= s2 /\ s2 < zlen (filter worksheet es)).
      { inversion TG; subst; try lia. match goal with B : between _ _ _ _ |- _ => destruct (between_valid _ _ _ _ _ B ltac:(lia)) as [?|[? ?]]; lia end. }
      replace (zlen (fe_sheets e)) with (zlen (filter worksheet es)) by (cbn [e env_of fe_sheets]; rewrite SN; unfold zlen; rewrite map_length; reflexivity).
      split; [|lia]. destruct (get_externsheet_local_range e q) as [r|er].
      - f_equal. exact (target_unique _ _ _ _ _ _ R TG).
      - destruct R as (_ & kk & u & v & Z1 & LA & NE). assert (NO : ~ last_place ks Own kk) by (intros [X _]; destruct LA as [Y _]; congruence).
        inversion TG; subst; try lia. match goal with Q1 : znth l q = Some _, Q2 : last_place ks Own _ |- _ => rewrite Z1 in Q1; injection Q1 as; subst; contradiction end. }
    clear - LE G. induction x; cbn [leads in_book] in *.
    - destruct LE as (K & TG & S0 & LE). destruct (G _ _ _ (proj1 K) TG S0) as (G1 & G2 & G3). tauto.
    - destruct LE as (K & TG & S0 & LE). destruct (G _ _ _ (proj1 K) TG S0) as (G1 & G2 & G3). tauto.
    - destruct LE. auto.
    - destruct LE. auto.
    - auto. }
  rewrite DF, DL in RUN.
  assert (0 < zlen (ref_codes x)) as LP.
  { clear. induction x; cbn [ref_codes]; rewrite ?zlen_app, ?zlen_cons, ?zlen_app, ?zlen_cons, ?zlen_nil;
      repeat match goal with |- context[zlen ?l] => let H := fresh in pose proof (zlen_nonneg l) as H; revert H; generalize (zlen l) end;
      intros; lia. }
  replace (zlen (ref_codes x) =? 0) with false in RUN by lia.
  destruct (ref_run_all ops e eq_refl (evaluate_name_formula ops e lv) k (ref_codes x ++ extra) (zlen (ref_codes x)) x IB 0 extra
              (mk_est [] false false names)) as (o & [Ko Vo] & Rn); [apply At_0|lia|].
  rewrite (eval_loop_done _ _ _ _ _ _ _ _ _ _ _ Rn) in RUN by lia. injection RUN as <-. cbn [push s_stack s_rel s_err] in S1, S2, S3.
  exists n, (box_of x). split; [exact ZN|]. split; [exact RD|]. split; [exists o, absolute; unfold nm_result; rewrite S1; auto|].
  split; [apply box_of_denotes; exact P|auto].
Qed.

(** C65: such a name has the value, kind and text of its formula. *)
Theorem c65_workbook : forall fuel mem base rs override fmt on_demand a es ds h j d x extra,
  workbook mem base 80 rs -> lists codec 80 override None rs es -> names_in codec 80 override rs ds ->
  open_stream fuel mem base override fmt on_demand = Ok a ->
  znth ds j = Some d -> ordinary d -> d_formula d = FormulaExpr.codes 80 x ++ extra -> d_len d = zlen (FormulaExpr.codes 80 x) ->
  constant x -> signs_ok x -> storable 80 (fun _ _ => False) (fun _ => False) x ->
  exists n o v, znth (name_obj_list (snd (history a h))) j = Some n /\ reads d n /\ meaning ops x = Ok v /\
    nm_result n = Some o /\ o_kind o = kind_of (sort_of x) /\ o_value o = repr ops v /\
    o_text o = written (fun z => n_str ops (n_float ops z)) (fun b => n_str ops (n_unpack ops b)) (fun _ => []) x.
Proof.
  intros fuel mem base rs ov fmt od a es ds h j d x extra W L NI H ZD OR DF DL C G ST.
  destruct (name_run _ _ _ _ _ _ _ _ _ _ _ h _ _ W ltac:(lia) L NI H ZD OR) as (enc & ids & n & s & ZN & (lv & k & names & _ & RUN) & SN & BV & RD & S1 & S2 & S3).
  set (a' := snd (history a h)) in *. set (e := env_of codec 80 enc (bk_sheets (a_book a')) (bk_refs (a_book a'))) in *.
  assert (FT : fits e x).
  { unfold fits. change (fe_bv e) with 80. clear - C ST. induction x using expr_ind'; cbn [constant storable] in *; try contradiction; auto; try lia; tauto. }
  rewrite DF, DL in RUN. pose proof (codes_nonempty e x) as LP. change (fe_bv e) with 80 in LP. replace (zlen (FormulaExpr.codes 80 x) =? 0) with false in RUN by lia.
  pose proof (evals_all ops e ltac:(unfold biff; cbn; lia) (evaluate_name_formula ops e lv) k (FormulaExpr.codes 80 x ++ extra) (zlen (FormulaExpr.codes 80 x)) x C G FT 0 extra
              (mk_est [] false false names) (At_0 _)) as Rn. change (fe_bv e) with 80 in Rn. specialize (Rn ltac:(lia)).
  destruct (meaning ops x) as [v|er].
  2: { destruct Rn as (p1 & s1 & Rn & P1 & P2). rewrite (eval_loop_fails _ _ _ _ _ _ _ _ _ _ _ er Rn) in RUN by (try lia; exact P2). discriminate. }
  rewrite (eval_loop_done _ _ _ _ _ _ _ _ _ _ _ Rn) in RUN by lia. injection RUN as <-. cbn [push s_stack s_rel s_err] in S1, S2, S3.
  exists n, (operand_of ops e x v), v. split; [exact ZN|]. split; [exact RD|]. split; [reflexivity|]. split; [unfold nm_result; rewrite S1; reflexivity|].
  split; [reflexivity|]. split; [reflexivity|]. cbn [operand_of o_text]. unfold text_in, text_of. clear - C.
  induction x using expr_ind'; cbn [constant written] in *; try contradiction; try reflexivity; auto.
  - rewrite IHx by exact C. reflexivity.
  - destruct C as [C1 C2]. rewrite IHx1, IHx2 by assumption. reflexivity.
Qed.

(** C45: with a name defined by a reference to one worksheet, area2d gives that sheet and the
    cells meant: all of them, or those inside the sheet. *)
Theorem c45_workbook : forall fuel mem base rs override fmt on_demand a es ks l ds h k j d x extra s,
  workbook mem base 80 rs -> bytes mem -> lists codec 80 override None rs es -> tables rs l -> supbooks rs ks -> names_in codec 80 override rs ds ->
  open_stream fuel mem base override fmt on_demand = Ok a ->
  znth ds j = Some d -> ordinary d -> d_formula d = ref_codes x ++ extra -> d_len d = zlen (ref_codes x) -> leads es ks l x -> proper x ->
  (exists r c, denotes x (s, r, c)) -> (forall s' r c, denotes x (s', r, c) -> s' = s) ->
  let a' := snd (history a h) in
  exists n, znth (name_obj_list a') j = Some n /\ reads d n /\
  match perform k a' (SheetByIndex s) with
  | (Ok (Got sh), a2) =>
      exists r0 r1 c0 c1 r0' r1' c0' c1', name_area2d k a' n false = (Ok (sh, (r0, r1, c0, c1)), a2) /\ name_area2d k a' n true = (Ok (sh, (r0', r1', c0', c1')), a2) /\
        (forall r c, r0 <= r < r1 /\ c0 <= c < c1 <-> denotes x (s, r, c)) /\
        (let nr := g_nrows (sh_grid (ls_sheet sh)) in let nc := g_ncols (sh_grid (ls_sheet sh)) in
         0 <= r0' <= r1' /\ r1' <= nr /\ 0 <= c0' <= c1' /\ c1' <= nc /\
         forall r c, r0' <= r < r1' /\ c0' <= c < c1' <-> denotes x (s, r, c) /\ 0 <= r < nr /\ 0 <= c < nc)
  | (Err e, a2) => forall clipped, name_area2d k a' n clipped = (Err e, a2)
  | _ => False
  end.
Proof.
  intros fuel mem base rs ov fmt od a es ks l ds h k j d x extra s W BM L T S NI H ZD OR DF DL LE P (r & c & D) ONE a'.
  destruct (c64_workbook _ _ _ _ _ _ _ _ _ _ _ _ h _ _ _ _ W L T S NI H ZD OR DF DL LE P) as (n & b & ZN & RD & RF & IN & _). fold a' in ZN.
  exists n. split; [exact ZN|]. split; [exact RD|].
  assert (SB : b_slo b = s /\ b_shi b = s + 1).
  { apply IN in D. cbn in D. assert (X : forall y, b_slo b <= y < b_shi b -> y = s).
    { intros y Y. apply (ONE y r c). apply IN. cbn. lia. }
    split; [apply X; lia|]. specialize (X (b_shi b - 1)). lia. }
  destruct SB as [S1 S2]. assert (S0 : 0 <= s).
  { apply (box_of_denotes _ P) in D. assert (B0 : 0 <= b_slo (box_of x)); [|cbn in D; lia]. clear - LE.
    induction x as [q s1 s2 r1 r2 c1 c2|q s1 s2 r c|p IHp q IHq|p IHp q IHq|p IHp]; cbn [leads box_of isect_box range_box b_slo] in *; lia || tauto || auto.
    - destruct LE as [L1 L2]. specialize (IHp L1). lia.
    - destruct LE as [L1 L2]. specialize (IHp L1). specialize (IHq L2). lia. }
  assert (AR : area n b) by (split; [exact RF|lia]).
  destruct (c45_area2d codec ops lower num8 rk ragged old _ _ _ _ _ _ _ _ _ _ h k n b W ltac:(lia) BM L H) as [_ Q]; [exact (znth_In _ _ _ _ ZN)|exact AR|].
  fold a' in Q. rewrite S1 in Q. destruct (perform k a' (SheetByIndex s)) as [[[sh| | |]|er] a2]; auto.
  destruct Q as (Q1 & r0 & r1 & c0 & c1 & Q2 & (R1 & R2 & R3) & (C1 & C2 & C3)).
  exists (b_rlo b), (b_rhi b), (b_clo b), (b_chi b), r0, r1, c0, c1. split; [exact Q1|]. split; [exact Q2|].
  assert (DI : forall r c, b_rlo b <= r < b_rhi b /\ b_clo b <= c < b_chi b <-> denotes x (s, r, c)).
  { intros r' c'. rewrite <- IN. cbn. lia. }
  split; [exact DI|]. cbv zeta. split; [exact R1|]. split; [exact R2|]. split; [exact C1|]. split; [exact C2|].
  intros r' c'. rewrite R3, C3, <- DI. tauto.
Qed.
End Workbook.
Print Assumptions c64_workbook.
Print Assumptions c65_workbook.
Print Assumptions c45_workbook.

(** The workbook of PropNameRefs.v: its second name is an area, its fifth a number. *)
Example c45_workbook_hypotheses :
  let x := Area 0 0 0 0 9 1 9 in
  workbook Named.file 0 80 Named.records /\ bytes Named.file /\ lists Named.codec 80 None None Named.records Named.entries /\
  tables Named.records [(0, 0, 0)] /\ supbooks Named.records [Own] /\ names_in Named.codec 80 None Named.records Named.definitions /\
  (exists d, znth Named.definitions 1 = Some d /\ ordinary d /\ d_formula d = ref_codes x ++ [] /\ d_len d = zlen (ref_codes x)) /\
  leads Named.entries [Own] [(0, 0, 0)] x /\ proper x /\ (exists r c, denotes x (0, r, c)) /\ (forall s r c, denotes x (s, r, c) -> s = 0) /\
  (exists d, znth Named.definitions 4 = Some d /\ ordinary d /\ d_formula d = FormulaExpr.codes 80 (Int 1) ++ [] /\ d_len d = zlen (FormulaExpr.codes 80 (Int 1))).
Proof.
  destruct c45_hypotheses as (W & B & L & _). cbv zeta. split; [exact W|]. split; [exact B|]. split; [exact L|].
  split; [|split; [|split; [|split; [|split; [|split; [|split; [|split]]]]]]].
  - apply T_other; [lia|]. apply T_other; [lia|].
    apply (T_table [(0, 0, 0)] [1; 0; 0; 0; 0; 0; 0; 0] [] [] _ []); [reflexivity|repeat constructor; cbn; lia|cbn; lia|reflexivity|].
    repeat (apply T_other; [lia|]). apply T_nil.
  - unfold supbooks. cbn. constructor; [apply (S_own 1 []); lia|constructor].
  - assert (BD : forall d c, definition_ok d -> In c [65; 66; 67; 68; 69] -> shown (d_flags d) [c] (d_name d) ->
      name_body Named.codec 80 None None d (Named.body d c)).
    { intros d c DO C SH. pose proof (N_biff8 Named.codec 80 None None d 0 (Defs.char c) [0; 0; 0; 0]) as Q.
      cbn in C. repeat (destruct C as [<- | C]; [apply Q; clear Q; [lia|exact DO| |reflexivity|reflexivity|exact SH];
        unfold us_ok, text; cbn; repeat split; try (intros _); repeat constructor; lia|]). destruct C. }
    apply C_other; [lia|lia|]. apply C_other; [lia|lia|]. apply C_other; [lia|lia|].
    repeat (apply C_one; [apply BD; [repeat split; cbn; lia|cbn; auto 10|apply Sh_text; reflexivity]|]). apply C_nil.
  - eexists. split; [reflexivity|]. repeat split; reflexivity.
  - cbn. repeat split; try lia. apply (R_between _ _ _ _ 0 0 0); [reflexivity| |lia|lia|cbn; lia|].
    + unfold last_place. split; [reflexivity|]. intros j J. destruct (znth [Own] j) as [q|] eqn:Q; [apply znth_Some_range in Q; cbn in Q; lia|discriminate].
    + apply (B_sheets _ _ _ 0 0); (exists (mk_entry 184 0 0 [65])); repeat split.
  - exact I.
  - exists 0, 1. cbn. lia.
  - cbn. lia.
  - eexists. split; [reflexivity|]. repeat split; reflexivity.
Qed.
