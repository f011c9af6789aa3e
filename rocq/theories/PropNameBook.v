(** C94 for the names of whole workbooks. *)
From Verif Require Import Base BaseFacts Text Strings Utf16 StringFacts PropBytes Framing GridModel GridFacts SheetObjects SheetModel SstModel FormatModel
  FormulaTables FormulaModel FormulaFacts FormulaExpr FormulaRefs CompDoc BookModel PropEnc BookFacts BookSheets BookRefs BookApi SheetShare BookHistory PropGlobals PropFormulaText
  PropFormulaRefs PropFormulaValue PropSheetList PropRefs NameFacts NameMaps PropDefined BookNames NameValues NameMeaning PropNameMeaning.
From Verif Require PropNameRefs.

(** Formulas as seen by something that cannot decode the texts of BIFF5/7. *)
Definition quiet (e : fenv) : fenv :=
  mk_fenv (fe_bv e) (fun _ => Err TypeError) (fe_sheets e) (fe_allmap e) (fe_info e) (fe_b57 e) (fe_locals e) (fe_addins e) (fe_addin_names e).

Lemma stored_quiet : forall e nms x, PropFormulaText.stored (quiet e) nms x -> PropFormulaText.stored e nms x.
Proof.
  intros e nms x. unfold stored. change (PropFormulaText.known (quiet e) nms) with (PropFormulaText.known e nms). change (fe_bv (quiet e)) with (fe_bv e).
  induction x using expr_ind'; cbn [storable]; try tauto.
  - intros (_ & _ & Q). discriminate.
  - intros (Q1 & Q2 & Q3). split; [exact Q1|]. split; [exact Q2|]. clear Q1 Q2. revert Q3.
    induction H as [|a args HA _ IH]; [auto|]. intros [V1 V2]. split; [exact (HA V1)|exact (IH V2)].
  - intros (Q0 & Q1 & Q2 & Q3 & Q4 & Q5). do 5 (split; [assumption|]). clear Q0 Q1 Q2 Q3 Q4. revert Q5.
    induction H as [|a args HA _ IH]; [auto|]. intros [V1 V2]. split; [exact (HA V1)|exact (IH V2)].
Qed.
Lemma holds_quiet : forall e nms f, PropFormulaRefs.formula_holds (quiet e) nms 32 None f -> PropFormulaRefs.formula_holds e nms 32 None f.
Proof.
  intros e nms f. unfold formula_holds. change (fe_bv (quiet e)) with (fe_bv e).
  change (PropFormulaRefs.leads (quiet e)) with (PropFormulaRefs.leads e). change (PropFormulaRefs.has_name (quiet e)) with (PropFormulaRefs.has_name e). change (PropFormulaRefs.outer (quiet e) nms) with (PropFormulaRefs.outer e nms).
  pose proof (stored_quiet e nms) as SQ.
  induction f using formula_ind'; cbn [holds]; try tauto.
  - apply SQ.
  - intros (Q1 & Q2 & Q3). split; [exact Q1|]. split; [exact Q2|]. clear Q1 Q2. revert Q3.
    induction H as [|a args HA _ IH]; [auto|]. intros [V1 V2]. split; [exact (HA V1)|exact (IH V2)].
  - intros (Q0 & Q1 & Q2 & Q3 & Q4 & Q5). do 5 (split; [assumption|]). clear Q0 Q1 Q2 Q3 Q4. revert Q5.
    induction H as [|a args HA _ IH]; [auto|]. intros [V1 V2]. split; [exact (HA V1)|exact (IH V2)].
Qed.

Lemma evaluable_quiet : forall e j f, evaluable (quiet e) j f -> evaluable e j f.
Proof.
  intros e j f. induction f using formula_ind'; cbn [evaluable]; try tauto.
  - induction H as [|a args HA _ IH]; [auto|]. intros [V1 V2]. split; [exact (HA V1)|exact (IH V2)].
  - intros [V0 V]. split; [exact V0|]. revert V. induction H as [|a args HA _ IH]; [auto|]. intros [V1 V2]. split; [exact (HA V1)|exact (IH V2)].
Qed.

Section Workbook.
Context {N : Type}.
Variable codec : list Z -> list Z -> result (list Z).
Variable ops : numops N.
Variable lower : list Z -> list Z.
Variable num8 : list Z -> N.
Variable rk : list Z -> result N.
Variable ragged : bool.
Notation loaded := (loaded (N := N)).
Notation api := (api (N := N)).
Notation book := (book N loaded).
Variable old : book -> list Z -> Z -> list Z -> Z -> result (shared * loaded).
Notation open_stream := (open_stream codec ops lower num8 rk ragged old).
Notation history := (history codec num8 rk ragged old).

(** The names before they are evaluated. *)
Lemma opened_unread : forall fuel mem base bv rs ov fmt b0, workbook mem base bv rs -> 50 <= bv ->
  open_stream fuel mem base ov fmt true = Ok (mk_api b0 (Some mem)) ->
  bk_bv b0 = bv /\ exists enc ns, Forall (fun n => nm_evaluated n = false) ns /\
    names_epilogue codec ops lower bv enc (bk_sheets b0) (bk_refs b0) ns = Ok (bk_names b0, bk_maps b0).
Proof.
  intros fuel mem base bv rs ov fmt b0 (pos & d & post & GB & FR & LD & A & NE) V O.
  unfold BookApi.open_stream in O. rewrite GB, bind_Ok in O.
  apply bind_ok in O as (? & _ & O). apply bind_ok in O as (? & _ & O). apply bind_ok in O as (b & B & O).
  replace (bv <=? 40) with false in O by lia. replace (bv =? 45) with false in O by lia.
  apply bind_ok in O as ([b1 p1] & G & O). cbv zeta in O. injection O as <-.
  assert (Q : bk_bv b = bv /\ bk_names b = []).
  { unfold book0 in B. apply bind_ok in B as (f & _ & B). injection B as <-. repeat split; reflexivity. }
  destruct Q as (Q1 & Q2). cbn [bk_refs bk_names bk_maps bk_sheets bk_bv with_list].
  pose (P := fun (b : book) (rs : list (Z * list Z)) => bk_bv b = bv /\ Forall (fun n => nm_evaluated n = false) (bk_names b)).
  destruct (globals_walk codec (load codec num8 rk ragged old) ops lower P mem d post LD) with (fuel := fuel) (rs := rs) (b := b) (pos := pos) (b' := b1) (p' := p1)
    as (bl & (VL & FL) & GE); auto.
  - clear - V. intros b pos rc data rs b' p cs rs' (P1 & P2) _ _ _ _ N2 G' _.
    split; [rewrite (gstep_version _ _ _ _ _ _ _ _ _ G' N2); exact P1|].
    destruct (Z.eq_dec rc 0x18) as [->|N3]; [|rewrite (proj2 (gstep_keeps _ _ _ _ _ _ _ _ _ G' N2) N3); exact P2].
    apply gstep_name in G' as (b2 & n & D & HN & ->); [|lia]. cbn [bk_names with_names]. apply Forall_app.
    apply derive_enc in D as (s & ->). cbn [bk_names with_enc with_shared]. split; [exact P2|]. constructor; [|constructor].
    unfold handle_name in HN. repeat (apply bind_ok in HN as (? & _ & HN)). destruct x5 as [name q]. injection HN as <-. reflexivity.
  - split; [exact Q1|]. rewrite Q2; constructor.
  - destruct (globals_end_spec _ _ _ _ _ GE) as (X1 & X2 & X4 & X3). rewrite X1, X2, <- VL. split; [exact X4|]. eauto.
Qed.

(** C94: in a workbook that is opened, a name whose formula has a meaning holds it. *)
Theorem c94_workbook : forall fuel mem base bv rs override fmt on_demand a es h defined,
  workbook mem base bv rs -> (bv = 50 \/ bv = 70 \/ bv = 80) -> lists codec bv override None rs es -> number_laws ops ->
  open_stream fuel mem base override fmt on_demand = Ok a ->
  let a' := snd (history a h) in
  let e := quiet (formulas_of codec a') in
  let names := name_obj_list a' in
  (forall j f, znth defined j = Some (Some f) -> exists n, znth names j = Some n /\ written_as e names j n f) ->
  forall d j f o n, name_means ops defined (strange names) d j = Some o -> znth defined j = Some (Some f) ->
  znth names j = Some n -> nm_macro n || nm_binary n = false ->
  nm_evaluated n = true /\ worth ops e names n f o.
Proof.
  intros fuel mem base bv rs ov fmt od a es h defined W BV L LAWS H a' e names DEF d j f o n M DF ZN OR.
  assert (V : 50 <= bv) by lia.
  destruct (opened codec ops lower num8 rk ragged old _ _ _ _ _ _ _ _ _ _ W V L H) as (b0 & I & V0 & LS & LB & O & E1 & _ & _ & E4).
  destruct (history_inv codec num8 rk ragged old b0 mem V0 LS LB h a I) as [(k & sl & E & _) _]. fold a' in E.
  destruct (opened_unread _ _ _ _ _ _ _ _ W V O) as (BVE & enc & ns & UN & EP).
  unfold names_epilogue in EP. apply bind_ok in EP as (n1 & MM & EP). apply bind_ok in EP as (n2 & EV & EP). apply bind_ok in EP as (mp & _ & EP).
  injection EP as EP _. subst n2. apply mapM_Forall2 in MM.
  assert (UN1 : Forall (fun n => nm_evaluated n = false) n1).
  { clear - UN MM. induction MM as [|x y xs ys Q MM IH]; [constructor|]. inversion UN; subst. constructor; [|auto]. apply bind_ok in Q as (kk & _ & Q). injection Q as <-. assumption. }
  assert (NE : names = bk_names b0) by (unfold names, name_obj_list; rewrite E; reflexivity).
  set (e1 := env_of codec bv enc (bk_sheets b0) (bk_refs b0)) in *.
  assert (QE : quiet e1 = e) by (unfold e, e1, formulas_of, quiet, env_of; rewrite E; cbn; rewrite BVE; reflexivity).
  pose proof (eval_names_keeps ops e1 _ _ _ EV) as ID. rewrite <- NE in ID, EV.
  assert (TI : titles n1 = titles names).
  { unfold titles. transitivity (map (fun '(fl, nm, ex, sh, rw, ln, sc) => (nm, sc)) (map ident n1)); [rewrite map_map; reflexivity|].
    rewrite <- ID, map_map. reflexivity. }
  assert (SAME : forall i x, znth names i = Some x -> exists y, znth n1 i = Some y /\ ident x = ident y).
  { intros i x Z0. assert (Q : znth (map ident n1) i = znth (map ident names) i) by (rewrite ID; reflexivity).
    rewrite !znth_map, Z0 in Q. destruct (znth n1 i) as [y|]; [|discriminate]. exists y. split; [reflexivity|]. cbn in Q. unfold ident in *. congruence. }
  assert (ST : forall i, strange n1 i = strange names i).
  { intros i. unfold strange. assert (Q : znth (map ident n1) i = znth (map ident names) i) by (rewrite ID; reflexivity). rewrite !znth_map in Q.
    destruct (znth n1 i) as [x|], (znth names i) as [y|]; try discriminate; [|reflexivity]. cbn in Q. injection Q as Q _ _ _ _ _ _. unfold nm_macro, nm_binary. rewrite Q. reflexivity. }
  assert (M' : name_means ops defined (strange n1) d j = Some o).
  { rewrite <- M. clear - ST. revert j. induction d as [|d IH]; intros j; cbn [name_means]; [reflexivity|]. destruct (znth defined j) as [[f|]|]; try reflexivity.
    assert (forall m, option_map (used_as (strange n1 (m - 1))) (name_means ops defined (strange n1) d (m - 1)) = option_map (used_as (strange names (m - 1))) (name_means ops defined (strange names) d (m - 1))) as U
      by (intros m; rewrite IH, ST; reflexivity). exact (outcome_ext ops _ _ U f). }
  destruct (SAME _ _ ZN) as (y & ZY & IY).
  assert (DEF1 : forall i g, znth defined i = Some (Some g) -> exists n, znth n1 i = Some n /\ written_as e1 n1 i n g).
  { intros i g DG. destruct (DEF _ _ DG) as (x & Z0 & (ex & W1) & W2 & W3 & W4). destruct (SAME _ _ Z0) as (z & ZZ & IZ). exists z. split; [exact ZZ|].
    unfold ident in IZ. injection IZ as I1 I2 I3 I4 I5 I6 I7. rewrite <- QE in W1, W2, W3, W4. unfold written_as. rewrite TI. rewrite <- I5, <- I6.
    split; [exists ex; exact W1|]. split; [exact W2|]. split; [exact (holds_quiet _ _ _ W3)|exact (evaluable_quiet _ _ _ W4)]. }
  destruct (c94_holds ops LAWS e1 ltac:(unfold biff; cbn; lia) n1 defined DEF1 UN1 names d j o f y EV M' DF ZY) as (n' & ZN' & _ & EV' & W1 & W2 & W3).
  { unfold ident in IY. injection IY as I1 _ _ _ _ _ _. unfold nm_macro, nm_binary in *. rewrite <- I1. exact OR. }
  rewrite ZN in ZN'. injection ZN' as <-. split; [exact EV'|]. split; [rewrite <- QE; rewrite W1, TI; reflexivity|auto].
Qed.
End Workbook.
Print Assumptions c94_workbook.

(** The workbook of PropNameRefs.v: its first two names and its last one. *)
Definition named_formulas : list (option formula) := [
  Some (Cell3 Reference [0; 0] (On 0 0) (Fixed 1) (Fixed 1));
  Some (Area3 Reference [0; 0] (On 0 0) (Fixed 0) (Fixed 9) (Fixed 1) (Fixed 9));
  None; None; Some (Plain (Int 1))].
Lemma named_run : match PropNameRefs.Named.opened with
  | Ok a => let e := quiet (formulas_of PropNameRefs.Named.codec a) in
      fe_bv e = 80 /\ fe_sheets e = [[65]] /\ fe_allmap e = [0] /\ fe_info e = [(0, 0, 0)] /\ fe_addins e = None /\ fe_locals e = Some 0 /\
      map (fun n => (nm_raw n, nm_len n, nm_macro n || nm_binary n)) (name_obj_list a) =
        map (fun d => (d_formula d, zlen (d_formula d), false)) PropNameRefs.Named.definitions
  | Err _ => False end.
Proof. vm_compute. repeat split. Qed.
Example c94_workbook_hypotheses : match PropNameRefs.Named.opened with
  | Ok a => let e := quiet (formulas_of PropNameRefs.Named.codec a) in let names := name_obj_list a in
      (forall j f, znth named_formulas j = Some (Some f) -> exists n, znth names j = Some n /\ PropNameMeaning.written_as e names j n f) /\
      map (name_means int_ops named_formulas (strange names) 1) [0; 1; 4] = map (fun a => Some (mk_outcome a false false))
        [Located false (Some [cells 0 0 false (Fixed 1) (Fixed 1) (Fixed 1) (Fixed 1)]);
         Located false (Some [cells 0 0 false (Fixed 0) (Fixed 9) (Fixed 1) (Fixed 9)]); Known (Number 1)]
  | Err _ => False end.
Proof.
  pose proof named_run as M. destruct PropNameRefs.Named.opened as [a|]; [|exact M]. cbv zeta in *.
  set (e := quiet _) in *. destruct M as (B & SH & AM & IN & AD & LO & M).
  destruct (name_obj_list a) as [|n1 [|n2 [|n3 [|n4 [|n5 [|]]]]]]; try discriminate. cbn in M.
  injection M as R1 L1 _ R2 L2 _ R3 L3 _ R4 L4 _ R5 L5 _.
  assert (P0 : FormulaRefs.place_ok 80 (PropFormulaRefs.leads e) (PropFormulaRefs.has_name e) [0; 0] (On 0 0)).
  { split; [lia|]. split; [reflexivity|]. split.
    - unfold PropFormulaRefs.leads. rewrite B, AM, IN, AD, LO. cbn. exists 0, 0, 0, 0. repeat split; try lia; discriminate.
    - unfold PropFormulaRefs.has_name. rewrite SH. split; [lia|]. split; exists [65]; (split; [discriminate|reflexivity]). }
  assert (W : forall j n f, nm_raw n = PropFormulaRefs.formula_tokens e 32 None f -> nm_len n = zlen (PropFormulaRefs.formula_tokens e 32 None f) ->
    PropFormulaRefs.formula_holds e (titles [n1; n2; n3; n4; n5]) 32 None f -> evaluable e j f -> PropNameMeaning.written_as e [n1; n2; n3; n4; n5] j n f).
  { intros j n f Q1 Q2 Q3 Q4. split; [exists []; rewrite app_nil_r; exact Q1|auto]. }
  split; [|reflexivity].
  intros j f H. pose proof (znth_Some_range _ _ _ H) as R. cbn in R.
  assert (j = 0 \/ j = 1 \/ j = 2 \/ j = 3 \/ j = 4) as J by lia.
  unfold PropFormulaRefs.formula_tokens, PropFormulaRefs.formula_holds in W.
  repeat destruct J as [->|J]; [..|subst j]; cbn in H; try discriminate; injection H as <-; eexists; (split; [reflexivity|]);
    apply W; rewrite ?R1, ?L1, ?R2, ?L2, ?R5, ?L5, ?B; try reflexivity; cbn [holds]; try exact I; try exact P0.
  all: destruct P0 as (_ & _ & P1 & _ & P2 & P3); cbn; auto 20; repeat split; try lia; try discriminate; assumption.
Qed.
