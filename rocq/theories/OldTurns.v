(** The turns of the loop of OldSheet.v that write no cells. *)
From Verif Require Import Base BaseFacts Text Strings Framing GridModel GridFacts PropGrid SheetObjects SheetModel SheetFacts
  SheetSteps PropSheet FormatModel FormatFacts FormulaModel BookModel BookApi PropSheetList PropFormat OldSheet OldXf OldContent OldSteps.

(** Before BIFF8, only notes take further records. *)
Lemma noise_takes : forall {N} (c : config N) sh rc len d rs sh' rs', c_bv c < 80 -> noise_code rc = true ->
  step c sh rc len d rs = Ok (sh', rs') ->
  exists used, rs = used ++ rs' /\ Forall (fun r : record => fst (fst r) = XL_NOTE) used.
Proof.
  intros N c sh rc len d rs sh' rs' L HN H.
  assert (SAME : forall (m : result (sheet N)), plain m rs = Ok (sh', rs') ->
    exists used, rs = used ++ rs' /\ Forall (fun r : record => fst (fst r) = XL_NOTE) used).
  { intros m E. unfold plain in E. apply bind_ok in E as (? & _ & E). injection E as <- <-. exists []. auto. }
  unfold noise_code in HN. unfold step in H.
  destruct (rc =? XL_NUMBER); [eapply SAME; exact H|]. destruct (rc =? XL_LABELSST); [eapply SAME; exact H|].
  destruct (rc =? XL_LABEL); [eapply SAME; exact H|]. destruct (rc =? XL_RSTRING); [eapply SAME; exact H|].
  destruct (rc =? XL_RK); [eapply SAME; exact H|]. destruct (rc =? XL_MULRK); [eapply SAME; exact H|].
  destruct (rc =? XL_ROW); [eapply SAME; exact H|]. destruct (is_formula_code rc); [discriminate HN|].
  destruct (rc =? XL_BOOLERR); [eapply SAME; exact H|]. destruct (rc =? XL_COLINFO); [eapply SAME; exact H|].
  destruct (rc =? XL_DEFCOLWIDTH); [eapply SAME; exact H|]. destruct (rc =? XL_STANDARDWIDTH); [eapply SAME; exact H|].
  destruct (rc =? XL_GCW); [eapply SAME; exact H|]. destruct (rc =? XL_BLANK); [eapply SAME; exact H|].
  destruct (rc =? XL_MULBLANK); [eapply SAME; exact H|]. destruct ((rc =? XL_DIMENSION) || (rc =? XL_DIMENSION2)); [eapply SAME; exact H|].
  assert (SAME2 : forall A (m : result A) k, (do l <- m; Ok (k l, rs)) = Ok (sh', rs') ->
    exists used, rs = used ++ rs' /\ Forall (fun r : record => fst (fst r) = XL_NOTE) used).
  { intros A m k E. apply bind_ok in E as (? & _ & E). injection E as _ <-. exists []. auto. }
  assert (SAME3 : forall x : sheet N, Ok (x, rs) = Ok (sh', rs') ->
    exists used, rs = used ++ rs' /\ Forall (fun r : record => fst (fst r) = XL_NOTE) used).
  { intros x E. injection E as _ <-. exists []. auto. }
  destruct (rc =? XL_HLINK); [exact (SAME2 _ _ (set_links sh) H)|]. destruct (rc =? XL_QUICKTIP); [exact (SAME2 _ _ (set_links sh) H)|].
  destruct (rc =? XL_OBJ); [eapply SAME; exact H|]. destruct (rc =? XL_MSO_DRAWING); [eapply SAME3; exact H|].
  destruct (rc =? XL_TXO).
  { unfold h_txo, handle_txo in H. replace (c_bv c <? 80) with true in H by lia. cbn [bind] in H. eapply SAME3; exact H. }
  destruct (rc =? XL_NOTE).
  { unfold h_note, handle_note in H. replace (c_bv c <? 80) with true in H by lia. cbv zeta in H. apply bind_ok in H as ((m & rs1) & E & H).
    assert (rs' = rs1) as -> by congruence.
    do 4 apply bind_ok in E as (? & _ & E). apply bind_ok in E as (? & _ & E).
    apply bind_ok in E as ((raw & rs2) & E1 & E). apply bind_ok in E as (? & _ & E). injection E as <- <-.
    apply note_used in E1. exact E1. }
  destruct (rc =? XL_FEAT11); [eapply SAME3; exact H|].
  destruct (is_bof_code rc); [rewrite !orb_true_r in HN; discriminate HN|].
  destruct (rc =? XL_COUNTRY); [eapply SAME; exact H|]. destruct (rc =? XL_LABELRANGES); [eapply SAME; exact H|].
  destruct (rc =? XL_ARRAY); [exact (SAME2 _ _ (fun _ => sh) H)|]. destruct (rc =? XL_SHRFMLA); [exact (SAME2 _ _ (fun _ => sh) H)|].
  repeat match type of H with (if ?b then plain _ _ else _) = _ => destruct b; [eapply SAME; exact H|] end.
  eapply SAME3; exact H.
Qed.

Section Turns.
Context {N : Type}.
Variable codec : list Z -> list Z -> result (list Z).
Variable num8 : list Z -> N.
Variable rk : list Z -> result N.
Variable of_int : Z -> N.
Variable ragged : bool.
Notation ost := (@ost N).
Notation cfg := (cfg codec num8 rk ragged).
Notation old_step := (old_step codec num8 rk of_int ragged).
Notation grid_of s := (sh_grid (os_sheet s)).
Notation merged_of s := (f_merged (sh_fmt (os_sheet s))).
Notation keeps := (@keeps N).

(** *** Other records *)

Lemma fstep_tables : forall dec f r f', fstep dec f r = Ok f' -> (match r with RFormat _ _ | RXf _ => False | _ => True end) ->
  b_bv f' = b_bv f /\ b_fmt f' = b_fmt f /\ b_xfs f' = b_xfs f /\ b_formats f' = b_formats f /\ b_xftype f' = b_xftype f.
Proof.
  intros dec f r f' H R. destruct r; try contradiction; cbn [fstep] in H.
  - unfold handle_font in H. destruct (negb (b_fmt f)); [injection H as <-; auto|]. apply bind_ok in H as (? & _ & H). injection H as <-. repeat split.
  - unfold handle_efont in H. destruct (negb (b_fmt f)); [injection H as <-; auto|]. do 4 apply bind_ok in H as (? & _ & H). injection H as <-. repeat split.
  - unfold handle_palette in H. destruct (negb (b_fmt f)); [injection H as <-; auto|]. apply bind_ok in H as (? & _ & H). cbv zeta in H.
    destruct (negb _); [discriminate H|]. do 2 apply bind_ok in H as (? & _ & H). apply palette_loop_same in H. tauto.
  - unfold handle_style in H. destruct (negb (b_fmt f)); [injection H as <-; auto|]. do 4 apply bind_ok in H as (? & _ & H). cbv zeta in H.
    apply bind_ok in H as ((? & ?) & _ & H). injection H as <-. repeat split.
Qed.

Lemma o_format_tables : forall (s s' : ost) r, bk_bv (os_book s) < 80 -> o_format codec s r = Ok s' ->
  (match r with RFormat _ _ | RXf _ => False | _ => True end) -> same_tables s s' /\ same_rest s s'.
Proof.
  intros s s' r L H R. unfold o_format, format_record in H. apply bind_ok in H as (b & H & H1). assert (s' = set_book s b) as -> by congruence. clear H1.
  apply bind_ok in H as (b1 & E & H). apply bind_ok in H as (f & F & H). assert (b = BookModel.with_fmt b1 f) as -> by congruence. clear H.
  assert (same_tables s (set_book s b1) /\ same_rest s (set_book s b1)) as [T1 R1].
  { assert (KEEP : Ok (os_book s) = Ok b1 -> same_tables s (set_book s b1) /\ same_rest s (set_book s b1)).
    { intros K. assert (b1 = os_book s) as -> by congruence. split; [repeat split; auto|repeat split]. }
    destruct r; try (apply KEEP; exact E); try contradiction. destruct (b_fmt (bk_fmt (os_book s))); [|apply KEEP; exact E].
    destruct (os_ensure_spec codec of_int s (set_book s b1)) as (T & R1 & _); [exact L|unfold os_ensure; rewrite E; reflexivity|]. auto. }
  split; [|destruct R1 as (R1 & R2 & R3 & R4); repeat split; assumption].
  eapply same_tables_trans; [exact T1|]. apply fstep_tables in F; [|exact R]. destruct F as (F1 & F2 & F3 & F4 & F5).
  unfold same_tables, os_fmt. cbn. repeat split; auto.
Qed.

Lemma update_keeps : forall (s : ost) k u, same_tables s (update_colinfo s k u) /\ os_ixfe (update_colinfo s k u) = os_ixfe s /\
  keeps (os_sheet s) (os_sheet (update_colinfo s k u)).
Proof.
  intros s k u. unfold update_colinfo. cbv zeta. destruct (dget Z.eqb _ k); (split; [repeat split; auto|split; [reflexivity|split; reflexivity]]).
Qed.

Lemma onoise_step : forall bv (s s' : ost) rc len d rs rs', bv < 80 -> bk_bv (os_book s) = bv -> onoise_code rc = true ->
  old_step bv s rc len d rs = Ok (s', rs') ->
  same_tables s s' /\ os_ixfe s' = os_ixfe s /\ keeps (os_sheet s) (os_sheet s') /\
  exists used, rs = used ++ rs' /\ Forall (fun r : record => fst (fst r) = XL_NOTE) used.
Proof.
  intros bv s s' rc len d rs rs' L EB HN H. unfold onoise_code in HN. apply andb_true_iff in HN as [HN HC]. apply negb_true_iff in HC.
  repeat (apply orb_false_iff in HC as [HC ?]). 
  repeat match goal with X : (_ || _) = false |- _ => apply orb_false_iff in X as [? ?] end.
  unfold attr_code, setting_code, use_code, is_xf_code, is_format_code in *.
  repeat match goal with X : (_ || _) = false |- _ => apply orb_false_iff in X as [? ?] end.
  assert (STAY : forall m, (do s <- m; Ok (s, rs)) = Ok (s', rs') -> 
    (forall s1, m = Ok s1 -> same_tables s s1 /\ os_ixfe s1 = os_ixfe s /\ keeps (os_sheet s) (os_sheet s1)) ->
    same_tables s s' /\ os_ixfe s' = os_ixfe s /\ keeps (os_sheet s) (os_sheet s') /\
    exists used, rs = used ++ rs' /\ Forall (fun r : record => fst (fst r) = XL_NOTE) used).
  { intros m E K. apply bind_ok in E as (s1 & E & E1). assert (s' = s1 /\ rs' = rs) as [-> ->] by (clear - E1; split; congruence).
    destruct (K _ E) as (K1 & K2 & K3). split; [exact K1|]. split; [exact K2|]. split; [exact K3|]. exists []. auto. }
  assert (STEP : forall c : config N, c_bv c < 80 -> forall sh1 rs1, step c (os_sheet s) rc len d rs = Ok (sh1, rs1) ->
    keeps (os_sheet s) sh1 /\ exists used, rs = used ++ rs1 /\ Forall (fun r : record => fst (fst r) = XL_NOTE) used).
  { intros c LC sh1 rs1 E. split; [apply (noise_step _ _ _ _ _ _ _ _ HN E)|apply (noise_takes _ _ _ _ _ _ _ _ LC HN E)]. }
  assert (OSTEP : o_step codec num8 rk ragged s rc len d rs = Ok (s', rs') ->
    same_tables s s' /\ os_ixfe s' = os_ixfe s /\ keeps (os_sheet s) (os_sheet s') /\
    exists used, rs = used ++ rs' /\ Forall (fun r : record => fst (fst r) = XL_NOTE) used).
  { intros E. unfold o_step in E. apply bind_ok in E as ((sh1 & rs1) & E & E1).
    assert (s' = set_sheet s sh1 /\ rs' = rs1) as [-> ->] by (clear - E1; split; congruence).
    destruct (STEP (cfg s) (eq_ind_r (fun z => z < 80) L EB) _ _ E) as (K1 & K2). split; [repeat split; auto|]. split; [reflexivity|]. split; [exact K1|exact K2]. }
  unfold OldSheet.old_step in H. cbv zeta in H.
  assert (F1 : (rc =? XL_LABEL) || (rc =? XL_RSTRING) = false /\ is_formula_code rc = false /\ (rc =? XL_DIMENSION) || (rc =? XL_DIMENSION2) = false).
  { unfold noise_code in HN. apply negb_true_iff in HN. repeat match goal with X : (_ || _) = false |- _ => apply orb_false_iff in X as [? ?] end.
    split; [apply orb_false_iff; auto|]. split; [assumption|apply orb_false_iff; auto]. }
  destruct F1 as (F1 & F2 & F3). rewrite F1, F2, F3 in H.
  repeat match goal with X : (rc =? ?y) = false |- _ => rewrite X in H; clear X end. cbn [orb] in H.
  destruct (rc =? XL_COLINFO) eqn:Q.
  { apply (STAY _ H). intros s1 E. unfold o_colinfo in E. apply bind_ok in E as (sh & E & E1).
    assert (K : keeps (os_sheet s) sh).
    { apply Z.eqb_eq in Q. subst rc. apply (noise_step (cfg s) (os_sheet s) XL_COLINFO len d rs sh rs eq_refl).
      change (step (cfg s) (os_sheet s) XL_COLINFO len d rs) with (plain (h_colinfo (cfg s) (os_sheet s) d) rs). rewrite E. reflexivity. }
    destruct (negb (b_fmt (os_fmt s))); [assert (s1 = set_sheet s sh) as -> by congruence; split; [repeat split; auto|split; [reflexivity|exact K]]|].
    apply bind_ok in E1 as (first & _ & E1). apply bind_ok in E1 as (last & _ & E1).
    destruct (negb _); injection E1 as <-; (split; [repeat split; auto|split; [reflexivity|exact K]]). }
  destruct (rc =? XL_NOTE).
  { apply bind_ok in H as ((sh1 & rs1) & E & H). apply bind_ok in H as (s1 & EN & H). assert (s' = s1 /\ rs' = rs1) as [-> ->] by (clear - H; split; congruence).
    destruct (os_ensure_spec codec of_int (set_sheet s sh1) s1) as (T & (R1 & R2 & R3 & R4) & _); [exact (eq_ind_r (fun z => z < 80) L EB)|exact EN|].
    destruct (STEP (cfg_deriving codec num8 rk ragged s) (eq_ind_r (fun z => z < 80) L EB) _ _ E) as (K1 & K2).
    split; [eapply same_tables_trans; [|exact T]; repeat split; auto|]. split; [exact R2|]. split; [rewrite R1; exact K1|exact K2]. }
  destruct (rc =? XL_WINDOW2).
  { apply bind_ok in H as (? & _ & H). exact (OSTEP H). }
  assert (FMT : forall r, (match r with RFormat _ _ | RXf _ => False | _ => True end) -> forall s1, o_format codec s r = Ok s1 ->
    same_tables s s1 /\ os_ixfe s1 = os_ixfe s /\ keeps (os_sheet s) (os_sheet s1)).
  { intros r R s1 E. destruct (o_format_tables s s1 r) as (T & R1 & R2 & R3 & R4); [exact (eq_ind_r (fun z => z < 80) L EB)|exact E|exact R|].
    split; [exact T|]. split; [exact R2|]. rewrite R1. split; reflexivity. }
  destruct ((rc =? XL_FONT) || (rc =? XL_FONT_B3B4)); [exact (STAY _ H (FMT (RFont d) I))|].
  destruct (rc =? XL_PALETTE); [exact (STAY _ H (FMT (RPalette d) I))|].
  destruct (rc =? XL_BUILTINFMTCOUNT).
  { apply bind_ok in H as (? & _ & H). assert (s' = s /\ rs' = rs) as [-> ->] by (clear - H; split; congruence).
    split; [apply same_tables_refl|]. split; [reflexivity|]. split; [split; reflexivity|]. exists []. auto. }
  destruct (rc =? XL_DATEMODE).
  { apply (STAY _ H). intros s1 E. unfold handle_datemode in E. cbv zeta in E. rewrite bind_assoc in E. apply bind_ok in E as (x & _ & E).
    rewrite bind_assoc in E. apply bind_ok in E as (? & _ & E). cbn [bind] in E. injection E as <-.
    split; [repeat split; auto|]. split; [reflexivity|]. split; reflexivity. }
  destruct (rc =? XL_FILEPASS); [discriminate H|].
  destruct (rc =? XL_WRITEACCESS).
  { apply (STAY _ H). intros s1 E. apply bind_ok in E as (e & E & E1). injection E1 as <-.
    assert (en_encoding e = en_encoding (bk_enc (os_book s))) as EE.
    { unfold handle_writeaccess in E. replace (bv <? 80) with true in E by lia. destruct (negb _); [injection E as <-; reflexivity|].
      apply bind_ok in E as (? & _ & E). injection E as <-. reflexivity. }
    split; [repeat split; auto|]. split; [reflexivity|]. split; reflexivity. }
  destruct (rc =? XL_EFONT); [exact (STAY _ H (FMT (REfont d) I))|].
  destruct (rc =? XL_COLWIDTH).
  { apply (STAY _ H). intros s1 E. unfold h_colwidth in E. destruct (negb (b_fmt (os_fmt s))); [assert (s1 = s) as -> by congruence; split; [apply same_tables_refl|split; [reflexivity|split; reflexivity]]|].
    do 4 apply bind_ok in E as (? & _ & E). destruct (negb _); [assert (s1 = s) as -> by congruence; split; [apply same_tables_refl|split; [reflexivity|split; reflexivity]]|].
    match type of E with Ok (fold_left ?f ?l s) = _ => set (g := f) in E; set (cols := l) in E; assert (FOLD : forall l0 s0,
      same_tables s0 (fold_left g l0 s0) /\ os_ixfe (fold_left g l0 s0) = os_ixfe s0 /\ keeps (os_sheet s0) (os_sheet (fold_left g l0 s0))) end.
    { induction l0 as [|k l0 IH]; intros s0; cbn [fold_left].
      - split; [apply same_tables_refl|split; [reflexivity|split; reflexivity]].
      - destruct (IH (g s0 k)) as (I1 & I2 & I3 & I4). destruct (update_keeps s0 k (fun c => mk_colinfo x2 (ci_xf c) (ci_hidden c) (ci_bit1 c)
            (ci_outline_level c) (ci_collapsed c))) as (U1 & U2 & U3 & U4).
        split; [eapply same_tables_trans; [exact U1|exact I1]|]. split; [rewrite I2; exact U2|]. split; [rewrite I3; exact U3|rewrite I4; exact U4]. }
    assert (s1 = fold_left g cols s) as -> by congruence. apply FOLD. }
  destruct (rc =? XL_WINDOW2_B2); [|exact (OSTEP H)].
  apply (STAY _ H). intros s1 E. unfold h_window2_b2 in E. cbv zeta in E. do 8 apply bind_ok in E as (? & _ & E). injection E as <-.
  split; [repeat split; auto|]. split; [reflexivity|]. split; reflexivity.
Qed.

(** *** Rows and columns of BIFF2 *)

Lemma columndefault_keeps : forall bv real cols (s s' : ost) first d, bv < 30 -> sinv bv real s ->
  columndefault_loop s cols first d = Ok s' ->
  sinv bv real s' /\ ext bv s s' /\ os_ixfe s' = os_ixfe s /\ keeps (os_sheet s) (os_sheet s').
Proof.
  intros bv real cols. induction cols as [|k cols IH]; intros s s' first d L I H; cbn [columndefault_loop] in H.
  - injection H as <-. split; [exact I|]. split; [apply ext_refl|]. split; [reflexivity|split; reflexivity].
  - apply bind_ok in H as ((s1 & xf) & F & H). destruct (fixed_xf_spec _ _ _ _ _ _ _ F L I) as (A1 & A2 & A3 & A4 & _).
    destruct (update_keeps s1 k (fun c => mk_colinfo (ci_width c) xf (ci_hidden c) (ci_bit1 c) (ci_outline_level c) (ci_collapsed c))) as (U1 & U2 & U3 & U4).
    apply IH in H; [|exact L|eapply same_sinv; [exact U1|exact A1]]. destruct H as (K1 & K2 & K3 & K4 & K5).
    split; [exact K1|]. split; [eapply ext_trans; [exact A2|]; eapply ext_trans; [apply same_ext; exact U1|exact K2]|].
    split; [congruence|]. rewrite A3 in U3, U4. split; [rewrite K4; exact U3|rewrite K5; exact U4].
Qed.

Lemma use_step : forall bv real (s s' : ost) rc len d rs rs', bv < 30 -> use_code rc = true -> sinv bv real s ->
  old_step bv s rc len d rs = Ok (s', rs') ->
  rs' = rs /\ sinv bv real s' /\ ext bv s s' /\ os_ixfe s' = os_ixfe s /\ keeps (os_sheet s) (os_sheet s').
Proof.
  intros bv real s s' rc len d rs rs' L U I H. unfold use_code in U. apply orb_true_iff in U as [U|U]; apply Z.eqb_eq in U; subst rc.
  - change (old_step bv s XL_ROW_B2 len d rs) with (do s <- h_row_b2 codec num8 rk ragged s len d; Ok (s, rs)) in H.
    apply bind_ok in H as (s1 & H & H1). assert (s' = s1 /\ rs' = rs) as [-> ->] by (clear - H1; split; congruence). split; [reflexivity|].
    assert (SAME : Ok s = Ok s1 -> sinv bv real s1 /\ ext bv s s1 /\ os_ixfe s1 = os_ixfe s /\ keeps (os_sheet s) (os_sheet s1)).
    { intros E. assert (s1 = s) as -> by (clear - E; congruence). split; [exact I|]. split; [apply ext_refl|]. split; [reflexivity|split; reflexivity]. }
    unfold h_row_b2 in H. destruct (negb (b_fmt (os_fmt s))); [exact (SAME H)|].
    do 4 apply bind_ok in H as (? & _ & H). destruct (negb _); [exact (SAME H)|].
    apply bind_ok in H as ((s2 & xf) & F & H).
    assert (K : sinv bv real s2 /\ ext bv s s2 /\ os_ixfe s2 = os_ixfe s /\ os_sheet s2 = os_sheet s).
    { destruct (Z.land x2 1 =? 0).
      - assert (s2 = s) as -> by (clear - F; congruence). split; [exact I|]. split; [apply ext_refl|]. split; reflexivity.
      - destruct (len =? 18).
        + apply bind_ok in F as (? & _ & F). apply bind_ok in F as (? & _ & F).
          destruct (fixed_xf_spec _ _ _ _ _ _ _ F L I) as (A1 & A2 & A3 & A4 & _). auto.
        + destruct (fixed_xf_spec _ _ _ _ _ _ _ F L I) as (A1 & A2 & A3 & A4 & _). auto. }
    destruct K as (K1 & K2 & K3 & K4). cbv zeta in H.
    match type of H with Ok (set_sheet s2 ?x) = _ => set (sh := x) in H end.
    assert (s1 = set_sheet s2 sh) as -> by (clear - H; congruence).
    assert (same_tables s2 (set_sheet s2 sh)) as T by (repeat split; auto).
    split; [eapply same_sinv; [exact T|exact K1]|]. split; [eapply ext_trans; [exact K2|apply same_ext; exact T]|].
    split; [exact K3|]. subst sh. rewrite <- K4. split; reflexivity.
  - change (old_step bv s XL_COLUMNDEFAULT len d rs) with (do s <- h_columndefault s d; Ok (s, rs)) in H.
    apply bind_ok in H as (s1 & H & H1). assert (s' = s1 /\ rs' = rs) as [-> ->] by (clear - H1; split; congruence). split; [reflexivity|].
    unfold h_columndefault in H. destruct (negb (b_fmt (os_fmt s))).
    + assert (s1 = s) as -> by (clear - H; congruence). split; [exact I|]. split; [apply ext_refl|]. split; [reflexivity|split; reflexivity].
    + do 3 apply bind_ok in H as (? & _ & H). cbv zeta in H. eapply columndefault_keeps; eassumption.
Qed.

(** *** Embedded substreams and IXFE *)

Lemma embedded_step : forall bv (s s' : ost) rc len bof body rs rs', is_bof_code rc = true -> 4 <= zlen bof ->
  Forall (fun r => fst r <> XL_EOF) body ->
  old_step bv s rc len bof (map rec_of (body ++ [(XL_EOF, [])]) ++ rs) = Ok (s', rs') -> rs' = rs /\ s' = s.
Proof.
  intros bv s s' rc len bof body rs rs' B L F H.
  assert (E : old_step bv s rc len bof (map rec_of (body ++ [(XL_EOF, [])]) ++ rs) =
    do (sh, rs) <- (do _ <- need bof 4; do rs <- skip_to_eof (map rec_of (body ++ [(XL_EOF, [])]) ++ rs); Ok (os_sheet s, rs)); Ok (set_sheet s sh, rs)).
  { unfold is_bof_code in B. repeat (apply orb_true_iff in B as [B|B]); apply Z.eqb_eq in B; subst rc; reflexivity. }
  rewrite E in H. rewrite need_ok in H by lia. cbn [bind] in H. rewrite map_app, <- app_assoc in H. cbn [map app] in H.
  change (rec_of (XL_EOF, [])) with (XL_EOF, 0, @nil Z) in H. rewrite skip_body in H by exact F. cbn [bind] in H.
  assert (set_sheet s (os_sheet s) = s) as ES by (destruct s; reflexivity). rewrite ES in H. clear - H. split; congruence.
Qed.

Lemma ixfe_step : forall bv (s s' : ost) x len rs rs', u16v x ->
  old_step bv s XL_IXFE len (le_enc 2 x) rs = Ok (s', rs') -> rs' = rs /\ s' = set_ixfe s x.
Proof.
  intros bv s s' x len rs rs' U H.
  change (old_step bv s XL_IXFE len ?d rs) with (do s <- (do _ <- guard (zlen d =? 2) StructError; do x <- unpack_u16 d 0; Ok (set_ixfe s x)); Ok (s, rs)) in H.
  rewrite zlen_le_enc in H. change (Z.of_nat 2 =? 2) with true in H. cbn [guard bind] in H.
  pose proof (At_0 (le_enc 2 x)) as A. rewrite <- (app_nil_r (le_enc 2 x)) in A at 2. rewrite (At_u16 _ _ _ _ A) in H by exact U. cbn [bind] in H.
  split; congruence.
Qed.

(** *** Settings *)

(** Before the first cell. *)
Record before (bv : Z) (s : ost) : Prop := {
  be_grid : grid_of s = grid0;
  be_attrs : os_attrs s = [];
  be_version : os_version s = bv;
  be_bv : bk_bv (os_book s) = bv;
  be_range : 20 <= bv < 50;
  be_f : finv (os_fmt s);
  be_20 : bv = 20 -> b_xfs (os_fmt s) = [];
  be_2x : bv < 30 -> bv = 20 \/ bv = 21 }.

Definition nonempty {A} (l : list A) : bool := match l with [] => false | _ => true end.

Lemma before_sinv : forall bv (s : ost), before bv s -> sinv bv (nonempty (b_xfs (os_fmt s))) s.
Proof.
  intros bv s [B1 B2 B3 B4 B5 B6 B7 B8]. constructor; auto.
  - intros L. rewrite B3. destruct (B8 L); [left|right]; auto.
  - intros V. split; [exact B2|]. destruct (b_xfs (os_fmt s)); [reflexivity|discriminate].
  - intros V. assert (bv = 20) as E by congruence. specialize (B7 E). rewrite B7, B2. split; [reflexivity|]. split.
    + intros i x X. apply znth_Some_range in X. change (zlen (@nil xf)) with 0 in X. clear - X. lia.
    + intros a i X. discriminate X.
Qed.

(** What settings leave alone. *)
Definition setting_kept (s s' : ost) : Prop :=
  keeps (os_sheet s) (os_sheet s') /\ os_ixfe s' = os_ixfe s /\ os_attrs s' = os_attrs s /\ bk_bv (os_book s') = bk_bv (os_book s).

Lemma before_next : forall bv (s s' : ost), before bv s -> grid_of s' = grid0 -> os_attrs s' = os_attrs s -> bk_bv (os_book s') = bk_bv (os_book s) ->
  b_bv (os_fmt s') = b_bv (os_fmt s) -> finv (os_fmt s') -> (bv = 20 -> b_xfs (os_fmt s') = []) -> before bv s'.
Proof.
  intros bv s s' [B1 B2 B3 B4 B5 B6 B7 B8] G A V W F X. unfold os_version in *. constructor; auto; try congruence. unfold os_version. congruence.
Qed.

Lemma epilogue_finv : forall f, finv f -> finv (xf_epilogue f).
Proof.
  intros f [F1 F2 F3 F4]. unfold xf_epilogue.
  set (types := fold_left _ _ _).
  assert (T : forall i, dget Z.eqb types i = match znth (b_xfs f) i with
    | Some x => Some (xf_cell_type f (xf_format_key x) XL_CELL_TEXT) | None => dget Z.eqb (b_xftype f) i end).
  { intros i. unfold types. rewrite (dget_fold_index (fun x => xf_cell_type f (xf_format_key x) XL_CELL_TEXT) _ _ _ 0).
    - rewrite Z.sub_0_r. reflexivity.
    - intros j x X. rewrite (F1 _ _ X). reflexivity. }
  clearbody types. cbv zeta. constructor.
  - intros i x X. cbn in X. rewrite znth_map in X. destruct (znth (b_xfs f) i) as [y|] eqn:Y; [|discriminate X]. injection X as <-.
    rewrite (proj1 (conform_fields _ _ _)). apply (F1 _ _ Y).
  - intros i x g X G. cbn in X, G |- *. rewrite znth_map in X. destruct (znth (b_xfs f) i) as [y|] eqn:Y; [|discriminate X]. injection X as <-.
    destruct (conform_fields (b_fmt f) (zlen (b_xfs f)) y) as (C1 & C2 & _). rewrite C2 in G |- *. rewrite T, Y.
    unfold xf_cell_type. rewrite G. left. rewrite (good_cellty _ (F3 _ _ G)). reflexivity.
  - intros k g G. exact (F3 _ _ G).
  - intros i t D. cbn in D |- *. rewrite T in D. unfold zlen. rewrite map_length. fold (zlen (b_xfs f)).
    destruct (znth (b_xfs f) i) as [y|] eqn:Y; [apply znth_Some_range in Y; lia|]. exact (F4 _ _ D).
Qed.

Lemma setting_step : forall bv (s s' : ost) rc len d rs rs', setting_code rc = true -> (bv = 20 -> is_xf_code rc = false) ->
  before bv s -> (is_format_code rc = true -> b_xfs (os_fmt s) = []) ->
  old_step bv s rc len d rs = Ok (s', rs') ->
  rs' = rs /\ before bv s' /\ os_ixfe s' = os_ixfe s /\ merged_of s' = merged_of s /\ b_fmt (os_fmt s') = b_fmt (os_fmt s) /\
  nonempty (b_xfs (os_fmt s')) = nonempty (b_xfs (os_fmt s)) || is_xf_code rc.
Proof.
  intros bv s s' rc len d rs rs' SC X20 B FF H. pose proof (be_range _ _ B) as BR. pose proof (be_bv _ _ B) as BB.
  assert (STAY : forall m, (do s <- m; Ok (s, rs)) = Ok (s', rs') -> m = Ok s' /\ rs' = rs).
  { intros m E. apply bind_ok in E as (s1 & E & E1). assert (s' = s1 /\ rs' = rs) as [-> ->] by (clear - E1; split; congruence). auto. }
  assert (XF : old_step bv s rc len d rs = (do s <- o_format codec s (RXf d); Ok (s, rs)) -> is_xf_code rc = true ->
    rs' = rs /\ before bv s' /\ os_ixfe s' = os_ixfe s /\ merged_of s' = merged_of s /\ b_fmt (os_fmt s') = b_fmt (os_fmt s) /\
    nonempty (b_xfs (os_fmt s')) = nonempty (b_xfs (os_fmt s)) || is_xf_code rc).
  { intros E XC. rewrite E in H. apply STAY in H as [H ->]. split; [reflexivity|]. clear E STAY.
    unfold o_format, format_record in H. cbn [bind] in H. apply bind_ok in H as (b & H & H1). assert (s' = set_book s b) as -> by (clear - H1; congruence). clear H1.
    apply bind_ok in H as (f & F & H). assert (b = BookModel.with_fmt (os_book s) f) as -> by (clear - H; congruence). clear H.
    cbn [fstep] in F. fold (os_fmt s) in F. apply handle_xf_inv in F as (b0 & x & E0 & RX & E1 & E2 & _ & _ & _ & E3 & _ & _ & E4 & _ & E5 & _).
    assert (b0 = os_fmt s) as ->.
    { rewrite E0. pose proof (be_version _ _ B) as V. unfold os_version in V. rewrite V. replace (bv >=? 50) with false by lia. reflexivity. }
    clear E0.
    assert (FI : finv f).
    { pose proof (be_f _ _ B) as [F1 F2 F3 F4]. pose proof (zlen_nonneg (b_xfs (os_fmt s))). apply read_xf_index in RX.
      assert (DG : forall i, dget Z.eqb (b_xftype f) i = if i =? zlen (b_xfs (os_fmt s)) then Some (xf_cell_type (os_fmt s) (xf_format_key x) XL_CELL_NUMBER) else dget Z.eqb (b_xftype (os_fmt s)) i).
      { intros i. rewrite E5. unfold dset. cbn [dget]. reflexivity. }
      constructor.
      - intros i y Y. rewrite E4 in Y. apply znth_app_inv in Y as [Y|[-> ->]]; [exact (F1 _ _ Y)|]. destruct (dget _ _ _); exact RX.
      - intros i y g Y G. rewrite DG, E3 in *. rewrite E4 in Y. apply znth_app_inv in Y as [Y|[-> ->]].
        + pose proof (znth_Some_range _ _ _ Y). replace (i =? zlen (b_xfs (os_fmt s))) with false by lia. apply (F2 _ _ _ Y G).
        + rewrite Z.eqb_refl. unfold xf_cell_type. destruct (dget Z.eqb (b_formats (os_fmt s)) (xf_format_key x)) as [g0|] eqn:G0.
          * rewrite G0 in G. injection G as <-. rewrite (good_cellty _ (F3 _ _ G0)). auto.
          * right. split; reflexivity.
      - intros k g G. rewrite E3 in G. exact (F3 _ _ G).
      - intros i t D. rewrite DG in D. rewrite E4, zlen_app. change (zlen [?a]) with 1.
        destruct (i =? zlen (b_xfs (os_fmt s))) eqn:Ei; [lia|]. apply F4 in D. lia. }
    split; [|split; [reflexivity|split; [reflexivity|split; [exact E2|]]]].
    - eapply before_next; [exact B|exact (be_grid _ _ B)|reflexivity|reflexivity|exact E1|exact FI|].
      intros V. specialize (X20 V). congruence.
    - rewrite XC, orb_true_r. change (os_fmt (set_book s (BookModel.with_fmt (os_book s) f))) with f. rewrite E4. destruct (b_xfs (os_fmt s)); reflexivity. }
  assert (FMT : old_step bv s rc len d rs = (do s <- o_format codec s (RFormat d (rc =? XL_FORMAT2)); Ok (s, rs)) -> is_format_code rc = true -> is_xf_code rc = false ->
    rs' = rs /\ before bv s' /\ os_ixfe s' = os_ixfe s /\ merged_of s' = merged_of s /\ b_fmt (os_fmt s') = b_fmt (os_fmt s) /\
    nonempty (b_xfs (os_fmt s')) = nonempty (b_xfs (os_fmt s)) || is_xf_code rc).
  { intros E FC XC. rewrite E in H. apply STAY in H as [H ->]. split; [reflexivity|]. clear E STAY XF. specialize (FF FC).
    unfold o_format, format_record in H. apply bind_ok in H as (b & H & H1). assert (s' = set_book s b) as -> by (clear - H1; congruence). clear H1.
    apply bind_ok in H as (b1 & EN & H). apply bind_ok in H as (f & F & H). assert (b = BookModel.with_fmt b1 f) as -> by (clear - H; congruence). clear H.
    destruct (os_ensure_spec codec of_int s (set_book s b1)) as (T & _); [lia|unfold os_ensure; rewrite EN; reflexivity|].
    destruct T as (T1 & T2 & T3 & T4 & T5 & T6 & T7 & T8). unfold os_fmt in T1, T2, T3, T4, T5. cbn [set_book os_book] in T1, T2, T3, T4, T5, T7.
    cbn [fstep] in F. unfold handle_format in F. cbv zeta in F. apply bind_ok in F as (k & _ & F). apply bind_ok in F as (str & _ & F).
    assert (b_bv f = b_bv (bk_fmt b1) /\ b_fmt f = b_fmt (bk_fmt b1) /\ b_xfs f = b_xfs (bk_fmt b1) /\ b_xftype f = b_xftype (bk_fmt b1) /\
      b_formats f = dset (b_formats (bk_fmt b1)) k (mk_format k (if is_date_format_string str then FDT else FGE) (Some str))) as (G1 & G2 & G3 & G4 & G5)
      by (injection F as <-; repeat split).
    pose proof (be_f _ _ B) as [F1 F2 F3 F4]. unfold os_fmt in F1, F2, F3, F4, FF.
    split; [|split; [reflexivity|split; [reflexivity|split]]].
    - eapply before_next; [exact B|exact (be_grid _ _ B)|reflexivity|exact T7|cbn; rewrite G1; exact T1| |].
      + change (os_fmt (set_book s (BookModel.with_fmt b1 f))) with f. constructor.
        * intros i x X. rewrite G3, T3, FF in X. apply znth_Some_range in X. change (zlen (@nil xf)) with 0 in X. lia.
        * intros i x g X. rewrite G3, T3, FF in X. apply znth_Some_range in X. change (zlen (@nil xf)) with 0 in X. lia.
        * intros k0 g G. rewrite G5, T4 in G. unfold dset in G. cbn [dget] in G. destruct (k0 =? k); [|exact (F3 _ _ G)].
          injection G as <-. exists str. split; [reflexivity|]. cbn [fm_type]. destruct (is_date_format_string str); auto.
        * intros i t D. rewrite G4, T5 in D. rewrite G3, T3. exact (F4 _ _ D).
      + intros _. cbn. rewrite G3, T3. exact FF.
    - cbn. rewrite G2. exact T2.
    - rewrite XC, orb_false_r. cbn. rewrite G3, T3. reflexivity. }
  assert (DIM : old_step bv s rc len d rs = (do (s, rs) <- o_step codec num8 rk ragged s rc len d rs; if len =? 0 then Ok (s, rs)
    else if ((bv =? 21) || (bv =? 30) || (bv =? 40)) && negb (zlen (b_xfs (os_fmt s)) =? 0) && negb (os_done s) then Ok (epilogue s, rs) else Ok (s, rs)) ->
    (rc = XL_DIMENSION \/ rc = XL_DIMENSION2) ->
    rs' = rs /\ before bv s' /\ os_ixfe s' = os_ixfe s /\ merged_of s' = merged_of s /\ b_fmt (os_fmt s') = b_fmt (os_fmt s) /\
    nonempty (b_xfs (os_fmt s')) = nonempty (b_xfs (os_fmt s)) || is_xf_code rc).
  { intros E DC. rewrite E in H. clear E XF FMT STAY. assert (is_xf_code rc = false) as XC by (destruct DC as [-> | ->]; reflexivity). rewrite XC, orb_false_r.
    apply bind_ok in H as ((s1 & rs1) & H & H1). unfold o_step in H. apply bind_ok in H as ((sh & rs2) & H & H2).
    assert (s1 = set_sheet s sh /\ rs1 = rs2) as [-> ->] by (clear - H2; split; congruence). clear H2.
    destruct (dim_code (cfg s) rc (os_sheet s) len d rs DC) as [_ E2]. rewrite E2 in H. unfold plain in H. apply bind_ok in H as (sh1 & H & H2).
    assert (sh = sh1 /\ rs2 = rs) as [-> ->] by (clear - H2; split; congruence). clear H2.
    destruct (dim_step _ _ _ _ _ H (be_grid _ _ B)) as (G & M & _).
    assert (B1 : before bv (set_sheet s sh1)).
    { eapply before_next; [exact B|exact G|reflexivity|reflexivity|reflexivity|exact (be_f _ _ B)|exact (be_20 _ _ B)]. }
    assert (RET : forall s2, Ok (s2, rs) = Ok (s', rs') -> s' = s2 /\ rs' = rs) by (clear; intros s2 E; split; congruence).
    destruct (len =? 0); [apply RET in H1 as [-> ->]; split; [reflexivity|]; split; [exact B1|]; auto|].
    destruct (_ && _ && _); [|apply RET in H1 as [-> ->]; split; [reflexivity|]; split; [exact B1|]; auto].
    apply RET in H1 as [-> ->]. split; [reflexivity|]. split; [|split; [reflexivity|split; [exact M|split; [reflexivity|]]]].
    - eapply before_next; [exact B1|exact G|reflexivity|reflexivity|reflexivity|apply epilogue_finv; exact (be_f _ _ B)|].
      intros V. change (map (conform (b_fmt (os_fmt s)) (zlen (b_xfs (os_fmt s)))) (b_xfs (os_fmt s)) = []). rewrite (be_20 _ _ B V). reflexivity.
    - change (nonempty (map (conform (b_fmt (os_fmt s)) (zlen (b_xfs (os_fmt s)))) (b_xfs (os_fmt s))) = nonempty (b_xfs (os_fmt s))). destruct (b_xfs (os_fmt s)); reflexivity. }
  unfold setting_code, is_xf_code, is_format_code in SC. repeat (apply orb_true_iff in SC as [SC|SC]); apply Z.eqb_eq in SC; subst rc.
  - apply XF; reflexivity.
  - apply XF; reflexivity.
  - apply XF; reflexivity.
  - apply FMT; reflexivity.
  - apply FMT; reflexivity.
  - clear XF FMT DIM. change (old_step bv s XL_STYLE len d rs) with (do s <- o_format codec (if os_done s then s else epilogue s) (RStyle d); Ok (s, rs)) in H.
    apply STAY in H as [H ->]. split; [reflexivity|]. change (is_xf_code XL_STYLE) with false. rewrite orb_false_r.
    set (s1 := if os_done s then s else epilogue s) in *.
    assert (B1 : before bv s1 /\ os_ixfe s1 = os_ixfe s /\ merged_of s1 = merged_of s /\ b_fmt (os_fmt s1) = b_fmt (os_fmt s) /\
      nonempty (b_xfs (os_fmt s1)) = nonempty (b_xfs (os_fmt s)) /\ grid_of s1 = grid0 /\ bk_bv (os_book s1) = bv).
    { unfold s1. destruct (os_done s); [split; [exact B|]; conjs; try reflexivity; [exact (be_grid _ _ B)|exact BB]|].
      split; [eapply before_next; [exact B|exact (be_grid _ _ B)|reflexivity|reflexivity|reflexivity|apply epilogue_finv; exact (be_f _ _ B)|]|].
      - intros V. change (map (conform (b_fmt (os_fmt s)) (zlen (b_xfs (os_fmt s)))) (b_xfs (os_fmt s)) = []). rewrite (be_20 _ _ B V). reflexivity.
      - split; [reflexivity|]. split; [reflexivity|]. split; [reflexivity|]. split; [|split; [exact (be_grid _ _ B)|exact BB]]. change (nonempty (map (conform (b_fmt (os_fmt s)) (zlen (b_xfs (os_fmt s)))) (b_xfs (os_fmt s))) = nonempty (b_xfs (os_fmt s))). destruct (b_xfs (os_fmt s)); reflexivity. }
    destruct B1 as (B1 & I1 & M1 & T1 & N1 & G1 & V1). clearbody s1.
    destruct (o_format_tables s1 s' (RStyle d)) as ((U1 & U2 & U3 & U4 & U5 & U6 & U7 & _) & R1 & R2 & R3 & R4); [lia|exact H|exact I|].
    split; [|split; [congruence|split; [rewrite R1; exact M1|split; [congruence|rewrite U3; exact N1]]]].
    eapply before_next; [exact B1|rewrite R1; exact G1|exact U6|exact U7|exact U1|eapply same_finv; [exact U3|exact U4|exact U5|exact (be_f _ _ B1)]|].
    intros V. rewrite U3. exact (be_20 _ _ B1 V).
  - clear XF FMT DIM. change (old_step bv s XL_CODEPAGE len d rs) with
      (do s <- (do e <- handle_codepage codec bv (bk_enc (os_book s)) d; Ok (set_book s (with_enc (os_book s) e))); Ok (s, rs)) in H.
    apply STAY in H as [H ->]. split; [reflexivity|]. change (is_xf_code XL_CODEPAGE) with false. rewrite orb_false_r.
    apply bind_ok in H as (e & _ & H). assert (s' = set_book s (with_enc (os_book s) e)) as -> by (clear - H; congruence).
    split; [|auto]. eapply before_next; [exact B|exact (be_grid _ _ B)|reflexivity|reflexivity|reflexivity|exact (be_f _ _ B)|exact (be_20 _ _ B)].
  - apply DIM; [reflexivity|auto].
  - apply DIM; [reflexivity|auto].
Qed.
End Turns.
