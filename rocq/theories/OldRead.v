(** The loop of OldSheet.v over the records of a content. *)
From Verif Require Import Base BaseFacts Text Strings Framing GridModel GridFacts PropGrid SheetObjects SheetModel SheetFacts
  SheetSteps PropSheet FormatModel FormatFacts FormulaModel BookModel BookApi PropSheetList PropFormat OldSheet OldXf OldContent OldSteps OldTurns.

Section Read.
Context {N : Type}.
Variable codec : list Z -> list Z -> result (list Z).
Variable num8 : list Z -> N.
Variable rk : list Z -> result N.
Variable of_int : Z -> N.
Variable ragged : bool.
Notation ost := (@ost N).
Notation store := (@store (value N)).
Notation cfg := (cfg codec num8 rk ragged).
Notation old_step := (old_step codec num8 rk of_int ragged).
Notation old_loop := (old_loop codec num8 rk of_int ragged).
Notation holds := (holds codec num8 rk of_int).
Notation wrote := (wrote codec num8 rk of_int ragged).
Notation grid_of s := (sh_grid (os_sheet s)).
Notation merged_of s := (f_merged (sh_fmt (os_sheet s))).

(** *** A turn takes records from the front only *)

Lemma Local_string_record : Local string_record.
Proof.
  unfold string_record. apply (Local_then _ _ Local_next). intros [[rc len] d]. cbn beta iota.
  destruct ((rc =? XL_STRING) || (rc =? XL_STRING_B2)); [apply Local_ret|]. apply Local_const. intros _.
  apply (Local_then _ _ Local_next). intros [[rc2 len2] d2]. cbn beta iota.
  destruct ((rc2 =? XL_STRING) || (rc2 =? XL_STRING_B2)); [apply Local_ret|apply Local_err].
Qed.

Lemma Local_o_formula : forall bv (s : ost) d, Local (o_formula codec num8 rk ragged bv s d).
Proof.
  intros bv s d. unfold o_formula. apply Local_const; intros _. apply Local_const; intros r. apply Local_const; intros k.
  apply Local_const; intros [[s1 xf] res].
  destruct (list_eqb _ _); [|apply Local_const; intros; apply Local_ret].
  apply Local_const; intros b.
  destruct (b =? 0).
  { apply (Local_then _ _ Local_string_record). intros d2. cbn beta iota zeta. apply Local_const; intros n. apply Local_const; intros s2.
    apply (Local_then _ _ (Local_string_loop _ _ _ _ _ _)). intros t. cbn beta iota. apply Local_const; intros; apply Local_ret. }
  destruct (b =? 1); [apply Local_const; intros; apply Local_const; intros; apply Local_ret|].
  destruct (b =? 2); [apply Local_const; intros; apply Local_const; intros; apply Local_ret|].
  destruct (b =? 3); [apply Local_const; intros; apply Local_ret|apply Local_err].
Qed.

Lemma Local_o_step : forall (s : ost) rc len d, Local (o_step codec num8 rk ragged s rc len d).
Proof.
  intros s rc len d. unfold o_step. apply (Local_then _ _ (Local_step _ _ _ _ _)). intros sh. cbn beta iota. apply Local_ret.
Qed.

Lemma Local_stay : forall (m : result ost), Local (fun rs => do s <- m; Ok (s, rs)).
Proof. intros m. apply Local_const. intros a. apply Local_ret. Qed.

Lemma Local_old_step : forall bv (s : ost) rc len d, Local (old_step bv s rc len d).
Proof.
  intros bv s rc len d. unfold OldSheet.old_step. cbv zeta.
  destruct (_ || _); [apply Local_const; intros _; apply Local_const; intros s1; apply Local_o_step|].
  destruct (is_formula_code rc); [apply Local_o_formula|].
  destruct (rc =? XL_COLINFO); [apply Local_stay|].
  destruct (_ || _).
  { apply (Local_then _ _ (Local_o_step _ _ _ _)). intros s1. cbn beta iota. destruct (len =? 0); [apply Local_ret|].
    destruct (_ && _ && _); apply Local_ret. }
  destruct (rc =? XL_NOTE).
  { apply (Local_then _ _ (Local_step _ _ _ _ _)). intros sh. cbn beta iota. apply Local_const; intros s1. apply Local_ret. }
  destruct (rc =? XL_WINDOW2); [apply Local_const; intros _; apply Local_o_step|].
  repeat match goal with
  | |- Local (fun rs => do s <- _; Ok (s, rs)) => apply Local_stay
  | |- Local (fun rs => if ?b then _ else _) => destruct b
  | |- Local (fun rs => o_step _ _ _ _ _ _ _ _ rs) => apply Local_o_step
  | |- Local (fun rs => Err _) => apply Local_err
  | |- Local (fun rs => do _ <- need _ _; Ok (_, rs)) => apply Local_const; intros; apply Local_ret
  end.
Qed.

Lemma old_step_length : forall bv (s : ost) rc len d rs s' rs', old_step bv s rc len d rs = Ok (s', rs') -> (List.length rs' <= List.length rs)%nat.
Proof.
  intros. destruct (Local_old_step _ _ _ _ _ _ _ _ H) as (used & -> & _). rewrite app_length. lia.
Qed.

Lemma old_loop_fuel : forall f bv (s : ost) rs, (List.length rs < f)%nat -> old_loop f bv s rs = old_loop (S (List.length rs)) bv s rs.
Proof.
  assert (forall n f g bv (s : ost) rs, (List.length rs <= n)%nat -> (List.length rs < f)%nat -> (List.length rs < g)%nat ->
            old_loop f bv s rs = old_loop g bv s rs) as K.
  { induction n as [|n IH]; intros f g bv s rs Hn Hf Hg.
    - destruct rs; [|cbn in Hn; lia]. destruct f; [lia|]. destruct g; [lia|]. reflexivity.
    - destruct f as [|f]; [lia|]. destruct g as [|g]; [lia|]. destruct rs as [|[[rc len] d] rs]; [reflexivity|].
      cbn [OldSheet.old_loop next bind List.length] in *. destruct (rc =? XL_EOF); [reflexivity|].
      destruct (old_step bv s rc len d rs) as [[s1 rs1]|e] eqn:E; [|reflexivity]. cbn [bind].
      apply old_step_length in E. apply IH; lia. }
  intros f bv s rs H. apply (K (List.length rs)); lia.
Qed.

Definition old_all (bv : Z) (s : ost) (rs : list record) : result ost := old_loop (S (List.length rs)) bv s rs.

Lemma old_all_cons : forall bv (s : ost) rc len d rs, old_all bv s ((rc, len, d) :: rs) =
  if rc =? XL_EOF then Ok s else do (s, rs) <- old_step bv s rc len d rs; old_all bv s rs.
Proof.
  intros. unfold old_all. cbn [List.length]. change (old_loop (S (S (List.length rs))) bv s ((rc, len, d) :: rs)) with
    (if rc =? XL_EOF then Ok s else do (s, rs0) <- old_step bv s rc len d rs; old_loop (S (List.length rs)) bv s rs0).
  destruct (rc =? XL_EOF); [reflexivity|].
  destruct (old_step bv s rc len d rs) as [[s1 rs1]|e] eqn:E; [|reflexivity]. cbn [bind].
  apply old_loop_fuel. apply old_step_length in E. unfold lt. apply le_n_S. exact E.
Qed.

(** *** The records of a content *)

Lemma oenc_head : forall bv it, oitem_ok bv it -> exists rc d l, oenc it = (rc, d) :: l /\ rc <> XL_EOF /\ rc <> XL_CONTINUE /\
  (rc = XL_NOTE -> exists d, it = ONoise rc d).
Proof.
  intros bv it OK.
  assert (D : forall rc, rc <> XL_EOF /\ rc <> XL_CONTINUE /\ rc <> XL_NOTE -> rc <> XL_EOF /\ rc <> XL_CONTINUE /\ (rc = XL_NOTE -> exists d, it = ONoise rc d)) by tauto.
  unfold XL_EOF, XL_CONTINUE, XL_NOTE in *.
  destruct it as [c|rc c u rest bt code n|x|rc d|rc d|rc bof body|rc d]; cbn [oenc]; do 3 eexists; (split; [reflexivity|]).
  - apply D. destruct (oc_ref c), (oc_kind c); vm_compute; repeat split; discriminate.
  - destruct OK as (F & _). apply D. unfold is_formula_code in F. repeat (apply orb_true_iff in F as [F|F]); apply Z.eqb_eq in F; subst rc; vm_compute; repeat split; discriminate.
  - apply D. vm_compute; repeat split; discriminate.
  - destruct OK as (F & _). apply D. unfold setting_code, is_xf_code, is_format_code in F.
    repeat (apply orb_true_iff in F as [F|F]); apply Z.eqb_eq in F; subst rc; vm_compute; repeat split; discriminate.
  - destruct OK as (F & _). apply D. unfold use_code in F. repeat (apply orb_true_iff in F as [F|F]); apply Z.eqb_eq in F; subst rc; vm_compute; repeat split; discriminate.
  - destruct OK as (F & _). apply D. unfold is_bof_code in F. repeat (apply orb_true_iff in F as [F|F]); apply Z.eqb_eq in F; subst rc; vm_compute; repeat split; discriminate.
  - cbn [oitem_ok] in OK. split; [|split; [|eauto]].
    + intros ->. vm_compute in OK. discriminate OK.
    + intros ->. vm_compute in OK. discriminate OK.
Qed.

Notation recs items len d rest := (map rec_of (flat_map oenc items) ++ (XL_EOF, len, d) :: rest).

Lemma recs_no_continue : forall bv items len d rest, Forall (oitem_ok bv) items -> no_continue (recs items len d rest).
Proof.
  intros bv items len d rest OK. destruct OK as [|it l O OK]; cbn [flat_map map app no_continue].
  - discriminate.
  - destruct (oenc_head _ _ O) as (rc & dd & l0 & -> & _ & H & _). exact H.
Qed.

Lemma strip_notes : forall bv used items rs1 len d rest, Forall (oitem_ok bv) items ->
  recs items len d rest = used ++ rs1 -> Forall (fun r : record => fst (fst r) = XL_NOTE) used ->
  exists n1 items2, items = n1 ++ items2 /\ rs1 = recs items2 len d rest /\ Forall (fun it => exists rc d, it = ONoise rc d) n1.
Proof.
  intros bv. induction used as [|u used IH]; intros items rs1 len d rest OK E F.
  - exists [], items. cbn [app] in *. auto.
  - inversion F as [|? ? Fu F']; subst. destruct items as [|it items].
    + cbn in E. injection E as <- _. discriminate Fu.
    + inversion OK as [|? ? O OK']; subst. destruct (oenc_head _ _ O) as (rc & dd & l & Ee & _ & _ & Hn).
      cbn [flat_map] in E. rewrite Ee in E. cbn [app map] in E. unfold rec_of at 1 in E. cbn [fst snd] in E. injection E as <- E. cbn [fst] in Fu.
      destruct (Hn Fu) as (dn & ->). cbn [oenc] in Ee. assert (l = []) as -> by congruence. cbn [app map] in E.
      destruct (IH _ _ _ _ _ OK' E F') as (n1 & i2 & -> & -> & G). exists (ONoise rc dn :: n1), i2.
      split; [reflexivity|]. split; [reflexivity|]. constructor; eauto.
Qed.

Lemma notes_nothing : forall fmt n1 items, Forall (fun it => exists rc d, it = ONoise rc d) n1 ->
  (forall ix, written fmt ix (n1 ++ items) = written fmt ix items) /\ existsb is_xf (n1 ++ items) = existsb is_xf items /\
  existsb is_setting (n1 ++ items) = existsb is_setting items /\ existsb is_format (n1 ++ items) = existsb is_format items /\
  (settings_first (n1 ++ items) -> settings_first items) /\ (formats_first (n1 ++ items) -> formats_first items).
Proof.
  intros fmt n1 items F. induction F as [|it l (rc & d & ->) F IH].
  - cbn [app]. tauto.
  - cbn [app written existsb settings_first formats_first is_xf is_setting is_format orb]. tauto.
Qed.

(** Where the loop stands: settings may still come, or cells have been met. *)
Definition stands (bv : Z) (real : bool) (s : ost) (items : list oitem) : Prop :=
  before bv s /\ settings_first items /\ formats_first items /\ nonempty (b_xfs (os_fmt s)) || existsb is_xf items = real /\
    (nonempty (b_xfs (os_fmt s)) = true -> existsb is_format items = false) \/
  sinv bv real s /\ existsb is_setting items = false.

Lemma no_settings_no_xf : forall items, existsb is_setting items = false -> existsb is_xf items = false.
Proof.
  induction items as [|it l IH]; intros H; [reflexivity|]. cbn [existsb] in *. apply orb_false_iff in H as [H1 H2]. rewrite (IH H2), orb_false_r.
  destruct it; try reflexivity. discriminate H1.
Qed.

(** A cell has been met. *)
Lemma stands_sinv : forall bv real s it items, stands bv real s (it :: items) ->
  match it with OCell _ | OFormula _ _ _ _ _ _ _ | OUse _ _ => True | _ => False end ->
  sinv bv real s /\ existsb is_setting items = false.
Proof.
  intros bv real s it items [(B & SF & FF & R & _)|[I S]] T.
  - assert (existsb is_setting items = false) as S by (destruct it; try contradiction; exact SF).
    split; [|exact S]. pose proof (before_sinv _ _ B) as I. cbn [existsb] in R. rewrite (no_settings_no_xf _ S) in R.
    assert (is_xf it = false) as X by (destruct it; try contradiction; reflexivity). rewrite X in R. cbn [orb] in R. rewrite orb_false_r in R. subst real. exact I.
  - cbn [existsb] in S. apply orb_false_iff in S as [_ S]. auto.
Qed.

Lemma stands_end : forall bv real s, stands bv real s [] -> sinv bv real s.
Proof.
  intros bv real s [(B & _ & _ & R & _)|[I _]]; [|exact I]. cbn [existsb] in R. rewrite orb_false_r in R. subst real. apply before_sinv. exact B.
Qed.

Lemma holds_all_ext : forall bv real (s s' : ost) ws sts, ext bv s s' -> Forall2 (holds bv real s) ws sts -> Forall2 (holds bv real s') ws sts.
Proof. intros bv real s s' ws sts E F. induction F; constructor; auto. eapply holds_ext; eauto. Qed.

Lemma items_read : forall bv real items (s s' : ost) len d rest, Forall (oitem_ok bv) items -> stands bv real s items ->
  old_all bv s (recs items len d rest) = Ok s' ->
  exists hist, put_cells vempty ragged (b_fmt (os_fmt s)) 16384 256 (grid_of s) hist = Ok (grid_of s') /\
    Forall2 (holds bv real s') (written (b_fmt (os_fmt s)) (os_ixfe s) items) hist /\
    merged_of s' = merged_of s /\ b_fmt (os_fmt s') = b_fmt (os_fmt s) /\ sinv bv real s' /\
    (sinv bv real s -> existsb is_setting items = false -> ext bv s s').
Proof.
  intros bv real items. remember (List.length items) as n eqn:En. revert items En.
  induction n as [n IH] using (well_founded_induction Wf_nat.lt_wf). intros items En s s' len d rest OK ST H.
  destruct items as [|it items].
  - cbn [flat_map map app] in H. rewrite old_all_cons in H. cbn in H. assert (s' = s) as -> by (clear - H; congruence).
    exists []. cbn [put_cells written]. split; [reflexivity|]. split; [constructor|]. split; [reflexivity|]. split; [reflexivity|].
    split; [apply stands_end; exact ST|]. intros _ _. apply ext_refl.
  - inversion OK as [|? ? O OK']; subst. destruct (oenc_head _ _ O) as (rc0 & d0 & l0 & EH & NE & _).
    assert (HH : exists s1 rs1, old_step bv s rc0 (zlen d0) d0 (map rec_of l0 ++ recs items len d rest) = Ok (s1, rs1) /\ old_all bv s1 rs1 = Ok s').
    { cbn [flat_map] in H. rewrite EH in H. cbn [app map] in H. unfold rec_of at 1 in H. cbn [fst snd] in H. rewrite map_app, <- app_assoc in H.
      rewrite old_all_cons in H. replace (rc0 =? XL_EOF) with false in H by lia. apply bind_ok in H as ((s1 & rs1) & H1 & H2). eauto. }
    clear H. destruct HH as (s1 & rs1 & H & HR).
    pose proof (fun items2 L s1 => IH (List.length items2) L items2 eq_refl s1 s' len d rest) as IH'. clear IH. cbn [List.length] in IH'.
    (* a cell *)
    assert (CELL : forall c, sinv bv real s -> existsb is_setting items = false -> rs1 = recs items len d rest -> wrote bv real s (os_ixfe s, c) s1 ->
      exists hist, put_cells vempty ragged (b_fmt (os_fmt s)) 16384 256 (grid_of s) hist = Ok (grid_of s') /\
        Forall2 (holds bv real s') ((os_ixfe s, c) :: written (b_fmt (os_fmt s)) (os_ixfe s) items) hist /\
        merged_of s' = merged_of s /\ b_fmt (os_fmt s') = b_fmt (os_fmt s) /\ sinv bv real s' /\
        (sinv bv real s -> existsb is_setting (it :: items) = false -> ext bv s s')).
    { intros c I S -> (st & P & HO & E & I1 & X & M).
      destruct (IH' items ltac:(lia) s1 OK' (or_intror (conj I1 S)) HR) as (hist & P2 & F2 & M2 & B2 & I2 & E2).
      pose proof (ex_fmt _ _ _ (proj1 E)) as FE. rewrite FE, X in *.
      exists (st :: hist). split; [cbn [put_cells]; rewrite P; exact P2|]. split; [constructor; [|exact F2]; eapply holds_ext; [exact (E2 I1 S)|exact HO]|].
      split; [congruence|]. split; [congruence|]. split; [exact I2|]. intros _ _. eapply ext_trans; [exact E|exact (E2 I1 S)]. }
    (* nothing written *)
    assert (QUIET : forall items2, (List.length items2 <= List.length items)%nat -> Forall (oitem_ok bv) items2 -> stands bv real s1 items2 -> rs1 = recs items2 len d rest ->
      grid_of s1 = grid_of s -> merged_of s1 = merged_of s -> b_fmt (os_fmt s1) = b_fmt (os_fmt s) ->
      (existsb is_setting (it :: items) = false -> existsb is_setting items2 = false) ->
      (sinv bv real s -> existsb is_setting (it :: items) = false -> ext bv s s1 /\ sinv bv real s1) ->
      exists hist, put_cells vempty ragged (b_fmt (os_fmt s)) 16384 256 (grid_of s) hist = Ok (grid_of s') /\
        Forall2 (holds bv real s') (written (b_fmt (os_fmt s)) (os_ixfe s1) items2) hist /\
        merged_of s' = merged_of s /\ b_fmt (os_fmt s') = b_fmt (os_fmt s) /\ sinv bv real s' /\
        (sinv bv real s -> existsb is_setting (it :: items) = false -> ext bv s s')).
    { intros items2 L OK2 ST2 -> G M FE SS EE.
      destruct (IH' items2 ltac:(lia) s1 OK2 ST2 HR) as (hist & P2 & F2 & M2 & B2 & I2 & E2).
      rewrite FE, G in *. exists hist. split; [exact P2|]. split; [exact F2|]. split; [congruence|]. split; [congruence|]. split; [exact I2|].
      intros I S. destruct (EE I S) as [E1 I1]. eapply ext_trans; [exact E1|exact (E2 I1 (SS S))]. }
    destruct it as [c|rc c u rst bt code n|x|rc dd|rc dd|rc bof body|rc dd]; cbn [oenc] in EH.
    + (* cell *)
      assert (rc0 = cell_code (oc_ref c) (oc_kind c) /\ d0 = place c ++ cell_bytes (oc_ref c) (oc_kind c) /\ l0 = []) as (-> & -> & ->) by (clear - EH; repeat split; congruence).
      cbn [map app] in H. destruct (stands_sinv _ _ _ _ _ ST I) as [SI S].
      assert (rs1 = recs items len d rest /\ if kept (b_fmt (os_fmt s)) c then wrote bv real s (os_ixfe s, c) s1 else s1 = s) as [ER K].
      { destruct (oc_ref c) as [a0 a1 a2|x] eqn:RF; rewrite <- RF in H.
        - exact (attr_step _ _ _ _ _ _ _ _ _ _ _ _ _ _ _ _ RF O SI H).
        - exact (xf_step _ _ _ _ _ _ _ _ _ _ _ _ _ _ RF O SI H). }
      cbn [written]. destruct (kept (b_fmt (os_fmt s)) c); cbn [app].
      * exact (CELL c SI S ER K).
      * subst s1. apply QUIET; auto; [right; auto|]. intros _ _. split; [apply ext_refl|exact SI].
    + (* formula *)
      assert (rc0 = rc /\ d0 = place c ++ result_bytes u (oc_kind c) ++ rst /\
        l0 = match oc_kind c with KText raw => bt ++ [(code, le_enc (width (oc_ref c)) n ++ raw)] | _ => [] end) as (-> & -> & ->)
        by (clear - EH; repeat split; congruence).
      destruct (stands_sinv _ _ _ _ _ ST I) as [SI S].
      destruct (formula_step _ _ _ _ _ _ _ _ _ _ _ _ _ _ _ _ _ _ _ O SI (recs_no_continue _ _ _ _ _ OK') H) as [ER K].
      cbn [written]. exact (CELL c SI S ER K).
    + (* IXFE *)
      assert (rc0 = XL_IXFE /\ d0 = le_enc 2 x /\ l0 = []) as (-> & -> & ->) by (clear - EH; repeat split; congruence).
      cbn [map app] in H. destruct (ixfe_step _ _ _ _ _ _ _ _ _ _ _ _ O H) as [-> ->].
      assert (same_tables s (set_ixfe s x)) as T by (repeat split; auto).
      cbn [written]. change (Some x) with (os_ixfe (set_ixfe s x)). apply QUIET; auto.
      * destruct ST as [(B & SF & FF & R & NF)|[I S]].
        -- left. cbn [settings_first formats_first existsb is_xf is_format orb] in *. split; [|tauto].
           destruct B as [B1 B2 B3 B4 B5 B6 B7 B8]. constructor; assumption.
        -- right. split; [eapply same_sinv; eassumption|exact S].
      * intros I S. split; [apply same_ext; exact T|eapply same_sinv; eassumption].
    + (* setting *)
      assert (rc0 = rc /\ d0 = dd /\ l0 = []) as (-> & -> & ->) by (clear - EH; repeat split; congruence). cbn [map app] in H.
      destruct ST as [(B & SF & FF & R & NF)|[I S]]; [|discriminate S]. destruct O as [O1 O2].
      assert (is_format_code rc = true -> b_xfs (os_fmt s) = []) as F0.
      { intros FC. destruct (b_xfs (os_fmt s)) as [|y ys]; [reflexivity|]. specialize (NF eq_refl). cbn [existsb is_format] in NF. rewrite FC in NF. discriminate NF. }
      destruct (setting_step _ _ _ _ _ _ _ _ _ _ _ _ _ O1 O2 B F0 H) as (-> & B1 & X1 & M1 & FE & NX).
      cbn [written]. rewrite <- X1. apply QUIET; auto.
      * left. cbn [settings_first formats_first existsb is_xf is_format] in *. split; [exact B1|]. split; [exact SF|]. split; [apply FF|].
        rewrite NX. split; [rewrite <- orb_assoc; exact R|]. intros NE1. apply orb_true_iff in NE1 as [NE1|NE1].
        -- specialize (NF NE1). apply orb_false_iff in NF. apply NF.
        -- apply FF. exact NE1.
      * rewrite (be_grid _ _ B1), (be_grid _ _ B). reflexivity.
      * discriminate.
      * discriminate.
    + (* row or column *)
      assert (rc0 = rc /\ d0 = dd /\ l0 = []) as (-> & -> & ->) by (clear - EH; repeat split; congruence). cbn [map app] in H.
      destruct (stands_sinv _ _ _ _ _ ST I) as [SI S]. destruct O as [O1 O2].
      destruct (use_step _ _ _ _ _ _ _ _ _ _ _ _ _ _ O2 O1 SI H) as (-> & I1 & E1 & X1 & G1 & M1).
      cbn [written]. rewrite <- X1. apply QUIET; auto.
      * right; auto.
      * apply (ex_fmt _ _ _ (proj1 E1)).
    + (* embedded *)
      assert (rc0 = rc /\ d0 = bof /\ l0 = body ++ [(XL_EOF, [])]) as (-> & -> & ->) by (clear - EH; repeat split; congruence).
      destruct O as (O1 & O2 & O3). destruct (embedded_step _ _ _ _ _ _ _ _ _ _ _ _ _ _ O1 O2 O3 H) as [-> ->].
      cbn [written]. apply QUIET; auto.
      * destruct ST as [(B & SF & FF & R & NF)|[I S]].
        -- left. cbn [settings_first formats_first existsb is_xf is_format orb] in *. tauto.
        -- right. split; [exact I|exact S].
      * intros I S. split; [apply ext_refl|exact I].
    + (* other *)
      assert (rc0 = rc /\ d0 = dd /\ l0 = []) as (-> & -> & ->) by (clear - EH; repeat split; congruence). cbn [map app] in H.
      assert (bv < 80 /\ bk_bv (os_book s) = bv) as [L EB].
      { destruct ST as [(B & _)|[I _]]; [pose proof (be_range _ _ B); pose proof (be_bv _ _ B)|pose proof (si_version _ _ _ I); pose proof (si_bv _ _ _ I)]; split; auto; lia. }
      destruct (onoise_step _ _ _ _ _ _ _ _ _ _ _ _ _ L EB O H) as (T & X1 & (G1 & M1) & used & EU & FU).
      destruct (strip_notes _ _ _ _ _ _ _ OK' EU FU) as (n1 & items2 & -> & -> & FN).
      destruct (notes_nothing (b_fmt (os_fmt s)) n1 items2 FN) as (W & N1 & N2 & N3 & N4 & N5).
      cbn [written]. rewrite W, <- X1. apply Forall_app in OK' as [_ OK2]. apply QUIET; auto.
      * rewrite app_length. lia.
      * destruct ST as [(B & SF & FF & R & NF)|[I S]].
        -- left. cbn [settings_first formats_first existsb is_xf is_format orb] in *. rewrite N1 in R. rewrite N3 in NF.
           destruct T as (T1 & T2 & T3 & T4 & T5 & T6 & T7 & T8). rewrite T3.
           split; [|tauto]. eapply before_next; [exact B|rewrite G1; exact (be_grid _ _ B)|exact T6|exact T7|exact T1| |].
           ++ eapply same_finv; [exact T3|exact T4|exact T5|exact (be_f _ _ B)].
           ++ rewrite T3. exact (be_20 _ _ B).
        -- right. split; [eapply same_sinv; eassumption|]. cbn [existsb is_setting orb] in S. rewrite <- N2. exact S.
      * destruct T as (_ & T2 & _). exact T2.
      * cbn [existsb is_setting orb]. rewrite N2. auto.
      * intros I S. split; [apply same_ext; exact T|eapply same_sinv; eassumption].
Qed.
End Read.
