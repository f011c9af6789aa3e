(** Property theorems C84 and C85: columns, rows, widths and the window of a
    worksheet of BIFF2 to BIFF4W.  [tr] lists the records that the reading loop
    dispatches on. *)
From Verif Require Import Base BaseFacts Text Strings Framing GridModel GridFacts PropGrid SheetObjects SheetModel SheetFacts
  SheetSteps PropSheet PropRead SheetTrace PropView PropRowCol FormatModel FormatFacts FormulaModel BookModel BookApi PropFormat
  OldSheet OldXf OldRead OldTrace PropOldSheet.

(** ** Specification *)

(** Where the XF index of a row or column comes from: nothing, an index, an index with
    63 for that of an IXFE record, or three attribute bytes. *)
Inductive xsource : Type := XNone | XIndex (i : Z) | XGiven (i : Z) | XAttr (a : list Z).

Definition ixfe_in (tr : list record) (i : Z) : Prop := exists len d, In (XL_IXFE, len, d) tr /\ bits d 0 16 = i.

(** Three attribute bytes describe the XF, or in BIFF2.1 the first one has its index. *)
Definition xf_of (bv : Z) (tr : list record) (xfs : list xf) (src : xsource) (i : Z) : Prop :=
  let indexed j := bv = 21 /\ if j =? 63 then ixfe_in tr i else i = j in
  match src with
  | XNone => i = -1
  | XIndex j => i = j
  | XGiven j => indexed j
  | XAttr a => (exists a0 a1 a2 x, a = [a0; a1; a2] /\ znth xfs i = Some x /\ attributes a0 a1 a2 x) \/
               (exists a0 l, a = a0 :: l /\ indexed (a0 mod 64))
  end.

(** What is known of a column: which columns it shares its entry with, and the entry. *)
Record colspec : Type := mk_colspec {
  cs_group : Z -> bool;
  cs_width : Z; cs_xf : xsource; cs_hidden : Z; cs_bit1 : Z; cs_level : Z; cs_collapsed : Z }.
Definition alone (k : Z) : colspec := mk_colspec (fun j => j =? k) 0 XNone 0 0 0 0.
Definition set_width (w : Z) (c : colspec) : colspec :=
  mk_colspec (cs_group c) w (cs_xf c) (cs_hidden c) (cs_bit1 c) (cs_level c) (cs_collapsed c).
Definition set_xf (x : xsource) (c : colspec) : colspec :=
  mk_colspec (cs_group c) (cs_width c) x (cs_hidden c) (cs_bit1 c) (cs_level c) (cs_collapsed c).
Definition leave (p : Z -> bool) (c : colspec) : colspec :=
  mk_colspec (fun j => cs_group c j && negb (p j)) (cs_width c) (cs_xf c) (cs_hidden c) (cs_bit1 c) (cs_level c) (cs_collapsed c).

(** The effect on column [k] of a change to the entry of column [j]. *)
Definition touch (k j : Z) (u : colspec -> colspec) (st : option colspec) : option colspec :=
  match st with
  | None => if j =? k then Some (u (alone k)) else None
  | Some c => Some (if cs_group c j then u c else c)
  end.

(** The effect of one record on column [k]: a COLINFO record makes one entry for all its
    columns; COLWIDTH and COLUMNDEFAULT change the entries of their columns, one by one. *)
Definition colwidth_cols (d : list Z) : list Z := zrange (bits d 0 8) (bits d 8 8 + 1).
Definition columndefault_cols (d : list Z) : list Z := zrange (bits d 0 16) (Z.min 256 (bits d 16 16)).
Definition attr_of (d : list Z) (j : Z) : list Z := py_slice d (4 + 3 * (j - bits d 0 16)) (4 + 3 * (j - bits d 0 16) + 3).
Definition col_rec (k rc : Z) (d : list Z) (st : option colspec) : option colspec :=
  if rc =? XL_COLINFO then
    if covers_col k rc d then
      let ci := col_says d in
      Some (mk_colspec (fun j => covers_col j rc d) (ci_width ci) (XIndex (ci_xf ci)) (ci_hidden ci) (ci_bit1 ci) (ci_outline_level ci) (ci_collapsed ci))
    else option_map (leave (fun j => covers_col j rc d)) st
  else if rc =? XL_COLWIDTH then fold_left (fun st j => touch k j (set_width (bits d 16 16)) st) (colwidth_cols d) st
  else if rc =? XL_COLUMNDEFAULT then fold_left (fun st j => touch k j (set_xf (XAttr (attr_of d j))) st) (columndefault_cols d) st
  else st.
Definition col_state (k : Z) (tr : list record) : option colspec :=
  fold_left (fun st (r : record) => let '(rc, _, d) := r in col_rec k rc d st) tr None.

(** The attributes of a column that has this entry; [X] says which XF indices are meant. *)
Definition info_ok (X : xsource -> Z -> Prop) (ci : colinfo) (c : colspec) : Prop :=
  ci_width ci = cs_width c /\ X (cs_xf c) (ci_xf ci) /\ ci_hidden ci = cs_hidden c /\ ci_bit1 ci = cs_bit1 c /\
  ci_outline_level ci = cs_level c /\ ci_collapsed ci = cs_collapsed c.
Definition matched (X : xsource -> Z -> Prop) (o : option colinfo) (st : option colspec) : Prop :=
  match o, st with None, None => True | Some ci, Some c => info_ok X ci c | _, _ => False end.

(** What a ROW record of BIFF2 says; the attributes it has no bits for are None. *)
Definition none : Z := -1.
Definition row_b2_says (d : list Z) (xf : Z) : rowinfo :=
  {| ri_height := bits d 48 15; ri_has_default_height := bits d 63 1; ri_outline_level := none; ri_outline_group := none; ri_hidden := none;
     ri_height_mismatch := none; ri_has_default_xf := bits d 80 1; ri_xf := xf; ri_above := none; ri_below := none |}.
Definition row_b2_xf (d : list Z) : xsource :=
  if bits d 80 1 =? 0 then XNone else if zlen d =? 18 then XGiven (bits d 128 16) else XAttr (py_slice d 13 16).

(** The last record for a row: of BIFF3 and later (true) or of BIFF2. *)
Definition row_rec (r rc : Z) (d : list Z) (st : option (bool * list Z)) : option (bool * list Z) :=
  if ((rc =? XL_ROW) || (rc =? XL_ROW_B2)) && (bits d 0 16 =? r) && (r <? 16384) then Some (rc =? XL_ROW, d) else st.
Definition row_state (r : Z) (tr : list record) : option (bool * list Z) :=
  fold_left (fun st (x : record) => let '(rc, _, d) := x in row_rec r rc d st) tr None.
Definition row_matched (X : xsource -> Z -> Prop) (o : option rowinfo) (st : option (bool * list Z)) : Prop :=
  match o, st with
  | None, None => True
  | Some ri, Some (true, d) => ri = row_says d
  | Some ri, Some (false, d) => ri = row_b2_says d (ri_xf ri) /\ X (row_b2_xf d) (ri_xf ri)
  | _, _ => False
  end.

(** The window: options, first row, first column, colour of the grid lines.  A BIFF2 record
    has bytes for five flags and says whether the colour is automatic; the flags are shown
    as 1 whatever they are (see [c85_flags_refuted]). *)
Definition window : Type := list Z * Z * Z * option (Z * Z * Z).
Definition window_rec (rc : Z) (d : list Z) (w : window) : window :=
  if rc =? XL_WINDOW2 then (options_of d, bits d 16 16, bits d 32 16, Some (rgb_of d))
  else if rc =? XL_WINDOW2_B2 then
    ([1; 1; 1; 1; 1; bits d 72 8] ++ skipn 6 (fst (fst (fst w))), bits d 40 16, bits d 56 16, Some (bits d 80 8, bits d 88 8, bits d 96 8))
  else w.
Definition window_state (tr : list record) : window :=
  fold_left (fun w (x : record) => let '(rc, _, d) := x in window_rec rc d w) tr (options_default, 0, 0, None).

(** The width of a column: in BIFF4 the global column width table decides whether the
    standard width or the column's own is used; in BIFF3 it is the column's own; in BIFF2 it is
    always the default (see [c85_width_refuted]). *)
Definition old_width (bv : Z) (tr : list record) (k : Z) : Z :=
  let own := option_map cs_width (col_state k tr) in
  if 40 <=? bv then
    if global_col tr k then or_else (standard_width tr) (default_width tr) else or_else own (default_width tr)
  else if bv =? 30 then or_else own (default_width tr)
  else default_width tr.

(** ** Proofs *)

Lemma dget_map : forall {V W} (g : Z -> V -> W) l k,
  dget Z.eqb (map (fun '(j, v) => (j, g j v)) l) k = option_map (g k) (dget Z.eqb l k).
Proof.
  intros V W g. induction l as [|[j v] l IH]; intros k; [reflexivity|]. cbn [map dget]. destruct (Z.eqb_spec k j) as [->|]; [reflexivity|apply IH].
Qed.

Lemma zlen_fold_dset : forall {V} (v : V) (l : list Z) m, zlen (fold_left (fun m i => dset m i v) l m) = zlen m + zlen l.
Proof.
  intros V v. induction l as [|i l IH]; intros m; cbn [fold_left].
  - unfold zlen at 3. cbn. lia.
  - rewrite IH. unfold dset. rewrite !zlen_cons. lia.
Qed.

Section OldView.
Context {N : Type}.
Variable codec : list Z -> list Z -> result (list Z).
Variable num8 : list Z -> N.
Variable rk : list Z -> result N.
Variable of_int : Z -> N.
Variable ragged : bool.
Notation ost := (@ost N).
Notation cfg := (cfg codec num8 rk ragged).
Notation old_step := (old_step codec num8 rk of_int ragged).
Notation oran := (oran codec num8 rk of_int ragged).
Notation cols_of s := (f_cols (sh_fmt (os_sheet s))).
Notation rows_of s := (f_rows (sh_fmt (os_sheet s))).

Lemma oran_inv : forall bv (P : list record -> ost -> Prop),
  (forall pre s rc d rs s' rs', P pre s -> rc <> XL_EOF -> bytes d -> old_step bv s rc (zlen d) d rs = Ok (s', rs') ->
     P (pre ++ [(rc, zlen d, d)]) s') ->
  forall s rs tr s' rs', oran bv s rs tr s' rs' -> framed tr -> forall pre, P pre s -> P (pre ++ tr) s'.
Proof.
  intros bv P HS s rs tr s' rs' H. induction H as [|s rc len d rs s1 rs1 tr s2 rs2 E S H IH]; intros HG pre HP.
  - rewrite app_nil_r. exact HP.
  - inversion HG as [|? ? Hb HG']; subst. cbn beta iota in Hb. destruct Hb as [Hb ->]. replace (pre ++ (rc, zlen d, d) :: tr) with ((pre ++ [(rc, zlen d, d)]) ++ tr) by (rewrite <- app_assoc; reflexivity).
    apply IH; [exact HG'|]. eapply HS; eauto.
Qed.

(** *** The entries of the columns *)

Record agree (X : xsource -> Z -> Prop) (s : ost) (sts : Z -> option colspec) : Prop := {
  ag_info : forall k, matched X (dget Z.eqb (cols_of s) k) (sts k);
  ag_dom : forall k, dget Z.eqb (os_share s) k = None <-> dget Z.eqb (cols_of s) k = None;
  ag_id : forall k i, dget Z.eqb (os_share s) k = Some i -> 0 <= i < zlen (os_share s);
  ag_group : forall k c, sts k = Some c -> forall j, cs_group c j = true <-> dget Z.eqb (os_share s) j = dget Z.eqb (os_share s) k }.

Lemma matched_weaken : forall (X X' : xsource -> Z -> Prop) o st, (forall src i, X src i -> X' src i) -> matched X o st -> matched X' o st.
Proof.
  intros X X' o st H M. destruct o, st; cbn [matched] in *; auto. destruct M as (M1 & M2 & M3). split; [exact M1|]. split; [auto|exact M3].
Qed.

Lemma agree_same : forall (X X' : xsource -> Z -> Prop) s s' sts, cols_of s' = cols_of s -> os_share s' = os_share s ->
  (forall src i, X src i -> X' src i) -> agree X s sts -> agree X' s' sts.
Proof.
  intros X X' s s' sts E1 E2 H [A1 A2 A3 A4]. constructor; rewrite ?E1, ?E2; auto. intros k. eapply matched_weaken; [exact H|apply A1].
Qed.

Lemma agree_ext : forall X s sts sts', (forall k, sts k = sts' k) -> agree X s sts -> agree X s sts'.
Proof.
  intros X s sts sts' E [A1 A2 A3 A4]. constructor; auto; intros k; rewrite <- E; auto.
Qed.

Lemma update_agree : forall X s sts j u U, agree X s sts -> X XNone (-1) -> (forall c, cs_group (U c) = cs_group c) ->
  (forall ci c, info_ok X ci c -> info_ok X (u ci) (U c)) ->
  agree X (update_colinfo s j u) (fun k => touch k j U (sts k)).
Proof.
  intros X s sts j u U [A1 A2 A3 A4] X0 HU Hu. unfold update_colinfo. cbv zeta.
  destruct (dget Z.eqb (cols_of s) j) as [cj|] eqn:CJ.
  - assert (exists a, dget Z.eqb (os_share s) j = Some a) as (a & SJ).
    { destruct (dget Z.eqb (os_share s) j) as [a|] eqn:E; [eauto|]. apply A2 in E. congruence. }
    rewrite SJ.
    assert (SK : forall k c, sts k = Some c -> cs_group c j = match dget Z.eqb (os_share s) k with Some b => a =? b | None => false end).
    { intros k c HS. pose proof (A4 _ _ HS j) as G. rewrite SJ in G. destruct (dget Z.eqb (os_share s) k) as [b|].
      - destruct (cs_group c j), (Z.eqb_spec a b) as [->|]; auto; [destruct G as [G _]; specialize (G eq_refl); congruence|].
        destruct G as [_ G]. discriminate G. reflexivity.
      - destruct (cs_group c j); [|reflexivity]. destruct G as [G _]. discriminate (G eq_refl). }
    constructor; cbn [os_sheet os_share set_sheet sh_fmt SheetModel.with_fmt f_cols]; auto.
    + intros k. rewrite (dget_map (fun k ci => if match dget Z.eqb (os_share s) k with Some b => a =? b | None => false end then u ci else ci)).
      specialize (A1 k). destruct (dget Z.eqb (cols_of s) k) as [ci|] eqn:CK, (sts k) as [c|] eqn:HS; cbn [matched] in A1; try contradiction.
      * cbn [option_map touch matched]. rewrite (SK _ _ HS). destruct (match dget Z.eqb (os_share s) k with Some b => a =? b | None => false end); auto.
      * cbn [option_map touch]. destruct (Z.eqb_spec j k); [congruence|exact I].
    + intros k. rewrite (dget_map (fun k ci => if match dget Z.eqb (os_share s) k with Some b => a =? b | None => false end then u ci else ci)).
      rewrite A2. destruct (dget Z.eqb (cols_of s) k); cbn [option_map]; split; congruence.
    + intros k c HT i. pose proof (A1 k) as M. destruct (sts k) as [c0|] eqn:HS; cbn [touch] in HT.
      * rewrite <- (A4 _ _ HS i). replace (cs_group c) with (cs_group c0); [reflexivity|].
        destruct (cs_group c0 j); injection HT as <-; [symmetry; apply HU|reflexivity].
      * destruct (Z.eqb_spec j k) as [->|]; [|discriminate]. rewrite CJ in M. contradiction.
  - assert (SJ : dget Z.eqb (os_share s) j = None) by (apply A2; exact CJ).
    assert (sts j = None) as TJ by (specialize (A1 j); rewrite CJ in A1; destruct (sts j); [contradiction|reflexivity]).
    constructor; cbn [os_sheet os_share set_sheet set_share sh_fmt SheetModel.with_fmt f_cols]; unfold dset; cbn [dget].
    + intros k. destruct (Z.eqb_spec k j) as [->|NE].
      * rewrite TJ. cbn [touch matched]. rewrite Z.eqb_refl. apply Hu. repeat split; auto.
      * specialize (A1 k). destruct (dget Z.eqb (cols_of s) k) as [ci|] eqn:CK, (sts k) as [c|] eqn:HS; cbn [matched] in A1; try contradiction.
        -- cbn [touch matched]. destruct (cs_group c j) eqn:G; [|exact A1]. apply (A4 _ _ HS) in G. rewrite SJ in G. symmetry in G. apply A2 in G. congruence.
        -- cbn [touch]. destruct (Z.eqb_spec j k); [congruence|exact I].
    + intros k. destruct (k =? j); [split; discriminate|apply A2].
    + intros k i. rewrite zlen_cons. destruct (k =? j); [|intros E; apply A3 in E; lia]. intros E. injection E as <-. unfold new_object.
      pose proof (zlen_nonneg (os_share s)). lia.
    + intros k c HT i. unfold new_object. destruct (Z.eqb_spec k j) as [->|NE].
      * rewrite TJ in HT. cbn [touch] in HT. rewrite Z.eqb_refl in HT. injection HT as <-. rewrite HU. cbn [alone cs_group].
        destruct (Z.eqb_spec i j) as [->|NI]; [tauto|]. split; [discriminate|]. intros E. apply A3 in E. lia.
      * destruct (sts k) as [c0|] eqn:HS; cbn [touch] in HT; [|destruct (Z.eqb_spec j k); [congruence|discriminate]].
        assert (cs_group c = cs_group c0) as -> by (destruct (cs_group c0 j); injection HT as <-; [apply HU|reflexivity]).
        destruct (Z.eqb_spec i j) as [->|NI]; [|apply (A4 _ _ HS)]. rewrite (A4 _ _ HS j), SJ. split; intros E.
        -- exfalso. symmetry in E. apply A2 in E. specialize (A1 k). rewrite E, HS in A1. exact A1.
        -- symmetry in E. apply A3 in E. lia.
Qed.

Lemma fold_agree : forall X U u l s sts, agree X s sts -> X XNone (-1) -> (forall c, cs_group (U c) = cs_group c) ->
  (forall ci c, info_ok X ci c -> info_ok X (u ci) (U c)) ->
  agree X (fold_left (fun s j => update_colinfo s j u) l s) (fun k => fold_left (fun st j => touch k j U st) l (sts k)).
Proof.
  intros X U u. induction l as [|j l IH]; intros s sts A X0 HU Hu; cbn [fold_left]; [exact A|].
  apply (IH _ (fun k => touch k j U (sts k))); auto. apply update_agree; auto.
Qed.

(** A COLINFO record. *)
Lemma colinfo_agree : forall X s sts s' d, bytes d -> agree X s sts -> (forall i, X (XIndex i) i) -> b_fmt (os_fmt s) = true ->
  o_colinfo codec num8 rk ragged s d = Ok s' -> agree X s' (fun k => col_rec k XL_COLINFO d (sts k)).
Proof.
  intros X s sts s' d HB [A1 A2 A3 A4] XI HF H. unfold o_colinfo in H. apply bind_ok in H as (sh & E & H). rewrite HF in H. cbn [negb] in H.
  apply bind_ok in H as (first & E1 & H). apply bind_ok in H as (last & E2 & H).
  unfold h_colinfo in E. change (c_fmt (cfg s)) with (b_fmt (os_fmt s)) in E. rewrite HF in E. cbn [negb] in E.
  apply bind_ok in E as ([] & EN & E). rewrite E1, E2 in E. cbn [bind] in E.
  apply bind_ok in E as (width & E3 & E). apply bind_ok in E as (xf & E4 & E). apply bind_ok in E as (flags & E5 & E).
  apply need_len in EN; [|lia]. pose proof (col_reads _ _ _ _ HB EN E3 E4 E5) as HR. cbv zeta in E. rewrite HR in E.
  pose proof (u16_at_range _ _ _ HB E1) as R1. pose proof (u16_at_range _ _ _ HB E2) as R2.
  pose proof (unpack_u16_at _ _ _ E1) as F1. pose proof (unpack_u16_at _ _ _ E2) as F2.
  assert (CV : forall k, covers_col k XL_COLINFO d = (first <=? k) && (k <=? last) && (last <=? 256) && (k <? 256)).
  { intros k. unfold covers_col. rewrite <- F1, <- F2, Z.eqb_refl. reflexivity. }
  destruct (negb ((0 <=? first) && (first <=? last) && (last <=? 256))) eqn:EV.
  - assert (sh = os_sheet s) as -> by congruence. assert (s' = set_sheet s (os_sheet s)) as -> by congruence.
    assert (CF : forall k, covers_col k XL_COLINFO d = false) by (intros k; rewrite CV; lia).
    constructor; auto.
    + intros k. unfold col_rec. change (XL_COLINFO =? XL_COLINFO) with true. cbv iota. rewrite CF. specialize (A1 k).
      change (dget Z.eqb (cols_of (set_sheet s (os_sheet s))) k) with (dget Z.eqb (cols_of s) k).
      destruct (dget Z.eqb (cols_of s) k), (sts k); exact A1.
    + intros k c. unfold col_rec. change (XL_COLINFO =? XL_COLINFO) with true. cbv iota. rewrite CF. intros HT j.
      destruct (sts k) as [c0|] eqn:HS; [|discriminate]. cbn [option_map] in HT. injection HT as <-. cbn [leave cs_group]. rewrite CF, andb_true_r.
      apply (A4 _ _ HS).
  - match type of E with Ok ?x = _ => assert (sh = x) as -> by congruence end.
    match type of H with Ok ?x = _ => assert (s' = x) as -> by congruence end. clear E H.
    assert (CR : forall k, (first <=? k) && (k <? Z.min 256 (last + 1)) = covers_col k XL_COLINFO d) by (intros k; rewrite CV; lia).
    assert (NEW : zlen (os_share s) < zlen (os_share s) + zlen (zrange first (Z.min 256 (last + 1))) \/ forall k, covers_col k XL_COLINFO d = false).
    { destruct (Z_lt_ge_dec first 256); [left|right; intros k; rewrite CV; lia]. rewrite zlen_zrange. lia. }
    constructor; cbn [os_sheet os_share set_sheet set_share sh_fmt SheetModel.with_fmt f_cols].
    + intros k. rewrite PropView.dget_range, CR. unfold col_rec. change (XL_COLINFO =? XL_COLINFO) with true. cbv iota zeta.
      destruct (covers_col k XL_COLINFO d).
      * cbn [matched]. repeat split; auto. apply XI.
      * specialize (A1 k). destruct (dget Z.eqb (cols_of s) k), (sts k); exact A1.
    + intros k. rewrite !PropView.dget_range, CR. destruct (covers_col k XL_COLINFO d); [split; discriminate|apply A2].
    + intros k i. rewrite PropView.dget_range, CR, zlen_fold_dset. pose proof (zlen_nonneg (zrange first (Z.min 256 (last + 1)))).
      destruct (covers_col k XL_COLINFO d) eqn:C.
      * intros E. injection E as <-. unfold new_object. pose proof (zlen_nonneg (os_share s)). destruct NEW as [NEW|NEW]; [lia|]. rewrite NEW in C. discriminate.
      * intros E. apply A3 in E. lia.
    + intros k c. unfold col_rec. change (XL_COLINFO =? XL_COLINFO) with true. cbv iota zeta. intros HT j. rewrite !PropView.dget_range, !CR. unfold new_object.
      destruct (covers_col k XL_COLINFO d) eqn:CK.
      * injection HT as <-. cbn [cs_group]. destruct (covers_col j XL_COLINFO d); [tauto|]. split; [discriminate|]. intros E. apply A3 in E. lia.
      * destruct (sts k) as [c0|] eqn:HS; [|discriminate]. cbn [option_map] in HT. injection HT as <-. cbn [leave cs_group].
        destruct (covers_col j XL_COLINFO d); cbn [negb]; [rewrite andb_false_r|rewrite andb_true_r; apply (A4 _ _ HS)].
        split; [discriminate|]. intros E. symmetry in E. apply A3 in E. lia.
Qed.

(** *** The XFs *)

(** As [xf_of], but in terms of the state. *)
Definition xf_now (bv : Z) (tr : list record) (s : ost) (src : xsource) (i : Z) : Prop :=
  let indexed j := bv = 21 /\ if j =? 63 then ixfe_in tr i else i = j in
  match src with
  | XNone => i = -1
  | XIndex j => i = j
  | XGiven j => indexed j
  | XAttr a => bytes a /\ (dget list_eqb (os_attrs s) a = Some i \/ (exists a0 l, a = a0 :: l /\ indexed (Z.land a0 63)))
  end.

Record base (bv : Z) (fmt : bool) (tr : list record) (s : ost) : Prop := {
  ba_attr : attr_inv s;
  ba_fmt : b_fmt (os_fmt s) = fmt;
  ba_bv : bk_bv (os_book s) = bv;
  ba_version : os_version s = 21 -> bv = 21;
  ba_ixfe : forall i, os_ixfe s = Some i -> ixfe_in tr i }.

Lemma ixfe_more : forall tr r i, ixfe_in tr i -> ixfe_in (tr ++ r) i.
Proof. intros tr r i (len & d & HI & E). exists len, d. split; [apply in_or_app; auto|exact E]. Qed.

Lemma xf_now_more : forall bv tr r s s', attr_inv s -> keep s s' -> forall src i, xf_now bv tr s src i -> xf_now bv (tr ++ r) s' src i.
Proof.
  intros bv tr r s s' I K src i H. destruct (K I) as [_ K2].
  assert (IX : forall j, (bv = 21 /\ if j =? 63 then ixfe_in tr i else i = j) -> (bv = 21 /\ if j =? 63 then ixfe_in (tr ++ r) i else i = j)).
  { intros j [H1 H2]. split; [exact H1|]. destruct (j =? 63); [apply ixfe_more|]; exact H2. }
  destruct src; cbn [xf_now] in *; auto. destruct H as [HB [H|(a0 & l & E & H)]]; (split; [exact HB|]); [left; auto|right; exists a0, l; auto].
Qed.

Lemma base_step : forall bv fmt tr s rc len d rs s' rs', bytes d -> base bv fmt tr s -> old_step bv s rc len d rs = Ok (s', rs') ->
  base bv fmt (tr ++ [(rc, len, d)]) s'.
Proof.
  intros bv fmt tr s rc len d rs s' rs' HB [B1 B2 B3 B4 B5] S. pose proof (old_step_alone _ _ _ _ _ _ _ _ _ _ _ _ _ S) as OA.
  constructor.
  - exact (proj1 (oa_keep _ _ _ OA B1)).
  - rewrite (oa_fmt _ _ _ OA). exact B2.
  - rewrite (oa_bv _ _ _ OA). exact B3.
  - intros V. destruct (oa_version _ _ _ OA) as [E|[_ E]]; [apply B4; congruence|congruence].
  - intros i HI. destruct (Z.eq_dec rc XL_IXFE) as [->|NI].
    + change (old_step bv s XL_IXFE len d rs) with
        (do s <- (do _ <- guard (zlen d =? 2) StructError; do x <- unpack_u16 d 0; Ok (set_ixfe s x)); Ok (s, rs)) in S.
      apply bind_ok in S as (s1 & S & E). apply bind_ok in S as (u & G & S). apply bind_ok in S as (x & EX & S).
      assert (s1 = set_ixfe s x) as -> by congruence. assert (s' = set_ixfe s x) as -> by congruence. cbn [set_ixfe os_ixfe] in HI. injection HI as <-.
      exists len, d. split; [apply in_or_app; right; left; reflexivity|]. unfold guard in G. destruct (zlen d =? 2) eqn:L; [|discriminate].
      apply unpack_u16_at in EX. subst x. symmetry. apply (u16_bits d 0); [exact HB|lia|lia].
    + rewrite (oa_ixfe _ _ _ OA NI) in HI. apply ixfe_more. auto.
Qed.

Lemma fixed_now : forall bv fmt tr s a s' i, bytes a -> base bv fmt tr s -> fixed_xf s (Some a) None = Ok (s', i) ->
  base bv fmt tr s' /\ calm s s' /\ xf_now bv tr s' (XAttr a) i.
Proof.
  intros bv fmt tr s a s' i HB [B1 B2 B3 B4 B5] H. destruct (fixed_facts _ _ _ _ _ H) as [(C1 & C2 & C3 & C4 & C5 & C6) F].
  split; [|split; [split; [exact C1|split; [exact C2|split; [exact C3|auto]]]|]].
  - constructor; [exact (proj1 (C4 B1))|congruence|congruence| |rewrite C5; exact B5].
    intros V. destruct C6 as [E|[_ E]]; [apply B4; congruence|congruence].
  - cbn [xf_now]. split; [exact HB|]. destruct F as [(-> & V & k & K & Q)|(a' & E & D)].
    + right. destruct a as [|a0 l]; [contradiction|]. exists a0, l. split; [reflexivity|]. subst k. split; [apply B4; exact V|].
      destruct (Z.land a0 63 =? 63); [apply B5; exact Q|exact Q].
    + left. congruence.
Qed.

(** A COLUMNDEFAULT record. *)
Lemma columndefault_agree : forall bv fmt tr d cols s sts s', bytes d -> base bv fmt tr s -> agree (xf_now bv tr s) s sts ->
  columndefault_loop s cols (bits d 0 16) d = Ok s' ->
  base bv fmt tr s' /\ agree (xf_now bv tr s') s' (fun k => fold_left (fun st j => touch k j (set_xf (XAttr (attr_of d j))) st) cols (sts k)).
Proof.
  intros bv fmt tr d. induction cols as [|j cols IH]; intros s sts s' HB B A H; cbn [columndefault_loop] in H.
  - assert (s' = s) as -> by congruence. auto.
  - apply bind_ok in H as ((s1 & x) & E & H). destruct (fixed_now _ _ _ _ _ _ _ (bytes_slice _ _ _ HB) B E) as (B1 & (C1 & C2 & C3 & C4 & C5 & C6) & XN).
    pose proof (fixed_share _ _ _ _ _ E) as SH.
    assert (A1 : agree (xf_now bv tr s1) s1 sts).
    { apply (agree_same (xf_now bv tr s) _ s); [rewrite C1; reflexivity|exact SH| |exact A]. intros src i HX.
      rewrite <- (app_nil_r tr). apply (xf_now_more bv tr [] s s1 (ba_attr _ _ _ _ B) C4). exact HX. }
    set (u := fun c => mk_colinfo (ci_width c) x (ci_hidden c) (ci_bit1 c) (ci_outline_level c) (ci_collapsed c)) in *.
    pose proof (update_agree (xf_now bv tr s1) s1 sts j u (set_xf (XAttr (attr_of d j))) A1 eq_refl (fun c => eq_refl)) as UA.
    destruct (update_alone s1 j u) as (U1 & U2 & _ & _ & _ & _ & _ & U3 & U4 & U5). set (s2 := update_colinfo s1 j u) in *.
    assert (os_attrs s2 = os_attrs s1) as U6 by (subst s2; unfold update_colinfo; cbv zeta; destruct (dget Z.eqb _ j); reflexivity).
    cbn [fold_left]. apply (IH s2 (fun k => touch k j (set_xf (XAttr (attr_of d j))) (sts k))); [exact HB| | |exact H].
    + destruct B1 as [D1 D2 D3 D4 D5]. constructor; [exact (proj1 (U3 D1))|congruence|congruence| |rewrite U4; exact D5].
      intros V. destruct U5 as [EV|[_ EV]]; [apply D4; congruence|congruence].
    + apply (agree_same (xf_now bv tr s1) (xf_now bv tr s2) s2 s2); [reflexivity|reflexivity| |].
      * intros src i. destruct src; cbn [xf_now]; rewrite ?U6; auto.
      * apply UA. intros ci c (I1 & I2 & I3 & I4 & I5 & I6). unfold info_ok. auto 10.
Qed.

Lemma bits_u8_at : forall d pos v, bytes d -> unpack_le 1 d pos = Ok v -> 0 <= pos -> v = bits d (8 * pos) 8.
Proof. intros. eapply bits_u8; eauto. Qed.

(** One record. *)
Lemma cols_step : forall bv tr s rc len d rs s' rs', bytes d -> base bv true tr s -> agree (xf_now bv tr s) s (fun k => col_state k tr) ->
  old_step bv s rc len d rs = Ok (s', rs') ->
  agree (xf_now bv (tr ++ [(rc, len, d)]) s') s' (fun k => col_state k (tr ++ [(rc, len, d)])).
Proof.
  intros bv tr s rc len d rs s' rs' HB B A S. pose proof (old_step_alone _ _ _ _ _ _ _ _ _ _ _ _ _ S) as OA.
  assert (MORE : forall src i, xf_now bv tr s src i -> xf_now bv (tr ++ [(rc, len, d)]) s' src i)
    by (apply xf_now_more; [exact (ba_attr _ _ _ _ B)|exact (oa_keep _ _ _ OA)]).
  assert (ST : forall k, col_state k (tr ++ [(rc, len, d)]) = col_rec k rc d (col_state k tr)).
  { intros k. unfold col_state. rewrite fold_left_app. reflexivity. }
  apply agree_ext with (sts := fun k => col_rec k rc d (col_state k tr)); [intros k; symmetry; apply ST|].
  pose proof (ba_fmt _ _ _ _ B) as HF.
  destruct (Z.eq_dec rc XL_COLINFO) as [->|N1].
  { change (old_step bv s XL_COLINFO len d rs) with (do s <- o_colinfo codec num8 rk ragged s d; Ok (s, rs)) in S.
    apply bind_ok in S as (s1 & S & E). assert (s1 = s') as -> by congruence. clear E.
    apply (colinfo_agree (xf_now bv (tr ++ [(XL_COLINFO, len, d)]) s') s); auto; [|intros i; reflexivity].
    apply (agree_same (xf_now bv tr s) _ s); auto. }
  destruct (Z.eq_dec rc XL_COLWIDTH) as [->|N2].
  { change (old_step bv s XL_COLWIDTH len d rs) with (do s <- h_colwidth s d; Ok (s, rs)) in S.
    apply bind_ok in S as (s1 & S & E). assert (s1 = s') as -> by congruence. clear E. unfold h_colwidth in S. rewrite HF in S. cbn [negb] in S.
    apply bind_ok in S as ([] & EN & S). apply bind_ok in S as (first & E1 & S). apply bind_ok in S as (last & E2 & S). apply bind_ok in S as (w & E3 & S).
    apply need_len in EN; [|lia]. apply bits_u8 in E1, E2; try assumption; try lia. change (8 * 0) with 0 in E1. change (8 * 1) with 8 in E2.
    apply unpack_u16_at in E3. rewrite u16_bits in E3 by (assumption || lia). change (8 * 2) with 16 in E3.
    change (agree (xf_now bv (tr ++ [(XL_COLWIDTH, len, d)]) s') s'
      (fun k => fold_left (fun st j => touch k j (set_width (bits d 16 16)) st) (colwidth_cols d) (col_state k tr))).
    unfold colwidth_cols. rewrite <- E1, <- E2, <- E3.
    assert (A' : agree (xf_now bv (tr ++ [(XL_COLWIDTH, len, d)]) s') s (fun k => col_state k tr)).
    { apply (agree_same (xf_now bv tr s) _ s); auto. }
    destruct (first <=? last) eqn:EV; cbn [negb] in S.
    - match type of S with Ok ?x = _ => assert (s' = x) as ES by congruence end. rewrite ES at 2.
      apply fold_agree; [exact A'|reflexivity|reflexivity|]. intros ci c (I1 & I2 & I3 & I4 & I5 & I6). repeat split; auto.
    - assert (s' = s) as -> by congruence. rewrite zrange_nil by lia. exact A'. }
  destruct (Z.eq_dec rc XL_COLUMNDEFAULT) as [->|N3].
  { change (old_step bv s XL_COLUMNDEFAULT len d rs) with (do s <- h_columndefault s d; Ok (s, rs)) in S.
    apply bind_ok in S as (s1 & S & E). assert (s1 = s') as -> by congruence. clear E. unfold h_columndefault in S. rewrite HF in S. cbn [negb] in S.
    apply bind_ok in S as ([] & EN & S). apply bind_ok in S as (first & E1 & S). apply bind_ok in S as (last & E2 & S).
    apply need_len in EN; [|lia]. pose proof (u16_at_range _ _ _ HB E1). apply unpack_u16_at in E1, E2. rewrite u16_bits in E1, E2 by (assumption || lia).
    change (8 * 0) with 0 in E1. change (8 * 2) with 16 in E2. cbv zeta in S.
    replace (if negb ((0 <=? first) && (first <? last) && (last <=? 256)) then Z.min last 256 else last) with (Z.min 256 last) in S
      by (destruct (negb ((0 <=? first) && (first <? last) && (last <=? 256))) eqn:EV; lia).
    rewrite E1, E2 in S. destruct (columndefault_agree bv true tr d _ s (fun k => col_state k tr) s' HB B A S) as [_ A'].
    apply (agree_same (xf_now bv tr s') _ s'); auto. intros src i HX. destruct src; cbn [xf_now] in *; auto.
    - destruct HX as [H1 H2]. split; [exact H1|]. destruct (_ =? 63); [apply ixfe_more|]; exact H2.
    - destruct HX as [HA [HX|(a0 & l & E & H1 & H2)]]; (split; [exact HA|]); [auto|]. right. exists a0, l. split; [exact E|]. split; [exact H1|].
      destruct (_ =? 63); [apply ixfe_more|]; exact H2. }
  destruct (oa_cols _ _ _ OA N1 N2 N3) as [E1 E2].
  apply agree_ext with (sts := fun k => col_state k tr).
  { intros k. unfold col_rec. destruct (Z.eqb_spec rc XL_COLINFO); [contradiction|]. destruct (Z.eqb_spec rc XL_COLWIDTH); [contradiction|].
    destruct (Z.eqb_spec rc XL_COLUMNDEFAULT); [contradiction|]. reflexivity. }
  apply (agree_same (xf_now bv tr s) _ s); auto.
Qed.

(** *** Rows *)

Lemma one_ran : forall c (sh sh' : sheet N) rc len d rs rs', rc <> XL_EOF -> step c sh rc len d rs = Ok (sh', rs') ->
  ran c sh ((rc, len, d) :: rs) [(rc, len, d)] sh' rs'.
Proof. intros. eapply ran_cons; [assumption|eassumption|apply ran_nil]. Qed.

Lemma o_step_one : forall s s' rc len d rs rs', rc <> XL_EOF -> o_step codec num8 rk ragged s rc len d rs = Ok (s', rs') ->
  ran (cfg s) (os_sheet s) ((rc, len, d) :: rs) [(rc, len, d)] (os_sheet s') rs'.
Proof.
  intros s s' rc len d rs rs' NE H. unfold o_step in H. apply bind_ok in H as ((sh & rs1) & E & H).
  assert (s' = set_sheet s sh) as -> by congruence. assert (rs' = rs1) as -> by congruence. apply one_ran; assumption.
Qed.

Lemma fold_one : forall p rc len (d : list Z) acc, fold_rec p [(rc, len, d)] acc = if p rc d then Some d else acc.
Proof. reflexivity. Qed.

Lemma one_good : forall rc len d, bytes d -> good [(rc, len, d)].
Proof. intros rc len d HB. repeat constructor. exact HB. Qed.

Lemma row_one : forall (c : config N) sh len d rs sh' rs' r, c_fmt c = true -> bytes d -> step c sh XL_ROW len d rs = Ok (sh', rs') ->
  dget Z.eqb (f_rows (sh_fmt sh')) r = if is_row (max_rows c) r XL_ROW d then Some (row_says d) else dget Z.eqb (f_rows (sh_fmt sh)) r.
Proof.
  intros c sh len d rs sh' rs' r HF HB S. unfold is_row. change (XL_ROW =? XL_ROW) with true. cbn [andb].
  change (step c sh XL_ROW len d rs) with (plain (h_row c sh d) rs) in S. unfold plain, h_row in S.
  apply bind_ok in S as (s1 & S & E). injection E as <- _. rewrite HF in S. cbn [negb] in S. cbv zeta in S.
  apply bind_ok in S as ([] & EN & S). apply bind_ok in S as (rowx & E1 & S). apply bind_ok in S as (bits1 & E3 & S).
  apply bind_ok in S as (bits2 & E2 & S). pose proof (u16_at_range _ _ _ HB E1).
  apply need_len in EN; [|lia]. pose proof (row_reads _ _ _ _ HB EN E1 E3 E2) as HR.
  apply unpack_u16_at in E1. rewrite <- E1. destruct (negb ((0 <=? rowx) && (rowx <? max_rows c))) eqn:EV.
  - injection S as <-. replace ((rowx =? r) && (r <? max_rows c)) with false by lia. reflexivity.
  - injection S as <-. cbn [SheetModel.with_fmt sh_fmt f_rows dset dget]. rewrite (Z.eqb_sym r rowx). destruct (rowx =? r) eqn:ER.
    + replace (r <? max_rows c) with true by lia. cbn [andb]. f_equal. exact HR.
    + reflexivity.
Qed.

Lemma row_weaken : forall (X X' : xsource -> Z -> Prop) o st, (forall src i, X src i -> X' src i) -> row_matched X o st -> row_matched X' o st.
Proof. intros X X' o st H M. destruct o as [ri|], st as [[[] d]|]; cbn [row_matched] in *; auto. destruct M; auto. Qed.

Lemma max_rows_old : forall s, bk_bv (os_book s) < 80 -> max_rows (cfg s) = 16384.
Proof. intros s H. unfold max_rows. change (c_bv (cfg s)) with (bk_bv (os_book s)). replace (bk_bv (os_book s) >=? 80) with false by lia. reflexivity. Qed.

Lemma rows_step : forall bv tr s rc d rs s' rs', bytes d -> bv < 80 -> base bv true tr s ->
  (forall r, row_matched (xf_now bv tr s) (dget Z.eqb (rows_of s) r) (row_state r tr)) -> rc <> XL_EOF ->
  old_step bv s rc (zlen d) d rs = Ok (s', rs') ->
  forall r, row_matched (xf_now bv (tr ++ [(rc, zlen d, d)]) s') (dget Z.eqb (rows_of s') r) (row_state r (tr ++ [(rc, zlen d, d)])).
Proof.
  intros bv tr s rc d rs s' rs' HB BV B M NE S r. pose proof (old_step_alone _ _ _ _ _ _ _ _ _ _ _ _ _ S) as OA.
  assert (MORE : forall src i, xf_now bv tr s src i -> xf_now bv (tr ++ [(rc, zlen d, d)]) s' src i)
    by (apply xf_now_more; [exact (ba_attr _ _ _ _ B)|exact (oa_keep _ _ _ OA)]).
  assert (row_state r (tr ++ [(rc, zlen d, d)]) = row_rec r rc d (row_state r tr)) as -> by (unfold row_state; rewrite fold_left_app; reflexivity).
  pose proof (ba_fmt _ _ _ _ B) as HF. pose proof (ba_bv _ _ _ _ B) as HV.
  assert (MR : max_rows (cfg s) = 16384) by (apply max_rows_old; lia).
  destruct (Z.eq_dec rc XL_ROW) as [->|N1].
  { change (old_step bv s XL_ROW (zlen d) d rs) with (o_step codec num8 rk ragged s XL_ROW (zlen d) d rs) in S.
    assert (16 <= zlen d) as L.
    { unfold o_step in S. change (step (cfg s) (os_sheet s) XL_ROW (zlen d) d rs) with (plain (h_row (cfg s) (os_sheet s) d) rs) in S.
      unfold plain, h_row in S. change (c_fmt (cfg s)) with (b_fmt (os_fmt s)) in S. rewrite HF in S. cbn [negb] in S. rewrite !bind_assoc in S.
      apply bind_ok in S as ([] & EN & _). apply need_len in EN; lia. }
    unfold o_step in S. apply bind_ok in S as ((sh & rs1) & S & E). assert (os_sheet s' = sh) as ES by (injection E as <- _; reflexivity).
    rewrite ES. rewrite (row_one (cfg s) _ _ _ _ _ _ r HF HB S). unfold is_row, row_rec. rewrite MR.
    change (XL_ROW =? XL_ROW) with true. cbn [orb andb]. change (bits d 0 16) with (bits d (8 * 0) 16). rewrite <- (u16_bits d 0) by (assumption || lia).
    destruct ((u16_at d 0 =? r) && (r <? 16384)); [reflexivity|]. eapply row_weaken; [exact MORE|apply M]. }
  destruct (Z.eq_dec rc XL_ROW_B2) as [->|N2].
  { change (old_step bv s XL_ROW_B2 (zlen d) d rs) with (do s <- h_row_b2 codec num8 rk ragged s (zlen d) d; Ok (s, rs)) in S.
    apply bind_ok in S as (s1 & S & E). assert (s1 = s') as -> by congruence. clear E. unfold h_row_b2 in S. rewrite HF, MR in S. cbn [negb] in S.
    apply bind_ok in S as ([] & EN & S). apply bind_ok in S as (rowx & E1 & S). apply bind_ok in S as (b1 & E2 & S). apply bind_ok in S as (b2 & E3 & S).
    apply need_len in EN; [|lia]. pose proof (u16_at_range _ _ _ HB E1) as R1. apply unpack_u16_at in E1. rewrite u16_bits in E1 by (assumption || lia).
    change (8 * 0) with 0 in E1. apply bits_u8 in E3; [|exact HB|lia]. change (8 * 10) with 80 in E3.
    assert (F : Z.land b2 1 = bits d 80 1).
    { rewrite E3. change 1 with (Z.ones 1) at 1. rewrite Z.land_ones by lia. unfold bits. change (2 ^ 1) with 2. change (2 ^ 8) with 256.
      pose proof (Z.mod_pos_bound (le_val d / 2 ^ 80) 256 ltac:(lia)). 
      rewrite <- (Znumtheory.Zmod_div_mod 2 256 (le_val d / 2 ^ 80)); [reflexivity|lia|lia|exists 128; reflexivity]. }
    assert (H1 : Z.land b1 0x7fff = bits d 48 15).
    { rewrite <- (Z.shiftr_0_r b1). change 0x7fff with (Z.ones 15). rewrite (bits_u16 d 6 b1) by (assumption || lia). reflexivity. }
    assert (H2 : bit b1 15 = bits d 63 1).
    { unfold bit. change (Z.land (Z.shiftr b1 15) 1) with (Z.land (Z.shiftr b1 15) (Z.ones 1)). rewrite (bits_u16 d 6 b1) by (assumption || lia). reflexivity. }
    unfold row_rec. change ((XL_ROW_B2 =? XL_ROW) || (XL_ROW_B2 =? XL_ROW_B2)) with true. cbn [andb].
    rewrite F, H1, H2 in S. rewrite <- E1.
    destruct (negb ((0 <=? rowx) && (rowx <? 16384))) eqn:EV.
    { assert (s' = s) as -> by congruence. replace ((rowx =? r) && (r <? 16384)) with false by lia. eapply row_weaken; [exact MORE|apply M]. }
    apply bind_ok in S as ((s1 & x) & EX & S). cbv zeta in S.
    match type of S with Ok (set_sheet s1 ?sh) = _ => assert (s' = set_sheet s1 sh) as ES by congruence end.
    assert (XN : xf_now bv (tr ++ [(XL_ROW_B2, zlen d, d)]) s' (row_b2_xf d) x /\ os_sheet s1 = os_sheet s).
    { unfold row_b2_xf. destruct (bits d 80 1 =? 0).
      - assert (s1 = s /\ x = -1) as [-> ->] by (split; congruence). split; reflexivity.
      - destruct (zlen d =? 18) eqn:L.
        + apply bind_ok in EX as (? & _ & EX). apply bind_ok in EX as (xfx & EQ & EX). apply unpack_u16_at in EQ. rewrite u16_bits in EQ by (assumption || lia).
          change (8 * 16) with 128 in EQ. destruct (fixed_facts _ _ _ _ _ EX) as [C F2].
          destruct F2 as [(-> & V & k & K & Q)|(a' & E & _)]; [|discriminate E]. split; [|reflexivity]. cbn [xf_now]. split; [apply (ba_version _ _ _ _ B); exact V|].
          subst k. rewrite <- EQ. destruct (xfx =? 63); [apply ixfe_more, (ba_ixfe _ _ _ _ B); exact Q|exact Q].
        + destruct (fixed_now _ _ _ _ _ _ _ (bytes_slice _ 13 16 HB) B EX) as (B1 & C & XN). split; [|exact (proj1 C)].
          apply (xf_now_more bv tr _ s1 s' (ba_attr _ _ _ _ B1)); [|exact XN]. rewrite ES. apply keep_same; reflexivity. }
    destruct XN as [XN ESH].
    assert (W : rows_of s' = dset (rows_of s) rowx (row_b2_says d x)) by (rewrite ES; cbn [set_sheet os_sheet SheetModel.with_fmt sh_fmt f_rows]; rewrite ESH; reflexivity).
    rewrite W. unfold dset. cbn [dget]. rewrite (Z.eqb_sym r rowx). destruct (rowx =? r) eqn:ER.
    - replace (r <? 16384) with true by lia. cbn [andb row_matched]. split; [reflexivity|exact XN].
    - cbn [andb]. eapply row_weaken; [exact MORE|apply M]. }
  rewrite (oa_rows _ _ _ OA N1 N2). unfold row_rec. destruct (Z.eqb_spec rc XL_ROW); [contradiction|]. destruct (Z.eqb_spec rc XL_ROW_B2); [contradiction|].
  cbn [orb andb]. eapply row_weaken; [exact MORE|apply M].
Qed.

(** *** The window *)

Definition window_of (s : ost) : window :=
  let v := sh_view (os_sheet s) in (v_options v, v_first_row v, v_first_col v, v_gridline_rgb v).

Lemma u8_at : forall d pos v, bytes d -> unpack_le 1 d pos = Ok v -> 0 <= pos -> v = bits d (8 * pos) 8.
Proof. intros. eapply bits_u8; eauto. Qed.

Lemma u16_value : forall d pos v, bytes d -> unpack_u16 d pos = Ok v -> 0 <= pos -> pos + 2 <= zlen d -> v = bits d (8 * pos) 16.
Proof. intros d pos v HB H Hp HL. apply unpack_u16_at in H. subst v. apply u16_bits; assumption. Qed.

Lemma slice_long : forall (d : list Z) lo hi, 0 <= lo <= hi -> zlen (py_slice d lo hi) = hi - lo -> lo < hi -> hi <= zlen d.
Proof. intros d lo hi H E L. rewrite py_slice_len in E. pose proof (zlen_nonneg d). unfold py_bound in E. destruct (lo <? 0) eqn:?, (hi <? 0) eqn:?; lia. Qed.

Lemma window_step_old : forall bv tr s rc d rs s' rs', bytes d -> bv < 80 -> bk_bv (os_book s) = bv -> rc <> XL_EOF ->
  window_of s = window_state tr -> old_step bv s rc (zlen d) d rs = Ok (s', rs') -> window_of s' = window_state (tr ++ [(rc, zlen d, d)]).
Proof.
  intros bv tr s rc d rs s' rs' HB BV HV NE W S. pose proof (old_step_alone _ _ _ _ _ _ _ _ _ _ _ _ _ S) as OA.
  assert (window_state (tr ++ [(rc, zlen d, d)]) = window_rec rc d (window_state tr)) as -> by (unfold window_state; rewrite fold_left_app; reflexivity).
  rewrite <- W. destruct (Z.eq_dec rc XL_WINDOW2) as [->|N1].
  { change (old_step bv s XL_WINDOW2 (zlen d) d rs) with
      (do _ <- guard (bv >=? 30) AssertionError; o_step codec num8 rk ragged s XL_WINDOW2 (zlen d) d rs) in S.
    apply bind_ok in S as (? & _ & S). unfold o_step in S. apply bind_ok in S as ((sh & rs1) & S & E).
    assert (s' = set_sheet s sh) as -> by congruence. destruct (window_step (cfg s) _ _ _ _ _ HB S) as (W1 & W2 & W3 & _ & W5 & _).
    assert (long_form (c_bv (cfg s)) d = false) as LF.
    { unfold long_form. change (c_bv (cfg s)) with (bk_bv (os_book s)). replace (80 <=? bk_bv (os_book s)) with false by lia. reflexivity. }
    rewrite LF in W5. unfold window_of. cbn [set_sheet os_sheet]. rewrite W1, W2, W3, W5. reflexivity. }
  destruct (Z.eq_dec rc XL_WINDOW2_B2) as [->|N2].
  { change (old_step bv s XL_WINDOW2_B2 (zlen d) d rs) with (do s <- h_window2_b2 codec num8 rk ragged s d; Ok (s, rs)) in S.
    apply bind_ok in S as (s1 & S & E). assert (s1 = s') as -> by congruence. clear E. unfold h_window2_b2 in S. cbv zeta in S.
    apply bind_ok in S as (g1 & G1 & S). apply bind_ok in S as (fr & E1 & S). apply bind_ok in S as (fc & E2 & S). apply bind_ok in S as (auto & E3 & S).
    apply bind_ok in S as (g2 & G2 & S). apply bind_ok in S as (r & E4 & S). apply bind_ok in S as (g & E5 & S). apply bind_ok in S as (b & E6 & S).
    match type of S with Ok ?x = _ => assert (s' = x) as -> by congruence end. clear S.
    unfold guard in G1, G2. destruct (zlen (py_slice d 5 10) =? 5) eqn:L1; [|discriminate]. destruct (zlen (py_slice d 10 13) =? 3) eqn:L2; [|discriminate].
    assert (13 <= zlen d) as L by (apply (slice_long d 10 13); lia).
    apply u16_value in E1, E2; try assumption; try lia. apply u8_at in E3, E4, E5, E6; try assumption; try lia. subst.
    assert (map (fun _ : Z => 1) (py_slice d 0 5) = [1; 1; 1; 1; 1]) as HO.
    { assert (zlen (py_slice d 0 5) = 5) as L5 by (rewrite py_slice_len, !py_bound_id by lia; lia).
      destruct (py_slice d 0 5) as [|? [|? [|? [|? [|? [|? l]]]]]]; try discriminate L5; [reflexivity|].
      rewrite !zlen_cons in L5. pose proof (zlen_nonneg l). lia. }
    unfold window_of. cbn [set_sheet os_sheet with_view sh_view v_options v_first_row v_first_col v_gridline_rgb].
    unfold window_rec. change (XL_WINDOW2_B2 =? XL_WINDOW2) with false. change (XL_WINDOW2_B2 =? XL_WINDOW2_B2) with true. cbv iota. cbn [fst]. rewrite HO. reflexivity. }
  pose proof (oa_options _ _ _ OA N1 N2) as A1. pose proof (oa_visible _ _ _ OA N1 N2) as A2. pose proof (oa_gridline _ _ _ OA N1 N2) as A3.
  unfold window_rec. destruct (Z.eqb_spec rc XL_WINDOW2); [contradiction|]. destruct (Z.eqb_spec rc XL_WINDOW2_B2); [contradiction|]. unfold window_of. congruence.
Qed.

(** *** Widths *)

Record widths (tr : list record) (s : ost) : Prop := {
  wi_default : f_defcolwidth (sh_fmt (os_sheet s)) = option_map (fun d => u16_at d 0) (last_rec (is_code XL_DEFCOLWIDTH) tr);
  wi_standard : f_standardwidth (sh_fmt (os_sheet s)) = option_map (fun d => u16_at d 0) (last_rec (is_code XL_STANDARDWIDTH) tr);
  wi_gcw : forall k, 0 <= k < 256 -> znth (f_gcw (sh_fmt (os_sheet s))) k =
    Some (match last_rec (is_code XL_GCW) tr with Some d => Z.b2z (gcw_bit d k) | None => 0 end) }.

Lemma last_snoc : forall p tr rc len d, last_rec p (tr ++ [(rc, len, d)]) = if p rc d then Some d else last_rec p tr.
Proof. intros. unfold last_rec. rewrite fold_left_app. reflexivity. Qed.

Lemma widths_step : forall bv tr s rc d rs s' rs', bytes d -> b_fmt (os_fmt s) = true -> rc <> XL_EOF -> widths tr s ->
  old_step bv s rc (zlen d) d rs = Ok (s', rs') -> widths (tr ++ [(rc, zlen d, d)]) s'.
Proof.
  intros bv tr s rc d rs s' rs' HB HF NE [W1 W2 W3] S. pose proof (old_step_alone _ _ _ _ _ _ _ _ _ _ _ _ _ S) as OA.
  assert (ONE : rc = XL_DEFCOLWIDTH \/ rc = XL_STANDARDWIDTH \/ rc = XL_GCW -> ran (cfg s) (os_sheet s) ((rc, zlen d, d) :: rs) [(rc, zlen d, d)] (os_sheet s') rs').
  { intros K. apply o_step_one; [exact NE|]. destruct K as [->|[->| ->]]; exact S. }
  pose proof (one_good rc (zlen d) d HB) as G. constructor.
  - rewrite last_snoc. destruct (Z.eq_dec rc XL_DEFCOLWIDTH) as [->|Hn].
    + rewrite (defcolwidth_trace (cfg s) _ _ _ _ _ (ONE (or_introl eq_refl)) G _ W1). reflexivity.
    + unfold is_code at 1. destruct (Z.eqb_spec rc XL_DEFCOLWIDTH); [contradiction|]. rewrite (oa_defcolwidth _ _ _ OA Hn). exact W1.
  - rewrite last_snoc. destruct (Z.eq_dec rc XL_STANDARDWIDTH) as [->|Hn].
    + rewrite (standardwidth_trace (cfg s) _ _ _ _ _ (ONE (or_intror (or_introl eq_refl))) G _ W2). reflexivity.
    + unfold is_code at 1. destruct (Z.eqb_spec rc XL_STANDARDWIDTH); [contradiction|]. rewrite (oa_standardwidth _ _ _ OA Hn). exact W2.
  - intros k Hk. rewrite last_snoc. destruct (Z.eq_dec rc XL_GCW) as [->|Hn].
    + rewrite (gcw_trace (cfg s) k Hk HF _ _ _ _ _ (ONE (or_intror (or_intror eq_refl))) G _ (W3 k Hk)). reflexivity.
    + unfold is_code at 1. destruct (Z.eqb_spec rc XL_GCW); [contradiction|]. rewrite (oa_gcw _ _ _ OA Hn). exact (W3 k Hk).
Qed.

(** *** Together *)

Record old_says (bv : Z) (tr : list record) (s : ost) : Prop := {
  os_base : base bv true tr s;
  os_cols : agree (xf_now bv tr s) s (fun k => col_state k tr);
  os_rows : forall r, row_matched (xf_now bv tr s) (dget Z.eqb (rows_of s) r) (row_state r tr);
  os_window : window_of s = window_state tr;
  os_widths : widths tr s }.

Lemma old_says_oran : forall bv s rs tr s' rs', bv < 80 -> oran bv s rs tr s' rs' -> framed tr -> forall pre, old_says bv pre s -> old_says bv (pre ++ tr) s'.
Proof.
  intros bv s rs tr s' rs' BV R HG. apply (oran_inv bv (old_says bv)) with (2 := R); [|exact HG].
  intros pre s0 rc d rs0 s1 rs1 [O1 O2 O3 O4 O5] NE HB S. constructor.
  - eapply base_step; eauto.
  - eapply cols_step; eauto.
  - eapply rows_step; eauto.
  - eapply window_step_old; eauto. exact (ba_bv _ _ _ _ O1).
  - eapply widths_step; eauto. exact (ba_fmt _ _ _ _ O1).
Qed.

Lemma old_says_start : forall bv b, fresh bv b -> b_fmt (bk_fmt b) = true -> old_says bv [] (ost0 b).
Proof.
  intros bv b [F1 F2 F3 F4 F5 F6] HF. constructor.
  - constructor; auto; [intros a i D; discriminate D|intros V; change (b_bv (bk_fmt b) = 21) in V; congruence|intros i E; discriminate E].
  - constructor; try (intros k; cbn; tauto); cbn; try discriminate; auto.
  - intros r. exact I.
  - reflexivity.
  - constructor; try reflexivity. intros k Hk. cbn [ost0 os_sheet sheet0 sh_fmt f_gcw last_rec fold_left]. apply znth_zrepeat. lia.
Qed.

Lemma oran_framed : forall bv s rs tr s' rs', oran bv s rs tr s' rs' -> framed rs -> framed tr.
Proof.
  intros bv s rs tr s' rs' H. induction H as [|s rc len d rs s1 rs1 tr s2 rs2 E S H IH]; intros HG; [constructor|].
  inversion HG as [|? ? Hb HG']; subst. constructor; [exact Hb|]. apply IH.
  destruct (Local_old_step codec num8 rk of_int ragged _ _ _ _ _ _ _ _ S) as (u & -> & _). apply Forall_app in HG' as [_ HG']. exact HG'.
Qed.

Lemma xf_found : forall bv tr s src i, attr_inv s -> xf_now bv tr s src i -> xf_of bv tr (b_xfs (os_fmt s)) src i.
Proof. clear codec num8 rk of_int ragged.
  intros bv tr s src i I H. destruct src; cbn [xf_now xf_of] in *; auto. destruct H as [HB [H|(a0 & l & E & H)]].
  - left. destruct (I _ _ H) as (a0 & a1 & a2 & x & E & X & A). exists a0, a1, a2, x. auto.
  - right. exists a0, l. split; [exact E|]. change 64 with (2 ^ 6). rewrite <- Z.land_ones by lia. exact H.
Qed.

Lemma old_read_says : forall bv b rs s, fresh bv b -> framed rs -> b_fmt (bk_fmt b) = true ->
  old_read codec num8 rk of_int ragged b rs = Ok s ->
  exists tr s1 len d rest, oran bv (ost0 b) rs tr s1 ((XL_EOF, len, d) :: rest) /\ old_says bv tr s1 /\
    exists g, s = set_sheet s1 (with_grid (os_sheet s1) g).
Proof.
  intros bv b rs s F HG HF H. unfold old_read in H. apply bind_ok in H as (s1 & HL & H). cbv zeta in H. apply bind_ok in H as (g & _ & H).
  rewrite (fr_bv _ _ F) in HL. destruct (loop_oran _ _ _ _ _ _ _ _ _ _ HL) as (tr & len & d & rest & R).
  exists tr, s1, len, d, rest. split; [exact R|]. split; [|exists g; congruence].
  apply (old_says_oran _ _ _ _ _ _) with (2 := R) (pre := []); [|eapply oran_framed; eauto|apply old_says_start; assumption].
  pose proof (fr_known _ _ F) as K. cbn [In] in K. lia.
Qed.
End OldView.

(** ** C84: columns and rows *)

(** [tr] is the list of the records of the sheet up to its EOF record, without those that
    belong to another record (see OldTrace.v). *)
Theorem c84_columns_and_rows : forall {N} codec (num8 : list Z -> N) rk of_int ragged bv b rs s, fresh bv b -> framed rs -> b_fmt (bk_fmt b) = true ->
  old_read codec num8 rk of_int ragged b rs = Ok s ->
  exists tr s1 len d rest, oran codec num8 rk of_int ragged bv (ost0 b) rs tr s1 ((XL_EOF, len, d) :: rest) /\
    (forall k, matched (xf_of bv tr (b_xfs (os_fmt s))) (dget Z.eqb (f_cols (sh_fmt (os_sheet s))) k) (col_state k tr)) /\
    (forall r, row_matched (xf_of bv tr (b_xfs (os_fmt s))) (dget Z.eqb (f_rows (sh_fmt (os_sheet s))) r) (row_state r tr)).
Proof.
  intros N codec num8 rk of_int ragged bv b rs s F HG HF H.
  destruct (old_read_says _ _ _ _ _ _ _ _ _ F HG HF H) as (tr & s1 & len & d & rest & R & [O1 O2 O3 _ _] & g & ->).
  exists tr, s1, len, d, rest. split; [exact R|]. split.
  - intros k. eapply matched_weaken; [|exact (ag_info _ _ _ O2 k)]. intros src i. apply (xf_found bv tr s1). exact (ba_attr _ _ _ _ O1).
  - intros r. eapply row_weaken; [|exact (O3 r)]. intros src i. apply (xf_found bv tr s1). exact (ba_attr _ _ _ _ O1).
Qed.
Print Assumptions c84_columns_and_rows.

(** Which columns have an entry at all: those that a record names. *)
Definition names_col (k : Z) (r : record) : bool :=
  let '(rc, _, d) := r in
  (rc =? XL_COLINFO) && covers_col k rc d || (rc =? XL_COLWIDTH) && existsb (Z.eqb k) (colwidth_cols d) ||
  (rc =? XL_COLUMNDEFAULT) && existsb (Z.eqb k) (columndefault_cols d).

Lemma touch_some : forall k u l st, (exists c, fold_left (fun st j => touch k j (u j) st) l st = Some c) <-> (exists c, st = Some c) \/ existsb (Z.eqb k) l = true.
Proof.
  intros k u. induction l as [|j l IH]; intros st; cbn [fold_left existsb].
  - split; [auto|]. intros [H|H]; [exact H|discriminate].
  - rewrite IH. destruct st as [c|]; cbn [touch].
    + split; intros _; left; eauto.
    + rewrite (Z.eqb_sym j k). destruct (k =? j); cbn [orb]; [split; intros _; [right; reflexivity|left; eauto]|].
      split; (intros [(c & H)|H]; [discriminate H|auto]).
Qed.

Lemma col_rec_some : forall k rc len d st, (exists c, col_rec k rc d st = Some c) <-> (exists c, st = Some c) \/ names_col k (rc, len, d) = true.
Proof.
  intros k rc len d st. unfold col_rec, names_col. cbv zeta.
  destruct (Z.eqb_spec rc XL_COLINFO) as [->|N1].
  - change (XL_COLINFO =? XL_COLWIDTH) with false. change (XL_COLINFO =? XL_COLUMNDEFAULT) with false. cbn [andb]. rewrite !orb_false_r.
    destruct (covers_col k XL_COLINFO d); [split; intros _; [right; reflexivity|eauto]|].
    split; [intros (c & H)|intros [(c & ->)|H]]; [|cbn [option_map]; eauto|discriminate]. destruct st as [c0|]; [eauto|discriminate].
  - destruct (Z.eqb_spec rc XL_COLWIDTH) as [->|N2].
    + change (XL_COLWIDTH =? XL_COLUMNDEFAULT) with false. cbn [andb orb]. rewrite orb_false_r.
      apply (touch_some k (fun _ => set_width (bits d 16 16))).
    + destruct (Z.eqb_spec rc XL_COLUMNDEFAULT) as [->|N3].
      * cbn [andb orb]. apply (touch_some k (fun j => set_xf (XAttr (attr_of d j)))).
      * cbn [andb orb]. split; [auto|]. intros [H|H]; [exact H|discriminate].
Qed.

Theorem c84_which_columns : forall k tr, (exists c, col_state k tr = Some c) <-> existsb (names_col k) tr = true.
Proof.
  intros k tr. induction tr as [|[[rc len] d] tr IH] using rev_ind.
  - split; [intros (c & H); discriminate|discriminate].
  - unfold col_state. rewrite fold_left_app. cbn [fold_left]. rewrite (col_rec_some k rc len d). fold (col_state k tr). rewrite IH, existsb_app.
    cbn [existsb]. rewrite orb_false_r, orb_true_iff. reflexivity.
Qed.
Print Assumptions c84_which_columns.

(** Without formatting_info there is nothing. *)
Lemma oran_nothing : forall {N} codec (num8 : list Z -> N) rk of_int ragged bv s rs tr s1 rs1, oran codec num8 rk of_int ragged bv s rs tr s1 rs1 -> framed tr ->
  b_fmt (os_fmt s) = false -> f_cols (sh_fmt (os_sheet s)) = [] -> f_rows (sh_fmt (os_sheet s)) = [] ->
  b_fmt (os_fmt s1) = false /\ f_cols (sh_fmt (os_sheet s1)) = [] /\ f_rows (sh_fmt (os_sheet s1)) = [].
Proof.
  intros N codec num8 rk of_int ragged bv s rs tr s1 rs1 R FT HF HC HR.
  refine (oran_inv codec num8 rk of_int ragged bv (fun _ s => b_fmt (os_fmt s) = false /\ f_cols (sh_fmt (os_sheet s)) = [] /\ f_rows (sh_fmt (os_sheet s)) = [])
      _ _ _ _ _ _ R _ [] _); [|exact FT|auto].
    intros _ s0 rc d0 rs0 s2 rs2 (K1 & K2 & K3) NE HB S. pose proof (old_step_alone _ _ _ _ _ _ _ _ _ _ _ _ _ S) as OA.
    split; [rewrite (oa_fmt _ _ _ OA); exact K1|]. split.
    - destruct (Z.eq_dec rc XL_COLINFO) as [->|N1]; [|destruct (Z.eq_dec rc XL_COLWIDTH) as [->|N2]; [|destruct (Z.eq_dec rc XL_COLUMNDEFAULT) as [->|N3]]].
      + change (old_step codec num8 rk of_int ragged bv s0 XL_COLINFO (zlen d0) d0 rs0) with (do s <- o_colinfo codec num8 rk ragged s0 d0; Ok (s, rs0)) in S.
        unfold o_colinfo, h_colinfo in S. change (c_fmt (cfg codec num8 rk ragged s0)) with (b_fmt (os_fmt s0)) in S. rewrite K1 in S. cbn [negb bind] in S.
        injection S as <- <-. exact K2.
      + change (old_step codec num8 rk of_int ragged bv s0 XL_COLWIDTH (zlen d0) d0 rs0) with (do s <- h_colwidth s0 d0; Ok (s, rs0)) in S.
        unfold h_colwidth in S. rewrite K1 in S. cbn [negb bind] in S. injection S as <- <-. exact K2.
      + change (old_step codec num8 rk of_int ragged bv s0 XL_COLUMNDEFAULT (zlen d0) d0 rs0) with (do s <- h_columndefault s0 d0; Ok (s, rs0)) in S.
        unfold h_columndefault in S. rewrite K1 in S. cbn [negb bind] in S. injection S as <- <-. exact K2.
      + rewrite (proj1 (oa_cols _ _ _ OA N1 N2 N3)). exact K2.
    - destruct (Z.eq_dec rc XL_ROW) as [->|N1]; [|destruct (Z.eq_dec rc XL_ROW_B2) as [->|N2]].
      + change (old_step codec num8 rk of_int ragged bv s0 XL_ROW (zlen d0) d0 rs0) with (o_step codec num8 rk ragged s0 XL_ROW (zlen d0) d0 rs0) in S.
        unfold o_step in S. change (step (cfg codec num8 rk ragged s0) (os_sheet s0) XL_ROW (zlen d0) d0 rs0) with (plain (h_row (cfg codec num8 rk ragged s0) (os_sheet s0) d0) rs0) in S.
        unfold plain, h_row in S. change (c_fmt (cfg codec num8 rk ragged s0)) with (b_fmt (os_fmt s0)) in S. rewrite K1 in S. cbn [negb bind] in S.
        injection S as <- <-. exact K3.
      + change (old_step codec num8 rk of_int ragged bv s0 XL_ROW_B2 (zlen d0) d0 rs0) with (do s <- h_row_b2 codec num8 rk ragged s0 (zlen d0) d0; Ok (s, rs0)) in S.
        unfold h_row_b2 in S. rewrite K1 in S. cbn [negb bind] in S. injection S as <- <-. exact K3.
      + rewrite (oa_rows _ _ _ OA N1 N2). exact K3.
Qed.
Theorem c84_without : forall {N} codec (num8 : list Z -> N) rk of_int ragged bv b rs s, fresh bv b -> framed rs -> b_fmt (bk_fmt b) = false ->
  old_read codec num8 rk of_int ragged b rs = Ok s ->
  f_cols (sh_fmt (os_sheet s)) = [] /\ f_rows (sh_fmt (os_sheet s)) = [].
Proof.
  intros N codec num8 rk of_int ragged bv b rs s F HG HF H. unfold old_read in H. apply bind_ok in H as (s1 & HL & H). cbv zeta in H. apply bind_ok in H as (g & _ & H).
  rewrite (fr_bv _ _ F) in HL. destruct (loop_oran _ _ _ _ _ _ _ _ _ _ HL) as (tr & len & d & rest & R).
  destruct (oran_nothing _ _ _ _ _ _ _ _ _ _ _ R (oran_framed _ _ _ _ _ _ _ _ _ _ _ R HG) HF eq_refl eq_refl) as (_ & K).
  assert (s = set_sheet s1 (with_grid (os_sheet s1) g)) as -> by congruence. exact K.
Qed.
Print Assumptions c84_without.

(** ** C85: widths and the window *)

Theorem c85_width_and_window : forall {N} codec (num8 : list Z -> N) rk of_int ragged bv b rs s, fresh bv b -> framed rs -> b_fmt (bk_fmt b) = true ->
  old_read codec num8 rk of_int ragged b rs = Ok s ->
  exists tr s1 len d rest, oran codec num8 rk of_int ragged bv (ost0 b) rs tr s1 ((XL_EOF, len, d) :: rest) /\
    (forall k, 0 <= k < 256 -> computed_column_width (cfg codec num8 rk ragged s) (os_sheet s) k = Ok (old_width bv tr k)) /\
    (let v := sh_view (os_sheet s) in (v_options v, v_first_row v, v_first_col v, v_gridline_rgb v) = window_state tr).
Proof.
  intros N codec num8 rk of_int ragged bv b rs s F HG HF H.
  destruct (old_read_says _ _ _ _ _ _ _ _ _ F HG HF H) as (tr & s1 & len & d & rest & R & [O1 O2 _ O4 [W1 W2 W3]] & g & ->).
  exists tr, s1, len, d, rest. split; [exact R|]. split; [|exact O4]. intros k Hk.
  unfold computed_column_width, req_fmt_info. change (c_fmt (cfg codec num8 rk ragged (set_sheet s1 (with_grid (os_sheet s1) g)))) with (b_fmt (os_fmt s1)).
  rewrite (ba_fmt _ _ _ _ O1). cbn [guard bind]. change (c_bv (cfg codec num8 rk ragged (set_sheet s1 (with_grid (os_sheet s1) g)))) with (bk_bv (os_book s1)).
  rewrite (ba_bv _ _ _ _ O1). cbn [set_sheet os_sheet with_grid sh_fmt]. cbv zeta. rewrite W1, W2.
  assert (match option_map (fun d => u16_at d 0) (last_rec (is_code XL_DEFCOLWIDTH) tr) with Some w => w * 256 | None => 8 * 256 end = default_width tr) as ->.
  { unfold default_width. destruct (last_rec (is_code XL_DEFCOLWIDTH) tr); cbn [option_map]; lia. }
  assert (OWN : match dget Z.eqb (f_cols (sh_fmt (os_sheet s1))) k with Some ci => Ok (ci_width ci) | None => Ok (default_width tr) end =
    Ok (or_else (option_map cs_width (col_state k tr)) (default_width tr))).
  { pose proof (ag_info _ _ _ O2 k) as M. destruct (dget Z.eqb (f_cols (sh_fmt (os_sheet s1))) k), (col_state k tr); cbn [matched] in M; try contradiction; [|reflexivity].
    destruct M as (M & _). cbn [option_map or_else]. rewrite M. reflexivity. }
  rewrite OWN. unfold old_width, standard_width, global_col. pose proof (fr_known _ _ F) as KV. cbn [In] in KV. replace (bv >=? 80) with false by lia.
  rewrite Z.geb_leb. destruct (40 <=? bv).
  - pose proof (W3 k Hk) as HW. apply py_index_znth in HW; [|lia]. rewrite HW. cbn [bind].
    destruct (last_rec (is_code XL_GCW) tr) as [dd|]; [destruct (gcw_bit dd k)|]; cbn [Z.b2z Z.eqb negb]; try reflexivity.
    destruct (last_rec (is_code XL_STANDARDWIDTH) tr); reflexivity.
  - destruct (bv =? 30); reflexivity.
Qed.
Print Assumptions c85_width_and_window.

(** ** Examples *)

Module ExView.
Definition rec_ (rc : Z) (d : list Z) : record := (rc, zlen d, d).
Definition fresh_book (bv : Z) (fmt : bool) : result (book Z (@loaded Z)) :=
  do b <- book0 bv 0 fmt None; Ok (with_list (with_sheets b (mk_shst [s2l "Sheet 1"] [0] [0] [] [])) [None]).
Notation read bv rs := (do b <- fresh_book bv true; old_read (fun _ b => Ok b) le_val (fun b => Ok (le_val b)) (fun n => n) false b rs).
(** BIFF2: widths of columns 0 to 2, attributes of columns 1 and 2, three rows, the window. *)
Definition rs2 : list record :=
  [rec_ XL_COLWIDTH [0; 2; 0; 9]; rec_ XL_COLUMNDEFAULT [1; 0; 3; 0; 64; 1; 2; 0; 0; 137; 0];
   rec_ XL_ROW_B2 [0; 0; 0; 0; 9; 0; 255; 128; 0; 0; 0; 0; 0];
   rec_ XL_ROW_B2 [4; 0; 0; 0; 9; 0; 255; 0; 0; 0; 1; 0; 0; 64; 1; 2];
   rec_ XL_WINDOW2_B2 [0; 1; 0; 1; 0; 7; 1; 3; 0; 1; 10; 20; 30; 0]; rec_ XL_EOF []].
(** BIFF4: two columns in one COLINFO record, then the width of one of them; the global
    column width table; the standard width; a row; the window. *)
Definition rs4 : list record :=
  [rec_ XL_COLINFO [3; 0; 4; 0; 0; 8; 15; 0; 1; 2]; rec_ XL_COLWIDTH [3; 3; 0; 9]; rec_ XL_STANDARDWIDTH [0; 12];
   rec_ XL_GCW (32 :: 0 :: 64 :: zrepeat 0 31); rec_ XL_DEFCOLWIDTH [10; 0];
   rec_ XL_ROW [5; 0; 0; 0; 9; 0; 255; 128; 0; 0; 0; 0; 160; 0; 17; 48]; rec_ XL_WINDOW2 [0x36; 2; 7; 0; 3; 0; 10; 20; 30; 0]; rec_ XL_EOF []].
End ExView.

Example c84_hypotheses : forall bv fmt, In bv [21; 30; 40] -> exists b, ExView.fresh_book bv fmt = Ok b /\ fresh bv b /\ b_fmt (bk_fmt b) = fmt.
Proof.
  intros bv fmt I. unfold ExView.fresh_book. destruct (book0 (N := Z) (SH := @loaded Z) bv 0 fmt None) as [b|e] eqn:E.
  - cbn [bind]. eexists. split; [reflexivity|]. eapply fresh0; eassumption.
  - exfalso. cbn [In] in I. destruct I as [<-|[<-|[<-|[]]]]; destruct fmt; vm_compute in E; discriminate E.
Qed.
Example c84_framed : framed ExView.rs2 /\ framed ExView.rs4.
Proof. split; unfold framed; repeat constructor; lia. Qed.
Example c84_runs :
  match ExView.read 21 ExView.rs2 with
  | Ok s => map (fun k => option_map (fun ci => (ci_width ci, ci_xf ci)) (dget Z.eqb (f_cols (sh_fmt (os_sheet s))) k)) [0; 1; 2; 3] =
      [Some (2304, -1); Some (2304, 16); Some (2304, 17); None] /\
      map (fun r => option_map (fun ri => (ri_height ri, ri_has_default_height ri, ri_xf ri)) (dget Z.eqb (f_rows (sh_fmt (os_sheet s))) r)) [0; 4; 5] =
      [Some (255, 1, -1); Some (255, 0, 16); None]
  | Err _ => False
  end /\
  match ExView.read 40 ExView.rs4 with
  | Ok s => map (fun k => option_map (fun ci => (ci_width ci, ci_xf ci)) (dget Z.eqb (f_cols (sh_fmt (os_sheet s))) k)) [2; 3; 4; 5] =
      [None; Some (2304, 15); Some (2304, 15); None] /\
      mapM (computed_column_width (cfg (fun _ b => Ok b) le_val (fun b => Ok (le_val b)) false s) (os_sheet s)) [2; 3; 4; 6] = Ok [2560; 2304; 2304; 3072]
  | Err _ => False
  end.
Proof. vm_compute. repeat split; reflexivity. Qed.

(** ** Refutations *)

(** The specification of a COLWIDTH record says that the columns it names have its width;
    computed_column_width of a BIFF2 sheet never uses it, although colinfo_map has it. *)
Theorem c85_width_refuted : exists rs s, framed rs /\ In (ExView.rec_ XL_COLWIDTH [0; 2; 0; 9]) rs /\ ExView.read 21 rs = Ok s /\
  option_map ci_width (dget Z.eqb (f_cols (sh_fmt (os_sheet s))) 1) = Some 2304 /\
  computed_column_width (cfg (fun _ b => Ok b) le_val (fun b => Ok (le_val b)) false s) (os_sheet s) 1 = Ok 2048.
Proof.
  destruct (ExView.read 21 ExView.rs2) as [s|e] eqn:E; [|exfalso; vm_compute in E; discriminate E].
  exists ExView.rs2, s. split; [apply c84_framed|]. split; [left; reflexivity|]. split; [exact E|].
  assert (K : match ExView.read 21 ExView.rs2 with
    | Ok s => option_map ci_width (dget Z.eqb (f_cols (sh_fmt (os_sheet s))) 1) = Some 2304 /\
        computed_column_width (cfg (fun _ b => Ok b) le_val (fun b => Ok (le_val b)) false s) (os_sheet s) 1 = Ok 2048
    | Err _ => False end) by (vm_compute; split; reflexivity).
  rewrite E in K. exact K.
Qed.
Print Assumptions c85_width_refuted.

(** The first five bytes of a WINDOW2 record of BIFF2 are flags; here the first (show formulas)
    is 0 and is reported as 1. *)
Theorem c85_flags_refuted : exists rs s d, framed rs /\ In (ExView.rec_ XL_WINDOW2_B2 d) rs /\ ExView.read 21 rs = Ok s /\
  bits d 0 8 = 0 /\ znth (v_options (sh_view (os_sheet s))) 0 = Some 1.
Proof.
  destruct (ExView.read 21 ExView.rs2) as [s|e] eqn:E; [|exfalso; vm_compute in E; discriminate E].
  exists ExView.rs2, s, [0; 1; 0; 1; 0; 7; 1; 3; 0; 1; 10; 20; 30; 0]. split; [apply c84_framed|]. split; [cbn; tauto|]. split; [exact E|].
  split; [reflexivity|].
  assert (K : match ExView.read 21 ExView.rs2 with Ok s => znth (v_options (sh_view (os_sheet s))) 0 = Some 1 | Err _ => False end) by (vm_compute; reflexivity).
  rewrite E in K. exact K.
Qed.
Print Assumptions c85_flags_refuted.

(** A COLWIDTH record is for the columns it names; after a COLINFO record for columns 3 and 4,
    one for column 3 changes the width of column 4 too. *)
Theorem c84_other_column_refuted : exists rs s, framed rs /\ In (ExView.rec_ XL_COLWIDTH [3; 3; 0; 9]) rs /\ ExView.read 40 rs = Ok s /\
  option_map ci_width (dget Z.eqb (f_cols (sh_fmt (os_sheet s))) 4) = Some 2304 /\
  last_rec (covers_col 4) rs = Some [3; 0; 4; 0; 0; 8; 15; 0; 1; 2] /\ bits [3; 0; 4; 0; 0; 8; 15; 0; 1; 2] 32 16 = 2048.
Proof.
  destruct (ExView.read 40 ExView.rs4) as [s|e] eqn:E; [|exfalso; vm_compute in E; discriminate E].
  exists ExView.rs4, s. split; [apply c84_framed|]. split; [cbn; tauto|]. split; [exact E|].
  assert (K : match ExView.read 40 ExView.rs4 with Ok s => option_map ci_width (dget Z.eqb (f_cols (sh_fmt (os_sheet s))) 4) = Some 2304 | Err _ => False end)
    by (vm_compute; reflexivity).
  rewrite E in K. split; [exact K|]. split; reflexivity.
Qed.
Print Assumptions c84_other_column_refuted.
