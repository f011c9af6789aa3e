(** What single turns of the loop of OldSheet.v do. *)
From Verif Require Import Base BaseFacts Text Strings Framing GridModel GridFacts PropGrid SheetObjects SheetModel SheetFacts
  SheetSteps PropSheet FormatModel FormatFacts FormulaModel BookModel BookApi PropSheetList PropFormat OldSheet OldXf OldContent.

Lemma put_fits : forall {V} (ve : V) rg fmt mr mc g st g', put_cell ve rg fmt mr mc g st = Ok g' -> fmt = true -> fits_h (s_xf st) = true.
Proof.
  intros V ve rg fmt mr mc g st g' H ->.
  assert (S3 : forall g t v x, set3 true g st = SetOk t v x -> fits_h (s_xf st) = true).
  { intros g0 t v x S. unfold set3 in S. destruct (plane_set (g_types g0) _ _ _); [|discriminate S].
    destruct (plane_set (g_vals g0) _ _ _); [|discriminate S]. unfold set_xf in S.
    destruct (plane_set (g_xfs g0) _ _ _) as [p|[]]; try discriminate S. destruct (fits_h (s_xf st)); [reflexivity|discriminate S]. }
  unfold put_cell in H. destruct rg.
  - unfold put_cell_ragged in H. cbv zeta in H. apply bind_ok in H as (? & _ & H). apply bind_ok in H as (? & _ & H).
    destruct (if g_nrows g <? s_row st + 1 then _ else _) as [[[? ?] ?] ?].
    do 7 apply bind_ok in H as (? & _ & H). apply bind_ok in H as (? & E & _). apply bind_ok in E as (? & _ & E).
    destruct (fits_h (s_xf st)); [reflexivity|discriminate E].
  - unfold put_cell_unragged in H. destruct (set3 true g st) as [t v x|t v|e] eqn:S; [exact (S3 _ _ _ _ S)| |discriminate H]. cbv zeta in H.
    apply bind_ok in H as (? & _ & H). apply bind_ok in H as (? & _ & H).
    destruct (if s_col st + 1 >? g_ncols g then _ else _) as [? ?]. apply bind_ok in H as ([[[? ?] ?] ?] & _ & H).
    match type of H with match ?m with _ => _ end = _ => destruct m as [t' v' x'|t' v'|e] eqn:S2 end; try discriminate H. exact (S3 _ _ _ _ S2).
Qed.

Section Steps.
Context {N : Type}.
Variable codec : list Z -> list Z -> result (list Z).
Variable num8 : list Z -> N.
Variable rk : list Z -> result N.
Variable of_int : Z -> N.
Variable ragged : bool.
Notation ost := (@ost N).
Notation store := (@store (value N)).
Notation cfg := (cfg codec num8 rk ragged).
Notation o_put := (o_put codec num8 rk ragged).
Notation holds := (holds codec num8 rk of_int).
Notation grid_of s := (sh_grid (os_sheet s)).
Notation merged_of s := (f_merged (sh_fmt (os_sheet s))).

(** *** The encoding *)

Lemma choose_truthy : forall bv e, bv < 80 -> truthy (en_encoding (choose_encoding bv e)) = true.
Proof.
  intros bv e L. unfold choose_encoding. destruct (en_override e) as [[|c r]|]; try reflexivity.
  all: destruct (en_codepage e) as [cp|]; [|replace (bv <? 80) with true by lia; reflexivity].
  all: destruct (encoding_from_codepage cp) as [x|] eqn:E.
  all: try (destruct ((300 <=? cp) && (cp <=? 1999)); [reflexivity|]; replace (bv >=? 80) with false by lia; reflexivity).
  all: cbn [with_encoding en_encoding]; unfold encoding_from_codepage in E;
    repeat match type of E with (if ?b then _ else _) = _ => destruct b; [injection E as <-; reflexivity|] end; discriminate E.
Qed.

Lemma ensure_enc : forall bv e e', bv < 80 -> ensure_encoding codec bv e = Ok e' ->
  truthy (en_encoding e') = true /\ (truthy (en_encoding e) = true -> e' = e).
Proof.
  intros bv e e' L H. unfold ensure_encoding in H. destruct (truthy (en_encoding e)) eqn:T.
  - injection H as <-. auto.
  - split; [|discriminate]. unfold derive_encoding in H. cbv zeta in H. apply bind_ok in H as (? & _ & H).
    pose proof (choose_truthy bv e L) as C. destruct (en_raw _).
    + apply bind_ok in H as (? & _ & H). injection H as <-. exact C.
    + injection H as <-. exact C.
Qed.

Definition same_rest (s s' : ost) : Prop :=
  os_sheet s' = os_sheet s /\ os_ixfe s' = os_ixfe s /\ os_done s' = os_done s /\ os_attrs s' = os_attrs s.

Lemma os_ensure_spec : forall s s', bk_bv (os_book s) < 80 -> os_ensure codec s = Ok s' ->
  same_tables s s' /\ same_rest s s' /\ truthy (en_encoding (bk_enc (os_book s'))) = true.
Proof.
  intros s s' L H. unfold os_ensure, ensure in H. apply bind_ok in H as (b & H1 & H). apply bind_ok in H1 as (e & H1 & H2).
  assert (b = with_enc (os_book s) e) as -> by congruence. assert (s' = set_book s (with_enc (os_book s) e)) as -> by congruence.
  destruct (ensure_enc _ _ _ L H1) as [T K].
  split; [|split; [repeat split|exact T]]. repeat split; auto. intros T0. cbn. rewrite (K T0). reflexivity.
Qed.

(** *** Storing a cell *)

(** One cell more in the sheet; the tables have only grown. *)
Definition wrote (bv : Z) (real : bool) (s : ost) (w : option Z * ocell) (s' : ost) : Prop :=
  exists st, put_cell vempty ragged (b_fmt (os_fmt s)) 16384 256 (grid_of s) st = Ok (grid_of s') /\
    holds bv real s' w st /\ ext bv s s' /\ sinv bv real s' /\ os_ixfe s' = os_ixfe s /\ merged_of s' = merged_of s.

(** The type and value given to put_cell. *)
Definition val_ok (s : ost) (v : kind) (t : option Z) (x : value N) : Prop :=
  match v with
  | KNumber d8 => t = None /\ x = VNum (num8 d8)
  | KInteger n => t = None /\ x = VNum (of_int n)
  | KRk b => t = None /\ exists y, rk b = Ok y /\ x = VNum y
  | KText raw => t = Some XL_CELL_TEXT /\ exists u, unicode codec (en_encoding (bk_enc (os_book s))) raw = Ok u /\ x = VText u /\
      truthy (en_encoding (bk_enc (os_book s))) = true
  | KBool v => t = Some XL_CELL_BOOLEAN /\ x = VInt v
  | KError v => t = Some XL_CELL_ERROR /\ x = VInt v
  | KBlank => t = Some XL_CELL_BLANK /\ x = vempty
  | KNoText => t = Some XL_CELL_TEXT /\ x = VText []
  end.

Lemma xf_in_range : forall bv real (s : ost) ix f i t, sinv bv real s -> ref_ok bv f -> xf_of bv real s ix f i ->
  dget Z.eqb (b_xftype (os_fmt s)) i = Some t -> bv < 30 -> 0 <= i < zlen (b_xfs (os_fmt s)).
Proof.
  intros bv real s ix f i t I R X T L. pose proof (fi_range _ (si_f _ _ _ I) _ _ T) as FR.
  destruct f as [a0 a1 a2|x]; [|destruct R; lia]. cbn [xf_of] in X.
  destruct (si_2x _ _ _ I L) as [V|[V B]].
  - destruct (si_20 _ _ _ I V) as (RF & _ & AT). subst real. rewrite andb_false_r in X.
    destruct (AT _ _ X) as (? & ? & ? & x & _ & Y & _). apply znth_Some_range in Y. exact Y.
  - destruct (si_21 _ _ _ I V) as [A R1]. destruct real.
    + destruct (b_xfs (os_fmt s)) as [|x0 l]; [congruence|]. rewrite zlen_cons in *. pose proof (zlen_nonneg l). lia.
    + rewrite andb_false_r, A in X. discriminate X.
Qed.

Lemma cfg_rows : forall s, bk_bv (os_book s) < 80 -> max_rows (cfg s) = 16384.
Proof. intros s L. unfold max_rows. cbn [cfg config_of c_bv]. replace (bk_bv (os_book s) >=? 80) with false by lia. reflexivity. Qed.

Lemma put_wrote : forall bv real (s s1 s' : ost) c t x xf, o_put s1 (oc_row c) (oc_col c) t x xf = Ok s' ->
  ext bv s s1 -> sinv bv real s1 -> os_sheet s1 = os_sheet s -> os_ixfe s1 = os_ixfe s ->
  ref_ok bv (oc_ref c) -> xf_of bv real s1 (os_ixfe s) (oc_ref c) xf -> val_ok s1 (oc_kind c) t x ->
  wrote bv real s (os_ixfe s, c) s'.
Proof.
  intros bv real s s1 s' c t x xf H E I SH IX R XO VO.
  pose proof (si_version _ _ _ I) as BV. pose proof (si_bv _ _ _ I) as EB.
  unfold OldSheet.o_put, put in H. apply bind_ok in H as (sh & H1 & H). apply bind_ok in H1 as (ty & T & H1).
  rewrite cfg_rows in H1 by lia. apply bind_ok in H1 as (g & P & H1).
  assert (sh = with_grid (os_sheet s1) g) as -> by congruence. assert (s' = set_sheet s1 (with_grid (os_sheet s1) g)) as -> by congruence.
  cbn [OldSheet.cfg config_of c_ragged c_fmt c_xftype] in P, T. fold (os_fmt s1) in P, T.
  exists (mk_store (oc_row c) (oc_col c) ty x xf).
  split; [rewrite <- SH, <- (ex_fmt _ _ _ (proj1 E)); exact P|].
  split; [|split; [destruct E as [[? ? ? ? ?] ?]; split; [constructor|]; assumption|split; [eapply same_sinv; [|exact I]; repeat split; auto|split; [exact IX|rewrite <- SH; reflexivity]]]].
  split; [reflexivity|]. split; [reflexivity|]. split; [intros F; eapply put_fits; [exact P|exact F]|].
  split; [exact XO|]. cbn [fst snd s_val s_type s_xf].
  assert (NUM : forall y, t = None -> x = VNum y -> x = VNum y /\ dget Z.eqb (b_xftype (os_fmt s1)) xf = Some ty /\
     (bv < 30 -> 0 <= xf < zlen (b_xfs (os_fmt s1)))).
  { intros y -> ->. split; [reflexivity|]. destruct (dget Z.eqb (b_xftype (os_fmt s1)) xf) as [ty'|] eqn:D; [|discriminate T].
    injection T as ->. split; [reflexivity|]. eapply xf_in_range; eassumption. }
  unfold val_ok in VO. destruct (oc_kind c).
  - destruct VO. apply NUM; assumption.
  - destruct VO. apply NUM; assumption.
  - destruct VO as (V1 & y & V2 & V3). exists y. split; [exact V2|]. apply NUM; assumption.
  - destruct VO as (-> & u & V2 & -> & V4). exists u. injection T as <-. auto.
  - destruct VO as (-> & ->). injection T as <-. auto.
  - destruct VO as (-> & ->). injection T as <-. auto.
  - destruct VO as (-> & ->). injection T as <-. auto.
  - destruct VO as (-> & ->). injection T as <-. auto.
Qed.

(** *** Cells *)

Notation old_step := (old_step codec num8 rk of_int ragged).

Lemma attr_place : forall r k a0 a1 a2 tail, u16v r -> u16v k ->
  let d := (le_enc 2 r ++ le_enc 2 k ++ [a0; a1; a2]) ++ tail in
  unpack_u16 d 0 = Ok r /\ unpack_u16 d 2 = Ok k /\ py_slice d 4 7 = [a0; a1; a2] /\ At d 7 tail /\ zlen d = 7 + zlen tail.
Proof.
  intros r k a0 a1 a2 tail Hr Hk d. unfold u16v in *.
  assert (At d 0 (le_enc 2 r ++ le_enc 2 k ++ [a0; a1; a2] ++ tail)) as A0 by (unfold d; rewrite <- !app_assoc; apply At_0).
  pose proof (At_skip _ _ _ _ 2 A0 eq_refl) as A1. pose proof (At_skip _ _ _ _ 4 A1 eq_refl) as A2.
  pose proof (At_skip _ _ _ _ 7 A2 eq_refl) as A3.
  rewrite (At_u16 _ _ _ _ A0), (At_u16 _ _ _ _ A1) by lia. rewrite (At_slice _ _ _ _ 7 A2) by reflexivity.
  conjs; auto. apply (At_len _ _ _ A3).
Qed.

Lemma place_u16 : forall bv c, place_ok bv c -> u16v (oc_row c) /\ u16v (oc_col c).
Proof. intros bv c (H1 & H2 & _). unfold u16v. lia. Qed.

Lemma attr_xf_of : forall bv real (s s1 : ost) a0 a1 a2 i, bv < 30 -> byte a0 -> sinv bv real s ->
  fixed_xf s (Some [a0; a1; a2]) None = Ok (s1, i) ->
  sinv bv real s1 /\ ext bv s s1 /\ os_sheet s1 = os_sheet s /\ os_ixfe s1 = os_ixfe s /\ os_done s1 = os_done s /\
  bk_enc (os_book s1) = bk_enc (os_book s) /\ xf_of bv real s1 (os_ixfe s) (Attr a0 a1 a2) i.
Proof.
  intros bv real s s1 a0 a1 a2 i L B I H. destruct (fixed_xf_spec _ _ _ _ _ _ _ H L I) as (A1 & A2 & A3 & A4 & A5 & A6 & A7).
  conjs; auto. cbn [xf_of]. destruct ((bv =? 21) && real).
  - destruct A7 as (-> & k & K & A7). rewrite land3F in K by exact B. subst k. exact A7.
  - apply A7.
Qed.

(** A cell of BIFF2 once its value is known. *)
Lemma attr_cell_spec : forall bv real (s0 s s' : ost) c a0 a1 a2 tail t x, place_ok bv c -> oc_ref c = Attr a0 a1 a2 ->
  sinv bv real s0 -> ext bv s0 s -> sinv bv real s -> os_sheet s = os_sheet s0 -> os_ixfe s = os_ixfe s0 -> val_ok s (oc_kind c) t x ->
  attr_cell codec num8 rk ragged s (place c ++ tail) t x = Ok s' -> wrote bv real s0 (os_ixfe s0, c) s'.
Proof.
  intros bv real s0 s s' c a0 a1 a2 tail t x PO RF I0 E I SH IX VO H.
  destruct (place_u16 _ _ PO) as [Hr Hk]. destruct PO as (_ & _ & RO). pose proof RO as RO'. rewrite RF in RO'. destruct RO' as (L & B0 & B1 & B2).
  unfold place in H. rewrite RF in H. cbn [ref_bytes] in H.
  destruct (attr_place (oc_row c) (oc_col c) a0 a1 a2 tail Hr Hk) as (P1 & P2 & P3 & _). cbv zeta in P1, P2, P3.
  unfold attr_cell in H. rewrite P1, P2, P3 in H. cbn [bind] in H. apply bind_ok in H as ((s1 & i) & F & H).
  destruct (attr_xf_of _ _ _ _ _ _ _ _ L B0 I F) as (A1 & A2 & A3 & A4 & A5 & A6 & A7).
  eapply put_wrote; [exact H|eapply ext_trans; eassumption|exact A1|congruence|congruence|exact RO|rewrite RF; rewrite <- IX; exact A7|].
  unfold val_ok in *. destruct (oc_kind c); auto. rewrite A6. exact VO.
Qed.

Lemma zlen1 : forall {A} (a : A), zlen [a] = 1. Proof. reflexivity. Qed.

Lemma attr_step : forall bv real (s s' : ost) c a0 a1 a2 len rs rs', oc_ref c = Attr a0 a1 a2 ->
  oitem_ok bv (OCell c) -> sinv bv real s ->
  old_step bv s (cell_code (oc_ref c) (oc_kind c)) len (place c ++ cell_bytes (oc_ref c) (oc_kind c)) rs = Ok (s', rs') ->
  rs' = rs /\ if kept (b_fmt (os_fmt s)) c then wrote bv real s (os_ixfe s, c) s' else s' = s.
Proof.
  intros bv real s s' c a0 a1 a2 len rs rs' RF (PO & KO) I H.
  destruct (place_u16 _ _ PO) as [Hr Hk]. pose proof PO as (_ & _ & RO). rewrite RF in RO. destruct RO as (L & B0 & B1 & B2).
  pose proof (si_bv _ _ _ I) as EB.
  assert (CELL : forall s0 t x tail, ext bv s s0 -> sinv bv real s0 -> os_sheet s0 = os_sheet s -> os_ixfe s0 = os_ixfe s ->
    val_ok s0 (oc_kind c) t x -> (do s <- attr_cell codec num8 rk ragged s0 (place c ++ tail) t x; Ok (s, rs)) = Ok (s', rs') ->
    rs' = rs /\ wrote bv real s (os_ixfe s, c) s').
  { intros s0 t x tail E0 I0 S0 X0 VO H0. apply bind_ok in H0 as (s1 & H0 & H1). injection H1 as <- <-. split; [reflexivity|].
    eapply attr_cell_spec; eassumption. }
  pose proof (fun t x tail => CELL s t x tail (ext_refl _ _) I eq_refl eq_refl) as CELL0.
  pose proof (fun tail => attr_place (oc_row c) (oc_col c) a0 a1 a2 tail Hr Hk) as PL. cbv zeta in PL.
  change (le_enc 2 (oc_row c) ++ le_enc 2 (oc_col c) ++ [a0; a1; a2]) with (le_enc 2 (oc_row c) ++ le_enc 2 (oc_col c) ++ ref_bytes (Attr a0 a1 a2)) in PL.
  rewrite <- RF in PL. fold (place c) in PL. rewrite RF in H, KO.
  unfold kept. destruct (oc_kind c) as [d8|n|b|raw|v|v| |] eqn:KD; cbn [cell_code cell_bytes width] in H, KO.
  - change (old_step bv s XL_NUMBER_B2 len ?d rs) with (do s <- h_number_b2 codec num8 rk ragged s d; Ok (s, rs)) in H.
    unfold h_number_b2 in H. destruct (PL d8) as (_ & _ & _ & A & Z1). rewrite (At_slice_end _ _ _ 15 A) in H by lia.
    replace (zlen (place c ++ d8) =? 15) with true in H by lia. cbn [guard bind] in H.
    eapply CELL0; [|exact H]. split; reflexivity.
  - destruct KO as [_ KO]. change (old_step bv s XL_INTEGER len ?d rs) with (do s <- h_integer codec num8 rk of_int ragged s d; Ok (s, rs)) in H.
    unfold h_integer in H. destruct (PL (le_enc 2 n)) as (_ & _ & _ & A & Z1). rewrite zlen_le_enc in Z1.
    replace (zlen (place c ++ le_enc 2 n) =? 9) with true in H by lia. cbn [guard bind] in H.
    rewrite <- (app_nil_r (le_enc 2 n)) in A at 2. rewrite (At_u16 _ _ _ _ A) in H by exact KO. cbn [bind] in H.
    eapply CELL0; [|exact H]. split; reflexivity.
  - lia.
  - change (old_step bv s XL_LABEL_B2 len ?d rs) with (do s <- h_label_b2 codec num8 rk ragged s d; Ok (s, rs)) in H.
    unfold h_label_b2 in H. destruct (PL (le_enc 1 (zlen raw) ++ raw)) as (_ & _ & _ & A & Z1). pose proof (zlen_nonneg raw).
    rewrite need_ok in H by (rewrite Z1, zlen_app, zlen_le_enc; lia). cbn [bind] in H. rewrite bind_assoc in H.
    apply bind_ok in H as (s0 & EN & H). destruct (os_ensure_spec s s0) as (E1 & (R1 & R2 & R3 & R4) & T); [pose proof (si_version _ _ _ I); lia|exact EN|].
    unfold unpack_string in H. rewrite (At_le _ _ _ _ _ 1 A eq_refl) in H by (change (256 ^ 1) with 256; change (256 ^ Z.of_nat 1) with 256 in KO; lia).
    cbn [bind] in H. pose proof (At_skip _ _ _ _ (7 + 1) A eq_refl) as A1.
    rewrite (At_slice_end _ _ _ (7 + 1 + zlen raw) A1) in H by lia.
    rewrite bind_assoc in H. apply bind_ok in H as (u & U & H).
    eapply (CELL s0); [apply same_ext; exact E1|eapply same_sinv; eassumption|exact R1|exact R2| |exact H].
    split; [reflexivity|]. exists u. auto.
  - change (old_step bv s XL_BOOLERR_B2 len ?d rs) with (do s <- h_boolerr_b2 codec num8 rk ragged s d; Ok (s, rs)) in H.
    unfold h_boolerr_b2 in H. destruct (PL [v; 0]) as (_ & _ & _ & A & Z1). change (zlen [v; 0]) with 2 in Z1.
    replace (zlen (place c ++ [v; 0]) =? 9) with true in H by lia. cbn [guard bind] in H.
    rewrite (At_byte _ _ _ _ A) in H by exact KO. rewrite (At_byte _ _ _ _ (At_skip1 _ _ _ _ 8 A eq_refl)) in H by lia. cbn [bind] in H.
    rewrite py_index_head in H. cbn [bind] in H. eapply CELL0; [|exact H]. split; reflexivity.
  - change (old_step bv s XL_BOOLERR_B2 len ?d rs) with (do s <- h_boolerr_b2 codec num8 rk ragged s d; Ok (s, rs)) in H.
    unfold h_boolerr_b2 in H. destruct (PL [v; 1]) as (_ & _ & _ & A & Z1). change (zlen [v; 1]) with 2 in Z1.
    replace (zlen (place c ++ [v; 1]) =? 9) with true in H by lia. cbn [guard bind] in H.
    rewrite (At_byte _ _ _ _ A) in H by exact KO. rewrite (At_byte _ _ _ _ (At_skip1 _ _ _ _ 8 A eq_refl)) in H by lia. cbn [bind] in H.
    change (py_index [XL_CELL_BOOLEAN; XL_CELL_ERROR] 1) with (Ok XL_CELL_ERROR) in H.
    cbn [bind] in H. eapply CELL0; [|exact H]. split; reflexivity.
  - change (old_step bv s XL_BLANK_B2 len ?d rs) with (do s <- h_blank_b2 codec num8 rk ragged s d; Ok (s, rs)) in H.
    unfold h_blank_b2 in H. destruct (b_fmt (os_fmt s)); cbn [negb] in H; [|cbn [bind] in H; injection H as <- <-; auto].
    destruct (PL []) as (_ & _ & _ & A & Z1). change (zlen []) with 0 in Z1. rewrite need_ok in H by lia. cbn [bind] in H.
    eapply CELL0; [|exact H]. split; reflexivity.
  - contradiction.
Qed.

Lemma xf_step : forall bv real (s s' : ost) c x len rs rs', oc_ref c = Xf x ->
  oitem_ok bv (OCell c) -> sinv bv real s ->
  old_step bv s (cell_code (oc_ref c) (oc_kind c)) len (place c ++ cell_bytes (oc_ref c) (oc_kind c)) rs = Ok (s', rs') ->
  rs' = rs /\ if kept (b_fmt (os_fmt s)) c then wrote bv real s (os_ixfe s, c) s' else s' = s.
Proof.
  intros bv real s s' c x len rs rs' RF (PO & KO) I H.
  destruct (place_u16 _ _ PO) as [Hr Hk]. pose proof PO as (_ & _ & RO). pose proof RO as RO'. rewrite RF in RO'. destruct RO' as (L & B0).
  pose proof (si_bv _ _ _ I) as EB. pose proof (si_version _ _ _ I) as EV.
  assert (CELL : forall (s0 : ost) t v, ext bv s s0 -> sinv bv real s0 -> os_sheet s0 = os_sheet s -> os_ixfe s0 = os_ixfe s ->
    val_ok s0 (oc_kind c) t v ->
    (do (sh, rs) <- plain (put (cfg s0) (os_sheet s0) (oc_row c) (oc_col c) t v x) rs; Ok (set_sheet s0 sh, rs)) = Ok (s', rs') ->
    rs' = rs /\ wrote bv real s (os_ixfe s, c) s').
  { intros s0 t v E0 I0 S0 X0 VO H0. unfold plain in H0. rewrite bind_assoc in H0. apply bind_ok in H0 as (sh & H0 & H1).
    cbn [bind] in H1. assert (s' = set_sheet s0 sh /\ rs' = rs) as [-> ->] by (split; congruence). split; [reflexivity|].
    eapply put_wrote; [unfold OldSheet.o_put; rewrite H0; reflexivity|exact E0|exact I0|exact S0|exact X0|exact RO|rewrite RF; reflexivity|exact VO]. }
  pose proof (fun t v => CELL s t v (ext_refl _ _) I eq_refl eq_refl) as CELL0.
  pose proof (fun tail => head_read (oc_row c) (oc_col c) x tail Hr Hk B0) as PL. cbv zeta in PL. unfold head in PL.
  change (le_enc 2 (oc_row c) ++ le_enc 2 (oc_col c) ++ le_enc 2 x) with (le_enc 2 (oc_row c) ++ le_enc 2 (oc_col c) ++ ref_bytes (Xf x)) in PL.
  rewrite <- RF in PL. fold (place c) in PL.
  assert (ZP : zlen (place c) = 6) by (unfold place; rewrite RF; reflexivity). rewrite RF in H, KO.
  unfold kept. destruct (oc_kind c) as [d8|n|b|raw|v|v| |] eqn:KD; cbn [cell_code cell_bytes width] in H, KO.
  - change (old_step bv s XL_NUMBER len ?d rs) with (do (sh, rs) <- plain (h_number (cfg s) (os_sheet s) d) rs; Ok (set_sheet s sh, rs)) in H.
    unfold h_number in H. destruct (PL d8) as (P1 & P2 & P3 & A). rewrite P1, P2, P3 in H. rewrite need_ok in H by (rewrite zlen_app; lia). cbn [bind] in H.
    rewrite (At_slice_end _ _ _ 14 A) in H by lia. eapply CELL0; [|exact H]. split; reflexivity.
  - lia.
  - destruct KO as [_ KO].
    change (old_step bv s XL_RK len ?d rs) with (do (sh, rs) <- plain (h_rk (cfg s) (os_sheet s) d) rs; Ok (set_sheet s sh, rs)) in H.
    unfold h_rk in H. destruct (PL b) as (P1 & P2 & P3 & A). rewrite P1, P2, P3 in H. rewrite need_ok in H by (rewrite zlen_app; lia). cbn [bind] in H.
    rewrite (At_slice_end _ _ _ 10 A) in H by lia. change (c_rk (cfg s) b) with (rk b) in H. destruct (rk b) as [y|e] eqn:RK; [|discriminate H].
    cbn [bind] in H. eapply CELL0; [|exact H]. split; [reflexivity|]. exists y. auto.
  - destruct (PL (le_enc 2 (zlen raw) ++ raw)) as (P1 & P2 & P3 & A). pose proof (zlen_nonneg raw).
    change (old_step bv s XL_LABEL len ?d rs) with (do _ <- need d 6; do s <- os_ensure codec s; do (sh, rs) <- plain (h_label (cfg s) (os_sheet s) d) rs; Ok (set_sheet s sh, rs)) in H.
    rewrite need_ok in H by (rewrite zlen_app, zlen_app, zlen_le_enc; lia). cbn [bind] in H.
    apply bind_ok in H as (s0 & EN & H). destruct (os_ensure_spec s s0) as (E1 & (R1 & R2 & R3 & R4) & T); [lia|exact EN|].
    pose proof (same_sinv _ _ _ _ E1 I) as I0. pose proof (si_bv _ _ _ I0) as EB0.
    unfold h_label in H. rewrite P1, P2, P3 in H. rewrite need_ok in H by (rewrite zlen_app, zlen_app, zlen_le_enc; lia). cbn [bind] in H.
    change (c_bv (cfg s0)) with (bk_bv (os_book s0)) in H. replace (bk_bv (os_book s0) <? 80) with true in H by lia.
    unfold unpack_string in H. rewrite (At_le _ _ _ _ _ 2 A eq_refl) in H by (change (256 ^ 2) with 65536; change (256 ^ Z.of_nat 2) with 65536 in KO; lia).
    cbn [bind] in H. pose proof (At_skip _ _ _ _ (6 + 2) A eq_refl) as A1. rewrite (At_slice_end _ _ _ (6 + 2 + zlen raw) A1) in H by lia.
    change (c_decode (cfg s0) raw) with (unicode codec (en_encoding (bk_enc (os_book s0))) raw) in H.
    destruct (unicode codec (en_encoding (bk_enc (os_book s0))) raw) as [u|e] eqn:U; [|discriminate H]. cbn [bind] in H.
    eapply (CELL s0); [apply same_ext; exact E1|exact I0|exact R1|exact R2| |exact H]. split; [reflexivity|]. exists u. auto.
  - change (old_step bv s XL_BOOLERR len ?d rs) with (do (sh, rs) <- plain (h_boolerr (cfg s) (os_sheet s) d) rs; Ok (set_sheet s sh, rs)) in H.
    unfold h_boolerr in H. destruct (PL [v; 0]) as (P1 & P2 & P3 & A). rewrite P1, P2, P3 in H. rewrite need_ok in H by (rewrite zlen_app, ZP; change (zlen [v; 0]) with 2; lia). cbn [bind] in H.
    rewrite (At_byte _ _ _ _ A) in H by exact KO. rewrite (At_byte _ _ _ _ (At_skip1 _ _ _ _ 7 A eq_refl)) in H by lia. cbn [bind] in H.
    rewrite py_index_head in H. cbn [bind] in H. eapply CELL0; [|exact H]. split; reflexivity.
  - change (old_step bv s XL_BOOLERR len ?d rs) with (do (sh, rs) <- plain (h_boolerr (cfg s) (os_sheet s) d) rs; Ok (set_sheet s sh, rs)) in H.
    unfold h_boolerr in H. destruct (PL [v; 1]) as (P1 & P2 & P3 & A). rewrite P1, P2, P3 in H. rewrite need_ok in H by (rewrite zlen_app, ZP; change (zlen [v; 1]) with 2; lia). cbn [bind] in H.
    rewrite (At_byte _ _ _ _ A) in H by exact KO. rewrite (At_byte _ _ _ _ (At_skip1 _ _ _ _ 7 A eq_refl)) in H by lia. cbn [bind] in H.
    change (py_index [XL_CELL_BOOLEAN; XL_CELL_ERROR] 1) with (Ok XL_CELL_ERROR) in H.
    cbn [bind] in H. eapply CELL0; [|exact H]. split; reflexivity.
  - change (old_step bv s XL_BLANK len ?d rs) with (do (sh, rs) <- plain (h_blank (cfg s) (os_sheet s) d) rs; Ok (set_sheet s sh, rs)) in H.
    unfold h_blank in H. change (c_fmt (cfg s)) with (b_fmt (os_fmt s)) in H.
    destruct (b_fmt (os_fmt s)); cbn [negb] in H.
    + destruct (PL []) as (P1 & P2 & P3 & A). rewrite P1, P2, P3 in H. rewrite need_ok in H by (rewrite app_nil_r; lia). cbn [bind] in H.
      eapply CELL0; [|exact H]. split; reflexivity.
    + cbn [plain bind] in H. injection H as <- <-. split; [reflexivity|]. destruct s; reflexivity.
  - contradiction.
Qed.

(** *** Formulas *)

Lemma string_record_reads : forall between code d rs, Forall between_ok between -> zlen between <= 1 ->
  (code = XL_STRING \/ code = XL_STRING_B2) ->
  string_record (map rec_of (between ++ [(code, d)]) ++ rs) = Ok (d, rs).
Proof.
  intros between code d rs HB HB1 HC. unfold string_record.
  assert (((code =? XL_STRING) || (code =? XL_STRING_B2)) = true) as C by (destruct HC as [-> | ->]; reflexivity).
  destruct between as [|b [|b2 l]].
  - cbn [app map]. unfold rec_of at 1. cbn [fst snd next bind]. rewrite C. reflexivity.
  - inversion HB as [|? ? Hb _]; subst. cbn [app map]. unfold rec_of at 1 2. cbn [fst snd next bind].
    assert (((fst b =? XL_STRING) || (fst b =? XL_STRING_B2)) = false) as -> by
      (unfold between_ok, XL_ARRAY, XL_SHRFMLA, XL_TABLEOP, XL_TABLEOP2, XL_ARRAY2, XL_TABLEOP_B2 in Hb; unfold XL_STRING, XL_STRING_B2; lia).
    assert ((if fst b =? XL_ARRAY then need (snd b) 14
              else if fst b =? XL_SHRFMLA then need (snd b) 10
              else if (fst b =? XL_TABLEOP) || (fst b =? XL_TABLEOP2) || (fst b =? XL_ARRAY2) || (fst b =? XL_TABLEOP_B2)
              then Ok tt else Err XLRDError) = Ok tt) as ->.
    { destruct Hb as [[-> Hb]|[[-> Hb]|[ -> |[ -> |[ -> | -> ]]]]]; try reflexivity.
      - rewrite Z.eqb_refl. apply need_ok. lia.
      - change (XL_SHRFMLA =? XL_ARRAY) with false. rewrite Z.eqb_refl. cbv iota. apply need_ok. lia. }
    cbn [bind]. rewrite C. reflexivity.
  - rewrite !zlen_cons in HB1. pose proof (zlen_nonneg l). lia.
Qed.

Definition no_continue (rs : list record) : Prop := match rs with (rc, _, _) :: _ => rc <> XL_CONTINUE | [] => True end.

Lemma string_loop_single : forall (c : config N) rs data ofs raw n t rs', c_bv c < 80 -> no_continue rs -> At data ofs raw ->
  string_loop c rs data ofs n 0 [] = Ok (t, rs') -> c_decode c raw = Ok t /\ zlen t = n /\ rs' = rs.
Proof.
  intros c rs data ofs raw n t rs' L NC A H.
  assert (string_loop c rs data ofs n 0 [] = do u <- c_decode c raw; if zlen u =? n then Ok (u, rs) else
    if zlen u >? n then Err XLRDError else
    match rs with [] => Err StructError | (rc, _, data) :: rs' =>
      if negb (rc =? XL_CONTINUE) then Err XLRDError else string_loop c rs' data 0 n (zlen u) u end) as E.
  { destruct rs as [|[[rc len] d] rs]; cbn [string_loop]; replace (c_bv c >=? 80) with false by lia; rewrite (At_from _ _ _ A); reflexivity. }
  rewrite E in H. apply bind_ok in H as (u & U & H). destruct (zlen u =? n) eqn:Q.
  - injection H as <- <-. split; [exact U|]. split; [lia|reflexivity].
  - destruct (zlen u >? n); [discriminate H|]. destruct rs as [|[[rc len] d] rs]; [discriminate H|].
    cbn [no_continue] in NC. replace (rc =? XL_CONTINUE) with false in H by lia. discriminate H.
Qed.

Lemma formula_code : forall bv s rc len d rs, is_formula_code rc = true -> old_step bv s rc len d rs = o_formula codec num8 rk ragged bv s d rs.
Proof.
  intros bv s rc len d rs H. unfold is_formula_code in H. apply orb_true_iff in H as [H|H]; [apply orb_true_iff in H as [H|H]|];
    apply Z.eqb_eq in H; subst rc; reflexivity.
Qed.

Lemma formula_step : forall bv real (s s' : ost) rc c u rest between code n len rs rs',
  oitem_ok bv (OFormula rc c u rest between code n) -> sinv bv real s -> no_continue rs ->
  old_step bv s rc len (place c ++ result_bytes u (oc_kind c) ++ rest)
    (map rec_of (match oc_kind c with KText raw => between ++ [(code, le_enc (width (oc_ref c)) n ++ raw)] | _ => [] end) ++ rs) = Ok (s', rs') ->
  rs' = rs /\ wrote bv real s (os_ixfe s, c) s'.
Proof.
  intros bv real s s' rc c u rest between code n len rs rs' (FC & PO & RL & KO) I NC H.
  rewrite formula_code in H by exact FC. clear FC.
  destruct (place_u16 _ _ PO) as [Hr Hk]. pose proof PO as (_ & _ & RO).
  pose proof (si_bv _ _ _ I) as EB. pose proof (si_version _ _ _ I) as EV.
  destruct u as [[[u1 u3] u4] u5].
  set (res := result_bytes (u1, u3, u4, u5) (oc_kind c)) in *.
  assert (Z8 : zlen res = 8) by (unfold res; destruct (oc_kind c); cbn [result_bytes]; try reflexivity; apply KO).
  unfold o_formula in H.
  (* the place and the XF *)
  assert (HEAD : exists s1 xf, ext bv s s1 /\ sinv bv real s1 /\ os_sheet s1 = os_sheet s /\ os_ixfe s1 = os_ixfe s /\
    xf_of bv real s1 (os_ixfe s) (oc_ref c) xf /\ need (place c ++ res ++ rest) 16 = Ok tt /\
    unpack_u16 (place c ++ res ++ rest) 0 = Ok (oc_row c) /\ unpack_u16 (place c ++ res ++ rest) 2 = Ok (oc_col c) /\
    (if bv >=? 30 then do xf <- unpack_u16 (place c ++ res ++ rest) 4; Ok (s, xf, py_slice (place c ++ res ++ rest) 6 14)
     else do (s, xf) <- fixed_xf s (Some (py_slice (place c ++ res ++ rest) 4 7)) None; Ok (s, xf, py_slice (place c ++ res ++ rest) 7 15)) =
      Ok (s1, xf, res) /\ (if bv >=? 30 then 2 else 1) = Z.of_nat (width (oc_ref c))).
  { destruct (oc_ref c) as [a0 a1 a2|x] eqn:RF; cbn [ref_ok] in RO.
    - destruct RO as (L & B0 & B1 & B2). replace (bv >=? 30) with false in * by lia.
      destruct (attr_place (oc_row c) (oc_col c) a0 a1 a2 (res ++ rest) Hr Hk) as (P1 & P2 & P3 & A & ZL). cbv zeta in P1, P2, P3, A, ZL.
      change (le_enc 2 (oc_row c) ++ le_enc 2 (oc_col c) ++ [a0; a1; a2]) with
        (le_enc 2 (oc_row c) ++ le_enc 2 (oc_col c) ++ ref_bytes (Attr a0 a1 a2)) in P1, P2, P3, A, ZL.
      rewrite <- RF in P1, P2, P3, A, ZL. fold (place c) in P1, P2, P3, A, ZL.
      set (d := place c ++ res ++ rest) in *. rewrite zlen_app in ZL.
      assert (ND : need d 16 = Ok tt) by (apply need_ok; lia).
      assert (SL : py_slice d 7 15 = res) by (apply (At_slice _ _ _ _ 15 A); lia).
      rewrite ND, P1, P2, P3, SL in H. cbn [bind] in H. apply bind_ok in H as (q & Q & _).
      apply bind_ok in Q as ((s1 & i) & F & Q). destruct (attr_xf_of _ _ _ _ _ _ _ _ L B0 I F) as (A1 & A2 & A3 & A4 & A5 & A6 & A7).
      exists s1, i. rewrite P3, SL, F. conjs; auto.
    - destruct RO as (L & B0). replace (bv >=? 30) with true by lia.
      destruct (head_read (oc_row c) (oc_col c) x (res ++ rest) Hr Hk B0) as (P1 & P2 & P3 & A). cbv zeta in P1, P2, P3, A. unfold head in P1, P2, P3, A.
      change (le_enc 2 (oc_row c) ++ le_enc 2 (oc_col c) ++ le_enc 2 x) with (le_enc 2 (oc_row c) ++ le_enc 2 (oc_col c) ++ ref_bytes (Xf x)) in P1, P2, P3, A.
      rewrite <- RF in P1, P2, P3, A. fold (place c) in P1, P2, P3, A. pose proof (At_len _ _ _ A) as ZL. rewrite (zlen_app res rest) in ZL.
      rewrite P1, P2, P3. rewrite (At_slice _ _ _ _ 14 A) by lia. rewrite need_ok by lia.
      exists s, x. conjs; auto using ext_refl. reflexivity. }
  destruct HEAD as (s1 & xf & E1 & I1 & S1 & X1 & XO & N1 & P1 & P2 & HD & WD). rewrite N1, P1, P2 in H. cbn [bind] in H.
  rewrite HD in H. cbn [bind] in H. clear N1 P1 P2 HD.
  assert (CELL : forall (s0 : ost) t v q, ext bv s s0 -> sinv bv real s0 -> os_sheet s0 = os_sheet s -> os_ixfe s0 = os_ixfe s ->
    xf_of bv real s0 (os_ixfe s) (oc_ref c) xf -> val_ok s0 (oc_kind c) t v ->
    (do s0 <- o_put s0 (oc_row c) (oc_col c) t v xf; Ok (s0, q)) = Ok (s', rs') ->
    rs' = q /\ wrote bv real s (os_ixfe s, c) s').
  { intros s0 t v q E0 I0 S0 X0 XO0 VO H0. apply bind_ok in H0 as (s2 & H0 & H1).
    assert (s' = s2 /\ rs' = q) as [-> ->] by (split; congruence). split; [reflexivity|]. eapply put_wrote; eassumption. }
  pose proof (fun t v q => CELL s1 t v q E1 I1 S1 X1 XO) as CELL1.
  destruct (oc_kind c) as [d8|n0|b|raw|v|v| |] eqn:KD; try contradiction; cbn [result_bytes] in res; subst res.
  - destruct KO as [_ KO]. destruct (list_eqb (py_slice d8 6 8) [255; 255]) eqn:E; [apply list_eqb_eq in E; contradiction|].
    cbn [map app] in H. eapply CELL1; [|exact H]. split; reflexivity.
  - change (py_slice (marked 0 0 u1 u3 u4 u5) 6 8) with [255; 255] in H. rewrite list_eqb_refl in H.
    change (py_index (marked 0 0 u1 u3 u4 u5) 0) with (Ok 0) in H. cbn [bind] in H. change (0 =? 0) with true in H. cbv iota in H.
    destruct KO as (K1 & K2 & K3 & K4). rewrite string_record_reads in H by assumption. cbn [bind] in H. cbv zeta in H. rewrite WD in H.
    pose proof (At_0 (le_enc (width (oc_ref c)) n ++ raw)) as A.
    rewrite (At_le _ _ _ _ _ _ A eq_refl) in H by exact K4. cbn [bind] in H.
    apply bind_ok in H as (s2 & EN & H). destruct (os_ensure_spec s1 s2) as (E2 & (R1 & R2 & R3 & R4) & T); [pose proof (si_bv _ _ _ I1); lia|exact EN|].
    apply bind_ok in H as ((t & q) & SL & H). pose proof (same_sinv _ _ _ _ E2 I1) as I2.
    apply string_loop_single with (raw := raw) in SL; [|cbn [OldSheet.cfg config_of c_bv]; pose proof (si_bv _ _ _ I2); lia|exact NC
      |eapply At_skip; [exact A|rewrite zlen_le_enc; lia]]. destruct SL as (D & _ & ->).
    eapply (CELL s2); [eapply ext_trans; [exact E1|apply same_ext; exact E2]|exact I2|congruence|congruence| | |exact H].
    + destruct (oc_ref c); cbn [xf_of] in *; [|exact XO]. destruct ((bv =? 21) && real); [exact XO|]. rewrite R4. exact XO.
    + split; [reflexivity|]. exists t. auto.
  - change (py_slice (marked 1 v u1 u3 u4 u5) 6 8) with [255; 255] in H. rewrite list_eqb_refl in H.
    change (py_index (marked 1 v u1 u3 u4 u5) 0) with (Ok 1) in H. change (py_index (marked 1 v u1 u3 u4 u5) 2) with (Ok v) in H. cbn [bind] in H.
    change (1 =? 0) with false in H. change (1 =? 1) with true in H. cbv iota in H. eapply CELL1; [|exact H]. split; reflexivity.
  - change (py_slice (marked 2 v u1 u3 u4 u5) 6 8) with [255; 255] in H. rewrite list_eqb_refl in H.
    change (py_index (marked 2 v u1 u3 u4 u5) 0) with (Ok 2) in H. change (py_index (marked 2 v u1 u3 u4 u5) 2) with (Ok v) in H. cbn [bind] in H.
    change (2 =? 0) with false in H. change (2 =? 1) with false in H. change (2 =? 2) with true in H. cbv iota in H. eapply CELL1; [|exact H]. split; reflexivity.
  - change (py_slice (marked 3 0 u1 u3 u4 u5) 6 8) with [255; 255] in H. rewrite list_eqb_refl in H.
    change (py_index (marked 3 0 u1 u3 u4 u5) 0) with (Ok 3) in H. cbn [bind] in H.
    change (3 =? 0) with false in H. change (3 =? 1) with false in H. change (3 =? 2) with false in H. change (3 =? 3) with true in H. cbv iota in H. eapply CELL1; [|exact H]. split; reflexivity.
Qed.
End Steps.
