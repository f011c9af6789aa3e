(** BIFF2 to BIFF4 worksheets that can always be read: specification, and the proof that
    the loop of OldSheet.v gets through them. *)
From Verif Require Import Base BaseFacts Text Strings Framing GridModel GridFacts PropGrid SheetObjects SheetModel SheetFacts
  SheetSteps PropSheet FormatModel FormatFacts FormulaModel BookModel BookFacts PropEnc BookContent BookHistory BookFine BookApi PropSheetList PropFormat OldSheet OldXf OldContent OldSteps OldTurns OldRead.

(** ** Specification *)

(** Records that only matter with formatting_info: rows and columns, fonts, colours,
    conditional formats, page breaks. *)
Definition format_only : list Z := [0x208; 0x7d; 0xab; 0x1b0; 0x1b1; 0x1b; 0x1a; 0x31; 0x231; 0x45; 0x92; 0x24].
(** All other records that mean something, apart from those of [oitem]. *)
Definition other_known : list Z :=
  [0x55; 0x99; 0x1b8; 0x800; 0x5d; 0x1b6; 0x1c; 0x8c; 0x15f; 0x221; 0x4bc; 0x225; 0x23e; 0xa0; 0x41; 0x56; 0x22; 0x2f; 0x5c; 0x3e].

Section Spec.
Context {N : Type}.
Variable codec : list Z -> list Z -> result (list Z).
Variable rk : list Z -> result N.
Variable bv : Z.
Variable override : option (list Z).
Variable fmt : bool.                       (* formatting_info *)
Variable refs : list (list Z).             (* attribute bytes that cells of BIFF2 may have *)
Notation usable := (usable codec bv override).

(** Text in the encoding of the file. *)
Definition reads (cp : option Z) (raw t : list Z) : Prop :=
  usable cp /\ exists e, encoding_for bv override cp e /\ codec e raw = Ok t.

(** The format of a cell is there: [n] XF records, [ix] the IXFE record last met. *)
Definition ref_good (real : bool) (n : Z) (ix : option Z) (f : fref) : Prop :=
  match f with
  | Xf x => x < Z.max 1 n /\ x < 32768
  | Attr a0 a1 a2 =>
      if (bv =? 21) && real then exists x, (if a0 mod 64 =? 63 then ix = Some x else x = a0 mod 64) /\ 0 <= x < n /\ x < 32768
      else a0 mod 64 = 0 /\ In [a0; a1; a2] refs
  end.
Definition value_good (cp : option Z) (v : kind) : Prop :=
  match v with
  | KText raw => exists t, reads cp raw t
  | KRk b => exists x, rk b = Ok x
  | _ => True
  end.
(** The text of a formula has as many characters as the record says. *)
Definition result_good (cp : option Z) (v : kind) (m : Z) : Prop :=
  match v with KText raw => exists t, reads cp raw t /\ zlen t = m | _ => True end.

Inductive setting_good (cp : option Z) : Z -> list Z -> Prop :=
| S_dimension : forall rc d, rc = 0 \/ rc = 0x200 -> d = [] \/ 8 <= zlen d -> setting_good cp rc d
| S_xf : forall rc d, is_xf_code rc = true -> (if bv =? 21 then zlen d = 4 else 12 <= zlen d) -> setting_good cp rc d
| S_format : forall rc pre raw extra t, rc = 0x1e \/ rc = 0x41e -> zlen pre = (if (rc =? 0x41e) && (30 <? bv) then 2 else 0) ->
    zlen raw < 256 -> reads cp raw t -> setting_good cp rc (pre ++ zlen raw :: raw ++ extra)
| S_style : forall w id level extra, u16v w -> Z.testbit w 15 = true -> 0 <= id < 10 -> 0 <= level < 256 ->
    setting_good cp 0x293 (le_enc 2 w ++ id :: level :: extra).

(** A row without a format of its own; without formatting_info, any row or column. *)
Definition use_good (rc : Z) (d : list Z) : Prop :=
  fmt = false \/ rc = 8 /\ exists pre b rest, d = pre ++ b :: rest /\ zlen pre = 10 /\ byte b /\ b mod 2 = 0.
(** Rows, columns, widths, panes, windows, array and shared formulas: long enough. *)
Definition lengths : list (Z * Z) :=
  [(0x208, 16); (0x7d, 10); (0x24, 4); (0x55, 2); (0x99, 2); (0x41, 9); (0x3e, 13); (0x221, 14); (0x4bc, 10); (0x56, 2)].
Inductive noise_good (cp : option Z) : Z -> list Z -> Prop :=
| N_unknown : forall rc d, ~ In rc (format_only ++ other_known) -> noise_good cp rc d
| N_unwanted : forall rc d, In rc format_only -> fmt = false -> noise_good cp rc d
| N_datemode : forall m extra, 0 <= m <= 1 -> noise_good cp 0x22 (le_enc 2 m ++ extra)
| N_long : forall rc d k, In (rc, k) lengths -> k <= zlen d -> noise_good cp rc d
| N_scl : forall d, zlen d = 4 -> noise_good cp 0xa0 d
| N_height : forall d, noise_good cp 0x225 d
| N_window : forall d, 30 <= bv -> 9 <= zlen d -> noise_good cp 0x23e d
| N_font : forall rc pre raw extra t, rc = 0x31 \/ rc = 0x231 -> zlen pre = (if 30 <=? bv then 6 else 4) -> zlen raw < 256 -> reads cp raw t ->
    noise_good cp rc (pre ++ zlen raw :: raw ++ extra).

(** Items that can be read, with [n] XF records, the code page [cp] and the IXFE record
    [ix] before them. *)
Fixpoint good (real : bool) (cp : option Z) (n : Z) (ix : option Z) (items : list oitem) : Prop :=
  match items with
  | [] => True
  | OCell c :: l => ref_good real n ix (oc_ref c) /\ value_good cp (oc_kind c) /\ good real cp n ix l
  | OFormula _ c _ _ _ _ m :: l => ref_good real n ix (oc_ref c) /\ result_good cp (oc_kind c) m /\ good real cp n ix l
  | OIxfe x :: l => good real cp n (Some x) l
  | OSetting rc d :: l =>
      if rc =? 0x42 then exists p extra, d = le_enc 2 p ++ extra /\ u16v p /\ usable (Some p) /\ good real (Some p) n ix l
      else setting_good cp rc d /\ good real cp (if is_xf_code rc then n + 1 else n) ix l
  | OUse rc d :: l => use_good rc d /\ good real cp n ix l
  | OEmbedded _ _ _ :: l => good real cp n ix l
  | ONoise rc d :: l => noise_good cp rc d /\ good real cp n ix l
  end.

(** The code page after [items]. *)
Fixpoint last_page (cp : option Z) (items : list oitem) : option Z :=
  match items with
  | [] => cp
  | OSetting rc d :: l => last_page (if rc =? 0x42 then Some (le_val (firstn 2 d)) else cp) l
  | _ :: l => last_page cp l
  end.
End Spec.

(** ** Proofs *)

Lemma dget_not_in : forall {B} (m : list (list Z * B)) k, dget list_eqb m k = None -> ~ In k (map fst m).
Proof.
  intros B m k H I. induction m as [|[a b] m IH]; [destruct I|]. cbn [dget map fst In] in *. destruct (list_eqb k a) eqn:E; [discriminate|].
  destruct I as [->|I]; [rewrite list_eqb_refl in E; discriminate|auto].
Qed.

Lemma string_at : forall dec data pos raw t, At data pos (zlen raw :: raw ++ t) -> zlen raw < 256 -> unpack_string dec data pos 1 = dec raw.
Proof.
  intros dec data pos raw t A L. unfold unpack_string. rewrite (At_byte _ _ _ _ A) by (pose proof (zlen_nonneg raw); lia). rewrite bind_Ok. cbv zeta.
  pose proof (At_skip1 _ _ _ _ (pos + 1) A eq_refl) as A2. rewrite (At_slice _ _ _ _ (pos + 1 + zlen raw) A2 eq_refl). reflexivity.
Qed.

Section Fine.
Context {N : Type}.
Variable codec : list Z -> list Z -> result (list Z).
Variable num8 : list Z -> N.
Variable rk : list Z -> result N.
Variable of_int : Z -> N.
Variable ragged : bool.
Variable bv : Z.
Variable ov : option (list Z).
Variable fmt : bool.
Variable refs : list (list Z).
Variable real : bool.
Hypothesis FEW : 16 + zlen refs <= 32768.
Hypothesis BV : In bv [20; 21; 30; 40; 45].
Notation ost := (@ost N).
Notation grid_of s := (sh_grid (os_sheet s)).
Notation usable := (usable codec bv ov).
Notation reads := (reads codec bv ov).
Notation old_step := (old_step codec num8 rk of_int ragged).
Notation o_put := (o_put codec num8 rk ragged).

Lemma bv_range : 20 <= bv < 50.
Proof. cbn [In] in BV. lia. Qed.

Record able (cp : option Z) (n : Z) (s : ost) : Prop := {
  ab_bv : bk_bv (os_book s) = bv;
  ab_ready : ready codec bv ov cp (bk_enc (os_book s));
  ab_inv : enc_inv (os_book s);
  ab_xfs : real = true \/ 30 <= bv -> zlen (b_xfs (os_fmt s)) = n /\
    forall i, 0 <= i < Z.max 1 n -> dget Z.eqb (b_xftype (os_fmt s)) i <> None;
  ab_attrs : real = false -> bv < 30 -> exists l st, os_attrs s = l ++ st /\ NoDup (map fst l) /\ incl (map fst l) refs /\
    zlen (b_xfs (os_fmt s)) <= 16 + zlen l;
  ab_grid : exists h, Forall (in_bounds fmt 16384 256) h /\ put_cells vempty ragged fmt 16384 256 grid0 h = Ok (grid_of s);
  ab_fmt : b_fmt (os_fmt s) = fmt }.

Lemma able_same : forall cp n (s s' : ost), able cp n s -> bk_bv (os_book s') = bk_bv (os_book s) -> bk_enc (os_book s') = bk_enc (os_book s) ->
  b_xfs (os_fmt s') = b_xfs (os_fmt s) -> b_xftype (os_fmt s') = b_xftype (os_fmt s) -> os_attrs s' = os_attrs s -> grid_of s' = grid_of s ->
  b_fmt (os_fmt s') = b_fmt (os_fmt s) -> able cp n s'.
Proof.
  intros cp n s s' [A1 A2 A3 A4 A5 A6 A7] E1 E2 E3 E4 E5 E6 E7. constructor; rewrite ?E1, ?E2, ?E3, ?E4, ?E5, ?E6, ?E7; auto.
  unfold enc_inv, encoded in *. rewrite E1, E2. exact A3.
Qed.

(** *** The encoding *)

Lemma ensure_able : forall cp n (s : ost), able cp n s -> usable cp ->
  exists s', os_ensure codec s = Ok s' /\ able cp n s' /\ encoded (os_book s').
Proof.
  intros cp n s A U. pose proof (ab_bv _ _ _ A) as E. destruct (ensure_fine codec bv ov cp _ (ab_ready _ _ _ A) U) as (e & EE & R).
  assert (EN : ensure codec (os_book s) = Ok (with_enc (os_book s) e)) by (unfold ensure; rewrite E, EE; reflexivity).
  exists (set_book s (with_enc (os_book s) e)). unfold os_ensure. rewrite EN. split; [reflexivity|].
  pose proof (ensure_encoded codec _ _ EN (ab_inv _ _ _ A)) as Q. split; [|exact Q].
  destruct A as [A1 A2 A3 A4 A5 A6 A7]. constructor; auto. apply encoded_inv. exact Q.
Qed.

Lemma decodes : forall cp n (s : ost) raw t, able cp n s -> encoded (os_book s) -> reads cp raw t ->
  unicode codec (en_encoding (bk_enc (os_book s))) raw = Ok t.
Proof.
  intros cp n s raw t A Q (U & e & EF & D). pose proof bv_range as R. pose proof (ab_bv _ _ _ A) as E.
  destruct (ab_ready _ _ _ A) as (OV & CP & _). assert (en_codepage (bk_enc (os_book s)) = cp) as CP' by (destruct CP as [CP|[CP _]]; [exact CP|lia]).
  rewrite (Q ltac:(lia) e); [exact D|]. rewrite E, OV, CP'. exact EF.
Qed.

(** *** Formats of BIFF2 cells *)

Lemma insert_fine : forall (s : ost) a0 a1 a2 style, finv (os_fmt s) ->
  exists s' x f, insert_xf s [a0; a1; a2] style = Ok (s', zlen (b_xfs (os_fmt s))) /\
    s' = set_attrs (set_fmt s f) (dset (os_attrs s) [a0; a1; a2] (zlen (b_xfs (os_fmt s)))) /\ b_xfs f = b_xfs (os_fmt s) ++ [x] /\ b_fmt f = b_fmt (os_fmt s).
Proof.
  intros s a0 a1 a2 style F. unfold insert_xf. cbv zeta.
  assert (exists x, fake_xf (zlen (b_xfs (os_fmt s))) [a0; a1; a2] style = Ok x) as (x & ->).
  { unfold fake_xf. change (zlen [a0; a1; a2] =? 3) with true. cbn [guard bind].
    assert (Z3 : zlen [a0; a1; a2] = 3) by reflexivity.
    destruct (unpack_fits 1 [a0; a1; a2] 0 ltac:(lia) ltac:(lia) ltac:(lia)) as (v0 & ->). rewrite bind_Ok.
    destruct (unpack_fits 1 [a0; a1; a2] 1 ltac:(lia) ltac:(lia) ltac:(lia)) as (v1 & ->). rewrite bind_Ok.
    destruct (unpack_fits 1 [a0; a1; a2] 2 ltac:(lia) ltac:(lia) ltac:(lia)) as (v2 & ->). rewrite bind_Ok.
    repeat match goal with |- context [if ?c then (8, 1) else (0, 0)] => destruct c end; eauto. }
  rewrite bind_Ok. fold (general_if (with_xfs (os_fmt s) (b_xfs (os_fmt s) ++ [x])) (xf_format_key x)).
  set (f1 := with_xfs (os_fmt s) (b_xfs (os_fmt s) ++ [x])).
  destruct (general_if_fields f1 (xf_format_key x)) as (G1 & G2 & G3 & G4 & G5 & G6 & G7).
  set (f2 := general_if f1 (xf_format_key x)) in *. clearbody f2.
  destruct (dget Z.eqb (b_formats f2) (xf_format_key x)) as [g|] eqn:D; [|congruence].
  assert (good_format g) as GF.
  { destruct (G6 _ _ D) as [D'|[_ D']]; [|exact D']. exact (fi_formats _ F _ _ D'). }
  rewrite (good_cellty _ GF).
  eexists _, x, _. split; [reflexivity|]. split; [reflexivity|]. split; [exact G1|exact G4].
Qed.

Lemma styles_fine : forall l (s : ost), sinv bv real s -> os_version s = 20 ->
  exists s', insert_styles s l = Ok s' /\ bk_bv (os_book s') = bk_bv (os_book s) /\ bk_enc (os_book s') = bk_enc (os_book s) /\
    zlen (b_xfs (os_fmt s')) = zlen (b_xfs (os_fmt s)) + zlen l /\ grid_of s' = grid_of s /\ b_fmt (os_fmt s') = b_fmt (os_fmt s).
Proof.
  induction l as [|x l IH]; intros s I V; cbn [insert_styles].
  - exists s. rewrite zlen_nil. repeat split; auto; lia.
  - destruct (insert_fine s 64 0 0 (x <? 15) (si_f _ _ _ I)) as (s1 & y & f & E & ES & EX & EF). rewrite E. cbn [bind].
    pose proof I as I'. rewrite <- (si_bv _ _ _ I) in I'.
    destruct (insert_xf_spec _ _ _ _ _ _ E I' V eq_refl) as (I1 & _ & V1 & _). rewrite (si_bv _ _ _ I) in I1.
    destruct (IH s1 I1 V1) as (s2 & E2 & Q1 & Q2 & Q3 & Q4 & Q5). exists s2. split; [exact E2|].
    subst s1. change (os_fmt (set_attrs (set_fmt s f) _)) with f in *. rewrite EX, zlen_app in Q3. change (zlen [y]) with 1 in Q3. rewrite zlen_cons.
    split; [exact Q1|]. split; [exact Q2|]. split; [lia|]. split; [exact Q4|congruence].
Qed.

Lemma land_63 : forall a, byte a -> Z.land a 0x3F = a mod 64.
Proof. intros a B. apply land3F. exact B. Qed.

Lemma attr_fine : forall cp n (s : ost) a0 a1 a2, real = false -> bv < 30 -> byte a0 -> sinv bv real s -> os_version s = 20 -> able cp n s ->
  a0 mod 64 = 0 -> In [a0; a1; a2] refs ->
  exists s' i, attr_xf s [a0; a1; a2] = Ok (s', i) /\ able cp n s'.
Proof.
  intros cp n s a0 a1 a2 R L B I V A Z0 IN. unfold attr_xf. rewrite py_index_head, bind_Ok. rewrite (land_63 _ B), Z0. cbn [guard Z.eqb bind].
  destruct (dget list_eqb (os_attrs s) [a0; a1; a2]) as [i|] eqn:D; [eauto|].
  destruct (ab_attrs _ _ _ A R L) as (l & st & EA & ND & INC & ZL).
  assert (FR : ~ In [a0; a1; a2] (map fst l)).
  { intros Q. apply (dget_not_in _ _ D). rewrite EA, map_app. apply in_or_app. left. exact Q. }
  assert (K : exists s1 l1 st1, (if zlen (b_xfs (os_fmt s)) =? 0 then insert_styles s (zrange 0 16) else Ok s) = Ok s1 /\ sinv bv real s1 /\
    bk_bv (os_book s1) = bk_bv (os_book s) /\ bk_enc (os_book s1) = bk_enc (os_book s) /\ grid_of s1 = grid_of s /\ b_fmt (os_fmt s1) = b_fmt (os_fmt s) /\
    os_attrs s1 = l1 ++ st1 /\ NoDup (map fst l1) /\ incl (map fst l1) refs /\ ~ In [a0; a1; a2] (map fst l1) /\ zlen (b_xfs (os_fmt s1)) <= 16 + zlen l1).
  { destruct (zlen (b_xfs (os_fmt s)) =? 0) eqn:E.
    - destruct (styles_fine (zrange 0 16) s I V) as (s1 & E1 & Q1 & Q2 & Q3 & Q4 & Q5).
      pose proof I as I'. rewrite <- (si_bv _ _ _ I) in I'.
      destruct (insert_styles_spec _ _ _ _ E1 I' V) as (I1 & _). rewrite (si_bv _ _ _ I) in I1.
      exists s1, [], (os_attrs s1). split; [exact E1|]. split; [exact I1|]. do 4 (split; [assumption|]). split; [reflexivity|]. split; [constructor|].
      split; [intros y []|]. split; [intros []|]. change (zlen (zrange 0 16)) with 16 in Q3. rewrite zlen_nil. lia.
    - exists s, l, st. repeat (split; [first [reflexivity|assumption]|]). exact ZL. }
  destruct K as (s1 & l1 & st1 & -> & I1 & Q1 & Q2 & Q3 & Q4 & EA1 & ND1 & INC1 & FR1 & ZL1). rewrite bind_Ok.
  destruct (insert_fine s1 a0 a1 a2 false (si_f _ _ _ I1)) as (s2 & x & f & E & -> & EX & EF).
  eexists _, _. split; [exact E|]. destruct A as [A1 A2 A3 A4 A5 A6 A7]. constructor.
  - change (bk_bv (os_book s1) = bv). congruence.
  - change (ready codec bv ov cp (bk_enc (os_book s1))). rewrite Q2. exact A2.
  - unfold enc_inv, encoded in *. change (os_book (set_attrs (set_fmt s1 f) _)) with (BookModel.with_fmt (os_book s1) f).
    change (bk_enc (BookModel.with_fmt (os_book s1) f)) with (bk_enc (os_book s1)). change (bk_bv (BookModel.with_fmt (os_book s1) f)) with (bk_bv (os_book s1)).
    rewrite Q1, Q2. exact A3.
  - intros [C|C]; [congruence|lia].
  - intros _ _. exists (([a0; a1; a2], zlen (b_xfs (os_fmt s1))) :: l1), st1. split; [cbn [set_attrs os_attrs]; unfold dset; rewrite EA1; reflexivity|].
    split; [cbn [map fst]; constructor; assumption|]. split; [cbn [map fst]; intros y [<-|Y]; [exact IN|apply INC1; exact Y]|].
    change (os_fmt (set_attrs (set_fmt s1 f) _)) with f. rewrite EX, zlen_app. change (zlen [x]) with 1. rewrite zlen_cons. lia.
  - change (grid_of (set_attrs (set_fmt s1 f) _)) with (grid_of s1). rewrite Q3. exact A6.
  - change (b_fmt f = fmt). congruence.
Qed.

(** An XF of a BIFF2 cell can be stored, and numbers have a type. *)
Definition xf_good (s : ost) (i : Z) : Prop := 0 <= i < 32768 /\ dget Z.eqb (b_xftype (os_fmt s)) i <> None.

Lemma few_xfs : forall cp n (s : ost), real = false -> bv < 30 -> able cp n s -> zlen (b_xfs (os_fmt s)) <= 32768.
Proof.
  intros cp n s R L A. destruct (ab_attrs _ _ _ A R L) as (l & st & _ & ND & INC & ZL).
  pose proof (NoDup_incl_length ND INC) as K. rewrite map_length in K. unfold zlen in *. lia.
Qed.

Lemma fixed_fine : forall cp n (s : ost) a0 a1 a2, bv < 30 -> byte a0 -> sinv bv real s -> able cp n s ->
  ref_good bv refs real n (os_ixfe s) (Attr a0 a1 a2) ->
  exists s' i, fixed_xf s (Some [a0; a1; a2]) None = Ok (s', i) /\ able cp n s' /\ xf_good s' i.
Proof.
  intros cp n s a0 a1 a2 L B I A G.
  assert (K : exists s' i, fixed_xf s (Some [a0; a1; a2]) None = Ok (s', i) /\ able cp n s' /\ ((bv =? 21) && real = true -> xf_good s' i)).
  { unfold fixed_xf. cbv zeta. cbn [ref_good] in G. destruct ((bv =? 21) && real) eqn:C.
    - apply andb_true_iff in C as [C1 C2]. destruct G as (x & GX & GR & GF). pose proof (ab_xfs _ _ _ A (or_introl C2)) as [ZX TX].
      assert (os_version s = 21) as V. { destruct (si_2x _ _ _ I L) as [V|[V _]]; [|exact V]. destruct (si_20 _ _ _ I V) as (Q & _). congruence. }
      rewrite V. change (21 =? 21) with true. cbv iota. replace (zlen (b_xfs (os_fmt s)) =? 0) with false by lia. cbn [negb].
      rewrite py_index_head, !bind_Ok, (land_63 _ B). exists s, x. split; [destruct (a0 mod 64 =? 63); [rewrite GX; reflexivity|subst x; reflexivity]|].
      split; [exact A|]. intros _. split; [lia|]. apply TX. lia.
    - destruct G as [Z0 IN].
      assert (R : real = false).
      { destruct real eqn:R; [|reflexivity]. rewrite andb_true_r in C. destruct (si_2x _ _ _ I L) as [V|[V _]].
        - destruct (si_20 _ _ _ I V) as (Q & _). discriminate Q.
        - destruct (si_2x _ _ _ I L) as [V2|[_ V2]]; lia. }
      destruct (os_version s =? 21) eqn:V.
      + apply Z.eqb_eq in V. destruct (si_21 _ _ _ I V) as [AT RX]. rewrite R in RX. rewrite RX. change (zlen [] =? 0) with true. cbn [negb].
        pose proof I as I'. rewrite <- (si_bv _ _ _ I) in I'. destruct (set_version_20 s real I' V RX) as [I1 _]. rewrite (si_bv _ _ _ I) in I1.
        destruct (attr_fine cp n (set_fmt s (set_version (os_fmt s) 20)) a0 a1 a2 R L B I1 eq_refl) as (s' & i & E & A'); auto.
        { eapply able_same; [exact A|..]; reflexivity. }
        exists s', i. split; [exact E|]. split; [exact A'|discriminate].
      + destruct (si_2x _ _ _ I L) as [V2|[V2 _]]; [|lia].
        destruct (attr_fine cp n s a0 a1 a2 R L B I V2 A Z0 IN) as (s' & i & E & A'). exists s', i. split; [exact E|]. split; [exact A'|discriminate]. }
  destruct K as (s' & i & E & A' & X). exists s', i. split; [exact E|]. split; [exact A'|].
  destruct ((bv =? 21) && real) eqn:C; [auto|].
  destruct (fixed_xf_spec _ _ _ _ _ _ _ E L I) as (I1 & _ & _ & _ & _ & _ & D). rewrite C in D. destruct D as [D V].
  destruct (si_20 _ _ _ I1 V) as (R & KEYS & AT). destruct (AT _ _ D) as (? & ? & ? & x & _ & Y & _).
  destruct (KEYS _ _ Y) as (g & _ & T). pose proof (znth_Some_range _ _ _ Y). pose proof (few_xfs _ _ _ R L A'). split; [lia|congruence].
Qed.

(** *** Storing a cell *)

Lemma put_fine : forall cp n (s : ost) r k t v xf, able cp n s -> 0 <= r < 16384 -> 0 <= k < 256 -> xf_good s xf ->
  exists s', o_put s r k t v xf = Ok s' /\ able cp n s' /\ os_ixfe s' = os_ixfe s.
Proof.
  intros cp n s r k t v xf A Hr Hk [XR XT]. pose proof bv_range. pose proof (ab_bv _ _ _ A) as EB. unfold OldSheet.o_put, put.
  change (c_xftype (cfg codec num8 rk ragged s) xf) with (dget Z.eqb (b_xftype (os_fmt s)) xf).
  assert (exists ty, match t with Some t => Ok t | None => match dget Z.eqb (b_xftype (os_fmt s)) xf with Some t => Ok t | None => Err KeyError end end = Ok ty) as (ty & ->).
  { destruct t; [eauto|]. destruct (dget Z.eqb (b_xftype (os_fmt s)) xf); [eauto|congruence]. }
  rewrite bind_Ok. rewrite cfg_rows by lia.
  change (c_ragged (cfg codec num8 rk ragged s)) with ragged. change (c_fmt (cfg codec num8 rk ragged s)) with (b_fmt (os_fmt s)). rewrite (ab_fmt _ _ _ A).
  destruct (ab_grid _ _ _ A) as (h & HB & HP). set (st := mk_store r k ty v xf).
  assert (HB' : Forall (in_bounds fmt 16384 256) (h ++ [st])).
  { apply Forall_app. split; [exact HB|]. constructor; [|constructor]. split; [exact Hr|]. split; [exact Hk|]. intros _. change (fits_h xf = true). unfold fits_h. lia. }
  pose (c := mk_config 20 fmt ragged [] [] (fun _ => None) (fun _ => Err TypeError) num8 rk (fun _ => 0)).
  assert (exists g, put_cells vempty ragged fmt 16384 256 (@grid0 (value N)) (h ++ [st]) = Ok g) as (g & PG) by exact (put_cells_fine c (h ++ [st]) HB').
  pose proof PG as PG'. rewrite put_cells_app, HP in PG'. cbn [bind put_cells] in PG'. apply bind_ok in PG' as (g' & P1 & P2). injection P2 as ->.
  rewrite P1, !bind_Ok. eexists. split; [reflexivity|]. split; [|reflexivity].
  destruct A as [A1 A2 A3 A4 A5 A6 A7]. constructor; auto. exists (h ++ [st]). split; [exact HB'|exact PG].
Qed.

(** *** Cells *)

Lemma attr_cell_fine : forall cp n (s : ost) c a0 a1 a2 tail t x, place_ok bv c -> oc_ref c = Attr a0 a1 a2 -> sinv bv real s -> able cp n s ->
  ref_good bv refs real n (os_ixfe s) (oc_ref c) ->
  exists s', attr_cell codec num8 rk ragged s (place c ++ tail) t x = Ok s' /\ able cp n s'.
Proof.
  intros cp n s c a0 a1 a2 tail t x PO RF I A G. destruct (place_u16 of_int _ _ PO) as [Hr Hk]. destruct PO as (R1 & R2 & RO).
  destruct (attr_place codec num8 rk of_int (oc_row c) (oc_col c) a0 a1 a2 tail Hr Hk) as (P1 & P2 & P3 & _ & _). cbv zeta in P1, P2, P3.
  change (le_enc 2 (oc_row c) ++ le_enc 2 (oc_col c) ++ [a0; a1; a2]) with (le_enc 2 (oc_row c) ++ le_enc 2 (oc_col c) ++ ref_bytes (Attr a0 a1 a2)) in P1, P2, P3.
  rewrite <- RF in P1, P2, P3. fold (place c) in P1, P2, P3. rewrite RF in RO, G. destruct RO as (L & B0 & _).
  unfold attr_cell. rewrite P1, P2, P3, !bind_Ok. destruct (fixed_fine cp n s a0 a1 a2 L B0 I A G) as (s1 & i & -> & A1 & X). rewrite bind_Ok.
  destruct (put_fine cp n s1 (oc_row c) (oc_col c) t x i A1 R1 R2 X) as (s2 & E2 & A2 & _). eauto.
Qed.

Lemma attr_step_fine : forall cp n (s : ost) c a0 a1 a2 len rs, oc_ref c = Attr a0 a1 a2 -> oitem_ok bv (OCell c) -> sinv bv real s -> able cp n s ->
  ref_good bv refs real n (os_ixfe s) (oc_ref c) -> value_good codec rk bv ov cp (oc_kind c) ->
  exists s', old_step bv s (cell_code (oc_ref c) (oc_kind c)) len (place c ++ cell_bytes (oc_ref c) (oc_kind c)) rs = Ok (s', rs) /\ able cp n s'.
Proof.
  intros cp n s c a0 a1 a2 len rs RF (PO & KO) I A G VG.
  destruct (place_u16 of_int _ _ PO) as [Hr Hk]. pose proof PO as (_ & _ & RO). rewrite RF in RO. destruct RO as (L & B0 & B1 & B2).
  assert (CELL : forall s0 t x tail, sinv bv real s0 -> able cp n s0 -> os_ixfe s0 = os_ixfe s ->
    exists s', (do s <- attr_cell codec num8 rk ragged s0 (place c ++ tail) t x; Ok (s, rs)) = Ok (s', rs) /\ able cp n s').
  { intros s0 t x tail I0 A0 X0. rewrite <- X0 in G. destruct (attr_cell_fine cp n s0 c a0 a1 a2 tail t x PO RF I0 A0 G) as (s1 & -> & A1). cbn [bind]. eauto. }
  pose proof (fun t x tail => CELL s t x tail I A eq_refl) as CELL0.
  pose proof (fun tail => attr_place codec num8 rk of_int (oc_row c) (oc_col c) a0 a1 a2 tail Hr Hk) as PL. cbv zeta in PL.
  change (le_enc 2 (oc_row c) ++ le_enc 2 (oc_col c) ++ [a0; a1; a2]) with (le_enc 2 (oc_row c) ++ le_enc 2 (oc_col c) ++ ref_bytes (Attr a0 a1 a2)) in PL.
  rewrite <- RF in PL. fold (place c) in PL. rewrite RF. rewrite RF in KO.
  destruct (oc_kind c) as [d8|m|b|raw|v|v| |] eqn:KD; cbn [cell_code cell_bytes width] in *.
  - change (old_step bv s XL_NUMBER_B2 len ?d rs) with (do s <- h_number_b2 codec num8 rk ragged s d; Ok (s, rs)).
    unfold h_number_b2. destruct (PL d8) as (_ & _ & _ & AA & Z1).
    replace (zlen (place c ++ d8) =? 15) with true by lia. cbn [guard bind]. apply CELL0.
  - destruct KO as [_ KO]. change (old_step bv s XL_INTEGER len ?d rs) with (do s <- h_integer codec num8 rk of_int ragged s d; Ok (s, rs)).
    unfold h_integer. destruct (PL (le_enc 2 m)) as (_ & _ & _ & AA & Z1). rewrite zlen_le_enc in Z1.
    replace (zlen (place c ++ le_enc 2 m) =? 9) with true by lia. cbn [guard bind].
    rewrite <- (app_nil_r (le_enc 2 m)) in AA at 2. rewrite (At_u16 _ _ _ _ AA) by exact KO. cbn [bind]. apply CELL0.
  - lia.
  - destruct VG as (t & U & e & EF & D). change (old_step bv s XL_LABEL_B2 len ?d rs) with (do s <- h_label_b2 codec num8 rk ragged s d; Ok (s, rs)).
    unfold h_label_b2. destruct (PL (le_enc 1 (zlen raw) ++ raw)) as (_ & _ & _ & AA & Z1). pose proof (zlen_nonneg raw).
    rewrite need_ok by (rewrite Z1, zlen_app, zlen_le_enc; lia). cbn [bind].
    destruct (ensure_able cp n s A U) as (s0 & EN & A0 & Q0). rewrite EN. cbn [bind].
    unfold unpack_string. rewrite (At_le _ _ _ _ _ 1 AA eq_refl) by (change (256 ^ 1) with 256; change (256 ^ Z.of_nat 1) with 256 in KO; lia).
    cbn [bind]. pose proof (At_skip _ _ _ _ (7 + 1) AA eq_refl) as AA1.
    rewrite (At_slice_end _ _ _ (7 + 1 + zlen raw) AA1) by lia.
    change (c_decode (cfg codec num8 rk ragged s0) raw) with (unicode codec (en_encoding (bk_enc (os_book s0))) raw).
    rewrite (decodes cp n s0 raw t A0 Q0) by (split; [exact U|eauto]). cbn [bind].
    destruct (os_ensure_spec codec of_int s s0) as (E1 & (R1 & R2 & R3 & R4) & T); [pose proof (si_version _ _ _ I); pose proof (si_bv _ _ _ I); lia|exact EN|].
    apply CELL; [eapply same_sinv; eassumption|exact A0|exact R2].
  - change (old_step bv s XL_BOOLERR_B2 len ?d rs) with (do s <- h_boolerr_b2 codec num8 rk ragged s d; Ok (s, rs)).
    unfold h_boolerr_b2. destruct (PL [v; 0]) as (_ & _ & _ & AA & Z1). change (zlen [v; 0]) with 2 in Z1.
    replace (zlen (place c ++ [v; 0]) =? 9) with true by lia. cbn [guard bind].
    rewrite (At_byte _ _ _ _ AA) by exact KO. rewrite (At_byte _ _ _ _ (At_skip1 _ _ _ _ 8 AA eq_refl)) by lia. cbn [bind].
    rewrite py_index_head. cbn [bind]. apply CELL0.
  - change (old_step bv s XL_BOOLERR_B2 len ?d rs) with (do s <- h_boolerr_b2 codec num8 rk ragged s d; Ok (s, rs)).
    unfold h_boolerr_b2. destruct (PL [v; 1]) as (_ & _ & _ & AA & Z1). change (zlen [v; 1]) with 2 in Z1.
    replace (zlen (place c ++ [v; 1]) =? 9) with true by lia. cbn [guard bind].
    rewrite (At_byte _ _ _ _ AA) by exact KO. rewrite (At_byte _ _ _ _ (At_skip1 _ _ _ _ 8 AA eq_refl)) by lia. cbn [bind].
    change (py_index [XL_CELL_BOOLEAN; XL_CELL_ERROR] 1) with (Ok XL_CELL_ERROR). cbn [bind]. apply CELL0.
  - change (old_step bv s XL_BLANK_B2 len ?d rs) with (do s <- h_blank_b2 codec num8 rk ragged s d; Ok (s, rs)).
    unfold h_blank_b2. destruct (b_fmt (os_fmt s)); cbn [negb]; [|cbn [bind]; eauto].
    destruct (PL []) as (_ & _ & _ & AA & Z1). change (zlen []) with 0 in Z1. rewrite need_ok by lia. cbn [bind]. apply CELL0.
  - contradiction.
Qed.

Lemma xf_typed : forall cp n (s : ost) x, 30 <= bv -> able cp n s -> u16v x -> ref_good bv refs real n (os_ixfe s) (Xf x) -> xf_good s x.
Proof.
  intros cp n s x L A U [G1 G2]. destruct (ab_xfs _ _ _ A (or_intror L)) as [_ T]. unfold u16v in U. split; [lia|]. apply T. lia.
Qed.

Lemma xf_step_fine : forall cp n (s : ost) c x len rs, oc_ref c = Xf x -> oitem_ok bv (OCell c) -> sinv bv real s -> able cp n s ->
  ref_good bv refs real n (os_ixfe s) (oc_ref c) -> value_good codec rk bv ov cp (oc_kind c) ->
  exists s', old_step bv s (cell_code (oc_ref c) (oc_kind c)) len (place c ++ cell_bytes (oc_ref c) (oc_kind c)) rs = Ok (s', rs) /\ able cp n s'.
Proof.
  intros cp n s c x len rs RF (PO & KO) I A G VG.
  destruct (place_u16 of_int _ _ PO) as [Hr Hk]. pose proof PO as (R1 & R2 & RO). pose proof RO as RO'. rewrite RF in RO', G. destruct RO' as (L & B0).
  assert (L80 : bv < 80) by (pose proof bv_range; lia).
  assert (CELL : forall (s0 : ost) t v, able cp n s0 -> os_ixfe s0 = os_ixfe s ->
    exists s', (do (sh, rs) <- plain (put (cfg codec num8 rk ragged s0) (os_sheet s0) (oc_row c) (oc_col c) t v x) rs; Ok (set_sheet s0 sh, rs)) = Ok (s', rs) /\ able cp n s').
  { intros s0 t v A0 X0. rewrite <- X0 in G. destruct (put_fine cp n s0 (oc_row c) (oc_col c) t v x A0 R1 R2 (xf_typed _ _ _ _ L A0 B0 G)) as (s1 & E1 & A1 & _).
    unfold OldSheet.o_put in E1. apply bind_ok in E1 as (sh & E1 & E2). rewrite E1. cbn [plain bind]. exists s1. split; [congruence|exact A1]. }
  pose proof (fun t v => CELL s t v A eq_refl) as CELL0.
  pose proof (fun tail => head_read (oc_row c) (oc_col c) x tail Hr Hk B0) as PL. cbv zeta in PL. unfold head in PL.
  change (le_enc 2 (oc_row c) ++ le_enc 2 (oc_col c) ++ le_enc 2 x) with (le_enc 2 (oc_row c) ++ le_enc 2 (oc_col c) ++ ref_bytes (Xf x)) in PL.
  rewrite <- RF in PL. fold (place c) in PL.
  assert (ZP : zlen (place c) = 6) by (unfold place; rewrite RF; reflexivity). rewrite RF in KO |- *.
  destruct (oc_kind c) as [d8|m|b|raw|v|v| |] eqn:KD; cbn [cell_code cell_bytes width] in *.
  - change (old_step bv s XL_NUMBER len ?d rs) with (do (sh, rs) <- plain (h_number (cfg codec num8 rk ragged s) (os_sheet s) d) rs; Ok (set_sheet s sh, rs)).
    unfold h_number. destruct (PL d8) as (P1 & P2 & P3 & AA). rewrite P1, P2, P3. rewrite need_ok by (rewrite zlen_app; lia). cbn [bind]. apply CELL0.
  - lia.
  - destruct KO as [_ KO]. destruct VG as (y & RK).
    change (old_step bv s XL_RK len ?d rs) with (do (sh, rs) <- plain (h_rk (cfg codec num8 rk ragged s) (os_sheet s) d) rs; Ok (set_sheet s sh, rs)).
    unfold h_rk. destruct (PL b) as (P1 & P2 & P3 & AA). rewrite P1, P2, P3. rewrite need_ok by (rewrite zlen_app; lia). cbn [bind].
    rewrite (At_slice_end _ _ _ 10 AA) by lia. change (c_rk (cfg codec num8 rk ragged s) b) with (rk b). rewrite RK. cbn [bind]. apply CELL0.
  - destruct VG as (t & U & e & EF & D). destruct (PL (le_enc 2 (zlen raw) ++ raw)) as (P1 & P2 & P3 & AA). pose proof (zlen_nonneg raw).
    change (old_step bv s XL_LABEL len ?d rs) with (do _ <- need d 6; do s <- os_ensure codec s; do (sh, rs) <- plain (h_label (cfg codec num8 rk ragged s) (os_sheet s) d) rs; Ok (set_sheet s sh, rs)).
    rewrite need_ok by (rewrite zlen_app, zlen_app, zlen_le_enc; lia). cbn [bind].
    destruct (ensure_able cp n s A U) as (s0 & EN & A0 & Q0). rewrite EN. cbn [bind].
    destruct (os_ensure_spec codec of_int s s0) as (E1 & (R1' & R2' & R3 & R4) & T); [pose proof (si_version _ _ _ I); pose proof (si_bv _ _ _ I); lia|exact EN|].
    pose proof (ab_bv _ _ _ A0) as EB0.
    unfold h_label. rewrite P1, P2, P3. rewrite need_ok by (rewrite zlen_app, zlen_app, zlen_le_enc; lia). cbn [bind].
    change (c_bv (cfg codec num8 rk ragged s0)) with (bk_bv (os_book s0)). replace (bk_bv (os_book s0) <? 80) with true by lia.
    unfold unpack_string. rewrite (At_le _ _ _ _ _ 2 AA eq_refl) by (change (256 ^ 2) with 65536; change (256 ^ Z.of_nat 2) with 65536 in KO; lia).
    cbn [bind]. pose proof (At_skip _ _ _ _ (6 + 2) AA eq_refl) as AA1. rewrite (At_slice_end _ _ _ (6 + 2 + zlen raw) AA1) by lia.
    change (c_decode (cfg codec num8 rk ragged s0) raw) with (unicode codec (en_encoding (bk_enc (os_book s0))) raw).
    rewrite (decodes cp n s0 raw t A0 Q0) by (split; [exact U|eauto]). cbn [bind]. apply CELL; assumption.
  - change (old_step bv s XL_BOOLERR len ?d rs) with (do (sh, rs) <- plain (h_boolerr (cfg codec num8 rk ragged s) (os_sheet s) d) rs; Ok (set_sheet s sh, rs)).
    unfold h_boolerr. destruct (PL [v; 0]) as (P1 & P2 & P3 & AA). rewrite P1, P2, P3. rewrite need_ok by (rewrite zlen_app, ZP; change (zlen [v; 0]) with 2; lia). cbn [bind].
    rewrite (At_byte _ _ _ _ AA) by exact KO. rewrite (At_byte _ _ _ _ (At_skip1 _ _ _ _ 7 AA eq_refl)) by lia. cbn [bind].
    rewrite py_index_head. cbn [bind]. apply CELL0.
  - change (old_step bv s XL_BOOLERR len ?d rs) with (do (sh, rs) <- plain (h_boolerr (cfg codec num8 rk ragged s) (os_sheet s) d) rs; Ok (set_sheet s sh, rs)).
    unfold h_boolerr. destruct (PL [v; 1]) as (P1 & P2 & P3 & AA). rewrite P1, P2, P3. rewrite need_ok by (rewrite zlen_app, ZP; change (zlen [v; 1]) with 2; lia). cbn [bind].
    rewrite (At_byte _ _ _ _ AA) by exact KO. rewrite (At_byte _ _ _ _ (At_skip1 _ _ _ _ 7 AA eq_refl)) by lia. cbn [bind].
    change (py_index [XL_CELL_BOOLEAN; XL_CELL_ERROR] 1) with (Ok XL_CELL_ERROR). cbn [bind]. apply CELL0.
  - change (old_step bv s XL_BLANK len ?d rs) with (do (sh, rs) <- plain (h_blank (cfg codec num8 rk ragged s) (os_sheet s) d) rs; Ok (set_sheet s sh, rs)).
    unfold h_blank. change (c_fmt (cfg codec num8 rk ragged s)) with (b_fmt (os_fmt s)).
    destruct (b_fmt (os_fmt s)); cbn [negb].
    + destruct (PL []) as (P1 & P2 & P3 & AA). rewrite P1, P2, P3. rewrite need_ok by (rewrite app_nil_r; lia). cbn [bind]. apply CELL0.
    + cbn [plain bind]. eexists. split; [reflexivity|]. destruct s; exact A.
  - contradiction.
Qed.

Lemma string_loop_fine : forall (c : config N) rs data ofs raw n t, c_bv c < 80 -> At data ofs raw -> c_decode c raw = Ok t -> zlen t = n ->
  string_loop c rs data ofs n 0 [] = Ok (t, rs).
Proof.
  intros c rs data ofs raw n t L A D Z. destruct rs as [|[[rc len] d] rs]; cbn [string_loop]; replace (c_bv c >=? 80) with false by lia; rewrite (At_from _ _ _ A), D, bind_Ok;
    cbn [app]; change (0 + zlen t) with (zlen t); rewrite Z, Z.eqb_refl; reflexivity.
Qed.

Lemma formula_fine : forall cp n (s : ost) rc c u rest between code m len rs,
  oitem_ok bv (OFormula rc c u rest between code m) -> sinv bv real s -> able cp n s ->
  ref_good bv refs real n (os_ixfe s) (oc_ref c) -> result_good codec bv ov cp (oc_kind c) m ->
  exists s', old_step bv s rc len (place c ++ result_bytes u (oc_kind c) ++ rest)
    (map rec_of (match oc_kind c with KText raw => between ++ [(code, le_enc (width (oc_ref c)) m ++ raw)] | _ => [] end) ++ rs) = Ok (s', rs) /\ able cp n s'.
Proof.
  intros cp n s rc c u rest between code m len rs (FC & PO & RL & KO) I A G RG.
  rewrite formula_code by exact FC. clear FC.
  destruct (place_u16 of_int _ _ PO) as [Hr Hk]. pose proof PO as (R1 & R2 & RO).
  pose proof (si_bv _ _ _ I) as EB. pose proof bv_range as EV.
  destruct u as [[[u1 u3] u4] u5].
  set (res := result_bytes (u1, u3, u4, u5) (oc_kind c)) in *.
  assert (Z8 : zlen res = 8) by (unfold res; destruct (oc_kind c); cbn [result_bytes]; try reflexivity; apply KO).
  unfold o_formula.
  assert (HEAD : exists s1 xf, able cp n s1 /\ xf_good s1 xf /\ need (place c ++ res ++ rest) 16 = Ok tt /\
    unpack_u16 (place c ++ res ++ rest) 0 = Ok (oc_row c) /\ unpack_u16 (place c ++ res ++ rest) 2 = Ok (oc_col c) /\
    (if bv >=? 30 then do xf <- unpack_u16 (place c ++ res ++ rest) 4; Ok (s, xf, py_slice (place c ++ res ++ rest) 6 14)
     else do (s, xf) <- fixed_xf s (Some (py_slice (place c ++ res ++ rest) 4 7)) None; Ok (s, xf, py_slice (place c ++ res ++ rest) 7 15)) =
      Ok (s1, xf, res) /\ (if bv >=? 30 then 2 else 1) = Z.of_nat (width (oc_ref c))).
  { destruct (oc_ref c) as [a0 a1 a2|x] eqn:RF; cbn [ref_ok] in RO.
    - destruct RO as (L & B0 & B1 & B2). replace (bv >=? 30) with false in * by lia.
      destruct (attr_place codec num8 rk of_int (oc_row c) (oc_col c) a0 a1 a2 (res ++ rest) Hr Hk) as (P1 & P2 & P3 & AA & ZL). cbv zeta in P1, P2, P3, AA, ZL.
      change (le_enc 2 (oc_row c) ++ le_enc 2 (oc_col c) ++ [a0; a1; a2]) with
        (le_enc 2 (oc_row c) ++ le_enc 2 (oc_col c) ++ ref_bytes (Attr a0 a1 a2)) in P1, P2, P3, AA, ZL.
      rewrite <- RF in P1, P2, P3, AA, ZL. fold (place c) in P1, P2, P3, AA, ZL.
      set (d := place c ++ res ++ rest) in *. rewrite zlen_app in ZL.
      assert (ND : need d 16 = Ok tt) by (apply need_ok; lia).
      assert (SL : py_slice d 7 15 = res) by (apply (At_slice _ _ _ _ 15 AA); lia).
      destruct (fixed_fine cp n s a0 a1 a2 L B0 I A G) as (s1 & i & F & A1 & X).
      exists s1, i. rewrite P3, SL, F. repeat (split; [first [assumption|reflexivity]|]). reflexivity.
    - destruct RO as (L & B0). replace (bv >=? 30) with true by lia.
      destruct (head_read (oc_row c) (oc_col c) x (res ++ rest) Hr Hk B0) as (P1 & P2 & P3 & AA). cbv zeta in P1, P2, P3, AA. unfold head in P1, P2, P3, AA.
      change (le_enc 2 (oc_row c) ++ le_enc 2 (oc_col c) ++ le_enc 2 x) with (le_enc 2 (oc_row c) ++ le_enc 2 (oc_col c) ++ ref_bytes (Xf x)) in P1, P2, P3, AA.
      rewrite <- RF in P1, P2, P3, AA. fold (place c) in P1, P2, P3, AA. pose proof (At_len _ _ _ AA) as ZL. rewrite (zlen_app res rest) in ZL.
      rewrite P1, P2, P3. rewrite (At_slice _ _ _ _ 14 AA) by lia. rewrite need_ok by lia.
      exists s, x. split; [exact A|]. split; [eapply xf_typed; eassumption|]. repeat split. }
  destruct HEAD as (s1 & xf & A1 & XG & N1 & P1 & P2 & HD & WD). rewrite N1, P1, P2. cbn [bind].
  rewrite HD. cbn [bind]. clear N1 P1 P2 HD.
  assert (CELL : forall (s0 : ost) t v (q : list record), able cp n s0 -> xf_good s0 xf ->
    exists s', (do s0 <- o_put s0 (oc_row c) (oc_col c) t v xf; Ok (s0, q)) = Ok (s', q) /\ able cp n s').
  { intros s0 t v q A0 X0. destruct (put_fine cp n s0 (oc_row c) (oc_col c) t v xf A0 R1 R2 X0) as (s2 & -> & A2 & _). cbn [bind]. eauto. }
  pose proof (fun t v q => CELL s1 t v q A1 XG) as CELL1.
  destruct (oc_kind c) as [d8|n0|b|raw|v|v| |] eqn:KD; try contradiction; cbn [result_bytes] in res; subst res.
  - destruct KO as [_ KO]. destruct (list_eqb (py_slice d8 6 8) [255; 255]) eqn:E; [apply list_eqb_eq in E; contradiction|].
    cbn [map app]. apply CELL1.
  - change (py_slice (marked 0 0 u1 u3 u4 u5) 6 8) with [255; 255]. rewrite list_eqb_refl.
    change (py_index (marked 0 0 u1 u3 u4 u5) 0) with (Ok 0). cbn [bind]. change (0 =? 0) with true. cbv iota.
    destruct KO as (K1 & K2 & K3 & K4). rewrite (string_record_reads codec num8 rk of_int) by assumption. cbn [bind]. cbv zeta. rewrite WD.
    pose proof (At_0 (le_enc (width (oc_ref c)) m ++ raw)) as AA.
    rewrite (At_le _ _ _ _ _ _ AA eq_refl) by exact K4. cbn [bind].
    destruct RG as (t & (U & e & EF & D) & ZT). destruct (ensure_able cp n s1 A1 U) as (s2 & EN & A2 & Q2). rewrite EN. cbn [bind].
    pose proof (ab_bv _ _ _ A1) as EB1. pose proof (ab_bv _ _ _ A2) as EB2.
    destruct (os_ensure_spec codec of_int s1 s2) as ((_ & _ & _ & _ & E5 & _) & _); [lia|exact EN|].
    rewrite (string_loop_fine (cfg codec num8 rk ragged s2) rs _ _ raw m t).
    + cbn [bind]. apply CELL; [exact A2|]. destruct XG as [X1 X2]. split; [exact X1|rewrite E5; exact X2].
    + cbn [OldSheet.cfg config_of c_bv]. lia.
    + eapply At_skip; [exact AA|rewrite zlen_le_enc; lia].
    + change (unicode codec (en_encoding (bk_enc (os_book s2))) raw = Ok t). apply (decodes cp n); [exact A2|exact Q2|]. split; [exact U|eauto].
    + exact ZT.
  - change (py_slice (marked 1 v u1 u3 u4 u5) 6 8) with [255; 255]. rewrite list_eqb_refl.
    change (py_index (marked 1 v u1 u3 u4 u5) 0) with (Ok 1). change (py_index (marked 1 v u1 u3 u4 u5) 2) with (Ok v). cbn [bind].
    change (1 =? 0) with false. change (1 =? 1) with true. cbv iota. apply CELL1.
  - change (py_slice (marked 2 v u1 u3 u4 u5) 6 8) with [255; 255]. rewrite list_eqb_refl.
    change (py_index (marked 2 v u1 u3 u4 u5) 0) with (Ok 2). change (py_index (marked 2 v u1 u3 u4 u5) 2) with (Ok v). cbn [bind].
    change (2 =? 0) with false. change (2 =? 1) with false. change (2 =? 2) with true. cbv iota. apply CELL1.
  - change (py_slice (marked 3 0 u1 u3 u4 u5) 6 8) with [255; 255]. rewrite list_eqb_refl.
    change (py_index (marked 3 0 u1 u3 u4 u5) 0) with (Ok 3). cbn [bind].
    change (3 =? 0) with false. change (3 =? 1) with false. change (3 =? 2) with false. change (3 =? 3) with true. cbv iota. apply CELL1.
Qed.

(** *** Settings *)

Lemma fold_typed : forall (f : xf -> Z) (g : xf -> Z) l m i, dget Z.eqb m i <> None ->
  dget Z.eqb (fold_left (fun m x => dset m (f x) (g x)) l m) i <> None.
Proof.
  intros f g l. induction l as [|x l IH]; intros m i H; cbn [fold_left]; [exact H|]. apply IH. unfold dset. cbn [dget]. destruct (i =? f x); [discriminate|exact H].
Qed.

Lemma able_epilogue : forall cp n (s : ost), able cp n s -> able cp n (epilogue s).
Proof.
  intros cp n s [A1 A2 A3 A4 A5 A6 A7]. constructor; auto.
  - intros R. destruct (A4 R) as [Z1 T1]. split.
    + change (zlen (map (conform (b_fmt (os_fmt s)) (zlen (b_xfs (os_fmt s)))) (b_xfs (os_fmt s))) = n). unfold zlen in *. rewrite map_length. exact Z1.
    + intros i Hi. apply fold_typed. apply T1. exact Hi.
  - intros R L. destruct (A5 R L) as (l & st & E & ND & INC & ZL). exists l, st. split; [exact E|]. split; [exact ND|]. split; [exact INC|].
    change (zlen (map (conform (b_fmt (os_fmt s)) (zlen (b_xfs (os_fmt s)))) (b_xfs (os_fmt s))) <= 16 + zlen l). unfold zlen in *. rewrite map_length. exact ZL.
Qed.

Lemma able_sheet : forall cp n (s : ost) sh, able cp n s -> sh_grid sh = sh_grid (os_sheet s) -> able cp n (set_sheet s sh).
Proof. intros cp n s sh A E. eapply able_same; [exact A|..]; try reflexivity. exact E. Qed.

Lemma xf_reads : forall i d, In bv [21; 30; 40; 45] -> (if bv =? 21 then zlen d = 4 else 12 <= zlen d) -> exists x, read_xf bv i d = Ok x.
Proof.
  intros i d BW L. unfold read_xf. cbn [In] in BW.
  assert (P : forall k p, 0 <= p -> 0 <= k -> p + k <= zlen d -> exists v, unpack_le k d p = Ok v) by (intros; apply unpack_fits; assumption).
  replace (bv >=? 80) with false by lia. replace (bv >=? 50) with false by lia. destruct (bv >=? 40) eqn:V4.
  - replace (bv =? 21) with false in L by lia. unfold read_xf40, unpack_u16, unpack_u32. rewrite need_fits by lia. rewrite bind_Ok.
    destruct (P 1 0 ltac:(lia) ltac:(lia) ltac:(lia)) as (v1 & ->). rewrite bind_Ok.
    destruct (P 1 1 ltac:(lia) ltac:(lia) ltac:(lia)) as (v2 & ->). rewrite bind_Ok.
    destruct (P 2 2 ltac:(lia) ltac:(lia) ltac:(lia)) as (v3 & ->). rewrite bind_Ok.
    destruct (P 1 4 ltac:(lia) ltac:(lia) ltac:(lia)) as (ao & E4). rewrite E4, bind_Ok.
    destruct (P 1 5 ltac:(lia) ltac:(lia) ltac:(lia)) as (v5 & ->). rewrite bind_Ok.
    destruct (P 2 6 ltac:(lia) ltac:(lia) ltac:(lia)) as (v6 & ->). rewrite bind_Ok.
    destruct (P 4 8 ltac:(lia) ltac:(lia) ltac:(lia)) as (v7 & ->). rewrite bind_Ok.
    assert (R : 0 <= Z.shiftr (Z.land ao 192) 6 < 4).
    { rewrite Z.shiftr_land. change (Z.shiftr 192 6) with (Z.ones 2). rewrite Z.land_ones by lia. apply Z.mod_pos_bound. lia. }
    assert (Q : Z.shiftr (Z.land ao 192) 6 = 0 \/ Z.shiftr (Z.land ao 192) 6 = 1 \/ Z.shiftr (Z.land ao 192) 6 = 2 \/ Z.shiftr (Z.land ao 192) 6 = 3) by lia.
    destruct Q as [-> | [-> | [-> | ->]]]; (match goal with |- context [py_index ?l ?k] => let v := eval vm_compute in (py_index l k) in change (py_index l k) with v end); rewrite bind_Ok; eauto.
  - destruct (bv =? 30) eqn:V3.
    + replace (bv =? 21) with false in L by lia. unfold read_xf30, unpack_u16, unpack_u32. rewrite need_fits by lia. rewrite bind_Ok.
      destruct (P 1 0 ltac:(lia) ltac:(lia) ltac:(lia)) as (v1 & ->). rewrite bind_Ok.
      destruct (P 1 1 ltac:(lia) ltac:(lia) ltac:(lia)) as (v2 & ->). rewrite bind_Ok.
      destruct (P 1 2 ltac:(lia) ltac:(lia) ltac:(lia)) as (v3 & ->). rewrite bind_Ok.
      destruct (P 1 3 ltac:(lia) ltac:(lia) ltac:(lia)) as (v4 & ->). rewrite bind_Ok.
      destruct (P 2 4 ltac:(lia) ltac:(lia) ltac:(lia)) as (v5 & ->). rewrite bind_Ok.
      destruct (P 2 6 ltac:(lia) ltac:(lia) ltac:(lia)) as (v6 & ->). rewrite bind_Ok.
      destruct (P 4 8 ltac:(lia) ltac:(lia) ltac:(lia)) as (v7 & ->). rewrite bind_Ok. eauto.
    + destruct (bv =? 21) eqn:V2; [|lia]. unfold read_xf21. rewrite L. cbn [guard Z.eqb Pos.eqb bind].
      destruct (P 1 0 ltac:(lia) ltac:(lia) ltac:(lia)) as (v1 & ->). rewrite bind_Ok.
      destruct (P 1 2 ltac:(lia) ltac:(lia) ltac:(lia)) as (v2 & ->). rewrite bind_Ok.
      destruct (P 1 3 ltac:(lia) ltac:(lia) ltac:(lia)) as (v3 & ->). rewrite bind_Ok.
      repeat match goal with |- context [if ?c then (8, 1) else (0, 0)] => destruct c end; eauto.
Qed.

Lemma setting_fine : forall cp n (s : ost) rc d rs, setting_good codec bv ov cp rc d -> (is_xf_code rc = true -> real = true /\ bv <> 20) ->
  before bv s -> able cp n s -> exists s', old_step bv s rc (zlen d) d rs = Ok (s', rs) /\ able cp (if is_xf_code rc then n + 1 else n) s'.
Proof.
  intros cp n s rc d rs SG XR B A. pose proof bv_range as BR. pose proof (ab_bv _ _ _ A) as EB. pose proof (be_version _ _ B) as EV.
  destruct SG as [rc d RC LD|rc d RC LD|rc pre raw extra t RC LP LR (U & e & EF & D)|w id level extra UW TB RI RL].
  - (* DIMENSION *)
    replace (is_xf_code rc) with false by (destruct RC as [-> | ->]; reflexivity).
    assert (E : old_step bv s rc (zlen d) d rs = (do (s, rs) <- o_step codec num8 rk ragged s rc (zlen d) d rs; if zlen d =? 0 then Ok (s, rs)
      else if ((bv =? 21) || (bv =? 30) || (bv =? 40)) && negb (zlen (b_xfs (os_fmt s)) =? 0) && negb (os_done s) then Ok (epilogue s, rs) else Ok (s, rs)))
      by (destruct RC as [-> | ->]; reflexivity).
    rewrite E. clear E. unfold o_step. destruct (dim_code (cfg codec num8 rk ragged s) rc (os_sheet s) (zlen d) d rs ltac:(unfold XL_DIMENSION, XL_DIMENSION2; lia)) as [_ ->].
    assert (exists sh, h_dimension (cfg codec num8 rk ragged s) (os_sheet s) (zlen d) d = Ok sh) as (sh & EH).
    { unfold h_dimension. destruct (zlen d =? 0) eqn:Z0; [eauto|]. destruct LD as [->|LD]; [discriminate Z0|].
      change (c_bv (cfg codec num8 rk ragged s)) with (bk_bv (os_book s)). replace (bk_bv (os_book s) <? 80) with true by lia. cbv zeta. unfold unpack_u16.
      rewrite !py_slice_len, !py_bound_id by lia. replace (Z.max 0 (8 - 2) =? 6) with true by reflexivity. cbn [guard bind].
      destruct (unpack_fits 2 d 2 ltac:(lia) ltac:(lia) ltac:(lia)) as (v1 & ->). rewrite bind_Ok.
      destruct (unpack_fits 2 d 6 ltac:(lia) ltac:(lia) ltac:(lia)) as (v2 & ->). rewrite !bind_Ok. eauto. }
    rewrite EH. cbn [plain bind]. destruct (dim_step _ _ _ _ _ EH (be_grid _ _ B)) as (G & _).
    assert (A1 : able cp n (set_sheet s sh)) by (apply able_sheet; [exact A|rewrite (be_grid _ _ B); exact G]).
    destruct (zlen d =? 0); [eauto|]. destruct (_ && _ && _); [|eauto]. eexists. split; [reflexivity|]. apply able_epilogue. exact A1.
  - (* XF *)
    destruct (XR RC) as [R N20]. rewrite RC.
    assert (E : old_step bv s rc (zlen d) d rs = (do s <- o_format codec s (RXf d); Ok (s, rs))).
    { unfold is_xf_code in RC. repeat (apply orb_true_iff in RC as [RC|RC]); apply Z.eqb_eq in RC; subst rc; reflexivity. }
    rewrite E. clear E. unfold o_format, format_record. cbn [bind fstep]. fold (os_fmt s). unfold handle_xf. unfold os_version in EV. rewrite EV.
    replace (bv >=? 50) with false by lia. cbn [andb]. cbv zeta. rewrite EV.
    destruct (xf_reads (zlen (b_xfs (os_fmt s))) d ltac:(cbn [In] in *; lia) LD) as (x & ->). rewrite !bind_Ok. cbn [bind].
    eexists. split; [reflexivity|]. destruct A as [A1 A2 A3 A4 A5 A6 A7]. destruct (A4 (or_introl R)) as [Z1 T1].
    set (f1 := if b_fmt (os_fmt s) then fold_left mark (xf_colours x) (os_fmt s) else os_fmt s).
    assert (F1 : b_xfs f1 = b_xfs (os_fmt s) /\ b_xftype f1 = b_xftype (os_fmt s) /\ b_fmt f1 = b_fmt (os_fmt s)).
    { unfold f1. destruct (b_fmt (os_fmt s)) eqn:FM; [|auto]. rewrite <- FM. clear. generalize (xf_colours x) (os_fmt s). intros l. induction l as [|y l IH]; intros f; [auto|].
      cbn [fold_left]. destruct (IH (mark f y)) as (-> & -> & ->). repeat split; unfold mark; repeat match goal with |- context [if ?c then _ else _] => destruct c end; reflexivity. }
    destruct F1 as (F1 & F2 & F3). constructor; auto.
    + intros _. change (os_fmt (set_book s _)) with (with_xfcount (with_xfs (with_xftype f1 (dset (b_xftype f1) (zlen (b_xfs (os_fmt s))) (xf_cell_type (os_fmt s) (xf_format_key x) XL_CELL_NUMBER)))
        (b_xfs f1 ++ [match dget Z.eqb (b_formats f1) (xf_format_key x) with Some _ => x | None => set_key x 0 end])) (b_xfcount f1 + 1)).
      cbn [with_xfcount with_xfs with_xftype b_xfs b_xftype]. rewrite F1, F2. split; [rewrite zlen_app; change (zlen [?a]) with 1; lia|].
      intros i Hi. unfold dset. cbn [dget]. destruct (i =? zlen (b_xfs (os_fmt s))) eqn:Ei; [discriminate|]. apply T1. lia.
    + intros Q. congruence.
    + change (b_fmt f1 = fmt). congruence.
  - (* FORMAT *)
    replace (is_xf_code rc) with false by (destruct RC as [-> | ->]; reflexivity).
    assert (E : old_step bv s rc (zlen (pre ++ zlen raw :: raw ++ extra)) (pre ++ zlen raw :: raw ++ extra) rs = (do s <- o_format codec s (RFormat (pre ++ zlen raw :: raw ++ extra) (rc =? 0x1e)); Ok (s, rs)))
      by (destruct RC as [-> | ->]; reflexivity).
    rewrite E. clear E. destruct (ensure_able cp n s A U) as (s1 & EN & A1 & Q1). unfold o_format, format_record.
    pose proof EN as EN'. unfold os_ensure in EN. apply bind_ok in EN as (b1 & EN & ES). rewrite EN. cbn [bind]. assert (s1 = set_book s b1) as -> by congruence. clear ES.
    destruct (os_ensure_spec codec of_int s (set_book s b1)) as ((T1 & _) & _); [lia|exact EN'|]. unfold os_version, os_fmt in EV, T1. cbn [set_book os_book] in T1.
    cbn [fstep]. unfold handle_format. cbv zeta. rewrite T1, EV.
    assert (AT : At (pre ++ zlen raw :: raw ++ extra) (zlen pre) (zlen raw :: raw ++ extra)) by (exists pre; auto).
    set (bw := if rc =? 0x1e then Z.min bv 30 else bv). assert (BW : bw < 50 /\ (bw <=? 30) = negb (zlen pre =? 2)).
    { unfold bw. destruct RC as [-> | ->]; cbn [Z.eqb Pos.eqb andb] in *; [lia|]. destruct (30 <? bv) eqn:V; lia. }
    destruct BW as [BW1 BW2]. replace (bw >=? 80) with false by lia. replace (bw >=? 50) with false by lia. replace (bw <? 50) with true by lia. cbn [andb bind].
    assert (SP : (if bw <=? 30 then 0 else 2) = zlen pre).
    { rewrite BW2. destruct ((rc =? 1054) && (30 <? bv)); rewrite LP; reflexivity. }
    rewrite SP, (string_at _ _ _ raw extra AT LR).
    pose proof (decodes cp n (set_book s b1) raw t A1 Q1 (conj U (ex_intro _ e (conj EF D)))) as DE. cbn [set_book os_book] in DE. rewrite DE. cbn [bind].
    eexists. split; [reflexivity|]. eapply able_same; [exact A1|..]; reflexivity.
  - (* STYLE *)
    change (is_xf_code 0x293) with false. cbv iota. set (d := le_enc 2 w ++ id :: level :: extra).
    change (old_step bv s 0x293 (zlen d) d rs) with (do s <- o_format codec (if os_done s then s else epilogue s) (RStyle d); Ok (s, rs)).
    assert (A1 : able cp n (if os_done s then s else epilogue s)) by (destruct (os_done s); [exact A|apply able_epilogue; exact A]).
    set (s1 := if os_done s then s else epilogue s) in *. clearbody s1. unfold o_format, format_record. cbn [bind].
    assert (X : exists f, fstep (unicode codec (en_encoding (bk_enc (os_book s1)))) (bk_fmt (os_book s1)) (RStyle d) = Ok f /\
      b_xfs f = b_xfs (os_fmt s1) /\ b_xftype f = b_xftype (os_fmt s1) /\ b_fmt f = b_fmt (os_fmt s1)).
    { cbn [fstep]. fold (os_fmt s1). unfold handle_style. destruct (negb (b_fmt (os_fmt s1))); [eauto|].
      assert (A2 : At d 2 (id :: level :: extra)) by (exists (le_enc 2 w); split; [reflexivity|rewrite zlen_le_enc; reflexivity]).
      rewrite need_fits by (unfold d; rewrite zlen_app, zlen_le_enc, !zlen_cons; pose proof (zlen_nonneg extra); lia). rewrite bind_Ok.
      rewrite (At_u16 d (id :: level :: extra) w 0 (At_0 _) UW), bind_Ok. rewrite (At_byte _ _ _ _ A2) by lia. rewrite bind_Ok.
      rewrite (At_byte _ _ _ 3 (At_skip1 _ _ _ _ 3 A2 eq_refl)) by lia. rewrite bind_Ok. cbv zeta.
      match goal with |- context [if ?c then Ok (s2l "Normal", (1, 0)) else _] => destruct c end; [rewrite bind_Ok; eexists; split; [reflexivity|repeat split]|].
      rewrite TB. assert (exists nm, py_index built_in_style_names id = Ok nm) as (nm & ->).
      { rewrite py_index_norm. assert (norm (zlen built_in_style_names) id = id) as -> by (unfold norm; destruct (id <? 0) eqn:Q; [lia|reflexivity]).
        destruct (znth_in_range built_in_style_names id) as (nm & ->); [change (zlen built_in_style_names) with 10; lia|]. eauto. }
      rewrite !bind_Ok. eexists. split; [reflexivity|repeat split]. }
    destruct X as (f & -> & F1 & F2 & F3). cbn [bind]. eexists. split; [reflexivity|]. eapply able_same; [exact A1|..]; try reflexivity; assumption.
Qed.

Lemma codepage_fine : forall cp n (s : ost) p extra rs, u16v p -> usable (Some p) -> able cp n s ->
  exists s', old_step bv s 0x42 (zlen (le_enc 2 p ++ extra)) (le_enc 2 p ++ extra) rs = Ok (s', rs) /\ able (Some p) n s'.
Proof.
  intros cp n s p extra rs UP US A. pose proof (ab_bv _ _ _ A) as EB.
  change (old_step bv s 0x42 ?len ?d rs) with (do s <- (do e <- handle_codepage codec bv (bk_enc (os_book s)) d; Ok (set_book s (with_enc (os_book s) e))); Ok (s, rs)).
  unfold handle_codepage. rewrite (At_u16 _ extra p 0 (At_0 _) UP), bind_Ok.
  destruct (ab_ready _ _ _ A) as (OV & CP & RA).
  assert (R : ready codec bv ov (Some p) (with_codepage (bk_enc (os_book s)) p)).
  { split; [exact OV|]. split; [left; reflexivity|exact RA]. }
  destruct (derive_fine codec bv ov (Some p) _ R US) as (e & ED & R'). rewrite ED, !bind_Ok. cbn [bind]. eexists. split; [reflexivity|].
  assert (encoded (with_enc (os_book s) e)) as Q.
  { apply (derive_encoded codec (with_enc (os_book s) (with_codepage (bk_enc (os_book s)) p))).
    unfold derive. change (bk_bv (with_enc (os_book s) (with_codepage (bk_enc (os_book s)) p))) with (bk_bv (os_book s)).
    change (bk_enc (with_enc (os_book s) (with_codepage (bk_enc (os_book s)) p))) with (with_codepage (bk_enc (os_book s)) p). rewrite EB, ED. reflexivity. }
  destruct A as [A1 A2 A3 A4 A5 A6 A7]. constructor; auto. apply encoded_inv. exact Q.
Qed.

(** *** Other records *)

Lemma quiet_step : forall (s : ost) rc len d rs, onoise_code rc = true -> ~ In rc (format_only ++ other_known) -> old_step bv s rc len d rs = Ok (s, rs).
Proof.
  intros s rc len d rs ON NI.
  assert (NH : ~ In rc handled) by (intros Q; apply NI; unfold handled in Q; cbn [In] in Q; unfold format_only, other_known; cbn [app In];
    repeat (destruct Q as [<-|Q]; [vm_compute; tauto|]); contradiction).
  pose proof ON as ON'. unfold onoise_code in ON. apply andb_true_iff in ON as [NC _].
  assert (ST : o_step codec num8 rk ragged s rc len d rs = Ok (s, rs)).
  { unfold o_step. rewrite (ignored_step (cfg codec num8 rk ragged s)) by assumption. cbn [bind]. destruct s; reflexivity. }
  assert (DIFF : forall k, onoise_code k = false \/ In k (format_only ++ other_known) -> rc =? k = false).
  { intros k K. apply Z.eqb_neq. intros ->. destruct K as [K|K]; [congruence|contradiction]. }
  unfold OldSheet.old_step, is_formula_code. cbv zeta.
  repeat match goal with |- context [rc =? ?k] => rewrite (DIFF k) by (first [left; reflexivity | right; unfold format_only, other_known; cbn [app In]; vm_compute; tauto]) end.
  cbn [orb]. exact ST.
Qed.

Lemma format_only_step : forall (s : ost) rc len d rs, In rc format_only -> b_fmt (os_fmt s) = false -> old_step bv s rc len d rs = Ok (s, rs).
Proof.
  intros [[v base [en f ct dm] sst rich shs rf nm mp ls hd off] sh ix at_ dn shr] rc len d rs I F. destruct f as [fv ff fc fu fp fn ffo ffl ffc fx fxc fxt fst].
  cbv [os_fmt bk_fmt os_book bk_shared g_fmt b_fmt] in F. subst ff.
  cbn [format_only In] in I. repeat (destruct I as [<-|I]; [destruct sh; reflexivity|]). contradiction.
Qed.

Lemma update_keeps : forall (s : ost) colx f, os_book (update_colinfo s colx f) = os_book s /\ os_attrs (update_colinfo s colx f) = os_attrs s /\
  os_ixfe (update_colinfo s colx f) = os_ixfe s /\ grid_of (update_colinfo s colx f) = grid_of s.
Proof.
  intros s colx f. unfold update_colinfo. repeat match goal with |- context [match ?x with _ => _ end] => destruct x end; repeat split.
Qed.

Lemma long_fine : forall cp n (s : ost) rc d k rs, In (rc, k) lengths -> k <= zlen d -> able cp n s ->
  exists s', old_step bv s rc (zlen d) d rs = Ok (s', rs) /\ able cp n s' /\ os_ixfe s' = os_ixfe s.
Proof.
  intros cp n s rc d k rs I L A. unfold lengths in I. cbn [In] in I.
  assert (SH : forall sh, sh_grid sh = grid_of s -> able cp n (set_sheet s sh) /\ os_ixfe (set_sheet s sh) = os_ixfe s)
    by (intros sh E; split; [apply able_sheet; [exact A|exact E]|reflexivity]).
  assert (OS : forall sh, step (cfg codec num8 rk ragged s) (os_sheet s) rc (zlen d) d rs = Ok (sh, rs) -> sh_grid sh = grid_of s ->
    exists s', o_step codec num8 rk ragged s rc (zlen d) d rs = Ok (s', rs) /\ able cp n s' /\ os_ixfe s' = os_ixfe s).
  { intros sh E G. unfold o_step. rewrite E. cbn [bind]. eexists. split; [reflexivity|]. apply SH. exact G. }
  repeat (destruct I as [E|I]; [injection E as <- <-|]); [..|destruct I].
  - (* ROW *)
    change (old_step bv s 520 (zlen d) d rs) with (o_step codec num8 rk ragged s 520 (zlen d) d rs).
    change (step (cfg codec num8 rk ragged s) (os_sheet s) 520 (zlen d) d rs) with (plain (h_row (cfg codec num8 rk ragged s) (os_sheet s) d) rs) in OS.
    unfold plain, h_row in OS. destruct (c_fmt _); cbn [negb bind] in OS; [|eapply OS; reflexivity].
    rewrite need_fits in OS by lia. unfold unpack_u16, unpack_i32 in OS.
    destruct (unpack_fits 2 d 0 ltac:(lia) ltac:(lia) ltac:(lia)) as (v0 & E0). destruct (unpack_fits 2 d 6 ltac:(lia) ltac:(lia) ltac:(lia)) as (v6 & E6).
    destruct (unpack_fits 4 d 12 ltac:(lia) ltac:(lia) ltac:(lia)) as (v12 & E12). rewrite E0, E6, E12 in OS. cbn [bind] in OS. cbv zeta in OS.
    destruct (negb _); (eapply OS; [reflexivity|reflexivity]).
  - (* COLINFO *)
    change (old_step bv s 125 (zlen d) d rs) with (do s <- o_colinfo codec num8 rk ragged s d; Ok (s, rs)). unfold o_colinfo, h_colinfo.
    change (c_fmt (cfg codec num8 rk ragged s)) with (b_fmt (os_fmt s)). destruct (b_fmt (os_fmt s)) eqn:FM; cbn [negb bind]; [|eexists; split; [reflexivity|apply SH; reflexivity]].
    rewrite need_fits by lia. unfold unpack_u16.
    destruct (unpack_fits 2 d 0 ltac:(lia) ltac:(lia) ltac:(lia)) as (v0 & ->). destruct (unpack_fits 2 d 2 ltac:(lia) ltac:(lia) ltac:(lia)) as (v2 & ->).
    destruct (unpack_fits 2 d 4 ltac:(lia) ltac:(lia) ltac:(lia)) as (v4 & ->). destruct (unpack_fits 2 d 6 ltac:(lia) ltac:(lia) ltac:(lia)) as (v6 & ->).
    destruct (unpack_fits 2 d 8 ltac:(lia) ltac:(lia) ltac:(lia)) as (v8 & ->). cbn [bind]. cbv zeta.
    destruct (negb _); cbn [bind]; (eexists; split; [reflexivity|]).
    + apply SH. reflexivity.
    + split; [|reflexivity]. eapply able_same; [exact A|..]; reflexivity.
  - (* COLWIDTH *)
    change (old_step bv s 36 (zlen d) d rs) with (do s <- h_colwidth s d; Ok (s, rs)). unfold h_colwidth.
    destruct (negb _); [cbn [bind]; eauto|]. rewrite need_fits by lia. unfold unpack_u16.
    destruct (unpack_fits 1 d 0 ltac:(lia) ltac:(lia) ltac:(lia)) as (v0 & ->). destruct (unpack_fits 1 d 1 ltac:(lia) ltac:(lia) ltac:(lia)) as (v2 & ->).
    destruct (unpack_fits 2 d 2 ltac:(lia) ltac:(lia) ltac:(lia)) as (v4 & ->). cbn [bind]. destruct (negb _); [cbn [bind]; eauto|]. cbn [bind].
    eexists. split; [reflexivity|]. generalize (zrange v0 (v2 + 1)). intros l.
    match goal with |- context [fold_left ?f l s] => assert (K : os_book (fold_left f l s) = os_book s /\ os_attrs (fold_left f l s) = os_attrs s /\
      os_ixfe (fold_left f l s) = os_ixfe s /\ grid_of (fold_left f l s) = grid_of s) end.
    { clear. revert s. induction l as [|c l IH]; intros s; [repeat split|]. cbn [fold_left].
      match goal with |- context [fold_left _ l (update_colinfo s c ?f)] => destruct (IH (update_colinfo s c f)) as (-> & -> & -> & ->); apply update_keeps end. }
    destruct K as (K1 & K2 & K3 & K4). split; [|exact K3]. eapply able_same; [exact A|..]; unfold os_fmt; congruence.
  - (* DEFCOLWIDTH *)
    change (old_step bv s 85 (zlen d) d rs) with (o_step codec num8 rk ragged s 85 (zlen d) d rs).
    change (step (cfg codec num8 rk ragged s) (os_sheet s) 85 (zlen d) d rs) with (plain (h_defcolwidth (os_sheet s) d) rs) in OS. unfold plain, h_defcolwidth, unpack_u16 in OS.
    destruct (unpack_fits 2 d 0 ltac:(lia) ltac:(lia) ltac:(lia)) as (v0 & E0). rewrite E0 in OS. eapply OS; reflexivity.
  - (* STANDARDWIDTH *)
    change (old_step bv s 153 (zlen d) d rs) with (o_step codec num8 rk ragged s 153 (zlen d) d rs).
    change (step (cfg codec num8 rk ragged s) (os_sheet s) 153 (zlen d) d rs) with (plain (h_standardwidth (os_sheet s) d) rs) in OS. unfold plain, h_standardwidth, unpack_u16 in OS.
    destruct (unpack_fits 2 d 0 ltac:(lia) ltac:(lia) ltac:(lia)) as (v0 & E0). rewrite E0 in OS. eapply OS; reflexivity.
  - (* PANE *)
    change (old_step bv s 65 (zlen d) d rs) with (o_step codec num8 rk ragged s 65 (zlen d) d rs).
    change (step (cfg codec num8 rk ragged s) (os_sheet s) 65 (zlen d) d rs) with (plain (h_pane (os_sheet s) d) rs) in OS. unfold plain, h_pane, unpack_u16 in OS.
    rewrite need_fits in OS by lia. 
    destruct (unpack_fits 2 d 0 ltac:(lia) ltac:(lia) ltac:(lia)) as (v0 & E0). destruct (unpack_fits 2 d 2 ltac:(lia) ltac:(lia) ltac:(lia)) as (v2 & E2).
    destruct (unpack_fits 2 d 4 ltac:(lia) ltac:(lia) ltac:(lia)) as (v4 & E4). destruct (unpack_fits 2 d 6 ltac:(lia) ltac:(lia) ltac:(lia)) as (v6 & E6).
    destruct (unpack_fits 1 d 8 ltac:(lia) ltac:(lia) ltac:(lia)) as (v8 & E8). rewrite E0, E2, E4, E6, E8 in OS. eapply OS; reflexivity.
  - (* WINDOW2 of BIFF2 *)
    change (old_step bv s 62 (zlen d) d rs) with (do s <- h_window2_b2 codec num8 rk ragged s d; Ok (s, rs)). unfold h_window2_b2, unpack_u16. cbv zeta.
    rewrite !py_slice_len, !py_bound_id by lia. change (Z.max 0 (10 - 5) =? 5) with true. change (Z.max 0 (13 - 10) =? 3) with true. cbn [guard bind].
    destruct (unpack_fits 2 d 5 ltac:(lia) ltac:(lia) ltac:(lia)) as (v0 & ->). destruct (unpack_fits 2 d 7 ltac:(lia) ltac:(lia) ltac:(lia)) as (v2 & ->).
    destruct (unpack_fits 1 d 9 ltac:(lia) ltac:(lia) ltac:(lia)) as (v4 & ->). destruct (unpack_fits 1 d 10 ltac:(lia) ltac:(lia) ltac:(lia)) as (v6 & ->).
    destruct (unpack_fits 1 d 11 ltac:(lia) ltac:(lia) ltac:(lia)) as (v8 & ->). destruct (unpack_fits 1 d 12 ltac:(lia) ltac:(lia) ltac:(lia)) as (v9 & ->).
    cbn [bind]. eexists. split; [reflexivity|]. apply SH. reflexivity.
  - (* ARRAY *)
    change (old_step bv s 545 (zlen d) d rs) with (o_step codec num8 rk ragged s 545 (zlen d) d rs).
    change (step (cfg codec num8 rk ragged s) (os_sheet s) 545 (zlen d) d rs) with (do _ <- need d 14; Ok (os_sheet s, rs)) in OS. rewrite need_fits in OS by lia. eapply OS; reflexivity.
  - (* SHRFMLA *)
    change (old_step bv s 1212 (zlen d) d rs) with (o_step codec num8 rk ragged s 1212 (zlen d) d rs).
    change (step (cfg codec num8 rk ragged s) (os_sheet s) 1212 (zlen d) d rs) with (do _ <- need d 10; Ok (os_sheet s, rs)) in OS. rewrite need_fits in OS by lia. eapply OS; reflexivity.
  - (* BUILTINFMTCOUNT *)
    change (old_step bv s 86 (zlen d) d rs) with (do _ <- need d 2; Ok (s, rs)). rewrite need_fits by lia. cbn [bind]. eauto.
Qed.

Lemma noise_fine : forall cp n (s : ost) rc d rs, onoise_code rc = true -> noise_good codec bv ov fmt cp rc d -> (os_version s >=? 30) = (30 <=? bv) ->
  os_version s < 50 -> able cp n s -> exists s', old_step bv s rc (zlen d) d rs = Ok (s', rs) /\ able cp n s' /\ os_ixfe s' = os_ixfe s.
Proof.
  intros cp n s rc d rs ON G V V5 A. pose proof bv_range as BR. pose proof (ab_bv _ _ _ A) as EB.
  assert (OS : forall sh, step (cfg codec num8 rk ragged s) (os_sheet s) rc (zlen d) d rs = Ok (sh, rs) -> sh_grid sh = grid_of s ->
    exists s', o_step codec num8 rk ragged s rc (zlen d) d rs = Ok (s', rs) /\ able cp n s' /\ os_ixfe s' = os_ixfe s).
  { intros sh E G'. unfold o_step. rewrite E. cbn [bind]. eexists. split; [reflexivity|]. split; [|reflexivity]. apply able_sheet; [exact A|exact G']. }
  destruct G as [rc d NI|rc d I F|m extra M|rc d k I L|d L|d|d V3 L|rc pre raw extra t RC LP LR (U & e & EF & D)].
  - rewrite quiet_step by assumption. eauto.
  - rewrite format_only_step by (first [assumption|rewrite (ab_fmt _ _ _ A); exact F]). eauto.
  - clear OS. change (old_step bv s 0x22 ?len ?d rs) with (do s <- (do b <- handle_datemode (os_book s) d; Ok (set_book s b)); Ok (s, rs)).
    unfold handle_datemode. rewrite (At_u16 _ extra m 0 (At_0 _)) by lia. cbn [bind].
    replace ((m =? 0) || (m =? 1)) with true by lia. cbn [guard bind]. eexists. split; [reflexivity|]. split; [|reflexivity].
    eapply able_same; [exact A|..]; reflexivity.
  - eapply long_fine; eassumption.
  - change (old_step bv s 160 (zlen d) d rs) with (o_step codec num8 rk ragged s 160 (zlen d) d rs).
    change (step (cfg codec num8 rk ragged s) (os_sheet s) 160 (zlen d) d rs) with (plain (h_scl (os_sheet s) d) rs) in OS. unfold plain, h_scl, unpack_u16 in OS. cbv zeta in OS.
    replace (zlen d =? 4) with true in OS by lia. cbn [guard bind] in OS.
    destruct (unpack_fits 2 d 0 ltac:(lia) ltac:(lia) ltac:(lia)) as (v0 & E0). destruct (unpack_fits 2 d 2 ltac:(lia) ltac:(lia) ltac:(lia)) as (v2 & E2).
    rewrite E0, E2 in OS. eapply OS; reflexivity.
  - change (old_step bv s 549 (zlen d) d rs) with (o_step codec num8 rk ragged s 549 (zlen d) d rs).
    change (step (cfg codec num8 rk ragged s) (os_sheet s) 549 (zlen d) d rs) with (plain (h_defaultrowheight (os_sheet s) (zlen d) d) rs) in OS. unfold plain, h_defaultrowheight, unpack_u16 in OS. cbv zeta in OS.
    destruct (zlen d =? 4) eqn:E4.
    + rewrite need_fits in OS by lia. destruct (unpack_fits 2 d 0 ltac:(lia) ltac:(lia) ltac:(lia)) as (v0 & E0). destruct (unpack_fits 2 d 2 ltac:(lia) ltac:(lia) ltac:(lia)) as (v2 & E2).
      rewrite E0, E2 in OS. eapply OS; reflexivity.
    + destruct (zlen d =? 2) eqn:E2; [|eapply OS; reflexivity]. destruct (unpack_fits 2 d 0 ltac:(lia) ltac:(lia) ltac:(lia)) as (v0 & E0). rewrite E0 in OS. eapply OS; reflexivity.
  - change (old_step bv s 574 (zlen d) d rs) with (do _ <- guard (bv >=? 30) AssertionError; o_step codec num8 rk ragged s 574 (zlen d) d rs).
    replace (bv >=? 30) with true by lia. cbn [guard bind].
    change (step (cfg codec num8 rk ragged s) (os_sheet s) 574 (zlen d) d rs) with (plain (h_window2 (cfg codec num8 rk ragged s) (os_sheet s) (zlen d) d) rs) in OS. unfold plain, h_window2, unpack_u16 in OS. cbv zeta in OS.
    change (c_bv (cfg codec num8 rk ragged s)) with (bk_bv (os_book s)) in OS. replace (bk_bv (os_book s) >=? 80) with false in OS by lia. cbn [andb] in OS.
    rewrite need_fits in OS by lia. rewrite py_slice_len, !py_bound_id in OS by lia. change (Z.max 0 (9 - 6) =? 3) with true in OS. cbn [guard bind] in OS.
    destruct (unpack_fits 2 d 0 ltac:(lia) ltac:(lia) ltac:(lia)) as (v0 & E0). destruct (unpack_fits 2 d 2 ltac:(lia) ltac:(lia) ltac:(lia)) as (v2 & E2).
    destruct (unpack_fits 2 d 4 ltac:(lia) ltac:(lia) ltac:(lia)) as (v4 & E4). destruct (unpack_fits 1 d 6 ltac:(lia) ltac:(lia) ltac:(lia)) as (v6 & E6).
    destruct (unpack_fits 1 d 7 ltac:(lia) ltac:(lia) ltac:(lia)) as (v7 & E7). destruct (unpack_fits 1 d 8 ltac:(lia) ltac:(lia) ltac:(lia)) as (v8 & E8).
    rewrite E0, E2, E4, E6, E7, E8 in OS. eapply OS; reflexivity.
  - clear OS. set (d := pre ++ zlen raw :: raw ++ extra).
    assert (E : old_step bv s rc (zlen d) d rs = (do s <- o_format codec s (RFont d); Ok (s, rs))) by (destruct RC as [-> | ->]; reflexivity).
    rewrite E. clear E. unfold o_format, format_record. fold (os_fmt s). destruct (b_fmt (os_fmt s)) eqn:FM.
    2: { cbn [bind fstep]. unfold handle_font. fold (os_fmt s). rewrite FM. cbn [negb bind]. eexists. split; [reflexivity|]. split; [|reflexivity].
         eapply able_same; [exact A|..]; reflexivity. }
    destruct (ensure_able cp n s A U) as (s1 & EN & A1 & Q1).
    pose proof EN as EN'. unfold os_ensure in EN. apply bind_ok in EN as (b1 & EN & ES). rewrite EN. cbn [bind]. assert (s1 = set_book s b1) as -> by congruence. clear ES.
    destruct (os_ensure_spec codec of_int s (set_book s b1)) as ((T1 & T2 & _) & X1 & _); [lia|exact EN'|].
    cbn [fstep]. unfold handle_font. unfold os_version, os_fmt in V, V5, FM, T1, T2. cbn [set_book os_book] in T1, T2. rewrite T2, FM. cbn [negb]. cbv zeta.
    assert (AT : At d (zlen pre) (zlen raw :: raw ++ extra)) by (exists pre; auto).
    assert (LD : zlen pre <= zlen d) by (unfold d; rewrite zlen_app; match goal with |- context [zlen pre + zlen ?x] => pose proof (zlen_nonneg x) end; lia).
    pose proof (decodes cp n (set_book s b1) raw t A1 Q1 (conj U (ex_intro _ e (conj EF D)))) as DE. cbn [set_book os_book] in DE.
    match goal with |- context [read_font ?dec ?v ?k d] => assert (exists f, read_font dec v k d = Ok f) as (f & ->) end.
    { rewrite T1. unfold read_font. replace (b_bv (bk_fmt (os_book s)) >=? 50) with false by lia. rewrite V. unfold unpack_u16.
      assert (W : forall o, exists w, py_index [400; 700] (Z.land o 1) = Ok w).
      { intros o. change 1 with (Z.ones 1). rewrite Z.land_ones by lia. assert (o mod 2 = 0 \/ o mod 2 = 1) as [E|E] by lia; change (2 ^ 1) with 2; rewrite E; eexists; reflexivity. }
      destruct (30 <=? bv); rewrite LP in *; rewrite need_fits by lia; rewrite bind_Ok;
        destruct (unpack_fits 2 d 0 ltac:(lia) ltac:(lia) ltac:(lia)) as (v0 & ->); rewrite bind_Ok;
        destruct (unpack_fits 2 d 2 ltac:(lia) ltac:(lia) ltac:(lia)) as (v2 & ->); rewrite bind_Ok.
      - destruct (unpack_fits 2 d 4 ltac:(lia) ltac:(lia) ltac:(lia)) as (v4 & ->). rewrite bind_Ok. rewrite (string_at _ _ _ raw extra AT LR), DE, bind_Ok.
        destruct (W v2) as (w & ->). rewrite bind_Ok. eauto.
      - rewrite (string_at _ _ _ raw extra AT LR), DE, bind_Ok. destruct (W v2) as (w & ->). rewrite bind_Ok. eauto. }
    cbn [bind]. eexists. split; [reflexivity|]. split; [|reflexivity]. eapply able_same; [exact A1|..]; reflexivity.
Qed.

Lemma use_fine : forall cp n (s : ost) rc d len rs, use_code rc = true -> use_good fmt rc d -> able cp n s ->
  exists s', old_step bv s rc len d rs = Ok (s', rs) /\ able cp n s' /\ os_ixfe s' = os_ixfe s.
Proof.
  intros cp n s rc d len rs UC [F|[-> (pre & b & rest & -> & LP & BB & EV)]] A.
  - pose proof (ab_fmt _ _ _ A) as FM. rewrite F in FM. exists s. split; [|auto].
    unfold use_code in UC. apply orb_true_iff in UC as [UC|UC]; apply Z.eqb_eq in UC; subst rc.
    + change (old_step bv s XL_ROW_B2 len d rs) with (do s <- h_row_b2 codec num8 rk ragged s len d; Ok (s, rs)). unfold h_row_b2. rewrite FM. reflexivity.
    + change (old_step bv s XL_COLUMNDEFAULT len d rs) with (do s <- h_columndefault s d; Ok (s, rs)). unfold h_columndefault. rewrite FM. reflexivity.
  - set (d := pre ++ b :: rest). change (old_step bv s 8 len d rs) with (do s <- h_row_b2 codec num8 rk ragged s len d; Ok (s, rs)). unfold h_row_b2.
    destruct (b_fmt (os_fmt s)); cbn [negb bind]; [|eauto].
    assert (LD : 11 <= zlen d) by (unfold d; rewrite zlen_app, zlen_cons; pose proof (zlen_nonneg rest); lia).
    assert (AT : At d 10 (b :: rest)) by (exists pre; split; [reflexivity|congruence]).
    rewrite need_fits by lia. rewrite bind_Ok. unfold unpack_u16. destruct (unpack_fits 2 d 0 ltac:(lia) ltac:(lia) ltac:(lia)) as (v0 & ->). rewrite bind_Ok.
    destruct (unpack_fits 2 d 6 ltac:(lia) ltac:(lia) ltac:(lia)) as (v6 & ->). rewrite bind_Ok. rewrite (At_byte _ _ _ _ AT) by exact BB. rewrite bind_Ok.
    destruct (negb _); [cbn [bind]; eauto|]. assert (Z.land b 1 = 0) as -> by (change 1 with (Z.ones 1); rewrite Z.land_ones by lia; exact EV).
    cbn [Z.eqb bind]. eexists. split; [reflexivity|]. split; [|reflexivity]. apply able_sheet; [exact A|reflexivity].
Qed.

Lemma ixfe_fine : forall cp n (s : ost) x len rs, u16v x -> able cp n s ->
  old_step bv s XL_IXFE len (le_enc 2 x) rs = Ok (set_ixfe s x, rs) /\ able cp n (set_ixfe s x).
Proof.
  intros cp n s x len rs U A. split; [|eapply able_same; [exact A|..]; reflexivity].
  change (old_step bv s XL_IXFE len ?d rs) with (do s <- (do _ <- guard (zlen d =? 2) StructError; do x <- unpack_u16 d 0; Ok (set_ixfe s x)); Ok (s, rs)).
  rewrite zlen_le_enc. change (Z.of_nat 2 =? 2) with true. cbn [guard bind].
  pose proof (At_0 (le_enc 2 x)) as AA. rewrite <- (app_nil_r (le_enc 2 x)) in AA at 2. rewrite (At_u16 _ _ _ _ AA) by exact U. reflexivity.
Qed.

Lemma embedded_fine : forall (s : ost) rc len bof body rs, is_bof_code rc = true -> 4 <= zlen bof -> Forall (fun r => fst r <> XL_EOF) body ->
  old_step bv s rc len bof (map rec_of (body ++ [(XL_EOF, [])]) ++ rs) = Ok (s, rs).
Proof.
  intros s rc len bof body rs B L F.
  assert (E : old_step bv s rc len bof (map rec_of (body ++ [(XL_EOF, [])]) ++ rs) =
    do (sh, rs) <- (do _ <- need bof 4; do rs <- skip_to_eof (map rec_of (body ++ [(XL_EOF, [])]) ++ rs); Ok (os_sheet s, rs)); Ok (set_sheet s sh, rs)).
  { unfold is_bof_code in B. repeat (apply orb_true_iff in B as [B|B]); apply Z.eqb_eq in B; subst rc; reflexivity. }
  rewrite E. rewrite need_ok by lia. cbn [bind]. rewrite map_app, <- app_assoc. cbn [map app].
  change (rec_of (XL_EOF, [])) with (XL_EOF, 0, @nil Z). rewrite skip_body by exact F. cbn [bind]. destruct s; reflexivity.
Qed.

(** *** A whole worksheet *)

Notation recs items len d rest := (map rec_of (flat_map oenc items) ++ (XL_EOF, len, d) :: rest).
Notation old_all := (old_all codec num8 rk of_int ragged).
Notation wrote := (wrote codec num8 rk of_int ragged).

Lemma progress : forall items (s : ost) cp n len d rest, Forall (oitem_ok bv) items -> stands bv real s items -> able cp n s ->
  good codec rk bv ov fmt refs real cp n (os_ixfe s) items ->
  exists s' n', old_all bv s (recs items len d rest) = Ok s' /\ able (last_page cp items) n' s'.
Proof.
  induction items as [|it items IH]; intros s cp n len d rest OK ST A G.
  - cbn [flat_map map app]. rewrite old_all_cons. cbn [Z.eqb]. change (XL_EOF =? XL_EOF) with true. cbn. eauto.
  - inversion OK as [|? ? O OK']; subst. destruct (oenc_head of_int _ _ O) as (rc0 & d0 & l0 & EH & NE & _).
    assert (GO : forall s1 cp1 n1, old_step bv s rc0 (zlen d0) d0 (map rec_of l0 ++ recs items len d rest) = Ok (s1, recs items len d rest) ->
      stands bv real s1 items -> able cp1 n1 s1 -> good codec rk bv ov fmt refs real cp1 n1 (os_ixfe s1) items ->
      last_page cp (it :: items) = last_page cp1 items ->
      exists s' n', old_all bv s (recs (it :: items) len d rest) = Ok s' /\ able (last_page cp (it :: items)) n' s').
    { intros s1 cp1 n1 E ST1 A1 G1 ->. cbn [flat_map]. rewrite EH. cbn [app map]. unfold rec_of at 1. cbn [fst snd]. rewrite map_app, <- app_assoc.
      rewrite old_all_cons. replace (rc0 =? XL_EOF) with false by lia. rewrite E. cbn [bind]. eauto. }
    assert (CELL : forall c s1, sinv bv real s -> existsb is_setting items = false -> wrote bv real s (os_ixfe s, c) s1 ->
      stands bv real s1 items /\ os_ixfe s1 = os_ixfe s).
    { intros c s1 I NS (st & _ & _ & _ & I1 & X & _). split; [right; auto|exact X]. }
    destruct it as [c|rc c u rst bt code m|x|rc dd|rc dd|rc bof body|rc dd]; cbn [oenc] in EH; cbn [good] in G.
    + (* cell *)
      assert (rc0 = cell_code (oc_ref c) (oc_kind c) /\ d0 = place c ++ cell_bytes (oc_ref c) (oc_kind c) /\ l0 = []) as (-> & -> & ->) by (clear - EH; repeat split; congruence).
      destruct (stands_sinv _ _ _ _ _ ST I) as [SI NS]. destruct G as (G1 & G2 & G3). cbn [map app] in GO.
      assert (K : exists s1, old_step bv s (cell_code (oc_ref c) (oc_kind c)) (zlen (place c ++ cell_bytes (oc_ref c) (oc_kind c)))
        (place c ++ cell_bytes (oc_ref c) (oc_kind c)) (recs items len d rest) = Ok (s1, recs items len d rest) /\ able cp n s1 /\
        if kept (b_fmt (os_fmt s)) c then wrote bv real s (os_ixfe s, c) s1 else s1 = s).
      { destruct (oc_ref c) as [a0 a1 a2|x] eqn:RF; rewrite <- RF in *.
        - edestruct (attr_step_fine cp n s c a0 a1 a2) as (s1 & E & A1); [exact RF|exact O|exact SI|exact A|exact G1|exact G2|].
          exists s1. split; [exact E|]. split; [exact A1|]. exact (proj2 (attr_step _ _ _ _ _ _ _ _ _ _ _ _ _ _ _ _ RF O SI E)).
        - edestruct (xf_step_fine cp n s c x) as (s1 & E & A1); [exact RF|exact O|exact SI|exact A|exact G1|exact G2|].
          exists s1. split; [exact E|]. split; [exact A1|]. exact (proj2 (xf_step _ _ _ _ _ _ _ _ _ _ _ _ _ _ RF O SI E)). }
      destruct K as (s1 & E & A1 & K). destruct (kept (b_fmt (os_fmt s)) c).
      * destruct (CELL c s1 SI NS K) as [ST1 X]. eapply GO; [exact E|exact ST1|exact A1|rewrite X; exact G3|reflexivity].
      * subst s1. eapply GO; [exact E|right; auto|exact A1|exact G3|reflexivity].
    + (* formula *)
      assert (rc0 = rc /\ d0 = place c ++ result_bytes u (oc_kind c) ++ rst /\
        l0 = match oc_kind c with KText raw => bt ++ [(code, le_enc (width (oc_ref c)) m ++ raw)] | _ => [] end) as (-> & -> & ->)
        by (clear - EH; repeat split; congruence).
      destruct (stands_sinv _ _ _ _ _ ST I) as [SI NS]. destruct G as (G1 & G2 & G3).
      edestruct (formula_fine cp n s rc c u rst bt code m) as (s1 & E & A1); [exact O|exact SI|exact A|exact G1|exact G2|].
      destruct (formula_step _ _ _ _ _ _ _ _ _ _ _ _ _ _ _ _ _ _ _ O SI (recs_no_continue of_int _ items len d rest OK') E) as [_ K].
      destruct (CELL c s1 SI NS K) as [ST1 X]. eapply GO; [exact E|exact ST1|exact A1|rewrite X; exact G3|reflexivity].
    + (* IXFE *)
      assert (rc0 = XL_IXFE /\ d0 = le_enc 2 x /\ l0 = []) as (-> & -> & ->) by (clear - EH; repeat split; congruence).
      cbn [map app] in GO. edestruct (ixfe_fine cp n s x) as (E & A1); [exact O|exact A|].
      assert (same_tables s (set_ixfe s x)) as T by (repeat split; auto).
      eapply GO; [exact E| |exact A1|exact G|reflexivity].
      destruct ST as [(B & SF & FF & R & NF)|[I NS]].
      * left. cbn [settings_first formats_first existsb is_xf is_format orb] in *. split; [|tauto].
        destruct B as [B1 B2 B3 B4 B5 B6 B7 B8]. constructor; assumption.
      * right. split; [eapply same_sinv; eassumption|exact NS].
    + (* setting *)
      assert (rc0 = rc /\ d0 = dd /\ l0 = []) as (-> & -> & ->) by (clear - EH; repeat split; congruence). cbn [map app] in GO.
      destruct ST as [(B & SF & FF & R & NF)|[I NS]]; [|discriminate NS]. destruct O as [O1 O2].
      assert (is_format_code rc = true -> b_xfs (os_fmt s) = []) as F0.
      { intros FC. destruct (b_xfs (os_fmt s)) as [|y ys]; [reflexivity|]. specialize (NF eq_refl). cbn [existsb is_format] in NF. rewrite FC in NF. discriminate NF. }
      assert (K : exists s1 cp1 n1, old_step bv s rc (zlen dd) dd (recs items len d rest) = Ok (s1, recs items len d rest) /\ able cp1 n1 s1 /\
        good codec rk bv ov fmt refs real cp1 n1 (os_ixfe s) items /\ last_page cp (OSetting rc dd :: items) = last_page cp1 items).
      { destruct (rc =? 0x42) eqn:E42.
        - apply Z.eqb_eq in E42. subst rc. destruct G as (p & extra & -> & U & US & G).
          edestruct (codepage_fine cp n s p extra) as (s1 & E & A1); [exact U|exact US|exact A|]. exists s1, (Some p), n.
          split; [exact E|]. split; [exact A1|]. split; [exact G|]. cbn [last_page]. change (0x42 =? 0x42) with true. cbv iota.
          assert (firstn 2 (le_enc 2 p ++ extra) = le_enc 2 p) as -> by reflexivity. rewrite le_val_enc by (unfold u16v in U; lia). reflexivity.
        - destruct G as [G1 G2]. edestruct (setting_fine cp n s rc dd) as (s1 & E & A1); [exact G1| |exact B|exact A|].
          { intros XC. split; [|intros E20; rewrite (O2 E20) in XC; discriminate XC]. rewrite <- R. cbn [existsb is_xf]. rewrite XC. apply orb_true_r. }
          exists s1. do 2 eexists. split; [exact E|]. split; [exact A1|]. split; [exact G2|]. cbn [last_page]. rewrite E42. reflexivity. }
      destruct K as (s1 & cp1 & n1 & E & A1 & G1 & LP).
      destruct (setting_step _ _ _ _ _ _ _ _ _ _ _ _ _ O1 O2 B F0 E) as (_ & B1 & X1 & M1 & FE & NX).
      eapply GO; [exact E| |exact A1|rewrite X1; exact G1|exact LP].
      left. cbn [settings_first formats_first existsb is_xf is_format] in *. split; [exact B1|]. split; [exact SF|]. split; [apply FF|].
      rewrite NX. split; [rewrite <- orb_assoc; exact R|]. intros NE1. apply orb_true_iff in NE1 as [NE1|NE1].
      * specialize (NF NE1). apply orb_false_iff in NF. apply NF.
      * apply FF. exact NE1.
    + (* row or column *)
      assert (rc0 = rc /\ d0 = dd /\ l0 = []) as (-> & -> & ->) by (clear - EH; repeat split; congruence). cbn [map app] in GO.
      destruct (stands_sinv _ _ _ _ _ ST I) as [SI NS]. destruct O as [O1 O2]. destruct G as [G1 G2].
      edestruct (use_fine cp n s rc dd) as (s1 & E & A1 & X1); [exact O1|exact G1|exact A|].
      destruct (use_step _ _ _ _ _ _ _ _ _ _ _ _ _ _ O2 O1 SI E) as (_ & I1 & _).
      eapply GO; [exact E|right; auto|exact A1|rewrite X1; exact G2|reflexivity].
    + (* embedded *)
      assert (rc0 = rc /\ d0 = bof /\ l0 = body ++ [(XL_EOF, [])]) as (-> & -> & ->) by (clear - EH; repeat split; congruence).
      destruct O as (O1 & O2 & O3). eapply GO; [apply embedded_fine; assumption| |exact A|exact G|reflexivity].
      destruct ST as [(B & SF & FF & R & NF)|[I NS]].
      * left. cbn [settings_first formats_first existsb is_xf is_format orb] in *. tauto.
      * right. split; [exact I|exact NS].
    + (* other *)
      assert (rc0 = rc /\ d0 = dd /\ l0 = []) as (-> & -> & ->) by (clear - EH; repeat split; congruence). cbn [map app] in GO.
      destruct G as [G1 G2]. pose proof bv_range as BR.
      assert (VV : (os_version s >=? 30) = (30 <=? bv) /\ os_version s < 50).
      { destruct ST as [(B & _)|[I _]]; [rewrite (be_version _ _ B); lia|]. destruct (Z_lt_le_dec bv 30) as [V|V].
        - destruct (si_2x _ _ _ I V) as [->|[-> _]]; lia.
        - destruct (si_30 _ _ _ I ltac:(lia)) as [-> _]. lia. }
      edestruct (noise_fine cp n s rc dd) as (s1 & E & A1 & X1); [exact O|exact G1|apply VV|apply VV|exact A|].
      assert (L80 : bv < 80) by lia.
      destruct (onoise_step _ _ _ _ _ _ _ _ _ _ _ _ _ L80 (ab_bv _ _ _ A) O E) as (T & _ & (GG & M1) & _).
      eapply GO; [exact E| |exact A1|rewrite X1; exact G2|reflexivity].
      destruct ST as [(B & SF & FF & R & NF)|[I NS]].
      * left. cbn [settings_first formats_first existsb is_xf is_format orb] in *.
        destruct T as (T1 & T2 & T3 & T4 & T5 & T6 & T7 & T8). rewrite T3.
        split; [|tauto]. eapply before_next; [exact B|rewrite GG; exact (be_grid _ _ B)|exact T6|exact T7|exact T1| |].
        -- eapply same_finv; [exact T3|exact T4|exact T5|exact (be_f _ _ B)].
        -- rewrite T3. exact (be_20 _ _ B).
      * right. split; [eapply same_sinv; eassumption|exact NS].
Qed.
End Fine.
