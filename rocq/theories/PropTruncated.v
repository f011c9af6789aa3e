(** C103: a file that is cut off is never read as if it were complete. *)
From Verif Require Import Base BaseFacts Text Strings Utf16 StringFacts PropBytes Framing GridModel GridFacts SheetObjects SheetModel SheetFacts SstModel FormatModel
  FormulaModel CompDoc BookModel PropEnc BookFacts BookSheets BookEnds BookApi BookHistory NameRefs PropSheetList PropFormulaText PropWorkbook CompDocFacts PropDir PropChain CompDocFull PropFile PropCutSheet.

(** ** Specification *)

(** The workbook at [base] of [mem] is of BIFF 5 or later; it has no SHEETHDR record (those
    belong to BIFF 4) and no BOUNDSHEET record that points to before the stream. *)
Definition usual (mem : list Z) (base : Z) : Prop :=
  forall bv pos, getbof mem base 5 = Ok (bv, pos) ->
    50 <= bv /\ Forall (fun r : record => fst (fst r) <> 0x8F /\
                          (fst (fst r) = 0x85 -> forall o, unpack_i32 (snd r) 0 = Ok o -> 0 <= o + base)) (stream mem pos).

(** ** Proofs *)

Lemma list_eqb_ne : forall a b, a <> b -> list_eqb a b = false.
Proof. intros a b H. destruct (list_eqb a b) eqn:E; [|reflexivity]. apply list_eqb_eq in E. contradiction. Qed.

Section More.
Variables mem t : list Z.
Notation full := (mem ++ t).
Hypothesis B : bytes mem.

Lemma slice_kept : forall a b, 0 <= a -> 0 <= b <= zlen mem -> py_slice full a b = py_slice mem a b.
Proof.
  intros a b A L. pose proof (zlen_nonneg t). unfold py_slice. rewrite zlen_app. unfold py_bound.
  replace (a <? 0) with false by lia. replace (b <? 0) with false by lia. replace (Z.min b (zlen mem + zlen t)) with b by lia. replace (Z.min b (zlen mem)) with b by lia.
  destruct (Z_le_gt_dec a b) as [LE|GT].
  - replace (Z.min a (zlen mem + zlen t)) with a by lia. replace (Z.min a (zlen mem)) with a by lia.
    rewrite skipn_app, firstn_app. replace (Z.to_nat (b - a) - List.length (skipn (Z.to_nat a) mem))%nat with 0%nat by (rewrite skipn_length; unfold zlen in *; lia).
    cbn [firstn]. apply app_nil_r.
  - replace (Z.to_nat (b - Z.min a (zlen mem + zlen t))) with 0%nat by lia. replace (Z.to_nat (b - Z.min a (zlen mem))) with 0%nat by lia. reflexivity.
Qed.

Lemma parts_more : forall pos rc len d p, 0 <= pos -> get_record_parts mem pos = Ok ((rc, len, d), p) ->
  pos + 4 <= p /\ pos + 4 <= zlen mem /\ exists d', get_record_parts full pos = Ok ((rc, len, d'), p) /\ (p <= zlen mem -> d' = d).
Proof.
  intros pos rc len d p P H. pose proof H as H0. apply get_record_parts_bounds in H0 as (_ & H1 & H2); [|exact B]. split; [exact H1|split; [exact H2|]].
  unfold get_record_parts, unpack_u16, unpack_le in *. cbv zeta in *.
  rewrite (slice_kept pos (pos + 4)), (slice_kept pos (pos + 2)), (slice_kept (pos + 2) (pos + 2 + 2)) by lia.
  destruct (negb _); [discriminate|]. destruct (zlen (py_slice mem pos (pos + 2)) =? 2); [|discriminate]. destruct (zlen (py_slice mem (pos + 2) (pos + 2 + 2)) =? 2); [|discriminate].
  cbn [bind] in *. injection H as <- <- <- <-. eexists. split; [reflexivity|]. intros L. apply slice_kept; lia.
Qed.

Lemma cond_more : forall pos code o p, 0 <= pos -> get_record_parts_conditional mem pos code = Ok (o, p) ->
  pos <= p /\ pos + 4 <= zlen mem /\ (o = None -> p = pos) /\ (p <= zlen mem -> get_record_parts_conditional full pos code = Ok (o, p)) /\
  (forall P : record -> Prop, Forall P (stream mem pos) -> Forall P (stream mem p)).
Proof.
  intros pos code o p P H. unfold get_record_parts_conditional in *. cbv zeta in *.
  destruct (get_record_parts mem pos) as [[[[rc len] d] q]|e] eqn:E.
  - pose proof (stream_next mem pos B) as SN. rewrite E in SN. pose proof E as E0. apply get_record_parts_bounds in E0 as (_ & H1 & H2); [|exact B].
    unfold get_record_parts in E. cbv zeta in E.
    unfold unpack_u16, unpack_le in *. cbv zeta in *.
    rewrite (slice_kept pos (pos + 4)), (slice_kept pos (pos + 2)), (slice_kept (pos + 2) (pos + 2 + 2)) by lia.
    destruct (negb _); [discriminate|]. destruct (zlen (py_slice mem pos (pos + 2)) =? 2); [|discriminate]. destruct (zlen (py_slice mem (pos + 2) (pos + 2 + 2)) =? 2); [|discriminate].
    cbn [bind] in *. injection E as <- <- <- <-. destruct (negb _).
    + injection H as <- <-. split; [lia|]. split; [lia|]. split; [reflexivity|]. split; [reflexivity|]. trivial.
    + injection H as <- <-. split; [lia|]. split; [lia|]. split; [discriminate|]. split.
      * intros L. rewrite slice_kept by lia. reflexivity.
      * intros Q F. rewrite SN in F. inversion F; assumption.
  - exfalso. unfold get_record_parts in E. cbv zeta in E. destruct (negb _); [discriminate|].
    apply bind_ok in H as (x & Hx & H). rewrite Hx in E. cbn [bind] in E. apply bind_ok in H as (y & Hy & H). rewrite Hy in E. discriminate.
Qed.

Lemma collect_more : forall f g pos acc l p, (f <= g)%nat -> 0 <= pos -> collect_continue f mem pos acc = Ok (l, p) ->
  pos <= p /\ p + 4 <= zlen mem /\ collect_continue g full pos acc = Ok (l, p) /\ (forall P : record -> Prop, Forall P (stream mem pos) -> Forall P (stream mem p)).
Proof.
  induction f as [|f IH]; intros g pos acc l p L P H; [discriminate|]. destruct g as [|g]; [lia|]. cbn [collect_continue] in *.
  apply bind_ok in H as ([o q] & C & H). destruct (cond_more _ _ _ _ P C) as (C1 & C2 & C3 & C4 & C5).
  destruct o as [[[rc len] d]|].
  - destruct (IH g q _ l p ltac:(lia) ltac:(lia) H) as (I1 & I2 & I3 & I4). split; [lia|]. split; [exact I2|]. split; [|auto].
    rewrite C4 by lia. cbn [bind]. exact I3.
  - injection H as <- <-. rewrite (C3 eq_refl) in *. split; [lia|]. split; [lia|]. split; [|trivial]. rewrite C4 by lia. reflexivity.
Qed.

Lemma body_more : forall f g pos reqd data l p, (f <= g)%nat -> 0 <= pos -> externsheet_body f mem pos reqd data = Ok (l, p) ->
  pos <= p /\ (p <= zlen mem -> externsheet_body g full pos reqd data = Ok (l, p)) /\ (forall P : record -> Prop, Forall P (stream mem pos) -> Forall P (stream mem p)).
Proof.
  induction f as [|f IH]; intros g pos reqd data l p L P H; (destruct g as [|g]; [try lia|]); cbn [externsheet_body] in *; destruct (negb (zlen data <? reqd)) eqn:E; try discriminate;
    try (injection H as <- <-; repeat split; [lia|trivial]).
  apply bind_ok in H as ([[[rc len] d] q] & C & H). destruct (parts_more _ _ _ _ _ P C) as (C1 & C2 & d' & C3 & C4).
  destruct (negb (rc =? _)) eqn:E2; [discriminate|]. destruct (IH g q _ _ l p ltac:(lia) ltac:(lia) H) as (I1 & I2 & I3). split; [lia|]. split.
  - intros LP. rewrite C3, (C4 ltac:(lia)). cbn [bind]. rewrite E2. exact (I2 LP).
  - intros Q F. apply I3. pose proof (stream_next mem pos B) as SN. rewrite C in SN. rewrite SN in F. inversion F; assumption.
Qed.

Lemma getbof_more : forall pos rqd v p, 0 <= pos -> getbof mem pos rqd = Ok (v, p) -> pos + 8 <= p <= zlen mem /\ getbof full pos rqd = Ok (v, p).
Proof.
  intros pos rqd v p P H. pose proof (zlen_nonneg mem). pose proof (zlen_nonneg t).
  assert (Two : forall q w q', 0 <= q -> get2bytes mem q = Ok (w, q') -> negb (w =? MY_EOF) = true -> q' = q + 2 /\ q + 2 <= zlen mem /\ get2bytes full q = Ok (w, q')).
  { intros q w q' Q G NE. unfold get2bytes in *. cbv zeta in *. destruct (Z_le_gt_dec (q + 2) (zlen mem)) as [LE|GT].
    - rewrite slice_kept by lia. split; [|split; [exact LE|exact G]]. pose proof (py_slice_len mem q (q + 2)) as PL. unfold py_bound in PL.
      replace (q <? 0) with false in PL by lia. replace (q + 2 <? 0) with false in PL by lia.
      destruct (py_slice mem q (q + 2)) as [|a [|b [|]]]; injection G as _ <-; lia.
    - exfalso. pose proof (py_slice_len mem q (q + 2)) as PL. unfold py_bound in PL. replace (q <? 0) with false in PL by lia. replace (q + 2 <? 0) with false in PL by lia.
      destruct (py_slice mem q (q + 2)) as [|a [|b [|]]]; try (injection G as <- _; discriminate NE). change (zlen [a; b]) with 2 in PL. lia. }
  unfold getbof in *. apply bind_ok in H as ([op q1] & G1 & H). apply bind_ok in H as ([] & NE1 & H).
  assert (N1 : negb (op =? MY_EOF) = true) by (destruct (negb (op =? MY_EOF)); [reflexivity|discriminate]).
  destruct (Two _ _ _ P G1 N1) as (E1 & L1 & F1). rewrite F1. cbn [bind]. rewrite NE1. cbn [bind].
  destruct (boflen op) as [bl|]; [|discriminate]. apply bind_ok in H as ([ln q2] & G2 & H). apply bind_ok in H as ([] & NE2 & H).
  assert (N2 : negb (ln =? MY_EOF) = true) by (destruct (negb (ln =? MY_EOF)); [reflexivity|discriminate]).
  destruct (Two q1 ln q2 ltac:(lia) G2 N2) as (E2 & L2 & F2). rewrite F2. cbn [bind]. rewrite NE2. cbn [bind].
  apply bind_ok in H as ([] & R & H). rewrite R. cbn [bind]. cbv zeta in *.
  assert (4 <= ln <= 20) as LN by (destruct ((4 <=? ln) && (ln <=? 20)) eqn:X; [lia|discriminate]).
  unfold read in *. cbv zeta in *. apply bind_ok in H as ([] & K & H).
  assert (ZL : zlen (py_slice mem q2 (q2 + ln)) = ln /\ q2 + ln <= zlen mem).
  { destruct (negb (zlen (py_slice mem q2 (q2 + ln)) <? ln)) eqn:X; [|discriminate]. pose proof (py_slice_len mem q2 (q2 + ln)) as PL. unfold py_bound in PL.
    replace (q2 <? 0) with false in PL by lia. replace (q2 + ln <? 0) with false in PL by lia. lia. }
  destruct ZL as [ZL1 ZL2]. rewrite slice_kept by lia. rewrite K. cbn [bind]. split; [|exact H].
  apply bind_ok in H as (? & _ & H). apply bind_ok in H as (? & _ & H). apply bind_ok in H as ([? ?] & _ & H).
  repeat match type of H with (if ?b then _ else _) = _ => destruct b end; try discriminate; injection H as _ <-; lia.
Qed.

Lemma records_more : forall f g pos, (f <= g)%nat -> 0 <= pos -> cut_off (records_of f mem pos) (records_of g full pos).
Proof.
  induction f as [|f IH]; intros g pos L P; cbn [records_of]; [constructor|]. destruct (get_record_parts mem pos) as [[[[rc len] d] p]|e] eqn:E; [|constructor].
  destruct g as [|g]; [lia|]. cbn [records_of]. destruct (parts_more _ _ _ _ _ P E) as (H1 & H2 & d' & H3 & H4). rewrite H3.
  destruct (Z_le_gt_dec p (zlen mem)) as [LE|GT].
  - rewrite (H4 LE). apply cut_cons. apply IH; lia.
  - replace (records_of f mem p) with (@nil record); [apply cut_last|]. destruct f as [|f']; [reflexivity|]. cbn [records_of].
    destruct (get_record_parts mem p) as [[r q]|e] eqn:E2; [|reflexivity]. apply get_record_parts_bounds in E2 as (_ & _ & E2); [lia|exact B].
Qed.
End More.

Section Book.
Context {N : Type}.
Variable codec : list Z -> list Z -> result (list Z).
Variable ops : numops N.
Variable lower : list Z -> list Z.
Variable num8 : list Z -> N.
Variable rk : list Z -> result N.
Variable ragged : bool.
Notation loaded := (loaded (N := N)).
Notation api := (api (N := N)).
Notation book := (book N loaded).
Variable old : book -> list Z -> Z -> list Z -> Z -> result (shared * loaded).
Notation load := (load codec num8 rk ragged old).

Variables mem t : list Z.
Notation full := (mem ++ t).
Hypothesis B : bytes mem.

Lemma gstep_more : forall (b : book) pos rc data b' p, 0 <= pos -> rc <> 0x8f -> gstep codec load b mem pos rc data = Ok (b', p) ->
  pos <= p /\ (p <= zlen mem -> gstep codec load b full pos rc data = Ok (b', p)) /\ (forall P : record -> Prop, Forall P (stream mem pos) -> Forall P (stream mem p)).
Proof.
  intros b pos rc data b' p P N8 H. unfold gstep in *. cbv zeta in *. replace (rc =? 0x8f) with false in * by lia.
  assert (Stay : forall r : result book, (do b <- r; Ok (b, pos)) = Ok (b', p) ->
    pos <= p /\ (p <= zlen mem -> (do b <- r; Ok (b, pos)) = Ok (b', p)) /\ (forall P : record -> Prop, Forall P (stream mem pos) -> Forall P (stream mem p))).
  { intros r E. split; [|split; [trivial|]]; apply bind_ok in E as (? & ? & E); injection E as _ <-; [lia|trivial]. }
  destruct (rc =? 0xfc).
  { apply bind_ok in H as ([[st ru] q] & S1 & H). injection H as <- <-. unfold handle_sst in *.
    apply bind_ok in S1 as (u & U & S1). apply bind_ok in S1 as ([l q1] & C & S1). apply bind_ok in S1 as ([a1 a2] & T & S1). injection S1 as <- <- <-.
    destruct (collect_more mem t B (S (List.length mem)) (S (List.length full)) pos [] l q1 ltac:(rewrite app_length; lia) P C) as (C1 & C2 & C3 & C4). split; [exact C1|]. split; [|exact C4]. intros _.
    rewrite U. cbn [bind]. rewrite C3. cbn [bind]. rewrite T. reflexivity. }
  destruct ((rc =? 0x31) || (rc =? 0x231)); [exact (Stay _ H)|].
  destruct (rc =? 0x41e); [exact (Stay _ H)|]. destruct (rc =? 0xe0); [exact (Stay _ H)|]. destruct (rc =? 0x85); [exact (Stay _ H)|].
  destruct (rc =? 0x22); [exact (Stay _ H)|]. destruct (rc =? 0x42); [exact (Stay _ H)|]. destruct (rc =? 0x8C); [exact (Stay _ H)|].
  destruct (rc =? 0x23); [exact (Stay _ H)|].
  destruct (rc =? 0x17).
  { apply bind_ok in H as (b1 & D & H). rewrite D. cbn [bind]. apply bind_ok in H as ([r q] & X & H). injection H as <- <-.
    unfold handle_externsheet in *. cbv zeta in *. destruct (bk_bv b1 >=? 80).
    - apply bind_ok in X as (n & X1 & X). apply bind_ok in X as ([dd q1] & X2 & X). apply bind_ok in X as (l & X3 & X). injection X as <- <-.
      destruct (body_more mem t B (S (List.length mem)) (S (List.length full)) pos _ data dd q1 ltac:(rewrite app_length; lia) P X2) as (Y1 & Y2 & Y3). split; [exact Y1|]. split; [|exact Y3].
      intros L. rewrite X1. cbn [bind]. rewrite (Y2 L). cbn [bind]. rewrite X3. reflexivity.
    - rewrite X. apply bind_ok in X as (? & _ & X). apply bind_ok in X as (? & _ & X). apply bind_ok in X as (? & _ & X). apply bind_ok in X as (? & _ & X).
      injection X as <- <-. split; [lia|]. split; [reflexivity|trivial]. }
  destruct (rc =? 0x2f); [discriminate|]. destruct (rc =? 0x5C); [exact (Stay _ H)|]. destruct (rc =? 0x8E); [exact (Stay _ H)|].
  destruct (rc =? 0x1AE); [exact (Stay _ H)|].
  destruct (rc =? 0x18). { destruct (bk_bv b <? 50); [|exact (Stay _ H)]. injection H as <- <-. split; [lia|]. split; [reflexivity|trivial]. }
  destruct (rc =? 0x92); [exact (Stay _ H)|]. destruct (rc =? 0x293); [exact (Stay _ H)|].
  injection H as <- <-. split; [lia|]. split; [reflexivity|trivial].
Qed.

(** Every sheet starts within the stream, or after it. *)
Definition ahead (b : book) : Prop := Forall (fun p => 0 <= p) (sl_posn (bk_sheets b)).

Lemma gstep_ahead : forall (b : book) m pos rc data b' p, gstep codec load b m pos rc data = Ok (b', p) -> rc <> 0x8f -> bk_bv b <> 45 ->
  (rc = 0x85 -> forall o, unpack_i32 data 0 = Ok o -> 0 <= o + bk_base b) -> ahead b -> ahead b' /\ bk_base b' = bk_base b /\ bk_bv b' = bk_bv b.
Proof.
  intros b m pos rc data b' p H N8 V O A. unfold ahead in *.
  destruct (Z.eq_dec rc 0x85) as [->|N1].
  { apply gstep_boundsheet in H as (bd & s & D & HB & -> & ->). destruct (derive_alike _ _ _ D) as ([D1 D2 D3 D4 D5] & _).
    split; [|split; [exact D2|exact D1]]. cbn [bk_sheets with_sheets]. unfold handle_boundsheet in HB. rewrite D1, D2, D3 in HB.
    apply bind_ok in HB as ([[[name vis] ty] ap] & HP & HB).
    assert (PA : 0 <= ap).
    { replace (bk_bv b =? 45) with false in HP by lia. apply bind_ok in HP as (? & _ & HP). apply bind_ok in HP as (o & HO & HP). apply bind_ok in HP as (? & _ & HP). apply bind_ok in HP as (? & _ & HP).
      apply bind_ok in HP as (? & _ & HP). injection HP as _ _ _ <-. exact (O eq_refl o HO). }
    destruct (negb (ty =? 0)); injection HB as <-; cbn [sl_posn]; [exact A|]. apply Forall_app. split; [exact A|]. constructor; [exact PA|constructor]. }
  destruct (Z.eq_dec rc 0x42) as [->|N2].
  { apply gstep_codepage in H as (c & _ & K1 & K2 & K3 & _). rewrite K1, K2, K3. auto. }
  destruct (gstep_alike _ _ _ _ _ _ _ _ _ H N1 N2 N8) as [K1 K2 K3 _ _]. rewrite K1, K2, K3. auto.
Qed.

Lemma globals_more : forall base fuel (b : book) pos b' p, 0 <= pos -> bk_bv b <> 45 -> bk_base b = base -> ahead b ->
  Forall (fun r : record => fst (fst r) <> 0x8F /\ (fst (fst r) = 0x85 -> forall o, unpack_i32 (snd r) 0 = Ok o -> 0 <= o + base)) (stream mem pos) ->
  globals codec ops lower load fuel b mem pos = Ok (b', p) -> globals codec ops lower load fuel b full pos = Ok (b', p) /\ ahead b' /\ bk_bv b' = bk_bv b.
Proof.
  intros base. induction fuel as [|f IH]; intros b pos b' p P V BB A F H; [discriminate|]. cbn [globals] in *.
  apply bind_ok in H as ([[[rc len] d] q] & G & H). destruct (parts_more mem t B _ _ _ _ _ P G) as (G1 & G2 & d' & G3 & G4).
  pose proof (stream_next mem pos B) as SN. rewrite G in SN. rewrite SN in F. inversion F as [|? ? [F1 F2] F3]; subst. cbn [fst snd] in F1, F2.
  rewrite G3, bind_Ok. destruct (rc =? 0x0a) eqn:E.
  - split; [exact H|]. apply bind_ok in H as (b1 & GE & H). injection H as -> _. destruct (globals_end_alike _ _ _ _ _ GE) as [K1 K2 K3 _ _]. unfold ahead. rewrite K1, K3. auto.
  - apply bind_ok in H as ([b1 q1] & S1 & H). destruct (gstep_more b q rc d b1 q1 ltac:(lia) F1 S1) as (M1 & M2 & M3).
    destruct (gstep_ahead _ _ _ _ _ _ _ S1 F1 V F2 A) as (A1 & A2 & A3).
    assert (L : q1 + 4 <= zlen mem).
    { destruct f as [|f']; [discriminate|]. cbn [globals] in H. apply bind_ok in H as ([[[rc2 len2] d2] q2] & G' & _).
      apply get_record_parts_bounds in G' as (_ & _ & G'); [exact G'|exact B]. }
    rewrite (G4 ltac:(lia)), (M2 ltac:(lia)), bind_Ok. rewrite <- A3. apply (IH b1 q1 b' p); [lia|congruence|congruence|exact A1|exact (M3 _ F3)|exact H].
Qed.

Lemma get_sheet_more : forall (b : book) i b' sh, 45 < bk_bv b -> ahead b -> get_sheet codec num8 rk ragged old b mem i = Ok (b', sh) ->
  get_sheet codec num8 rk ragged old b full i = Ok (b', sh) /\ ahead b' /\ bk_bv b' = bk_bv b.
Proof.
  intros b i b' sh V A H. unfold get_sheet in *. apply bind_ok in H as (pos & HP & H). rewrite HP. cbn [bind].
  assert (P : 0 <= pos). { unfold ahead in A. rewrite Forall_forall in A. apply A. exact (py_index_in _ _ _ _ HP). }
  apply bind_ok in H as ([v p] & HB & H). destruct (getbof_more mem t _ _ _ _ P HB) as (L & HB'). rewrite HB'. cbn [bind].
  apply bind_ok in H as (name & HN & H). rewrite HN. cbn [bind]. apply bind_ok in H as ([g s] & HL & H).
  assert (HL' : load b full p name i = Ok (g, s)).
  { unfold BookApi.load in *. replace (bk_bv b <=? 45) with false in * by lia. apply bind_ok in HL as (vis & HV & HL). rewrite HV. cbn [bind]. cbv zeta in *.
    apply bind_ok in HL as (s1 & HR & HL). rewrite (c103_sheet _ _ _ (records_of (S (2 * List.length full)) full p) s1 (records_more mem t B (S (2 * List.length mem)) (S (2 * List.length full)) p ltac:(rewrite app_length; lia) ltac:(lia)) HR). exact HL. }
  rewrite HL', bind_Ok. split; [exact H|]. apply bind_ok in H as (l & _ & H). injection H as <- _. split; [exact A|reflexivity].
Qed.

Lemma get_sheets_more : forall l (b b' : book), 45 < bk_bv b -> ahead b -> get_sheets_in codec num8 rk ragged old b mem l = Ok b' ->
  get_sheets_in codec num8 rk ragged old b full l = Ok b'.
Proof.
  induction l as [|i l IH]; intros b b' V A H; cbn [get_sheets_in] in *; [exact H|].
  apply bind_ok in H as ([b1 sh] & G & H). destruct (get_sheet_more _ _ _ _ V A G) as (G' & A' & V'). rewrite G', bind_Ok. apply IH; [lia|exact A'|exact H].
Qed.

Lemma get_sheets_known : forall l (b b' : book), 45 < bk_bv b -> ahead b -> get_sheets_in codec num8 rk ragged old b mem l = Ok b' ->
  bk_bv b' = bk_bv b /\ ahead b'.
Proof.
  induction l as [|i l IH]; intros b b' V A H; cbn [get_sheets_in] in *; [injection H as <-; auto|].
  apply bind_ok in H as ([b1 sh] & G & H). destruct (get_sheet_more _ _ _ _ V A G) as (_ & A' & V'). destruct (IH b1 b' ltac:(lia) A' H) as [I1 I2]. split; [congruence|exact I2].
Qed.

(** The same book, of the longer file. *)
Definition longer (a : api) : api := mk_api (a_book a) (match a_mem a with Some m => Some (m ++ t) | None => None end).
Definition known (a : api) : Prop := 45 < bk_bv (a_book a) /\ ahead (a_book a) /\ (a_mem a = None \/ a_mem a = Some mem).

Lemma open_stream_more : forall fuel base ov fmt od a, 0 <= base -> usual mem base ->
  open_stream codec ops lower num8 rk ragged old fuel mem base ov fmt od = Ok a ->
  open_stream codec ops lower num8 rk ragged old fuel full base ov fmt od = Ok (longer a) /\ known a /\ base + 8 <= zlen mem.
Proof.
  intros fuel base ov fmt od a P U H. unfold open_stream in *. apply bind_ok in H as ([bv pos] & GB & H).
  destruct (U _ _ GB) as [V F]. destruct (getbof_more mem t _ _ _ _ P GB) as (L & GB'). change XL_WORKBOOK_GLOBALS with 5 in *. rewrite GB', bind_Ok.
  apply bind_ok in H as ([] & H1 & H). rewrite H1, bind_Ok. apply bind_ok in H as ([] & H2 & H). rewrite H2, bind_Ok.
  apply bind_ok in H as (b & HB & H). rewrite HB, bind_Ok. replace (bv <=? 40) with false in * by lia. replace (bv =? 45) with false in * by lia.
  apply bind_ok in H as ([b1 q] & G & H).
  assert (B0 : bk_bv b = bv /\ bk_base b = base /\ ahead b). { unfold book0 in HB. apply bind_ok in HB as (f & _ & HB). injection HB as <-. repeat split. constructor. }
  destruct B0 as (B1 & B2 & B3). destruct (globals_more base fuel b pos b1 q ltac:(lia) ltac:(lia) B2 B3 F G) as (G' & A & V').
  rewrite G', bind_Ok. cbv zeta in *. destruct od.
  - injection H as <-. split; [reflexivity|]. split; [|lia]. split; [cbn; lia|]. split; [exact A|right; reflexivity].
  - apply bind_ok in H as (b2 & GS & H). injection H as <-.
    assert (V2 : 45 < bk_bv (with_list b1 (map (fun _ => None (A := loaded)) (sl_names (bk_sheets b1))))) by (cbn; lia).
    unfold get_sheets in *. rewrite (get_sheets_more _ _ _ V2 A GS), bind_Ok. split; [reflexivity|]. split; [|lia].
    assert (K : bk_bv b2 = bk_bv b1 /\ ahead b2).
    { exact (get_sheets_known _ _ _ V2 A GS). }
    destruct K as [K1 K2]. split; [cbn [a_book]; lia|]. split; [exact K2|left; reflexivity].
Qed.

Notation perform := (perform codec num8 rk ragged old).
Notation history := (history codec num8 rk ragged old).

Lemma m_get_sheet_more : forall after a i sh a', known a -> m_get_sheet codec num8 rk ragged old after a i = (Ok sh, a') ->
  m_get_sheet codec num8 rk ragged old after (longer a) i = (Ok sh, longer a') /\ known a'.
Proof.
  intros after a i sh a' (V & A & M) H. unfold m_get_sheet in *. destruct a as [b m]. cbn [a_book a_mem longer] in *. destruct M as [->| ->]; [discriminate|].
  destruct (get_sheet codec num8 rk ragged old b mem i) as [[b1 s1]|e] eqn:G; [|discriminate]. injection H as <- <-.
  destruct (get_sheet_more _ _ _ _ V A G) as (G' & A1 & V1). rewrite G'. split; [reflexivity|]. split; [cbn [a_book]; lia|]. split; [exact A1|right; reflexivity].
Qed.
Lemma by_index_more : forall after a i sh a', known a -> m_sheet_by_index codec num8 rk ragged old after a i = (Ok sh, a') ->
  m_sheet_by_index codec num8 rk ragged old after (longer a) i = (Ok sh, longer a') /\ known a'.
Proof.
  intros after a i sh a' K H. unfold m_sheet_by_index in *. cbn [longer a_book]. destruct (py_index (bk_list (a_book a)) i) as [[s|]|e]; [|exact (m_get_sheet_more _ _ _ _ _ K H)|discriminate].
  inversion H; subst. split; [reflexivity|exact K].
Qed.
Lemma iterate_more : forall after l a x a', known a -> m_iterate codec num8 rk ragged old after a l = (Ok x, a') ->
  m_iterate codec num8 rk ragged old after (longer a) l = (Ok x, longer a') /\ known a'.
Proof.
  intros after. induction l as [|i l IH]; intros a x a' K H; cbn [m_iterate] in *; [inversion H; subst; split; [reflexivity|exact K]|].
  destruct (m_sheet_by_index codec num8 rk ragged old after a i) as [[sh|e] a1] eqn:E; [|discriminate]. destruct (by_index_more _ _ _ _ _ K E) as [E' K1]. rewrite E'.
  destruct (m_iterate codec num8 rk ragged old after a1 l) as [[y|e] a2] eqn:E2; [|discriminate]. destruct (IH _ _ _ K1 E2) as [E2' K2]. rewrite E2'.
  injection H as <- <-. split; [reflexivity|exact K2].
Qed.
Lemma load_all_more : forall after l a x a', known a -> m_load_all codec num8 rk ragged old after a l = (Ok x, a') ->
  m_load_all codec num8 rk ragged old after (longer a) l = (Ok x, longer a') /\ known a'.
Proof.
  intros after. induction l as [|i l IH]; intros a x a' K H; cbn [m_load_all] in *; [inversion H; subst; split; [reflexivity|exact K]|].
  cbn [longer a_book]. destruct (py_index (bk_list (a_book a)) i) as [[s|]|e]; [exact (IH _ _ _ K H)| |discriminate].
  destruct (m_get_sheet codec num8 rk ragged old after a i) as [[sh|e] a1] eqn:E; [|discriminate]. destruct (m_get_sheet_more _ _ _ _ _ K E) as [E' K1].
  change (mk_api (a_book a) match a_mem a with Some m => Some (m ++ t) | None => None end) with (longer a). rewrite E'. exact (IH _ _ _ K1 H).
Qed.

Lemma perform_more : forall after a c x a', known a -> perform after a c = (Ok x, a') -> perform after (longer a) c = (Ok x, longer a') /\ known a'.
Proof.
  intros after a c x a' K H.
  assert (Got : forall i, got (m_sheet_by_index codec num8 rk ragged old after a i) = (Ok x, a') -> got (m_sheet_by_index codec num8 rk ragged old after (longer a) i) = (Ok x, longer a') /\ known a').
  { intros i G. unfold got in *. destruct (m_sheet_by_index codec num8 rk ragged old after a i) as [[sh|e] a1] eqn:E; [|discriminate]. destruct (by_index_more _ _ _ _ _ K E) as [E' K1]. rewrite E'.
    injection G as <- <-. split; [reflexivity|exact K1]. }
  assert (Un : forall i, m_unload a i = (Ok x, a') -> m_unload (longer a) i = (Ok x, longer a') /\ known a').
  { intros i G. unfold m_unload in *. cbn [longer a_book]. destruct (list_set (bk_list (a_book a)) i None) as [l|e]; [|discriminate]. injection G as <- <-. split; [reflexivity|exact K]. }
  unfold BookApi.perform in *. cbv zeta in *. change (a_book (longer a)) with (a_book a). change (nsheets (longer a)) with (nsheets a). destruct c as [i|nm| | |i|nm|i|nm|].
  - exact (Got i H).
  - destruct (index_of _ nm) as [i|e]; [|discriminate]. exact (Got i H).
  - destruct (m_load_all codec num8 rk ragged old after a _) as [[[]|e] a1] eqn:E; [|discriminate]. destruct (load_all_more _ _ _ _ _ K E) as [E' K1]. rewrite E'. injection H as <- <-. split; [reflexivity|exact K1].
  - destruct (m_iterate codec num8 rk ragged old after a _) as [[l|e] a1] eqn:E; [|discriminate]. destruct (iterate_more _ _ _ _ _ K E) as [E' K1]. rewrite E'. injection H as <- <-. split; [reflexivity|exact K1].
  - change (m_loaded (longer a) i) with (m_loaded a i). injection H as -> <-. split; [reflexivity|exact K].
  - destruct (index_of _ nm) as [i|e]; [|discriminate]. change (m_loaded (longer a) i) with (m_loaded a i). injection H as -> <-. split; [reflexivity|exact K].
  - exact (Un i H).
  - destruct (index_of _ nm) as [i|e]; [|discriminate]. exact (Un i H).
  - injection H as <- <-. split; [reflexivity|]. destruct K as (K1 & K2 & _). split; [exact K1|]. split; [exact K2|left; reflexivity].
Qed.

Lemma history_more : forall h a, known a -> Forall (fun r => exists x, r = Ok x) (fst (history a h)) -> fst (history (longer a) h) = fst (history a h).
Proof.
  induction h as [|[c after] h IH]; intros a K F; [reflexivity|]. cbn [BookApi.history] in *.
  destruct (perform after a c) as [r a1] eqn:E. destruct (history a1 h) as [rs a2] eqn:E2. cbn [fst] in F. inversion F as [|? ? [x ->] F2]; subst.
  destruct (perform_more _ _ _ _ _ K E) as [E' K1]. rewrite E'. specialize (IH a1 K1). rewrite E2 in IH. cbn [fst] in IH. specialize (IH F2).
  destruct (history (longer a1) h) as [rs' a3]. cbn [fst] in *. rewrite IH. reflexivity.
Qed.
End Book.

(** ** The theorems *)

Section Theorems.
Context {N : Type}.
Variable codec : list Z -> list Z -> result (list Z).
Variable ops : numops N.
Variable lower : list Z -> list Z.
Variable num8 : list Z -> N.
Variable rk : list Z -> result N.
Variable ragged : bool.
Notation loaded := (loaded (N := N)).
Notation book := (book N loaded).
Variable old : book -> list Z -> Z -> list Z -> Z -> result (shared * loaded).
Notation open_workbook_xls := (open_workbook_xls codec ops lower num8 rk ragged old).
Notation history := (history codec num8 rk ragged old).

(** A file [mem] that opens is, whatever follows in [mem ++ rest], not a part of a file that
    shows something else: the whole file opens, and every call gives the same on both as
    long as none fails on the shorter one. *)
Theorem c103_cut_off : forall fuel depth mem rest ov fmt on_demand ignore a,
  bytes mem -> py_slice mem 0 8 <> SIGNATURE -> usual mem 0 ->
  open_workbook_xls fuel depth mem ov fmt on_demand ignore = Ok a ->
  exists a', open_workbook_xls fuel depth (mem ++ rest) ov fmt on_demand ignore = Ok a' /\ a_book a' = a_book a /\
    forall h, Forall (fun r => exists x, r = Ok x) (fst (history a h)) -> fst (history a' h) = fst (history a h).
Proof.
  intros fuel depth mem rest ov fmt od ignore a B S0 U H. unfold BookApi.open_workbook_xls in *.
  apply bind_ok in H as ([] & Z0 & H). apply bind_ok in H as ([m base] & FS & H).
  assert (FM : m = mem /\ base = 0). { unfold find_stream in FS. rewrite (list_eqb_ne _ _ S0) in FS. cbn [negb] in FS. injection FS as <- <-. auto. }
  destruct FM as [-> ->]. destruct (open_stream_more codec ops lower num8 rk ragged old mem rest B fuel 0 ov fmt od a (Z.le_refl 0) U H) as (O & K & L).
  exists (longer rest a). split; [|split; [reflexivity|]].
  - pose proof (zlen_nonneg rest). rewrite zlen_app. replace (zlen mem + zlen rest =? 0) with false by lia. cbn [negb guard bind].
    unfold find_stream. rewrite (slice_kept mem rest 0 8), (list_eqb_ne _ _ S0) by lia. exact O.
  - intros h F. eapply history_more; [exact lower|exact B|exact K|exact F].
Qed.
End Theorems.
Print Assumptions c103_cut_off.

Example c103_hypotheses :
  bytes Small.file /\ py_slice Small.file 0 8 <> SIGNATURE /\ usual Small.file 0 /\
  match open_workbook_xls (fun _ b => Ok b) int_ops ascii_low le_val (fun b => Ok (le_val b)) false (fun _ _ _ _ _ => Err XLRDError) 50 2 Small.file None true true false with
  | Ok a => Forall (fun r => exists x, r = Ok x) (fst (history (fun _ b => Ok b) le_val (fun b => Ok (le_val b)) false (fun _ _ _ _ _ => Err XLRDError) a [(SheetByIndex (-1), (0, 0))])) /\
            (** Without its last byte the sheet cannot be read. *)
            fst (perform (fun _ b => Ok b) le_val (fun b => Ok (le_val b)) false (fun _ _ _ _ _ => Err XLRDError) (0, 0)
                   (mk_api (a_book a) (Some (firstn (List.length Small.file - 1) Small.file))) (SheetByIndex (-1))) = Err StructError
  | Err _ => False
  end.
Proof.
  split; [apply bytes_check; vm_compute; reflexivity|]. split; [vm_compute; discriminate|]. split.
  { intros bv pos H. assert (E : getbof Small.file 0 5 = Ok (80, 12)) by (vm_compute; reflexivity). rewrite E in H. injection H as <- <-. split; [lia|].
    apply Forall_forall. intros [[rc len] d] I. vm_compute in I.
    repeat (destruct I as [I|I]; [injection I as <- <- <-; split; [discriminate|]; intros X; try discriminate X; intros o O; vm_compute in O; injection O as <-; discriminate|]). destruct I. }
  vm_compute. split; [constructor; [eexists; reflexivity|constructor]|reflexivity].
Qed.

(** In a compound document the parts of the workbook can be in any order.  The workbook of
    this file is in its sectors 5, 7 and 6.  Without the end of sector 7, the last of the file,
    the parts that are left make up a workbook with one row instead of two.  (xlrd says in
    its log that the file is not a whole number of sectors.) *)
Module Shuffled.
Definition start : list Z :=
  frame (Small.bof 5) ++ frame (0x85, fixed_part (mk_entry 29 0 0 (s2l "S")) ++ us_field 1 (Small.plain (s2l "S"))) ++ frame (0x0a, []) ++
  frame (Small.bof 0x10) ++ frame (0x27e, [0; 0; 0; 0; 0; 0; 1; 0; 0; 0]) ++ frame (0xfff, repeat 0 5).
Definition middle : list Z := frame (0xfff, repeat 0 46).
Definition row : list Z := frame (0x27e, [1; 0; 0; 0; 0; 0; 2; 0; 0; 0]).
Definition finish : list Z := Stored.pad 64 (frame (0x0a, [])).
Definition stream : dirnode := mk_dirnode 1 (s2l "Workbook") 2 (-1) (-1) (-1) 5 192.
Definition sat : list Z := [-3; 2; 3; 4; -2; 7; -2; 6; -1; -1; -1; -1; -1; -1; -1; -1].
Definition without_last : list Z := Eval vm_compute in
  Stored.header ++ flat_map i32_enc sat ++ Stored.entry Stored.root ++ Stored.entry stream ++ start ++ finish ++ middle.
End Shuffled.

Theorem c103_compound_refuted : exists mem rest,
  let rows file :=
    match open_workbook_xls (fun _ b => Ok b) int_ops ascii_low le_val (fun b => Ok (le_val b)) false (fun _ _ _ _ _ => Err XLRDError) 2000 2 file None false false false with
    | Ok a => Ok (map (fun o => match o with Some sh => g_nrows (sh_grid (ls_sheet sh)) | None => -1 end) (bk_list (a_book a)))
    | Err e => Err e
    end in
  rows mem = Ok [1] /\ rows (mem ++ rest) = Ok [2].
Proof. exists Shuffled.without_last, Shuffled.row. cbv zeta. split; vm_compute; reflexivity. Qed.
Print Assumptions c103_compound_refuted.
