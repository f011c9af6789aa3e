(** Lemmas about BookModel.v: the strings, formats and encoding of the book after the globals,
    in terms of the specification in BookFormats.v. *)
From Verif Require Import Base BaseFacts Text Strings Utf16 StringFacts PropBytes Framing GridModel GridFacts SheetObjects SheetModel SheetSteps SstModel PropSst FormatModel
  FormatFacts PropFormat PropNumType FormulaModel BookModel BookFacts PropEnc BookSheets BookRefs BookContent BookFormats.

Section Follow.
Variable codec : list Z -> list Z -> result (list Z).
Context {N SH : Type}.
Notation book := (book N SH).
Variable load : book -> list Z -> Z -> list Z -> Z -> result (shared * SH).

Lemma gstep_sst : forall (b : book) mem pos data b' p, gstep codec load b mem pos 0xfc data = Ok (b', p) ->
  exists st ru, handle_sst mem pos data = Ok (st, ru, p) /\ b' = with_sst b st (if b_fmt (bk_fmt b) then ru else bk_rich b).
Proof.
  intros b mem pos data b' p H. cbv beta iota zeta delta [gstep] in H. change (252 =? 252) with true in H. cbv iota in H.
  apply bind_ok in H as ([[st ru] po] & E & H). injection H as <- <-. eauto.
Qed.

Lemma formats_drop : forall bv ov cs cp rs es, Forall (fun r => noncont r = false) cs -> formats codec bv ov cp (cs ++ rs) es -> formats codec bv ov cp rs es.
Proof.
  intros bv ov cs cp rs es F. induction F as [|[rc d] cs C F IH]; intros L; [exact L|]. cbn [app] in L.
  unfold noncont in C. cbn [fst] in C. inversion L; subst; try lia; auto.
Qed.
Lemma page_drop : forall cs cp rs cp', Forall (fun r => noncont r = false) cs -> page cp (cs ++ rs) cp' -> page cp rs cp'.
Proof.
  intros cs cp rs cp' F. induction F as [|[rc d] cs C F IH]; intros L; [exact L|]. cbn [app] in L.
  unfold noncont in C. cbn [fst] in C. inversion L; subst; try lia; auto.
Qed.

Lemma page_page : forall cp n extra rs cp', u16v n -> page cp ((0x42, le_enc 2 n ++ extra) :: rs) cp' -> page (Some n) rs cp'.
Proof.
  intros cp n extra rs cp' H P. remember ((0x42, le_enc 2 n ++ extra) :: rs) as l eqn:E. destruct P as [cp|cp n2 extra2 rs2 cp' H2 P|cp rc d rs2 cp' H2 P].
  - discriminate.
  - pose proof (f_equal (@List.tl _) E) as ET. cbn [List.tl] in ET. subst rs2.
    pose proof (f_equal (fun l => match l with x :: _ => unpack_u16 (snd x) 0 | [] => Ok 0 end) E) as EH. cbv beta iota in EH. cbn [snd] in EH.
    rewrite (At_u16 _ extra n 0 (At_0 _) H), (At_u16 _ extra2 n2 0 (At_0 _) H2) in EH. injection EH as ->. exact P.
  - exfalso. apply H2. exact (f_equal (fun l => match l with x :: _ => fst x | [] => 0 end) E).
Qed.

(** The SST record still to come, or read. *)
Definition awaiting (ss : Z * list Z) (conts after : list (Z * list Z)) (rs : list (Z * list Z)) : Prop :=
  exists before, rs = before ++ ss :: conts ++ after.
Definition held (ts : list (list Z)) (runs : list (Z * list (Z * Z))) (b : book) (rs : list (Z * list Z)) : Prop :=
  (forall d, ~ In (0xfc, d) rs) /\ bk_sst b = ts /\ bk_rich b = if b_fmt (bk_fmt b) then runs else [].

Lemma sst_step : forall tot l ts tl after mem d post b pos rc data b' p cs rs',
  (forall d, ~ In (0xfc, d) after) -> (match after with (rc, _) :: _ => rc <> 0x3c | [] => True end) ->
  Forall (fun sb => ss_form (fst sb)) l -> seps_ok l -> Forall2 (fun sb t => ss_holds (fst sb) t) l ts -> zlen l < 2 ^ 31 ->
  let ss := (0xfc, fst (sst_records tot l tl)) in let conts := map (pair 0x3c) (snd (sst_records tot l tl)) in
  let runs := runs_from 0 (map fst l) in
  zlen d < 65536 -> Forall framable (cs ++ rs') -> At mem pos (frames (cs ++ rs') ++ frame (0x0a, d) ++ post) ->
  gstep codec load b mem pos rc data = Ok (b', p) -> rc <> 0x8f -> enc_inv b -> Forall (fun r => noncont r = false) cs ->
  (b_fmt (bk_fmt b) = false -> bk_rich b = []) -> b_fmt (bk_fmt b') = b_fmt (bk_fmt b) ->
  awaiting ss conts after ((rc, data) :: cs ++ rs') \/ held ts runs b ((rc, data) :: cs ++ rs') ->
  awaiting ss conts after rs' \/ held ts runs b' rs'.
Proof.
  intros tot l ts tl after mem d post b pos rc data b' p cs rs' NO NC FO SE HO LE ss conts runs LD FR A G N8 I C RI BF H.
  destruct (gstep_effect _ _ _ _ _ _ _ _ _ G N8 I) as (_ & K & _).
  destruct H as [(before & E)|(H1 & H2 & H3)].
  - destruct before as [|r0 before].
    + cbn [app] in E. pose proof (f_equal (@List.tl _) E) as ET. cbn [List.tl] in ET.
      pose proof (f_equal (fun l => match l with x :: _ => x | [] => (0, []) end) E) as EH. cbv beta iota in EH. clear E.
      assert (rc = 252) as -> by exact (f_equal fst EH). assert (data = fst (sst_records tot l tl)) as -> by exact (f_equal snd EH).
      clear EH. rename ET into E. right.
      apply gstep_sst in G as (st & ru & HS & ->).
      assert (AA : exists pre next post', mem = pre ++ frames conts ++ frame next ++ post' /\ zlen pre = pos /\ framable next /\ fst next <> 60).
      { destruct A as (pre & EM & EP). rewrite E in EM, FR. destruct after as [|[rn dn] after].
        - exists pre, (0x0a, d), post. rewrite app_nil_r in EM. split; [exact EM|]. split; [symmetry; exact EP|]. split; [split; cbn; lia|cbn; lia].
        - exists pre, (rn, dn), (frames after ++ frame (0x0a, d) ++ post). split.
          + rewrite EM. unfold frames. rewrite flat_map_app. cbn [flat_map]. rewrite <- !app_assoc. reflexivity.
          + split; [symmetry; exact EP|]. apply Forall_app in FR as [_ FR]. inversion FR; subst. split; [assumption|exact NC]. }
      destruct AA as (pre & next & post' & EM & EP & FN & NN).
      assert (HB : Forall (fun d => zlen d < 65536) (snd (sst_records tot l tl))).
      { rewrite E in FR. apply Forall_app in FR as [FR _]. unfold conts in FR. rewrite Forall_map in FR. eapply Forall_impl; [|exact FR]. intros x [_ X]. exact X. }
      pose proof (c16_sst_split_transparent tot l ts tl pre next post' FO SE HO LE HB FN NN) as Q. cbv zeta in Q. fold conts in Q.
      rewrite <- EM, EP, HS in Q. injection Q as -> -> _.
      split; [|split].
      * intros d0 X. assert (Y : In (252, d0) (conts ++ after)) by (rewrite <- E; apply in_or_app; right; exact X).
        apply in_app_or in Y as [Y|Y]; [|exact (NO _ Y)]. unfold conts in Y. apply in_map_iff in Y as (? & Y & _). discriminate.
      * reflexivity.
      * cbn [bk_rich with_sst]. rewrite BF. destruct (b_fmt (bk_fmt b)) eqn:X; [reflexivity|]. apply RI. reflexivity.
    + cbn [app] in E. injection E as _ E. left.
      assert (Q : forall bf c, Forall (fun r => noncont r = false) c -> c ++ rs' = bf ++ ss :: conts ++ after -> exists bf', rs' = bf' ++ ss :: conts ++ after).
      { clear. induction bf as [|x bf IH]; intros c F E.
        - destruct c as [|y c]; [exists []; exact E|]. cbn [app] in E. injection E as -> E. inversion F as [|? ? X _]; subst. discriminate.
        - destruct c as [|y c]; [exists (x :: bf); exact E|]. cbn [app] in E. injection E as -> E. inversion F; subst. eapply IH; eassumption. }
      exact (Q _ _ C E).
  - right. assert (rc <> 252) as NF by (intros ->; apply (H1 data); left; reflexivity).
    destruct (K NF) as [K1 K2]. split; [|split].
    + intros d0 X. apply (H1 d0). right. apply in_or_app. right. exact X.
    + congruence.
    + rewrite BF. congruence.
Qed.

Variable ops : numops N.
Variable lower : list Z -> list Z.

Lemma palette_keeps : forall f, b_fmt (palette_epilogue f) = b_fmt f /\ b_xftype (palette_epilogue f) = b_xftype f.
Proof.
  intros f. unfold palette_epilogue. generalize (b_fonts f). intros l. revert f. induction l as [|x l IH]; intros f; [auto|]. cbn [fold_left].
  destruct (IH (if fo_index x =? 4 then f else if fo_colour_index x =? 32767 then f else mark f (fo_colour_index x))) as [-> ->].
  destruct (fo_index x =? 4); [auto|]. destruct (fo_colour_index x =? 32767); [auto|]. unfold mark. destruct (dget _ _ _); split; reflexivity.
Qed.

Lemma frun_one : forall fs f0 f d r f', frun f0 fs = Ok f -> fstep d f r = Ok f' -> frun f0 (fs ++ [(d, r)]) = Ok f'.
Proof. intros fs f0 f d r f' H S. rewrite frun_app, H, bind_Ok. cbn [frun]. rewrite S. reflexivity. Qed.

Lemma format_body_says : forall bv ov cp k s d (b : book), 50 <= bv -> bk_bv b = bv -> en_override (bk_enc b) = ov -> (bv < 80 -> cp = en_codepage (bk_enc b)) ->
  encoded b -> format_body codec bv ov cp k s d -> forall n, says bv n (unicode codec (en_encoding (bk_enc b)), d, false) k s.
Proof.
  intros bv ov cp k s d b V BV OV CP E H n. unfold says. cbn [orb]. replace (bv <=? 30) with false by lia. replace (bv <? 50) with false by lia.
  destruct H as [u extra V8 K UO UU UT|raw extra enc V8 K RL EF CD].
  - replace (bv <? 80) with false by lia. split; [exact (At_u16 _ _ _ 0 (At_0 _) K)|].
    rewrite <- UT. exact (c13_unpack_unicode u 2 (le_enc 2 k) extra UO (or_intror eq_refl) UU).
  - replace (bv <? 80) with true by lia. split; [exact (At_u16 _ _ _ 0 (At_0 _) K)|].
    assert (A : At (le_enc 2 k ++ zlen raw :: raw ++ extra) 2 (zlen raw :: raw ++ extra)) by (exists (le_enc 2 k); auto).
    unfold unpack_string. pose proof (zlen_nonneg raw).
    assert (unpack_le 1 (le_enc 2 k ++ zlen raw :: raw ++ extra) 2 = Ok (zlen raw)) as ->.
    { apply (At_le _ (raw ++ extra) 1 (zlen raw)); [|reflexivity|split; [lia|]; exact RL]. change (le_enc 1 (zlen raw)) with [zlen raw mod 256]. rewrite (Z.mod_small (zlen raw)) by lia. exact A. }
    rewrite bind_Ok. cbv zeta. pose proof (At_skip1 _ _ _ _ (2 + 1) A eq_refl) as A2.
    rewrite (At_slice _ _ _ _ (2 + 1 + zlen raw) A2 eq_refl). assert (V9 : bk_bv b < 80) by (rewrite BV; exact V8). rewrite (E V9 enc); [exact CD|]. rewrite BV, OV, <- CP by exact V8. exact EF.
Qed.

Lemma globals_say : forall fuel mem rs d post base bv fmt ov b0 pos b' p' es cp ts runs,
  book0 bv base fmt ov = Ok b0 -> 50 <= bv ->
  Forall framable rs -> zlen d < 65536 -> At mem pos (frames rs ++ frame (0x0a, d) ++ post) -> Forall (fun r => fst r <> 0x0a /\ fst r <> 0x8f) rs ->
  globals codec ops lower load fuel b0 mem pos = Ok (b', p') ->
  formats codec bv ov None rs es -> page None rs cp -> strings rs ts runs ->
  bk_bv b' = bv /\ b_fmt (bk_fmt b') = fmt /\ bk_sst b' = ts /\ bk_rich b' = (if fmt then runs else []) /\
  (bv < 80 -> forall e, encoding_for bv ov cp e -> en_encoding (bk_enc b') = Some e) /\
  (forall xf t, number_type es xf t -> dget Z.eqb (b_xftype (bk_fmt b')) xf = Some t).
Proof.
  intros fuel mem rs d post base bv fmt ov b0 pos b' p' es cp ts runs B0 V FR LD A NE G FS PG ST.
  unfold book0 in B0. apply bind_ok in B0 as (f0 & F0 & B0).
  assert (FM : forall fs f, frun f0 fs = Ok f -> b_fmt f = fmt) by (intros fs f R; exact (proj1 (xf_inv_run _ _ _ _ _ F0 R))).
  assert (SSX : exists SS : book -> list (Z * list Z) -> Prop,
    SS b0 rs /\ (forall b, SS b [] -> bk_sst b = ts /\ bk_rich b = if b_fmt (bk_fmt b) then runs else []) /\
    (forall b pos rc data b' p cs rs', Forall framable (cs ++ rs') -> At mem pos (frames (cs ++ rs') ++ frame (0x0a, d) ++ post) ->
      gstep codec load b mem pos rc data = Ok (b', p) -> rc <> 0x8f -> enc_inv b -> Forall (fun r => noncont r = false) cs ->
      (b_fmt (bk_fmt b) = false -> bk_rich b = []) -> b_fmt (bk_fmt b') = b_fmt (bk_fmt b) ->
      SS b ((rc, data) :: cs ++ rs') -> SS b' rs')).
  { destruct ST as [NO|before tot l ts tl after E NO NC FO SE HO LE].
    - exists (held [] []). split; [|split].
      + injection B0 as <-. split; [exact NO|]. split; [reflexivity|]. cbn. destruct (b_fmt f0); reflexivity.
      + intros b (_ & H1 & H2). auto.
      + intros b pos0 rc data b1 p cs rs' _ _ G1 N8 I C RI BF (H1 & H2 & H3). destruct (gstep_effect _ _ _ _ _ _ _ _ _ G1 N8 I) as (_ & K & _).
        assert (rc <> 252) as NF by (intros ->; apply (H1 data); left; reflexivity).
        destruct (K NF) as [K1 K2]. split; [|split].
        * intros d0 X. apply (H1 d0). right. apply in_or_app. right. exact X.
        * congruence.
        * rewrite BF. congruence.
    - exists (fun b r => awaiting (252, fst (sst_records tot l tl)) (map (pair 60) (snd (sst_records tot l tl))) after r \/ held ts (runs_from 0 (map fst l)) b r).
      split; [|split].
      + left. exists before. exact E.
      + intros b [(bf & X)|(_ & H1 & H2)]; [destruct bf; discriminate|auto].
      + intros b pos0 rc data b1 p cs rs' FR1 A1 G1 N8 I C RI BF H. eapply sst_step; eassumption. }
  destruct SSX as (SS & S0 & S1 & S2).
  pose (P := fun (b : book) (rs : list (Z * list Z)) => bk_bv b = bv /\ en_override (bk_enc b) = ov /\ enc_inv b /\ SS b rs /\
    (b_fmt (bk_fmt b) = false -> bk_rich b = []) /\
    exists cpn esd est fs, (bv < 80 -> cpn = en_codepage (bk_enc b)) /\ es = esd ++ est /\ formats codec bv ov cpn rs est /\ page cpn rs cp /\
      frun f0 fs = Ok (bk_fmt b) /\ agree bv fs esd).
  destruct (globals_walk codec load ops lower P mem d post LD) with (fuel := fuel) (rs := rs) (b := b0) (pos := pos) (b' := b') (p' := p')
    as (bl & PL & GE); auto.
  - clear G A FR NE FS PG B0 S0 S1 ST. intros b pos1 rc data rs1 b1 p cs rs' (BV & OV & EI & SB & RI & cpn & esd & est & fs & CP & E & F & PG & R & AG) -> FR A N1 N2 G C.
    destruct (gstep_effect _ _ _ _ _ _ _ _ _ G N2 EI) as (EI' & KS & KF).
    pose proof (gstep_version _ _ _ _ _ _ _ _ _ G N2) as V1.
    assert (BF : b_fmt (bk_fmt b1) = b_fmt (bk_fmt b)).
    { destruct (frec rc data) as [r|]; [|rewrite KF; reflexivity]. destruct KF as [KF _]. exact (proj1 (proj2 (step_frame _ _ _ _ KF))). }
    pose proof (S2 _ _ _ _ _ _ _ _ FR A G N2 EI C RI BF SB) as SB'.
    assert (RI' : b_fmt (bk_fmt b1) = false -> bk_rich b1 = []).
    { rewrite BF. intros X. destruct (Z.eq_dec rc 252) as [->|NF].
      - apply gstep_sst in G as (st & ru & _ & ->). cbn [bk_rich with_sst]. rewrite X. apply RI. exact X.
      - rewrite (proj2 (KS NF)). apply RI. exact X. }
    assert (Oth : rc <> 0x42 -> en_override (bk_enc b1) = ov /\ (bv < 80 -> cpn = en_codepage (bk_enc b1))).
    { intros X. destruct (gstep_page _ _ _ _ _ _ _ _ _ G N2 X) as [O1 O2]. rewrite BV in O2. split; [congruence|]. intros Y. rewrite (O2 Y). auto. }
    split; [congruence|].
    inversion F as [|? d1 k s rs2 es2 FB F2|? d1 k rs2 es2 XB F2|? n extra rs2 es2 NN F2|? ? ? rs2 es2 M1 M2 M3 F2]; subst.
    + destruct (Oth ltac:(lia)) as [O1 O2]. split; [exact O1|]. split; [exact EI'|]. split; [exact SB'|]. split; [exact RI'|].
      change (frec 1054 data) with (Some (RFormat data false)) in KF. destruct KF as [KF EN].
      exists cpn, (esd ++ [Defines k s]), es2, (fs ++ [(unicode codec (en_encoding (bk_enc b1)), RFormat data false)]).
      split; [exact O2|]. split; [rewrite <- app_assoc; reflexivity|]. split; [eapply formats_drop; eassumption|].
      split; [inversion PG; subst; try lia; eapply page_drop; eassumption|]. split; [eapply frun_one; eassumption|].
      apply A_format; [exact AG|]. eapply format_body_says; [exact V|congruence|exact O1|exact O2|exact EN|exact FB].
    + destruct (Oth ltac:(lia)) as [O1 O2]. split; [exact O1|]. split; [exact EI'|]. split; [exact SB'|]. split; [exact RI'|].
      change (frec 224 data) with (Some (RXf data)) in KF. destruct KF as [KF _].
      exists cpn, (esd ++ [Uses k]), es2, (fs ++ [(unicode codec (en_encoding (bk_enc b1)), RXf data)]).
      split; [exact O2|]. split; [rewrite <- app_assoc; reflexivity|]. split; [eapply formats_drop; eassumption|].
      split; [inversion PG; subst; try lia; eapply page_drop; eassumption|]. split; [eapply frun_one; eassumption|].
      apply A_xf; [exact AG|]. destruct XB as (KU & font & rest & LF & ->).
      apply (At_u16 _ rest k 2); [|exact KU]. exists font. split; [reflexivity|symmetry; exact LF].
    + change (frec 66 (le_enc 2 n ++ extra)) with (@None frecord) in KF.
      apply gstep_codepage in G as (c & U & K1 & K2 & K3 & K4 & K5).
      assert (Ok c = Ok n) as Q by (rewrite <- U; exact (At_u16 _ extra n 0 (At_0 _) NN)). injection Q as ->.
      split; [congruence|]. split; [exact EI'|]. split; [exact SB'|]. split; [exact RI'|].
      exists (Some n), esd, est, fs. split; [intros X; rewrite K5 by lia; reflexivity|]. split; [reflexivity|].
      split; [eapply formats_drop; eassumption|].
      split; [exact (page_drop _ _ _ _ C (page_page _ _ _ _ _ NN PG))|].
      split; [rewrite KF; exact R|exact AG].
    + destruct (Oth M3) as [O1 O2]. split; [exact O1|]. split; [exact EI'|]. split; [exact SB'|]. split; [exact RI'|].
      destruct (frec rc data) as [r|] eqn:FX.
      * destruct KF as [KF _]. exists cpn, esd, est, (fs ++ [(unicode codec (en_encoding (bk_enc b1)), r)]).
        split; [exact O2|]. split; [reflexivity|]. split; [eapply formats_drop; eassumption|].
        split; [inversion PG; subst; try lia; eapply page_drop; eassumption|]. split; [eapply frun_one; eassumption|].
        apply A_other; [exact AG|]. unfold frec in FX. replace (rc =? 0x41e) with false in FX by lia. replace (rc =? 0xe0) with false in FX by lia.
        repeat match type of FX with (if ?c then _ else _) = _ => destruct c end; try discriminate; injection FX as <-; exact Logic.I.
      * exists cpn, esd, est, fs. split; [exact O2|]. split; [reflexivity|]. split; [eapply formats_drop; eassumption|].
        split; [inversion PG; subst; try lia; eapply page_drop; eassumption|]. split; [rewrite KF; exact R|exact AG].
  - injection B0 as <-. split; [reflexivity|]. split; [reflexivity|]. split; [intros _; left; reflexivity|]. split; [exact S0|]. split; [reflexivity|].
    exists None, [], es, []. split; [reflexivity|]. split; [reflexivity|]. split; [exact FS|]. split; [exact PG|]. split; [reflexivity|constructor].
  - destruct PL as (BV & OV & EI & SB & RI & cpn & esd & est & fs & CP & E & F & PG' & R & AG).
    inversion F; subst est. assert (cpn = cp) as -> by (inversion PG'; reflexivity). rewrite app_nil_r in E. subst esd.
    destruct (globals_end_effect _ _ _ _ _ GE EI) as (EN & G1 & G2 & G3). destruct (globals_end_alike _ _ _ _ _ GE) as [K1 K2 K3 K4 K5].
    destruct (S1 _ SB) as [T1 T2]. rewrite (FM _ _ R) in T2.
    split; [congruence|]. split. { rewrite G3, <- (FM _ _ R), (proj1 (palette_keeps _)). reflexivity. }
    split; [congruence|]. split; [congruence|]. split.
    + intros V8 e EF. apply EN; [lia|]. rewrite K1, K4, K5, BV, OV, <- CP by lia. exact EF.
    + intros xf t T. pose proof (types_of bv V _ _ _ _ _ _ _ F0 R AG T) as Q. unfold book_types in Q. rewrite <- Q, G3, (proj2 (palette_keeps _)). reflexivity.
Qed.
End Follow.
