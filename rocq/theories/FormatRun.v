(** The formatting records of the globals, each with the text encoding in force where it
    stands, and what they leave in an opened workbook. *)
From Verif Require Import Base BaseFacts Text Strings Utf16 StringFacts PropBytes Framing GridModel GridFacts SheetObjects SheetModel SstModel FormatModel
  FormatFacts PropFormat FormulaModel BookModel BookApi BookFacts BookHistory PropEnc BookSheets BookRefs BookContent BookFormats BookFollow SheetSteps PropSheetList.

(** [formatting codec bv ov cp rs fs]: of the records [rs], read when the codepage is [cp],
    [fs] are those with formatting information.  BIFF8 files do not use the codepage. *)
Inductive formatting (codec : list Z -> list Z -> result (list Z)) (bv : Z) (ov : option (list Z)) : option Z -> list (Z * list Z) -> files -> Prop :=
  | F_end : forall cp, formatting codec bv ov cp [] []
  | F_page : forall cp n extra rs fs, u16v n -> formatting codec bv ov (Some n) rs fs ->
      formatting codec bv ov cp ((0x42, le_enc 2 n ++ extra) :: rs) fs
  | F_record : forall cp rc data r e rs fs, frec rc data = Some r -> (bv < 80 -> encoding_for bv ov cp e) ->
      formatting codec bv ov cp rs fs -> formatting codec bv ov cp ((rc, data) :: rs) ((codec e, r) :: fs)
  | F_other : forall cp rc data rs fs, frec rc data = None -> rc <> 0x42 ->
      formatting codec bv ov cp rs fs -> formatting codec bv ov cp ((rc, data) :: rs) fs.

(** A step that decodes nothing is the same with every decoder. *)
Lemma undecoded : forall (d d' : decoder) f r f', (forall s, exists e, d s = Err e) -> fstep d f r = Ok f' -> fstep d' f r = Ok f'.
Proof.
  intros d d' f r f' ER H.
  assert (US : forall data pos n s, unpack_string d data pos n = Ok s -> False).
  { intros data pos n s X. unfold unpack_string in X. apply bind_ok in X as (k & _ & X). cbv zeta in X.
    destruct (ER (py_slice data (pos + n) (pos + n + k))) as (e & E). congruence. }
  destruct r as [data|data|data f2|data|data|data]; cbn [fstep] in *; try exact H.
  - assert (RF : forall bv k x, read_font d bv k data = Ok x -> read_font d' bv k data = Ok x).
    { intros bv k x R. unfold read_font in *. destruct (bv >=? 50); [destruct (bv >=? 80)|destruct (bv >=? 30)].
      - exact R.
      - exfalso. do 9 (apply bind_ok in R as (? & _ & R)). apply bind_ok in R as (? & U & _). exact (US _ _ _ _ U).
      - exfalso. do 4 (apply bind_ok in R as (? & _ & R)). apply bind_ok in R as (? & U & _). exact (US _ _ _ _ U).
      - exfalso. do 3 (apply bind_ok in R as (? & _ & R)). apply bind_ok in R as (? & U & _). exact (US _ _ _ _ U). }
    unfold handle_font in *. destruct (negb (b_fmt f)); [exact H|]. cbv zeta in *.
    apply bind_ok in H as (x & R & H). rewrite (RF _ _ _ R). exact H.
  - unfold handle_format in *. cbv zeta in *. apply bind_ok in H as (k & K & H). rewrite K, bind_Ok.
    match type of H with context [if ?c >=? 80 then _ else _] => destruct (c >=? 80) end; [exact H|].
    exfalso. apply bind_ok in H as (? & U & _). exact (US _ _ _ _ U).
  - unfold handle_style in *. destruct (negb (b_fmt f)); [exact H|]. apply bind_ok in H as (? & E1 & H). rewrite E1, bind_Ok.
    apply bind_ok in H as (w & E2 & H). rewrite E2, bind_Ok. apply bind_ok in H as (i & E3 & H). rewrite E3, bind_Ok.
    apply bind_ok in H as (l & E4 & H). rewrite E4, bind_Ok. cbv zeta in *.
    destruct (_ && _); [exact H|]. destruct (Z.testbit w 15); [exact H|]. destruct (b_bv f >=? 80); [exact H|].
    exfalso. apply bind_ok in H as (? & U & _). apply bind_ok in U as (? & U & _). exact (US _ _ _ _ U).
Qed.

Lemma biff8_undecoded : forall (d d' : decoder) f rc data r, frec rc data = Some r -> 80 <= b_bv f -> fstep d f r = fstep d' f r.
Proof.
  intros d d' f rc data0 r Q V. assert (X : b_bv f >=? 80 = true) by lia. unfold frec in Q.
  repeat match type of Q with (if ?c then _ else _) = _ => destruct c end; try discriminate; injection Q as <-; cbn [fstep]; try reflexivity.
  - unfold handle_font, read_font. rewrite X. replace (b_bv f >=? 50) with true by lia. reflexivity.
  - unfold handle_format. cbv zeta iota. rewrite X. reflexivity.
  - unfold handle_style. rewrite X. reflexivity.
Qed.

Lemma frec_none : forall rc data, rc = 0x42 \/ rc = 0x3c -> frec rc data = None.
Proof. intros rc data [->| ->]; reflexivity. Qed.

Section Run.
Variable codec : list Z -> list Z -> result (list Z).

Lemma formatting_drop : forall bv ov cs cp rs fs, Forall (fun r => noncont r = false) cs ->
  formatting codec bv ov cp (cs ++ rs) fs -> formatting codec bv ov cp rs fs.
Proof.
  intros bv ov cs cp rs fs F. induction F as [|[rc d] cs C F IH]; intros L; [exact L|]. cbn [app] in L.
  unfold noncont in C. cbn [fst] in C. assert (rc = 0x3c) as -> by lia. inversion L; subst; auto; discriminate.
Qed.

Lemma formatting_page : forall bv ov cp n extra rs fs, u16v n ->
  formatting codec bv ov cp ((0x42, le_enc 2 n ++ extra) :: rs) fs -> formatting codec bv ov (Some n) rs fs.
Proof.
  intros bv ov cp n extra rs fs H P. remember ((0x42, le_enc 2 n ++ extra) :: rs) as l eqn:E. destruct P as [cp|cp n2 extra2 rs2 fs H2 P|cp rc d r e rs2 fs X _ P|cp rc d rs2 fs X NE P].
  - discriminate.
  - pose proof (f_equal (@List.tl _) E) as ET. cbn [List.tl] in ET. subst rs2.
    pose proof (f_equal (fun l => match l with x :: _ => unpack_u16 (snd x) 0 | [] => Ok 0 end) E) as EH. cbv beta iota in EH. cbn [snd] in EH.
    rewrite (At_u16 _ extra n 0 (At_0 _) H), (At_u16 _ extra2 n2 0 (At_0 _) H2) in EH. injection EH as ->. exact P.
  - exfalso. assert (rc = 0x42) as -> by exact (f_equal (fun l => match l with x :: _ => fst x | [] => 0 end) E). discriminate.
  - exfalso. apply NE. exact (f_equal (fun l => match l with x :: _ => fst x | [] => 0 end) E).
Qed.

Section Globals.
Context {N SH : Type}.
Notation book := (book N SH).
Variable load : book -> list Z -> Z -> list Z -> Z -> result (shared * SH).
Variable ops : numops N.
Variable lower : list Z -> list Z.

Lemma globals_formatting : forall fuel mem rs d post base bv fmt ov b0 pos b' p' fs f0,
  book0 bv base fmt ov = Ok b0 -> fbook0 bv fmt = Ok f0 ->
  Forall framable rs -> zlen d < 65536 -> At mem pos (frames rs ++ frame (0x0a, d) ++ post) -> Forall (fun r => fst r <> 0x0a /\ fst r <> 0x8f) rs ->
  globals codec ops lower load fuel b0 mem pos = Ok (b', p') -> formatting codec bv ov None rs fs ->
  exists f, frun f0 fs = Ok f /\ bk_fmt b' = palette_epilogue (xf_epilogue f).
Proof.
  intros fuel mem rs d post base bv fmt ov b0 pos b' p' fs f0 B0 F0 FR LD A NE G FS.
  unfold book0 in B0. rewrite F0, bind_Ok in B0.
  pose (P := fun (b : book) (rs : list (Z * list Z)) => bk_bv b = bv /\ en_override (bk_enc b) = ov /\ enc_inv b /\
    exists cpn done todo, (bv < 80 -> cpn = en_codepage (bk_enc b)) /\ fs = done ++ todo /\ formatting codec bv ov cpn rs todo /\
      frun f0 done = Ok (bk_fmt b)).
  destruct (globals_walk codec load ops lower P mem d post LD) with (fuel := fuel) (rs := rs) (b := b0) (pos := pos) (b' := b') (p' := p')
    as (bl & PL & GE); auto.
  - clear G A FR NE FS B0. intros b pos1 rc data rs1 b1 p cs rs' (BV & OV & EI & cpn & done & todo & CP & E & F & R) -> FR A N1 N2 G C.
    destruct (gstep_effect _ _ _ _ _ _ _ _ _ G N2 EI) as (EI' & KS & KF).
    pose proof (gstep_version _ _ _ _ _ _ _ _ _ G N2) as V1.
    assert (Oth : rc <> 0x42 -> en_override (bk_enc b1) = ov /\ (bv < 80 -> cpn = en_codepage (bk_enc b1))).
    { intros X. destruct (gstep_page _ _ _ _ _ _ _ _ _ G N2 X) as [O1 O2]. rewrite BV in O2. split; [congruence|]. intros Y. rewrite (O2 Y). auto. }
    split; [congruence|].
    inversion F as [|? n extra rs2 fs2 NN F2|? ? ? r e rs2 fs2 X EE F2|? ? ? rs2 fs2 X M F2]; subst.
    + change (frec 66 (le_enc 2 n ++ extra)) with (@None frecord) in KF.
      apply gstep_codepage in G as (c & U & K1 & K2 & K3 & K4 & K5).
      assert (Ok c = Ok n) as Q by (rewrite <- U; exact (At_u16 _ extra n 0 (At_0 _) NN)). injection Q as ->.
      split; [congruence|]. split; [exact EI'|]. exists (Some n), done, todo. split; [intros Y; rewrite K5 by lia; reflexivity|]. split; [reflexivity|].
      split; [eapply formatting_drop; eassumption|]. rewrite KF. exact R.
    + assert (M : rc <> 0x42) by (intros ->; discriminate).
      destruct (Oth M) as [O1 O2]. split; [exact O1|]. split; [exact EI'|]. rewrite X in KF. destruct KF as [KF _].
      exists cpn, (done ++ [(codec e, r)]), fs2. split; [exact O2|]. split; [rewrite <- app_assoc; reflexivity|].
      split; [eapply formatting_drop; eassumption|]. eapply frun_one; [exact R|].
      destruct (Z_lt_ge_dec (bk_bv b1) 80) as [V8|V8].
      * destruct (EI' V8) as [Q|Q].
        -- eapply undecoded; [|exact KF]. intros s. rewrite Q. eexists. reflexivity.
        -- rewrite (Q V8 e) in KF; [exact KF|]. rewrite V1, O1, <- O2 by lia. apply EE. lia.
      * rewrite (biff8_undecoded (codec e) (unicode codec (en_encoding (bk_enc b1))) _ _ _ _ X); [exact KF|].
        rewrite (proj1 (frun_bv _ _ _ R)). unfold fbook0 in F0. apply bind_ok in F0 as (m & _ & F0). injection F0 as <-. cbn [b_bv]. lia.
    + destruct (Oth M) as [O1 O2]. split; [exact O1|]. split; [exact EI'|]. rewrite X in KF.
      exists cpn, done, todo. split; [exact O2|]. split; [reflexivity|]. split; [eapply formatting_drop; eassumption|]. rewrite KF. exact R.
  - injection B0 as <-. split; [reflexivity|]. split; [reflexivity|]. split; [intros _; left; reflexivity|].
    exists None, [], fs. split; [reflexivity|]. split; [reflexivity|]. split; [exact FS|reflexivity].
  - destruct PL as (BV & OV & EI & cpn & done & todo & CP & E & F & R). inversion F; subst todo. rewrite app_nil_r in E. subst done.
    destruct (globals_end_effect _ _ _ _ _ GE EI) as (_ & _ & _ & G3). eauto.
Qed.
End Globals.

(** An opened workbook, after any calls. *)
Section Opened.
Context {N : Type}.
Variable ops : numops N.
Variable lower : list Z -> list Z.
Variable num8 : list Z -> N.
Variable rk : list Z -> result N.
Variable ragged : bool.
Notation loaded := (loaded (N := N)).
Notation api := (api (N := N)).
Notation book := (book N loaded).
Variable old : book -> list Z -> Z -> list Z -> Z -> result (shared * loaded).
Notation history := (history codec num8 rk ragged old).
Notation open_stream := (open_stream codec ops lower num8 rk ragged old).

Lemma opened_formatting : forall fuel mem base bv rs ov fmt od a es h fs,
  workbook mem base bv rs -> 50 <= bv -> lists codec bv ov None rs es -> open_stream fuel mem base ov fmt od = Ok a ->
  formatting codec bv ov None rs fs ->
  exists f0 f, fbook0 bv fmt = Ok f0 /\ frun f0 fs = Ok f /\
    bk_fmt (a_book (snd (history a h))) = palette_epilogue (xf_epilogue f).
Proof.
  intros fuel mem base bv rs ov fmt od a es h fs W V L H FS.
  destruct (opened codec ops lower num8 rk ragged old _ _ _ _ _ _ _ _ _ _ W V L H) as (b0 & I & V0 & LS & LB & O & _).
  destruct (history_inv codec num8 rk ragged old b0 mem V0 LS LB h a I) as [(k & sl & E & _) _].
  destruct W as (pos & d & post & GB & FR & LD & A & NE).
  unfold BookApi.open_stream in O. rewrite GB, bind_Ok in O.
  apply bind_ok in O as (? & _ & O). apply bind_ok in O as (? & _ & O). apply bind_ok in O as (b & B & O).
  replace (bv <=? 40) with false in O by lia. replace (bv =? 45) with false in O by lia.
  apply bind_ok in O as ([b1 p1] & G & O). cbv zeta in O.
  assert (b0 = with_list b1 (map (fun _ => None) (sl_names (bk_sheets b1)))) as -> by congruence.
  assert (F0 : exists f0, fbook0 bv fmt = Ok f0) by (unfold book0 in B; apply bind_ok in B as (f0 & F0 & _); eauto). destruct F0 as (f0 & F0).
  destruct (globals_formatting _ _ _ _ _ _ _ _ _ _ _ _ _ _ _ _ _ _ B F0 FR LD A NE G FS) as (f & R & X).
  exists f0, f. split; [exact F0|]. split; [exact R|]. rewrite E. exact X.
Qed.
End Opened.
End Run.
