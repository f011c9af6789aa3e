(** C105: encoding_override does not matter for BIFF 8. *)
From Verif Require Import Base BaseFacts Text Strings Utf16 StringFacts PropBytes Framing GridModel GridFacts SheetObjects SheetModel SheetFacts SstModel FormatModel FormatFacts PropFormat FormatRun
  FormulaModel CompDoc BookModel PropEnc BookFacts BookSheets BookRefs BookContent BookApi BookHistory PropGlobals PropFormulaText PropDemand PropSheetList PropFile PropChain PropWorkbook PropDir.

(** ** What reading a sheet or a formula of BIFF 8 makes of the encoding *)

Lemma sheet_undecoded : forall {N} fmt rag sst rich xft d1 d2 n8 rk nc k rs,
  sheet_read (mk_config (N := N) 80 fmt rag sst rich xft d1 n8 rk nc) k rs = sheet_read (mk_config 80 fmt rag sst rich xft d2 n8 rk nc) k rs.
Proof. intros. reflexivity. Qed.

Lemma formula_undecoded : forall {N} (ops : numops N) d1 d2 a b c d e f g n names x,
  evaluate_name_formula ops (mk_fenv 80 d1 a b c d e f g) n names x = evaluate_name_formula ops (mk_fenv 80 d2 a b c d e f g) n names x.
Proof. intros. reflexivity. Qed.
Lemma eval_undecoded : forall {N} (ops : numops N) d1 d2 a b c d e f g todo names,
  eval_names ops (mk_fenv 80 d1 a b c d e f g) todo names = eval_names ops (mk_fenv 80 d2 a b c d e f g) todo names.
Proof.
  intros N ops d1 d2 a b c d e f g. induction todo as [|x todo IH]; intros names; cbn [eval_names]; [reflexivity|].
  destruct (py_index names x) as [n|?]; cbn [bind]; [|reflexivity]. rewrite (formula_undecoded ops d1 d2).
  destruct (if nm_macro n || nm_binary n || nm_evaluated n then _ else _) as [names'|?]; cbn [bind]; [apply IH|reflexivity].
Qed.
Lemma names_undecoded : forall {N} (ops : numops N) codec lower e1 e2 s r names,
  names_epilogue codec ops lower 80 e1 s r names = names_epilogue codec ops lower 80 e2 s r names.
Proof. intros. unfold names_epilogue. destruct (mapM _ names); cbn [bind]; [|reflexivity]. unfold env_of. rewrite (eval_undecoded ops (unicode codec e1) (unicode codec e2)). reflexivity. Qed.

Section Book.
Context {N : Type}.
Variable codec : list Z -> list Z -> result (list Z).
Variable ops : numops N.
Variable lower : list Z -> list Z.
Variable num8 : list Z -> N.
Variable rk : list Z -> result N.
Variable ragged : bool.
Notation loaded := (loaded (N := N)).
Notation api := (api (N := N)).
Notation book := (book N loaded).
Variable old : book -> list Z -> Z -> list Z -> Z -> result (shared * loaded).
Notation load := (load codec num8 rk ragged old).

(** Python knows the encoding. *)
Definition known_encoding (override : option (list Z)) : Prop :=
  exists c r x, override = Some (c :: r) /\ codec (c :: r) (s2l "trial") = Ok x.

Section Run.
Variable ov2 : option (list Z).

(** The same book but for what the encoding is. *)
Definition twin (b1 b2 : book) : Prop :=
  bk_bv b1 = 80 /\ b_bv (bk_fmt b1) = 80 /\ en_raw (bk_enc b1) = false /\
  exists s, b2 = with_enc b1 s /\ en_user s = en_user (bk_enc b1) /\ en_raw s = false /\ en_override s = ov2.
Definition twins (r1 r2 : result book) : Prop :=
  forall b1, r1 = Ok b1 -> (exists b2, r2 = Ok b2 /\ twin b1 b2) \/ (~ known_encoding ov2 /\ exists e, r2 = Err e).

Lemma twins_ok : forall b1 b2, twin b1 b2 -> twins (Ok b1) (Ok b2).
Proof. intros b1 b2 T b H. injection H as <-. left. eauto. Qed.
Lemma twins_bind : forall r1 r2 f1 f2, twins r1 r2 -> (forall b1 b2, twin b1 b2 -> twins (f1 b1) (f2 b2)) -> twins (do b <- r1; f1 b) (do b <- r2; f2 b).
Proof.
  intros r1 r2 f1 f2 T F b H. apply bind_ok in H as (x & E & H). destruct (T x E) as [(y & -> & T1)|(K & e & ->)]; [|right; split; [exact K|exists e; reflexivity]].
  exact (F x y T1 b H).
Qed.

Lemma choose_same : forall bv s, en_user (choose_encoding bv s) = en_user s /\ en_raw (choose_encoding bv s) = en_raw s /\ en_override (choose_encoding bv s) = en_override s.
Proof.
  intros bv [ov cp enc raw user]. unfold choose_encoding. cbn [en_override en_codepage].
  destruct ov as [[|]|], cp as [c|]; try destruct (encoding_from_codepage c); repeat match goal with |- context [if ?c then _ else _] => destruct c end; repeat split.
Qed.

Lemma derive_twins : forall b1 b2, twin b1 b2 -> twins (derive codec b1) (derive codec b2).
Proof.
  intros b1 b2 (V & VF & R1 & s & -> & U & R2 & O) b H. unfold derive, derive_encoding in *. cbv zeta in *.
  apply bind_ok in H as (s1 & D & H). injection H as <-. apply bind_ok in D as (x & _ & D).
  destruct (choose_same (bk_bv b1) (bk_enc b1)) as (C1 & C2 & C3). rewrite C2, R1 in D. injection D as <-.
  change (bk_bv (with_enc b1 s)) with (bk_bv b1). change (bk_enc (with_enc b1 s)) with s.
  destruct (choose_same (bk_bv b1) s) as (D1 & D2 & D3). rewrite D2, R2.
  match goal with |- context [bind (bind (if ?c then ?x else ?y) ?k) ?g] => destruct (if c then x else y) as [t|e] eqn:T end; cbn [bind].
  - left. eexists. split; [reflexivity|]. split; [exact V|]. split; [exact VF|]. split; [cbn; congruence|]. eexists. split; [reflexivity|]. cbn. repeat split; congruence.
  - right. split; [|exists e; reflexivity]. intros (c & r & x' & -> & K). revert T.
    assert (E : en_encoding (choose_encoding (bk_bv b1) s) = Some (c :: r)). { unfold choose_encoding. rewrite O. reflexivity. }
    rewrite E. cbn [unicode]. rewrite K. destruct (match en_codepage _ with Some _ => _ | None => _ end); discriminate.
Qed.

Lemma ensure_twins : forall b1 b2, twin b1 b2 -> twins (ensure codec b1) (ensure codec b2).
Proof.
  intros b1 b2 T b H. unfold ensure, ensure_encoding in *.
  assert (R1 : en_raw (bk_enc b1) = false) by (destruct T as (_ & _ & R & _); exact R).
  assert (X : exists s1, b = with_enc b1 s1 /\ en_user s1 = en_user (bk_enc b1) /\ en_raw s1 = false).
  { destruct (truthy (en_encoding (bk_enc b1))); cbn [bind] in H.
    - injection H as <-. exists (bk_enc b1). auto.
    - apply bind_ok in H as (s1 & D & H). injection H as <-. exists s1. split; [reflexivity|]. unfold derive_encoding in D. cbv zeta in D. apply bind_ok in D as (? & _ & D).
      destruct (choose_same (bk_bv b1) (bk_enc b1)) as (C1 & C2 & C3). rewrite C2, R1 in D. injection D as <-. split; congruence. }
  destruct X as (s1 & -> & U1 & W1).
  destruct (truthy (en_encoding (bk_enc b2))) eqn:E2.
  - left. exists b2. split; [cbn [bind]; destruct b2 as [? ? [? ? ? ?] ? ? ? ? ? ? ? ? ?]; reflexivity|].
    destruct T as (V & VF & _ & s & -> & U & R2 & O). split; [exact V|]. split; [exact VF|]. split; [exact W1|]. exists s. split; [reflexivity|]. cbn. repeat split; congruence.
  - destruct T as (V & VF & _ & s & -> & U & R2 & O). change (bk_enc (with_enc b1 s)) with s in *. change (bk_bv (with_enc b1 s)) with (bk_bv b1).
    unfold derive_encoding. cbv zeta. destruct (choose_same (bk_bv b1) s) as (D1 & D2 & D3). rewrite D2, R2.
    match goal with |- context [bind (bind (if ?c then ?x else ?y) ?k) ?g] => destruct (if c then x else y) as [t|e] eqn:TT end; cbn [bind].
    + left. eexists. split; [reflexivity|]. split; [exact V|]. split; [exact VF|]. split; [exact W1|]. eexists. split; [reflexivity|]. cbn. repeat split; congruence.
    + right. split; [|exists e; reflexivity]. intros (c & r & x' & -> & K). revert TT.
      assert (E : en_encoding (choose_encoding (bk_bv b1) s) = Some (c :: r)). { unfold choose_encoding. rewrite O. reflexivity. }
      rewrite E. cbn [unicode]. rewrite K. destruct (match en_codepage _ with Some _ => _ | None => _ end); discriminate.
Qed.

(** A change of the book that does not look at the encoding. *)
Lemma twins_same : forall {A} (r : result A) f b1 b2, twin b1 b2 ->
  (forall a b s, f (with_enc b s) a = with_enc (f b a) s /\ bk_bv (f b a) = bk_bv b /\ bk_enc (f b a) = bk_enc b /\ bk_fmt (f b a) = bk_fmt b) ->
  twins (do a <- r; Ok (f b1 a)) (do a <- r; Ok (f b2 a)).
Proof.
  intros A r f b1 b2 (V & VF & R1 & s & -> & U & R2 & O) F b H. apply bind_ok in H as (a & -> & H). injection H as <-. left. cbn [bind]. eexists. split; [reflexivity|].
  destruct (F a b1 s) as (F1 & F2 & F3 & F4). split; [congruence|]. split; [congruence|]. split; [congruence|]. exists s. rewrite F3. auto.
Qed.

Lemma fstep_bv : forall d f r f', fstep d f r = Ok f' -> b_bv f' = b_bv f.
Proof. intros d f r f' H. destruct (frun_bv [(d, r)] f f') as [E _]; [cbn [frun]; rewrite H; reflexivity|exact E]. Qed.

Lemma format_twins : forall rc data r b1 b2, frec rc data = Some r -> twin b1 b2 -> twins (format_record codec b1 r) (format_record codec b2 r).
Proof.
  intros rc data r b1 b2 FR T. unfold format_record. apply twins_bind.
  - destruct r; try (apply twins_ok; exact T); [|apply ensure_twins; exact T].
    assert (E : bk_fmt b2 = bk_fmt b1) by (destruct T as (_ & _ & _ & s & -> & _); reflexivity). rewrite E. destruct (b_fmt (bk_fmt b1)); [apply ensure_twins; exact T|apply twins_ok; exact T].
  - clear b1 b2 T. intros b1 b2 (V & VF & R1 & s & -> & U & R2 & O) b H. apply bind_ok in H as (f & F & H). injection H as <-.
    change (bk_fmt (with_enc b1 s)) with (bk_fmt b1). rewrite (biff8_undecoded _ (unicode codec (en_encoding (bk_enc b1))) (bk_fmt b1) rc data r FR ltac:(lia)), F. left. eexists. split; [reflexivity|].
    split; [exact V|]. split; [exact (eq_trans (fstep_bv _ _ _ _ F) VF)|]. split; [exact R1|]. exists s. auto.
Qed.

Lemma palette_bv : forall f, b_bv (palette_epilogue f) = b_bv f.
Proof.
  intros f. unfold palette_epilogue. generalize (b_fonts f). intros l. revert f. induction l as [|x l IH]; intros f; [reflexivity|]. cbn [fold_left]. rewrite IH.
  destruct (fo_index x =? 4); [reflexivity|]. destruct (fo_colour_index x =? 32767); [reflexivity|]. unfold FormatModel.mark. destruct (dget _ _ _); reflexivity.
Qed.

Definition twins_at (r1 r2 : result (book * Z)) : Prop :=
  forall b1 p, r1 = Ok (b1, p) -> (exists b2, r2 = Ok (b2, p) /\ twin b1 b2) \/ (~ known_encoding ov2 /\ exists e, r2 = Err e).

Lemma twins_stay : forall r1 r2 (pos : Z), twins r1 r2 -> twins_at (do b <- r1; Ok (b, pos)) (do b <- r2; Ok (b, pos)).
Proof.
  intros r1 r2 pos T b p H. apply bind_ok in H as (x & E & H). injection H as <- <-. destruct (T x E) as [(y & -> & T1)|(K & e & ->)]; [left|right; split; [exact K|exists e; reflexivity]].
  exists y. split; [reflexivity|exact T1].
Qed.
Lemma twins_at_bind : forall r1 r2 f1 f2, twins r1 r2 -> (forall b1 b2, twin b1 b2 -> twins_at (f1 b1) (f2 b2)) -> twins_at (do b <- r1; f1 b) (do b <- r2; f2 b).
Proof.
  intros r1 r2 f1 f2 T F b p H. apply bind_ok in H as (x & E & H). destruct (T x E) as [(y & -> & T1)|(K & e & ->)]; [|right; split; [exact K|exists e; reflexivity]].
  exact (F x y T1 b p H).
Qed.

Lemma boundsheet_undecoded : forall base off e1 e2 st data, handle_boundsheet codec 80 base off e1 st data = handle_boundsheet codec 80 base off e2 st data.
Proof. reflexivity. Qed.
Lemma externsheet_undecoded : forall e1 e2 r mem pos data, handle_externsheet codec 80 e1 r mem pos data = handle_externsheet codec 80 e2 r mem pos data.
Proof. reflexivity. Qed.
Lemma name_undecoded : forall e1 e2 data, handle_name (N := N) codec 80 e1 data = handle_name codec 80 e2 data.
Proof. reflexivity. Qed.

Lemma twin_step : forall b1 b2 (f : book -> book), twin b1 b2 -> (forall b s, f (with_enc b s) = with_enc (f b) s) ->
  bk_bv (f b1) = bk_bv b1 -> bk_enc (f b1) = bk_enc b1 -> b_bv (bk_fmt (f b1)) = b_bv (bk_fmt b1) -> twin (f b1) (f b2).
Proof.
  intros b1 b2 f (V & VF & R1 & s & -> & U & R2 & O) F F2 F3 F4. split; [congruence|]. split; [congruence|]. split; [congruence|]. exists s. rewrite F, F3. auto.
Qed.

Lemma gstep_twins : forall mem pos rc data b1 b2, twin b1 b2 -> rc <> 0x8f -> twins_at (gstep codec load b1 mem pos rc data) (gstep codec load b2 mem pos rc data).
Proof.
  intros mem pos rc data b1 b2 T N8. unfold gstep. cbv zeta. replace (rc =? 0x8f) with false by lia.
  assert (EV : bk_bv b2 = bk_bv b1) by (destruct T as (_ & _ & _ & s & -> & _); reflexivity).
  assert (ER : bk_refs b2 = bk_refs b1) by (destruct T as (_ & _ & _ & s & -> & _); reflexivity).
  assert (V1 : bk_bv b1 = 80) by (destruct T as (V & _); exact V).
  destruct (rc =? 0xfc) eqn:Q1.
  { intros b p H. apply bind_ok in H as ([[st ru] q] & S1 & H). injection H as <- <-. rewrite S1. cbn [bind]. left. eexists. split; [reflexivity|].
    apply (twin_step b1 b2 (fun b => with_sst b st (if b_fmt (bk_fmt b) then ru else bk_rich b)) T); reflexivity. }
  destruct ((rc =? 0x31) || (rc =? 0x231)) eqn:Q2.
  { apply twins_stay. apply (format_twins rc data); [|exact T]. unfold frec. rewrite Q2. reflexivity. }
  destruct (rc =? 0x41e) eqn:Q3.
  { apply twins_stay. apply (format_twins rc data); [|exact T]. unfold frec. rewrite Q2, Q3. reflexivity. }
  destruct (rc =? 0xe0) eqn:Q4.
  { apply twins_stay. apply (format_twins rc data); [|exact T]. unfold frec. rewrite Q2, Q3, Q4. reflexivity. }
  destruct (rc =? 0x85).
  { apply twins_stay. apply twins_bind; [apply derive_twins; exact T|]. clear - num8. intros b1 b2 T b H.
    apply bind_ok in H as (sh & S1 & H). injection H as <-. left. exists (with_sheets b2 sh). split; [|apply (twin_step b1 b2 (fun b => with_sheets b sh) T); reflexivity].
    destruct T as (V & _ & _ & s & -> & _). change (bk_bv (with_enc b1 s)) with (bk_bv b1). change (bk_base (with_enc b1 s)) with (bk_base b1). change (bk_offset (with_enc b1 s)) with (bk_offset b1). change (bk_sheets (with_enc b1 s)) with (bk_sheets b1).
    rewrite V in *. rewrite (boundsheet_undecoded _ _ _ (en_encoding (bk_enc b1))), S1. reflexivity. }
  destruct (rc =? 0x22).
  { apply twins_stay. intros b H. unfold handle_datemode in *. apply bind_ok in H as (d & D & H). apply bind_ok in H as ([] & G & H). cbv zeta in H. injection H as <-. rewrite D. cbn [bind]. rewrite G. cbn [bind].
    left. eexists. split; [reflexivity|]. apply (twin_step b1 b2 (fun b => with_shared b (mk_shared (g_enc (bk_shared b)) (g_fmt (bk_shared b)) (g_countries (bk_shared b)) d)) T); reflexivity. }
  destruct (rc =? 0x42).
  { apply twins_stay. unfold handle_codepage. intros b H. rewrite bind_assoc in H. apply bind_ok in H as (cp & C & H). rewrite C. cbn [bind].
    refine (derive_twins (with_enc b1 (with_codepage (bk_enc b1) cp)) (with_enc b2 (with_codepage (bk_enc b2) cp)) _ b H).
    destruct T as (V & VF & R1 & s & -> & U & R2 & O). split; [exact V|]. split; [exact VF|]. split; [exact R1|]. exists (with_codepage s cp). split; [reflexivity|]. auto. }
  destruct (rc =? 0x8C).
  { apply twins_stay. intros b H. unfold handle_country in *. apply bind_ok in H as ([] & D & H). apply bind_ok in H as (x & X & H). apply bind_ok in H as (y & Y & H). cbv zeta in *. apply bind_ok in H as ([] & G & H). injection H as <-.
    rewrite D. cbn [bind]. rewrite X. cbn [bind]. rewrite Y. cbn [bind].
    assert (EG : g_countries (bk_shared b2) = g_countries (bk_shared b1)) by (destruct T as (_ & _ & _ & s & -> & _); reflexivity). rewrite EG, G. cbn [bind].
    left. eexists. split; [reflexivity|]. apply (twin_step b1 b2 (fun b => with_shared b (mk_shared (g_enc (bk_shared b)) (g_fmt (bk_shared b)) (x, y) (g_datemode (bk_shared b)))) T); reflexivity. }
  destruct (rc =? 0x23).
  { apply twins_stay. rewrite EV, ER. apply twins_same; [exact T|]. intros a b s. repeat split. }
  destruct (rc =? 0x17).
  { apply twins_at_bind; [apply derive_twins; exact T|]. clear - num8. intros b1 b2 T b p H. apply bind_ok in H as ([r q] & X & H). injection H as <- <-.
    left. exists (with_refs b2 r). split; [|apply (twin_step b1 b2 (fun b => with_refs b r) T); reflexivity].
    destruct T as (V & _ & _ & s & -> & _). change (bk_bv (with_enc b1 s)) with (bk_bv b1). change (bk_refs (with_enc b1 s)) with (bk_refs b1).
    rewrite V in *. rewrite (externsheet_undecoded _ (en_encoding (bk_enc b1))), X. reflexivity. }
  destruct (rc =? 0x2f); [intros b p H; discriminate|].
  destruct (rc =? 0x5C).
  { apply twins_stay. intros b H. unfold handle_writeaccess in *. rewrite EV, V1 in *. change (80 <? 80) with false in *. cbv iota in *. rewrite bind_assoc in *. apply bind_ok in H as (st & S1 & H). cbn [bind] in H. injection H as <-.
    rewrite S1. cbn [bind]. left. eexists. split; [reflexivity|]. destruct T as (V & VF & R1 & s & -> & U & R2 & O). split; [exact V|]. split; [exact VF|]. split; [exact R1|].
    eexists. split; [reflexivity|]. cbn. auto. }
  destruct (rc =? 0x8E).
  { apply twins_stay. intros b H. apply bind_ok in H as ([] & G & H). apply bind_ok in H as (o & O1 & H). injection H as <-. rewrite G. cbn [bind]. rewrite O1. cbn [bind].
    left. eexists. split; [reflexivity|]. apply (twin_step b1 b2 (fun b => with_offset b o) T); reflexivity. }
  destruct (rc =? 0x1AE).
  { apply twins_stay. rewrite ER. apply twins_same; [exact T|]. intros a b s. repeat split. }
  destruct (rc =? 0x18).
  { rewrite EV, V1. change (80 <? 50) with false. cbv iota. apply twins_stay. apply twins_bind; [apply derive_twins; exact T|]. clear - num8. intros b1 b2 T b H.
    apply bind_ok in H as (n & S1 & H). injection H as <-. left. exists (with_names b2 (bk_names b2 ++ [n])). split; [|apply (twin_step b1 b2 (fun b => with_names b (bk_names b ++ [n])) T); reflexivity].
    destruct T as (V & _ & _ & s & -> & _). change (bk_bv (with_enc b1 s)) with (bk_bv b1). rewrite V in *. rewrite (name_undecoded _ (en_encoding (bk_enc b1))), S1. reflexivity. }
  destruct (rc =? 0x92) eqn:Q5.
  { apply twins_stay. apply (format_twins rc data); [|exact T]. unfold frec. rewrite Q2, Q3, Q4, Q5. reflexivity. }
  destruct (rc =? 0x293) eqn:Q6.
  { apply twins_stay. apply (format_twins rc data); [|exact T]. unfold frec. rewrite Q2, Q3, Q4, Q5, Q6. reflexivity. }
  intros b p H. injection H as <- <-. left. eauto.
Qed.

Lemma end_twins : forall b1 b2, twin b1 b2 -> twins (globals_end codec ops lower b1) (globals_end codec ops lower b2).
Proof.
  intros b1 b2 (V & VF & R1 & s & -> & U & R2 & O) b H. unfold globals_end in *. cbv zeta in *. apply bind_ok in H as ([names maps] & E & H).
  change (bk_bv (with_fmt (with_enc b1 s) (xf_epilogue (bk_fmt (with_enc b1 s))))) with (bk_bv b1). change (bk_bv (with_fmt b1 (xf_epilogue (bk_fmt b1)))) with (bk_bv b1) in E. rewrite V in *.
  match goal with |- context [names_epilogue codec ops lower 80 ?x ?y ?z ?n] =>
    change (names_epilogue codec ops lower 80 x y z n) with (names_epilogue codec ops lower 80 (en_encoding s) (bk_sheets b1) (bk_refs b1) (bk_names b1)) end.
  rewrite (names_undecoded ops codec lower (en_encoding s) (en_encoding (bk_enc b1))).
  change (names_epilogue codec ops lower 80 (en_encoding (bk_enc b1)) (bk_sheets b1) (bk_refs b1) (bk_names b1) = Ok (names, maps)) in E. rewrite E. cbn [bind].
  set (f := fun b : book => with_fmt (with_maps (with_names (with_fmt b (xf_epilogue (bk_fmt b))) names) maps) (palette_epilogue (bk_fmt (with_maps (with_names (with_fmt b (xf_epilogue (bk_fmt b))) names) maps)))).
  assert (T : twin (f b1) (f (with_enc b1 s))).
  { split; [exact V|]. split; [|split; [exact R1|]; exists s; auto]. unfold f. cbn [bk_fmt with_fmt bk_shared g_fmt with_shared]. rewrite palette_bv. exact VF. }
  assert (EN : forall x : book, (if truthy (en_encoding (bk_enc x)) then Ok x else derive codec x) = ensure codec x).
  { intros x. unfold ensure, ensure_encoding, derive. destruct (truthy (en_encoding (bk_enc x))) eqn:TX; [|reflexivity]. rewrite bind_Ok. f_equal. clear. destruct x as [? ? [? ? ? ?] ? ? ? ? ? ? ? ? ?]. reflexivity. }
  fold (f b1) in H. fold (f (with_enc b1 s)). rewrite EN in *. exact (ensure_twins _ _ T b H).
Qed.

Lemma globals_twins : forall fuel mem rs d post b1 b2 pos,
  Forall framable rs -> zlen d < 65536 -> At mem pos (frames rs ++ frame (0x0a, d) ++ post) -> Forall (fun r => fst r <> 0x0a /\ fst r <> 0x8f) rs -> twin b1 b2 ->
  twins_at (globals codec ops lower load fuel b1 mem pos) (globals codec ops lower load fuel b2 mem pos).
Proof.
  induction fuel as [|f IH]; intros mem rs d post b1 b2 pos F LD A NE T b' p H; [discriminate|]. cbn [globals] in *.
  assert (FD : framable (0x0a, d)) by (split; cbn; lia).
  destruct rs as [|[rc data] rs].
  - cbn [frames flat_map app] in A. rewrite (At_frame _ _ _ _ A FD) in *. cbn [bind fst snd] in *. change (0x0a =? 0x0a) with true in *. cbv iota in *.
    exact (twins_stay _ _ _ (end_twins _ _ T) b' p H).
  - inversion F as [|? ? F1 F2]; subst. inversion NE as [|? ? [N1 N2] N3]; subst. cbn [fst] in N1, N2.
    cbn [frames flat_map] in A. rewrite <- app_assoc in A. rewrite (At_frame _ _ _ _ A F1) in *. cbn [bind fst snd] in *.
    replace (rc =? 0x0a) with false in * by lia. apply bind_ok in H as ([c1 q1] & G1 & H).
    destruct (gstep_twins mem (pos + zlen (frame (rc, data))) rc data b1 b2 T N2 c1 q1 G1) as [(c2 & G2 & T2)|(K & e & G2)]; [|right; split; [exact K|exists e; rewrite G2; reflexivity]].
    rewrite G2. cbn [bind]. pose proof (At_skip _ _ _ _ _ A eq_refl) as A1.
    assert (A1' : At mem (pos + zlen (frame (rc, data))) (frames (rs ++ [(0x0a, d)]) ++ post)).
    { rewrite frames_app, <- app_assoc. cbn [frames flat_map]. rewrite app_nil_r. exact A1. }
    assert (FA : Forall framable (rs ++ [(0x0a, d)])) by (apply Forall_app; split; [exact F2|constructor; [exact FD|constructor]]).
    assert (XA : existsb noncont (rs ++ [(0x0a, d)]) = true) by (rewrite existsb_app; apply orb_true_intro; right; reflexivity).
    destruct (gstep_at codec lower load mem (rs ++ [(0x0a, d)]) post (pos + zlen (frame (rc, data))) b1 rc data c1 q1 FA A1' XA N2 G1) as (cs & rs' & E & C1 & C2 & C3).
    assert (exists rs'', rs' = rs'' ++ [(0x0a, d)] /\ rs = cs ++ rs'') as (rs'' & -> & ->).
    { clear - E C3. destruct rs' as [|x l _] using rev_ind; [discriminate|].
      rewrite app_assoc in E. apply app_inj_tail in E as [E1 E2]. subst. eauto. }
    apply Forall_app in F2 as [_ F2]. apply Forall_app in N3 as [_ N3].
    rewrite frames_app, <- app_assoc in C2. cbn [frames flat_map] in C2. rewrite app_nil_r in C2.
    exact (IH mem rs'' d post c1 c2 q1 F2 LD C2 N3 T2 b' p H).
Qed.
End Run.

(** ** The sheets *)

Notation get_sheet := (get_sheet codec num8 rk ragged old).
Notation history := (history codec num8 rk ragged old).
Notation perform := (perform codec num8 rk ragged old).

Definition lift {A} (s : encst) (r : result (book * A)) : result (book * A) := match r with Ok (b, x) => Ok (with_enc b s, x) | Err e => Err e end.

Lemma get_sheet_lift : forall s b mem i, bk_bv b = 80 -> get_sheet (with_enc b s) mem i = lift s (get_sheet b mem i).
Proof.
  intros s b mem i V. unfold BookApi.get_sheet, BookApi.load, config_of.
  change (bk_sheets (with_enc b s)) with (bk_sheets b). change (bk_bv (with_enc b s)) with (bk_bv b). change (bk_list (with_enc b s)) with (bk_list b). rewrite V. change (80 <=? 45) with false. cbv iota zeta.
  destruct (py_index (sl_posn (bk_sheets b)) i); cbn [bind lift]; [|reflexivity]. destruct (getbof mem _ XL_WORKSHEET) as [[? p]|]; cbn [bind lift]; [|reflexivity].
  destruct (py_index (sl_names (bk_sheets b)) i); cbn [bind lift]; [|reflexivity]. destruct (py_index (sl_visibility (bk_sheets b)) i); cbn [bind lift]; [|reflexivity].
  rewrite (sheet_undecoded _ _ _ _ _ (unicode codec (en_encoding (bk_enc (with_enc b s)))) (unicode codec (en_encoding (bk_enc b)))).
  change (bk_fmt (with_enc b s)) with (bk_fmt b). change (bk_sst (with_enc b s)) with (bk_sst b). change (bk_rich (with_enc b s)) with (bk_rich b). change (g_countries (bk_shared (with_enc b s))) with (g_countries (bk_shared b)).
  match goal with |- context [sheet_read ?x ?y ?z] => destruct (sheet_read x y z) as [sh|]; cbn [bind lift]; [|reflexivity] end.
  destruct (list_set (bk_list b) i _); cbn [bind lift]; reflexivity.
Qed.

Lemma get_sheet_bv : forall b mem i b' sh, get_sheet b mem i = Ok (b', sh) -> bk_bv b' = bk_bv b.
Proof.
  intros b mem i b' sh H. unfold BookApi.get_sheet in H. apply bind_ok in H as (? & _ & H). apply bind_ok in H as ([? ?] & _ & H). apply bind_ok in H as (? & _ & H). apply bind_ok in H as ([? ?] & _ & H). apply bind_ok in H as (? & _ & H).
  injection H as <- <-. reflexivity.
Qed.

Lemma get_sheets_lift : forall mem l s b b', bk_bv b = 80 -> get_sheets_in codec num8 rk ragged old b mem l = Ok b' ->
  get_sheets_in codec num8 rk ragged old (with_enc b s) mem l = Ok (with_enc b' s) /\ bk_bv b' = 80.
Proof.
  intros mem. induction l as [|i l IH]; intros s b b' V H; cbn [get_sheets_in] in *.
  - injection H as <-. split; [reflexivity|exact V].
  - apply bind_ok in H as ([b1 sh] & G & H). rewrite (get_sheet_lift s b mem i V), G. cbn [lift bind]. apply IH; [|exact H]. rewrite (get_sheet_bv _ _ _ _ _ G). exact V.
Qed.

Definition other (s : encst) (a : api) : api := mk_api (with_enc (a_book a) s) (a_mem a).
Definition across {A} (s : encst) (r : A * api) : A * api := (fst r, other s (snd r)).

Section Calls.
Variable s : encst.
Variable after : Z * Z.
Notation m_get_sheet := (m_get_sheet codec num8 rk ragged old after).
Notation m_sheet_by_index := (m_sheet_by_index codec num8 rk ragged old after).
Notation m_load_all := (m_load_all codec num8 rk ragged old after).
Notation m_iterate := (m_iterate codec num8 rk ragged old after).
Definition v80 (a : api) : Prop := bk_bv (a_book a) = 80.

Lemma m_get_sheet_lift : forall a i, v80 a -> m_get_sheet (other s a) i = across s (m_get_sheet a i) /\ v80 (snd (m_get_sheet a i)).
Proof.
  intros [b [m|]] i V; unfold BookApi.m_get_sheet; cbn [other a_mem a_book]; [|split; [reflexivity|exact V]].
  rewrite (get_sheet_lift s b m i V). destruct (get_sheet b m i) as [[b' sh]|e] eqn:E; cbn [lift].
  - split; [reflexivity|]. unfold v80. cbn. rewrite (get_sheet_bv _ _ _ _ _ E). exact V.
  - split; [reflexivity|exact V].
Qed.
Lemma by_index_lift : forall a i, v80 a -> m_sheet_by_index (other s a) i = across s (m_sheet_by_index a i) /\ v80 (snd (m_sheet_by_index a i)).
Proof.
  intros a i V. unfold BookApi.m_sheet_by_index. change (bk_list (a_book (other s a))) with (bk_list (a_book a)). destruct (py_index _ i) as [[sh|]|e]; [split; [reflexivity|exact V]| |split; [reflexivity|exact V]].
  exact (m_get_sheet_lift a i V).
Qed.
Lemma load_all_lift : forall l a, v80 a -> m_load_all (other s a) l = across s (m_load_all a l) /\ v80 (snd (m_load_all a l)).
Proof.
  induction l as [|i l IH]; intros a V; cbn [BookApi.m_load_all]; [split; [reflexivity|exact V]|].
  change (bk_list (a_book (other s a))) with (bk_list (a_book a)). destruct (py_index _ i) as [[sh|]|e]; [exact (IH a V)| |split; [reflexivity|exact V]].
  destruct (m_get_sheet_lift a i V) as [E W]. rewrite E. destruct (m_get_sheet a i) as [[sh|e] a1]; cbn [across fst snd] in *; [exact (IH a1 W)|split; [reflexivity|exact W]].
Qed.
Lemma iterate_lift : forall l a, v80 a -> m_iterate (other s a) l = across s (m_iterate a l) /\ v80 (snd (m_iterate a l)).
Proof.
  induction l as [|i l IH]; intros a V; cbn [BookApi.m_iterate]; [split; [reflexivity|exact V]|].
  destruct (by_index_lift a i V) as [E W]. rewrite E. destruct (m_sheet_by_index a i) as [[sh|e] a1]; cbn [across fst snd] in *; [|split; [reflexivity|exact W]].
  destruct (IH a1 W) as [E2 W2]. rewrite E2. destruct (m_iterate a1 l) as [[r|e] a2]; cbn [across fst snd] in *; split; try reflexivity; exact W2.
Qed.
Lemma got_lift : forall r, v80 (snd r) -> got (across s r) = across s (got r) /\ v80 (snd (got r)).
Proof. intros [[sh|e] a] V; split; try reflexivity; exact V. Qed.
Lemma unload_lift : forall a i, v80 a -> m_unload (other s a) i = across s (m_unload a i) /\ v80 (snd (m_unload a i)).
Proof. intros a i V. unfold m_unload. change (bk_list (a_book (other s a))) with (bk_list (a_book a)). destruct (list_set _ i None); split; try reflexivity; exact V. Qed.

Lemma perform_lift : forall a c, v80 a -> perform after (other s a) c = across s (perform after a c) /\ v80 (snd (perform after a c)).
Proof.
  intros a c V. unfold BookApi.perform. cbv zeta. change (sl_names (bk_sheets (a_book (other s a)))) with (sl_names (bk_sheets (a_book a))). change (nsheets (other s a)) with (nsheets a).
  destruct c as [i|n| | |i|n|i|n|].
  - destruct (by_index_lift a i V) as [-> W]. apply got_lift; exact W.
  - destruct (index_of _ n) as [i|e]; [|split; [reflexivity|exact V]]. destruct (by_index_lift a i V) as [-> W]. apply got_lift; exact W.
  - destruct (load_all_lift (zrange 0 (nsheets a)) a V) as [-> W]. destruct (m_load_all a _) as [[u|e] a1]; split; try reflexivity; exact W.
  - destruct (iterate_lift (zrange 0 (nsheets a)) a V) as [-> W]. destruct (m_iterate a _) as [[u|e] a1]; split; try reflexivity; exact W.
  - split; [reflexivity|exact V].
  - destruct (index_of _ n) as [i|e]; split; try reflexivity; exact V.
  - apply unload_lift; exact V.
  - destruct (index_of _ n) as [i|e]; [apply unload_lift; exact V|split; [reflexivity|exact V]].
  - split; [reflexivity|exact V].
Qed.
End Calls.

Lemma history_lift : forall s h a, v80 a -> fst (history (other s a) h) = fst (history a h) /\ snd (history (other s a) h) = other s (snd (history a h)).
Proof.
  intros s. induction h as [|[c after] h IH]; intros a V; [split; reflexivity|]. cbn [BookApi.history].
  destruct (perform_lift s after a c V) as [E W]. rewrite E. destruct (perform after a c) as [r a1]. cbn [across fst snd] in *.
  destruct (IH a1 W) as [I1 I2]. destruct (history (other s a1) h), (history a1 h). cbn [fst snd] in *. subst. split; reflexivity.
Qed.

Lemma get_sheets_enc : forall mem l b b', get_sheets_in codec num8 rk ragged old b mem l = Ok b' -> bk_bv b = 80 -> bk_enc b' = bk_enc b.
Proof.
  intros mem. induction l as [|i l IH]; intros b b' H V; cbn [get_sheets_in] in *; [injection H as <-; reflexivity|].
  apply bind_ok in H as ([b1 sh] & G & H). rewrite (IH _ _ H) by (rewrite (get_sheet_bv _ _ _ _ _ G); exact V).
  unfold BookApi.get_sheet, BookApi.load in G. rewrite V in G. change (80 <=? 45) with false in G. cbv iota zeta in G.
  apply bind_ok in G as (? & _ & G). apply bind_ok in G as ([? ?] & _ & G). apply bind_ok in G as (? & _ & G). apply bind_ok in G as ([? ?] & X & G). apply bind_ok in G as (? & _ & G). injection G as <- <-.
  apply bind_ok in X as (? & _ & X). apply bind_ok in X as (? & _ & X). injection X as <- <-. reflexivity.
Qed.

(** ** The theorem *)

Notation open_workbook_xls := (open_workbook_xls codec ops lower num8 rk ragged old).

(** The same workbook but for the attributes [encoding] and [codepage]: everything else of
    the book is the same and so is what all calls give and leave. *)
Definition same_but_encoding (a1 a2 : api) : Prop :=
  exists s, en_user s = en_user (bk_enc (a_book a1)) /\ en_raw s = en_raw (bk_enc (a_book a1)) /\
    a_book a2 = with_enc (a_book a1) s /\ a_mem a2 = a_mem a1 /\
    forall h, fst (history a2 h) = fst (history a1 h) /\ a_book (snd (history a2 h)) = with_enc (a_book (snd (history a1 h))) s.

Theorem c105_override : forall s rs file fuel depth ov1 ov2 fmt on_demand ignore a1,
  contains lower depth file s -> zlen file < Z.of_nat fuel -> book_stream s 80 rs ->
  open_workbook_xls fuel depth file ov1 fmt on_demand ignore = Ok a1 ->
  (forall a2, open_workbook_xls fuel depth file ov2 fmt on_demand ignore = Ok a2 -> same_but_encoding a1 a2) /\
  (known_encoding ov2 -> exists a2, open_workbook_xls fuel depth file ov2 fmt on_demand ignore = Ok a2).
Proof.
  intros s rs file f d ov1 ov2 fmt od ig a1 C L BS O1.
  destruct (found lower f d file s 80 rs ig C BS L) as (m & base & post & F & BM & PB & A & LM & L0).
  unfold BookApi.open_workbook_xls in *. replace (zlen file =? 0) with false in * by lia. cbn [negb guard] in *. rewrite bind_Ok, F, bind_Ok in *.
  destruct (book_at _ _ _ _ _ _ BM PB A BS) as (pos & dd & post' & GB & FR & LD & AA & NE).
  unfold BookApi.open_stream in *. rewrite GB, bind_Ok in *. change (negb (80 =? 0)) with true in *. change (existsb (Z.eqb 80) SUPPORTED_VERSIONS) with true in *. cbn [guard] in *. rewrite !bind_Ok in *.
  unfold book0 in *. rewrite !bind_assoc in *. destruct (fbook0 80 fmt) as [fb|e] eqn:FB; [|discriminate]. rewrite !bind_Ok in *.
  change (80 <=? 40) with false in *. change (80 =? 45) with false in *. cbv iota in *.
  match type of O1 with context [globals _ _ _ _ _ ?x _ _] => set (z1 := x) in * end.
  set (G2 := fun b => globals codec ops lower load f b m pos).
  match goal with |- context [globals _ _ _ _ _ ?x _ _] => set (z2 := x) in * end.
  assert (T : twin ov2 z1 z2).
  { split; [reflexivity|]. split; [unfold fbook0 in FB; apply bind_ok in FB as (cm & _ & FB); injection FB as <-; reflexivity|]. split; [reflexivity|]. eexists. split; [reflexivity|]. repeat split. }
  apply bind_ok in O1 as ([y1 p1] & G1 & O1). cbv zeta in O1.
  pose proof (globals_twins ov2 f m rs dd post' z1 z2 pos FR LD AA NE T y1 p1 G1) as TT.
  assert (SS : forall y2, twin ov2 y1 y2 -> exists a2, (let b := with_list y2 (map (fun _ => None) (sl_names (bk_sheets y2))) in
     if od then Ok (mk_api b (Some m)) else do b <- get_sheets codec num8 rk ragged old b m; Ok (mk_api b None)) = Ok a2 /\ same_but_encoding a1 a2).
  { intros y2 (V & VF & R1 & s2 & -> & U & R2 & O). cbv zeta. set (w1 := with_list y1 (map (fun _ => None) (sl_names (bk_sheets y1)))) in *.
    change (with_list (with_enc y1 s2) (map (fun _ => None) (sl_names (bk_sheets (with_enc y1 s2))))) with (with_enc w1 s2).
    assert (W : exists b1 x, a1 = mk_api b1 x /\ bk_bv b1 = 80 /\ bk_enc b1 = bk_enc y1 /\ (if od then Ok (mk_api (with_enc w1 s2) (Some m)) else do b <- get_sheets codec num8 rk ragged old (with_enc w1 s2) m; Ok (mk_api b None)) = Ok (other s2 a1)).
    { destruct od.
      - injection O1 as <-. exists w1, (Some m). repeat split; auto.
      - apply bind_ok in O1 as (b1 & G & O1). injection O1 as <-. unfold get_sheets in *. change (sl_names (bk_sheets (with_enc w1 s2))) with (sl_names (bk_sheets w1)).
        destruct (get_sheets_lift m _ s2 w1 b1 V G) as [E W]. rewrite E. exists b1, None. repeat split; [exact W|]. exact (get_sheets_enc _ _ _ _ G V). }
    destruct W as (b1 & x & -> & W & EN & E). exists (other s2 (mk_api b1 x)). split; [exact E|]. exists s2. cbn [a_book other a_mem]. rewrite EN.
    repeat split; [congruence..| |].
    - exact (proj1 (history_lift s2 h (mk_api b1 x) W)).
    - change (mk_api (with_enc b1 s2) x) with (other s2 (mk_api b1 x)). rewrite (proj2 (history_lift s2 h (mk_api b1 x) W)). reflexivity. }
  split.
  - intros a2 O2. apply bind_ok in O2 as ([y2 p2] & H2 & O2). destruct TT as [(y & H & T1)|(_ & e & H)]; rewrite H in H2; [|discriminate]. injection H2 as <- <-.
    destruct (SS y T1) as (a & E & R). cbv zeta in E, O2. rewrite E in O2. injection O2 as <-. exact R.
  - intros K. destruct TT as [(y & H & T1)|(N0 & _)]; [|destruct (N0 K)]. rewrite H. cbn [bind]. destruct (SS y T1) as (a & E & _). exists a. exact E.
Qed.
End Book.
Print Assumptions c105_override.

(** A workbook opened without encoding_override, with one and with one Python does not know. *)
Example c105_hypotheses :
  let codec := fun (e : list Z) b => if list_eqb e (s2l "nonsense") then Err XLRDError else Ok b in let rk := fun b => Ok (le_val b) in let none := fun _ _ _ _ _ => Err XLRDError in
  let opened ov := open_workbook_xls codec int_ops ascii_low le_val rk false none 300 1 Small.file ov true true false in
  contains ascii_low 1 Small.file Small.file /\ zlen Small.file < Z.of_nat 300 /\ book_stream Small.file 80 Small.records /\ known_encoding codec (Some (s2l "cp1251")) /\
  match opened None, opened (Some (s2l "cp1251")), opened (Some (s2l "nonsense")) with
  | Ok a1, Ok a2, Err _ =>
      en_encoding (bk_enc (a_book a1)) = Some (s2l "utf_16_le") /\ en_encoding (bk_enc (a_book a2)) = Some (s2l "cp1251") /\
      sl_names (bk_sheets (a_book a2)) = [s2l "S"] /\
      match fst (perform codec le_val rk false none (0, 0) a2 (SheetByIndex 0)) with
      | Ok (Got sh) => map (fun k => cell_value (sh_grid (ls_sheet sh)) 1 k) [0; 1] = [Ok (VText [72; 105]); Ok (VText [72; 111])]
      | _ => False
      end
  | _, _, _ => False
  end.
Proof.
  cbv zeta. destruct c77_hypotheses as (C & LF & BS & _). destruct c75_hypotheses as (B & _ & L & _).
  split; [apply Bare; [exact B|reflexivity]|]. split; [vm_compute; reflexivity|]. split; [exact BS|].
  split; [exists 99, (s2l "p1251"), (s2l "trial"); split; vm_compute; reflexivity|]. vm_compute. repeat split.
Qed.
