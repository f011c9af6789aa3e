(** Which BIFF4W workbooks can be opened (C109): those whose worksheets are announced in
    their order and are as in C108. *)
From Verif Require Import Base BaseFacts Text Strings Framing GridModel GridFacts PropGrid SheetObjects SheetModel SheetFacts
  SheetSteps PropSheet PropRead CompDoc FormatModel FormatFacts FormulaModel BookModel BookFacts PropEnc BookContent BookFine BookApi BookSheets PropFormat PropBof PropFormulaText
  OldSheet OldXf OldContent OldSteps OldTurns OldRead OldFine PropOldSheet PropFourW PropOldOpens.

(** ** Specification *)

Section Spec.
Context {N : Type}.
Variable codec : list Z -> list Z -> result (list Z).
Variable rk : list Z -> result N.
Variable ov : option (list Z).          (* encoding_override *)
Variable fmt : bool.                    (* formatting_info *)

(** Codes of records that mean something in the globals of BIFF4W. *)
Definition meaningful_4w : list Z := [0x0a; 0xfc; 0x31; 0x231; 0x41e; 0xe0; 0x85; 0x22; 0x42; 0x8c; 0x17; 0x2f; 0x5c; 0x8e; 0x8f; 0x1ae; 0x92; 0x293].

(** After a CODEPAGE record of [cp] (or none), with or without a SHEETSOFFSET record
    ([off]), and with the names [names] announced for worksheets still to come. *)
Fixpoint opens_4w (cp : option Z) (off : bool) (names : list (list Z)) (parts : list part) : Prop :=
  match parts with
  | [] => usable codec 45 ov cp
  | Global (rc, d) :: l =>
      if rc =? 0x42 then exists p extra, d = le_enc 2 p ++ extra /\ u16v p /\ usable codec 45 ov (Some p) /\ opens_4w (Some p) off names l
      else if rc =? 0x8e then zlen d = 4 /\ opens_4w cp true names l
      else if rc =? 0x85 then off = true /\ exists raw extra t, d = zlen raw :: raw ++ extra /\ zlen raw < 256 /\ reads codec 45 ov cp raw t /\
        opens_4w cp off (names ++ [t]) l
      else if rc =? 0x22 then (exists m extra, 0 <= m <= 1 /\ d = le_enc 2 m ++ extra) /\ opens_4w cp off names l
      else if rc =? 0x5c then usable codec 45 ov cp /\ user_body codec 45 ov d /\ opens_4w cp off names l
      else ~ In rc meaningful_4w /\ opens_4w cp off names l
  | Worksheet name _ _ recs :: l =>
      exists t later items, names = t :: later /\ reads codec 45 ov cp name t /\ recs = flat_map oenc items /\
        Forall (oitem_ok 45) items /\ settings_first items /\ formats_first items /\
        good codec rk 45 ov fmt [] (existsb is_xf items) cp 0 None items /\ opens_4w (last_page cp items) off later l
  end.
End Spec.

(** ** Proofs *)

Section Opens.
Context {N : Type}.
Variable codec : list Z -> list Z -> result (list Z).
Variable num8 : list Z -> N.
Variable rk : list Z -> result N.
Variable of_int : Z -> N.
Variable ragged : bool.
Variable ov : option (list Z).
Variable fmt : bool.
Notation old_read := (old_read codec num8 rk of_int ragged).
Notation old_load := (old_load codec num8 rk of_int ragged).
Notation load := (load codec num8 rk ragged old_load).
Notation book := (book N (@loaded N)).
Notation reads := (reads codec 45 ov).
Notation usable := (usable codec 45 ov).
Notation ready := (ready codec 45 ov).

Record able4 (cp : option Z) (off : bool) (names : list (list Z)) (ls : list (@loaded N)) (b : book) : Prop := {
  a4_state : state fmt ls b;
  a4_ready : ready cp (bk_enc b);
  a4_inv : enc_inv b;
  a4_off : off = true -> exists o, bk_offset b = Some o;
  a4_defined : bk_names b = [];
  a4_sheets : exists before, sl_names (bk_sheets b) = before ++ names /\ zlen before = zlen ls;
  a4_visible : zlen (sl_visibility (bk_sheets b)) = zlen (sl_names (bk_sheets b)) }.

Lemma able_fine : forall cp off names ls b, able4 cp off names ls b -> fine codec 45 ov (g_countries (bk_shared b)) cp b.
Proof.
  intros cp off names ls b [[S1 S2 S3 S4 S5 S6] A2 A3 A4 A5 A6 A7]. constructor; auto.
Qed.

Lemma derive_4w : forall cp off names ls b, able4 cp off names ls b -> usable cp ->
  exists b', derive codec b = Ok b' /\ able4 cp off names ls b' /\ encoded b' /\ bk_sheets b' = bk_sheets b.
Proof.
  intros cp off names ls b A U. destruct (derive_fine codec 45 ov cp _ (a4_ready _ _ _ _ _ A) U) as (s & D & R).
  pose proof (st_bv _ _ _ (a4_state _ _ _ _ _ A)) as E.
  assert (ED : derive codec b = Ok (with_enc b s)) by (unfold derive; rewrite E, D; reflexivity).
  pose proof (derive_encoded codec _ _ ED) as Q. pose proof (alone_state _ _ _ _ (derive_alone codec _ _ ED) (a4_state _ _ _ _ _ A)) as ST.
  exists (with_enc b s). split; [exact ED|]. split; [|split; [exact Q|reflexivity]].
  destruct A as [A1 A2 A3 A4 A5 A6 A7]. constructor; auto. apply encoded_inv. exact Q.
Qed.

Lemma decodes_4w : forall cp off names ls b raw t, able4 cp off names ls b -> encoded b -> reads cp raw t -> unicode codec (en_encoding (bk_enc b)) raw = Ok t.
Proof.
  intros cp off names ls b raw t A Q (U & e & EF & D). pose proof (st_bv _ _ _ (a4_state _ _ _ _ _ A)) as E.
  destruct (a4_ready _ _ _ _ _ A) as (OV & CP & _). assert (en_codepage (bk_enc b) = cp) as CP' by (destruct CP as [CP|[CP _]]; [exact CP|lia]).
  rewrite (Q ltac:(lia) e); [exact D|]. rewrite E, OV, CP'. exact EF.
Qed.

(** One record of the globals. *)
Lemma global_fine : forall cp off names ls b mem pos rc d l, able4 cp off names ls b -> rc <> 0x0a -> rc <> 0x8f -> rc <> 0xfc ->
  opens_4w codec rk ov fmt cp off names (Global (rc, d) :: l) ->
  exists b' cp' off' names', gstep codec load b mem pos rc d = Ok (b', pos) /\ able4 cp' off' names' ls b' /\ opens_4w codec rk ov fmt cp' off' names' l.
Proof.
  intros cp off names ls b mem pos rc d l A NE N8 NS O. cbn [opens_4w] in O. pose proof (st_bv _ _ _ (a4_state _ _ _ _ _ A)) as BV.
  assert (GO : forall b' cp' off' names', gstep codec load b mem pos rc d = Ok (b', pos) -> ready cp' (bk_enc b') -> enc_inv b' ->
    (off' = true -> exists o, bk_offset b' = Some o) -> bk_names b' = [] ->
    (exists before, sl_names (bk_sheets b') = before ++ names' /\ zlen before = zlen ls) -> zlen (sl_visibility (bk_sheets b')) = zlen (sl_names (bk_sheets b')) ->
    opens_4w codec rk ov fmt cp' off' names' l ->
    exists b' cp' off' names', gstep codec load b mem pos rc d = Ok (b', pos) /\ able4 cp' off' names' ls b' /\ opens_4w codec rk ov fmt cp' off' names' l).
  { intros b' cp' off' names' E R I OF DN SN SV OO. exists b', cp', off', names'. split; [exact E|]. split; [|exact OO].
    destruct (gstep_alone codec num8 rk of_int _ _ _ _ _ _ _ _ E BV N8 NS) as [LA _]. constructor; auto. exact (alone_state _ _ _ _ LA (a4_state _ _ _ _ _ A)). }
  pose proof (able_fine _ _ _ _ _ A) as FI.
  destruct (Z.eqb_spec rc 0x42) as [->|N42].
  { destruct O as (p & extra & -> & UP & US & O).
    destruct (a4_ready _ _ _ _ _ A) as (OV & CP & RA).
    assert (R : ready (Some p) (with_codepage (bk_enc b) p)) by (split; [exact OV|]; split; [left; reflexivity|exact RA]).
    destruct (derive_fine codec 45 ov (Some p) _ R US) as (e & ED & R').
    assert (encoded (with_enc b e)) as Q.
    { apply (derive_encoded codec (with_enc b (with_codepage (bk_enc b) p))). unfold derive. change (bk_bv (with_enc b (with_codepage (bk_enc b) p))) with (bk_bv b).
      change (bk_enc (with_enc b (with_codepage (bk_enc b) p))) with (with_codepage (bk_enc b) p). rewrite BV, ED. reflexivity. }
    destruct A as [A1 A2 A3 A4 A5 A6 A7]. apply (GO (with_enc b e) (Some p) off names); auto; [|apply encoded_inv; exact Q].
    change (gstep codec load b mem pos 0x42 ?x) with (do b1 <- (do s <- handle_codepage codec (bk_bv b) (bk_enc b) x; Ok (with_enc b s)); Ok (b1, pos)).
    unfold handle_codepage. rewrite (At_u16 _ extra p 0 (At_0 _) UP), bind_Ok. rewrite BV, ED. reflexivity. }
  destruct (Z.eqb_spec rc 0x8e) as [->|N8E].
  { destruct O as [L O]. destruct A as [A1 A2 A3 A4 A5 A6 A7]. destruct (unpack_i32_fits d 0 ltac:(lia) ltac:(lia)) as (o & EO).
    apply (GO (with_offset b o) cp true names); auto.
    - change (gstep codec load b mem pos 0x8e d) with (do b1 <- (do _ <- guard (zlen d =? 4) StructError; do o <- unpack_i32 d 0; Ok (with_offset b o)); Ok (b1, pos)).
      replace (zlen d =? 4) with true by lia. rewrite EO. reflexivity.
    - intros _. exists o. reflexivity. }
  destruct (Z.eqb_spec rc 0x85) as [->|N85].
  { destruct O as (OF & raw & extra & t & -> & L & RD & O). destruct (derive_4w _ _ _ _ _ A (proj1 RD)) as (b1 & ED & A1 & Q & ES).
    pose proof (st_bv _ _ _ (a4_state _ _ _ _ _ A1)) as BV1. destruct (a4_off _ _ _ _ _ A1 OF) as (o & EO).
    set (x := zlen raw :: raw ++ extra) in *.
    assert (exists posn, handle_boundsheet codec (bk_bv b1) (bk_base b1) (bk_offset b1) (en_encoding (bk_enc b1)) (bk_sheets b1) x =
      Ok (mk_shst (sl_names (bk_sheets b1) ++ [t]) (sl_visibility (bk_sheets b1) ++ [0]) (sl_posn (bk_sheets b1) ++ [posn])
            (sl_allmap (bk_sheets b1) ++ [zlen (sl_names (bk_sheets b1))]) (dset (sl_num (bk_sheets b1)) t (zlen (sl_names (bk_sheets b1)))))) as (posn & EH).
    { unfold handle_boundsheet. rewrite BV1. change (45 =? 45) with true. cbv iota. unfold x.
      rewrite (string_at _ _ 0 raw extra (At_0 _) L). rewrite (decodes_4w _ _ _ _ _ _ _ A1 Q RD). cbn [bind]. rewrite EO.
      destruct (zlen (sl_posn (bk_sheets b1)) =? 0); cbn [bind]; eexists; reflexivity. }
    match type of EH with _ = Ok ?y => set (sh := y) in * end.
    destruct (a4_sheets _ _ _ _ _ A1) as (before & EN & LB). destruct A1 as [S1 S2 S3 S4 S5 S6 S7].
    apply (GO (with_sheets b1 sh) cp off (names ++ [t])); auto.
    - change (gstep codec load b mem pos 0x85 x) with (do b3 <- (do b2 <- derive codec b;
          do s <- handle_boundsheet codec (bk_bv b2) (bk_base b2) (bk_offset b2) (en_encoding (bk_enc b2)) (bk_sheets b2) x; Ok (with_sheets b2 s)); Ok (b3, pos)).
      rewrite ED, bind_Ok, EH. reflexivity.
    - exists before. split; [|exact LB]. change (sl_names (bk_sheets b1) ++ [t] = before ++ names ++ [t]). rewrite EN, <- app_assoc. reflexivity.
    - change (zlen (sl_visibility (bk_sheets b1) ++ [0]) = zlen (sl_names (bk_sheets b1) ++ [t])). rewrite !zlen_app, S7. reflexivity. }
  destruct (Z.eqb_spec rc 0x22) as [->|N22].
  { destruct O as [(m & extra & M & ->) O]. destruct A as [A1 A2 A3 A4 A5 A6 A7]. set (x := le_enc 2 m ++ extra) in *.
    assert (exists b', handle_datemode b x = Ok b' /\ bk_enc b' = bk_enc b /\ bk_bv b' = bk_bv b /\ bk_offset b' = bk_offset b /\ bk_names b' = bk_names b /\ bk_sheets b' = bk_sheets b)
      as (b' & EM & K1 & K2 & K3 & K4 & K5).
    { unfold handle_datemode, x. rewrite (At_u16 _ extra m 0 (At_0 _)) by (unfold u16v; lia). cbn [bind]. replace ((m =? 0) || (m =? 1)) with true by lia. cbn [guard bind].
      eexists. split; [reflexivity|]. repeat split. }
    apply (GO b' cp off names); rewrite ?K1, ?K3, ?K4, ?K5; auto.
    - change (gstep codec load b mem pos 0x22 x) with (do b1 <- handle_datemode b x; Ok (b1, pos)). rewrite EM. reflexivity.
    - unfold enc_inv, encoded in *. rewrite K1, K2. exact A3. }
  destruct (Z.eqb_spec rc 0x5c) as [->|N5C].
  { destruct O as (U & UB & O). destruct (user_fine codec 45 ov load _ cp b d FI U UB) as (s & ES & R). rewrite BV in ES.
    assert (KE : en_encoding s = en_encoding (bk_enc b) /\ en_override s = en_override (bk_enc b) /\ en_codepage s = en_codepage (bk_enc b)).
    { unfold handle_writeaccess in ES. change (45 <? 80) with true in ES. cbv iota in ES. destruct (negb _); [injection ES as <-; repeat split|].
      apply bind_ok in ES as (strg & _ & ES). injection ES as <-. repeat split. }
    destruct KE as (K1 & K2 & K3). destruct A as [A1 A2 A3 A4 A5 A6 A7]. apply (GO (with_enc b s) cp off names); auto.
    - change (gstep codec load b mem pos 0x5c d) with (do b1 <- (do s <- handle_writeaccess codec (bk_bv b) (bk_enc b) d; Ok (with_enc b s)); Ok (b1, pos)).
      rewrite BV, ES. reflexivity.
    - unfold enc_inv, encoded in *. change (bk_enc (with_enc b s)) with s. change (bk_bv (with_enc b s)) with (bk_bv b). rewrite K1, K2, K3. exact A3. }
  destruct O as [NI O]. unfold meaningful_4w in NI. cbn [In] in NI. destruct A as [A1 A2 A3 A4 A5 A6 A7].
  destruct (Z.eqb_spec rc 0x23) as [->|N23].
  { apply (GO (with_refs b (bk_refs b)) cp off names); auto.
    change (gstep codec load b mem pos 0x23 d) with (do b1 <- (do r <- handle_externname (bk_bv b) (bk_refs b) d; Ok (with_refs b r)); Ok (b1, pos)).
    unfold handle_externname. rewrite BV. reflexivity. }
  apply (GO b cp off names); auto. unfold gstep. cbv zeta. rewrite BV.
  repeat match goal with |- context [rc =? ?k] => replace (rc =? k) with false by lia end. cbn [orb]. destruct (rc =? 0x18); reflexivity.
Qed.

(** A worksheet. *)
Lemma worksheet_fine : forall cp off names ls b mem pos name op body recs l t, bytes mem -> 0 <= pos -> able4 cp off names ls b ->
  part_ok (Worksheet name op body recs) -> At mem pos (substream op body recs ++ t) ->
  opens_4w codec rk ov fmt cp off names (Worksheet name op body recs :: l) ->
  exists b' cp' names' s, handle_sheethdr codec load b mem pos (le_enc 4 (zlen (substream op body recs)) ++ [zlen name] ++ name) = Ok (b', pos + zlen (substream op body recs)) /\
    able4 cp' off names' (ls ++ [s]) b' /\ opens_4w codec rk ov fmt cp' off names' l.
Proof.
  intros cp off names ls b mem pos name op body recs l t B P A PO AM O.
  cbn [opens_4w] in O. destruct O as (nm & later & items & -> & RD & -> & OK & SF & FF & G & O).
  pose proof PO as (K1 & K2 & K3 & K4 & K5 & v & K6).
  set (recs := flat_map oenc items) in *. set (sub := substream op body recs) in *. pose proof (zlen_nonneg sub) as NS. pose proof (zlen_nonneg name) as NN.
  destruct (derive_4w _ _ _ _ _ A (proj1 RD)) as (b1 & ED & A1 & Q & _).
  set (hdr := le_enc 4 (zlen sub) ++ [zlen name] ++ name).
  destruct (a4_sheets _ _ _ _ _ A1) as (before & EN & LB). pose proof (a4_visible _ _ _ _ _ A1) as VIS.
  destruct (a4_state _ _ _ _ _ A1) as [S1 S2 S3 S4 S5 S6]. pose proof (zlen_nonneg ls) as NL. pose proof (zlen_nonneg before) as NB. pose proof (zlen_nonneg later) as NLA.
  assert (LN : zlen (sl_names (bk_sheets b1)) = zlen ls + 1 + zlen later) by (rewrite EN, zlen_app, zlen_cons; lia).
  assert (HN : unpack_string (unicode codec (en_encoding (bk_enc b1))) hdr 4 1 = Ok nm).
  { assert (At hdr 4 (zlen name :: name ++ [])) as AH by (exists (le_enc 4 (zlen sub)); split; [unfold hdr; rewrite app_nil_r; reflexivity|rewrite zlen_le_enc; reflexivity]).
    rewrite (string_at _ _ _ _ _ AH K1). exact (decodes_4w _ _ _ _ _ _ _ A1 Q RD). }
  assert (HE : py_index (sl_names (bk_sheets b1)) (zlen ls) = Ok nm).
  { rewrite EN, <- LB. unfold py_index. rewrite zlen_app, zlen_cons. replace (zlen before <? 0) with false by lia.
    rewrite znth_app_r by lia. rewrite Z.sub_diag. reflexivity. }
  assert (exists vis, py_index (sl_visibility (bk_sheets b1)) (zlen ls) = Ok vis) as (vis & HV).
  { unfold py_index. replace (zlen ls <? 0) with false by lia. destruct (znth_in_range (sl_visibility (bk_sheets b1)) (zlen ls)) as (vis & ->); [lia|]. eauto. }
  assert (GB : getbof mem pos XL_WORKSHEET = Ok (v, pos + 4 + zlen body)).
  { apply c47_getbof; [exact B|exact P|]. exists op, body. split.
    { destruct AM as (x & E & L). exists x, (frames (recs ++ [(0x0A, [])]) ++ t). split; [|congruence]. rewrite E. unfold sub, substream, frame. cbn [fst snd].
      rewrite <- !app_assoc. reflexivity. }
    split; [exact K4|]. split; [exact K6|]. split; [left; exact K5|reflexivity]. }
  set (b2 := with_list (with_fmt (with_hdr b1 (bk_hdr b1 + 1)) (initialise_format_info (bk_fmt (with_hdr b1 (bk_hdr b1 + 1)))))
    (bk_list (with_fmt (with_hdr b1 (bk_hdr b1 + 1)) (initialise_format_info (bk_fmt (with_hdr b1 (bk_hdr b1 + 1))))) ++ [None])).
  assert (F : fresh 45 b2) by (constructor; [exact S1|exact S2|cbn [In]; tauto|reflexivity|reflexivity|reflexivity]).
  assert (exists rest, stream mem (pos + 4 + zlen body) = map rec_of recs ++ (XL_EOF, 0, []) :: rest) as (rest & ES).
  { destruct AM as (x & E & L). assert (HF2 : Forall framable (recs ++ [(0x0A, [])])) by (apply Forall_app; split; [exact K3|constructor; [split; [cbn [fst]; lia|reflexivity]|constructor]]).
    assert (EM : mem = (x ++ frame (op, body)) ++ frames (recs ++ [(0x0A, [])]) ++ t) by (rewrite E; unfold sub, substream; rewrite <- !app_assoc; reflexivity).
    pose proof B as B'. rewrite EM in B'. pose proof (stream_frames _ _ _ HF2 B') as K. rewrite <- EM in K.
    replace (pos + 4 + zlen body) with (zlen (x ++ frame (op, body))) by (rewrite zlen_app; rewrite frame_zlen; cbn [snd]; lia).
    rewrite K, map_app, <- app_assoc. eexists. reflexivity. }
  assert (R2 : ready cp (bk_enc b2)) by exact (a4_ready _ _ _ _ _ A1).
  assert (I2 : enc_inv b2) by exact (a4_inv _ _ _ _ _ A1).
  destruct (read_fine codec num8 rk of_int ragged 45 ov fmt [] cp b2 items 0 [] rest ltac:(cbn; lia) F S3 R2 I2 OK SF FF G) as (s & ER & R3 & I3 & BV3).
  assert (HL : exists g sh, load b2 mem (pos + 4 + zlen body) nm (zlen ls) = Ok (g, sh) /\ g_enc g = bk_enc (os_book s)).
  { unfold BookApi.load. change (bk_bv b2) with (bk_bv b1). rewrite S1. cbn [Z.leb Z.compare Pos.compare Pos.compare_cont].
    unfold OldSheet.old_load. change (bk_sheets b2) with (bk_sheets b1). rewrite HV. cbn [bind].
    change (records_of (S (2 * List.length mem)) mem (pos + 4 + zlen body)) with (stream mem (pos + 4 + zlen body)). rewrite ES. fold recs in ER. rewrite ER. cbn [bind]. cbv zeta.
    do 2 eexists. split; reflexivity. }
  destruct HL as (g & sh & HL & EG).
  assert (LS : list_set (bk_list (with_shared b2 g)) (zlen ls) (Some sh) = Ok (map Some ls ++ [Some sh])).
  { change (bk_list (with_shared b2 g)) with (bk_list b1 ++ [None]). rewrite S5.
    assert (LM : zlen ls = zlen (map (@Some (@loaded N)) ls)) by (unfold zlen; rewrite map_length; reflexivity). rewrite LM at 1. apply set_last. }
  set (b3 := with_list (with_shared b2 g) (map Some ls ++ [Some sh])).
  assert (EB : handle_sheethdr codec load b mem pos hdr = Ok (b3, pos + zlen sub)).
  { unfold handle_sheethdr. rewrite ED, bind_Ok.
    assert (A0 : At hdr 0 (le_enc 4 (zlen sub) ++ [zlen name] ++ name)) by (exists []; auto).
    rewrite (At_i32_pos _ _ _ _ A0) by lia. rewrite bind_Ok, HN, bind_Ok. cbv zeta. rewrite <- S4 in HE, HL, LS. rewrite HE, bind_Ok.
    replace (list_eqb nm nm) with true by (symmetry; apply list_eqb_refl). cbn [guard]. rewrite bind_Ok, GB, bind_Ok. fold b2. rewrite HL, bind_Ok, LS, bind_Ok. reflexivity. }
  destruct (sheethdr_state codec num8 rk of_int ragged fmt ls b mem pos name op body recs t b3 _ B P (a4_state _ _ _ _ _ A) PO AM EB) as (_ & l0 & ST & _).
  exists b3, (last_page cp items), later, l0. split; [exact EB|]. split; [|exact O]. constructor.
  - exact ST.
  - change (bk_enc b3) with (g_enc g). rewrite EG. exact R3.
  - intros V. change (bk_enc b3) with (g_enc g). rewrite EG.
    assert (VV : bk_bv (os_book s) = 45) by (exact BV3).
    destruct (I3 ltac:(lia)) as [X|X]; [left; exact X|right]. intros _ e EF. change (bk_enc b3) with (g_enc g) in *. rewrite EG in *. apply X; [lia|].
    rewrite VV. change (bk_bv b3) with (bk_bv b1) in EF. rewrite S1 in EF. exact EF.
  - intros OF. exact (a4_off _ _ _ _ _ A1 OF).
  - exact (a4_defined _ _ _ _ _ A1).
  - exists (before ++ [nm]). split; [change (sl_names (bk_sheets b3)) with (sl_names (bk_sheets b1)); rewrite EN, <- app_assoc; reflexivity|]. rewrite !zlen_app, LB. reflexivity.
  - exact VIS.
Qed.

Lemma globals_open : forall ops lower mem t, bytes mem -> forall parts fuel cp off names ls b pos, Forall part_ok parts -> 0 <= pos ->
  At mem pos (flat_map part_bytes parts ++ frame (0x0A, []) ++ t) -> able4 cp off names ls b -> opens_4w codec rk ov fmt cp off names parts ->
  (List.length parts < fuel)%nat -> exists r, globals codec ops lower load fuel b mem pos = Ok r.
Proof.
  intros ops lower mem t B. induction parts as [|part parts IH]; intros fuel cp off names ls b pos OK P A AB O L; (destruct fuel as [|fuel]; [cbn in L; lia|]); cbn [globals].
  - cbn [flat_map app] in A. rewrite (At_frame _ _ _ _ A) by (split; [cbn [fst]; lia|reflexivity]). cbn [bind fst snd]. change (0x0A =? 0x0A) with true. cbv iota.
    cbn [opens_4w] in O. destruct (end_fine codec 45 ov (g_countries (bk_shared b)) ops lower cp b (able_fine _ _ _ _ _ AB) O) as (b' & E). rewrite E. cbn [bind]. eauto.
  - inversion OK as [|? ? K1 K2]; subst. cbn [flat_map] in A. rewrite <- app_assoc in A. cbn [List.length] in L. destruct part as [[rc d]|name op body recs].
    + destruct K1 as (F & N1 & N2 & N3). cbn [part_bytes] in A. cbn [fst] in N1, N2, N3. rewrite (At_frame _ _ _ _ A F). cbn [bind fst snd]. replace (rc =? 0x0A) with false by lia.
      destruct (global_fine _ _ _ _ _ mem (pos + zlen (frame (rc, d))) _ _ _ AB N1 N2 N3 O) as (b' & cp' & off' & names' & E & AB' & O'). rewrite E. cbn [bind].
      pose proof (zlen_nonneg (frame (rc, d))) as NF. eapply IH; [exact K2| |exact (At_skip _ _ _ _ _ A eq_refl)|exact AB'|exact O'|]; lia.
    + set (sub := substream op body recs) in *. set (hdr := le_enc 4 (zlen sub) ++ [zlen name] ++ name) in *.
      cbn [part_bytes] in A. fold sub in A. fold hdr in A. rewrite <- app_assoc in A.
      assert (F : framable (0x8F, hdr)).
      { split; [cbn [fst]; lia|]. cbn [snd]. unfold hdr. rewrite !zlen_app, zlen_le_enc. destruct K1 as [K1 _]. change (zlen [zlen name]) with 1. pose proof (zlen_nonneg name). lia. }
      rewrite (At_frame _ _ _ _ A F). cbn [bind fst snd]. change (0x8F =? 0x0A) with false. cbv iota.
      pose proof (At_skip _ _ _ _ _ A eq_refl) as A1. pose proof (zlen_nonneg (frame (0x8F, hdr))) as NF. pose proof (zlen_nonneg sub) as NS.
      change (gstep codec load b mem (pos + zlen (frame (0x8F, hdr))) 0x8F hdr) with (handle_sheethdr codec load b mem (pos + zlen (frame (0x8F, hdr))) hdr).
      assert (P1 : 0 <= pos + zlen (frame (0x8F, hdr))) by lia.
      destruct (worksheet_fine _ _ _ _ _ mem _ name op body recs parts _ B P1 AB K1 A1 O) as (b' & cp' & names' & s & E & AB' & O').
      fold sub in E. fold hdr in E. rewrite E. cbn [bind].
      eapply IH; [exact K2| |exact (At_skip _ _ _ _ _ A1 eq_refl)|exact AB'|exact O'|]; lia.
Qed.

Lemma opens_file : forall ops lower fuel depth body parts t od ignore,
  let file := workbook_4w body parts t in
  bytes file -> 4 <= zlen body <= 20 -> word body 1 = 0x100 -> Forall part_ok parts -> opens_4w codec rk ov fmt None false [] parts -> (List.length parts < fuel)%nat ->
  exists a, open_workbook_xls codec ops lower num8 rk ragged old_load fuel depth file ov fmt od ignore = Ok a.
Proof.
  intros ops lower fuel depth body parts t od ignore file B LB W OK O LF.
  assert (GB : getbof file 0 5 = Ok (45, 4 + zlen body)).
  { apply c47_getbof; [exact B|lia|]. exists 0x409, body. split.
    { exists [], (flat_map part_bytes parts ++ frame (0x0A, []) ++ t). split; [|reflexivity]. unfold file, workbook_4w, frame. cbn [fst snd app]. rewrite <- !app_assoc. reflexivity. }
    split; [exact LB|]. split; [apply Biff4W; exact W|]. split; [|lia]. unfold right_stream. rewrite W. right. left. repeat split. }
  unfold open_workbook_xls.
  assert (zlen file =? 0 = false) as ->.
  { apply Z.eqb_neq. unfold file, workbook_4w. rewrite zlen_app, frame_zlen. cbn [snd]. match goal with |- context [_ + zlen ?y] => pose proof (zlen_nonneg y) end. lia. }
  cbn [negb guard bind].
  assert (find_stream lower fuel depth file ignore = Ok (file, 0)) as ->.
  { unfold find_stream. replace (list_eqb (py_slice file 0 8) SIGNATURE) with false; [reflexivity|].
    symmetry. apply not_true_is_false. intros E. apply list_eqb_eq in E.
    assert (E0 : znth (py_slice file 0 8) 0 = Some 9).
    { unfold file, workbook_4w, frame. cbn [fst snd]. rewrite <- !app_assoc. cbn [le_enc app]. destruct body as [|b0 [|b1 [|b2 [|b3 body]]]]; try (exfalso; cbn in LB; lia).
      match goal with |- context [py_slice (?x0 :: ?x1 :: ?x2 :: ?x3 :: (?x4 :: ?x5 :: ?x6 :: ?x7 :: ?l) ++ ?l') 0 8] =>
        change (x0 :: x1 :: x2 :: x3 :: (x4 :: x5 :: x6 :: x7 :: l) ++ l') with ([x0; x1; x2; x3; x4; x5; x6; x7] ++ (l ++ l')) end.
      rewrite py_slice_pre by reflexivity. reflexivity. }
    rewrite E in E0. clear - E0. vm_compute in E0. discriminate E0. }
  cbn [bind]. unfold open_stream. change XL_WORKBOOK_GLOBALS with 5. rewrite GB. cbn [bind].
  change (45 =? 0) with false. change (existsb (Z.eqb 45) SUPPORTED_VERSIONS) with true. cbn [negb guard bind].
  destruct (book0_fine (N := N) 45 0 fmt ov ltac:(cbn [In]; tauto)) as (b0 & HB & EN). rewrite HB. cbn [bind].
  change (45 <=? 40) with false. change (45 =? 45) with true. cbv iota.
  assert (AB : able4 None false [] [] b0).
  { assert (ST : state fmt [] b0).
    { pose proof HB as HB'. unfold book0, fbook0 in HB'. apply bind_ok in HB' as (f & HF & HB'). apply bind_ok in HF as (m & HM & HF). injection HF as <-. injection HB' as <-.
      constructor; try reflexivity. intros i l K. unfold znth in K. destruct (i <? 0); [discriminate K|]. destruct (Z.to_nat i); discriminate K. }
    constructor; [exact ST| | |discriminate| | |].
    - rewrite EN. split; [reflexivity|]. split; [left; reflexivity|discriminate].
    - intros _. left. rewrite EN. reflexivity.
    - unfold book0 in HB. apply bind_ok in HB as (f & _ & HB). injection HB as <-. reflexivity.
    - unfold book0 in HB. apply bind_ok in HB as (f & _ & HB). injection HB as <-. exists []. split; reflexivity.
    - unfold book0 in HB. apply bind_ok in HB as (f & _ & HB). injection HB as <-. reflexivity. }
  assert (A : At file (4 + zlen body) (flat_map part_bytes parts ++ frame (0x0A, []) ++ t)).
  { exists (frame (0x409, body)). split; [reflexivity|]. rewrite frame_zlen. reflexivity. }
  pose proof (zlen_nonneg body) as NB.
  destruct (globals_open ops lower file t B parts fuel None false [] [] b0 (4 + zlen body) OK ltac:(lia) A AB O LF) as ([b1 q] & ->). cbn [bind]. eauto.
Qed.
End Opens.

(** ** C109: a well-formed BIFF4W workbook opens, with every worksheet that is in it *)
Theorem c109_open : forall {N} codec (num8 : list Z -> N) rk of_int ragged ops lower fuel depth body parts t override fmt od ignore,
  let file := workbook_4w body parts t in
  bytes file -> 4 <= zlen body <= 20 -> word body 1 = 0x100 -> Forall part_ok parts ->
  opens_4w codec rk override fmt None false [] parts -> (List.length parts < fuel)%nat ->
  exists a, open_workbook_xls codec ops lower num8 rk ragged (old_load codec num8 rk of_int ragged) fuel depth file override fmt od ignore = Ok a /\
    a_mem a = None /\ nsheets a = zlen (worksheets parts) /\
    forall i name items, znth (worksheets parts) i = Some (name, flat_map oenc items) -> Forall (oitem_ok 45) items -> settings_first items -> formats_first items ->
      exists l b s rest, znth (bk_list (a_book a)) i = Some (Some l) /\ ls_number l = i /\ znth (sl_names (bk_sheets (a_book a))) i = Some (ls_name l) /\
        (exists enc, codec enc name = Ok (ls_name l)) /\
        PropOldSheet.fresh 45 b /\ old_read codec num8 rk of_int ragged b (map rec_of (flat_map oenc items) ++ (0x0A, 0, []) :: rest) = Ok s /\
        sheet_holds codec num8 rk of_int 45 (os_fmt s) (en_encoding (bk_enc (os_book s))) fmt items (ls_sheet l).
Proof.
  intros N codec num8 rk of_int ragged ops lower fuel depth body parts t ov fmt od ignore file B LB W OK O LF.
  destruct (opens_file codec num8 rk of_int ragged ov fmt ops lower fuel depth body parts t od ignore B LB W OK O LF) as (a & H). exists a. split; [exact H|].
  destruct (c107_sheets codec num8 rk of_int ragged _ _ _ _ _ _ _ _ _ _ _ _ B LB W OK H) as (EM & ls & EL & FA & NU). split; [exact EM|].
  split. { unfold nsheets. rewrite EL. clear - FA. unfold zlen. rewrite map_length. f_equal. induction FA; cbn; congruence. }
  intros i name items HI O1 O2 O3.
  destruct (zip_znth of_int _ _ _ FA _ _ HI) as (l & HL & ((enc & EC) & b & s & rest & F & FM & HR & ES)).
  exists l, b, s, rest. split; [rewrite EL, znth_map, HL; reflexivity|].
  destruct (NU i l HL) as (N1 & N2 & _). split; [exact N1|]. split; [exact N2|]. split; [exists enc; exact EC|]. split; [exact F|]. split; [exact HR|]. rewrite ES, <- FM.
  exact (proj1 (read_holds _ _ _ _ _ _ _ _ _ _ _ _ F O1 O2 O3 HR)).
Qed.
Print Assumptions c109_open.

(** The workbook of the examples of C107. *)
Example c109_hypotheses : opens_4w (fun _ b => Ok b) (fun b => Ok (le_val b)) None true None false [] ExFourW.parts /\ (List.length ExFourW.parts < 300)%nat.
Proof.
  split; [|cbn; lia].
  assert (US : forall cp, usable (fun _ b => Ok b) 45 None cp) by (intros cp; right; intros e _; right; eexists; reflexivity).
  assert (RE : forall raw, reads (fun _ b => Ok b) 45 None None raw raw).
  { intros raw. split; [apply US|]. destruct (encoding_exists 45 None None) as (e & E). exists e. split; [exact E|reflexivity]. }
  unfold ExFourW.parts. cbn [opens_4w Z.eqb Pos.eqb].
  split; [reflexivity|]. split; [reflexivity|]. exists [97], [], [97]. split; [reflexivity|]. split; [reflexivity|]. split; [apply RE|].
  split; [reflexivity|]. exists [98], [], [98]. split; [reflexivity|]. split; [reflexivity|]. split; [apply RE|].
  destruct c107_hypotheses as (_ & _ & _ & _ & _ & H1 & H2 & H3).
  exists [97], [[98]], ExFourW.items. split; [reflexivity|]. split; [apply RE|]. split; [reflexivity|]. split; [exact H1|]. split; [exact H2|]. split; [exact H3|]. split.
  { cbn [good ExFourW.items Z.eqb Pos.eqb]. split; [apply S_xf; [reflexivity|vm_compute; discriminate]|]. split; [cbn; lia|]. split; [exact I|].
    split; [|exact I]. apply (N_long _ _ _ _ _ _ _ 10); [cbn; tauto|vm_compute; discriminate]. }
  split; [vm_compute; intuition discriminate|].
  exists [98], [], [ONoise 0x7D [3; 0; 3; 0; 0; 9; 15; 0; 0; 0]]. split; [reflexivity|]. split; [apply RE|]. split; [reflexivity|].
  split; [constructor; [vm_compute; reflexivity|constructor]|]. split; [vm_compute; auto|]. split; [vm_compute; auto|]. split.
  { cbn [good]. split; [|exact I]. apply (N_long _ _ _ _ _ _ _ 10); [cbn; tauto|vm_compute; discriminate]. }
  apply US.
Qed.
