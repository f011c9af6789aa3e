(** Property theorems C107: workbooks of BIFF4W, which have several worksheets in one
    stream.  Each worksheet follows a SHEETHDR record with its length and name. *)
From Verif Require Import Base BaseFacts Text Strings Framing GridModel GridFacts PropGrid SheetObjects SheetModel SheetFacts
  SheetSteps PropSheet PropDemand PropRead SheetTrace PropView PropRowCol SheetOwn FormatModel FormatFacts FormulaModel BookModel BookApi BookFacts BookSheets PropFormat PropBof
  CompDoc PropChain PropFormulaText OldSheet OldContent OldXf OldRead OldTrace PropOldSheet PropOldView PropAttrs PropOldOwn.

(** ** Specification *)

(** A part of the stream: a record of the globals, or a worksheet with its name. *)
Inductive part : Type :=
| Global (r : Z * list Z)
| Worksheet (name : list Z) (op : Z) (body : list Z) (recs : list (Z * list Z)).

Definition substream (op : Z) (body : list Z) (recs : list (Z * list Z)) : list Z := frame (op, body) ++ frames (recs ++ [(0x0A, [])]).
Definition part_bytes (p : part) : list Z :=
  match p with
  | Global r => frame r
  | Worksheet name op body recs =>
      frame (0x8F, le_enc 4 (zlen (substream op body recs)) ++ [zlen name] ++ name) ++ substream op body recs
  end.
Definition workbook_4w (body : list Z) (parts : list part) (t : list Z) : list Z :=
  frame (0x409, body) ++ flat_map part_bytes parts ++ frame (0x0A, []) ++ t.

(** The records of the globals are none of EOF, SHEETHDR and SST (SST belongs to BIFF8). *)
Definition part_ok (p : part) : Prop :=
  match p with
  | Global r => framable r /\ fst r <> 0x0A /\ fst r <> 0x8F /\ fst r <> 0xFC
  | Worksheet name op body recs =>
      zlen name < 256 /\ zlen (substream op body recs) < 2 ^ 31 /\ Forall framable recs /\
      4 <= zlen body <= 20 /\ word body 1 = 0x10 /\ exists v, bof_says body op v
  end.

Definition worksheets (parts : list part) : list (list Z * list (Z * list Z)) :=
  flat_map (fun p => match p with Global _ => [] | Worksheet name _ _ recs => [(name, recs)] end) parts.

(** ** Proofs *)

Lemma set_last : forall {A} (m : list A) x y, list_set (m ++ [x]) (zlen m) y = Ok (m ++ [y]).
Proof.
  intros A m x y. rewrite list_set_spec by (rewrite zlen_app; cbn; pose proof (zlen_nonneg m); lia). f_equal.
  assert (LN : Z.to_nat (zlen m) = List.length m) by (unfold zlen; lia). rewrite LN. clear LN. induction m as [|a m IH]; [reflexivity|]. cbn [List.length app firstn skipn] in *. f_equal. exact IH.
Qed.

Section FourW.
Context {N : Type}.
Variable codec : list Z -> list Z -> result (list Z).
Variable num8 : list Z -> N.
Variable rk : list Z -> result N.
Variable of_int : Z -> N.
Variable ragged : bool.
Notation loaded := (@loaded N).
Notation book := (book N loaded).
Notation old_read := (old_read codec num8 rk of_int ragged).
Notation old_load := (old_load codec num8 rk of_int ragged).
Notation load := (load codec num8 rk ragged old_load).

(** What a worksheet of the file has become. *)
Definition became (fmt : bool) (w : list Z * list (Z * list Z)) (l : loaded) : Prop :=
  (exists enc, codec enc (fst w) = Ok (ls_name l)) /\
  exists b s rest, fresh 45 b /\ b_fmt (bk_fmt b) = fmt /\ old_read b (map rec_of (snd w) ++ (0x0A, 0, []) :: rest) = Ok s /\ ls_sheet l = os_sheet s.

(** The sheets have their numbers, and the names and visibility that the workbook has for them. *)
Definition numbered (b : book) (ls : list loaded) : Prop := forall i l, znth ls i = Some l ->
  ls_number l = i /\ znth (sl_names (bk_sheets b)) i = Some (ls_name l) /\ znth (sl_visibility (bk_sheets b)) i = Some (ls_visibility l).

Record state (fmt : bool) (ls : list loaded) (b : book) : Prop := {
  st_bv : bk_bv b = 45;
  st_version : b_bv (bk_fmt b) = 45;
  st_fmt : b_fmt (bk_fmt b) = fmt;
  st_hdr : bk_hdr b = zlen ls;
  st_list : bk_list b = map Some ls;
  st_numbered : numbered b ls }.

(** What a record of the globals other than SHEETHDR leaves as it is. *)
Record left_alone (b b' : book) : Prop := {
  la_bv : bk_bv b' = bk_bv b;
  la_version : b_bv (bk_fmt b') = b_bv (bk_fmt b);
  la_fmt : b_fmt (bk_fmt b') = b_fmt (bk_fmt b);
  la_hdr : bk_hdr b' = bk_hdr b;
  la_list : bk_list b' = bk_list b;
  la_names : exists l, sl_names (bk_sheets b') = sl_names (bk_sheets b) ++ l;
  la_visibility : exists l, sl_visibility (bk_sheets b') = sl_visibility (bk_sheets b) ++ l }.

Lemma left_refl : forall b, left_alone b b.
Proof using. clear codec num8 rk of_int ragged. intros b. constructor; try reflexivity; exists []; symmetry; apply app_nil_r. Qed.
Lemma left_trans : forall a b c, left_alone a b -> left_alone b c -> left_alone a c.
Proof using. clear codec num8 rk of_int ragged.
  intros a b c [A1 A2 A3 A4 A5 (l1 & A6) (l2 & A7)] [B1 B2 B3 B4 B5 (l3 & B6) (l4 & B7)].
  constructor; try congruence; [exists (l1 ++ l3); rewrite B6, A6|exists (l2 ++ l4); rewrite B7, A7]; symmetry; apply app_assoc.
Qed.
Ltac alone := constructor; try reflexivity; exists []; symmetry; apply app_nil_r.

Lemma derive_alone : forall (b b' : book), derive codec b = Ok b' -> left_alone b b'.
Proof. intros b b' H. unfold derive in H. apply bind_ok in H as (e & _ & H). injection H as <-. alone. Qed.
Lemma ensure_alone : forall (b b' : book), ensure codec b = Ok b' -> left_alone b b'.
Proof. intros b b' H. unfold ensure in H. apply bind_ok in H as (e & _ & H). injection H as <-. alone. Qed.
Lemma format_alone : forall (b b' : book) r, format_record codec b r = Ok b' -> left_alone b b'.
Proof.
  intros b b' r H. unfold format_record in H. apply bind_ok in H as (b1 & E & H). apply bind_ok in H as (f & F & H). injection H as <-.
  assert (L : left_alone b b1).
  { destruct r; try (injection E as <-; apply left_refl); try (apply ensure_alone; exact E). destruct (b_fmt _); [apply ensure_alone; exact E|injection E as <-; apply left_refl]. }
  apply (left_trans _ _ _ L). destruct (step_frame _ _ _ _ F) as (F1 & F2 & _).
  constructor; try reflexivity; [exact F1|exact F2|exists []; symmetry; apply app_nil_r|exists []; symmetry; apply app_nil_r].
Qed.

Lemma gstep_alone : forall (ld : book -> list Z -> Z -> list Z -> Z -> result (shared * loaded)) b mem pos rc data b' p,
  gstep codec ld b mem pos rc data = Ok (b', p) -> bk_bv b = 45 -> rc <> 0x8F -> rc <> 0xFC -> left_alone b b' /\ p = pos.
Proof.
  intros ld b mem pos rc data b' p H BV N1 N2. unfold gstep in H. cbv zeta in H.
  assert (Stay : forall r : result book, (do b <- r; Ok (b, pos)) = Ok (b', p) -> r = Ok b' /\ p = pos).
  { intros r E. apply bind_ok in E as (? & ? & E). injection E as <- <-. auto. }
  replace (rc =? 0xfc) with false in H by lia.
  destruct ((rc =? 0x31) || (rc =? 0x231)); [apply Stay in H as [H E]; split; [exact (format_alone _ _ _ H)|exact E]|].
  destruct (rc =? 0x41e); [apply Stay in H as [H E]; split; [exact (format_alone _ _ _ H)|exact E]|].
  destruct (rc =? 0xe0); [apply Stay in H as [H E]; split; [exact (format_alone _ _ _ H)|exact E]|].
  destruct (rc =? 0x85).
  { apply Stay in H as [H E]. split; [|exact E]. apply bind_ok in H as (b1 & D & H). apply bind_ok in H as (s & HB & H). injection H as <-.
    apply (left_trans _ _ _ (derive_alone _ _ D)). unfold handle_boundsheet in HB. apply bind_ok in HB as ([[[name v] t] q] & _ & HB).
    destruct (negb (t =? 0)); injection HB as <-; constructor; try reflexivity; cbn [with_sheets bk_sheets sl_names sl_visibility];
      first [exists []; symmetry; apply app_nil_r | eexists; reflexivity]. }
  destruct (rc =? 0x22).
  { apply Stay in H as [H E]. split; [|exact E]. unfold handle_datemode in H. apply bind_ok in H as (d & _ & H). apply bind_ok in H as (? & _ & H). injection H as <-. alone. }
  destruct (rc =? 0x42).
  { apply Stay in H as [H E]. split; [|exact E]. apply bind_ok in H as (s & _ & H). injection H as <-. alone. }
  destruct (rc =? 0x8c).
  { apply Stay in H as [H E]. split; [|exact E]. unfold handle_country in H. apply bind_ok in H as (d & _ & H). apply bind_ok in H as (? & _ & H).
    apply bind_ok in H as (? & _ & H). apply bind_ok in H as (? & _ & H). injection H as <-. alone. }
  destruct (rc =? 0x23); [apply Stay in H as [H E]; split; [|exact E]; apply bind_ok in H as (r & _ & H); injection H as <-; alone|].
  destruct (rc =? 0x17).
  { apply bind_ok in H as (b1 & D & H). apply bind_ok in H as ([r q] & HE & H). injection H as <- <-. pose proof (derive_alone _ _ D) as LA. split.
    - apply (left_trans _ _ _ LA). alone.
    - unfold handle_externsheet in HE. rewrite (la_bv _ _ LA), BV in HE. cbn [Z.geb Z.compare Pos.compare Pos.compare_cont] in HE. cbv zeta in HE.
      apply bind_ok in HE as (? & _ & HE). apply bind_ok in HE as (? & _ & HE). apply bind_ok in HE as (? & _ & HE). apply bind_ok in HE as (? & _ & HE). injection HE as _ <-. reflexivity. }
  destruct (rc =? 0x2f); [discriminate|].
  destruct (rc =? 0x5c); [apply Stay in H as [H E]; split; [|exact E]; apply bind_ok in H as (s & W & H); injection H as <-; alone|].
  destruct (rc =? 0x8e).
  { apply Stay in H as [H E]. split; [|exact E]. apply bind_ok in H as (? & _ & H). apply bind_ok in H as (? & _ & H). injection H as <-. alone. }
  replace (rc =? 0x8f) with false in H by lia.
  destruct (rc =? 0x1ae); [apply Stay in H as [H E]; split; [|exact E]; apply bind_ok in H as (r & _ & H); injection H as <-; alone|].
  destruct (rc =? 0x18).
  { destruct (bk_bv b <? 50); [injection H as <- <-; split; [apply left_refl|reflexivity]|]. apply Stay in H as [H E]. split; [|exact E]. apply bind_ok in H as (b1 & D & H).
    apply bind_ok in H as (n & _ & H). injection H as <-. apply (left_trans _ _ _ (derive_alone _ _ D)). alone. }
  destruct (rc =? 0x92); [apply Stay in H as [H E]; split; [exact (format_alone _ _ _ H)|exact E]|].
  destruct (rc =? 0x293); [apply Stay in H as [H E]; split; [exact (format_alone _ _ _ H)|exact E]|].
  injection H as <- <-. split; [apply left_refl|reflexivity].
Qed.

Lemma palette_kept : forall f, b_bv (palette_epilogue f) = b_bv f /\ b_fmt (palette_epilogue f) = b_fmt f.
Proof using. clear codec num8 rk of_int ragged.
  intros f. unfold palette_epilogue. generalize (b_fonts f). intros l. revert f. induction l as [|x l IH]; intros f; cbn [fold_left]; [auto|].
  destruct (IH (if fo_index x =? 4 then f else if fo_colour_index x =? 0x7fff then f else FormatModel.mark f (fo_colour_index x))) as [-> ->].
  destruct (_ =? 4); [auto|]. destruct (_ =? 0x7fff); [auto|]. unfold FormatModel.mark. destruct (dget _ _ _); split; reflexivity.
Qed.

Lemma end_alone : forall ops lower (b b' : book), globals_end codec ops lower b = Ok b' -> left_alone b b'.
Proof.
  intros ops lower b b' H. unfold globals_end in H. cbv zeta in H. apply bind_ok in H as ([names maps] & _ & H).
  assert (L : left_alone b (with_fmt (with_maps (with_names (with_fmt b (xf_epilogue (bk_fmt b))) names) maps) (palette_epilogue (xf_epilogue (bk_fmt b))))).
  { destruct (palette_kept (xf_epilogue (bk_fmt b))) as [P1 P2].
    constructor; try reflexivity; [exact P1|exact P2|exists []; symmetry; apply app_nil_r|exists []; symmetry; apply app_nil_r]. }
  destruct (truthy _); [injection H as <-; exact L|]. exact (left_trans _ _ _ L (derive_alone _ _ H)).
Qed.

Lemma alone_numbered : forall b b' ls, left_alone b b' -> numbered b ls -> numbered b' ls.
Proof using. clear codec num8 rk of_int ragged.
  intros b b' ls [_ _ _ _ _ (l1 & E1) (l2 & E2)] H i l K. destruct (H i l K) as (H1 & H2 & H3). split; [exact H1|]. rewrite E1, E2.
  split; (rewrite znth_app_l; [assumption|]); eapply znth_Some_range; eassumption.
Qed.
Lemma alone_state : forall fmt ls b b', left_alone b b' -> state fmt ls b -> state fmt ls b'.
Proof using. clear codec num8 rk of_int ragged.
  intros fmt ls b b' LA [S1 S2 S3 S4 S5 S6]. pose proof (alone_numbered _ _ _ LA S6). destruct LA. constructor; try congruence. assumption.
Qed.

(** Reading a worksheet leaves the version and formatting_info. *)
Lemma oran_version : forall bv s rs tr s' rs', oran codec num8 rk of_int ragged bv s rs tr s' rs' -> os_version s <> 21 -> os_version s' = os_version s /\ b_fmt (os_fmt s') = b_fmt (os_fmt s).
Proof.
  intros bv s rs tr s' rs' H V. induction H as [|s rc len d rs s1 rs1 tr s2 rs2 E S H IH]; [auto|].
  pose proof (old_step_alone _ _ _ _ _ _ _ _ _ _ _ _ _ S) as OA. destruct (oa_version _ _ _ OA) as [K|[K _]]; [|congruence].
  rewrite K in IH. destruct (IH V) as [I1 I2]. split; [exact I1|]. rewrite I2. exact (oa_fmt _ _ _ OA).
Qed.
Lemma read_version : forall b rs s, bk_bv b = 45 -> b_bv (bk_fmt b) = 45 -> old_read b rs = Ok s -> b_bv (os_fmt s) = 45 /\ b_fmt (os_fmt s) = b_fmt (bk_fmt b).
Proof.
  intros b rs s B1 B2 H. unfold OldSheet.old_read in H. apply bind_ok in H as (s1 & HL & H). cbv zeta in H. apply bind_ok in H as (g & _ & H).
  destruct (loop_oran _ _ _ _ _ _ _ _ _ _ HL) as (tr & len & d & rest & R).
  assert (s = set_sheet s1 (with_grid (os_sheet s1) g)) as -> by congruence.
  apply oran_version in R; [|change (b_bv (bk_fmt b) <> 21); lia]. destruct R as [R1 R2]. split; [|exact R2].
  change (os_version s1 = 45). rewrite R1. exact B2.
Qed.

Lemma sheethdr_state : forall fmt ls b mem pos name op body recs t b' p, bytes mem -> 0 <= pos -> state fmt ls b -> part_ok (Worksheet name op body recs) ->
  At mem pos (substream op body recs ++ t) ->
  handle_sheethdr codec load b mem pos (le_enc 4 (zlen (substream op body recs)) ++ [zlen name] ++ name) = Ok (b', p) ->
  p = pos + zlen (substream op body recs) /\ exists l, state fmt (ls ++ [l]) b' /\ became fmt (name, recs) l.
Proof.
  intros fmt ls b mem pos name op body recs t b' p B P ST (K1 & K2 & K3 & K4 & K5 & v & K6) A H. unfold handle_sheethdr in H.
  apply bind_ok in H as (b1 & D & H). pose proof (alone_state _ _ _ _ (derive_alone _ _ D) ST) as [S1 S2 S3 S4 S5 S6]. clear D ST b.
  set (sub := substream op body recs) in *. pose proof (zlen_nonneg sub) as NS. pose proof (zlen_nonneg name) as NN.
  assert (A0 : At (le_enc 4 (zlen sub) ++ [zlen name] ++ name) 0 (le_enc 4 (zlen sub) ++ [zlen name] ++ name)) by (exists []; auto).
  rewrite (At_i32_pos _ _ _ _ A0) in H by lia. cbn [bind] in H.
  assert (A4 : At (le_enc 4 (zlen sub) ++ [zlen name] ++ name) 4 (le_enc 1 (zlen name) ++ name)).
  { replace (le_enc 1 (zlen name)) with [zlen name] by (cbn [le_enc]; rewrite Z.mod_small by lia; reflexivity). eapply At_skip; [exact A0|]. rewrite zlen_le_enc. reflexivity. }
  apply bind_ok in H as (nm & HN & H). unfold unpack_string in HN. rewrite (At_le _ _ _ _ _ 1 A4) in HN by (try reflexivity; cbn; lia). cbn [bind] in HN. cbv zeta in HN.
  assert (A5 : At (le_enc 4 (zlen sub) ++ [zlen name] ++ name) (4 + 1) (name ++ [])) by (rewrite app_nil_r; eapply At_skip; [exact A4|rewrite zlen_le_enc; reflexivity]).
  rewrite (At_slice _ _ _ _ _ A5 eq_refl) in HN.
  cbv zeta in H. apply bind_ok in H as (ex & HE & H). apply bind_ok in H as (u & HG & H).
  destruct (list_eqb nm ex) eqn:EN; [|discriminate]. apply list_eqb_eq in EN as <-. clear HG.
  apply bind_ok in H as ([version q] & GB & H).
  assert (GB' : getbof mem pos XL_WORKSHEET = Ok (v, pos + 4 + zlen body)).
  { apply c47_getbof; [exact B|exact P|]. exists op, body. split.
    { destruct A as (x & E & L). exists x, (frames (recs ++ [(0x0A, [])]) ++ t). split; [|congruence]. rewrite E. unfold sub, substream, frame. cbn [fst snd].
      rewrite <- !app_assoc. reflexivity. }
    split; [exact K4|]. split; [exact K6|]. split; [left; exact K5|reflexivity]. }
  rewrite GB' in GB. injection GB as <- <-. clear GB'.
  apply bind_ok in H as ([g sh] & HL & H). apply bind_ok in H as (l & HS & H). injection H as <- <-. split; [reflexivity|].
  set (b2 := with_list _ _) in HL. unfold BookApi.load in HL. change (bk_bv b2) with (bk_bv b1) in HL. rewrite S1 in HL. cbn [Z.leb Z.compare Pos.compare Pos.compare_cont] in HL.
  unfold OldSheet.old_load in HL. change (bk_sheets b2) with (bk_sheets b1) in HL. apply bind_ok in HL as (vis & HV & HL). apply bind_ok in HL as (s & HR & HL). cbv zeta in HL.
  injection HL as <- <-.
  assert (F : fresh 45 b2) by (constructor; [exact S1|exact S2|cbn [In]; tauto|reflexivity|reflexivity|reflexivity]).
  assert (exists rest, stream mem (pos + 4 + zlen body) = map rec_of recs ++ (0x0A, 0, []) :: rest) as (rest & ES).
  { destruct A as (x & E & L). assert (HF2 : Forall framable (recs ++ [(0x0A, [])])) by (apply Forall_app; split; [exact K3|constructor; [split; [cbn [fst]; lia|reflexivity]|constructor]]).
    assert (EM : mem = (x ++ frame (op, body)) ++ frames (recs ++ [(0x0A, [])]) ++ t) by (rewrite E; unfold sub, substream; rewrite <- !app_assoc; reflexivity).
    pose proof B as B'. rewrite EM in B'. pose proof (stream_frames _ _ _ HF2 B') as K. rewrite <- EM in K.
    replace (pos + 4 + zlen body) with (zlen (x ++ frame (op, body))) by (rewrite zlen_app; rewrite frame_zlen; cbn [snd]; lia).
    rewrite K, map_app, <- app_assoc. eexists. reflexivity. }
  change (records_of (S (2 * List.length mem)) mem (pos + 4 + zlen body)) with (stream mem (pos + 4 + zlen body)) in HR. rewrite ES in HR.
  rewrite S4 in *. pose proof (zlen_nonneg ls) as NL.
  apply py_index_znth in HE; [|lia]. apply py_index_znth in HV; [|lia].
  exists (mk_loaded (zlen ls) nm vis (os_sheet s)). split.
  - destruct (read_version _ _ _ (fr_bv _ _ F) (fr_version _ _ F) HR) as [R1 R2].
    constructor.
    + exact S1.
    + exact R1.
    + etransitivity; [exact R2|exact S3].
    + rewrite zlen_app. change (zlen ls + 1 = zlen ls + 1). reflexivity.
    + change (bk_list (with_list _ ?x)) with x. match type of HS with list_set _ ?i ?x = _ => change (list_set (bk_list b1 ++ [None]) i x = Ok l) in HS end. rewrite S5 in HS.
      assert (LM : zlen (map (@Some loaded) ls) = zlen ls) by (unfold zlen; rewrite map_length; reflexivity).
      rewrite <- LM, set_last in HS. injection HS as <-. rewrite map_app, LM. reflexivity.
    + intros i l0 HI. pose proof (znth_Some_range _ _ _ HI) as RG. destruct (Z.lt_ge_cases i (zlen ls)) as [L|L].
      * rewrite znth_app_l in HI by lia. exact (S6 i l0 HI).
      * rewrite zlen_app in RG. match type of RG with context [zlen [?x]] => change (zlen [x]) with 1 in RG end. assert (i = zlen ls) as -> by lia.
        rewrite znth_app_r in HI by lia. rewrite Z.sub_diag in HI. injection HI as <-. split; [reflexivity|]. split; [exact HE|exact HV].
  - split.
    + unfold unicode in HN. destruct (en_encoding (bk_enc b1)) as [e|]; [|discriminate]. exists e. exact HN.
    + exists b2, s, rest. split; [exact F|]. split; [exact S3|]. split; [exact HR|reflexivity].
Qed.

Lemma zip_znth : forall {A B} (R : A -> B -> Prop) l m, Forall2 R l m -> forall i a, znth l i = Some a -> exists b, znth m i = Some b /\ R a b.
Proof.
  intros A B R l m F i a HI. destruct (Forall2_znth R l m F) as [L K]. pose proof (znth_Some_range _ _ _ HI) as RG.
  destruct (znth m i) as [b|] eqn:E; [exists b; split; [reflexivity|exact (K i a b HI E)]|]. apply znth_None in E. lia.
Qed.

Lemma globals_4w : forall ops lower mem t fmt, bytes mem -> forall parts fuel b pos ls b' p', Forall part_ok parts -> 0 <= pos ->
  At mem pos (flat_map part_bytes parts ++ frame (0x0A, []) ++ t) -> state fmt ls b ->
  globals codec ops lower load fuel b mem pos = Ok (b', p') ->
  exists ls', state fmt (ls ++ ls') b' /\ Forall2 (became fmt) (worksheets parts) ls'.
Proof.
  intros ops lower mem t fmt B. induction parts as [|part parts IH]; intros fuel b pos ls b' p' OK P A ST H; (destruct fuel as [|fuel]; [discriminate|]); cbn [globals] in H.
  - cbn [flat_map app] in A. rewrite (At_frame _ _ _ _ A) in H by (split; [cbn [fst]; lia|reflexivity]). cbn [bind fst snd] in H. change (0x0A =? 0x0A) with true in H. cbv iota in H.
    apply bind_ok in H as (b1 & E & H). injection H as <- <-. exists []. rewrite app_nil_r. split; [exact (alone_state _ _ _ _ (end_alone _ _ _ _ E) ST)|constructor].
  - inversion OK as [|? ? K1 K2]; subst. cbn [flat_map] in A. rewrite <- app_assoc in A. destruct part as [r|name op body recs].
    + destruct K1 as (F & N1 & N2 & N3). cbn [part_bytes] in A. rewrite (At_frame _ _ _ _ A F) in H. cbn [bind] in H. replace (fst r =? 0x0A) with false in H by lia.
      apply bind_ok in H as ([b1 q] & E & H). destruct (gstep_alone _ _ _ _ _ _ _ _ E (st_bv _ _ _ ST) N2 N3) as [LA ->].
      cbn [worksheets flat_map app]. pose proof (zlen_nonneg (frame r)) as NF.
      refine (IH fuel b1 (pos + zlen (frame r)) ls b' p' K2 ltac:(lia) _ (alone_state _ _ _ _ LA ST) H). exact (At_skip _ _ _ _ _ A eq_refl).
    + set (sub := substream op body recs) in *. set (hdr := le_enc 4 (zlen sub) ++ [zlen name] ++ name) in *.
      cbn [part_bytes] in A. fold sub in A. fold hdr in A. rewrite <- app_assoc in A.
      assert (F : framable (0x8F, hdr)).
      { split; [cbn [fst]; lia|]. cbn [snd]. unfold hdr. rewrite !zlen_app, zlen_le_enc. destruct K1 as [K1 _]. change (zlen [zlen name]) with 1. pose proof (zlen_nonneg name). lia. }
      rewrite (At_frame _ _ _ _ A F) in H. cbn [bind fst snd] in H. change (0x8F =? 0x0A) with false in H. cbv iota in H.
      pose proof (At_skip _ _ _ _ _ A eq_refl) as A1. pose proof (zlen_nonneg (frame (0x8F, hdr))) as NF. pose proof (zlen_nonneg sub) as NS.
      apply bind_ok in H as ([b1 q] & E & H).
      change (gstep codec load b mem (pos + zlen (frame (0x8F, hdr))) 0x8F hdr) with (handle_sheethdr codec load b mem (pos + zlen (frame (0x8F, hdr))) hdr) in E.
      assert (P1 : 0 <= pos + zlen (frame (0x8F, hdr))) by lia.
      destruct (sheethdr_state fmt ls b mem _ name op body recs _ b1 q B P1 ST K1 A1 E) as (-> & l & ST1 & BE).
      pose proof (At_skip _ _ _ _ _ A1 eq_refl) as A2. fold sub in H.
      assert (P2 : 0 <= pos + zlen (frame (0x8F, hdr)) + zlen sub) by lia.
      destruct (IH fuel b1 _ (ls ++ [l]) b' p' K2 P2 A2 ST1 H) as (ls' & ST2 & FA).
      exists (l :: ls'). split; [rewrite <- app_assoc in ST2; exact ST2|]. cbn [worksheets flat_map app]. constructor; [exact BE|exact FA].
Qed.

(** ** C107 *)

(** Opening a BIFF4W workbook gives one sheet for each worksheet of the stream, in their order, all
    loaded whether or not on_demand is given.  Each has the name in its SHEETHDR record, which is
    also its name in sheet_names(), and is what its own records alone determine: no formats,
    fonts or XFs are carried over from the globals or another worksheet. *)
Theorem c107_sheets : forall ops lower fuel depth body parts t override fmt od ignore a,
  let file := workbook_4w body parts t in
  bytes file -> 4 <= zlen body <= 20 -> word body 1 = 0x100 -> Forall part_ok parts ->
  open_workbook_xls codec ops lower num8 rk ragged old_load fuel depth file override fmt od ignore = Ok a ->
  a_mem a = None /\ exists ls, bk_list (a_book a) = map Some ls /\ Forall2 (became fmt) (worksheets parts) ls /\ numbered (a_book a) ls.
Proof.
  intros ops lower fuel depth body parts t override fmt od ignore a file B LB W OK H.
  assert (GB : getbof file 0 5 = Ok (45, 4 + zlen body)).
  { apply c47_getbof; [exact B|lia|]. exists 0x409, body. split.
    { exists [], (flat_map part_bytes parts ++ frame (0x0A, []) ++ t). split; [|reflexivity]. unfold file, workbook_4w, frame. cbn [fst snd app]. rewrite <- !app_assoc. reflexivity. }
    split; [exact LB|]. split; [apply Biff4W; exact W|]. split; [|lia]. unfold right_stream. rewrite W. right. left. repeat split. }
  unfold open_workbook_xls in H. apply bind_ok in H as (? & _ & H). apply bind_ok in H as ((mem & base) & HS & H).
  assert (mem = file /\ base = 0) as [-> ->].
  { unfold find_stream in HS. replace (list_eqb (py_slice file 0 8) SIGNATURE) with false in HS; [cbn [negb] in HS; split; congruence|].
    symmetry. apply not_true_is_false. intros E. apply list_eqb_eq in E.
    assert (E0 : znth (py_slice file 0 8) 0 = Some 9).
    { unfold file, workbook_4w, frame. cbn [fst snd]. rewrite <- !app_assoc. cbn [le_enc app]. destruct body as [|b0 [|b1 [|b2 [|b3 body]]]]; try (exfalso; cbn in LB; lia).
      match goal with |- context [py_slice (?x0 :: ?x1 :: ?x2 :: ?x3 :: (?x4 :: ?x5 :: ?x6 :: ?x7 :: ?l) ++ ?l') 0 8] =>
        change (x0 :: x1 :: x2 :: x3 :: (x4 :: x5 :: x6 :: x7 :: l) ++ l') with ([x0; x1; x2; x3; x4; x5; x6; x7] ++ (l ++ l')) end.
      rewrite py_slice_pre by reflexivity. reflexivity. }
    rewrite E in E0. clear - E0. vm_compute in E0. discriminate E0. }
  unfold open_stream in H. change XL_WORKBOOK_GLOBALS with 5 in H. rewrite GB in H. cbn [bind] in H.
  apply bind_ok in H as (? & _ & H). apply bind_ok in H as (? & _ & H). apply bind_ok in H as (b0 & HB & H).
  change (45 <=? 40) with false in H. change (45 =? 45) with true in H. cbv iota in H. apply bind_ok in H as ([b1 q] & HG & H). injection H as <-.
  assert (ST : state fmt [] b0).
  { unfold book0, fbook0 in HB. apply bind_ok in HB as (f & HF & HB). apply bind_ok in HF as (m & HM & HF). injection HF as <-. injection HB as <-.
    constructor; try reflexivity. intros i l K. unfold znth in K. destruct (i <? 0); [discriminate K|]. destruct (Z.to_nat i); discriminate K. }
  pose proof (zlen_nonneg body) as NB.
  assert (A : At file (4 + zlen body) (flat_map part_bytes parts ++ frame (0x0A, []) ++ t)).
  { exists (frame (0x409, body)). split; [reflexivity|]. rewrite frame_zlen. reflexivity. }
  destruct (globals_4w ops lower file t fmt B parts fuel b0 (4 + zlen body) [] b1 q OK ltac:(lia) A ST HG) as (ls & [_ _ _ _ S5 S6] & FA).
  split; [reflexivity|]. exists ls. split; [exact S5|]. split; [exact FA|exact S6].
Qed.

(** The cells of the [i]-th sheet, if its records are those of a list of cells (see OldContent.v).
    The formats that give the types of its numbers are those that its own records give. *)
Theorem c107_cells : forall ops lower fuel depth body parts t override fmt od ignore a i name items,
  let file := workbook_4w body parts t in
  bytes file -> 4 <= zlen body <= 20 -> word body 1 = 0x100 -> Forall part_ok parts ->
  open_workbook_xls codec ops lower num8 rk ragged old_load fuel depth file override fmt od ignore = Ok a ->
  znth (worksheets parts) i = Some (name, flat_map oenc items) ->
  Forall (oitem_ok 45) items -> settings_first items -> formats_first items ->
  exists l b s rest, znth (bk_list (a_book a)) i = Some (Some l) /\ ls_number l = i /\ znth (sl_names (bk_sheets (a_book a))) i = Some (ls_name l) /\
    fresh 45 b /\ old_read b (map rec_of (flat_map oenc items) ++ (0x0A, 0, []) :: rest) = Ok s /\
    sheet_holds codec num8 rk of_int 45 (os_fmt s) (en_encoding (bk_enc (os_book s))) fmt items (ls_sheet l).
Proof.
  intros ops lower fuel depth body parts t override fmt od ignore a i name items file B LB W OK H HI O1 O2 O3.
  destruct (c107_sheets _ _ _ _ _ _ _ _ _ _ _ _ B LB W OK H) as (_ & ls & EL & FA & NU).
  destruct (zip_znth _ _ _ FA _ _ HI) as (l & HL & (_ & b & s & rest & F & FM & HR & ES)).
  exists l, b, s, rest. split; [rewrite EL, znth_map, HL; reflexivity|].
  destruct (NU i l HL) as (N1 & N2 & _). split; [exact N1|]. split; [exact N2|]. split; [exact F|]. split; [exact HR|]. rewrite ES, <- FM.
  exact (proj1 (read_holds _ _ _ _ _ _ _ _ _ _ _ _ F O1 O2 O3 HR)).
Qed.

(** The columns, rows, widths and window of the [i]-th sheet; [xfs] are the XFs of its records. *)
Theorem c107_attributes : forall ops lower fuel depth body parts t override od ignore a i name recs,
  let file := workbook_4w body parts t in
  bytes file -> 4 <= zlen body <= 20 -> word body 1 = 0x100 -> Forall part_ok parts ->
  open_workbook_xls codec ops lower num8 rk ragged old_load fuel depth file override true od ignore = Ok a ->
  znth (worksheets parts) i = Some (name, recs) -> closed false recs -> Forall (fun r => bytes (snd r)) recs ->
  exists l xfs, znth (bk_list (a_book a)) i = Some (Some l) /\ old_shows 45 (own_records false (map rec_of recs)) xfs (ls_sheet l).
Proof.
  intros ops lower fuel depth body parts t override od ignore a i name recs file B LB W OK H HI CL BR.
  destruct (c107_sheets _ _ _ _ _ _ _ _ _ _ _ _ B LB W OK H) as (_ & ls & EL & FA & NU).
  destruct (zip_znth _ _ _ FA _ _ HI) as (l & HL & (_ & b & s & rest & F & FM & HR & ES)).
  exists l, (b_xfs (os_fmt s)). split; [rewrite EL, znth_map, HL; reflexivity|]. rewrite ES, <- (own_closed recs false 0 [] rest CL).
  apply (c84_own codec num8 rk of_int ragged 45 b _ s F); [|exact FM|exact HR]. apply complete_closed; assumption.
Qed.
End FourW.
Print Assumptions c107_sheets.
Print Assumptions c107_cells.
Print Assumptions c107_attributes.

(** ** Examples *)

Module ExFourW.
Definition globals_body : list Z := [0; 4; 0; 1; 0; 0].
Definition body : list Z := [0; 4; 0x10; 0; 0; 0].
(** SHEETSOFFSET and the names of the worksheets, then worksheet "a" with an XF, a number in row 1 and column 2, and a width for column 3, and
    worksheet "b" with a width for column 3. *)
Definition items : list oitem :=
  [OSetting 0x443 [0; 0; 0; 0; 0; 0; 0; 0; 0; 0; 0; 0]; OCell (mk_ocell 1 2 (Xf 0) (KNumber [5; 0; 0; 0; 0; 0; 0; 0])); ONoise 0x7D [3; 0; 3; 0; 0; 8; 0; 0; 1; 2]].
Definition recs1 : list (Z * list Z) := flat_map oenc items.
Definition recs2 : list (Z * list Z) := [(0x7D, [3; 0; 3; 0; 0; 9; 15; 0; 0; 0])].
Definition parts : list part :=
  [Global (0x8E, [30; 0; 0; 0]); Global (0x85, [1; 97]); Global (0x85, [1; 98]); Worksheet [97] 0x409 body recs1; Global (0x8F0, [1]); Worksheet [98] 0x409 body recs2].
Definition file : list Z := workbook_4w globals_body parts [7].
Definition opened : result (@api Z) :=
  open_workbook_xls (fun _ b => Ok b) int_ops (fun x => x) le_val (fun b => Ok (le_val b)) false (old_load (fun _ b => Ok b) le_val (fun b => Ok (le_val b)) (fun n => n) false)
    300 100 file None true true false.
End ExFourW.

Example c107_hypotheses :
  bytes ExFourW.file /\ 4 <= zlen ExFourW.globals_body <= 20 /\ word ExFourW.globals_body 1 = 0x100 /\ Forall part_ok ExFourW.parts /\
  closed false ExFourW.recs1 /\ Forall (oitem_ok 45) ExFourW.items /\ settings_first ExFourW.items /\ formats_first ExFourW.items.
Proof.
  assert (BS : bof_says ExFourW.body 0x409 40) by (apply Biff4; vm_compute; discriminate).
  split; [apply bytes_check; vm_compute; reflexivity|]. split; [split; vm_compute; discriminate|]. split; [reflexivity|]. split; [|split; [cbn; reflexivity|split; [|split; vm_compute; repeat split; auto; intros; discriminate]]].
  - repeat apply Forall_cons; try apply Forall_nil; unfold part_ok, framable; cbn [fst snd]; repeat split; try lia; try (vm_compute; first [reflexivity|discriminate]); try (exists 40; exact BS);
      repeat apply Forall_cons; try apply Forall_nil; vm_compute; repeat split; discriminate.
  - repeat apply Forall_cons; try apply Forall_nil; vm_compute; repeat split; try reflexivity; try discriminate.
Qed.
Example c107_runs : match ExFourW.opened with
  | Ok a => match bk_list (a_book a) with
            | [Some l1; Some l2] =>
                map (fun l => (ls_name l, option_map ci_width (dget Z.eqb (f_cols (sh_fmt (ls_sheet l))) 3))) [l1; l2] = [([97], Some 2048); ([98], Some 2304)]
            | _ => False
            end
  | Err _ => False
  end.
Proof. vm_compute. reflexivity. Qed.

(** The XFs that the workbook shows in the end are those of the last worksheet.  A cell of another
    worksheet can have an XF index that is not in xf_list. *)
Theorem c107_xf_refuted : exists a l, ExFourW.opened = Ok a /\ znth (bk_list (a_book a)) 0 = Some (Some l) /\
  plane_get (g_xfs (sh_grid (ls_sheet l))) 1 2 = Ok 0 /\ b_xfs (bk_fmt (a_book a)) = [].
Proof.
  assert (T : match ExFourW.opened with
    | Ok a => match znth (bk_list (a_book a)) 0 with
              | Some (Some l) => match plane_get (g_xfs (sh_grid (ls_sheet l))) 1 2, b_xfs (bk_fmt (a_book a)) with Ok i, [] => i =? 0 | _, _ => false end
              | _ => false
              end
    | Err _ => false
    end = true) by (vm_compute; reflexivity).
  destruct ExFourW.opened as [a|e]; [|discriminate]. destruct (znth (bk_list (a_book a)) 0) as [[l|]|] eqn:E; try discriminate T. exists a, l.
  split; [reflexivity|]. split; [exact E|]. destruct (plane_get _ 1 2) as [i|]; [|discriminate]. destruct (b_xfs _); [|discriminate]. split; [f_equal; lia|reflexivity].
Qed.
Print Assumptions c107_xf_refuted.
