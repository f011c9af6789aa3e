(** C103 for BIFF2 to BIFF4W: a file that is cut off is never read as if it were complete. *)
From Verif Require Import Base BaseFacts Text Strings Utf16 Framing GridModel GridFacts SheetObjects SheetModel SheetFacts SheetSteps SheetOwn FormatModel
  FormulaModel CompDoc BookModel BookFacts BookSheets BookApi PropBof OldSheet PropCutSheet PropTruncated PropOldOwn PropFourW PropFormulaText.

(** ** Proofs *)

Section Old.
Context {N : Type}.
Variable codec : list Z -> list Z -> result (list Z).
Variable num8 : list Z -> N.
Variable rk : list Z -> result N.
Variable of_int : Z -> N.
Variable ragged : bool.
Notation ost := (@ost N).
Notation loaded := (@loaded N).
Notation book := (book N loaded).
Notation old_step := (old_step codec num8 rk of_int ragged).
Notation old_read := (old_read codec num8 rk of_int ragged).
Notation old_loop := (old_loop codec num8 rk of_int ragged).
Notation old_load := (old_load codec num8 rk of_int ragged).
Notation o_step := (o_step codec num8 rk ragged).

Lemma Takes_o_step : forall s rc len d, Takes (fun rs => o_step s rc len d rs).
Proof.
  intros s rc len d. unfold OldSheet.o_step.
  apply (Takes_bind (fun rs => step _ _ rc len d rs) (fun sh rs => Ok (set_sheet s sh, rs)) (Takes_step _ _ _ _ _)). intros sh. apply Takes_ret.
Qed.

Lemma Takes_string_record : Takes string_record.
Proof.
  intros rs a rs' H. unfold string_record in H. destruct rs as [|[[rc len] d] rs]; [discriminate|]. cbn [next bind] in H.
  destruct ((rc =? XL_STRING) || (rc =? XL_STRING_B2)) eqn:E1.
  - injection H as <- <-. exists [(rc, len, d)]. split; [reflexivity|]. intros more. unfold string_record. cbn [app next bind]. rewrite E1. reflexivity.
  - apply bind_ok in H as (x & H1 & H). destruct rs as [|[[rc3 len3] d3] rs]; [discriminate|]. cbn [next bind] in H.
    destruct ((rc3 =? XL_STRING) || (rc3 =? XL_STRING_B2)) eqn:E3; [|discriminate]. injection H as <- <-.
    exists [(rc, len, d); (rc3, len3, d3)]. split; [reflexivity|]. intros more. unfold string_record. cbn [app next bind]. rewrite E1, H1. cbn [next bind]. rewrite E3. reflexivity.
Qed.

Lemma Takes_stay : forall r : result ost, Takes (fun rs => do s <- r; Ok (s, rs)).
Proof. intros r. apply Takes_const. intros. apply Takes_ret. Qed.

Lemma Takes_o_formula : forall bv s d, Takes (fun rs => o_formula codec num8 rk ragged bv s d rs).
Proof.
  intros bv s d. unfold o_formula. do 3 (apply Takes_const; intros ?). apply Takes_const. intros [[s1 xf] str].
  destruct (list_eqb _ _); [|apply Takes_stay]. apply Takes_const; intros fb.
  destruct (fb =? 0).
  { match goal with |- Takes (fun rs => do (data2, rs0) <- string_record rs; _) => idtac end.
    intros rs a rs' H. apply bind_ok in H as ([data2 r1] & H1 & H). destruct (Takes_string_record _ _ _ H1) as (u & -> & U). cbv zeta in H.
    apply bind_ok in H as (nexp & HN & H). apply bind_ok in H as (s2 & HS & H). apply bind_ok in H as ([strg r2] & HL & H).
    destruct (Takes_string_loop _ _ _ _ _ _ _ _ _ HL) as (v & -> & V). apply bind_ok in H as (s3 & HP & H). injection H as <- <-.
    exists (u ++ v). split; [apply app_assoc|]. intros more. rewrite <- app_assoc, U. cbn [bind]. cbv zeta. rewrite HN. cbn [bind]. rewrite HS. cbn [bind]. rewrite V. cbn [bind]. rewrite HP. reflexivity. }
  destruct (fb =? 1); [do 2 (apply Takes_const; intros ?); apply Takes_ret|]. destruct (fb =? 2); [do 2 (apply Takes_const; intros ?); apply Takes_ret|].
  destruct (fb =? 3); [apply Takes_stay|]. apply Takes_err.
Qed.

Lemma Takes_old_step : forall bv s rc len d, Takes (fun rs => old_step bv s rc len d rs).
Proof.
  intros bv s rc len d. unfold OldSheet.old_step. cbv zeta.
  destruct ((rc =? XL_LABEL) || (rc =? XL_RSTRING)); [do 2 (apply Takes_const; intros ?); apply Takes_o_step|].
  destruct (is_formula_code rc); [apply Takes_o_formula|].
  destruct (rc =? XL_COLINFO); [apply Takes_stay|].
  destruct ((rc =? XL_DIMENSION) || (rc =? XL_DIMENSION2)).
  { apply (Takes_bind (fun rs => o_step s rc len d rs) (fun s rs => if len =? 0 then Ok (s, rs) else
      if ((bv =? 21) || (bv =? 30) || (bv =? 40)) && negb (zlen (b_xfs (os_fmt s)) =? 0) && negb (os_done s) then Ok (epilogue s, rs) else Ok (s, rs)) (Takes_o_step _ _ _ _)).
    intros s1. destruct (len =? 0); [apply Takes_ret|]. destruct (_ && _); apply Takes_ret. }
  destruct (rc =? XL_NOTE).
  { apply (Takes_bind (fun rs => step _ _ rc len d rs) (fun sh rs => do s <- os_ensure codec (set_sheet s sh); Ok (s, rs)) (Takes_step _ _ _ _ _)). intros sh. apply Takes_stay. }
  destruct (rc =? XL_WINDOW2); [apply Takes_const; intros ?; apply Takes_o_step|].
  repeat match goal with
  | |- Takes (fun rs => if ?b then _ else _) => destruct b
  | |- Takes (fun rs => do s <- _; Ok (s, rs)) => apply Takes_stay
  | |- Takes (fun rs => do _ <- need _ _; Ok (_, rs)) => apply Takes_const; intros; apply Takes_ret
  | |- Takes (fun rs => Err _) => apply Takes_err
  | |- Takes (fun rs => OldSheet.o_step _ _ _ _ _ _ _ _ rs) => apply Takes_o_step
  end.
Qed.

(** The number of turns that the loop is allowed does not matter once it is enough. *)
Lemma old_loop_more : forall n m bv s rs s', (n <= m)%nat -> old_loop n bv s rs = Ok s' -> old_loop m bv s rs = Ok s'.
Proof.
  induction n as [|n IH]; intros m bv s rs s' L H; [discriminate|]. destruct m as [|m]; [lia|]. cbn [OldSheet.old_loop] in *.
  apply bind_ok in H as ([[[rc len] d] r1] & E & H). rewrite E. cbn [bind]. destruct (rc =? XL_EOF); [exact H|].
  apply bind_ok in H as ([s1 r2] & S1 & H). rewrite S1. cbn [bind]. apply IH; [lia|exact H].
Qed.

Lemma old_loop_cut : forall n m bv s rs' rs s', (n <= m)%nat -> cut_off rs' rs -> old_loop n bv s rs' = Ok s' -> old_loop m bv s rs = Ok s'.
Proof.
  induction n as [|n IH]; intros m bv s rs' rs s' L C H; [discriminate|]. destruct m as [|m]; [lia|]. cbn [OldSheet.old_loop] in *.
  destruct rs' as [|[[rc len] d] t]; [discriminate|]. cbn [next bind] in H. destruct (rc =? XL_EOF) eqn:E.
  - inversion C; subst; cbn [next bind]; rewrite E; exact H.
  - apply bind_ok in H as ([s1 t1] & S1 & H). assert (NE : t1 <> []) by (intros ->; destruct n; discriminate).
    destruct (Takes_old_step _ _ _ _ _ _ _ _ S1) as (u & -> & U).
    inversion C as [|? ? ? ? ? E1|? ? rs1 C1 E1 E2]; subst.
    + match goal with E0 : _ = u ++ t1 |- _ => symmetry in E0; destruct (app_eq_nil _ _ E0); contradiction | E0 : u ++ t1 = _ |- _ => destruct (app_eq_nil _ _ E0); contradiction end.
    + destruct (cut_used _ _ _ NE C1) as (rest & -> & R). cbn [next bind]. rewrite E, U. cbn [bind]. apply (IH m bv s1 t1 rest s'); [lia|exact R|exact H].
Qed.

(** The records of a worksheet up to where it is cut off. *)
Theorem c103_old_sheet : forall b rs' rs s, cut_off rs' rs -> old_read b rs' = Ok s -> old_read b rs = Ok s.
Proof.
  intros b rs' rs s C H. unfold OldSheet.old_read in *. apply bind_ok in H as (s1 & R & H).
  assert (L : (S (List.length rs') <= S (List.length rs))%nat) by (clear - C; induction C; cbn [List.length]; lia).
  rewrite (old_loop_cut _ _ _ _ _ _ _ L C R). cbn [bind]. exact H.
Qed.

Variables mem t : list Z.
Hypothesis B : bytes mem.

Lemma old_load_more : forall b pos name i r, 0 <= pos -> old_load b mem pos name i = Ok r -> old_load b (mem ++ t) pos name i = Ok r.
Proof.
  intros b pos name i r P H. unfold OldSheet.old_load in *. apply bind_ok in H as (vis & HV & H). rewrite HV. cbn [bind]. apply bind_ok in H as (s & HR & H).
  rewrite (c103_old_sheet _ _ _ _ (records_more mem t B (S (2 * List.length mem)) (S (2 * List.length (mem ++ t))) pos ltac:(rewrite app_length; lia) P) HR). exact H.
Qed.
End Old.

(** ** Files *)

Section Files.
Context {N : Type}.
Variable codec : list Z -> list Z -> result (list Z).
Variable ops : numops N.
Variable lower : list Z -> list Z.
Variable num8 : list Z -> N.
Variable rk : list Z -> result N.
Variable of_int : Z -> N.
Variable ragged : bool.
Notation loaded := (@loaded N).
Notation book := (book N loaded).
Notation old_load := (old_load codec num8 rk of_int ragged).
Notation load := (load codec num8 rk ragged old_load).
Notation open_workbook_xls := (open_workbook_xls codec ops lower num8 rk ragged old_load).

Variables mem rest : list Z.
Hypothesis B : bytes mem.
Notation full := (mem ++ rest).

Lemma load_more : forall (b : book) pos name i r, bk_bv b <= 45 -> 0 <= pos -> load b mem pos name i = Ok r -> load b full pos name i = Ok r.
Proof.
  intros b pos name i r V P H. unfold BookApi.load in *. replace (bk_bv b <=? 45) with true in * by lia.
  exact (old_load_more codec num8 rk of_int ragged mem rest B b pos name i r P H).
Qed.

Lemma bare_stream : forall fuel depth ignore m base, py_slice mem 0 8 <> SIGNATURE -> find_stream lower fuel depth mem ignore = Ok (m, base) -> m = mem /\ base = 0.
Proof. intros fuel depth ignore m base S0 FS. unfold find_stream in FS. rewrite (list_eqb_ne _ _ S0) in FS. cbn [negb] in FS. injection FS as <- <-. auto. Qed.

(** A file of one worksheet, before BIFF5. *)
Theorem c103_old_cut_off : forall fuel depth bv pos ov fmt on_demand ignore a,
  py_slice mem 0 8 <> SIGNATURE -> getbof mem 0 5 = Ok (bv, pos) -> bv <= 40 ->
  open_workbook_xls fuel depth mem ov fmt on_demand ignore = Ok a -> open_workbook_xls fuel depth full ov fmt on_demand ignore = Ok a.
Proof.
  intros fuel depth bv pos ov fmt od ignore a S0 GB V H. unfold BookApi.open_workbook_xls in *.
  apply bind_ok in H as ([] & Z0 & H). apply bind_ok in H as ([m base] & FS & H). destruct (bare_stream _ _ _ _ _ S0 FS) as [-> ->].
  destruct (getbof_more mem rest _ _ _ _ (Z.le_refl 0) GB) as (L & GB').
  pose proof (zlen_nonneg rest). rewrite zlen_app. replace (zlen mem + zlen rest =? 0) with false by lia. cbn [negb guard bind].
  unfold find_stream. rewrite (slice_kept mem rest 0 8), (list_eqb_ne _ _ S0) by lia. cbn [negb bind].
  unfold open_stream in *. change XL_WORKBOOK_GLOBALS with 5 in *. rewrite GB in H. rewrite GB'. cbn [bind] in *.
  apply bind_ok in H as ([] & H1 & H). rewrite H1. cbn [bind]. apply bind_ok in H as ([] & H2 & H). rewrite H2. cbn [bind].
  apply bind_ok in H as (b & HB & H). rewrite HB. cbn [bind]. replace (bv <=? 40) with true in * by lia. cbv zeta in *.
  apply bind_ok in H as (b1 & HG & H). set (b2 := with_list _ _) in *.
  change (get_sheets_in codec num8 rk ragged old_load b2 mem [0] = Ok b1) in HG.
  assert (HG' : get_sheets codec num8 rk ragged old_load b2 full = Ok b1).
  { change (get_sheets_in codec num8 rk ragged old_load b2 full [0] = Ok b1). cbn [get_sheets_in] in *.
    apply bind_ok in HG as ([b3 sh] & HS & HG). unfold get_sheet in *.
    change (py_index (sl_posn (bk_sheets b2)) 0) with (@Ok Z 0) in *. cbn [bind] in *.
    apply bind_ok in HS as ([v p] & G2 & HS). destruct (getbof_more mem rest _ _ _ _ (Z.le_refl 0) G2) as (L2 & G2'). rewrite G2'. cbn [bind].
    apply bind_ok in HS as (nm & HN & HS). rewrite HN. cbn [bind]. apply bind_ok in HS as ([g s] & HL & HS).
    assert (VB : bk_bv b2 <= 45).
    { unfold b2. unfold book0 in HB. apply bind_ok in HB as (f & _ & HB). injection HB as <-. cbn. lia. }
    rewrite (load_more b2 p nm 0 _ VB ltac:(lia) HL). cbn [bind]. apply bind_ok in HS as (l & HS1 & HS). injection HS as <- <-. rewrite HS1. cbn [bind]. exact HG. }
  rewrite HG'. exact H.
Qed.

(** A workbook of BIFF4W. *)
Lemma globals_cut : forall t parts fuel (b : book) pos r, Forall part_ok parts -> 0 <= pos -> bk_bv b = 45 ->
  At full pos (flat_map part_bytes parts ++ frame (0x0A, []) ++ t) ->
  globals codec ops lower load fuel b mem pos = Ok r -> globals codec ops lower load fuel b full pos = Ok r.
Proof.
  intros t parts. induction parts as [|part parts IH]; intros fuel b pos r OK P V A H; (destruct fuel as [|fuel]; [discriminate|]); cbn [globals] in *;
    apply bind_ok in H as ([[[rc len] d] q] & G & H); destruct (parts_more mem rest B _ _ _ _ _ P G) as (G1 & G2 & d' & G3 & G4).
  - cbn [flat_map app] in A. rewrite G3. cbn [bind]. rewrite (At_frame _ _ _ _ A) in G3 by (split; [cbn [fst]; lia|reflexivity]). injection G3 as <- _ _ _.
    cbn [fst snd] in *. change (0x0A =? 0x0A) with true in *. cbv iota in *. exact H.
  - inversion OK as [|? ? K1 K2]; subst. cbn [flat_map] in A. rewrite <- app_assoc in A. rewrite G3. cbn [bind]. destruct part as [g|name op body recs].
    + destruct K1 as (F & N1 & N2 & N3). cbn [part_bytes] in A. rewrite (At_frame _ _ _ _ A F) in G3. injection G3 as <- _ <- <-.
      replace (fst g =? 0x0A) with false in * by lia. apply bind_ok in H as ([b1 q1] & S1 & H).
      assert (LA : left_alone b b1 /\ q1 = pos + zlen (frame g)) by (eapply gstep_alone; eassumption). destruct LA as [LA ->].
      assert (L : pos + zlen (frame g) <= zlen mem).
      { destruct fuel as [|fuel]; [discriminate|]. cbn [globals] in H. apply bind_ok in H as ([[[rc' len'] d2] q2] & G' & _).
        assert (P' : 0 <= pos + zlen (frame g)) by lia. destruct (parts_more mem rest B _ _ _ _ _ P' G') as (_ & L & _). lia. }
      rewrite (G4 L). assert (P' : 0 <= pos + zlen (frame g)) by lia. destruct (gstep_more codec lower num8 rk ragged old_load mem rest B b _ _ _ _ _ P' N2 S1) as (_ & M & _). rewrite (M L). cbn [bind].
      refine (IH fuel b1 _ r K2 P' _ _ H); [rewrite (la_bv _ _ LA); exact V|exact (At_skip _ _ _ _ _ A eq_refl)].
    + pose proof K1 as (K3 & K4 & _). set (sub := substream op body recs) in *. set (hdr := le_enc 4 (zlen sub) ++ [zlen name] ++ name) in *.
      cbn [part_bytes] in A. fold sub in A. fold hdr in A. rewrite <- app_assoc in A.
      assert (FH : framable (0x8F, hdr)).
      { split; cbn [fst snd]; [lia|]. unfold hdr. rewrite !zlen_app, zlen_le_enc. change (zlen [zlen name]) with 1. lia. }
      rewrite (At_frame _ _ _ _ A FH) in G3. cbn [fst snd] in G3. injection G3 as <- _ <- <-. change (0x8F =? 0x0A) with false in *. cbv iota in *.
      apply bind_ok in H as ([b1 q1] & S1 & H).
      change (gstep codec load b mem ?p 0x8F d) with (handle_sheethdr codec load b mem p d) in S1.
      set (q := pos + zlen (frame (0x8F, hdr))) in *. change (gstep codec load b full q 0x8F hdr) with (handle_sheethdr codec load b full q hdr).
      assert (HS : handle_sheethdr codec load b full q hdr = Ok (b1, q1) /\ bk_bv b1 = 45 /\ q1 = q + zlen sub).
      { unfold handle_sheethdr in *. apply bind_ok in S1 as (b2 & D & S1). rewrite D. cbn [bind].
        pose proof (la_bv _ _ (derive_alone _ _ _ D)) as V2. rewrite V in V2.
        apply bind_ok in S1 as (n & U & S1). apply bind_ok in S1 as (nm & UN & S1). apply bind_ok in S1 as (ex & PI & S1). apply bind_ok in S1 as ([] & GE & S1).
        apply bind_ok in S1 as ([v p] & GB & S1). apply bind_ok in S1 as ([g sh] & LD & S1). apply bind_ok in S1 as (l & LS & S1). injection S1 as <- <-.
        assert (Q : 0 <= q) by (unfold q; lia). destruct (getbof_more mem rest _ _ _ _ Q GB) as (LB & GB'). assert (L : q <= zlen mem) by lia. pose proof (G4 L) as EH. rewrite <- EH in U, UN.
        rewrite U. cbn [bind]. rewrite UN. cbn [bind]. rewrite PI. cbn [bind]. rewrite GE. cbn [bind]. rewrite GB'. cbn [bind].
        match type of LD with load ?b0 _ _ _ _ = _ => assert (V3 : bk_bv b0 <= 45) by (cbn; lia) end. assert (P3 : 0 <= p) by lia.
        rewrite (load_more _ p ex _ _ V3 P3 LD). cbn [bind]. rewrite LS. cbn [bind]. split; [reflexivity|split; [exact V2|]].
        assert (A0 : At hdr 0 (le_enc 4 (zlen sub) ++ [zlen name] ++ name)) by (exists []; auto).
        pose proof (zlen_nonneg sub). rewrite (At_i32_pos _ _ _ _ A0) in U by lia. injection U as <-. reflexivity. }
      destruct HS as (HS & V1 & ->). rewrite HS. cbn [bind]. pose proof (zlen_nonneg sub).
      assert (P' : 0 <= q + zlen sub) by lia. refine (IH fuel b1 _ r K2 P' V1 _ H). pose proof (At_skip _ _ _ _ (pos + zlen (frame (0x8F, hdr))) A eq_refl) as A2.
      fold q in A2. exact (At_skip _ _ _ _ _ A2 eq_refl).
Qed.

(** A workbook of BIFF4W of which [mem] is the beginning. *)
Theorem c103_four_w_cut_off : forall fuel depth body parts t ov fmt on_demand ignore a,
  full = workbook_4w body parts t -> bytes rest -> 4 <= zlen body <= 20 -> word body 1 = 0x100 -> Forall part_ok parts ->
  open_workbook_xls fuel depth mem ov fmt on_demand ignore = Ok a -> open_workbook_xls fuel depth full ov fmt on_demand ignore = Ok a.
Proof.
  intros fuel depth body parts t ov fmt od ignore a FE BR LB W OK H.
  assert (GF : getbof full 0 5 = Ok (45, 4 + zlen body)).
  { apply c47_getbof; [apply Forall_app; auto|lia|]. exists 0x409, body. split.
    { exists [], (flat_map part_bytes parts ++ frame (0x0A, []) ++ t). split; [|reflexivity]. rewrite FE. unfold workbook_4w, frame. cbn [fst snd app]. rewrite <- !app_assoc. reflexivity. }
    split; [exact LB|]. split; [apply Biff4W; exact W|]. split; [|lia]. unfold right_stream. rewrite W. right. left. repeat split. }
  assert (S1 : py_slice full 0 8 <> SIGNATURE).
  { intros E. rewrite FE in E. unfold workbook_4w, frame in E. cbn [fst snd] in E. rewrite <- !app_assoc in E. cbn [le_enc app] in E.
    destruct body as [|b0 [|b1 [|b2 [|b3 body]]]]; try (exfalso; cbn in LB; lia).
    match type of E with py_slice (?x0 :: ?x1 :: ?x2 :: ?x3 :: (?x4 :: ?x5 :: ?x6 :: ?x7 :: ?l) ++ ?l') 0 8 = _ =>
      change (x0 :: x1 :: x2 :: x3 :: (x4 :: x5 :: x6 :: x7 :: l) ++ l') with ([x0; x1; x2; x3; x4; x5; x6; x7] ++ (l ++ l')) in E end.
    rewrite py_slice_pre in E by reflexivity. discriminate E. }
  assert (S0 : py_slice mem 0 8 <> SIGNATURE).
  { intros E. apply S1. pose proof (py_slice_len mem 0 8) as PL. rewrite E in PL. unfold py_bound in PL. change (zlen SIGNATURE) with 8 in PL. cbn [Z.ltb Z.compare] in PL. pose proof (zlen_nonneg mem). rewrite slice_kept by lia. exact E. }
  unfold BookApi.open_workbook_xls in *.
  apply bind_ok in H as ([] & Z0 & H). apply bind_ok in H as ([m base] & FS & H). destruct (bare_stream _ _ _ _ _ S0 FS) as [-> ->].
  unfold open_stream in H. change XL_WORKBOOK_GLOBALS with 5 in *. apply bind_ok in H as ([bv pos] & GB & H).
  destruct (getbof_more mem rest _ _ _ _ (Z.le_refl 0) GB) as (L & GB'). rewrite GF in GB'. injection GB' as <- <-.
  pose proof (zlen_nonneg rest). rewrite zlen_app. replace (zlen mem + zlen rest =? 0) with false by lia. cbn [negb guard bind].
  unfold find_stream. rewrite (list_eqb_ne _ _ S1). cbn [negb bind].
  unfold open_stream. change XL_WORKBOOK_GLOBALS with 5. rewrite GF. cbn [bind].
  apply bind_ok in H as ([] & H1 & H). rewrite H1. cbn [bind]. apply bind_ok in H as ([] & H2 & H). rewrite H2. cbn [bind].
  apply bind_ok in H as (b & HB & H). rewrite HB. cbn [bind]. change (45 <=? 40) with false in *. change (45 =? 45) with true in *. cbv iota in *.
  apply bind_ok in H as ([b1 q] & HG & H).
  assert (VB : bk_bv b = 45) by (unfold book0 in HB; apply bind_ok in HB as (f & _ & HB); injection HB as <-; reflexivity).
  assert (A : At full (4 + zlen body) (flat_map part_bytes parts ++ frame (0x0A, []) ++ t)).
  { exists (frame (0x409, body)). split; [exact FE|]. unfold frame. cbn [fst snd]. rewrite !zlen_app, !zlen_le_enc. lia. }
  assert (P : 0 <= 4 + zlen body) by lia. rewrite (globals_cut t parts fuel b (4 + zlen body) (b1, q) OK P VB A HG). exact H.
Qed.
End Files.

(** The files of C84 and C107, without the bytes after the end.  They open as the whole files do, and without one more
    byte they do not. *)
Definition open_old (m : list Z) : result (@api Z) :=
  open_workbook_xls (fun _ b => Ok b) int_ops (fun x => x) le_val (fun b => Ok (le_val b)) false (OldSheet.old_load (fun _ b => Ok b) le_val (fun b => Ok (le_val b)) (fun n => n) false)
    300 100 m None true false false.
Definition read_ok (r : result (@api Z)) : bool := match r with Ok _ => true | Err _ => false end.
Example c103_old_case :
  let m := firstn (List.length ExOwn.file - 3) ExOwn.file in
  bytes m /\ py_slice m 0 8 <> SIGNATURE /\ getbof m 0 5 = Ok (40, 10) /\ read_ok (open_old m) = true /\
  read_ok (open_old (firstn (List.length ExOwn.file - 4) ExOwn.file)) = false.
Proof. split; [apply PropChain.bytes_check; vm_compute; reflexivity|]. split; [vm_compute; discriminate|]. split; [reflexivity|]. split; vm_compute; reflexivity. Qed.
Example c103_four_w_case :
  let m := firstn (List.length ExFourW.file - 1) ExFourW.file in
  bytes m /\ m ++ [7] = ExFourW.file /\ read_ok (open_old m) = true /\ read_ok (open_old (firstn (List.length ExFourW.file - 2) ExFourW.file)) = false.
Proof. split; [apply PropChain.bytes_check; vm_compute; reflexivity|]. split; [vm_compute; reflexivity|]. split; vm_compute; reflexivity. Qed.

Print Assumptions c103_old_sheet.
Print Assumptions c103_old_cut_off.
Print Assumptions c103_four_w_cut_off.
