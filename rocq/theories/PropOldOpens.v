(** Which BIFF2 to BIFF4 files can be opened (C108): those whose texts the encoding
    decodes, whose cells have formats that exist and whose records are long enough. *)
From Verif Require Import Base BaseFacts Text Strings Framing GridModel GridFacts PropGrid SheetObjects SheetModel SheetFacts
  SheetSteps PropSheet PropRead CompDoc FormatModel FormatFacts FormulaModel BookModel BookFacts PropEnc BookContent BookFine BookApi PropFormat PropBof PropFormulaText
  OldSheet OldXf OldContent OldSteps OldTurns OldRead OldFine PropOldSheet.

Section Opens.
Context {N : Type}.
Variable codec : list Z -> list Z -> result (list Z).
Variable num8 : list Z -> N.
Variable rk : list Z -> result N.
Variable of_int : Z -> N.
Variable ragged : bool.
Notation old_read := (old_read codec num8 rk of_int ragged).
Notation old_load := (old_load codec num8 rk of_int ragged).
Notation recs items len d rest := (map rec_of (flat_map oenc items) ++ (XL_EOF, len, d) :: rest).

Lemma read_fine : forall bv ov fmt refs cp (b : book N (@loaded N)) items len d rest, 16 + zlen refs <= 32768 -> PropOldSheet.fresh bv b ->
  b_fmt (bk_fmt b) = fmt -> ready codec bv ov cp (bk_enc b) -> enc_inv b ->
  Forall (oitem_ok bv) items -> settings_first items -> formats_first items ->
  good codec rk bv ov fmt refs (existsb is_xf items) cp 0 None items ->
  exists s, old_read b (recs items len d rest) = Ok s /\ ready codec bv ov (last_page cp items) (bk_enc (os_book s)) /\ enc_inv (os_book s) /\ bk_bv (os_book s) = bv.
Proof.
  intros bv ov fmt refs cp b items len d rest FEW F FM RD EN OK SF FF G.
  assert (ST : stands bv (existsb is_xf items) (ost0 b) items).
  { left. split; [apply fresh_before; exact F|]. split; [exact SF|]. split; [exact FF|].
    change (b_xfs (os_fmt (ost0 b))) with (b_xfs (bk_fmt b)). rewrite (fr_xfs _ _ F). split; [reflexivity|discriminate]. }
  assert (A : able codec ragged bv ov fmt refs (existsb is_xf items) cp 0 (ost0 b)).
  { constructor.
    - exact (fr_bv _ _ F).
    - exact RD.
    - exact EN.
    - intros _. change (b_xfs (os_fmt (ost0 b))) with (b_xfs (bk_fmt b)). change (b_xftype (os_fmt (ost0 b))) with (b_xftype (bk_fmt b)).
      rewrite (fr_xfs _ _ F), (fr_types _ _ F). split; [reflexivity|]. intros i I. assert (i = 0) as -> by lia. discriminate.
    - intros _ _. exists [], []. change (b_xfs (os_fmt (ost0 b))) with (b_xfs (bk_fmt b)). rewrite (fr_xfs _ _ F).
      split; [reflexivity|]. split; [constructor|]. split; [intros x []|]. cbn. lia.
    - exists []. split; [constructor|reflexivity].
    - exact FM. }
  destruct (progress codec num8 rk of_int ragged bv ov fmt refs (existsb is_xf items) FEW (fr_known _ _ F) items (ost0 b) cp 0 len d rest OK ST A G)
    as (s1 & n' & E & A').
  destruct (items_read codec num8 rk of_int ragged bv _ items (ost0 b) s1 len d rest OK ST E) as (hist & P & HO & M & B & I & _).
  change (b_fmt (os_fmt (ost0 b))) with (b_fmt (bk_fmt b)) in *. change (sh_grid (os_sheet (ost0 b))) with (@grid0 (value N)) in P.
  change (f_merged (sh_fmt (os_sheet (ost0 b)))) with (@nil mrange) in M.
  assert (MR : max_rows (cfg codec num8 rk ragged s1) = 16384).
  { unfold max_rows. change (c_bv (cfg codec num8 rk ragged s1)) with (bk_bv (os_book s1)). rewrite (si_bv _ _ _ I).
    pose proof (si_version _ _ _ I) as V. clear - V. destruct (bv >=? 80) eqn:X; [lia|reflexivity]. }
  assert (IB : Forall (in_bounds (b_fmt (bk_fmt b)) 16384 256) hist).
  { rewrite <- B. eapply holds_bounds; [apply written_ok; exact OK|exact HO]. }
  destruct (c19_last_store (@vempty N) ragged (b_fmt (bk_fmt b)) 16384 256 hist [] ltac:(lia) ltac:(lia) IB ltac:(constructor)) as (g & E' & _).
  unfold sheet_of in E'. rewrite P in E'. cbn [bind] in E'.
  unfold OldSheet.old_read. rewrite (fr_bv _ _ F). unfold old_all in E. rewrite E. cbn [bind]. cbv zeta. rewrite MR, B, M, E'. cbn [bind].
  eexists. split; [reflexivity|]. split; [exact (ab_ready _ _ _ _ _ _ _ _ _ _ A')|].
  split; [exact (ab_inv _ _ _ _ _ _ _ _ _ _ A')|exact (ab_bv _ _ _ _ _ _ _ _ _ _ A')].
Qed.

Lemma colours_fine : forall bv, In bv [21; 30; 40; 45] -> exists m, initial_colours bv = Ok m.
Proof.
  intros bv I. assert (T : match initial_colours bv with Ok _ => true | Err _ => false end = true).
  { cbn [In] in I. destruct I as [<-|[<-|[<-|[<-|[]]]]]; vm_compute; reflexivity. }
  destruct (initial_colours bv); [eauto|discriminate].
Qed.

Lemma book0_fine : forall bv base fmt ov, In bv [21; 30; 40; 45] -> exists b : book N (@loaded N), book0 bv base fmt ov = Ok b /\ bk_enc b = mk_encst ov None None false [].
Proof.
  intros bv base fmt ov I. unfold book0, fbook0. destruct (colours_fine bv I) as (m & E).
  destruct fmt; [rewrite E|]; cbn [bind]; eexists; split; reflexivity.
Qed.

Lemma opens : forall ops lower fuel depth op body bv items t ov fmt od ignore refs,
  bytes (file_of op body items t) -> bof_says body op bv -> bv <= 40 -> bv <> 0 -> 4 <= zlen body <= 20 -> word body 1 = 0x10 ->
  Forall framable (flat_map oenc items) -> Forall (oitem_ok bv) items -> settings_first items -> formats_first items ->
  16 + zlen refs <= 32768 -> good codec rk bv ov fmt refs (existsb is_xf items) None 0 None items ->
  exists a, open_workbook_xls codec ops lower num8 rk ragged old_load fuel depth (file_of op body items t) ov fmt od ignore = Ok a.
Proof.
  intros ops lower fuel depth op body bv items t ov fmt od ignore refs B BS L NZ LB W F OK SF FF FEW G.
  destruct (bof_known _ _ _ BS L NZ) as [KV KO].
  set (file := file_of op body items t) in *.
  assert (GB : forall wanted, wanted = 5 \/ wanted = 0x10 -> getbof file 0 wanted = Ok (bv, 4 + zlen body)).
  { intros wanted WW. apply c47_getbof; [exact B|lia|]. exists op, body. split.
    { exists [], (frames (flat_map oenc items ++ [(XL_EOF, [])]) ++ t). split; [|reflexivity]. unfold file, file_of, frame. cbn [fst snd app].
      rewrite <- !app_assoc. reflexivity. }
    split; [exact LB|]. split; [exact BS|]. split; [|lia]. unfold right_stream. rewrite W. right. right. split; [reflexivity|lia]. }
  unfold open_workbook_xls.
  assert (zlen file =? 0 = false) as ->.
  { apply Z.eqb_neq. unfold file, file_of. rewrite zlen_app, frame_zlen. cbn [snd]. match goal with |- context [zlen (frames ?x ++ ?y)] => pose proof (zlen_nonneg (frames x ++ y)) end. lia. }
  cbn [negb guard bind].
  assert (find_stream lower fuel depth file ignore = Ok (file, 0)) as ->.
  { unfold find_stream. replace (list_eqb (py_slice file 0 8) SIGNATURE) with false; [reflexivity|].
    symmetry. apply not_true_is_false. intros E. apply list_eqb_eq in E.
    assert (E0 : znth (py_slice file 0 8) 0 = Some (op mod 256)).
    { unfold file, file_of, frame. cbn [fst snd]. rewrite <- !app_assoc. cbn [le_enc app]. destruct body as [|b0 [|b1 [|b2 [|b3 body]]]]; try (exfalso; cbn in LB; lia).
      match goal with |- context [py_slice (?x0 :: ?x1 :: ?x2 :: ?x3 :: (?x4 :: ?x5 :: ?x6 :: ?x7 :: ?l) ++ ?l') 0 8] =>
        change (x0 :: x1 :: x2 :: x3 :: (x4 :: x5 :: x6 :: x7 :: l) ++ l') with ([x0; x1; x2; x3; x4; x5; x6; x7] ++ (l ++ l')) end.
      rewrite py_slice_pre by reflexivity. reflexivity. }
    rewrite E in E0. cbn [In] in KO. clear - E0 KO. vm_compute in E0. destruct KO as [<-|[<-|[<-|[<-|[]]]]]; vm_compute in E0; discriminate E0. }
  cbn [bind]. unfold open_stream. change XL_WORKBOOK_GLOBALS with 5. rewrite (GB 5) by (left; reflexivity). cbn [bind].
  replace (bv =? 0) with false by lia. cbn [negb guard bind].
  assert (existsb (Z.eqb bv) SUPPORTED_VERSIONS = true) as -> by (cbn [In] in KV; destruct KV as [<-|[<-|[<-|[]]]]; reflexivity). cbn [guard bind].
  assert (KV' : In bv [21; 30; 40; 45]) by (cbn [In] in *; tauto).
  destruct (book0_fine bv 0 fmt ov KV') as (b0 & HB & EN). rewrite HB. cbn [bind].
  replace (bv <=? 40) with true by lia. cbv zeta.
  destruct (fresh0 bv 0 fmt ov b0 (mk_shst [s2l "Sheet 1"] [0] [0] [] []) KV HB) as [FR FM].
  set (b := with_list (with_sheets b0 (mk_shst [s2l "Sheet 1"] [0] [0] [] [])) [None]) in *.
  change (get_sheets codec num8 rk ragged old_load b file) with (get_sheets_in codec num8 rk ragged old_load b file [0]). cbn [get_sheets_in].
  unfold get_sheet. change (py_index (sl_posn (bk_sheets b)) 0) with (@Ok Z 0). cbn [bind]. change XL_WORKSHEET with 0x10. rewrite (GB 0x10) by (right; reflexivity). cbn [bind].
  change (py_index (sl_names (bk_sheets b)) 0) with (@Ok (list Z) (s2l "Sheet 1")). cbn [bind].
  unfold load. rewrite (fr_bv _ _ FR). replace (bv <=? 45) with true by lia.
  unfold OldSheet.old_load. change (py_index (sl_visibility (bk_sheets b)) 0) with (@Ok Z 0). cbn [bind].
  assert (exists rest, stream file (4 + zlen body) = recs items (@zlen Z []) [] rest) as (rest & ES).
  { pose proof (stream_content (frame (op, body)) items t B F) as K. rewrite frame_zlen in K. exact K. }
  change (records_of (S (2 * List.length file)) file (4 + zlen body)) with (stream file (4 + zlen body)). rewrite ES.
  assert (RD : ready codec bv ov None (bk_enc b)) by (change (bk_enc b) with (bk_enc b0); rewrite EN; split; [reflexivity|]; split; [left; reflexivity|discriminate]).
  assert (EI : enc_inv b) by (intros _; left; change (bk_enc b) with (bk_enc b0); rewrite EN; reflexivity).
  destruct (read_fine bv ov fmt refs None b items (@zlen Z []) [] rest FEW FR FM RD EI OK SF FF G) as (s & -> & _). cbn [bind]. cbv zeta.
  eexists. reflexivity.
Qed.
End Opens.

(** ** C108: a well-formed BIFF2 to BIFF4 file opens, and shows its content *)
Theorem c108_open : forall {N} codec (num8 : list Z -> N) rk of_int ragged ops lower fuel depth op body bv items t override fmt od ignore refs,
  bytes (file_of op body items t) -> bof_says body op bv -> bv <= 40 -> bv <> 0 -> 4 <= zlen body <= 20 -> word body 1 = 0x10 ->
  Forall framable (flat_map oenc items) -> Forall (oitem_ok bv) items -> settings_first items -> formats_first items ->
  16 + zlen refs <= 32768 -> good codec rk bv override fmt refs (existsb is_xf items) None 0 None items ->
  exists a, open_workbook_xls codec ops lower num8 rk ragged (old_load codec num8 rk of_int ragged) fuel depth (file_of op body items t) override fmt od ignore = Ok a /\
    sl_names (bk_sheets (a_book a)) = [s2l "Sheet 1"] /\ a_mem a = None /\
    exists sh, bk_list (a_book a) = [Some (mk_loaded 0 (s2l "Sheet 1") 0 sh)] /\
      sheet_holds codec num8 rk of_int bv (bk_fmt (a_book a)) (en_encoding (bk_enc (a_book a))) fmt items sh.
Proof.
  intros N codec num8 rk of_int ragged ops lower fuel depth op body bv items t override fmt od ignore refs B BS L NZ LB W FR OK SF FF FEW G.
  destruct (opens codec num8 rk of_int ragged ops lower fuel depth op body bv items t override fmt od ignore refs B BS L NZ LB W FR OK SF FF FEW G) as (a & H).
  exists a. split; [exact H|]. eapply c71_open; eassumption.
Qed.
Print Assumptions c108_open.

Module Ex108.
(** With fonts, rows, a column, the window and the number of built-in formats as well. *)
Definition items30 : list oitem :=
  [ONoise 0x231 [200; 0; 1; 0; 0; 0; 2; 72; 105]; ONoise 0x56 [21; 0]; OSetting XL_CODEPAGE [0xE4; 4]] ++ Ex.items30 ++
  [ONoise 0x208 [0; 0; 0; 0; 9; 0; 255; 0; 0; 0; 0; 0; 0; 0; 0; 0]; ONoise 0x7d [3; 0; 4; 0; 0; 8; 15; 0; 1; 2];
   ONoise 0x23e [0; 0; 1; 0; 1; 0; 0; 0; 0; 0]].
Definition codec (_ b : list Z) : result (list Z) := Ok b.
Definition rk (b : list Z) : result Z := Ok (le_val b).
End Ex108.

(** The conditions hold for the three files of C71 and for this one, with formatting_info. *)
Example c108_hypotheses :
  good Ex108.codec Ex108.rk 21 None true [[64; 1; 2]; [0; 0; 137]; [64; 0; 2]] (existsb is_xf Ex.items20) None 0 None Ex.items20 /\
  good Ex108.codec Ex108.rk 21 None true [] (existsb is_xf Ex.items21) None 0 None Ex.items21 /\
  good Ex108.codec Ex108.rk 30 None true [] (existsb is_xf Ex108.items30) None 0 None Ex108.items30 /\
  Forall (oitem_ok 30) Ex108.items30 /\ settings_first Ex108.items30 /\ formats_first Ex108.items30.
Proof.
  assert (R : forall bv raw, bv < 80 -> reads Ex108.codec bv None None raw raw).
  { intros bv raw V. split; [right; intros e _; right; eexists; reflexivity|]. exists (s2l "iso-8859-1"). split; [|reflexivity]. apply ByVersion; [left; reflexivity|exact V]. }
  assert (R2 : forall raw, reads Ex108.codec 30 None (Some 0x4E4) raw raw).
  { intros raw. split; [right; intros e _; right; eexists; reflexivity|].
    exists (s2l "cp" ++ fmt_d 0x4E4). split; [|reflexivity]. apply ByCodepage; [left; reflexivity|]. apply Windows; lia. }
  assert (U : usable Ex108.codec 30 None (Some 0x4E4)) by (right; intros e _; right; eexists; reflexivity).
  split; [|split; [|split; [|split]]].
  - unfold Ex.items20. cbn [good]. change (existsb is_xf _) with false.
    split; [apply N_unknown; vm_compute; intuition discriminate|].
    change (XL_FORMAT2 =? 0x42) with false. change (XL_DIMENSION2 =? 0x42) with false. cbv iota.
    split; [exact (S_format _ _ _ None XL_FORMAT2 [] [71; 101; 110; 101; 114; 97; 108] [] _ (or_introl eq_refl) eq_refl eq_refl (R 21 _ eq_refl))|].
    split; [exact (S_format _ _ _ None XL_FORMAT2 [] [121; 121] [] _ (or_introl eq_refl) eq_refl eq_refl (R 21 _ eq_refl))|].
    split; [apply S_dimension; [left; reflexivity|right; vm_compute; discriminate]|].
    cbn [oc_ref oc_kind ref_good value_good result_good]. change ((21 =? 21) && false) with false. cbv iota.
    repeat split; try reflexivity; try (cbn [In]; tauto); try (eexists; apply (R 21); reflexivity). exists [111; 107]. split; [apply (R 21); reflexivity|reflexivity].
  - unfold Ex.items21. cbn [good]. change (existsb is_xf _) with true.
    change (XL_FORMAT2 =? 0x42) with false. change (XL_XF2 =? 0x42) with false. change (XL_DIMENSION2 =? 0x42) with false. cbv iota.
    split; [exact (S_format _ _ _ None XL_FORMAT2 [] [71; 101; 110; 101; 114; 97; 108] [] _ (or_introl eq_refl) eq_refl eq_refl (R 21 _ eq_refl))|].
    split; [exact (S_format _ _ _ None XL_FORMAT2 [] [121; 121] [] _ (or_introl eq_refl) eq_refl eq_refl (R 21 _ eq_refl))|].
    split; [apply S_xf; reflexivity|]. split; [apply S_xf; reflexivity|].
    split; [apply S_dimension; [left; reflexivity|right; vm_compute; discriminate]|].
    cbn [oc_ref oc_kind ref_good value_good]. change ((21 =? 21) && true) with true. cbv iota.
    split; [exists 1; vm_compute; intuition discriminate|]. split; [exact I|]. split; [exists 1; vm_compute; intuition discriminate|]. split; exact I.
  - unfold Ex108.items30, Ex.items30. cbn [app good]. change (existsb is_xf _) with true.
    split; [exact (N_font Ex108.codec 30 None true None 0x231 [200; 0; 1; 0; 0; 0] [72; 105] [] _ (or_intror eq_refl) eq_refl eq_refl (R 30 _ eq_refl))|].
    split; [apply (N_long _ _ _ _ _ _ _ 2); [cbn; tauto|vm_compute; discriminate]|].
    change (XL_CODEPAGE =? 0x42) with true. change (XL_FORMAT2 =? 0x42) with false. change (XL_XF3 =? 0x42) with false. change (XL_DIMENSION =? 0x42) with false. cbv iota.
    exists 0x4E4, []. split; [reflexivity|]. split; [unfold u16v; lia|]. split; [exact U|].
    split; [exact (S_format _ _ _ _ XL_FORMAT2 [] [71; 101; 110; 101; 114; 97; 108] [] _ (or_introl eq_refl) eq_refl eq_refl (R2 _))|].
    split; [exact (S_format _ _ _ _ XL_FORMAT2 [] [121; 121] [] _ (or_introl eq_refl) eq_refl eq_refl (R2 _))|].
    split; [apply S_xf; [reflexivity|vm_compute; discriminate]|]. split; [apply S_xf; [reflexivity|vm_compute; discriminate]|].
    split; [apply S_dimension; [right; reflexivity|right; vm_compute; discriminate]|].
    cbn [oc_ref oc_kind ref_good value_good].
    split; [vm_compute; intuition discriminate|]. split; [eexists; reflexivity|]. split; [vm_compute; intuition discriminate|]. split; [eexists; apply R2|].
    split; [apply (N_long _ _ _ _ _ _ _ 16); [cbn; tauto|vm_compute; discriminate]|].
    split; [apply (N_long _ _ _ _ _ _ _ 10); [cbn; tauto|vm_compute; discriminate]|].
    split; [apply N_window; vm_compute; discriminate|exact I].
  - (repeat (apply Forall_cons; [|]); [..|apply Forall_nil]); vm_compute; repeat split; auto; try discriminate; try (repeat constructor; fail).
  - vm_compute; repeat split; auto; intros; discriminate.
Qed.

(** The condition on formats is needed: a cell of a BIFF3 file with an XF that is not there
    makes the whole file unreadable. *)
Example c108_no_xf :
  open_workbook_xls Ex108.codec int_ops (fun s => s) le_val Ex108.rk false (old_load Ex108.codec le_val Ex108.rk (fun n => n) false) 100 100
    (file_of 0x209 Ex.bof [OCell (mk_ocell 0 1 (Xf 1) (KNumber [0; 0; 0; 0; 0; 0; 240; 63]))] []) None true false false = Err KeyError.
Proof. vm_compute. reflexivity. Qed.
