(** What reading a BIFF2 to BIFF4 worksheet gives: every cell of the content with its type,
    value and XF, and no others (C71), the formats of BIFF2 cells (C72, C73), and opening
    such a file (C74). *)
From Verif Require Import Base BaseFacts Text Strings Framing GridModel GridFacts PropGrid SheetObjects SheetModel SheetFacts
  SheetSteps PropSheet PropRead PropView CompDoc FormatModel FormatFacts FormulaModel BookModel BookApi PropFormat PropBof PropFormulaText
  OldSheet OldXf OldContent OldSteps OldTurns OldRead.

(** ** Specification *)

Section Spec.
Context {N : Type}.
Variable codec : list Z -> list Z -> result (list Z).
Variable num8 : list Z -> N.
Variable rk : list Z -> result N.
Variable of_int : Z -> N.

(** A book as it is before its worksheet is read. *)
Record fresh (bv : Z) (b : book N (@loaded N)) : Prop := {
  fr_bv : bk_bv b = bv;
  fr_version : b_bv (bk_fmt b) = bv;
  fr_known : In bv [20; 21; 30; 40; 45];
  fr_xfs : b_xfs (bk_fmt b) = [];
  fr_formats : b_formats (bk_fmt b) = [];
  fr_types : b_xftype (bk_fmt b) = [(0, XL_CELL_NUMBER)] }.

(** The XF of a cell.  From BIFF3 on a cell gives the index.  A BIFF2 file with XF records
    gives it in six bits, where 63 refers to the last IXFE record before the cell.  With no
    XF records the three bytes describe the format themselves, and so does the XF. *)
Definition described (bv : Z) (real : bool) (r : fref) : bool :=
  match r with Attr _ _ _ => negb ((bv =? 21) && real) | Xf _ => false end.
Definition xf_seen (bv : Z) (real : bool) (f : fbook) (ixfe : option Z) (r : fref) (i : Z) : Prop :=
  match r with
  | Xf x => i = x
  | Attr a0 a1 a2 =>
      if (bv =? 21) && real then if a0 mod 64 =? 63 then ixfe = Some i else i = a0 mod 64
      else exists x g, znth (b_xfs f) i = Some x /\ attributes a0 a1 a2 x /\ dget Z.eqb (b_formats f) (xf_format_key x) = Some g
  end.

(** The type of a number, from the format of its XF. *)
Definition number_seen (bv : Z) (real : bool) (f : fbook) (r : fref) (i t : Z) : Prop :=
  (forall x g, znth (b_xfs f) i = Some x -> dget Z.eqb (b_formats f) (xf_format_key x) = Some g ->
     t = type_of g \/ xf_format_key x = 0 /\ t = 2 /\ described bv real r = false) /\
  0 <= i < Z.max 1 (zlen (b_xfs f)).

(** What is seen of a cell. *)
Record seen (bv : Z) (real : bool) (f : fbook) (encoding : option (list Z)) (w : option Z * ocell) (st : @store (value N)) : Prop := {
  se_row : s_row st = oc_row (snd w);
  se_col : s_col st = oc_col (snd w);
  se_xf : xf_seen bv real f (fst w) (oc_ref (snd w)) (s_xf st);
  se_cell :
    let number x := s_val st = VNum x /\ number_seen bv real f (oc_ref (snd w)) (s_xf st) (s_type st) in
    match oc_kind (snd w) with
    | KNumber d8 => number (num8 d8)
    | KInteger n => number (of_int n)
    | KRk b => exists x, rk b = Ok x /\ number x
    | KText raw => exists t, unicode codec encoding raw = Ok t /\ s_val st = VText t /\ s_type st = 1
    | KBool v => s_val st = VInt v /\ s_type st = 4
    | KError v => s_val st = VInt v /\ s_type st = 5
    | KBlank => s_val st = vempty /\ s_type st = 6
    | KNoText => s_val st = VText [] /\ s_type st = 1
    end }.

(** XF indices of a sheet read with formatting_info. *)
Definition xfs_seen (sh : sheet N) (hist : list (@store (value N))) : Prop :=
  forall r k n, 0 <= r < g_nrows (sh_grid sh) -> row_len (sh_grid sh) r = Ok n -> 0 <= k < n ->
    plane_get (g_xfs (sh_grid sh)) r k = Ok (spec_xf hist r k).

(** Two cells of which the formats are described have one XF if the descriptions agree,
    and different ones otherwise. *)
Definition shares (bv : Z) (real : bool) (ws : list (option Z * ocell)) (hist : list (@store (value N))) : Prop :=
  forall w st w' st', In (w, st) (List.combine ws hist) -> In (w', st') (List.combine ws hist) ->
    described bv real (oc_ref (snd w)) = true -> described bv real (oc_ref (snd w')) = true ->
    (s_xf st = s_xf st' <-> oc_ref (snd w) = oc_ref (snd w')).

(** The sheet holds the cells of the content and no others. *)
Definition sheet_holds (bv : Z) (f : fbook) (encoding : option (list Z)) (fmt : bool) (items : list oitem) (sh : sheet N) : Prop :=
  let real := existsb is_xf items in
  exists hist, shows sh hist [] /\ (fmt = true -> xfs_seen sh hist) /\
    Forall2 (seen bv real f encoding) (written fmt None items) hist /\ shares bv real (written fmt None items) hist.
End Spec.

(** ** Proofs *)

Section Proofs.
Context {N : Type}.
Variable codec : list Z -> list Z -> result (list Z).
Variable num8 : list Z -> N.
Variable rk : list Z -> result N.
Variable of_int : Z -> N.
Variable ragged : bool.
Notation ost := (@ost N).
Notation store := (@store (value N)).
Notation old_read := (old_read codec num8 rk of_int ragged).
Notation old_load := (old_load codec num8 rk of_int ragged).
Notation holds := (holds codec num8 rk of_int).
Notation seen := (seen codec num8 rk of_int).
Notation recs items len d rest := (map rec_of (flat_map oenc items) ++ (XL_EOF, len, d) :: rest).

Lemma none_in : forall {A} i, znth (@nil A) i = None.
Proof using. intros A i. unfold znth. destruct (i <? 0); [reflexivity|]. destruct (Z.to_nat i); reflexivity. Qed.

Lemma fresh_before : forall bv b, fresh bv b -> @before N bv (ost0 b).
Proof using. clear codec num8 rk of_int ragged.
  intros bv b [F1 F2 F3 F4 F5 F6]. constructor.
  - reflexivity.
  - reflexivity.
  - exact F2.
  - exact F1.
  - cbn [In] in F3. clear - F3. lia.
  - change (finv (bk_fmt b)). constructor.
    + intros i x H. rewrite F4 in H. rewrite none_in in H. discriminate H.
    + intros i x g H. rewrite F4 in H. rewrite none_in in H. discriminate H.
    + intros k g H. rewrite F5 in H. discriminate H.
    + intros i t H. rewrite F6 in H. cbn [dget] in H. destruct (i =? 0) eqn:E; [|discriminate H]. clear - E. pose proof (Z.le_max_l 1 (zlen (b_xfs (bk_fmt b)))). lia.
  - intros _. exact F4.
  - intros L. cbn [In] in F3. clear - F3 L. lia.
Qed.

Lemma attr_bytes : forall bv a0 a1 a2, ref_ok bv (Attr a0 a1 a2) -> bytes [a0; a1; a2].
Proof using. clear codec num8 rk of_int ragged. intros bv a0 a1 a2 (_ & A & B & C). constructor; [exact A|constructor; [exact B|constructor; [exact C|constructor]]]. Qed.

(** A cell as stored is a cell as seen. *)
Lemma holds_seen : forall bv real (s : ost) w st, sinv bv real s -> place_ok bv (snd w) -> holds bv real s w st ->
  seen bv real (os_fmt s) (en_encoding (bk_enc (os_book s))) w st.
Proof.
  intros bv real s [ix c] st I (_ & _ & P) (H1 & H2 & H3 & H4 & H5). cbn [fst snd] in *.
  assert (V20 : match oc_ref c with Attr _ _ _ => (bv =? 21) && real = false -> os_version s = 20 \/ False | Xf _ => True end).
  { destruct (oc_ref c) as [a0 a1 a2|x]; [|exact Logic.I]. intros E. left. destruct P as (L & _). destruct (si_2x _ _ _ I L) as [V|[V B]]; [exact V|].
    exfalso. destruct (si_21 _ _ _ I V) as [A R]. subst bv. assert (real = false) as -> by (destruct real; [discriminate E|reflexivity]).
    unfold xf_of in H4. rewrite andb_false_r in H4. rewrite A in H4. discriminate H4. }
  assert (NUM : forall x, s_val st = VNum x /\ dget Z.eqb (b_xftype (os_fmt s)) (s_xf st) = Some (s_type st) /\
    (bv < 30 -> 0 <= s_xf st < zlen (b_xfs (os_fmt s))) -> s_val st = VNum x /\ number_seen bv real (os_fmt s) (oc_ref c) (s_xf st) (s_type st)).
  { intros x (N1 & N2 & N3). split; [exact N1|]. split.
    - intros y g Y G. destruct (fi_typed _ (si_f _ _ _ I) _ _ _ Y G) as [T|[K T]]; [left; congruence|].
      unfold described. destruct (oc_ref c) as [a0 a1 a2|x0] eqn:EF; [|right; split; [exact K|split; [change 2 with XL_CELL_NUMBER; congruence|reflexivity]]].
      destruct ((bv =? 21) && real) eqn:ER; [right; split; [exact K|split; [change 2 with XL_CELL_NUMBER; congruence|reflexivity]]|].
      destruct (V20 eq_refl) as [V|[]]. destruct (si_20 _ _ _ I V) as (_ & S & _).
      destruct (S _ _ Y) as (g' & G' & T'). left. congruence.
    - apply (fi_range _ (si_f _ _ _ I) _ _ N2). }
  constructor; cbn [fst snd]; auto.
  - unfold xf_of in H4. unfold xf_seen. destruct (oc_ref c) as [a0 a1 a2|x] eqn:EF; [|exact H4].
    destruct ((bv =? 21) && real) eqn:E; [exact H4|]. destruct (V20 eq_refl) as [V|[]].
    destruct (si_20 _ _ _ I V) as (_ & S & T). destruct (T _ _ H4) as (b0 & b1 & b2 & x & E1 & Y & A).
    destruct (S _ _ Y) as (g & G & _). specialize (A (attr_bytes _ _ _ _ P)). injection E1 as <- <- <-. exists x, g. auto.
  - cbv zeta in *. destruct (oc_kind c); auto.
    + destruct H5 as (x & R & H5). exists x. split; [exact R|]. apply NUM. exact H5.
    + destruct H5 as (t & T1 & T2 & T3 & _). exists t. auto.
Qed.

Lemma written_ok : forall bv fmt items ix, Forall (oitem_ok bv) items -> Forall (fun w => place_ok bv (snd w)) (written fmt ix items).
Proof using. clear codec num8 rk of_int ragged.
  intros bv fmt. induction items as [|it l IH]; intros ix OK; [constructor|]. inversion OK as [|? ? O OK']; subst.
  destruct it; cbn [written]; auto.
  - apply Forall_app. split; [|auto]. destruct (kept fmt c); [|constructor]. constructor; [|constructor]. apply O.
  - constructor; [|auto]. apply O.
Qed.

Lemma holds_bounds : forall bv real (s : ost) ws hist, Forall (fun w => place_ok bv (snd w)) ws -> Forall2 (holds bv real s) ws hist ->
  Forall (in_bounds (b_fmt (os_fmt s)) 16384 256) hist.
Proof.
  intros bv real s ws hist OK F. induction F as [|w st ws hist H F IH]; [constructor|]. inversion OK as [|? ? (O1 & O2 & _) OK']; subst.
  constructor; [|auto]. destruct H as (H1 & H2 & H3 & _). split; [rewrite H1; exact O1|]. split; [rewrite H2; exact O2|exact H3].
Qed.

Lemma all_seen : forall bv real (s : ost) ws hist, sinv bv real s -> Forall (fun w => place_ok bv (snd w)) ws ->
  Forall2 (holds bv real s) ws hist -> Forall2 (seen bv real (os_fmt s) (en_encoding (bk_enc (os_book s)))) ws hist.
Proof.
  intros bv real s ws hist I OK F. induction F as [|w st ws hist H F IH]; [constructor|]. inversion OK; subst.
  constructor; [|auto]. eapply holds_seen; eauto.
Qed.

(** The sheet that is read from the records of a content. *)
Lemma read_content : forall bv b items len d rest s, fresh bv b -> Forall (oitem_ok bv) items -> settings_first items -> formats_first items ->
  old_read b (recs items len d rest) = Ok s ->
  exists hist, shows (os_sheet s) hist [] /\ (b_fmt (bk_fmt b) = true -> xfs_seen (os_sheet s) hist) /\
    b_fmt (os_fmt s) = b_fmt (bk_fmt b) /\ sinv bv (existsb is_xf items) s /\
    Forall2 (holds bv (existsb is_xf items) s) (written (b_fmt (bk_fmt b)) None items) hist.
Proof.
  intros bv b items len d rest s F OK SF FF H. unfold OldSheet.old_read in H. rewrite (fr_bv _ _ F) in H.
  apply bind_ok in H as (s1 & H1 & H). cbv zeta in H. apply bind_ok in H as (g & HT & H). injection H as <-.
  assert (ST : stands bv (existsb is_xf items) (ost0 b) items).
  { left. split; [apply fresh_before; exact F|]. split; [exact SF|]. split; [exact FF|].
    change (b_xfs (os_fmt (ost0 b))) with (b_xfs (bk_fmt b)). rewrite (fr_xfs _ _ F). split; [reflexivity|discriminate]. }
  destruct (items_read codec num8 rk of_int ragged bv _ items (ost0 b) s1 len d rest OK ST H1) as (hist & P & HO & M & B & I & _).
  change (b_fmt (os_fmt (ost0 b))) with (b_fmt (bk_fmt b)) in *. change (os_ixfe (ost0 b)) with (@None Z) in HO.
  change (sh_grid (os_sheet (ost0 b))) with (@grid0 (value N)) in P. change (f_merged (sh_fmt (os_sheet (ost0 b)))) with (@nil mrange) in M.
  assert (MR : max_rows (cfg codec num8 rk ragged s1) = 16384).
  { unfold max_rows. change (c_bv (cfg codec num8 rk ragged s1)) with (bk_bv (os_book s1)). rewrite (si_bv _ _ _ I).
    pose proof (si_version _ _ _ I) as V. clear - V. destruct (bv >=? 80) eqn:E; [lia|reflexivity]. }
  rewrite MR, B, M in HT.
  assert (IB : Forall (in_bounds (b_fmt (bk_fmt b)) 16384 256) hist).
  { rewrite <- B. eapply holds_bounds; [apply written_ok; exact OK|exact HO]. }
  assert (SO : sheet_of vempty ragged (b_fmt (bk_fmt b)) 16384 256 hist [] = Ok g).
  { unfold sheet_of. rewrite P. exact HT. }
  exists hist. split.
  { destruct (c19_last_store (@vempty N) ragged (b_fmt (bk_fmt b)) 16384 256 hist [] ltac:(lia) ltac:(lia) IB ltac:(constructor)) as (g' & E' & K1 & K2).
    assert (g' = g) as -> by congruence. split; [exact K1|]. split; [exact K2|exact M]. }
  split.
  { intros FM. rewrite FM in *. intros r k n Hr Hn Hk. refine (xfs_hold vempty ragged 16384 hist [] g ltac:(lia) IB ltac:(constructor) SO r k n Hr Hn Hk). }
  split; [exact B|]. split; [|exact HO].
  eapply same_sinv; [|exact I]. unfold same_tables. repeat split; auto.
Qed.

Definition file_of (op : Z) (body : list Z) (items : list oitem) (t : list Z) : list Z :=
  frame (op, body) ++ frames (flat_map oenc items ++ [(XL_EOF, [])]) ++ t.

Lemma stream_content : forall p items t, bytes (p ++ frames (flat_map oenc items ++ [(XL_EOF, [])]) ++ t) -> Forall framable (flat_map oenc items) ->
  exists rest, stream (p ++ frames (flat_map oenc items ++ [(XL_EOF, [])]) ++ t) (zlen p) = recs items (@zlen Z []) [] rest.
Proof using. clear codec num8 rk of_int ragged.
  intros p items t B F.
  assert (Forall framable (flat_map oenc items ++ [(XL_EOF, [])])) as HF2
    by (apply Forall_app; split; [exact F|constructor; [split; [cbn [fst]; unfold XL_EOF; lia|reflexivity]|constructor]]).
  rewrite stream_frames by assumption. rewrite map_app, <- app_assoc. cbn [map app]. eexists. reflexivity.
Qed.

Lemma bof_known : forall body op bv, bof_says body op bv -> bv <= 40 -> bv <> 0 -> In bv [21; 30; 40] /\ In op [0x809; 0x409; 0x209; 0x009].
Proof using. clear codec num8 rk of_int ragged. intros body op bv H L Z0. inversion H; subst; try lia; cbn [In]; lia. Qed.

Lemma frame_zlen : forall r, zlen (frame r) = 4 + zlen (snd r).
Proof using. clear codec num8 rk of_int ragged. intros [rc d]. unfold frame. cbn [snd]. rewrite !zlen_app, !zlen_le_enc. lia. Qed.

Lemma fresh0 : forall bv base fmt override b sheets, In bv [21; 30; 40] -> book0 bv base fmt override = Ok b ->
  fresh bv (with_list (with_sheets b sheets) [@None (@loaded N)]) /\ b_fmt (bk_fmt (with_list (with_sheets b sheets) [@None (@loaded N)])) = fmt.
Proof using. clear codec num8 rk of_int ragged.
  intros bv base fmt override b sheets K H. unfold book0, fbook0 in H. apply bind_ok in H as (f & HF & H). apply bind_ok in HF as (m & HM & HF).
  injection HF as <-. injection H as <-. split; [|reflexivity]. constructor; try reflexivity. cbn [In] in *. tauto.
Qed.

(** Opening a file that consists of one worksheet. *)
Lemma opened : forall ops lower fuel depth op body bv items t override fmt od ignore a,
  bytes (file_of op body items t) -> bof_says body op bv -> bv <= 40 -> bv <> 0 -> 4 <= zlen body <= 20 -> word body 1 = 0x10 ->
  Forall framable (flat_map oenc items) ->
  open_workbook_xls codec ops lower num8 rk ragged old_load fuel depth (file_of op body items t) override fmt od ignore = Ok a ->
  exists b s rest, fresh bv b /\ b_fmt (bk_fmt b) = fmt /\ old_read b (recs items (@zlen Z []) [] rest) = Ok s /\
    a_mem a = None /\ sl_names (bk_sheets (a_book a)) = [s2l "Sheet 1"] /\ bk_fmt (a_book a) = os_fmt s /\ bk_enc (a_book a) = bk_enc (os_book s) /\
    bk_list (a_book a) = [Some (mk_loaded 0 (s2l "Sheet 1") 0 (os_sheet s))].
Proof.
  intros ops lower fuel depth op body bv items t override fmt od ignore a B BS L NZ LB W F H.
  destruct (bof_known _ _ _ BS L NZ) as [KV KO].
  set (file := file_of op body items t) in *.
  assert (GB : forall wanted, wanted = 5 \/ wanted = 0x10 -> getbof file 0 wanted = Ok (bv, 4 + zlen body)).
  { intros wanted WW. apply c47_getbof; [exact B|lia|]. exists op, body. split.
    { exists [], (frames (flat_map oenc items ++ [(XL_EOF, [])]) ++ t). split; [|reflexivity]. unfold file, file_of, frame. cbn [fst snd app].
      rewrite <- !app_assoc. reflexivity. }
    split; [exact LB|]. split; [exact BS|]. split; [|lia]. unfold right_stream. rewrite W. right. right. split; [reflexivity|lia]. }
  unfold open_workbook_xls in H. apply bind_ok in H as (? & _ & H). apply bind_ok in H as ((mem & base) & HS & H).
  assert (mem = file /\ base = 0) as [-> ->].
  { unfold find_stream in HS. replace (list_eqb (py_slice file 0 8) SIGNATURE) with false in HS; [cbn [negb] in HS; split; congruence|].
    symmetry. apply not_true_is_false. intros E. apply list_eqb_eq in E.
    assert (E0 : znth (py_slice file 0 8) 0 = Some (op mod 256)).
    { unfold file, file_of, frame. cbn [fst snd]. rewrite <- !app_assoc. cbn [le_enc app]. destruct body as [|b0 [|b1 [|b2 [|b3 body]]]]; try (exfalso; cbn in LB; lia).
      match goal with |- context [py_slice (?x0 :: ?x1 :: ?x2 :: ?x3 :: (?x4 :: ?x5 :: ?x6 :: ?x7 :: ?l) ++ ?l') 0 8] =>
        change (x0 :: x1 :: x2 :: x3 :: (x4 :: x5 :: x6 :: x7 :: l) ++ l') with ([x0; x1; x2; x3; x4; x5; x6; x7] ++ (l ++ l')) end.
      rewrite py_slice_pre by reflexivity. reflexivity. }
    rewrite E in E0. cbn [In] in KO. clear - E0 KO. vm_compute in E0. destruct KO as [<-|[<-|[<-|[<-|[]]]]]; vm_compute in E0; discriminate E0. }
  unfold open_stream in H. change XL_WORKBOOK_GLOBALS with 5 in H. rewrite (GB 5) in H by (left; reflexivity). cbn [bind] in H.
  apply bind_ok in H as (? & _ & H). apply bind_ok in H as (? & _ & H). apply bind_ok in H as (b0 & HB & H).
  replace (bv <=? 40) with true in H by lia. cbv zeta in H. apply bind_ok in H as (b1 & HG & H). injection H as <-.
  destruct (fresh0 bv 0 fmt override b0 (mk_shst [s2l "Sheet 1"] [0] [0] [] []) KV HB) as [FR FM].
  set (b := with_list _ _) in *.
  change (get_sheets_in codec num8 rk ragged old_load b file [0] = Ok b1) in HG. cbn [get_sheets_in] in HG.
  apply bind_ok in HG as ((b2 & sh) & HG & E). injection E as ->. unfold get_sheet in HG.
  change (py_index (sl_posn (bk_sheets b)) 0) with (@Ok Z 0) in HG. cbn [bind] in HG. change XL_WORKSHEET with 0x10 in HG. rewrite (GB 0x10) in HG by (right; reflexivity). cbn [bind] in HG.
  change (py_index (sl_names (bk_sheets b)) 0) with (@Ok (list Z) (s2l "Sheet 1")) in HG. cbn [bind] in HG.
  apply bind_ok in HG as ((g & sh') & HL & HG). apply bind_ok in HG as (l & HL2 & HG).
  unfold load in HL. rewrite (fr_bv _ _ FR) in HL. replace (bv <=? 45) with true in HL by lia.
  unfold OldSheet.old_load in HL. change (py_index (sl_visibility (bk_sheets b)) 0) with (@Ok Z 0) in HL. cbn [bind] in HL.
  apply bind_ok in HL as (s & HR & HL). cbv zeta in HL.
  assert (exists rest, stream file (4 + zlen body) = recs items (@zlen Z []) [] rest) as (rest & ES).
  { pose proof (stream_content (frame (op, body)) items t B F) as K. rewrite frame_zlen in K. exact K. }
  change (records_of (S (2 * List.length file)) file (4 + zlen body)) with (stream file (4 + zlen body)) in HR. rewrite ES in HR.
  exists b, s, rest. split; [exact FR|]. split; [exact FM|]. split; [exact HR|].
  injection HL as <- <-. injection HG as <- <-. injection HL2 as <-.
  repeat split.
Qed.
End Proofs.
Arguments file_of : clear implicits.



Lemma combine_In : forall {A B} (P : A -> B -> Prop) l l' a b, Forall2 P l l' -> In (a, b) (List.combine l l') -> P a b.
Proof.
  intros A B P l l' a b F. induction F as [|x y l l' H F IH]; intros I; [destruct I|]. cbn [List.combine] in I. destruct I as [E|I]; [|auto].
  injection E as <- <-. exact H.
Qed.

Lemma holds_shares : forall {N} codec num8 rk of_int bv real (s : @ost N) ws hist, sinv bv real s -> Forall (fun w => place_ok bv (snd w)) ws ->
  Forall2 (holds codec num8 rk of_int bv real s) ws hist -> shares bv real ws hist.
Proof.
  intros N codec num8 rk of_int bv real s ws hist I OK F w st w' st' I1 I2 D1 D2.
  pose proof (combine_In _ _ _ _ _ F I1) as (_ & _ & _ & X1 & _). pose proof (combine_In _ _ _ _ _ F I2) as (_ & _ & _ & X2 & _).
  pose proof (combine_In _ _ _ _ _ (all_seen codec num8 rk of_int bv real s ws hist I OK F) I1) as [_ _ S1 _].
  pose proof (combine_In _ _ _ _ _ (all_seen codec num8 rk of_int bv real s ws hist I OK F) I2) as [_ _ S2 _].
  unfold described, xf_of, xf_seen in *. destruct (oc_ref (snd w)) as [a0 a1 a2|x]; [|discriminate D1].
  destruct (oc_ref (snd w')) as [b0 b1 b2|x]; [|discriminate D2].
  destruct ((bv =? 21) && real); [discriminate D1|]. split; intros E.
  - destruct S1 as (x & g & Y1 & A1 & _). destruct S2 as (x' & g' & Y2 & A2 & _). rewrite E in Y1.
    assert (x' = x) as -> by congruence. pose proof (attributes_inj _ _ _ _ _ _ _ A1 A2) as K. injection K as -> -> ->. reflexivity.
  - injection E as -> -> ->. congruence.
Qed.

Lemma read_holds : forall {N} codec (num8 : list Z -> N) rk of_int ragged bv b items len d rest s, fresh bv b -> Forall (oitem_ok bv) items ->
  settings_first items -> formats_first items ->
  old_read codec num8 rk of_int ragged b (map rec_of (flat_map oenc items) ++ (XL_EOF, len, d) :: rest) = Ok s ->
  sheet_holds codec num8 rk of_int bv (os_fmt s) (en_encoding (bk_enc (os_book s))) (b_fmt (bk_fmt b)) items (os_sheet s) /\
  sinv bv (existsb is_xf items) s.
Proof.
  intros N codec num8 rk of_int ragged bv b items len d rest s F OK SF FF H.
  destruct (read_content codec num8 rk of_int ragged bv b items _ _ rest s F OK SF FF H) as (hist & S & X & _ & I & HO).
  split; [|exact I]. exists hist. split; [exact S|]. split; [exact X|]. pose proof (written_ok bv (b_fmt (bk_fmt b)) items None OK) as W.
  split; [apply all_seen; auto|]. eapply holds_shares; eauto.
Qed.

(** ** C71: the content of a BIFF2 to BIFF4 worksheet reads back *)

(** If the worksheet can be read, it holds the cells of the content and no others. *)
Theorem c71_content : forall {N} codec (num8 : list Z -> N) rk of_int ragged bv b p items t s, fresh bv b ->
  bytes (p ++ frames (flat_map oenc items ++ [(XL_EOF, [])]) ++ t) -> Forall framable (flat_map oenc items) ->
  Forall (oitem_ok bv) items -> settings_first items -> formats_first items ->
  old_read codec num8 rk of_int ragged b (stream (p ++ frames (flat_map oenc items ++ [(XL_EOF, [])]) ++ t) (zlen p)) = Ok s ->
  sheet_holds codec num8 rk of_int bv (os_fmt s) (en_encoding (bk_enc (os_book s))) (b_fmt (bk_fmt b)) items (os_sheet s).
Proof.
  intros N codec num8 rk of_int ragged bv b p items t s F B FR OK SF FF H.
  destruct (stream_content p items t B FR) as (rest & E). rewrite E in H. eapply read_holds; eauto.
Qed.
Print Assumptions c71_content.

(** The same from the bytes of a file: opening it gives the one sheet with these cells. *)
Theorem c71_open : forall {N} codec (num8 : list Z -> N) rk of_int ragged ops lower fuel depth op body bv items t override fmt od ignore a,
  bytes (file_of op body items t) -> bof_says body op bv -> bv <= 40 -> bv <> 0 -> 4 <= zlen body <= 20 -> word body 1 = 0x10 ->
  Forall framable (flat_map oenc items) -> Forall (oitem_ok bv) items -> settings_first items -> formats_first items ->
  open_workbook_xls codec ops lower num8 rk ragged (old_load codec num8 rk of_int ragged) fuel depth (file_of op body items t) override fmt od ignore = Ok a ->
  sl_names (bk_sheets (a_book a)) = [s2l "Sheet 1"] /\ a_mem a = None /\
  exists sh, bk_list (a_book a) = [Some (mk_loaded 0 (s2l "Sheet 1") 0 sh)] /\
    sheet_holds codec num8 rk of_int bv (bk_fmt (a_book a)) (en_encoding (bk_enc (a_book a))) fmt items sh.
Proof.
  intros N codec num8 rk of_int ragged ops lower fuel depth op body bv items t override fmt od ignore a B BS L NZ LB W FR OK SF FF H.
  destruct (opened codec num8 rk of_int ragged ops lower fuel depth op body bv items t override fmt od ignore a B BS L NZ LB W FR H)
    as (b & s & rest & F & FM & HR & A1 & A2 & A3 & A4 & A5).
  split; [exact A2|]. split; [exact A1|]. exists (os_sheet s). rewrite A3, A4, A5. rewrite <- FM.
  split; [reflexivity|]. eapply read_holds; eauto.
Qed.
Print Assumptions c71_open.

Lemma cell_in : forall {N} (Q : option Z * ocell -> @store (value N) -> Prop) (sh : sheet N) bv fmt hist ws1 w ws2,
  (forall w st, Q w st -> s_row st = oc_row (snd w) /\ s_col st = oc_col (snd w)) ->
  shows sh hist [] -> (fmt = true -> xfs_seen sh hist) -> Forall2 Q (ws1 ++ w :: ws2) hist -> Forall (fun w => place_ok bv (snd w)) (ws1 ++ w :: ws2) ->
  (forall w', In w' ws2 -> ~ (oc_row (snd w') = oc_row (snd w) /\ oc_col (snd w') = oc_col (snd w))) ->
  exists st, In (w, st) (List.combine (ws1 ++ w :: ws2) hist) /\ Q w st /\
    cell_type (sh_grid sh) (oc_row (snd w)) (oc_col (snd w)) = Ok (s_type st) /\
    cell_value (sh_grid sh) (oc_row (snd w)) (oc_col (snd w)) = Ok (s_val st) /\
    (fmt = true -> plane_get (g_xfs (sh_grid sh)) (oc_row (snd w)) (oc_col (snd w)) = Ok (s_xf st)).
Proof.
  intros N Q sh bv fmt hist ws1 w ws2 P S X F W NX.
  assert (PL : place_ok bv (snd w)) by (apply Forall_app in W as [_ W]; inversion W; assumption).
  destruct PL as (PR & PC & _).
  apply Forall2_app_inv_l in F as (h1 & h2 & F1 & F2 & ->). inversion F2 as [|? st ? h3 Hq F3]; subst.
  destruct (P _ _ Hq) as [E1 E2].
  assert (LAST : forall s', In s' h3 -> ~ (s_row s' = s_row st /\ s_col s' = s_col st)).
  { intros s' I. clear - F3 I NX E1 E2 P. induction F3 as [|w' st' ws' h' Hq' F3 IH]; [destruct I|]. destruct I as [<-|I].
    - destruct (P _ _ Hq') as [D1 D2]. rewrite E1, E2, D1, D2. apply NX. left. reflexivity.
    - apply IH; [|exact I]. intros w'' I'. apply NX. right. exact I'. }
  exists st. split.
  { clear - F1. induction F1 as [|a b l l' H F IH]; [left; reflexivity|right; exact IH]. }
  split; [exact Hq|]. rewrite <- E1, <- E2.
  destruct (c29_cell sh h1 st h3 [] S) as [K1 K2]; [lia|lia|exact LAST|]. split; [exact K1|]. split; [exact K2|].
  intros FM. destruct S as (S1 & _). destruct (S1 st) as (L & n & RL & LN); [apply in_or_app; right; left; reflexivity|].
  rewrite (X FM _ _ n); [|lia|exact RL|lia]. unfold spec_xf. rewrite last_at_some by exact LAST. reflexivity.
Qed.

(** Cell for cell: a cell not overwritten later has the type, value and XF of the content. *)
Theorem c71_cell : forall {N} codec (num8 : list Z -> N) rk of_int bv f encoding fmt items sh ws1 w ws2,
  sheet_holds codec num8 rk of_int bv f encoding fmt items sh -> Forall (oitem_ok bv) items ->
  written fmt None items = ws1 ++ w :: ws2 ->
  (forall w', In w' ws2 -> ~ (oc_row (snd w') = oc_row (snd w) /\ oc_col (snd w') = oc_col (snd w))) ->
  let r := oc_row (snd w) in let k := oc_col (snd w) in
  exists st, seen codec num8 rk of_int bv (existsb is_xf items) f encoding w st /\
    cell_type (sh_grid sh) r k = Ok (s_type st) /\ cell_value (sh_grid sh) r k = Ok (s_val st) /\
    (fmt = true -> plane_get (g_xfs (sh_grid sh)) r k = Ok (s_xf st)).
Proof.
  intros N codec num8 rk of_int bv f encoding fmt items sh ws1 w ws2 (hist & S & X & F & _) OK EW NX r k. subst r k.
  pose proof (written_ok bv fmt items None OK) as W. rewrite EW in F, W.
  destruct (cell_in _ sh bv fmt hist ws1 w ws2 (fun w st H => conj (se_row _ _ _ _ _ _ _ _ _ _ H) (se_col _ _ _ _ _ _ _ _ _ _ H)) S X F W NX)
    as (st & _ & K). exists st. exact K.
Qed.
Print Assumptions c71_cell.

(** Every other position inside the sheet is empty. *)
Theorem c71_no_others : forall {N} codec (num8 : list Z -> N) rk of_int bv f encoding fmt items sh r k n,
  sheet_holds codec num8 rk of_int bv f encoding fmt items sh ->
  0 <= r < g_nrows (sh_grid sh) -> row_len (sh_grid sh) r = Ok n -> 0 <= k < n ->
  (forall w, In w (written fmt None items) -> ~ (oc_row (snd w) = r /\ oc_col (snd w) = k)) ->
  cell_type (sh_grid sh) r k = Ok 0 /\ cell_value (sh_grid sh) r k = Ok vempty.
Proof.
  intros N codec num8 rk of_int bv f encoding fmt items sh r k n (hist & S & _ & F & _) Hr Hn Hk NX. eapply c29_no_others; eauto.
  intros s I. clear - F I NX. revert NX. induction F as [|w st ws h Hq F IH]; intros NX; [destruct I|]. destruct I as [<-|I].
  - destruct Hq as [D1 D2 _ _]. rewrite D1, D2. apply NX. left. reflexivity.
  - apply IH; [exact I|]. intros w' I'. apply NX. right. exact I'.
Qed.
Print Assumptions c71_no_others.

(** ** C72: formats of cells in BIFF2 files without XF records *)

(** Each cell has an XF with the format, font, alignment, borders, shading and protection
    that its three bytes describe. *)
Theorem c72_described : forall {N} codec (num8 : list Z -> N) rk of_int bv f encoding fmt items sh ws1 w ws2 a0 a1 a2,
  sheet_holds codec num8 rk of_int bv f encoding fmt items sh -> Forall (oitem_ok bv) items ->
  bv < 30 -> existsb is_xf items = false -> fmt = true ->
  written fmt None items = ws1 ++ w :: ws2 -> oc_ref (snd w) = Attr a0 a1 a2 ->
  (forall w', In w' ws2 -> ~ (oc_row (snd w') = oc_row (snd w) /\ oc_col (snd w') = oc_col (snd w))) ->
  exists i x g, plane_get (g_xfs (sh_grid sh)) (oc_row (snd w)) (oc_col (snd w)) = Ok i /\
    znth (b_xfs f) i = Some x /\ attributes a0 a1 a2 x /\ dget Z.eqb (b_formats f) (xf_format_key x) = Some g /\
    (match oc_kind (snd w) with KNumber _ | KInteger _ => True | _ => False end ->
       cell_type (sh_grid sh) (oc_row (snd w)) (oc_col (snd w)) = Ok (type_of g)).
Proof.
  intros N codec num8 rk of_int bv f encoding fmt items sh ws1 w ws2 a0 a1 a2 SH OK L NX FM EW ER LA.
  destruct (c71_cell codec num8 rk of_int bv f encoding fmt items sh ws1 w ws2 SH OK EW LA) as (st & [_ _ S1 S2] & T & _ & X).
  rewrite NX in *. unfold xf_seen, number_seen, described in *. rewrite ER in *. rewrite andb_false_r in *. destruct S1 as (x & g & Y & A & G).
  exists (s_xf st), x, g. split; [exact (X FM)|]. split; [exact Y|]. split; [exact A|]. split; [exact G|].
  intros HK. rewrite T. f_equal. cbv zeta in S2.
  assert (TT : (forall x0 g0, znth (b_xfs f) (s_xf st) = Some x0 -> dget Z.eqb (b_formats f) (xf_format_key x0) = Some g0 ->
     s_type st = type_of g0 \/ xf_format_key x0 = 0 /\ s_type st = XL_CELL_NUMBER /\ negb false = false) /\ 0 <= s_xf st < Z.max 1 (zlen (b_xfs f))).
  { destruct (oc_kind (snd w)); try contradiction; apply S2. }
  destruct TT as [TT _]. destruct (TT _ _ Y G) as [E|(_ & _ & E)]; [exact E|discriminate E].
Qed.
Print Assumptions c72_described.

(** Cells with the same three bytes share one XF, others do not. *)
Theorem c72_shared : forall {N} codec (num8 : list Z -> N) rk of_int bv f encoding items sh ws1 w1 ws2 w2 ws3,
  sheet_holds codec num8 rk of_int bv f encoding true items sh -> Forall (oitem_ok bv) items ->
  bv < 30 -> existsb is_xf items = false -> written true None items = ws1 ++ w1 :: ws2 ++ w2 :: ws3 ->
  (forall w', In w' (ws2 ++ w2 :: ws3) -> ~ (oc_row (snd w') = oc_row (snd w1) /\ oc_col (snd w') = oc_col (snd w1))) ->
  (forall w', In w' ws3 -> ~ (oc_row (snd w') = oc_row (snd w2) /\ oc_col (snd w') = oc_col (snd w2))) ->
  exists i j, plane_get (g_xfs (sh_grid sh)) (oc_row (snd w1)) (oc_col (snd w1)) = Ok i /\
    plane_get (g_xfs (sh_grid sh)) (oc_row (snd w2)) (oc_col (snd w2)) = Ok j /\
    (i = j <-> oc_ref (snd w1) = oc_ref (snd w2)).
Proof.
  intros N codec num8 rk of_int bv f encoding items sh ws1 w1 ws2 w2 ws3 (hist & S & X & F & SH) OK L NX EW N1 N2.
  pose proof (written_ok bv true items None OK) as W. rewrite EW in F, W, SH.
  set (P := fun w st H => conj (se_row codec num8 rk of_int bv (existsb is_xf items) f encoding w st H) (se_col _ _ _ _ _ _ _ _ _ _ H)).
  destruct (cell_in _ sh bv true hist ws1 w1 (ws2 ++ w2 :: ws3) P S X F W N1) as (st1 & I1 & _ & _ & _ & X1).
  pose proof F as F'. pose proof W as W'. replace (ws1 ++ w1 :: ws2 ++ w2 :: ws3) with ((ws1 ++ w1 :: ws2) ++ w2 :: ws3) in F', W' by (rewrite <- app_assoc; reflexivity).
  destruct (cell_in _ sh bv true hist (ws1 ++ w1 :: ws2) w2 ws3 P S X F' W' N2) as (st2 & I2 & _ & _ & _ & X2).
  rewrite <- app_assoc in I2. cbn [app] in I2.
  exists (s_xf st1), (s_xf st2). split; [exact (X1 eq_refl)|]. split; [exact (X2 eq_refl)|].
  assert (D : forall w, In w (ws1 ++ w1 :: ws2 ++ w2 :: ws3) -> described bv (existsb is_xf items) (oc_ref (snd w)) = true).
  { intros w I. rewrite Forall_forall in W. destruct (W _ I) as (_ & _ & R). unfold described. destruct (oc_ref (snd w)) as [a0 a1 a2|x].
    - rewrite NX, andb_false_r. reflexivity.
    - destruct R as [R _]. clear - R L. lia. }
  apply (SH _ _ _ _ I1 I2); apply D; [|rewrite app_comm_cons, app_assoc]; apply in_or_app; right; left; reflexivity.
Qed.
Print Assumptions c72_shared.

(** ** C73: BIFF2 files with XF records *)

(** A cell whose six bits are 63 has the XF of the last IXFE record before it, any other
    cell the XF of its six bits. *)
Theorem c73_ixfe : forall {N} codec (num8 : list Z -> N) rk of_int f encoding items sh ws1 ix c ws2 a0 a1 a2,
  sheet_holds codec num8 rk of_int 21 f encoding true items sh -> Forall (oitem_ok 21) items -> existsb is_xf items = true ->
  written true None items = ws1 ++ (ix, c) :: ws2 -> oc_ref c = Attr a0 a1 a2 ->
  (forall w', In w' ws2 -> ~ (oc_row (snd w') = oc_row c /\ oc_col (snd w') = oc_col c)) ->
  exists i, plane_get (g_xfs (sh_grid sh)) (oc_row c) (oc_col c) = Ok i /\
    (a0 mod 64 <> 63 -> i = a0 mod 64) /\ (a0 mod 64 = 63 -> ix = Some i).
Proof.
  intros N codec num8 rk of_int f encoding items sh ws1 ix c ws2 a0 a1 a2 SH OK R EW ER NX.
  destruct (c71_cell codec num8 rk of_int 21 f encoding true items sh ws1 (ix, c) ws2 SH OK EW NX) as (st & [_ _ S1 _] & _ & _ & X).
  exists (s_xf st). split; [exact (X eq_refl)|]. unfold xf_seen in S1. cbn [fst snd] in S1. rewrite ER, R in S1.
  change ((21 =? 21) && true) with true in S1. cbv iota in S1. destruct (a0 mod 64 =? 63) eqn:E; split; intros K; try (exfalso; lia); exact S1.
Qed.
Print Assumptions c73_ixfe.

(** A file in which such a cell has no IXFE record before it cannot be opened. *)
Theorem c73_missing : forall {N} codec (num8 : list Z -> N) rk of_int ragged ops lower fuel depth op body items t override fmt od ignore c a0 a1 a2,
  bytes (file_of op body items t) -> bof_says body op 21 -> 4 <= zlen body <= 20 -> word body 1 = 0x10 ->
  Forall framable (flat_map oenc items) -> Forall (oitem_ok 21) items -> settings_first items -> formats_first items ->
  existsb is_xf items = true -> In (None, c) (written fmt None items) -> oc_ref c = Attr a0 a1 a2 -> a0 mod 64 = 63 ->
  forall a, open_workbook_xls codec ops lower num8 rk ragged (old_load codec num8 rk of_int ragged) fuel depth (file_of op body items t) override fmt od ignore <> Ok a.
Proof.
  intros N codec num8 rk of_int ragged ops lower fuel depth op body items t override fmt od ignore c a0 a1 a2 B BS LB W FR OK SF FF R IN ER E63 a H.
  destruct (c71_open codec num8 rk of_int ragged ops lower fuel depth op body 21 items t override fmt od ignore a B BS ltac:(lia) ltac:(lia) LB W FR OK SF FF H)
    as (_ & _ & sh & _ & hist & _ & _ & F & _).
  clear - F IN ER E63 R. induction F as [|w st ws h [_ _ S1 _] F IH]; [destruct IN|]. destruct IN as [->|IN]; [|auto].
  unfold xf_seen in S1. cbn [fst snd] in S1. rewrite ER, R in S1. change ((21 =? 21) && true) with true in S1. cbv iota in S1.
  replace (a0 mod 64 =? 63) with true in S1 by lia. discriminate S1.
Qed.
Print Assumptions c73_missing.

(** ** C74: the version of a file without XF records *)

(** A BIFF2 file is version 2.1 if it has XF records, and 2.0 if it has cells but none. *)
Theorem c74_version : forall {N} codec (num8 : list Z -> N) rk of_int ragged ops lower fuel depth op body bv items t override fmt od ignore a,
  bytes (file_of op body items t) -> bof_says body op bv -> bv <= 40 -> bv <> 0 -> 4 <= zlen body <= 20 -> word body 1 = 0x10 ->
  Forall framable (flat_map oenc items) -> Forall (oitem_ok bv) items -> settings_first items -> formats_first items ->
  open_workbook_xls codec ops lower num8 rk ragged (old_load codec num8 rk of_int ragged) fuel depth (file_of op body items t) override fmt od ignore = Ok a ->
  (bv >= 30 -> b_bv (bk_fmt (a_book a)) = bv) /\
  (bv < 30 -> existsb is_xf items = true -> b_bv (bk_fmt (a_book a)) = 21) /\
  (bv < 30 -> existsb is_xf items = false -> written fmt None items <> [] -> b_bv (bk_fmt (a_book a)) = 20).
Proof.
  intros N codec num8 rk of_int ragged ops lower fuel depth op body bv items t override fmt od ignore a B BS L NZ LB W FR OK SF FF H.
  destruct (opened codec num8 rk of_int ragged ops lower fuel depth op body bv items t override fmt od ignore a B BS L NZ LB W FR H)
    as (b & s & rest & F & FM & HR & A1 & A2 & A3 & A4 & A5).
  destruct (read_content codec num8 rk of_int ragged bv b items _ _ rest s F OK SF FF HR) as (hist & _ & _ & _ & I & HO).
  rewrite A3. change (b_bv (os_fmt s)) with (os_version s). split; [|split].
  - intros K. apply (si_30 _ _ _ I K).
  - intros K R. destruct (si_2x _ _ _ I K) as [V|[V _]]; [|exact V]. destruct (si_20 _ _ _ I V) as [E _]. congruence.
  - intros K R NE. destruct (si_2x _ _ _ I K) as [V|[V E]]; [exact V|]. exfalso. destruct (si_21 _ _ _ I V) as [AT _].
    rewrite FM in HO. pose proof (written_ok bv fmt items None OK) as PL. destruct HO as [|w st ws h (_ & _ & _ & X & _) _]; [congruence|].
    inversion PL as [|? ? (_ & _ & RO) _]; subst. unfold xf_of in X. destruct (oc_ref (snd w)) as [a0 a1 a2|x].
    + rewrite R, andb_false_r in X. rewrite AT in X. discriminate X.
    + destruct RO as [RO _]. clear - RO. lia.
Qed.
Print Assumptions c74_version.

(** *** Concrete files *)

Module Ex.
Definition bof : list Z := [0; 0; 0x10; 0].
(** A BIFF2 file with two format strings, a number of format 1 (a date), an integer of the
    same format, a text, and a formula with a text. *)
Definition items20 : list oitem :=
  [ONoise 0x0026 [0]; OSetting XL_FORMAT2 [7; 71; 101; 110; 101; 114; 97; 108]; OSetting XL_FORMAT2 [2; 121; 121];
   OSetting XL_DIMENSION2 [0; 0; 9; 0; 0; 0; 9; 0];
   OCell (mk_ocell 0 1 (Attr 64 1 2) (KNumber [0; 0; 0; 0; 0; 0; 240; 63]));
   OCell (mk_ocell 2 0 (Attr 64 1 2) (KInteger 500));
   OCell (mk_ocell 1 3 (Attr 0 0 137) (KText [72; 105]));
   OFormula 6 (mk_ocell 1 1 (Attr 64 0 2) (KText [111; 107])) (0, 0, 0, 0) [0; 0] [] XL_STRING_B2 2;
   OCell (mk_ocell 3 3 (Attr 64 1 2) KBlank)].
(** A BIFF2 file with two XF records. *)
Definition items21 : list oitem :=
  [OSetting XL_FORMAT2 [7; 71; 101; 110; 101; 114; 97; 108]; OSetting XL_FORMAT2 [2; 121; 121];
   OSetting XL_XF2 [0; 0; 0; 0]; OSetting XL_XF2 [1; 0; 65; 0]; OSetting XL_DIMENSION2 [0; 0; 9; 0; 0; 0; 9; 0];
   OCell (mk_ocell 0 1 (Attr 1 0 0) (KNumber [0; 0; 0; 0; 0; 0; 240; 63]));
   OIxfe 1; OCell (mk_ocell 2 0 (Attr 63 0 0) (KInteger 500))].
(** A BIFF3 file. *)
Definition items30 : list oitem :=
  [OSetting XL_FORMAT2 [7; 71; 101; 110; 101; 114; 97; 108]; OSetting XL_FORMAT2 [2; 121; 121];
   OSetting XL_XF3 [0; 0; 0xF5; 0xFF; 0; 0; 0; 0; 0; 0; 0; 0]; OSetting XL_XF3 [0; 1; 0x01; 0x08; 0; 0; 0; 0; 0; 0; 0; 0];
   OSetting XL_DIMENSION [0; 0; 9; 0; 0; 0; 9; 0; 0; 0];
   OCell (mk_ocell 0 1 (Xf 1) (KRk [0; 0; 240; 63])); OCell (mk_ocell 3 2 (Xf 1) (KText [72; 105]))].
Notation old := (old_load (fun _ b => Ok b) le_val (fun b => Ok (le_val b)) (fun n => n) false).
Notation run op items fmt :=
  (open_workbook_xls (fun _ b => Ok b) int_ops (fun s => s) le_val (fun b => Ok (le_val b)) false old
     100 100 (file_of op bof items []) None fmt false false).
Definition all_cells (a : result (@api Z)) : list (list (Z * value Z)) :=
  match a with
  | Ok a => match bk_list (a_book a) with
            | [Some l] => map (fun '(t, v) => List.combine t v) (List.combine (g_types (sh_grid (ls_sheet l))) (g_vals (sh_grid (ls_sheet l))))
            | _ => []
            end
  | Err _ => []
  end.
End Ex.

(** The hypotheses of [c71_open] hold for these files, and all three can be opened. *)
Example c71_hypotheses :
  (forall op items, In (op, items) [(9, Ex.items20); (9, Ex.items21); (0x209, Ex.items30)] ->
    bytes (file_of op Ex.bof items []) /\ Forall framable (flat_map oenc items) /\ settings_first items /\ formats_first items) /\
  bof_says Ex.bof 9 21 /\ bof_says Ex.bof 0x209 30 /\ word Ex.bof 1 = 0x10 /\
  Forall (oitem_ok 21) Ex.items20 /\ Forall (oitem_ok 21) Ex.items21 /\ Forall (oitem_ok 30) Ex.items30.
Proof.
  split; [|split; [apply Biff2|split; [apply Biff3|split; [reflexivity|]]]].
  - intros op items I.
    assert (B : forallb (fun b => (0 <=? b) && (b <? 256)) (file_of op Ex.bof items []) = true /\
      forallb (fun r => (0 <=? fst r) && (fst r <? 65536) && (zlen (snd r) <? 65536)) (flat_map oenc items) = true).
    { destruct I as [E|[E|[E|[]]]]; injection E as <- <-; vm_compute; split; reflexivity. }
    destruct B as [B1 B2]. rewrite forallb_forall in B1, B2.
    split; [apply Forall_forall; intros x X; specialize (B1 x X); lia|].
    split; [apply Forall_forall; intros x X; specialize (B2 x X); split; lia|].
    destruct I as [E|[E|[E|[]]]]; injection E as <- <-; vm_compute; repeat split; auto; intros; discriminate.
  - assert (K : forall P Q : Prop, P -> Q -> P /\ Q) by auto.
    split; [|split]; (repeat (apply Forall_cons; [|]); [..|apply Forall_nil]); vm_compute; repeat split; auto; try discriminate; try (repeat constructor; fail).
Qed.
Example c71_runs :
  Ex.all_cells (Ex.run 9 Ex.items20 true) =
    [[(0, VText []); (3, VNum 4607182418800017408); (0, VText []); (0, VText [])];
     [(0, VText []); (1, VText [111; 107]); (0, VText []); (1, VText [72; 105])];
     [(3, VNum 500); (0, VText []); (0, VText []); (0, VText [])];
     [(0, VText []); (0, VText []); (0, VText []); (6, VText [])]] /\
  Ex.all_cells (Ex.run 9 Ex.items21 true) =
    [[(0, VText []); (3, VNum 4607182418800017408)]; [(0, VText []); (0, VText [])]; [(3, VNum 500); (0, VText [])]] /\
  Ex.all_cells (Ex.run 0x209 Ex.items30 true) =
    [[(0, VText []); (3, VNum 1072693248); (0, VText [])]; [(0, VText []); (0, VText []); (0, VText [])];
     [(0, VText []); (0, VText []); (0, VText [])]; [(0, VText []); (0, VText []); (1, VText [72; 105])]].
Proof. vm_compute. repeat split; reflexivity. Qed.

(** For C73: a cell with 63 before the first IXFE record. *)
Example c73_hypotheses :
  existsb is_xf Ex.items21 = true /\
  written true None Ex.items21 =
    [(None, mk_ocell 0 1 (Attr 1 0 0) (KNumber [0; 0; 0; 0; 0; 0; 240; 63]))] ++ (Some 1, mk_ocell 2 0 (Attr 63 0 0) (KInteger 500)) :: [] /\
  let items := filter (fun it => match it with OIxfe _ => false | _ => true end) Ex.items21 in
  In (None, mk_ocell 2 0 (Attr 63 0 0) (KInteger 500)) (written true None items) /\ 63 mod 64 = 63 /\ Ex.run 9 items true = Err XLRDError.
Proof. vm_compute. repeat split; auto. Qed.

(** For C72 and C74: no XF records, cells with the same and with different bytes. *)
Example c72_hypotheses :
  existsb is_xf Ex.items20 = false /\ List.length (written true None Ex.items20) = 5%nat /\
  match Ex.run 9 Ex.items20 true with
  | Ok a => b_bv (bk_fmt (a_book a)) = 20 /\
      match bk_list (a_book a) with
      | [Some l] => g_xfs (sh_grid (ls_sheet l)) = [[-1; 16; -1; -1]; [-1; 18; -1; 17]; [16; -1; -1; -1]; [-1; -1; -1; 16]]
      | _ => False
      end
  | Err _ => False
  end.
Proof. vm_compute. repeat split. Qed.

(** The documentation of XF.parent_style_index says that of a cell XF it is the index of a
    style XF.  The XFs made up for such files do not meet this. *)
Theorem c72_parent_refuted : exists items sh a x,
  Forall (oitem_ok 21) items /\ existsb is_xf items = false /\
  Ex.run 9 items true = Ok a /\ bk_list (a_book a) = [Some (mk_loaded 0 (s2l "Sheet 1") 0 sh)] /\
  plane_get (g_xfs (sh_grid sh)) 2 0 = Ok 16 /\ znth (b_xfs (bk_fmt (a_book a))) 16 = Some x /\ xf_is_style x = 0 /\
  znth (b_xfs (bk_fmt (a_book a))) (xf_parent x) = None.
Proof.
  assert (R : match Ex.run 9 Ex.items20 true with
    | Ok a => match bk_list (a_book a) with
        | [Some l] => ls_number l = 0 /\ ls_name l = s2l "Sheet 1" /\ ls_visibility l = 0 /\ plane_get (g_xfs (sh_grid (ls_sheet l))) 2 0 = Ok 16 /\
            match znth (b_xfs (bk_fmt (a_book a))) 16 with
            | Some x => xf_is_style x = 0 /\ znth (b_xfs (bk_fmt (a_book a))) (xf_parent x) = None
            | None => False
            end
        | _ => False
        end
    | Err _ => False
    end) by (vm_compute; repeat split; reflexivity).
  destruct (Ex.run 9 Ex.items20 true) as [a|e] eqn:E; [|contradiction].
  destruct (bk_list (a_book a)) as [|[l|] [|? ?]] eqn:EL; try contradiction. destruct R as (R1 & R2 & R3 & R4 & R5).
  destruct (znth (b_xfs (bk_fmt (a_book a))) 16) as [x|] eqn:EX; [|contradiction]. destruct R5 as [R5 R6].
  destruct l as [n nm v sh]. cbn [ls_number ls_name ls_visibility ls_sheet] in *. subst n nm v.
  exists Ex.items20, sh, a, x. split; [apply c71_hypotheses|]. split; [reflexivity|]. repeat split; assumption.
Qed.
Print Assumptions c72_parent_refuted.
