(** C43: sheet_names, nsheets, sheet_by_index and sheet_by_name. *)
From Verif Require Import Base BaseFacts Text Strings Utf16 StringFacts PropBytes Framing GridModel GridFacts SheetObjects SheetModel SstModel FormatModel
  FormulaModel CompDoc BookModel PropEnc BookFacts BookSheets BookApi SheetShare BookHistory PropGlobals PropFormulaText PropDemand.

(** ** What a workbook lists *)

(** An entry of the sheet list: where the sheet starts, 0 to 2 for visible, hidden and
    very hidden, its type (0 for a worksheet) and its name. *)
Record entry : Type := mk_entry { e_posn : Z; e_vis : Z; e_type : Z; e_name : list Z }.
Definition worksheet (e : entry) : bool := e_type e =? 0.

Section Spec.
Variable codec : list Z -> list Z -> result (list Z).
Variable bv : Z.
Variable override : option (list Z).

Definition fixed_part (e : entry) : list Z := le_enc 4 (e_posn e) ++ [e_vis e; e_type e].
Definition entry_ok (e : entry) : Prop := 0 <= e_posn e < 2 ^ 31 /\ 0 <= e_vis e < 256 /\ 0 <= e_type e < 256.

(** The body of a BOUNDSHEET record for an entry, when the codepage is [cp]. *)
Inductive boundsheet (cp : option Z) (e : entry) : list Z -> Prop :=
| Biff8 : forall u extra, 80 <= bv -> entry_ok e -> us_ok u -> us_units u < 256 -> us_text u = e_name e ->
    boundsheet cp e (fixed_part e ++ us_field 1 u ++ extra)
| Biff8_nameless : 80 <= bv -> entry_ok e -> e_name e = [] -> boundsheet cp e (fixed_part e ++ [0])
| Biff5 : forall raw extra enc, bv < 80 -> entry_ok e -> zlen raw < 256 -> encoding_for bv override cp enc ->
    codec enc raw = Ok (e_name e) -> boundsheet cp e (fixed_part e ++ zlen raw :: raw ++ extra).

(** The entries of the BOUNDSHEET records among some records, in order; a CODEPAGE record
    sets the codepage for those after it. *)
Inductive lists : option Z -> list (Z * list Z) -> list entry -> Prop :=
| L_nil : forall cp, lists cp [] []
| L_sheet : forall cp d e rs es, boundsheet cp e d -> lists cp rs es -> lists cp ((0x85, d) :: rs) (e :: es)
| L_page : forall cp n extra rs es, 0 <= n < 65536 -> lists (Some n) rs es ->
    lists cp ((0x42, le_enc 2 n ++ extra) :: rs) es
| L_other : forall cp rc d rs es, rc <> 0x85 -> rc <> 0x42 -> lists cp rs es -> lists cp ((rc, d) :: rs) es.
End Spec.

(** The number of each sheet among the worksheets, -1 for other sheets. *)
Fixpoint numbering (n : Z) (es : list entry) : list Z :=
  match es with
  | [] => []
  | e :: r => if worksheet e then n :: numbering (n + 1) r else -1 :: numbering n r
  end.

(** ** Reading the records *)

Lemma lists_filter : forall codec bv ov cp rs es, lists codec bv ov cp rs es <-> lists codec bv ov cp (filter noncont rs) es.
Proof.
  intros codec bv ov cp rs es. split.
  - induction 1 as [| | |cp rc d rs es N1 N2 L IH]; cbn [filter].
    + constructor.
    + change (noncont (0x85, d)) with true. constructor; assumption.
    + change (noncont (0x42, le_enc 2 n ++ extra)) with true. constructor; assumption.
    + destruct (noncont (rc, d)); [apply L_other; assumption|exact IH].
  - revert cp es. induction rs as [|[rc d] rs IH]; intros cp es L; [exact L|]. cbn [filter] in L.
    destruct (noncont (rc, d)) eqn:E.
    + inversion L; subst; [apply L_sheet|apply L_page|apply L_other]; auto.
    + unfold noncont in E. cbn [fst] in E. apply L_other; [lia|lia|]. auto.
Qed.

Lemma lists_same : forall codec bv ov cp rs tr es, filter noncont tr = filter noncont rs ->
  lists codec bv ov cp rs es -> lists codec bv ov cp tr es.
Proof. intros codec bv ov cp rs tr es E L. rewrite lists_filter, E, <- lists_filter. exact L. Qed.

Lemma At_byte : forall data t v pos, At data pos (v :: t) -> 0 <= v < 256 -> unpack_le 1 data pos = Ok v.
Proof.
  intros data t v pos A B. apply (At_le data t 1 v); [|reflexivity|cbn; lia].
  cbn [le_enc app]. rewrite Z.mod_small by lia. exact A.
Qed.

Lemma boundsheet_read : forall codec bv ov cp base offset enc s e d s', 50 <= bv -> boundsheet codec bv ov cp e d ->
  (bv < 80 -> forall x, encoding_for bv ov cp x -> enc = Some x) ->
  handle_boundsheet codec bv base offset enc s d = Ok s' ->
  sl_names s' = sl_names s ++ (if worksheet e then [e_name e] else []) /\
  sl_visibility s' = sl_visibility s ++ (if worksheet e then [e_vis e] else []) /\
  sl_posn s' = sl_posn s ++ (if worksheet e then [e_posn e + base] else []) /\
  sl_allmap s' = sl_allmap s ++ [if worksheet e then zlen (sl_names s) else -1].
Proof.
  intros codec bv ov cp base offset enc s e d s' V B K H. unfold handle_boundsheet in H.
  replace (bv =? 45) with false in H by lia.
  apply bind_ok in H as ([[[name v] t] p] & G & H).
  assert (Q : name = e_name e /\ v = e_vis e /\ t = e_type e /\ p = e_posn e + base).
  { clear H s'.
    assert (R : exists rest, d = fixed_part e ++ rest /\ entry_ok e /\
      (if bv <? 80 then unpack_string (unicode codec enc) d 6 1 else unpack_unicode d 6 1) = Ok (e_name e)).
    { assert (L6 : zlen (fixed_part e) = 6) by (unfold fixed_part; rewrite zlen_app, zlen_le_enc; reflexivity).
      destruct B as [u extra W EO UO UU UT|W EO UT|raw extra x W EO RL EF CD].
      - eexists. split; [reflexivity|]. split; [exact EO|]. replace (bv <? 80) with false by lia.
        rewrite <- UT. rewrite <- L6. apply (c13_unpack_unicode u 1); auto.
      - eexists. split; [reflexivity|]. split; [exact EO|]. replace (bv <? 80) with false by lia.
        rewrite UT. rewrite <- L6. apply (c13_unicode_empty_no_options _ 1). auto.
      - eexists. split; [reflexivity|]. split; [exact EO|]. replace (bv <? 80) with true by lia.
        assert (A : At (fixed_part e ++ zlen raw :: raw ++ extra) 6 (zlen raw :: raw ++ extra)) by (exists (fixed_part e); auto).
        unfold unpack_string. rewrite (At_byte _ _ _ _ A) by (pose proof (zlen_nonneg raw); lia). rewrite bind_Ok. cbv zeta.
        pose proof (At_skip1 _ _ _ _ (6 + 1) A eq_refl) as A2.
        rewrite (At_slice _ _ _ _ (6 + 1 + zlen raw) A2 eq_refl). rewrite (K W x EF). exact CD. }
    destruct R as (rest & -> & (EP & EV & ET) & RN).
    rewrite RN in G. apply bind_ok in G as (? & _ & G).
    assert (A0 : At (fixed_part e ++ rest) 0 (le_enc 4 (e_posn e) ++ e_vis e :: e_type e :: rest)).
    { unfold fixed_part. rewrite <- app_assoc. apply At_0. }
    pose proof (At_skip _ _ _ _ 4 A0 ltac:(rewrite zlen_le_enc; reflexivity)) as A4.
    pose proof (At_skip1 _ _ _ _ 5 A4 eq_refl) as A5.
    rewrite (At_i32_pos _ _ _ _ A0 EP), (At_byte _ _ _ _ A4 EV), (At_byte _ _ _ _ A5 ET) in G. cbn [bind] in G.
    assert (e_name e = name /\ e_vis e = v /\ e_type e = t /\ e_posn e + base = p) as (? & ? & ? & ?) by (repeat split; congruence).
    auto. }
  destruct Q as (-> & -> & -> & ->). unfold worksheet. destruct (e_type e =? 0) eqn:T; cbn [negb] in H; injection H as <-;
    cbn [sl_names sl_visibility sl_posn sl_allmap]; rewrite ?app_nil_r; auto.
Qed.

Section Read.
Variable codec : list Z -> list Z -> result (list Z).
Context {N : Type}.
Context {SH : Type}.
Notation book := (book N SH).
Variable load : book -> list Z -> Z -> list Z -> Z -> result (shared * SH).

Lemma steps_lists : forall mem b pos tr b' p', steps codec load mem b pos tr b' p' -> 50 <= bk_bv b ->
  Forall (fun r => fst r <> 0x8f) tr ->
  forall es, lists codec (bk_bv b) (en_override (bk_enc b)) (en_codepage (bk_enc b)) tr es \/
             (80 <= bk_bv b /\ exists cp, lists codec (bk_bv b) (en_override (bk_enc b)) cp tr es) ->
  let ws := filter worksheet es in
  bk_bv b' = bk_bv b /\ bk_base b' = bk_base b /\
  sl_names (bk_sheets b') = sl_names (bk_sheets b) ++ map e_name ws /\
  sl_visibility (bk_sheets b') = sl_visibility (bk_sheets b) ++ map e_vis ws /\
  sl_posn (bk_sheets b') = sl_posn (bk_sheets b) ++ map (fun e => e_posn e + bk_base b) ws /\
  sl_allmap (bk_sheets b') = sl_allmap (bk_sheets b) ++ numbering (zlen (sl_names (bk_sheets b))) es.
Proof.
  induction 1 as [b pos|b pos rc len data p1 b1 p2 tr b' p' G NE ST S IH]; intros V NH es L ws.
  - subst ws. assert (es = []) as -> by (destruct L as [L|(_ & cp & L)]; inversion L; reflexivity).
    cbn [filter map numbering]. rewrite !app_nil_r. auto 8.
  - inversion NH as [|? ? N1 N2]; subst. cbn [fst] in N1. subst ws.
    assert (exists cp, lists codec (bk_bv b) (en_override (bk_enc b)) cp ((rc, data) :: tr) es /\
              (bk_bv b < 80 -> cp = en_codepage (bk_enc b))) as (cp & L' & CP).
    { destruct L as [L|(W & cp & L)]; [eauto|]. exists cp. split; [exact L|]. lia. }
    clear L. inversion L' as [|? d e rs es' B L2|? n extra rs es' R L2|? ? ? rs es' M1 M2 L2]; subst.
    + apply gstep_boundsheet in ST as (bd & s & D & HB & -> & ->).
      destruct (derive_alike _ _ _ D) as ([D1 D2 D3 D4 D5] & DE & _).
      rewrite D1, D2, D3 in HB.
      destruct (boundsheet_read _ _ _ _ _ _ _ _ _ _ _ V B (fun W x X => DE W x (eq_ind cp (fun c => encoding_for _ _ c x) X _ (CP W))) HB)
        as (Q1 & Q2 & Q3 & Q4).
      destruct (IH ltac:(cbn; lia) N2 es') as (I1 & I2 & I3 & I4 & I5 & I6).
      { change (bk_bv (with_sheets bd s)) with (bk_bv bd). change (bk_enc (with_sheets bd s)) with (bk_enc bd). rewrite D1, D4.
        destruct (Z.ltb_spec (bk_bv b) 80) as [W|W]; [left; rewrite D5, <- CP by assumption; exact L2|right; eauto]. }
      cbn [bk_bv bk_base bk_sheets with_sheets] in *. rewrite I1, I2, I3, I4, I5, I6, Q1, Q2, Q3, Q4, D1, D2.
      rewrite <- !app_assoc. cbn [filter]. destruct (worksheet e) eqn:WE; cbn [map app numbering]; rewrite ?WE;
        rewrite ?app_nil_r, ?zlen_app; repeat split; reflexivity.
    + apply gstep_codepage in ST as (c & U & K1 & K2 & K3 & K4 & K5).
      assert (Ok c = Ok n) as E by (rewrite <- U; exact (At_u16 _ extra n 0 (At_0 _) R)). injection E as ->.
      destruct (IH ltac:(lia) N2 es) as (I1 & I2 & I3 & I4 & I5 & I6).
      { rewrite K1, K4. destruct (Z.ltb_spec (bk_bv b) 80) as [W|W]; [left; rewrite K5 by assumption; exact L2|right; eauto]. }
      rewrite I1, I2, I3, I4, I5, I6, K1, K2, K3. auto 8.
    + destruct (gstep_alike _ _ _ _ _ _ _ _ _ ST M1 M2 N1) as [K1 K2 K3 K4 K5].
      destruct (IH ltac:(lia) N2 es) as (I1 & I2 & I3 & I4 & I5 & I6).
      { rewrite K1, K4. destruct (Z.ltb_spec (bk_bv b) 80) as [W|W]; [left; rewrite K5, <- CP by assumption; exact L2|right; eauto]. }
      rewrite I1, I2, I3, I4, I5, I6, K1, K2, K3. auto 8.
Qed.
End Read.

Section Listed.
Context {N : Type}.
Variable codec : list Z -> list Z -> result (list Z).
Variable ops : numops N.
Variable lower : list Z -> list Z.
Variable num8 : list Z -> N.
Variable rk : list Z -> result N.
Variable ragged : bool.
Notation loaded := (loaded (N := N)).
Notation api := (api (N := N)).
Notation book := (book N loaded).
Variable old : book -> list Z -> Z -> list Z -> Z -> result (shared * loaded).
Notation perform := (perform codec num8 rk ragged old).
Notation history := (history codec num8 rk ragged old).
Notation open_stream := (open_stream codec ops lower num8 rk ragged old).

(** A workbook stream: a BOF record at [base], then the records [rs] up to an EOF record.
    SHEETHDR records, which belong to BIFF4W, are left out (see C69). *)
Definition workbook (mem : list Z) (base bv : Z) (rs : list (Z * list Z)) : Prop :=
  exists pos d post, getbof mem base XL_WORKBOOK_GLOBALS = Ok (bv, pos) /\ Forall framable rs /\ zlen d < 65536 /\
    At mem pos (frames rs ++ frame (0x0a, d) ++ post) /\ Forall (fun r => fst r <> 0x0a /\ fst r <> 0x8f) rs.

Lemma opened : forall fuel mem base bv rs ov fmt od a es,
  workbook mem base bv rs -> 50 <= bv -> lists codec bv ov None rs es ->
  open_stream fuel mem base ov fmt od = Ok a ->
  let ws := filter worksheet es in
  exists b0, Inv codec num8 rk ragged old b0 mem a /\ 45 < bk_bv b0 /\ lengths b0 /\
    zlen (bk_list b0) = zlen (sl_names (bk_sheets b0)) /\
    open_stream fuel mem base ov fmt true = Ok (mk_api b0 (Some mem)) /\
    sl_names (bk_sheets b0) = map e_name ws /\ sl_visibility (bk_sheets b0) = map e_vis ws /\
    sl_posn (bk_sheets b0) = map (fun e => e_posn e + base) ws /\ sl_allmap (bk_sheets b0) = numbering 0 es.
Proof.
  intros fuel mem base bv rs ov fmt od a es (pos & d & post & GB & FR & LD & A & NE) V L H ws.
  assert (VA : 45 < bk_bv (a_book a)).
  { unfold BookApi.open_stream in H. rewrite GB, bind_Ok in H.
    apply bind_ok in H as (? & _ & H). apply bind_ok in H as (? & _ & H). apply bind_ok in H as (b & B & H).
    assert (bk_bv b = bv) as BV by (unfold book0 in B; apply bind_ok in B as (f & _ & B); injection B as <-; reflexivity).
    replace (bv <=? 40) with false in H by lia. replace (bv =? 45) with false in H by lia.
    apply bind_ok in H as ([b1 p1] & G & H). destruct (globals_lengths _ _ _ _ _ _ _ _ _ _ G) as [G1 _]. cbv zeta in H.
    destruct od; [injection H as <-; cbn; lia|]. apply bind_ok in H as (b2 & G2 & H). injection H as <-. cbn [a_book].
    assert (P : forall numbers c c', get_sheets_in codec num8 rk ragged old c mem numbers = Ok c' -> bk_bv c' = bk_bv c).
    { induction numbers as [|i r IH]; intros c c' X; cbn [get_sheets_in] in X; [injection X as <-; reflexivity|].
      apply bind_ok in X as ([c1 sh] & Y & X). rewrite (IH _ _ X). unfold BookApi.get_sheet in Y.
      apply bind_ok in Y as (? & _ & Y). apply bind_ok in Y as ([? ?] & _ & Y). apply bind_ok in Y as (? & _ & Y).
      apply bind_ok in Y as ([? ?] & _ & Y). apply bind_ok in Y as (? & _ & Y). injection Y as <- _. reflexivity. }
    apply P in G2. cbn in G2. lia. }
  destruct (open_inv _ _ _ _ _ _ _ _ _ _ _ _ _ _ H VA) as (b0 & O & V0 & LS & BL & I & _).
  exists b0. split; [exact I|]. split; [exact V0|]. split; [exact LS|]. split; [rewrite BL; apply zlen_map|]. split; [exact O|].
  clear VA H I LS a od. unfold BookApi.open_stream in O. rewrite GB, bind_Ok in O.
  apply bind_ok in O as (? & _ & O). apply bind_ok in O as (? & _ & O). apply bind_ok in O as (b & B & O).
  replace (bv <=? 40) with false in O by lia. replace (bv =? 45) with false in O by lia.
  apply bind_ok in O as ([b1 p1] & G & O). cbv zeta in O. injection O as <-.
  destruct (globals_frames _ _ _ _ _ _ _ _ _ _ _ _ _ FR LD A NE G) as (tr & bl & S & GE & T & IN & _).
  assert (Q : bk_bv b = bv /\ bk_base b = base /\ bk_sheets b = sheets0 /\ en_override (bk_enc b) = ov /\ en_codepage (bk_enc b) = None).
  { unfold book0 in B. apply bind_ok in B as (f & _ & B). injection B as <-. repeat split. }
  destruct Q as (Q1 & Q2 & Q3 & Q4 & Q5).
  destruct (steps_lists _ _ _ _ _ _ _ _ S ltac:(lia)) with (es := es) as (R1 & R2 & R3 & R4 & R5 & R6).
  { apply Forall_forall. intros r X. rewrite Forall_forall in NE. exact (proj2 (NE r (IN r X))). }
  { left. rewrite Q1, Q4, Q5. eapply lists_same; eassumption. }
  destruct (globals_end_alike _ _ _ _ _ GE) as [K1 K2 K3 _ _].
  cbn [bk_sheets with_list]. rewrite K3, R3, R4, R5, R6, Q2, Q3. repeat split.
Qed.

(** The worksheets among the listed sheets, and nothing else, in order; this does not
    change in any history of calls. *)
Theorem c43_listed : forall fuel mem base bv rs override fmt on_demand a es h,
  workbook mem base bv rs -> 50 <= bv -> lists codec bv override None rs es ->
  open_stream fuel mem base override fmt on_demand = Ok a ->
  let a' := snd (history a h) in
  names_of a' = map e_name (filter worksheet es) /\ nsheets a' = zlen (filter worksheet es).
Proof.
  intros fuel mem base bv rs ov fmt od a es h W V L H a'.
  destruct (opened _ _ _ _ _ _ _ _ _ _ W V L H) as (b0 & I & V0 & LS & LB & _ & E1 & E2 & E3 & E4).
  destruct (history_inv codec num8 rk ragged old b0 mem V0 LS LB h a I) as [(k & l & E & K & LL & _) _].
  fold a' in E. unfold names_of, nsheets. rewrite E. cbn [bk_list later with_list set_countries with_shared bk_sheets].
  rewrite LL, E1, zlen_map. auto.
Qed.

(** sheet_by_index gives the worksheet of that number, with its name and visibility and
    read from where the list says it starts; or else the index is out of range. *)
Theorem c43_by_index : forall fuel mem base bv rs override fmt on_demand a es h i k,
  workbook mem base bv rs -> 50 <= bv -> lists codec bv override None rs es ->
  open_stream fuel mem base override fmt on_demand = Ok a ->
  let a' := snd (history a h) in let ws := filter worksheet es in
  (forall sh, fst (perform k a' (SheetByIndex i)) = Ok (Got sh) ->
   exists j e, (j = i \/ j = i + zlen ws) /\ znth ws j = Some e /\ ls_name sh = e_name e /\ ls_visibility sh = e_vis e /\
     exists version pos c countries s, getbof mem (e_posn e + base) 0x10 = Ok (version, pos) /\
       sheet_read c countries (records_of (S (2 * List.length mem)) mem pos) = Ok s /\
       sh_grid (ls_sheet sh) = sh_grid s /\ sh_fmt (ls_sheet sh) = sh_fmt s /\ sh_view (ls_sheet sh) = sh_view s /\
       sh_obj (ls_sheet sh) = sh_obj s) /\
  (~ - zlen ws <= i < zlen ws -> fst (perform k a' (SheetByIndex i)) = Err IndexError).
Proof.
  intros fuel mem base bv rs ov fmt od a es h i k W V L H a' ws.
  destruct (opened _ _ _ _ _ _ _ _ _ _ W V L H) as (b0 & I & V0 & LS & LB & _ & E1 & E2 & E3 & E4). fold ws in E1, E2, E3.
  destruct (history_inv codec num8 rk ragged old b0 mem V0 LS LB h a I) as [I' _]. fold a' in I'.
  assert (LN : zlen (sl_names (bk_sheets b0)) = zlen ws) by (rewrite E1; apply zlen_map).
  split.
  - intros sh Q. destruct (perform k a' (SheetByIndex i)) as [r a2] eqn:P. cbn [fst] in Q. subst r.
    destruct (perform_inv codec num8 rk ragged old b0 mem V0 LS LB k a' (SheetByIndex i) _ _ I' P) as [_ S]. cbn [says] in S.
    rewrite LN in S. destruct S as [(b1 & sh0 & G & C) R]. set (j := norm (zlen ws) i) in *.
    destruct (znth_in_range ws j R) as (e & E). exists j, e.
    split; [unfold j, norm; destruct (i <? 0); auto|]. split; [exact E|].
    destruct (content_same _ _ C) as (C1 & C2 & C3 & C4 & C5 & C6).
    unfold BookApi.get_sheet in G. rewrite E3 in G.
    rewrite (py_index_some _ j (e_posn e + base)), bind_Ok in G by (rewrite znth_map, E; reflexivity).
    apply bind_ok in G as ([version pos] & GB & G). rewrite E1 in G.
    rewrite (py_index_some _ j (e_name e)), bind_Ok in G by (rewrite znth_map, E; reflexivity).
    apply bind_ok in G as ([g s] & LD & G). apply bind_ok in G as (l & _ & G). injection G as _ <-.
    unfold BookApi.load in LD. replace (bk_bv b0 <=? 45) with false in LD by lia. rewrite E2 in LD.
    rewrite (py_index_some _ j (e_vis e)), bind_Ok in LD by (rewrite znth_map, E; reflexivity). cbv zeta in LD.
    apply bind_ok in LD as (sd & SR & LD). injection LD as _ <-.
    rewrite C1, C2, C3, C4, C5, C6. cbn [ls_name ls_visibility ls_sheet]. split; [reflexivity|]. split; [reflexivity|].
    exists version, pos, (config_of codec num8 rk ragged b0), (g_countries (bk_shared b0)), sd. auto 10.
  - intros R. destruct I' as (kk & l & E & K & LL & _). cbn [BookApi.perform]. unfold m_sheet_by_index. rewrite E.
    cbn [bk_list later with_list]. rewrite py_index_norm, LL, LN.
    replace (znth l (norm (zlen ws) i)) with (@None (option loaded)); [reflexivity|].
    symmetry. apply znth_None. rewrite LL, LN. unfold norm. destruct (i <? 0) eqn:X; lia.
Qed.

(** sheet_by_name is sheet_by_index for the first worksheet of that name, and raises
    XLRDError if there is none. *)
Theorem c43_by_name : forall fuel mem base bv rs override fmt on_demand a es h name k,
  workbook mem base bv rs -> 50 <= bv -> lists codec bv override None rs es ->
  open_stream fuel mem base override fmt on_demand = Ok a ->
  let a' := snd (history a h) in let ws := filter worksheet es in
  (exists i, 0 <= i < zlen ws /\ (exists e, znth ws i = Some e /\ e_name e = name) /\
     (forall j e, 0 <= j < i -> znth ws j = Some e -> e_name e <> name) /\
     perform k a' (SheetByName name) = perform k a' (SheetByIndex i)) \/
  ((forall e, In e ws -> e_name e <> name) /\ perform k a' (SheetByName name) = (Err XLRDError, a')).
Proof.
  intros fuel mem base bv rs ov fmt od a es h name k W V L H a' ws.
  destruct (c43_listed _ _ _ _ _ _ _ _ _ _ h W V L H) as [NM _]. fold a' ws in NM. unfold names_of in NM.
  cbn [BookApi.perform]. rewrite NM. destruct (index_of (map e_name ws) name) as [i|x] eqn:X.
  - left. exists i. destruct (index_of_first _ _ _ X) as [F1 F2]. pose proof (znth_Some_range _ _ _ F1) as R. rewrite zlen_map in R.
    split; [exact R|]. rewrite znth_map in F1. destruct (znth ws i) as [e|] eqn:E; [|discriminate]. injection F1 as F1.
    split; [eauto|]. split; [|reflexivity]. intros j e' J E' Q. apply (F2 j J). rewrite znth_map, E'. cbn. congruence.
  - right. destruct (index_of_none _ _ _ X) as [-> NI]. split; [|reflexivity].
    intros e E Q. apply NI. rewrite <- Q. apply in_map. exact E.
Qed.
End Listed.
Print Assumptions c43_listed.
Print Assumptions c43_by_index.
Print Assumptions c43_by_name.

(** A BIFF7 workbook with a codepage, two worksheets of the same name and a chart between
    them. *)
Module Listed.
Definition sheet (posn kind : Z) (raw : list Z) : list Z := le_enc 4 posn ++ [0; kind] ++ zlen raw :: raw.
Definition records : list (Z * list Z) :=
  [(0x42, le_enc 2 1251); (0x85, sheet 62 0 [65]); (0x85, sheet 89 2 [66]); (0x3c, []); (0x85, sheet 78 0 [65])].
Definition bof (kind : Z) : list Z := frame (0x0809, [0x00; 0x05; kind; 0; 0; 0; 0xcd; 7]).
Definition file : list Z :=
  bof 5 ++ frames Listed.records ++ frame (0x0a, []) ++ bof 0x10 ++ frame (0x0a, []) ++ bof 0x10 ++ frame (0x0a, []).
Definition entries : list entry := [mk_entry 62 0 0 [65]; mk_entry 89 0 2 [66]; mk_entry 78 0 0 [65]].
End Listed.

Example c43_hypotheses :
  workbook Listed.file 0 70 Listed.records /\
  lists (fun _ b => Ok b) 70 None None Listed.records Listed.entries /\
  match open_stream (fun _ b => Ok b) int_ops (fun s => s) (fun _ => 0) (fun _ => Ok 0) false (fun _ _ _ _ _ => Err XLRDError)
          50 Listed.file 0 None false false with
  | Ok a => names_of a = [[65]; [65]]
  | Err _ => False
  end.
Proof.
  split; [|split].
  - exists 12, [], (skipn 62 Listed.file). split; [vm_compute; reflexivity|].
    split; [repeat constructor; cbn; lia|]. split; [reflexivity|].
    split; [exists (firstn 12 Listed.file); split; vm_compute; reflexivity|].
    repeat constructor; cbn; discriminate.
  - assert (CP : encoding_for 70 None (Some 1251) (s2l "cp1251")) by (apply ByCodepage; [left; reflexivity|apply (Windows 70 1251); lia]).
    apply (L_page _ _ _ _ 1251 []); [lia|]. apply L_sheet.
    { match goal with |- boundsheet _ _ _ _ ?e _ => apply (Biff5 (fun _ b => Ok b) 70 None (Some 1251) e [65] [] (s2l "cp1251")) end; [lia|repeat split; cbn; lia|reflexivity|exact CP|reflexivity]. }
    apply L_sheet.
    { match goal with |- boundsheet _ _ _ _ ?e _ => apply (Biff5 (fun _ b => Ok b) 70 None (Some 1251) e [66] [] (s2l "cp1251")) end; [lia|repeat split; cbn; lia|reflexivity|exact CP|reflexivity]. }
    apply L_other; [lia|lia|]. apply L_sheet.
    { match goal with |- boundsheet _ _ _ _ ?e _ => apply (Biff5 (fun _ b => Ok b) 70 None (Some 1251) e [65] [] (s2l "cp1251")) end; [lia|repeat split; cbn; lia|reflexivity|exact CP|reflexivity]. }
    apply L_nil.
  - vm_compute. reflexivity.
Qed.
