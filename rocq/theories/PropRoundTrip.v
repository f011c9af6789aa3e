(** C76: a workbook written in the usual way can be opened, and every sheet shows what was
    written in it. *)
From Verif Require Import Base BaseFacts Text Strings Utf16 StringFacts PropBytes Framing GridModel GridFacts PropGrid SheetObjects SheetModel SheetFacts SheetSteps
  PropSheet PropRead SstModel PropSst FormatModel FormatFacts PropFormat PropNumType FormulaModel CompDoc BookModel BookFacts PropBof PropEnc BookSheets BookRefs BookApi SheetShare
  BookHistory PropGlobals PropFormulaText PropDemand PropSheetList BookContent BookFormats BookFollow BookFine PropWorkbook.

(** ** Specification *)

(** Calls after which every sheet can still be had: with on_demand, all but
    release_resources; otherwise all but the unloading ones, as the file is let go. *)
Definition keeps (on_demand : bool) (c : call) : Prop :=
  match c with
  | ReleaseResources => on_demand = false
  | UnloadSheet _ | UnloadSheetName _ => on_demand = true
  | _ => True
  end.

(** The worksheet of an entry holds these items. *)
Definition holds {N} (c : config N) (mem : list Z) (base : Z) (e : entry) (items : list (@item N)) : Prop :=
  0 <= e_posn e /\ worksheet_at c mem (e_posn e + base) items /\ fits c items /\ contents_plain c items.

(** A sheet object with the name and visibility of an entry that shows these items. *)
Definition displays {N} (c : config N) (e : entry) (items : list (@item N)) (sh : loaded (N := N)) : Prop :=
  ls_name sh = e_name e /\ ls_visibility sh = e_vis e /\
  shows (ls_sheet sh) (flat_map (cells c) items) (flat_map (merges c) items).

(** ** Proofs *)

Lemma plain_same : forall {N} (c c0 : config N) it, c_bv c0 = c_bv c -> c_fmt c0 = c_fmt c -> item_plain c it -> item_plain c0 it.
Proof.
  intros N c c0 it V F P. destruct it; try exact P. cbn [item_plain] in *. destruct P; try (rewrite <- V in * ); try (rewrite <- F in * ).
  - apply H_ignored. assumption.
  - apply H_unwanted; assumption.
  - eapply H_long; eassumption.
  - apply H_height.
  - apply H_object. assumption.
  - apply H_zoom. assumption.
  - apply H_gcw. assumption.
  - apply H_breaks; assumption.
  - apply H_condfmt; assumption.
  - apply H_cf; assumption.
  - apply H_labels; assumption.
  - apply H_link. assumption.
  - apply H_shape; assumption.
  - apply H_note; assumption.
Qed.

Lemma contents_same : forall {N} (c c0 : config N) items, c_bv c0 = c_bv c -> c_fmt c0 = c_fmt c -> contents_plain c items -> contents_plain c0 items.
Proof.
  intros N c c0 items V F P. induction P as [|it l P PL IH|s between t l V8 SO BO TO PL IH].
  - apply PropSheet.P_nil.
  - apply PropSheet.P_item; [eapply plain_same; eassumption|exact IH].
  - apply PropSheet.P_box; try assumption. rewrite V. exact V8.
Qed.

Lemma Forall2_znth : forall {A B} (R : A -> B -> Prop) l m j a, Forall2 R l m -> znth l j = Some a -> exists b, znth m j = Some b /\ R a b.
Proof.
  intros A B R l m j a F. unfold znth. destruct (j <? 0); [discriminate|]. generalize (Z.to_nat j). clear j.
  induction F as [|x y l m H F IH]; intros [|n] E; cbn [nth_error] in *; try discriminate; [injection E as <-; eauto|eauto].
Qed.
Lemma Forall2_zlen : forall {A B} (R : A -> B -> Prop) l m, Forall2 R l m -> zlen l = zlen m.
Proof. intros A B R l m F. induction F; [reflexivity|]. rewrite !zlen_cons. lia. Qed.

Lemma znth_zrange0 : forall n j, 0 <= j < n -> znth (zrange 0 n) j = Some j.
Proof.
  intros n j R. unfold znth, zrange. replace (j <? 0) with false by lia. rewrite nth_error_map.
  replace (nth_error (seq 0 (Z.to_nat (n - 0))) (Z.to_nat j)) with (Some (Z.to_nat j)); [cbn; f_equal; lia|].
  symmetry. rewrite (nth_error_nth' _ 0%nat) by (rewrite seq_length; lia). rewrite seq_nth by lia. reflexivity.
Qed.

Section Round.
Context {N : Type}.
Variable codec : list Z -> list Z -> result (list Z).
Variable ops : numops N.
Variable lower : list Z -> list Z.
Variable num8 : list Z -> N.
Variable rk : list Z -> result N.
Variable ragged : bool.
Notation loaded := (loaded (N := N)).
Notation api := (api (N := N)).
Notation book := (book N loaded).
Variable old : book -> list Z -> Z -> list Z -> Z -> result (shared * loaded).
Notation perform := (perform codec num8 rk ragged old).
Notation history := (history codec num8 rk ragged old).
Notation open_stream := (open_stream codec ops lower num8 rk ragged old).
Notation get_sheet := (get_sheet codec num8 rk ragged old).
Notation described := (described codec num8 rk ragged).

Lemma bof_here : forall (c : config N) mem pos items, bytes mem -> 0 <= pos -> worksheet_at c mem pos items ->
  exists v p, getbof mem pos 0x10 = Ok (v, p).
Proof.
  intros c mem pos items B P (op & body & v & t & A & LB & BS & WB & FR).
  exists v, (pos + 4 + zlen body). apply (c47_getbof _ _ _ _ _ B P). exists op, body.
  split; [|split; [exact LB|]; split; [exact BS|]; split; [left; exact WB|reflexivity]].
  destruct A as (before & EM & EP). eexists before, _. split; [|symmetry; exact EP]. rewrite EM at 1. unfold frame. cbn [fst snd]. rewrite <- !app_assoc. reflexivity.
Qed.

(** *** Each sheet can be read *)

Section Book.
Variables (mem : list Z) (base : Z) (b0 : book) (ws : list entry) (contents : list (list (@item N))) (c : config N).
Hypothesis B : bytes mem.
Hypothesis PB : 0 <= base.
Hypothesis V : 50 <= bk_bv b0.
Hypothesis LS : lengths b0.
Hypothesis LB : zlen (bk_list b0) = zlen (sl_names (bk_sheets b0)).
Hypothesis E1 : sl_names (bk_sheets b0) = map e_name ws.
Hypothesis E2 : sl_visibility (bk_sheets b0) = map e_vis ws.
Hypothesis E3 : sl_posn (bk_sheets b0) = map (fun e => e_posn e + base) ws.
Hypothesis C : covered c (config_of codec num8 rk ragged b0).
Hypothesis H : Forall2 (holds c mem base) ws contents.
Notation n := (zlen ws).
Notation Inv := (Inv codec num8 rk ragged old b0 mem).

Lemma sheet_here : forall k l i, zlen l = n -> 0 <= norm n i < n -> exists b' sh, get_sheet (later b0 k l) mem i = Ok (b', sh).
Proof.
  intros k l i LL R. destruct (znth_in_range ws (norm n i) R) as (e & E). destruct (Forall2_znth _ _ _ _ _ H E) as (items & _ & PE & WA & F & PL).
  assert (PY : forall {A} (f : entry -> A), py_index (map f ws) i = Ok (f e)).
  { intros A f. rewrite py_index_norm, zlen_map, znth_map, E. reflexivity. }
  unfold BookApi.get_sheet. change (bk_sheets (later b0 k l)) with (bk_sheets b0). rewrite E3, PY, bind_Ok.
  assert (P0 : 0 <= e_posn e + base) by lia. destruct (bof_here _ _ _ _ B P0 WA) as (v & p & GB). change XL_WORKSHEET with 0x10. rewrite GB. cbn [bind].
  rewrite E1, PY, bind_Ok. unfold BookApi.load. change (bk_bv (later b0 k l)) with (bk_bv b0). replace (bk_bv b0 <=? 45) with false by lia.
  change (bk_sheets (later b0 k l)) with (bk_sheets b0). rewrite E2, PY, bind_Ok. cbv zeta.
  change (config_of codec num8 rk ragged (later b0 k l)) with (config_of codec num8 rk ragged b0).
  destruct (worksheet_read _ _ _ _ _ _ _ B P0 C WA GB) as (pre & t & EM & EP & FR).
  destruct (covered_fits _ _ C items F) as ((F1 & F2 & F3 & F4) & K1 & K2 & K3). rewrite <- K1 in EM, FR.
  assert (V3 : c_bv (config_of codec num8 rk ragged b0) >= 50) by (cbn; lia).
  pose proof (contents_same _ _ items (v_bv _ _ C) (v_fmt _ _ C) PL) as PL2.
  pose proof B as B2. rewrite EM in B2.
  destruct (c29_round_trip (config_of codec num8 rk ragged b0) (g_countries (bk_shared (later b0 k l))) pre items t V3 B2 FR F1 PL2 F2 F3 F4) as (sh & SR & _).
  unfold stream in SR. rewrite <- EM, EP in SR. rewrite SR, bind_Ok. cbn [bind].
  change (bk_list (later b0 k l)) with l. rewrite list_set_norm by (rewrite LL; exact R). rewrite bind_Ok. eauto.
Qed.

(** *** The sheets stay available *)

Definition full (a : api) : Prop := forall j, 0 <= j < n -> exists sh, znth (bk_list (a_book a)) j = Some (Some sh).
Definition avail (od : bool) (a : api) : Prop := Inv a /\ if od then a_mem a = Some mem else full a.

Lemma n_names : zlen (sl_names (bk_sheets b0)) = n.
Proof. rewrite E1. apply zlen_map. Qed.

Lemma get_mem : forall k (a : api) i, a_mem (snd (m_get_sheet codec num8 rk ragged old k a i)) = a_mem a.
Proof.
  intros k [ab am] i. unfold m_get_sheet. cbn [a_mem a_book]. destruct am; [|reflexivity]. destruct (BookApi.get_sheet _ _ _ _ _ _ _ _) as [[b' sh]|e]; reflexivity.
Qed.
Lemma by_index_mem : forall k (a : api) i, a_mem (snd (m_sheet_by_index codec num8 rk ragged old k a i)) = a_mem a.
Proof. intros k a i. unfold m_sheet_by_index. destruct (py_index _ i) as [[sh|]|e]; [reflexivity|apply get_mem|reflexivity]. Qed.

Lemma index_some : forall od a k i, avail od a -> 0 <= norm n i < n ->
  exists sh, fst (m_sheet_by_index codec num8 rk ragged old k a i) = Ok sh /\ avail od (snd (m_sheet_by_index codec num8 rk ragged old k a i)).
Proof.
  intros od a k i [I M] R. pose proof I as (k1 & l & E & K & L & F & M2). rewrite n_names in L.
  assert (BL : bk_list (a_book a) = l) by (rewrite E; reflexivity).
  assert (I' : Inv (snd (m_sheet_by_index codec num8 rk ragged old k a i))).
  { destruct (m_sheet_by_index codec num8 rk ragged old k a i) as [r a'] eqn:Q. assert (V45 : 45 < bk_bv b0) by lia.
    exact (proj1 (m_sheet_by_index_inv codec num8 rk ragged old b0 mem V45 LS LB _ _ _ _ _ I Q)). }
  unfold avail. destruct od.
  - rewrite by_index_mem. cut (exists sh, fst (m_sheet_by_index codec num8 rk ragged old k a i) = Ok sh); [intros (sh & Q); eauto|].
    unfold m_sheet_by_index. rewrite py_index_norm, BL, L. destruct (znth_in_range l (norm n i)) as (x & X); [lia|]. rewrite X. destruct x as [sh|]; [exists sh; reflexivity|].
    cbv iota. unfold m_get_sheet. rewrite M, E. destruct (sheet_here k1 l i L R) as (b' & sh & ->). cbn [fst]. eauto.
  - destruct (M _ R) as (sh & X). rewrite BL in X.
    assert (Q : m_sheet_by_index codec num8 rk ragged old k a i = (Ok sh, a)) by (unfold m_sheet_by_index; rewrite py_index_norm, BL, L, X; reflexivity).
    rewrite Q. cbn [fst snd]. eauto.
Qed.

Lemma load_all_index : forall k (a : api) i r, m_load_all codec num8 rk ragged old k a (i :: r) =
  match m_sheet_by_index codec num8 rk ragged old k a i with (Ok _, a') => m_load_all codec num8 rk ragged old k a' r | (Err e, a') => (Err e, a') end.
Proof.
  intros k a i r. cbn [m_load_all]. unfold m_sheet_by_index. destruct (py_index _ i) as [[sh|]|e]; reflexivity.
Qed.

Lemma load_all_some : forall od k numbers a, avail od a -> Forall (fun i => 0 <= i < n) numbers ->
  fst (m_load_all codec num8 rk ragged old k a numbers) = Ok tt /\ avail od (snd (m_load_all codec num8 rk ragged old k a numbers)).
Proof.
  intros od k. induction numbers as [|i r IH]; intros a A P; [split; [reflexivity|exact A]|]. inversion P; subst.
  rewrite load_all_index. assert (R : 0 <= norm n i < n) by (unfold norm; replace (i <? 0) with false by lia; lia).
  destruct (index_some od a k i A R) as (sh & S1 & S2). destruct (m_sheet_by_index _ _ _ _ _ _ _ _) as [x a1]. cbn [fst snd] in *. subst x. apply IH; assumption.
Qed.

Lemma iterate_some : forall od k numbers a, avail od a -> Forall (fun i => 0 <= i < n) numbers ->
  (exists l, fst (m_iterate codec num8 rk ragged old k a numbers) = Ok l) /\ avail od (snd (m_iterate codec num8 rk ragged old k a numbers)).
Proof.
  intros od k. induction numbers as [|i r IH]; intros a A P; [split; [eexists; reflexivity|exact A]|]. inversion P; subst.
  cbn [m_iterate]. assert (R : 0 <= norm n i < n) by (unfold norm; replace (i <? 0) with false by lia; lia).
  destruct (index_some od a k i A R) as (sh & S1 & S2). destruct (m_sheet_by_index _ _ _ _ _ _ _ _) as [x a1]. cbn [fst snd] in *. subst x.
  destruct (IH a1 S2 H3) as [[l L] A2]. destruct (m_iterate _ _ _ _ _ _ a1 r) as [y a2]. cbn [fst snd] in *. subst y. cbn [fst snd]. eauto.
Qed.

Lemma range_ok : Forall (fun i => 0 <= i < n) (zrange 0 n).
Proof. apply Forall_forall. intros x X. apply in_zrange in X. exact X. Qed.

Lemma perform_avail : forall od a k q, avail od a -> keeps od q -> avail od (snd (perform k a q)).
Proof.
  intros od a k q A KP. pose proof A as [I M]. pose proof I as (k1 & l & E & K & L & F & M2). rewrite n_names in L.
  assert (BL : bk_list (a_book a) = l) by (rewrite E; reflexivity).
  assert (NS : nsheets a = n) by (unfold nsheets; rewrite BL; exact L).
  assert (NM : sl_names (bk_sheets (a_book a)) = map e_name ws) by (rewrite E; exact E1).
  assert (IX : forall i, 0 <= norm n i < n -> avail od (snd (got (m_sheet_by_index codec num8 rk ragged old k a i)))).
  { intros i R. destruct (index_some od a k i A R) as (sh & S1 & S2). destruct (m_sheet_by_index _ _ _ _ _ _ _ _) as [x a1]. cbn [fst snd] in *. subst x. exact S2. }
  assert (V45 : 45 < bk_bv b0) by lia.
  assert (UL : forall i, od = true -> avail od (snd (m_unload a i))).
  { intros i ->. split; [apply (m_unload_inv codec num8 rk ragged old b0 mem); exact I|]. unfold m_unload. destruct (list_set _ i None); exact M. }
  destruct q as [i|name| | |i|name|i|name|]; cbn [BookApi.perform keeps] in *; rewrite ?NM, ?NS.
  - destruct (Z_lt_le_dec (norm n i) 0) as [R|R]; [|destruct (Z_lt_le_dec (norm n i) n) as [R2|R2]; [apply IX; lia|]].
    + unfold m_sheet_by_index. rewrite py_index_norm, BL, L. destruct (znth l (norm n i)) as [x|] eqn:X; [apply znth_Some_range in X; lia|exact A].
    + unfold m_sheet_by_index. rewrite py_index_norm, BL, L. destruct (znth l (norm n i)) as [x|] eqn:X; [apply znth_Some_range in X; lia|exact A].
  - destruct (index_of (map e_name ws) name) as [i|e] eqn:Q; [|exact A]. apply index_of_range in Q. rewrite zlen_map in Q. apply IX.
    unfold norm. replace (i <? 0) with false by lia. exact Q.
  - destruct (load_all_some od k _ a A range_ok) as [S1 S2]. destruct (m_load_all _ _ _ _ _ _ a _) as [x a1]. cbn [fst snd] in *. subst x. exact S2.
  - destruct (iterate_some od k _ a A range_ok) as [[y S1] S2]. destruct (m_iterate _ _ _ _ _ _ a _) as [x a1]. cbn [fst snd] in *. subst x. exact S2.
  - exact A.
  - destruct (index_of (map e_name ws) name) as [i|e]; exact A.
  - apply UL; exact KP.
  - destruct (index_of (map e_name ws) name) as [i|e]; [apply UL; exact KP|exact A].
  - subst od. split; [|exact M]. exists k1, l. cbn [snd a_book a_mem]. rewrite n_names. auto 8.
Qed.

Lemma history_avail : forall od h a, avail od a -> Forall (fun q => keeps od (fst q)) h -> avail od (snd (history a h)).
Proof.
  intros od. induction h as [|[q k] h IH]; intros a A KP; [exact A|]. inversion KP; subst. cbn [BookApi.history].
  pose proof (perform_avail od a k q A H2) as A1. destruct (perform k a q) as [r a1]. cbn [snd] in A1. specialize (IH a1 A1 H3).
  destruct (history a1 h) as [rs a2]. exact IH.
Qed.

(** *** Opening loads all sheets unless on_demand *)

Lemma get_sheets_some : forall numbers k l, zlen l = n -> k_ok b0 k -> Forall (fun i => 0 <= i < n) numbers ->
  exists k' l', get_sheets_in codec num8 rk ragged old (later b0 k l) mem numbers = Ok (later b0 k' l') /\ zlen l' = n /\
    forall i, 0 <= i < n -> In i numbers \/ (exists sh, znth l i = Some (Some sh)) -> exists sh, znth l' i = Some (Some sh).
Proof.
  assert (V45 : 45 < bk_bv b0) by lia.
  induction numbers as [|i r IH]; intros k l L K P.
  - exists k, l. split; [reflexivity|]. split; [exact L|]. intros j R [[]|J]; exact J.
  - inversion P as [|? ? P1 P2]; subst. cbn [get_sheets_in].
    assert (NI : norm n i = i) by (unfold norm; replace (i <? 0) with false by lia; reflexivity).
    assert (R : 0 <= norm n i < n) by lia. destruct (sheet_here k l i L R) as (b' & sh & G). rewrite G. cbn [bind].
    pose proof n_names as NN. assert (L2 : zlen l = zlen (sl_names (bk_sheets b0))) by lia.
    destruct (get_sheet_later codec num8 rk ragged old _ _ _ _ _ _ _ V45 LS LB L2 K G) as (R1 & _ & k1 & K1 & ->). rewrite L, NI in *.
    assert (LZ : zlen (zset l i (Some sh)) = n) by (rewrite zlen_zset by lia; exact L).
    destruct (IH k1 (zset l i (Some sh)) LZ K1 P2) as (k' & l' & G2 & L' & Q).
    exists k', l'. split; [exact G2|]. split; [exact L'|]. intros j J [[<-|X]|X].
    + apply Q; [exact J|]. right. exists sh. rewrite znth_zset by lia. rewrite Z.eqb_refl. reflexivity.
    + apply Q; auto.
    + apply Q; [exact J|]. right. rewrite znth_zset by lia. destruct (j =? i); eauto.
Qed.
End Book.

Notation written := (written codec).
Notation usable := (usable codec).

Definition supported (bv : Z) : Prop := bv = 50 \/ bv = 70 \/ bv = 80.

Lemma opens : forall fuel mem base bv rs ov fmt K,
  workbook mem base bv rs -> supported bv -> written bv ov K None rs -> usable bv ov None -> (List.length rs < fuel)%nat ->
  exists b, open_stream fuel mem base ov fmt true = Ok (mk_api b (Some mem)) /\
    open_stream fuel mem base ov fmt false = do b' <- get_sheets codec num8 rk ragged old b mem; Ok (mk_api b' None).
Proof.
  intros fuel mem base bv rs ov fmt K (pos & d & post & GB & FR & LD & A & NE) SV W U LF.
  assert (V : 50 <= bv) by (unfold supported in SV; lia).
  assert (B0 : exists b : book, book0 (N := N) (SH := loaded) bv base fmt ov = Ok b /\ fine (N := N) codec bv ov K None b /\ unpainted bv b).
  { assert (F : exists f, fbook0 bv fmt = Ok f) by (destruct SV as [-> | [-> | ->]]; destruct fmt; eexists; reflexivity).
    destruct F as (f & F). unfold book0. rewrite F, bind_Ok. eexists. split; [reflexivity|]. split; [|exists fmt, f, []; split; [exact F|]; split; [reflexivity|intros ? ? []]]. split; cbn.
    - reflexivity.
    - split; [reflexivity|]. split; [left; reflexivity|]. discriminate.
    - left. reflexivity.
    - unfold fbook0 in F. apply bind_ok in F as (m & _ & F). injection F as <-. reflexivity.
    - reflexivity.
    - left. reflexivity. }
  destruct B0 as (b & B0 & F & UP).
  destruct (globals_fine codec bv ov (BookApi.load codec num8 rk ragged old) K V ops lower None rs W U fuel b mem pos d post F (or_introl UP) LF FR LD A) as (b' & p' & G).
  eexists. unfold BookApi.open_stream. rewrite !GB. cbn [bind].
  assert (Z0 : (bv =? 0) = false) by lia. rewrite !Z0. clear Z0. cbn [negb guard]. rewrite !bind_Ok.
  assert (existsb (Z.eqb bv) SUPPORTED_VERSIONS = true) as -> by (destruct SV as [-> | [-> | ->]]; reflexivity). cbn [guard]. rewrite !bind_Ok, !B0, !bind_Ok.
  replace (bv <=? 40) with false by lia. replace (bv =? 45) with false by lia. rewrite !G. cbn [bind]. split; reflexivity.
Qed.

Lemma opened_avail : forall fuel mem base bv rs ov fmt od K es c contents,
  bytes mem -> 0 <= base -> workbook mem base bv rs -> supported bv -> (List.length rs < fuel)%nat ->
  written bv ov K None rs -> usable bv ov None -> lists codec bv ov None rs es -> described bv ov fmt rs c ->
  let ws := filter worksheet es in
  Forall2 (holds c mem base) ws contents ->
  exists a, open_stream fuel mem base ov fmt od = Ok a /\ nsheets a = zlen ws /\
    (forall h, Forall (fun q => keeps od (fst q)) h -> exists b0, Inv codec num8 rk ragged old b0 mem a /\ avail mem b0 ws od (snd (history a h)) /\
       bk_bv b0 = bv /\ lengths b0 /\ zlen (bk_list b0) = zlen (sl_names (bk_sheets b0)) /\ sl_names (bk_sheets b0) = map e_name ws /\
       sl_visibility (bk_sheets b0) = map e_vis ws /\ sl_posn (bk_sheets b0) = map (fun e => e_posn e + base) ws /\
       covered c (config_of codec num8 rk ragged b0)).
Proof.
  intros fuel mem base bv rs ov fmt od K es c contents B PB W SV LF WR U L D ws H.
  assert (V : 50 <= bv) by (unfold supported in SV; lia).
  destruct (opens fuel mem base bv rs ov fmt K W SV WR U LF) as (b0 & O & O2).
  destruct (opened codec ops lower num8 rk ragged old _ _ _ _ _ _ _ _ _ _ W V L O) as (b0' & I & V0 & LS & LB & O' & E1 & E2 & E3 & E4).
  assert (b0' = b0) as -> by congruence. fold ws in E1, E2, E3.
  destruct (opened_config codec ops lower num8 rk ragged old _ _ _ _ _ _ _ _ _ _ W V D O) as [C _].
  assert (BV : bk_bv b0 = bv) by (rewrite <- (d_bv _ _ _ _ _ _ _ _ _ D); exact (v_bv _ _ C)).
  assert (V50 : 50 <= bk_bv b0) by lia.
  assert (NW : zlen (bk_list b0) = zlen ws) by (rewrite LB, E1; apply zlen_map).
  assert (X : exists a, open_stream fuel mem base ov fmt od = Ok a /\ avail mem b0 ws od a).
  { destruct od; [exists (mk_api b0 (Some mem)); split; [exact O|]; split; [exact I|reflexivity]|].
    assert (LT : b0 = later b0 (g_countries (bk_shared b0)) (bk_list b0)) by (destruct b0 as [? ? [? ? ? ?]]; reflexivity).
    destruct (get_sheets_some mem base b0 ws contents c B PB V50 LS LB E1 E2 E3 C H (zrange 0 (zlen ws)) (g_countries (bk_shared b0)) (bk_list b0) NW (or_introl eq_refl) (range_ok ws))
      as (k' & l' & G & L' & Q).
    rewrite <- LT in G. assert (O3 : open_stream fuel mem base ov fmt false = Ok (mk_api (later b0 k' l') None)).
    { rewrite O2. unfold get_sheets. rewrite E1, zlen_map, G. reflexivity. }
    eexists. split; [exact O3|].
    destruct (opened codec ops lower num8 rk ragged old _ _ _ _ _ _ _ _ _ _ W V L O3) as (b1 & I1 & _ & _ & _ & O1 & _).
    assert (b1 = b0) as -> by congruence. split; [exact I1|].
    intros j J. apply Q; [exact J|]. left. apply in_zrange. exact J. }
  destruct X as (a & OA & AV). exists a. split; [exact OA|]. split.
  - destruct AV as [(k1 & l & E & _ & LL & _) _]. unfold nsheets. rewrite E. change (bk_list (later b0 k1 l)) with l. rewrite LL, E1. apply zlen_map.
  - intros h KP. exists b0. split; [exact (proj1 AV)|].
    split; [exact (history_avail mem base b0 ws contents c B PB V50 LS LB E1 E2 E3 C H od h a AV KP)|]. auto 10.
Qed.

(** Opening succeeds, with and without on_demand; and whatever is done in between, every
    sheet can be had and shows the items written in it. *)
Theorem c76_round_trip : forall fuel mem base bv rs override fmt on_demand countries es c contents,
  bytes mem -> 0 <= base -> workbook mem base bv rs -> supported bv -> (List.length rs < fuel)%nat ->
  written bv override countries None rs -> usable bv override None -> lists codec bv override None rs es -> described bv override fmt rs c ->
  let ws := filter worksheet es in
  Forall2 (holds c mem base) ws contents ->
  exists a, open_stream fuel mem base override fmt on_demand = Ok a /\ nsheets a = zlen ws /\
    forall h, Forall (fun q => keeps on_demand (fst q)) h -> let a' := snd (history a h) in
    forall i j e items k, i = j \/ i = j - zlen ws -> znth ws j = Some e -> znth contents j = Some items ->
    exists sh, fst (perform k a' (SheetByIndex i)) = Ok (Got sh) /\ displays c e items sh.
Proof.
  intros fuel mem base bv rs ov fmt od K es c contents B PB W SV LF WR U L D ws H.
  destruct (opened_avail fuel mem base bv rs ov fmt od K es c contents B PB W SV LF WR U L D H) as (a & OA & NS & AV).
  exists a. split; [exact OA|]. split; [exact NS|]. intros h KP a' i j e items k IJ E EC.
  destruct (AV h KP) as (b0 & I & A & BV & LS & LB & E1 & E2 & E3 & C). fold ws in A, E1, E2, E3. fold a' in A.
  assert (V50 : 50 <= bk_bv b0) by (unfold supported in SV; lia).
  assert (NJ : norm (zlen ws) i = j).
  { pose proof (znth_Some_range _ _ _ E) as JR. unfold norm. destruct IJ as [-> | ->]; destruct (_ <? 0) eqn:X; lia. }
  assert (R : 0 <= norm (zlen ws) i < zlen ws) by (rewrite NJ; exact (znth_Some_range _ _ _ E)).
  destruct (index_some mem base b0 ws contents c B PB V50 LS LB E1 E2 E3 C H od a' k i A R) as (sh & S1 & _).
  assert (Q : fst (perform k a' (SheetByIndex i)) = Ok (Got sh)).
  { cbn [BookApi.perform]. destruct (m_sheet_by_index _ _ _ _ _ _ _ _) as [x a1]. cbn [fst] in S1. subst x. reflexivity. }
  exists sh. split; [exact Q|]. destruct (Forall2_znth _ _ _ _ _ H E) as (items' & EC' & PE & WA & F & PL).
  assert (items' = items) as -> by congruence. assert (V : 50 <= bv) by lia.
  exact (c75_cells codec ops lower num8 rk ragged old fuel mem base bv rs ov fmt od a es h i j k e sh c items B PB W V L D OA IJ E PE Q WA F).
Qed.

Lemma displays_content : forall c e items (sh sh' : loaded), content sh = content sh' -> displays c e items sh' -> displays c e items sh.
Proof using.
  clear codec ops lower num8 rk ragged old.
  intros c e items sh sh' E (D1 & D2 & H1 & H2 & H3). unfold content in E. pose proof (f_equal (fun q => fst (fst q)) E) as E1. pose proof (f_equal (fun q => snd (fst q)) E) as E2.
  pose proof (f_equal (fun q => sh_grid (snd q)) E) as E3. pose proof (f_equal (fun q => sh_fmt (snd q)) E) as E4. cbn in E1, E2, E3, E4.
  split; [congruence|]. split; [congruence|]. unfold shows. rewrite E3, E4. auto.
Qed.

Lemma index_of_first : forall ws j e, znth ws j = Some e -> (forall j' e', j' < j -> znth ws j' = Some e' -> e_name e' <> e_name e) ->
  index_of (map e_name ws) (e_name e) = Ok j.
Proof using.
  clear codec ops lower num8 rk ragged old.
  induction ws as [|x ws IH]; intros j e E F; pose proof (znth_Some_range _ _ _ E) as R; [cbn in R; lia|]. cbn [map index_of].
  destruct (Z.eq_dec j 0) as [-> | NJ].
  - cbn in E. injection E as ->. replace (list_eqb (e_name e) (e_name e)) with true; [reflexivity|]. symmetry. apply list_eqb_eq. reflexivity.
  - destruct (list_eqb (e_name x) (e_name e)) eqn:Q; [apply list_eqb_eq in Q; exfalso; exact (F 0 x ltac:(lia) eq_refl Q)|].
    assert (S : forall y, 1 <= y -> znth (x :: ws) y = znth ws (y - 1)) by (intros y Y; rewrite znth_cons by lia; reflexivity).
    rewrite (IH (j - 1) e).
    + cbn [bind]. f_equal. lia.
    + rewrite <- S by lia. exact E.
    + intros j' e' J E'. apply (F (j' + 1) e'); [lia|]. rewrite S by (apply znth_Some_range in E'; lia). replace (j' + 1 - 1) with j' by lia. exact E'.
Qed.

(** The same through sheets(), through iteration over the book and through sheet_by_name. *)
Theorem c76_other_ways : forall fuel mem base bv rs override fmt on_demand countries es c contents,
  bytes mem -> 0 <= base -> workbook mem base bv rs -> supported bv -> (List.length rs < fuel)%nat ->
  written bv override countries None rs -> usable bv override None -> lists codec bv override None rs es -> described bv override fmt rs c ->
  let ws := filter worksheet es in
  Forall2 (holds c mem base) ws contents ->
  exists a, open_stream fuel mem base override fmt on_demand = Ok a /\
    forall h, Forall (fun q => keeps on_demand (fst q)) h -> let a' := snd (history a h) in
    (forall q k, q = Sheets \/ q = Iterate -> exists l, fst (perform k a' q) = Ok (GotAll l) /\ zlen l = zlen ws /\
       forall j e items, znth ws j = Some e -> znth contents j = Some items -> exists sh, znth l j = Some (Some sh) /\ displays c e items sh) /\
    (forall j e items k, znth ws j = Some e -> znth contents j = Some items -> (forall j' e', j' < j -> znth ws j' = Some e' -> e_name e' <> e_name e) ->
       exists sh, fst (perform k a' (SheetByName (e_name e))) = Ok (Got sh) /\ displays c e items sh).
Proof.
  intros fuel mem base bv rs ov fmt od K es c contents B PB W SV LF WR U L D ws H.
  destruct (opened_avail fuel mem base bv rs ov fmt od K es c contents B PB W SV LF WR U L D H) as (a & OA & NS & AV).
  destruct (c76_round_trip fuel mem base bv rs ov fmt od K es c contents B PB W SV LF WR U L D H) as (a2 & OA2 & _ & RT).
  assert (a2 = a) as -> by congruence. fold ws in RT.
  exists a. split; [exact OA|]. intros h KP a'. specialize (RT h KP). fold a' in RT. cbv zeta in RT.
  destruct (AV h KP) as (b0 & I & A & BV & LS & LB & E1 & E2 & E3 & C). fold ws in A, E1, E2, E3. fold a' in A.
  assert (V50 : 50 <= bk_bv b0) by (unfold supported in SV; lia). assert (V45 : 45 < bk_bv b0) by lia.
  pose proof A as [IA _]. pose proof (n_names b0 ws E1) as NN.
  assert (FD : forall j e items sh, znth ws j = Some e -> znth contents j = Some items -> fresh codec num8 rk ragged old b0 mem j sh -> displays c e items sh).
  { intros j e items sh E EC (b1 & sh0 & G & CT).
    destruct (RT j j e items (0, 0) (or_introl eq_refl) E EC) as (sh1 & P & DS).
    destruct (perform (0, 0) a' (SheetByIndex j)) as [r a1] eqn:PE. cbn [fst] in P. subst r.
    destruct (perform_inv codec num8 rk ragged old b0 mem V45 LS LB _ _ _ _ _ IA PE) as [_ S]. cbn [says] in S. destruct S as [(b2 & sh2 & G2 & CT2) _].
    rewrite NN in G2. pose proof (znth_Some_range _ _ _ E) as R. unfold norm in G2. replace (j <? 0) with false in G2 by lia.
    rewrite G in G2. injection G2 as <- <-. apply (displays_content c e items sh sh1); [congruence|exact DS]. }
  pose proof IA as (k1 & l1 & EA & _ & L1 & _). rewrite NN in L1.
  assert (NS' : nsheets a' = zlen ws) by (unfold nsheets; rewrite EA; exact L1).
  assert (NM : sl_names (bk_sheets (a_book a')) = map e_name ws) by (rewrite EA; exact E1).
  split.
  - intros q k Q.
    assert (S1 : exists l, fst (perform k a' q) = Ok (GotAll l)).
    { destruct Q as [-> | ->]; cbn [BookApi.perform]; rewrite NS'.
      - destruct (load_all_some mem base b0 ws contents c B PB V50 LS LB E1 E2 E3 C H od k _ a' A (range_ok ws)) as [S1 _].
        destruct (m_load_all _ _ _ _ _ _ a' _) as [x a1]. cbn [fst] in S1. subst x. eexists. reflexivity.
      - destruct (iterate_some mem base b0 ws contents c B PB V50 LS LB E1 E2 E3 C H od k _ a' A (range_ok ws)) as [[y S1] _].
        destruct (m_iterate _ _ _ _ _ _ a' _) as [x a1]. cbn [fst] in S1. subst x. eexists. reflexivity. }
    destruct S1 as (l & S1). exists l. split; [exact S1|]. destruct (perform k a' q) as [r a1] eqn:PE. cbn [fst] in S1. subst r.
    destruct (perform_inv codec num8 rk ragged old b0 mem V45 LS LB _ _ _ _ _ IA PE) as [_ S].
    assert (F : Forall2 (fun i x => exists sh, x = Some sh /\ fresh codec num8 rk ragged old b0 mem i sh) (zrange 0 (zlen ws)) l).
    { rewrite <- NN. destruct Q as [-> | ->]; exact S. }
    split; [rewrite <- (Forall2_zlen _ _ _ F); rewrite zlen_zrange; pose proof (zlen_nonneg ws); lia|].
    intros j e items E EC. pose proof (znth_Some_range _ _ _ E) as R.
    assert (ZJ : znth (zrange 0 (zlen ws)) j = Some j) by (apply znth_zrange0; exact R).
    destruct (Forall2_znth _ _ _ _ _ F ZJ) as (x & X & sh & -> & FR). exists sh. split; [exact X|]. eapply FD; eassumption.
  - intros j e items k E EC F. pose proof (index_of_first ws j e E F) as IX.
    pose proof (znth_Some_range _ _ _ E) as R. assert (NR : 0 <= norm (zlen ws) j < zlen ws) by (unfold norm; replace (j <? 0) with false by lia; exact R).
    destruct (index_some mem base b0 ws contents c B PB V50 LS LB E1 E2 E3 C H od a' k j A NR) as (sh & S1 & _).
    assert (Q : fst (perform k a' (SheetByName (e_name e))) = Ok (Got sh)).
    { cbn [BookApi.perform]. rewrite NM, IX. destruct (m_sheet_by_index _ _ _ _ _ _ _ _) as [x a1]. cbn [fst] in S1. subst x. reflexivity. }
    exists sh. split; [exact Q|]. destruct (perform k a' (SheetByName (e_name e))) as [r a1] eqn:PE. cbn [fst] in Q. subst r.
    destruct (perform_inv codec num8 rk ragged old b0 mem V45 LS LB _ _ _ _ _ IA PE) as [_ (i & IX2 & FR)].
    rewrite E1, IX in IX2. injection IX2 as <-. eapply FD; eassumption.
Qed.
End Round.
Print Assumptions c76_round_trip.
Print Assumptions c76_other_ways.

(** The BIFF8 workbook of PropWorkbook.v: a date format, XFs, a country, a sheet and shared
    strings in the globals. *)
Example c76_hypotheses :
  let codec := fun _ b => Ok b in let rk := fun b => Ok (le_val b) in
  supported 80 /\ written codec 80 None (1, 44) None Small.records /\ usable codec 80 None None /\
  lists codec 80 None None Small.records [mk_entry 130 1 0 (s2l "S")] /\
  Forall2 (holds Small.config Small.file 0) (filter worksheet [mk_entry 130 1 0 (s2l "S")]) [Small.items].
Proof.
  cbv zeta. destruct c75_hypotheses as (_ & _ & L & _ & WA & F & _).
  assert (U : forall s, forallb (fun c => (0 <=? c) && (c <? 128)) s = true -> us_ok (Small.plain s)).
  { intros s F0. rewrite forallb_forall in F0. repeat split; auto; [|intros _]; apply Forall_forall; intros x X; specialize (F0 x X); unfold scalar; lia. }
  split; [right; right; reflexivity|]. split.
  { eapply W_format. { apply Format8; [lia|unfold u16v; lia|apply U; reflexivity|vm_compute; reflexivity|reflexivity]. }
    apply W_xf; [vm_compute; discriminate|repeat constructor; lia|]. apply W_xf; [vm_compute; discriminate|repeat constructor; lia|].
    change (0x8c, [1; 0; 44; 0]) with (0x8c, le_enc 2 (fst (1, 44)) ++ le_enc 2 (snd (1, 44)) ++ []). apply W_country; [unfold u16v; cbn; lia|unfold u16v; cbn; lia|].
    eapply W_sheet. { apply Biff8; [lia|repeat split; cbn; lia|apply U; reflexivity|vm_compute; reflexivity|reflexivity]. }
    apply (W_sst _ _ _ _ None 2 Small.shared_strings [[72; 105]; [72; 111]] [] []).
    + repeat constructor; cbn; try lia; try discriminate; try (intros; discriminate).
    + cbn. repeat split; auto; intros; congruence.
    + repeat constructor; [exists [[72; 105]]|exists [[72; 111]]]; (split; [|reflexivity]); repeat constructor; cbn; lia.
    + reflexivity.
    + exact I.
    + apply W_nil. }
  split. { right. intros e E. right. eexists. reflexivity. }
  split; [exact L|]. constructor; [|constructor]. split; [cbn; lia|]. split; [exact WA|]. split; [exact F|]. repeat constructor.
Qed.

(** Globals with the records of links to sheets, add-ins and other documents, a palette, a style
    with a name of its own, and a reference table that goes on in a CONTINUE record. *)
Definition ex_name (s : list Z) : ustring := Build_ustring s false 0 None None.
Definition ex_links : list (Z * list Z) :=
  [(0x92, PropColour.palette_bytes [((255, 0, 0), 0); ((1, 2, 3), 0)] []);
   (0x293, le_enc 2 21 ++ us_field 2 (ex_name (s2l "Mine")) ++ []);
   (0x1ae, le_enc 2 1 ++ [1; 4] ++ []);
   (0x1ae, [1; 0; 1; 0x3a] ++ []); (0x23, [0; 0; 0; 0; 0; 0] ++ us_field 1 (ex_name (s2l "F")) ++ [2; 0; 28; 23]);
   (0x1ae, le_enc 2 1 ++ us_field 2 (ex_name (s2l "b.xls")) ++ flat_map (us_field 2) [ex_name (s2l "T")] ++ []);
   (0x17, [2; 0; 0; 0; 0; 0; 0; 0; 2]); (0x3c, [0; 0; 0; 0; 0])].

Example c76_links : forall codec, written codec 80 None (0, 0) None ex_links.
Proof.
  intros codec.
  assert (U : forall s, forallb (fun c => (0 <=? c) && (c <? 128)) s = true -> us_ok (ex_name s)).
  { intros s F0. rewrite forallb_forall in F0. repeat split; auto; [|intros _]; apply Forall_forall; intros x X; specialize (F0 x X); unfold scalar; lia. }
  apply W_palette; [repeat constructor; cbn; lia|vm_compute; discriminate|vm_compute; discriminate|cbn; intuition discriminate|].
  apply W_named_style; [lia|unfold u16v; lia|reflexivity|apply U; reflexivity|reflexivity|].
  apply (W_link codec 80 None (0, 0) None _ [] _); [lia|apply Link_own; unfold u16v; lia|constructor|].
  apply (W_link codec 80 None (0, 0) None _ [_] _); [lia|apply Link_addins|constructor; [|constructor]; apply Outer_name; [reflexivity|apply U; reflexivity|reflexivity]|].
  apply (W_link codec 80 None (0, 0) None _ [] _); [lia| |constructor|].
  { apply (Link_document (ex_name (s2l "b.xls")) [ex_name (s2l "T")] []); [apply U; reflexivity|reflexivity| |reflexivity].
    constructor; [|constructor]. split; [apply U; reflexivity|reflexivity]. }
  apply (W_table codec 80 None (0, 0) None [(0, 0, 0); (2, 0, 0)] [2; 0; 0; 0; 0; 0; 0; 0; 2] [[0; 0; 0; 0; 0]] []);
    [lia|reflexivity|repeat constructor; cbn; lia|vm_compute; discriminate|repeat constructor; discriminate|reflexivity|apply W_nil].
Qed.
