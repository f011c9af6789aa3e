(** C75: the cells of a workbook are those its records describe. *)
From Verif Require Import Base BaseFacts Text Strings Utf16 StringFacts PropBytes Framing GridModel GridFacts PropGrid SheetObjects SheetModel SheetFacts SheetSteps
  PropSheet PropRead SstModel PropSst FormatModel FormatFacts PropFormat PropNumType FormulaModel CompDoc BookModel BookFacts PropBof PropEnc BookSheets BookRefs BookApi SheetShare
  BookHistory PropGlobals PropFormulaText PropDemand PropSheetList BookContent BookFormats BookFollow.

(** ** Specification *)

Section Spec.
Context {N : Type}.
Variable codec : list Z -> list Z -> result (list Z).
Variable num8 : list Z -> N.
Variable rk : list Z -> result N.
Variable ragged : bool.

(** What the globals [rs] of a file say to its worksheets: the shared strings, the types
    of number cells by XF index, and the encoding of texts before BIFF8. *)
Record described (bv : Z) (override : option (list Z)) (fmt : bool) (rs : list (Z * list Z)) (c : config N) : Prop := {
  d_bv : c_bv c = bv;
  d_fmt : c_fmt c = fmt;
  d_ragged : c_ragged c = ragged;
  d_num8 : c_num8 c = num8;
  d_rk : c_rk c = rk;
  d_sst : exists runs, strings rs (c_sst c) runs /\ c_rich c = if fmt then runs else [];
  d_types : exists es, formats codec bv override None rs es /\ forall xf t, c_xftype c xf = Some t -> number_type es xf t;
  d_text : exists cp, page None rs cp /\ (bv < 80 -> exists e, encoding_for bv override cp e /\ forall b, c_decode c b = codec e b) }.

(** At [pos] there is a worksheet: a BOF record, the records of [items], and EOF. *)
Definition worksheet_at (c : config N) (mem : list Z) (pos : Z) (items : list (@item N)) : Prop :=
  exists op body v t, At mem pos (frame (op, body) ++ frames (flat_map (enc c) items ++ [(XL_EOF, [])]) ++ t) /\
    4 <= zlen body <= 20 /\ bof_says body op v /\ word body 1 = 0x10 /\
    Forall framable (flat_map (enc c) items).

(** The items are well formed and fit the sheet. *)
Definition fits (c : config N) (items : list (@item N)) : Prop :=
  Forall (item_ok c) items /\ dims_first c items /\
  Forall (in_bounds (c_fmt c) (max_rows c) 256) (flat_map (cells c) items) /\ merged_ok (max_rows c) (flat_map (merges c) items).
End Spec.

(** ** Two configurations that read a sheet alike *)

Section Alike.
Context {N : Type}.
Variables c c0 : config N.

Record covered : Prop := {
  v_bv : c_bv c0 = c_bv c;
  v_fmt : c_fmt c0 = c_fmt c;
  v_ragged : c_ragged c0 = c_ragged c;
  v_num8 : c_num8 c0 = c_num8 c;
  v_rk : c_rk c0 = c_rk c;
  v_sst : c_sst c0 = c_sst c;
  v_types : forall xf t, c_xftype c xf = Some t -> c_xftype c0 xf = Some t;
  v_text : c_bv c < 80 -> forall b, c_decode c0 b = c_decode c b }.
Hypothesis C : covered.

Lemma covered_type : forall xf, c_xftype c xf <> None -> c_xftype c0 xf <> None /\ numtype c0 xf = numtype c xf.
Proof.
  intros xf H. unfold numtype. destruct (c_xftype c xf) as [t|] eqn:E; [|contradiction]. rewrite (v_types C _ _ E). split; [discriminate|reflexivity].
Qed.
Lemma covered_field : forall raw s, field_holds c raw s -> field_holds c0 raw s.
Proof.
  intros raw s H. unfold field_holds in *. rewrite (v_bv C). destruct (c_bv c >=? 80) eqn:E; [exact H|].
  destruct H as (b & L & R & D). exists b. split; [exact L|]. split; [exact R|]. rewrite (v_text C) by lia. exact D.
Qed.
Lemma covered_piece : forall raw s, piece_holds c raw s -> piece_holds c0 raw s.
Proof.
  intros raw s H. unfold piece_holds in *. rewrite (v_bv C). destruct (c_bv c >=? 80) eqn:E; [exact H|]. rewrite (v_text C) by lia. exact H.
Qed.

Lemma covered_rk : forall its xs r k, Forall (fun it => c_xftype c (fst it) <> None) its -> rk_cells c0 r k its xs = rk_cells c r k its xs.
Proof.
  induction its as [|[xf b] its IH]; intros xs r k F; [reflexivity|]. destruct xs as [|x xs]; [reflexivity|]. inversion F; subst. cbn [rk_cells].
  rewrite IH by assumption. rewrite (proj2 (covered_type xf H1)). reflexivity.
Qed.

Lemma covered_item : forall it, item_ok c it -> item_ok c0 it /\ enc c0 it = enc c it /\ cells c0 it = cells c it /\ merges c0 it = merges c it.
Proof.
  intros it H. destruct it; cbn [item_ok enc cells merges] in *; rewrite ?(v_fmt C), ?(v_num8 C), ?(v_rk C), ?(v_sst C).
  - destruct H as (H1 & H2 & H3 & H4 & H5). destruct (covered_type xf H5) as [T1 ->]. auto 10.
  - destruct H as (H1 & H2 & H3 & H4 & H5 & H6). destruct (covered_type xf H5) as [T1 ->]. auto 12.
  - destruct H as (H1 & H2 & H3 & H4 & H5 & H6 & H7). rewrite covered_rk by exact H6. split; [|auto].
    split; [exact H1|]. split; [exact H2|]. split; [exact H3|]. split; [exact H4|]. split; [exact H5|]. split; [|exact H7].
    eapply Forall_impl; [|exact H6]. intros p Q. exact (proj1 (covered_type _ Q)).
  - auto.
  - destruct H as (H1 & H2 & H3 & H4). auto 10 using covered_field.
  - destruct H as (H1 & H2 & H3 & H4 & H5). unfold rruns_bytes, rruns_ok in *. rewrite (v_bv C). auto 10 using covered_field.
  - auto.
  - auto.
  - auto.
  - destruct H as (H1 & H2 & H3 & H4 & H5 & H6). destruct f; cbn [fresult_ok] in H6 |- *; try (auto 12; fail).
    + destruct H6 as (F1 & F2 & F3). destruct (covered_type xf F3) as [T1 ->]. auto 12.
    + destruct H6 as (F1 & F2 & F3 & F4 & F5). split; [|auto]. repeat (split; [assumption|]). split; [exact (covered_piece _ _ F3)|].
      split; [|exact F5]. clear - F4 C. induction F4 as [|a b l l' P F IH]; constructor; [apply covered_piece; exact P|exact IH].
  - auto.
  - auto.
  - auto.
  - auto.
Qed.

Lemma covered_items : forall items, Forall (item_ok c) items ->
  Forall (item_ok c0) items /\ flat_map (enc c0) items = flat_map (enc c) items /\
  flat_map (cells c0) items = flat_map (cells c) items /\ flat_map (merges c0) items = flat_map (merges c) items /\
  (dims_first c items -> dims_first c0 items).
Proof.
  induction 1 as [|it l H F IH]; [repeat split; constructor|]. destruct IH as (I1 & I2 & I3 & I4 & I5). destruct (covered_item it H) as (K1 & K2 & K3 & K4).
  cbn [flat_map]. rewrite I2, I3, I4, K2, K3, K4. split; [constructor; assumption|]. repeat (split; [reflexivity|]).
  cbn [dims_first]. rewrite K3. destruct (cells c it); auto.
Qed.

Lemma covered_fits : forall items, fits c items ->
  fits c0 items /\ flat_map (enc c0) items = flat_map (enc c) items /\
  flat_map (cells c0) items = flat_map (cells c) items /\ flat_map (merges c0) items = flat_map (merges c) items.
Proof.
  intros items (F1 & F2 & F3 & F4). destruct (covered_items items F1) as (K1 & K2 & K3 & K4 & K5). unfold fits. unfold max_rows in *.
  rewrite K2, K3, K4, (v_fmt C), (v_bv C). auto 8.
Qed.
End Alike.

(** ** The configuration of an opened book *)

Section Opened.
Context {N : Type}.
Variable codec : list Z -> list Z -> result (list Z).
Variable ops : numops N.
Variable lower : list Z -> list Z.
Variable num8 : list Z -> N.
Variable rk : list Z -> result N.
Variable ragged : bool.
Notation loaded := (loaded (N := N)).
Notation api := (api (N := N)).
Notation book := (book N loaded).
Variable old : book -> list Z -> Z -> list Z -> Z -> result (shared * loaded).
Notation perform := (perform codec num8 rk ragged old).
Notation history := (history codec num8 rk ragged old).
Notation open_stream := (open_stream codec ops lower num8 rk ragged old).
Notation described := (described codec num8 rk ragged).

Lemma opened_config : forall fuel mem base bv rs ov fmt b0 m c,
  workbook mem base bv rs -> 50 <= bv -> described bv ov fmt rs c ->
  open_stream fuel mem base ov fmt true = Ok (mk_api b0 m) -> covered c (config_of codec num8 rk ragged b0) /\ c_rich (config_of codec num8 rk ragged b0) = c_rich c.
Proof.
  intros fuel mem base bv rs ov fmt b0 m c (pos & d & post & GB & FR & LD & A & NE) V [D1 D2 D3 D4 D5 (runs & D6 & D7) (es & D8 & D9) (cp & D10 & D11)] O.
  unfold BookApi.open_stream in O. rewrite GB, bind_Ok in O.
  apply bind_ok in O as (? & _ & O). apply bind_ok in O as (? & _ & O). apply bind_ok in O as (b & B & O).
  replace (bv <=? 40) with false in O by lia. replace (bv =? 45) with false in O by lia.
  apply bind_ok in O as ([b1 p1] & G & O). cbv zeta in O.
  assert (b0 = with_list b1 (map (fun _ => None) (sl_names (bk_sheets b1)))) as -> by congruence.
  destruct (globals_say _ _ _ _ _ _ _ _ _ _ _ _ _ _ _ _ _ _ _ _ _ B V FR LD A NE G D8 D10 D6) as (K1 & K2 & K3 & K4 & K5 & K6).
  split; [|cbn; congruence].
  split; cbn [config_of c_bv c_fmt c_ragged c_num8 c_rk c_sst c_xftype c_decode with_list bk_bv bk_sst].
  - congruence.
  - change (bk_fmt (with_list b1 (map (fun _ => None) (sl_names (bk_sheets b1))))) with (bk_fmt b1). congruence.
  - congruence.
  - congruence.
  - congruence.
  - congruence.
  - intros xf t T. apply K6. apply D9. exact T.
  - rewrite D1. intros V8 y. destruct (D11 V8) as (e & EE & DE). rewrite DE. unfold unicode.
    change (bk_enc (with_list b1 (map (fun _ => None) (sl_names (bk_sheets b1))))) with (bk_enc b1). rewrite (K5 V8 e EE). reflexivity.
Qed.

(** A sheet object of sheet_by_index is read with that configuration from where it starts. *)
Lemma by_index : forall fuel mem base bv rs ov fmt od a es h i j k e sh,
  workbook mem base bv rs -> 50 <= bv -> lists codec bv ov None rs es ->
  open_stream fuel mem base ov fmt od = Ok a ->
  let a' := snd (history a h) in let ws := filter worksheet es in
  i = j \/ i = j - zlen ws -> znth ws j = Some e ->
  fst (perform k a' (SheetByIndex i)) = Ok (Got sh) ->
  exists b0 version pos countries s, open_stream fuel mem base ov fmt true = Ok (mk_api b0 (Some mem)) /\
    getbof mem (e_posn e + base) 0x10 = Ok (version, pos) /\
    sheet_read (config_of codec num8 rk ragged b0) countries (records_of (S (2 * List.length mem)) mem pos) = Ok s /\
    ls_name sh = e_name e /\ ls_visibility sh = e_vis e /\ set_c (ls_sheet sh) (0, 0) = set_c s (0, 0).
Proof.
  intros fuel mem base bv rs ov fmt od a es h i j k e sh W V L H a' ws IJ E Q.
  destruct (opened codec ops lower num8 rk ragged old _ _ _ _ _ _ _ _ _ _ W V L H) as (b0 & I & V0 & LS & LB & O & E1 & E2 & E3 & E4). fold ws in E1, E2, E3.
  destruct (history_inv codec num8 rk ragged old b0 mem V0 LS LB h a I) as [I' _]. fold a' in I'.
  assert (LN : zlen (sl_names (bk_sheets b0)) = zlen ws) by (rewrite E1; apply zlen_map).
  destruct (perform k a' (SheetByIndex i)) as [r a2] eqn:P. cbn [fst] in Q. subst r.
  destruct (perform_inv codec num8 rk ragged old b0 mem V0 LS LB k a' (SheetByIndex i) _ _ I' P) as [_ S]. cbn [says] in S.
  rewrite LN in S. destruct S as [(b1 & sh0 & G & C) R].
  assert (norm (zlen ws) i = j) as NJ.
  { pose proof (znth_Some_range _ _ _ E) as JR. unfold norm. destruct IJ as [->| ->]; destruct (_ <? 0) eqn:X; lia. }
  rewrite NJ in G.
  unfold BookApi.get_sheet in G. rewrite E3 in G.
  rewrite (py_index_some _ j (e_posn e + base)), bind_Ok in G by (rewrite znth_map, E; reflexivity).
  apply bind_ok in G as ([version pos] & GB & G). rewrite E1 in G.
  rewrite (py_index_some _ j (e_name e)), bind_Ok in G by (rewrite znth_map, E; reflexivity).
  apply bind_ok in G as ([g s] & LD & G). apply bind_ok in G as (l & _ & G). injection G as _ <-.
  unfold BookApi.load in LD. replace (bk_bv b0 <=? 45) with false in LD by lia. rewrite E2 in LD.
  rewrite (py_index_some _ j (e_vis e)), bind_Ok in LD by (rewrite znth_map, E; reflexivity). cbv zeta in LD.
  apply bind_ok in LD as (sd & SR & LD). injection LD as _ <-.
  exists b0, version, pos, (g_countries (bk_shared b0)), sd. split; [exact O|]. split; [exact GB|]. split; [exact SR|].
  unfold content in C. split; [exact (f_equal (fun q => fst (fst q)) C)|]. split; [exact (f_equal (fun q => snd (fst q)) C)|exact (f_equal snd C)].
Qed.

Lemma worksheet_read : forall (c c0 : config N) mem pos items version p, bytes mem -> 0 <= pos -> covered c c0 ->
  worksheet_at c mem pos items -> getbof mem pos 0x10 = Ok (version, p) ->
  exists pre t, mem = pre ++ frames (flat_map (enc c) items ++ [(XL_EOF, [])]) ++ t /\ zlen pre = p /\ Forall framable (flat_map (enc c) items).
Proof using.
  clear codec ops lower num8 rk ragged old.
  intros c c0 mem pos items version p B P C (op & body & v & t & A & LB & BS & WB & FR) GB.
  assert (S : stands mem pos op body).
  { destruct A as (before & EM & EP). eexists before, _. split; [|symmetry; exact EP]. rewrite EM at 1. unfold frame. cbn [fst snd]. rewrite <- !app_assoc. reflexivity. }
  assert (GB2 : getbof mem pos 0x10 = Ok (v, pos + 4 + zlen body)).
  { apply (c47_getbof _ _ _ _ _ B P). exists op, body. split; [exact S|]. split; [exact LB|]. split; [exact BS|]. split; [left; exact WB|reflexivity]. }
  rewrite GB in GB2. injection GB2 as -> ->.
  destruct A as (before & EM & EP). exists (before ++ frame (op, body)), t. split; [rewrite <- app_assoc; exact EM|]. split; [|exact FR].
  rewrite zlen_app. unfold frame. cbn [fst snd]. rewrite !zlen_app, !zlen_le_enc. lia.
Qed.

(** The cells that sheet_by_index shows are those of the records of the sheet, with the
    strings, formats and encoding that the globals give; and so are the merged ranges. *)
Theorem c75_cells : forall fuel mem base bv rs override fmt on_demand a es h i j k e sh c items,
  bytes mem -> 0 <= base -> workbook mem base bv rs -> 50 <= bv -> lists codec bv override None rs es ->
  described bv override fmt rs c ->
  open_stream fuel mem base override fmt on_demand = Ok a ->
  let a' := snd (history a h) in let ws := filter worksheet es in
  i = j \/ i = j - zlen ws -> znth ws j = Some e -> 0 <= e_posn e ->
  fst (perform k a' (SheetByIndex i)) = Ok (Got sh) ->
  worksheet_at c mem (e_posn e + base) items -> fits c items ->
  ls_name sh = e_name e /\ ls_visibility sh = e_vis e /\
  shows (ls_sheet sh) (flat_map (cells c) items) (flat_map (merges c) items).
Proof.
  intros fuel mem base bv rs ov fmt od a es h i j k e sh c items B PB W V L D H a' ws IJ E PE Q WA F.
  destruct (by_index _ _ _ _ _ _ _ _ _ _ h _ _ k _ _ W V L H IJ E Q) as (b0 & version & pos & countries & s & O & GB & SR & N1 & N2 & S).
  split; [exact N1|]. split; [exact N2|].
  destruct (opened_config _ _ _ _ _ _ _ _ _ _ W V D O) as [C _].
  assert (P0 : 0 <= e_posn e + base) by lia. destruct (worksheet_read _ _ _ _ _ _ _ B P0 C WA GB) as (pre & t & EM & EP & FR).
  destruct (covered_fits _ _ C items F) as ((F1 & F2 & F3 & F4) & K1 & K2 & K3).
  rewrite <- K1 in EM, FR. pose proof (v_bv _ _ C) as V1. pose proof (d_bv _ _ _ _ _ _ _ _ _ D) as V2.
  assert (V3 : c_bv (config_of codec num8 rk ragged b0) >= 50) by (rewrite V1, V2; lia).
  assert (SH : shows s (flat_map (cells c) items) (flat_map (merges c) items)).
  { rewrite <- K2, <- K3. rewrite EM in SR, B. rewrite <- EP in SR.
    apply (c29_content (config_of codec num8 rk ragged b0) countries pre items t s V3 B FR F1 F2 F3 F4 SR). }
  assert (S1 : sh_grid (ls_sheet sh) = sh_grid s) by exact (f_equal sh_grid S).
  assert (S2 : sh_fmt (ls_sheet sh) = sh_fmt s) by exact (f_equal sh_fmt S).
  destruct SH as (H1 & H2 & H3). unfold shows. rewrite S1, S2. auto.
Qed.
End Opened.
Print Assumptions c75_cells.

(** A BIFF8 workbook: a date format, two XFs, one of which uses it, two shared strings
    (one with formatting), a worksheet of two numbers and two strings. *)
Module Small.
Definition bof (kind : Z) : Z * list Z := (0x0809, [0x00; 0x06; kind; 0; 0; 0; 0xcd; 7]).
Definition plain (s : list Z) : ustring := {| us_text := s; us_wide := false; us_opts := 0; us_runs := None; us_phon := None |}.
Definition xf (k : Z) : Z * list Z := (0xe0, [0; 0] ++ le_enc 2 k ++ repeat 0 16).
Definition hi : sst_string := {| ss_opts := 0; ss_first := [72; 105]; ss_more := []; ss_runs := []; ss_phon := ([], None) |}.
Definition ho : sst_string := {| ss_opts := 8; ss_first := [72; 111]; ss_more := []; ss_runs := [(false, (1, 6))]; ss_phon := ([], None) |}.
Definition shared_strings : list (sst_string * bool) := [(hi, true); (ho, false)].
Definition records : list (Z * list Z) :=
  [(0x41e, le_enc 2 164 ++ us_field 2 (plain (s2l "yyyy")) ++ []); xf 0; xf 164; (0x8c, [1; 0; 44; 0]);
   (0x85, fixed_part (mk_entry 130 1 0 (s2l "S")) ++ us_field 1 (plain (s2l "S")) ++ []);
   (0xfc, fst (sst_records 2 shared_strings []))] ++ map (pair 0x3c) (snd (sst_records 2 shared_strings [])) ++ [].
Definition events : list fevent := [Defines 164 (s2l "yyyy"); Uses 0; Uses 164].
Definition config : config Z :=
  mk_config 80 true false [[72; 105]; [72; 111]] [(1, [(1, 6)])] (fun xf => if xf =? 0 then Some 2 else if xf =? 1 then Some 3 else None)
    (fun b => Ok b) le_val (fun b => Ok (le_val b)) (fun _ => 0).
Definition items : list (@item Z) :=
  [INumber 0 0 0 [1; 0; 0; 0; 0; 0; 0; 0]; INumber 0 1 1 [2; 0; 0; 0; 0; 0; 0; 0]; ISst 1 0 0 0 [72; 105]; ISst 1 1 0 1 [72; 111]].
Definition file : list Z :=
  frame (bof 5) ++ frames records ++ frame (0x0a, []) ++ frame (bof 0x10) ++ frames (flat_map (enc config) items ++ [(0x0a, [])]).
End Small.

Example c75_hypotheses :
  let codec := fun _ b => Ok b in let rk := fun b => Ok (le_val b) in
  bytes Small.file /\ workbook Small.file 0 80 Small.records /\
  lists codec 80 None None Small.records [mk_entry 130 1 0 (s2l "S")] /\
  described codec le_val rk false 80 None true Small.records Small.config /\
  worksheet_at Small.config Small.file 130 Small.items /\ fits Small.config Small.items /\
  match open_stream codec int_ops (fun s => s) le_val rk false (fun _ _ _ _ _ => Err XLRDError) 50 Small.file 0 None true true with
  | Ok a => match fst (perform codec le_val rk false (fun _ _ _ _ _ => Err XLRDError) (0, 0) a (SheetByIndex (-1))) with
            | Ok (Got sh) => map (fun k => cell_type (sh_grid (ls_sheet sh)) 0 k) [0; 1] = [Ok 2; Ok 3] /\
                             map (fun k => cell_value (sh_grid (ls_sheet sh)) 1 k) [0; 1] = [Ok (VText [72; 105]); Ok (VText [72; 111])]
            | _ => False
            end
  | Err _ => False
  end.
Proof.
  cbv zeta.
  assert (U : forall s, forallb (fun c => (0 <=? c) && (c <? 128)) s = true -> us_ok (Small.plain s)).
  { intros s F. rewrite forallb_forall in F. repeat split; auto; [|intros _]; apply Forall_forall; intros x X; specialize (F x X); unfold scalar; lia. }
  split. { apply Forall_forall. assert (F : forallb (fun b => (0 <=? b) && (b <? 256)) Small.file = true) by (vm_compute; reflexivity).
           rewrite forallb_forall in F. intros b I. specialize (F b I). lia. }
  split. { exists 12, [], (skipn 130 Small.file). split; [vm_compute; reflexivity|]. split; [apply Forall_forall; intros [rc d] I; vm_compute in I; repeat (destruct I as [I|I]; [injection I as <- <-; split; cbn; lia|]); destruct I|].
           split; [reflexivity|]. split; [exists (firstn 12 Small.file); split; vm_compute; reflexivity|].
           vm_compute. repeat constructor; discriminate. }
  split. { do 4 (apply L_other; [lia|lia|]). apply L_sheet; [apply Biff8; [lia|repeat split; cbn; lia|apply U; reflexivity|vm_compute; reflexivity|reflexivity]|].
           do 2 (apply L_other; [lia|lia|]). apply L_nil. }
  split. { split; try reflexivity.
           - exists [(1, [(1, 6)])]. split; [|reflexivity].
             apply (S_sst Small.records (firstn 5 Small.records) 2 Small.shared_strings [[72; 105]; [72; 111]] [] []); [reflexivity| | | | | |reflexivity].
             + intros d I. destruct I.
             + exact I.
             + repeat constructor; cbn; try lia; try discriminate; try (intros; discriminate).
             + cbn. repeat split; auto; intros; congruence.
             + repeat constructor; [exists [[72; 105]]|exists [[72; 111]]]; (split; [|reflexivity]); repeat constructor; cbn; lia.
           - exists Small.events. split.
             + apply F_format; [apply Format8; [lia|unfold u16v; lia|apply U; reflexivity|vm_compute; reflexivity|reflexivity]|].
               apply F_xf; [split; [unfold u16v; lia|exists [0; 0], (repeat 0 16); split; reflexivity]|].
               apply F_xf; [split; [unfold u16v; lia|exists [0; 0], (repeat 0 16); split; reflexivity]|].
               do 4 (apply F_other; [lia|lia|lia|]). apply F_nil.
             + intros x t T. cbn in T. destruct (x =? 0) eqn:E0; [|destruct (x =? 1) eqn:E1; [|discriminate]].
               * assert (x = 0) as -> by lia. injection T as <-.
                 apply (T_xf Small.events [Defines 164 (s2l "yyyy")] 0 [Uses 164] 0 None); [reflexivity|left; split; [left; discriminate|reflexivity]|].
                 apply D_none. intros s [I|[]]. discriminate.
               * assert (x = 1) as -> by lia. injection T as <-.
                 apply (T_xf Small.events [Defines 164 (s2l "yyyy"); Uses 0] 164 [] 164 (Some (s2l "yyyy"))); [reflexivity|left; split; [right; eexists; left; reflexivity|reflexivity]|].
                 apply (D_last _ _ [] _ []); [reflexivity|intros s' []].
           - exists None. split; [|lia]. do 7 (apply P_other; [lia|]). apply P_nil. }
  split. { exists 0x809, (snd (Small.bof 0x10)), 80, [].
           split; [exists (firstn 130 Small.file); split; vm_compute; reflexivity|]. split; [vm_compute; split; discriminate|].
           split; [apply Excel97; reflexivity|]. split; [reflexivity|]. apply Forall_forall; intros [rc d] I; vm_compute in I; repeat (destruct I as [I|I]; [injection I as <- <-; split; cbn; lia|]); destruct I. }
  split. { split; [|split; [|split]].
           - repeat constructor; cbn; try lia; try discriminate; try (unfold u16v; lia).
           - vm_compute. reflexivity.
           - repeat constructor; cbn; lia.
           - repeat constructor. }
  vm_compute. split; reflexivity.
Qed.
