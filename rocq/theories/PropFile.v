(** C77: a workbook file, bare or in a compound file, from its bytes to what its sheets show. *)
From Verif Require Import Base BaseFacts Text Strings Utf16 StringFacts PropBytes Framing GridModel GridFacts PropGrid SheetObjects SheetModel SheetFacts SheetSteps
  PropSheet PropRead SstModel PropSst FormatModel FormatFacts PropFormat PropNumType FormulaModel CompDoc CompDocFacts CompDocOpen PropChain PropDir CompDocFull
  BookModel BookFacts PropBof PropEnc BookSheets BookRefs BookApi SheetShare
  BookHistory PropGlobals PropFormulaText PropDemand PropSheetList BookContent BookFormats BookFollow BookFine PropWorkbook PropRoundTrip.

(** ** Specification *)

(** A workbook stream: a BOF record of the globals and their records up to EOF, at its start. *)
Definition book_stream (s : list Z) (bv : Z) (rs : list (Z * list Z)) : Prop :=
  exists op body d post, s = frame (op, body) ++ frames rs ++ frame (0x0a, d) ++ post /\
    4 <= zlen body <= 20 /\ bof_says body op bv /\ word body 1 = 5 /\
    Forall framable rs /\ zlen d < 65536 /\ Forall (fun r => fst r <> 0x0a /\ fst r <> 0x8f) rs.

Section File.
Variable lower : list Z -> list Z.

(** A file with the workbook stream [s]: the stream itself, or a compound file whose root
    storage has it as "Workbook", or as "Book" and nothing as "Workbook".  The tree of
    the directory is lower than [depth]. *)
Inductive contains (depth : nat) (file s : list Z) : Prop :=
| Bare : bytes file -> s = file -> contains depth file s
| Stored : forall sat dl t lx ls ld lc lt d, compound file sat dl t lx ls ld lc lt -> (height t < depth)%nat ->
    (named lower dl (siblings t) (s2l "Workbook") d \/
     absent lower dl (siblings t) (s2l "Workbook") /\ named lower dl (siblings t) (s2l "Book") d) ->
    stream_is file sat dl (lx ++ ls ++ ld ++ lc ++ lt) lc lt d s -> contains depth file s.

(** ** Proofs *)

Lemma bof_code : forall body op v, bof_says body op v -> op mod 256 = 9 /\ 0 <= op < 65536.
Proof. intros body op v []; split; try reflexivity; lia. Qed.

Lemma stream_len : forall file sat dl used lc lt d s, stream_is file sat dl used lc lt d s -> 512 <= zlen file -> zlen s <= zlen file.
Proof.
  intros file sat dl used lc lt d s [l SZ _ _ _ _ _ ->|l root c SZ SZ2 _ _ _ _ _ _ _ _ ->] L; rewrite zlen_firstn; lia.
Qed.

Lemma not_signature : forall s bv rs, book_stream s bv rs -> list_eqb (py_slice s 0 8) SIGNATURE = false.
Proof.
  intros s bv rs (op & body & d & post & -> & LB & BS & _). destruct (bof_code _ _ _ BS) as [M _].
  unfold frame. cbn [fst snd le_enc app]. rewrite py_slice_cut by lia. unfold cut. change (Z.to_nat (8 - 0)) with 8%nat. cbn [Z.to_nat skipn firstn].
  cbn [list_eqb SIGNATURE]. rewrite M. reflexivity.
Qed.

Lemma found : forall fuel depth file s bv rs ignore, contains depth file s -> book_stream s bv rs -> zlen file < Z.of_nat fuel ->
  exists m off post, find_stream lower fuel depth file ignore = Ok (m, off) /\ bytes m /\ 0 <= off /\ At m off (s ++ post) /\ zlen s <= zlen file /\ 0 < zlen file.
Proof.
  intros fuel depth file s bv rs ignore C BS LF. assert (NE : s <> []).
  { destruct BS as (op & body & d & post & -> & _). unfold frame. cbn [fst snd le_enc app]. discriminate. }
  destruct C as [B ->|sat dl t lx ls ld lc lt d CP HD NM ST].
  - exists file, 0, []. unfold find_stream. rewrite (not_signature _ _ _ BS). cbn [negb]. split; [reflexivity|]. split; [exact B|]. split; [lia|].
    split; [rewrite app_nil_r; apply At_0|]. split; [lia|]. destruct file; [congruence|rewrite zlen_cons; pose proof (zlen_nonneg file); lia].
  - pose proof (cp_long _ _ _ _ _ _ _ _ _ CP) as LG. pose proof (stream_len _ _ _ _ _ _ _ _ ST LG) as LS.
    unfold find_stream. rewrite py_slice_cut by lia. rewrite (cp_signature _ _ _ _ _ _ _ _ _ CP). replace (list_eqb _ SIGNATURE) with true by reflexivity. cbn [negb].
    destruct (located lower file sat dl t lx ls ld lc lt fuel depth ignore (s2l "Workbook") d s CP LF HD eq_refl) as (cd & O & AB & NA).
    destruct (located lower file sat dl t lx ls ld lc lt fuel depth ignore (s2l "Book") d s CP LF HD eq_refl) as (cd2 & O2 & _ & NA2).
    assert (cd2 = cd) as -> by congruence. rewrite O, bind_Ok.
    assert (MN : forall m off post, At m off (s ++ post) -> exists x m', m = x :: m').
    { intros m off post (pre & -> & _). destruct pre as [|x pre]; [|eexists _, _; reflexivity]. destruct s as [|x s']; [congruence|]. eexists _, _. reflexivity. }
    destruct NM as [NM|[AM NM]].
    + destruct (NA NM ST NE) as (m & off & cd' & L & BM & OF & post & A). exists m, off, post. rewrite L. cbn [bind].
      destruct (MN _ _ _ A) as (x & m' & ->). split; [reflexivity|]. split; [exact BM|]. split; [exact OF|]. split; [exact A|]. split; [exact LS|lia].
    + destruct (NA2 NM ST NE) as (m & off & cd' & L & BM & OF & post & A). exists m, off, post. rewrite (AB AM). cbn [bind]. rewrite L. cbn [bind].
      destruct (MN _ _ _ A) as (x & m' & ->). split; [reflexivity|]. split; [exact BM|]. split; [exact OF|]. split; [exact A|]. split; [exact LS|lia].
Qed.
End File.

Lemma At_in : forall (m s post t : list Z) off pos, At m off (s ++ post) -> At s pos t -> At m (pos + off) (t ++ post).
Proof.
  intros m s post t off pos (p & -> & ->) (q & -> & ->). exists (p ++ q). rewrite <- !app_assoc, zlen_app. split; [reflexivity|lia].
Qed.

Lemma book_at : forall m off s post bv rs, bytes m -> 0 <= off -> At m off (s ++ post) -> book_stream s bv rs -> workbook m off bv rs.
Proof.
  intros m off s post bv rs B OF A (op & body & d & rest & E & LB & BS & W & FR & LD & NE).
  exists (off + 4 + zlen body), d, (rest ++ post). split.
  { apply c47_getbof; [exact B|exact OF|]. exists op, body. split; [|split; [exact LB|]; split; [exact BS|]; split; [left; exact W|reflexivity]].
    destruct A as (p & -> & ->). exists p, (frames rs ++ frame (0x0a, d) ++ rest ++ post). split; [|reflexivity].
    subst s. unfold frame at 1. cbn [fst snd]. rewrite <- !app_assoc. reflexivity. }
  split; [exact FR|]. split; [exact LD|]. split; [|exact NE].
  subst s. rewrite <- !app_assoc in A. apply (At_skip _ _ _ _ (off + 4 + zlen body)) in A; [exact A|].
  unfold frame. cbn [fst snd]. rewrite !zlen_app, !zlen_le_enc. lia.
Qed.

Lemma holds_at : forall {N} (c : config N) m s post off e items, At m off (s ++ post) -> holds c s 0 e items -> holds c m off e items.
Proof.
  intros N c m s post off e items A (P & (op & body & v & t & AT & W) & R). split; [exact P|]. split; [|exact R].
  exists op, body, v, (t ++ post). split; [|exact W]. rewrite Z.add_0_r in AT. pose proof (At_in _ _ _ _ _ _ A AT) as X.
  rewrite <- !app_assoc in X. exact X.
Qed.

Lemma frames_len : forall rs, 4 * zlen rs <= zlen (frames rs).
Proof.
  induction rs as [|r rs IH]; [cbn; lia|]. unfold frames in *. cbn [flat_map]. rewrite zlen_cons, zlen_app.
  assert (4 <= zlen (frame r)); [|lia]. unfold frame. rewrite !zlen_app, !zlen_le_enc. pose proof (zlen_nonneg (snd r)). lia.
Qed.

Section Whole.
Context {N : Type}.
Variable codec : list Z -> list Z -> result (list Z).
Variable ops : numops N.
Variable lower : list Z -> list Z.
Variable num8 : list Z -> N.
Variable rk : list Z -> result N.
Variable ragged : bool.
Notation loaded := (loaded (N := N)).
Notation api := (api (N := N)).
Notation book := (book N loaded).
Variable old : book -> list Z -> Z -> list Z -> Z -> result (shared * loaded).
Notation perform := (perform codec num8 rk ragged old).
Notation history := (history codec num8 rk ragged old).
Notation open_workbook_xls := (open_workbook_xls codec ops lower num8 rk ragged old).
Notation described := (described codec num8 rk ragged).
Notation written := (written codec).
Notation usable := (usable codec).

Lemma as_stream : forall fuel depth file s bv rs override fmt on_demand ignore (c : config N) (ws : list entry) contents,
  contains lower depth file s -> book_stream s bv rs -> zlen file < Z.of_nat fuel -> Forall2 (holds c s 0) ws contents ->
  exists m off, bytes m /\ 0 <= off /\ workbook m off bv rs /\ (List.length rs < fuel)%nat /\ Forall2 (holds c m off) ws contents /\
    open_workbook_xls fuel depth file override fmt on_demand ignore = open_stream codec ops lower num8 rk ragged old fuel m off override fmt on_demand.
Proof.
  intros fuel depth file s bv rs ov fmt od ig c ws contents C BS LF H.
  destruct (found lower fuel depth file s bv rs ig C BS LF) as (m & off & post & F & BM & OF & A & LS & L0).
  exists m, off. split; [exact BM|]. split; [exact OF|]. split; [eapply book_at; eassumption|]. split.
  { destruct BS as (op & body & d & rest & E & _). pose proof (frames_len rs) as LR. rewrite E, !zlen_app in LS.
    pose proof (zlen_nonneg (frame (op, body))). pose proof (zlen_nonneg (frame (10, d))). pose proof (zlen_nonneg rest). unfold zlen in *. lia. }
  split; [clear - A H; induction H; constructor; [eapply holds_at; eassumption|assumption]|].
  unfold BookApi.open_workbook_xls. replace (zlen file =? 0) with false by lia. cbn [negb guard]. rewrite bind_Ok, F. reflexivity.
Qed.

(** Opening the file succeeds, and whatever is done in between, every sheet can be had and
    shows the items written in it. *)
Theorem c77_round_trip : forall fuel depth file s bv rs override fmt on_demand ignore countries es c contents,
  zlen file < Z.of_nat fuel -> contains lower depth file s -> book_stream s bv rs -> supported bv ->
  written bv override countries None rs -> usable bv override None -> lists codec bv override None rs es -> described bv override fmt rs c ->
  let ws := filter worksheet es in
  Forall2 (holds c s 0) ws contents ->
  exists a, open_workbook_xls fuel depth file override fmt on_demand ignore = Ok a /\ nsheets a = zlen ws /\
    forall h, Forall (fun q => keeps on_demand (fst q)) h -> let a' := snd (history a h) in
    forall i j e items k, i = j \/ i = j - zlen ws -> znth ws j = Some e -> znth contents j = Some items ->
    exists sh, fst (perform k a' (SheetByIndex i)) = Ok (Got sh) /\ displays c e items sh.
Proof.
  intros fuel depth file s bv rs ov fmt od ig K es c contents LF C BS SV WR U L D ws H.
  destruct (as_stream fuel depth file s bv rs ov fmt od ig c ws contents C BS LF H) as (m & off & BM & OF & W & LR & H' & ->).
  eapply c76_round_trip; eassumption.
Qed.

(** So do sheets(), iteration and sheet_by_name. *)
Theorem c77_other_ways : forall fuel depth file s bv rs override fmt on_demand ignore countries es c contents,
  zlen file < Z.of_nat fuel -> contains lower depth file s -> book_stream s bv rs -> supported bv ->
  written bv override countries None rs -> usable bv override None -> lists codec bv override None rs es -> described bv override fmt rs c ->
  let ws := filter worksheet es in
  Forall2 (holds c s 0) ws contents ->
  exists a, open_workbook_xls fuel depth file override fmt on_demand ignore = Ok a /\
    forall h, Forall (fun q => keeps on_demand (fst q)) h -> let a' := snd (history a h) in
    (forall q k, q = Sheets \/ q = Iterate -> exists l, fst (perform k a' q) = Ok (GotAll l) /\ zlen l = zlen ws /\
       forall j e items, znth ws j = Some e -> znth contents j = Some items -> exists sh, znth l j = Some (Some sh) /\ displays c e items sh) /\
    (forall j e items k, znth ws j = Some e -> znth contents j = Some items -> (forall j' e', j' < j -> znth ws j' = Some e' -> e_name e' <> e_name e) ->
       exists sh, fst (perform k a' (SheetByName (e_name e))) = Ok (Got sh) /\ displays c e items sh).
Proof.
  intros fuel depth file s bv rs ov fmt od ig K es c contents LF C BS SV WR U L D ws H.
  destruct (as_stream fuel depth file s bv rs ov fmt od ig c ws contents C BS LF H) as (m & off & BM & OF & W & LR & H' & ->).
  eapply c76_other_ways; eassumption.
Qed.

(** A compound file without either stream is refused. *)
Theorem c77_no_workbook : forall fuel depth file sat dl t lx ls ld lc lt override fmt on_demand ignore,
  compound file sat dl t lx ls ld lc lt -> zlen file < Z.of_nat fuel -> (height t < depth)%nat ->
  absent lower dl (siblings t) (s2l "Workbook") -> absent lower dl (siblings t) (s2l "Book") ->
  open_workbook_xls fuel depth file override fmt on_demand ignore = Err XLRDError.
Proof.
  intros fuel depth file sat dl t lx ls ld lc lt ov fmt od ig CP LF HD A1 A2.
  pose proof (cp_long _ _ _ _ _ _ _ _ _ CP) as LG. destruct (cp_root _ _ _ _ _ _ _ _ _ CP) as (root & _).
  destruct (located lower file sat dl t lx ls ld lc lt fuel depth ig (s2l "Workbook") root [] CP LF HD eq_refl) as (cd & O & AB & _).
  destruct (located lower file sat dl t lx ls ld lc lt fuel depth ig (s2l "Book") root [] CP LF HD eq_refl) as (cd2 & O2 & AB2 & _).
  assert (cd2 = cd) as -> by congruence.
  unfold BookApi.open_workbook_xls. replace (zlen file =? 0) with false by lia. cbn [negb guard]. rewrite bind_Ok.
  unfold find_stream. rewrite py_slice_cut by lia. rewrite (cp_signature _ _ _ _ _ _ _ _ _ CP). replace (list_eqb _ SIGNATURE) with true by reflexivity. cbn [negb].
  rewrite O, bind_Ok, (AB A1). cbn [bind]. rewrite (AB2 A2). reflexivity.
Qed.
End Whole.
Print Assumptions c77_round_trip.
Print Assumptions c77_other_ways.
Print Assumptions c77_no_workbook.

(** The workbook of PropWorkbook.v in a compound file with sectors of 64 bytes: sector 0 the
    allocation table, 1-4 the directory, and the stream in the order 6, 5, 7, 8. *)
Module Stored.
Definition pad (n : Z) (b : list Z) : list Z := b ++ zrepeat 0 (n - zlen b).
Definition header : list Z :=
  pad 28 [0xD0; 0xCF; 0x11; 0xE0; 0xA1; 0xB1; 0x1A; 0xE1] ++ [0xFE; 0xFF; 6; 0; 3; 0] ++ zrepeat 0 10 ++ i32_enc 1 ++ i32_enc 1 ++ i32_enc 0 ++ i32_enc 64 ++ i32_enc (-2) ++ i32_enc 0
  ++ i32_enc (-2) ++ i32_enc 0 ++ i32_enc 0 ++ flat_map (fun _ => i32_enc (-1)) (zrange 0 108).
Definition root : dirnode := mk_dirnode 0 (s2l "R") 5 (-1) (-1) 1 (-2) 0.
Definition stream : dirnode := mk_dirnode 1 (s2l "WorkBook") 2 (-1) (-1) (-1) 6 210.
Definition entry (d : dirnode) : list Z :=
  utf16_enc (d_name d) ++ zrepeat 0 (64 - zlen (utf16_enc (d_name d))) ++ le_enc 2 (zlen (utf16_enc (d_name d)) + 2) ++ d_etype d :: 0 ::
  i32_enc (d_left d) ++ i32_enc (d_right d) ++ i32_enc (d_root d) ++ zrepeat 0 36 ++ i32_enc (d_first d) ++ i32_enc (d_size d) ++ zrepeat 0 4.
Definition sat : list Z := [-3; 2; 3; 4; -2; 7; 5; 8; -2; -1; -1; -1; -1; -1; -1; -1].
Definition part (a b : nat) : list Z := firstn (b - a) (skipn a Small.file).
Definition file : list Z := Eval vm_compute in
  header ++ flat_map i32_enc sat ++ entry root ++ entry stream ++ part 64 128 ++ part 0 64 ++ part 128 192 ++ part 192 210.
End Stored.

Lemma stored_dirent : forall d, text (d_name d) -> zlen (utf16_enc (d_name d)) <= 64 -> 0 <= d_etype d < 256 -> i32v (d_left d) -> i32v (d_right d) -> i32v (d_root d) ->
  i32v (d_first d) -> i32v (d_size d) -> dirent d (Stored.entry d).
Proof.
  intros d T L E A B C D F. pose proof (zlen_nonneg (utf16_enc (d_name d))). apply Dirent; auto; [rewrite zlen_zrepeat; lia|lia].
Qed.

Example stored_compound : compound Stored.file Stored.sat [Stored.root; Stored.stream] (Node 1 Leaf Leaf Leaf) [] [0] [1; 2; 3; 4] [] [].
Proof.
  constructor.
  - apply bytes_check. vm_compute. reflexivity.
  - vm_compute. discriminate.
  - vm_compute. reflexivity.
  - vm_compute. reflexivity.
  - vm_compute. discriminate.
  - vm_compute. reflexivity.
  - vm_compute. repeat (constructor; [discriminate|]). constructor.
  - vm_compute. reflexivity.
  - vm_compute. reflexivity.
  - change (i32_at Stored.file 48) with 1. do 4 (econstructor; [lia|reflexivity|]). constructor. lia.
  - exists [Stored.entry Stored.root; Stored.entry Stored.stream]. split; [vm_compute; reflexivity|].
    constructor; [|constructor; [|constructor]]; apply stored_dirent; try (vm_compute; intuition discriminate); try (unfold i32v; cbn; lia);
      (apply Forall_forall; intros x X; vm_compute in X; unfold scalar; intuition lia).
  - intros i d. unfold znth. destruct (i <? 0) eqn:I; [discriminate|]. destruct (Z.to_nat i) as [|[|[|n]]] eqn:E; cbn [nth_error]; intros X; try discriminate; injection X as <-; cbn; lia.
  - exists Stored.root. split; [reflexivity|]. split; [reflexivity|]. split; [|split; [|split; reflexivity]].
    + cbn [Stored.root d_root]. eapply rep_node; try reflexivity; try lia; apply rep_leaf; reflexivity.
    + repeat constructor; cbn; intuition lia.
  - cbn [app]. repeat constructor; cbn; intuition lia.
  - vm_compute. repeat constructor; intuition discriminate.
  - vm_compute. repeat constructor; discriminate.
Qed.

Example c77_hypotheses :
  contains ascii_low 2 Stored.file Small.file /\ zlen Stored.file < Z.of_nat 2000 /\ book_stream Small.file 80 Small.records /\
  match open_workbook_xls (fun _ b => Ok b) int_ops ascii_low le_val (fun b => Ok (le_val b)) false (fun _ _ _ _ _ => Err XLRDError) 2000 2 Stored.file None true true false with
  | Ok a => match fst (perform (fun _ b => Ok b) le_val (fun b => Ok (le_val b)) false (fun _ _ _ _ _ => Err XLRDError) (0, 0) a (SheetByIndex (-1))) with
            | Ok (Got sh) => map (fun k => cell_type (sh_grid (ls_sheet sh)) 0 k) [0; 1] = [Ok 2; Ok 3] /\
                             map (fun k => cell_value (sh_grid (ls_sheet sh)) 1 k) [0; 1] = [Ok (VText [72; 105]); Ok (VText [72; 111])]
            | _ => False
            end
  | Err _ => False
  end.
Proof.
  split.
  { eapply Stored with (d := Stored.stream); [exact stored_compound|cbn; lia| |].
    - left. exists 1. split; [|reflexivity]. exists [], []. repeat split; intros b e [].
    - apply Standard with (l := [6; 5; 7; 8]).
      + vm_compute. split; discriminate.
      + vm_compute. discriminate.
      + cbn [Stored.stream d_first]. do 4 (econstructor; [lia|reflexivity|]). constructor. lia.
      + split; [vm_compute; split; [reflexivity|discriminate]|discriminate].
      + repeat constructor; cbn; intuition lia.
      + vm_compute. repeat constructor; intuition discriminate.
      + vm_compute. reflexivity. }
  split; [vm_compute; reflexivity|]. split.
  { exists 0x809, (snd (Small.bof 5)), [], (skipn 130 Small.file). split; [vm_compute; reflexivity|]. split; [vm_compute; split; discriminate|].
    split; [apply Excel97; reflexivity|]. split; [reflexivity|].
    split; [apply Forall_forall; intros [rc d] I; vm_compute in I; repeat (destruct I as [I|I]; [injection I as <- <-; split; cbn; lia|]); destruct I|].
    split; [reflexivity|]. vm_compute. repeat constructor; discriminate. }
  vm_compute. split; reflexivity.
Qed.
