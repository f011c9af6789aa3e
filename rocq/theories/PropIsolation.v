(** C99: what a worksheet shows depends on nothing but its own records and the records of
    the globals that do not list sheets. *)
From Verif Require Import Base BaseFacts Text Strings Utf16 StringFacts PropBytes Framing GridModel GridFacts PropGrid SheetObjects SheetModel SheetFacts SheetSteps
  PropSheet PropRead SheetTrace PropView PropRowCol PropLinks SheetOwn SstModel PropSst FormatModel FormatFacts PropFormat PropNumType FormulaModel CompDoc CompDocFacts CompDocOpen PropChain PropDir CompDocFull
  BookModel BookFacts PropBof PropEnc BookSheets BookRefs BookApi SheetShare
  BookHistory PropGlobals PropFormulaText PropDemand PropSheetList BookContent BookFormats BookFollow BookFine PropWorkbook PropRoundTrip PropFile PropAttrs NameValues PropStorage.

(** ** Specification *)

(** The globals of two workbooks, which may list different sheets, also more or fewer of them in the same place.
    Of a workbook of BIFF8 ([known] is false at the start) the number must be the same before the CODEPAGE record. *)
Definition lists_sheets (rs : list (Z * list Z)) : Prop := rs <> [] /\ Forall (fun r => fst r = 0x85) rs.
Inductive same_globals : bool -> list (Z * list Z) -> list (Z * list Z) -> Prop :=
| Same_nil : forall known, same_globals known [] []
| Same_record : forall known r rs1 rs2, same_globals (known || (fst r =? 0x42)) rs1 rs2 -> same_globals known (r :: rs1) (r :: rs2)
| Same_sheet : forall known d1 d2 rs1 rs2, same_globals known rs1 rs2 -> same_globals known ((0x85, d1) :: rs1) ((0x85, d2) :: rs2)
| Same_sheets : forall ss1 ss2 rs1 rs2, lists_sheets ss1 -> lists_sheets ss2 -> same_globals true rs1 rs2 -> same_globals true (ss1 ++ rs1) (ss2 ++ rs2).

(** ** Proofs *)

Lemma same_refl : forall rs k, same_globals k rs rs.
Proof. induction rs; constructor; auto. Qed.

(** Globals with a mark where sheets are listed. *)
Inductive grouped : bool -> list (Z * list Z) -> list (Z * list Z) -> Prop :=
| G_nil : forall k, grouped k [] []
| G_record : forall k rc data l rs, rc <> 0x85 -> grouped (k || (rc =? 0x42)) l rs -> grouped k ((rc, data) :: l) ((rc, data) :: rs)
| G_sheet : forall k data d l rs, grouped k l rs -> grouped k ((0x85, data) :: l) ((0x85, d) :: rs)
| G_sheets : forall data ss l rs, lists_sheets ss -> grouped true l rs -> grouped true ((0x85, data) :: l) (ss ++ rs).

Lemma same_grouped : forall k rs1 rs2, same_globals k rs1 rs2 -> exists l, grouped k l rs1 /\ grouped k l rs2.
Proof.
  intros k rs1 rs2 H. induction H as [k|k [rc data] rs1 rs2 H (l & G1 & G2)|k d1 d2 rs1 rs2 H (l & G1 & G2)|ss1 ss2 rs1 rs2 L1 L2 H (l & G1 & G2)].
  - exists []. split; constructor.
  - exists ((rc, data) :: l). cbn [fst] in *. destruct (Z.eq_dec rc 0x85) as [->|N]; [|split; constructor; assumption].
    change (0x85 =? 0x42) with false in *. rewrite orb_false_r in *. split; constructor; assumption.
  - exists ((0x85, []) :: l). split; constructor; assumption.
  - exists ((0x85, []) :: l). split; constructor; assumption.
Qed.

Lemma grouped_cons : forall k rc data l l2, grouped k ((rc, data) :: l) l2 ->
  exists data2 l3, l2 = (rc, data2) :: l3 /\ (rc <> 0x85 -> data2 = data /\ grouped (k || (rc =? 0x42)) l l3) /\
    (rc = 0x85 -> exists ss l4, l3 = ss ++ l4 /\ (k = false -> ss = []) /\ Forall (fun r => fst r = 0x85) ss /\ grouped k l l4).
Proof.
  intros k rc data l l2 H. inversion H as [|? ? ? ? ? N G|? ? d ? rs G|? ss ? rs [NE F] G]; subst.
  - eexists data, _. split; [reflexivity|]. split; [auto|congruence].
  - exists d, rs. split; [reflexivity|]. split; [congruence|]. intros _. exists [], rs. auto.
  - destruct ss as [|[c d] ss]; [congruence|]. inversion F as [|? ? E F2]; subst. cbn [fst] in E. subst c. exists d, (ss ++ rs). split; [reflexivity|]. split; [congruence|].
    intros _. exists ss, rs. split; [reflexivity|]. split; [discriminate|]. auto.
Qed.

Lemma grouped_length : forall k l rs, grouped k l rs -> (List.length l <= List.length rs)%nat.
Proof.
  intros k l rs H. induction H as [|k rc data l rs N G IH|k data d l rs G IH|data ss l rs [NE F] G IH]; cbn [List.length]; [lia|lia|lia|].
  rewrite app_length. destruct ss; [congruence|]. cbn [List.length]. lia.
Qed.

Section Put.
Context {N : Type}.
Variable codec : list Z -> list Z -> result (list Z).
Variable ops : numops N.
Variable lower : list Z -> list Z.
Variable num8 : list Z -> N.
Variable rk : list Z -> result N.
Variable ragged : bool.
Notation loaded := (loaded (N := N)).
Notation api := (api (N := N)).
Notation book := (book N loaded).
Variable old : book -> list Z -> Z -> list Z -> Z -> result (shared * loaded).
Notation load := (load codec num8 rk ragged old).
Notation gstep := (gstep codec load).
Notation globals := (globals codec ops lower load).
Notation globals_end := (globals_end codec ops lower).

(** A book with other sheets at another place. *)
Definition put (base : Z) (sh : shst) (b : book) : book :=
  mk_book (bk_bv b) base (bk_shared b) (bk_sst b) (bk_rich b) sh (bk_refs b) (bk_names b) (bk_maps b) (bk_list b) (bk_hdr b) (bk_offset b).

Lemma derive_put : forall base sh (b : book), derive codec (put base sh b) = rmap (put base sh) (derive codec b).
Proof. intros base sh b. unfold derive. change (bk_bv (put base sh b)) with (bk_bv b). change (bk_enc (put base sh b)) with (bk_enc b). destruct (derive_encoding codec (bk_bv b) (bk_enc b)); reflexivity. Qed.
Lemma ensure_put : forall base sh (b : book), ensure codec (put base sh b) = rmap (put base sh) (ensure codec b).
Proof. intros base sh b. unfold ensure. change (bk_bv (put base sh b)) with (bk_bv b). change (bk_enc (put base sh b)) with (bk_enc b). destruct (ensure_encoding codec (bk_bv b) (bk_enc b)); reflexivity. Qed.
Lemma format_put : forall base sh (b : book) r, format_record codec (put base sh b) r = rmap (put base sh) (format_record codec b r).
Proof.
  intros base sh b r. unfold format_record. change (bk_fmt (put base sh b)) with (bk_fmt b). rewrite ensure_put.
  assert (E : forall x : result book, (do b1 <- rmap (put base sh) x; do f <- fstep (unicode codec (en_encoding (bk_enc b1))) (bk_fmt b1) r; Ok (with_fmt b1 f))
    = rmap (put base sh) (do b1 <- x; do f <- fstep (unicode codec (en_encoding (bk_enc b1))) (bk_fmt b1) r; Ok (with_fmt b1 f))).
  { intros [b1|e]; [|reflexivity]. cbn [rmap bind]. change (bk_enc (put base sh b1)) with (bk_enc b1). change (bk_fmt (put base sh b1)) with (bk_fmt b1).
    destruct (fstep _ _ _); reflexivity. }
  rewrite <- E. destruct r; try destruct (b_fmt (bk_fmt b)); reflexivity.
Qed.

(** Records like [l] at a position, up to EOF. *)
Definition near (k : bool) (l : list (Z * list Z)) (m : list Z) (pos : Z) : Prop :=
  exists l2 d, grouped k l l2 /\ Forall framable l2 /\ zlen d < 65536 /\ Forall (fun r => fst r <> 0x0a /\ fst r <> 0x8f) l2 /\ here l2 d m pos.
(** The same, after more records that list sheets. *)
Definition nearly (k : bool) (l : list (Z * list Z)) (n : nat) (m : list Z) (pos : Z) : Prop :=
  exists ss l2 d, List.length ss = n /\ Forall (fun r => fst r = 0x85) ss /\ grouped k l l2 /\ Forall framable (ss ++ l2) /\ zlen d < 65536 /\
    Forall (fun r => fst r <> 0x0a /\ fst r <> 0x8f) (ss ++ l2) /\ here (ss ++ l2) d m pos.

Lemma near_cons : forall k rc data l m pos, near k ((rc, data) :: l) m pos -> exists data2 q, (data2 = data \/ rc = 0x85) /\ rc <> 0x0a /\ rc <> 0x8f /\
  (rc <> 0x85 -> near (k || (rc =? 0x42)) l m q) /\ (rc = 0x85 -> exists n, nearly k l n m q /\ (k = false -> n = 0%nat)) /\
  get_record_parts m pos = Ok ((rc, zlen data2, data2), q) /\
  (forall reqd, get_record_parts_conditional m pos reqd = if rc =? reqd then Ok (Some (rc, zlen data2, data2), q) else Ok (None, pos)).
Proof.
  intros k rc data l m pos (l2 & d & SG & F & LD & NE & H). destruct (grouped_cons _ _ _ _ _ SG) as (data2 & l3 & -> & E1 & E2).
  inversion F as [|? ? F1 F2]; subst. inversion NE as [|? ? [N1 N2] N3]; subst. destruct (here_cons _ _ _ _ _ _ H F1) as (G1 & H1 & G2).
  exists data2, (pos + zlen (frame (rc, data2))). split; [destruct (Z.eq_dec rc 0x85) as [->|NX]; [auto|left; apply E1, NX]|]. split; [exact N1|]. split; [exact N2|].
  split; [intros NX; destruct (E1 NX) as [_ SG2]; exists l3, d; split; [exact SG2|]; auto|].
  split; [intros NX; destruct (E2 NX) as (ss & l4 & -> & K & FS & SG2); exists (List.length ss); split; [exists ss, l4, d; auto 8|intros X; rewrite (K X); reflexivity]|]. split; [exact G1|exact G2].
Qed.
Lemma nearly_0 : forall k l m pos, nearly k l 0 m pos -> near k l m pos.
Proof. intros k l m pos (ss & l2 & d & E & _ & H). destruct ss; [|discriminate E]. exists l2, d. exact H. Qed.
Lemma nearly_S : forall k l n m pos, nearly k l (S n) m pos -> exists data2 q, nearly k l n m q /\ get_record_parts m pos = Ok ((0x85, zlen data2, data2), q).
Proof.
  intros k l n m pos (ss & l2 & d & E & FS & SG & F & LD & NE & H). destruct ss as [|[c data2] ss]; [discriminate E|]. injection E as E. inversion FS as [|? ? EC FS2]; subst. cbn [fst] in EC. subst c.
  cbn [app] in *. inversion F as [|? ? F1 F2]; subst. inversion NE as [|? ? N1 N2]; subst. destruct (here_cons _ _ _ _ _ _ H F1) as (G1 & H1 & _).
  exists data2, (pos + zlen (frame (0x85, data2))). split; [|exact G1]. exists ss, l2, d. auto 8.
Qed.
Lemma near_nil : forall k m pos, near k [] m pos -> exists d q, get_record_parts m pos = Ok ((0x0a, zlen d, d), q) /\
  (forall reqd, get_record_parts_conditional m pos reqd = if 0x0a =? reqd then Ok (Some (0x0a, zlen d, d), q) else Ok (None, pos)).
Proof.
  intros k m pos (l2 & d & SG & F & LD & NE & H). inversion SG; subst. destruct (here_nil codec lower num8 rk old _ _ _ H LD) as (G1 & G2). eauto.
Qed.
Lemma near_len : forall k l m pos, near k l m pos -> (List.length l < S (List.length m))%nat.
Proof.
  intros k l m pos (l2 & d & SG & F & LD & NE & H). apply (here_len codec lower num8 rk old) in H. pose proof (grouped_length _ _ _ SG). lia.
Qed.

Lemma collect_put : forall k l acc, exists acc' cs l', l = cs ++ l' /\ forall m pos fuel, (List.length l < fuel)%nat -> near k l m pos ->
    exists p, collect_continue fuel m pos acc = Ok (acc', p) /\ near k l' m p.
Proof.
  intros k. induction l as [|[rc data] l IH]; intros acc.
  - exists acc, [], []. split; [reflexivity|]. intros m pos [|f] L H; [lia|]. exists pos. split; [|exact H]. cbn [collect_continue].
    destruct (near_nil _ _ _ H) as (d & q & _ & ->). reflexivity.
  - destruct (rc =? 60) eqn:E.
    + destruct (IH (acc ++ [data])) as (acc' & cs & l' & -> & HH). exists acc', ((rc, data) :: cs), l'. split; [reflexivity|].
      intros m pos [|f] L H; cbn [List.length] in L; [lia|]. destruct (near_cons _ _ _ _ _ _ H) as (data2 & q & ED & _ & _ & H1' & _ & _ & HC).
      assert (RC : rc = 60) by lia. specialize (H1' ltac:(lia)). rewrite RC in H1'. change (60 =? 0x42) with false in H1'. rewrite orb_false_r in H1'. rename H1' into H1.
      assert (data2 = data) as -> by (destruct ED as [ED|ED]; [exact ED|lia]).
      destruct (HH m _ f ltac:(lia) H1) as (p & P & HP). exists p. split; [|exact HP]. cbn [collect_continue]. rewrite HC, E. exact P.
    + exists acc, [], ((rc, data) :: l). split; [reflexivity|]. intros m pos [|f] L H; [cbn in L; lia|].
      destruct (near_cons _ _ _ _ _ _ H) as (data2 & q & _ & _ & _ & _ & _ & _ & HC). exists pos. split; [|exact H]. cbn [collect_continue]. rewrite HC, E. reflexivity.
Qed.

Lemma externsheet_put : forall k l reqd data,
  (exists e, forall m pos fuel, (List.length l < fuel)%nat -> near k l m pos -> externsheet_body fuel m pos reqd data = Err e) \/
  (exists data' cs l', l = cs ++ l' /\ forall m pos fuel, (List.length l < fuel)%nat -> near k l m pos ->
    exists p, externsheet_body fuel m pos reqd data = Ok (data', p) /\ near k l' m p).
Proof.
  intros k. induction l as [|[rc data] l IH]; intros reqd acc;
  (destruct (negb (zlen acc <? reqd)) eqn:Q; [right; eexists acc, [], _; split; [reflexivity|]; intros m pos [|f] L H; [lia|]; exists pos; split; [cbn [externsheet_body]; rewrite Q; reflexivity|exact H]|]).
  - left. exists XLRDError. intros m pos [|f] L H; [lia|]. cbn [externsheet_body]. destruct (near_nil _ _ _ H) as (d & q & HG & _). rewrite Q, HG. reflexivity.
  - destruct (negb (rc =? XL_CONTINUE)) eqn:E.
    + left. exists XLRDError. intros m pos [|f] L H; [cbn in L; lia|]. cbn [externsheet_body]. destruct (near_cons _ _ _ _ _ _ H) as (data2 & q & _ & _ & _ & _ & _ & HG & _). rewrite Q, HG. cbn [bind]. rewrite E. reflexivity.
    + assert (RC : rc = 0x3c) by (unfold XL_CONTINUE in E; lia).
      destruct (IH reqd (acc ++ data)) as [(e & HH)|(data' & cs & l' & -> & HH)].
      * left. exists e. intros m pos [|f] L H; cbn [List.length] in L; [lia|]. destruct (near_cons _ _ _ _ _ _ H) as (data2 & q & ED & _ & _ & H1' & _ & HG & _).
        specialize (H1' ltac:(lia)). rewrite RC in H1'. change (0x3c =? 0x42) with false in H1'. rewrite orb_false_r in H1'. rename H1' into H1.
        assert (data2 = data) as -> by (destruct ED as [ED|ED]; [exact ED|lia]).
        cbn [externsheet_body]. rewrite Q, HG. cbn [bind]. rewrite E. apply HH; [lia|exact H1].
      * right. exists data', ((rc, data) :: cs), l'. split; [reflexivity|]. intros m pos [|f] L H; cbn [List.length] in L; [lia|].
        destruct (near_cons _ _ _ _ _ _ H) as (data2 & q & ED & _ & _ & H1' & _ & HG & _).
        specialize (H1' ltac:(lia)). rewrite RC in H1'. change (0x3c =? 0x42) with false in H1'. rewrite orb_false_r in H1'. rename H1' into H1.
        assert (data2 = data) as -> by (destruct ED as [ED|ED]; [exact ED|lia]).
        destruct (HH m _ f ltac:(lia) H1) as (p & P & HP). exists p. split; [|exact HP].
        cbn [externsheet_body]. rewrite Q, HG. cbn [bind]. rewrite E. exact P.
Qed.

(** One record that lists no sheet. *)
Lemma gstep_put : forall k l (b : book) rc data, rc <> 0x8f -> rc <> 0x85 ->
  (exists e, forall base sh m pos, near k l m pos -> gstep (put base sh b) m pos rc data = Err e) \/
  (exists b' cs l', l = cs ++ l' /\ forall base sh m pos, near k l m pos -> exists p, gstep (put base sh b) m pos rc data = Ok (put base sh b', p) /\ near k l' m p).
Proof.
  intros k l b rc data NH NS.
  assert (Stay : forall f : book -> result book, (forall base sh, f (put base sh b) = rmap (put base sh) (f b)) ->
    (exists e, forall base sh m pos, near k l m pos -> (do b <- f (put base sh b); Ok (b, pos)) = Err e) \/
    (exists b' cs l', l = cs ++ l' /\ forall base sh m pos, near k l m pos -> exists p, (do b <- f (put base sh b); Ok (b, pos)) = Ok (put base sh b', p) /\ near k l' m p)).
  { intros f HF. destruct (f b) as [b'|e] eqn:E.
    - right. exists b', [], l. split; [reflexivity|]. intros base sh m pos H. exists pos. rewrite HF. split; [reflexivity|exact H].
    - left. exists e. intros base sh m pos H. rewrite HF. reflexivity. }
  unfold BookModel.gstep. cbv zeta.
  destruct (rc =? 0xfc).
  { unfold handle_sst. destruct (unpack_i32 data 4) as [u|e]; [|left; exists e; reflexivity]. cbn [bind].
    destruct (collect_put k l []) as (acc & cs & l' & EL & HC).
    destruct (unpack_SST_table data acc u) as [[st ru]|e] eqn:ES.
    - right. exists (with_sst b st (if b_fmt (bk_fmt b) then ru else bk_rich b)), cs, l'. split; [exact EL|]. intros base sh m pos H.
      destruct (HC m pos _ (near_len _ _ _ _ H) H) as (p & P & HP). exists p. split; [|exact HP]. rewrite P. cbn [bind]. rewrite ES. reflexivity.
    - left. exists e. intros base sh m pos H. destruct (HC m pos _ (near_len _ _ _ _ H) H) as (p & P & HP). rewrite P. cbn [bind]. rewrite ES. reflexivity. }
  destruct ((rc =? 0x31) || (rc =? 0x231)); [apply (Stay (fun b => format_record codec b (RFont data))); intros; apply format_put|].
  destruct (rc =? 0x41e); [apply (Stay (fun b => format_record codec b (RFormat data false))); intros; apply format_put|].
  destruct (rc =? 0xe0); [apply (Stay (fun b => format_record codec b (RXf data))); intros; apply format_put|].
  replace (rc =? 0x85) with false by lia.
  destruct (rc =? 0x22).
  { apply (Stay (fun b => handle_datemode b data)). intros base sh. unfold handle_datemode. destruct (unpack_u16 data 0); [|reflexivity]. cbn [bind]. destruct (guard _ _); reflexivity. }
  destruct (rc =? 0x42).
  { apply (Stay (fun b => do s <- handle_codepage codec (bk_bv b) (bk_enc b) data; Ok (with_enc b s))). intros base sh.
    change (bk_bv (put base sh b)) with (bk_bv b). change (bk_enc (put base sh b)) with (bk_enc b). destruct (handle_codepage _ _ _ _); reflexivity. }
  destruct (rc =? 0x8c).
  { apply (Stay (fun b => handle_country b data)). intros base sh. unfold handle_country. destruct (need data 4); [|reflexivity]. cbn [bind].
    destruct (unpack_u16 data 0); [|reflexivity]. cbn [bind]. destruct (unpack_u16 data 2); [|reflexivity]. cbn [bind].
    change (bk_shared (put base sh b)) with (bk_shared b). destruct (guard _ _); reflexivity. }
  destruct (rc =? 0x23).
  { apply (Stay (fun b => do r <- handle_externname (bk_bv b) (bk_refs b) data; Ok (with_refs b r))). intros base sh.
    change (bk_bv (put base sh b)) with (bk_bv b). change (bk_refs (put base sh b)) with (bk_refs b). destruct (handle_externname _ _ _); reflexivity. }
  destruct (rc =? 0x17).
  { destruct (derive codec b) as [b1|e] eqn:D; [|left; exists e; intros base sh m pos _; rewrite derive_put, D; reflexivity].
    assert (DP : forall base sh, derive codec (put base sh b) = Ok (put base sh b1)) by (intros; rewrite derive_put, D; reflexivity).
    unfold handle_externsheet. destruct (bk_bv b1 >=? 80) eqn:V8.
    - destruct (unpack_u16 data 0) as [n|e] eqn:EN.
      2:{ left. exists e. intros base sh m pos _. rewrite DP. cbn [bind]. change (bk_bv (put base sh b1)) with (bk_bv b1). rewrite V8. reflexivity. }
      destruct (externsheet_put k l (n * 6 + 2) data) as [(e & HC)|(dd & cs & l' & EL & HC)].
      { left. exists e. intros base sh m pos H. rewrite DP. cbn [bind]. change (bk_bv (put base sh b1)) with (bk_bv b1). rewrite V8. cbn [bind]. rewrite (HC m pos _ (near_len _ _ _ _ H) H). reflexivity. }
      destruct (externsheet_triples (Z.to_nat n) dd 2) as [tr|e] eqn:ET.
      + right. eexists (with_refs b1 _), cs, l'. split; [exact EL|]. intros base sh m pos H. destruct (HC m pos _ (near_len _ _ _ _ H) H) as (p & P & HP).
        exists p. split; [|exact HP]. rewrite DP. cbn [bind]. change (bk_bv (put base sh b1)) with (bk_bv b1). change (bk_refs (put base sh b1)) with (bk_refs b1). rewrite V8. cbn [bind]. rewrite P. cbn [bind]. rewrite ET. cbn [bind]. reflexivity.
      + left. exists e. intros base sh m pos H. destruct (HC m pos _ (near_len _ _ _ _ H) H) as (p & P & HP).
        rewrite DP. cbn [bind]. change (bk_bv (put base sh b1)) with (bk_bv b1). rewrite V8. cbn [bind]. rewrite P. cbn [bind]. rewrite ET. reflexivity.
    - destruct (need data 2) as [?|e] eqn:E1; [|left; exists e; intros base sh m pos _; rewrite DP; cbn [bind]; change (bk_bv (put base sh b1)) with (bk_bv b1); rewrite V8; reflexivity].
      destruct (unpack_le 1 data 0) as [nc|e] eqn:E2; [|left; exists e; intros base sh m pos _; rewrite DP; cbn [bind]; change (bk_bv (put base sh b1)) with (bk_bv b1); rewrite V8; reflexivity].
      destruct (unpack_le 1 data 1) as [ty|e] eqn:E3; [|left; exists e; intros base sh m pos _; rewrite DP; cbn [bind]; change (bk_bv (put base sh b1)) with (bk_bv b1); rewrite V8; reflexivity].
      cbn [bind].
      destruct (if ty =? 3 then do n <- unicode codec (en_encoding (bk_enc b1)) (py_slice data 2 (nc + 2)); Ok (dset (rf_extn_names (bk_refs b1)) (rf_count (bk_refs b1) + 1) n) else Ok (rf_extn_names (bk_refs b1))) as [names|e] eqn:E4.
      + right. eexists (with_refs b1 _), [], l. split; [reflexivity|]. intros base sh m pos H. exists pos. split; [|exact H]. rewrite DP. cbn [bind].
        change (bk_bv (put base sh b1)) with (bk_bv b1). change (bk_refs (put base sh b1)) with (bk_refs b1). change (bk_enc (put base sh b1)) with (bk_enc b1).
        rewrite V8, E4. cbn [bind]. reflexivity.
      + left. exists e. intros base sh m pos H. rewrite DP. cbn [bind].
        change (bk_bv (put base sh b1)) with (bk_bv b1). change (bk_refs (put base sh b1)) with (bk_refs b1). change (bk_enc (put base sh b1)) with (bk_enc b1).
        rewrite V8, E4. reflexivity. }
  destruct (rc =? 0x2f); [left; exists XLRDError; reflexivity|].
  destruct (rc =? 0x5c).
  { apply (Stay (fun b => do s <- handle_writeaccess codec (bk_bv b) (bk_enc b) data; Ok (with_enc b s))). intros base sh.
    change (bk_bv (put base sh b)) with (bk_bv b). change (bk_enc (put base sh b)) with (bk_enc b). destruct (handle_writeaccess _ _ _ _); reflexivity. }
  destruct (rc =? 0x8e).
  { apply (Stay (fun b => do _ <- guard (zlen data =? 4) StructError; do o <- unpack_i32 data 0; Ok (with_offset b o))). intros base sh.
    destruct (guard _ _); [|reflexivity]. cbn [bind]. destruct (unpack_i32 data 0); reflexivity. }
  replace (rc =? 0x8f) with false by lia.
  destruct (rc =? 0x1ae).
  { apply (Stay (fun b => do r <- handle_supbook (bk_refs b) data; Ok (with_refs b r))). intros base sh.
    change (bk_refs (put base sh b)) with (bk_refs b). destruct (handle_supbook _ _); reflexivity. }
  destruct (rc =? 0x18).
  { destruct (bk_bv b <? 50) eqn:V5.
    { right. exists b, [], l. split; [reflexivity|]. intros base sh m pos H. exists pos. change (bk_bv (put base sh b)) with (bk_bv b). rewrite V5. split; [reflexivity|exact H]. }
    destruct (Stay (fun b => do b <- derive codec b; do n <- handle_name codec (bk_bv b) (en_encoding (bk_enc b)) data; Ok (with_names b (bk_names b ++ [n])))) as [(e & HS)|(b' & cs & l' & EL & HS)].
    - intros base sh. rewrite derive_put. destruct (derive codec b) as [b1|e]; [|reflexivity]. cbn [rmap bind].
      change (bk_bv (put base sh b1)) with (bk_bv b1). change (bk_enc (put base sh b1)) with (bk_enc b1). destruct (handle_name _ _ _ _); reflexivity.
    - left. exists e. intros base sh m pos H. change (bk_bv (put base sh b)) with (bk_bv b). rewrite V5. exact (HS base sh m pos H).
    - right. exists b', cs, l'. split; [exact EL|]. intros base sh m pos H. change (bk_bv (put base sh b)) with (bk_bv b). rewrite V5. exact (HS base sh m pos H). }
  destruct (rc =? 0x92); [apply (Stay (fun b => format_record codec b (RPalette data))); intros; apply format_put|].
  destruct (rc =? 0x293); [apply (Stay (fun b => format_record codec b (RStyle data))); intros; apply format_put|].
  right. exists b, [], l. split; [reflexivity|]. intros base sh m pos H. exists pos. split; [reflexivity|exact H].
Qed.

(** Whether another BOUNDSHEET record would change the encoding. *)
Definition settled (b : book) : bool := (bk_bv b <? 80) || match en_codepage (bk_enc b) with Some _ => true | None => false end.

Lemma choose_settled : forall bv s, (bv <? 80) || match en_codepage s with Some _ => true | None => false end = true ->
  choose_encoding bv (choose_encoding bv s) = choose_encoding bv s /\ (bv <? 80) || match en_codepage (choose_encoding bv s) with Some _ => true | None => false end = true.
Proof.
  intros bv s H. assert (H2 : (bv <? 80) || match en_codepage (choose_encoding bv s) with Some _ => true | None => false end = true).
  { unfold choose_encoding. destruct (en_override s) as [[|]|]; [|exact H|];
    (destruct (en_codepage s) as [cp|] eqn:E; [|destruct (bv <? 80) eqn:V; [reflexivity|discriminate H]]);
    (destruct (encoding_from_codepage cp); [cbn; rewrite E; apply orb_true_r|]); (destruct (_ && _); [cbn; rewrite E; apply orb_true_r|]);
    (destruct (bv >=? 80); cbn; rewrite ?E; apply orb_true_r). }
  split; [|exact H2].
  unfold choose_encoding. destruct s as [ov cp en raw us]. cbn [en_override en_codepage] in *. destruct ov as [[|c r]|]; [|reflexivity|];
    (destruct cp as [cp|]; cbn [en_codepage] in *; [|destruct (bv <? 80) eqn:V; [cbn [with_encoding with_codepage en_override en_codepage]; rewrite ?V; reflexivity|discriminate H]]);
    (destruct (encoding_from_codepage cp) eqn:EC; [cbn [with_encoding with_codepage en_override en_codepage]; rewrite EC; reflexivity|]); (destruct (_ && _) eqn:R; [cbn [with_encoding with_codepage en_override en_codepage]; rewrite EC, R; reflexivity|]);
    (destruct (bv >=? 80) eqn:V; [reflexivity|cbn [with_encoding with_codepage en_override en_codepage]; rewrite EC, R, ?V; reflexivity]).
Qed.
Lemma derive_settled : forall (b b1 : book), settled b = true -> derive codec b = Ok b1 -> settled b1 = true /\ derive codec b1 = Ok b1.
Proof.
  intros b b1 ST H. unfold derive in *. apply bind_ok in H as (s & D & H). injection H as <-. unfold settled in *.
  destruct (choose_settled _ _ ST) as [C1 C2]. change (bk_bv (with_enc b s)) with (bk_bv b). change (bk_enc (with_enc b s)) with s.
  assert (P : en_codepage s = en_codepage (choose_encoding (bk_bv b) (bk_enc b)) /\ derive_encoding codec (bk_bv b) s = Ok s).
  { unfold derive_encoding in *. cbv zeta in *. set (t := choose_encoding (bk_bv b) (bk_enc b)) in *. apply bind_ok in D as (x & D1 & D).
    destruct (en_raw t) eqn:R; [|injection D as <-; rewrite C1, D1, bind_Ok, R; auto]. apply bind_ok in D as (g & _ & D). injection D as <-. split; [reflexivity|].
    assert (C3 : choose_encoding (bk_bv b) (with_user t false (rstrip str_space g)) = with_user (choose_encoding (bk_bv b) t) false (rstrip str_space g)).
    { unfold choose_encoding. destruct t as [ov cp en raw us]. cbn. destruct ov as [[|c r]|]; try reflexivity; destruct cp as [cp|]; try (destruct (_ <? 80); reflexivity);
        destruct (encoding_from_codepage cp); try reflexivity; destruct (_ && _); try reflexivity; destruct (_ >=? 80); reflexivity. }
    rewrite C3, C1. cbn. cbn in D1. rewrite D1. reflexivity. }
  destruct P as [P1 P2]. rewrite P1, P2. split; [exact C2|]. destruct b as [v0 base [e0 f0 c0 d0] ? ? ? ? ? ? ? ? ?]. reflexivity.
Qed.
Lemma ensure_settled : forall (b b1 : book), settled b = true -> ensure codec b = Ok b1 -> settled b1 = true.
Proof.
  intros b b1 ST H. unfold ensure in H. apply bind_ok in H as (s & D & H). injection H as <-. unfold ensure_encoding in D. destruct (truthy _); [injection D as <-; exact ST|].
  assert (D2 : derive codec b = Ok (with_enc b s)) by (unfold derive; rewrite D; reflexivity). exact (proj1 (derive_settled _ _ ST D2)).
Qed.
Lemma format_settled : forall (b b1 : book) r, settled b = true -> format_record codec b r = Ok b1 -> settled b1 = true.
Proof.
  intros b b1 r ST H. unfold format_record in H. apply bind_ok in H as (b2 & E & H). apply bind_ok in H as (f & _ & H). injection H as <-. change (settled b2 = true).
  destruct r; try (injection E as <-; exact ST); try (exact (ensure_settled _ _ ST E)). destruct (b_fmt _); [exact (ensure_settled _ _ ST E)|injection E as <-; exact ST].
Qed.

Lemma gstep_settled : forall (b : book) m pos rc data b' p, gstep b m pos rc data = Ok (b', p) -> rc <> 0x8f -> settled b || (rc =? 0x42) = true -> settled b' = true.
Proof.
  intros b m pos rc data b' p H NH ST. unfold BookModel.gstep in H. cbv zeta in H.
  assert (Stay : forall r : result book, (do b <- r; Ok (b, pos)) = Ok (b', p) -> r = Ok b') by (intros r E; apply bind_ok in E as (? & ? & E); injection E as <- _; assumption).
  destruct (rc =? 0x42) eqn:E42.
  { assert (rc = 0x42) as -> by lia. apply Stay in H. apply bind_ok in H as (s & HC & H). injection H as <-. unfold handle_codepage in HC. apply bind_ok in HC as (cp & _ & HC).
    set (b2 := with_enc b (with_codepage (bk_enc b) cp)). assert (D : derive codec b2 = Ok (with_enc b2 s)) by (unfold derive; change (bk_enc b2) with (with_codepage (bk_enc b) cp); change (bk_bv b2) with (bk_bv b); rewrite HC; reflexivity).
    assert (S2 : settled b2 = true) by (unfold settled; cbn; apply orb_true_r). exact (proj1 (derive_settled _ _ S2 D)). }
  rewrite orb_false_r in ST.
  destruct (rc =? 0xfc); [apply bind_ok in H as ([[st ru] q] & _ & H); injection H as <- _; exact ST|].
  destruct ((rc =? 0x31) || (rc =? 0x231)); [exact (format_settled _ _ _ ST (Stay _ H))|].
  destruct (rc =? 0x41e); [exact (format_settled _ _ _ ST (Stay _ H))|].
  destruct (rc =? 0xe0); [exact (format_settled _ _ _ ST (Stay _ H))|].
  destruct (rc =? 0x85); [apply Stay in H; apply bind_ok in H as (b1 & D & H); apply bind_ok in H as (s & _ & H); injection H as <-; exact (proj1 (derive_settled _ _ ST D))|].
  destruct (rc =? 0x22); [apply Stay in H; unfold handle_datemode in H; apply bind_ok in H as (? & _ & H); apply bind_ok in H as (? & _ & H); injection H as <-; exact ST|].
  destruct (rc =? 0x8c); [apply Stay in H; unfold handle_country in H; apply bind_ok in H as (? & _ & H); apply bind_ok in H as (? & _ & H); apply bind_ok in H as (? & _ & H); apply bind_ok in H as (? & _ & H); injection H as <-; exact ST|].
  destruct (rc =? 0x23); [apply Stay in H; apply bind_ok in H as (? & _ & H); injection H as <-; exact ST|].
  destruct (rc =? 0x17); [apply bind_ok in H as (b1 & D & H); apply bind_ok in H as ([r q] & _ & H); injection H as <- _; exact (proj1 (derive_settled _ _ ST D))|].
  destruct (rc =? 0x2f); [discriminate|].
  destruct (rc =? 0x5c).
  { apply Stay in H. apply bind_ok in H as (s & W & H). injection H as <-. unfold settled in *. cbn [with_enc with_shared bk_bv bk_enc bk_shared g_enc].
    replace (en_codepage s) with (en_codepage (bk_enc b)); [exact ST|]. unfold handle_writeaccess in W.
    destruct (_ <? 80); [destruct (negb _); [injection W as <-; reflexivity|]|]; apply bind_ok in W as (? & _ & W); injection W as <-; reflexivity. }
  destruct (rc =? 0x8e); [apply Stay in H; apply bind_ok in H as (? & _ & H); apply bind_ok in H as (? & _ & H); injection H as <-; exact ST|].
  replace (rc =? 0x8f) with false in H by lia.
  destruct (rc =? 0x1ae); [apply Stay in H; apply bind_ok in H as (? & _ & H); injection H as <-; exact ST|].
  destruct (rc =? 0x18).
  { destruct (bk_bv b <? 50); [injection H as <- _; exact ST|]. apply Stay in H. apply bind_ok in H as (b1 & D & H). apply bind_ok in H as (? & _ & H). injection H as <-. exact (proj1 (derive_settled _ _ ST D)). }
  destruct (rc =? 0x92); [exact (format_settled _ _ _ ST (Stay _ H))|].
  destruct (rc =? 0x293); [exact (format_settled _ _ _ ST (Stay _ H))|].
  injection H as <- _. exact ST.
Qed.

(** More records that list sheets. *)
Lemma sheets_put : forall l n (b : book) base sh m pos fuel r p, derive codec b = Ok b -> nearly true l n m pos -> globals fuel (put base sh b) m pos = Ok (r, p) ->
  exists fuel' sh' q, near true l m q /\ globals fuel' (put base sh' b) m q = Ok (r, p).
Proof.
  intros l. induction n as [|n IH]; intros b base sh m pos fuel r p D NR G; [exists fuel, sh, pos; split; [apply nearly_0, NR|exact G]|].
  destruct (nearly_S _ _ _ _ _ NR) as (data2 & q & NR2 & HG). destruct fuel as [|f]; [discriminate|]. cbn [BookModel.globals] in G. rewrite HG in G. cbn [bind] in G.
  change (0x85 =? 0x0a) with false in G. cbv iota in G. apply bind_ok in G as ([b2 q2] & G1 & G). unfold BookModel.gstep in G1. cbv zeta in G1.
  do 5 (match type of G1 with (if ?x then _ else _) = _ => change x with false in G1 || change x with true in G1; cbv iota in G1 end).
  rewrite derive_put, D in G1. cbn [rmap bind] in G1. apply bind_ok in G1 as (b3 & G2 & G1). apply bind_ok in G2 as (s' & _ & G2). injection G2 as <-. injection G1 as <- <-.
  exact (IH b base s' m q f r p D NR2 G).
Qed.

(** Up to EOF, the sheets listed make no difference to the rest of the book. *)
Lemma globals_put : forall n l (b : book) k, (List.length l <= n)%nat -> implb k (settled b) = true -> exists B, forall base sh m pos fuel r p, near k l m pos ->
  globals fuel (put base sh b) m pos = Ok (r, p) -> exists sh', globals_end (put base sh' B) = Ok r.
Proof.
  induction n as [|n IH]; intros l b k L ST; destruct l as [|[rc data] l]; cbn [List.length] in L; try lia.
  1, 2: exists b; intros base sh m pos [|f] r p H G; [discriminate|]; cbn [BookModel.globals] in G; destruct (near_nil _ _ _ H) as (d & q & HG & _); rewrite HG in G; cbn [bind] in G;
    change (0x0a =? 0x0a) with true in G; cbv iota in G; apply bind_ok in G as (r1 & G & E); injection E as <- _; eauto.
  destruct (Z.eq_dec rc 0x8f) as [->|NH].
  { exists b. intros base sh m pos [|f] r p H G; [discriminate|]. destruct (near_cons _ _ _ _ _ _ H) as (data2 & q & _ & _ & X & _). congruence. }
  destruct (Z.eq_dec rc 0x85) as [->|NS].
  - destruct (derive codec b) as [b1|e] eqn:D.
    + assert (ST1 : implb k (settled b1) = true) by (destruct k; [exact (proj1 (derive_settled _ _ ST D))|reflexivity]).
      destruct (IH l b1 k ltac:(lia) ST1) as (B & HB). exists B. intros base sh m pos [|f] r p H G; [discriminate|]. cbn [BookModel.globals] in G.
      destruct (near_cons _ _ _ _ _ _ H) as (data2 & q & _ & _ & _ & _ & H1 & HG & _). destruct (H1 eq_refl) as (j & H2 & J). rewrite HG in G. cbn [bind] in G. change (0x85 =? 0x0a) with false in G. cbv iota in G.
      apply bind_ok in G as ([b2 q2] & G1 & G). unfold BookModel.gstep in G1. cbv zeta in G1.
      do 5 (match type of G1 with (if ?x then _ else _) = _ => change x with false in G1 || change x with true in G1; cbv iota in G1 end).
      rewrite derive_put, D in G1. cbn [rmap bind] in G1. apply bind_ok in G1 as (b3 & G2 & G1). apply bind_ok in G2 as (s' & _ & G2).
      injection G2 as <-. injection G1 as <- <-. destruct k.
      * destruct (sheets_put l j b1 base s' m q f r p (proj2 (derive_settled _ _ ST D)) H2 G) as (f' & s2 & q' & NR & G3). exact (HB base s2 m q' f' r p NR G3).
      * rewrite (J eq_refl) in H2. exact (HB base s' m q f r p (nearly_0 _ _ _ _ H2) G).
    + exists b. intros base sh m pos [|f] r p H G; [discriminate|]. exfalso. cbn [BookModel.globals] in G.
      destruct (near_cons _ _ _ _ _ _ H) as (data2 & q & _ & _ & _ & _ & _ & HG & _). rewrite HG in G. cbn [bind] in G. change (0x85 =? 0x0a) with false in G. cbv iota in G.
      apply bind_ok in G as ([b2 q2] & G1 & G). unfold BookModel.gstep in G1. cbv zeta in G1.
      do 5 (match type of G1 with (if ?x then _ else _) = _ => change x with false in G1 || change x with true in G1; cbv iota in G1 end).
      rewrite derive_put, D in G1. discriminate G1.
  - destruct (gstep_put (k || (rc =? 0x42)) l b rc data NH NS) as [(e & S)|(b1 & cs & l' & EL & S)].
    + exists b. intros base sh m pos [|f] r p H G; [discriminate|]. exfalso. cbn [BookModel.globals] in G.
      destruct (near_cons _ _ _ _ _ _ H) as (data2 & q & ED & N0 & _ & H1 & _ & HG & _). specialize (H1 NS). assert (data2 = data) as -> by (destruct ED; [assumption|congruence]).
      rewrite HG in G. cbn [bind] in G. replace (rc =? 0x0a) with false in G by lia. rewrite (S base sh m q H1) in G. discriminate G.
    + assert (LL : (List.length l' <= n)%nat) by (subst l; rewrite app_length in L; lia).
      destruct (implb (k || (rc =? 0x42)) (settled b1)) eqn:S1.
      * destruct (IH l' b1 _ LL S1) as (B & HB). exists B. intros base sh m pos [|f] r p H G; [discriminate|]. cbn [BookModel.globals] in G.
        destruct (near_cons _ _ _ _ _ _ H) as (data2 & q & ED & N0 & _ & H1 & _ & HG & _). specialize (H1 NS). assert (data2 = data) as -> by (destruct ED; [assumption|congruence]).
        rewrite HG in G. cbn [bind] in G. replace (rc =? 0x0a) with false in G by lia. destruct (S base sh m q H1) as (p2 & S2 & H2). rewrite S2 in G. cbn [bind] in G.
        exact (HB base sh m p2 f r p H2 G).
      * exists b. intros base sh m pos f r p H G. exfalso.
        destruct (near_cons _ _ _ _ _ _ H) as (data2 & q & _ & _ & _ & H1 & _). destruct (S base sh m q (H1 NS)) as (p2 & S2 & _).
        destruct (k || (rc =? 0x42)) eqn:K; [|discriminate S1]. cbn [implb] in S1. apply gstep_settled in S2; [|exact NH|destruct k; [cbn [implb] in ST; change (settled (put base sh b)) with (settled b); rewrite ST; reflexivity|cbn [orb] in K; rewrite K; apply orb_true_r]].
        change (settled (put base sh b1)) with (settled b1) in S2. congruence.
Qed.

(** What a worksheet sees of the book comes from there. *)
Lemma end_config : forall B : book, exists c, forall base sh r, globals_end (put base sh B) = Ok r -> config_of codec num8 rk ragged r = c.
Proof.
  intros B. set (f := palette_epilogue (xf_epilogue (bk_fmt B))).
  destruct (truthy (en_encoding (bk_enc B))) eqn:T.
  - exists (config_of codec num8 rk ragged (with_fmt B f)). intros base sh r H. unfold BookModel.globals_end in H. cbv zeta in H.
    apply bind_ok in H as ([names maps] & _ & H). match type of H with (if truthy ?x then _ else _) = _ => change x with (en_encoding (bk_enc B)) in H end. rewrite T in H. injection H as <-. reflexivity.
  - exists (match derive codec (with_fmt B f) with Ok b => config_of codec num8 rk ragged b | Err _ => config_of codec num8 rk ragged B end).
    intros base sh r H. unfold BookModel.globals_end in H. cbv zeta in H.
    apply bind_ok in H as ([names maps] & _ & H). match type of H with (if truthy ?x then _ else _) = _ => change x with (en_encoding (bk_enc B)) in H end. rewrite T in H. unfold derive in *.
    match type of H with bind (derive_encoding _ ?x ?y) _ = _ => change x with (bk_bv B) in H; change y with (bk_enc B) in H end. change (bk_bv (with_fmt B f)) with (bk_bv B). change (bk_enc (with_fmt B f)) with (bk_enc B).
    destruct (derive_encoding codec (bk_bv B) _) as [en|e]; [|discriminate H]. cbn [bind] in *. injection H as <-. reflexivity.
Qed.

Lemma open_config : forall l bv ov fmt, exists c, forall fuel m base rs2 b0, grouped (bv <? 80) l rs2 -> workbook m base bv rs2 -> 50 <= bv ->
  open_stream codec ops lower num8 rk ragged old fuel m base ov fmt true = Ok (mk_api b0 (Some m)) -> config_of codec num8 rk ragged b0 = c.
Proof.
  intros l bv ov fmt. destruct (@book0 N loaded bv 0 fmt ov) as [b|e] eqn:EB.
  - assert (ST : implb (bv <? 80) (settled b) = true) by (unfold book0 in EB; destruct (fbook0 bv fmt); [|discriminate EB]; injection EB as <-; unfold settled; cbn [bk_bv]; destruct (bv <? 80); reflexivity).
    destruct (globals_put _ l b _ (le_n _) ST) as (B & HB). destruct (end_config B) as (c & HC). exists c. intros fuel m base rs2 b0 SG (pos & d & post & GB & FR & LD & A & NE) V O.
    unfold BookApi.open_stream in O. rewrite GB, bind_Ok in O. apply bind_ok in O as (? & _ & O). apply bind_ok in O as (? & _ & O).
    assert (E0 : book0 bv base fmt ov = Ok (put base (bk_sheets b) b)) by (unfold book0 in *; destruct (fbook0 bv fmt); [|discriminate EB]; injection EB as <-; reflexivity).
    rewrite E0, bind_Ok in O. replace (bv <=? 40) with false in O by lia. replace (bv =? 45) with false in O by lia.
    apply bind_ok in O as ([r p] & G & O). cbv zeta in O. injection O as <-.
    assert (NR : near (bv <? 80) l m pos) by (exists rs2, d; split; [exact SG|]; split; [exact FR|]; split; [exact LD|]; split; [exact NE|]; exists post; exact A).
    destruct (HB _ _ _ _ _ _ _ NR G) as (sh' & HE). exact (HC _ _ _ HE).
  - exists (mk_config 0 false false [] [] (fun _ => None) (fun _ => Err e) num8 rk (fun _ => 0)).
    intros fuel m base rs2 b0 SG (pos & d & post & GB & FR & LD & A & NE) V O. exfalso.
    unfold BookApi.open_stream in O. rewrite GB, bind_Ok in O. apply bind_ok in O as (? & _ & O). apply bind_ok in O as (? & _ & O).
    apply bind_ok in O as (b & E0 & _). unfold book0 in *. destruct (fbook0 bv fmt); [discriminate EB|discriminate E0].
Qed.

Lemma set_c_c : forall (s : sheet N) k k', set_c (set_c s k) k' = set_c s k'.
Proof. destruct s; reflexivity. Qed.

(** Any two worksheets with the same records, in any two workbooks whose globals differ at
    most in the sheets they list, have the same rows, cells, formats and other attributes:
    whatever the other worksheets are, wherever the worksheet is among them and whatever it
    is called, however the workbooks are stored and opened, and whatever was done before. *)
Theorem c99_worksheet : forall bv override fmt recs s1 rs1 es1 e1 file1 fuel1 depth1 on_demand1 ignore1 a1 h1 k1 j1 sh1 s2 rs2 es2 e2 file2 fuel2 depth2 on_demand2 ignore2 a2 h2 k2 j2 sh2,
  50 <= bv -> same_globals (bv <? 80) rs1 rs2 ->
  contains lower depth1 file1 s1 -> zlen file1 < Z.of_nat fuel1 -> book_stream s1 bv rs1 -> lists codec bv override None rs1 es1 ->
  contains lower depth2 file2 s2 -> zlen file2 < Z.of_nat fuel2 -> book_stream s2 bv rs2 -> lists codec bv override None rs2 es2 ->
  open_workbook_xls codec ops lower num8 rk ragged old fuel1 depth1 file1 override fmt on_demand1 ignore1 = Ok a1 ->
  open_workbook_xls codec ops lower num8 rk ragged old fuel2 depth2 file2 override fmt on_demand2 ignore2 = Ok a2 ->
  znth (filter worksheet es1) j1 = Some e1 -> 0 <= e_posn e1 -> sheet_at s1 (e_posn e1) recs ->
  znth (filter worksheet es2) j2 = Some e2 -> 0 <= e_posn e2 -> sheet_at s2 (e_posn e2) recs ->
  fst (perform codec num8 rk ragged old k1 (snd (history codec num8 rk ragged old a1 h1)) (SheetByIndex j1)) = Ok (Got sh1) ->
  fst (perform codec num8 rk ragged old k2 (snd (history codec num8 rk ragged old a2 h2)) (SheetByIndex j2)) = Ok (Got sh2) ->
  set_c (ls_sheet sh1) (0, 0) = set_c (ls_sheet sh2) (0, 0).
Proof.
  intros bv ov fmt recs s1 rs1 es1 e1 file1 f1 d1 od1 ig1 a1 h1 k1 j1 sh1 s2 rs2 es2 e2 file2 f2 d2 od2 ig2 a2 h2 k2 j2 sh2
    V SG C1 L1 BS1 LS1 C2 L2 BS2 LS2 O1 O2 E1 P1 A1 E2 P2 A2 Q1 Q2.
  destruct (same_grouped _ _ _ SG) as (l & SG1 & SG2). destruct (open_config l bv ov fmt) as (c & HC).
  assert (CL : closed false recs) by (destruct A1 as (_ & _ & _ & _ & _ & _ & _ & _ & _ & CL); exact CL).
  destruct (read_tail c recs (0, 0) CL) as (r & HR).
  assert (One : forall s rs es e file f d od ig a h k j sh, grouped (bv <? 80) l rs -> contains lower d file s -> zlen file < Z.of_nat f -> book_stream s bv rs -> lists codec bv ov None rs es ->
    open_workbook_xls codec ops lower num8 rk ragged old f d file ov fmt od ig = Ok a -> znth (filter worksheet es) j = Some e -> 0 <= e_posn e -> sheet_at s (e_posn e) recs ->
    fst (perform codec num8 rk ragged old k (snd (history codec num8 rk ragged old a h)) (SheetByIndex j)) = Ok (Got sh) ->
    exists s0 k0, r = Ok (set_c s0 k0) /\ set_c (ls_sheet sh) (0, 0) = set_c s0 (0, 0)).
  { clear - HC HR V. intros s rs es e file f d od ig a h k j sh SG C LF BS LS O E P SA Q. rewrite <- (app_nil_r s) in C.
    destruct (found_placed codec ops lower num8 rk ragged old f d file s [] bv rs ov fmt od ig C BS LF) as (B & LR & m & base & PL & EO). rewrite EO in O.
    assert (W : workbook m base bv rs) by (destruct PL as (BM & PB & post & A); exact (book_at _ _ _ _ _ _ BM PB A BS)).
    destruct (by_index codec ops lower num8 rk ragged old _ _ _ _ _ _ _ _ _ _ h j j k _ _ W V LS O (or_introl eq_refl) E Q) as (b0 & version & pos & countries & s0 & OO & GB & SR & _ & _ & SX).
    rewrite (HC _ _ _ _ _ SG W V OO) in SR.
    destruct (sheet_place codec lower num8 rk old s _ recs P SA) as (v & n & HS). destruct (HS m base PL) as (t & GB2 & RE). change XL_WORKSHEET with 0x10 in GB2. rewrite GB in GB2. injection GB2 as -> ->.
    rewrite RE in SR. destruct (sheet_read_weaker c _ (0, 0) _ _ SR (or_intror eq_refl)) as (k2 & SR2). rewrite HR in SR2. eauto. }
  destruct (One _ _ _ _ _ _ _ _ _ _ _ _ _ _ SG1 C1 L1 BS1 LS1 O1 E1 P1 A1 Q1) as (x1 & c1 & R1 & ->).
  destruct (One _ _ _ _ _ _ _ _ _ _ _ _ _ _ SG2 C2 L2 BS2 LS2 O2 E2 P2 A2 Q2) as (x2 & c2 & R2 & ->).
  assert (X : set_c x1 c1 = set_c x2 c2) by congruence. rewrite <- (set_c_c x1 c1 (0, 0)), <- (set_c_c x2 c2 (0, 0)), X. reflexivity.
Qed.
End Put.
Print Assumptions c99_worksheet.

(** The workbook of PropWorkbook.v with a CODEPAGE record, and one in which the same sheet is called "Other", is
    "very hidden" and comes after another worksheet, "Gone". *)
Definition coded_file (records : list (Z * list Z)) (other : list Z) : list Z :=
  frame (Small.bof 5) ++ frames records ++ frame (0x0a, []) ++ other ++ frame (Small.bof 0x10) ++ frames (flat_map (enc Small.config) Small.items ++ [(0x0a, [])]).
Definition listing (e : entry) : Z * list Z := (0x85, fixed_part e ++ us_field 1 (Small.plain (e_name e)) ++ []).
Definition one_entry : entry := mk_entry 136 1 0 (s2l "S").
Definition gone_entry : entry := mk_entry 156 0 0 (s2l "Gone").
Definition other_entry : entry := mk_entry 172 2 0 (s2l "Other").
Definition coded_records (es : list entry) : list (Z * list Z) := (0x42, [0xb0; 4]) :: firstn 4 Small.records ++ map listing es ++ skipn 5 Small.records.
Definition one_records : list (Z * list Z) := coded_records [one_entry].
Definition two_records : list (Z * list Z) := coded_records [gone_entry; other_entry].
Definition empty_sheet : list Z := frame (Small.bof 0x10) ++ frame (0x0a, []).
Definition one_file : list Z := coded_file one_records [].
Definition two_file : list Z := coded_file two_records empty_sheet.

Example c99_hypotheses :
  let codec := fun _ b => Ok b in let rk := fun b => Ok (le_val b) in let none := fun _ _ _ _ _ => Err XLRDError in let recs := flat_map (enc Small.config) Small.items in
  same_globals (80 <? 80) one_records two_records /\
  contains ascii_low 1 one_file one_file /\ zlen one_file < Z.of_nat 300 /\ book_stream one_file 80 one_records /\
  contains ascii_low 1 two_file two_file /\ zlen two_file < Z.of_nat 300 /\ book_stream two_file 80 two_records /\
  lists codec 80 None None one_records [one_entry] /\ lists codec 80 None None two_records [gone_entry; other_entry] /\
  sheet_at one_file 136 recs /\ sheet_at two_file 172 recs /\
  match open_workbook_xls codec int_ops ascii_low le_val rk false none 300 1 one_file None true true true, open_workbook_xls codec int_ops ascii_low le_val rk false none 300 1 two_file None true false true with
  | Ok a1, Ok a2 => match fst (perform codec le_val rk false none (0, 0) a1 (SheetByIndex 0)), fst (perform codec le_val rk false none (0, 0) a2 (SheetByIndex 1)) with
                    | Ok (Got sh1), Ok (Got sh2) => ls_name sh1 <> ls_name sh2 /\ map (fun k => cell_value (sh_grid (ls_sheet sh1)) 1 k) [0; 1] = map (fun k => cell_value (sh_grid (ls_sheet sh2)) 1 k) [0; 1]
                    | _, _ => False
                    end
  | _, _ => False
  end.
Proof.
  cbv zeta.
  assert (FR : Forall framable (flat_map (enc Small.config) Small.items)) by (apply Forall_forall; intros [rc d] I; vm_compute in I; repeat (destruct I as [I|I]; [injection I as <- <-; split; cbn; lia|]); destruct I).
  assert (CL : closed false (flat_map (enc Small.config) Small.items)) by (vm_compute; reflexivity).
  assert (BS : forall records other, Forall framable records -> Forall (fun r => fst r <> 0x0a /\ fst r <> 0x8f) records -> book_stream (coded_file records other) 80 records).
  { intros records other F1 F2. exists 0x809, (snd (Small.bof 5)), [], (other ++ frame (Small.bof 0x10) ++ frames (flat_map (enc Small.config) Small.items ++ [(0x0a, [])])). split; [reflexivity|].
    split; [vm_compute; split; discriminate|]. split; [apply Excel97; reflexivity|]. split; [reflexivity|]. split; [exact F1|]. split; [reflexivity|exact F2]. }
  assert (US : forall s, forallb (fun c => (0 <=? c) && (c <? 128)) s = true -> us_ok (Small.plain s)).
  { intros s F. rewrite forallb_forall in F. repeat split; auto; [|intros _]; apply Forall_forall; intros x X; specialize (F x X); unfold scalar; lia. }
  split.
  { unfold one_records, two_records, coded_records. do 5 (apply (Same_record _ _ _ _); cbn [fst orb Z.eqb Pos.eqb]; cbn [firstn Small.records app]).
    apply (Same_sheets [listing one_entry] [listing gone_entry; listing other_entry]); [split; [discriminate|repeat constructor]|split; [discriminate|repeat constructor]|apply same_refl]. }
  split; [apply Bare; [apply bytes_check; vm_compute; reflexivity|reflexivity]|]. split; [vm_compute; reflexivity|].
  split; [apply BS; [apply Forall_forall; intros [rc d] I; vm_compute in I; repeat (destruct I as [I|I]; [injection I as <- <-; split; cbn; lia|]); destruct I|vm_compute; repeat constructor; discriminate]|].
  split; [apply Bare; [apply bytes_check; vm_compute; reflexivity|reflexivity]|]. split; [vm_compute; reflexivity|].
  split; [apply BS; [apply Forall_forall; intros [rc d] I; vm_compute in I; repeat (destruct I as [I|I]; [injection I as <- <-; split; cbn; lia|]); destruct I|vm_compute; repeat constructor; discriminate]|].
  split.
  { refine (L_page _ _ _ None 1200 [] _ _ ltac:(lia) _).
    do 4 (apply L_other; [lia|lia|]). apply L_sheet; [apply Biff8; [lia|repeat split; cbn; lia|apply US; vm_compute; reflexivity|vm_compute; reflexivity|reflexivity]|].
    do 2 (apply L_other; [lia|lia|]). apply L_nil. }
  split.
  { refine (L_page _ _ _ None 1200 [] _ _ ltac:(lia) _).
    do 4 (apply L_other; [lia|lia|]). do 2 (apply L_sheet; [apply Biff8; [lia|repeat split; cbn; lia|apply US; vm_compute; reflexivity|vm_compute; reflexivity|reflexivity]|]).
    do 2 (apply L_other; [lia|lia|]). apply L_nil. }
  split.
  { exists 0x809, (snd (Small.bof 0x10)), 80, []. split; [exists (firstn 136 one_file); split; vm_compute; reflexivity|].
    split; [vm_compute; split; discriminate|]. split; [apply Excel97; reflexivity|]. split; [reflexivity|]. split; assumption. }
  split.
  { exists 0x809, (snd (Small.bof 0x10)), 80, []. split; [exists (firstn 172 two_file); split; vm_compute; reflexivity|].
    split; [vm_compute; split; discriminate|]. split; [apply Excel97; reflexivity|]. split; [reflexivity|]. split; assumption. }
  vm_compute. split; [discriminate|reflexivity].
Qed.
