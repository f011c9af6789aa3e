(** C51: what a 3-D reference resolves to; EXTERNSHEET tables over several records. *)
From Verif Require Import Base BaseFacts Text Strings Utf16 StringFacts PropBytes Framing GridModel GridFacts SheetObjects SheetModel SstModel FormatModel
  FormulaModel CompDoc BookModel PropEnc BookFacts BookSheets BookRefs BookApi SheetShare BookHistory PropGlobals PropFormulaText PropDemand PropSheetList.

(** ** What a workbook says *)

(** Entries of the reference table: the number of a SUPBOOK record, the first and the last sheet. *)
Notation reference := (Z * Z * Z)%type.
Definition reference_ok (r : reference) : Prop :=
  0 <= fst (fst r) < 65536 /\ 0 <= snd (fst r) < 65536 /\ 0 <= snd r < 65536.
Definition reference_bytes (r : reference) : list Z := le_enc 2 (fst (fst r)) ++ le_enc 2 (snd (fst r)) ++ le_enc 2 (snd r).
Definition table_bytes (l : list reference) : list Z := le_enc 2 (zlen l) ++ flat_map reference_bytes l.

(** The reference table given by some records: the entries of the EXTERNSHEET records, each
    of which may go on in any number of CONTINUE records, split anywhere after the count. *)
Inductive tables : list (Z * list Z) -> list reference -> Prop :=
| T_nil : tables [] []
| T_table : forall l first cs extra rs l', zlen l < 65536 -> Forall reference_ok l -> 2 <= zlen first ->
    first ++ List.concat cs = table_bytes l ++ extra -> tables rs l' ->
    tables ((0x17, first) :: map (pair 0x3c) cs ++ rs) (l ++ l')
| T_other : forall rc d rs l, rc <> 0x17 -> tables rs l -> tables ((rc, d) :: rs) l.

(** SUPBOOK records: for the workbook itself, for add-in functions, or for another document. *)
Inductive kind : Type := Own | AddIns | Foreign.
Inductive supbook : list Z -> kind -> Prop :=
| S_own : forall n extra, 0 <= n < 65536 -> supbook (le_enc 2 n ++ [1; 4] ++ extra) Own
| S_addins : forall extra, supbook ([1; 0; 1; 0x3a] ++ extra) AddIns
| S_foreign : forall d, (forall n extra, d <> n ++ [1; 4] ++ extra \/ zlen n <> 2) -> (forall extra, d <> [1; 0; 1; 0x3a] ++ extra) ->
    supbook d Foreign.
Definition supbooks (rs : list (Z * list Z)) (ks : list kind) : Prop :=
  Forall2 supbook (map snd (filter (fun r => fst r =? 0x1ae) rs)) ks.

(** The last place of a kind. *)
Definition last_place (ks : list kind) (k : kind) (i : Z) : Prop :=
  znth ks i = Some k /\ forall j, i < j -> znth ks j <> Some k.

(** The number of a listed sheet among the worksheets. *)
Definition worksheet_number (es : list entry) (a i : Z) : Prop :=
  exists e, znth es a = Some e /\ worksheet e = true /\ i = zlen (filter worksheet (firstn (Z.to_nat a) es)).
Definition not_worksheet (es : list entry) (a : Z) : Prop := exists e, znth es a = Some e /\ worksheet e = false.

(** The sheets between the listed sheets [a] and [b]. *)
Inductive between (es : list entry) (a b : Z) : Z * Z -> Prop :=
| B_sheets : forall i j, worksheet_number es a i -> worksheet_number es b j -> between es a b (i, j)
| B_macro : not_worksheet es a \/ not_worksheet es b -> between es a b (-3, -3).

(** BIFF8: what entry [refx] of the table stands for. *)
Inductive target (es : list entry) (ks : list kind) (table : list reference) (refx : Z) : Z * Z -> Prop :=
| R_missing : zlen table <= refx -> target es ks table refx (-101, -101)
| R_addin : forall k, znth table refx = Some (k, 0xFFFE, 0xFFFE) -> last_place ks AddIns k -> target es ks table refx (-5, -5)
| R_external : forall k a b, znth table refx = Some (k, a, b) -> ~ last_place ks AddIns k -> ~ last_place ks Own k ->
    target es ks table refx (-4, -4)
| R_any : forall k, znth table refx = Some (k, 0xFFFE, 0xFFFE) -> last_place ks Own k -> target es ks table refx (-1, -1)
| R_deleted : forall k, znth table refx = Some (k, 0xFFFF, 0xFFFF) -> last_place ks Own k -> target es ks table refx (-2, -2)
| R_outside : forall k a b, znth table refx = Some (k, a, b) -> last_place ks Own k ->
    ~ (a = 0xFFFE /\ b = 0xFFFE) -> ~ (a = 0xFFFF /\ b = 0xFFFF) -> b < a \/ zlen es <= b ->
    target es ks table refx (-102, -102)
| R_between : forall k a b r, znth table refx = Some (k, a, b) -> last_place ks Own k ->
    ~ (a = 0xFFFE /\ b = 0xFFFE) -> ~ (a = 0xFFFF /\ b = 0xFFFF) -> a <= b < zlen es ->
    between es a b r -> target es ks table refx r.

(** BIFF5 and BIFF7: the three numbers are in the formula. *)
Inductive target57 (es : list entry) (x a b : Z) : Z * Z -> Prop :=
| R7_external : 0 < x -> target57 es x a b (-4, -4)
| R7_deleted : x <= 0 -> a = -1 -> b = -1 -> target57 es x a b (-2, -2)
| R7_outside : x <= 0 -> ~ (a = -1 /\ b = -1) -> a < 0 \/ b < a \/ zlen es <= b -> target57 es x a b (-103, -103)
| R7_between : forall r, x <= 0 -> 0 <= a <= b -> b < zlen es -> between es a b r -> target57 es x a b r.

(** ** Sheet numbers *)

Lemma rank_cons : forall e es a, 0 < a -> zlen (filter worksheet (firstn (Z.to_nat a) (e :: es))) =
  (if worksheet e then 1 else 0) + zlen (filter worksheet (firstn (Z.to_nat (a - 1)) es)).
Proof.
  intros e es a A. replace (Z.to_nat a) with (S (Z.to_nat (a - 1))) by lia. cbn [firstn filter].
  destruct (worksheet e); [rewrite zlen_cons; lia|lia].
Qed.

Lemma numbering_znth : forall es n a k, znth (numbering n es) a = Some k ->
  exists e, znth es a = Some e /\
    k = if worksheet e then n + zlen (filter worksheet (firstn (Z.to_nat a) es)) else -1.
Proof.
  induction es as [|e es IH]; intros n a k H; cbn [numbering] in H.
  - apply znth_Some_range in H. cbn in H. lia.
  - assert (A : 0 <= a) by (destruct (worksheet e); apply znth_Some_range in H; lia).
    destruct (Z.eq_dec a 0) as [->|NZ].
    + exists e. split; [reflexivity|]. destruct (worksheet e); cbn in H; injection H as <-; cbn; rewrite ?zlen_nil; lia.
    + rewrite znth_cons by lia. rewrite rank_cons by lia.
      destruct (worksheet e); rewrite znth_cons in H by lia; apply IH in H as (x & X & ->); exists x; (split; [exact X|]);
        destruct (worksheet x); lia.
Qed.

Lemma zlen_numbering : forall es n, zlen (numbering n es) = zlen es.
Proof. induction es as [|e es IH]; intros n; [reflexivity|]. cbn [numbering]. destruct (worksheet e); rewrite !zlen_cons, IH; reflexivity. Qed.

Lemma rank_le : forall es a b, 0 <= a <= b ->
  zlen (filter worksheet (firstn (Z.to_nat a) es)) <= zlen (filter worksheet (firstn (Z.to_nat b) es)).
Proof.
  intros es a b R. replace (Z.to_nat b) with (Z.to_nat a + Z.to_nat (b - a))%nat by lia.
  rewrite <- (firstn_skipn (Z.to_nat a) (firstn (Z.to_nat a + Z.to_nat (b - a)) es)).
  rewrite firstn_firstn, Nat.min_l by lia. rewrite filter_app, zlen_app.
  pose proof (zlen_nonneg (filter worksheet (skipn (Z.to_nat a) (firstn (Z.to_nat a + Z.to_nat (b - a)) es)))). lia.
Qed.

(** A worksheet's number is that of sheet_by_index. *)
Lemma number_sheet : forall es a i, worksheet_number es a i -> znth (filter worksheet es) i = znth es a /\ 0 <= i < zlen (filter worksheet es).
Proof.
  intros es a i (e & E & W & ->).
  assert (Q : znth (filter worksheet es) (zlen (filter worksheet (firstn (Z.to_nat a) es))) = Some e).
  { pose proof (znth_Some_range _ _ _ E) as R.
    assert (es = firstn (Z.to_nat a) es ++ e :: skipn (S (Z.to_nat a)) es) as D.
    { apply znth_ext. intros i I. destruct (Z.ltb_spec i a) as [L|L].
      - rewrite znth_app_l by (rewrite zlen_firstn; lia). rewrite znth_firstn by lia. reflexivity.
      - rewrite znth_app_r by (rewrite zlen_firstn; lia). rewrite zlen_firstn, Z.min_l by lia.
        destruct (Z.eq_dec i a) as [->|NE]; [rewrite Z2Nat.id, Z.sub_diag by lia; exact E|].
        rewrite znth_cons, znth_skipn by lia. f_equal. lia. }
    rewrite D at 1. rewrite filter_app. cbn [filter]. rewrite W.
    rewrite znth_app_r by lia. rewrite Z.sub_diag. reflexivity. }
  rewrite Q, E. split; [reflexivity|]. exact (znth_Some_range _ _ _ Q).
Qed.

Lemma between_read : forall es a b, 0 <= a <= b -> b < zlen es ->
  exists x1 x2, py_index (numbering 0 es) a = Ok x1 /\ py_index (numbering 0 es) b = Ok x2 /\
    between es a b (if negb ((0 <=? x1) && (x1 <=? x2)) then (-3, -3) else (x1, x2)).
Proof.
  intros es a b A B. pose proof (zlen_numbering es 0) as L.
  destruct (znth_in_range (numbering 0 es) a ltac:(lia)) as (x1 & X1). destruct (znth_in_range (numbering 0 es) b ltac:(lia)) as (x2 & X2).
  exists x1, x2. split; [apply py_index_znth; [lia|exact X1]|]. split; [apply py_index_znth; [lia|exact X2]|].
  apply numbering_znth in X1 as (e1 & E1 & ->). apply numbering_znth in X2 as (e2 & E2 & ->).
  destruct (worksheet e1) eqn:W1.
  - pose proof (zlen_nonneg (filter worksheet (firstn (Z.to_nat a) es))) as P1.
    replace (0 <=? 0 + zlen (filter worksheet (firstn (Z.to_nat a) es))) with true by lia. cbn [andb].
    destruct (worksheet e2) eqn:W2.
    + pose proof (rank_le es a b A). rewrite !Z.add_0_l.
      replace (zlen (filter worksheet (firstn (Z.to_nat a) es)) <=? zlen (filter worksheet (firstn (Z.to_nat b) es))) with true by lia.
      cbn [negb]. apply B_sheets; [exists e1|exists e2]; auto.
    + replace (0 + zlen (filter worksheet (firstn (Z.to_nat a) es)) <=? -1) with false by lia. cbn [negb].
      apply B_macro. right. exists e2. auto.
  - cbn [Z.leb Z.compare andb negb]. apply B_macro. left. exists e1. auto.
Qed.

Lemma between_valid : forall es a b lo hi, between es a b (lo, hi) -> a <= b ->
  (0 <= lo <= hi /\ hi < zlen (filter worksheet es)) \/ (lo = -3 /\ hi = -3).
Proof.
  intros es a b lo hi B L. inversion B as [i j W1 W2|M]; subst; [left|right; auto].
  destruct (number_sheet _ _ _ W1) as [_ R1]. destruct (number_sheet _ _ _ W2) as [_ R2].
  destruct W1 as (e1 & E1 & _ & ->). destruct W2 as (e2 & E2 & _ & ->). apply znth_Some_range in E1.
  pose proof (rank_le es a b). lia.
Qed.

Lemma between_unique : forall es a b r r', between es a b r -> between es a b r' -> r = r'.
Proof.
  intros es a b r r' B B'. destruct B as [i j (e & E & W & ->) (e' & E' & W' & ->)|M]; inversion B' as [i' j' (f & F & V & ->) (f' & F' & V' & ->)|M']; subst; auto.
  - destruct M' as [(f & F & V)|(f & F & V)]; congruence.
  - destruct M as [(e & E & W)|(e & E & W)]; congruence.
Qed.

Lemma last_place_unique : forall ks k i j, last_place ks k i -> last_place ks k j -> i = j.
Proof.
  intros ks k i j [A1 A2] [B1 B2]. destruct (Z.lt_trichotomy i j) as [L|[L|L]]; [|exact L|]; exfalso; [exact (A2 _ L B1)|exact (B2 _ L A1)].
Qed.

(** An entry stands for one thing only. *)
Lemma target_unique : forall es ks table refx r r', target es ks table refx r -> target es ks table refx r' -> r = r'.
Proof.
  intros es ks table refx r r' T T'.
  assert (Kinds : forall i, last_place ks AddIns i -> last_place ks Own i -> False) by (intros i [A _] [B _]; congruence).
  assert (Range : forall x, znth table refx = Some x -> zlen table <= refx -> False) by (intros x X; apply znth_Some_range in X; lia).
  inversion T; subst; inversion T'; subst; try reflexivity;
    try (exfalso; eapply Range; eassumption);
    repeat match goal with H : znth table refx = Some _, H' : znth table refx = Some _ |- _ => rewrite H in H'; injection H' as; subst end;
    try (exfalso; eapply Kinds; eassumption); try contradiction; try lia; try (exfalso; lia); try (exfalso; tauto);
    try (eapply between_unique; eassumption).
Qed.

(** ** Reading the tables *)

Lemma triples_read : forall l data pos rest, Forall reference_ok l -> At data pos (flat_map reference_bytes l ++ rest) ->
  externsheet_triples (List.length l) data pos = Ok l.
Proof.
  induction l as [|[[k a] b] l IH]; intros data pos rest F A; [reflexivity|].
  apply Forall_cons_iff in F as [(K & KA & KB) F]. cbn [fst snd] in *. cbn [flat_map List.length externsheet_triples] in *.
  unfold reference_bytes in A at 1. cbn [fst snd] in A. rewrite <- !app_assoc in A.
  pose proof (At_skip _ _ _ _ (pos + 2) A ltac:(rewrite zlen_le_enc; reflexivity)) as A2.
  pose proof (At_skip _ _ _ _ (pos + 4) A2 ltac:(rewrite zlen_le_enc; cbn; lia)) as A4.
  pose proof (At_skip _ _ _ _ (pos + 6) A4 ltac:(rewrite zlen_le_enc; cbn; lia)) as A6.
  rewrite (At_u16 _ _ _ _ A K), (At_u16 _ _ _ _ A2 KA), (At_u16 _ _ _ _ A4 KB).
  assert (A' : At data pos ((le_enc 2 k ++ le_enc 2 a ++ le_enc 2 b) ++ flat_map reference_bytes l ++ rest)) by (rewrite <- !app_assoc; exact A).
  rewrite (At_slice _ _ _ _ (pos + 6) A') by (rewrite !zlen_app, !zlen_le_enc; reflexivity).
  rewrite !zlen_app, !zlen_le_enc. cbn [Z.of_nat Z.add Z.eqb Pos.eqb guard bind Pos.add Pos.of_succ_nat Pos.succ].
  rewrite (IH _ _ _ F A6). reflexivity.
Qed.

(** The CONTINUE records needed, and no more, are read. *)
Lemma body_read : forall cs mem fuel pos post data reqd, Forall framable (map (pair 0x3c) cs) ->
  At mem pos (frames (map (pair 0x3c) cs) ++ post) -> reqd <= zlen data + zlen (List.concat cs) ->
  (List.length cs < fuel)%nat ->
  exists k p, (k <= List.length cs)%nat /\ externsheet_body fuel mem pos reqd data = Ok (data ++ List.concat (firstn k cs), p) /\
    reqd <= zlen (data ++ List.concat (firstn k cs)).
Proof.
  induction cs as [|c cs IH]; intros mem fuel pos post data reqd F A L FU; destruct fuel as [|fuel]; try lia; cbn [externsheet_body].
  - cbn [List.concat] in L. rewrite zlen_nil in L. replace (zlen data <? reqd) with false by lia. cbn [negb].
    exists O, pos. cbn [firstn List.concat]. rewrite app_nil_r. split; [lia|]. split; [reflexivity|lia].
  - destruct (zlen data <? reqd) eqn:E; cbn [negb].
    + cbn [map] in F, A. apply Forall_cons_iff in F as [F1 F2]. cbn [frames flat_map] in A. rewrite <- app_assoc in A.
      rewrite (At_frame _ _ _ _ A F1). cbn [bind fst snd]. change (0x3c =? XL_CONTINUE) with true. cbn [negb].
      cbn [List.concat] in L. rewrite zlen_app in L.
      destruct (IH mem fuel _ post (data ++ c) reqd F2 (At_skip _ _ _ _ _ A eq_refl)) as (k & p & K & Q & R).
      { rewrite zlen_app. lia. }
      { cbn in FU. lia. }
      exists (S k), p. cbn [firstn List.concat List.length]. rewrite app_assoc. split; [lia|]. auto.
    + exists O, pos. cbn [firstn List.concat]. rewrite app_nil_r. split; [lia|]. split; [reflexivity|lia].
Qed.

Lemma frames_length : forall rs, (List.length rs <= List.length (frames rs))%nat.
Proof.
  induction rs as [|[rc d] rs IH]; [cbn; lia|]. cbn [frames flat_map List.length]. rewrite app_length.
  assert (2 <= List.length (frame (rc, d)))%nat by (unfold frame; rewrite !app_length, !le_enc_length; lia).
  unfold frames in IH. lia.
Qed.

Lemma table_read : forall codec bv enc r mem pos l first cs extra post r' p, 80 <= bv -> zlen l < 65536 -> Forall reference_ok l ->
  2 <= zlen first -> first ++ List.concat cs = table_bytes l ++ extra -> Forall framable (map (pair 0x3c) cs) ->
  At mem pos (frames (map (pair 0x3c) cs) ++ post) ->
  handle_externsheet codec bv enc r mem pos first = Ok (r', p) ->
  rf_info r' = rf_info r ++ l /\ rf_types r' = rf_types r /\ rf_locals r' = rf_locals r /\ rf_addins r' = rf_addins r.
Proof.
  intros codec bv enc r mem pos l first cs extra post r' p V LL RO L2 E F A H.
  unfold handle_externsheet in H. replace (bv >=? 80) with true in H by lia.
  apply bind_ok in H as (n & U & H).
  assert (n = zlen l) as ->.
  { assert (A0 : At (first ++ List.concat cs) 0 (le_enc 2 (zlen l) ++ flat_map reference_bytes l ++ extra)).
    { rewrite E. unfold table_bytes. rewrite <- app_assoc. apply At_0. }
    pose proof (At_u16 _ _ _ _ A0 ltac:(pose proof (zlen_nonneg l); lia)) as U'.
    assert (unpack_u16 (first ++ List.concat cs) 0 = unpack_u16 first 0) as X; [|congruence].
    destruct first as [|x [|y t]]; try (rewrite ?zlen_cons, ?zlen_nil in L2; lia).
    unfold unpack_u16, unpack_le. cbn [app]. rewrite (py_slice_pre [x; y] (t ++ List.concat cs)), (py_slice_pre [x; y] t) by reflexivity. reflexivity. }
  assert (TB : zlen (table_bytes l) = zlen l * 6 + 2).
  { unfold table_bytes. rewrite zlen_app, zlen_le_enc.
    assert (zlen (flat_map reference_bytes l) = zlen l * 6); [|lia]. clear. induction l as [|x l IH]; [reflexivity|].
    cbn [flat_map]. rewrite zlen_app, IH, zlen_cons. unfold reference_bytes. rewrite !zlen_app, !zlen_le_enc. lia. }
  destruct (body_read cs mem (S (List.length mem)) pos post first (zlen l * 6 + 2) F A) as (k & q & K & B & R).
  { assert (zlen first + zlen (List.concat cs) = zlen (first ++ List.concat cs)) as -> by (rewrite zlen_app; lia). rewrite E, zlen_app.
    pose proof (zlen_nonneg extra). lia. }
  { destruct A as (pre & -> & _). rewrite !app_length. pose proof (frames_length (map (pair 0x3c) cs)) as Q. rewrite map_length in Q. lia. }
  rewrite B in H. cbn [bind] in H. apply bind_ok in H as (l' & T & H). injection H as <- _. cbn [rf_info rf_types rf_locals rf_addins].
  assert (l' = l) as ->; [|auto].
  assert (exists rest, first ++ List.concat (firstn k cs) = table_bytes l ++ rest) as (rest & X).
  { assert (Y : (first ++ List.concat (firstn k cs)) ++ List.concat (skipn k cs) = table_bytes l ++ extra).
    { rewrite <- app_assoc, <- concat_app, firstn_skipn. exact E. }
    exists (skipn (List.length (table_bytes l)) (first ++ List.concat (firstn k cs))).
    rewrite <- (firstn_skipn (List.length (table_bytes l)) (first ++ List.concat (firstn k cs))) at 1. f_equal.
    apply (f_equal (firstn (List.length (table_bytes l)))) in Y. rewrite !firstn_app in Y.
    unfold zlen in R, TB. replace (List.length (table_bytes l) - List.length (first ++ List.concat (firstn k cs)))%nat with O in Y by lia.
    rewrite Nat.sub_diag, !firstn_O, !app_nil_r, firstn_all in Y. rewrite <- firstn_app in Y. exact Y. }
  rewrite X in T. unfold zlen in T. rewrite Nat2Z.id in T.
  rewrite (triples_read l _ 2 rest RO) in T; [congruence|].
  unfold table_bytes. rewrite <- app_assoc. eapply At_skip; [apply At_0|rewrite zlen_le_enc; reflexivity].
Qed.

(** Where the records of a kind are, so far. *)
Definition place (ks : list kind) (k : kind) (o : option Z) : Prop :=
  match o with Some i => last_place ks k i | None => ~ In k ks end.
Definition books (r : refst) (ks : list kind) : Prop :=
  zlen (rf_types r) = zlen ks /\ place ks Own (rf_locals r) /\ place ks AddIns (rf_addins r).

Lemma place_snoc : forall ks k, last_place (ks ++ [k]) k (zlen ks).
Proof.
  intros ks k. split; [rewrite znth_app_r, Z.sub_diag by lia; reflexivity|]. intros j J.
  replace (znth (ks ++ [k]) j) with (@None kind); [discriminate|]. symmetry. apply znth_None. rewrite zlen_app. change (zlen [k]) with 1. lia.
Qed.
Lemma place_keep : forall ks k k' o, place ks k o -> k <> k' -> place (ks ++ [k']) k o.
Proof.
  intros ks k k' [i|] P NE; cbn [place] in *.
  - destruct P as [P1 P2]. pose proof (znth_Some_range _ _ _ P1) as R. split; [rewrite znth_app_l by lia; exact P1|].
    intros j J. destruct (Z.ltb_spec j (zlen ks)) as [L|L]; [rewrite znth_app_l by lia; auto|].
    rewrite znth_app_r by lia. intros Q. pose proof (znth_Some_range _ _ _ Q) as R'. change (zlen [k']) with 1 in R'.
    replace (j - zlen ks) with 0 in Q by lia. cbn in Q. congruence.
  - intros I. apply in_app_or in I as [I|[I|[]]]; [contradiction|congruence].
Qed.
Lemma place_iff : forall ks k o i, place ks k o -> (last_place ks k i <-> o = Some i).
Proof.
  intros ks k [j|] i P; cbn [place] in P.
  - split; [intros L; f_equal; eapply last_place_unique; eassumption|intros [= ->]; exact P].
  - split; [|discriminate]. intros [L _]. exfalso. apply P. unfold znth in L. destruct (i <? 0); [discriminate|]. eapply nth_error_In, L.
Qed.

Lemma supbook_read : forall r d k r' ks, handle_supbook r d = Ok r' -> supbook d k -> books r ks ->
  books r' (ks ++ [k]) /\ rf_info r' = rf_info r.
Proof.
  intros r d k r' ks H S (B1 & B2 & B3). unfold handle_supbook in H. cbv zeta in H. apply bind_ok in H as (n & U & H).
  assert (Len : forall ty, zlen (rf_types r ++ [ty]) = zlen (ks ++ [k])) by (intros; rewrite !zlen_app, B1; reflexivity).
  destruct S as [m extra M|extra|d F1 F2].
  - assert (py_slice (le_enc 2 m ++ [1; 4] ++ extra) 2 4 = [1; 4]) as Q.
    { apply (At_slice _ _ extra); [eapply At_skip; [apply At_0|rewrite zlen_le_enc; reflexivity]|reflexivity]. }
    rewrite Q, list_eqb_refl in H. injection H as <-. split; [|reflexivity]. unfold books. cbn [rf_types rf_locals rf_addins].
    rewrite B1. split; [apply Len|]. split; [apply place_snoc|apply place_keep; [exact B3|discriminate]].
  - assert (py_slice ([1; 0; 1; 58] ++ extra) 2 4 = [1; 58]) as Q.
    { apply (At_slice _ _ extra); [apply (At_skip _ [1; 0] ([1; 58] ++ extra) 0); [apply At_0|reflexivity]|reflexivity]. }
    rewrite Q in H. change (list_eqb [1; 58] [1; 4]) with false in H. cbv iota in H.
    rewrite py_slice_pre in H by reflexivity. rewrite list_eqb_refl in H.
    injection H as <-. split; [|reflexivity]. unfold books. cbn [rf_types rf_locals rf_addins].
    rewrite B1. split; [apply Len|]. split; [apply place_keep; [exact B2|discriminate]|apply place_snoc].
  - assert (list_eqb (py_slice d 2 4) [1; 4] = false) as Q.
    { apply not_true_is_false. intros E. apply list_eqb_eq in E.
      destruct d as [|x [|y [|z [|w t]]]]; try (vm_compute in E; discriminate).
      assert (py_slice (x :: y :: z :: w :: t) 2 4 = [z; w]) as X.
      { apply (At_slice _ _ t); [apply (At_skip _ [x; y] ([z; w] ++ t) 0); [apply At_0|reflexivity]|reflexivity]. }
      rewrite X in E. injection E as -> ->. destruct (F1 [x; y] t) as [C|C]; [contradiction C; reflexivity|contradiction C; reflexivity]. }
    assert (list_eqb (py_slice d 0 4) [1; 0; 1; 58] = false) as Q2.
    { apply not_true_is_false. intros E. apply list_eqb_eq in E.
      destruct d as [|x [|y [|z [|w t]]]]; try (vm_compute in E; discriminate).
      rewrite (py_slice_pre [x; y; z; w] t 4 eq_refl : py_slice (x :: y :: z :: w :: t) 0 4 = _) in E. injection E as -> -> -> ->.
      contradiction (F2 t). reflexivity. }
    rewrite Q, Q2 in H. apply bind_ok in H as ([url p] & _ & H).
    assert (exists ty, r' = mk_refst (rf_types r ++ [ty]) (rf_locals r) (rf_addins r) (rf_addin_names r) (rf_info r) (rf_b57 r) (rf_extn_names r) (rf_count r)) as (ty & ->).
    { destruct (n =? 0); [injection H as <-; eauto|]. apply bind_ok in H as (? & _ & H). injection H as <-. eauto. }
    split; [|reflexivity]. unfold books. cbn [rf_types rf_locals rf_addins].
    split; [apply Len|]. split; apply place_keep; try assumption; discriminate.
Qed.

Lemma externname_refs : forall bv r d r', handle_externname bv r d = Ok r' ->
  rf_info r' = rf_info r /\ rf_types r' = rf_types r /\ rf_locals r' = rf_locals r /\ rf_addins r' = rf_addins r.
Proof.
  intros bv r d r' H. unfold handle_externname in H. destruct (bv >=? 80); [|injection H as <-; auto].
  apply bind_ok in H as (? & _ & H). apply bind_ok in H as ([? ?] & _ & H). apply bind_ok in H as (? & _ & H).
  destruct (_ =? _); injection H as <-; auto.
Qed.

Lemma tables_drop : forall cs rs l, Forall (fun r => noncont r = false) cs -> tables (cs ++ rs) l -> tables rs l.
Proof.
  induction cs as [|[rc d] cs IH]; intros rs l F T; [exact T|]. apply Forall_cons_iff in F as [F1 F2]. unfold noncont in F1. cbn [fst] in F1.
  cbn [app] in T. inversion T; subst; [lia|]. eauto.
Qed.
Lemma tables_conts : forall cs rs l, tables rs l -> tables (map (pair 0x3c) cs ++ rs) l.
Proof. induction cs as [|c cs IH]; intros rs l T; [exact T|]. cbn [map app]. apply T_other; [lia|auto]. Qed.

Lemma supbooks_drop : forall cs rs ks, Forall (fun r => noncont r = false) cs -> supbooks (cs ++ rs) ks -> supbooks rs ks.
Proof.
  intros cs rs ks F S. unfold supbooks in *. rewrite filter_app, map_app in S.
  replace (filter (fun r => fst r =? 0x1ae) cs) with (@nil (Z * list Z)) in S; [exact S|].
  clear S. induction F as [|[rc d] cs F1 F2 IH]; [reflexivity|]. unfold noncont in F1. cbn [fst filter] in *.
  replace (rc =? 0x1ae) with false by lia. exact IH.
Qed.

Section Globals.
Variable codec : list Z -> list Z -> result (list Z).
Context {N : Type}.
Variable ops : numops N.
Variable lower : list Z -> list Z.
Context {SH : Type}.
Notation book := (book N SH).
Variable load : book -> list Z -> Z -> list Z -> Z -> result (shared * SH).

(** The tables the book has at the end. *)
Lemma globals_tables : forall fuel mem rs d post b pos b' p' l ks,
  Forall framable rs -> zlen d < 65536 -> At mem pos (frames rs ++ frame (0x0a, d) ++ post) ->
  Forall (fun r => fst r <> 0x0a /\ fst r <> 0x8f) rs ->
  globals codec ops lower load fuel b mem pos = Ok (b', p') -> 80 <= bk_bv b -> bk_refs b = refs0 ->
  tables rs l -> supbooks rs ks ->
  rf_info (bk_refs b') = l /\ books (bk_refs b') ks.
Proof.
  intros fuel mem rs d post b pos b' p' l ks F LD A NE H V R0 T S.
  pose (P := fun (b : book) (rs : list (Z * list Z)) => 80 <= bk_bv b /\ exists l2 kd k2, l = rf_info (bk_refs b) ++ l2 /\ tables rs l2 /\
    ks = kd ++ k2 /\ supbooks rs k2 /\ books (bk_refs b) kd).
  destruct (globals_walk codec load ops lower P mem d post LD) with (fuel := fuel) (rs := rs) (b := b) (pos := pos) (b' := b') (p' := p')
    as (bl & (_ & l2 & kd & k2 & EL & T2 & EK & S2 & B) & GE); auto.
  - clear. intros b pos rc data rs b' p cs rs' (V & l2 & kd & k2 & EL & T2 & EK & S2 & B) ER F A N1 N2 G C.
    pose proof (gstep_version _ _ _ _ _ _ _ _ _ G N2) as V'. split; [lia|].
    destruct (gstep_keeps codec load b mem pos rc data b' p G N2) as [KR _].
    assert (S3 : rc <> 0x1ae -> supbooks rs' k2).
    { intros NE. apply (supbooks_drop cs); [exact C|]. unfold supbooks in *. cbn [filter fst] in S2.
      replace (rc =? 0x1ae) with false in S2 by lia. exact S2. }
    assert (T3 : rc <> 0x17 -> tables rs' l2).
    { intros NE. apply (tables_drop cs); [exact C|]. inversion T2; subst; [contradiction|assumption]. }
    assert (Same : rc <> 0x17 -> rc <> 0x1ae -> rf_info (bk_refs b') = rf_info (bk_refs b) -> rf_types (bk_refs b') = rf_types (bk_refs b) ->
      rf_locals (bk_refs b') = rf_locals (bk_refs b) -> rf_addins (bk_refs b') = rf_addins (bk_refs b) ->
      exists l2 kd k2, l = rf_info (bk_refs b') ++ l2 /\ tables rs' l2 /\ ks = kd ++ k2 /\ supbooks rs' k2 /\ books (bk_refs b') kd).
    { intros X1 X2 Y1 Y2 Y3 Y4. exists l2, kd, k2. rewrite Y1. repeat split; auto; [rewrite Y2|rewrite Y3|rewrite Y4]; apply B. }
    destruct (Z.eq_dec rc 0x17) as [->|X1].
    + apply gstep_externsheet in G as (b1 & r & D & HE & ->). apply derive_enc in D as (s & ->).
      cbn [with_refs with_enc with_shared bk_refs bk_bv bk_enc] in *.
      rewrite <- ER in T2. remember ((0x17, data) :: rs) as whole eqn:W.
      destruct T2 as [|t first cs0 extra rs0 l0 TL TO T5 TE T6|rc0 d0 rs0 l0 NE T6]; [discriminate| |congruence].
      injection W as <- W. rewrite <- W in F, A. rewrite frames_app, <- app_assoc in A. apply Forall_app in F as [F1 F2].
      destruct (table_read _ _ _ _ _ _ _ _ _ _ _ _ _ V TL TO T5 TE F1 A HE) as (Y1 & Y2 & Y3 & Y4).
      exists l0, kd, k2. rewrite Y1, <- app_assoc. repeat split; auto.
      * apply (tables_drop cs); [exact C|]. rewrite <- ER, <- W. apply tables_conts. exact T6.
      * apply S3. lia.
      * rewrite Y2. apply B.
      * rewrite Y3. apply B.
      * rewrite Y4. apply B.
    + destruct (Z.eq_dec rc 0x1ae) as [->|X2].
      * apply gstep_supbook in G as (r & HS & ->). cbn [with_refs bk_refs] in *.
        unfold supbooks in S2. cbn [filter fst map snd] in S2. change (0x1ae =? 0x1ae) with true in S2. cbv iota in S2.
        cbn [map snd] in S2. inversion S2 as [|? k ? k3 SB S4]; subst.
        destruct (supbook_read _ _ _ _ _ HS SB B) as [B' I'].
        exists l2, (kd ++ [k]), k3. rewrite I', <- app_assoc. repeat split; auto.
        -- apply (supbooks_drop cs); [exact C|]. exact S4.
        -- apply B'.
        -- apply B'.
        -- apply B'.
      * destruct (Z.eq_dec rc 0x23) as [->|X3].
        -- apply gstep_externname in G as (r & HS & ->). destruct (externname_refs _ _ _ _ HS) as (Y1 & Y2 & Y3 & Y4). apply Same; auto.
        -- apply Same; auto; rewrite KR; auto.
  - split; [exact V|]. exists l, [], ks. rewrite R0. repeat split; auto; intros [].
  - destruct (globals_end_spec _ _ _ _ _ GE) as (Q & _). rewrite Q.
    inversion T2; subst. rewrite app_nil_r. inversion S2; subst. rewrite app_nil_r. auto.
Qed.
End Globals.

Section Resolve.
Context {N : Type}.
Variable codec : list Z -> list Z -> result (list Z).
Variable ops : numops N.
Variable lower : list Z -> list Z.
Variable num8 : list Z -> N.
Variable rk : list Z -> result N.
Variable ragged : bool.
Notation loaded := (loaded (N := N)).
Notation api := (api (N := N)).
Notation book := (book N loaded).
Variable old : book -> list Z -> Z -> list Z -> Z -> result (shared * loaded).
Notation history := (history codec num8 rk ragged old).
Notation open_stream := (open_stream codec ops lower num8 rk ragged old).

(** What the formulas of an open workbook see. *)
Definition formulas_of (a : api) : fenv :=
  env_of codec (bk_bv (a_book a)) (en_encoding (bk_enc (a_book a))) (bk_sheets (a_book a)) (bk_refs (a_book a)).

Lemma opened_tables : forall fuel mem base bv rs ov fmt b0 l ks, workbook mem base bv rs -> 80 <= bv ->
  open_stream fuel mem base ov fmt true = Ok (mk_api b0 (Some mem)) -> tables rs l -> supbooks rs ks ->
  rf_info (bk_refs b0) = l /\ books (bk_refs b0) ks.
Proof.
  intros fuel mem base bv rs ov fmt b0 l ks (pos & d & post & GB & FR & LD & A & NE) V O T S.
  unfold BookApi.open_stream in O. rewrite GB, bind_Ok in O.
  apply bind_ok in O as (? & _ & O). apply bind_ok in O as (? & _ & O). apply bind_ok in O as (b & B & O).
  replace (bv <=? 40) with false in O by lia. replace (bv =? 45) with false in O by lia.
  apply bind_ok in O as ([b1 p1] & G & O). cbv zeta in O. injection O as <-.
  assert (Q : bk_bv b = bv /\ bk_refs b = refs0).
  { unfold book0 in B. apply bind_ok in B as (f & _ & B). injection B as <-. split; reflexivity. }
  destruct Q as [Q1 Q2]. cbn [bk_refs with_list].
  eapply (globals_tables codec ops lower); try eassumption. lia.
Qed.

(** BIFF8: an entry of the table stands for what the workbook says, whatever the way the
    table is split; the only exception is an add-in entry that names sheets. *)
Theorem c51_resolves : forall fuel mem base bv rs override fmt on_demand a es l ks h refx,
  workbook mem base bv rs -> 80 <= bv -> lists codec bv override None rs es -> tables rs l -> supbooks rs ks ->
  open_stream fuel mem base override fmt on_demand = Ok a -> 0 <= refx ->
  match get_externsheet_local_range (formulas_of (snd (history a h))) refx with
  | Ok r => target es ks l refx r
  | Err x => x = AssertionError /\ exists k a b, znth l refx = Some (k, a, b) /\ last_place ks AddIns k /\ ~ (a = 0xFFFE /\ b = 0xFFFE)
  end.
Proof.
  intros fuel mem base bv rs ov fmt od a es l ks h refx W V L T S H R.
  destruct (opened codec ops lower num8 rk ragged old _ _ _ _ _ _ _ _ _ _ W ltac:(lia) L H) as (b0 & I & V0 & LS & LB & O & _ & _ & _ & E4).
  destruct (opened_tables _ _ _ _ _ _ _ _ _ _ W V O T S) as [TI (_ & PO & PA)].
  destruct (history_inv codec num8 rk ragged old b0 mem V0 LS LB h a I) as [(k & sl & E & _) _].
  unfold get_externsheet_local_range, formulas_of. rewrite E. unfold env_of.
  cbn [fe_info fe_addins fe_locals fe_allmap later with_list set_countries with_shared bk_refs bk_sheets bk_bv]. rewrite TI, E4.
  destruct (znth l refx) as [[[kx x] y]|] eqn:ZN.
  2: { apply znth_None in ZN. rewrite py_index_none by lia. apply R_missing. lia. }
  rewrite (py_index_some _ _ _ ZN).
  assert (IA : (match rf_addins (bk_refs b0) with Some a => kx =? a | None => false end) = true <-> last_place ks AddIns kx).
  { rewrite (place_iff _ _ _ kx PA). destruct (rf_addins (bk_refs b0)); split; intros X; try discriminate; [f_equal; lia|injection X; lia]. }
  assert (IO : (match rf_locals (bk_refs b0) with Some a => kx =? a | None => false end) = true <-> last_place ks Own kx).
  { rewrite (place_iff _ _ _ kx PO). destruct (rf_locals (bk_refs b0)); split; intros X; try discriminate; [f_equal; lia|injection X; lia]. }
  destruct (match rf_addins (bk_refs b0) with Some a => kx =? a | None => false end).
  { destruct ((x =? 0xFFFE) && (0xFFFE =? y)) eqn:Q; cbn [guard bind].
    - assert (x = 0xFFFE /\ y = 0xFFFE) as [-> ->] by lia. eapply R_addin; [exact ZN|]. apply IA. reflexivity.
    - split; [reflexivity|]. exists kx, x, y. split; [reflexivity|]. split; [apply IA; reflexivity|lia]. }
  assert (NA : ~ last_place ks AddIns kx) by (intros X; apply IA in X; discriminate).
  destruct (match rf_locals (bk_refs b0) with Some a => kx =? a | None => false end); cbn [negb].
  2: { eapply R_external; [exact ZN|exact NA|]. intros X. apply IO in X. discriminate. }
  assert (O1 : last_place ks Own kx) by (apply IO; reflexivity).
  destruct ((x =? 0xFFFE) && (0xFFFE =? y)) eqn:Q1.
  { assert (x = 0xFFFE /\ y = 0xFFFE) as [-> ->] by lia. eapply R_any; eassumption. }
  destruct ((x =? 0xFFFF) && (0xFFFF =? y)) eqn:Q2.
  { assert (x = 0xFFFF /\ y = 0xFFFF) as [-> ->] by lia. eapply R_deleted; eassumption. }
  cbv zeta. rewrite zlen_numbering.
  assert (X0 : 0 <= x).
  { assert (Forall reference_ok l) as F by (clear - T; induction T; auto; apply Forall_app; auto).
    rewrite Forall_forall in F. apply (F (kx, x, y)). unfold znth in ZN. destruct (refx <? 0); [discriminate|]. eapply nth_error_In, ZN. }
  destruct (negb ((0 <=? x) && (x <=? y) && (y <? zlen es))) eqn:Q3.
  { eapply R_outside; try eassumption; lia. }
  destruct (between_read es x y) as (x1 & x2 & P1 & P2 & B); [lia|lia|]. rewrite P1, bind_Ok, P2, bind_Ok.
  assert (target es ks l refx (if negb ((0 <=? x1) && (x1 <=? x2)) then (-3, -3) else (x1, x2))) as TT.
  { eapply R_between; try eassumption; lia. }
  destruct (negb ((0 <=? x1) && (x1 <=? x2))); exact TT.
Qed.

(** BIFF5 and BIFF7 *)
Theorem c51_resolves_b57 : forall fuel mem base bv rs override fmt on_demand a es h x first last,
  workbook mem base bv rs -> 50 <= bv -> lists codec bv override None rs es ->
  open_stream fuel mem base override fmt on_demand = Ok a ->
  exists r, get_externsheet_local_range_b57 (formulas_of (snd (history a h))) x first last = Ok r /\ target57 es x first last r.
Proof.
  intros fuel mem base bv rs ov fmt od a es h x fi la W V L H.
  destruct (opened codec ops lower num8 rk ragged old _ _ _ _ _ _ _ _ _ _ W V L H) as (b0 & I & V0 & LS & LB & O & _ & _ & _ & E4).
  destruct (history_inv codec num8 rk ragged old b0 mem V0 LS LB h a I) as [(k & sl & E & _) _].
  unfold get_externsheet_local_range_b57, formulas_of. rewrite E. unfold env_of.
  cbn [fe_info fe_addins fe_locals fe_allmap later with_list set_countries with_shared bk_refs bk_sheets bk_bv]. rewrite E4.
  destruct (x >? 0) eqn:Q0; [eexists; split; [reflexivity|apply R7_external; lia]|].
  destruct ((fi =? -1) && (la =? -1)) eqn:Q1; [eexists; split; [reflexivity|apply R7_deleted; lia]|].
  cbv zeta. rewrite zlen_numbering.
  destruct (negb ((0 <=? fi) && (fi <=? la) && (la <? zlen es))) eqn:Q3; [eexists; split; [reflexivity|apply R7_outside; lia]|].
  destruct (between_read es fi la) as (x1 & x2 & P1 & P2 & B); [lia|lia|]. rewrite P1, bind_Ok, P2, bind_Ok.
  exists (if negb ((0 <=? x1) && (x1 <=? x2)) then (-3, -3) else (x1, x2)).
  split; [destruct (negb ((0 <=? x1) && (x1 <=? x2))); reflexivity|]. apply R7_between; [lia|lia|lia|exact B].
Qed.

(** So the two ends are the numbers, in order, of two worksheets that sheet_by_index
    gives, or the same negative code. *)
Definition codes : list Z := [-1; -2; -3; -4; -5; -101; -102; -103].
Theorem c51_valid : forall fuel mem base bv rs override fmt on_demand a es l ks h,
  workbook mem base bv rs -> lists codec bv override None rs es ->
  open_stream fuel mem base override fmt on_demand = Ok a ->
  let a' := snd (history a h) in
  let valid r := (0 <= fst r <= snd r /\ snd r < nsheets a') \/ (fst r = snd r /\ In (fst r) codes) in
  (80 <= bv -> tables rs l -> supbooks rs ks ->
   forall refx r, 0 <= refx -> get_externsheet_local_range (formulas_of a') refx = Ok r -> valid r) /\
  (50 <= bv -> forall x first last r, get_externsheet_local_range_b57 (formulas_of a') x first last = Ok r -> valid r).
Proof.
  intros fuel mem base bv rs ov fmt od a es l ks h W L H a' valid.
  assert (NS : 50 <= bv -> nsheets a' = zlen (filter worksheet es)).
  { intros V. exact (proj2 (c43_listed codec ops lower num8 rk ragged old _ _ _ _ _ _ _ _ _ _ h W V L H)). }
  split.
  - intros V T S refx r R G. pose proof (c51_resolves _ _ _ _ _ _ _ _ _ _ _ _ h refx W V L T S H R) as TG. fold a' in TG. rewrite G in TG.
    unfold valid. rewrite NS by lia.
    destruct TG as [?|k ? ?|k x y ? ? ?|k ? ?|k ? ?|k x y ? ? ? ? ?|k x y [lo hi] ? ? ? ? R2 B]; try (right; cbn; auto 10; fail).
    destruct (between_valid _ _ _ _ _ B ltac:(lia)) as [Q|[-> ->]]; [left; exact Q|right; cbn; auto 10].
  - intros V x fi la r G. destruct (c51_resolves_b57 _ _ _ _ _ _ _ _ _ _ h x fi la W V L H) as (r' & G' & TG). fold a' in G'.
    assert (r' = r) as -> by congruence. unfold valid. rewrite NS by lia.
    destruct TG as [?|? ? ?|? ? ?|[lo hi] ? R2 ? B]; try (right; cbn; auto 10; fail).
    destruct (between_valid _ _ _ _ _ B ltac:(lia)) as [Q|[-> ->]]; [left; exact Q|right; cbn; auto 10].
Qed.

(** Two ways to split the same tables give the same references. *)
Theorem c51_split : forall fuel fuel' mem mem' base base' bv rs rs' override fmt fmt' on_demand on_demand' a b es l ks h h' refx,
  80 <= bv -> workbook mem base bv rs -> lists codec bv override None rs es -> tables rs l -> supbooks rs ks ->
  workbook mem' base' bv rs' -> lists codec bv override None rs' es -> tables rs' l -> supbooks rs' ks ->
  open_stream fuel mem base override fmt on_demand = Ok a -> open_stream fuel' mem' base' override fmt' on_demand' = Ok b -> 0 <= refx ->
  get_externsheet_local_range (formulas_of (snd (history a h))) refx = get_externsheet_local_range (formulas_of (snd (history b h'))) refx.
Proof.
  intros fuel fuel' mem mem' base base' bv rs rs' ov fmt fmt' od od' a b es l ks h h' refx V W L T S W' L' T' S' H H' R.
  pose proof (c51_resolves _ _ _ _ _ _ _ _ _ _ _ _ h refx W V L T S H R) as A.
  pose proof (c51_resolves _ _ _ _ _ _ _ _ _ _ _ _ h' refx W' V L' T' S' H' R) as B.
  assert (X : forall r k x y, znth l refx = Some (k, x, y) -> last_place ks AddIns k -> ~ (x = 0xFFFE /\ y = 0xFFFE) -> ~ target es ks l refx r).
  { intros r k x y ZN LP NE TG. assert (K : ~ last_place ks Own k) by (intros [K _]; destruct LP as [K' _]; congruence).
    inversion TG; try (apply znth_Some_range in ZN; lia);
      match goal with Q : znth l refx = Some _ |- _ => rewrite ZN in Q; injection Q as; subst end; contradiction || (apply NE; auto). }
  destruct (get_externsheet_local_range (formulas_of (snd (history a h))) refx) as [r|x],
    (get_externsheet_local_range (formulas_of (snd (history b h'))) refx) as [r'|x'].
  - f_equal. eapply target_unique; eassumption.
  - exfalso. destruct B as (_ & k & u & v & B1 & B2 & B3). exact (X _ _ _ _ B1 B2 B3 A).
  - exfalso. destruct A as (_ & k & u & v & B1 & B2 & B3). exact (X _ _ _ _ B1 B2 B3 B).
  - destruct A as [-> _], B as [-> _]. reflexivity.
Qed.
End Resolve.
Print Assumptions c51_resolves.
Print Assumptions c51_resolves_b57.
Print Assumptions c51_valid.
Print Assumptions c51_split.

(** A BIFF8 workbook with a macro sheet between two worksheets, its own SUPBOOK record, one
    for add-ins, and a table of six references split over three records. *)
Module Refs.
Definition sheet (kind name : Z) : list Z := le_enc 4 0 ++ [0; kind] ++ [1; 0; name].
Definition references : list reference := [(0, 0, 2); (0, 1, 2); (1, 0xFFFE, 0xFFFE); (0, 0xFFFF, 0xFFFF); (2, 0, 0); (0, 2, 3)].
Definition first : list Z := firstn 9 (table_bytes references).
Definition rest : list (list Z) := [firstn 16 (skipn 9 (table_bytes references)); skipn 25 (table_bytes references)].
Definition records : list (Z * list Z) :=
  [(0x85, sheet 0 65); (0x85, sheet 1 66); (0x85, sheet 0 67); (0x1ae, [3; 0; 1; 4]); (0x1ae, [1; 0; 1; 0x3a]); (0x17, first)]
  ++ map (pair 0x3c) rest.
Definition file : list Z := frame (0x0809, [0; 6; 5; 0; 0; 0; 0xcd; 7]) ++ frames records ++ frame (0x0a, []).
Definition entries : list entry := [mk_entry 0 0 0 [65]; mk_entry 0 0 1 [66]; mk_entry 0 0 0 [67]].
End Refs.

Example c51_hypotheses :
  workbook Refs.file 0 80 Refs.records /\ lists (fun _ b => Ok b) 80 None None Refs.records Refs.entries /\
  tables Refs.records Refs.references /\ supbooks Refs.records [Own; AddIns] /\
  match open_stream (fun _ b => Ok b) int_ops (fun s => s) (fun _ => 0) (fun _ => Ok 0) false (fun _ _ _ _ _ => Err XLRDError)
          50 Refs.file 0 None false true with
  | Ok a => map (get_externsheet_local_range (formulas_of (fun _ b => Ok b) a)) (zrange 0 7) =
      [Ok (0, 1); Ok (-3, -3); Ok (-5, -5); Ok (-2, -2); Ok (-4, -4); Ok (-102, -102); Ok (-101, -101)]
  | Err _ => False
  end.
Proof.
  split; [|split; [|split; [|split]]].
  - exists 12, [], []. split; [vm_compute; reflexivity|]. split; [repeat constructor; cbn; lia|]. split; [reflexivity|].
    split; [exists (firstn 12 Refs.file); split; vm_compute; reflexivity|]. repeat constructor; cbn; discriminate.
  - assert (B : forall k n, In k [0; 1] -> In n [65; 66; 67] ->
      boundsheet (fun _ b => Ok b) 80 None None (mk_entry 0 0 k [n]) (Refs.sheet k n)).
    { intros k n K NN.
      pose proof (Biff8 (fun _ b => Ok b) 80 None None (mk_entry 0 0 k [n])
                    {| us_text := [n]; us_wide := false; us_opts := 0; us_runs := None; us_phon := None |} []) as Q.
      cbn in K, NN. destruct K as [<- | [<- | []]], NN as [<- | [<- | [<- | []]]];
        (apply Q; clear Q; [lia|repeat split; cbn; lia| |reflexivity|reflexivity];
         unfold us_ok, text; cbn; repeat split; try (intros _); repeat constructor; try lia). }
    repeat (apply L_sheet; [apply B; cbn; auto|]). repeat (apply L_other; [lia|lia|]). apply L_nil.
  - apply T_other; [lia|]. apply T_other; [lia|]. apply T_other; [lia|]. apply T_other; [lia|]. apply T_other; [lia|].
    pose proof (T_table Refs.references Refs.first Refs.rest [] [] []) as Q. rewrite !app_nil_r in Q. apply Q.
    + reflexivity.
    + repeat constructor; cbn; lia.
    + vm_compute. discriminate.
    + vm_compute. reflexivity.
    + apply T_nil.
  - unfold supbooks. cbn. constructor; [apply (S_own 3 []); lia|]. constructor; [apply (S_addins [])|constructor].
  - vm_compute. reflexivity.
Qed.
