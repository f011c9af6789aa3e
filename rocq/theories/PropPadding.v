(** C100: records xlrd does not know change nothing, wherever they are. *)
From Verif Require Import Base BaseFacts Text Strings Utf16 StringFacts PropBytes Framing GridModel GridFacts PropGrid SheetObjects SheetModel SheetFacts SheetSteps
  PropSheet PropRead SheetTrace PropView PropRowCol PropLinks SheetOwn SstModel PropSst FormatModel FormatFacts PropFormat PropNumType FormulaModel CompDoc CompDocFacts CompDocOpen PropChain PropDir CompDocFull
  BookModel BookFacts PropBof PropEnc BookSheets BookRefs BookApi SheetShare
  BookHistory PropGlobals PropFormulaText PropDemand PropSheetList BookContent BookFormats BookFollow BookFine PropWorkbook PropRoundTrip PropFile PropAttrs NameValues PropStorage.

(** ** Specification *)

(** The codes of the records that count: in the globals EXTERNSHEET, NAME, DATEMODE,
    EXTERNNAME, FILEPASS, FONT, CONTINUE, CODEPAGE, WRITEACCESS, BOUNDSHEET, COUNTRY,
    SHEETSOFFSET, SHEETHDR, PALETTE, XF, SST, SUPBOOK, STYLE, FORMAT and EOF; ... *)
Definition globals_codes : list Z :=
  [0x0A; 0x17; 0x18; 0x22; 0x23; 0x2F; 0x31; 0x3C; 0x42; 0x5C; 0x85; 0x8C; 0x8E; 0x8F; 0x92; 0xE0; 0xFC; 0x1AE; 0x231; 0x293; 0x41E].
(** ... in a worksheet those of cells, rows, columns, views, page breaks, labels,
    conditional formats, merged cells, links, notes and objects, BOF and EOF, ... *)
Definition sheet_codes : list Z :=
  [0x00; 0x06; 0x09; 0x0A; 0x1A; 0x1B; 0x41; 0x55; 0x5D; 0x7D; 0x8C; 0x99; 0xA0; 0xAB; 0xBD; 0xBE; 0xD6; 0xE5; 0xFD; 0x15F; 0x1B0; 0x1B1; 0x1B6; 0x1B8;
   0x200; 0x201; 0x203; 0x204; 0x205; 0x206; 0x208; 0x209; 0x225; 0x23E; 0x27E; 0x406; 0x409; 0x800; 0x809].
(** ... and those that can belong to the record before them: CONTINUE in the globals, and in
    a worksheet also STRING, NOTE, ARRAY, SHRFMLA and TABLEOP. *)
Definition globals_attached : list Z := [0x3C].
Definition sheet_attached : list Z := [0x07; 0x1C; 0x21; 0x36; 0x37; 0x3C; 0x207; 0x221; 0x236; 0x4BC].

(** [l2] is [l1], up to [same], with more records of other kinds here and there, not
    directly before one that can belong to the record before it. *)
Inductive padded (codes attached : list Z) (same : Z * list Z -> Z * list Z -> Prop) : list (Z * list Z) -> list (Z * list Z) -> Prop :=
| Pad_nil : padded codes attached same [] []
| Pad_same : forall rc d1 d2 l1 l2, same (rc, d1) (rc, d2) -> padded codes attached same l1 l2 -> padded codes attached same ((rc, d1) :: l1) ((rc, d2) :: l2)
| Pad_more : forall rc d l1 l2, ~ In rc codes -> ~ In rc attached -> (forall rc2 d2 l3, l2 = (rc2, d2) :: l3 -> ~ In rc2 attached) ->
    padded codes attached same l1 l2 -> padded codes attached same l1 ((rc, d) :: l2).

(** The same record, or two BOUNDSHEET records that differ in the position of the sheet. *)
Definition same_record (r1 r2 : Z * list Z) : Prop :=
  r1 = r2 \/ fst r1 = 0x85 /\ fst r2 = 0x85 /\ exists p1 p2 d, zlen p1 = 4 /\ zlen p2 = 4 /\ snd r1 = p1 ++ d /\ snd r2 = p2 ++ d.

Definition padded_sheet : list (Z * list Z) -> list (Z * list Z) -> Prop := padded sheet_codes sheet_attached eq.
Definition padded_globals : list (Z * list Z) -> list (Z * list Z) -> Prop := padded globals_codes globals_attached same_record.

(** ** Proofs *)

Section Padded.
Variables codes attached : list Z.
Variable same : Z * list Z -> Z * list Z -> Prop.
Notation padded := (padded codes attached same).

(** Whether the next record can belong to the one before. *)
Definition free (l : list (Z * list Z)) : Prop := forall rc d l', l = (rc, d) :: l' -> ~ In rc attached.

Lemma padded_attached : forall rc d l1 l2, In rc attached -> padded ((rc, d) :: l1) l2 -> exists d2 l3, l2 = (rc, d2) :: l3 /\ same (rc, d) (rc, d2) /\ padded l1 l3.
Proof.
  intros rc d l1 l2 I H. remember ((rc, d) :: l1) as l eqn:EL. revert EL. induction H as [|rc' d1 d2 l l2 S H IH|rc' d' l l2 N1 N2 FR H IH]; intros EL; [discriminate| |].
  - injection EL as -> -> ->. eauto.
  - subst l. destruct (IH eq_refl) as (d2 & l3 & -> & _). exfalso. exact (FR _ _ _ eq_refl I).
Qed.

Lemma padded_free : forall l1 l2, padded l1 l2 -> free l1 -> free l2.
Proof.
  intros l1 l2 H F. destruct H as [|rc d1 d2 l1 l2 S H|rc d l1 l2 N1 N2 FR H]; intros rc' d' l' E; [discriminate| |]; injection E as <- _ _; [exact (F _ _ _ eq_refl)|exact N2].
Qed.

Lemma padded_len : forall l1 l2, padded l1 l2 -> (List.length l1 <= List.length l2)%nat.
Proof. induction 1; cbn; lia. Qed.
End Padded.

(** The same exception, or values that are related. *)
Definition both {A B} (P : A -> B -> Prop) (r1 : result A) (r2 : result B) : Prop :=
  match r1, r2 with Ok a, Ok b => P a b | Err e1, Err e2 => e1 = e2 | _, _ => False end.
Lemma both_bind : forall {A B C D} (P : A -> B -> Prop) (Q : C -> D -> Prop) r1 r2 f g,
  both P r1 r2 -> (forall a b, P a b -> both Q (f a) (g b)) -> both Q (bind r1 f) (bind r2 g).
Proof. intros A B C D P Q [a|e] [b|e2] f g H K; cbn in *; auto; contradiction. Qed.
Lemma both_const : forall {A C D} (Q : C -> D -> Prop) (r : result A) f g, (forall a, both Q (f a) (g a)) -> both Q (bind r f) (bind r g).
Proof. intros A C D Q [a|e] f g K; cbn; auto. Qed.
Lemma both_mono : forall {A B} (P Q : A -> B -> Prop) r1 r2, (forall a b, P a b -> Q a b) -> both P r1 r2 -> both Q r1 r2.
Proof. intros A B P Q [a|e] [b|e2] K H; cbn in *; auto. Qed.

(** ** A worksheet *)

Section Sheets.
Context {N : Type}.
Variable c : config N.
Notation pad := padded_sheet.

(** What is left of two worksheets. *)
Definition left_of (n1 n2 : nat) (rs1 rs2 : list record) : Prop :=
  exists l1 l2 t1 t2, pad l1 l2 /\ closed false l1 /\ (List.length l1 <= n1)%nat /\ (List.length l2 <= n2)%nat /\ rs1 = R l1 t1 /\ rs2 = R l2 t2.
Definition V {A} (f : list record -> result (A * list record)) : Prop := forall n1 n2 rs1 rs2, left_of n1 n2 rs1 rs2 ->
  both (fun x y => fst x = fst y /\ left_of n1 n2 (snd x) (snd y)) (f rs1) (f rs2).

Lemma V_ret : forall {A} (x : A), V (fun rs => Ok (x, rs)).
Proof. intros A x n1 n2 rs1 rs2 H. split; [reflexivity|exact H]. Qed.
Lemma V_err : forall {A} e, V (fun _ => (Err e : result (A * list record))).
Proof. intros A e n1 n2 rs1 rs2 H. reflexivity. Qed.
Lemma V_const : forall {A B} (r : result A) (f : A -> list record -> result (B * list record)), (forall a, V (f a)) -> V (fun rs => do a <- r; f a rs).
Proof. intros A B r f H n1 n2 rs1 rs2 L. apply both_const. intros a. apply H. exact L. Qed.
Lemma V_bind : forall {A B} (g : list record -> result (A * list record)) (f : A -> list record -> result (B * list record)),
  V g -> (forall a, V (f a)) -> V (fun rs => do (a, rs) <- g rs; f a rs).
Proof.
  intros A B g f G F n1 n2 rs1 rs2 L. eapply both_bind; [exact (G _ _ _ _ L)|]. intros [a r1] [b r2] [E L2]. cbn [fst snd] in *. subst b. apply F. exact L2.
Qed.

Lemma free_eof : ~ In 0x0A sheet_attached.
Proof. cbn. lia. Qed.

(** The next record is taken only if it can belong to the one before. *)
Lemma V_next : forall {A} (f : list record -> result (A * list record)) (g : Z -> Z -> list Z -> list record -> result (A * list record)) e,
  (forall rc len d rs, f ((rc, len, d) :: rs) = g rc len d rs) ->
  (forall rc len d rs, ~ In rc sheet_attached -> g rc len d rs = Err e) ->
  forall n1 n2 rs1 rs2, left_of n1 n2 rs1 rs2 ->
  (forall rc d m1 m2 r1 r2, (m1 < n1)%nat -> (m2 < n2)%nat -> left_of m1 m2 r1 r2 -> both (fun x y => fst x = fst y /\ left_of n1 n2 (snd x) (snd y)) (g rc (zlen d) d r1) (g rc (zlen d) d r2)) ->
  both (fun x y => fst x = fst y /\ left_of n1 n2 (snd x) (snd y)) (f rs1) (f rs2).
Proof.
  intros A f g e FG SP n1 n2 rs1 rs2 (l1 & l2 & t1 & t2 & P & C & L1 & L2 & -> & ->) H.
  assert (NO : forall l t, free sheet_attached l -> f (R l t) = Err e).
  { intros [|[rc d] l] t F; unfold R; cbn [map app]; unfold rec_of; cbn [fst snd]; rewrite FG; apply SP; [exact free_eof|exact (F _ _ _ eq_refl)]. }
  destruct l1 as [|[rc d] l1].
  { assert (F : free sheet_attached []) by (intros ? ? ? [=]). rewrite (NO _ _ F), (NO _ _ (padded_free _ _ _ _ _ P F)). reflexivity. }
  destruct (in_dec Z.eq_dec rc sheet_attached) as [I|I].
  2:{ assert (F : free sheet_attached ((rc, d) :: l1)) by (intros ? ? ? [= <- _ _]; exact I). rewrite (NO _ _ F), (NO _ _ (padded_free _ _ _ _ _ P F)). reflexivity. }
  destruct (padded_attached _ _ _ _ _ _ _ I P) as (d2 & l3 & -> & E & P2). injection E as <-.
  unfold R. cbn [map app]. unfold rec_of at 1 3. cbn [fst snd]. rewrite !FG. cbn [List.length] in L1, L2. apply (H rc d (List.length l1) (List.length l3)); [lia|lia|].
  exists l1, l3, t1, t2. split; [exact P2|]. split; [|auto].
  cbn [closed] in C. destruct (rc =? 0x0A) eqn:E; [exfalso; apply free_eof; replace 0x0A with rc by lia; exact I|].
  destruct (opens_stream rc) eqn:OS; [|exact C]. exfalso. unfold opens_stream in OS. cbn in I. lia.
Qed.

Lemma left_more : forall n1 n2 m1 m2 rs1 rs2, left_of n1 n2 rs1 rs2 -> (n1 <= m1)%nat -> (n2 <= m2)%nat -> left_of m1 m2 rs1 rs2.
Proof. intros n1 n2 m1 m2 rs1 rs2 (l1 & l2 & t1 & t2 & P & C & L1 & L2 & E) A B. exists l1, l2, t1, t2. repeat split; try tauto; lia. Qed.
Lemma both_more : forall {A} n1 n2 m1 m2 (r1 r2 : result (A * list record)), (n1 <= m1)%nat -> (n2 <= m2)%nat ->
  both (fun x y => fst x = fst y /\ left_of n1 n2 (snd x) (snd y)) r1 r2 -> both (fun x y => fst x = fst y /\ left_of m1 m2 (snd x) (snd y)) r1 r2.
Proof. intros A n1 n2 m1 m2 r1 r2 A1 A2. apply both_mono. intros a b [E L]. split; [exact E|]. eapply left_more; eassumption. Qed.
Lemma left_cons : forall n1 n2 rs1 rs2, left_of n1 n2 rs1 rs2 -> exists r1 k1 r2 k2, rs1 = r1 :: k1 /\ rs2 = r2 :: k2.
Proof. intros n1 n2 rs1 rs2 ([|[? ?] l1] & [|[? ?] l2] & t1 & t2 & _ & _ & _ & _ & -> & ->); unfold R; cbn [map app]; eauto 6. Qed.

Ltac unattached := intros; cbv beta; match goal with H : ~ In ?rc sheet_attached |- _ => cbn [sheet_attached In] in H end; unfold XL_CONTINUE, XL_NOTE, XL_STRING, XL_STRING_B2, XL_ARRAY, XL_SHRFMLA, XL_TABLEOP, XL_TABLEOP2, XL_TABLEOP_B2, XL_ARRAY2.

Lemma V_txo_text : forall cch tot text, V (fun rs => txo_text rs cch tot text).
Proof.
  intros cch tot text n1. revert tot text. induction n1 as [n1 IH] using (well_founded_induction Wf_nat.lt_wf). intros tot text n2 rs1 rs2 L.
  destruct (left_cons _ _ _ _ L) as (r1 & k1 & r2 & k2 & E1 & E2).
  destruct (tot <? cch) eqn:E; [|subst; cbn [txo_text]; rewrite E; split; [reflexivity|exact L]].
  eapply (V_next (fun rs => txo_text rs cch tot text) _ AssertionError); [intros; cbn [txo_text]; rewrite E; reflexivity| |exact L|].
  - unattached. replace (rc =? 60) with false by lia. reflexivity.
  - intros rc d m1 m2 q1 q2 M1 M2 L2. cbv beta. do 2 (apply both_const; intros ?). cbv zeta. apply both_const; intros ?. apply both_const; intros [ut en]. apply both_const; intros ?.
    eapply both_more; [| |apply (IH m1 M1); exact L2]; lia.
Qed.
Lemma V_txo_runs : forall cb tot runs, V (fun rs => txo_runs rs cb tot runs).
Proof.
  intros cch tot text n1. revert tot text. induction n1 as [n1 IH] using (well_founded_induction Wf_nat.lt_wf). intros tot text n2 rs1 rs2 L.
  destruct (left_cons _ _ _ _ L) as (r1 & k1 & r2 & k2 & E1 & E2).
  destruct (tot <? cch) eqn:E; [|subst; cbn [txo_runs]; rewrite E; split; [reflexivity|exact L]].
  eapply (V_next (fun rs => txo_runs rs cch tot text) _ AssertionError); [intros; cbn [txo_runs]; rewrite E; reflexivity| |exact L|].
  - unattached. replace (rc =? 60) with false by lia. reflexivity.
  - intros rc d m1 m2 q1 q2 M1 M2 L2. cbv beta. do 3 (apply both_const; intros ?).
    eapply both_more; [| |apply (IH m1 M1); exact L2]; lia.
Qed.
Lemma V_note_pieces : forall expected acc, V (fun rs => note_pieces rs expected acc).
Proof.
  intros ex acc n1. revert ex acc. induction n1 as [n1 IH] using (well_founded_induction Wf_nat.lt_wf). intros ex acc n2 rs1 rs2 L.
  destruct (left_cons _ _ _ _ L) as (r1 & k1 & r2 & k2 & E1 & E2).
  destruct (0 <? ex) eqn:E; [|subst; cbn [note_pieces]; rewrite E; destruct (ex =? 0); [split; [reflexivity|exact L]|reflexivity]].
  eapply (V_next (fun rs => note_pieces rs ex acc) _ AssertionError); [intros; cbn [note_pieces]; rewrite E; reflexivity| |exact L|].
  - unattached. replace (rc =? 28) with false by lia. reflexivity.
  - intros rc d m1 m2 q1 q2 M1 M2 L2. cbv beta. do 6 (apply both_const; intros ?).
    eapply both_more; [| |apply (IH m1 M1); exact L2]; lia.
Qed.
Lemma V_string_loop : forall data offset nexp nfound acc, V (fun rs => string_loop c rs data offset nexp nfound acc).
Proof.
  intros data offset nexp nf acc n1. revert data offset nf acc. induction n1 as [n1 IH] using (well_founded_induction Wf_nat.lt_wf). intros data offset nf acc n2 rs1 rs2 L.
  destruct (left_cons _ _ _ _ L) as (r1 & k1 & r2 & k2 & E1 & E2).
  set (chunk := if c_bv c >=? 80 then do b <- py_index data offset; if Z.testbit b 0 then utf16_dec (py_from data (offset + 1)) else Ok (py_from data (offset + 1)) else c_decode c (py_from data offset)).
  destruct chunk as [ch|e] eqn:EC; [|subst; cbn [string_loop]; fold chunk; rewrite EC; reflexivity].
  destruct (nf + zlen ch =? nexp) eqn:X1; [subst; cbn [string_loop]; fold chunk; rewrite EC; cbn [bind]; rewrite X1; split; [reflexivity|exact L]|].
  destruct (nf + zlen ch >? nexp) eqn:X2; [subst; cbn [string_loop]; fold chunk; rewrite EC; cbn [bind]; rewrite X1, X2; reflexivity|].
  eapply (V_next (fun rs => string_loop c rs data offset nexp nf acc) _ XLRDError); [intros; cbn [string_loop]; fold chunk; rewrite EC; cbn [bind]; rewrite X1, X2; reflexivity| |exact L|].
  - unattached. replace (rc =? 60) with false by lia. reflexivity.
  - intros rc d m1 m2 q1 q2 M1 M2 L2. cbv beta. destruct (negb (rc =? XL_CONTINUE)); [reflexivity|].
    eapply both_more; [| |apply (IH m1 M1); exact L2]; lia.
Qed.
Lemma V_contents : forall data, V (fun rs => string_record_contents c rs data).
Proof. intros data. unfold string_record_contents. apply V_const. intros. apply V_string_loop. Qed.

Lemma V_formula_string : V (formula_string c).
Proof.
  intros n1 n2 rs1 rs2 L. eapply (V_next (formula_string c) _ XLRDError); [intros; unfold formula_string; cbn [next bind]; reflexivity| |exact L|].
  - unattached. replace ((rc =? 0x207) || (rc =? 0x7)) with false by lia. replace (rc =? 0x221) with false by lia. replace (rc =? 0x4bc) with false by lia.
    replace ((rc =? 0x236) || (rc =? 0x37) || (rc =? 0x21) || (rc =? 0x36)) with false by lia. reflexivity.
  - intros rc d m1 m2 q1 q2 M1 M2 L2. cbv beta. apply (both_more m1 m2); [lia|lia|].
    destruct ((rc =? XL_STRING) || (rc =? XL_STRING_B2)); [cbn [bind]; apply (V_contents d); exact L2|].
    match goal with |- both _ (bind (bind ?r _) _) _ => destruct r as [?|e]; [|reflexivity] end. cbn [bind].
    eapply (V_next (fun rs => do (data2, rs) <- do ((rc2, _, data2), rs) <- next rs; (if (rc2 =? XL_STRING) || (rc2 =? XL_STRING_B2) then Ok (data2, rs) else Err XLRDError); string_record_contents c rs data2) _ XLRDError);
      [intros; cbn [next bind]; reflexivity| |exact L2|].
    + unattached. replace ((rc0 =? 0x207) || (rc0 =? 0x7)) with false by lia. reflexivity.
    + intros rc2 d2 o1 o2 s1 s2 O1 O2 L3. cbv beta. destruct ((rc2 =? XL_STRING) || (rc2 =? XL_STRING_B2)); [cbn [bind]; eapply both_more; [| |apply (V_contents d2); exact L3]; lia|reflexivity].
Qed.

Lemma V_plain : forall (r : result (sheet N)), V (fun rs => plain r rs).
Proof. intros r. unfold plain. apply V_const. intros. apply V_ret. Qed.

(** One record, but BOF. *)
Lemma V_step : forall sh rc len d, opens_stream rc = false -> V (fun rs => step c sh rc len d rs).
Proof.
  intros sh rc len d HB. change (is_bof_code rc = false) in HB. unfold step. rewrite HB.
  repeat match goal with
  | |- V (fun rs => plain _ rs) => apply V_plain
  | |- V (fun rs => if is_formula_code _ then _ else _) => destruct (is_formula_code rc)
  | |- V (fun rs => h_formula _ _ _ rs) => fail 1
  | |- V (fun rs => if ?b then _ else _) => destruct b
  | |- V (fun rs => Ok (_, rs)) => apply V_ret
  | |- V (fun rs => bind (need _ _) _) => apply V_const; intros _
  | |- V (fun rs => bind (handle_hlink _ _) _) => apply V_const; intros ?
  | |- V (fun rs => bind (handle_quicktip _ _) _) => apply V_const; intros ?
  end.
  - unfold h_formula. cbv zeta. do 4 (apply V_const; intros ?).
    destruct (list_eqb _ _); [|apply V_const; intros; apply V_ret]. apply V_const; intros fb.
    destruct (fb =? 0). { apply (V_bind (formula_string c) (fun strg rs => do sh <- put c sh _ _ (Some XL_CELL_TEXT) (VText strg) _; Ok (sh, rs)) V_formula_string).
                          intros s. apply V_const. intros; apply V_ret. }
    destruct (fb =? 1); [do 2 (apply V_const; intros ?); apply V_ret|]. destruct (fb =? 2); [do 2 (apply V_const; intros ?); apply V_ret|].
    destruct (fb =? 3); [apply V_const; intros; apply V_ret|]. apply V_err.
  - unfold h_txo. cbv zeta.
    assert (P : V (fun rs => handle_txo (c_bv c) d rs)).
    { unfold handle_txo. destruct (c_bv c <? 80); [apply V_ret|]. do 3 (apply V_const; intros ?).
      apply (V_bind (fun rs => txo_text rs _ 0 []) (fun text rs => do (runs, rs) <- txo_runs rs _ 0 []; Ok (Some (text, _), rs)) (V_txo_text _ _ _)). intros text.
      apply (V_bind (fun rs => txo_runs rs _ 0 []) (fun runs rs => Ok (Some (text, _), rs)) (V_txo_runs _ _ _)). intros. apply V_ret. }
    apply (V_bind _ (fun txo rs => match txo with None => Ok (sh, rs) | Some t => match o_saved (sh_obj sh) with None => Err UnboundLocalError | Some None => Ok (sh, rs) | Some (Some id) => if id =? 0 then Ok (sh, rs) else Ok (with_obj sh _, rs) end end) P).
    intros [t|]; [|apply V_ret]. destruct (o_saved (sh_obj sh)) as [[id|]|]; [destruct (id =? 0); apply V_ret|apply V_ret|apply V_err].
  - unfold h_note. cbv zeta.
    apply (V_bind (fun rs => handle_note (c_decode c) (c_bv c) (o_txos (sh_obj sh)) (o_notes (sh_obj sh)) d rs) (fun m rs => Ok (with_obj sh _, rs))); [|intros; apply V_ret].
    unfold handle_note. destruct (c_bv c <? 80).
    + do 4 (apply V_const; intros ?). cbv zeta. apply V_const; intros _.
      apply (V_bind (fun rs => note_pieces rs _ _) (fun raw rs => do text <- c_decode c raw; Ok (dset _ _ (mk_note _ _ text _ _ _ _ _ _), rs)) (V_note_pieces _ _)).
      intros raw. apply V_const; intros. apply V_ret.
    + do 5 (apply V_const; intros ?). apply V_const; intros [author endpos]. cbv zeta. apply V_const; intros _. destruct (dget Z.eqb _ _) as [[? ?]|]; [apply V_ret|apply V_ret].
Qed.

(** Records that do not count. *)
Lemma step_more : forall sh rc len d rs, ~ In rc sheet_codes -> ~ In rc sheet_attached -> step c sh rc len d rs = Ok (sh, rs).
Proof.
  intros sh rc len d rs H1 H2. unfold step, is_formula_code, is_bof_code.
  assert (NE : forall k, existsb (Z.eqb k) (sheet_codes ++ sheet_attached) = true -> rc =? k = false).
  { intros k I. apply Z.eqb_neq. intros ->. apply existsb_exists in I as (x & I & E). apply Z.eqb_eq in E. subst x. apply in_app_or in I as [I|I]; [apply H1|apply H2]; exact I. }
  clear H1 H2.
  repeat match goal with
  | |- (if rc =? ?k then _ else _) = _ => (rewrite (NE k) by reflexivity) || (destruct (rc =? k); [reflexivity|])
  | |- (if _ || _ then _ else _) = _ => rewrite !NE by reflexivity; cbn [orb]
  end. reflexivity.
Qed.

Lemma skip_more : forall l1 l2, pad l1 l2 -> closed true l1 -> exists l1' l2', pad l1' l2' /\ closed false l1' /\ (List.length l1' <= List.length l1)%nat /\ (List.length l2' <= List.length l2)%nat /\
  forall t1 t2, skip_to_eof (R l1 t1) = Ok (R l1' t1) /\ skip_to_eof (R l2 t2) = Ok (R l2' t2).
Proof.
  induction 1 as [|rc d1 d2 l1 l2 E P IH|rc d l1 l2 N1 N2 FR P IH]; intros C.
  - discriminate C.
  - injection E as <-. cbn [closed] in C. destruct (rc =? 0x0A) eqn:EO; cbn [negb] in C.
    + exists l1, l2. split; [exact P|]. split; [exact C|]. cbn [List.length]. split; [lia|]. split; [lia|]. intros t1 t2. unfold R. cbn [map app]. change (rec_of (rc, d1)) with (rc, zlen d1, d1). cbn [skip_to_eof]. change XL_EOF with 0x0A. rewrite EO. split; reflexivity.
    + destruct (IH C) as (l1' & l2' & P' & C' & A & B & H). exists l1', l2'. split; [exact P'|]. split; [exact C'|]. cbn [List.length]. split; [lia|]. split; [lia|].
      intros t1 t2. destruct (H t1 t2) as [X1 X2]. unfold R at 1 3. cbn [map app]. change (rec_of (rc, d1)) with (rc, zlen d1, d1). cbn [skip_to_eof]. change XL_EOF with 0x0A. rewrite EO. split; [exact X1|exact X2].
  - destruct (IH C) as (l1' & l2' & P' & C' & A & B & H). exists l1', l2'. split; [exact P'|]. split; [exact C'|]. cbn [List.length]. split; [lia|]. split; [lia|].
    intros t1 t2. destruct (H t1 t2) as [X1 X2]. split; [exact X1|]. unfold R at 1. cbn [map app]. unfold rec_of at 1. cbn [fst snd skip_to_eof]. change XL_EOF with 0x0A.
    replace (rc =? 0x0A) with false by (symmetry; apply Z.eqb_neq; intros ->; apply N1; cbn; tauto). exact X2.
Qed.

Lemma loop_more : forall n l1 l2 sh t1 t2 f1 f2, (List.length l1 + List.length l2 <= n)%nat -> pad l1 l2 -> closed false l1 ->
  (List.length l1 < f1)%nat -> (List.length l2 < f2)%nat -> both eq (read_loop c f1 sh (R l1 t1)) (read_loop c f2 sh (R l2 t2)).
Proof.
  induction n as [n IH] using (well_founded_induction Wf_nat.lt_wf). intros l1 l2 sh t1 t2 [|f1] [|f2] L P C F1 F2; try lia.
  destruct P as [|rc d1 d2 l1 l2 E P|rc d l1 l2 N1 N2 FR P].
  - reflexivity.
  - injection E as <-. cbn [List.length] in *. unfold R at 1 2. cbn [map app]. change (rec_of (rc, d1)) with (rc, zlen d1, d1). cbn [read_loop next bind]. change XL_EOF with 0x0A.
    cbn [closed] in C. destruct (rc =? 0x0A) eqn:EO; [reflexivity|]. fold (R l1 t1) (R l2 t2).
    destruct (opens_stream rc) eqn:OS.
    + assert (ES : forall rs, step c sh rc (zlen d1) d1 rs = do _ <- need d1 4; do rs <- skip_to_eof rs; Ok (sh, rs)).
      { intros rs. unfold opens_stream in OS. rewrite !orb_true_iff, !Z.eqb_eq in OS. destruct OS as [[[->| ->]| ->]| ->]; reflexivity. }
      rewrite !ES. destruct (need d1 4); [|reflexivity]. cbn [bind].
      destruct (skip_more _ _ P C) as (l1' & l2' & P' & C' & A & B & H). destruct (H t1 t2) as [-> ->]. cbn [bind].
      apply (IH (List.length l1' + List.length l2')%nat); try assumption; lia.
    + assert (LO : left_of (List.length l1) (List.length l2) (R l1 t1) (R l2 t2)) by (exists l1, l2, t1, t2; auto 8).
      eapply both_bind; [exact (V_step sh rc (zlen d1) d1 OS _ _ _ _ LO)|]. intros [sh1 r1] [sh2 r2] [E (k1 & k2 & u1 & u2 & P' & C' & A & B & E1 & E2)]. cbn [fst snd] in *. subst sh2 r1 r2.
      apply (IH (List.length k1 + List.length k2)%nat); try assumption; lia.
  - cbn [List.length] in *. assert (E2 : read_loop c (S f2) sh (R ((rc, d) :: l2) t2) = read_loop c f2 sh (R l2 t2)).
    { unfold R at 1. cbn [map app]. change (rec_of (rc, d)) with (rc, zlen d, d). cbn [read_loop next bind]. change XL_EOF with 0x0A.
      replace (rc =? 0x0A) with false by (symmetry; apply Z.eqb_neq; intros ->; apply N1; cbn; tauto). rewrite step_more by assumption. reflexivity. }
    rewrite E2. apply (IH (List.length l1 + List.length l2)%nat); try assumption; lia.
Qed.

Lemma read_more : forall l1 l2 k t1 t2, pad l1 l2 -> closed false l1 -> sheet_read c k (R l1 t1) = sheet_read c k (R l2 t2).
Proof.
  intros l1 l2 k t1 t2 P C. unfold sheet_read.
  assert (B : both eq (read_loop c (S (List.length (R l1 t1))) (sheet0 k) (R l1 t1)) (read_loop c (S (List.length (R l2 t2))) (sheet0 k) (R l2 t2))).
  { apply (loop_more _ l1 l2 _ _ _ _ _ (le_n _) P C); unfold R; rewrite app_length, map_length; lia. }
  unfold both in B. destruct (read_loop c (S (List.length (R l1 t1))) _ _), (read_loop c (S (List.length (R l2 t2))) _ _); try contradiction; subst; reflexivity.
Qed.
End Sheets.

(** ** The globals *)

Lemma slice_tail : forall (p1 p2 d : list Z) a b, zlen p1 = 4 -> zlen p2 = 4 -> 4 <= a -> py_slice (p1 ++ d) a b = py_slice (p2 ++ d) a b.
Proof.
  intros p1 p2 d a b H1 H2 A. unfold py_slice. rewrite !zlen_app, H1, H2. f_equal. pose proof (zlen_nonneg d).
  assert (E : forall p, zlen p = 4 -> skipn (Z.to_nat (py_bound (4 + zlen d) a)) (p ++ d) = skipn (Z.to_nat (py_bound (4 + zlen d) a) - 4) d).
  { intros p L. unfold zlen in L. rewrite skipn_app. rewrite skipn_all2 by (unfold py_bound; destruct (a <? 0) eqn:X; lia). cbn [app]. f_equal. lia. }
  rewrite !E by assumption. reflexivity.
Qed.
Lemma le_tail : forall (p1 p2 d : list Z) k a, zlen p1 = 4 -> zlen p2 = 4 -> 4 <= a -> unpack_le k (p1 ++ d) a = unpack_le k (p2 ++ d) a.
Proof. intros p1 p2 d k a H1 H2 A. unfold unpack_le. rewrite (slice_tail p1 p2 d) by assumption. reflexivity. Qed.
Lemma index_tail : forall (p1 p2 d : list Z) a, zlen p1 = 4 -> zlen p2 = 4 -> 4 <= a -> py_index (p1 ++ d) a = py_index (p2 ++ d) a.
Proof.
  intros p1 p2 d a H1 H2 A. unfold py_index. replace (a <? 0) with false by lia. rewrite !znth_app_r by lia. rewrite H1, H2. reflexivity.
Qed.
Lemma unicode_tail : forall (p1 p2 d : list Z), zlen p1 = 4 -> zlen p2 = 4 -> unpack_unicode (p1 ++ d) 6 1 = unpack_unicode (p2 ++ d) 6 1.
Proof.
  intros p1 p2 d H1 H2. unfold unpack_unicode. rewrite (le_tail p1 p2 d) by lia. destruct (unpack_le 1 (p2 ++ d) 6) as [n|]; [|reflexivity]. cbn [bind]. destruct (n =? 0); [reflexivity|].
  cbv zeta. rewrite (index_tail p1 p2 d) by lia. destruct (py_index (p2 ++ d) (6 + 1)) as [o|]; [|reflexivity]. cbn [bind].
  destruct (Z.testbit o 3), (Z.testbit o 2), (Z.testbit o 0); rewrite (slice_tail p1 p2 d) by lia; reflexivity.
Qed.
Lemma string_tail : forall dec (p1 p2 d : list Z), zlen p1 = 4 -> zlen p2 = 4 -> unpack_string dec (p1 ++ d) 6 1 = unpack_string dec (p2 ++ d) 6 1.
Proof.
  intros dec p1 p2 d H1 H2. unfold unpack_string. rewrite (le_tail p1 p2 d) by lia. destruct (unpack_le 1 (p2 ++ d) 6) as [n|]; [|reflexivity]. cbn [bind]. cbv zeta.
  rewrite (slice_tail p1 p2 d) by lia. reflexivity.
Qed.

Section Books.
Context {N : Type}.
Variable codec : list Z -> list Z -> result (list Z).
Variable ops : numops N.
Variable lower : list Z -> list Z.
Variable num8 : list Z -> N.
Variable rk : list Z -> result N.
Variable ragged : bool.
Notation loaded := (loaded (N := N)).
Notation api := (api (N := N)).
Notation book := (book N loaded).
Variable old : book -> list Z -> Z -> list Z -> Z -> result (shared * loaded).
Notation load := (load codec num8 rk ragged old).
Notation get_sheet := (get_sheet codec num8 rk ragged old).
Notation get_sheets_in := (get_sheets_in codec num8 rk ragged old).
Notation perform := (perform codec num8 rk ragged old).
Notation history := (history codec num8 rk ragged old).
Notation gstep := (gstep codec load).
Notation globals := (globals codec ops lower load).
Notation globals_end := (globals_end codec ops lower).
Notation open_stream := (open_stream codec ops lower num8 rk ragged old).

(** A book at another place, with its worksheets at other positions. *)
Definition set_posn (ps : list Z) (s : shst) : shst := mk_shst (sl_names s) (sl_visibility s) ps (sl_allmap s) (sl_num s).
Definition elsewhere (base : Z) (ps : list Z) (b : book) : book :=
  mk_book (bk_bv b) base (bk_shared b) (bk_sst b) (bk_rich b) (set_posn ps (bk_sheets b)) (bk_refs b) (bk_names b) (bk_maps b) (bk_list b) (bk_hdr b) (bk_offset b).
Definition like (b1 b2 : book) : Prop := exists base ps, b2 = elsewhere base ps b1.

Lemma like_map : forall (f : book -> result book), (forall base ps b, f (elsewhere base ps b) = rmap (elsewhere base ps) (f b)) -> forall b1 b2, like b1 b2 -> both like (f b1) (f b2).
Proof. intros f H b1 b2 (base & ps & ->). rewrite H. destruct (f b1); [exists base, ps; reflexivity|reflexivity]. Qed.

Lemma derive_else : forall base ps (b : book), derive codec (elsewhere base ps b) = rmap (elsewhere base ps) (derive codec b).
Proof. intros base ps b. unfold derive. change (bk_bv (elsewhere base ps b)) with (bk_bv b). change (bk_enc (elsewhere base ps b)) with (bk_enc b). destruct (derive_encoding codec (bk_bv b) (bk_enc b)); reflexivity. Qed.
Lemma ensure_else : forall base ps (b : book), ensure codec (elsewhere base ps b) = rmap (elsewhere base ps) (ensure codec b).
Proof. intros base ps b. unfold ensure. change (bk_bv (elsewhere base ps b)) with (bk_bv b). change (bk_enc (elsewhere base ps b)) with (bk_enc b). destruct (ensure_encoding codec (bk_bv b) (bk_enc b)); reflexivity. Qed.
Lemma format_else : forall r base ps (b : book), format_record codec (elsewhere base ps b) r = rmap (elsewhere base ps) (format_record codec b r).
Proof.
  intros r base ps b. unfold format_record. change (bk_fmt (elsewhere base ps b)) with (bk_fmt b). rewrite ensure_else.
  assert (E : forall x : result book, (do b1 <- rmap (elsewhere base ps) x; do f <- fstep (unicode codec (en_encoding (bk_enc b1))) (bk_fmt b1) r; Ok (with_fmt b1 f))
    = rmap (elsewhere base ps) (do b1 <- x; do f <- fstep (unicode codec (en_encoding (bk_enc b1))) (bk_fmt b1) r; Ok (with_fmt b1 f))).
  { intros [b1|e]; [|reflexivity]. cbn [rmap bind]. change (bk_enc (elsewhere base ps b1)) with (bk_enc b1). change (bk_fmt (elsewhere base ps b1)) with (bk_fmt b1).
    destruct (fstep _ _ _); reflexivity. }
  rewrite <- E. destruct r; try destruct (b_fmt (bk_fmt b)); reflexivity.
Qed.
Lemma end_else : forall base ps (b : book), globals_end (elsewhere base ps b) = rmap (elsewhere base ps) (globals_end b).
Proof.
  intros base ps b. unfold BookModel.globals_end. cbv zeta.
  match goal with |- bind ?x _ = rmap _ (bind ?y _) => change x with y; destruct y as [[names maps]|e]; [|reflexivity] end. cbn [bind].
  match goal with |- (if truthy ?x then _ else _) = _ => match goal with |- _ = rmap _ (if truthy ?y then _ else _) => change x with y; destruct (truthy y) end end; [reflexivity|].
  match goal with |- _ = rmap _ (derive _ ?b1) => rewrite <- (derive_else base ps b1) end. reflexivity.
Qed.

Variables m1 m2 : list Z.

(** What is left of two globals. *)
Definition ahead (n1 n2 : nat) (p1 p2 : Z) : Prop :=
  exists l1 l2 d1 d2, padded_globals l1 l2 /\ here l1 d1 m1 p1 /\ here l2 d2 m2 p2 /\ Forall framable l1 /\ Forall framable l2 /\ zlen d1 < 65536 /\ zlen d2 < 65536 /\
    Forall (fun r => fst r <> 0x0a /\ fst r <> 0x8f) l1 /\ (List.length l1 <= n1)%nat /\ (List.length l2 <= n2)%nat.

Lemma ahead_more : forall n1 n2 k1 k2 p1 p2, ahead n1 n2 p1 p2 -> (n1 <= k1)%nat -> (n2 <= k2)%nat -> ahead k1 k2 p1 p2.
Proof. intros n1 n2 k1 k2 p1 p2 (l1 & l2 & d1 & d2 & H) A B. exists l1, l2, d1, d2. repeat split; try tauto; lia. Qed.
Lemma ahead_least : forall n1 n2 p1 p2, ahead n1 n2 p1 p2 -> exists k1 k2, ahead k1 k2 p1 p2 /\ (k1 <= n1)%nat /\ (k2 <= n2)%nat /\ (k1 < S (List.length m1))%nat /\ (k2 < S (List.length m2))%nat.
Proof.
  intros n1 n2 p1 p2 (l1 & l2 & d1 & d2 & P & H1 & H2 & F1 & F2 & D1 & D2 & NE & L1 & L2). exists (List.length l1), (List.length l2). split; [exists l1, l2, d1, d2; auto 12|].
  apply (here_len codec lower num8 rk old) in H1. apply (here_len codec lower num8 rk old) in H2. auto.
Qed.

(** A CONTINUE record comes next in both or in neither. *)
Lemma ahead_continue : forall n1 n2 p1 p2, ahead n1 n2 p1 p2 ->
  (exists d k1 k2 q1 q2, (k1 < n1)%nat /\ (k2 < n2)%nat /\ ahead k1 k2 q1 q2 /\ get_record_parts m1 p1 = Ok ((0x3c, zlen d, d), q1) /\ get_record_parts m2 p2 = Ok ((0x3c, zlen d, d), q2) /\
    get_record_parts_conditional m1 p1 0x3c = Ok (Some (0x3c, zlen d, d), q1) /\ get_record_parts_conditional m2 p2 0x3c = Ok (Some (0x3c, zlen d, d), q2)) \/
  (get_record_parts_conditional m1 p1 0x3c = Ok (None, p1) /\ get_record_parts_conditional m2 p2 0x3c = Ok (None, p2) /\
   (exists rc n d q, rc <> 0x3c /\ get_record_parts m1 p1 = Ok ((rc, n, d), q)) /\ (exists rc n d q, rc <> 0x3c /\ get_record_parts m2 p2 = Ok ((rc, n, d), q))).
Proof.
  intros n1 n2 p1 p2 (l1 & l2 & d1 & d2 & P & H1 & H2 & F1 & F2 & D1 & D2 & NE & L1 & L2).
  assert (NO : forall l d m p, free globals_attached l -> here l d m p -> Forall framable l -> zlen d < 65536 ->
    get_record_parts_conditional m p 0x3c = Ok (None, p) /\ exists rc n d q, rc <> 0x3c /\ get_record_parts m p = Ok ((rc, n, d), q)).
  { intros [|[rc d] l] e m p FR H F D.
    - destruct (here_nil codec lower num8 rk old _ _ _ H D) as (G & GC). split; [rewrite GC; reflexivity|]. eexists _, _, _, _. split; [|exact G]. lia.
    - inversion F as [|? ? FF _]; subst. destruct (here_cons _ _ _ _ _ _ H FF) as (G & _ & GC). assert (rc <> 0x3c) by (intros ->; apply (FR _ _ _ eq_refl); cbn; tauto).
      split; [rewrite GC; replace (rc =? 0x3c) with false by lia; reflexivity|]. eexists _, _, _, _. split; [|exact G]. assumption. }
  assert (CASE : free globals_attached l1 \/ exists d l, l1 = (0x3c, d) :: l).
  { destruct l1 as [|[rc d] l]; [left; intros ? ? ? [=]|]. destruct (Z.eq_dec rc 0x3c) as [->|NC]; [right; eauto|left]. intros ? ? ? [= <- _ _] [I|[]]. congruence. }
  destruct CASE as [FR|(d & l & ->)].
  - right. pose proof (padded_free _ _ _ _ _ P FR) as FR2. destruct (NO _ _ _ _ FR H1 F1 D1) as [A1 B1]. destruct (NO _ _ _ _ FR2 H2 F2 D2) as [A2 B2]. auto.
  - left. assert (IC : In 0x3c globals_attached) by (left; reflexivity). destruct (padded_attached _ _ _ _ _ _ _ IC P) as (e & l3 & -> & SR & P2).
    assert (e = d) as -> by (destruct SR as [E|[E _]]; [injection E as <-; reflexivity|discriminate E]).
    inversion F1 as [|? ? G1 G2]; subst. inversion F2 as [|? ? G3 G4]; subst. inversion NE; subst.
    destruct (here_cons _ _ _ _ _ _ H1 G1) as (X1 & X2 & X3). destruct (here_cons _ _ _ _ _ _ H2 G3) as (Y1 & Y2 & Y3).
    exists d, (List.length l), (List.length l3). eexists _, _. cbn [List.length] in L1, L2. split; [lia|]. split; [lia|]. split; [exists l, l3, d1, d2; split; [exact P2|]; split; [exact X2|]; split; [exact Y2|]; auto 8|].
    split; [exact X1|]. split; [exact Y1|]. rewrite X3, Y3. split; reflexivity.
Qed.

Lemma collect_more : forall n1 n2 p1 p2 acc f1 f2, ahead n1 n2 p1 p2 -> (n1 < f1)%nat -> (n2 < f2)%nat ->
  exists acc' q1 q2, collect_continue f1 m1 p1 acc = Ok (acc', q1) /\ collect_continue f2 m2 p2 acc = Ok (acc', q2) /\ ahead n1 n2 q1 q2.
Proof.
  induction n1 as [n1 IH] using (well_founded_induction Wf_nat.lt_wf). intros n2 p1 p2 acc [|f1] [|f2] A L1 L2; try lia. cbn [collect_continue].
  destruct (ahead_continue _ _ _ _ A) as [(d & k1 & k2 & q1 & q2 & K1 & K2 & A2 & _ & _ & -> & ->)|(-> & -> & _)].
  - destruct (IH k1 K1 k2 q1 q2 (acc ++ [d]) f1 f2 A2 ltac:(lia) ltac:(lia)) as (acc' & r1 & r2 & E1 & E2 & A3). exists acc', r1, r2. split; [exact E1|]. split; [exact E2|]. eapply ahead_more; [exact A3|lia|lia].
  - exists acc, p1, p2. auto.
Qed.

Lemma externsheet_more : forall n1 n2 p1 p2 reqd data f1 f2, ahead n1 n2 p1 p2 -> (n1 < f1)%nat -> (n2 < f2)%nat ->
  both (fun x y => fst x = fst y /\ ahead n1 n2 (snd x) (snd y)) (externsheet_body f1 m1 p1 reqd data) (externsheet_body f2 m2 p2 reqd data).
Proof.
  induction n1 as [n1 IH] using (well_founded_induction Wf_nat.lt_wf). intros n2 p1 p2 reqd data [|f1] [|f2] A L1 L2; try lia. cbn [externsheet_body].
  destruct (negb (zlen data <? reqd)); [split; [reflexivity|exact A]|].
  destruct (ahead_continue _ _ _ _ A) as [(d & k1 & k2 & q1 & q2 & K1 & K2 & A2 & -> & -> & _)|(_ & _ & (rc1 & ? & ? & ? & N1 & ->) & (rc2 & ? & ? & ? & N2 & ->))]; cbn [bind].
  - change (negb (0x3c =? XL_CONTINUE)) with false. cbv iota. eapply both_mono; [|apply (IH k1 K1 k2); [exact A2|lia|lia]]. intros [x1 x2] [y1 y2] [E A3]. split; [exact E|]. eapply ahead_more; [exact A3|lia|lia].
  - unfold XL_CONTINUE. replace (rc1 =? 60) with false by lia. replace (rc2 =? 60) with false by lia. reflexivity.
Qed.

Definition next_like (n1 n2 : nat) (x y : book * Z) : Prop := like (fst x) (fst y) /\ ahead n1 n2 (snd x) (snd y).

Lemma boundsheet_more : forall bv base1 base2 offset enc s ps data1 data2, bv =? 45 = false -> same_record (0x85, data1) (0x85, data2) ->
  both (fun x y => exists ps', y = set_posn ps' x) (handle_boundsheet codec bv base1 offset enc s data1) (handle_boundsheet codec bv base2 offset enc (set_posn ps s) data2).
Proof.
  intros bv base1 base2 offset enc s ps data1 data2 V SR. unfold handle_boundsheet. rewrite V.
  assert (E : need data1 6 = need data2 6 /\ (forall x, need data1 6 = Ok x -> exists o1 o2, unpack_i32 data1 0 = Ok o1 /\ unpack_i32 data2 0 = Ok o2) /\ unpack_le 1 data1 4 = unpack_le 1 data2 4 /\ unpack_le 1 data1 5 = unpack_le 1 data2 5 /\
    (if bv <? 80 then unpack_string (unicode codec enc) data1 6 1 else unpack_unicode data1 6 1) = (if bv <? 80 then unpack_string (unicode codec enc) data2 6 1 else unpack_unicode data2 6 1)).
  { assert (Q : forall p d : list Z, zlen p = 4 -> exists o, unpack_i32 (p ++ d) 0 = Ok o).
    { intros p d L. unfold unpack_i32, unpack_le. rewrite (At_slice (p ++ d) p d 0 (0 + 4)); [|apply At_0|lia]. rewrite L. cbn. eauto. }
    destruct SR as [E|(_ & _ & p1 & p2 & d & L1 & L2 & E1 & E2)].
    - injection E as <-. split; [reflexivity|]. split; [|auto]. intros x NX. unfold need in NX. rewrite py_slice_len in NX. pose proof (zlen_nonneg data1).
      assert (LD : 6 <= zlen data1) by (unfold py_bound in NX; cbn [Z.ltb Z.compare] in NX; destruct (_ =? 6) eqn:X in NX; [lia|discriminate NX]). destruct (Q (firstn 4 data1) (skipn 4 data1)) as (o & EO); [unfold zlen in *; rewrite firstn_length; lia|].
      rewrite firstn_skipn in EO. eauto.
    - cbn [snd] in E1, E2. subst. split; [unfold need; rewrite !py_slice_len, !zlen_app, L1, L2; reflexivity|]. split; [intros x _; destruct (Q p1 d L1) as (o1 & O1); destruct (Q p2 d L2) as (o2 & O2); eauto|].
      rewrite !(le_tail p1 p2 d) by lia. rewrite (unicode_tail p1 p2 d), (string_tail _ p1 p2 d) by assumption. auto. }
  destruct E as (<- & EO & <- & <- & <-). destruct (need data1 6) as [x|]; [|reflexivity]. destruct (EO x eq_refl) as (o1 & o2 & -> & ->). cbn [bind].
  destruct (unpack_le 1 data1 4) as [v|]; [|reflexivity]. cbn [bind]. destruct (unpack_le 1 data1 5) as [t|]; [|reflexivity]. cbn [bind].
  match goal with |- context [bind (bind ?r _) _] => destruct r as [name|]; [|reflexivity] end. cbn [bind].
  destruct (negb (t =? 0)); cbn [both]; unfold set_posn; cbn [sl_names sl_visibility sl_posn sl_allmap sl_num]; eexists; reflexivity.
Qed.

Lemma gstep_more : forall n1 n2 b1 b2 rc data1 data2 p1 p2, like b1 b2 -> 50 <= bk_bv b1 -> rc <> 0x8f -> same_record (rc, data1) (rc, data2) -> ahead n1 n2 p1 p2 ->
  both (next_like n1 n2) (gstep b1 m1 p1 rc data1) (gstep b2 m2 p2 rc data2).
Proof.
  intros n1 n2 b1 b2 rc data1 data2 p1 p2 LK V NH SR A.
  assert (Stay : forall f g, both like (f b1) (g b2) -> both (next_like n1 n2) (do b <- f b1; Ok (b, p1)) (do b <- g b2; Ok (b, p2))).
  { intros f g H. eapply both_bind; [exact H|]. intros x y L. split; [exact L|exact A]. }
  assert (Map : forall f : book -> result book, (forall base ps b, f (elsewhere base ps b) = rmap (elsewhere base ps) (f b)) -> both (next_like n1 n2) (do b <- f b1; Ok (b, p1)) (do b <- f b2; Ok (b, p2))).
  { intros f H. apply Stay. apply like_map; assumption. }
  destruct (Z.eq_dec rc 0x85) as [->|NB].
  { unfold BookModel.gstep. cbv zeta.
    do 5 (match goal with |- both _ (if ?x then _ else _) _ => change x with false || change x with true; cbv iota end).
    apply (Stay (fun b => do b <- derive codec b; do s <- handle_boundsheet codec (bk_bv b) (bk_base b) (bk_offset b) (en_encoding (bk_enc b)) (bk_sheets b) data1; Ok (with_sheets b s))
                (fun b => do b <- derive codec b; do s <- handle_boundsheet codec (bk_bv b) (bk_base b) (bk_offset b) (en_encoding (bk_enc b)) (bk_sheets b) data2; Ok (with_sheets b s))).
    destruct LK as (base & ps & ->). rewrite derive_else. destruct (derive codec b1) as [b|e] eqn:D; [|reflexivity]. cbn [rmap bind].
    assert (VB : bk_bv b = bk_bv b1) by (unfold derive in D; apply bind_ok in D as (? & _ & D); injection D as <-; reflexivity).
    change (bk_bv (elsewhere base ps b)) with (bk_bv b). change (bk_offset (elsewhere base ps b)) with (bk_offset b). change (bk_enc (elsewhere base ps b)) with (bk_enc b). change (bk_sheets (elsewhere base ps b)) with (set_posn ps (bk_sheets b)).
    eapply both_bind; [apply boundsheet_more; [lia|exact SR]|]. intros s s' (ps' & ->). exists base, ps'. reflexivity. }
  assert (data2 = data1) as -> by (destruct SR as [E|[E _]]; [injection E as <-; reflexivity|cbn [fst] in E; congruence]). clear SR.
  destruct (ahead_least _ _ _ _ A) as (k1 & k2 & AK & K1 & K2 & KM1 & KM2).
  unfold BookModel.gstep. cbv zeta.
  destruct (rc =? 0xfc).
  { unfold handle_sst. destruct (unpack_i32 data1 4) as [u|e]; [|reflexivity]. cbn [bind].
    destruct (collect_more k1 k2 p1 p2 [] _ _ AK KM1 KM2) as (acc & q1 & q2 & -> & -> & A2). cbn [bind].
    destruct (unpack_SST_table data1 acc u) as [[st ru]|e]; [|reflexivity]. cbn [bind]. split; [|eapply ahead_more; eassumption].
    destruct LK as (base & ps & ->). exists base, ps. reflexivity. }
  destruct ((rc =? 0x31) || (rc =? 0x231)); [apply (Map (fun b => format_record codec b (RFont data1))), format_else|].
  destruct (rc =? 0x41e); [apply (Map (fun b => format_record codec b (RFormat data1 false))), format_else|].
  destruct (rc =? 0xe0); [apply (Map (fun b => format_record codec b (RXf data1))), format_else|].
  replace (rc =? 0x85) with false by lia.
  destruct (rc =? 0x22).
  { apply (Map (fun b => handle_datemode b data1)). intros base ps b. unfold handle_datemode. destruct (unpack_u16 data1 0); [|reflexivity]. cbn [bind]. destruct (guard _ _); reflexivity. }
  destruct (rc =? 0x42).
  { apply (Map (fun b => do s <- handle_codepage codec (bk_bv b) (bk_enc b) data1; Ok (with_enc b s))). intros base ps b.
    change (bk_bv (elsewhere base ps b)) with (bk_bv b). change (bk_enc (elsewhere base ps b)) with (bk_enc b). destruct (handle_codepage _ _ _ _); reflexivity. }
  destruct (rc =? 0x8c).
  { apply (Map (fun b => handle_country b data1)). intros base ps b. unfold handle_country. destruct (need data1 4); [|reflexivity]. cbn [bind].
    destruct (unpack_u16 data1 0); [|reflexivity]. cbn [bind]. destruct (unpack_u16 data1 2); [|reflexivity]. cbn [bind].
    change (bk_shared (elsewhere base ps b)) with (bk_shared b). destruct (guard _ _); reflexivity. }
  destruct (rc =? 0x23).
  { apply (Map (fun b => do r <- handle_externname (bk_bv b) (bk_refs b) data1; Ok (with_refs b r))). intros base ps b.
    change (bk_bv (elsewhere base ps b)) with (bk_bv b). change (bk_refs (elsewhere base ps b)) with (bk_refs b). destruct (handle_externname _ _ _); reflexivity. }
  destruct (rc =? 0x17).
  { destruct LK as (base & ps & ->). rewrite derive_else. destruct (derive codec b1) as [b|e] eqn:D; [|reflexivity]. cbn [rmap bind].
    change (bk_bv (elsewhere base ps b)) with (bk_bv b). change (bk_enc (elsewhere base ps b)) with (bk_enc b). change (bk_refs (elsewhere base ps b)) with (bk_refs b).
    apply (both_bind (fun x y => fst x = fst y /\ ahead n1 n2 (snd x) (snd y))).
    2:{ intros [x1 x2] [y1 y2] [E1 E2]. cbn [fst snd] in *. subst y1. split; [|exact E2]. exists base, ps. reflexivity. }
    unfold handle_externsheet. destruct (bk_bv b >=? 80).
    - apply both_const. intros n. eapply both_bind; [exact (externsheet_more k1 k2 p1 p2 _ data1 _ _ AK KM1 KM2)|]. intros [x1 x2] [y1 y2] [E1 E2]. cbn [fst snd] in *. subst y1.
      apply both_const. intros tr. split; [reflexivity|]. eapply ahead_more; eassumption.
    - do 4 (apply both_const; intros ?). split; [reflexivity|exact A]. }
  destruct (rc =? 0x2f); [reflexivity|].
  destruct (rc =? 0x5c).
  { apply (Map (fun b => do s <- handle_writeaccess codec (bk_bv b) (bk_enc b) data1; Ok (with_enc b s))). intros base ps b.
    change (bk_bv (elsewhere base ps b)) with (bk_bv b). change (bk_enc (elsewhere base ps b)) with (bk_enc b). destruct (handle_writeaccess _ _ _ _); reflexivity. }
  destruct (rc =? 0x8e).
  { apply (Map (fun b => do _ <- guard (zlen data1 =? 4) StructError; do o <- unpack_i32 data1 0; Ok (with_offset b o))). intros base ps b.
    destruct (guard _ _); [|reflexivity]. cbn [bind]. destruct (unpack_i32 data1 0); reflexivity. }
  replace (rc =? 0x8f) with false by lia.
  destruct (rc =? 0x1ae).
  { apply (Map (fun b => do r <- handle_supbook (bk_refs b) data1; Ok (with_refs b r))). intros base ps b.
    change (bk_refs (elsewhere base ps b)) with (bk_refs b). destruct (handle_supbook _ _); reflexivity. }
  destruct (rc =? 0x18).
  { assert (V2 : bk_bv b2 = bk_bv b1) by (destruct LK as (base & ps & ->); reflexivity). rewrite V2. replace (bk_bv b1 <? 50) with false by lia.
    apply (Map (fun b => do b <- derive codec b; do n <- handle_name codec (bk_bv b) (en_encoding (bk_enc b)) data1; Ok (with_names b (bk_names b ++ [n])))).
    intros base ps b. rewrite derive_else. destruct (derive codec b) as [b'|e]; [|reflexivity]. cbn [rmap bind].
    change (bk_bv (elsewhere base ps b')) with (bk_bv b'). change (bk_enc (elsewhere base ps b')) with (bk_enc b'). destruct (handle_name _ _ _ _); reflexivity. }
  destruct (rc =? 0x92); [apply (Map (fun b => format_record codec b (RPalette data1))), format_else|].
  destruct (rc =? 0x293); [apply (Map (fun b => format_record codec b (RStyle data1))), format_else|].
  split; [exact LK|exact A].
Qed.

(** Records that do not count. *)
Lemma gstep_ignored : forall (b : book) m p rc d, ~ In rc globals_codes -> gstep b m p rc d = Ok (b, p).
Proof.
  intros b m p rc d H. assert (NE : forall k, In k globals_codes -> rc =? k = false) by (intros k I; apply Z.eqb_neq; intros ->; exact (H I)).
  unfold BookModel.gstep. cbv zeta.
  repeat match goal with
  | |- (if _ || _ then _ else _) = _ => rewrite !NE by (cbn; tauto); cbn [orb]
  | |- (if rc =? ?k then _ else _) = _ => rewrite (NE k) by (cbn; tauto)
  end. reflexivity.
Qed.

Lemma globals_more : forall n n1 n2 b1 b2 p1 p2 f1 f2, (n1 + n2 <= n)%nat -> like b1 b2 -> 50 <= bk_bv b1 -> ahead n1 n2 p1 p2 -> (n1 < f1)%nat -> (n2 < f2)%nat ->
  both (fun x y => like (fst x) (fst y)) (globals f1 b1 m1 p1) (globals f2 b2 m2 p2).
Proof.
  induction n as [n IH] using (well_founded_induction Wf_nat.lt_wf). intros n1 n2 b1 b2 p1 p2 [|f1] [|f2] L LK V A L1 L2; try lia.
  destruct A as (l1 & l2 & d1 & d2 & P & H1 & H2 & F1 & F2 & D1 & D2 & NE & N1 & N2).
  destruct P as [|rc e1 e2 l1 l2 SR P|rc d l1 l2 C1 C2 FR P].
  - destruct (here_nil codec lower num8 rk old _ _ _ H1 D1) as (G1 & _). destruct (here_nil codec lower num8 rk old _ _ _ H2 D2) as (G2 & _).
    cbn [BookModel.globals]. rewrite G1, G2. cbn [bind]. change (10 =? 0x0a) with true. cbv iota.
    eapply both_bind; [apply like_map; [exact end_else|exact LK]|]. intros x y E. exact E.
  - inversion F1 as [|? ? X1 X2]; subst. inversion F2 as [|? ? Y1 Y2]; subst. inversion NE as [|? ? [Z1 Z2] Z3]; subst. cbn [fst] in Z1, Z2. cbn [List.length] in N1, N2.
    destruct (here_cons _ _ _ _ _ _ H1 X1) as (G1 & K1 & _). destruct (here_cons _ _ _ _ _ _ H2 Y1) as (G2 & K2 & _).
    cbn [BookModel.globals]. rewrite G1, G2. cbn [bind]. replace (rc =? 0x0a) with false by lia.
    assert (A : ahead (List.length l1) (List.length l2) (p1 + zlen (frame (rc, e1))) (p2 + zlen (frame (rc, e2)))) by (exists l1, l2, d1, d2; auto 12).
    pose proof (gstep_more _ _ b1 b2 rc e1 e2 _ _ LK V Z2 SR A) as S.
    destruct (gstep b1 m1 (p1 + zlen (frame (rc, e1))) rc e1) as [[b1' q1]|x] eqn:ES, (gstep b2 m2 (p2 + zlen (frame (rc, e2))) rc e2) as [[b2' q2]|y]; cbn [both] in S; try contradiction; [|subst; reflexivity].
    destruct S as [LK' A']. cbn [fst snd] in LK', A'. cbn [bind]. apply gstep_version in ES; [|exact Z2].
    apply (IH (List.length l1 + List.length l2)%nat ltac:(lia) (List.length l1) (List.length l2)); [lia|exact LK'|lia|exact A'|lia|lia].
  - inversion F2 as [|? ? Y1 Y2]; subst. cbn [List.length] in N2. destruct (here_cons _ _ _ _ _ _ H2 Y1) as (G2 & K2 & _).
    assert (E : globals (S f2) b2 m2 p2 = globals f2 b2 m2 (p2 + zlen (frame (rc, d)))).
    { cbn [BookModel.globals]. rewrite G2. cbn [bind]. replace (rc =? 0x0a) with false by (symmetry; apply Z.eqb_neq; intros ->; apply C1; cbn; tauto). rewrite gstep_ignored by exact C1. reflexivity. }
    rewrite E. apply (IH (List.length l1 + List.length l2)%nat ltac:(lia) (List.length l1) (List.length l2)); [lia|exact LK|exact V|exists l1, l2, d1, d2; auto 12|lia|lia].
Qed.

(** ** Worksheets and calls *)

(** The same worksheet at two positions, but for records that do not count. *)
Definition at_both (p1 p2 : Z) : Prop := exists recs1 recs2 v1 v2 q1 q2 t1 t2, padded_sheet recs1 recs2 /\ closed false recs1 /\
  getbof m1 p1 XL_WORKSHEET = Ok (v1, q1) /\ getbof m2 p2 XL_WORKSHEET = Ok (v2, q2) /\
  records_of (S (2 * List.length m1)) m1 q1 = R recs1 t1 /\ records_of (S (2 * List.length m2)) m2 q2 = R recs2 t2.
Definition twins (b1 b2 : book) : Prop := like b1 b2 /\ 50 <= bk_bv b1 /\ Forall2 at_both (sl_posn (bk_sheets b1)) (sl_posn (bk_sheets b2)).

Lemma index_both : forall {A B} (P : A -> B -> Prop) l1 l2 i, Forall2 P l1 l2 -> both P (py_index l1 i) (py_index l2 i).
Proof.
  intros A B P l1 l2 i F. assert (L : zlen l1 = zlen l2) by (unfold zlen; clear - F; induction F; cbn [List.length]; lia).
  rewrite !py_index_norm, <- L. generalize (norm (zlen l1) i). clear L. induction F as [|a b l1 l2 H F IH]; intros j; cbn [znth].
  - destruct (znth (@nil A) j) eqn:X; [|destruct (znth (@nil B) j) eqn:Y; [|reflexivity]]; exfalso; [unfold znth in X|unfold znth in Y]; destruct (_ <? _); destruct (Z.to_nat j); discriminate.
  - unfold znth in *. destruct (j <? 0) eqn:X; [reflexivity|]. destruct (Z.to_nat j) as [|n] eqn:Y; cbn [nth_error]; [exact H|].
    specialize (IH (Z.of_nat n)). replace (Z.of_nat n <? 0) with false in IH by lia. rewrite Nat2Z.id in IH. exact IH.
Qed.

Lemma sheet_both : forall b1 b2 i, twins b1 b2 -> both (fun x y => twins (fst x) (fst y) /\ snd x = snd y) (get_sheet b1 m1 i) (get_sheet b2 m2 i).
Proof.
  intros b1 b2 i (LK & V & F). unfold BookApi.get_sheet.
  eapply both_bind; [exact (index_both _ _ _ i F)|]. intros p1 p2 (recs1 & recs2 & v1 & v2 & q1 & q2 & t1 & t2 & P & C & G1 & G2 & R1 & R2). rewrite G1, G2. cbn [bind].
  destruct LK as (base & ps & EB). assert (EN : sl_names (bk_sheets b2) = sl_names (bk_sheets b1)) by (subst b2; reflexivity). rewrite EN. apply both_const. intros name.
  apply (both_bind eq).
  - unfold BookApi.load. assert (EV : bk_bv b2 = bk_bv b1) by (subst b2; reflexivity). rewrite EV. replace (bk_bv b1 <=? 45) with false by lia.
    assert (ES : sl_visibility (bk_sheets b2) = sl_visibility (bk_sheets b1)) by (subst b2; reflexivity). rewrite ES. apply both_const. intros vis. cbv zeta.
    assert (EC : config_of codec num8 rk ragged b2 = config_of codec num8 rk ragged b1) by (subst b2; reflexivity). rewrite EC.
    assert (EG : bk_shared b2 = bk_shared b1) by (subst b2; reflexivity). rewrite EG. rewrite R1, R2, (read_more _ recs1 recs2 _ t1 t2 P C). apply both_const. intros sh. reflexivity.
  - intros [g sh] [g2 sh2] [= <- <-]. assert (EL : bk_list b2 = bk_list b1) by (subst b2; reflexivity). rewrite EL. apply both_const. intros l. cbn [both fst snd]. split; [|reflexivity].
    split; [subst b2; exists base, ps; reflexivity|]. split; [exact V|exact F].
Qed.

Lemma sheets_both : forall numbers b1 b2, twins b1 b2 -> both twins (get_sheets_in b1 m1 numbers) (get_sheets_in b2 m2 numbers).
Proof.
  induction numbers as [|i numbers IH]; intros b1 b2 T; cbn [BookApi.get_sheets_in]; [exact T|].
  eapply both_bind; [exact (sheet_both b1 b2 i T)|]. intros [x1 x2] [y1 y2] [T2 _]. apply IH. exact T2.
Qed.

Definition twin_apis (a1 a2 : api) : Prop := exists b1 b2 (alive : bool), twins b1 b2 /\ a1 = mk_api b1 (if alive then Some m1 else None) /\ a2 = mk_api b2 (if alive then Some m2 else None).
Definition agree {A} (x y : A * api) : Prop := fst x = fst y /\ twin_apis (snd x) (snd y).

Lemma twin_list : forall a1 a2, twin_apis a1 a2 -> bk_list (a_book a2) = bk_list (a_book a1).
Proof. intros a1 a2 (b1 & b2 & al & ((base & ps & ->) & _) & -> & ->). reflexivity. Qed.
Lemma twin_names : forall a1 a2, twin_apis a1 a2 -> sl_names (bk_sheets (a_book a2)) = sl_names (bk_sheets (a_book a1)).
Proof. intros a1 a2 (b1 & b2 & al & ((base & ps & ->) & _) & -> & ->). reflexivity. Qed.
Lemma agree_same : forall {A} (r : A) a1 a2, twin_apis a1 a2 -> agree (r, a1) (r, a2).
Proof. intros A r a1 a2 T. split; [reflexivity|exact T]. Qed.

Lemma agree_get : forall after a1 a2 i, twin_apis a1 a2 -> agree (m_get_sheet codec num8 rk ragged old after a1 i) (m_get_sheet codec num8 rk ragged old after a2 i).
Proof.
  intros after a1 a2 i (b1 & b2 & al & T & -> & ->). unfold m_get_sheet. cbn [a_mem a_book]. destruct al; [|apply agree_same; exists b1, b2, false; auto].
  pose proof (sheet_both b1 b2 i T) as H. destruct (get_sheet b1 m1 i) as [[x sh]|e], (get_sheet b2 m2 i) as [[y sh2]|e2]; cbn [both] in H; try contradiction.
  - destruct H as [T2 E]. cbn [fst snd] in *. subst. split; [reflexivity|]. exists x, y, true. auto.
  - subst. split; [reflexivity|]. destruct T as ((base & ps & ->) & V & F).
    exists (set_countries b1 (countries_after after b1)), (set_countries (elsewhere base ps b1) (countries_after after (elsewhere base ps b1))), true. split; [|auto]. split; [exists base, ps; reflexivity|]. split; [exact V|exact F].
Qed.
Lemma agree_index : forall after a1 a2 i, twin_apis a1 a2 -> agree (m_sheet_by_index codec num8 rk ragged old after a1 i) (m_sheet_by_index codec num8 rk ragged old after a2 i).
Proof.
  intros after a1 a2 i T. unfold m_sheet_by_index. rewrite (twin_list _ _ T). destruct (py_index (bk_list (a_book a1)) i) as [[sh|]|e]; [apply agree_same; exact T|apply agree_get; exact T|apply agree_same; exact T].
Qed.
Lemma agree_iterate : forall after numbers a1 a2, twin_apis a1 a2 -> agree (m_iterate codec num8 rk ragged old after a1 numbers) (m_iterate codec num8 rk ragged old after a2 numbers).
Proof.
  intros after. induction numbers as [|i numbers IH]; intros a1 a2 T; cbn [m_iterate]; [apply agree_same; exact T|].
  pose proof (agree_index after a1 a2 i T) as [E T2]. destruct (m_sheet_by_index _ _ _ _ _ after a1 i) as [r1 x1], (m_sheet_by_index _ _ _ _ _ after a2 i) as [r2 x2]. cbn [fst snd] in *. subst r2.
  destruct r1 as [sh|e]; [|apply agree_same; exact T2]. pose proof (IH x1 x2 T2) as [E3 T3]. destruct (m_iterate _ _ _ _ _ after x1 numbers) as [r1 y1], (m_iterate _ _ _ _ _ after x2 numbers) as [r2 y2]. cbn [fst snd] in *. subst r2.
  destruct r1; apply agree_same; exact T3.
Qed.
Lemma agree_all : forall after numbers a1 a2, twin_apis a1 a2 -> agree (m_load_all codec num8 rk ragged old after a1 numbers) (m_load_all codec num8 rk ragged old after a2 numbers).
Proof.
  intros after. induction numbers as [|i numbers IH]; intros a1 a2 T; cbn [m_load_all]; [apply agree_same; exact T|].
  rewrite (twin_list _ _ T). destruct (py_index (bk_list (a_book a1)) i) as [[sh|]|e]; [apply IH; exact T| |apply agree_same; exact T].
  pose proof (agree_get after a1 a2 i T) as [E T2]. destruct (m_get_sheet _ _ _ _ _ after a1 i) as [r1 x1], (m_get_sheet _ _ _ _ _ after a2 i) as [r2 x2]. cbn [fst snd] in *. subst r2.
  destruct r1 as [sh|e]; [apply IH; exact T2|apply agree_same; exact T2].
Qed.
Lemma agree_unload : forall a1 a2 i, twin_apis a1 a2 -> agree (m_unload a1 i) (m_unload a2 i).
Proof.
  intros a1 a2 i T. unfold m_unload. rewrite (twin_list _ _ T). destruct (list_set (bk_list (a_book a1)) i None) as [l|e]; [|apply agree_same; exact T].
  destruct T as (b1 & b2 & al & ((base & ps & ->) & V & F) & -> & ->). split; [reflexivity|]. cbn [fst snd a_book a_mem]. exists (with_list b1 l), (with_list (elsewhere base ps b1) l), al. split; [|auto]. split; [exists base, ps; reflexivity|]. split; [exact V|exact F].
Qed.
Lemma agree_got : forall x y, agree x y -> agree (got x) (got y).
Proof. intros [r1 a1] [r2 a2] [E T]. cbn [fst snd] in *. subst r2. destruct r1; apply agree_same; exact T. Qed.

Lemma agree_perform : forall after a1 a2 q, twin_apis a1 a2 -> agree (perform after a1 q) (perform after a2 q).
Proof.
  intros after a1 a2 q T. unfold BookApi.perform. cbv zeta. rewrite (twin_names _ _ T).
  assert (NS : nsheets a2 = nsheets a1) by (unfold nsheets; rewrite (twin_list _ _ T); reflexivity). rewrite NS.
  assert (ML : forall i, m_loaded a2 i = m_loaded a1 i) by (intros i; unfold m_loaded; rewrite (twin_list _ _ T); reflexivity).
  destruct q as [i|name| | |i|name|i|name|].
  - apply agree_got, agree_index. exact T.
  - destruct (index_of _ name) as [i|e]; [apply agree_got, agree_index; exact T|apply agree_same; exact T].
  - pose proof (agree_all after (zrange 0 (nsheets a1)) a1 a2 T) as [E T2]. destruct (m_load_all _ _ _ _ _ after a1 _) as [r1 x1], (m_load_all _ _ _ _ _ after a2 _) as [r2 x2]. cbn [fst snd] in *. subst r2.
    destruct r1; [rewrite (twin_list _ _ T2)|]; apply agree_same; exact T2.
  - pose proof (agree_iterate after (zrange 0 (nsheets a1)) a1 a2 T) as [E T2]. destruct (m_iterate _ _ _ _ _ after a1 _) as [r1 x1], (m_iterate _ _ _ _ _ after a2 _) as [r2 x2]. cbn [fst snd] in *. subst r2.
    destruct r1; apply agree_same; exact T2.
  - rewrite ML. apply agree_same. exact T.
  - destruct (index_of _ name) as [i|e]; [rewrite ML|]; apply agree_same; exact T.
  - apply agree_unload. exact T.
  - destruct (index_of _ name) as [i|e]; [apply agree_unload|apply agree_same]; exact T.
  - split; [reflexivity|]. destruct T as (b1 & b2 & al & T & -> & ->). exists b1, b2, false. auto.
Qed.

Lemma agree_history : forall h a1 a2, twin_apis a1 a2 -> agree (history a1 h) (history a2 h).
Proof.
  induction h as [|[q after] h IH]; intros a1 a2 T; cbn [BookApi.history]; [apply agree_same; exact T|].
  pose proof (agree_perform after a1 a2 q T) as [E T2]. destruct (perform after a1 q) as [r1 x1], (perform after a2 q) as [r2 x2]. cbn [fst snd] in *. subst r2.
  pose proof (IH x1 x2 T2) as [E3 T3]. destruct (history x1 h) as [rs1 y1], (history x2 h) as [rs2 y2]. cbn [fst snd] in *. subst rs2. apply agree_same. exact T3.
Qed.

(** ** Opening *)

Lemma open_more : forall base1 base2 bv rs1 rs2 es1 es2 ov fmt od fuel1 fuel2,
  workbook m1 base1 bv rs1 -> workbook m2 base2 bv rs2 -> padded_globals rs1 rs2 -> 50 <= bv ->
  lists codec bv ov None rs1 es1 -> lists codec bv ov None rs2 es2 ->
  Forall2 (fun e1 e2 => at_both (e_posn e1 + base1) (e_posn e2 + base2)) (filter worksheet es1) (filter worksheet es2) ->
  (List.length rs1 < fuel1)%nat -> (List.length rs2 < fuel2)%nat ->
  both twin_apis (open_stream fuel1 m1 base1 ov fmt od) (open_stream fuel2 m2 base2 ov fmt od).
Proof.
  intros base1 base2 bv rs1 rs2 es1 es2 ov fmt od fuel1 fuel2 W1 W2 P V L1 L2 F N1 N2.
  assert (T : both twin_apis (open_stream fuel1 m1 base1 ov fmt true) (open_stream fuel2 m2 base2 ov fmt true)).
  { assert (B : both (fun x y => like (a_book x) (a_book y) /\ a_mem x = Some m1 /\ a_mem y = Some m2) (open_stream fuel1 m1 base1 ov fmt true) (open_stream fuel2 m2 base2 ov fmt true)).
    { destruct W1 as (p1 & d1 & post1 & G1 & FR1 & D1 & A1 & NE1). destruct W2 as (p2 & d2 & post2 & G2 & FR2 & D2 & A2 & NE2).
      unfold BookApi.open_stream. rewrite G1, G2, !bind_Ok. do 2 (apply both_const; intros ?). replace (bv <=? 40) with false by lia. replace (bv =? 45) with false by lia.
      apply (both_bind (fun x y => like x y /\ bk_bv x = bv)).
      { unfold book0. apply both_const. intros f. split; [exists base2, []; reflexivity|reflexivity]. }
      intros b1 b2 [LK VB]. eapply both_bind; [apply (globals_more _ (List.length rs1) (List.length rs2) b1 b2 p1 p2 fuel1 fuel2 (le_n _) LK ltac:(lia)); [|exact N1|exact N2]|].
      { exists rs1, rs2, d1, d2. split; [exact P|]. split; [exists post1; exact A1|]. split; [exists post2; exact A2|]. auto 10. }
      intros [x p] [y q] LK2. cbn [fst] in LK2. cbn [both a_book a_mem]. split; [|auto]. destruct LK2 as (base & ps & ->). exists base, ps. reflexivity. }
    destruct (open_stream fuel1 m1 base1 ov fmt true) as [a1|x] eqn:O1, (open_stream fuel2 m2 base2 ov fmt true) as [a2|y] eqn:O2; cbn [both] in *; try contradiction; [|exact B].
    destruct a1 as [b1 mm1], a2 as [b2 mm2]. destruct B as (LK & M1 & M2). cbn [a_book a_mem] in *. subst mm1 mm2. exists b1, b2, true. split; [|auto]. split; [exact LK|].
    destruct (opened codec ops lower num8 rk ragged old _ _ _ _ _ _ _ _ _ _ W1 V L1 O1) as (c1 & _ & _ & _ & _ & OO1 & _ & _ & EP1 & _).
    destruct (opened codec ops lower num8 rk ragged old _ _ _ _ _ _ _ _ _ _ W2 V L2 O2) as (c2 & _ & _ & _ & _ & OO2 & _ & _ & EP2 & _).
    rewrite O1 in OO1. injection OO1 as <-. rewrite O2 in OO2. injection OO2 as <-.
    destruct (opened_options codec ops lower num8 rk ragged old _ _ _ _ _ _ _ _ _ W1 V O1) as [BV _]. split; [lia|]. rewrite EP1, EP2. clear - F. induction F; cbn [map]; constructor; assumption. }
  destruct od; [exact T|].
  unfold BookApi.open_stream in T |- *. 
  destruct W1 as (p1 & d1 & post1 & G1 & _). destruct W2 as (p2 & d2 & post2 & G2 & _). rewrite G1, G2, !bind_Ok in *.
  destruct (guard (negb (bv =? 0)) XLRDError); [|reflexivity]. rewrite !bind_Ok in *. destruct (guard (existsb (Z.eqb bv) SUPPORTED_VERSIONS) XLRDError); [|reflexivity]. rewrite !bind_Ok in *.
  replace (bv <=? 40) with false in * by lia. replace (bv =? 45) with false in * by lia.
  assert (BB : both (fun _ _ => True) (book0 (N := N) (SH := loaded) bv base1 fmt ov) (book0 (N := N) (SH := loaded) bv base2 fmt ov)) by (unfold book0; apply both_const; intros; exact I).
  destruct (book0 bv base1 fmt ov) as [b1|e1], (book0 bv base2 fmt ov) as [b2|e2]; cbn [bind both] in *; try contradiction; [|exact BB].
  destruct (globals fuel1 b1 m1 p1) as [[x ?]|e1], (globals fuel2 b2 m2 p2) as [[y ?]|e2]; cbn [bind both] in *; try contradiction; [|exact T].
  destruct T as (x' & y' & al & TW & E1 & E2). destruct al; [|discriminate E1]. injection E1 as E1. injection E2 as E2. rewrite E1, E2. unfold get_sheets.
  assert (EN : sl_names (bk_sheets y') = sl_names (bk_sheets x')) by (destruct TW as ((base & ps & ->) & _); reflexivity). rewrite EN.
  eapply both_bind; [apply sheets_both; exact TW|]. intros u v TW2. exists u, v, false. auto.
Qed.
End Books.

(** ** Files *)

Section PadFiles.
Context {N : Type}.
Variable codec : list Z -> list Z -> result (list Z).
Variable ops : numops N.
Variable lower : list Z -> list Z.
Variable num8 : list Z -> N.
Variable rk : list Z -> result N.
Variable ragged : bool.
Notation loaded := (loaded (N := N)).
Notation book := (book N loaded).
Variable old : book -> list Z -> Z -> list Z -> Z -> result (shared * loaded).
Notation history := (history codec num8 rk ragged old).
Notation open_workbook_xls := (open_workbook_xls codec ops lower num8 rk ragged old).

(** Two files whose workbooks differ only in records that do not count, and in where the
    worksheets are, give the same book or refuse with the same exception; and the books
    stay the same whatever is asked of both. *)
Theorem c100_ignored : forall bv override fmt on_demand s1 rs1 es1 file1 fuel1 depth1 ignore1 s2 rs2 es2 file2 fuel2 depth2 ignore2,
  50 <= bv ->
  contains lower depth1 file1 s1 -> zlen file1 < Z.of_nat fuel1 -> book_stream s1 bv rs1 -> lists codec bv override None rs1 es1 ->
  contains lower depth2 file2 s2 -> zlen file2 < Z.of_nat fuel2 -> book_stream s2 bv rs2 -> lists codec bv override None rs2 es2 ->
  padded_globals rs1 rs2 ->
  Forall2 (fun e1 e2 => exists recs1 recs2, padded_sheet recs1 recs2 /\ 0 <= e_posn e1 /\ sheet_at s1 (e_posn e1) recs1 /\ 0 <= e_posn e2 /\ sheet_at s2 (e_posn e2) recs2)
    (filter worksheet es1) (filter worksheet es2) ->
  match open_workbook_xls fuel1 depth1 file1 override fmt on_demand ignore1, open_workbook_xls fuel2 depth2 file2 override fmt on_demand ignore2 with
  | Ok a1, Ok a2 => agrees a1 a2 /\ forall h, fst (history a1 h) = fst (history a2 h) /\ agrees (snd (history a1 h)) (snd (history a2 h))
  | Err e1, Err e2 => e1 = e2
  | _, _ => False
  end.
Proof.
  intros bv ov fmt od s1 rs1 es1 file1 f1 d1 ig1 s2 rs2 es2 file2 f2 d2 ig2 V C1 LF1 B1 L1 C2 LF2 B2 L2 P F.
  rewrite <- (app_nil_r s1) in C1. rewrite <- (app_nil_r s2) in C2.
  destruct (found_placed codec ops lower num8 rk ragged old f1 d1 file1 s1 [] bv rs1 ov fmt od ig1 C1 B1 LF1) as (_ & LR1 & m1 & o1 & P1 & ->).
  destruct (found_placed codec ops lower num8 rk ragged old f2 d2 file2 s2 [] bv rs2 ov fmt od ig2 C2 B2 LF2) as (_ & LR2 & m2 & o2 & P2 & ->).
  assert (W1 : workbook m1 o1 bv rs1) by (destruct P1 as (BM & PB & post & A); exact (book_at _ _ _ _ _ _ BM PB A B1)).
  assert (W2 : workbook m2 o2 bv rs2) by (destruct P2 as (BM & PB & post & A); exact (book_at _ _ _ _ _ _ BM PB A B2)).
  assert (F2 : Forall2 (fun e1 e2 => at_both m1 m2 (e_posn e1 + o1) (e_posn e2 + o2)) (filter worksheet es1) (filter worksheet es2)).
  { clear - F P1 P2 codec lower num8 rk old. induction F as [|e1 e2 l1 l2 H F IH]; constructor; [|exact IH]. destruct H as (recs1 & recs2 & P & E1 & S1 & E2 & S2).
    destruct (sheet_place codec lower num8 rk old s1 _ recs1 E1 S1) as (v1 & k1 & H1). destruct (sheet_place codec lower num8 rk old s2 _ recs2 E2 S2) as (v2 & k2 & H2).
    destruct (H1 m1 o1 P1) as (t1 & G1 & R1). destruct (H2 m2 o2 P2) as (t2 & G2 & R2). destruct S1 as (_ & _ & _ & _ & _ & _ & _ & _ & _ & CL).
    exists recs1, recs2. eexists _, _, _, _, t1, t2. split; [exact P|]. split; [exact CL|]. split; [exact G1|]. split; [exact G2|]. split; [exact R1|exact R2]. }
  pose proof (open_more codec ops lower num8 rk ragged old m1 m2 o1 o2 bv rs1 rs2 es1 es2 ov fmt od f1 f2 W1 W2 P V L1 L2 F2 LR1 LR2) as O.
  assert (AG : forall a1 a2, twin_apis (N := N) m1 m2 a1 a2 -> agrees a1 a2).
  { intros a1 a2 (b1 & b2 & al & ((base & ps & ->) & _) & -> & ->). constructor; try (repeat split; reflexivity). cbn [a_mem]. destruct al; split; (reflexivity || discriminate). }
  destruct (BookApi.open_stream _ _ _ _ _ _ _ f1 _ _ _ _ _) as [a1|e1], (BookApi.open_stream _ _ _ _ _ _ _ f2 _ _ _ _ _) as [a2|e2]; cbn [both] in O; try contradiction; [|exact O].
  split; [apply AG; exact O|]. intros h. destruct (agree_history codec lower num8 rk ragged old m1 m2 h a1 a2 O) as [E T]. split; [exact E|apply AG; exact T].
Qed.
End PadFiles.
Print Assumptions c100_ignored.

(** [Small.file] with records of unknown kinds among the globals, in front of them, after
    the last of them and among the cells; the worksheet moves by their length. *)
Definition unknown : Z * list Z := (0x1234, [1; 2; 3]).
Definition odd : Z * list Z := (0xec, []).
Definition more_entry : entry := mk_entry 155 1 0 (s2l "S").
Definition more_records : list (Z * list Z) :=
  unknown :: firstn 3 Small.records ++ odd :: firstn 1 (skipn 3 Small.records) ++ unknown :: (0x85, fixed_part more_entry ++ us_field 1 (Small.plain (s2l "S")) ++ []) :: skipn 5 Small.records ++ [unknown].
Definition more_cells : list (Z * list Z) :=
  odd :: firstn 1 (flat_map (enc Small.config) Small.items) ++ unknown :: unknown :: skipn 1 (flat_map (enc Small.config) Small.items) ++ [odd].
Definition more_file : list Z :=
  frame (Small.bof 5) ++ frames more_records ++ frame (0x0a, []) ++ frame (Small.bof 0x10) ++ frames (more_cells ++ [(0x0a, [])]).

Example c100_hypotheses :
  let codec := fun _ b => Ok b in let rk := fun b => Ok (le_val b) in let none := fun _ _ _ _ _ => Err XLRDError in let recs := flat_map (enc Small.config) Small.items in
  contains ascii_low 1 Small.file Small.file /\ zlen Small.file < Z.of_nat 300 /\ book_stream Small.file 80 Small.records /\
  lists codec 80 None None Small.records [mk_entry 130 1 0 (s2l "S")] /\
  contains ascii_low 1 more_file more_file /\ zlen more_file < Z.of_nat 400 /\ book_stream more_file 80 more_records /\
  lists codec 80 None None more_records [more_entry] /\
  padded_globals Small.records more_records /\ padded_sheet recs more_cells /\
  sheet_at Small.file 130 recs /\ sheet_at more_file 155 more_cells /\
  match open_workbook_xls codec int_ops ascii_low le_val rk false none 400 1 more_file None true true true with
  | Ok a => match fst (perform codec le_val rk false none (0, 0) a (SheetByIndex 0)) with
            | Ok (Got sh) => map (fun k => cell_value (sh_grid (ls_sheet sh)) 1 k) [0; 1] = [Ok (VText [72; 105]); Ok (VText [72; 111])]
            | _ => False
            end
  | _ => False
  end.
Proof.
  cbv zeta. destruct c77_hypotheses as (C & LF & BS & _). destruct c75_hypotheses as (B & _ & L & _).
  assert (FR : forall l, forallb (fun r => (0 <=? fst r) && (fst r <? 65536) && (zlen (snd r) <? 65536)) l = true -> Forall framable l).
  { intros l H. rewrite forallb_forall in H. apply Forall_forall. intros [rc d] I. specialize (H _ I). cbn [fst snd] in H. split; cbn; unfold zlen in *; lia. }
  split; [apply Bare; [exact B|reflexivity]|]. split; [vm_compute; reflexivity|]. split; [exact BS|]. split; [exact L|].
  split; [apply Bare; [apply bytes_check; vm_compute; reflexivity|reflexivity]|]. split; [vm_compute; reflexivity|].
  split.
  { exists 0x809, (snd (Small.bof 5)), [], (frame (Small.bof 0x10) ++ frames (more_cells ++ [(0x0a, [])])). split; [reflexivity|]. split; [vm_compute; split; discriminate|]. split; [apply Excel97; reflexivity|]. split; [reflexivity|].
    split; [apply FR; vm_compute; reflexivity|].
    split; [reflexivity|]. vm_compute. repeat constructor; discriminate. }
  split.
  { assert (U : us_ok (Small.plain (s2l "S"))).
    { assert (F : forallb (fun c => (0 <=? c) && (c <? 128)) (s2l "S") = true) by (vm_compute; reflexivity). rewrite forallb_forall in F.
      repeat split; auto; [|intros _]; apply Forall_forall; intros x X; specialize (F x X); unfold scalar; lia. }
    do 7 (apply L_other; [cbn; lia|cbn; lia|]). apply L_sheet; [apply Biff8; [lia|repeat split; cbn; lia|exact U|vm_compute; reflexivity|reflexivity]|].
    do 3 (apply L_other; [cbn; lia|cbn; lia|]). apply L_nil. }
  split.
  { vm_compute. repeat first [apply Pad_nil | apply Pad_same; [first [left; reflexivity|right; split; [reflexivity|]; split; [reflexivity|]; eexists [_; _; _; _], [_; _; _; _], _; repeat split; reflexivity]|] | apply Pad_more; [cbn; intuition discriminate|cbn; intuition discriminate|intros ? ? ? E; (discriminate E || (injection E; intros; subst; cbn; intuition discriminate))|]]. }
  split.
  { vm_compute. repeat first [apply Pad_nil | apply Pad_same; [reflexivity|] | apply Pad_more; [cbn; intuition discriminate|cbn; intuition discriminate|intros ? ? ? E; (discriminate E || (injection E; intros; subst; cbn; intuition discriminate))|]]. }
  split.
  { exists 0x809, (snd (Small.bof 0x10)), 80, []. split; [exists (firstn 130 Small.file); split; vm_compute; reflexivity|].
    split; [vm_compute; split; discriminate|]. split; [apply Excel97; reflexivity|]. split; [reflexivity|]. split; [apply FR; vm_compute; reflexivity|vm_compute; reflexivity]. }
  split.
  { exists 0x809, (snd (Small.bof 0x10)), 80, []. split; [exists (firstn 155 more_file); split; vm_compute; reflexivity|].
    split; [vm_compute; split; discriminate|]. split; [apply Excel97; reflexivity|]. split; [reflexivity|]. split; [apply FR; vm_compute; reflexivity|vm_compute; reflexivity]. }
  vm_compute. reflexivity.
Qed.
