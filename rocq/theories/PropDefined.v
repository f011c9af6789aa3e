(** C44: the defined names of a workbook and the two maps of them. *)
From Coq Require Import Sorting.Sorted.
From Verif Require Import Base BaseFacts Text Strings Utf16 StringFacts PropBytes Framing GridModel GridFacts SheetObjects SheetModel SstModel FormatModel
  FormulaModel CompDoc BookModel PropEnc BookFacts BookSheets BookRefs BookApi SheetShare BookHistory PropGlobals PropFormulaText PropDemand PropSheetList
  PropRefs NameFacts NameMaps.

(** ** What a workbook defines *)

(** A definition: the option flags, the name shown, the two sheet fields (BIFF5/7 use the
    first, BIFF8 the second), the length of the formula and the bytes from its start on. *)
Record definition : Type := mk_def { d_flags : Z; d_name : list Z; d_ext : Z; d_sheet : Z; d_len : Z; d_formula : list Z }.
Definition definition_ok (d : definition) : Prop := 0 <= d_flags d < 65536 /\ 0 <= d_ext d < 65536 /\ 0 <= d_sheet d < 65536 /\ 0 <= d_len d < 65536.

(** The names that a file gives as a code. *)
Definition builtin (c : Z) (name : list Z) : Prop :=
  In (c, name) [(0, s2l "Consolidate_Area"); (1, s2l "Auto_Open"); (2, s2l "Auto_Close"); (3, s2l "Extract"); (4, s2l "Database");
    (5, s2l "Criteria"); (6, s2l "Print_Area"); (7, s2l "Print_Titles"); (8, s2l "Recorder"); (9, s2l "Data_Form");
    (10, s2l "Auto_Activate"); (11, s2l "Auto_Deactivate"); (12, s2l "Sheet_Title"); (13, s2l "_FilterDatabase")].

(** Flag 0x20: the text is the code of a built-in name. *)
Inductive shown (flags : Z) (text : list Z) : list Z -> Prop :=
| Sh_text : Z.testbit flags 5 = false -> shown flags text text
| Sh_builtin : forall c name, Z.testbit flags 5 = true -> text = [c] -> builtin c name -> shown flags text name
| Sh_unknown : Z.testbit flags 5 = true -> (forall c, text = [c] -> 13 < c) -> shown flags text (s2l "??Unknown??").

Section Spec.
Variable codec : list Z -> list Z -> result (list Z).
Variable bv : Z.
Variable override : option (list Z).

Definition name_head (d : definition) (key units : Z) : list Z :=
  le_enc 2 (d_flags d) ++ [key; units] ++ le_enc 2 (d_len d) ++ le_enc 2 (d_ext d) ++ le_enc 2 (d_sheet d).

(** The body of a NAME record, when the codepage is [cp]; [four] are the lengths of texts
    that are not read. *)
Inductive name_body (cp : option Z) (d : definition) : list Z -> Prop :=
| N_biff8 : forall key u four, 80 <= bv -> definition_ok d -> us_ok u -> us_units u < 256 -> zlen four = 4 ->
    shown (d_flags d) (us_text u) (d_name d) ->
    name_body cp d (name_head d key (us_units u) ++ four ++ us_rest u ++ d_formula d)
| N_biff5 : forall key raw text enc four, bv < 80 -> definition_ok d -> zlen raw < 256 -> zlen four = 4 ->
    encoding_for bv override cp enc -> codec enc raw = Ok text -> shown (d_flags d) text (d_name d) -> (forall c, text = [c] -> 0 <= c) ->
    name_body cp d (name_head d key (zlen raw) ++ four ++ raw ++ d_formula d).

(** BIFF5/7: each EXTERNSHEET record is for one sheet; type 3 is a sheet of this workbook. *)
Inductive extern (cp : option Z) : option (list Z) -> list Z -> Prop :=
| X_own : forall raw name enc extra, zlen raw < 256 -> encoding_for bv override cp enc -> codec enc raw = Ok name ->
    extern cp (Some name) ([zlen raw; 3] ++ raw ++ extra)
| X_not : forall n ty extra, ty <> 3 -> 0 <= n < 256 -> 0 <= ty < 256 -> extern cp None ([n; ty] ++ extra).

(** What the records with some code among the records hold, in order; a CODEPAGE record
    sets the codepage for those after it. *)
Inductive collects {A : Type} (code : Z) (body : option Z -> A -> list Z -> Prop) : option Z -> list (Z * list Z) -> list A -> Prop :=
| C_nil : forall cp, collects code body cp [] []
| C_one : forall cp d x rs xs, body cp x d -> collects code body cp rs xs -> collects code body cp ((code, d) :: rs) (x :: xs)
| C_page : forall cp n extra rs xs, 0 <= n < 65536 -> collects code body (Some n) rs xs -> collects code body cp ((0x42, le_enc 2 n ++ extra) :: rs) xs
| C_other : forall cp rc d rs xs, rc <> code -> rc <> 0x42 -> collects code body cp rs xs -> collects code body cp ((rc, d) :: rs) xs.

(** The definitions, and the sheets of the EXTERNSHEET records. *)
Definition names_in : list (Z * list Z) -> list definition -> Prop := collects 0x18 name_body None.
Definition externs : list (Z * list Z) -> list (option (list Z)) -> Prop := collects 0x17 extern None.
End Spec.

(** The scope of a name: -1 for the whole workbook, the number of a worksheet, -2 for a
    sheet that is not a worksheet, -3 for none of the sheets. *)
Inductive scope8 (es : list entry) (d : definition) : Z -> Prop :=
| S8_global : d_sheet d = 0 -> scope8 es d (-1)
| S8_sheet : forall k, worksheet_number es (d_sheet d - 1) k -> scope8 es d k
| S8_macro : not_worksheet es (d_sheet d - 1) -> scope8 es d (-2)
| S8_none : zlen es < d_sheet d -> scope8 es d (-3).

(** BIFF5/7: the last worksheet with the name in the EXTERNSHEET record. *)
Inductive scope57 (es : list entry) (xs : list (option (list Z))) (d : definition) : Z -> Prop :=
| S5_global : d_ext d = 0 -> scope57 es xs d (-1)
| S5_sheet : forall name e k, znth xs (d_ext d - 1) = Some (Some name) -> znth (filter worksheet es) k = Some e -> e_name e = name ->
    (forall j e', k < j -> znth (filter worksheet es) j = Some e' -> e_name e' <> name) -> scope57 es xs d k
| S5_macro : forall name, znth xs (d_ext d - 1) = Some (Some name) ->
    (forall j e', znth (filter worksheet es) j = Some e' -> e_name e' <> name) -> scope57 es xs d (-2).

Definition scope_for (bv : Z) (es : list entry) (xs : list (option (list Z))) (d : definition) (k : Z) : Prop :=
  if bv <? 80 then scope57 es xs d k else scope8 es d k.

(** ** Reading a NAME record *)

Lemma shown_read : forall flags text name, shown flags text name -> (forall c, text = [c] -> 0 <= c) ->
  (if Z.testbit flags 5 then builtin_name_from_code text else text) = name.
Proof.
  intros flags text name S C. destruct S as [E|c name E -> B|E U]; rewrite E; [reflexivity| |].
  - unfold builtin in B. cbn [In] in B.
    repeat (destruct B as [B|B]; [injection B as <- <-; reflexivity|]). destruct B.
  - unfold builtin_name_from_code. destruct text as [|c [|c' t]]; try reflexivity. specialize (U c eq_refl).
    destruct (znth builtin_names c) as [n|] eqn:Q; [|reflexivity]. apply znth_Some_range in Q. cbn in Q. lia.
Qed.

Lemma name_read : forall (N : Type) codec bv ov cp enc d body (n : nameobj N), name_body codec bv ov cp d body ->
  (bv < 80 -> forall x, encoding_for bv ov cp x -> enc = Some x) ->
  handle_name codec bv enc body = Ok n ->
  nm_flags n = d_flags d /\ nm_name n = d_name d /\ nm_extn n = d_ext d /\ nm_sheet n = d_sheet d /\ nm_raw n = d_formula d /\ nm_len n = d_len d /\
  nm_evaluated n = false.
Proof.
  intros N codec bv ov cp enc d body n B K H. unfold handle_name in H. apply bind_ok in H as (? & _ & H).
  assert (R : exists key units four rest text, body = name_head d key units ++ four ++ rest ++ d_formula d /\ definition_ok d /\
    0 <= units < 256 /\ zlen four = 4 /\ shown (d_flags d) text (d_name d) /\ (forall c, text = [c] -> 0 <= c) /\
    (if bv <? 80 then unpack_string_update_pos (unicode codec enc) body 14 2 (Some units)
     else unpack_unicode_update_pos body 14 2 (Some units)) = Ok (text, 14 + zlen rest)).
  { assert (L : forall key units four, zlen four = 4 -> zlen (name_head d key units ++ four) = 14).
    { intros key units four F. unfold name_head. rewrite !zlen_app, !zlen_le_enc, F. reflexivity. }
    destruct B as [key u four V DO UO UU L4 SH|key raw text e four V DO RL L4 EF CD SH C0].
    - exists key, (us_units u), four, (us_rest u), (us_text u). split; [reflexivity|]. split; [exact DO|].
      split; [unfold us_units in *; pose proof (zlen_nonneg (utf16_units (us_text u))); lia|]. split; [exact L4|]. split; [exact SH|].
      split.
      { intros c E. destruct UO as (T & _). rewrite E in T. unfold text in T. inversion T; subst.
        match goal with X : scalar _ |- _ => unfold scalar in X; lia end. }
      replace (bv <? 80) with false by lia. rewrite app_assoc.
      specialize (L key (us_units u) four L4). rewrite <- L at 1.
      rewrite c13_unicode_known_len by exact UO. rewrite zlen_app, L. reflexivity.
    - exists key, (zlen raw), four, raw, text. split; [reflexivity|]. split; [exact DO|].
      split; [pose proof (zlen_nonneg raw); lia|]. split; [exact L4|]. split; [exact SH|]. split; [exact C0|].
      replace (bv <? 80) with true by lia. rewrite app_assoc. specialize (L key (zlen raw) four L4).
      unfold unpack_string_update_pos. rewrite bind_Ok. cbv zeta.
      assert (A : At ((name_head d key (zlen raw) ++ four) ++ raw ++ d_formula d) 14 (raw ++ d_formula d)).
      { exists (name_head d key (zlen raw) ++ four). auto. }
      rewrite (At_slice _ _ _ _ (14 + zlen raw) A eq_refl). rewrite (K V e EF). unfold unicode. rewrite CD. reflexivity. }
  destruct R as (key & units & four & rest & text & -> & (DF & DE & DS & FL) & U & L4 & SH & C0 & RD).
  assert (A0 : At (name_head d key units ++ four ++ rest ++ d_formula d) 0
     (le_enc 2 (d_flags d) ++ key :: units :: le_enc 2 (d_len d) ++ le_enc 2 (d_ext d) ++ le_enc 2 (d_sheet d) ++ four ++ rest ++ d_formula d)).
  { unfold name_head. rewrite <- !app_assoc. cbn [app]. apply At_0. }
  pose proof (At_skip _ _ _ _ 2 A0 ltac:(rewrite zlen_le_enc; reflexivity)) as A2.
  pose proof (At_skip1 _ _ _ _ 3 A2 eq_refl) as A3. pose proof (At_skip1 _ _ _ _ 4 A3 eq_refl) as A4.
  pose proof (At_skip _ _ _ _ 6 A4 ltac:(rewrite zlen_le_enc; reflexivity)) as A6.
  pose proof (At_skip _ _ _ _ 8 A6 ltac:(rewrite zlen_le_enc; reflexivity)) as A8.
  pose proof (At_skip _ _ _ _ 10 A8 ltac:(rewrite zlen_le_enc; reflexivity)) as A10.
  pose proof (At_skip _ _ _ _ 14 A10 ltac:(rewrite L4; reflexivity)) as A14.
  pose proof (At_skip _ _ _ _ (14 + zlen rest) A14 eq_refl) as AF.
  rewrite (At_u16 _ _ _ _ A0 DF), (At_byte _ _ _ _ A3 U), (At_u16 _ _ _ _ A4 FL), (At_u16 _ _ _ _ A6 DE), (At_u16 _ _ _ _ A8 DS), !bind_Ok in H.
  rewrite RD, bind_Ok in H. cbv zeta in H. rewrite (shown_read _ _ _ SH C0) in H. rewrite (At_from _ _ _ AF) in H.
  injection H as <-. cbn [nm_flags nm_name nm_extn nm_sheet nm_raw nm_len nm_evaluated]. auto 10.
Qed.

(** ** Following the records *)

Lemma collects_drop : forall A code (body : option Z -> A -> list Z -> Prop) cs cp rs xs, code <> 0x3c ->
  Forall (fun r => noncont r = false) cs -> collects code body cp (cs ++ rs) xs -> collects code body cp rs xs.
Proof.
  intros A code body cs cp rs xs NC F. revert cp. induction F as [|[rc d] cs C F IH]; intros cp L; [exact L|]. cbn [app] in L.
  unfold noncont in C. cbn [fst] in C. inversion L; subst; try lia; auto.
Qed.

Section Follow.
Variable codec : list Z -> list Z -> result (list Z).
Context {N SH : Type}.
Notation book := (book N SH).
Variable load : book -> list Z -> Z -> list Z -> Z -> result (shared * SH).
Variable ops : numops N.
Variable lower : list Z -> list Z.

Lemma collect : forall A code (body : option Z -> A -> list Z -> Prop) (St : book -> list A -> Prop) bv ov, code <> 0x42 -> code <> 0x3c -> code <> 0x85 ->
  (forall b mem pos data b' p x xs cp, bk_bv b = bv -> en_override (bk_enc b) = ov -> (bv < 80 -> cp = en_codepage (bk_enc b)) ->
     body cp x data -> St b xs -> gstep codec load b mem pos code data = Ok (b', p) -> St b' (xs ++ [x])) ->
  (forall b mem pos rc data b' p xs, bk_bv b = bv -> rc <> code -> rc <> 0x8f -> St b xs -> gstep codec load b mem pos rc data = Ok (b', p) -> St b' xs) ->
  forall fuel mem rs d post b pos b' p' cp xs, Forall framable rs -> zlen d < 65536 -> At mem pos (frames rs ++ frame (0x0a, d) ++ post) ->
    Forall (fun r => fst r <> 0x0a /\ fst r <> 0x8f) rs ->
    globals codec ops lower load fuel b mem pos = Ok (b', p') ->
    bk_bv b = bv -> en_override (bk_enc b) = ov -> (bv < 80 -> cp = en_codepage (bk_enc b)) ->
    collects code body cp rs xs -> St b [] ->
    exists bl, bk_bv bl = bv /\ St bl xs /\ globals_end codec ops lower bl = Ok b'.
Proof.
  intros A code body St bv ov C1 C2 C3 SC SO fuel mem rs d post b pos b' p' cp xs F LD AT NE H V O P L S0.
  pose (P0 := fun (b : book) (rs : list (Z * list Z)) => bk_bv b = bv /\ en_override (bk_enc b) = ov /\
    exists cp xd xt, (bv < 80 -> cp = en_codepage (bk_enc b)) /\ xs = xd ++ xt /\ collects code body cp rs xt /\ St b xd).
  destruct (globals_walk codec load ops lower P0 mem d post LD) with (fuel := fuel) (rs := rs) (b := b) (pos := pos) (b' := b') (p' := p')
    as (bl & (V' & _ & cp' & xd & xt & _ & E & L' & S') & GE); auto.
  - clear - SC SO C1 C2 C3. intros b pos rc data rs b' p cs rs' (V & O & cp & xd & xt & P & E & L & S) ER F AT N1 N2 G C.
    pose proof (gstep_version _ _ _ _ _ _ _ _ _ G N2) as V'. split; [congruence|].
    assert (Oth : rc <> 0x42 -> en_override (bk_enc b') = en_override (bk_enc b) /\ (bv < 80 -> en_codepage (bk_enc b') = en_codepage (bk_enc b))).
    { intros X. destruct (Z.eq_dec rc 0x85) as [->|X'].
      - apply gstep_boundsheet in G as (b1 & s & D & _ & -> & _). destruct (derive_alike _ _ _ D) as ([D1 D2 D3 D4 D5] & _).
        split; [exact D4|]. rewrite <- V. exact D5.
      - destruct (gstep_alike _ _ _ _ _ _ _ _ _ G X' X N2) as [D1 D2 D3 D4 D5]. split; [exact D4|]. rewrite <- V. exact D5. }
    remember ((rc, data) :: cs ++ rs') as whole eqn:W. destruct L as [|cp d0 x rs0 xs0 B L|cp n extra rs0 xs0 R L|cp rc0 d0 rs0 xs0 X1 X2 L]; [discriminate| | |];
      injection W as <- <- ->.
    + destruct (Oth C1) as [O1 O2]. split; [congruence|]. exists cp, (xd ++ [x]), xs0. split; [intros X; rewrite O2 by exact X; auto|].
      split; [rewrite <- app_assoc; exact E|]. split; [exact (collects_drop _ _ _ cs _ _ _ C2 C L)|]. exact (SC _ _ _ _ _ _ _ _ _ V O P B S G).
    + pose proof (SO _ _ _ _ _ _ _ _ V (not_eq_sym C1) N2 S G) as S2. apply gstep_codepage in G as (c & U & K1 & K2 & K3 & K4 & K5).
      assert (Ok c = Ok n) as Q by (rewrite <- U; exact (At_u16 _ extra n 0 (At_0 _) R)). injection Q as ->.
      split; [congruence|]. exists (Some n), xd, xs0. split; [intros X; rewrite K5 by lia; reflexivity|]. split; [exact E|].
      split; [exact (collects_drop _ _ _ cs _ _ _ C2 C L)|exact S2].
    + destruct (Oth X2) as [O1 O2]. split; [congruence|]. exists cp, xd, xs0. split; [intros X; rewrite O2 by exact X; auto|]. split; [exact E|].
      split; [exact (collects_drop _ _ _ cs _ _ _ C2 C L)|]. exact (SO _ _ _ _ _ _ _ _ V X1 N2 S G).
  - split; [exact V|]. split; [exact O|]. exists cp, [], xs. auto.
  - exists bl. split; [exact V'|]. split; [|exact GE]. inversion L'; subst. rewrite app_nil_r. exact S'.
Qed.

Definition reads (d : definition) (n : nameobj N) : Prop :=
  nm_flags n = d_flags d /\ nm_name n = d_name d /\ nm_extn n = d_ext d /\ nm_sheet n = d_sheet d /\ nm_raw n = d_formula d /\ nm_len n = d_len d.

Definition reads_new (d : definition) (n : nameobj N) : Prop := reads d n /\ nm_evaluated n = false.

Section Stream.
Variables (fuel : nat) (mem : list Z) (rs : list (Z * list Z)) (d post : list Z) (b : book) (pos : Z) (b' : book) (p' : Z).
Hypothesis FR : Forall framable rs.
Hypothesis LD : zlen d < 65536.
Hypothesis AT : At mem pos (frames rs ++ frame (0x0a, d) ++ post).
Hypothesis NE : Forall (fun r => fst r <> 0x0a /\ fst r <> 0x8f) rs.
Hypothesis GL : globals codec ops lower load fuel b mem pos = Ok (b', p').
Hypothesis V50 : 50 <= bk_bv b.
Variable ov : option (list Z).
Hypothesis OV : en_override (bk_enc b) = ov.
Hypothesis CP : en_codepage (bk_enc b) = None.

(** The names as read, before the scopes and formulas. *)
Lemma globals_names : forall ds, bk_names b = [] -> names_in codec (bk_bv b) ov rs ds ->
  exists bl, Forall2 reads_new ds (bk_names bl) /\ bk_bv bl = bk_bv b /\ globals_end codec ops lower bl = Ok b'.
Proof.
  intros ds N0 L.
  destruct (collect definition 0x18 (name_body codec (bk_bv b) ov) (fun b ds => Forall2 reads_new ds (bk_names b)) (bk_bv b) ov
    ltac:(lia) ltac:(lia) ltac:(lia)) with (fuel := fuel) (mem := mem) (rs := rs) (d := d) (post := post) (b := b) (pos := pos) (b' := b') (p' := p')
    (cp := @None Z) (xs := ds) as (bl & V & S & GE); auto.
  - clear - V50. intros c mem pos data c' p x xs cp V O P B S G.
    apply gstep_name in G as (b1 & n & D & HN & ->); [|lia]. destruct (derive_alike _ _ _ D) as ([D1 D2 D3 D4 D5] & DE & Q).
    cbn [with_names bk_names]. rewrite Q. cbn [with_enc with_shared bk_names].
    apply Forall2_app; [exact S|]. constructor; [|constructor].
    rewrite D1, V in HN. eapply (fun X => name_read _ _ _ _ _ _ _ _ _ B X) in HN; [destruct HN as (R1 & R2 & R3 & R4 & R5 & R6 & R7); split; [repeat split; assumption|assumption]|]. intros W e E. apply DE; [lia|]. rewrite V, O, <- P by exact W. exact E.
  - clear. intros c mem pos rc data c' p xs V X1 X2 S G. destruct (gstep_keeps _ _ _ _ _ _ _ _ _ G X2) as [_ K]. rewrite K by exact X1. exact S.
  - rewrite N0. constructor.
  - exists bl. auto.
Qed.

(** BIFF5/7: the numbers of the EXTERNSHEET records. *)
Lemma globals_externs : forall xs, bk_bv b < 80 -> bk_refs b = refs0 -> externs codec (bk_bv b) ov rs xs ->
  forall i, 0 < i -> dget Z.eqb (rf_extn_names (bk_refs b')) i = match znth xs (i - 1) with Some x => x | None => None end.
Proof.
  intros xs V8 R0 L.
  pose (St := fun (b : book) (xs : list (option (list Z))) => rf_count (bk_refs b) = zlen xs /\
    forall i, 0 < i -> dget Z.eqb (rf_extn_names (bk_refs b)) i = match znth xs (i - 1) with Some x => x | None => None end).
  destruct (collect (option (list Z)) 0x17 (extern codec (bk_bv b) ov) St (bk_bv b) ov ltac:(lia) ltac:(lia) ltac:(lia))
    with (fuel := fuel) (mem := mem) (rs := rs) (d := d) (post := post) (b := b) (pos := pos) (b' := b') (p' := p')
      (cp := @None Z) (xs := xs) as (bl & V & [_ S] & GE); auto.
  - clear - V8. intros c mem pos data c' p x xs cp V O P B [S1 S2] G.
    apply gstep_externsheet in G as (b1 & r & D & HE & ->). destruct (derive_alike _ _ _ D) as ([D1 D2 D3 D4 D5] & DE & Q).
    rewrite D1, V in HE. rewrite Q in HE at 2. cbn [with_enc with_shared bk_refs] in HE. clear Q.
    unfold handle_externsheet in HE. cbv zeta in HE. replace (bk_bv b >=? 80) with false in HE by lia.
    apply bind_ok in HE as (? & _ & HE).
    assert (R : rf_count r = zlen xs + 1 /\ rf_extn_names r = match x with Some n => dset (rf_extn_names (bk_refs c)) (zlen xs + 1) n | None => rf_extn_names (bk_refs c) end).
    { destruct B as [raw name e extra RL EF CD|n ty extra TY R1 R2].
      - rewrite (At_byte _ (3 :: raw ++ extra) (zlen raw) 0) in HE; [|apply At_0|pose proof (zlen_nonneg raw); lia].
        rewrite (At_byte _ (raw ++ extra) 3 1) in HE; [|exists [zlen raw]; split; reflexivity|lia]. rewrite !bind_Ok in HE.
        change (3 =? 3) with true in HE. cbv iota in HE.
        rewrite (At_slice ([zlen raw; 3] ++ raw ++ extra) raw extra 2) in HE; [|exists [zlen raw; 3]; split; reflexivity|lia].
        rewrite (DE ltac:(lia) e) in HE by (rewrite V, O, <- P by exact V8; exact EF).
        unfold unicode in HE. rewrite CD, !bind_Ok in HE. injection HE as <- <-. cbn [rf_count rf_extn_names]. rewrite S1. auto.
      - rewrite (At_byte _ (ty :: extra) n 0) in HE; [|apply At_0|lia].
        rewrite (At_byte _ extra ty 1) in HE; [|exists [n]; split; reflexivity|lia]. rewrite !bind_Ok in HE.
        replace (ty =? 3) with false in HE by lia. rewrite bind_Ok in HE. injection HE as <- <-. cbn [rf_count rf_extn_names]. rewrite S1. auto. }
    destruct R as [R1 R2]. unfold St. cbn [with_refs bk_refs]. rewrite R1, R2. split; [rewrite zlen_app; reflexivity|].
    intros i I. assert (E : dget Z.eqb (rf_extn_names (bk_refs c)) i = match znth xs (i - 1) with Some x => x | None => None end) by (apply S2; exact I).
    destruct (Z.lt_trichotomy (i - 1) (zlen xs)) as [C|[C|C]].
    + rewrite znth_app_l by lia. destruct x; [|exact E]. unfold dset. cbn [dget]. replace (i =? zlen xs + 1) with false by lia. exact E.
    + rewrite znth_app_r by lia. rewrite C, Z.sub_diag. cbn. assert (znth xs (i - 1) = None) as Z0 by (apply znth_None; lia). rewrite Z0 in E.
      destruct x; [|exact E]. unfold dset. cbn [dget]. replace (i =? zlen xs + 1) with true by lia. reflexivity.
    + assert (znth xs (i - 1) = None) as Z0 by (apply znth_None; lia). rewrite Z0 in E.
      assert (znth (xs ++ [x]) (i - 1) = None) as -> by (apply znth_None; rewrite zlen_app; change (zlen [x]) with 1; lia).
      destruct x; [|exact E]. unfold dset. cbn [dget]. replace (i =? zlen xs + 1) with false by lia. exact E.
  - clear. intros c mem pos rc data c' p xs V X1 X2 S G. destruct (gstep_keeps _ _ _ _ _ _ _ _ _ G X2) as [K _].
    destruct (Z.eq_dec rc 0x23) as [->|X3].
    { apply gstep_externname in G as (r & HE & ->). unfold St in *. cbn [with_refs bk_refs].
      assert (rf_count r = rf_count (bk_refs c) /\ rf_extn_names r = rf_extn_names (bk_refs c)) as [-> ->]; [|exact S].
      unfold handle_externname in HE. destruct (_ >=? 80); [|injection HE as <-; auto].
      apply bind_ok in HE as (? & _ & HE). apply bind_ok in HE as ([? ?] & _ & HE). apply bind_ok in HE as (? & _ & HE).
      destruct (_ =? _); injection HE as <-; auto. }
    destruct (Z.eq_dec rc 0x1ae) as [->|X4].
    { apply gstep_supbook in G as (r & HE & ->). unfold St in *. cbn [with_refs bk_refs].
      assert (rf_count r = rf_count (bk_refs c) /\ rf_extn_names r = rf_extn_names (bk_refs c)) as [-> ->]; [|exact S].
      unfold handle_supbook in HE. cbv zeta in HE. apply bind_ok in HE as (n & _ & HE).
      destruct (list_eqb (py_slice data 2 4) _); [injection HE as <-; auto|]. destruct (list_eqb (py_slice data 0 4) _); [injection HE as <-; auto|].
      apply bind_ok in HE as ([? ?] & _ & HE). destruct (n =? 0); [injection HE as <-; auto|].
      apply bind_ok in HE as (? & _ & HE). injection HE as <-. auto. }
    unfold St. rewrite K by auto. exact S.
  - unfold St. rewrite R0. split; [reflexivity|]. intros i _. cbn. destruct (znth [] (i - 1)) eqn:Q; [|reflexivity].
    apply znth_Some_range in Q. cbn in Q. lia.
  - destruct (globals_end_spec _ _ _ _ _ GE) as (Q & _). rewrite Q. exact S.
Qed.

(** A sheet's name leads to the last sheet with it. *)
Definition by_name (s : shst) : Prop := forall name,
  match dget list_eqb (sl_num s) name with
  | Some k => znth (sl_names s) k = Some name /\ forall j, k < j -> znth (sl_names s) j <> Some name
  | None => forall j, znth (sl_names s) j <> Some name
  end.
Lemma globals_by_name : bk_sheets b = sheets0 -> by_name (bk_sheets b').
Proof.
  intros S0. destruct (globals_walk codec load ops lower (fun b _ => by_name (bk_sheets b)) mem d post LD)
    with (fuel := fuel) (rs := rs) (b := b) (pos := pos) (b' := b') (p' := p') as (bl & B & GE); auto.
  - clear. intros b pos rc data rs b' p cs rs' B _ _ _ N1 N2 G _.
    destruct (Z.eq_dec rc 0x85) as [->|X].
    2: { destruct (Z.eq_dec rc 0x42) as [->|X2]; [apply gstep_codepage in G as (c & _ & _ & _ & -> & _); exact B|].
         rewrite (al_sheets _ _ (gstep_alike _ _ _ _ _ _ _ _ _ G X X2 N2)). exact B. }
    apply gstep_boundsheet in G as (b1 & s & D & HB & -> & _). cbn [with_sheets bk_sheets].
    rewrite (al_sheets _ _ (proj1 (derive_alike _ _ _ D))) in HB. unfold handle_boundsheet in HB.
    apply bind_ok in HB as ([[[name v] t] q] & _ & HB). destruct (negb (t =? 0)); injection HB as <-; [exact B|].
    intros nm. cbn [sl_num sl_names]. unfold dset. cbn [dget]. specialize (B nm). destruct (list_eqb nm name) eqn:E.
    + apply list_eqb_eq in E as <-. split; [rewrite znth_app_r, Z.sub_diag by lia; reflexivity|].
      intros j J Q. apply znth_Some_range in Q. rewrite zlen_app in Q. change (zlen [nm]) with 1 in Q. lia.
    + assert (A : forall j, znth (sl_names (bk_sheets b) ++ [name]) j = Some nm -> znth (sl_names (bk_sheets b)) j = Some nm).
      { intros j Q. pose proof (znth_Some_range _ _ _ Q) as R. rewrite zlen_app in R. change (zlen [name]) with 1 in R.
        destruct (Z.eq_dec j (zlen (sl_names (bk_sheets b)))) as [->|NE].
        - rewrite znth_app_r, Z.sub_diag in Q by lia. cbn in Q. injection Q as ->. rewrite list_eqb_refl in E. discriminate.
        - rewrite znth_app_l in Q by lia. exact Q. }
      destruct (dget list_eqb (sl_num (bk_sheets b)) nm) as [k|].
      * destruct B as [B1 B2]. split; [rewrite znth_app_l by exact (znth_Some_range _ _ _ B1); exact B1|].
        intros j J Q. exact (B2 j J (A j Q)).
      * intros j Q. exact (B j (A j Q)).
  - rewrite S0. intros name. cbn. intros j Q. apply znth_Some_range in Q. cbn in Q. lia.
  - destruct (globals_end_spec _ _ _ _ _ GE) as (_ & Q & _). rewrite Q. exact B.
Qed.
End Stream.
End Follow.

(** ** The theorems *)

Section Defined.
Context {N : Type}.
Variable codec : list Z -> list Z -> result (list Z).
Variable ops : numops N.
Variable lower : list Z -> list Z.
Variable num8 : list Z -> N.
Variable rk : list Z -> result N.
Variable ragged : bool.
Notation loaded := (loaded (N := N)).
Notation api := (api (N := N)).
Notation book := (book N loaded).
Variable old : book -> list Z -> Z -> list Z -> Z -> result (shared * loaded).
Notation history := (history codec num8 rk ragged old).
Notation open_stream := (open_stream codec ops lower num8 rk ragged old).

(** Book.name_obj_list, name_map and name_and_scope_map; a name in a map is its place in
    name_obj_list. *)
Definition name_obj_list (a : api) : list (nameobj N) := bk_names (a_book a).
Definition name_map (a : api) (key : list Z) : option (list Z) := dget list_eqb (snd (bk_maps (a_book a))) key.
Definition name_and_scope_map (a : api) (key : list Z) (scope : Z) : option Z := dget key_eqb (fst (bk_maps (a_book a))) (key, scope).

Definition has_name (a : api) (key : list Z) (s : Z) (j : Z) : Prop :=
  exists n, znth (name_obj_list a) j = Some n /\ lower (nm_name n) = key /\ nm_scope n = Some s.

(** Defined names: those of the NAME records, in order, with their scopes. *)
Definition defined (bv : Z) (es : list entry) (xs : list (option (list Z))) (d : definition) (n : nameobj N) : Prop :=
  reads d n /\ exists k, nm_scope n = Some k /\ scope_for bv es xs d k.

Lemma opened_names : forall fuel mem base bv rs ov fmt b0, workbook mem base bv rs -> 50 <= bv ->
  open_stream fuel mem base ov fmt true = Ok (mk_api b0 (Some mem)) ->
  by_name (bk_sheets b0) /\ bk_bv b0 = bv /\
  (bv < 80 -> forall xs, externs codec bv ov rs xs ->
   forall i, 0 < i -> dget Z.eqb (rf_extn_names (bk_refs b0)) i = match znth xs (i - 1) with Some x => x | None => None end) /\
  (forall ds, names_in codec bv ov rs ds ->
   exists enc ns, Forall2 reads_new ds ns /\ names_epilogue codec ops lower bv enc (bk_sheets b0) (bk_refs b0) ns = Ok (bk_names b0, bk_maps b0)).
Proof.
  intros fuel mem base bv rs ov fmt b0 (pos & d & post & GB & FR & LD & A & NE) V O.
  unfold BookApi.open_stream in O. rewrite GB, bind_Ok in O.
  apply bind_ok in O as (? & _ & O). apply bind_ok in O as (? & _ & O). apply bind_ok in O as (b & B & O).
  replace (bv <=? 40) with false in O by lia. replace (bv =? 45) with false in O by lia.
  apply bind_ok in O as ([b1 p1] & G & O). cbv zeta in O. injection O as <-.
  assert (Q : bk_bv b = bv /\ bk_refs b = refs0 /\ bk_names b = [] /\ bk_sheets b = sheets0 /\ en_override (bk_enc b) = ov /\ en_codepage (bk_enc b) = None).
  { unfold book0 in B. apply bind_ok in B as (f & _ & B). injection B as <-. repeat split; reflexivity. }
  destruct Q as (Q1 & Q2 & Q3 & Q4 & Q5 & Q6). cbn [bk_refs bk_names bk_maps bk_sheets bk_bv with_list].
  split; [|split; [|split]].
  - eapply globals_by_name; eauto.
  - destruct (globals_walk codec (load codec num8 rk ragged old) ops lower (fun b _ => bk_bv b = bv) mem d post LD) with (fuel := fuel) (rs := rs) (b := b) (pos := pos) (b' := b1) (p' := p1)
      as (bl & VL & GE); auto.
    + intros c q rc data rs' c' p cs rs'' P _ _ _ _ N2 G' _. rewrite (gstep_version _ _ _ _ _ _ _ _ _ G' N2). exact P.
    + destruct (globals_end_spec _ _ _ _ _ GE) as (_ & _ & X & _). congruence.
  - intros V8 xs L. eapply globals_externs; eauto; rewrite Q1; assumption.
  - intros ds L. destruct (globals_names codec _ ops lower fuel mem rs d post b pos b1 p1 FR LD A NE G ltac:(lia) ov Q5 Q6 ds Q3) as (bl & F & VL & GE);
      [rewrite Q1; exact L|].
    destruct (globals_end_spec _ _ _ _ _ GE) as (X1 & X2 & _ & X3). rewrite X1, X2, <- Q1, <- VL. eauto.
Qed.

Lemma mapM_Forall2 : forall A B (f : A -> result B) l l', mapM f l = Ok l' -> Forall2 (fun x y => f x = Ok y) l l'.
Proof.
  intros A B f. induction l as [|x l IH]; intros l' H; cbn [mapM] in H; [injection H as <-; constructor|].
  apply bind_ok in H as (y & Y & H). apply bind_ok in H as (ys & YS & H). injection H as <-. constructor; auto.
Qed.

Lemma scope_read : forall bv s r es xs d (n : nameobj N) k, by_name s -> sl_names s = map e_name (filter worksheet es) -> sl_allmap s = numbering 0 es ->
  (bv < 80 -> forall i, 0 < i -> dget Z.eqb (rf_extn_names r) i = match znth xs (i - 1) with Some x => x | None => None end) ->
  definition_ok d -> reads d n -> scope_of bv s r n = Ok k -> scope_for bv es xs d k.
Proof.
  intros bv s r es xs d n k BN SN SA XE (DF & DE & DS & DL) (R1 & R2 & R3 & R4 & R5 & R6) H. unfold scope_of in H. cbv zeta in H. unfold scope_for.
  rewrite R3, R4, SA, zlen_numbering in H. destruct (bv >=? 80) eqn:V.
  - replace (bv <? 80) with false by lia. destruct (d_sheet d =? 0) eqn:Z0; [injection H as <-; apply S8_global; lia|].
    destruct ((1 <=? d_sheet d) && (d_sheet d <=? zlen es)) eqn:IN; [|injection H as <-; apply S8_none; lia].
    apply bind_ok in H as (q & Q & H).
    destruct (znth_in_range (numbering 0 es) (d_sheet d - 1) ltac:(rewrite zlen_numbering; lia)) as (x & X).
    assert (q = x) as -> by (rewrite (py_index_some _ _ _ X) in Q; congruence).
    apply numbering_znth in X as (e & E & EX). destruct (worksheet e) eqn:W.
    + rewrite Z.add_0_l in EX. pose proof (zlen_nonneg (filter worksheet (firstn (Z.to_nat (d_sheet d - 1)) es))).
      replace (x =? -1) with false in H by lia. injection H as <-. apply S8_sheet. exists e. auto.
    + subst x. cbn in H. injection H as <-. apply S8_macro. exists e. auto.
  - replace (bv <? 80) with true by lia. destruct (_ && _); [|discriminate]. destruct (d_ext d =? 0) eqn:Z0; [injection H as <-; apply S5_global; lia|].
    rewrite XE in H by lia. destruct (znth xs (d_ext d - 1)) as [[name|]|] eqn:X; try discriminate.
    specialize (BN name). rewrite SN in BN. destruct (dget list_eqb (sl_num s) name) as [q|]; injection H as <-.
    + destruct BN as [B1 B2]. rewrite znth_map in B1. destruct (znth (filter worksheet es) q) as [e|] eqn:E; [|discriminate]. cbn in B1. injection B1 as B1.
      eapply S5_sheet; eauto. intros j e' J E' C. apply (B2 j J). rewrite znth_map, E'. cbn. congruence.
    + eapply S5_macro; eauto. intros j e' E' C. apply (BN j). rewrite znth_map, E'. cbn. congruence.
Qed.

Theorem c44_names : forall fuel mem base bv rs override fmt on_demand a es xs ds h,
  workbook mem base bv rs -> 50 <= bv -> lists codec bv override None rs es -> names_in codec bv override rs ds ->
  (bv < 80 -> externs codec bv override rs xs) ->
  open_stream fuel mem base override fmt on_demand = Ok a ->
  Forall2 (defined bv es xs) ds (name_obj_list (snd (history a h))).
Proof.
  intros fuel mem base bv rs ov fmt od a es xs ds h W V L NI XS H.
  destruct (opened codec ops lower num8 rk ragged old _ _ _ _ _ _ _ _ _ _ W V L H) as (b0 & I & V0 & LS & LB & O & E1 & _ & _ & E4).
  destruct (history_inv codec num8 rk ragged old b0 mem V0 LS LB h a I) as [(k & sl & E & _) _].
  destruct (opened_names _ _ _ _ _ _ _ _ W V O) as (BN & BV & XE & NE). destruct (NE _ NI) as (enc & ns & RD & EP). clear NE.
  unfold name_obj_list. rewrite E. cbn [later with_list set_countries with_shared bk_names].
  unfold names_epilogue in EP. apply bind_ok in EP as (n1 & M & EP). apply bind_ok in EP as (n2 & EV & EP). apply bind_ok in EP as (mp & _ & EP).
  injection EP as EP _. subst n2. apply eval_names_keeps in EV. apply mapM_Forall2 in M.
  assert (DO : Forall definition_ok ds) by (clear - NI; induction NI as [|? ? ? ? ? B _ IH| |]; auto; constructor; [destruct B; assumption|exact IH]).
  assert (F1 : Forall2 (defined bv es xs) ds n1).
  { clear - RD M BN E1 E4 XE XS DO. revert n1 M. induction RD as [|d n ds ns [R _] RD IH]; intros n1 M; inversion M as [|? y ? ys Q M']; subst; [constructor|].
    apply Forall_cons_iff in DO as [D1 D2]. constructor; [|apply IH; assumption].
    apply bind_ok in Q as (k & Q & S). injection S as <-. split; [exact R|]. exists k. split; [reflexivity|].
    eapply scope_read; eauto. }
  clear - F1 EV. revert EV. generalize (bk_names b0). induction F1 as [|d n ds ns (R & k & K & SC) F IH]; intros [|n' l'] EV; try discriminate; constructor.
  - injection EV as EV0 X1 X2 X3 X4 X5 X6 EV. destruct R as (R1 & R2 & R3 & R4 & R5 & R6). split; [repeat split; congruence|]. exists k. split; [congruence|exact SC].
  - apply IH. injection EV as EV0 X1 X2 X3 X4 X5 X6 EV. exact EV.
Qed.

(** So a scope is -1, -2, -3 or the number of a worksheet. *)
Theorem c44_scopes : forall fuel mem base bv rs override fmt on_demand a es xs ds h,
  workbook mem base bv rs -> 50 <= bv -> lists codec bv override None rs es -> names_in codec bv override rs ds ->
  (bv < 80 -> externs codec bv override rs xs) ->
  open_stream fuel mem base override fmt on_demand = Ok a ->
  let a' := snd (history a h) in
  Forall (fun n => exists k, nm_scope n = Some k /\ (In k [-1; -2; -3] \/ 0 <= k < nsheets a')) (name_obj_list a').
Proof.
  intros fuel mem base bv rs ov fmt od a es xs ds h W V L NI XS H a'.
  pose proof (c44_names _ _ _ _ _ _ _ _ _ _ _ _ h W V L NI XS H) as F. fold a' in F.
  assert (NS : nsheets a' = zlen (filter worksheet es)) by exact (proj2 (c43_listed codec ops lower num8 rk ragged old _ _ _ _ _ _ _ _ _ _ h W V L H)).
  clear - F NS. induction F as [|d n ds ns (_ & k & K & SC) F IH]; constructor; [|exact IH].
  exists k. split; [exact K|]. rewrite NS. unfold scope_for in SC. destruct (bv <? 80).
  - destruct SC as [?|name e k ? E ? ?|name ? ?]; [left; cbn; auto|right; exact (znth_Some_range _ _ _ E)|left; cbn; auto].
  - destruct SC as [?|k WN|?|?]; try (left; cbn; auto; fail). right. exact (proj2 (number_sheet _ _ _ WN)).
Qed.

(** The maps, for any workbook that opens: name_map holds, for each lower-cased name, all
    the names with it and no others, by scope and then in file order; name_and_scope_map
    holds the last one with a name and scope. *)
Lemma opened_maps : forall fuel mem base bv rs ov fmt b0, workbook mem base bv rs -> 50 <= bv ->
  open_stream fuel mem base ov fmt true = Ok (mk_api b0 (Some mem)) -> exists m d, bk_maps b0 = (m, d) /\ name_maps lower (bk_names b0) = Ok (m, d).
Proof.
  intros fuel mem base bv rs ov fmt b0 (pos & d & post & GB & FR & LD & A & NE) V O.
  unfold BookApi.open_stream in O. rewrite GB, bind_Ok in O.
  apply bind_ok in O as (? & _ & O). apply bind_ok in O as (? & _ & O). apply bind_ok in O as (b & B & O).
  replace (bv <=? 40) with false in O by lia. replace (bv =? 45) with false in O by lia.
  apply bind_ok in O as ([b1 p1] & G & O). cbv zeta in O. injection O as <-. cbn [bk_names bk_maps with_list].
  destruct (globals_walk codec (load codec num8 rk ragged old) ops lower (fun b _ => True) mem d post LD) with (fuel := fuel) (rs := rs) (b := b) (pos := pos) (b' := b1) (p' := p1)
    as (bl & _ & GE); auto.
  destruct (globals_end_spec _ _ _ _ _ GE) as (_ & _ & _ & X). unfold names_epilogue in X.
  apply bind_ok in X as (n1 & _ & X). apply bind_ok in X as (n2 & _ & X). apply bind_ok in X as ([m e] & M & X).
  injection X as <- <-. eauto.
Qed.

Lemma items_has : forall a items key s j, Forall2 (item lower) (name_obj_list a) items -> (znth items j = Some (key, s) <-> has_name a key s j).
Proof.
  intros a items key s j F. unfold has_name. revert j. induction F as [|n x ns xs [I1 I2] F IH]; intros j.
  - split; [intros Q; apply znth_Some_range in Q; cbn in Q; lia|]. intros (n & Q & _). apply znth_Some_range in Q. cbn in Q. lia.
  - destruct (Z.eq_dec j 0) as [->|NZ].
    + cbn. split.
      * intros Q. injection Q as ->. cbn [fst snd] in *. eauto.
      * intros (n' & Q & Q1 & Q2). injection Q as <-. f_equal. destruct x as [x1 x2]. cbn [fst snd] in *. congruence.
    + assert (C : forall B (y : B) l, znth (y :: l) j = znth l (j - 1)).
      { intros B y l. destruct (Z.ltb_spec j 0); [|apply znth_cons; lia].
        transitivity (@None B); [apply znth_None; lia|symmetry; apply znth_None; lia]. }
      rewrite !C. apply IH.
Qed.

Theorem c44_name_map : forall fuel mem base bv rs override fmt on_demand a es h key,
  workbook mem base bv rs -> 50 <= bv -> lists codec bv override None rs es ->
  open_stream fuel mem base override fmt on_demand = Ok a ->
  let a' := snd (history a h) in
  match name_map a' key with
  | Some l => l <> [] /\ (forall j, In j l <-> exists s, has_name a' key s j) /\
      StronglySorted (fun i j => exists s t, has_name a' key s i /\ has_name a' key t j /\ (s < t \/ s = t /\ i < j)) l
  | None => forall s j, ~ has_name a' key s j
  end.
Proof.
  intros fuel mem base bv rs ov fmt od a es h key W V L H a'.
  destruct (opened codec ops lower num8 rk ragged old _ _ _ _ _ _ _ _ _ _ W V L H) as (b0 & I & V0 & LS & LB & O & _).
  destruct (history_inv codec num8 rk ragged old b0 mem V0 LS LB h a I) as [(k & sl & E & _) _]. fold a' in E.
  destruct (opened_maps _ _ _ _ _ _ _ _ W V O) as (m & d & M1 & M2).
  assert (bk_names b0 = name_obj_list a') as EN by (unfold name_obj_list; rewrite E; reflexivity). rewrite EN in M2.
  destruct (name_maps_spec _ _ _ _ M2) as (items & F & _ & D & _). specialize (D key).
  unfold name_map. rewrite E. cbn [later with_list set_countries with_shared bk_maps]. rewrite M1. cbn [snd].
  destruct (dget list_eqb d key) as [l|].
  - destruct D as (D1 & D2 & D3). split; [exact D1|]. split.
    + intros j. rewrite D2. split; intros (s & S); exists s; apply (items_has _ _ _ _ _ F); exact S.
    + clear D1 D2. induction D3 as [|i l D3 IH X]; constructor; [exact IH|].
      revert X. apply Forall_impl. intros j (s & t & S & T & R). exists s, t.
      split; [apply (items_has _ _ _ _ _ F); exact S|]. split; [apply (items_has _ _ _ _ _ F); exact T|exact R].
  - intros s j Q. apply (items_has _ _ _ _ _ F) in Q. exact (D j s Q).
Qed.

(** In particular the names for the whole workbook come before those for a worksheet. *)
Corollary c44_globals_before_sheets : forall fuel mem base bv rs override fmt on_demand a es h key l l1 i l2,
  workbook mem base bv rs -> 50 <= bv -> lists codec bv override None rs es ->
  open_stream fuel mem base override fmt on_demand = Ok a ->
  let a' := snd (history a h) in
  name_map a' key = Some l -> l = l1 ++ i :: l2 -> has_name a' key (-1) i ->
  Forall (fun j => exists s, has_name a' key s j /\ s <= -1) l1 /\ Forall (fun j => exists s, has_name a' key s j /\ -1 <= s) l2.
Proof.
  intros fuel mem base bv rs ov fmt od a es h key l l1 i l2 W V L H a' M E G.
  pose proof (c44_name_map _ _ _ _ _ _ _ _ _ _ h key W V L H) as T. cbv zeta in T. fold a' in T. rewrite M in T. destruct T as (_ & _ & S). rewrite E in S. clear M E.
  assert (U : forall s t j, has_name a' key s j -> has_name a' key t j -> s = t) by (intros s t j (n & N1 & _ & N2) (n' & N1' & _ & N2'); congruence).
  induction l1 as [|x l1 IH]; cbn [app] in S; apply StronglySorted_inv in S as [S F].
  - split; [constructor|]. revert F. apply Forall_impl. intros j (s & t & X1 & X2 & X3). rewrite (U _ _ _ G X1). exists t. split; [exact X2|lia].
  - destruct (IH S) as [I1 I2]. split; [|exact I2]. constructor; [|exact I1].
    rewrite Forall_forall in F. destruct (F i ltac:(apply in_or_app; right; left; reflexivity)) as (s & t & X1 & X2 & X3).
    exists s. split; [exact X1|]. rewrite (U _ _ _ G X2). lia.
Qed.

Theorem c44_scope_map : forall fuel mem base bv rs override fmt on_demand a es h key s,
  workbook mem base bv rs -> 50 <= bv -> lists codec bv override None rs es ->
  open_stream fuel mem base override fmt on_demand = Ok a ->
  let a' := snd (history a h) in
  match name_and_scope_map a' key s with
  | Some i => has_name a' key s i /\ forall j, i < j -> ~ has_name a' key s j
  | None => forall j, ~ has_name a' key s j
  end.
Proof.
  intros fuel mem base bv rs ov fmt od a es h key s W V L H a'.
  destruct (opened codec ops lower num8 rk ragged old _ _ _ _ _ _ _ _ _ _ W V L H) as (b0 & I & V0 & LS & LB & O & _).
  destruct (history_inv codec num8 rk ragged old b0 mem V0 LS LB h a I) as [(k & sl & E & _) _]. fold a' in E.
  destruct (opened_maps _ _ _ _ _ _ _ _ W V O) as (m & d & M1 & M2).
  assert (bk_names b0 = name_obj_list a') as EN by (unfold name_obj_list; rewrite E; reflexivity). rewrite EN in M2.
  destruct (name_maps_spec _ _ _ _ M2) as (items & F & D & _ & _). specialize (D key s).
  unfold name_and_scope_map. rewrite E. cbn [later with_list set_countries with_shared bk_maps]. rewrite M1. cbn [fst].
  destruct (dget key_eqb m (key, s)) as [i|].
  - destruct D as [D1 D2]. split; [apply (items_has _ _ _ _ _ F); exact D1|]. intros j J Q. apply (items_has _ _ _ _ _ F) in Q. exact (D2 j J Q).
  - intros j Q. apply (items_has _ _ _ _ _ F) in Q. exact (D j Q).
Qed.
End Defined.
Print Assumptions c44_names.
Print Assumptions c44_scopes.
Print Assumptions c44_name_map.
Print Assumptions c44_globals_before_sheets.
Print Assumptions c44_scope_map.

(** A BIFF8 workbook: a macro sheet and a worksheet; a name for the whole workbook, the same
    name in other case for each of the sheets, and a built-in name for no sheet. *)
Module Defs.
Definition lower (s : list Z) : list Z := map (fun c => if (65 <=? c) && (c <=? 90) then c + 32 else c) s.
Definition char (c : Z) : ustring := {| us_text := [c]; us_wide := false; us_opts := 0; us_runs := None; us_phon := None |}.
Definition body (d : definition) (c : Z) : list Z := name_head d 0 1 ++ [0; 0; 0; 0] ++ us_rest (char c) ++ d_formula d.
Definition one : list Z := [0x1e; 1; 0].
Definition definitions : list definition :=
  [mk_def 0 [65] 0 0 3 one; mk_def 0 [97] 0 1 3 one; mk_def 0 [65] 0 2 3 one; mk_def 0x20 (s2l "Print_Area") 0 3 3 one].
Definition records : list (Z * list Z) :=
  [(0x85, Refs.sheet 1 65); (0x85, Refs.sheet 0 66)] ++
  map (pair 0x18) (map (fun '(d, c) => body d c) (List.combine definitions [65; 97; 65; 6])).
Definition file : list Z := frame (0x0809, [0; 6; 5; 0; 0; 0; 0xcd; 7]) ++ frames records ++ frame (0x0a, []).
Definition entries : list entry := [mk_entry 0 0 1 [65]; mk_entry 0 0 0 [66]].
Notation opened :=
  (open_stream (fun _ b => Ok b) int_ops lower (fun _ => 0) (fun _ => Ok 0) false (fun _ _ _ _ _ => Err XLRDError) 50 file 0 None false true).
End Defs.

Example c44_hypotheses :
  workbook Defs.file 0 80 Defs.records /\ lists (fun _ b => Ok b) 80 None None Defs.records Defs.entries /\
  names_in (fun _ b => Ok b) 80 None Defs.records Defs.definitions /\
  match Defs.opened with
  | Ok a => map nm_name (name_obj_list a) = [[65]; [97]; [65]; s2l "Print_Area"] /\ map nm_scope (name_obj_list a) = [Some (-1); Some (-2); Some 0; Some (-3)] /\
      map nm_evaluated (name_obj_list a) = [true; true; true; true] /\
      name_map a [97] = Some [1; 0; 2] /\ name_and_scope_map a [97] (-1) = Some 0 /\ name_and_scope_map a [65] (-1) = None
  | Err _ => False
  end.
Proof.
  split; [|split; [|split]].
  - exists 12, [], []. split; [vm_compute; reflexivity|]. split; [repeat constructor; cbn; lia|]. split; [reflexivity|].
    split; [exists (firstn 12 Defs.file); split; vm_compute; reflexivity|]. repeat constructor; cbn; discriminate.
  - assert (B : forall k n, In k [0; 1] -> In n [65; 66; 67] ->
      boundsheet (fun _ b => Ok b) 80 None None (mk_entry 0 0 k [n]) (Refs.sheet k n)).
    { intros k n K NN.
      pose proof (Biff8 (fun _ b => Ok b) 80 None None (mk_entry 0 0 k [n]) (Defs.char n) []) as Q.
      cbn in K, NN. destruct K as [<- | [<- | []]], NN as [<- | [<- | [<- | []]]];
        (apply Q; clear Q; [lia|repeat split; cbn; lia| |reflexivity|reflexivity];
         unfold us_ok, text; cbn; repeat split; try (intros _); repeat constructor; try lia). }
    repeat (apply L_sheet; [apply B; cbn; auto|]). repeat (apply L_other; [lia|lia|]). apply L_nil.
  - assert (B : forall d c, definition_ok d -> In c [65; 97; 6] -> shown (d_flags d) [c] (d_name d) ->
      name_body (fun _ b => Ok b) 80 None None d (Defs.body d c)).
    { intros d c DO C SH. pose proof (N_biff8 (fun _ b => Ok b) 80 None None d 0 (Defs.char c) [0; 0; 0; 0]) as Q.
      cbn in C. destruct C as [<- | [<- | [<- | []]]]; (apply Q; clear Q; [lia|exact DO| |reflexivity|reflexivity|exact SH]);
        unfold us_ok, text; cbn; repeat split; try (intros _); repeat constructor; lia. }
    apply C_other; [lia|lia|]. apply C_other; [lia|lia|].
    repeat (apply C_one; [apply B; [repeat split; cbn; lia|cbn; auto|]|]); try apply C_nil; try (apply Sh_text; reflexivity).
    apply (Sh_builtin _ _ 6); [reflexivity|reflexivity|]. cbn. auto 10.
  - vm_compute. repeat split.
Qed.

(** Not every name for the whole workbook comes first: one for a macro sheet (-2) comes
    before it. *)
Theorem c44_globals_first_refuted :
  exists codec ops lower num8 rk old (a : api (N := Z)) mem rs es ds i j l,
    workbook mem 0 80 rs /\ lists codec 80 None None rs es /\ names_in codec 80 None rs ds /\
    open_stream codec ops lower num8 rk false old 50 mem 0 None false true = Ok a /\
    name_map a [97] = Some (i :: j :: l) /\ has_name lower a [97] (-2) i /\ has_name lower a [97] (-1) j.
Proof.
  destruct c44_hypotheses as (W & L & NI & O).
  destruct Defs.opened as [a|] eqn:E; [|destruct O]. destruct O as (O1 & O2 & _ & O4 & _).
  assert (H : forall j n s, znth (map nm_name (name_obj_list a)) j = Some n -> znth (map nm_scope (name_obj_list a)) j = Some (Some s) ->
    has_name Defs.lower a (Defs.lower n) s j).
  { intros j n s P Q. rewrite znth_map in P. rewrite znth_map in Q. destruct (znth (name_obj_list a) j) as [x|] eqn:X; [|discriminate].
    exists x. injection P as <-. injection Q as Q. auto. }
  exists (fun _ b => Ok b), int_ops, Defs.lower, (fun _ => 0), (fun _ => Ok 0), (fun _ _ _ _ _ => Err XLRDError), a,
    Defs.file, Defs.records, Defs.entries, Defs.definitions, 1, 0, [2].
  split; [exact W|]. split; [exact L|]. split; [exact NI|]. split; [exact E|]. split; [exact O4|].
  split; [apply (H 1 [97]); [rewrite O1|rewrite O2]; reflexivity|]. apply (H 0 [65]); [rewrite O1|rewrite O2]; reflexivity.
Qed.
Print Assumptions c44_globals_first_refuted.
