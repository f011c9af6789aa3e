(** Globals that can always be read: specification, and the proof that the loop of
    BookModel.v gets through them. *)
From Verif Require Import Base BaseFacts Text Strings Utf16 StringFacts PropBytes Framing GridModel GridFacts SheetObjects SheetModel SheetSteps SstModel PropSst FormatModel
  FormatFacts PropFormat PropNumType FormulaModel CompDoc BookModel BookFacts PropEnc BookSheets BookRefs BookApi SheetShare BookHistory PropGlobals PropFormulaText PropDemand PropSheetList
  BookContent BookFormats BookFollow PropColour PropRefs PropDefined.

(** ** Specification *)

Section Spec.
Variable codec : list Z -> list Z -> result (list Z).
Variable bv : Z.
Variable override : option (list Z).
Variable countries : Z * Z.

(** A codepage whose encoding can be used: the reader tries it out on the bytes "trial",
    unless it is UTF-16. *)
Definition usable (cp : option Z) : Prop :=
  cp = Some 1200 \/
  forall e, encoding_for bv override cp e ->
    (e = s2l "utf_16_le" /\ (override = None \/ override = Some [])) \/ exists s, codec e (s2l "trial") = Ok s.

(** The name of a font: after 14 bytes of other data. *)
Inductive font_body (cp : option Z) : list Z -> Prop :=
| Font8 : forall fixed u extra, 80 <= bv -> zlen fixed = 14 -> us_ok u -> us_units u < 256 ->
    font_body cp (fixed ++ us_field 1 u ++ extra)
| Font5 : forall fixed raw extra enc s, bv < 80 -> zlen fixed = 14 -> zlen raw < 256 -> encoding_for bv override cp enc ->
    codec enc raw = Ok s -> font_body cp (fixed ++ zlen raw :: raw ++ extra).

(** The name of the last user.  Before BIFF8 it can be decoded whatever the encoding. *)
Inductive user_body : list Z -> Prop :=
| User8 : forall u extra, 80 <= bv -> us_ok u -> us_units u < 65536 -> user_body (us_field 2 u ++ extra)
| User5 : forall raw pad, bv < 80 -> zlen raw < 256 ->
    (forall cp e, usable cp -> encoding_for bv override cp e -> exists s, codec e raw = Ok s) ->
    user_body (zlen raw :: raw ++ pad).

(** Codes of records that mean something to the reader of the globals. *)
Definition meaningful : list Z :=
  [0x0a; 0xfc; 0x31; 0x231; 0x41e; 0xe0; 0x85; 0x22; 0x42; 0x8c; 0x23; 0x17; 0x2f; 0x5c; 0x8e; 0x8f; 0x1ae; 0x18; 0x92; 0x293].

(** A SUPBOOK record: for the workbook itself, for add-in functions, or for another document
    with its address and the names of its sheets. *)
Inductive link_body : list Z -> Prop :=
| Link_own : forall n extra, u16v n -> link_body (le_enc 2 n ++ [1; 4] ++ extra)
| Link_addins : forall extra, link_body ([1; 0; 1; 0x3a] ++ extra)
| Link_document : forall u names extra, us_ok u -> us_units u < 65536 -> Forall (fun n => us_ok n /\ us_units n < 65536) names -> zlen names < 65536 ->
    link_body (le_enc 2 (zlen names) ++ us_field 2 u ++ flat_map (us_field 2) names ++ extra).

(** An EXTERNNAME record of BIFF8: a name after 6 bytes of other data. *)
Inductive outer_name : list Z -> Prop :=
| Outer_name : forall six u extra, zlen six = 6 -> us_ok u -> us_units u < 256 -> outer_name (six ++ us_field 1 u ++ extra).

(** Globals as a program would write them, after a CODEPAGE record of [cp] or none. *)
Inductive written : option Z -> list (Z * list Z) -> Prop :=
| W_nil : forall cp, written cp []
| W_page : forall cp n extra rs, u16v n -> usable (Some n) -> written (Some n) rs -> written cp ((0x42, le_enc 2 n ++ extra) :: rs)
| W_user : forall cp d rs, user_body d -> written cp rs -> written cp ((0x5c, d) :: rs)
| W_date : forall cp n extra rs, n = 0 \/ n = 1 -> written cp rs -> written cp ((0x22, le_enc 2 n ++ extra) :: rs)
| W_country : forall cp extra rs, u16v (fst countries) -> u16v (snd countries) -> written cp rs ->
    written cp ((0x8c, le_enc 2 (fst countries) ++ le_enc 2 (snd countries) ++ extra) :: rs)
| W_font : forall cp rc d rs, rc = 0x31 \/ rc = 0x231 -> font_body cp d -> written cp rs -> written cp ((rc, d) :: rs)
| W_format : forall cp k s d rs, format_body codec bv override cp k s d -> written cp rs -> written cp ((0x41e, d) :: rs)
| W_xf : forall cp d rs, (if bv <? 80 then 16 else 20) <= zlen d -> bytes d -> written cp rs -> written cp ((0xe0, d) :: rs)
| W_style : forall cp w id level extra rs, u16v w -> Z.testbit w 15 = true -> 0 <= id < 10 -> 0 <= level < 256 -> written cp rs ->
    written cp ((0x293, le_enc 2 w ++ id :: level :: extra) :: rs)
| W_sheet : forall cp e d rs, boundsheet codec bv override cp e d -> written cp rs -> written cp ((0x85, d) :: rs)
| W_sst : forall cp tot l ts tl rs, Forall (fun sb => ss_form (fst sb)) l -> seps_ok l -> Forall2 (fun sb t => ss_holds (fst sb) t) l ts -> zlen l < 2 ^ 31 ->
    (match rs with (rc, _) :: _ => rc <> 0x3c | [] => True end) -> written cp rs ->
    written cp ((0xfc, fst (sst_records tot l tl)) :: map (pair 0x3c) (snd (sst_records tot l tl)) ++ rs)
| W_named_style : forall cp w u extra rs, 80 <= bv -> u16v w -> Z.testbit w 15 = false -> us_ok u -> us_units u < 65536 -> written cp rs ->
    written cp ((0x293, le_enc 2 w ++ us_field 2 u ++ extra) :: rs)
| W_palette : forall cp cs extra rs, Forall byte_entry cs -> zlen cs <= 56 -> zlen extra <= 4 -> ~ In 0x92 (map fst rs) -> written cp rs ->
    written cp ((0x92, palette_bytes cs extra) :: rs)
| W_link : forall cp d names rs, 80 <= bv -> link_body d -> Forall outer_name names -> written cp rs ->
    written cp ((0x1ae, d) :: map (pair 0x23) names ++ rs)
| W_table : forall cp l first cs rs, 80 <= bv -> zlen l < 65536 -> Forall reference_ok l -> 2 <= zlen first -> Forall (fun c => c <> []) cs ->
    first ++ List.concat cs = table_bytes l -> written cp rs ->
    written cp ((0x17, first) :: map (pair 0x3c) cs ++ rs)
| W_extern : forall cp x d rs, bv < 80 -> extern codec bv override cp x d -> written cp rs -> written cp ((0x17, d) :: rs)
| W_outer : forall cp d rs, bv < 80 -> written cp rs -> written cp ((0x23, d) :: rs)
| W_other : forall cp rc d rs, ~ In rc meaningful -> written cp rs -> written cp ((rc, d) :: rs).
End Spec.

(** ** Proofs *)

Lemma unpack_fits : forall k data pos, 0 <= pos -> 0 <= k -> pos + k <= zlen data -> exists v, unpack_le k data pos = Ok v.
Proof.
  intros k data pos P K L. unfold unpack_le. rewrite py_slice_len. unfold py_bound. cbv zeta. pose proof (zlen_nonneg data).
  replace (_ =? k) with true; [eauto|]. symmetry. apply Z.eqb_eq. repeat match goal with |- context [if ?c then _ else _] => destruct c eqn:? end; lia.
Qed.
Lemma unpack_i32_fits : forall data pos, 0 <= pos -> pos + 4 <= zlen data -> exists v, unpack_i32 data pos = Ok v.
Proof. intros data pos P L. unfold unpack_i32. destruct (unpack_fits 4 data pos P ltac:(lia) L) as (v & ->). rewrite bind_Ok. eauto. Qed.
Lemma need_fits : forall data n, 0 <= n <= zlen data -> need data n = Ok tt.
Proof. intros data n L. unfold need. rewrite py_slice_len. unfold py_bound. cbv zeta.
  replace (_ =? n) with true; [reflexivity|]. symmetry. apply Z.eqb_eq. repeat match goal with |- context [if ?c then _ else _] => destruct c eqn:? end; lia. Qed.

Section Fine.
Variable codec : list Z -> list Z -> result (list Z).
Variable bv : Z.
Variable ov : option (list Z).
Notation usable := (usable codec bv ov).

(** *** The encoding *)

Definition raw_ok (d : list Z) : Prop := bv < 80 /\ exists raw pad, d = zlen raw :: raw ++ pad /\ zlen raw < 256 /\
  forall cp e, usable cp -> encoding_for bv ov cp e -> exists s, codec e raw = Ok s.

Definition ready (cp : option Z) (s : encst) : Prop :=
  en_override s = ov /\ (en_codepage s = cp \/ 80 <= bv /\ en_codepage s = Some 1200) /\ (en_raw s = true -> raw_ok (en_user s) /\ truthy (en_encoding s) = false).

Lemma choose_page : forall s, en_codepage (choose_encoding bv s) = en_codepage s \/ (80 <= bv /\ en_codepage (choose_encoding bv s) = Some 1200).
Proof.
  intros s. destruct (Z_lt_le_dec bv 80) as [V|V]; [left; apply (choose_codepage codec); exact V|].
  destruct s as [o c enc raw user]. unfold choose_encoding. cbn [en_override en_codepage].
  replace (bv <? 80) with false by lia. replace (bv >=? 80) with true by lia.
  destruct o as [[|x o]|]; try (left; reflexivity); (destruct c as [c|]; [|right; split; [exact V|reflexivity]]);
    (destruct (encoding_from_codepage c); [left; reflexivity|]); (destruct (_ && _); [left; reflexivity|right; split; [exact V|reflexivity]]).
Qed.

Lemma choose_1200 : forall s, en_codepage s = Some 1200 -> en_codepage (choose_encoding bv s) = Some 1200.
Proof. intros s H. destruct (choose_page s) as [E|[_ E]]; [rewrite E; exact H|exact E]. Qed.

Lemma utf16_page : forall s, en_override s = None \/ en_override s = Some [] -> encoding_for bv (en_override s) (en_codepage s) (s2l "utf_16_le") ->
  en_codepage (choose_encoding bv s) = Some 1200.
Proof.
  intros [o c enc raw user] NO H. cbn [en_override en_codepage] in *. remember (s2l "utf_16_le") as u eqn:U.
  destruct H as [o c NE|o c e _ P|o _ V|o _ V].
  - destruct NO as [E|E]; [discriminate|]. injection E as ->. contradiction.
  - subst e. remember (s2l "utf_16_le") as u eqn:U. destruct P as [e I|L L2|NI NL V|NI NL V].
    + subst e. unfold codepage_table in I. cbn [In] in I.
      repeat (destruct I as [I|I]; [first [pose proof (f_equal snd I) as Q; discriminate Q|pose proof (f_equal fst I) as Q; cbn [fst] in Q; subst c; apply choose_1200; reflexivity]|]). contradiction.
    + discriminate U.
    + unfold choose_encoding. cbn [en_override en_codepage]. pose proof (page_table c) as T. destruct (encoding_from_codepage c) as [x|]; [exfalso; exact (NI _ T)|].
      replace ((300 <=? c) && (c <=? 1999)) with false by lia. replace (bv >=? 80) with true by lia.
      destruct NO as [-> | ->]; reflexivity.
    + discriminate U.
  - discriminate U.
  - unfold choose_encoding. cbn [en_override en_codepage]. replace (bv <? 80) with false by lia. destruct NO as [-> | ->]; reflexivity.
Qed.

Lemma derive_fine : forall cp s, ready cp s -> usable cp -> exists s', derive_encoding codec bv s = Ok s' /\ ready cp s'.
Proof.
  intros cp s (OV & CP & RA) US. unfold derive_encoding. cbv zeta.
  pose proof (choose_spec bv s) as CS. cbv zeta in CS. destruct CS as (K1 & K2 & K3 & e & EF & CS).
  assert (UA : usable (en_codepage s)) by (destruct CP as [-> | [_ ->]]; [exact US|left; reflexivity]).
  assert (T : exists x, (if match en_codepage (choose_encoding bv s) with Some cp => cp =? 1200 | None => false end then Ok []
           else unicode codec (en_encoding (choose_encoding bv s)) (s2l "trial")) = Ok x).
  { destruct (match en_codepage (choose_encoding bv s) with Some cp => cp =? 1200 | None => false end) eqn:C; [eauto|].
    destruct CS as [(E1 & _)|(_ & _ & _ & _ & E1)]; [|rewrite E1 in C; discriminate].
    rewrite E1. cbn [unicode]. destruct UA as [UA|UA]; [rewrite (choose_1200 _ UA) in C; discriminate|].
    rewrite OV in EF. destruct (UA e EF) as [[-> NO]|H]; [|exact H].
    exfalso. rewrite <- OV in NO, EF. rewrite (utf16_page s NO EF) in C. discriminate. }
  destruct T as (x & ->). rewrite bind_Ok.
  assert (CP' : en_codepage (choose_encoding bv s) = cp \/ (80 <= bv /\ en_codepage (choose_encoding bv s) = Some 1200)).
  { destruct (choose_page s) as [E|E]; [rewrite E; exact CP|right; exact E]. }
  rewrite K2. destruct (en_raw s) eqn:R.
  - destruct (RA eq_refl) as ((V & raw & pad & EU & LR & DE) & _). rewrite K3, EU.
    destruct CS as [(E1 & _)|(_ & V8 & _)]; [|lia].
    assert (A : At (zlen raw :: raw ++ pad) 0 (zlen raw :: raw ++ pad)) by apply At_0.
    unfold unpack_string. rewrite (At_byte _ _ _ _ A) by (pose proof (zlen_nonneg raw); lia). rewrite bind_Ok. cbv zeta.
    pose proof (At_skip1 _ _ _ _ (0 + 1) A eq_refl) as A2. rewrite (At_slice _ _ _ _ (0 + 1 + zlen raw) A2 eq_refl).
    rewrite E1. cbn [unicode]. rewrite OV in EF. destruct (DE _ _ UA EF) as (t & ->). rewrite bind_Ok.
    eexists. split; [reflexivity|]. split; [cbn; congruence|]. split; [exact CP'|]. discriminate.
  - eexists. split; [reflexivity|]. split; [congruence|]. split; [exact CP'|]. congruence.
Qed.

Lemma ensure_fine : forall cp s, ready cp s -> usable cp -> exists s', ensure_encoding codec bv s = Ok s' /\ ready cp s'.
Proof.
  intros cp s R U. unfold ensure_encoding. destruct (truthy (en_encoding s)); [eauto|]. exact (derive_fine cp s R U).
Qed.

(** *** The book *)

Context {N SH : Type}.
Notation book := (book N SH).
Variable load : book -> list Z -> Z -> list Z -> Z -> result (shared * SH).
Variable K : Z * Z.
Hypothesis V50 : 50 <= bv.
Notation written := (written codec bv ov K).

Record fine (cp : option Z) (b : book) : Prop := {
  f_bv : bk_bv b = bv;
  f_ready : ready cp (bk_enc b);
  f_inv : enc_inv b;
  f_fbv : b_bv (bk_fmt b) = bv;
  f_names : bk_names b = [];
  f_countries : g_countries (bk_shared b) = (0, 0) \/ g_countries (bk_shared b) = K }.

Lemma derive_book : forall cp b, fine cp b -> usable cp -> exists b', derive codec b = Ok b' /\ fine cp b' /\ encoded b' /\ bk_fmt b' = bk_fmt b.
Proof.
  intros cp b F U. destruct F as [F1 F2 F3 F4 F5 F6]. destruct (derive_fine cp _ F2 U) as (s & D & R).
  assert (E : derive codec b = Ok (with_enc b s)) by (unfold derive; rewrite F1, D; reflexivity).
  exists (with_enc b s). split; [exact E|]. pose proof (derive_encoded codec _ _ E) as Q. split; [|split; [exact Q|reflexivity]].
  split; [exact F1|exact R|apply encoded_inv; exact Q|exact F4|exact F5|exact F6].
Qed.

Lemma ensure_book : forall cp b, fine cp b -> usable cp -> exists b', ensure codec b = Ok b' /\ fine cp b' /\ encoded b' /\ bk_fmt b' = bk_fmt b.
Proof.
  intros cp b F U. destruct F as [F1 F2 F3 F4 F5 F6]. destruct (ensure_fine cp _ F2 U) as (s & D & R).
  assert (E : ensure codec b = Ok (with_enc b s)) by (unfold ensure; rewrite F1, D; reflexivity).
  exists (with_enc b s). split; [exact E|]. pose proof (ensure_encoded codec _ _ E F3) as Q. split; [|split; [exact Q|reflexivity]].
  split; [exact F1|exact R|apply encoded_inv; exact Q|exact F4|exact F5|exact F6].
Qed.

Lemma with_fmt_fine : forall cp b f d r, fine cp b -> fstep d (bk_fmt b) r = Ok f -> fine cp (with_fmt b f).
Proof.
  intros cp b f d r [F1 F2 F3 F4 F5 F6] S. split; [exact F1|exact F2|exact F3| |exact F5|exact F6].
  change (bk_fmt (with_fmt b f)) with f. rewrite (proj1 (step_frame _ _ _ _ S)). exact F4.
Qed.

Lemma unpack_string_at : forall dec data pos raw t, At data pos (zlen raw :: raw ++ t) -> zlen raw < 256 -> unpack_string dec data pos 1 = dec raw.
Proof.
  intros dec data pos raw t A L. unfold unpack_string. rewrite (At_byte _ _ _ _ A) by (pose proof (zlen_nonneg raw); lia). rewrite bind_Ok. cbv zeta.
  pose proof (At_skip1 _ _ _ _ (pos + 1) A eq_refl) as A2. rewrite (At_slice _ _ _ _ (pos + 1 + zlen raw) A2 eq_refl). reflexivity.
Qed.

Lemma page_now : forall cp (b : book), bv < 80 -> fine cp b -> en_codepage (bk_enc b) = cp.
Proof. intros cp b V F. destruct (f_ready _ _ F) as (_ & [E|[E _]] & _); [exact E|lia]. Qed.

Lemma encoding_now : forall cp (b : book) e, bv < 80 -> fine cp b -> encoded b -> encoding_for bv ov cp e -> en_encoding (bk_enc b) = Some e.
Proof.
  intros cp b e V F E H. apply E; [rewrite (f_bv _ _ F); exact V|]. rewrite (f_bv _ _ F), (page_now _ _ V F), (proj1 (f_ready _ _ F)). exact H.
Qed.

Ltac cut := repeat match goal with |- context [if ?c then _ else _] =>
  let v := eval vm_compute in c in match v with true => idtac | false => idtac end; change c with v; cbv iota end.

Lemma font_fine : forall cp b d, fine cp b -> usable cp -> font_body codec bv ov cp d -> exists b', format_record codec b (RFont d) = Ok b' /\ fine cp b'.
Proof.
  intros cp b d F U B. unfold format_record. destruct (b_fmt (bk_fmt b)) eqn:FM.
  - destruct (ensure_book cp b F U) as (b1 & -> & F1 & E1 & FE). rewrite bind_Ok.
    assert (X : exists f, fstep (unicode codec (en_encoding (bk_enc b1))) (bk_fmt b1) (RFont d) = Ok f).
    { cbn [fstep]. unfold handle_font. rewrite FE, FM. cbn [negb]. cbv zeta. unfold read_font. rewrite <- FE, (f_fbv _ _ F1). replace (bv >=? 50) with true by lia.
      assert (L : exists fixed rest, d = fixed ++ rest /\ zlen fixed = 14) by (destruct B; eauto). destruct L as (fixed & rest & ED & LF).
      assert (LD : 14 <= zlen d) by (rewrite ED, zlen_app; pose proof (zlen_nonneg rest); lia).
      rewrite need_fits by lia. rewrite bind_Ok.
      unfold unpack_u16.
      do 8 (match goal with |- context [bind (unpack_le ?k ?dd ?p) _] => let v := fresh in destruct (unpack_fits k dd p ltac:(lia) ltac:(lia) ltac:(lia)) as (v & ->); rewrite bind_Ok end).
      assert (NM : exists s, (if bv >=? 80 then unpack_unicode d 14 1 else unpack_string (unicode codec (en_encoding (bk_enc b1))) d 14 1) = Ok s).
      { clear ED. destruct B as [fx u extra V L UO UU|fx raw extra e s V L RL EF CD].
        - replace (bv >=? 80) with true by lia. exists (us_text u). rewrite <- L. apply (c13_unpack_unicode u 1); auto.
        - replace (bv >=? 80) with false by lia. exists s.
          rewrite (unpack_string_at _ _ 14 raw extra) by first [exact RL|exists fx; split; [reflexivity|symmetry; exact L]].
          rewrite (encoding_now _ _ _ V F1 E1 EF). exact CD. }
      destruct NM as (s & ->). rewrite bind_Ok. rewrite bind_Ok. eauto. }
    destruct X as (f & X). rewrite X, bind_Ok. eexists. split; [reflexivity|]. eapply with_fmt_fine; eassumption.
  - rewrite bind_Ok. cbn [fstep]. assert (X : fstep (unicode codec (en_encoding (bk_enc b))) (bk_fmt b) (RFont d) = Ok (bk_fmt b)) by (cbn [fstep]; unfold handle_font; rewrite FM; reflexivity).
    cbn [fstep] in X. rewrite X, bind_Ok. eexists. split; [reflexivity|]. eapply (with_fmt_fine _ _ _ _ (RFont d)); [exact F|exact X].
Qed.

Lemma format_fine : forall cp b k s d, fine cp b -> usable cp -> format_body codec bv ov cp k s d -> exists b', format_record codec b (RFormat d false) = Ok b' /\ fine cp b'.
Proof.
  intros cp b k s d F U B. unfold format_record. destruct (ensure_book cp b F U) as (b1 & -> & F1 & E1 & FE). rewrite bind_Ok.
  pose proof (format_body_says codec load (fun s => s) bv ov cp k s d b1 V50 (f_bv _ _ F1) (proj1 (f_ready _ _ F1)) (fun V => eq_sym (page_now _ _ V F1)) E1 B 0) as S.
  unfold PropFormat.says in S. cbn [orb] in S. replace (bv <=? 30) with false in S by lia. replace (bv <? 50) with false in S by lia.
  assert (X : exists f, fstep (unicode codec (en_encoding (bk_enc b1))) (bk_fmt b1) (RFormat d false) = Ok f).
  { cbn [fstep]. unfold handle_format. cbv iota zeta. rewrite (f_fbv _ _ F1). replace (bv >=? 50) with true by lia. replace (bv <? 50) with false by lia. cbn [andb].
    destruct (bv <? 80) eqn:V.
    - replace (bv >=? 80) with false by lia. try rewrite V in S. cbv iota in S. destruct S as [-> S]. rewrite bind_Ok, S, bind_Ok. eauto.
    - replace (bv >=? 80) with true by lia. try rewrite V in S. cbv iota in S. destruct S as [-> S]. rewrite bind_Ok, S, bind_Ok. eauto. }
  destruct X as (f & X). rewrite X, bind_Ok. eexists. split; [reflexivity|]. eapply with_fmt_fine; eassumption.
Qed.

Lemma xf_fine : forall cp b d, fine cp b -> (if bv <? 80 then 16 else 20) <= zlen d -> bytes d -> exists b', format_record codec b (RXf d) = Ok b' /\ fine cp b'.
Proof.
  intros cp b d F L BY. unfold format_record. rewrite bind_Ok.
  assert (X : exists f, fstep (unicode codec (en_encoding (bk_enc b))) (bk_fmt b) (RXf d) = Ok f).
  { cbn [fstep]. unfold handle_xf.
    set (fb := if (b_bv (bk_fmt b) >=? 50) && (b_xfcount (bk_fmt b) =? 0) then fill_in_standard_formats (bk_fmt b) else bk_fmt b).
    assert (B1 : b_bv fb = bv) by (unfold fb; destruct (_ && _); exact (f_fbv _ _ F)). clearbody fb. cbv zeta.
    assert (X : exists x, read_xf (b_bv fb) (zlen (b_xfs fb)) d = Ok x).
    { unfold read_xf. rewrite B1. replace (bv >=? 50) with true by lia. unfold read_xf80, read_xf50, unpack_u16, unpack_u32. destruct (bv <? 80) eqn:V.
      - replace (bv >=? 80) with false by lia. rewrite need_fits by lia. rewrite bind_Ok.
        repeat match goal with
        | |- context [bind (unpack_le 1 d 7) _] => destruct (unpack_fits 1 d 7 ltac:(lia) ltac:(lia) ltac:(lia)) as (ou & ->); rewrite bind_Ok
        | |- context [bind (unpack_le ?k ?dd ?p) _] => let v := fresh in destruct (unpack_fits k dd p ltac:(lia) ltac:(lia) ltac:(lia)) as (v & ->); rewrite bind_Ok
        | |- context [bind (unpack_i32 ?dd ?p) _] => let v := fresh in destruct (unpack_i32_fits dd p ltac:(lia) ltac:(lia)) as (v & ->); rewrite bind_Ok
        end.
        assert (R : 0 <= Z.land ou 3 < 4) by (change 3 with (Z.ones 2); rewrite Z.land_ones by lia; apply Z.mod_pos_bound; lia).
        assert (Q : Z.land ou 3 = 0 \/ Z.land ou 3 = 1 \/ Z.land ou 3 = 2 \/ Z.land ou 3 = 3) by lia.
        destruct Q as [-> | [-> | [-> | ->]]]; eexists; reflexivity.
      - replace (bv >=? 80) with true by lia. rewrite need_fits by lia. rewrite bind_Ok.
        repeat match goal with
        | |- context [bind (unpack_le ?k ?dd ?p) _] => let v := fresh in destruct (unpack_fits k dd p ltac:(lia) ltac:(lia) ltac:(lia)) as (v & ->); rewrite bind_Ok
        | |- context [bind (unpack_i32 ?dd ?p) _] => let v := fresh in destruct (unpack_i32_fits dd p ltac:(lia) ltac:(lia)) as (v & ->); rewrite bind_Ok
        end. eauto. }
    destruct X as (x & ->). rewrite bind_Ok. eauto. }
  destruct X as (f & X). rewrite X, bind_Ok. eexists. split; [reflexivity|]. eapply with_fmt_fine; eassumption.
Qed.

Lemma style_fine : forall cp b w id level extra, fine cp b -> u16v w -> Z.testbit w 15 = true -> 0 <= id < 10 -> 0 <= level < 256 ->
  exists b', format_record codec b (RStyle (le_enc 2 w ++ id :: level :: extra)) = Ok b' /\ fine cp b'.
Proof.
  intros cp b w id level extra F UW TB RI RL. unfold format_record. rewrite bind_Ok.
  set (d := le_enc 2 w ++ id :: level :: extra).
  assert (X : exists f, fstep (unicode codec (en_encoding (bk_enc b))) (bk_fmt b) (RStyle d) = Ok f).
  { cbn [fstep]. unfold handle_style. destruct (negb (b_fmt (bk_fmt b))); [eauto|].
    assert (A2 : At d 2 (id :: level :: extra)) by (exists (le_enc 2 w); split; [reflexivity|rewrite zlen_le_enc; reflexivity]).
    rewrite need_fits by (unfold d; rewrite zlen_app, zlen_le_enc, !zlen_cons; pose proof (zlen_nonneg extra); lia). rewrite bind_Ok.
    rewrite (At_u16 d (id :: level :: extra) w 0 (At_0 _) UW), bind_Ok. rewrite (At_byte _ _ _ _ A2) by lia. rewrite bind_Ok.
    rewrite (At_byte _ _ _ 3 (At_skip1 _ _ _ _ 3 A2 eq_refl)) by lia. rewrite bind_Ok. cbv zeta.
    match goal with |- context [if ?c then Ok (s2l "Normal", (1, 0)) else _] => destruct c end; [rewrite bind_Ok; eauto|].
    rewrite TB.
    assert (NM : exists s, py_index built_in_style_names id = Ok s).
    { rewrite py_index_norm. assert (norm (zlen built_in_style_names) id = id) as -> by (unfold norm; destruct (id <? 0) eqn:Q; [lia|reflexivity]).
      destruct (znth_in_range built_in_style_names id) as (s & ->); [change (zlen built_in_style_names) with 10; lia|]. eauto. }
    destruct NM as (s & ->). rewrite !bind_Ok. eauto. }
  destruct X as (f & X). rewrite X, bind_Ok. eexists. split; [reflexivity|]. eapply with_fmt_fine; eassumption.
Qed.

Lemma boundsheet_fine : forall cp b e d, fine cp b -> encoded b -> boundsheet codec bv ov cp e d ->
  exists s, handle_boundsheet codec (bk_bv b) (bk_base b) (bk_offset b) (en_encoding (bk_enc b)) (bk_sheets b) d = Ok s.
Proof.
  intros cp b e d F E B. unfold handle_boundsheet. rewrite (f_bv _ _ F). replace (bv =? 45) with false by lia.
  assert (R : exists rest, d = fixed_part e ++ rest /\ exists s,
      (if bv <? 80 then unpack_string (unicode codec (en_encoding (bk_enc b))) d 6 1 else unpack_unicode d 6 1) = Ok s).
  { assert (L6 : zlen (fixed_part e) = 6) by (unfold fixed_part; rewrite zlen_app, zlen_le_enc; reflexivity).
    destruct B as [u extra W EO UO UU UT|W EO UT|raw extra x W EO RL EF CD].
    - eexists. split; [reflexivity|]. replace (bv <? 80) with false by lia.
      exists (us_text u). rewrite <- L6. apply (c13_unpack_unicode u 1); auto.
    - eexists. split; [reflexivity|]. replace (bv <? 80) with false by lia.
      eexists. rewrite <- L6. apply (c13_unicode_empty_no_options _ 1). auto.
    - eexists. split; [reflexivity|]. replace (bv <? 80) with true by lia. exists (e_name e).
      rewrite (unpack_string_at _ _ 6 raw extra) by first [exact RL|exists (fixed_part e); auto].
      rewrite (encoding_now _ _ _ W F E EF). exact CD. }
  destruct R as (rest & -> & s & RN). rewrite RN.
  assert (L : 6 <= zlen (fixed_part e ++ rest)) by (unfold fixed_part; rewrite !zlen_app, zlen_le_enc, !zlen_cons, zlen_nil; pose proof (zlen_nonneg rest); lia).
  rewrite need_fits by lia. rewrite bind_Ok.
  destruct (unpack_i32_fits (fixed_part e ++ rest) 0 ltac:(lia) ltac:(lia)) as (o & ->). rewrite bind_Ok.
  destruct (unpack_fits 1 (fixed_part e ++ rest) 4 ltac:(lia) ltac:(lia) ltac:(lia)) as (v & ->). rewrite bind_Ok.
  destruct (unpack_fits 1 (fixed_part e ++ rest) 5 ltac:(lia) ltac:(lia) ltac:(lia)) as (t & ->). rewrite !bind_Ok.
  destruct (negb (t =? 0)); eauto.
Qed.

Lemma user_fine : forall cp b d, fine cp b -> usable cp -> user_body codec bv ov d ->
  exists s, handle_writeaccess codec (bk_bv b) (bk_enc b) d = Ok s /\ ready cp s.
Proof.
  intros cp b d F U B. destruct (f_ready _ _ F) as (OV & CP & RA). unfold handle_writeaccess. rewrite (f_bv _ _ F).
  destruct B as [u extra V UO UU|raw pad V RL DE].
  - replace (bv <? 80) with false by lia.
    pose proof (c13_unpack_unicode u 2 [] extra UO (or_intror eq_refl) UU) as Q. cbn [app] in Q. change (@zlen Z []) with 0 in Q. change (Z.of_nat 2) with 2 in Q.
    rewrite Q, bind_Ok. eexists. split; [reflexivity|]. split; [exact OV|]. split; [exact CP|].
    intros R. cbn in R. destruct (RA R) as ((X & _) & _). lia.
  - replace (bv <? 80) with true by lia. destruct (truthy (en_encoding (bk_enc b))) eqn:T; cbn [negb].
    + assert (E : encoded b). { destruct (f_inv _ _ F) as [X|X]; [rewrite (f_bv _ _ F); exact V|rewrite X in T; discriminate|exact X]. }
      destruct (encoding_exists bv ov cp) as (e & EF). rewrite (encoding_now _ _ _ V F E EF).
      rewrite (unpack_string_at _ _ 0 raw pad) by first [exact RL|apply At_0]. cbn [unicode]. destruct (DE _ _ U EF) as (s & ->). rewrite bind_Ok.
      eexists. split; [reflexivity|]. split; [exact OV|]. split; [exact CP|].
      intros R. cbn in R. destruct (RA R) as (_ & X). congruence.
    + eexists. split; [reflexivity|]. split; [exact OV|]. split; [exact CP|]. intros _. split; [|exact T].
      split; [exact V|]. exists raw, pad. auto.
Qed.

Lemma gstep_keeps : forall cp (b : book) mem pos rc data b' p, gstep codec load b mem pos rc data = Ok (b', p) -> rc <> 0x8f -> fine cp b ->
  bk_bv b' = bv /\ enc_inv b' /\ b_bv (bk_fmt b') = bv.
Proof.
  intros cp b mem pos rc data b' p G N8 F. destruct (gstep_effect _ _ _ _ _ _ _ _ _ G N8 (f_inv _ _ F)) as (EI & _ & KF).
  split; [rewrite (gstep_version _ _ _ _ _ _ _ _ _ G N8); exact (f_bv _ _ F)|]. split; [exact EI|].
  destruct (frec rc data) as [r|].
  - destruct KF as [KF _]. rewrite (proj1 (step_frame _ _ _ _ KF)). exact (f_fbv _ _ F).
  - rewrite KF. exact (f_fbv _ _ F).
Qed.

(** *** Styles, palettes, links and references *)

Lemma named_style_fine : forall cp b w u extra, fine cp b -> 80 <= bv -> u16v w -> Z.testbit w 15 = false -> us_ok u -> us_units u < 65536 ->
  exists b', format_record codec b (RStyle (le_enc 2 w ++ us_field 2 u ++ extra)) = Ok b' /\ fine cp b'.
Proof.
  intros cp b w u extra F V UW TB UO UU. unfold format_record. rewrite bind_Ok.
  set (d := le_enc 2 w ++ us_field 2 u ++ extra).
  assert (L2 : 2 <= zlen (us_field 2 u)) by (unfold us_field; rewrite zlen_app, zlen_le_enc; match goal with |- context [_ + zlen ?x] => pose proof (zlen_nonneg x) end; lia).
  assert (LD : 4 <= zlen d) by (unfold d; rewrite !zlen_app, zlen_le_enc; pose proof (zlen_nonneg extra); lia).
  assert (X : exists f, fstep (unicode codec (en_encoding (bk_enc b))) (bk_fmt b) (RStyle d) = Ok f).
  { cbn [fstep]. unfold handle_style. destruct (negb (b_fmt (bk_fmt b))); [eauto|].
    rewrite need_fits by lia. rewrite bind_Ok. rewrite (At_u16 d (us_field 2 u ++ extra) w 0 (At_0 _) UW), bind_Ok.
    destruct (unpack_fits 1 d 2 ltac:(lia) ltac:(lia) ltac:(lia)) as (v2 & ->). destruct (unpack_fits 1 d 3 ltac:(lia) ltac:(lia) ltac:(lia)) as (v3 & ->). rewrite !bind_Ok. cbv zeta.
    match goal with |- context [if ?c then Ok (s2l "Normal", (1, 0)) else _] => destruct c end; [rewrite bind_Ok; eauto|].
    rewrite TB, (f_fbv _ _ F). replace (bv >=? 80) with true by lia.
    pose proof (c13_unpack_unicode u 2 (le_enc 2 w) extra UO (or_intror eq_refl) UU) as Q. rewrite zlen_le_enc in Q. change (Z.of_nat 2) with 2 in Q. fold d in Q.
    rewrite Q, !bind_Ok. eauto. }
  destruct X as (f & X). rewrite X, bind_Ok. eexists. split; [reflexivity|]. eapply with_fmt_fine; eassumption.
Qed.

(** No palette has been read. *)
Definition unpainted (b : book) : Prop := exists fmt f0 p, fbook0 bv fmt = Ok f0 /\ frun f0 p = Ok (bk_fmt b) /\ forall d data, ~ In (d, RPalette data) p.
Definition pal (b : book) (rs : list (Z * list Z)) : Prop := unpainted b \/ ~ In 0x92 (map fst rs).

Lemma frun_snoc : forall p b b1 d r b2, frun b p = Ok b1 -> fstep d b1 r = Ok b2 -> frun b (p ++ [(d, r)]) = Ok b2.
Proof.
  induction p as [|[d0 r0] p IH]; intros b b1 d r b2 H S; cbn [frun app] in *; [injection H as ->; rewrite S; reflexivity|].
  apply bind_ok in H as (b3 & -> & H). cbn [bind]. eapply IH; eassumption.
Qed.

Lemma pal_step : forall cp (b : book) mem pos rc data cs rs b' p, gstep codec load b mem pos rc data = Ok (b', p) -> rc <> 0x8f -> fine cp b ->
  rc <> 0x92 \/ ~ In 0x92 (map fst rs) -> pal b ((rc, data) :: cs ++ rs) -> pal b' rs.
Proof.
  intros cp b mem pos rc data cs rs b' p G N8 F NP [(fmt & f0 & q & F0 & R & NI)|NI]; [|right; intros I; apply NI; right; rewrite map_app; apply in_or_app; right; exact I].
  destruct NP as [NP|NP]; [left|right; exact NP].
  destruct (gstep_effect _ _ _ _ _ _ _ _ _ G N8 (f_inv _ _ F)) as (_ & _ & KF).
  destruct (frec rc data) as [r|] eqn:FR.
  - destruct KF as [KF _]. eexists fmt, f0, _. split; [exact F0|]. split; [exact (frun_snoc _ _ _ _ _ _ R KF)|].
    intros d x I. apply in_app_or in I as [I|[I|[]]]; [exact (NI _ _ I)|]. injection I as _ ->. unfold frec in FR.
    repeat (match type of FR with (if ?c then _ else _) = _ => destruct c eqn:?; [first [discriminate FR|lia]|] end). discriminate FR.
  - exists fmt, f0, q. rewrite KF. auto.
Qed.

Lemma palette_fine : forall cp b cs extra, fine cp b -> unpainted b -> Forall byte_entry cs -> zlen cs <= 56 -> zlen extra <= 4 ->
  exists b', format_record codec b (RPalette (palette_bytes cs extra)) = Ok b' /\ fine cp b'.
Proof.
  intros cp b cs extra F (fmt & f0 & q & F0 & R & NI) B LC LE. unfold format_record. rewrite bind_Ok.
  assert (X : exists f, fstep (unicode codec (en_encoding (bk_enc b))) (bk_fmt b) (RPalette (palette_bytes cs extra)) = Ok f).
  { cbn [fstep]. destruct fmt.
    - assert (L6 : zlen cs < 65536) by lia. pose proof (c56_book bv f0 q (bk_fmt b) cs extra F0 R NI B L6 LE) as K0.
      assert (PS : palette_size bv = 56) by (unfold palette_size; replace (50 <=? bv) with true by lia; reflexivity).
      replace (zlen cs <=? palette_size bv + 2) with true in K0 by lia. destruct K0 as (f & E & _). eauto.
    - assert (FM : b_fmt (bk_fmt b) = false) by (rewrite (proj2 (frun_bv _ _ _ R)); unfold fbook0 in F0; injection F0 as <-; reflexivity).
      unfold handle_palette. rewrite FM. eexists. reflexivity. }
  destruct X as (f & X). rewrite X, bind_Ok. eexists. split; [reflexivity|]. eapply with_fmt_fine; eassumption.
Qed.

Lemma supbook_names_fine : forall names pre extra, Forall (fun n => us_ok n /\ us_units n < 65536) names ->
  supbook_names (List.length names) (pre ++ flat_map (us_field 2) names ++ extra) (zlen pre) = Ok tt.
Proof.
  induction names as [|u names IH]; intros pre extra H; [reflexivity|]. inversion H as [|? ? [UO UU] H2]; subst. cbn [List.length supbook_names flat_map]. rewrite <- app_assoc.
  pose proof (c13_unicode_update_pos u 2 pre (flat_map (us_field 2) names ++ extra) UO (or_intror eq_refl) UU) as Q. change (Z.of_nat 2) with 2 in Q. rewrite Q.
  rewrite app_assoc. apply IH. exact H2.
Qed.

Lemma supbook_fine : forall r d, link_body d -> exists r', handle_supbook r d = Ok r' /\ rf_types r' <> [].
Proof.
  assert (NE : forall (l : list Z) x, l ++ [x] <> []) by (intros [|? ?] ?; discriminate).
  intros r d B. unfold handle_supbook. cbv zeta. destruct B as [n extra UN|extra|u names extra UO UU NO LN].
  - rewrite (At_u16 _ ([1; 4] ++ extra) n 0 (At_0 _) UN), bind_Ok.
    assert (A2 : At (le_enc 2 n ++ [1; 4] ++ extra) 2 ([1; 4] ++ extra)) by (exists (le_enc 2 n); split; [reflexivity|rewrite zlen_le_enc; reflexivity]).
    rewrite (At_slice _ _ _ _ 4 A2 eq_refl).
    change (list_eqb [1; 4] [1; 4]) with true. cbv iota. eexists. split; [reflexivity|]. apply NE.
  - change ([1; 0; 1; 58] ++ extra) with (le_enc 2 1 ++ [1; 58] ++ extra). rewrite (At_u16 _ ([1; 58] ++ extra) 1 0 (At_0 _)) by (unfold u16v; lia). rewrite bind_Ok.
    assert (A2 : At (le_enc 2 1 ++ [1; 58] ++ extra) 2 ([1; 58] ++ extra)) by (exists (le_enc 2 1); split; [reflexivity|rewrite zlen_le_enc; reflexivity]).
    rewrite (At_slice _ _ _ _ 4 A2 eq_refl).
    change (list_eqb [1; 58] [1; 4]) with false. cbv iota.
    assert (py_slice (le_enc 2 1 ++ [1; 58] ++ extra) 0 4 = [1; 0; 1; 58]) as -> by (exact (py_slice_pre [1; 0; 1; 58] extra 4 eq_refl)).
    change (list_eqb [1; 0; 1; 58] [1; 0; 1; 58]) with true. cbv iota. eexists. split; [reflexivity|]. apply NE.
  - assert (UN : u16v (zlen names)) by (unfold u16v; pose proof (zlen_nonneg names); lia).
    rewrite (At_u16 _ (us_field 2 u ++ flat_map (us_field 2) names ++ extra) _ 0 (At_0 _) UN), bind_Ok.
    match goal with |- context [if ?c then _ else _] => destruct c end; [eexists; split; [reflexivity|apply NE]|].
    match goal with |- context [if ?c then _ else _] => destruct c end; [eexists; split; [reflexivity|apply NE]|].
    pose proof (c13_unicode_update_pos u 2 (le_enc 2 (zlen names)) (flat_map (us_field 2) names ++ extra) UO (or_intror eq_refl) UU) as Q.
    rewrite (zlen_le_enc 2) in Q at 1. change (Z.of_nat 2) with 2 in Q. rewrite Q. cbn [bind].
    destruct (zlen names =? 0); [eexists; split; [reflexivity|apply NE]|].
    replace (Z.to_nat (zlen names)) with (List.length names) by (unfold zlen; lia). rewrite app_assoc.
    rewrite supbook_names_fine by exact NO. rewrite bind_Ok. eexists. split; [reflexivity|apply NE].
Qed.

Lemma last_there : forall (l : list Z), l <> [] -> exists x, py_index l (-1) = Ok x.
Proof.
  intros l H. rewrite py_index_norm. assert (0 < zlen l) by (destruct l; [contradiction|rewrite zlen_cons; pose proof (zlen_nonneg l); lia]).
  destruct (znth_in_range l (norm (zlen l) (-1))) as (x & ->); [unfold norm; change (-1 <? 0) with true; cbv iota; lia|]. eauto.
Qed.

Lemma outer_fine : forall r d, 80 <= bv -> outer_name d -> rf_types r <> [] -> exists r', handle_externname bv r d = Ok r' /\ rf_types r' <> [].
Proof.
  intros r d V [six u extra L UO UU] NE. unfold handle_externname. replace (bv >=? 80) with true by lia.
  rewrite need_fits by (rewrite zlen_app; match goal with |- context [_ + zlen ?x] => pose proof (zlen_nonneg x) end; lia). rewrite bind_Ok.
  pose proof (c13_unicode_update_pos u 1 six extra UO (or_introl eq_refl) UU) as Q. rewrite L in Q. change (Z.of_nat 1) with 1 in Q. rewrite Q. cbn [bind].
  destruct (last_there _ NE) as (x & ->). cbn [bind]. destruct (x =? SUPBOOK_ADDIN); eauto.
Qed.

Lemma body_reads : forall cs fuel mem pos data reqd rest, Forall (fun c => c <> []) cs -> Forall framable (map (pair 0x3c) cs) ->
  At mem pos (frames (map (pair 0x3c) cs) ++ rest) -> zlen data + zlen (List.concat cs) = reqd -> (List.length cs <= fuel)%nat ->
  externsheet_body fuel mem pos reqd data = Ok (data ++ List.concat cs, pos + zlen (frames (map (pair 0x3c) cs))).
Proof.
  induction cs as [|x cs IH]; intros fuel mem pos data reqd rest NE FR A L LF.
  - cbn [List.concat map frames flat_map] in *. change (zlen (@nil Z)) with 0 in *. rewrite app_nil_r, Z.add_0_r. destruct fuel; cbn [externsheet_body]; replace (zlen data <? reqd) with false by lia; reflexivity.
  - inversion NE as [|? ? N1 N2]; subst. inversion FR as [|? ? F1 F2]; subst. cbn [List.length] in LF. destruct fuel as [|fuel]; [lia|].
    cbn [List.concat map frames flat_map] in *. rewrite zlen_app in *. pose proof (zlen_nonneg (List.concat cs)).
    assert (0 < zlen x) by (destruct x; [contradiction|rewrite zlen_cons; pose proof (zlen_nonneg x); lia]).
    cbn [externsheet_body]. replace (zlen data <? _) with true by lia. cbn [negb]. rewrite <- app_assoc in A. rewrite (At_frame _ _ _ _ A F1). cbn [bind fst snd].
    change (60 =? XL_CONTINUE) with true. cbn [negb].
    rewrite (IH fuel mem _ (data ++ x) _ rest N2 F2 (At_skip _ _ _ _ _ A eq_refl)) by (rewrite ?zlen_app; lia). f_equal. apply f_equal2; [symmetry; apply app_assoc|]. rewrite (zlen_app (frame _)). unfold frames. lia.
Qed.

Lemma frames_long : forall cs, Z.of_nat (List.length cs) <= zlen (frames (map (pair 0x3c) cs)).
Proof.
  induction cs as [|x cs IH]; [cbn; unfold zlen; cbn; lia|]. cbn [List.length map frames flat_map]. rewrite zlen_app, zlen_frame. unfold frames in IH.
  pose proof (zlen_nonneg (snd (60, x))). lia.
Qed.

Lemma table_fine : forall (enc : option (list Z)) r mem pos l first cs rest, 80 <= bv -> zlen l < 65536 -> Forall reference_ok l -> 2 <= zlen first -> Forall (fun c => c <> []) cs ->
  first ++ List.concat cs = table_bytes l -> Forall framable (map (pair 0x3c) cs) -> At mem pos (frames (map (pair 0x3c) cs) ++ rest) ->
  exists r', handle_externsheet codec bv enc r mem pos first = Ok (r', pos + zlen (frames (map (pair 0x3c) cs))).
Proof.
  intros enc r mem pos l first cs rest V LL RO LF NE E FR A. unfold handle_externsheet. cbv zeta. replace (bv >=? 80) with true by lia.
  assert (U0 : unpack_u16 first 0 = Ok (zlen l)).
  { assert (UL : u16v (zlen l)) by (unfold u16v; pose proof (zlen_nonneg l); lia).
    assert (A0 : At (first ++ List.concat cs) 0 (le_enc 2 (zlen l) ++ flat_map reference_bytes l)) by (rewrite E; apply At_0).
    pose proof (At_u16 _ _ _ _ A0 UL) as Q. unfold unpack_u16, unpack_le in *. rewrite <- Q.
    assert (py_slice (first ++ List.concat cs) 0 2 = py_slice first 0 2) as X.
    { destruct first as [|a [|b first]]; [unfold zlen in LF; cbn in LF; lia|unfold zlen in LF; cbn in LF; lia|].
      transitivity [a; b]; [exact (py_slice_pre [a; b] (first ++ List.concat cs) 2 eq_refl)|symmetry; exact (py_slice_pre [a; b] first 2 eq_refl)]. }
    change (0 + 2) with 2. rewrite X. reflexivity. }
  rewrite U0, bind_Ok.
  assert (LT : zlen first + zlen (List.concat cs) = zlen l * 6 + 2).
  { rewrite <- zlen_app, E. unfold table_bytes. rewrite zlen_app, zlen_le_enc.
    assert (zlen (flat_map reference_bytes l) = 6 * zlen l) as ->; [|lia]. clear. induction l as [|x l IH]; [reflexivity|]. cbn [flat_map]. rewrite zlen_app, IH, zlen_cons.
    unfold reference_bytes. rewrite !zlen_app, !zlen_le_enc. lia. }
  assert (LC : (List.length cs <= S (List.length mem))%nat).
  { pose proof (frames_long cs). pose proof (At_len _ _ _ A) as Q. rewrite zlen_app in Q. pose proof (zlen_nonneg rest). destruct A as (p0 & _ & P0). pose proof (zlen_nonneg p0). unfold zlen in *. lia. }
  rewrite (body_reads cs _ mem pos first _ rest NE FR A LT LC). cbn [bind]. rewrite E.
  replace (Z.to_nat (zlen l)) with (List.length l) by (unfold zlen; lia).
  rewrite (triples_read l (table_bytes l) 2 [] RO) by (rewrite app_nil_r; exists (le_enc 2 (zlen l)); split; [reflexivity|rewrite zlen_le_enc; reflexivity]).
  rewrite bind_Ok. eauto.
Qed.

Lemma extern_fine : forall cp b x mem pos d, fine cp b -> encoded b -> bv < 80 -> extern codec bv ov cp x d ->
  exists r', handle_externsheet codec bv (en_encoding (bk_enc b)) (bk_refs b) mem pos d = Ok (r', pos).
Proof.
  intros cp b x mem pos d F E V X. unfold handle_externsheet. cbv zeta. replace (bv >=? 80) with false by lia.
  destruct X as [raw name enc extra LR EF CD|n ty extra NT RN RT].
  - assert (A : At ([zlen raw; 3] ++ raw ++ extra) 0 (zlen raw :: 3 :: raw ++ extra)) by apply At_0.
    rewrite need_fits by (cbn [app]; rewrite !zlen_cons, zlen_app; pose proof (zlen_nonneg raw); pose proof (zlen_nonneg extra); lia). rewrite bind_Ok.
    rewrite (At_byte _ _ _ _ A) by (pose proof (zlen_nonneg raw); lia). rewrite bind_Ok. pose proof (At_skip1 _ _ _ _ 1 A eq_refl) as A1.
    rewrite (At_byte _ _ _ _ A1) by lia. rewrite bind_Ok. change (3 =? 3) with true. cbv iota.
    pose proof (At_skip1 _ _ _ _ 2 A1 eq_refl) as A2. rewrite (At_slice _ _ _ _ (zlen raw + 2) A2) by lia.
    rewrite (encoding_now _ _ _ V F E EF). cbn [unicode]. rewrite CD, !bind_Ok. eauto.
  - assert (A : At ([n; ty] ++ extra) 0 (n :: ty :: extra)) by apply At_0.
    rewrite need_fits by (cbn [app]; rewrite !zlen_cons; pose proof (zlen_nonneg extra); lia). rewrite bind_Ok.
    rewrite (At_byte _ _ _ _ A) by lia. rewrite bind_Ok. pose proof (At_skip1 _ _ _ _ 1 A eq_refl) as A1.
    rewrite (At_byte _ _ _ _ A1) by lia. rewrite bind_Ok. replace (ty =? 3) with false by lia. rewrite bind_Ok. eauto.
Qed.

Variable ops : numops N.
Variable lower : list Z -> list Z.

Lemma end_fine : forall cp b, fine cp b -> usable cp -> exists b', globals_end codec ops lower b = Ok b'.
Proof.
  intros cp b F U. unfold globals_end. cbv zeta.
  change (bk_names (with_fmt b (xf_epilogue (bk_fmt b)))) with (bk_names b). rewrite (f_names _ _ F).
  unfold names_epilogue. cbn [mapM]. rewrite bind_Ok. change (zrange 0 (zlen [])) with (@nil Z). cbn [eval_names]. rewrite bind_Ok.
  change (name_maps (N := N) lower []) with (@Ok (scopemap * namemap) ([], [])). cbn [bind].
  match goal with |- context [if truthy (en_encoding (bk_enc ?x)) then _ else _] => set (b1 := x) end.
  destruct (truthy (en_encoding (bk_enc b1))); [eauto|].
  destruct (derive_fine cp (bk_enc b1) (f_ready _ _ F) U) as (s & D & _).
  unfold derive. change (bk_bv b1) with (bk_bv b). rewrite (f_bv _ _ F), D. eexists. reflexivity.
Qed.

Lemma globals_fine : forall cp rs, written cp rs -> usable cp -> forall fuel b mem pos d post,
  fine cp b -> pal b rs -> (List.length rs < fuel)%nat -> Forall framable rs -> zlen d < 65536 -> At mem pos (frames rs ++ frame (0x0a, d) ++ post) ->
  exists b' p', globals codec ops lower load fuel b mem pos = Ok (b', p').
Proof.
  assert (StepQ : forall (Q : book -> Prop) cp cp' rc data cs rs fuel b mem pos d post, fine cp b -> pal b ((rc, data) :: cs ++ rs) -> (List.length ((rc, data) :: cs ++ rs) < fuel)%nat ->
    Forall framable ((rc, data) :: cs ++ rs) -> zlen d < 65536 -> At mem pos (frames ((rc, data) :: cs ++ rs) ++ frame (0x0a, d) ++ post) ->
    rc <> 0x0a -> rc <> 0x8f -> rc <> 0x92 \/ ~ In 0x92 (map fst rs) ->
    (forall pos', At mem pos' (frames (cs ++ rs) ++ frame (0x0a, d) ++ post) -> exists b',
       gstep codec load b mem pos' rc data = Ok (b', pos' + zlen (frames cs)) /\ ready cp' (bk_enc b') /\ bk_names b' = [] /\
       (g_countries (bk_shared b') = (0, 0) \/ g_countries (bk_shared b') = K) /\ Q b') ->
    (forall fuel b mem pos d post, fine cp' b -> pal b rs -> Q b -> (List.length rs < fuel)%nat -> Forall framable rs -> zlen d < 65536 -> At mem pos (frames rs ++ frame (0x0a, d) ++ post) ->
       exists b' p', globals codec ops lower load fuel b mem pos = Ok (b', p')) ->
    exists b' p', globals codec ops lower load fuel b mem pos = Ok (b', p')).
  { intros Q cp cp' rc data cs rs fuel b mem pos d post F PA LF FR LD A N1 N2 NP G IH.
    destruct fuel as [|fuel]; [cbn in LF; lia|]. cbn [globals]. inversion FR as [|? ? FR1 FR2]; subst.
    cbn [frames flat_map] in A. rewrite <- app_assoc in A. rewrite (At_frame _ _ _ _ A FR1). cbn [bind fst snd].
    replace (rc =? 10) with false by lia.
    pose proof (At_skip _ _ _ _ _ A eq_refl) as A2. fold (frames (cs ++ rs)) in A2.
    destruct (G _ A2) as (b' & GS & R1 & R2 & R3 & RQ). rewrite GS, bind_Ok.
    destruct (gstep_keeps _ _ _ _ _ _ _ _ GS N2 F) as (K1 & K2 & K3).
    apply IH with (d := d) (post := post).
    - split; assumption.
    - exact (pal_step _ _ _ _ _ _ _ _ _ _ GS N2 F NP PA).
    - exact RQ.
    - cbn [List.length] in LF. rewrite app_length in LF. lia.
    - apply Forall_app in FR2 as [_ FR2]. exact FR2.
    - exact LD.
    - unfold frames in A2 |- *. rewrite flat_map_app, <- app_assoc in A2. exact (At_skip _ _ _ _ _ A2 eq_refl). }
  assert (Step : forall cp cp' rc data cs rs fuel b mem pos d post, fine cp b -> pal b ((rc, data) :: cs ++ rs) -> (List.length ((rc, data) :: cs ++ rs) < fuel)%nat ->
    Forall framable ((rc, data) :: cs ++ rs) -> zlen d < 65536 -> At mem pos (frames ((rc, data) :: cs ++ rs) ++ frame (0x0a, d) ++ post) ->
    rc <> 0x0a -> rc <> 0x8f -> rc <> 0x92 \/ ~ In 0x92 (map fst rs) ->
    (forall pos', At mem pos' (frames (cs ++ rs) ++ frame (0x0a, d) ++ post) -> exists b',
       gstep codec load b mem pos' rc data = Ok (b', pos' + zlen (frames cs)) /\ ready cp' (bk_enc b') /\ bk_names b' = [] /\
       (g_countries (bk_shared b') = (0, 0) \/ g_countries (bk_shared b') = K)) ->
    (forall fuel b mem pos d post, fine cp' b -> pal b rs -> (List.length rs < fuel)%nat -> Forall framable rs -> zlen d < 65536 -> At mem pos (frames rs ++ frame (0x0a, d) ++ post) ->
       exists b' p', globals codec ops lower load fuel b mem pos = Ok (b', p')) ->
    exists b' p', globals codec ops lower load fuel b mem pos = Ok (b', p')).
  { intros cp cp' rc data cs rs fuel b mem pos d post F PA LF FR LD A N1 N2 NP G IH.
    apply (StepQ (fun _ => True) cp cp' rc data cs rs fuel b mem pos d post F PA LF FR LD A N1 N2 NP).
    - intros pos' A'. destruct (G pos' A') as (b' & G1 & G2 & G3 & G4). exists b'. auto.
    - intros fuel0 b0 mem0 pos0 d0 post0 F0 P0 _. apply IH; assumption. }
  assert (Outer : forall cp rs, (forall fuel b mem pos d post, fine cp b -> pal b rs -> (List.length rs < fuel)%nat -> Forall framable rs -> zlen d < 65536 -> At mem pos (frames rs ++ frame (0x0a, d) ++ post) ->
       exists b' p', globals codec ops lower load fuel b mem pos = Ok (b', p')) -> 80 <= bv -> forall names, Forall outer_name names ->
    forall fuel b mem pos d post, fine cp b -> pal b (map (pair 0x23) names ++ rs) -> rf_types (bk_refs b) <> [] -> (List.length (map (pair 0x23%Z) names ++ rs) < fuel)%nat ->
      Forall framable (map (pair 0x23) names ++ rs) -> zlen d < 65536 -> At mem pos (frames (map (pair 0x23) names ++ rs) ++ frame (0x0a, d) ++ post) ->
      exists b' p', globals codec ops lower load fuel b mem pos = Ok (b', p')).
  { intros cp rs IH V names. induction names as [|x names IHn]; intros NO fuel b mem pos d post F PA RT LF FR LD A; [apply IH with (d := d) (post := post); assumption|].
    inversion NO as [|? ? N1 N2]; subst. cbn [map app] in *.
    apply (StepQ (fun b => rf_types (bk_refs b) <> []) cp cp 0x23 x [] (map (pair 0x23) names ++ rs) fuel b mem pos d post F PA LF FR LD A ltac:(lia) ltac:(lia) ltac:(left; lia)).
    - intros pos' A'. cbv beta iota zeta delta [gstep]. cut. rewrite (f_bv _ _ F). destruct (outer_fine (bk_refs b) x V N1 RT) as (r & -> & RN). rewrite !bind_Ok.
      cbn [frames flat_map]. change (zlen (@nil Z)) with 0. rewrite Z.add_0_r.
      eexists. split; [reflexivity|]. split; [exact (f_ready _ _ F)|]. split; [exact (f_names _ _ F)|]. split; [exact (f_countries _ _ F)|exact RN].
    - intros fuel0 b0 mem0 pos0 d0 post0 F0 P0 R0. apply (IHn N2); assumption. }
  intros cp rs W. induction W as [cp|cp n extra rs UN US W IH|cp d0 rs UB W IH|cp n extra rs DM W IH|cp extra rs C1 C2 W IH|cp rc d0 rs RC FB W IH
    |cp k s d0 rs FB W IH|cp d0 rs XL XB W IH|cp w id level extra rs W1 W2 W3 W4 W IH|cp e d0 rs BS W IH|cp tot l ts tl rs S1 S2 S3 S4 S5 W IH
    |cp w u extra rs V8 UW TB UO UU W IH|cp cs extra rs CB CL CE NP W IH|cp d0 names rs V8 LB NO W IH|cp l first cs rs V8 LL RO L2 NN TE W IH|cp x d0 rs V7 XE W IH|cp d0 rs V7 W IH|cp rc d0 rs NI W IH];
    intros U fuel b mem pos d post F PA LF FR LD A.
  - destruct fuel as [|fuel]; [cbn in LF; lia|]. cbn [globals].
    cbn [frames flat_map app] in A. assert (FD : framable (10, d)) by (split; cbn; lia). rewrite (At_frame _ _ _ _ A FD). cbn [bind fst snd Z.eqb Pos.eqb].
    destruct (end_fine cp b F U) as (b' & ->). rewrite bind_Ok. eauto.
  - apply (Step cp (Some n) 0x42 (le_enc 2 n ++ extra) [] rs fuel b mem pos d post F PA LF FR LD A ltac:(lia) ltac:(lia) ltac:(left; lia)); [|exact (IH US)].
    intros pos' A'. cbv beta iota zeta delta [gstep]. cut. unfold handle_codepage. rewrite (At_u16 _ extra n 0 (At_0 _) UN), bind_Ok.
    destruct (f_ready _ _ F) as (OV & CP & RA).
    assert (R : ready (Some n) (with_codepage (bk_enc b) n)) by (split; [exact OV|]; split; [left; reflexivity|exact RA]).
    destruct (derive_fine _ _ R US) as (s & D & RS). rewrite (f_bv _ _ F), D, !bind_Ok. cbn [frames flat_map]. change (zlen (@nil Z)) with 0. rewrite Z.add_0_r.
    eexists. split; [reflexivity|]. split; [exact RS|]. split; [exact (f_names _ _ F)|exact (f_countries _ _ F)].
  - apply (Step cp cp 0x5c d0 [] rs fuel b mem pos d post F PA LF FR LD A ltac:(lia) ltac:(lia) ltac:(left; lia)); [|exact (IH U)].
    intros pos' A'. cbv beta iota zeta delta [gstep]. cut. destruct (user_fine cp b d0 F U UB) as (s & -> & RS). rewrite !bind_Ok. cbn [frames flat_map]. change (zlen (@nil Z)) with 0. rewrite Z.add_0_r.
    eexists. split; [reflexivity|]. split; [exact RS|]. split; [exact (f_names _ _ F)|exact (f_countries _ _ F)].
  - apply (Step cp cp 0x22 (le_enc 2 n ++ extra) [] rs fuel b mem pos d post F PA LF FR LD A ltac:(lia) ltac:(lia) ltac:(left; lia)); [|exact (IH U)].
    intros pos' A'. cbv beta iota zeta delta [gstep]. cut. unfold handle_datemode. rewrite (At_u16 _ extra n 0 (At_0 _)) by (unfold u16v; lia). rewrite bind_Ok.
    replace ((n =? 0) || (n =? 1)) with true by lia. cbn [guard]. rewrite !bind_Ok. cbn [frames flat_map]. change (zlen (@nil Z)) with 0. rewrite Z.add_0_r.
    eexists. split; [reflexivity|]. split; [exact (f_ready _ _ F)|]. split; [exact (f_names _ _ F)|exact (f_countries _ _ F)].
  - apply (Step cp cp 0x8c (le_enc 2 (fst K) ++ le_enc 2 (snd K) ++ extra) [] rs fuel b mem pos d post F PA LF FR LD A ltac:(lia) ltac:(lia) ltac:(left; lia)); [|exact (IH U)].
    intros pos' A'. cbv beta iota zeta delta [gstep]. cut. unfold handle_country.
    assert (A0 : At (le_enc 2 (fst K) ++ le_enc 2 (snd K) ++ extra) 0 (le_enc 2 (fst K) ++ le_enc 2 (snd K) ++ extra)) by apply At_0.
    rewrite need_fits by (rewrite !zlen_app, !zlen_le_enc; pose proof (zlen_nonneg extra); lia). rewrite bind_Ok.
    rewrite (At_u16 _ _ _ 0 A0 C1), bind_Ok. rewrite (At_u16 _ _ _ 2 (At_skip _ _ _ _ 2 A0 ltac:(rewrite zlen_le_enc; reflexivity)) C2), bind_Ok.
    cbv zeta. assert (GU : pair_eqb (g_countries (bk_shared b)) (0, 0) || pair_eqb (g_countries (bk_shared b)) (fst K, snd K) = true).
    { destruct (f_countries _ _ F) as [-> | ->]; [reflexivity|]. destruct K as [x y]. cbn [fst snd]. unfold pair_eqb at 2. cbn [fst snd]. rewrite !Z.eqb_refl. apply orb_true_r. }
    rewrite GU. cbn [guard]. rewrite !bind_Ok. cbn [frames flat_map]. change (zlen (@nil Z)) with 0. rewrite Z.add_0_r.
    eexists. split; [reflexivity|]. split; [exact (f_ready _ _ F)|]. split; [exact (f_names _ _ F)|]. right. cbn. destruct K; reflexivity.
  - apply (Step cp cp rc d0 [] rs fuel b mem pos d post F PA LF FR LD A ltac:(lia) ltac:(lia) ltac:(left; lia)); [|exact (IH U)].
    intros pos' A'. cbv beta iota zeta delta [gstep]. replace (rc =? 252) with false by lia. replace ((rc =? 49) || (rc =? 561)) with true by lia.
    destruct (font_fine cp b d0 F U FB) as (b' & -> & F'). rewrite bind_Ok. cbn [frames flat_map]. change (zlen (@nil Z)) with 0. rewrite Z.add_0_r.
    eexists. split; [reflexivity|]. split; [exact (f_ready _ _ F')|]. split; [exact (f_names _ _ F')|exact (f_countries _ _ F')].
  - apply (Step cp cp 0x41e d0 [] rs fuel b mem pos d post F PA LF FR LD A ltac:(lia) ltac:(lia) ltac:(left; lia)); [|exact (IH U)].
    intros pos' A'. cbv beta iota zeta delta [gstep]. cut.
    destruct (format_fine cp b k s d0 F U FB) as (b' & -> & F'). rewrite bind_Ok. cbn [frames flat_map]. change (zlen (@nil Z)) with 0. rewrite Z.add_0_r.
    eexists. split; [reflexivity|]. split; [exact (f_ready _ _ F')|]. split; [exact (f_names _ _ F')|exact (f_countries _ _ F')].
  - apply (Step cp cp 0xe0 d0 [] rs fuel b mem pos d post F PA LF FR LD A ltac:(lia) ltac:(lia) ltac:(left; lia)); [|exact (IH U)].
    intros pos' A'. cbv beta iota zeta delta [gstep]. cut.
    destruct (xf_fine cp b d0 F XL XB) as (b' & -> & F'). rewrite bind_Ok. cbn [frames flat_map]. change (zlen (@nil Z)) with 0. rewrite Z.add_0_r.
    eexists. split; [reflexivity|]. split; [exact (f_ready _ _ F')|]. split; [exact (f_names _ _ F')|exact (f_countries _ _ F')].
  - apply (Step cp cp 0x293 (le_enc 2 w ++ id :: level :: extra) [] rs fuel b mem pos d post F PA LF FR LD A ltac:(lia) ltac:(lia) ltac:(left; lia)); [|exact (IH U)].
    intros pos' A'. cbv beta iota zeta delta [gstep]. cut.
    destruct (style_fine cp b w id level extra F W1 W2 W3 W4) as (b' & -> & F'). rewrite bind_Ok. cbn [frames flat_map]. change (zlen (@nil Z)) with 0. rewrite Z.add_0_r.
    eexists. split; [reflexivity|]. split; [exact (f_ready _ _ F')|]. split; [exact (f_names _ _ F')|exact (f_countries _ _ F')].
  - apply (Step cp cp 0x85 d0 [] rs fuel b mem pos d post F PA LF FR LD A ltac:(lia) ltac:(lia) ltac:(left; lia)); [|exact (IH U)].
    intros pos' A'. cbv beta iota zeta delta [gstep]. cut.
    destruct (derive_book cp b F U) as (b1 & -> & F1 & E1 & _). rewrite bind_Ok. destruct (boundsheet_fine cp b1 e d0 F1 E1 BS) as (s & ->). rewrite !bind_Ok. cbn [frames flat_map]. change (zlen (@nil Z)) with 0. rewrite Z.add_0_r.
    eexists. split; [reflexivity|]. split; [exact (f_ready _ _ F1)|]. split; [exact (f_names _ _ F1)|exact (f_countries _ _ F1)].
  - apply (Step cp cp 0xfc (fst (sst_records tot l tl)) (map (pair 0x3c) (snd (sst_records tot l tl))) rs fuel b mem pos d post F PA LF FR LD A ltac:(lia) ltac:(lia) ltac:(left; lia)); [|exact (IH U)].
    intros pos' A'. cbv beta iota zeta delta [gstep]. cut.
    inversion FR as [|? ? _ FR2]; subst. apply Forall_app in FR2 as [FRC FRR].
    assert (AA : exists pre next post', mem = pre ++ frames (map (pair 60) (snd (sst_records tot l tl))) ++ frame next ++ post' /\ zlen pre = pos' /\ framable next /\ fst next <> 60).
    { destruct A' as (pre & EM & EP). destruct rs as [|[rn dn] after].
      - exists pre, (0x0a, d), post. rewrite app_nil_r in EM. split; [exact EM|]. split; [symmetry; exact EP|]. split; [split; cbn; lia|cbn; lia].
      - exists pre, (rn, dn), (frames after ++ frame (0x0a, d) ++ post). split.
        + rewrite EM. unfold frames. rewrite flat_map_app. cbn [flat_map]. rewrite <- !app_assoc. reflexivity.
        + split; [symmetry; exact EP|]. inversion FRR; subst. split; [assumption|exact S5]. }
    destruct AA as (pre & next & post' & EM & EP & FN & NN).
    assert (HB : Forall (fun d => zlen d < 65536) (snd (sst_records tot l tl))).
    { rewrite Forall_map in FRC. eapply Forall_impl; [|exact FRC]. intros x [_ X]. exact X. }
    pose proof (c16_sst_split_transparent tot l ts tl pre next post' S1 S2 S3 S4 HB FN NN) as Q. cbv zeta in Q.
    rewrite <- EM, EP in Q. rewrite Q, zlen_app, EP. cbn [bind].
    eexists. split; [reflexivity|]. split; [exact (f_ready _ _ F)|]. split; [exact (f_names _ _ F)|exact (f_countries _ _ F)].
  - apply (Step cp cp 0x293 (le_enc 2 w ++ us_field 2 u ++ extra) [] rs fuel b mem pos d post F PA LF FR LD A ltac:(lia) ltac:(lia) ltac:(left; lia)); [|exact (IH U)].
    intros pos' A'. cbv beta iota zeta delta [gstep]. cut.
    destruct (named_style_fine cp b w u extra F V8 UW TB UO UU) as (b' & -> & F'). rewrite bind_Ok. cbn [frames flat_map]. change (zlen (@nil Z)) with 0. rewrite Z.add_0_r.
    eexists. split; [reflexivity|]. split; [exact (f_ready _ _ F')|]. split; [exact (f_names _ _ F')|exact (f_countries _ _ F')].
  - assert (UP : unpainted b) by (destruct PA as [PA|PA]; [exact PA|exfalso; apply PA; left; reflexivity]).
    apply (Step cp cp 0x92 (palette_bytes cs extra) [] rs fuel b mem pos d post F PA LF FR LD A ltac:(lia) ltac:(lia) (or_intror NP)); [|exact (IH U)].
    intros pos' A'. cbv beta iota zeta delta [gstep]. cut.
    destruct (palette_fine cp b cs extra F UP CB CL CE) as (b' & -> & F'). rewrite bind_Ok. cbn [frames flat_map]. change (zlen (@nil Z)) with 0. rewrite Z.add_0_r.
    eexists. split; [reflexivity|]. split; [exact (f_ready _ _ F')|]. split; [exact (f_names _ _ F')|exact (f_countries _ _ F')].
  - apply (StepQ (fun b => rf_types (bk_refs b) <> []) cp cp 0x1ae d0 [] (map (pair 0x23) names ++ rs) fuel b mem pos d post F PA LF FR LD A ltac:(lia) ltac:(lia) ltac:(left; lia)).
    + intros pos' A'. cbv beta iota zeta delta [gstep]. cut. destruct (supbook_fine (bk_refs b) d0 LB) as (r & -> & RN). rewrite !bind_Ok. cbn [frames flat_map]. change (zlen (@nil Z)) with 0. rewrite Z.add_0_r.
      eexists. split; [reflexivity|]. split; [exact (f_ready _ _ F)|]. split; [exact (f_names _ _ F)|]. split; [exact (f_countries _ _ F)|exact RN].
    + exact (Outer cp rs (IH U) V8 names NO).
  - apply (Step cp cp 0x17 first (map (pair 0x3c) cs) rs fuel b mem pos d post F PA LF FR LD A ltac:(lia) ltac:(lia) ltac:(left; lia)); [|exact (IH U)].
    intros pos' A'. cbv beta iota zeta delta [gstep]. cut. destruct (derive_book cp b F U) as (b1 & -> & F1 & E1 & _). rewrite bind_Ok.
    inversion FR as [|? ? _ FR2]; subst. apply Forall_app in FR2 as [FRC _]. unfold frames in A'. rewrite flat_map_app, <- app_assoc in A'.
    rewrite (f_bv _ _ F1). destruct (table_fine (en_encoding (bk_enc b1)) (bk_refs b1) mem pos' l first cs _ V8 LL RO L2 NN TE FRC A') as (r & ->). cbn [bind].
    eexists. split; [reflexivity|]. split; [exact (f_ready _ _ F1)|]. split; [exact (f_names _ _ F1)|exact (f_countries _ _ F1)].
  - apply (Step cp cp 0x17 d0 [] rs fuel b mem pos d post F PA LF FR LD A ltac:(lia) ltac:(lia) ltac:(left; lia)); [|exact (IH U)].
    intros pos' A'. cbv beta iota zeta delta [gstep]. cut. destruct (derive_book cp b F U) as (b1 & -> & F1 & E1 & _). rewrite bind_Ok.
    rewrite (f_bv _ _ F1). destruct (extern_fine cp b1 x mem pos' d0 F1 E1 V7 XE) as (r & ->). cbn [bind]. cbn [frames flat_map]. change (zlen (@nil Z)) with 0. rewrite Z.add_0_r.
    eexists. split; [reflexivity|]. split; [exact (f_ready _ _ F1)|]. split; [exact (f_names _ _ F1)|exact (f_countries _ _ F1)].
  - apply (Step cp cp 0x23 d0 [] rs fuel b mem pos d post F PA LF FR LD A ltac:(lia) ltac:(lia) ltac:(left; lia)); [|exact (IH U)].
    intros pos' A'. cbv beta iota zeta delta [gstep]. cut. rewrite (f_bv _ _ F). unfold handle_externname. replace (bv >=? 80) with false by lia. rewrite !bind_Ok. cbn [frames flat_map]. change (zlen (@nil Z)) with 0. rewrite Z.add_0_r.
    eexists. split; [reflexivity|]. split; [exact (f_ready _ _ F)|]. split; [exact (f_names _ _ F)|exact (f_countries _ _ F)].
  - assert (NE : forall n, In n meaningful -> rc <> n) by (intros n I ->; exact (NI I)).
    apply (Step cp cp rc d0 [] rs fuel b mem pos d post F PA LF FR LD A); [apply NE; cbn; tauto|apply NE; cbn; tauto|left; apply NE; cbn; tauto| |exact (IH U)].
    intros pos' A'. cbv beta iota zeta delta [gstep].
    repeat match goal with |- context [rc =? ?n] => replace (rc =? n) with false by (symmetry; apply Z.eqb_neq; apply NE; cbn; tauto) end. cbn [orb].
    cbn [frames flat_map]. change (zlen (@nil Z)) with 0. rewrite Z.add_0_r.
    eexists. split; [reflexivity|]. split; [exact (f_ready _ _ F)|]. split; [exact (f_names _ _ F)|exact (f_countries _ _ F)].
Qed.
End Fine.
