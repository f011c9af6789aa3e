(** Lemmas about BookModel.v: what each record of the globals leaves alone. *)
From Verif Require Import Base BaseFacts Text Strings Framing GridModel SheetObjects SheetModel SstModel FormatModel FormulaModel
  BookModel PropEnc.

Section Frame.
Variable codec : list Z -> list Z -> result (list Z).
Context {N : Type}.
Context {SH : Type}.
Notation book := (book N SH).

(** The version, the base, the sheet list and the text options are those of the other. *)
Record alike (b b' : book) : Prop := {
  al_bv : bk_bv b' = bk_bv b;
  al_base : bk_base b' = bk_base b;
  al_sheets : bk_sheets b' = bk_sheets b;
  al_override : en_override (bk_enc b') = en_override (bk_enc b);
  al_codepage : bk_bv b < 80 -> en_codepage (bk_enc b') = en_codepage (bk_enc b) }.

Lemma alike_refl : forall b, alike b b.
Proof. split; auto. Qed.
Lemma alike_trans : forall a b d, alike a b -> alike b d -> alike a d.
Proof. intros a b d [A1 A2 A3 A4 A5] [B1 B2 B3 B4 B5]. split; try congruence. intros V. rewrite B5, A5; [reflexivity|lia|lia]. Qed.

Lemma choose_codepage : forall bv s, bv < 80 -> en_codepage (choose_encoding bv s) = en_codepage s.
Proof.
  intros bv [ov cp enc raw user] V. unfold choose_encoding. cbn [en_override en_codepage].
  replace (bv <? 80) with true by lia. replace (bv >=? 80) with false by lia.
  destruct ov as [[|]|], cp as [c|]; try destruct (encoding_from_codepage c);
    repeat match goal with |- context [if ?c then _ else _] => destruct c end; reflexivity.
Qed.

Lemma derive_alike : forall (b b' : book), derive codec b = Ok b' ->
  alike b b' /\ (bk_bv b < 80 -> forall e, encoding_for (bk_bv b) (en_override (bk_enc b)) (en_codepage (bk_enc b)) e ->
                 en_encoding (bk_enc b') = Some e) /\ b' = with_enc b (bk_enc b').
Proof.
  intros b b' H. unfold derive in H. apply bind_ok in H as (s & D & H). injection H as <-.
  destruct (derive_ok _ _ _ _ D) as (u & -> & _).
  destruct (choose_spec (bk_bv b) (bk_enc b)) as (K1 & K2 & K3 & f & EF & C).
  split; [|split].
  - split; try reflexivity; [exact K1|]. intros V. cbn. apply choose_codepage. exact V.
  - intros V e E. destruct C as [(Q & _)|(_ & A & _)]; [|lia]. cbn. rewrite Q. f_equal. eapply encoding_for_unique; eassumption.
  - reflexivity.
Qed.

Lemma ensure_alike : forall (b b' : book), ensure codec b = Ok b' -> alike b b'.
Proof.
  intros b b' H. unfold ensure, ensure_encoding in H. destruct (truthy (en_encoding (bk_enc b))).
  - rewrite bind_Ok in H. injection H as <-. split; reflexivity.
  - apply derive_alike. exact H.
Qed.

Lemma writeaccess_alike : forall (b : book) s data, handle_writeaccess codec (bk_bv b) (bk_enc b) data = Ok s ->
  alike b (with_enc b s).
Proof.
  intros b s data H. unfold handle_writeaccess in H.
  assert (X : exists raw u, s = with_user (bk_enc b) raw u).
  { destruct (bk_bv b <? 80); [destruct (negb (truthy (en_encoding (bk_enc b))))|].
    - injection H as <-. eauto.
    - apply bind_ok in H as (x & _ & H). injection H as <-. eauto.
    - apply bind_ok in H as (x & _ & H). injection H as <-. eauto. }
  destruct X as (raw & u & ->). split; reflexivity.
Qed.

Lemma format_alike : forall (b b' : book) r, format_record codec b r = Ok b' -> alike b b'.
Proof.
  intros b b' r H. unfold format_record in H. apply bind_ok in H as (b1 & E & H). apply bind_ok in H as (f & _ & H).
  injection H as <-. apply (alike_trans _ b1); [|split; reflexivity].
  destruct r; try destruct (b_fmt (bk_fmt b)); try (injection E as <-; apply alike_refl); exact (ensure_alike _ _ E).
Qed.

(** EOF *)
Lemma globals_end_alike : forall ops lower b b', globals_end codec ops lower b = Ok b' -> alike b b'.
Proof.
  intros ops lower b b' H. unfold globals_end in H. cbv zeta in H. apply bind_ok in H as ([names maps] & _ & H).
  destruct (truthy _); [injection H as <-; split; reflexivity|].
  eapply alike_trans; [|exact (proj1 (derive_alike _ _ H))]. split; reflexivity.
Qed.
Variable load : book -> list Z -> Z -> list Z -> Z -> result (shared * SH).

(** Every record but BOUNDSHEET, CODEPAGE and SHEETHDR. *)
Lemma gstep_alike : forall b mem pos rc data b' p, gstep codec load b mem pos rc data = Ok (b', p) ->
  rc <> 0x85 -> rc <> 0x42 -> rc <> 0x8f -> alike b b'.
Proof.
  intros b mem pos rc data b' p H N1 N2 N3. unfold gstep in H. cbv zeta in H.
  assert (Stay : forall r : result book, (do b <- r; Ok (b, pos)) = Ok (b', p) -> r = Ok b').
  { intros r E. apply bind_ok in E as (? & ? & E). injection E as <- <-. assumption. }
  destruct (rc =? 0xfc); [apply bind_ok in H as ([[? ?] ?] & _ & H); injection H as <- <-; split; reflexivity|].
  destruct ((rc =? 0x31) || (rc =? 0x231)); [apply Stay in H; exact (format_alike _ _ _ H)|].
  destruct (rc =? 0x41e); [apply Stay in H; exact (format_alike _ _ _ H)|].
  destruct (rc =? 0xe0); [apply Stay in H; exact (format_alike _ _ _ H)|].
  replace (rc =? 0x85) with false in H by lia.
  destruct (rc =? 0x22).
  { apply Stay in H. unfold handle_datemode in H. apply bind_ok in H as (d & _ & H). apply bind_ok in H as (? & _ & H).
    injection H as <-. split; reflexivity. }
  replace (rc =? 0x42) with false in H by lia.
  destruct (rc =? 0x8c).
  { apply Stay in H. unfold handle_country in H. apply bind_ok in H as (d & _ & H). apply bind_ok in H as (? & _ & H).
    apply bind_ok in H as (? & _ & H). apply bind_ok in H as (? & _ & H). injection H as <-. split; reflexivity. }
  destruct (rc =? 0x23); [apply Stay in H; apply bind_ok in H as (r & _ & H); injection H as <-; split; reflexivity|].
  destruct (rc =? 0x17).
  { apply bind_ok in H as (b1 & D & H). apply bind_ok in H as ([r q] & _ & H). injection H as <- <-.
    apply (alike_trans _ b1); [exact (proj1 (derive_alike _ _ D))|split; reflexivity]. }
  destruct (rc =? 0x2f); [discriminate|].
  destruct (rc =? 0x5c); [apply Stay in H; apply bind_ok in H as (s & W & H); injection H as <-; exact (writeaccess_alike _ _ _ W)|].
  destruct (rc =? 0x8e).
  { apply Stay in H. apply bind_ok in H as (? & _ & H). apply bind_ok in H as (? & _ & H). injection H as <-. split; reflexivity. }
  replace (rc =? 0x8f) with false in H by lia.
  destruct (rc =? 0x1ae); [apply Stay in H; apply bind_ok in H as (r & _ & H); injection H as <-; split; reflexivity|].
  destruct (rc =? 0x18).
  { destruct (bk_bv b <? 50); [injection H as <- <-; apply alike_refl|]. apply Stay in H. apply bind_ok in H as (b1 & D & H).
    apply bind_ok in H as (n & _ & H). injection H as <-.
    apply (alike_trans _ b1); [exact (proj1 (derive_alike _ _ D))|split; reflexivity]. }
  destruct (rc =? 0x92); [apply Stay in H; exact (format_alike _ _ _ H)|].
  destruct (rc =? 0x293); [apply Stay in H; exact (format_alike _ _ _ H)|].
  injection H as <- <-. apply alike_refl.
Qed.

(** BOUNDSHEET *)
Lemma gstep_boundsheet : forall b mem pos data b' p, gstep codec load b mem pos 0x85 data = Ok (b', p) ->
  exists b1 s, derive codec b = Ok b1 /\
    handle_boundsheet codec (bk_bv b1) (bk_base b1) (bk_offset b1) (en_encoding (bk_enc b1)) (bk_sheets b1) data = Ok s /\
    b' = with_sheets b1 s /\ p = pos.
Proof.
  intros b mem pos data b' p H. cbv beta iota zeta delta [gstep] in H.
  change (133 =? 252) with false in H. change ((133 =? 49) || (133 =? 561)) with false in H.
  change (133 =? 1054) with false in H. change (133 =? 224) with false in H. change (133 =? 133) with true in H.
  cbv iota in H. apply bind_ok in H as (b2 & H & E). injection E as <- <-.
  apply bind_ok in H as (b1 & D & H). apply bind_ok in H as (s & B & H). injection H as <-. eauto 8.
Qed.

(** CODEPAGE *)
Lemma gstep_codepage : forall b mem pos data b' p, gstep codec load b mem pos 0x42 data = Ok (b', p) ->
  exists cp, unpack_u16 data 0 = Ok cp /\ bk_bv b' = bk_bv b /\ bk_base b' = bk_base b /\ bk_sheets b' = bk_sheets b /\
    en_override (bk_enc b') = en_override (bk_enc b) /\ (bk_bv b < 80 -> en_codepage (bk_enc b') = Some cp).
Proof.
  intros b mem pos data b' p H. cbv beta iota zeta delta [gstep] in H.
  repeat match type of H with (if ?c then _ else _) = _ => let v := eval vm_compute in c in change c with v in H; cbv iota in H end.
  apply bind_ok in H as (b2 & H & E). injection E as <- <-.
  apply bind_ok in H as (s & D & H). injection H as <-. unfold handle_codepage in D. apply bind_ok in D as (cp & U & D).
  exists cp. split; [exact U|]. destruct (derive_ok _ _ _ _ D) as (u & -> & _).
  destruct (choose_keeps (bk_bv b) (with_codepage (bk_enc b) cp)) as (K1 & _).
  repeat split; try exact K1. intros V. cbn. rewrite choose_codepage by exact V. reflexivity.
Qed.

End Frame.
