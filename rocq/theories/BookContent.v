(** Lemmas about BookModel.v: the strings, the formats and the text encoding that the
    records of the globals leave for the worksheets. *)
From Verif Require Import Base BaseFacts Text Strings Utf16 StringFacts PropBytes Framing GridModel GridFacts SheetObjects SheetModel SstModel PropSst FormatModel
  FormatFacts PropFormat PropNumType FormulaModel BookModel BookFacts PropEnc BookSheets BookRefs.

(** The record of formatting information that a record of the globals is. *)
Definition frec (rc : Z) (data : list Z) : option frecord :=
  if (rc =? 0x31) || (rc =? 0x231) then Some (RFont data)
  else if rc =? 0x41e then Some (RFormat data false)
  else if rc =? 0xe0 then Some (RXf data)
  else if rc =? 0x92 then Some (RPalette data)
  else if rc =? 0x293 then Some (RStyle data)
  else None.

Lemma encoding_for_nonempty : forall bv o cp e, encoding_for bv o cp e -> truthy (Some e) = true.
Proof.
  intros bv o cp e H. destruct H as [o cp NE|o cp e O P|o O V|o O V]; try reflexivity.
  - destruct o; [contradiction|reflexivity].
  - destruct P as [e I| | |]; try reflexivity. unfold codepage_table in I. cbn [In] in I.
    repeat (destruct I as [I|I]; [pose proof (f_equal snd I) as Q; cbn [snd] in Q; subst e; reflexivity|]). contradiction.
Qed.

Lemma encoding_exists : forall bv o cp, exists e, encoding_for bv o cp e.
Proof.
  intros bv o cp. destruct (choose_spec bv (mk_encst o cp None false [])) as (_ & _ & _ & e & E & _). exists e. exact E.
Qed.

Section Content.
Variable codec : list Z -> list Z -> result (list Z).
Context {N SH : Type}.
Notation book := (book N SH).
Variable load : book -> list Z -> Z -> list Z -> Z -> result (shared * SH).

(** The text encoding is that of the override and the codepage. *)
Definition encoded (b : book) : Prop := bk_bv b < 80 ->
  forall e, encoding_for (bk_bv b) (en_override (bk_enc b)) (en_codepage (bk_enc b)) e -> en_encoding (bk_enc b) = Some e.
(** ... or has not been needed yet. *)
Definition enc_inv (b : book) : Prop := bk_bv b < 80 -> en_encoding (bk_enc b) = None \/ encoded b.

Lemma derive_encoded : forall b b', derive codec b = Ok b' -> encoded b'.
Proof.
  intros b b' D V e E. destruct (derive_alike _ _ _ D) as ([A1 A2 A3 A4 A5] & K & _).
  rewrite A1 in V, E. rewrite A4, (A5 V) in E. exact (K V e E).
Qed.

Lemma ensure_encoded : forall b b', ensure codec b = Ok b' -> enc_inv b -> encoded b'.
Proof.
  intros b b' H I. unfold ensure, ensure_encoding in H. destruct (truthy (en_encoding (bk_enc b))) eqn:T.
  - rewrite bind_Ok in H. injection H as <-. intros V. destruct (I V) as [Q|Q]; [rewrite Q in T; discriminate|]. apply Q. exact V.
  - exact (derive_encoded b b' H).
Qed.

Lemma encoded_inv : forall b, encoded b -> enc_inv b.
Proof. intros b H V. right. exact H. Qed.

Lemma ensure_shared : forall (b b' : book), ensure codec b = Ok b' ->
  bk_sst b' = bk_sst b /\ bk_rich b' = bk_rich b /\ bk_fmt b' = bk_fmt b.
Proof. intros b b' H. unfold ensure in H. apply bind_ok in H as (s & _ & H). injection H as <-. auto. Qed.

Lemma derive_shared : forall (b b' : book), derive codec b = Ok b' ->
  bk_sst b' = bk_sst b /\ bk_rich b' = bk_rich b /\ bk_fmt b' = bk_fmt b.
Proof. intros b b' H. unfold derive in H. apply bind_ok in H as (s & _ & H). injection H as <-. auto. Qed.

Lemma format_effect : forall (b b' : book) r, format_record codec b r = Ok b' -> enc_inv b ->
  bk_sst b' = bk_sst b /\ bk_rich b' = bk_rich b /\ enc_inv b' /\
  fstep (unicode codec (en_encoding (bk_enc b'))) (bk_fmt b) r = Ok (bk_fmt b') /\
  (match r with RFormat _ _ => encoded b' | _ => True end).
Proof.
  intros b b' r H I. unfold format_record in H. apply bind_ok in H as (b1 & E & H). apply bind_ok in H as (f & F & H).
  injection H as <-. cbn [with_fmt with_shared bk_sst bk_rich].
  assert (X : ensure codec b = Ok b1 ->
    bk_sst b1 = bk_sst b /\ bk_rich b1 = bk_rich b /\ enc_inv (with_fmt b1 f) /\
    fstep (unicode codec (en_encoding (bk_enc b1))) (bk_fmt b) r = Ok f /\ (match r with RFormat _ _ => encoded (with_fmt b1 f) | _ => True end)).
  { intros Y. destruct (ensure_shared _ _ Y) as (Y1 & Y2 & Y3). pose proof (ensure_encoded _ _ Y I) as Y4.
    split; [exact Y1|]. split; [exact Y2|]. split; [exact (encoded_inv _ Y4)|]. rewrite Y3 in F. split; [exact F|]. destruct r; auto. }
  assert (X2 : b1 = b ->
    bk_sst b1 = bk_sst b /\ bk_rich b1 = bk_rich b /\ enc_inv (with_fmt b1 f) /\
    fstep (unicode codec (en_encoding (bk_enc b1))) (bk_fmt b) r = Ok f) by (intros ->; auto).
  destruct r; try destruct (b_fmt (bk_fmt b)); try exact (X E); injection E as Q; destruct (X2 (eq_sym Q)) as (? & ? & ? & ?); auto.
Qed.

(** What one record does to the strings, the formats and the encoding. *)
Lemma gstep_effect : forall (b : book) mem pos rc data b' p, gstep codec load b mem pos rc data = Ok (b', p) -> rc <> 0x8f -> enc_inv b ->
  enc_inv b' /\ (rc <> 0xfc -> bk_sst b' = bk_sst b /\ bk_rich b' = bk_rich b) /\
  match frec rc data with
  | Some r => fstep (unicode codec (en_encoding (bk_enc b'))) (bk_fmt b) r = Ok (bk_fmt b') /\
              match r with RFormat _ _ => encoded b' | _ => True end
  | None => bk_fmt b' = bk_fmt b
  end.
Proof.
  intros b mem pos rc data b' p H N3 I. unfold gstep in H. cbv zeta in H.
  assert (Stay : forall r : result book, (do b <- r; Ok (b, pos)) = Ok (b', p) -> r = Ok b').
  { intros r E. apply bind_ok in E as (? & ? & E). injection E as <- <-. assumption. }
  unfold frec.
  destruct (rc =? 0xfc) eqn:EFC.
  { apply Z.eqb_eq in EFC. subst rc. apply bind_ok in H as ([[st ru] po] & _ & H). injection H as <- <-.
    change (252 =? 49) with false. change (252 =? 561) with false. change (252 =? 1054) with false. change (252 =? 224) with false.
    change (252 =? 146) with false. change (252 =? 659) with false. cbn [orb].
    split; [exact I|]. split; [intros X; lia|reflexivity]. }
  destruct ((rc =? 0x31) || (rc =? 0x231)).
  { apply Stay in H. destruct (format_effect _ _ _ H I) as (F1 & F2 & F3 & F4 & F5). auto. }
  destruct (rc =? 0x41e).
  { apply Stay in H. destruct (format_effect _ _ _ H I) as (F1 & F2 & F3 & F4 & F5). auto. }
  destruct (rc =? 0xe0).
  { apply Stay in H. destruct (format_effect _ _ _ H I) as (F1 & F2 & F3 & F4 & F5). auto. }
  assert (NF : rc <> 0x92 -> rc <> 0x293 -> bk_fmt b' = bk_fmt b ->
     match (if rc =? 146 then Some (RPalette data) else if rc =? 659 then Some (RStyle data) else None) with
     | Some r => fstep (unicode codec (en_encoding (bk_enc b'))) (bk_fmt b) r = Ok (bk_fmt b') /\
              match r with RFormat _ _ => encoded b' | _ => True end
     | None => bk_fmt b' = bk_fmt b end).
  { intros X1 X2 X3. replace (rc =? 146) with false by lia. replace (rc =? 659) with false by lia. exact X3. }
  destruct (rc =? 0x85) eqn:E85.
  { apply Stay in H. apply bind_ok in H as (b1 & D & H). apply bind_ok in H as (s & _ & H). injection H as <-.
    destruct (derive_shared _ _ D) as (S1 & S2 & S3). split; [exact (encoded_inv _ (derive_encoded _ _ D))|].
    split; [auto|]. apply NF; [lia|lia|exact S3]. }
  destruct (rc =? 0x22) eqn:E22.
  { apply Stay in H. unfold handle_datemode in H. apply bind_ok in H as (? & _ & H). apply bind_ok in H as (? & _ & H).
    injection H as <-. split; [exact I|]. split; [auto|]. apply NF; [lia|lia|reflexivity]. }
  destruct (rc =? 0x42) eqn:E42.
  { apply Stay in H. apply bind_ok in H as (s & W & H). unfold handle_codepage in W. apply bind_ok in W as (cp & _ & W).
    assert (D : derive codec (with_enc b (with_codepage (bk_enc b) cp)) = Ok b').
    { unfold derive. change (bk_enc (with_enc b (with_codepage (bk_enc b) cp))) with (with_codepage (bk_enc b) cp).
      change (bk_bv (with_enc b (with_codepage (bk_enc b) cp))) with (bk_bv b). rewrite W. exact H. }
    destruct (derive_shared _ _ D) as (S1 & S2 & S3). split; [exact (encoded_inv _ (derive_encoded _ _ D))|].
    split; [auto|]. apply NF; [lia|lia|exact S3]. }
  destruct (rc =? 0x8c) eqn:E8C.
  { apply Stay in H. unfold handle_country in H. apply bind_ok in H as (? & _ & H). apply bind_ok in H as (? & _ & H).
    apply bind_ok in H as (? & _ & H). apply bind_ok in H as (? & _ & H). injection H as <-.
    split; [exact I|]. split; [auto|]. apply NF; [lia|lia|reflexivity]. }
  destruct (rc =? 0x23) eqn:E23.
  { apply Stay in H; apply bind_ok in H as (r & _ & H); injection H as <-.
    split; [exact I|]. split; [auto|]. apply NF; [lia|lia|reflexivity]. }
  destruct (rc =? 0x17) eqn:E17.
  { apply bind_ok in H as (b1 & D & H). apply bind_ok in H as ([r q] & _ & H). injection H as <- <-.
    destruct (derive_shared _ _ D) as (S1 & S2 & S3). split; [exact (encoded_inv _ (derive_encoded _ _ D))|].
    split; [auto|]. apply NF; [lia|lia|exact S3]. }
  destruct (rc =? 0x2f); [discriminate|].
  destruct (rc =? 0x5c) eqn:E5C.
  { apply Stay in H. apply bind_ok in H as (s & W & H). injection H as <-.
    assert (X : exists raw u, s = with_user (bk_enc b) raw u).
    { unfold handle_writeaccess in W. destruct (bk_bv b <? 80); [destruct (negb (truthy (en_encoding (bk_enc b))))|].
      - injection W as <-. eauto.
      - apply bind_ok in W as (x & _ & W). injection W as <-. eauto.
      - apply bind_ok in W as (x & _ & W). injection W as <-. eauto. }
    destruct X as (raw & u & ->). split; [exact I|]. split; [auto|]. apply NF; [lia|lia|reflexivity]. }
  destruct (rc =? 0x8e) eqn:E8E.
  { apply Stay in H. apply bind_ok in H as (? & _ & H). apply bind_ok in H as (? & _ & H). injection H as <-.
    split; [exact I|]. split; [auto|]. apply NF; [lia|lia|reflexivity]. }
  replace (rc =? 0x8f) with false in H by lia.
  destruct (rc =? 0x1ae) eqn:E1AE.
  { apply Stay in H; apply bind_ok in H as (r & _ & H); injection H as <-.
    split; [exact I|]. split; [auto|]. apply NF; [lia|lia|reflexivity]. }
  destruct (rc =? 0x18) eqn:E18.
  { destruct (bk_bv b <? 50).
    - injection H as <- <-. split; [exact I|]. split; [auto|]. apply NF; [lia|lia|reflexivity].
    - apply Stay in H. apply bind_ok in H as (b1 & D & H). apply bind_ok in H as (n & _ & H). injection H as <-.
      destruct (derive_shared _ _ D) as (S1 & S2 & S3). split; [exact (encoded_inv _ (derive_encoded _ _ D))|].
      split; [auto|]. apply NF; [lia|lia|exact S3]. }
  destruct (rc =? 0x92).
  { apply Stay in H. destruct (format_effect _ _ _ H I) as (F1 & F2 & F3 & F4 & F5). auto. }
  destruct (rc =? 0x293).
  { apply Stay in H. destruct (format_effect _ _ _ H I) as (F1 & F2 & F3 & F4 & F5). auto. }
  injection H as <- <-. auto.
Qed.

(** The codepage changes only with a CODEPAGE record. *)
Lemma gstep_page : forall (b : book) mem pos rc data b' p, gstep codec load b mem pos rc data = Ok (b', p) -> rc <> 0x8f -> rc <> 0x42 ->
  en_override (bk_enc b') = en_override (bk_enc b) /\ (bk_bv b < 80 -> en_codepage (bk_enc b') = en_codepage (bk_enc b)).
Proof.
  intros b mem pos rc data b' p G N2 X. destruct (Z.eq_dec rc 0x85) as [->|X'].
  - apply gstep_boundsheet in G as (b1 & s & D & _ & -> & _). destruct (derive_alike _ _ _ D) as ([D1 D2 D3 D4 D5] & _). auto.
  - destruct (gstep_alike _ _ _ _ _ _ _ _ _ G X' X N2) as [D1 D2 D3 D4 D5]. auto.
Qed.

(** EOF *)
Lemma globals_end_effect : forall ops lower (b b' : book), globals_end codec ops lower b = Ok b' -> enc_inv b ->
  encoded b' /\ bk_sst b' = bk_sst b /\ bk_rich b' = bk_rich b /\ bk_fmt b' = palette_epilogue (xf_epilogue (bk_fmt b)).
Proof.
  intros ops lower b b' H I. unfold globals_end in H. cbv zeta in H. apply bind_ok in H as ([names maps] & _ & H).
  match type of H with (if truthy (en_encoding (bk_enc ?x)) then _ else _) = _ => set (b1 := x) in * end.
  assert (I1 : enc_inv b1) by exact I.
  assert (S1 : bk_sst b1 = bk_sst b /\ bk_rich b1 = bk_rich b /\ bk_fmt b1 = palette_epilogue (xf_epilogue (bk_fmt b))) by (repeat split).
  assert (E : ensure codec b1 = Ok b').
  { unfold ensure, ensure_encoding. destruct (truthy (en_encoding (bk_enc b1))).
    - rewrite bind_Ok. rewrite <- H. reflexivity.
    - exact H. }
  split; [exact (ensure_encoded _ _ E I1)|]. destruct (ensure_shared _ _ E) as (E1 & E2 & E3). destruct S1 as (S1 & S2 & S3).
  repeat split; congruence.
Qed.
End Content.
