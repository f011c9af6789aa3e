(** Lemmas about BookModel.v and BookApi.v: every step ends. *)
From Verif Require Import Base BaseFacts Text Strings StringFacts Framing GridModel SheetObjects SheetModel SheetFacts SstModel
  PropSst PropRead FormatModel FormulaModel FormulaFacts PropFormulaEnd CompDoc BookModel BookFacts BookApi.

Lemma nofuel_get2bytes : forall mem pos, nofuel (get2bytes mem pos).
Proof. intros. unfold get2bytes. nofuel. Qed.
#[export] Hint Resolve nofuel_get2bytes : nofuel.
Lemma nofuel_get_record_parts : forall mem pos, nofuel (get_record_parts mem pos).
Proof. intros. unfold get_record_parts. nofuel. Qed.
#[export] Hint Resolve nofuel_get_record_parts : nofuel.
Lemma nofuel_getbof : forall mem pos r, nofuel (getbof mem pos r).
Proof. intros. unfold getbof, read. cbv zeta. nofuel. Qed.
#[export] Hint Resolve nofuel_getbof : nofuel.
Lemma nofuel_string : forall decode d p l, (forall b, nofuel (decode b)) -> nofuel (unpack_string decode d p l).
Proof. intros. unfold unpack_string. nofuel. Qed.
Lemma nofuel_string_up : forall decode d p l k, (forall b, nofuel (decode b)) -> nofuel (unpack_string_update_pos decode d p l k).
Proof. intros. unfold unpack_string_update_pos. nofuel. Qed.
#[export] Hint Resolve nofuel_string nofuel_string_up : nofuel.

Lemma nofuel_unpack_ints : forall n d p, nofuel (unpack_ints n d p).
Proof. induction n as [|n IH]; intros d p; cbn [unpack_ints]; nofuel. Qed.
Lemma nofuel_palette_loop : forall l b i, nofuel (palette_loop b i l).
Proof. induction l as [|c l IH]; intros b i; cbn [palette_loop]; nofuel. Qed.
#[export] Hint Resolve nofuel_unpack_ints nofuel_palette_loop : nofuel.
Lemma nofuel_read_xf : forall bv x d, nofuel (read_xf bv x d).
Proof. intros. unfold read_xf, read_xf80, read_xf50, read_xf40, read_xf30, read_xf21. cbv zeta. nofuel. Qed.
#[export] Hint Resolve nofuel_read_xf : nofuel.

Lemma nofuel_fstep : forall decode f r, (forall b, nofuel (decode b)) -> nofuel (fstep decode f r).
Proof.
  intros decode f r D. destruct r; cbn [fstep].
  - unfold handle_font, read_font. nofuel.
  - unfold handle_efont. nofuel.
  - unfold handle_format. nofuel.
  - unfold handle_palette. nofuel.
  - unfold handle_style. nofuel.
  - unfold handle_xf. nofuel.
Qed.
#[export] Hint Resolve nofuel_fstep : nofuel.

Lemma get_record_parts_forward : forall mem pos rc len data p, bytes mem -> 0 <= pos ->
  get_record_parts mem pos = Ok ((rc, len, data), p) -> pos + 4 <= p /\ pos + 4 <= zlen mem.
Proof. intros mem pos rc len data p B P H. apply get_record_parts_bounds in H as (? & ? & ?); auto. Qed.

Lemma externsheet_body_ends : forall fuel mem pos reqd data, bytes mem -> 0 <= pos -> Z.max 0 (zlen mem - pos) < 4 * Z.of_nat fuel ->
  nofuel (externsheet_body fuel mem pos reqd data).
Proof.
  induction fuel as [|f IH]; intros mem pos reqd data B P L; cbn [externsheet_body].
  - lia.
  - nofuel. apply IH; auto; destruct (get_record_parts_forward _ _ _ _ _ _ B P E0); lia.
Qed.

Lemma externsheet_body_forward : forall fuel mem pos reqd data l p, bytes mem -> 0 <= pos ->
  externsheet_body fuel mem pos reqd data = Ok (l, p) -> pos <= p.
Proof.
  induction fuel as [|f IH]; intros mem pos reqd data l p B P; cbn [externsheet_body].
  - destruct (negb _); [|discriminate]. intros [= <- <-]. lia.
  - destruct (negb _); [intros [= <- <-]; lia|]. intros H.
    apply bind_ok in H as ([[[c2 l2] d2] p2] & G & H). destruct (negb _); [discriminate|].
    destruct (get_record_parts_forward _ _ _ _ _ _ B P G). apply IH in H; auto; lia.
Qed.

Lemma collect_continue_forward : forall fuel mem pos acc l p, bytes mem -> 0 <= pos ->
  collect_continue fuel mem pos acc = Ok (l, p) -> pos <= p.
Proof.
  induction fuel as [|f IH]; intros mem pos acc l p B P; cbn [collect_continue]; [discriminate|]. intros H.
  apply bind_ok in H as ([o q] & G & H). unfold get_record_parts_conditional in G. cbv zeta in G.
  destruct (negb (zlen _ =? 4)); [discriminate|].
  apply bind_ok in G as (code & _ & G). apply bind_ok in G as (len & GL & G).
  apply (unpack_le_range 2) in GL; [|exact B].
  destruct (negb (code =? _)).
  - injection G as <- <-. injection H as <- <-. lia.
  - injection G as <- <-. apply IH in H; auto; lia.
Qed.

Section Ends.
Variable codec : list Z -> list Z -> result (list Z).
Hypothesis codec_total : forall e b, nofuel (codec e b).

Lemma nofuel_unicode : forall e b, nofuel (unicode codec e b).
Proof. intros [e|] b; [apply codec_total|discriminate]. Qed.
Hint Resolve nofuel_unicode : nofuel.
Lemma nofuel_derive : forall bv s, nofuel (derive_encoding codec bv s).
Proof. intros. unfold derive_encoding. nofuel. Qed.
Hint Resolve nofuel_derive : nofuel.
Lemma nofuel_ensure : forall bv s, nofuel (ensure_encoding codec bv s).
Proof. intros. unfold ensure_encoding. nofuel. Qed.
Lemma nofuel_codepage : forall bv s d, nofuel (handle_codepage codec bv s d).
Proof. intros. unfold handle_codepage. nofuel. Qed.
Lemma nofuel_writeaccess : forall bv s d, nofuel (handle_writeaccess codec bv s d).
Proof.
  intros. unfold handle_writeaccess. pose proof (nofuel_unpack_unicode d 0 2) as U. nofuel; congruence.
Qed.
Hint Resolve nofuel_ensure nofuel_codepage nofuel_writeaccess : nofuel.
Lemma nofuel_boundsheet : forall bv base o e s d, nofuel (handle_boundsheet codec bv base o e s d).
Proof. intros. unfold handle_boundsheet. nofuel. Qed.
Lemma nofuel_externname : forall bv r d, nofuel (handle_externname bv r d).
Proof. intros. unfold handle_externname. nofuel. Qed.
Lemma nofuel_triples : forall n d p, nofuel (externsheet_triples n d p).
Proof. induction n as [|n IH]; intros d p; cbn [externsheet_triples]; nofuel. Qed.
Hint Resolve nofuel_boundsheet nofuel_externname nofuel_triples : nofuel.
Lemma nofuel_externsheet : forall bv e r mem pos d, bytes mem -> 0 <= pos -> nofuel (handle_externsheet codec bv e r mem pos d).
Proof.
  intros. unfold handle_externsheet. nofuel. apply externsheet_body_ends; auto. unfold zlen. lia.
Qed.
Lemma nofuel_supbook_names : forall n d p, nofuel (supbook_names n d p).
Proof.
  induction n as [|n IH]; intros d p; cbn [supbook_names]; [discriminate|].
  pose proof (nofuel_unpack_unicode_up d p 2 None) as U. nofuel; congruence.
Qed.
Hint Resolve nofuel_supbook_names : nofuel.
Lemma nofuel_supbook : forall r d, nofuel (handle_supbook r d).
Proof. intros. unfold handle_supbook. nofuel. Qed.
Hint Resolve nofuel_supbook : nofuel.

Context {N : Type}.
Variable ops : numops N.
Variable lower : list Z -> list Z.
Hypothesis ops_total : forall e, (forall b, nofuel (fe_decode e b)) -> total ops e.

Lemma nofuel_handle_name : forall bv e d, nofuel (handle_name codec (N := N) bv e d).
Proof. intros. unfold handle_name. nofuel. Qed.
Hint Resolve nofuel_handle_name : nofuel.
Lemma nofuel_scope : forall bv s r (n : nameobj N), nofuel (scope_of bv s r n).
Proof. intros. unfold scope_of. nofuel. Qed.
Lemma nofuel_eval_names : forall e todo names, (forall b, nofuel (fe_decode e b)) -> nofuel (eval_names ops e todo names).
Proof.
  intros e todo. induction todo as [|x todo IH]; intros names D; cbn [eval_names]; nofuel.
  apply c62_evaluate_ends. apply ops_total, D.
Qed.
Lemma nofuel_build_maps : forall (names : list (nameobj N)) x m d, nofuel (build_maps lower x names m d).
Proof. induction names as [|n names IH]; intros x m d; cbn [build_maps]; nofuel. Qed.
Hint Resolve nofuel_scope nofuel_build_maps : nofuel.
Lemma nofuel_names_epilogue : forall bv e s r names, nofuel (names_epilogue codec ops lower bv e s r names).
Proof.
  intros. unfold names_epilogue, name_maps. nofuel.
  - apply nofuel_mapM. intros n. nofuel.
  - apply nofuel_eval_names. apply nofuel_unicode.
Qed.
Hint Resolve nofuel_names_epilogue : nofuel.

Context {SH : Type}.
Notation book := (book N SH).
Variable load : book -> list Z -> Z -> list Z -> Z -> result (shared * SH).
Hypothesis load_total : forall b mem pos name x, bytes mem -> nofuel (load b mem pos name x).

Lemma nofuel_format_record : forall (b : book) r, nofuel (format_record codec b r).
Proof. intros. unfold format_record, ensure. nofuel. Qed.
Hint Resolve nofuel_format_record : nofuel.

Lemma nofuel_sheethdr : forall (b : book) mem pos d, bytes mem -> nofuel (handle_sheethdr codec load b mem pos d).
Proof. intros. unfold handle_sheethdr, derive. nofuel. Qed.

Lemma nofuel_gstep : forall (b : book) mem pos rc d, bytes mem -> 0 <= pos -> nofuel (gstep codec load b mem pos rc d).
Proof.
  intros b mem pos rc d B P. pose proof (c18_ends mem pos d B P) as S.
  pose proof (fun bv e r => nofuel_externsheet bv e r mem pos d B P) as X.
  pose proof (nofuel_sheethdr b mem pos d B) as SH1.
  unfold gstep, handle_datemode, handle_country, derive. nofuel.
Qed.

Lemma nofuel_globals_end : forall b : book, nofuel (globals_end codec ops lower b).
Proof. intros. unfold globals_end, derive. nofuel. Qed.

End Ends.

Section Forward.
Variable codec : list Z -> list Z -> result (list Z).
Context {N SH : Type}.
Notation book := (book N SH).
Variable load : book -> list Z -> Z -> list Z -> Z -> result (shared * SH).

(** The position never goes back but by a SHEETHDR record. *)
Lemma gstep_forward : forall (b : book) mem pos rc d b' p, bytes mem -> 0 <= pos -> gstep codec load b mem pos rc d = Ok (b', p) ->
  (rc = 0x8f -> exists l, unpack_i32 d 0 = Ok l /\ p = pos + l) /\ (rc <> 0x8f -> pos <= p).
Proof.
  intros b mem pos rc d b' p B P H. unfold gstep in H. cbv zeta in H.
  assert (Stay : forall r : result book, (do b <- r; Ok (b, pos)) = Ok (b', p) -> pos <= p).
  { intros r E. apply bind_ok in E as (? & _ & E). injection E as <- <-. lia. }
  split; intros RC.
  - subst rc. cbn [Z.eqb Pos.eqb orb] in H. unfold handle_sheethdr in H.
    apply bind_ok in H as (b1 & _ & H). apply bind_ok in H as (l & GL & H). exists l. split; [exact GL|].
    cbv zeta in H. apply bind_ok in H as (? & _ & H). apply bind_ok in H as (? & _ & H).
    apply bind_ok in H as (? & _ & H). apply bind_ok in H as ([? ?] & _ & H). apply bind_ok in H as ([? ?] & _ & H).
    apply bind_ok in H as (? & _ & H). injection H as <- <-. reflexivity.
  - destruct (rc =? 0xfc).
    { apply bind_ok in H as ([[st rn] q] & G & H). injection H as <- <-.
      unfold handle_sst in G. apply bind_ok in G as (n & _ & G). apply bind_ok in G as ([sl q'] & G1 & G).
      apply bind_ok in G as ([? ?] & _ & G). injection G as <- <- <-. eapply collect_continue_forward; eassumption. }
    destruct (rc =? 0x17) eqn:E17.
    { assert (rc = 0x17) as -> by lia. cbn [Z.eqb Pos.eqb orb] in H.
      apply bind_ok in H as (b1 & _ & H). apply bind_ok in H as ([r q] & G & H). injection H as <- <-.
      unfold handle_externsheet in G. destruct (bk_bv b1 >=? 80).
      - apply bind_ok in G as (n & _ & G). apply bind_ok in G as ([dd q'] & G1 & G).
        apply bind_ok in G as (? & _ & G). injection G as <- <-. eapply externsheet_body_forward; eassumption.
      - apply bind_ok in G as (? & _ & G). apply bind_ok in G as (? & _ & G). apply bind_ok in G as (? & _ & G).
        apply bind_ok in G as (? & _ & G). injection G as <- <-. lia. }
    replace (rc =? 0x8f) with false in H by lia. cbv iota in H.
    repeat (lazymatch type of H with
      | (if ?c then _ else _) = _ => destruct c; [first [exact (Stay _ H) | discriminate | idtac]|]
      end).
    all: try (destruct (bk_bv b <? 50); [injection H as <- <-; lia|exact (Stay _ H)]).
    all: first [exact (Stay _ H) | discriminate | injection H as <- <-; lia].
Qed.
End Forward.
