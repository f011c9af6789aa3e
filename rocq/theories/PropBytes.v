(** Property theorems C13, C15: string fields and record framing. *)
From Verif Require Import Base BaseFacts Utf16 Strings Framing StringFacts.

(** ** C13: specification of a string field *)

(** A string field as a writer lays it out: the text, 16-bit or 8-bit storage,
    an option byte with the three meaningful bits set accordingly (the others
    are ignored), the formatting runs (4 bytes each) and the phonetic block. *)
Record ustring : Type := {
  us_text : list Z;
  us_wide : bool;
  us_opts : Z;
  us_runs : option (list Z);      (* bytes of the formatting runs, if any *)
  us_phon : option (list Z);      (* bytes of the phonetic block, if any *)
}.

Definition us_units (u : ustring) : Z := zlen (utf16_units (us_text u)).

Definition us_ok (u : ustring) : Prop :=
  text (us_text u) /\
  (us_wide u = false -> Forall (fun c => 0 <= c < 256) (us_text u)) /\
  Z.testbit (us_opts u) 0 = us_wide u /\
  (Z.testbit (us_opts u) 3 = match us_runs u with Some _ => true | None => false end) /\
  (Z.testbit (us_opts u) 2 = match us_phon u with Some _ => true | None => false end) /\
  match us_runs u with Some r => exists k, 0 <= k < 65536 /\ zlen r = 4 * k | None => True end /\
  match us_phon u with Some r => zlen r < 2 ^ 31 | None => True end.

(** The field after the character count. *)
Definition us_rest (u : ustring) : list Z :=
  us_opts u ::
  (match us_runs u with Some r => le_enc 2 (zlen r / 4) | None => [] end) ++
  (match us_phon u with Some r => le_enc 4 (zlen r) | None => [] end) ++
  (if us_wide u then utf16_enc (us_text u) else us_text u) ++
  (match us_runs u with Some r => r | None => [] end) ++
  (match us_phon u with Some r => r | None => [] end).

Definition us_field (lenlen : nat) (u : ustring) : list Z := le_enc lenlen (us_units u) ++ us_rest u.

Lemma body_len : forall u, us_ok u ->
  zlen (if us_wide u then utf16_enc (us_text u) else us_text u) = (if us_wide u then 2 else 1) * us_units u.
Proof.
  intros u (_ & Hn & _). unfold us_units. destruct (us_wide u).
  - apply zlen_utf16_enc.
  - rewrite units_narrow by auto. lia.
Qed.

Lemma unpack_rest : forall u data pos t, us_ok u -> At data pos (us_rest u ++ t) ->
  unpack_unicode_update_pos data pos 0 (Some (us_units u)) = Ok (us_text u, pos + zlen (us_rest u)).
Proof.
  intros u data pos t Hok HA. pose proof (body_len u Hok) as BL.
  destruct Hok as (Ht & Hn & O0 & O3 & O2 & HR & HP).
  unfold unpack_unicode_update_pos. cbn [bind].
  replace ((us_units u =? 0) && (zlen (py_from data pos) =? 0)) with false.
  2:{ rewrite (At_from _ _ _ HA). unfold us_rest. cbn [app]. rewrite zlen_cons.
      match goal with |- context[zlen ?l] => pose proof (zlen_nonneg l) end. lia. }
  unfold us_rest in *. cbn [app] in HA.
  rewrite (At_index _ _ _ _ HA). cbn [bind].
  pose proof (At_skip1 _ _ _ _ (pos + 1) HA eq_refl) as A1. rewrite <- !app_assoc in A1.
  rewrite O0, O2, O3. rewrite zlen_cons, !zlen_app.
  set (R := match us_runs u with Some r => r | None => [] end) in *.
  set (P := match us_phon u with Some r => r | None => [] end) in *.
  set (B := if us_wide u then utf16_enc (us_text u) else us_text u) in *.
  (* rich text count *)
  assert (exists p2, (if match us_runs u with Some _ => true | None => false end
            then do rt <- unpack_u16 data (pos + 1); Ok (rt, pos + 1 + 2) else Ok (0, pos + 1))
          = Ok (zlen R / 4, p2) /\ p2 = pos + 1 + zlen (match us_runs u with Some r => le_enc 2 (zlen r / 4) | None => [] end)
          /\ zlen R = 4 * (zlen R / 4)) as (p2 & E2 & Hp2 & HR4).
  { subst R. destruct (us_runs u) as [r|].
    - destruct HR as (k & Hk & Hz). replace (zlen r / 4) with k in * by lia.
      rewrite (At_u16 _ _ _ _ A1) by lia. cbn [bind]. eexists; split; [reflexivity|]. rewrite zlen_le_enc. lia.
    - eexists; split; [reflexivity|]. cbn. lia. }
  rewrite E2. cbn [bind]. clear E2.
  pose proof (At_skip _ _ _ _ p2 A1 Hp2) as A2.
  assert (exists p3, (if match us_phon u with Some _ => true | None => false end
            then do sz <- unpack_i32 data p2; Ok (sz, p2 + 4) else Ok (0, p2))
          = Ok (zlen P, p3) /\ p3 = p2 + zlen (match us_phon u with Some r => le_enc 4 (zlen r) | None => [] end))
    as (p3 & E3 & Hp3).
  { subst P. destruct (us_phon u) as [r|].
    - pose proof (zlen_nonneg r). rewrite (At_i32_pos _ _ _ _ A2) by lia. cbn [bind].
      eexists; split; [reflexivity|]. rewrite zlen_le_enc. lia.
    - eexists; split; [reflexivity|]. cbn. lia. }
  rewrite E3. cbn [bind]. clear E3.
  pose proof (At_skip _ _ _ _ p3 A2 Hp3) as A3.
  assert ((if us_wide u
           then do s <- utf16_dec (py_slice data p3 (p3 + 2 * us_units u)); Ok (s, p3 + 2 * us_units u)
           else Ok (py_slice data p3 (p3 + us_units u), p3 + us_units u))
          = Ok (us_text u, p3 + zlen B)) as E4.
  { subst B. destruct (us_wide u).
    - rewrite (At_slice _ _ _ _ _ A3) by lia. rewrite utf16_dec_enc by exact Ht. cbn [bind]. do 2 f_equal. lia.
    - rewrite (At_slice _ _ _ _ _ A3) by lia. do 2 f_equal. lia. }
  rewrite E4. cbn [bind]. do 2 f_equal.
  destruct (us_runs u), (us_phon u); subst R P; rewrite ?zlen_nil in *; lia.
Qed.

(** ** C13 *)
Theorem c13_unicode_update_pos : forall u lenlen pre post,
  us_ok u -> lenlen = 1%nat \/ lenlen = 2%nat -> us_units u < 256 ^ Z.of_nat lenlen ->
  unpack_unicode_update_pos (pre ++ us_field lenlen u ++ post) (zlen pre) (Z.of_nat lenlen) None
    = Ok (us_text u, zlen (pre ++ us_field lenlen u)).
Proof.
  intros u lenlen pre post Hok Hl Hu.
  set (data := pre ++ us_field lenlen u ++ post).
  assert (At data (zlen pre) (le_enc lenlen (us_units u) ++ us_rest u ++ post)) as A0.
  { subst data. exists pre. unfold us_field. rewrite <- app_assoc. auto. }
  assert (0 <= us_units u) by apply zlen_nonneg.
  pose proof (At_skip _ _ _ _ (zlen pre + Z.of_nat lenlen) A0 ltac:(rewrite zlen_le_enc; lia)) as A1.
  pose proof (unpack_rest u data _ _ Hok A1) as E.
  unfold unpack_unicode_update_pos in E |- *. cbn [bind] in E.
  rewrite (At_le _ _ _ _ _ _ A0) by lia. cbn [bind]. rewrite E.
  do 2 f_equal. unfold us_field. rewrite !zlen_app, zlen_le_enc. lia.
Qed.
Print Assumptions c13_unicode_update_pos.

(** The form used when the count is stored elsewhere (NAME records). *)
Theorem c13_unicode_known_len : forall u pre post lenlen, us_ok u ->
  unpack_unicode_update_pos (pre ++ us_rest u ++ post) (zlen pre) lenlen (Some (us_units u))
    = Ok (us_text u, zlen (pre ++ us_rest u)).
Proof.
  intros u pre post lenlen Hok. rewrite zlen_app.
  apply (unpack_rest u (pre ++ us_rest u ++ post) (zlen pre) post Hok). apply At_here. reflexivity.
Qed.
Print Assumptions c13_unicode_known_len.

(** An empty string at the end of the data may lack the option byte. *)
Theorem c13_unicode_empty_no_options : forall pre lenlen, lenlen = 1%nat \/ lenlen = 2%nat ->
  unpack_unicode_update_pos (pre ++ le_enc lenlen 0) (zlen pre) (Z.of_nat lenlen) None
    = Ok ([], zlen (pre ++ le_enc lenlen 0)) /\
  unpack_unicode (pre ++ le_enc lenlen 0) (zlen pre) (Z.of_nat lenlen) = Ok [].
Proof.
  intros pre lenlen Hl. set (data := pre ++ le_enc lenlen 0).
  assert (At data (zlen pre) (le_enc lenlen 0 ++ [])) as A0.
  { subst data. exists pre. rewrite app_nil_r. auto. }
  assert (0 <= 0 < 256 ^ Z.of_nat lenlen) as B by (split; [lia|apply Z.pow_pos_nonneg; lia]).
  unfold unpack_unicode_update_pos, unpack_unicode.
  rewrite (At_le _ _ _ _ _ _ A0 eq_refl B). cbn [bind Z.eqb andb].
  pose proof (At_skip _ _ _ _ (zlen pre + Z.of_nat lenlen) A0 ltac:(rewrite zlen_le_enc; lia)) as A1.
  rewrite (At_from _ _ _ A1). cbn [zlen length Z.of_nat Z.eqb]. split; [|reflexivity].
  subst data. rewrite zlen_app, zlen_le_enc. reflexivity.
Qed.
Print Assumptions c13_unicode_empty_no_options.

(** The position-less reader returns the same text. *)
Theorem c13_unpack_unicode : forall u lenlen pre post,
  us_ok u -> lenlen = 1%nat \/ lenlen = 2%nat -> us_units u < 256 ^ Z.of_nat lenlen ->
  unpack_unicode (pre ++ us_field lenlen u ++ post) (zlen pre) (Z.of_nat lenlen) = Ok (us_text u).
Proof.
  intros u lenlen pre post Hok Hl Hu.
  set (data := pre ++ us_field lenlen u ++ post).
  assert (At data (zlen pre) (le_enc lenlen (us_units u) ++ us_rest u ++ post)) as A0.
  { subst data. exists pre. unfold us_field. rewrite <- app_assoc. auto. }
  assert (0 <= us_units u) by apply zlen_nonneg.
  pose proof (body_len u Hok) as BL.
  destruct Hok as (Ht & Hn & O0 & O3 & O2 & HR & HP).
  pose proof (At_skip _ _ _ _ (zlen pre + Z.of_nat lenlen) A0 ltac:(rewrite zlen_le_enc; lia)) as A1.
  unfold unpack_unicode. rewrite (At_le _ _ _ _ _ _ A0) by lia. cbn [bind].
  destruct (us_units u =? 0) eqn:E0.
  { f_equal. symmetry. unfold us_units in E0. destruct (us_text u) as [|c s]; [reflexivity|].
    unfold utf16_units in E0. cbn [flat_map] in E0. unfold units_of in E0.
    destruct (c <? 65536); cbn [app] in E0; rewrite !zlen_cons in E0;
      match goal with _ : context[zlen ?l] |- _ => pose proof (zlen_nonneg l) end; lia. }
  unfold us_rest in A1. cbn [app] in A1. rewrite (At_index _ _ _ _ A1). cbn [bind].
  set (q := zlen pre + Z.of_nat lenlen) in *.
  pose proof (At_skip1 _ _ _ _ (q + 1) A1 eq_refl) as A2. rewrite <- !app_assoc in A2.
  rewrite O0, O2, O3.
  set (q2 := if match us_runs u with Some _ => true | None => false end then q + 1 + 2 else q + 1).
  set (q3 := if match us_phon u with Some _ => true | None => false end then q2 + 4 else q2).
  assert (At data q2 ((match us_phon u with Some r => le_enc 4 (zlen r) | None => [] end) ++
    (if us_wide u then utf16_enc (us_text u) else us_text u) ++
    (match us_runs u with Some r => r | None => [] end) ++
    (match us_phon u with Some r => r | None => [] end) ++ post)) as A3.
  { eapply At_skip; [exact A2|]. subst q2. destruct (us_runs u); rewrite ?zlen_le_enc, ?zlen_nil; lia. }
  assert (At data q3 ((if us_wide u then utf16_enc (us_text u) else us_text u) ++
    (match us_runs u with Some r => r | None => [] end) ++
    (match us_phon u with Some r => r | None => [] end) ++ post)) as A4.
  { eapply At_skip; [exact A3|]. subst q3. destruct (us_phon u); rewrite ?zlen_le_enc, ?zlen_nil; lia. }
  destruct (us_wide u).
  - rewrite (At_slice _ _ _ _ _ A4) by lia. apply utf16_dec_enc. exact Ht.
  - rewrite (At_slice _ _ _ _ _ A4) by lia. reflexivity.
Qed.
Print Assumptions c13_unpack_unicode.

Example c13_example :
  us_ok {| us_text := [97; 128512]; us_wide := true; us_opts := 13;
           us_runs := Some [0; 0; 1; 0]; us_phon := Some [7; 7] |} /\
  us_field 2 {| us_text := [97; 128512]; us_wide := true; us_opts := 13;
           us_runs := Some [0; 0; 1; 0]; us_phon := Some [7; 7] |}
    = [3; 0; 13; 1; 0; 2; 0; 0; 0; 97; 0; 61; 216; 0; 222; 0; 0; 1; 0; 7; 7].
Proof.
  split; [|reflexivity]. unfold us_ok. cbn [us_text us_wide us_opts us_runs us_phon].
  split; [repeat constructor; unfold scalar; lia|]. split; [discriminate|].
  split; [reflexivity|]. split; [reflexivity|]. split; [reflexivity|].
  split; [exists 1; cbn; lia|reflexivity].
Qed.

(** ** C15 *)

(** Reading [n] records one after another. *)
Fixpoint read_records (n : nat) (mem : list Z) (pos : Z) : result (list (Z * Z * list Z) * Z) :=
  match n with
  | O => Ok ([], pos)
  | S n' => do (r, pos) <- get_record_parts mem pos;
            do (rs, pos) <- read_records n' mem pos;
            Ok (r :: rs, pos)
  end.

Theorem c15_round_trip : forall rs pre post, Forall framable rs ->
  read_records (length rs) (pre ++ frames rs ++ post) (zlen pre)
    = Ok (map (fun r => (fst r, zlen (snd r), snd r)) rs, zlen (pre ++ frames rs)).
Proof.
  induction rs as [|r rs IH]; intros pre post H.
  - cbn. rewrite app_nil_r. reflexivity.
  - inversion H; subst. cbn [length read_records frames flat_map map].
    fold (frames rs). rewrite <- app_assoc.
    rewrite get_record_parts_frame by auto. cbn [bind].
    replace (pre ++ frame r ++ frames rs ++ post) with ((pre ++ frame r) ++ frames rs ++ post)
      by (rewrite <- app_assoc; reflexivity).
    rewrite IH by assumption. cbn [bind]. rewrite <- app_assoc. reflexivity.
Qed.
Print Assumptions c15_round_trip.

(** On arbitrary bytes: a successful read moves forward by 4 plus the stated
    length and returns that many bytes (fewer only at the end of the data). *)
Theorem c15_progress : forall mem pos code len data pos', bytes mem -> 0 <= pos ->
  get_record_parts mem pos = Ok ((code, len, data), pos') ->
  pos' = pos + 4 + len /\ 0 <= len < 65536 /\ 0 <= code < 65536 /\ pos + 4 <= zlen mem /\
  data = py_slice mem (pos + 4) (pos + 4 + len) /\ zlen data = Z.min len (zlen mem - pos - 4).
Proof.
  intros mem pos code len data pos' Hb Hp H. unfold get_record_parts in H.
  destruct (zlen (py_slice mem pos (pos + 4)) =? 4) eqn:E; [|discriminate]. cbn [negb] in H.
  apply bind_ok in H as (c & Hc & H). apply bind_ok in H as (l & Hl & H).
  assert (c = code /\ l = len /\ data = py_slice mem (pos + 4) (pos + 4 + l) /\ pos' = pos + 4 + l)
    as (-> & -> & -> & ->) by (repeat split; congruence). clear H.
  pose proof (unpack_u16_range _ _ _ Hb Hc). pose proof (unpack_u16_range _ _ _ Hb Hl).
  assert (pos + 4 <= zlen mem).
  { rewrite py_slice_len in E. unfold py_bound in E. pose proof (zlen_nonneg mem).
    destruct (pos <? 0) eqn:E1; [lia|]. destruct (pos + 4 <? 0) eqn:E2; lia. }
  repeat split; try lia.
  rewrite py_slice_len. unfold py_bound.
  destruct (pos + 4 <? 0) eqn:E1; [lia|]. destruct (pos + 4 + len <? 0) eqn:E2; lia.
Qed.
Print Assumptions c15_progress.

(** Hence at most a quarter as many records as bytes can be read. *)
Theorem c15_ends : forall n mem pos rs pos', bytes mem -> 0 <= pos ->
  read_records n mem pos = Ok (rs, pos') -> n <> O -> 4 * Z.of_nat n <= zlen mem - pos.
Proof.
  induction n as [|n IH]; intros mem pos rs pos' Hb Hp H Hn; [congruence|].
  cbn [read_records] in H. apply bind_ok in H as ([[[code len] data] p1] & H1 & H).
  apply bind_ok in H as ([rs' p2] & H2 & H).
  destruct (c15_progress _ _ _ _ _ _ Hb Hp H1) as (-> & Hl & _ & Hm & _).
  destruct n as [|n]; [lia|].
  specialize (IH mem (pos + 4 + len) rs' p2 Hb ltac:(lia) H2 ltac:(discriminate)). lia.
Qed.
Print Assumptions c15_ends.

(** The conditional reader takes the record exactly if it has the wanted code
    and otherwise leaves the position alone. *)
Theorem c15_conditional : forall pre r post reqd, framable r ->
  get_record_parts_conditional (pre ++ frame r ++ post) (zlen pre) reqd =
    if fst r =? reqd then Ok (Some (fst r, zlen (snd r), snd r), zlen (pre ++ frame r))
    else Ok (None, zlen pre).
Proof. intros. apply get_record_parts_conditional_frame; auto. Qed.
Print Assumptions c15_conditional.

Example c15_example : Forall framable [(10, []); (60, [1; 2; 3])] /\
  frames [(10, []); (60, [1; 2; 3])] = [10; 0; 0; 0; 60; 0; 3; 0; 1; 2; 3].
Proof. split; [repeat constructor; cbn; lia|reflexivity]. Qed.
