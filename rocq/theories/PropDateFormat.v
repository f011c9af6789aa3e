(** C53: which number formats are date formats. *)
From Verif Require Import Base BaseFacts Text Strings GridModel SheetObjects SheetModel FormatModel.

(** *** The structure of a format string

    A piece is a plain character, a quoted text, or an escape character
    (backslash, underscore or asterisk) with the character after it. *)
Inductive piece : Type := Lit (c : Z) | Quoted (t : list Z) | Escaped (e c : Z).

Definition quote : Z := 34.       (* double quote *)
Definition escape (c : Z) : Prop := c = 92 \/ c = 95 \/ c = 42.   (* \ _ * *)
Definition open_br : Z := 91.
Definition close_br : Z := 93.

Definition piece_ok (p : piece) : Prop :=
  match p with
  | Lit c => c <> quote /\ ~ escape c
  | Quoted t => ~ In quote t
  | Escaped e _ => escape e
  end.

Definition piece_text (p : piece) : list Z :=
  match p with Lit c => [c] | Quoted t => quote :: t ++ [quote] | Escaped e c => [e; c] end.

Definition text_of (ps : list piece) : list Z := flat_map piece_text ps.

(** At top level there are pieces and bracketed parts. *)
Inductive item : Type := Plain (p : piece) | Bracketed (ps : list piece).

Definition item_ok (i : item) : Prop :=
  match i with
  | Plain p => piece_ok p /\ p <> Lit open_br
  | Bracketed ps => Forall piece_ok ps /\ ~ In (Lit close_br) ps
  end.

Definition item_text (i : item) : list Z :=
  match i with Plain p => piece_text p | Bracketed ps => open_br :: text_of ps ++ [close_br] end.

(** What can follow the items: a bracket that is not closed, and then a quoted
    text without its end or an escape character with nothing after it. *)
Inductive ending : Type := EndNone | EndQuoted (t : list Z) | EndEscape (e : Z).

Definition ending_ok (e : ending) : Prop :=
  match e with EndNone => True | EndQuoted t => ~ In quote t | EndEscape c => escape c end.

Definition ending_text (e : ending) : list Z :=
  match e with EndNone => [] | EndQuoted t => quote :: t | EndEscape c => [c] end.

Record fmt_parts : Type := mk_parts { p_items : list item; p_unclosed : option (list piece); p_end : ending }.

Definition parts_ok (f : fmt_parts) : Prop :=
  Forall item_ok (p_items f) /\ ending_ok (p_end f) /\
  match p_unclosed f with Some ps => Forall piece_ok ps /\ ~ In (Lit close_br) ps | None => True end.

Definition fmt_text (f : fmt_parts) : list Z :=
  flat_map item_text (p_items f) ++
  match p_unclosed f with Some ps => open_br :: text_of ps | None => [] end ++ ending_text (p_end f).

(** The characters that count. *)
Definition lit (p : piece) : list Z := match p with Lit c => [c] | _ => [] end.

Definition significant (f : fmt_parts) : list Z :=
  flat_map (fun i => match i with Plain p => lit p | Bracketed _ => [] end) (p_items f) ++
  match p_unclosed f with Some ps => flat_map lit ps | None => [] end.

Definition lower (c : Z) : Z := if (65 <=? c) && (c <=? 90) then c + 32 else c.
Definition date_letter (c : Z) : bool := existsb (Z.eqb (lower c)) (s2l "ymdhs").
Definition placeholder (c : Z) : bool := (c =? 48) || (c =? 35) || (c =? 63).   (* 0 # ? *)

Definition count (p : Z -> bool) (s : list Z) : Z := zlen (filter p s).

(** *** Every string has this structure *)

(** Cuts a string into pieces and an ending. *)
Lemma pieces_of : forall n s, (List.length s <= n)%nat -> exists ps e, Forall piece_ok ps /\ ending_ok e /\ s = text_of ps ++ ending_text e.
Proof.
  induction n as [|n IH]; intros s L.
  - destruct s; [|simpl in L; lia]. exists [], EndNone. repeat split; constructor.
  - destruct s as [|c s]; [exists [], EndNone; repeat split; constructor|].
    assert (D : c = quote \/ escape c \/ (c <> quote /\ ~ escape c)) by (unfold escape, quote; lia).
    destruct D as [->|[E|NE]].
    + assert (Q : (exists t r, ~ In quote t /\ s = t ++ quote :: r) \/ ~ In quote s).
      { clear L IH. induction s as [|x s IHs]; [right; intros []|].
        destruct (Z.eq_dec x quote) as [->|NX].
        - left. exists [], s. split; [intros []|reflexivity].
        - destruct IHs as [(t & r & NI & ->)|NI].
          + left. exists (x :: t), r. split; [|reflexivity]. intros [|]; [congruence|auto].
          + right. intros [|]; [congruence|auto]. }
      destruct Q as [(t & r & NI & ->)|NI].
      * destruct (IH r) as (ps & e & P & E & ->).
        { simpl in L. rewrite app_length in L. simpl in L. lia. }
        exists (Quoted t :: ps), e. split; [constructor; assumption|]. split; [exact E|].
        unfold text_of. simpl. rewrite <- !app_assoc. reflexivity.
      * exists [], (EndQuoted s). repeat split; [constructor|exact NI].
    + destruct s as [|d s].
      * exists [], (EndEscape c). repeat split; [constructor|exact E].
      * destruct (IH s) as (ps & e & P & EE & ->); [simpl in L; lia|].
        exists (Escaped c d :: ps), e. split; [constructor; assumption|]. split; [exact EE|reflexivity].
    + destruct (IH s) as (ps & e & P & EE & ->); [simpl in L; lia|].
      exists (Lit c :: ps), e. split; [constructor; assumption|]. split; [exact EE|reflexivity].
Qed.

Lemma lit_dec : forall p c, {p = Lit c} + {p <> Lit c}.
Proof.
  intros [x|t|e x] c; try (right; discriminate).
  destruct (Z.eq_dec x c) as [->|N]; [left; reflexivity|right; congruence].
Defined.

(** Cuts pieces into items and an unclosed bracket. *)
Lemma items_of : forall n ps, (List.length ps <= n)%nat -> Forall piece_ok ps ->
  exists is u, Forall item_ok is /\ match u with Some qs => Forall piece_ok qs /\ ~ In (Lit close_br) qs | None => True end /\
    text_of ps = flat_map item_text is ++ match u with Some qs => open_br :: text_of qs | None => [] end.
Proof.
  induction n as [|n IH]; intros ps L F.
  - destruct ps; [|simpl in L; lia]. exists [], None. repeat split; constructor.
  - destruct ps as [|p ps]; [exists [], None; repeat split; constructor|].
    inversion F as [|? ? P F']; subst.
    destruct (lit_dec p open_br) as [->|NP].
    + assert (Q : (exists qs r, ~ In (Lit close_br) qs /\ ps = qs ++ Lit close_br :: r) \/ ~ In (Lit close_br) ps).
      { clear - ps. induction ps as [|x ps IHp]; [right; intros []|].
        destruct (lit_dec x close_br) as [->|NX].
        - left. exists [], ps. split; [intros []|reflexivity].
        - destruct IHp as [(t & r & NI & ->)|NI].
          + left. exists (x :: t), r. split; [|reflexivity]. intros [|]; [congruence|auto].
          + right. intros [|]; [congruence|auto]. }
      destruct Q as [(qs & r & NI & ->)|NI].
      * apply Forall_app in F' as [F1 F2]. inversion F2 as [|? ? _ F3]; subst.
        destruct (IH r) as (is & u & I & U & E); [|exact F3|].
        { simpl in L. rewrite app_length in L. simpl in L. lia. }
        exists (Bracketed qs :: is), u. split; [constructor; [split; assumption|exact I]|]. split; [exact U|].
        unfold text_of in *. cbn [flat_map item_text piece_text]. rewrite flat_map_app. cbn [flat_map piece_text app].
        rewrite E. unfold text_of. cbn [app]. rewrite <- !app_assoc. reflexivity.
      * exists [], (Some ps). repeat split; try assumption; [constructor].
    + destruct (IH ps) as (is & u & I & U & E); [simpl in L; lia|exact F'|].
      exists (Plain p :: is), u. split; [constructor; [split; assumption|exact I]|]. split; [exact U|].
      unfold text_of in *. cbn [flat_map item_text]. rewrite E, <- app_assoc. reflexivity.
Qed.

Theorem c53_every_string : forall s, exists f, parts_ok f /\ fmt_text f = s.
Proof.
  intros s. destruct (pieces_of _ s (le_n _)) as (ps & e & P & E & ->).
  destruct (items_of _ ps (le_n _) P) as (is & u & I & U & T).
  exists (mk_parts is u e). split; [split; [exact I|split; [exact E|exact U]]|].
  unfold fmt_text. cbn [p_items p_unclosed p_end]. rewrite T, <- app_assoc. reflexivity.
Qed.
Print Assumptions c53_every_string.

(** *** Reading *)

Definition keep (s : list Z) : list Z := filter (fun c => negb (skip_char c)) s.

Lemma keep_app : forall a b, keep (a ++ b) = keep a ++ keep b.
Proof. intros. apply filter_app. Qed.

Lemma not_special : forall c, c <> quote -> ~ escape c -> (c =? 34) = false /\ mem c (s2l "\_*") = false.
Proof.
  intros c Q E. unfold quote, escape in *. split; [lia|].
  unfold mem. cbn. lia.
Qed.

Lemma reduce_quoted : forall t r, ~ In quote t -> reduce_format 1 (t ++ quote :: r) = reduce_format 0 r.
Proof.
  induction t as [|c t IH]; intros r NI; [reflexivity|].
  simpl. replace (c =? 34) with false by (assert (c <> quote) by (intros ->; apply NI; left; reflexivity); unfold quote in *; lia).
  apply IH. intros I. apply NI. right. exact I.
Qed.

Lemma reduce_quoted_end : forall t, ~ In quote t -> reduce_format 1 t = [].
Proof.
  induction t as [|c t IH]; intros NI; [reflexivity|].
  simpl. replace (c =? 34) with false by (assert (c <> quote) by (intros ->; apply NI; left; reflexivity); unfold quote in *; lia).
  apply IH. intros I. apply NI. right. exact I.
Qed.

Lemma reduce_piece : forall p r, piece_ok p -> reduce_format 0 (piece_text p ++ r) = keep (lit p) ++ reduce_format 0 r.
Proof.
  intros [c|t|e c] r OK; cbn [piece_text lit].
  - destruct OK as [Q E]. destruct (not_special c Q E) as [H1 H2].
    cbn [app reduce_format Z.eqb]. rewrite H1, H2. unfold keep. cbn [filter].
    destruct (skip_char c); reflexivity.
  - cbn [app reduce_format Z.eqb]. rewrite <- app_assoc. apply reduce_quoted. exact OK.
  - cbn [app]. destruct OK as [->|[->| ->]]; reflexivity.
Qed.

Lemma reduce_pieces : forall ps r, Forall piece_ok ps -> reduce_format 0 (text_of ps ++ r) = keep (flat_map lit ps) ++ reduce_format 0 r.
Proof.
  induction 1 as [|p ps P F IH]; [reflexivity|]. unfold text_of in *. cbn [flat_map].
  rewrite <- app_assoc, reduce_piece, keep_app, <- app_assoc, IH by exact P. reflexivity.
Qed.

Lemma reduce_ending : forall e, ending_ok e -> reduce_format 0 (ending_text e) = [].
Proof.
  intros [|t|c] OK; [reflexivity| |].
  - apply reduce_quoted_end. exact OK.
  - destruct OK as [->|[->| ->]]; reflexivity.
Qed.

(** The reduced text of an item. *)
Definition reduced (i : item) : list Z :=
  match i with Plain p => keep (lit p) | Bracketed ps => open_br :: keep (flat_map lit ps) ++ [close_br] end.

Lemma reduce_item : forall i r, item_ok i -> reduce_format 0 (item_text i ++ r) = reduced i ++ reduce_format 0 r.
Proof.
  intros [p|ps] r OK; cbn [item_text reduced].
  - apply reduce_piece. apply OK.
  - destruct OK as [OK _]. change (open_br :: text_of ps ++ [close_br]) with (piece_text (Lit open_br) ++ text_of ps ++ piece_text (Lit close_br)).
    rewrite <- !app_assoc. rewrite reduce_piece by (split; [discriminate|intros [|[|]]; discriminate]).
    rewrite reduce_pieces by exact OK. rewrite reduce_piece by (split; [discriminate|intros [|[|]]; discriminate]).
    cbn [keep lit filter negb app]. rewrite <- app_assoc. reflexivity.
Qed.

Lemma reduce_items : forall is r, Forall item_ok is ->
  reduce_format 0 (flat_map item_text is ++ r) = flat_map reduced is ++ reduce_format 0 r.
Proof.
  induction 1 as [|i is I F IH]; [reflexivity|]. cbn [flat_map].
  rewrite <- !app_assoc, reduce_item, IH by exact I. reflexivity.
Qed.

(** Enough fuel is as good as any. *)
Lemma after_bracket_len : forall s t, after_bracket s = Some t -> (List.length t < List.length s)%nat.
Proof.
  induction s as [|c s IH]; intros t H; [discriminate|]. simpl in H. destruct (c =? 93).
  - injection H as ->. simpl. lia.
  - apply IH in H. simpl. lia.
Qed.

Lemma sub_fuel : forall n s k, (List.length s <= n)%nat -> (List.length s <= k)%nat -> bracketed_sub n s = bracketed_sub k s.
Proof.
  induction n as [|n IH]; intros s k L1 L2.
  - destruct s; [|simpl in L1; lia]. destruct k; reflexivity.
  - destruct s as [|c s]; [destruct k; reflexivity|]. destruct k as [|k]; [simpl in L2; lia|].
    simpl in *. destruct (c =? 91).
    + destruct (after_bracket s) as [t|] eqn:A.
      * apply after_bracket_len in A. apply IH; lia.
      * f_equal. apply IH; lia.
    + f_equal. apply IH; lia.
Qed.

Definition strip (s : list Z) : list Z := bracketed_sub (List.length s) s.

Lemma strip_plain : forall c s, c <> open_br -> strip (c :: s) = c :: strip s.
Proof.
  intros c s N. unfold strip. cbn [List.length bracketed_sub]. replace (c =? 91) with false by (unfold open_br in N; lia). reflexivity.
Qed.

Lemma after_app : forall a b, ~ In close_br a -> after_bracket (a ++ close_br :: b) = Some b.
Proof.
  induction a as [|c a IH]; intros b NI; [reflexivity|]. simpl.
  replace (c =? 93) with false by (assert (c <> close_br) by (intros ->; apply NI; left; reflexivity); unfold close_br in *; lia).
  apply IH. intros I. apply NI. right. exact I.
Qed.

Lemma strip_bracket : forall a b, ~ In close_br a -> strip (open_br :: a ++ close_br :: b) = strip b.
Proof.
  intros a b NI. unfold strip. cbn [List.length bracketed_sub]. change (open_br =? 91) with true. cbv iota.
  rewrite after_app by exact NI. apply sub_fuel; rewrite ?app_length; simpl; lia.
Qed.

Lemma after_none : forall s, ~ In close_br s -> after_bracket s = None.
Proof.
  induction s as [|c s IH]; intros NI; [reflexivity|]. simpl.
  replace (c =? 93) with false by (assert (c <> close_br) by (intros ->; apply NI; left; reflexivity); unfold close_br in *; lia).
  apply IH. intros I. apply NI. right. exact I.
Qed.

Lemma strip_unclosed : forall s, ~ In close_br s -> strip s = s.
Proof.
  unfold strip. induction s as [|c s IH]; intros NI; [reflexivity|].
  assert (NI' : ~ In close_br s) by (intros I; apply NI; right; exact I).
  cbn [List.length bracketed_sub]. rewrite (after_none s NI'), IH by exact NI'. destruct (c =? 91); reflexivity.
Qed.

Lemma keep_in : forall c s, In c (keep s) -> In c s.
Proof. intros c s I. apply filter_In in I. tauto. Qed.

Lemma lits_close : forall ps, ~ In (Lit close_br) ps -> ~ In close_br (keep (flat_map lit ps)).
Proof.
  intros ps NI I. apply keep_in in I. apply in_flat_map in I as (p & P & I).
  destruct p; simpl in I; try contradiction. destruct I as [->|[]]. contradiction.
Qed.

(** What is left of the items. *)
Definition lits (i : item) : list Z := match i with Plain p => lit p | Bracketed _ => [] end.

Lemma strip_items : forall is r, Forall item_ok is -> strip (flat_map reduced is ++ r) = keep (flat_map lits is) ++ strip r.
Proof.
  induction 1 as [|i is I F IH]; [reflexivity|]. cbn [flat_map]. rewrite <- app_assoc, keep_app, <- app_assoc, <- IH.
  destruct i as [p|ps]; cbn [reduced lits].
  - destruct I as [P N]. destruct p as [c|t|e c]; cbn [lit keep filter app]; try reflexivity.
    destruct (negb (skip_char c)); [|reflexivity]. cbn [app]. apply strip_plain. intros ->. apply N. reflexivity.
  - destruct I as [P N]. cbn [keep filter app]. rewrite <- app_assoc. cbn [app]. apply strip_bracket. apply lits_close. exact N.
Qed.

Lemma count_spec : forall s d n, count_chars s d n = (d + 5 * count date_letter s, n + 5 * count placeholder s).
Proof.
  assert (DC : forall c, date_char c = date_letter c).
  { intros c. unfold date_char, date_letter, mem, lower. cbn. destruct ((65 <=? c) && (c <=? 90)) eqn:U; lia. }
  assert (NC : forall c, num_char c = placeholder c) by (intros c; unfold num_char, placeholder, mem; cbn; lia).
  induction s as [|c s IH]; intros d n; [unfold count; cbn; f_equal; lia|].
  cbn [count_chars]. rewrite DC, NC. unfold count. cbn [filter].
  destruct (date_letter c) eqn:D.
  - assert (P : placeholder c = false).
    { unfold placeholder, date_letter, lower in *. cbn in D. destruct ((65 <=? c) && (c <=? 90)) eqn:U; lia. }
    rewrite P, IH. unfold count. rewrite zlen_cons. f_equal; lia.
  - destruct (placeholder c); rewrite IH; unfold count; rewrite ?zlen_cons; f_equal; lia.
Qed.

Lemma count_keep : forall p s, (forall c, p c = true -> skip_char c = false) -> count p (keep s) = count p s.
Proof.
  intros p s H. unfold count, keep. induction s as [|c s IH]; [reflexivity|]. cbn [filter].
  destruct (skip_char c) eqn:S; cbn [negb filter].
  - destruct (p c) eqn:P; [rewrite (H c P) in S; discriminate|exact IH].
  - destruct (p c); rewrite ?zlen_cons, IH; reflexivity.
Qed.

Lemma count_app : forall p a b, count p (a ++ b) = count p a + count p b.
Proof. intros. unfold count. rewrite filter_app, zlen_app. reflexivity. Qed.

Lemma count_nonneg : forall p s, 0 <= count p s.
Proof. intros. apply zlen_nonneg. Qed.

(** The answer, for every format. *)
Theorem c53_answer : forall f, parts_ok f ->
  is_date_format_string (fmt_text f) = (count placeholder (significant f) <? count date_letter (significant f)).
Proof.
  intros f (I & E & U). unfold is_date_format_string, fmt_text.
  assert (R : reduce_format 0 (flat_map item_text (p_items f) ++ match p_unclosed f with Some ps => open_br :: text_of ps | None => [] end ++ ending_text (p_end f))
    = flat_map reduced (p_items f) ++ match p_unclosed f with Some ps => open_br :: keep (flat_map lit ps) | None => [] end).
  { rewrite reduce_items by exact I. f_equal. destruct (p_unclosed f) as [ps|].
    - change ((open_br :: text_of ps) ++ ending_text (p_end f)) with (piece_text (Lit open_br) ++ text_of ps ++ ending_text (p_end f)).
      rewrite reduce_piece by (split; [discriminate|intros [|[|]]; discriminate]).
      rewrite reduce_pieces by apply U. rewrite reduce_ending by exact E. rewrite app_nil_r. reflexivity.
    - apply reduce_ending. exact E. }
  rewrite R. set (s := bracketed_sub _ _).
  assert (S : s = keep (flat_map lits (p_items f)) ++ match p_unclosed f with Some ps => open_br :: keep (flat_map lit ps) | None => [] end).
  { subst s. fold (strip (flat_map reduced (p_items f) ++ match p_unclosed f with Some ps => open_br :: keep (flat_map lit ps) | None => [] end)).
    rewrite strip_items by exact I. f_equal. destruct (p_unclosed f) as [ps|]; [|reflexivity].
    apply strip_unclosed. intros [|X]; [discriminate|]. revert X. apply lits_close. apply U. }
  clearbody s.
  assert (C : forall p, (forall c, p c = true -> skip_char c = false) -> p open_br = false -> count p s = count p (significant f)).
  { intros p H1 H2. rewrite S. unfold significant. rewrite !count_app, count_keep by exact H1. f_equal.
    destruct (p_unclosed f) as [ps|]; [|reflexivity].
    change (open_br :: keep (flat_map lit ps)) with ([open_br] ++ keep (flat_map lit ps)).
    rewrite count_app, count_keep by exact H1. unfold count at 1. cbn [filter]. rewrite H2. reflexivity. }
  rewrite <- (C placeholder), <- (C date_letter); try reflexivity.
  2, 3: intros c; unfold date_letter, placeholder, lower, skip_char, mem; cbn;
        destruct ((65 <=? c) && (c <=? 90)) eqn:?; lia.
  clear C S R.
  destruct (existsb (list_eqb s) non_date_formats) eqn:ND.
  - apply existsb_exists in ND as (t & T & EQ). apply list_eqb_eq in EQ. subst t.
    symmetry. apply Z.ltb_ge.
    repeat (destruct T as [<-|T]; [vm_compute; discriminate|]). destruct T.
  - rewrite count_spec. pose proof (count_nonneg date_letter s). pose proof (count_nonneg placeholder s).
    destruct (negb (0 + 5 * count date_letter s =? 0) && (0 + 5 * count placeholder s =? 0)) eqn:A; [symmetry; lia|].
    destruct (negb (0 + 5 * count placeholder s =? 0) && (0 + 5 * count date_letter s =? 0)) eqn:B; lia.
Qed.
Print Assumptions c53_answer.

(** Formats that differ in quoted, escaped or bracketed parts only, or in the case
    of letters, have the same answer. *)
Theorem c53_same : forall f g, parts_ok f -> parts_ok g -> map lower (significant f) = map lower (significant g) ->
  is_date_format_string (fmt_text f) = is_date_format_string (fmt_text g).
Proof.
  intros f g F G E. rewrite !c53_answer by assumption.
  assert (LL : forall c, lower (lower c) = lower c).
  { intros c. unfold lower. destruct ((65 <=? c) && (c <=? 90)) eqn:U; [|rewrite U; reflexivity].
    replace ((65 <=? c + 32) && (c + 32 <=? 90)) with false by lia. reflexivity. }
  assert (H : forall p, (forall c, p (lower c) = p c) -> forall s, count p (map lower s) = count p s).
  { intros p P s. unfold count. induction s as [|c s IH]; [reflexivity|]. cbn [map filter]. rewrite P.
    destruct (p c); rewrite ?zlen_cons, IH; reflexivity. }
  rewrite <- (H placeholder), <- (H date_letter), E, (H placeholder), (H date_letter); try reflexivity;
    intros c; unfold date_letter, placeholder; rewrite ?LL; try reflexivity;
    unfold lower; destruct ((65 <=? c) && (c <=? 90)) eqn:U; lia.
Qed.
Print Assumptions c53_same.

(** Inserting quoted text, an escaped character or a bracketed part at top level changes nothing. *)
Theorem c53_insert : forall a i b u e, parts_ok (mk_parts (a ++ i :: b) u e) -> (forall c, i <> Plain (Lit c)) ->
  is_date_format_string (fmt_text (mk_parts (a ++ i :: b) u e)) = is_date_format_string (fmt_text (mk_parts (a ++ b) u e)).
Proof.
  intros a i b u e (I & E & U) N. cbn [p_items p_unclosed p_end] in *. apply c53_same.
  - split; [exact I|split; assumption].
  - split; [|split; assumption]. cbn [p_items]. apply Forall_app in I as [I1 I2]. inversion I2; subst. apply Forall_app. split; assumption.
  - unfold significant. cbn [p_items p_unclosed]. rewrite !flat_map_app. cbn [flat_map].
    replace (match i with Plain p => lit p | Bracketed _ => [] end) with (@nil Z); [reflexivity|].
    destruct i as [[c|t|x c]|ps]; try reflexivity. exfalso. apply (N c). reflexivity.
Qed.
Print Assumptions c53_insert.

(** Only date letters: a date format.  Only digit placeholders: not a date format. *)
Lemma count_none : forall p s, existsb p s = false -> count p s = 0.
Proof.
  intros p s. unfold count. induction s as [|c s IH]; intros H; [reflexivity|]. cbn [existsb filter] in *.
  apply orb_false_iff in H as [-> H]. apply IH. exact H.
Qed.

Lemma count_some : forall p s, existsb p s = true -> 0 < count p s.
Proof.
  intros p s H. apply existsb_exists in H as (c & C1 & C2). unfold count.
  assert (In c (filter p s)) by (apply filter_In; split; assumption).
  destruct (filter p s) as [|x l]; [contradiction|]. rewrite zlen_cons. pose proof (zlen_nonneg l). lia.
Qed.

Theorem c53_dates : forall f, parts_ok f -> existsb date_letter (significant f) = true -> existsb placeholder (significant f) = false ->
  is_date_format_string (fmt_text f) = true.
Proof.
  intros f OK D P. rewrite c53_answer by exact OK. apply Z.ltb_lt. rewrite (count_none _ _ P). apply count_some. exact D.
Qed.
Print Assumptions c53_dates.

Theorem c53_numbers : forall f, parts_ok f -> existsb placeholder (significant f) = true -> existsb date_letter (significant f) = false ->
  is_date_format_string (fmt_text f) = false.
Proof.
  intros f OK P D. rewrite c53_answer by exact OK. apply Z.ltb_ge. rewrite (count_none _ _ D). apply Z.lt_le_incl, count_some. exact P.
Qed.
Print Assumptions c53_numbers.

(** [Red]"days" dd\mmm;@ *)
Definition demo : fmt_parts :=
  mk_parts [Bracketed (map Lit (s2l "Red")); Plain (Quoted (s2l "0 #")); Plain (Lit 32); Plain (Lit 100); Plain (Lit 100);
            Plain (Escaped 92 48); Plain (Lit 77)] (Some [Lit 104; Quoted (s2l "]")]) (EndQuoted (s2l "00]")).

Example c53_case : parts_ok demo /\ fmt_text demo = s2l "[Red]""0 #"" dd\0M[h""]""""00]" /\
  significant demo = s2l " ddMh" /\ is_date_format_string (fmt_text demo) = true.
Proof.
  split; [|split; [|split]; reflexivity].
  split; [|split].
  - repeat constructor; unfold escape, quote, open_br, close_br; cbn; try (intros H; repeat destruct H as [H|H]; discriminate || lia);
      try lia; try discriminate; intuition (discriminate || lia).
  - cbn. unfold quote. lia.
  - cbn. split; [|unfold close_br; intuition discriminate].
    constructor; [cbn; unfold escape, quote; lia|]. constructor; [cbn; unfold quote; lia|constructor].
Qed.
