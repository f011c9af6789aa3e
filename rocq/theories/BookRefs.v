(** Lemmas about BookModel.v: following the records of the globals; which of them touch
    the reference tables and the names. *)
From Verif Require Import Base BaseFacts Text Strings StringFacts Framing GridModel SheetObjects SheetModel SstModel FormatModel
  FormulaModel BookModel BookFacts PropEnc BookSheets.

Section Walk.
Variable codec : list Z -> list Z -> result (list Z).
Context {N : Type}.
Context {SH : Type}.
Notation book := (book N SH).
Variable load : book -> list Z -> Z -> list Z -> Z -> result (shared * SH).

(** The version never changes. *)
Lemma gstep_version : forall b mem pos rc data b' p, gstep codec load b mem pos rc data = Ok (b', p) -> rc <> 0x8f -> bk_bv b' = bk_bv b.
Proof.
  intros b mem pos rc data b' p H N3.
  destruct (Z.eq_dec rc 0x85) as [->|N1].
  { apply gstep_boundsheet in H as (b1 & s & D & _ & -> & _). exact (al_bv _ _ (proj1 (derive_alike _ _ _ D))). }
  destruct (Z.eq_dec rc 0x42) as [->|N2].
  { apply gstep_codepage in H as (c & _ & V & _). exact V. }
  exact (al_bv _ _ (gstep_alike _ _ _ _ _ _ _ _ _ H N1 N2 N3)).
Qed.

Lemma derive_enc : forall (b b' : book), derive codec b = Ok b' -> exists s, b' = with_enc b s.
Proof. intros b b' H. unfold derive in H. apply bind_ok in H as (s & _ & H). injection H as <-. eauto. Qed.
Lemma format_shared : forall (b b' : book) r, format_record codec b r = Ok b' -> bk_refs b' = bk_refs b /\ bk_names b' = bk_names b.
Proof.
  intros b b' r H. unfold format_record in H. apply bind_ok in H as (b1 & E & H). apply bind_ok in H as (f & _ & H).
  injection H as <-. cbn [with_fmt with_shared bk_refs bk_names].
  assert (X : ensure codec b = Ok b1 -> bk_refs b1 = bk_refs b /\ bk_names b1 = bk_names b).
  { intros Y. unfold ensure in Y. apply bind_ok in Y as (s & _ & Y). injection Y as <-. split; reflexivity. }
  destruct r; try destruct (b_fmt (bk_fmt b)); first [exact (X E) | injection E as <-; split; reflexivity].
Qed.

(** Reference tables: only EXTERNSHEET, EXTERNNAME and SUPBOOK records. Names: only NAME
    records. *)
Lemma gstep_keeps : forall b mem pos rc data b' p, gstep codec load b mem pos rc data = Ok (b', p) -> rc <> 0x8f ->
  (rc <> 0x17 -> rc <> 0x23 -> rc <> 0x1ae -> bk_refs b' = bk_refs b) /\ (rc <> 0x18 -> bk_names b' = bk_names b).
Proof.
  intros b mem pos rc data b' p H N3. unfold gstep in H. cbv zeta in H.
  assert (Stay : forall r : result book, (do b <- r; Ok (b, pos)) = Ok (b', p) -> r = Ok b').
  { intros r E. apply bind_ok in E as (? & ? & E). injection E as <- <-. assumption. }
  assert (Both : bk_refs b' = bk_refs b /\ bk_names b' = bk_names b ->
    (rc <> 0x17 -> rc <> 0x23 -> rc <> 0x1ae -> bk_refs b' = bk_refs b) /\ (rc <> 0x18 -> bk_names b' = bk_names b)) by tauto.
  destruct (rc =? 0xfc); [apply bind_ok in H as ([[? ?] ?] & _ & H); injection H as <- <-; split; reflexivity|].
  destruct ((rc =? 0x31) || (rc =? 0x231)); [apply Stay in H; exact (Both (format_shared _ _ _ H))|].
  destruct (rc =? 0x41e); [apply Stay in H; exact (Both (format_shared _ _ _ H))|].
  destruct (rc =? 0xe0); [apply Stay in H; exact (Both (format_shared _ _ _ H))|].
  destruct (rc =? 0x85).
  { apply Stay in H. apply bind_ok in H as (b1 & D & H). apply bind_ok in H as (s & _ & H). injection H as <-.
    destruct (derive_enc _ _ D) as (x & ->). split; reflexivity. }
  destruct (rc =? 0x22).
  { apply Stay in H. unfold handle_datemode in H. apply bind_ok in H as (? & _ & H). apply bind_ok in H as (? & _ & H).
    injection H as <-. split; reflexivity. }
  destruct (rc =? 0x42); [apply Stay in H; apply bind_ok in H as (r & _ & H); injection H as <-; split; reflexivity|].
  destruct (rc =? 0x8c).
  { apply Stay in H. unfold handle_country in H. apply bind_ok in H as (? & _ & H). apply bind_ok in H as (? & _ & H).
    apply bind_ok in H as (? & _ & H). apply bind_ok in H as (? & _ & H). injection H as <-. split; reflexivity. }
  destruct (rc =? 0x23) eqn:E23.
  { apply Stay in H; apply bind_ok in H as (r & _ & H); injection H as <-. split; [lia|reflexivity]. }
  destruct (rc =? 0x17) eqn:E17.
  { apply bind_ok in H as (b1 & D & H). apply bind_ok in H as ([r q] & _ & H). injection H as <- <-.
    destruct (derive_enc _ _ D) as (x & ->). split; [lia|reflexivity]. }
  destruct (rc =? 0x2f); [discriminate|].
  destruct (rc =? 0x5c); [apply Stay in H; apply bind_ok in H as (s & W & H); injection H as <-; split; reflexivity|].
  destruct (rc =? 0x8e).
  { apply Stay in H. apply bind_ok in H as (? & _ & H). apply bind_ok in H as (? & _ & H). injection H as <-. split; reflexivity. }
  replace (rc =? 0x8f) with false in H by lia.
  destruct (rc =? 0x1ae) eqn:E1.
  { apply Stay in H; apply bind_ok in H as (r & _ & H); injection H as <-. split; [lia|reflexivity]. }
  destruct (rc =? 0x18) eqn:E18.
  { split; [|lia]. intros _ _ _. destruct (bk_bv b <? 50); [injection H as <- <-; reflexivity|].
    apply Stay in H. apply bind_ok in H as (b1 & D & H). apply bind_ok in H as (n & _ & H). injection H as <-.
    destruct (derive_enc _ _ D) as (x & ->). reflexivity. }
  destruct (rc =? 0x92); [apply Stay in H; exact (Both (format_shared _ _ _ H))|].
  destruct (rc =? 0x293); [apply Stay in H; exact (Both (format_shared _ _ _ H))|].
  injection H as <- <-. split; reflexivity.
Qed.

Ltac run H := cbv beta iota zeta delta [gstep] in H;
  repeat match type of H with (if ?c then _ else _) = _ => let v := eval vm_compute in c in change c with v in H; cbv iota in H end.

Lemma gstep_externsheet : forall b mem pos data b' p, gstep codec load b mem pos 0x17 data = Ok (b', p) ->
  exists b1 r, derive codec b = Ok b1 /\ handle_externsheet codec (bk_bv b1) (en_encoding (bk_enc b1)) (bk_refs b1) mem pos data = Ok (r, p) /\
    b' = with_refs b1 r.
Proof.
  intros b mem pos data b' p H. run H. apply bind_ok in H as (b1 & D & H). apply bind_ok in H as ([r q] & G & H).
  assert (b' = with_refs b1 r /\ p = q) as [-> ->] by (split; congruence). eauto.
Qed.
Lemma gstep_externname : forall b mem pos data b' p, gstep codec load b mem pos 0x23 data = Ok (b', p) ->
  exists r, handle_externname (bk_bv b) (bk_refs b) data = Ok r /\ b' = with_refs b r.
Proof.
  intros b mem pos data b' p H. run H. apply bind_ok in H as (b1 & D & H). apply bind_ok in D as (r & G & D).
  assert (b' = with_refs b r) as -> by congruence. eauto.
Qed.
Lemma gstep_supbook : forall b mem pos data b' p, gstep codec load b mem pos 0x1ae data = Ok (b', p) ->
  exists r, handle_supbook (bk_refs b) data = Ok r /\ b' = with_refs b r.
Proof.
  intros b mem pos data b' p H. run H. apply bind_ok in H as (b1 & D & H). apply bind_ok in D as (r & G & D).
  assert (b' = with_refs b r) as -> by congruence. eauto.
Qed.
Lemma gstep_name : forall b mem pos data b' p, gstep codec load b mem pos 0x18 data = Ok (b', p) -> 50 <= bk_bv b ->
  exists b1 n, derive codec b = Ok b1 /\ handle_name codec (bk_bv b1) (en_encoding (bk_enc b1)) data = Ok n /\
    b' = with_names b1 (bk_names b1 ++ [n]).
Proof.
  intros b mem pos data b' p H V. cbv beta iota zeta delta [gstep] in H.
  repeat match type of H with (if (?a =? ?b) then _ else _) = _ => change (a =? b) with false in H; cbv iota in H
    | (if (?a =? ?b) || _ then _ else _) = _ => change (a =? b) with false in H; cbv iota in H end.
  change (24 =? 24) with true in H. cbv iota in H. replace (bk_bv b <? 50) with false in H by lia.
  apply bind_ok in H as (b2 & D & H). apply bind_ok in D as (b1 & D1 & D). apply bind_ok in D as (n & G & D).
  assert (b' = with_names b1 (bk_names b1 ++ [n])) as -> by congruence. eauto 6.
Qed.

Variable ops : numops N.
Variable lower : list Z -> list Z.

(** What holds of the book and the records to come at the start, and is kept by each
    record, holds at EOF.  A record may take some CONTINUE records with it. *)
Lemma globals_walk : forall (P : book -> list (Z * list Z) -> Prop) mem d post, zlen d < 65536 ->
  (forall b pos rc data rs b' p cs rs', P b ((rc, data) :: cs ++ rs') -> rs = cs ++ rs' -> Forall framable rs ->
     At mem pos (frames rs ++ frame (0x0a, d) ++ post) -> rc <> 0x0a -> rc <> 0x8f ->
     gstep codec load b mem pos rc data = Ok (b', p) ->
     Forall (fun r => noncont r = false) cs -> P b' rs') ->
  forall fuel rs b pos b' p', Forall framable rs -> At mem pos (frames rs ++ frame (0x0a, d) ++ post) ->
    Forall (fun r => fst r <> 0x0a /\ fst r <> 0x8f) rs ->
    globals codec ops lower load fuel b mem pos = Ok (b', p') -> P b rs ->
    exists bl, P bl [] /\ globals_end codec ops lower bl = Ok b'.
Proof.
  intros P mem d post LD ST. assert (FD : framable (0x0a, d)) by (split; cbn; lia).
  induction fuel as [|f IH]; intros rs b pos b' p' F A NE H PB; [discriminate|]. cbn [BookModel.globals] in H.
  destruct rs as [|[rc data] rs].
  - cbn [frames flat_map app] in A. rewrite (At_frame _ _ _ _ A FD) in H. cbn [bind fst snd] in H.
    change (0x0a =? 0x0a) with true in H. cbv iota in H. apply bind_ok in H as (b1 & G1 & H). injection H as -> <-. eauto.
  - inversion F as [|? ? F1 F2]; subst. inversion NE as [|? ? [N1 N2] N3]; subst. cbn [fst] in N1, N2.
    cbn [frames flat_map] in A. rewrite <- app_assoc in A.
    pose proof (At_frame _ _ _ _ A F1) as G. rewrite G in H. cbn [bind fst snd] in H.
    replace (rc =? 0x0a) with false in H by lia.
    apply bind_ok in H as ([b1 p2] & G1 & H).
    pose proof (At_skip _ _ _ _ _ A eq_refl) as A1.
    assert (A1' : At mem (pos + zlen (frame (rc, data))) (frames (rs ++ [(0x0a, d)]) ++ post)).
    { rewrite frames_app, <- app_assoc. cbn [frames flat_map]. rewrite app_nil_r. exact A1. }
    destruct (gstep_at codec lower load mem (rs ++ [(0x0a, d)]) post (pos + zlen (frame (rc, data))) b rc data b1 p2) as (cs & rs' & E & C1 & C2 & C3); auto.
    { apply Forall_app. split; [exact F2|]. constructor; [exact FD|constructor]. }
    { rewrite existsb_app. cbn [existsb noncont fst]. apply orb_true_intro. right. reflexivity. }
    assert (exists rs'', rs' = rs'' ++ [(0x0a, d)] /\ rs = cs ++ rs'') as (rs'' & -> & ->).
    { clear - E C3. destruct rs' as [|x l _] using rev_ind; [discriminate|].
      rewrite app_assoc in E. apply app_inj_tail in E as [E1 E2]. subst. eauto. }
    rewrite frames_app, <- app_assoc in C2. cbn [frames flat_map] in C2. rewrite app_nil_r in C2.
    pose proof (ST b _ rc data _ b1 p2 cs rs'' PB eq_refl F2 A1 N1 N2 G1 C1) as PB1.
    apply Forall_app in F2 as [_ F2]. apply Forall_app in N3 as [_ N3].
    exact (IH rs'' b1 p2 b' p' F2 C2 N3 H PB1).
Qed.

(** EOF *)
Lemma globals_end_spec : forall (b b' : book), globals_end codec ops lower b = Ok b' ->
  bk_refs b' = bk_refs b /\ bk_sheets b' = bk_sheets b /\ bk_bv b' = bk_bv b /\
  names_epilogue codec ops lower (bk_bv b) (en_encoding (bk_enc b)) (bk_sheets b) (bk_refs b) (bk_names b) = Ok (bk_names b', bk_maps b').
Proof.
  intros b b' H. unfold globals_end in H. cbv zeta in H. apply bind_ok in H as ([names maps] & E & H).
  destruct (truthy _).
  - injection H as <-. auto.
  - apply derive_enc in H as (s & ->). auto.
Qed.
End Walk.
