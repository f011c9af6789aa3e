(** Lemmas about BookModel.v: the records that the globals loop meets. *)
From Verif Require Import Base BaseFacts Text Strings StringFacts Framing GridModel SheetObjects SheetModel SheetFacts SstModel
  PropSst FormatModel FormulaModel BookModel.

Definition noncont (r : Z * list Z) : bool := negb (fst r =? 0x3c).

Lemma At_frame : forall mem pos r t, At mem pos (frame r ++ t) -> framable r ->
  get_record_parts mem pos = Ok ((fst r, zlen (snd r), snd r), pos + zlen (frame r)).
Proof.
  intros mem pos r t (p & E & L) F. subst mem pos. rewrite (get_record_parts_frame p r t _ F eq_refl), zlen_app. reflexivity.
Qed.

Lemma At_frame_cond : forall mem pos r t reqd, At mem pos (frame r ++ t) -> framable r ->
  get_record_parts_conditional mem pos reqd =
    if fst r =? reqd then Ok (Some (fst r, zlen (snd r), snd r), pos + zlen (frame r)) else Ok (None, pos).
Proof.
  intros mem pos r t reqd (p & E & L) F. subst mem pos.
  rewrite (get_record_parts_conditional_frame p r t _ reqd F eq_refl), zlen_app. reflexivity.
Qed.

(** ** Positions *)

Lemma collect_continue_at : forall fuel mem rs post pos acc l p, Forall framable rs ->
  At mem pos (frames rs ++ post) -> existsb noncont rs = true -> collect_continue fuel mem pos acc = Ok (l, p) ->
  exists cs rs', rs = cs ++ rs' /\ Forall (fun r => noncont r = false) cs /\ At mem p (frames rs' ++ post) /\
    existsb noncont rs' = true.
Proof.
  induction fuel as [|f IH]; intros mem rs post pos acc l p F A X H; [discriminate|].
  destruct rs as [|r rs]; [discriminate|]. inversion F as [|? ? F1 F2]; subst.
  cbn [frames flat_map] in A. rewrite <- app_assoc in A. cbn [collect_continue] in H.
  rewrite (At_frame_cond _ _ _ _ _ A F1) in H.
  destruct (fst r =? 60) eqn:E; cbn [bind] in H.
  - cbn [existsb] in X. assert (NC : noncont r = false) by (unfold noncont; lia). rewrite NC in X. cbn [orb] in X.
    destruct (IH mem rs post _ _ _ _ F2 (At_skip _ _ _ _ _ A eq_refl) X H) as (cs & rs' & -> & C1 & C2 & C3).
    exists (r :: cs), rs'. repeat split; auto.
  - injection H as <- <-. exists [], (r :: rs). repeat split; auto. cbn [frames flat_map]. rewrite <- app_assoc. exact A.
Qed.

Lemma externsheet_body_at : forall fuel mem rs post pos reqd data l p, Forall framable rs ->
  At mem pos (frames rs ++ post) -> existsb noncont rs = true -> externsheet_body fuel mem pos reqd data = Ok (l, p) ->
  exists cs rs', rs = cs ++ rs' /\ Forall (fun r => noncont r = false) cs /\ At mem p (frames rs' ++ post) /\
    existsb noncont rs' = true.
Proof.
  induction fuel as [|f IH]; intros mem rs post pos reqd data l p F A X H; cbn [externsheet_body] in H.
  - destruct (negb (zlen data <? reqd)); [|discriminate]. injection H as <- <-. exists [], rs. repeat split; auto.
  - destruct (negb (zlen data <? reqd)); [injection H as <- <-; exists [], rs; repeat split; auto|].
    destruct rs as [|r rs]; [discriminate|]. inversion F as [|? ? F1 F2]; subst.
    cbn [frames flat_map] in A. rewrite <- app_assoc in A.
    rewrite (At_frame _ _ _ _ A F1) in H. cbn [bind] in H. unfold XL_CONTINUE in H.
    destruct (negb (fst r =? 0x3c)) eqn:E; [discriminate|].
    cbn [existsb] in X. assert (NC : noncont r = false) by (unfold noncont; lia). rewrite NC in X. cbn [orb] in X.
    destruct (IH mem rs post _ _ _ _ _ F2 (At_skip _ _ _ _ _ A eq_refl) X H) as (cs & rs' & -> & C1 & C2 & C3).
    exists (r :: cs), rs'. repeat split; auto.
Qed.

Lemma filter_conts : forall cs, Forall (fun r => noncont r = false) cs -> filter noncont cs = [].
Proof. induction 1 as [|r cs H _ IH]; [reflexivity|]. cbn [filter]. now rewrite H. Qed.

Section Facts.
Variable codec : list Z -> list Z -> result (list Z).
Context {N : Type}.
Variable ops : numops N.
Variable lower : list Z -> list Z.
Context {SH : Type}.
Notation book := (book N SH).
Variable load : book -> list Z -> Z -> list Z -> Z -> result (shared * SH).

Notation gstep := (gstep codec load).
Notation globals := (globals codec ops lower load).
Notation globals_end := (globals_end codec ops lower).

(** Records met one after the other, EOF excluded. *)
Inductive steps (mem : list Z) : book -> Z -> list (Z * list Z) -> book -> Z -> Prop :=
| steps_nil : forall b pos, steps mem b pos [] b pos
| steps_cons : forall b pos rc len data p1 b1 p2 tr b' p',
    get_record_parts mem pos = Ok ((rc, len, data), p1) -> rc <> 0x0a -> gstep b mem p1 rc data = Ok (b1, p2) ->
    steps mem b1 p2 tr b' p' -> steps mem b pos ((rc, data) :: tr) b' p'.

Lemma globals_steps : forall fuel b mem pos b' p', globals fuel b mem pos = Ok (b', p') ->
  exists tr bl pl len d, steps mem b pos tr bl pl /\ get_record_parts mem pl = Ok ((0x0a, len, d), p') /\
    globals_end bl = Ok b'.
Proof.
  induction fuel as [|f IH]; intros b mem pos b' p' H; [discriminate|]. cbn [BookModel.globals] in H.
  apply bind_ok in H as ([[[rc len] data] p1] & G & H).
  destruct (rc =? 0x0a) eqn:E.
  - apply bind_ok in H as (b1 & G1 & H). injection H as -> ->. assert (rc = 0x0a) as -> by lia.
    exists [], b, pos, len, data. repeat split; [apply steps_nil|exact G|exact G1].
  - apply bind_ok in H as ([b1 p2] & G1 & H). apply IH in H as (tr & bl & pl & len' & d & S & R & Q).
    exists ((rc, data) :: tr), bl, pl, len', d. repeat split; try assumption.
    eapply steps_cons; try eassumption. lia.
Qed.

(** A record other than SHEETHDR leaves the position, or moves it over CONTINUE records. *)
Lemma gstep_at : forall mem rs post pos b rc data b' p, Forall framable rs ->
  At mem pos (frames rs ++ post) -> existsb noncont rs = true -> rc <> 0x8f -> gstep b mem pos rc data = Ok (b', p) ->
  exists cs rs', rs = cs ++ rs' /\ Forall (fun r => noncont r = false) cs /\ At mem p (frames rs' ++ post) /\
    existsb noncont rs' = true.
Proof.
  intros mem rs post pos b rc data b' p F A X NH H. unfold BookModel.gstep in H. cbv zeta in H.
  assert (Stay : forall r : result book, (do b <- r; Ok (b, pos)) = Ok (b', p) ->
    exists cs rs', rs = cs ++ rs' /\ Forall (fun r => noncont r = false) cs /\ At mem p (frames rs' ++ post) /\
      existsb noncont rs' = true).
  { intros r E. apply bind_ok in E as (? & _ & E). injection E as <- <-. exists [], rs. repeat split; auto. }
  destruct (rc =? 0xfc).
  { apply bind_ok in H as ([[st rn] q] & G & H). injection H as <- <-.
    unfold handle_sst in G. apply bind_ok in G as (n & _ & G). apply bind_ok in G as ([sl q'] & G1 & G).
    apply bind_ok in G as ([? ?] & _ & G). injection G as <- <- <-. eapply collect_continue_at; eassumption. }
  destruct ((rc =? 0x31) || (rc =? 0x231)); [exact (Stay _ H)|].
  destruct (rc =? 0x41e); [exact (Stay _ H)|].
  destruct (rc =? 0xe0); [exact (Stay _ H)|].
  destruct (rc =? 0x85); [exact (Stay _ H)|].
  destruct (rc =? 0x22); [exact (Stay _ H)|].
  destruct (rc =? 0x42); [exact (Stay _ H)|].
  destruct (rc =? 0x8c); [exact (Stay _ H)|].
  destruct (rc =? 0x23); [exact (Stay _ H)|].
  destruct (rc =? 0x17).
  { apply bind_ok in H as (b1 & _ & H). apply bind_ok in H as ([r q] & G & H). injection H as <- <-.
    unfold handle_externsheet in G. destruct (bk_bv b1 >=? 80).
    - apply bind_ok in G as (n & _ & G). apply bind_ok in G as ([d q'] & G1 & G).
      apply bind_ok in G as (? & _ & G). injection G as <- <-. eapply externsheet_body_at; eassumption.
    - apply bind_ok in G as (? & _ & G). apply bind_ok in G as (? & _ & G). apply bind_ok in G as (? & _ & G).
      apply bind_ok in G as (? & _ & G). injection G as <- <-. exists [], rs. repeat split; auto. }
  destruct (rc =? 0x2f); [discriminate|].
  destruct (rc =? 0x5c); [exact (Stay _ H)|].
  destruct (rc =? 0x8e); [exact (Stay _ H)|].
  replace (rc =? 0x8f) with false in H by lia.
  destruct (rc =? 0x1ae); [exact (Stay _ H)|].
  destruct (rc =? 0x18).
  { destruct (bk_bv b <? 50); [|exact (Stay _ H)]. injection H as <- <-. exists [], rs. repeat split; auto. }
  destruct (rc =? 0x92); [exact (Stay _ H)|].
  destruct (rc =? 0x293); [exact (Stay _ H)|].
  injection H as <- <-. exists [], rs. repeat split; auto.
Qed.

(** The records before the first EOF record are met in order, but for some CONTINUE
    records; the loop ends after the EOF record. *)
Lemma globals_frames : forall fuel mem rs d post b pos b' p',
  Forall framable rs -> zlen d < 65536 -> At mem pos (frames rs ++ frame (0x0a, d) ++ post) ->
  Forall (fun r => fst r <> 0x0a /\ fst r <> 0x8f) rs ->
  globals fuel b mem pos = Ok (b', p') ->
  exists tr bl, steps mem b pos tr bl (p' - zlen (frame (0x0a, d))) /\ globals_end bl = Ok b' /\
    filter noncont tr = filter noncont rs /\ (forall r, In r tr -> In r rs) /\ At mem p' post.
Proof.
  induction fuel as [|f IH]; intros mem rs d post b pos b' p' F LD A NE H; [discriminate|]. cbn [BookModel.globals] in H.
  assert (FD : framable (0x0a, d)) by (split; cbn; lia).
  destruct rs as [|[rc data] rs].
  - cbn [frames flat_map app] in A. rewrite (At_frame _ _ _ _ A FD) in H. cbn [bind fst snd] in H.
    change (0x0a =? 0x0a) with true in H. cbv iota in H. apply bind_ok in H as (b1 & G1 & H). injection H as -> <-.
    exists [], b. replace (pos + _ - _) with pos by lia.
    repeat split; [apply steps_nil|exact G1|contradiction|].
    eapply At_skip; [exact A|reflexivity].
  - inversion F as [|? ? F1 F2]; subst. inversion NE as [|? ? [N1 N2] N3]; subst. cbn [fst] in N1, N2.
    cbn [frames flat_map] in A. rewrite <- app_assoc in A.
    pose proof (At_frame _ _ _ _ A F1) as G. rewrite G in H. cbn [bind fst snd] in H.
    replace (rc =? 0x0a) with false in H by lia.
    apply bind_ok in H as ([b1 p2] & G1 & H).
    pose proof (At_skip _ _ _ _ _ A eq_refl) as A1.
    assert (A1' : At mem (pos + zlen (frame (rc, data))) (frames (rs ++ [(0x0a, d)]) ++ post)).
    { rewrite frames_app, <- app_assoc. cbn [frames flat_map]. rewrite app_nil_r. exact A1. }
    destruct (gstep_at mem (rs ++ [(0x0a, d)]) post (pos + zlen (frame (rc, data))) b rc data b1 p2) as (cs & rs' & E & C1 & C2 & C3); auto.
    { apply Forall_app. split; [exact F2|]. constructor; [exact FD|constructor]. }
    { rewrite existsb_app. cbn [existsb noncont fst]. apply orb_true_intro. right. reflexivity. }
    assert (exists rs'', rs' = rs'' ++ [(0x0a, d)] /\ rs = cs ++ rs'') as (rs'' & -> & ->).
    { clear - E C3. destruct rs' as [|x l _] using rev_ind; [discriminate|].
      rewrite app_assoc in E. apply app_inj_tail in E as [E1 E2]. subst. eauto. }
    apply Forall_app in F2 as [_ F2]. apply Forall_app in N3 as [_ N3].
    rewrite frames_app, <- app_assoc in C2. cbn [frames flat_map] in C2. rewrite app_nil_r in C2.
    destruct (IH mem rs'' d post b1 p2 b' p' F2 LD C2 N3 H) as (tr & bl & S & Q & T & I & P).
    exists ((rc, data) :: tr), bl. repeat split; try assumption.
    + eapply steps_cons; [exact G|exact N1|exact G1|exact S].
    + cbn [filter]. rewrite T, filter_app, (filter_conts _ C1). reflexivity.
    + intros r [<- | R]; [left; reflexivity|right]. apply in_or_app. right. exact (I r R).
Qed.
End Facts.
