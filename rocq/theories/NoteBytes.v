(** The OBJ, TXO and NOTE records of BIFF8: specification and lemmas for theorem C34. *)
From Verif Require Import Base BaseFacts Utf16 Strings StringFacts Framing PropBytes GridModel GridFacts
  SheetObjects SheetModel SheetFacts SheetSteps.

(** A subrecord of an OBJ record that says nothing about the object's id. *)
Definition sub_ok (s : Z * list Z) : Prop :=
  u16v (fst s) /\ fst s <> 0x15 /\ fst s <> 0 /\ fst s <> 0x0C /\ fst s <> 0x13 /\ zlen (snd s) < 65536.
Definition sub_bytes (s : Z * list Z) : list Z := le_enc 2 (fst s) ++ le_enc 2 (zlen (snd s)) ++ snd s.

(** The OBJ record of an object: its type, id and options; 12 reserved bytes; other
    subrecords; zeros. *)
Record shape : Type := mk_shape {
  sp_type : Z; sp_id : Z; sp_flags : Z; sp_reserved : list Z; sp_subs : list (Z * list Z); sp_zeros : Z;
}.
Definition shape_data (s : shape) : list Z :=
  le_enc 2 0x15 ++ le_enc 2 18 ++ le_enc 2 (sp_type s) ++ le_enc 2 (sp_id s) ++ le_enc 2 (sp_flags s) ++ sp_reserved s ++
  flat_map sub_bytes (sp_subs s) ++ zrepeat 0 (sp_zeros s).
Definition shape_ok (s : shape) : Prop :=
  u16v (sp_type s) /\ 0 < sp_id s < 65536 /\ u16v (sp_flags s) /\ zlen (sp_reserved s) = 12 /\ Forall sub_ok (sp_subs s) /\
  (sp_zeros s = 0 \/ 4 <= sp_zeros s).

(** A NOTE record: position, flags, object id, author, perhaps a stray byte. *)
Record comment : Type := mk_comment {
  cm_row : Z; cm_col : Z; cm_flags : Z; cm_id : Z; cm_author : ustring; cm_stray : list Z;
}.
Definition comment_data (n : comment) : list Z :=
  le_enc 2 (cm_row n) ++ le_enc 2 (cm_col n) ++ le_enc 2 (cm_flags n) ++ le_enc 2 (cm_id n) ++ us_field 2 (cm_author n) ++ cm_stray n.
Definition comment_ok (n : comment) : Prop :=
  Forall u16v [cm_row n; cm_col n; cm_flags n; cm_id n] /\ us_ok (cm_author n) /\ us_units (cm_author n) < 65536 /\ zlen (cm_stray n) <= 1.

Lemma zlen_sub : forall s, zlen (sub_bytes s) = 4 + zlen (snd s).
Proof. intros s. unfold sub_bytes. rewrite !zlen_app, !zlen_le_enc. lia. Qed.

Lemma obj_loop_subs : forall subs fuel data pos id af z, Forall sub_ok subs -> z = 0 \/ 4 <= z -> 0 < pos ->
  At data pos (flat_map sub_bytes subs ++ zrepeat 0 z) -> (length subs + 1 < fuel)%nat ->
  obj_loop fuel data pos id af = Ok (Some id).
Proof.
  induction subs as [|s subs IH]; intros fuel data pos id af z HF HZ HP HA Hfuel; (destruct fuel as [|fuel]; [cbn in Hfuel; lia|]); cbn [obj_loop].
  - cbn [flat_map app] in HA. pose proof (At_len _ _ _ HA) as L. rewrite zlen_zrepeat in L by lia.
    destruct HZ as [-> | HZ]; [replace (pos <? zlen data) with false by lia; reflexivity|].
    replace (pos <? zlen data) with true by lia. unfold obj_step.
    assert (zrepeat 0 z = le_enc 2 0 ++ le_enc 2 0 ++ zrepeat 0 (z - 4)) as EZ.
    { unfold zrepeat. replace (Z.to_nat z) with (4 + Z.to_nat (z - 4))%nat by lia. reflexivity. }
    pose proof HA as HA2. rewrite EZ in HA. pose proof HA as HA'. rewrite app_assoc in HA'.
    rewrite (At_zslice_len _ _ _ _ 4 HA') by reflexivity. cbn [guard bind].
    pose proof (At_skip _ _ _ _ (pos + 2) HA ltac:(rewrite zlen_le_enc; lia)) as A1.
    rewrite (At_u16 _ _ _ _ HA), (At_u16 _ _ _ _ A1) by lia. cbn [bind]. replace (pos =? 0) with false by lia. cbn [andb].
    change (0 =? 0x15) with false. change (0 =? 0) with true. cbv iota.
    assert (py_slice data pos (zlen data) = zrepeat 0 z) as ->.
    { apply (At_slice _ _ [] _ (zlen data)); [rewrite app_nil_r; exact HA2|rewrite zlen_zrepeat by lia; lia]. }
    replace (zlen data - pos) with z by lia. replace (list_eqb (zrepeat 0 z) (zrepeat 0 z)) with true by (symmetry; apply list_eqb_refl).
    reflexivity.
  - inversion HF as [|? ? (S1 & S2 & S3 & S4 & S5 & S6) HF']; subst. cbn [flat_map] in HA. rewrite <- app_assoc in HA.
    pose proof (zlen_nonneg (snd s)). pose proof (At_len _ _ _ HA) as L. rewrite zlen_app, zlen_sub in L.
    match type of L with _ = _ + (_ + zlen ?m) => pose proof (zlen_nonneg m) end.
    replace (pos <? zlen data) with true by lia. unfold obj_step.
    pose proof (At_skip _ _ _ _ (pos + zlen (snd s) + 4) HA ltac:(rewrite zlen_sub; lia)) as A9.
    unfold sub_bytes in HA at 1. rewrite <- !app_assoc in HA. pose proof HA as HA'. rewrite app_assoc in HA'.
    rewrite (At_zslice_len _ _ _ _ 4 HA') by (rewrite zlen_app, !zlen_le_enc; reflexivity). cbn [guard bind].
    pose proof (At_skip _ _ _ _ (pos + 2) HA ltac:(rewrite zlen_le_enc; lia)) as A1. unfold u16v in *.
    rewrite (At_u16 _ _ _ _ HA), (At_u16 _ _ _ _ A1) by lia. cbn [bind]. replace (pos =? 0) with false by lia. cbn [andb].
    replace (fst s =? 0x15) with false by lia. replace (fst s =? 0) with false by lia. replace (fst s =? 0x0C) with false by lia.
    replace (fst s =? 0x13) with false by lia. cbn [andb bind]. eapply IH; [exact HF'|exact HZ|lia|exact A9|cbn in Hfuel; lia].
Qed.

Lemma subs_len : forall subs, Z.of_nat (length subs) <= zlen (flat_map sub_bytes subs).
Proof.
  induction subs as [|s subs IH]; [cbn; lia|]. cbn [length flat_map]. rewrite zlen_app, zlen_sub. pose proof (zlen_nonneg (snd s)). lia.
Qed.

Lemma shape_reads : forall bv s, 80 <= bv -> shape_ok s -> handle_obj bv (shape_data s) = Ok (Some (Some (sp_id s))).
Proof.
  intros bv s HV (S1 & S2 & S3 & S4 & S5 & S6). unfold handle_obj. replace (bv <? 80) with false by lia.
  set (d := shape_data s). assert (At d 0 (shape_data s)) as A0 by apply At_0. unfold shape_data in A0.
  pose proof (At_skip _ _ _ _ 2 A0 ltac:(rewrite zlen_le_enc; lia)) as A1. pose proof (At_skip _ _ _ _ 4 A1 ltac:(rewrite zlen_le_enc; lia)) as A2.
  pose proof (At_skip _ _ _ _ 6 A2 ltac:(rewrite zlen_le_enc; lia)) as A3. pose proof (At_skip _ _ _ _ 8 A3 ltac:(rewrite zlen_le_enc; lia)) as A4.
  pose proof (At_skip _ _ _ _ 10 A4 ltac:(rewrite zlen_le_enc; lia)) as A5. pose proof (At_skip _ _ _ _ 22 A5 ltac:(lia)) as A6.
  pose proof (At_len _ _ _ A6) as L. rewrite zlen_app in L. pose proof (subs_len (sp_subs s)) as SL. pose proof (zlen_nonneg (zrepeat 0 (sp_zeros s))).
  change (obj_loop (S (length d)) d 0 None 0) with
    (if 0 <? zlen d then do o <- obj_step d 0 None 0;
       match o with ObjNone => Ok None | ObjDone id => Ok (Some id) | ObjNext id autofilter pos => obj_loop (length d) d pos id autofilter end
     else Ok (Some None)).
  replace (0 <? zlen d) with true by lia.
  assert (exists af, obj_step d 0 None 0 = Ok (ObjNext (Some (sp_id s)) af 22)) as (af & ->).
  { unfold obj_step. unfold u16v in *. pose proof A0 as A0'. rewrite app_assoc in A0'.
    rewrite (At_zslice_len _ _ _ _ 4 A0') by reflexivity. cbn [guard bind].
    change (0 + 2) with 2. rewrite (At_u16 _ _ _ _ A0), (At_u16 _ _ _ _ A1) by lia. cbn [bind].
    change ((0 =? 0) && negb ((0x15 =? 0x15) && (18 =? 18))) with false. change (0x15 =? 0x15) with true. cbv iota. cbn [Z.eqb guard bind].
    change (0 + 4) with 4. change (0 + 10) with (4 + 6). change (0 + 6) with 6. change (0 + 8) with 8.
    assert (zlen (py_slice d 4 (4 + 6)) =? 6 = true) as ->.
    { rewrite py_slice_len, !py_bound_id by lia. reflexivity. }
    cbn [guard bind]. rewrite (At_u16 _ _ _ _ A3), (At_u16 _ _ _ _ A4) by lia. cbn [bind]. eexists. reflexivity. }
  cbn [bind]. eapply obj_loop_subs; [exact S5|exact S6|lia|exact A6|]. unfold zlen in *. lia.
Qed.

Lemma bit_shift : forall x j, 0 <= j -> Z.land (Z.shiftr x j) 1 = Z.b2z (Z.testbit x j).
Proof. intros x j Hj. change 1 with (Z.ones 1). rewrite Z.land_ones by lia. rewrite Z.testbit_spec' by lia. rewrite Z.shiftr_div_pow2 by lia. reflexivity. Qed.

Lemma comment_reads : forall decode bv txos m n rs, 80 <= bv -> comment_ok n ->
  handle_note decode bv txos m (comment_data n) rs =
  Ok (match dget Z.eqb txos (cm_id n) with
      | None => m
      | Some (text, runs) => dset m (cm_row n, cm_col n)
          (mk_note (cm_row n) (cm_col n) text runs (Z.b2z (Z.testbit (cm_flags n) 1)) (Z.b2z (Z.testbit (cm_flags n) 7))
             (Z.b2z (Z.testbit (cm_flags n) 8)) (us_text (cm_author n)) (Some (cm_id n)))
      end, rs).
Proof.
  intros decode bv txos m n rs HV (HU & HA & HL & HS). unfold handle_note. replace (bv <? 80) with false by lia.
  inversion HU as [|? ? U1 HU1]; subst. inversion HU1 as [|? ? U2 HU2]; subst. inversion HU2 as [|? ? U3 HU3]; subst.
  inversion HU3 as [|? ? U4 _]; subst. clear HU HU1 HU2 HU3. unfold u16v in *.
  set (d := comment_data n). assert (At d 0 (comment_data n)) as A0 by apply At_0. unfold comment_data in A0.
  pose proof (At_skip _ _ _ _ 2 A0 ltac:(rewrite zlen_le_enc; lia)) as A1. pose proof (At_skip _ _ _ _ 4 A1 ltac:(rewrite zlen_le_enc; lia)) as A2.
  pose proof (At_skip _ _ _ _ 6 A2 ltac:(rewrite zlen_le_enc; lia)) as A3. pose proof (At_skip _ _ _ _ 8 A3 ltac:(rewrite zlen_le_enc; lia)) as A4.
  pose proof (At_len _ _ _ A4) as L. rewrite zlen_app in L. pose proof (zlen_nonneg (us_field 2 (cm_author n))). pose proof (zlen_nonneg (cm_stray n)).
  assert (need d 8 = Ok tt) as -> by (unfold need; rewrite py_slice_len, !py_bound_id by lia; reflexivity).
  cbn [bind]. rewrite (At_u16 _ _ _ _ A0), (At_u16 _ _ _ _ A1), (At_u16 _ _ _ _ A2), (At_u16 _ _ _ _ A3) by lia. cbn [bind].
  assert (unpack_unicode_update_pos d 8 2 None = Ok (us_text (cm_author n), 8 + zlen (us_field 2 (cm_author n)))) as ->.
  { destruct A4 as (p & Ep & Lp). rewrite Ep, Lp. change 2 with (Z.of_nat 2) at 1. rewrite (c13_unicode_update_pos (cm_author n) 2 p (cm_stray n) HA) by (auto; exact HL).
    rewrite zlen_app. reflexivity. }
  cbn [bind]. rewrite L. replace (8 + (zlen (us_field 2 (cm_author n)) + zlen (cm_stray n)) - (8 + zlen (us_field 2 (cm_author n)))) with (zlen (cm_stray n)) by lia.
  replace ((zlen (cm_stray n) =? 0) || (zlen (cm_stray n) =? 1)) with true by lia. cbn [guard bind].
  destruct (dget Z.eqb txos (cm_id n)) as [[text runs]|]; [|reflexivity]. rewrite !bit_shift by lia. reflexivity.
Qed.

(** ** Text objects *)

(** One fragment of a text: one byte per character, or UTF-16. *)
Record frag : Type := mk_frag { fg_wide : bool; fg_text : list Z }.
Definition frag_bytes (p : frag) : list Z := if fg_wide p then 1 :: utf16_enc (fg_text p) else 0 :: fg_text p.
Definition frag_units (p : frag) : Z := zlen (utf16_units (fg_text p)).
Definition frag_ok (p : frag) : Prop :=
  text (fg_text p) /\ fg_text p <> [] /\ (fg_wide p = false -> Forall (fun c => 0 <= c < 256) (fg_text p)).

(** A formatting run: first character, font, four unused bytes. *)
Definition run : Type := (Z * Z * list Z)%type.
Definition run_bytes (r : run) : list Z := let '(a, b, x) := r in le_enc 2 a ++ le_enc 2 b ++ x.
Definition run_ok (r : run) : Prop := let '(a, b, x) := r in u16v a /\ u16v b /\ zlen x = 4.

(** A text object: the text in fragments and the runs in groups, each of which
    becomes one CONTINUE record. *)
Record tbox : Type := mk_tbox {
  tb_head : list Z;                (* 10 bytes: options, rotation, reserved *)
  tb_frags : list frag;
  tb_runs : list (list run);
  tb_tail : list Z;                (* font for an empty text, formula *)
}.
Definition sumz (l : list Z) : Z := fold_right Z.add 0 l.
Definition tb_units (t : tbox) : Z := sumz (map frag_units (tb_frags t)).
Definition tb_run_bytes (t : tbox) : Z := 8 * zlen (concat (tb_runs t)).
Definition tbox_data (t : tbox) : list Z := tb_head t ++ le_enc 2 (tb_units t) ++ le_enc 2 (tb_run_bytes t) ++ tb_tail t.
Definition tbox_continues (t : tbox) : list (Z * list Z) :=
  map (fun p => (XL_CONTINUE, frag_bytes p)) (tb_frags t) ++ map (fun g => (XL_CONTINUE, flat_map run_bytes g)) (tb_runs t).
Definition tbox_ok (t : tbox) : Prop :=
  zlen (tb_head t) = 10 /\ Forall frag_ok (tb_frags t) /\ Forall (fun g => g <> [] /\ Forall run_ok g) (tb_runs t) /\
  u16v (tb_units t) /\ u16v (tb_run_bytes t) /\ 2 <= zlen (tb_tail t).

(** Its text, and its runs without those at the end that start where the text ends. *)
Definition tb_text (t : tbox) : list Z := concat (map fg_text (tb_frags t)).
Definition strip_end (n : Z) (runs : list (Z * Z)) : list (Z * Z) :=
  fold_right (fun r acc => match acc with [] => if fst r =? n then [] else [r] | _ => r :: acc end) [] runs.
Definition tb_shown_runs (t : tbox) : list (Z * Z) :=
  strip_end (tb_units t) (map (fun r : run => let '(a, b, _) := r in (a, b)) (concat (tb_runs t))).

(** ** Proofs: text objects *)

Lemma txo_text_eq : forall rs cch tot acc, txo_text rs cch tot acc =
  if tot <? cch then
    match rs with
    | [] => Err StructError
    | (rc2, data2_len, data2) :: rs' =>
        do _ <- guard (rc2 =? XL_CONTINUE) AssertionError;
        do nb <- py_index data2 0;
        let nchars := data2_len - 1 in
        do nchars <- (if negb (nb =? 0)
                      then do _ <- guard (nchars mod 2 =? 0) AssertionError; Ok (nchars / 2)
                      else Ok nchars);
        do (utext, endpos) <- unpack_unicode_update_pos data2 0 2 (Some nchars);
        do _ <- guard (endpos =? data2_len) AssertionError;
        txo_text rs' cch (tot + nchars) (acc ++ utext)
    end
  else Ok (acc, rs).
Proof. intros [|[[rc len] d] rs] cch tot acc; reflexivity. Qed.

Lemma units_pos : forall t, t <> [] -> 0 < zlen (utf16_units t).
Proof.
  intros [|a t] H; [contradiction|]. unfold utf16_units. cbn [flat_map]. rewrite zlen_app. pose proof (zlen_nonneg (flat_map units_of t)) as K.
  set (m := flat_map units_of t) in *. unfold units_of. destruct (a <? 65536); rewrite !zlen_cons; change (zlen []) with 0; lia.
Qed.

Lemma frag_reads : forall p, frag_ok p ->
  unpack_unicode_update_pos (frag_bytes p) 0 2 (Some (frag_units p)) = Ok (fg_text p, zlen (frag_bytes p)) /\
  zlen (frag_bytes p) - 1 = (if fg_wide p then 2 * frag_units p else frag_units p).
Proof.
  intros [w t] (HT & HN & HB). unfold frag_bytes, frag_units in *. cbn [fg_wide fg_text] in *.
  set (u := Build_ustring t w (if w then 1 else 0) None None).
  assert (us_ok u) as OK by (unfold us_ok, u; cbn; repeat split; auto; destruct w; reflexivity).
  pose proof (c13_unicode_known_len u [] [] 2 OK) as E. cbn [app] in E. rewrite app_nil_r in E.
  assert (us_rest u = (if w then 1 :: utf16_enc t else 0 :: t)) as R by (unfold us_rest, u; cbn; rewrite !app_nil_r; destruct w; reflexivity).
  rewrite R in E. split; [exact E|].
  destruct w; rewrite zlen_cons; [rewrite zlen_utf16_enc|rewrite units_narrow by auto]; lia.
Qed.

Lemma sumz_nonneg : forall l, Forall (fun x => 0 <= x) l -> 0 <= sumz l.
Proof. induction 1 as [|x l Hx _ IH]; unfold sumz in *; cbn [fold_right]; lia. Qed.

Lemma txo_text_reads : forall ps rs cch tot acc, Forall frag_ok ps -> cch = tot + sumz (map frag_units ps) ->
  txo_text (map rec_of (map (fun p => (XL_CONTINUE, frag_bytes p)) ps) ++ rs) cch tot acc = Ok (acc ++ concat (map fg_text ps), rs).
Proof.
  induction ps as [|p ps IH]; intros rs cch tot acc HF Hc; rewrite txo_text_eq.
  - cbn in Hc. replace (tot <? cch) with false by lia. cbn. rewrite app_nil_r. reflexivity.
  - inversion HF as [|? ? Hp HF']; subst. destruct (frag_reads p Hp) as [E L]. cbn [map sumz fold_right].
    fold (sumz (map frag_units ps)).
    assert (0 < frag_units p) as U by (apply units_pos; apply Hp).
    assert (0 <= sumz (map frag_units ps)) as S.
    { apply sumz_nonneg. apply Forall_forall. intros x Hx. apply in_map_iff in Hx as (q & <- & _). apply zlen_nonneg. }
    replace (tot <? tot + (frag_units p + sumz (map frag_units ps))) with true by lia. cbn [app rec_of fst snd].
    rewrite Z.eqb_refl. cbn [guard bind].
    assert (py_index (frag_bytes p) 0 = Ok (if fg_wide p then 1 else 0)) as -> by (unfold frag_bytes; destruct (fg_wide p); reflexivity).
    cbn [bind]. rewrite L.
    assert ((if negb ((if fg_wide p then 1 else 0) =? 0)
             then do _ <- guard ((if fg_wide p then 2 * frag_units p else frag_units p) mod 2 =? 0) AssertionError;
                  Ok ((if fg_wide p then 2 * frag_units p else frag_units p) / 2)
             else Ok (if fg_wide p then 2 * frag_units p else frag_units p)) = Ok (frag_units p)) as ->.
    { destruct (fg_wide p); [|reflexivity]. change (negb (1 =? 0)) with true. cbv iota.
      replace ((2 * frag_units p) mod 2 =? 0) with true by lia. cbn [guard bind]. f_equal. lia. }
    cbn [bind]. rewrite E. cbn [bind]. rewrite Z.eqb_refl. cbn [guard bind].
    rewrite IH by (try assumption; lia). cbn [concat]. rewrite app_assoc. reflexivity.
Qed.

Lemma run_len : forall r, run_ok r -> zlen (run_bytes r) = 8.
Proof. intros [[a b] x] (_ & _ & H). unfold run_bytes. rewrite !zlen_app, !zlen_le_enc. lia. Qed.

Lemma runs_len : forall g, Forall run_ok g -> zlen (flat_map run_bytes g) = 8 * zlen g.
Proof.
  induction 1 as [|r g Hr Hg IH]; [reflexivity|]. cbn [flat_map]. rewrite zlen_app, IH, run_len, zlen_cons by assumption. lia.
Qed.

Definition pair_of (r : run) : Z * Z := let '(a, b, _) := r in (a, b).

Lemma runs_loop_reads : forall g data pos t, Forall run_ok g -> At data pos (flat_map run_bytes g ++ t) ->
  runs_loop (length g) data pos = Ok (map pair_of g).
Proof.
  induction g as [|[[a b] x] g IH]; intros data pos t HF HA; [reflexivity|].
  inversion HF as [|? ? Hr HF']; subst. cbn [length runs_loop flat_map] in *. rewrite <- app_assoc in HA.
  rewrite (At_zslice_len _ _ _ _ 8 HA) by (apply run_len; exact Hr). cbn [guard bind].
  pose proof (At_skip _ _ _ _ (pos + 8) HA ltac:(rewrite run_len; auto)) as A1.
  unfold run_bytes in HA at 1. rewrite <- !app_assoc in HA. destruct Hr as (Ha & Hb & Hx). unfold u16v in *.
  pose proof (At_skip _ _ _ _ (pos + 2) HA ltac:(rewrite zlen_le_enc; lia)) as A2.
  rewrite (At_u16 _ _ _ _ HA), (At_u16 _ _ _ _ A2) by lia. cbn [bind]. rewrite (IH _ _ _ HF' A1). reflexivity.
Qed.

Lemma txo_runs_eq : forall rs cb tot acc, txo_runs rs cb tot acc =
  if tot <? cb then
    match rs with
    | [] => Err StructError
    | (rc3, data3_len, data3) :: rs' =>
        do _ <- guard (rc3 =? XL_CONTINUE) AssertionError;
        do _ <- guard (data3_len mod 8 =? 0) AssertionError;
        do new <- runs_loop (Z.to_nat (data3_len / 8)) data3 0;
        txo_runs rs' cb (tot + 8 * (data3_len / 8)) (acc ++ new)
    end
  else Ok (acc, rs).
Proof. intros [|[[rc len] d] rs] cb tot acc; reflexivity. Qed.

Lemma txo_runs_reads : forall gs rs cb tot acc, Forall (fun g => g <> [] /\ Forall run_ok g) gs -> cb = tot + 8 * zlen (concat gs) ->
  txo_runs (map rec_of (map (fun g => (XL_CONTINUE, flat_map run_bytes g)) gs) ++ rs) cb tot acc = Ok (acc ++ map pair_of (concat gs), rs).
Proof.
  induction gs as [|g gs IH]; intros rs cb tot acc HF Hc; rewrite txo_runs_eq.
  - cbn in Hc. replace (tot <? cb) with false by (subst; unfold zlen; cbn; lia). cbn. rewrite app_nil_r. reflexivity.
  - inversion HF as [|? ? [Hn Hg] HF']; subst. cbn [concat]. rewrite zlen_app. pose proof (zlen_nonneg (concat gs)).
    assert (0 < zlen g) as Hl by (destruct g; [contradiction|rewrite zlen_cons; pose proof (zlen_nonneg g); lia]).
    replace (tot <? tot + 8 * (zlen g + zlen (concat gs))) with true by lia. cbn [map app rec_of fst snd].
    rewrite Z.eqb_refl. cbn [guard bind]. rewrite runs_len by exact Hg.
    replace (8 * zlen g mod 8 =? 0) with true by lia. cbn [guard bind].
    replace (8 * zlen g / 8) with (zlen g) by lia. replace (Z.to_nat (zlen g)) with (length g) by (unfold zlen; lia).
    rewrite (runs_loop_reads g _ 0 []) by (try exact Hg; rewrite app_nil_r; apply At_0). cbn [bind].
    rewrite IH by (try assumption; lia). rewrite map_app, app_assoc. reflexivity.
Qed.

Lemma drop_ends_strip : forall n runs, rev (drop_ends n (rev runs)) = strip_end n runs.
Proof.
  intros n. induction runs as [|r runs IH] using rev_ind; [reflexivity|].
  rewrite rev_app_distr. cbn [rev app]. destruct r as [a b]. cbn [drop_ends].
  assert (forall l, strip_end n (l ++ [(a, b)]) = if a =? n then strip_end n l else l ++ [(a, b)]) as K.
  { intros l. unfold strip_end. rewrite fold_right_app. cbn [fold_right fst]. destruct (a =? n); [reflexivity|].
    clear. induction l as [|x l IH]; [reflexivity|]. cbn [fold_right app]. rewrite IH. destruct l; reflexivity. }
  rewrite K. destruct (a =? n); [exact IH|]. cbn [rev]. rewrite rev_involutive. reflexivity.
Qed.

(** The text of a text object is the text of its fragments in order, and its runs
    are those of the formatting records. *)
Lemma tbox_reads : forall bv t rest, 80 <= bv -> tbox_ok t ->
  handle_txo bv (tbox_data t) (map rec_of (tbox_continues t) ++ rest) = Ok (Some (tb_text t, tb_shown_runs t), rest).
Proof.
  intros bv t rest HV (H1 & H2 & H3 & H4 & H5 & H6). unfold handle_txo. replace (bv <? 80) with false by lia.
  assert (At (tbox_data t) 0 (tbox_data t)) as A0 by apply At_0. unfold tbox_data in A0 at 2.
  pose proof (At_skip _ _ _ _ 10 A0 ltac:(lia)) as A1. pose proof (At_skip _ _ _ _ 12 A1 ltac:(rewrite zlen_le_enc; lia)) as A2.
  pose proof (At_skip _ _ _ _ 14 A2 ltac:(rewrite zlen_le_enc; lia)) as A3. pose proof (At_len _ _ _ A3) as L.
  assert (need (tbox_data t) 16 = Ok tt) as -> by (unfold need; rewrite py_slice_len, !py_bound_id by lia; reflexivity).
  cbn [bind]. unfold u16v in *. rewrite (At_u16 _ _ _ _ A1), (At_u16 _ _ _ _ A2) by lia. cbn [bind].
  unfold tbox_continues. rewrite map_app, <- app_assoc. rewrite txo_text_reads by (try assumption; unfold tb_units; lia). cbn [bind].
  rewrite txo_runs_reads by (try assumption; unfold tb_run_bytes; lia). cbn [bind app].
  rewrite drop_ends_strip. reflexivity.
Qed.
