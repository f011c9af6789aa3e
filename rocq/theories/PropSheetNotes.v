(** Property theorems C96: the notes of the worksheets of an opened workbook are
    those that the sheet's own records describe (BIFF5 to BIFF8). *)
From Verif Require Import Base BaseFacts Text Strings Utf16 StringFacts PropBytes Framing GridModel GridFacts PropGrid SheetObjects SheetModel SheetFacts SheetSteps
  PropSheet PropRead SheetTrace PropView PropRowCol PropLinks PropNotes SheetOwn SstModel PropSst FormatModel FormatFacts PropFormat PropNumType FormulaModel CompDoc BookModel BookFacts PropBof PropEnc
  BookSheets BookRefs BookApi SheetShare BookHistory PropGlobals PropFormulaText PropDemand PropSheetList BookContent BookFormats BookFollow PropWorkbook PropAttrs.

(** ** Specification *)

(** The records of a BIFF8 sheet, as far as notes are concerned: an object; an object of
    another form; a text and its CONTINUE records; a note; any other record. *)
Inductive part : Type :=
| PObject (s : shape)
| PAntique (d : list Z)
| PText (t : tbox)
| PNote (n : comment)
| POther (rc : Z) (d : list Z).

Definition part_recs (p : part) : list (Z * list Z) :=
  match p with
  | PObject s => [(0x5D, shape_data s)]
  | PAntique d => [(0x5D, d)]
  | PText t => (0x1B6, tbox_data t) :: tbox_continues t
  | PNote n => [(0x1C, comment_data n)]
  | POther rc d => [(rc, d)]
  end.
Definition part_ok (p : part) : Prop :=
  match p with
  | PObject s => shape_ok s
  | PAntique d => 4 <= zlen d /\ (u16_at d 0 <> 0x15 \/ u16_at d 2 <> 18)
  | PText t => tbox_ok t
  | PNote n => comment_ok n
  | POther rc _ => rc <> 0x5D /\ rc <> 0x1B6 /\ rc <> 0x1C
  end.

(** What has been seen of the sheet: the object whose text may follow, the texts of
    the objects so far, and the notes. *)
Record seen : Type := mk_seen {
  s_object : option Z;
  s_texts : Z -> option (list Z * list (Z * Z));
  s_notes : Z -> Z -> option note;
}.
Definition nothing : seen := mk_seen None (fun _ => None) (fun _ _ => None).
Definition see (w : seen) (p : part) : seen :=
  match p with
  | PObject s => mk_seen (Some (sp_id s)) (s_texts w) (s_notes w)
  | PAntique _ => mk_seen None (s_texts w) (s_notes w)
  | PText t =>
      match s_object w with
      | Some id => mk_seen None (fun i => if i =? id then Some (tb_text t, tb_shown_runs t) else s_texts w i) (s_notes w)
      | None => w
      end
  | PNote n =>
      match s_texts w (cm_id n) with
      | Some (text, runs) =>
          mk_seen (s_object w) (s_texts w) (fun r k => if (r =? cm_row n) && (k =? cm_col n)
            then Some (mk_note r k text runs (Z.b2z (Z.testbit (cm_flags n) 1)) (Z.b2z (Z.testbit (cm_flags n) 7))
                         (Z.b2z (Z.testbit (cm_flags n) 8)) (us_text (cm_author n)) (Some (cm_id n)))
            else s_notes w r k)
      | None => w
      end
  | POther _ _ => w
  end.
Definition notes_of (ps : list part) : Z -> Z -> option note := s_notes (fold_left see ps nothing).

(** Before BIFF8: a note in one or more NOTE records; any other record. *)
Inductive opart : Type :=
| ONote (row col : Z) (first : list Z) (more : list (list Z * list Z))
| OOther (rc : Z) (d : list Z).
Definition opart_recs (p : opart) : list (Z * list Z) :=
  match p with
  | ONote row col first more =>
      (0x1C, le_enc 2 row ++ le_enc 2 col ++ le_enc 2 (zlen first + zlen (List.concat (map snd more))) ++ first)
      :: map (fun fp => (0x1C, le_enc 2 0xFFFF ++ fst fp ++ le_enc 2 (zlen (snd fp)) ++ snd fp)) more
  | OOther rc d => [(rc, d)]
  end.
Definition opart_ok (p : opart) : Prop := match p with ONote row col first more => old_note_ok row col first more | OOther rc _ => rc <> 0x1C end.
Definition old_notes_of (decode : list Z -> result (list Z)) (ps : list opart) (r k : Z) : option note :=
  fold_left (fun acc p =>
    match p with
    | ONote row col first more =>
        if (r =? row) && (k =? col)
        then match decode (first ++ List.concat (map snd more)) with Ok t => Some (mk_note r k t [(0, 0)] 0 0 0 [] None) | Err _ => acc end
        else acc
    | OOther _ _ => acc
    end) ps None.

(** ** Proofs *)

Lemma own_cons : forall rc len d rs, rc <> 0x0A -> opens_stream rc = false -> own_records false ((rc, len, d) :: rs) = (rc, len, d) :: own_records false rs.
Proof. intros rc len d rs N1 N2. cbn [own_records]. replace (rc =? 0x0A) with false by lia. rewrite N2. reflexivity. Qed.

Lemma continue_own : forall len d rs, own_records false ((XL_CONTINUE, len, d) :: rs) = (XL_CONTINUE, len, d) :: own_records false rs.
Proof. reflexivity. Qed.

(** The CONTINUE records of a text are those that follow it in the sheet itself. *)
Lemma txo_text_own : forall ps rs cch tot acc X a rs', Forall frag_ok ps -> cch = tot + sumz (map frag_units ps) ->
  own_records false rs = map rec_of (map (fun p => (XL_CONTINUE, frag_bytes p)) ps) ++ X ->
  txo_text rs cch tot acc = Ok (a, rs') -> a = acc ++ List.concat (map fg_text ps) /\ own_records false rs' = X.
Proof.
  induction ps as [|p ps IH]; intros rs cch tot acc X a rs' HF Hc E H.
  - rewrite txo_text_eq in H. cbn in Hc. replace (tot <? cch) with false in H by lia. injection H as <- <-. cbn [map app List.concat] in *. rewrite app_nil_r. auto.
  - inversion HF as [|? ? Hp HF']; subst cch. subst. pose proof (txo_text_reads [p] (tl rs) (tot + sumz (map frag_units [p])) tot acc) as R1. clear R1.
    assert (U : 0 < frag_units p) by (apply units_pos; apply Hp).
    assert (SP : 0 <= sumz (map frag_units ps)).
    { apply sumz_nonneg. apply Forall_forall. intros x Hx. apply in_map_iff in Hx as (q & <- & _). apply zlen_nonneg. }
    pose proof H as H0. rewrite txo_text_eq in H. cbn [map sumz fold_right] in H. fold (sumz (map frag_units ps)) in H.
    replace (tot <? tot + (frag_units p + sumz (map frag_units ps))) with true in H by lia.
    destruct rs as [|[[rc len] d] rs]; [discriminate|]. apply bind_ok in H as (? & G & H).
    destruct (Z.eqb_spec rc XL_CONTINUE) as [->|]; [|discriminate G]. rewrite continue_own in E. cbn [map app] in E. unfold rec_of at 1 in E. cbn [fst snd] in E.
    injection E as -> -> E. clear H G.
    destruct (frag_reads p Hp) as [EF L].
    rewrite txo_text_eq in H0. cbn [map sumz fold_right] in H0. fold (sumz (map frag_units ps)) in H0.
    replace (tot <? tot + (frag_units p + sumz (map frag_units ps))) with true in H0 by lia.
    rewrite Z.eqb_refl in H0. cbn [guard bind] in H0.
    assert (py_index (frag_bytes p) 0 = Ok (if fg_wide p then 1 else 0)) as I0 by (unfold frag_bytes; destruct (fg_wide p); reflexivity).
    rewrite I0 in H0. cbn [bind] in H0. rewrite L in H0.
    assert ((if negb ((if fg_wide p then 1 else 0) =? 0)
             then do _ <- guard ((if fg_wide p then 2 * frag_units p else frag_units p) mod 2 =? 0) AssertionError;
                  Ok ((if fg_wide p then 2 * frag_units p else frag_units p) / 2)
             else Ok (if fg_wide p then 2 * frag_units p else frag_units p)) = Ok (frag_units p)) as I1.
    { destruct (fg_wide p); [|reflexivity]. change (negb (1 =? 0)) with true. cbv iota.
      replace ((2 * frag_units p) mod 2 =? 0) with true by lia. cbn [guard bind]. f_equal. lia. }
    rewrite I1 in H0. cbn [bind] in H0. rewrite EF in H0. cbn [bind] in H0. rewrite Z.eqb_refl in H0. cbn [guard bind] in H0.
    apply (IH _ _ _ _ X) in H0; [|assumption|lia|exact E]. destruct H0 as [-> O]. split; [|exact O]. cbn [map List.concat]. rewrite app_assoc. reflexivity.
Qed.

Lemma txo_runs_own : forall gs rs cb tot acc X a rs', Forall (fun g => g <> [] /\ Forall run_ok g) gs -> cb = tot + 8 * zlen (List.concat gs) ->
  own_records false rs = map rec_of (map (fun g => (XL_CONTINUE, flat_map run_bytes g)) gs) ++ X ->
  txo_runs rs cb tot acc = Ok (a, rs') -> a = acc ++ map pair_of (List.concat gs) /\ own_records false rs' = X.
Proof.
  induction gs as [|g gs IH]; intros rs cb tot acc X a rs' HF Hc E H.
  - rewrite txo_runs_eq in H. replace (tot <? cb) with false in H by (subst; unfold zlen; cbn; lia). injection H as <- <-. cbn [map app List.concat] in *. rewrite app_nil_r. auto.
  - inversion HF as [|? ? [Hn Hg] HF']; subst cb. subst. cbn [List.concat] in H. rewrite zlen_app in H. pose proof (zlen_nonneg (List.concat gs)).
    assert (0 < zlen g) as Hl by (destruct g; [contradiction|rewrite zlen_cons; pose proof (zlen_nonneg g); lia]).
    rewrite txo_runs_eq in H. replace (tot <? tot + 8 * (zlen g + zlen (List.concat gs))) with true in H by lia.
    destruct rs as [|[[rc len] d] rs]; [discriminate|]. apply bind_ok in H as (? & G & H).
    destruct (Z.eqb_spec rc XL_CONTINUE) as [->|]; [|discriminate G]. rewrite continue_own in E. cbn [map app] in E. unfold rec_of at 1 in E. cbn [fst snd] in E.
    injection E as -> -> E. clear G. rewrite runs_len in H by exact Hg.
    replace (8 * zlen g mod 8 =? 0) with true in H by lia. cbn [guard bind] in H.
    replace (8 * zlen g / 8) with (zlen g) in H by lia. replace (Z.to_nat (zlen g)) with (List.length g) in H by (unfold zlen; lia).
    rewrite (runs_loop_reads g _ 0 []) in H by (try exact Hg; rewrite app_nil_r; apply At_0). cbn [bind] in H.
    apply (IH _ _ _ _ X) in H; [|assumption|lia|exact E]. destruct H as [-> O]. split; [|exact O]. cbn [List.concat]. rewrite map_app, app_assoc. reflexivity.
Qed.

Lemma txo_own : forall bv t rs X a rs', 80 <= bv -> tbox_ok t -> own_records false rs = map rec_of (tbox_continues t) ++ X ->
  handle_txo bv (tbox_data t) rs = Ok (a, rs') -> a = Some (tb_text t, tb_shown_runs t) /\ own_records false rs' = X.
Proof.
  intros bv t rs X a rs' HV (H1 & H2 & H3 & H4 & H5 & H6) E H. unfold handle_txo in H. replace (bv <? 80) with false in H by lia.
  assert (At (tbox_data t) 0 (tbox_data t)) as A0 by apply At_0. unfold tbox_data in A0 at 2.
  pose proof (At_skip _ _ _ _ 10 A0 ltac:(lia)) as A1. pose proof (At_skip _ _ _ _ 12 A1 ltac:(rewrite zlen_le_enc; lia)) as A2.
  apply bind_ok in H as (u & _ & H). clear u. unfold u16v in *. rewrite (At_u16 _ _ _ _ A1), (At_u16 _ _ _ _ A2) in H by lia. cbn [bind] in H.
  unfold tbox_continues in E. rewrite map_app, <- app_assoc in E. apply bind_ok in H as ([tx r1] & T & H).
  apply (txo_text_own (tb_frags t) _ _ _ _ _ _ _ H2) with (2 := E) in T; [|unfold tb_units; lia]. destruct T as [-> O1].
  apply bind_ok in H as ([ru r2] & R & H). apply (txo_runs_own (tb_runs t) _ _ _ _ _ _ _ H3) with (2 := O1) in R; [|unfold tb_run_bytes; lia].
  destruct R as [-> O2]. injection H as <- <-. cbn [app]. rewrite drop_ends_strip. split; [reflexivity|exact O2].
Qed.

Lemma antique_reads : forall bv d x, 80 <= bv -> 4 <= zlen d -> u16_at d 0 <> 0x15 \/ u16_at d 2 <> 18 -> handle_obj bv d = Ok x -> x = None.
Proof.
  intros bv d x V L H E. unfold handle_obj in E. replace (bv <? 80) with false in E by lia. cbn [obj_loop] in E.
  replace (0 <? zlen d) with true in E by lia. apply bind_ok in E as (o & S & E). unfold obj_step in S.
  apply bind_ok in S as (? & _ & S). apply bind_ok in S as (ft & F & S). apply bind_ok in S as (cb & C & S).
  apply unpack_u16_at in F, C. subst ft cb. change (0 =? 0) with true in S. cbn [andb] in S.
  replace ((u16_at d 0 =? 0x15) && (u16_at d (0 + 2) =? 18)) with false in S by (change (0 + 2) with 2; lia).
  injection S as <-. injection E as <-. reflexivity.
Qed.

(** Records that are parts of others are no objects, texts or notes. *)
Lemma peel : forall used X ps w, Forall part_ok ps -> Forall (fun r : record => part_code false (fst (fst r)) = true) used ->
  map rec_of (flat_map part_recs ps) = used ++ X -> exists ps', X = map rec_of (flat_map part_recs ps') /\ Forall part_ok ps' /\ fold_left see ps w = fold_left see ps' w.
Proof.
  induction used as [|[[rc len] d] used IH]; intros X ps w OK F E; [exists ps; auto|].
  inversion F as [|? ? P F']; subst. cbn [fst] in P.
  destruct ps as [|p ps]; [discriminate|]. inversion OK as [|? ? O OK']; subst.
  assert (NC : rc <> 0x5D /\ rc <> 0x1B6 /\ rc <> 0x1C).
  { repeat split; intros ->; discriminate P. }
  destruct p as [s|d0|t|n|rc0 d0]; cbn [flat_map part_recs map app] in E; unfold rec_of at 1 in E; cbn [fst snd] in E; injection E as E1 E2 E3 E4; try lia.
  destruct (IH _ _ w OK' F' E4) as (ps' & K1 & K2 & K3). exists ps'. auto.
Qed.

Lemma own_used : forall note used rs, Forall (fun r : record => part_code note (fst (fst r)) = true) used -> own_records false (used ++ rs) = used ++ own_records false rs.
Proof.
  intros note. induction used as [|[[rc len] d] used IH]; intros rs H; [reflexivity|]. inversion H as [|? ? P H']; subst. cbn [fst] in P.
  destruct (part_not_special _ _ P) as (P1 & P2 & P3). cbn [app]. rewrite own_cons by assumption. rewrite IH by exact H'. reflexivity.
Qed.

Section Sheet.
Context {N : Type} (c : config N).

(** The sheet holds what has been seen. *)
Record holds (sh : sheet N) (w : seen) : Prop := {
  h_object : match o_saved (sh_obj sh) with Some x => x | None => None end = s_object w;
  h_nonzero : s_object w <> Some 0;
  h_texts : forall id, dget Z.eqb (o_txos (sh_obj sh)) id = s_texts w id;
  h_notes : forall r k, dget pair_eqb (o_notes (sh_obj sh)) (r, k) = s_notes w r k }.

Lemma holds_same : forall (sh sh' : sheet N) w, holds sh w -> o_saved (sh_obj sh') = o_saved (sh_obj sh) -> o_txos (sh_obj sh') = o_txos (sh_obj sh) ->
  o_notes (sh_obj sh') = o_notes (sh_obj sh) -> holds sh' w.
Proof. intros sh sh' w [H1 H2 H3 H4] E1 E2 E3. split; rewrite ?E1, ?E2, ?E3; assumption. Qed.

Lemma ran_notes : 80 <= c_bv c -> forall sh rs tr sh' len d rest, ran c sh rs tr sh' ((XL_EOF, len, d) :: rest) ->
  forall ps w, Forall part_ok ps -> own_records false rs = map rec_of (flat_map part_recs ps) -> holds sh w -> holds sh' (fold_left see ps w).
Proof.
  intros V sh rs tr sh' len d rest H. remember ((XL_EOF, len, d) :: rest) as e eqn:EE.
  induction H as [|sh rc ln dd rs sh1 rs1 tr sh2 rs2 E S H IH]; intros ps w OK EO HW.
  - subst. destruct ps as [|[s|d0|t|n|rc0 d0] ps]; [exact HW|discriminate EO..].
  - specialize (IH EE). change XL_EOF with 0x0A in E. pose proof (step_alone c _ _ _ _ _ _ _ S) as LA.
    destruct (opens_stream rc) eqn:HB.
    { assert (NC : rc <> XL_OBJ /\ rc <> XL_TXO /\ rc <> XL_NOTE) by (repeat split; intros ->; discriminate HB). destruct NC as (N1 & N2 & N3).
      apply (IH ps w OK).
      - cbn [own_records] in EO. replace (rc =? 0x0A) with false in EO by lia. rewrite HB in EO. rewrite <- EO. symmetry.
        apply own_embedded. exact (step_embedded c _ _ _ _ _ _ _ HB S).
      - apply (holds_same sh); [exact HW|exact (la_saved _ _ _ LA N1 N2)|exact (la_txos _ _ _ LA N2)|exact (la_notes _ _ _ LA N3)]. }
    rewrite own_cons in EO by assumption.
    destruct ps as [|p ps]; [discriminate|]. inversion OK as [|? ? O OK']; subst. cbn [fold_left].
    destruct p as [s|d0|t|n|rc0 d0]; cbn [flat_map part_recs map app part_ok] in EO, O; unfold rec_of at 1 in EO; cbn [fst snd] in EO; injection EO as -> -> -> EO.
    + change (step c sh 0x5D (zlen (shape_data s)) (shape_data s) rs) with (plain (h_obj c sh (shape_data s)) rs) in S.
      unfold plain, h_obj in S. rewrite shape_reads in S by assumption. injection S as <- <-.
      apply (IH ps _ OK' EO). destruct HW as [H1 H2 H3 H4]. split; cbn; auto. destruct O as (_ & O & _). intros [= K]. lia.
    + change (step c sh 0x5D (zlen d0) d0 rs) with (plain (h_obj c sh d0) rs) in S.
      unfold plain, h_obj in S. apply bind_ok in S as (s1 & S & E1). injection E1 as <- <-. apply bind_ok in S as (x & HO & S).
      apply antique_reads in HO; [|exact V|apply O|apply O]. subst x. injection S as <-.
      apply (IH ps _ OK' EO). destruct HW as [H1 H2 H3 H4]. split; cbn; auto. discriminate.
    + change (step c sh 0x1B6 (zlen (tbox_data t)) (tbox_data t) rs) with (h_txo c sh (tbox_data t) rs) in S.
      unfold h_txo in S. apply bind_ok in S as ([x r1] & HT & S). rewrite map_app in EO.
      apply (txo_own _ t _ _ _ _ V O EO) in HT as [-> EO1]. cbv zeta in S. cbn [see].
      destruct HW as [H1 H2 H3 H4]. destruct (o_saved (sh_obj sh)) as [[id|]|] eqn:ES; [| |discriminate S].
      * rewrite <- H1. destruct (Z.eqb_spec id 0) as [->|Hid]; [congruence|]. injection S as <- <-. apply (IH ps _ OK' EO1).
        split; cbn [with_obj sh_obj o_saved o_txos o_notes s_object s_texts s_notes]; auto; [discriminate|].
        intros i. cbn [dset dget]. destruct (i =? id); [reflexivity|apply H3].
      * rewrite <- H1. injection S as <- <-. apply (IH ps _ OK' EO1). split; auto. rewrite ES. exact H1.
    + change (step c sh 0x1C (zlen (comment_data n)) (comment_data n) rs) with (h_note c sh (comment_data n) rs) in S.
      unfold h_note in S. rewrite comment_reads in S by assumption. cbn [bind] in S. injection S as <- <-.
      apply (IH ps _ OK' EO). cbn [see]. destruct HW as [H1 H2 H3 H4]. rewrite <- H3.
      destruct (dget Z.eqb (o_txos (sh_obj sh)) (cm_id n)) as [[text runs]|]; split; cbn [with_obj sh_obj o_saved o_txos o_notes s_object s_texts s_notes]; auto.
      intros r k. cbn [dset dget]. unfold pair_eqb at 1. cbn [fst snd]. destruct ((r =? cm_row n) && (k =? cm_col n)) eqn:E2; [|apply H4].
      do 2 f_equal; lia.
    + destruct O as (N1 & N2 & N3). destruct (step_takes c _ _ _ _ _ _ _ HB S) as (u & -> & U).
      replace (rc0 =? XL_NOTE) with false in U by (change XL_NOTE with 0x1C; lia). rewrite (own_used _ _ _ U) in EO.
      destruct (peel _ _ ps (see w (POther rc0 d0)) OK' U (eq_sym EO)) as (ps' & K1 & K2 & K3). rewrite K3. apply (IH ps' _ K2 K1). cbn [see].
      apply (holds_same sh); [exact HW|exact (la_saved _ _ _ LA N1 N2)|exact (la_txos _ _ _ LA N2)|exact (la_notes _ _ _ LA N3)].
Qed.

(** The notes of a BIFF8 sheet. *)
Theorem c96_sheet : forall countries rs sh ps, 80 <= c_bv c -> sheet_read c countries rs = Ok sh ->
  Forall part_ok ps -> own_records false rs = map rec_of (flat_map part_recs ps) ->
  forall r k, dget pair_eqb (o_notes (sh_obj sh)) (r, k) = notes_of ps r k.
Proof.
  intros countries rs sh ps V H OK EO. unfold sheet_read in H. apply bind_ok in H as (sh1 & R & H). apply bind_ok in H as (g & _ & H). injection H as <-.
  fold (read_all c (sheet0 countries) rs) in R. destruct (read_ran c _ _ _ R) as (tr & len' & d' & rest' & HR).
  assert (H0 : holds (sheet0 countries) nothing) by (split; cbn; auto; discriminate).
  exact (h_notes _ _ (ran_notes V _ _ _ _ _ _ _ HR ps nothing OK EO H0)).
Qed.

(** Before BIFF8. *)
Definition old_seen (decode : list Z -> result (list Z)) (ps : list opart) (r k : Z) (acc : option note) : option note :=
  fold_left (fun acc p =>
    match p with
    | ONote row col first more =>
        if (r =? row) && (k =? col)
        then match decode (first ++ List.concat (map snd more)) with Ok t => Some (mk_note r k t [(0, 0)] 0 0 0 [] None) | Err _ => acc end
        else acc
    | OOther _ _ => acc
    end) ps acc.

Lemma note_own : forall len d rs, own_records false ((XL_NOTE, len, d) :: rs) = (XL_NOTE, len, d) :: own_records false rs.
Proof. reflexivity. Qed.

Lemma note_pieces_own : forall more rs acc X a rs', Forall (fun fp : list Z * list Z => zlen (fst fp) = 2 /\ snd fp <> []) more ->
  zlen (List.concat (map snd more)) < 65536 ->
  own_records false rs = map rec_of (map (fun fp => old_piece (fst fp) (snd fp)) more) ++ X ->
  note_pieces rs (zlen (List.concat (map snd more))) acc = Ok (a, rs') ->
  a = acc ++ List.concat (map snd more) /\ own_records false rs' = X.
Proof.
  induction more as [|[f p] more IH]; intros rs acc X a rs' F L E H.
  - cbn [map List.concat] in *. destruct rs; cbn in H; injection H as <- <-; rewrite app_nil_r; auto.
  - inversion F as [|? ? [F1 F2] F3]; subst. cbn [fst snd] in F1, F2. cbn [map List.concat snd] in L, H |- *. rewrite zlen_app in L, H.
    pose proof (zlen_nonneg (List.concat (map snd more))). assert (0 < zlen p) as HP by (destruct p; [congruence|rewrite zlen_cons; pose proof (zlen_nonneg p); lia]).
    destruct rs as [|[[rc len] d] rs]; cbn [note_pieces] in H; replace (0 <? zlen p + zlen (List.concat (map snd more))) with true in H by lia; [discriminate|].
    apply bind_ok in H as (? & G & H). destruct (Z.eqb_spec rc XL_NOTE) as [->|]; [|discriminate G]. rewrite note_own in E.
    cbn [map app fst snd] in E. unfold old_piece at 1, rec_of at 1 in E. cbn [fst snd] in E.
    set (d0 := le_enc 2 65535 ++ f ++ le_enc 2 (zlen p) ++ p) in *.
    match type of E with _ = _ :: ?Y => assert (K : d = d0 /\ len = zlen d0 /\ own_records false rs = Y) by (split; [congruence|split; congruence]) end.
    clear E. destruct K as (-> & -> & E). rename d0 into d.
    assert (At d 0 (le_enc 2 65535 ++ f ++ le_enc 2 (zlen p) ++ p)) as A0 by apply At_0.
    assert (At d 4 (le_enc 2 (zlen p) ++ p)) as A4.
    { eapply At_skip; [eapply At_skip; [exact A0|reflexivity]|]. rewrite F1. reflexivity. }
    assert (At d 6 p) as A6 by (eapply At_skip; [exact A4|reflexivity]).
    pose proof (At_len _ _ _ A6) as LD.
    apply bind_ok in H as (? & _ & H). rewrite (At_u16 _ _ _ _ A0) in H by lia. cbn [bind] in H. rewrite (At_u16 _ _ _ _ A4) in H by lia. cbn [bind] in H.
    change (65535 =? 65535) with true in H. cbn [guard bind] in H. replace (zlen p =? zlen d - 6) with true in H by lia. cbn [guard bind] in H.
    rewrite (At_from _ _ _ A6) in H. replace (zlen p + zlen (List.concat (map snd more)) - zlen p) with (zlen (List.concat (map snd more))) in H by lia.
    apply (IH _ _ X) in H; [|assumption|lia|exact E]. destruct H as [-> O]. rewrite app_assoc. auto.
Qed.

Lemma old_note_own : forall decode bv txos m row col first more rs X m' rs', bv < 80 -> old_note_ok row col first more ->
  own_records false rs = map rec_of (map (fun fp => old_piece (fst fp) (snd fp)) more) ++ X ->
  handle_note decode bv txos m (le_enc 2 row ++ le_enc 2 col ++ le_enc 2 (zlen first + zlen (List.concat (map snd more))) ++ first) rs = Ok (m', rs') ->
  own_records false rs' = X /\ exists t, decode (first ++ List.concat (map snd more)) = Ok t /\ m' = dset m (row, col) (mk_note row col t [(0, 0)] 0 0 0 [] None).
Proof.
  intros decode bv txos m row col first more rs X m' rs' BV (R & C & T & F) E H.
  set (tot := zlen first + zlen (List.concat (map snd more))) in *.
  set (d := le_enc 2 row ++ le_enc 2 col ++ le_enc 2 tot ++ first) in *.
  assert (At d 0 (le_enc 2 row ++ le_enc 2 col ++ le_enc 2 tot ++ first)) as A0 by apply At_0.
  assert (At d 2 (le_enc 2 col ++ le_enc 2 tot ++ first)) as A2 by (eapply At_skip; [exact A0|reflexivity]).
  assert (At d 4 (le_enc 2 tot ++ first)) as A4 by (eapply At_skip; [exact A2|reflexivity]).
  assert (At d 6 first) as A6 by (eapply At_skip; [exact A4|reflexivity]).
  pose proof (At_len _ _ _ A6) as LD. unfold handle_note in H. replace (bv <? 80) with true in H by lia. pose proof (zlen_nonneg first). pose proof (zlen_nonneg (List.concat (map snd more))). unfold u16v in *.
  apply bind_ok in H as (? & _ & H).
  rewrite (At_u16 _ _ _ _ A0) in H by lia. cbn [bind] in H. rewrite (At_u16 _ _ _ _ A2) in H by lia. cbn [bind] in H.
  rewrite (At_u16 _ _ _ _ A4) in H by lia. cbn [bind] in H. cbv zeta in H. apply bind_ok in H as (? & _ & H).
  rewrite (At_from _ _ _ A6) in H. replace (tot - (zlen d - 6)) with (zlen (List.concat (map snd more))) in H by lia.
  apply bind_ok in H as ([raw r1] & P & H). apply (note_pieces_own more _ _ X) in P; [|exact F|lia|exact E]. destruct P as [-> O].
  apply bind_ok in H as (t & D & H). injection H as <- <-. split; [exact O|]. exists t. auto.
Qed.

Lemma old_peel : forall used X ps r k acc, Forall opart_ok ps -> Forall (fun r : record => part_code false (fst (fst r)) = true) used ->
  map rec_of (flat_map opart_recs ps) = used ++ X ->
  exists ps', X = map rec_of (flat_map opart_recs ps') /\ Forall opart_ok ps' /\ old_seen (c_decode c) ps r k acc = old_seen (c_decode c) ps' r k acc.
Proof.
  induction used as [|[[rc len] d] used IH]; intros X ps r k acc OK F E; [exists ps; auto|].
  inversion F as [|? ? P F']; subst. cbn [fst] in P.
  destruct ps as [|p ps]; [discriminate|]. inversion OK as [|? ? O OK']; subst.
  assert (NC : rc <> 0x1C) by (intros ->; discriminate P).
  destruct p as [row col first more|rc0 d0]; cbn [flat_map opart_recs map app] in E; unfold rec_of at 1 in E; cbn [fst snd] in E; injection E as E1 E2 E3 E4; try lia.
  destruct (IH _ _ r k acc OK' F' E4) as (ps' & K1 & K2 & K3). exists ps'. auto.
Qed.

Lemma old_ran_notes : c_bv c < 80 -> forall r k sh rs tr sh' len d rest, ran c sh rs tr sh' ((XL_EOF, len, d) :: rest) ->
  forall ps, Forall opart_ok ps -> own_records false rs = map rec_of (flat_map opart_recs ps) ->
  dget pair_eqb (o_notes (sh_obj sh')) (r, k) = old_seen (c_decode c) ps r k (dget pair_eqb (o_notes (sh_obj sh)) (r, k)).
Proof.
  intros V r k sh rs tr sh' len d rest H. remember ((XL_EOF, len, d) :: rest) as e eqn:EE.
  induction H as [|sh rc ln dd rs sh1 rs1 tr sh2 rs2 E S H IH]; intros ps OK EO.
  - subst. destruct ps as [|[row col first more|rc0 d0] ps]; [reflexivity|discriminate EO..].
  - specialize (IH EE). change XL_EOF with 0x0A in E. pose proof (step_alone c _ _ _ _ _ _ _ S) as LA.
    destruct (opens_stream rc) eqn:HB.
    { assert (N3 : rc <> XL_NOTE) by (intros ->; discriminate HB). rewrite <- (la_notes _ _ _ LA N3). apply (IH ps OK).
      cbn [own_records] in EO. replace (rc =? 0x0A) with false in EO by lia. rewrite HB in EO. rewrite <- EO. symmetry.
      apply own_embedded. exact (step_embedded c _ _ _ _ _ _ _ HB S). }
    rewrite own_cons in EO by assumption.
    destruct ps as [|p ps]; [discriminate|]. inversion OK as [|? ? O OK']; subst.
    destruct p as [row col first more|rc0 d0]; cbn [flat_map opart_recs map app opart_ok] in EO, O; unfold rec_of at 1 in EO; cbn [fst snd] in EO; injection EO as -> -> -> EO.
    + match type of S with step c sh 0x1C ?l ?d rs = _ => change (step c sh 0x1C l d rs) with (h_note c sh d rs) in S end.
      unfold h_note in S. apply bind_ok in S as ([m' r1] & HN & S). injection S as <- <-. rewrite map_app in EO.
      apply (old_note_own _ _ _ _ _ _ _ _ _ _ _ _ V O EO) in HN as (EO1 & t & D & ->).
      rewrite (IH ps OK' EO1). cbn [with_obj sh_obj o_notes dset dget]. unfold old_seen. cbn [fold_left]. rewrite D. f_equal.
      unfold pair_eqb at 1. cbn [fst snd]. destruct ((r =? row) && (k =? col)) eqn:E2; [|reflexivity]. do 2 f_equal; lia.
    + destruct (step_takes c _ _ _ _ _ _ _ HB S) as (u & -> & U).
      replace (rc0 =? XL_NOTE) with false in U by (change XL_NOTE with 0x1C; lia). rewrite (own_used _ _ _ U) in EO.
      change (old_seen (c_decode c) (OOther rc0 d0 :: ps) r k (dget pair_eqb (o_notes (sh_obj sh)) (r, k)))
        with (old_seen (c_decode c) ps r k (dget pair_eqb (o_notes (sh_obj sh)) (r, k))).
      rewrite <- (la_notes _ _ _ LA O).
      destruct (old_peel _ _ ps r k (dget pair_eqb (o_notes (sh_obj sh1)) (r, k)) OK' U (eq_sym EO)) as (ps' & K1 & K2 & K3). rewrite K3. apply (IH ps' K2 K1).
Qed.

Theorem c96_old_sheet : forall countries rs sh ps, c_bv c < 80 -> sheet_read c countries rs = Ok sh ->
  Forall opart_ok ps -> own_records false rs = map rec_of (flat_map opart_recs ps) ->
  forall r k, dget pair_eqb (o_notes (sh_obj sh)) (r, k) = old_notes_of (c_decode c) ps r k.
Proof.
  intros countries rs sh ps V H OK EO r k. unfold sheet_read in H. apply bind_ok in H as (sh1 & R & H). apply bind_ok in H as (g & _ & H). injection H as <-.
  fold (read_all c (sheet0 countries) rs) in R. destruct (read_ran c _ _ _ R) as (tr & len' & d' & rest' & HR).
  exact (old_ran_notes V r k _ _ _ _ _ _ _ HR ps OK EO).
Qed.
End Sheet.
Print Assumptions c96_sheet.
Print Assumptions c96_old_sheet.

Section Opened.
Context {N : Type}.
Variable codec : list Z -> list Z -> result (list Z).
Variable ops : numops N.
Variable lower : list Z -> list Z.
Variable num8 : list Z -> N.
Variable rk : list Z -> result N.
Variable ragged : bool.
Notation loaded := (loaded (N := N)).
Notation api := (api (N := N)).
Notation book := (book N loaded).
Variable old : book -> list Z -> Z -> list Z -> Z -> result (shared * loaded).
Notation perform := (perform codec num8 rk ragged old).
Notation history := (history codec num8 rk ragged old).
Notation open_stream := (open_stream codec ops lower num8 rk ragged old).
Notation described := (described codec num8 rk ragged).

Lemma own_stream : forall mem pos recs version p, bytes mem -> 0 <= pos -> sheet_at mem pos recs -> getbof mem pos 0x10 = Ok (version, p) ->
  own_records false (stream mem p) = own_records false (map rec_of recs).
Proof using.
  clear. intros mem pos recs version p B P SA GB. destruct (sheet_records mem pos _ _ _ B P SA GB) as (pre & t & EM & EP & FR). destruct SA as (_ & _ & _ & _ & _ & _ & _ & _ & _ & CL).
  assert (FR2 : Forall framable (recs ++ [(XL_EOF, [])])).
  { apply Forall_app; split; [exact FR|constructor; [split; [cbn [fst]; unfold XL_EOF; lia|reflexivity]|constructor]]. }
  rewrite EM in B. rewrite EM, <- EP, stream_frames by assumption. rewrite map_app, <- app_assoc. apply own_closed. exact CL.
Qed.

(** The notes of the worksheets of an opened workbook, BIFF8. *)
Theorem c96_workbook : forall fuel mem base bv rs override fmt on_demand a es h i j k e sh recs ps,
  bytes mem -> 0 <= base -> workbook mem base bv rs -> 80 <= bv -> lists codec bv override None rs es ->
  open_stream fuel mem base override fmt on_demand = Ok a ->
  let a' := snd (history a h) in let ws := filter worksheet es in
  i = j \/ i = j - zlen ws -> znth ws j = Some e -> 0 <= e_posn e ->
  fst (perform k a' (SheetByIndex i)) = Ok (Got sh) ->
  sheet_at mem (e_posn e + base) recs ->
  Forall part_ok ps -> own_records false (map rec_of recs) = map rec_of (flat_map part_recs ps) ->
  forall row col, dget pair_eqb (o_notes (sh_obj (ls_sheet sh))) (row, col) = notes_of ps row col.
Proof.
  intros fuel mem base bv rs ov fmt od a es h i j k e sh recs ps B PB W V L H a' ws IJ E PE Q SA OK EO.
  assert (V5 : 50 <= bv) by lia.
  destruct (by_index codec ops lower num8 rk ragged old _ _ _ _ _ _ _ _ _ _ h _ _ k _ _ W V5 L H IJ E Q) as (b0 & version & pos & countries & s & O & GB & SR & N1 & N2 & SX).
  destruct (opened_options codec ops lower num8 rk ragged old _ _ _ _ _ _ _ _ _ W V5 O) as [BV BF].
  assert (P0 : 0 <= e_posn e + base) by lia. pose proof (own_stream _ _ _ _ _ B P0 SA GB) as EQ. rewrite EO in EQ.
  assert (S3 : sh_obj (ls_sheet sh) = sh_obj s) by exact (f_equal sh_obj SX). rewrite S3.
  apply (c96_sheet (config_of codec num8 rk ragged b0) countries (stream mem pos) s ps); [cbn [config_of c_bv]; lia|exact SR|exact OK|exact EQ].
Qed.

(** Before BIFF8, with the texts decoded as the workbook says. *)
Theorem c96_old_workbook : forall fuel mem base bv rs override fmt on_demand a es h i j k e sh recs ps c,
  bytes mem -> 0 <= base -> workbook mem base bv rs -> 50 <= bv < 80 -> lists codec bv override None rs es ->
  described bv override fmt rs c ->
  open_stream fuel mem base override fmt on_demand = Ok a ->
  let a' := snd (history a h) in let ws := filter worksheet es in
  i = j \/ i = j - zlen ws -> znth ws j = Some e -> 0 <= e_posn e ->
  fst (perform k a' (SheetByIndex i)) = Ok (Got sh) ->
  sheet_at mem (e_posn e + base) recs ->
  Forall opart_ok ps -> own_records false (map rec_of recs) = map rec_of (flat_map opart_recs ps) ->
  forall row col, dget pair_eqb (o_notes (sh_obj (ls_sheet sh))) (row, col) = old_notes_of (c_decode c) ps row col.
Proof.
  intros fuel mem base bv rs ov fmt od a es h i j k e sh recs ps c B PB W V L D H a' ws IJ E PE Q SA OK EO row col.
  assert (V5 : 50 <= bv) by lia.
  destruct (by_index codec ops lower num8 rk ragged old _ _ _ _ _ _ _ _ _ _ h _ _ k _ _ W V5 L H IJ E Q) as (b0 & version & pos & countries & s & O & GB & SR & N1 & N2 & SX).
  destruct (opened_options codec ops lower num8 rk ragged old _ _ _ _ _ _ _ _ _ W V5 O) as [BV BF].
  destruct (opened_config codec ops lower num8 rk ragged old _ _ _ _ _ _ _ _ _ _ W V5 D O) as [C _].
  assert (P0 : 0 <= e_posn e + base) by lia. pose proof (own_stream _ _ _ _ _ B P0 SA GB) as EQ. rewrite EO in EQ.
  assert (S3 : sh_obj (ls_sheet sh) = sh_obj s) by exact (f_equal sh_obj SX). rewrite S3.
  rewrite (c96_old_sheet (config_of codec num8 rk ragged b0) countries (stream mem pos) s ps); [|cbn [config_of c_bv]; lia|exact SR|exact OK|exact EQ].
  assert (DE : forall b, c_decode (config_of codec num8 rk ragged b0) b = c_decode c b) by (apply (v_text _ _ C); rewrite (d_bv _ _ _ _ _ _ _ _ _ D); lia).
  unfold old_notes_of. generalize (@None note). induction ps as [|p ps IH]; intros acc; [reflexivity|]. clear IH. revert acc. clear - DE.
  induction (p :: ps) as [|q l IH]; intros acc; [reflexivity|]. cbn [fold_left]. rewrite IH. f_equal. destruct q; [rewrite DE|]; reflexivity.
Qed.
End Opened.
Print Assumptions c96_workbook.
Print Assumptions c96_old_workbook.

(** The hypotheses hold of a workbook whose sheet has a picture, a text box, a formula
    with a text, an embedded chart with a note of its own, and two notes. *)
Module Noted.
Definition records : list (Z * list Z) :=
  [Small.xf 0; (0x85, fixed_part (mk_entry 53 1 0 (s2l "S")) ++ us_field 1 (Small.plain (s2l "S")) ++ [])].
Definition picture : shape := mk_shape 8 6 0x4011 (repeat 0 12) [] 0.
Definition box : shape := mk_shape 0x19 7 0x4011 (repeat 0 12) [(0x0D, repeat 1 22)] 4.
Definition words : tbox := mk_tbox (repeat 0 10) [mk_frag false [72; 105]; mk_frag true [33]] [[(0, 5, repeat 0 4)]] [0; 0].
Definition comment (r k id : Z) : comment := mk_comment r k 2 id (Build_ustring [74; 111] false 0 None None) [0].
Definition formula : Z * list Z := (6, [2; 0; 1; 0; 0; 0; 0; 0; 0; 0; 0; 0; 255; 255; 0; 0; 0; 0; 0; 0; 0; 0]).
Definition text : Z * list Z := (0x207, [2; 0; 0; 72; 105]).
Definition parts : list part :=
  [PObject picture; POther 0xEC [1; 2]; PObject box; POther 0xEC [1]; POther (fst formula) (snd formula); POther (fst text) (snd text); PText words;
   PNote (comment 3 1 7); PNote (comment 4 1 6)].
Definition chart : list (Z * list Z) := [Small.bof 0x20; (0x1C, comment_data (comment 5 5 7)); (0x0A, [])].
Definition sheet : list (Z * list Z) := flat_map part_recs (firstn 3 parts) ++ chart ++ flat_map part_recs (skipn 3 parts) ++ chart.
Definition file : list Z := frame (Small.bof 5) ++ frames records ++ frame (0x0a, []) ++ frame (Small.bof 0x10) ++ frames (sheet ++ [(0x0A, [])]).
End Noted.

Example c96_example :
  let codec := fun _ b => Ok b in let rk := fun b => Ok (le_val b) in
  bytes Noted.file /\ workbook Noted.file 0 80 Noted.records /\
  lists codec 80 None None Noted.records [mk_entry 53 1 0 (s2l "S")] /\ sheet_at Noted.file 53 Noted.sheet /\
  Forall part_ok Noted.parts /\ own_records false (map rec_of Noted.sheet) = map rec_of (flat_map part_recs Noted.parts) /\
  map (fun p : Z * Z => option_map n_text (notes_of Noted.parts (fst p) (snd p))) [(3, 1); (4, 1); (5, 5)] = [Some [72; 105; 33]; None; None] /\
  match open_stream codec int_ops (fun s => s) le_val rk false (fun _ _ _ _ _ => Err XLRDError) 50 Noted.file 0 None true true with
  | Ok a => match fst (perform codec le_val rk false (fun _ _ _ _ _ => Err XLRDError) (0, 0) a (SheetByIndex 0)) with
            | Ok (Got sh) => map (fun n => n_text (snd n)) (o_notes (sh_obj (ls_sheet sh))) = [[72; 105; 33]]
            | _ => False
            end
  | Err _ => False
  end.
Proof.
  cbv zeta.
  assert (U : forall s, forallb (fun c => (0 <=? c) && (c <? 128)) s = true -> us_ok (Small.plain s)).
  { intros s F. rewrite forallb_forall in F. repeat split; auto; [|intros _]; apply Forall_forall; intros x X; specialize (F x X); unfold scalar; lia. }
  split. { apply Forall_forall. assert (F : forallb (fun b => (0 <=? b) && (b <? 256)) Noted.file = true) by (vm_compute; reflexivity).
           rewrite forallb_forall in F. intros b I. specialize (F b I). lia. }
  split. { exists 12, [], (skipn 53 Noted.file). split; [vm_compute; reflexivity|]. split; [apply Forall_forall; intros [rc d] I; vm_compute in I; repeat (destruct I as [I|I]; [injection I as <- <-; split; cbn; lia|]); destruct I|].
           split; [reflexivity|]. split; [exists (firstn 12 Noted.file); split; vm_compute; reflexivity|].
           vm_compute. repeat constructor; discriminate. }
  split. { apply L_other; [lia|lia|]. apply L_sheet; [apply Biff8; [lia|repeat split; cbn; lia|apply U; reflexivity|vm_compute; reflexivity|reflexivity]|].
           apply L_nil. }
  split. { exists 0x0809, [0x00; 0x06; 0x10; 0; 0; 0; 0xcd; 7], 80, []. split; [exists (firstn 53 Noted.file); split; vm_compute; reflexivity|].
           split; [vm_compute; split; discriminate|]. split; [vm_compute; repeat constructor; discriminate|]. split; [reflexivity|].
           split; [apply Forall_forall; intros [rc d] I; vm_compute in I; repeat (destruct I as [I|I]; [injection I as <- <-; split; cbn; lia|]); destruct I|].
           vm_compute. reflexivity. }
  split.
  { assert (T1 : Utf16.text [72; 105] /\ Utf16.text [33] /\ Utf16.text [74; 111]).
    { unfold Utf16.text. repeat split; repeat (apply Forall_cons; [unfold scalar; lia|]); apply Forall_nil. }
    destruct T1 as (T1 & T2 & T3).
    assert (C : forall r k id, 0 <= r < 10 -> 0 <= k < 10 -> 0 <= id < 10 -> comment_ok (Noted.comment r k id)).
    { intros r k id R K I. unfold comment_ok, u16v. cbn [Noted.comment cm_row cm_col cm_flags cm_id cm_author cm_stray].
      split; [repeat constructor; lia|]. split; [unfold us_ok; cbn; repeat split; auto; repeat constructor; lia|]. split; vm_compute; (reflexivity || discriminate). }
    unfold Noted.parts. repeat apply Forall_cons; [..|apply Forall_nil]; cbn [part_ok fst snd Noted.formula Noted.text]; try (repeat split; lia); try (apply C; lia).
    - unfold shape_ok, Noted.picture, u16v. cbn. repeat split; try lia. constructor.
    - unfold shape_ok, Noted.box, u16v. cbn. repeat split; try lia. repeat constructor; unfold u16v; cbn; lia.
    - unfold tbox_ok, Noted.words, u16v. cbn. repeat split; try lia.
      + apply Forall_cons; [|apply Forall_cons; [|apply Forall_nil]].
        * split; [exact T1|]. split; [discriminate|]. intros _. repeat constructor; lia.
        * split; [exact T2|]. split; discriminate.
      + repeat constructor; try discriminate; unfold u16v; cbn; lia. }
  split; [vm_compute; reflexivity|]. split; [vm_compute; reflexivity|]. vm_compute. reflexivity.
Qed.

(** A BIFF5 sheet with a note in two records. *)
Example c96_old_example :
  let c := Small.config in let c5 := mk_config 50 true false [] [] (c_xftype c) (c_decode c) (c_num8 c) (c_rk c) (c_nearest c) in
  let ps := [OOther 0x5D [1; 2]; ONote 3 1 [72; 101] [([0; 0], [108; 108; 111])]; OOther 0x208 (repeat 0 16)] in
  Forall opart_ok ps /\ old_notes_of (c_decode c5) ps 3 1 = Some (mk_note 3 1 [72; 101; 108; 108; 111] [(0, 0)] 0 0 0 [] None) /\
  match sheet_read c5 (0, 0) (map rec_of (flat_map opart_recs ps ++ [(0x0A, [])])) with
  | Ok sh => map (fun n => n_text (snd n)) (o_notes (sh_obj sh)) = [[72; 101; 108; 108; 111]]
  | Err _ => False
  end.
Proof.
  cbv zeta. split; [|split; vm_compute; reflexivity].
  constructor; [cbn; lia|]. constructor; [|constructor; [cbn; lia|constructor]].
  unfold opart_ok, old_note_ok, u16v. cbn. repeat split; try lia. repeat constructor; cbn; try lia; discriminate.
Qed.
