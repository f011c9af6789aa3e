(** Property theorem C34: cell comments (BIFF8). *)
From Verif Require Import Base BaseFacts Utf16 Strings StringFacts Framing PropBytes GridModel GridFacts PropGrid
  SheetObjects SheetModel SheetFacts SheetSteps PropSheet PropRead.
From Verif Require Export NoteBytes.

(** ** Text objects; their specification is in NoteBytes.v *)

(** The text of a text object is the text of its fragments in order, and its runs
    are those of the formatting records. *)
Theorem c34_text : forall bv t rest, 80 <= bv -> tbox_ok t ->
  handle_txo bv (tbox_data t) (map rec_of (tbox_continues t) ++ rest) = Ok (Some (tb_text t, tb_shown_runs t), rest).
Proof. exact tbox_reads. Qed.
Print Assumptions c34_text.

(** What [strip_end] does. *)
Lemma strip_end_spec : forall n runs, exists dropped, runs = strip_end n runs ++ dropped /\
  Forall (fun r => fst r = n) dropped /\ forall l r, strip_end n runs = l ++ [r] -> fst r <> n.
Proof.
  intros n. induction runs as [|r runs (dr & E & F & K)] using rev_ind.
  - exists []. split; [reflexivity|]. split; [constructor|]. intros l r H. destruct l; discriminate.
  - rewrite <- !drop_ends_strip in *. rewrite rev_app_distr. cbn [rev app]. destruct r as [a b]. cbn [drop_ends].
    destruct (a =? n) eqn:EA.
    + exists (dr ++ [(a, b)]). split; [rewrite app_assoc; f_equal; exact E|]. split; [|exact K].
      apply Forall_app. split; [exact F|]. constructor; [cbn; lia|constructor].
    + exists []. cbn [rev]. rewrite rev_involutive, app_nil_r. split; [reflexivity|]. split; [constructor|].
      intros l r H. apply app_inj_tail in H as [_ <-]. cbn. lia.
Qed.

(** ** Specification: comments *)

(** The layouts of OBJ and NOTE records, [shape_data] and [comment_data], are in NoteBytes.v. *)

(** A record without effect. *)
Definition idle_code (rc : Z) : Prop := noise_code rc = true /\ ~ In rc handled.

(** A text box: OBJ, perhaps drawing data, TXO and its CONTINUE records.  A comment:
    NOTE.  They come in any order. *)
Inductive citem : Type :=
| CBox (s : shape) (between : list (Z * list Z)) (t : tbox)
| CNote (n : comment)
| CIdle (rc : Z) (d : list Z).

Definition citem_recs (it : citem) : list (Z * list Z) :=
  match it with
  | CBox s between t => (XL_OBJ, shape_data s) :: between ++ (XL_TXO, tbox_data t) :: tbox_continues t
  | CNote n => [(XL_NOTE, comment_data n)]
  | CIdle rc d => [(rc, d)]
  end.
Definition citem_ok (it : citem) : Prop :=
  match it with
  | CBox s between t => shape_ok s /\ Forall (fun r => idle_code (fst r)) between /\ tbox_ok t
  | CNote n => comment_ok n
  | CIdle rc _ => idle_code rc
  end.

(** The text box with a given id, after the items read so far. *)
Definition box_of (items : list citem) (id : Z) (old : option (list Z * list (Z * Z))) : option (list Z * list (Z * Z)) :=
  fold_left (fun acc it => match it with
                           | CBox s _ t => if id =? sp_id s then Some (tb_text t, tb_shown_runs t) else acc
                           | _ => acc
                           end) items old.

(** The comment at a cell: that of the last NOTE record there whose text box came
    before it. *)
Fixpoint note_of (boxes : Z -> option (list Z * list (Z * Z))) (items : list citem) (r k : Z) (old : option note) : option note :=
  match items with
  | [] => old
  | it :: l =>
      note_of (fun id => box_of [it] id (boxes id)) l r k
        (match it with
         | CNote n =>
             if (r =? cm_row n) && (k =? cm_col n) then
               match boxes (cm_id n) with
               | Some (text, runs) =>
                   Some (mk_note r k text runs (Z.b2z (Z.testbit (cm_flags n) 1)) (Z.b2z (Z.testbit (cm_flags n) 7))
                           (Z.b2z (Z.testbit (cm_flags n) 8)) (us_text (cm_author n)) (Some (cm_id n)))
               | None => old
               end
             else old
         | _ => old
         end)
  end.

(** ** Proofs: comments *)

Lemma idle_reads : forall {N} (c : config N) sh rc d rs, idle_code rc -> read_all c sh (rec_of (rc, d) :: rs) = read_all c sh rs.
Proof.
  intros N c sh rc d rs [H1 H2]. unfold rec_of. cbn [fst snd]. rewrite read_all_cons.
  assert (rc =? XL_EOF = false) as -> by (unfold noise_code in H1; destruct (rc =? XL_EOF); [rewrite !orb_true_r in H1; discriminate|reflexivity]).
  rewrite ignored_step by assumption. reflexivity.
Qed.

Lemma idles_read : forall {N} (c : config N) sh l rs, Forall (fun r => idle_code (fst r)) l -> read_all c sh (map rec_of l ++ rs) = read_all c sh rs.
Proof.
  intros N c sh l rs H. induction H as [|[rc d] l Hx _ IH]; [reflexivity|]. cbn [map app]. rewrite idle_reads by exact Hx. exact IH.
Qed.

(** Every comment is stored at its cell, with its author and flags and with the
    text and runs of the text box that has its object id; without one it is dropped. *)
Theorem c34_notes : forall {N} (c : config N), 80 <= c_bv c -> forall items sh rest, Forall citem_ok items ->
  exists sh', read_all c sh (map rec_of (flat_map citem_recs items) ++ rest) = read_all c sh' rest /\
    (forall id, dget Z.eqb (o_txos (sh_obj sh')) id = box_of items id (dget Z.eqb (o_txos (sh_obj sh)) id)) /\
    forall r k, dget pair_eqb (o_notes (sh_obj sh')) (r, k) =
      note_of (dget Z.eqb (o_txos (sh_obj sh))) items r k (dget pair_eqb (o_notes (sh_obj sh)) (r, k)).
Proof.
  intros N c HV. induction items as [|it items IH]; intros sh rest OK; [exists sh; repeat split|].
  inversion OK as [|? ? O OK']; subst. cbn [flat_map]. rewrite map_app, <- app_assoc.
  assert (exists sh1, (forall rest, read_all c sh (map rec_of (citem_recs it) ++ rest) = read_all c sh1 rest) /\
    (forall id, dget Z.eqb (o_txos (sh_obj sh1)) id = box_of [it] id (dget Z.eqb (o_txos (sh_obj sh)) id)) /\
    forall r k, dget pair_eqb (o_notes (sh_obj sh1)) (r, k) =
      note_of (dget Z.eqb (o_txos (sh_obj sh))) [it] r k (dget pair_eqb (o_notes (sh_obj sh)) (r, k))) as (sh1 & R & B & K).
  { destruct it as [s between t|n|rc d]; cbn [citem_ok citem_recs] in *.
    - destruct O as (O1 & O2 & O3). eexists. split; [intros rest0|split].
      + cbn [map app]. unfold rec_of at 1. cbn [fst snd]. rewrite read_all_cons. change (XL_OBJ =? XL_EOF) with false. cbv iota.
        match goal with |- context[step c sh XL_OBJ ?len ?d ?rs] => change (step c sh XL_OBJ len d rs) with (plain (h_obj c sh d) rs) end.
        unfold plain, h_obj. rewrite shape_reads by assumption. cbn [bind].
        rewrite map_app, <- app_assoc, idles_read by exact O2. cbn [map app]. unfold rec_of at 1. cbn [fst snd].
        rewrite read_all_cons. change (XL_TXO =? XL_EOF) with false. cbv iota.
        match goal with |- context[step c ?s XL_TXO ?len ?d ?rs] => change (step c s XL_TXO len d rs) with (h_txo c s d rs) end.
        unfold h_txo. rewrite c34_text by assumption. cbn [bind with_obj sh_obj o_saved].
        replace (sp_id s =? 0) with false by (destruct O1 as (_ & O1 & _); lia). cbn [bind]. reflexivity.
      + intros id. cbn [with_obj sh_obj o_txos dset dget box_of fold_left]. reflexivity.
      + intros r k. reflexivity.
    - eexists. split; [intros rest0|split].
      + cbn [map app]. unfold rec_of. cbn [fst snd]. rewrite read_all_cons. change (XL_NOTE =? XL_EOF) with false. cbv iota.
        match goal with |- context[step c sh XL_NOTE ?len ?d ?rs] => change (step c sh XL_NOTE len d rs) with (h_note c sh d rs) end.
        unfold h_note. rewrite comment_reads by assumption. cbn [bind]. reflexivity.
      + intros id. reflexivity.
      + intros r k. cbn [with_obj sh_obj o_notes note_of]. destruct (dget Z.eqb (o_txos (sh_obj sh)) (cm_id n)) as [[text runs]|] eqn:E.
        * cbn [dset dget]. unfold pair_eqb at 1. cbn [fst snd].
          destruct ((r =? cm_row n) && (k =? cm_col n)) eqn:E2; [|reflexivity].
          do 2 f_equal; lia.
        * destruct (_ && _); reflexivity.
    - exists sh. split; [intros rest0; cbn [map app]; apply idle_reads; exact O|]. split; reflexivity. }
  destruct (IH sh1 rest OK') as (sh' & R' & B' & K'). exists sh'. rewrite R. split; [exact R'|]. split.
  - intros id. rewrite B', B. reflexivity.
  - intros r k. rewrite K', K. cbn [note_of].
    assert (forall items f g old, (forall id, f id = g id) -> note_of f items r k old = note_of g items r k old) as EXT.
    { clear. induction items as [|it items IH]; intros f g old H; [reflexivity|]. cbn [note_of].
      rewrite (IH _ (fun id => box_of [it] id (g id))) by (intros; rewrite H; reflexivity). f_equal.
      destruct it; try reflexivity. rewrite H. reflexivity. }
    apply EXT. exact B.
Qed.
Print Assumptions c34_notes.

(** Two boxes, two comments, one comment without a box. *)
Definition ex_boxes : list citem :=
  let author := Build_ustring [74; 111] false 0 None None in
  [CBox (mk_shape 0x19 7 0x4011 (repeat 0 12) [(0x0D, repeat 1 22)] 4) [(XL_MSO_DRAWING, [1; 2])]
     (mk_tbox (repeat 0 10) [mk_frag false [72; 105]; mk_frag true [128512; 33]] [[(0, 5, repeat 0 4)]; [(5, 0, repeat 0 4)]] [0; 0]);
   CIdle 0x863 [];
   CBox (mk_shape 0x19 8 0x4011 (repeat 0 12) [] 0) []
     (mk_tbox (repeat 0 10) [mk_frag false [66]] [[(0, 1, repeat 9 4); (1, 0, repeat 0 4)]] [0; 0]);
   CNote (mk_comment 3 1 2 7 author [0]);
   CNote (mk_comment 4 2 0 8 author []);
   CNote (mk_comment 5 2 0 9 author [])].
Example c34_example : Forall citem_ok ex_boxes /\
  map (fun p : Z * Z => option_map (fun n => (n_text n, n_runs n, n_show n)) (note_of (fun _ => None) ex_boxes (fst p) (snd p) None)) [(3, 1); (4, 2); (5, 2)]
    = [Some ([72; 105; 128512; 33], [(0, 5)], 1); Some ([66], [(0, 1)], 0); None].
Proof.
  split; [|reflexivity].
  assert (idle_code XL_MSO_DRAWING /\ idle_code 0x863) as [I1 I2].
  { split; (split; [reflexivity|]); unfold handled; cbn [In]; intros H;
      repeat (destruct H as [H|H]; [discriminate H|]); contradiction. }
  assert (text [72; 105] /\ text [128512; 33] /\ text [66] /\ text [74; 111]) as (T1 & T2 & T3 & T4).
  { unfold text. repeat split; repeat (apply Forall_cons; [unfold scalar; lia|]); apply Forall_nil. }
  assert (us_ok (Build_ustring [74; 111] false 0 None None)) as A.
  { unfold us_ok. cbn. repeat split; auto. repeat constructor; lia. }
  unfold ex_boxes. repeat apply Forall_cons; [..|apply Forall_nil]; cbn [citem_ok]; try exact I2.
  - split; [|split; [apply Forall_cons; [exact I1|apply Forall_nil]|]].
    + unfold shape_ok, u16v. cbn. repeat split; try lia. repeat constructor; unfold u16v; cbn; lia.
    + unfold tbox_ok, u16v. cbn. repeat split; try lia.
      * apply Forall_cons; [|apply Forall_cons; [|apply Forall_nil]].
        -- split; [exact T1|]. split; [discriminate|]. intros _. repeat constructor; lia.
        -- split; [exact T2|]. split; discriminate.
      * repeat constructor; try discriminate; unfold u16v; cbn; lia.
  - split; [|split; [constructor|]].
    + unfold shape_ok, u16v. cbn. repeat split; try lia. constructor.
    + unfold tbox_ok, u16v. cbn. repeat split; try lia.
      * apply Forall_cons; [|apply Forall_nil]. split; [exact T3|]. split; [discriminate|]. intros _. repeat constructor; lia.
      * repeat constructor; try discriminate; unfold u16v; cbn; lia.
  - unfold comment_ok. cbn [cm_row cm_col cm_flags cm_id cm_author cm_stray]. unfold u16v.
    split; [repeat constructor; lia|]. split; [exact A|]. split; vm_compute; (reflexivity || discriminate).
  - unfold comment_ok. cbn [cm_row cm_col cm_flags cm_id cm_author cm_stray]. unfold u16v.
    split; [repeat constructor; lia|]. split; [exact A|]. split; vm_compute; (reflexivity || discriminate).
  - unfold comment_ok. cbn [cm_row cm_col cm_flags cm_id cm_author cm_stray]. unfold u16v.
    split; [repeat constructor; lia|]. split; [exact A|]. split; vm_compute; (reflexivity || discriminate).
Qed.

(** Before BIFF8 a note is one NOTE record and, for long texts, more of them
    with row 0xFFFF. *)
Definition old_piece (fill piece : list Z) : Z * list Z := (XL_NOTE, le_enc 2 0xFFFF ++ fill ++ le_enc 2 (zlen piece) ++ piece).
Definition old_note (row col : Z) (first : list Z) (more : list (list Z * list Z)) : list (Z * list Z) :=
  (XL_NOTE, le_enc 2 row ++ le_enc 2 col ++ le_enc 2 (zlen first + zlen (concat (map snd more))) ++ first)
  :: map (fun fp => old_piece (fst fp) (snd fp)) more.
Definition old_note_ok (row col : Z) (first : list Z) (more : list (list Z * list Z)) : Prop :=
  u16v row /\ u16v col /\ u16v (zlen first + zlen (concat (map snd more))) /\ Forall (fun fp => zlen (fst fp) = 2 /\ snd fp <> []) more.

Lemma note_pieces_reads : forall more rs acc, Forall (fun fp => zlen (fst fp) = 2 /\ snd fp <> []) more ->
  zlen (concat (map snd more)) < 65536 ->
  note_pieces (map rec_of (map (fun fp => old_piece (fst fp) (snd fp)) more) ++ rs) (zlen (concat (map snd more))) acc
  = Ok (acc ++ concat (map snd more), rs).
Proof.
  induction more as [|[f p] more IH]; intros rs acc F L; cbn [map app concat snd fst].
  - destruct rs; cbn; rewrite app_nil_r; reflexivity.
  - inversion F as [|? ? [F1 F2] F3]; subst. cbn [fst snd] in F1, F2. cbn [map concat snd] in L. rewrite zlen_app in L |- *.
    pose proof (zlen_nonneg (concat (map snd more))). assert (0 < zlen p) as HP by (destruct p; [congruence|rewrite zlen_cons; pose proof (zlen_nonneg p); lia]).
    unfold old_piece at 1, rec_of at 1. cbn [fst snd note_pieces]. replace (0 <? zlen p + zlen (concat (map snd more))) with true by lia.
    set (d := le_enc 2 65535 ++ f ++ le_enc 2 (zlen p) ++ p).
    assert (At d 0 (le_enc 2 65535 ++ f ++ le_enc 2 (zlen p) ++ p)) as A0 by apply At_0.
    assert (At d 4 (le_enc 2 (zlen p) ++ p)) as A4.
    { eapply At_skip; [eapply At_skip; [exact A0|reflexivity]|]. rewrite F1. reflexivity. }
    assert (At d 6 p) as A6 by (eapply At_skip; [exact A4|reflexivity]).
    pose proof (At_len _ _ _ A6) as LD.
    change (XL_NOTE =? XL_NOTE) with true. cbn [guard bind]. rewrite need_ok by lia. cbn [guard bind].
    rewrite (At_u16 _ _ _ _ A0) by lia. cbn [bind]. rewrite (At_u16 _ _ _ _ A4) by lia. cbn [bind].
    change (65535 =? 65535) with true. cbn [guard bind]. replace (zlen p =? zlen d - 6) with true by lia. cbn [guard bind].
    rewrite (At_from _ _ _ A6). replace (zlen p + zlen (concat (map snd more)) - zlen p) with (zlen (concat (map snd more))) by lia.
    rewrite IH by (assumption || lia). rewrite app_assoc. reflexivity.
Qed.

Theorem c34_old_note : forall decode bv txos m row col first more rs, bv < 80 -> old_note_ok row col first more ->
  exists data, map rec_of (old_note row col first more) = (XL_NOTE, zlen data, data) :: tl (map rec_of (old_note row col first more)) /\
  handle_note decode bv txos m data (tl (map rec_of (old_note row col first more)) ++ rs) =
  (do t <- decode (first ++ concat (map snd more));
   Ok (dset m (row, col) (mk_note row col t [(0, 0)] 0 0 0 [] None), rs)).
Proof.
  intros decode bv txos m row col first more rs BV (R & C & T & F).
  set (tot := zlen first + zlen (concat (map snd more))) in *.
  exists (le_enc 2 row ++ le_enc 2 col ++ le_enc 2 tot ++ first). split; [reflexivity|].
  set (d := le_enc 2 row ++ le_enc 2 col ++ le_enc 2 tot ++ first).
  assert (At d 0 (le_enc 2 row ++ le_enc 2 col ++ le_enc 2 tot ++ first)) as A0 by apply At_0.
  assert (At d 2 (le_enc 2 col ++ le_enc 2 tot ++ first)) as A2 by (eapply At_skip; [exact A0|reflexivity]).
  assert (At d 4 (le_enc 2 tot ++ first)) as A4 by (eapply At_skip; [exact A2|reflexivity]).
  assert (At d 6 first) as A6 by (eapply At_skip; [exact A4|reflexivity]).
  pose proof (At_len _ _ _ A6) as LD. unfold handle_note. replace (bv <? 80) with true by lia. pose proof (zlen_nonneg first). pose proof (zlen_nonneg (concat (map snd more))). unfold u16v in *.
  rewrite need_ok by lia. cbn [guard bind].
  rewrite (At_u16 _ _ _ _ A0) by lia. cbn [bind]. rewrite (At_u16 _ _ _ _ A2) by lia. cbn [bind].
  rewrite (At_u16 _ _ _ _ A4) by lia. cbn [bind]. cbv zeta. replace (zlen d - 6 <=? tot) with true by lia. cbn [guard bind].
  rewrite (At_from _ _ _ A6). replace (tot - (zlen d - 6)) with (zlen (concat (map snd more))) by lia.
  unfold old_note. cbn [map tl]. rewrite note_pieces_reads by (assumption || lia). reflexivity.
Qed.
Print Assumptions c34_old_note.

Example c34_old_example : old_note_ok 3 1 [72; 101; 108] [([0; 0], [108]); ([0; 0], [111; 33])].
Proof. unfold old_note_ok, u16v. cbn. repeat split; try lia. repeat constructor; cbn; try lia; discriminate. Qed.
