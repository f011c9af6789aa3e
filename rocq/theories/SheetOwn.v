(** The records of a sheet that count, and what the loop makes of them.

    A sheet consists of its records up to EOF, without those of the streams
    embedded in it (charts, for instance): each runs from a BOF record to the
    next EOF record. *)
From Verif Require Import Base BaseFacts Framing SheetObjects SheetModel SheetFacts SheetSteps PropSheet SheetTrace PropView PropRowCol PropLinks.

(** ** Specification *)

Definition opens_stream (rc : Z) : bool := (rc =? 0x809) || (rc =? 0x409) || (rc =? 0x209) || (rc =? 0x9).

Fixpoint own_records (embedded : bool) (rs : list record) : list record :=
  match rs with
  | [] => []
  | (rc, len, d) :: rs =>
      if embedded then own_records (negb (rc =? 0x0A)) rs
      else if rc =? 0x0A then []
      else if opens_stream rc then own_records true rs
      else (rc, len, d) :: own_records false rs
  end.

(** The records of the sheet, up to its EOF record, are not cut off. *)
Fixpoint complete (embedded : bool) (rs : list record) : Prop :=
  match rs with
  | [] => True
  | (rc, len, d) :: rs =>
      if negb embedded && (rc =? 0x0A) then True
      else (bytes d /\ len = zlen d) /\ complete (if embedded then negb (rc =? 0x0A) else opens_stream rc) rs
  end.

(** The codes of the records that describe rows, columns, the view, links and so on:
    ROW, COLINFO, DEFCOLWIDTH, STANDARDWIDTH, GCW, MERGEDCELLS, SCL, WINDOW2, PANE,
    HORIZONTALPAGEBREAKS, VERTICALPAGEBREAKS, LABELRANGES, DEFAULTROWHEIGHT, HLINK,
    QUICKTIP.  None of them is ever part of the data of another record. *)
Definition attribute_code (rc : Z) : bool :=
  existsb (Z.eqb rc) [0x208; 0x7D; 0x55; 0x99; 0xAB; 0xE5; 0xA0; 0x23E; 0x41; 0x1B; 0x1A; 0x15F; 0x225; 0x1B8; 0x800].
Definition attributes (rs : list record) : list record := filter (fun r : record => attribute_code (fst (fst r))) rs.

(** ** Proofs *)

Lemma attributes_cons : forall rc len d rs, attributes ((rc, len, d) :: rs) = (if attribute_code rc then [(rc, len, d)] else []) ++ attributes rs.
Proof. intros. unfold attributes. cbn [filter fst]. destruct (attribute_code rc); reflexivity. Qed.

(** The codes of records that are parts of another one; NOTE records are parts of NOTE records only. *)
Definition part_code (note : bool) (rc : Z) : bool :=
  existsb (Z.eqb rc) [XL_CONTINUE; XL_STRING; XL_STRING_B2; XL_ARRAY; XL_SHRFMLA; XL_TABLEOP; XL_TABLEOP2; XL_ARRAY2; XL_TABLEOP_B2] || note && (rc =? XL_NOTE).

(** The records that [f] takes from the list are parts of another record. *)
Definition Parts {A} (note : bool) (f : list record -> result (A * list record)) : Prop :=
  forall rs a rs', f rs = Ok (a, rs') -> exists used, rs = used ++ rs' /\ Forall (fun r : record => part_code note (fst (fst r)) = true) used.

Lemma Parts_ret : forall {A} note (a : A), Parts note (fun rs => Ok (a, rs)).
Proof. intros A note a rs x rs' H. injection H as <- <-. exists []. split; [reflexivity|constructor]. Qed.
Lemma Parts_err : forall {A} note e, Parts note (fun _ => @Err (A * list record) e).
Proof. intros A note e rs x rs' H. discriminate. Qed.
Lemma Parts_const : forall {A B} note (r : result B) (f : B -> list record -> result (A * list record)), (forall b, Parts note (f b)) -> Parts note (fun rs => do b <- r; f b rs).
Proof. intros A B note r f P rs a rs' H. apply bind_ok in H as (b & _ & H). exact (P b _ _ _ H). Qed.
Lemma Parts_bind : forall {A B} note (f : list record -> result (A * list record)) (g : A -> list record -> result (B * list record)),
  Parts note f -> (forall a, Parts note (g a)) -> Parts note (fun rs => do (a, rs) <- f rs; g a rs).
Proof.
  intros A B note f g F G rs b rs' H. apply bind_ok in H as ([a rs1] & H1 & H). destruct (F _ _ _ H1) as (u & -> & U). destruct (G a _ _ _ H) as (v & -> & V).
  exists (u ++ v). split; [apply app_assoc|apply Forall_app; auto].
Qed.

Section Step.
Context {N : Type} (c : config N).

Lemma Parts_txo_text : forall note cch tot text, Parts note (fun rs => txo_text rs cch tot text).
Proof.
  intros note cch tot text rs. revert tot text. induction rs as [|[[rc len] d] rs IH]; intros tot text a rs' H; cbn [txo_text] in H.
  - destruct (tot <? cch); [discriminate|]. injection H as _ <-. exists []. split; [reflexivity|constructor].
  - destruct (tot <? cch); [|injection H as _ <-; exists []; split; [reflexivity|constructor]].
    apply bind_ok in H as (? & G & H). apply bind_ok in H as (? & _ & H). cbv zeta in H. apply bind_ok in H as (? & _ & H). apply bind_ok in H as ([? ?] & _ & H).
    apply bind_ok in H as (? & _ & H). destruct (IH _ _ _ _ H) as (u & -> & U). exists ((rc, len, d) :: u). split; [reflexivity|]. constructor; [|exact U].
    destruct (Z.eqb_spec rc XL_CONTINUE) as [->|]; [reflexivity|discriminate].
Qed.
Lemma Parts_txo_runs : forall note cb tot runs, Parts note (fun rs => txo_runs rs cb tot runs).
Proof.
  intros note cb tot runs rs. revert tot runs. induction rs as [|[[rc len] d] rs IH]; intros tot runs a rs' H; cbn [txo_runs] in H.
  - destruct (tot <? cb); [discriminate|]. injection H as _ <-. exists []. split; [reflexivity|constructor].
  - destruct (tot <? cb); [|injection H as _ <-; exists []; split; [reflexivity|constructor]].
    apply bind_ok in H as (? & G & H). apply bind_ok in H as (? & _ & H). apply bind_ok in H as (? & _ & H).
    destruct (IH _ _ _ _ H) as (u & -> & U). exists ((rc, len, d) :: u). split; [reflexivity|]. constructor; [|exact U].
    destruct (Z.eqb_spec rc XL_CONTINUE) as [->|]; [reflexivity|discriminate].
Qed.
Lemma Parts_note_pieces : forall expected acc, Parts true (fun rs => note_pieces rs expected acc).
Proof.
  intros ex acc rs. revert ex acc. induction rs as [|[[rc len] d] rs IH]; intros ex acc a rs' H; cbn [note_pieces] in H.
  - destruct (0 <? ex); [discriminate|]. destruct (ex =? 0); [|discriminate]. injection H as _ <-. exists []. split; [reflexivity|constructor].
  - destruct (0 <? ex).
    + apply bind_ok in H as (? & G & H). do 5 (apply bind_ok in H as (? & _ & H)).
      destruct (IH _ _ _ _ H) as (u & -> & U). exists ((rc, len, d) :: u). split; [reflexivity|]. constructor; [|exact U].
      destruct (Z.eqb_spec rc XL_NOTE) as [->|]; [reflexivity|discriminate].
    + destruct (ex =? 0); [|discriminate]. injection H as _ <-. exists []. split; [reflexivity|constructor].
Qed.
Lemma Parts_string_loop : forall note data ofs nexp nf acc, Parts note (fun rs => string_loop c rs data ofs nexp nf acc).
Proof.
  intros note data ofs nexp nf acc rs. revert data ofs nf acc. induction rs as [|[[rc len] d] rs IH]; intros data ofs nf acc a rs' H; cbn [string_loop] in H;
    apply bind_ok in H as (chunk & _ & H).
  - destruct (nf + zlen chunk =? nexp); [|destruct (nf + zlen chunk >? nexp); discriminate]. injection H as _ <-. exists []. split; [reflexivity|constructor].
  - destruct (nf + zlen chunk =? nexp); [injection H as _ <-; exists []; split; [reflexivity|constructor]|].
    destruct (nf + zlen chunk >? nexp); [discriminate|]. destruct (Z.eqb_spec rc XL_CONTINUE) as [->|]; [|discriminate]. cbn [negb] in H.
    destruct (IH _ _ _ _ _ _ H) as (u & -> & U). eexists (_ :: u). split; [reflexivity|]. constructor; [reflexivity|exact U].
Qed.
Lemma Parts_contents : forall note data, Parts note (fun rs => string_record_contents c rs data).
Proof. intros note data. unfold string_record_contents. apply Parts_const. intros. apply Parts_string_loop. Qed.

Lemma string_part : forall note rc, (rc =? XL_STRING) || (rc =? XL_STRING_B2) = true -> part_code note rc = true.
Proof. intros note rc H. apply orb_true_iff in H as [H|H]; apply Z.eqb_eq in H as ->; reflexivity. Qed.

Lemma Parts_formula_string : forall note, Parts note (formula_string c).
Proof.
  intros note rs a rs' H. unfold formula_string in H. destruct rs as [|[[rc len] d] rs]; [discriminate|]. cbn [next bind] in H.
  destruct ((rc =? XL_STRING) || (rc =? XL_STRING_B2)) eqn:E1.
  - cbn [bind] in H. destruct (Parts_contents note _ _ _ _ H) as (u & -> & U). exists ((rc, len, d) :: u). split; [reflexivity|]. constructor; [exact (string_part _ _ E1)|exact U].
  - rewrite bind_assoc in H. apply bind_ok in H as (x & H1 & H).
    destruct rs as [|[[rc3 len3] d3] rs]; [discriminate|]. cbn [next bind] in H.
    destruct ((rc3 =? XL_STRING) || (rc3 =? XL_STRING_B2)) eqn:E3; [|discriminate]. cbn [bind] in H.
    destruct (Parts_contents note _ _ _ _ H) as (u & -> & U). exists ((rc, len, d) :: (rc3, len3, d3) :: u). split; [reflexivity|].
    constructor; [|constructor; [exact (string_part _ _ E3)|exact U]]. clear - H1. cbn [fst].
    destruct (Z.eqb_spec rc XL_ARRAY) as [->|]; [reflexivity|]. destruct (Z.eqb_spec rc XL_SHRFMLA) as [->|]; [reflexivity|].
    destruct (Z.eqb_spec rc XL_TABLEOP) as [->|]; [reflexivity|]. destruct (Z.eqb_spec rc XL_TABLEOP2) as [->|]; [reflexivity|].
    destruct (Z.eqb_spec rc XL_ARRAY2) as [->|]; [reflexivity|]. destruct (Z.eqb_spec rc XL_TABLEOP_B2) as [->|]; [reflexivity|]. discriminate.
Qed.

Lemma Parts_plain : forall note (r : result (sheet N)), Parts note (fun rs => plain r rs).
Proof. intros note r. unfold plain. apply Parts_const. intros. apply Parts_ret. Qed.

(** One turn of the loop takes, besides its own record, only parts of it; or an embedded stream. *)
Lemma step_takes : forall sh rc len d rs sh' rs', opens_stream rc = false -> step c sh rc len d rs = Ok (sh', rs') ->
  exists used, rs = used ++ rs' /\ Forall (fun r : record => part_code (rc =? XL_NOTE) (fst (fst r)) = true) used.
Proof.
  intros sh rc len d rs sh' rs' HB. change (is_bof_code rc = false) in HB.
  enough (P : Parts (rc =? XL_NOTE) (fun rs => step c sh rc len d rs)) by exact (P rs sh' rs'). unfold step. rewrite HB. remember (rc =? XL_NOTE) as note eqn:EN. clear EN.
  repeat match goal with
  | |- Parts _ (fun rs => plain _ rs) => apply Parts_plain
  | |- Parts _ (fun rs => if is_formula_code _ then _ else _) => destruct (is_formula_code rc)
  | |- Parts _ (fun rs => h_formula _ _ _ rs) => fail 1
  | |- Parts _ (fun rs => if ?b then _ else _) => destruct b
  | |- Parts _ (fun rs => Ok (_, rs)) => apply Parts_ret
  | |- Parts _ (fun rs => bind (need _ _) _) => apply Parts_const; intros _
  | |- Parts _ (fun rs => bind (handle_hlink _ _) _) => apply Parts_const; intros ?
  | |- Parts _ (fun rs => bind (handle_quicktip _ _) _) => apply Parts_const; intros ?
  end.
  - unfold h_formula. cbv zeta. do 4 (apply Parts_const; intros ?).
    destruct (list_eqb _ _); [|apply Parts_const; intros; apply Parts_ret]. apply Parts_const; intros fb.
    destruct (fb =? 0). { apply (Parts_bind _ (formula_string c) (fun strg rs => do sh <- put c sh _ _ (Some XL_CELL_TEXT) (VText strg) _; Ok (sh, rs)) (Parts_formula_string _)).
                          intros s. apply Parts_const. intros; apply Parts_ret. }
    destruct (fb =? 1); [do 2 (apply Parts_const; intros ?); apply Parts_ret|]. destruct (fb =? 2); [do 2 (apply Parts_const; intros ?); apply Parts_ret|].
    destruct (fb =? 3); [apply Parts_const; intros; apply Parts_ret|]. apply Parts_err.
  - unfold h_txo. intros r s r' H. apply bind_ok in H as ([t r1] & H1 & H).
    assert (P : Parts note (fun rs => handle_txo (c_bv c) d rs)).
    { unfold handle_txo. destruct (c_bv c <? 80); [apply Parts_ret|]. do 3 (apply Parts_const; intros ?).
      apply (Parts_bind _ (fun rs => txo_text rs _ 0 []) (fun text rs => do (runs, rs) <- txo_runs rs _ 0 []; Ok (Some (text, _), rs)) (Parts_txo_text _ _ _ _)). intros text.
      apply (Parts_bind _ (fun rs => txo_runs rs _ 0 []) (fun runs rs => Ok (Some (text, _), rs)) (Parts_txo_runs _ _ _ _)). intros. apply Parts_ret. }
    destruct (P _ _ _ H1) as (u & -> & U). exists u. split; [|exact U]. f_equal. clear - H. inv_ok H; reflexivity.
  - unfold h_note. cbv zeta. intros r s r' H. apply bind_ok in H as ([m r1] & H1 & H). injection H as _ <-.
    revert r m r1 H1. change (Parts true (fun r => handle_note (c_decode c) (c_bv c) (o_txos (sh_obj sh)) (o_notes (sh_obj sh)) d r)).
    unfold handle_note. destruct (c_bv c <? 80).
    + do 4 (apply Parts_const; intros ?). cbv zeta. apply Parts_const; intros _.
      apply (Parts_bind _ (fun rs => note_pieces rs _ _) (fun raw rs => do text <- c_decode c raw; Ok (dset _ _ (mk_note _ _ text _ _ _ _ _ _), rs)) (Parts_note_pieces _ _)).
      intros raw. apply Parts_const; intros. apply Parts_ret.
    + do 5 (apply Parts_const; intros ?). apply Parts_const; intros [author endpos]. cbv zeta. apply Parts_const; intros _. destruct (dget Z.eqb _ _) as [[? ?]|]; apply Parts_ret.
Qed.

Lemma step_embedded : forall sh rc len d rs sh' rs', opens_stream rc = true -> step c sh rc len d rs = Ok (sh', rs') -> skip_to_eof rs = Ok rs'.
Proof.
  intros sh rc len d rs sh' rs' HB H. assert (E : step c sh rc len d rs = do _ <- need d 4; do rs <- skip_to_eof rs; Ok (sh, rs)).
  { unfold opens_stream in HB. rewrite !orb_true_iff, !Z.eqb_eq in HB. destruct HB as [[[->| ->]| ->]| ->]; reflexivity. }
  rewrite E in H. apply bind_ok in H as (? & _ & H). apply bind_ok in H as (r & H & E2). injection E2 as _ <-. exact H.
Qed.

Lemma own_embedded : forall rs rs', skip_to_eof rs = Ok rs' -> own_records true rs = own_records false rs'.
Proof.
  induction rs as [|[[rc len] d] rs IH]; intros rs' H; [discriminate|]. cbn [skip_to_eof] in H. cbn [own_records].
  change XL_EOF with 0x0A in H. destruct (rc =? 0x0A); [injection H as <-; reflexivity|apply IH; exact H].
Qed.

Lemma part_not_special : forall note rc, part_code note rc = true -> attribute_code rc = false /\ rc <> 0x0A /\ opens_stream rc = false.
Proof.
  intros note rc H. unfold part_code in H. apply orb_true_iff in H as [H|H].
  2: { apply andb_true_iff in H as [_ H]. apply Z.eqb_eq in H as ->. split; [reflexivity|split; [discriminate|reflexivity]]. }
  apply existsb_exists in H as (x & I & E). apply Z.eqb_eq in E. subst x.
  cbn [In] in I. repeat (destruct I as [<-|I]; [split; [reflexivity|split; [discriminate|reflexivity]]|]). destruct I.
Qed.

Lemma own_parts : forall note used rs, Forall (fun r : record => part_code note (fst (fst r)) = true) used -> attributes (own_records false (used ++ rs)) = attributes (own_records false rs).
Proof.
  intros note. induction used as [|[[rc len] d] used IH]; intros rs H; [reflexivity|]. inversion H as [|? ? P H']; subst. cbn [fst] in P.
  destruct (part_not_special _ _ P) as (P1 & P2 & P3). cbn [app own_records]. replace (rc =? 0x0A) with false by lia. rewrite P3.
  unfold attributes. cbn [filter fst]. rewrite P1. apply IH. exact H'.
Qed.

Lemma bof_no_attribute : forall rc, opens_stream rc = true -> attribute_code rc = false.
Proof. intros rc H. unfold opens_stream in H. rewrite !orb_true_iff, !Z.eqb_eq in H. destruct H as [[[->| ->]| ->]| ->]; reflexivity. Qed.

(** Of the records that describe rows, columns and so on, the loop handles those of the sheet itself. *)
Lemma ran_own : forall sh rs tr sh' len d rest, ran c sh rs tr sh' ((XL_EOF, len, d) :: rest) -> attributes tr = attributes (own_records false rs).
Proof.
  intros sh rs tr sh' len d rest H. remember ((XL_EOF, len, d) :: rest) as e eqn:EE. induction H as [|sh rc ln dd rs sh1 rs1 tr sh2 rs2 E S H IH].
  - subst. reflexivity.
  - specialize (IH EE). cbn [own_records]. change XL_EOF with 0x0A in E. replace (rc =? 0x0A) with false by lia.
    rewrite attributes_cons, IH. destruct (opens_stream rc) eqn:HB.
    + rewrite (bof_no_attribute _ HB). apply step_embedded in S; [|exact HB]. rewrite (own_embedded _ _ S). reflexivity.
    + destruct (step_takes _ _ _ _ _ _ _ HB S) as (u & -> & U). rewrite attributes_cons, (own_parts _ _ _ U). reflexivity.
Qed.

Lemma complete_parts : forall note used rs, Forall (fun r : record => part_code note (fst (fst r)) = true) used -> complete false (used ++ rs) -> complete false rs.
Proof.
  intros note. induction used as [|[[rc len] d] used IH]; intros rs H; [trivial|]. inversion H as [|? ? P H']; subst. cbn [fst] in P.
  destruct (part_not_special _ _ P) as (P1 & P2 & P3). cbn [app complete negb andb]. replace (rc =? 0x0A) with false by lia. rewrite P3.
  intros [_ C]. apply IH; assumption.
Qed.
Lemma complete_embedded : forall rs rs', skip_to_eof rs = Ok rs' -> complete true rs -> complete false rs'.
Proof.
  induction rs as [|[[rc len] d] rs IH]; intros rs' H; [discriminate|]. cbn [skip_to_eof] in H. cbn [complete negb andb]. intros [_ C].
  change XL_EOF with 0x0A in H. destruct (rc =? 0x0A); [injection H as <-; exact C|exact (IH _ H C)].
Qed.
Lemma ran_complete : forall sh rs tr sh' rs', ran c sh rs tr sh' rs' -> complete false rs -> framed tr.
Proof.
  intros sh rs tr sh' rs' H. induction H as [|sh rc ln dd rs sh1 rs1 tr sh2 rs2 E S H IH]; intros C; [constructor|].
  cbn [complete negb andb] in C. change XL_EOF with 0x0A in E. replace (rc =? 0x0A) with false in C by lia. destruct C as [C1 C].
  constructor; [exact C1|]. apply IH. destruct (opens_stream rc) eqn:HB.
  - exact (complete_embedded _ _ (step_embedded _ _ _ _ _ _ _ HB S) C).
  - destruct (step_takes _ _ _ _ _ _ _ HB S) as (u & -> & U). exact (complete_parts _ _ _ U C).
Qed.
End Step.

Lemma framed_complete : forall rs, framed rs -> forall emb, complete emb rs.
Proof. intros rs H. induction H as [|[[rc len] d] rs P H IH]; intros emb; [exact I|]. cbn [complete]. destruct (negb emb && _); [exact I|]. split; [exact P|apply IH]. Qed.

(** What depends on the attribute records only. *)
Lemma last_rec_attributes : forall p tr, (forall rc d, p rc d = true -> attribute_code rc = true) -> last_rec p (attributes tr) = last_rec p tr.
Proof.
  intros p tr HP. unfold last_rec. generalize (@None (list Z)). induction tr as [|[[rc len] d] tr IH]; intros acc; [reflexivity|].
  unfold attributes. cbn [filter fst]. destruct (attribute_code rc) eqn:E; fold (attributes tr); cbn [fold_left].
  - apply IH.
  - rewrite IH. destruct (p rc d) eqn:P; [apply HP in P; congruence|reflexivity].
Qed.

Lemma listed_attributes : forall {A} code (f : list Z -> list A) tr, attribute_code code = true -> listed code f (attributes tr) = listed code f tr.
Proof.
  intros A code f tr HC. unfold listed. induction tr as [|[[rc len] d] tr IH]; [reflexivity|]. unfold attributes. cbn [filter fst flat_map]. fold (attributes tr).
  destruct (attribute_code rc) eqn:E; cbn [flat_map]; rewrite IH; [reflexivity|]. destruct (Z.eqb_spec rc code) as [->|]; [congruence|reflexivity].
Qed.
