(** A sheet that is read to its end from the beginning of a list of records is read in the
    same way from the whole list; the last record of the beginning may even be cut. *)
From Verif Require Import Base BaseFacts Utf16 Framing SheetObjects SheetModel SheetFacts SheetSteps PropSheet SheetTrace SheetOwn.

(** ** Specification *)

(** [rs'] is a beginning of [rs], but its last record may lack some of its data. *)
Inductive cut_off : list record -> list record -> Prop :=
| cut_nil : forall rs, cut_off [] rs
| cut_last : forall rc len d' d rs, cut_off [(rc, len, d')] ((rc, len, d) :: rs)
| cut_cons : forall r rs' rs, cut_off rs' rs -> cut_off (r :: rs') (r :: rs).

(** ** Proofs *)

(** [f] depends only on the records that it takes. *)
Definition Takes {A} (f : list record -> result (A * list record)) : Prop :=
  forall rs a rs', f rs = Ok (a, rs') -> exists used, rs = used ++ rs' /\ forall more, f (used ++ more) = Ok (a, more).

Lemma Takes_ret : forall {A} (a : A), Takes (fun rs => Ok (a, rs)).
Proof. intros A a rs x rs' H. injection H as <- <-. exists []. split; reflexivity. Qed.
Lemma Takes_err : forall {A} e, Takes (fun _ => @Err (A * list record) e).
Proof. intros A e rs x rs' H. discriminate. Qed.
Lemma Takes_const : forall {A B} (r : result B) (f : B -> list record -> result (A * list record)), (forall b, Takes (f b)) -> Takes (fun rs => do b <- r; f b rs).
Proof. intros A B r f P rs a rs' H. apply bind_ok in H as (b & -> & H). exact (P b _ _ _ H). Qed.
Lemma Takes_bind : forall {A B} (f : list record -> result (A * list record)) (g : A -> list record -> result (B * list record)),
  Takes f -> (forall a, Takes (g a)) -> Takes (fun rs => do (a, rs) <- f rs; g a rs).
Proof.
  intros A B f g F G rs b rs' H. apply bind_ok in H as ([a rs1] & H1 & H). destruct (F _ _ _ H1) as (u & -> & U). destruct (G a _ _ _ H) as (v & -> & V).
  exists (u ++ v). split; [apply app_assoc|]. intros more. rewrite <- app_assoc, U. cbn [bind]. apply V.
Qed.
(** [f] takes the next record. *)
Lemma Takes_next : forall {A} (f : record -> list record -> result (A * list record)) e, (forall r, Takes (f r)) ->
  Takes (fun rs => match rs with [] => Err e | r :: rs => f r rs end).
Proof.
  intros A f e P rs a rs' H. destruct rs as [|r rs]; [discriminate|]. destruct (P r _ _ _ H) as (u & -> & U).
  exists (r :: u). split; [reflexivity|]. exact U.
Qed.

Section Step.
Context {N : Type} (c : config N).

Lemma Takes_txo_text : forall cch tot text, Takes (fun rs => txo_text rs cch tot text).
Proof.
  intros cch tot text rs. revert tot text. induction rs as [|[[rc len] d] rs IH]; intros tot text a rs' H; cbn [txo_text] in H.
  - destruct (tot <? cch) eqn:E; [discriminate|]. injection H as <- <-. exists []. split; [reflexivity|]. intros more. cbn [app]. destruct more as [|[[? ?] ?] ?]; cbn [txo_text]; rewrite E; reflexivity.
  - destruct (tot <? cch) eqn:E; [|injection H as <- <-; exists []; split; [reflexivity|]; intros more; cbn [app]; destruct more as [|[[? ?] ?] ?]; cbn [txo_text]; rewrite E; reflexivity].
    apply bind_ok in H as (? & G1 & H). apply bind_ok in H as (? & G2 & H). cbv zeta in H. apply bind_ok in H as (? & G3 & H). apply bind_ok in H as ([? ?] & G4 & H).
    apply bind_ok in H as (? & G5 & H). destruct (IH _ _ _ _ H) as (u & -> & U). exists ((rc, len, d) :: u). split; [reflexivity|]. intros more.
    cbn [app txo_text]. rewrite E, G1. cbn [bind]. rewrite G2. cbn [bind]. cbv zeta. rewrite G3. cbn [bind]. rewrite G4. cbn [bind]. rewrite G5. cbn [bind]. apply U.
Qed.
Lemma Takes_txo_runs : forall cb tot runs, Takes (fun rs => txo_runs rs cb tot runs).
Proof.
  intros cb tot runs rs. revert tot runs. induction rs as [|[[rc len] d] rs IH]; intros tot runs a rs' H; cbn [txo_runs] in H.
  - destruct (tot <? cb) eqn:E; [discriminate|]. injection H as <- <-. exists []. split; [reflexivity|]. intros more. cbn [app]. destruct more as [|[[? ?] ?] ?]; cbn [txo_runs]; rewrite E; reflexivity.
  - destruct (tot <? cb) eqn:E; [|injection H as <- <-; exists []; split; [reflexivity|]; intros more; cbn [app]; destruct more as [|[[? ?] ?] ?]; cbn [txo_runs]; rewrite E; reflexivity].
    apply bind_ok in H as (? & G1 & H). apply bind_ok in H as (? & G2 & H). apply bind_ok in H as (? & G3 & H).
    destruct (IH _ _ _ _ H) as (u & -> & U). exists ((rc, len, d) :: u). split; [reflexivity|]. intros more.
    cbn [app txo_runs]. rewrite E, G1. cbn [bind]. rewrite G2. cbn [bind]. rewrite G3. cbn [bind]. apply U.
Qed.
Lemma Takes_note_pieces : forall expected acc, Takes (fun rs => note_pieces rs expected acc).
Proof.
  intros ex acc rs. revert ex acc. induction rs as [|[[rc len] d] rs IH]; intros ex acc a rs' H; cbn [note_pieces] in H.
  - destruct (0 <? ex) eqn:E; [discriminate|]. destruct (ex =? 0) eqn:E0; [|discriminate]. injection H as <- <-. exists []. split; [reflexivity|].
    intros more. cbn [app]. destruct more as [|[[? ?] ?] ?]; cbn [note_pieces]; rewrite E, E0; reflexivity.
  - destruct (0 <? ex) eqn:E.
    + apply bind_ok in H as (? & G1 & H). apply bind_ok in H as (? & G2 & H). apply bind_ok in H as (? & G3 & H). apply bind_ok in H as (? & G4 & H).
      apply bind_ok in H as (? & G5 & H). apply bind_ok in H as (? & G6 & H).
      destruct (IH _ _ _ _ H) as (u & -> & U). exists ((rc, len, d) :: u). split; [reflexivity|]. intros more.
      cbn [app note_pieces]. rewrite E, G1. cbn [bind]. rewrite G2. cbn [bind]. rewrite G3. cbn [bind]. rewrite G4. cbn [bind]. rewrite G5. cbn [bind]. rewrite G6. cbn [bind]. apply U.
    + destruct (ex =? 0) eqn:E0; [|discriminate]. injection H as <- <-. exists []. split; [reflexivity|].
      intros more. cbn [app]. destruct more as [|[[? ?] ?] ?]; cbn [note_pieces]; rewrite E, E0; reflexivity.
Qed.
Lemma Takes_string_loop : forall data ofs nexp nf acc, Takes (fun rs => string_loop c rs data ofs nexp nf acc).
Proof.
  assert (Done : forall data ofs nexp nf acc chunk more,
    (if c_bv c >=? 80 then do b <- py_index data ofs; if Z.testbit b 0 then utf16_dec (py_from data (ofs + 1)) else Ok (py_from data (ofs + 1)) else c_decode c (py_from data ofs)) = Ok chunk ->
    (nf + zlen chunk =? nexp) = true -> string_loop c more data ofs nexp nf acc = Ok (acc ++ chunk, more)).
  { intros data ofs nexp nf acc chunk more H1 H2. destruct more as [|[[? ?] ?] ?]; cbn [string_loop]; rewrite H1; cbn [bind]; cbv zeta; rewrite H2; reflexivity. }
  intros data ofs nexp nf acc rs. revert data ofs nf acc. induction rs as [|[[rc len] d] rs IH]; intros data ofs nf acc a rs' H; cbn [string_loop] in H;
    apply bind_ok in H as (chunk & G & H); cbv zeta in H; destruct (nf + zlen chunk =? nexp) eqn:E.
  - injection H as <- <-. exists []. split; [reflexivity|]. intros more. exact (Done _ _ _ _ _ _ _ G E).
  - destruct (nf + zlen chunk >? nexp); discriminate.
  - injection H as <- <-. exists []. split; [reflexivity|]. intros more. exact (Done _ _ _ _ _ _ _ G E).
  - destruct (nf + zlen chunk >? nexp) eqn:E2; [discriminate|]. destruct (negb (rc =? XL_CONTINUE)) eqn:E3; [discriminate|].
    destruct (IH _ _ _ _ _ _ H) as (u & -> & U). exists ((rc, len, d) :: u). split; [reflexivity|]. intros more.
    cbn [app string_loop]. rewrite G. cbn [bind]. cbv zeta. rewrite E, E2, E3. apply U.
Qed.
Lemma Takes_contents : forall data, Takes (fun rs => string_record_contents c rs data).
Proof. intros data. unfold string_record_contents. apply Takes_const. intros. apply Takes_string_loop. Qed.

Lemma Takes_formula_string : Takes (formula_string c).
Proof.
  intros rs a rs' H. unfold formula_string in H. destruct rs as [|[[rc len] d] rs]; [discriminate|]. cbn [next bind] in H.
  destruct ((rc =? XL_STRING) || (rc =? XL_STRING_B2)) eqn:E1.
  - cbn [bind] in H. destruct (Takes_contents _ _ _ _ H) as (u & -> & U). exists ((rc, len, d) :: u). split; [reflexivity|]. intros more.
    unfold formula_string. cbn [app next bind]. rewrite E1. cbn [bind]. apply U.
  - rewrite bind_assoc in H. apply bind_ok in H as (x & H1 & H).
    destruct rs as [|[[rc3 len3] d3] rs]; [discriminate|]. cbn [next bind] in H.
    destruct ((rc3 =? XL_STRING) || (rc3 =? XL_STRING_B2)) eqn:E3; [|discriminate]. cbn [bind] in H.
    destruct (Takes_contents _ _ _ _ H) as (u & -> & U). exists ((rc, len, d) :: (rc3, len3, d3) :: u). split; [reflexivity|]. intros more.
    unfold formula_string. cbn [app next bind]. rewrite E1, bind_assoc, H1. cbn [next bind]. rewrite E3. cbn [bind]. apply U.
Qed.

Lemma Takes_plain : forall (r : result (sheet N)), Takes (fun rs => plain r rs).
Proof. intros r. unfold plain. apply Takes_const. intros. apply Takes_ret. Qed.

Lemma Takes_skip : forall sh : sheet N, Takes (fun rs => do rs <- skip_to_eof rs; Ok (sh, rs)).
Proof.
  intros sh rs. induction rs as [|[[rc len] d] rs IH]; intros a rs' H; cbn [skip_to_eof] in H; [discriminate|].
  destruct (rc =? XL_EOF) eqn:E.
  - cbn [bind] in H. injection H as <- <-. exists [(rc, len, d)]. split; [reflexivity|]. intros more. cbn [app skip_to_eof]. rewrite E. reflexivity.
  - destruct (IH _ _ H) as (u & -> & U). exists ((rc, len, d) :: u). split; [reflexivity|]. intros more. cbn [app skip_to_eof]. rewrite E. apply U.
Qed.

Lemma Takes_txo : forall d, Takes (fun rs => handle_txo (c_bv c) d rs).
Proof.
  intros d. unfold handle_txo. destruct (c_bv c <? 80); [apply Takes_ret|]. do 3 (apply Takes_const; intros ?).
  apply (Takes_bind (fun rs => txo_text rs _ 0 []) (fun text rs => do (runs, rs) <- txo_runs rs _ 0 []; Ok (Some (text, _), rs)) (Takes_txo_text _ _ _)). intros text.
  apply (Takes_bind (fun rs => txo_runs rs _ 0 []) (fun runs rs => Ok (Some (text, _), rs)) (Takes_txo_runs _ _ _)). intros. apply Takes_ret.
Qed.
Lemma Takes_note : forall txos m d, Takes (fun rs => handle_note (c_decode c) (c_bv c) txos m d rs).
Proof.
  intros txos m d. unfold handle_note. destruct (c_bv c <? 80).
  - do 4 (apply Takes_const; intros ?). cbv zeta. apply Takes_const; intros _.
    apply (Takes_bind (fun rs => note_pieces rs _ _) (fun raw rs => do text <- c_decode c raw; Ok (dset _ _ (mk_note _ _ text _ _ _ _ _ _), rs)) (Takes_note_pieces _ _)).
    intros raw. apply Takes_const; intros. apply Takes_ret.
  - do 5 (apply Takes_const; intros ?). apply Takes_const; intros [author endpos]. cbv zeta. apply Takes_const; intros _. destruct (dget Z.eqb _ _) as [[? ?]|]; apply Takes_ret.
Qed.

(** One turn of the loop depends only on the records that it takes. *)
Lemma Takes_step : forall sh rc len d, Takes (fun rs => step c sh rc len d rs).
Proof.
  intros sh rc len d. unfold step.
  repeat match goal with
  | |- Takes (fun rs => plain _ rs) => apply Takes_plain
  | |- Takes (fun rs => if is_formula_code _ then _ else _) => destruct (is_formula_code rc)
  | |- Takes (fun rs => h_formula _ _ _ rs) => fail 1
  | |- Takes (fun rs => if ?b then _ else _) => destruct b
  | |- Takes (fun rs => Ok (_, rs)) => apply Takes_ret
  | |- Takes (fun rs => bind (skip_to_eof rs) _) => apply Takes_skip
  | |- Takes (fun rs => bind (need _ _) _) => apply Takes_const; intros _
  | |- Takes (fun rs => bind (handle_hlink _ _) _) => apply Takes_const; intros ?
  | |- Takes (fun rs => bind (handle_quicktip _ _) _) => apply Takes_const; intros ?
  end.
  - unfold h_formula. cbv zeta. do 4 (apply Takes_const; intros ?).
    destruct (list_eqb _ _); [|apply Takes_const; intros; apply Takes_ret]. apply Takes_const; intros fb.
    destruct (fb =? 0). { apply (Takes_bind (formula_string c) (fun strg rs => do sh <- put c sh _ _ (Some XL_CELL_TEXT) (VText strg) _; Ok (sh, rs)) Takes_formula_string).
                          intros s. apply Takes_const. intros; apply Takes_ret. }
    destruct (fb =? 1); [do 2 (apply Takes_const; intros ?); apply Takes_ret|]. destruct (fb =? 2); [do 2 (apply Takes_const; intros ?); apply Takes_ret|].
    destruct (fb =? 3); [apply Takes_const; intros; apply Takes_ret|]. apply Takes_err.
  - unfold h_txo. intros r s r' H. apply bind_ok in H as ([t r1] & H1 & H). destruct (Takes_txo _ _ _ _ H1) as (u & -> & U). exists u.
    assert (r1 = r') as ->. { clear - H. inv_ok H; reflexivity. }
    split; [reflexivity|]. intros more. rewrite U. cbn [bind]. clear - H. revert H. destruct t as [t|]; [|intros [= <-]; reflexivity].
    destruct (o_saved (sh_obj sh)) as [[id|]|]; [destruct (id =? 0)| |]; intros H; congruence.
  - unfold h_note. cbv zeta. intros r s r' H. apply bind_ok in H as ([m r1] & H1 & H). injection H as <- <-.
    destruct (Takes_note _ _ _ _ _ _ H1) as (u & -> & U). exists u. split; [reflexivity|]. intros more. rewrite U. reflexivity.
Qed.

Lemma cut_used : forall u r' rs, r' <> [] -> cut_off (u ++ r') rs -> exists rest, rs = u ++ rest /\ cut_off r' rest.
Proof.
  induction u as [|x u IH]; intros r' rs NE H; [exists rs; split; [reflexivity|exact H]|]. cbn [app] in H. inversion H as [|? ? ? ? ? E1|? ? rs1 H1 E1 E2]; subst.
  - match goal with E : _ = u ++ r' |- _ => symmetry in E; destruct (app_eq_nil _ _ E); contradiction | E : u ++ r' = _ |- _ => destruct (app_eq_nil _ _ E); contradiction end.
  - destruct (IH _ _ NE H1) as (rest & -> & R). exists rest. split; [reflexivity|exact R].
Qed.

Lemma read_cut : forall n sh rs' rs sh', (length rs' <= n)%nat -> cut_off rs' rs -> read_all c sh rs' = Ok sh' -> read_all c sh rs = Ok sh'.
Proof.
  induction n as [|n IH]; intros sh rs' rs sh' L C H; (destruct rs' as [|[[rc len] d] t]; [discriminate|]); cbn [length] in L; [lia|].
  rewrite read_all_cons in H. destruct (rc =? XL_EOF) eqn:E.
  - inversion C; subst; rewrite read_all_cons, E; exact H.
  - apply bind_ok in H as ([sh1 t1] & S1 & H). assert (NE : t1 <> []) by (intros ->; discriminate).
    destruct (Takes_step _ _ _ _ _ _ _ S1) as (u & -> & U).
    inversion C as [|? ? ? ? ? E1|? ? rs1 C1 E1 E2]; subst.
    + match goal with E0 : _ = u ++ t1 |- _ => symmetry in E0; destruct (app_eq_nil _ _ E0); contradiction | E0 : u ++ t1 = _ |- _ => destruct (app_eq_nil _ _ E0); contradiction end.
    + destruct (cut_used _ _ _ NE C1) as (rest & -> & R). rewrite read_all_cons, E, U. cbn [bind].
      apply (IH sh1 t1 rest sh'); [rewrite app_length in L; lia|exact R|exact H].
Qed.

Theorem c103_sheet : forall countries rs' rs sh, cut_off rs' rs -> sheet_read c countries rs' = Ok sh -> sheet_read c countries rs = Ok sh.
Proof.
  intros countries rs' rs sh C H. unfold sheet_read in *. apply bind_ok in H as (sh1 & R & H).
  change (read_all c (sheet0 countries) rs' = Ok sh1) in R. change (read_loop c (S (length rs)) (sheet0 countries) rs) with (read_all c (sheet0 countries) rs).
  rewrite (read_cut (length rs') _ _ _ _ (le_n _) C R). cbn [bind]. exact H.
Qed.
End Step.
Print Assumptions c103_sheet.

