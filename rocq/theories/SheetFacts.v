(** Lemmas about the record loop: which records a turn of the loop consumes,
    and that the loop ends. *)
From Verif Require Import Base BaseFacts Utf16 Strings Framing StringFacts GridModel GridFacts SheetObjects SheetModel.

(** [f] reads a definite number of records and looks at no others. *)
Definition Local {A} (f : list record -> result (A * list record)) : Prop :=
  forall rs a rs', f rs = Ok (a, rs') ->
    exists used, rs = used ++ rs' /\ forall t, f (used ++ t) = Ok (a, t).

Lemma Local_ret : forall {A} (a : A), Local (fun rs => Ok (a, rs)).
Proof. intros A a rs a' rs' H. injection H as <- <-. exists []. split; reflexivity. Qed.

Lemma Local_err : forall {A} e, Local (fun rs => @Err (A * list record) e).
Proof. intros A e rs a' rs' H. discriminate. Qed.

Lemma Local_bind : forall {A B} (f : list record -> result (A * list record)) (g : A -> list record -> result (B * list record)),
  Local f -> (forall a, Local (g a)) -> Local (fun rs => do (a, rs) <- f rs; g a rs).
Proof.
  intros A B f g Hf Hg rs b rs' H. apply bind_ok in H as ((a & rs1) & H1 & H2).
  destruct (Hf _ _ _ H1) as (u1 & -> & F1). destruct (Hg a _ _ _ H2) as (u2 & -> & F2).
  exists (u1 ++ u2). split; [rewrite app_assoc; reflexivity|]. intros t. rewrite <- app_assoc, F1. cbn [bind]. apply F2.
Qed.

Lemma Local_ext : forall {A} (f g : list record -> result (A * list record)), (forall rs, f rs = g rs) -> Local f -> Local g.
Proof.
  intros A f g E H rs a rs' Hg. rewrite <- E in Hg. destruct (H _ _ _ Hg) as (u & -> & F). exists u. split; [reflexivity|].
  intros t. rewrite <- E. apply F.
Qed.

Lemma Local_then : forall {A B} (f : list record -> result (A * list record)) (k : A * list record -> result (B * list record)),
  Local f -> (forall a, Local (fun rs => k (a, rs))) -> Local (fun rs => bind (f rs) k).
Proof.
  intros A B f k Hf Hk. apply (Local_ext (fun rs => do (a, rs) <- f rs; (fun a rs => k (a, rs)) a rs)).
  - intros rs. destruct (f rs) as [[a r]|e]; reflexivity.
  - apply Local_bind; [exact Hf|exact Hk].
Qed.

Lemma Local_const : forall {A B} (m : result A) (g : A -> list record -> result (B * list record)),
  (forall a, Local (g a)) -> Local (fun rs => do a <- m; g a rs).
Proof. intros A B m g H. destruct m as [a|e]; [apply H|apply Local_err]. Qed.

Lemma Local_next : Local next.
Proof.
  intros [|r rs] a rs' H; [discriminate|]. injection H as <- <-. exists [r]. split; reflexivity.
Qed.

Lemma Local_plain : forall {N} (r : result (sheet N)), Local (fun rs => plain r rs).
Proof. intros N [a|e]; [apply Local_ret|apply Local_err]. Qed.

Lemma Local_txo_text : forall cch tot acc, Local (fun rs => txo_text rs cch tot acc).
Proof.
  intros cch tot acc rs. revert tot acc. induction rs as [|[[rc len] data] rs IH]; intros tot acc a rs' H.
  - cbn [txo_text] in H. destruct (tot <? cch) eqn:E; [discriminate|]. injection H as <- <-.
    exists []. split; [reflexivity|]. intros t. destruct t as [|[[? ?] ?] ?]; cbn [txo_text app]; rewrite E; reflexivity.
  - cbn [txo_text] in H. destruct (tot <? cch) eqn:E.
    + apply bind_ok in H as (? & H1 & H). apply bind_ok in H as (nb & H2 & H). apply bind_ok in H as (nchars & H3 & H).
      apply bind_ok in H as ((u & e) & H4 & H). apply bind_ok in H as (? & H5 & H).
      destruct (IH _ _ _ _ H) as (used & -> & F). exists ((rc, len, data) :: used). split; [reflexivity|].
      intros t. cbn [app txo_text]. rewrite E, H1, H2. cbn [bind]. rewrite H3. cbn [bind]. rewrite H4. cbn [bind].
      rewrite H5. cbn [bind]. apply F.
    + injection H as <- <-. exists []. split; [reflexivity|].
      intros t. destruct t as [|[[? ?] ?] ?]; cbn [txo_text app]; rewrite E; reflexivity.
Qed.

Lemma Local_txo_runs : forall cb tot acc, Local (fun rs => txo_runs rs cb tot acc).
Proof.
  intros cch tot acc rs. revert tot acc. induction rs as [|[[rc len] data] rs IH]; intros tot acc a rs' H.
  - cbn [txo_runs] in H. destruct (tot <? cch) eqn:E; [discriminate|]. injection H as <- <-.
    exists []. split; [reflexivity|]. intros t. destruct t as [|[[? ?] ?] ?]; cbn [txo_runs app]; rewrite E; reflexivity.
  - cbn [txo_runs] in H. destruct (tot <? cch) eqn:E.
    + apply bind_ok in H as (? & H1 & H). apply bind_ok in H as (nb & H2 & H). apply bind_ok in H as (nchars & H3 & H).
      destruct (IH _ _ _ _ H) as (used & -> & F). exists ((rc, len, data) :: used). split; [reflexivity|].
      intros t. cbn [app txo_runs]. rewrite E, H1. cbn [bind]. rewrite H2. cbn [bind]. rewrite H3. cbn [bind]. apply F.
    + injection H as <- <-. exists []. split; [reflexivity|].
      intros t. destruct t as [|[[? ?] ?] ?]; cbn [txo_runs app]; rewrite E; reflexivity.
Qed.

Lemma Local_note_pieces : forall ex acc, Local (fun rs => note_pieces rs ex acc).
Proof.
  intros ex acc rs. revert ex acc. induction rs as [|[[rc len] data] rs IH]; intros ex acc a rs' H.
  - cbn [note_pieces] in H. destruct (0 <? ex) eqn:E; [discriminate|]. destruct (ex =? 0) eqn:E0; [|discriminate].
    injection H as <- <-. exists []. split; [reflexivity|].
    intros t. destruct t as [|[[? ?] ?] ?]; cbn [note_pieces app]; rewrite E, E0; reflexivity.
  - cbn [note_pieces] in H. destruct (0 <? ex) eqn:E.
    + apply bind_ok in H as (? & H1 & H). apply bind_ok in H as (? & H2 & H). apply bind_ok in H as (? & H3 & H).
      apply bind_ok in H as (? & H4 & H). apply bind_ok in H as (? & H5 & H). apply bind_ok in H as (? & H6 & H).
      destruct (IH _ _ _ _ H) as (used & -> & F). exists ((rc, len, data) :: used). split; [reflexivity|].
      intros t. cbn [app note_pieces]. rewrite E, H1. cbn [bind]. rewrite H2. cbn [bind]. rewrite H3. cbn [bind].
      rewrite H4. cbn [bind]. rewrite H5. cbn [bind]. rewrite H6. cbn [bind]. apply F.
    + destruct (ex =? 0) eqn:E0; [|discriminate]. injection H as <- <-. exists []. split; [reflexivity|].
      intros t. destruct t as [|[[? ?] ?] ?]; cbn [note_pieces app]; rewrite E, E0; reflexivity.
Qed.

Section Facts.
Context {N : Type}.
Variable c : config N.

Lemma Local_string_loop : forall data ofs nexp nf acc, Local (fun rs => string_loop c rs data ofs nexp nf acc).
Proof.
  intros data ofs nexp nf acc rs. revert data ofs nf acc. induction rs as [|[[rc len] d] rs IH]; intros data ofs nf acc a rs' H.
  - cbn [string_loop] in H. apply bind_ok in H as (chunk & H1 & H).
    destruct (nf + zlen chunk =? nexp) eqn:E1; [|destruct (nf + zlen chunk >? nexp); discriminate].
    injection H as <- <-. exists []. split; [reflexivity|].
    intros t. destruct t as [|[[? ?] ?] ?]; cbn [string_loop app]; rewrite H1; cbn [bind]; rewrite E1; reflexivity.
  - cbn [string_loop] in H. apply bind_ok in H as (chunk & H1 & H).
    destruct (nf + zlen chunk =? nexp) eqn:E1.
    + injection H as <- <-. exists []. split; [reflexivity|].
      intros t. destruct t as [|[[? ?] ?] ?]; cbn [string_loop app]; rewrite H1; cbn [bind]; rewrite E1; reflexivity.
    + destruct (nf + zlen chunk >? nexp) eqn:E2; [discriminate|]. destruct (negb (rc =? XL_CONTINUE)) eqn:E3; [discriminate|].
      destruct (IH _ _ _ _ _ _ H) as (used & -> & F). exists ((rc, len, d) :: used). split; [reflexivity|].
      intros t. cbn [app string_loop]. rewrite H1. cbn [bind]. rewrite E1, E2, E3. apply F.
Qed.

Lemma Local_skip : Local (fun rs => do rs <- skip_to_eof rs; Ok (tt, rs)).
Proof.
  intros rs a rs' H. destruct a. apply bind_ok in H as (r & H & E). injection E as ->.
  revert rs' H. induction rs as [|[[rc len] d] rs IH]; intros rs' H; [discriminate|].
  cbn [skip_to_eof] in H. destruct (rc =? XL_EOF) eqn:E.
  - injection H as ->. exists [(rc, len, d)]. split; [reflexivity|]. intros t. cbn [app skip_to_eof]. rewrite E. reflexivity.
  - destruct (IH _ H) as (used & -> & F). exists ((rc, len, d) :: used). split; [reflexivity|].
    intros t. cbn [app skip_to_eof]. rewrite E. apply F.
Qed.

Lemma Local_record_contents : forall data, Local (fun rs => string_record_contents c rs data).
Proof. intros data. unfold string_record_contents. apply Local_const. intros a. apply Local_string_loop. Qed.

Lemma Local_formula_string : Local (formula_string c).
Proof.
  intros rs a rs' H. unfold formula_string in H. destruct rs as [|[[rc len] d] rs]; [discriminate|]. cbn [next bind] in H.
  destruct ((rc =? XL_STRING) || (rc =? XL_STRING_B2)) eqn:E1.
  - cbn [bind] in H. destruct (Local_record_contents _ _ _ _ H) as (u & -> & F).
    exists ((rc, len, d) :: u). split; [reflexivity|]. intros t. unfold formula_string. cbn [app next bind]. rewrite E1.
    cbn [bind]. apply F.
  - rewrite bind_assoc in H. apply bind_ok in H as (x & H1 & H).
    destruct rs as [|[[rc3 len3] d3] rs]; [discriminate|]. cbn [next bind] in H.
    destruct ((rc3 =? XL_STRING) || (rc3 =? XL_STRING_B2)) eqn:E3; [|discriminate]. cbn [bind] in H.
    destruct (Local_record_contents _ _ _ _ H) as (u & -> & F).
    exists ((rc, len, d) :: (rc3, len3, d3) :: u). split; [reflexivity|]. intros t. unfold formula_string.
    cbn [app next bind]. rewrite E1, H1. cbn [bind next]. rewrite E3. cbn [bind]. apply F.
Qed.

Lemma Local_h_formula : forall sh data, Local (fun rs => h_formula c sh data rs).
Proof.
  intros sh data. unfold h_formula. cbv zeta.
  apply Local_const; intros _. apply Local_const; intros rowx. apply Local_const; intros colx. apply Local_const; intros xf.
  destruct (list_eqb _ _); [|apply Local_const; intros; apply Local_ret].
  apply Local_const; intros fb.
  destruct (fb =? 0).
  { apply (Local_bind (formula_string c) (fun strg rs => do sh <- put c sh rowx colx (Some XL_CELL_TEXT) (VText strg) xf; Ok (sh, rs))); [apply Local_formula_string|].
    intros s. apply Local_const. intros; apply Local_ret. }
  destruct (fb =? 1); [apply Local_const; intros ?; apply Local_const; intros; apply Local_ret|].
  destruct (fb =? 2); [apply Local_const; intros ?; apply Local_const; intros; apply Local_ret|].
  destruct (fb =? 3); [apply Local_const; intros; apply Local_ret|]. apply Local_err.
Qed.

Lemma Local_handle_txo : forall bv data, Local (fun rs => handle_txo bv data rs).
Proof.
  intros bv data. unfold handle_txo. destruct (bv <? 80); [apply Local_ret|].
  apply Local_const; intros _. apply Local_const; intros cch. apply Local_const; intros cb.
  apply (Local_bind (fun rs => txo_text rs cch 0 []) (fun text rs => do (runs, rs) <- txo_runs rs cb 0 [];
      Ok (Some (text, rev (drop_ends cch (rev runs))), rs))); [apply Local_txo_text|]. intros text.
  apply (Local_bind (fun rs => txo_runs rs cb 0 []) (fun runs rs => Ok (Some (text, rev (drop_ends cch (rev runs))), rs)));
    [apply Local_txo_runs|]. intros; apply Local_ret.
Qed.

Lemma Local_h_txo : forall sh data, Local (fun rs => h_txo c sh data rs).
Proof.
  intros sh data. unfold h_txo. apply (Local_then _ _ (Local_handle_txo (c_bv c) data)).
  cbn beta iota zeta. intros [t|]; [|apply Local_ret]. destruct (o_saved (sh_obj sh)) as [[id|]|]; [|apply Local_ret|apply Local_err].
  destruct (id =? 0); apply Local_ret.
Qed.

Lemma Local_handle_note : forall dec bv txos m data, Local (fun rs => handle_note dec bv txos m data rs).
Proof.
  intros dec bv txos m data. unfold handle_note. destruct (bv <? 80).
  - do 4 (apply Local_const; intros ?). cbv zeta. apply Local_const; intros _.
    apply (Local_then _ _ (Local_note_pieces _ _)). cbn beta iota.
    intros raw. apply Local_const; intros text. apply Local_ret.
  - do 5 (apply Local_const; intros ?). apply Local_const; intros [author endpos]. cbv zeta. apply Local_const; intros _.
    destruct (dget Z.eqb txos _) as [[? ?]|]; apply Local_ret.
Qed.

Lemma Local_h_note : forall sh data, Local (fun rs => h_note c sh data rs).
Proof.
  intros sh data. unfold h_note. cbv zeta. apply (Local_then _ _ (Local_handle_note _ _ _ _ _)). cbn beta iota.
  intros m. apply Local_ret.
Qed.

Lemma Local_step : forall sh rc len data, Local (fun rs => step c sh rc len data rs).
Proof.
  intros sh rc len data. unfold step.
  repeat match goal with
  | |- Local (fun rs => plain _ rs) => apply Local_plain
  | |- Local (fun rs => if ?b then _ else _) => destruct b
  | |- Local (fun rs => h_formula _ _ _ rs) => apply Local_h_formula
  | |- Local (fun rs => h_txo _ _ _ rs) => apply Local_h_txo
  | |- Local (fun rs => h_note _ _ _ rs) => apply Local_h_note
  | |- Local (fun rs => Ok (_, rs)) => apply Local_ret
  | |- Local (fun rs => bind (need _ _) _) => apply Local_const; intros _
  | |- Local (fun rs => bind (handle_hlink _ _) _) => apply Local_const; intros ?
  | |- Local (fun rs => bind (handle_quicktip _ _) _) => apply Local_const; intros ?
  end.
  apply (Local_ext (fun rs => do (_, rs) <- (do rs <- skip_to_eof rs; Ok (tt, rs)); Ok (sh, rs))).
  { intros rs. destruct (skip_to_eof rs); reflexivity. }
  apply (Local_bind _ (fun _ rs => Ok (sh, rs)) Local_skip). intros _. apply Local_ret.
Qed.

Lemma step_length : forall sh rc len data rs sh' rs', step c sh rc len data rs = Ok (sh', rs') -> (length rs' <= length rs)%nat.
Proof.
  intros. destruct (Local_step _ _ _ _ _ _ _ H) as (used & -> & _). rewrite app_length. lia.
Qed.

(** ** The loop *)

(** More fuel than records changes nothing. *)
Lemma read_loop_fuel : forall f sh rs, (length rs < f)%nat -> read_loop c f sh rs = read_loop c (S (length rs)) sh rs.
Proof.
  assert (forall n f g sh rs, (length rs <= n)%nat -> (length rs < f)%nat -> (length rs < g)%nat ->
            read_loop c f sh rs = read_loop c g sh rs) as K.
  { induction n as [|n IH]; intros f g sh rs Hn Hf Hg.
    - destruct rs; [|cbn in Hn; lia]. destruct f; [lia|]. destruct g; [lia|]. reflexivity.
    - destruct f; [lia|]. destruct g; [lia|]. destruct rs as [|[[rc len] d] rs]; [reflexivity|].
      cbn [read_loop next bind]. destruct (rc =? XL_EOF); [reflexivity|].
      destruct (step c sh rc len d rs) as [[sh' rs']|e] eqn:E; [|reflexivity]. cbn [bind].
      apply step_length in E. cbn [length] in *. apply IH; lia. }
  intros. apply (K (length rs)); lia.
Qed.

Definition read_all (sh : sheet N) (rs : list record) : result (sheet N) := read_loop c (S (length rs)) sh rs.

Lemma read_all_cons : forall sh rc len d rs, read_all sh ((rc, len, d) :: rs) =
  if rc =? XL_EOF then Ok sh else do (sh, rs) <- step c sh rc len d rs; read_all sh rs.
Proof.
  intros. unfold read_all. cbn [length]. change (read_loop c (S (S (length rs))) sh ((rc, len, d) :: rs)) with
    (if rc =? XL_EOF then Ok sh else do (sh, rs0) <- step c sh rc len d rs; read_loop c (S (length rs)) sh rs0).
  destruct (rc =? XL_EOF); [reflexivity|].
  destruct (step c sh rc len d rs) as [[sh' rs']|e] eqn:E; [|reflexivity]. cbn [bind].
  apply step_length in E. apply read_loop_fuel. apply Nat.lt_succ_r. exact E.
Qed.

Lemma read_all_nil : forall sh, read_all sh [] = Err StructError.
Proof. reflexivity. Qed.

(** [ran sh rs trace sh' rs']: starting with [rs] still to read, the loop runs
    its turns on the records [trace] and then has [rs'] to read. *)
Inductive ran : sheet N -> list record -> list record -> sheet N -> list record -> Prop :=
| ran_nil : forall sh rs, ran sh rs [] sh rs
| ran_cons : forall sh rc len d rs sh1 rs1 tr sh2 rs2, rc <> XL_EOF -> step c sh rc len d rs = Ok (sh1, rs1) ->
    ran sh1 rs1 tr sh2 rs2 -> ran sh ((rc, len, d) :: rs) ((rc, len, d) :: tr) sh2 rs2.

Lemma ran_read : forall sh rs tr sh' rs', ran sh rs tr sh' rs' -> read_all sh rs = read_all sh' rs'.
Proof.
  intros sh rs tr sh' rs' H. induction H as [|sh rc len d rs sh1 rs1 tr sh2 rs2 Hrc Hs _ IH]; [reflexivity|].
  rewrite read_all_cons. destruct (rc =? XL_EOF) eqn:E; [lia|]. rewrite Hs. cbn [bind]. exact IH.
Qed.

Lemma ran_app : forall sh rs tr sh1 rs1 tr2 sh2 rs2, ran sh rs tr sh1 rs1 -> ran sh1 rs1 tr2 sh2 rs2 -> ran sh rs (tr ++ tr2) sh2 rs2.
Proof.
  intros sh rs tr sh1 rs1 tr2 sh2 rs2 H. revert tr2 sh2 rs2. induction H as [|? ? ? ? ? ? ? ? ? ? E S H IH]; intros tr2 shx rsx H2.
  - exact H2.
  - cbn [app]. eapply ran_cons; [exact E|exact S|]. apply IH. exact H2.
Qed.

Lemma ran_suffix : forall sh rs tr sh' rs', ran sh rs tr sh' rs' -> exists used, rs = used ++ rs'.
Proof.
  intros sh rs tr sh' rs' H. induction H as [|? ? ? ? ? ? ? ? ? ? E S H IH]; [exists []; reflexivity|].
  destruct IH as (u & ->). destruct (Local_step _ _ _ _ _ _ _ S) as (u1 & -> & _).
  exists ((rc, len, d) :: u1 ++ u). cbn [app]. rewrite app_assoc. reflexivity.
Qed.

(** What was run does not depend on what follows. *)
Lemma ran_local : forall sh a b tr sh', ran sh (a ++ b) tr sh' b -> forall t, ran sh (a ++ t) tr sh' t.
Proof.
  intros sh a b tr sh' H. remember (a ++ b) as rs eqn:Ers. remember b as b' eqn:Eb.
  revert a Ers. induction H as [|sh rc len d rs sh1 rs1 tr sh2 rs2 E S H IH]; intros a Ers t; subst.
  - assert (a = []) as -> by (apply (app_inv_tail b); symmetry; exact Ers). apply ran_nil.
  - destruct (ran_suffix _ _ _ _ _ H) as (a' & ->). destruct (Local_step _ _ _ _ _ _ _ S) as (u & -> & F).
    assert (a = (rc, len, d) :: u ++ a') as ->.
    { apply (app_inv_tail b). rewrite <- Ers. cbn [app]. rewrite app_assoc. reflexivity. }
    cbn [app]. rewrite <- app_assoc. eapply ran_cons; [exact E|apply F|]. apply IH; reflexivity.
Qed.

Lemma read_ran : forall sh rs sh', read_all sh rs = Ok sh' ->
  exists tr len d rest, ran sh rs tr sh' ((XL_EOF, len, d) :: rest).
Proof.
  intros sh rs. remember (length rs) as n eqn:En. revert sh rs En.
  induction n as [n IH] using (well_founded_induction Wf_nat.lt_wf). intros sh rs En sh' H.
  destruct rs as [|[[rc len] d] rs]; [discriminate|]. rewrite read_all_cons in H. destruct (rc =? XL_EOF) eqn:E.
  - injection H as <-. apply Z.eqb_eq in E. subst rc. exists [], len, d, rs. apply ran_nil.
  - apply bind_ok in H as ((sh1 & rs1) & S & H). pose proof (step_length _ _ _ _ _ _ _ S) as L.
    destruct (IH (length rs1) ltac:(subst n; cbn [length]; lia) sh1 rs1 eq_refl sh' H) as (tr & len' & d' & rest & R).
    exists ((rc, len, d) :: tr), len', d', rest. eapply ran_cons; [lia|exact S|exact R].
Qed.
End Facts.

(** ** The record list is what [get_record_parts] returns *)

Lemma get_record_parts_bounds : forall mem pos r pos', bytes mem -> get_record_parts mem pos = Ok (r, pos') ->
  - zlen mem <= pos /\ pos + 4 <= pos' /\ pos + 4 <= zlen mem.
Proof.
  intros mem pos r pos' HB H. unfold get_record_parts in H. cbv zeta in H.
  destruct (negb (zlen (py_slice mem pos (pos + 4)) =? 4)) eqn:E; [discriminate|].
  apply bind_ok in H as (code & H1 & H). apply bind_ok in H as (len & H2 & H). injection H as <- <-.
  apply unpack_u16_range in H2; [|exact HB]. rewrite py_slice_len in E. unfold py_bound in E.
  pose proof (zlen_nonneg mem).
  repeat match type of E with context[if ?b then _ else _] => destruct b eqn:? end; lia.
Qed.

Lemma get_record_parts_error : forall mem pos e, get_record_parts mem pos = Err e -> e = StructError.
Proof.
  intros mem pos e H. unfold get_record_parts, unpack_u16, unpack_le in H. cbv zeta in H.
  repeat match type of H with
  | (if ?b then _ else _) = _ => destruct b
  | bind (if ?b then _ else _) _ = _ => destruct b; cbn [bind] in H
  end; congruence.
Qed.

Lemma records_of_fuel : forall mem, bytes mem -> forall f g pos, (Z.max 0 (zlen mem - pos) < Z.of_nat f) ->
  Z.max 0 (zlen mem - pos) < Z.of_nat g -> records_of f mem pos = records_of g mem pos.
Proof.
  intros mem HB f. induction f as [|f IH]; intros g pos Hf Hg; [lia|]. destruct g as [|g]; [lia|].
  cbn [records_of]. destruct (get_record_parts mem pos) as [[r pos']|e] eqn:E; [|reflexivity].
  apply get_record_parts_bounds in E as (E1 & E2 & E3); [|exact HB]. f_equal. apply IH; lia.
Qed.

(** All records from [pos] on. *)
Definition stream (mem : list Z) (pos : Z) : list record := records_of (S (2 * length mem)) mem pos.

Lemma stream_next : forall mem pos, bytes mem ->
  match get_record_parts mem pos with
  | Ok (r, pos') => stream mem pos = r :: stream mem pos'
  | Err e => e = StructError /\ stream mem pos = []
  end.
Proof.
  intros mem pos HB. destruct (get_record_parts mem pos) as [[r pos']|e] eqn:E.
  - unfold stream. cbn [records_of]. rewrite E. f_equal. pose proof E as E'.
    apply get_record_parts_bounds in E' as (E1 & E2 & E3); [|exact HB].
    change (records_of (2 * length mem) mem pos' = records_of (S (2 * length mem)) mem pos').
    apply records_of_fuel; [exact HB|..]; unfold zlen in *; lia.
  - split; [eapply get_record_parts_error; exact E|]. unfold stream. cbn [records_of]. rewrite E. reflexivity.
Qed.

(** ** Every turn gives an answer *)

Lemma nofuel_guard : forall b e, e <> OutOfFuel -> nofuel (guard b e).
Proof. intros [] e H; [discriminate|]. cbn. intros E. apply H. congruence. Qed.
Lemma nofuel_need : forall d n, nofuel (need d n).
Proof. intros. apply nofuel_guard. discriminate. Qed.
#[export] Hint Resolve nofuel_need : nofuel.
#[export] Hint Extern 2 (nofuel (guard _ _)) => (apply nofuel_guard; discriminate) : nofuel.

Lemma nofuel_list_set : forall {A} (l : list A) i a, nofuel (list_set l i a).
Proof. intros. unfold list_set. nofuel. Qed.
#[export] Hint Resolve nofuel_list_set : nofuel.
Lemma nofuel_plane_set : forall {A} (p : list (list A)) r c a, nofuel (plane_set p r c a).
Proof. intros. unfold plane_set. nofuel. Qed.
Lemma nofuel_plane_get : forall {A} (p : list (list A)) r c, nofuel (plane_get p r c).
Proof. intros. unfold plane_get. nofuel. Qed.
Lemma nofuel_row_extend : forall {A} (p : list (list A)) r e, nofuel (row_extend p r e).
Proof. intros. unfold row_extend. nofuel. Qed.
Lemma nofuel_row_tail : forall {A} (p : list (list A)) r n e, nofuel (row_tail p r n e).
Proof. intros. unfold row_tail. nofuel. Qed.
#[export] Hint Resolve nofuel_plane_set nofuel_plane_get nofuel_row_extend nofuel_row_tail : nofuel.

Lemma nofuel_set3 : forall {V} fmt (g : @grid V) s e, set3 fmt g s = SetErr e -> e <> OutOfFuel.
Proof.
  intros V fmt g s e H. unfold set3, set_xf in H.
  pose proof (nofuel_plane_set (g_xfs g) (s_row s) (s_col s) (s_xf s)) as NF.
  repeat match goal with
  | H : (match ?x with _ => _ end) = _ |- _ => destruct x eqn:?
  end; try discriminate; unfold nofuel in NF; congruence.
Qed.

Lemma nofuel_put_unragged : forall {V} (ve : V) fmt mr mc g s, nofuel (put_cell_unragged ve fmt mr mc g s).
Proof.
  intros. unfold put_cell_unragged. destruct (set3 fmt g s) eqn:E0; [discriminate| |intros E; apply (nofuel_set3 _ _ _ _ E0); congruence].
  cbv zeta. apply nofuel_bind; [auto with nofuel|intros _ _]. apply nofuel_bind; [auto with nofuel|intros _ _].
  destruct (if s_col s + 1 >? g_ncols g then _ else _) as [ncols ffr].
  apply nofuel_bind; [nofuel|]. intros [[[nrows t'] v'] x'] _.
  match goal with |- context[set3 fmt ?g' s] => destruct (set3 fmt g' s) eqn:E1 end; try discriminate. intros E; apply (nofuel_set3 _ _ _ _ E1); congruence.
Qed.

Lemma nofuel_ragged_row : forall {A} (d : A) row ltr colx a, nofuel (ragged_row d row ltr colx a).
Proof. intros. unfold ragged_row. nofuel. Qed.
#[export] Hint Resolve nofuel_ragged_row : nofuel.

Lemma nofuel_put_ragged : forall {V} (ve : V) fmt mr mc g s, nofuel (put_cell_ragged ve fmt mr mc g s).
Proof.
  intros. unfold put_cell_ragged. cbv zeta. apply nofuel_bind; [auto with nofuel|intros _ _]. apply nofuel_bind; [auto with nofuel|intros _ _].
  destruct (if g_nrows g <? s_row s + 1 then _ else _) as [[[nrows t] v] x]. nofuel.
Qed.

Lemma nofuel_put_cell : forall {V} (ve : V) rg fmt mr mc g s, nofuel (put_cell ve rg fmt mr mc g s).
Proof. intros. unfold put_cell. destruct rg; [apply nofuel_put_ragged|apply nofuel_put_unragged]. Qed.
#[export] Hint Resolve nofuel_put_cell : nofuel.

Lemma nofuel_tidy : forall {V} (ve : V) rg fmt mr mc m g, nofuel (tidy_dimensions ve rg fmt mr mc m g).
Proof.
  intros. unfold tidy_dimensions. apply nofuel_bind.
  - destruct m; [discriminate|]. destruct (merged_extent _) as [nr nc]. nofuel.
  - intros g' _. destruct rg; [discriminate|]. cbv zeta.
    generalize (zrange 0 (if g_ffr g' =? -2 then g_nrows g' else g_ffr g')) as rows.
    generalize (g_ncols g') as nc. intros nc rows. revert g'. induction rows as [|r rows IH]; intros g'; [discriminate|].
    cbn [fix_rows]. apply nofuel_bind; [|intros; apply IH]. unfold fix_row. nofuel.
Qed.

Lemma nofuel_unpack_unicode : forall d p l, nofuel (unpack_unicode d p l).
Proof. intros. unfold unpack_unicode. nofuel. Qed.
Lemma nofuel_unpack_unicode_up : forall d p l k, nofuel (unpack_unicode_update_pos d p l k).
Proof. intros. unfold unpack_unicode_update_pos. nofuel. Qed.
#[export] Hint Resolve nofuel_unpack_unicode nofuel_unpack_unicode_up : nofuel.

Lemma nofuel_ranges : forall l d p a, nofuel (unpack_cell_range_address_list_update_pos l d p a).
Proof.
  intros. unfold unpack_cell_range_address_list_update_pos. destruct (negb _); [discriminate|].
  apply nofuel_bind; [auto with nofuel|]. intros n _. generalize (p + 2) as q. revert l.
  induction (Z.to_nat n) as [|k IH]; intros l q; [discriminate|]. cbn [cell_range_loop]. nofuel; apply IH.
Qed.
#[export] Hint Resolve nofuel_ranges : nofuel.

Section Ends.
Context {N : Type}.
Variable c : config N.
Hypothesis decode_total : forall b, nofuel (c_decode c b).
Hypothesis rk_total : forall b, nofuel (c_rk c b).
Hint Resolve decode_total rk_total : nofuel.

Lemma nofuel_put : forall sh r k t v x, nofuel (put c sh r k t v x).
Proof. intros. unfold put. nofuel. Qed.
Hint Resolve nofuel_put : nofuel.

Lemma nofuel_mapM : forall {A B} (f : A -> result B) l, (forall a, nofuel (f a)) -> nofuel (mapM f l).
Proof. intros A B f l H. induction l as [|a l IH]; cbn [mapM]; [discriminate|]. nofuel; apply H. Qed.

Lemma nofuel_get_nul : forall b o, nofuel (get_nul_terminated_unicode b o).
Proof. intros. unfold get_nul_terminated_unicode. nofuel. Qed.
Hint Resolve nofuel_get_nul : nofuel.
Lemma nofuel_url : forall b o, nofuel (url_moniker b o).
Proof. intros. unfold url_moniker. nofuel. Qed.
Lemma nofuel_file : forall b o, nofuel (file_moniker b o).
Proof. intros. unfold file_moniker. nofuel. Qed.
Hint Resolve nofuel_url nofuel_file : nofuel.
Lemma nofuel_hlink : forall l b, nofuel (handle_hlink l b).
Proof. intros. unfold handle_hlink, parse_hlink. nofuel. Qed.
Lemma nofuel_quicktip : forall l b, nofuel (handle_quicktip l b).
Proof. intros. unfold handle_quicktip. nofuel. Qed.

Lemma obj_step_next : forall data pos id af id' af' pos', bytes data -> obj_step data pos id af = Ok (ObjNext id' af' pos') -> pos + 4 <= pos'.
Proof.
  intros data pos id af id' af' pos' HB H. unfold obj_step in H. cbv zeta in H.
  apply bind_ok in H as (? & _ & H). apply bind_ok in H as (ft & _ & H). apply bind_ok in H as (cb & Hcb & H).
  apply unpack_u16_range in Hcb; [|exact HB].
  repeat match type of H with
  | (if ?b then _ else _) = _ => destruct b
  | bind _ _ = _ => apply bind_ok in H as (? & _ & H)
  end; try discriminate; injection H; intros; lia.
Qed.

Lemma nofuel_obj_step : forall d p i a, nofuel (obj_step d p i a).
Proof. intros. unfold obj_step. nofuel. Qed.

Lemma nofuel_obj_loop : forall data, bytes data -> forall f pos id af, 0 <= pos -> Z.max 0 (zlen data - pos) < Z.of_nat f ->
  nofuel (obj_loop f data pos id af).
Proof.
  intros data HB. induction f as [|f IH]; intros pos id af Hp Hf.
  - exfalso; lia.
  - cbn [obj_loop]. destruct (pos <? zlen data) eqn:E; [|discriminate].
    apply nofuel_bind; [apply nofuel_obj_step|]. intros [| |id' af' pos'] S; try discriminate.
    apply obj_step_next in S; [|exact HB]. apply IH; lia.
Qed.

Lemma nofuel_handle_obj : forall bv data, bytes data -> nofuel (handle_obj bv data).
Proof.
  intros bv data HB. unfold handle_obj. destruct (bv <? 80); [discriminate|].
  apply nofuel_obj_loop; [exact HB|lia|]. unfold zlen. lia.
Qed.

Lemma nofuel_txo_text : forall rs a b t, nofuel (txo_text rs a b t).
Proof. induction rs as [|[[? ?] ?] rs IH]; intros; cbn [txo_text]; nofuel. Qed.
Lemma nofuel_runs_loop : forall k d p, nofuel (runs_loop k d p).
Proof. induction k as [|k IH]; intros; cbn [runs_loop]; nofuel. Qed.
Hint Resolve nofuel_txo_text nofuel_runs_loop : nofuel.
Lemma nofuel_txo_runs : forall rs a b t, nofuel (txo_runs rs a b t).
Proof. induction rs as [|[[? ?] ?] rs IH]; intros; cbn [txo_runs]; nofuel. Qed.
Hint Resolve nofuel_txo_runs : nofuel.
Lemma nofuel_handle_txo : forall bv d rs, nofuel (handle_txo bv d rs).
Proof. intros. unfold handle_txo. nofuel. Qed.
Lemma nofuel_note_pieces : forall rs e acc, nofuel (note_pieces rs e acc).
Proof. induction rs as [|[[? ?] ?] rs IH]; intros; cbn [note_pieces]; nofuel. Qed.
Hint Resolve nofuel_handle_txo nofuel_note_pieces : nofuel.
Lemma nofuel_handle_note : forall bv t m d rs, nofuel (handle_note (c_decode c) bv t m d rs).
Proof. intros. unfold handle_note. nofuel. Qed.
Hint Resolve nofuel_handle_note : nofuel.
Lemma nofuel_string_loop : forall rs d o n f a, nofuel (string_loop c rs d o n f a).
Proof. induction rs as [|[[? ?] ?] rs IH]; intros; cbn [string_loop]; nofuel. Qed.
Hint Resolve nofuel_string_loop : nofuel.
Lemma nofuel_next : forall rs, nofuel (next rs).
Proof. intros []; discriminate. Qed.
Hint Resolve nofuel_next : nofuel.
Lemma nofuel_formula_string : forall rs, nofuel (formula_string c rs).
Proof. intros. unfold formula_string, string_record_contents. nofuel. Qed.
Hint Resolve nofuel_formula_string : nofuel.
Lemma nofuel_skip : forall rs, nofuel (skip_to_eof rs).
Proof. induction rs as [|[[? ?] ?] rs IH]; cbn [skip_to_eof]; nofuel. Qed.
Hint Resolve nofuel_skip : nofuel.
Lemma nofuel_rstring_runs : forall k d p w, nofuel (rstring_runs k d p w).
Proof. induction k as [|k IH]; intros; cbn [rstring_runs]; nofuel. Qed.
Hint Resolve nofuel_rstring_runs : nofuel.
Lemma nofuel_mulrk : forall cols sh r d p, nofuel (mulrk_loop c cols sh r d p).
Proof. induction cols as [|k cols IH]; intros; cbn [mulrk_loop]; nofuel. Qed.
Lemma nofuel_mulblank : forall cols sh r d p, nofuel (mulblank_loop c cols sh r d p).
Proof. induction cols as [|k cols IH]; intros; cbn [mulblank_loop]; nofuel. Qed.
Lemma nofuel_breaks : forall k d p l, nofuel (breaks_loop c k d p l).
Proof. induction k as [|k IH]; intros; cbn [breaks_loop]; nofuel. Qed.
Hint Resolve nofuel_mulrk nofuel_mulblank nofuel_breaks nofuel_hlink nofuel_quicktip nofuel_handle_obj : nofuel.

Lemma nofuel_step : forall sh rc len data rs, bytes data -> nofuel (step c sh rc len data rs).
Proof.
  intros sh rc len data rs HB. unfold step, plain.
  repeat (match goal with |- nofuel (if ?b then _ else _) => destruct b end).
  all: unfold h_number, h_labelsst, h_label, h_rstring, h_rk, h_mulrk, h_row, h_formula, h_boolerr, h_colinfo,
    h_defcolwidth, h_standardwidth, h_gcw, h_blank, h_mulblank, h_dimension, h_obj, h_txo, h_note, h_country,
    h_labelranges, h_condfmt, h_cf, h_defaultrowheight, h_mergedcells, h_window2, h_scl, h_pane, h_hbreaks, h_vbreaks,
    read_breaks, unpack_string, unpack_string_update_pos.
  all: nofuel.
  all: apply nofuel_mapM; intros; auto with nofuel.
Qed.

Lemma nofuel_read_all : forall rs sh, Forall (fun r : record => bytes (snd r)) rs -> nofuel (read_all c sh rs).
Proof.
  intros rs. remember (length rs) as n eqn:En. revert rs En.
  induction n as [n IH] using (well_founded_induction Wf_nat.lt_wf). intros rs En sh HB.
  destruct rs as [|[[rc len] d] rs]; [discriminate|]. rewrite read_all_cons. destruct (rc =? XL_EOF); [discriminate|].
  inversion HB; subst. apply nofuel_bind; [apply nofuel_step; assumption|]. intros [sh' rs'] S.
  destruct (Local_step c _ _ _ _ _ _ _ S) as (u & -> & _).
  apply (IH (length rs')); [cbn [length]; rewrite app_length; lia|reflexivity|].
  apply Forall_app in H2 as [_ H2]. exact H2.
Qed.
End Ends.
