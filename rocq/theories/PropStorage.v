(** C98: a workbook shows the same whether its stream is a bare file or stored, in whatever
    way, in a compound file. *)
From Verif Require Import Base BaseFacts Text Strings Utf16 StringFacts PropBytes Framing GridModel GridFacts PropGrid SheetObjects SheetModel SheetFacts SheetSteps
  PropSheet PropRead SheetTrace PropView PropRowCol PropLinks SheetOwn SstModel PropSst FormatModel FormatFacts PropFormat PropNumType FormulaModel CompDoc CompDocFacts CompDocOpen PropChain PropDir CompDocFull
  BookModel BookFacts PropBof PropEnc BookSheets BookRefs BookApi SheetShare
  BookHistory PropGlobals PropFormulaText PropDemand PropSheetList BookContent BookFormats BookFollow BookFine PropWorkbook PropRoundTrip PropFile PropAttrs NameValues.

(** ** A worksheet ends at its EOF record *)

Section Tail.
Context {N : Type}.
Variable c : config N.

(** The records of a worksheet, its EOF record, and what follows. *)
Definition R (l : list (Z * list Z)) (t : list record) : list record := map rec_of l ++ (0x0A, 0, []) :: t.

(** Reading some records does not depend on what follows EOF. *)
Definition U {A} (f : list record -> result (A * list record)) : Prop := forall l, closed false l ->
  (exists e, forall t, f (R l t) = Err e) \/
  (exists x l', closed false l' /\ (List.length l' <= List.length l)%nat /\ forall t, f (R l t) = Ok (x, R l' t)).

Lemma U_ret : forall {A} (x : A), U (fun rs => Ok (x, rs)).
Proof. intros A x l C. right. exists x, l. auto. Qed.
Lemma U_err : forall {A} e, U (fun _ => (Err e : result (A * list record))).
Proof. intros A e l C. left. exists e. reflexivity. Qed.
Lemma U_const : forall {A B} (r : result A) (f : A -> list record -> result (B * list record)),
  (forall a, U (f a)) -> U (fun rs => do a <- r; f a rs).
Proof. intros A B [a|e] f H; [exact (H a)|apply U_err]. Qed.
Lemma U_bind : forall {A B} (g : list record -> result (A * list record)) (f : A -> list record -> result (B * list record)),
  U g -> (forall a, U (f a)) -> U (fun rs => do (a, rs) <- g rs; f a rs).
Proof.
  intros A B g f G F l C. destruct (G l C) as [(e & E)|(x & l1 & C1 & L1 & E)].
  - left. exists e. intros t. rewrite E. reflexivity.
  - destruct (F x l1 C1) as [(e & E2)|(y & l2 & C2 & L2 & E2)].
    + left. exists e. intros t. rewrite E. cbn [bind]. apply E2.
    + right. exists y, l2. split; [exact C2|]. split; [lia|]. intros t. rewrite E. cbn [bind]. apply E2.
Qed.

(** The next record, which is not EOF nor BOF if it is taken. *)
Lemma U_next : forall {A} (f : list record -> result (A * list record)) (g : Z -> Z -> list Z -> list record -> result (A * list record)),
  (forall rc len d rs, f ((rc, len, d) :: rs) = g rc len d rs) ->
  (forall rc len d, rc = 0x0A \/ opens_stream rc = true -> exists e, forall rs, g rc len d rs = Err e) ->
  forall l, closed false l ->
  (forall rc d l', l = (rc, d) :: l' -> closed false l' -> opens_stream rc = false -> rc <> 0x0A ->
    (exists e, forall t, g rc (zlen d) d (R l' t) = Err e) \/
    (exists x l2, closed false l2 /\ (List.length l2 <= List.length l')%nat /\ forall t, g rc (zlen d) d (R l' t) = Ok (x, R l2 t))) ->
  (exists e, forall t, f (R l t) = Err e) \/
  (exists x l', closed false l' /\ (List.length l' <= List.length l)%nat /\ forall t, f (R l t) = Ok (x, R l' t)).
Proof.
  intros A f g FG SP l C H. destruct l as [|[rc d] l].
  - destruct (SP 0x0A 0 [] (or_introl eq_refl)) as (e & E). left. exists e. intros t. unfold R. cbn [map app]. rewrite FG. apply E.
  - cbn [closed] in C. destruct (Z.eqb_spec rc 0x0A) as [->|NE].
    { destruct (SP 0x0A (zlen d) d (or_introl eq_refl)) as (e & E). left. exists e. intros t. unfold R. cbn [map app]. unfold rec_of at 1. cbn [fst snd]. rewrite FG. apply E. }
    destruct (opens_stream rc) eqn:OS.
    { destruct (SP rc (zlen d) d (or_intror OS)) as (e & E). left. exists e. intros t. unfold R. cbn [map app]. unfold rec_of at 1. cbn [fst snd]. rewrite FG. apply E. }
    destruct (H rc d l eq_refl C OS NE) as [(e & E)|(x & l2 & C2 & L2 & E)].
    + left. exists e. intros t. unfold R. cbn [map app]. unfold rec_of at 1. cbn [fst snd]. rewrite FG. apply E.
    + right. exists x, l2. split; [exact C2|]. split; [cbn [List.length]; lia|]. intros t. unfold R at 1. cbn [map app]. unfold rec_of at 1. cbn [fst snd]. rewrite FG. apply E.
Qed.

Lemma special : forall rc, rc = 0x0A \/ opens_stream rc = true -> In rc [0x0A; 0x809; 0x409; 0x209; 0x9].
Proof.
  intros rc [->|H]; [left; reflexivity|]. unfold opens_stream in H. rewrite !orb_true_iff, !Z.eqb_eq in H. cbn. intuition.
Qed.
Ltac specials H := apply special in H; cbn in H; repeat destruct H as [<-|H]; [..|destruct H].

Lemma U_txo_text : forall cch tot text, U (fun rs => txo_text rs cch tot text).
Proof.
  intros cch tot text l. revert tot text. induction l as [|r l IH]; intros tot text C;
  (destruct (tot <? cch) eqn:E; [|right; eexists _, _; split; [exact C|]; split; [reflexivity|]; intros t;
     match goal with |- txo_text ?x _ _ _ = _ => destruct x end; cbn [txo_text]; rewrite E; reflexivity]).
  - left. exists AssertionError. intros t. cbn [R map app txo_text]. rewrite E. reflexivity.
  - eapply (U_next (fun rs => txo_text rs cch tot text)); [intros; cbn [txo_text]; rewrite E; reflexivity| |exact C|].
    + intros rc len d H. exists AssertionError. intros rs. cbv beta. specials H; reflexivity.
    + intros rc d l' [= -> ->] C' _ _. cbv beta.
      destruct (guard (rc =? XL_CONTINUE) AssertionError) as [?|e]; [|left; exists e; reflexivity]. cbn [bind].
      destruct (py_index d 0) as [nb|e]; [|left; exists e; reflexivity]. cbn [bind]. cbv zeta.
      match goal with |- context [bind ?r _] => destruct r as [n|e]; [|left; exists e; reflexivity] end. cbn [bind].
      match goal with |- context [bind ?r _] => destruct r as [[ut en]|e]; [|left; exists e; reflexivity] end. cbn [bind].
      match goal with |- context [bind ?r _] => destruct r as [?|e]; [|left; exists e; reflexivity] end. cbn [bind].
      apply IH. exact C'.
Qed.

Lemma U_txo_runs : forall cb tot runs, U (fun rs => txo_runs rs cb tot runs).
Proof.
  intros cb tot runs l. revert tot runs. induction l as [|r l IH]; intros tot runs C;
  (destruct (tot <? cb) eqn:E; [|right; eexists _, _; split; [exact C|]; split; [reflexivity|]; intros t;
     match goal with |- txo_runs ?x _ _ _ = _ => destruct x end; cbn [txo_runs]; rewrite E; reflexivity]).
  - left. exists AssertionError. intros t. cbn [R map app txo_runs]. rewrite E. reflexivity.
  - eapply (U_next (fun rs => txo_runs rs cb tot runs)); [intros; cbn [txo_runs]; rewrite E; reflexivity| |exact C|].
    + intros rc len d H. exists AssertionError. intros rs. cbv beta. specials H; reflexivity.
    + intros rc d l' [= -> ->] C' _ _. cbv beta.
      destruct (guard (rc =? XL_CONTINUE) AssertionError) as [?|e]; [|left; exists e; reflexivity]. cbn [bind].
      match goal with |- context [bind ?r _] => destruct r as [?|e]; [|left; exists e; reflexivity] end. cbn [bind].
      match goal with |- context [bind ?r _] => destruct r as [?|e]; [|left; exists e; reflexivity] end. cbn [bind].
      apply IH. exact C'.
Qed.

Lemma U_note_pieces : forall expected acc, U (fun rs => note_pieces rs expected acc).
Proof.
  intros ex acc l. revert ex acc. induction l as [|r l IH]; intros ex acc C;
  (destruct (0 <? ex) eqn:E; [|destruct (ex =? 0) eqn:E0; [right; eexists _, _; split; [exact C|]; split; [reflexivity|]|left; exists AssertionError]; intros t;
     match goal with |- note_pieces ?x _ _ = _ => destruct x end; cbn [note_pieces]; rewrite E, E0; reflexivity]).
  - left. exists AssertionError. intros t. cbn [R map app note_pieces]. rewrite E. reflexivity.
  - eapply (U_next (fun rs => note_pieces rs ex acc)); [intros; cbn [note_pieces]; rewrite E; reflexivity| |exact C|].
    + intros rc len d H. exists AssertionError. intros rs. cbv beta. specials H; reflexivity.
    + intros rc d l' [= -> ->] C' _ _. cbv beta.
      do 6 (match goal with |- context [bind ?r _] => destruct r as [?|e]; [|left; exists e; reflexivity] end; cbn [bind]).
      apply IH. exact C'.
Qed.

Lemma U_string_loop : forall data offset nexp nfound acc, U (fun rs => string_loop c rs data offset nexp nfound acc).
Proof.
  intros data offset nexp nfound acc l. revert data offset nfound acc. induction l as [|r l IH]; intros data offset nf acc C.
  - set (chunk := if c_bv c >=? 80 then do b <- py_index data offset; if Z.testbit b 0 then utf16_dec (py_from data (offset + 1)) else Ok (py_from data (offset + 1)) else c_decode c (py_from data offset)).
    destruct chunk as [ch|e] eqn:EC; [|left; exists e; intros t; cbn [R map app string_loop]; fold chunk; rewrite EC; reflexivity].
    destruct (nf + zlen ch =? nexp) eqn:E1; [right; eexists _, _; split; [exact C|]; split; [reflexivity|]; intros t; cbn [R map app string_loop]; fold chunk; rewrite EC; cbn [bind]; rewrite E1; reflexivity|].
    left. exists XLRDError. intros t. cbn [R map app string_loop]. fold chunk. rewrite EC. cbn [bind]. rewrite E1. destruct (_ >? _); reflexivity.
  - set (chunk := if c_bv c >=? 80 then do b <- py_index data offset; if Z.testbit b 0 then utf16_dec (py_from data (offset + 1)) else Ok (py_from data (offset + 1)) else c_decode c (py_from data offset)).
    destruct chunk as [ch|e] eqn:EC; [|left; exists e; intros t; cbn [R map app string_loop]; fold chunk; rewrite EC; reflexivity].
    destruct (nf + zlen ch =? nexp) eqn:E1; [right; eexists _, _; split; [exact C|]; split; [reflexivity|]; intros t; cbn [R map app string_loop]; fold chunk; rewrite EC; cbn [bind]; rewrite E1; reflexivity|].
    destruct (nf + zlen ch >? nexp) eqn:E2; [left; exists XLRDError; intros t; cbn [R map app string_loop]; fold chunk; rewrite EC; cbn [bind]; rewrite E1, E2; reflexivity|].
    eapply (U_next (fun rs => string_loop c rs data offset nexp nf acc)); [intros; cbn [string_loop]; fold chunk; rewrite EC; cbn [bind]; rewrite E1, E2; reflexivity| |exact C|].
    + intros rc len d H. exists XLRDError. intros rs. cbv beta. specials H; reflexivity.
    + intros rc d l' [= -> ->] C' _ _. cbv beta. destruct (negb (rc =? XL_CONTINUE)); [left; exists XLRDError; reflexivity|]. apply IH. exact C'.
Qed.
Lemma U_contents : forall data, U (fun rs => string_record_contents c rs data).
Proof. intros data. unfold string_record_contents. apply U_const. intros. apply U_string_loop. Qed.

Lemma U_formula_string : U (formula_string c).
Proof.
  intros l C. eapply (U_next (formula_string c)); [intros; unfold formula_string; cbn [next bind]; reflexivity| |exact C|].
  - intros rc len d H. exists XLRDError. intros rs. cbv beta. specials H; reflexivity.
  - intros rc d l' -> C' _ _. cbv beta. destruct ((rc =? XL_STRING) || (rc =? XL_STRING_B2)); [cbn [bind]; apply (U_contents d); exact C'|].
    match goal with |- context [bind (bind ?r _) _] => destruct r as [?|e]; [|left; exists e; reflexivity] end. cbn [bind].
    eapply (U_next (fun rs => do (data2, rs) <- do ((rc2, _, data2), rs) <- next rs; (if (rc2 =? XL_STRING) || (rc2 =? XL_STRING_B2) then Ok (data2, rs) else Err XLRDError); string_record_contents c rs data2));
      [intros; cbn [next bind]; reflexivity| |exact C'|].
    + intros rc2 len d2 H. exists XLRDError. intros rs. cbv beta. specials H; reflexivity.
    + intros rc2 d2 l2 -> C2 _ _. cbv beta. destruct ((rc2 =? XL_STRING) || (rc2 =? XL_STRING_B2)); [cbn [bind]; apply (U_contents d2); exact C2|left; exists XLRDError; reflexivity].
Qed.

Lemma U_plain : forall (r : result (sheet N)), U (fun rs => plain r rs).
Proof. intros r. unfold plain. apply U_const. intros. apply U_ret. Qed.

Lemma skip_closed : forall l, closed true l -> exists l', closed false l' /\ (List.length l' <= List.length l)%nat /\ forall t, skip_to_eof (R l t) = Ok (R l' t).
Proof.
  induction l as [|[rc d] l IH]; intros C; cbn [closed] in C; [discriminate|].
  unfold R. cbn [map app]. unfold rec_of at 1. cbn [fst snd skip_to_eof]. change XL_EOF with 0x0A. destruct (rc =? 0x0A); cbn [negb] in C.
  - exists l. split; [exact C|]. split; [cbn [List.length]; lia|]. reflexivity.
  - destruct (IH C) as (l' & C' & L' & E). exists l'. split; [exact C'|]. split; [cbn [List.length]; lia|]. exact E.
Qed.

Lemma step_tail : forall sh rc len d l, closed (opens_stream rc) l ->
  (exists e, forall t, step c sh rc len d (R l t) = Err e) \/
  (exists x l', closed false l' /\ (List.length l' <= List.length l)%nat /\ forall t, step c sh rc len d (R l t) = Ok (x, R l' t)).
Proof.
  intros sh rc len d l C. destruct (opens_stream rc) eqn:HB.
  { assert (E : forall rs, step c sh rc len d rs = do _ <- need d 4; do rs <- skip_to_eof rs; Ok (sh, rs)).
    { intros rs. unfold opens_stream in HB. rewrite !orb_true_iff, !Z.eqb_eq in HB. destruct HB as [[[->| ->]| ->]| ->]; reflexivity. }
    destruct (need d 4) as [?|e]; [|left; exists e; intros t; rewrite E; reflexivity].
    destruct (skip_closed l C) as (l' & C' & L' & S). right. exists sh, l'. split; [exact C'|]. split; [exact L'|]. intros t. rewrite E. cbn [bind]. rewrite S. reflexivity. }
  change (is_bof_code rc = false) in HB. revert l C.
  change (U (fun rs => step c sh rc len d rs)). unfold step. rewrite HB.
  repeat match goal with
  | |- U (fun rs => plain _ rs) => apply U_plain
  | |- U (fun rs => if is_formula_code _ then _ else _) => destruct (is_formula_code rc)
  | |- U (fun rs => h_formula _ _ _ rs) => fail 1
  | |- U (fun rs => if ?b then _ else _) => destruct b
  | |- U (fun rs => Ok (_, rs)) => apply U_ret
  | |- U (fun rs => bind (need _ _) _) => apply U_const; intros _
  | |- U (fun rs => bind (handle_hlink _ _) _) => apply U_const; intros ?
  | |- U (fun rs => bind (handle_quicktip _ _) _) => apply U_const; intros ?
  end.
  - unfold h_formula. cbv zeta. do 4 (apply U_const; intros ?).
    destruct (list_eqb _ _); [|apply U_const; intros; apply U_ret]. apply U_const; intros fb.
    destruct (fb =? 0). { apply (U_bind (formula_string c) (fun strg rs => do sh <- put c sh _ _ (Some XL_CELL_TEXT) (VText strg) _; Ok (sh, rs)) U_formula_string).
                          intros s. apply U_const. intros; apply U_ret. }
    destruct (fb =? 1); [do 2 (apply U_const; intros ?); apply U_ret|]. destruct (fb =? 2); [do 2 (apply U_const; intros ?); apply U_ret|].
    destruct (fb =? 3); [apply U_const; intros; apply U_ret|]. apply U_err.
  - unfold h_txo. cbv zeta.
    assert (P : U (fun rs => handle_txo (c_bv c) d rs)).
    { unfold handle_txo. destruct (c_bv c <? 80); [apply U_ret|]. do 3 (apply U_const; intros ?).
      apply (U_bind (fun rs => txo_text rs _ 0 []) (fun text rs => do (runs, rs) <- txo_runs rs _ 0 []; Ok (Some (text, _), rs)) (U_txo_text _ _ _)). intros text.
      apply (U_bind (fun rs => txo_runs rs _ 0 []) (fun runs rs => Ok (Some (text, _), rs)) (U_txo_runs _ _ _)). intros. apply U_ret. }
    apply (U_bind _ (fun txo rs => match txo with None => Ok (sh, rs) | Some t => match o_saved (sh_obj sh) with None => Err UnboundLocalError | Some None => Ok (sh, rs) | Some (Some id) => if id =? 0 then Ok (sh, rs) else Ok (with_obj sh _, rs) end end) P).
    intros [t|]; [|apply U_ret]. destruct (o_saved (sh_obj sh)) as [[id|]|]; [destruct (id =? 0); apply U_ret|apply U_ret|apply U_err].
  - unfold h_note. cbv zeta.
    apply (U_bind (fun rs => handle_note (c_decode c) (c_bv c) (o_txos (sh_obj sh)) (o_notes (sh_obj sh)) d rs) (fun m rs => Ok (with_obj sh _, rs))); [|intros; apply U_ret].
    unfold handle_note. destruct (c_bv c <? 80).
    + do 4 (apply U_const; intros ?). cbv zeta. apply U_const; intros _.
      apply (U_bind (fun rs => note_pieces rs _ _) (fun raw rs => do text <- c_decode c raw; Ok (dset _ _ (mk_note _ _ text _ _ _ _ _ _), rs)) (U_note_pieces _ _)).
      intros raw. apply U_const; intros. apply U_ret.
    + do 5 (apply U_const; intros ?). apply U_const; intros [author endpos]. cbv zeta. apply U_const; intros _. destruct (dget Z.eqb _ _) as [[? ?]|]; [apply U_ret|apply U_ret].
Qed.

Lemma loop_tail : forall n l sh, (List.length l <= n)%nat -> closed false l -> exists r, forall t fuel, (List.length l < fuel)%nat -> read_loop c fuel sh (R l t) = r.
Proof.
  induction n as [|n IH]; intros l sh L C; (destruct l as [|[rc d] l]; [exists (Ok sh); intros t [|f] F; [cbn in F; lia|reflexivity]|]); cbn [List.length] in L; [lia|].
  cbn [closed] in C. destruct (rc =? 0x0A) eqn:E.
  { exists (Ok sh). intros t [|f] F; [cbn in F; lia|]. unfold R. cbn [map app read_loop next bind]. unfold rec_of at 1. cbn [fst snd]. change XL_EOF with 0x0A. rewrite E. reflexivity. }
  destruct (step_tail sh rc (zlen d) d l C) as [(e & S)|(x & l' & C' & L' & S)].
  - exists (Err e). intros t [|f] F; [cbn in F; lia|]. unfold R. cbn [map app read_loop next bind]. unfold rec_of at 1. cbn [fst snd]. change XL_EOF with 0x0A. rewrite E. fold (R l t). rewrite S. reflexivity.
  - destruct (IH l' x ltac:(lia) C') as (r & HR). exists r. intros t [|f] F; cbn [List.length] in F; [lia|].
    unfold R. cbn [map app read_loop next bind]. unfold rec_of at 1. cbn [fst snd]. change XL_EOF with 0x0A. rewrite E. fold (R l t). rewrite S. cbn [bind]. apply HR. lia.
Qed.

Lemma read_tail : forall l k, closed false l -> exists r, forall t, sheet_read c k (R l t) = r.
Proof.
  intros l k C. destruct (loop_tail _ l (sheet0 k) (le_n _) C) as (r & H). eexists. intros t. unfold sheet_read. rewrite H; [reflexivity|].
  unfold R. rewrite app_length, map_length. cbn [List.length]. lia.
Qed.
End Tail.

(** ** The globals *)

Definition rmap {A B} (f : A -> B) (r : result A) : result B := match r with Ok a => Ok (f a) | Err e => Err e end.

Section Place.
Context {N : Type}.
Variable codec : list Z -> list Z -> result (list Z).
Variable ops : numops N.
Variable lower : list Z -> list Z.
Variable num8 : list Z -> N.
Variable rk : list Z -> result N.
Variable ragged : bool.
Notation loaded := (loaded (N := N)).
Notation api := (api (N := N)).
Notation book := (book N loaded).
Variable old : book -> list Z -> Z -> list Z -> Z -> result (shared * loaded).
Notation load := (load codec num8 rk ragged old).
Notation get_sheet := (get_sheet codec num8 rk ragged old).
Notation get_sheets_in := (get_sheets_in codec num8 rk ragged old).
Notation perform := (perform codec num8 rk ragged old).
Notation history := (history codec num8 rk ragged old).
Notation gstep := (gstep codec load).
Notation globals := (globals codec ops lower load).
Notation open_stream := (open_stream codec ops lower num8 rk ragged old).

(** A book whose stream starts [base] bytes later. *)
Definition moved (base : Z) (s : shst) : shst := mk_shst (sl_names s) (sl_visibility s) (map (fun p => p + base) (sl_posn s)) (sl_allmap s) (sl_num s).
Definition at_base (base : Z) (b : book) : book :=
  mk_book (bk_bv b) (bk_base b + base) (bk_shared b) (bk_sst b) (bk_rich b) (moved base (bk_sheets b)) (bk_refs b) (bk_names b) (bk_maps b) (bk_list b) (bk_hdr b) (bk_offset b).

Lemma derive_place : forall base (b : book), derive codec (at_base base b) = rmap (at_base base) (derive codec b).
Proof. intros base b. unfold derive. change (bk_bv (at_base base b)) with (bk_bv b). change (bk_enc (at_base base b)) with (bk_enc b). destruct (derive_encoding codec (bk_bv b) (bk_enc b)); reflexivity. Qed.
Lemma ensure_place : forall base (b : book), ensure codec (at_base base b) = rmap (at_base base) (ensure codec b).
Proof. intros base b. unfold ensure. change (bk_bv (at_base base b)) with (bk_bv b). change (bk_enc (at_base base b)) with (bk_enc b). destruct (ensure_encoding codec (bk_bv b) (bk_enc b)); reflexivity. Qed.
Lemma format_place : forall base (b : book) r, format_record codec (at_base base b) r = rmap (at_base base) (format_record codec b r).
Proof.
  intros base b r. unfold format_record. change (bk_fmt (at_base base b)) with (bk_fmt b). rewrite ensure_place.
  assert (E : forall x : result book, (do b1 <- rmap (at_base base) x; do f <- fstep (unicode codec (en_encoding (bk_enc b1))) (bk_fmt b1) r; Ok (with_fmt b1 f))
    = rmap (at_base base) (do b1 <- x; do f <- fstep (unicode codec (en_encoding (bk_enc b1))) (bk_fmt b1) r; Ok (with_fmt b1 f))).
  { intros [b1|e]; [|reflexivity]. cbn [rmap bind]. change (bk_enc (at_base base b1)) with (bk_enc b1). change (bk_fmt (at_base base b1)) with (bk_fmt b1).
    destruct (fstep _ _ _); reflexivity. }
  rewrite <- E. destruct r; try destruct (b_fmt (bk_fmt b)); reflexivity.
Qed.
Lemma boundsheet_place : forall base bv b0 offset enc s data, bv =? 45 = false ->
  handle_boundsheet codec bv (b0 + base) offset enc (moved base s) data = rmap (moved base) (handle_boundsheet codec bv b0 offset enc s data).
Proof.
  intros base bv b0 offset enc s data V. unfold handle_boundsheet. rewrite V.
  destruct (need data 6) as [?|]; [|reflexivity]. cbn [bind]. destruct (unpack_i32 data 0) as [o|]; [|reflexivity]. cbn [bind].
  destruct (unpack_le 1 data 4) as [v|]; [|reflexivity]. cbn [bind]. destruct (unpack_le 1 data 5) as [t|]; [|reflexivity]. cbn [bind].
  match goal with |- context [bind (bind ?r _) _] => destruct r as [name|]; [|reflexivity] end. cbn [bind].
  destruct (negb (t =? 0)); cbn [rmap]; unfold moved; cbn [sl_names sl_visibility sl_posn sl_allmap sl_num]; [reflexivity|].
  rewrite map_app. cbn [map]. rewrite Z.add_assoc. reflexivity.
Qed.

(** The records [l] of the globals at a position, up to EOF. *)
Definition here (l : list (Z * list Z)) (d m : list Z) (pos : Z) : Prop := exists post, At m pos (frames l ++ frame (0x0a, d) ++ post).

Lemma here_cons : forall rc data l d m pos, here ((rc, data) :: l) d m pos -> framable (rc, data) ->
  get_record_parts m pos = Ok ((rc, zlen data, data), pos + zlen (frame (rc, data))) /\ here l d m (pos + zlen (frame (rc, data))) /\
  (forall reqd, get_record_parts_conditional m pos reqd = if rc =? reqd then Ok (Some (rc, zlen data, data), pos + zlen (frame (rc, data))) else Ok (None, pos)).
Proof.
  intros rc data l d m pos (post & A) F. cbn [frames flat_map] in A. rewrite <- app_assoc in A. split; [exact (At_frame _ _ _ _ A F)|].
  split; [exists post; exact (At_skip _ _ _ _ _ A eq_refl)|]. intros reqd. exact (At_frame_cond _ _ _ _ reqd A F).
Qed.
Lemma here_nil : forall d m pos, here [] d m pos -> zlen d < 65536 ->
  get_record_parts m pos = Ok ((0x0a, zlen d, d), pos + zlen (frame (0x0a, d))) /\
  (forall reqd, get_record_parts_conditional m pos reqd = if 0x0a =? reqd then Ok (Some (0x0a, zlen d, d), pos + zlen (frame (0x0a, d))) else Ok (None, pos)).
Proof.
  intros d m pos (post & A) L. cbn [frames flat_map app] in A. assert (F : framable (0x0a, d)) by (split; cbn; lia).
  split; [exact (At_frame _ _ _ _ A F)|]. intros reqd. exact (At_frame_cond _ _ _ _ reqd A F).
Qed.
Lemma here_len : forall l d m pos, here l d m pos -> (List.length l < S (List.length m))%nat.
Proof.
  intros l d m pos (post & p & -> & _). rewrite !app_length. pose proof (frames_len l) as H. unfold zlen in H. lia.
Qed.

Lemma collect_place : forall d, zlen d < 65536 -> forall l acc, Forall framable l ->
  exists acc' cs l', l = cs ++ l' /\ forall m pos fuel, (List.length l < fuel)%nat -> here l d m pos ->
    exists p, collect_continue fuel m pos acc = Ok (acc', p) /\ here l' d m p.
Proof.
  intros d LD. induction l as [|[rc data] l IH]; intros acc F.
  - exists acc, [], []. split; [reflexivity|]. intros m pos [|f] L H; [lia|]. exists pos. split; [|exact H]. cbn [collect_continue].
    rewrite (proj2 (here_nil _ _ _ H LD)). reflexivity.
  - inversion F as [|? ? F1 F2]; subst. destruct (rc =? 60) eqn:E.
    + destruct (IH (acc ++ [data]) F2) as (acc' & cs & l' & -> & HH). exists acc', ((rc, data) :: cs), l'. split; [reflexivity|].
      intros m pos [|f] L H; cbn [List.length] in L; [lia|]. destruct (here_cons _ _ _ _ _ _ H F1) as (_ & H1 & HC).
      destruct (HH m _ f ltac:(lia) H1) as (p & P & HP). exists p. split; [|exact HP]. cbn [collect_continue]. rewrite HC, E. exact P.
    + exists acc, [], ((rc, data) :: l). split; [reflexivity|]. intros m pos [|f] L H; [cbn in L; lia|].
      destruct (here_cons _ _ _ _ _ _ H F1) as (_ & _ & HC). exists pos. split; [|exact H]. cbn [collect_continue]. rewrite HC, E. reflexivity.
Qed.

Lemma externsheet_place : forall d, zlen d < 65536 -> forall l reqd data, Forall framable l ->
  (exists e, forall m pos fuel, (List.length l < fuel)%nat -> here l d m pos -> externsheet_body fuel m pos reqd data = Err e) \/
  (exists data' cs l', l = cs ++ l' /\ forall m pos fuel, (List.length l < fuel)%nat -> here l d m pos ->
    exists p, externsheet_body fuel m pos reqd data = Ok (data', p) /\ here l' d m p).
Proof.
  intros d LD. induction l as [|[rc data] l IH]; intros reqd acc F;
  (destruct (negb (zlen acc <? reqd)) eqn:Q; [right; eexists acc, [], _; split; [reflexivity|]; intros m pos [|f] L H; [lia|]; exists pos; split; [cbn [externsheet_body]; rewrite Q; reflexivity|exact H]|]).
  - left. exists XLRDError. intros m pos [|f] L H; [lia|]. cbn [externsheet_body]. rewrite Q, (proj1 (here_nil _ _ _ H LD)). reflexivity.
  - inversion F as [|? ? F1 F2]; subst. destruct (negb (rc =? XL_CONTINUE)) eqn:E.
    + left. exists XLRDError. intros m pos [|f] L H; [cbn in L; lia|]. cbn [externsheet_body]. rewrite Q, (proj1 (here_cons _ _ _ _ _ _ H F1)). cbn [bind]. rewrite E. reflexivity.
    + destruct (IH reqd (acc ++ data) F2) as [(e & HH)|(data' & cs & l' & -> & HH)].
      * left. exists e. intros m pos [|f] L H; cbn [List.length] in L; [lia|]. destruct (here_cons _ _ _ _ _ _ H F1) as (HG & H1 & _).
        cbn [externsheet_body]. rewrite Q, HG. cbn [bind]. rewrite E. apply HH; [lia|exact H1].
      * right. exists data', ((rc, data) :: cs), l'. split; [reflexivity|]. intros m pos [|f] L H; cbn [List.length] in L; [lia|].
        destruct (here_cons _ _ _ _ _ _ H F1) as (HG & H1 & _). destruct (HH m _ f ltac:(lia) H1) as (p & P & HP). exists p. split; [|exact HP].
        cbn [externsheet_body]. rewrite Q, HG. cbn [bind]. rewrite E. exact P.
Qed.

(** One record. *)
Lemma gstep_place : forall d, zlen d < 65536 -> forall l (b : book) rc data, Forall framable l -> 50 <= bk_bv b -> rc <> 0x8f ->
  (exists e, forall base m pos, here l d m pos -> gstep (at_base base b) m pos rc data = Err e) \/
  (exists b' cs l', l = cs ++ l' /\ forall base m pos, here l d m pos -> exists p, gstep (at_base base b) m pos rc data = Ok (at_base base b', p) /\ here l' d m p).
Proof.
  intros d LD l b rc data F V NH.
  assert (Stay : forall f : book -> result book, (forall base, f (at_base base b) = rmap (at_base base) (f b)) ->
    (exists e, forall base m pos, here l d m pos -> (do b <- f (at_base base b); Ok (b, pos)) = Err e) \/
    (exists b' cs l', l = cs ++ l' /\ forall base m pos, here l d m pos -> exists p, (do b <- f (at_base base b); Ok (b, pos)) = Ok (at_base base b', p) /\ here l' d m p)).
  { intros f HF. destruct (f b) as [b'|e] eqn:E.
    - right. exists b', [], l. split; [reflexivity|]. intros base m pos H. exists pos. rewrite HF. split; [reflexivity|exact H].
    - left. exists e. intros base m pos H. rewrite HF. reflexivity. }
  unfold BookModel.gstep. cbv zeta.
  destruct (rc =? 0xfc).
  { unfold handle_sst. destruct (unpack_i32 data 4) as [u|e]; [|left; exists e; reflexivity]. cbn [bind].
    destruct (collect_place d LD l [] F) as (acc & cs & l' & EL & HC).
    destruct (unpack_SST_table data acc u) as [[st ru]|e] eqn:ES.
    - right. exists (with_sst b st (if b_fmt (bk_fmt b) then ru else bk_rich b)), cs, l'. split; [exact EL|]. intros base m pos H.
      destruct (HC m pos _ (here_len _ _ _ _ H) H) as (p & P & HP). exists p. split; [|exact HP]. rewrite P. cbn [bind]. rewrite ES. reflexivity.
    - left. exists e. intros base m pos H. destruct (HC m pos _ (here_len _ _ _ _ H) H) as (p & P & HP). rewrite P. cbn [bind]. rewrite ES. reflexivity. }
  destruct ((rc =? 0x31) || (rc =? 0x231)); [apply (Stay (fun b => format_record codec b (RFont data))); intros; apply format_place|].
  destruct (rc =? 0x41e); [apply (Stay (fun b => format_record codec b (RFormat data false))); intros; apply format_place|].
  destruct (rc =? 0xe0); [apply (Stay (fun b => format_record codec b (RXf data))); intros; apply format_place|].
  destruct (rc =? 0x85).
  { apply (Stay (fun b => do b <- derive codec b; do s <- handle_boundsheet codec (bk_bv b) (bk_base b) (bk_offset b) (en_encoding (bk_enc b)) (bk_sheets b) data; Ok (with_sheets b s))).
    intros base. rewrite derive_place. destruct (derive codec b) as [b1|e] eqn:D; [|reflexivity]. cbn [rmap bind].
    assert (V1 : bk_bv b1 = bk_bv b) by (destruct (derive_enc _ _ _ D) as (x & ->); reflexivity).
    change (bk_bv (at_base base b1)) with (bk_bv b1). change (bk_base (at_base base b1)) with (bk_base b1 + base). change (bk_offset (at_base base b1)) with (bk_offset b1).
    change (bk_enc (at_base base b1)) with (bk_enc b1). change (bk_sheets (at_base base b1)) with (moved base (bk_sheets b1)).
    rewrite boundsheet_place by lia. destruct (handle_boundsheet _ _ _ _ _ _ _); reflexivity. }
  destruct (rc =? 0x22).
  { apply (Stay (fun b => handle_datemode b data)). intros base. unfold handle_datemode. destruct (unpack_u16 data 0); [|reflexivity]. cbn [bind]. destruct (guard _ _); reflexivity. }
  destruct (rc =? 0x42).
  { apply (Stay (fun b => do s <- handle_codepage codec (bk_bv b) (bk_enc b) data; Ok (with_enc b s))). intros base.
    change (bk_bv (at_base base b)) with (bk_bv b). change (bk_enc (at_base base b)) with (bk_enc b). destruct (handle_codepage _ _ _ _); reflexivity. }
  destruct (rc =? 0x8c).
  { apply (Stay (fun b => handle_country b data)). intros base. unfold handle_country. destruct (need data 4); [|reflexivity]. cbn [bind].
    destruct (unpack_u16 data 0); [|reflexivity]. cbn [bind]. destruct (unpack_u16 data 2); [|reflexivity]. cbn [bind].
    change (bk_shared (at_base base b)) with (bk_shared b). destruct (guard _ _); reflexivity. }
  destruct (rc =? 0x23).
  { apply (Stay (fun b => do r <- handle_externname (bk_bv b) (bk_refs b) data; Ok (with_refs b r))). intros base.
    change (bk_bv (at_base base b)) with (bk_bv b). change (bk_refs (at_base base b)) with (bk_refs b). destruct (handle_externname _ _ _); reflexivity. }
  destruct (rc =? 0x17).
  { destruct (derive codec b) as [b1|e] eqn:D; [|left; exists e; intros base m pos _; rewrite derive_place, D; reflexivity].
    assert (DP : forall base, derive codec (at_base base b) = Ok (at_base base b1)) by (intros; rewrite derive_place, D; reflexivity).
    unfold handle_externsheet. destruct (bk_bv b1 >=? 80) eqn:V8.
    - destruct (unpack_u16 data 0) as [n|e] eqn:EN.
      2:{ left. exists e. intros base m pos _. rewrite DP. cbn [bind]. change (bk_bv (at_base base b1)) with (bk_bv b1). rewrite V8. reflexivity. }
      destruct (externsheet_place d LD l (n * 6 + 2) data F) as [(e & HC)|(dd & cs & l' & EL & HC)].
      { left. exists e. intros base m pos H. rewrite DP. cbn [bind]. change (bk_bv (at_base base b1)) with (bk_bv b1). rewrite V8. cbn [bind]. rewrite (HC m pos _ (here_len _ _ _ _ H) H). reflexivity. }
      destruct (externsheet_triples (Z.to_nat n) dd 2) as [tr|e] eqn:ET.
      + right. eexists (with_refs b1 _), cs, l'. split; [exact EL|]. intros base m pos H. destruct (HC m pos _ (here_len _ _ _ _ H) H) as (p & P & HP).
        exists p. split; [|exact HP]. rewrite DP. cbn [bind]. change (bk_bv (at_base base b1)) with (bk_bv b1). change (bk_refs (at_base base b1)) with (bk_refs b1). rewrite V8. cbn [bind]. rewrite P. cbn [bind]. rewrite ET. cbn [bind]. reflexivity.
      + left. exists e. intros base m pos H. destruct (HC m pos _ (here_len _ _ _ _ H) H) as (p & P & HP).
        rewrite DP. cbn [bind]. change (bk_bv (at_base base b1)) with (bk_bv b1). rewrite V8. cbn [bind]. rewrite P. cbn [bind]. rewrite ET. reflexivity.
    - destruct (need data 2) as [?|e] eqn:E1; [|left; exists e; intros base m pos _; rewrite DP; cbn [bind]; change (bk_bv (at_base base b1)) with (bk_bv b1); rewrite V8; reflexivity].
      destruct (unpack_le 1 data 0) as [nc|e] eqn:E2; [|left; exists e; intros base m pos _; rewrite DP; cbn [bind]; change (bk_bv (at_base base b1)) with (bk_bv b1); rewrite V8; reflexivity].
      destruct (unpack_le 1 data 1) as [ty|e] eqn:E3; [|left; exists e; intros base m pos _; rewrite DP; cbn [bind]; change (bk_bv (at_base base b1)) with (bk_bv b1); rewrite V8; reflexivity].
      cbn [bind].
      destruct (if ty =? 3 then do n <- unicode codec (en_encoding (bk_enc b1)) (py_slice data 2 (nc + 2)); Ok (dset (rf_extn_names (bk_refs b1)) (rf_count (bk_refs b1) + 1) n) else Ok (rf_extn_names (bk_refs b1))) as [names|e] eqn:E4.
      + right. eexists (with_refs b1 _), [], l. split; [reflexivity|]. intros base m pos H. exists pos. split; [|exact H]. rewrite DP. cbn [bind].
        change (bk_bv (at_base base b1)) with (bk_bv b1). change (bk_refs (at_base base b1)) with (bk_refs b1). change (bk_enc (at_base base b1)) with (bk_enc b1).
        rewrite V8, E4. cbn [bind]. reflexivity.
      + left. exists e. intros base m pos H. rewrite DP. cbn [bind].
        change (bk_bv (at_base base b1)) with (bk_bv b1). change (bk_refs (at_base base b1)) with (bk_refs b1). change (bk_enc (at_base base b1)) with (bk_enc b1).
        rewrite V8, E4. reflexivity. }
  destruct (rc =? 0x2f); [left; exists XLRDError; reflexivity|].
  destruct (rc =? 0x5c).
  { apply (Stay (fun b => do s <- handle_writeaccess codec (bk_bv b) (bk_enc b) data; Ok (with_enc b s))). intros base.
    change (bk_bv (at_base base b)) with (bk_bv b). change (bk_enc (at_base base b)) with (bk_enc b). destruct (handle_writeaccess _ _ _ _); reflexivity. }
  destruct (rc =? 0x8e).
  { apply (Stay (fun b => do _ <- guard (zlen data =? 4) StructError; do o <- unpack_i32 data 0; Ok (with_offset b o))). intros base.
    destruct (guard _ _); [|reflexivity]. cbn [bind]. destruct (unpack_i32 data 0); reflexivity. }
  replace (rc =? 0x8f) with false by lia.
  destruct (rc =? 0x1ae).
  { apply (Stay (fun b => do r <- handle_supbook (bk_refs b) data; Ok (with_refs b r))). intros base.
    change (bk_refs (at_base base b)) with (bk_refs b). destruct (handle_supbook _ _); reflexivity. }
  destruct (rc =? 0x18).
  { destruct (bk_bv b <? 50) eqn:V5; [lia|].
    destruct (Stay (fun b => do b <- derive codec b; do n <- handle_name codec (bk_bv b) (en_encoding (bk_enc b)) data; Ok (with_names b (bk_names b ++ [n])))) as [(e & HS)|(b' & cs & l' & EL & HS)].
    - intros base. rewrite derive_place. destruct (derive codec b) as [b1|e]; [|reflexivity]. cbn [rmap bind].
      change (bk_bv (at_base base b1)) with (bk_bv b1). change (bk_enc (at_base base b1)) with (bk_enc b1). destruct (handle_name _ _ _ _); reflexivity.
    - left. exists e. intros base m pos H. change (bk_bv (at_base base b)) with (bk_bv b). rewrite V5. exact (HS base m pos H).
    - right. exists b', cs, l'. split; [exact EL|]. intros base m pos H. change (bk_bv (at_base base b)) with (bk_bv b). rewrite V5. exact (HS base m pos H). }
  destruct (rc =? 0x92); [apply (Stay (fun b => format_record codec b (RPalette data))); intros; apply format_place|].
  destruct (rc =? 0x293); [apply (Stay (fun b => format_record codec b (RStyle data))); intros; apply format_place|].
  right. exists b, [], l. split; [reflexivity|]. intros base m pos H. exists pos. split; [reflexivity|exact H].
Qed.

Lemma end_place : forall base (b : book), globals_end codec ops lower (at_base base b) = rmap (at_base base) (globals_end codec ops lower b).
Proof.
  intros base b. unfold globals_end. cbv zeta.
  assert (E : names_epilogue codec ops lower (bk_bv (with_fmt (at_base base b) (xf_epilogue (bk_fmt (at_base base b))))) (en_encoding (bk_enc (with_fmt (at_base base b) (xf_epilogue (bk_fmt (at_base base b))))))
       (bk_sheets (with_fmt (at_base base b) (xf_epilogue (bk_fmt (at_base base b))))) (bk_refs (with_fmt (at_base base b) (xf_epilogue (bk_fmt (at_base base b))))) (bk_names (with_fmt (at_base base b) (xf_epilogue (bk_fmt (at_base base b)))))
     = names_epilogue codec ops lower (bk_bv (with_fmt b (xf_epilogue (bk_fmt b)))) (en_encoding (bk_enc (with_fmt b (xf_epilogue (bk_fmt b)))))
       (bk_sheets (with_fmt b (xf_epilogue (bk_fmt b)))) (bk_refs (with_fmt b (xf_epilogue (bk_fmt b)))) (bk_names (with_fmt b (xf_epilogue (bk_fmt b))))) by reflexivity.
  rewrite E. destruct (names_epilogue _ _ _ _ _ _ _ _) as [[names maps]|e]; [|reflexivity]. cbn [bind].
  match goal with |- (if truthy ?x then _ else _) = _ => match goal with |- _ = rmap _ (if truthy ?y then _ else _) => change x with y; destruct (truthy y) end end; [reflexivity|].
  match goal with |- _ = rmap _ (derive _ ?b1) => rewrite <- (derive_place base b1) end. reflexivity.
Qed.

Lemma globals_place : forall d, zlen d < 65536 -> forall n l (b : book), (List.length l <= n)%nat -> Forall framable l -> Forall (fun r => fst r <> 0x0a /\ fst r <> 0x8f) l -> 50 <= bk_bv b ->
  (exists e, forall base m pos fuel, (List.length l < fuel)%nat -> here l d m pos -> globals fuel (at_base base b) m pos = Err e) \/
  (exists b', forall base m pos fuel, (List.length l < fuel)%nat -> here l d m pos -> exists p, globals fuel (at_base base b) m pos = Ok (at_base base b', p)).
Proof.
  intros d LD. induction n as [|n IH]; intros l b L F NE V; destruct l as [|[rc data] l]; cbn [List.length] in L; try lia.
  1, 2: destruct (globals_end codec ops lower b) as [b'|e] eqn:E; [right; exists b'|left; exists e]; intros base m pos [|f] LF H; try lia;
    [eexists|]; cbn [BookModel.globals]; rewrite (proj1 (here_nil _ _ _ H LD)); cbn [bind]; change (0x0a =? 0x0a) with true; cbv iota; rewrite end_place, E; reflexivity.
  inversion F as [|? ? F1 F2]; subst. inversion NE as [|? ? [N1 N2] N3]; subst. cbn [fst] in N1, N2.
  destruct (gstep_place d LD l b rc data F2 V N2) as [(e & G)|(b1 & cs & l' & -> & G)].
  - left. exists e. intros base m pos [|f] LF H; [cbn in LF; lia|]. destruct (here_cons _ _ _ _ _ _ H F1) as (HG & H1 & _).
    cbn [BookModel.globals]. rewrite HG. cbn [bind]. replace (rc =? 0x0a) with false by lia. rewrite (G base m _ H1). reflexivity.
  - assert (V1 : 50 <= bk_bv b1).
    { destruct (G 0 (frames (cs ++ l') ++ frame (0x0a, d)) 0) as (p & G1 & _); [exists []; rewrite app_nil_r; apply At_0|].
      apply gstep_version in G1; [|exact N2]. change (bk_bv b1 = bk_bv b) in G1. lia. }
    apply Forall_app in F2 as [_ F2]. apply Forall_app in N3 as [_ N3]. rewrite app_length in L.
    destruct (IH l' b1 ltac:(lia) F2 N3 V1) as [(e & HI)|(b' & HI)]; [left; exists e|right; exists b'];
      intros base m pos [|f] LF H; try (cbn in LF; lia); destruct (here_cons _ _ _ _ _ _ H F1) as (HG & H1 & _);
      cbn [BookModel.globals]; rewrite HG; cbn [bind]; replace (rc =? 0x0a) with false by lia; destruct (G base m _ H1) as (p & -> & HP); cbn [bind];
      apply HI; try exact HP; cbn [List.length] in LF; rewrite app_length in LF; lia.
Qed.

(** ** Worksheets *)

Variable s : list Z.
(** Where the stream [s] is. *)
Definition placed (m : list Z) (base : Z) : Prop := bytes m /\ 0 <= base /\ exists post, At m base (s ++ post).
(** The worksheets listed are in the stream. *)
Definition inside (b : book) : Prop := 50 <= bk_bv b /\ forall p, In p (sl_posn (bk_sheets b)) -> 0 <= p /\ exists recs, sheet_at s p recs.

Lemma sheet_place : forall p recs, 0 <= p -> sheet_at s p recs -> exists v k, forall m base, placed m base ->
  exists t, getbof m (p + base) XL_WORKSHEET = Ok (v, p + base + k) /\ records_of (S (2 * List.length m)) m (p + base + k) = R recs t.
Proof.
  intros p recs P (op & body & v & t & A & LB & BS & WB & FR & CL). exists v, (4 + zlen body). intros m base (BM & PB & post & AM).
  pose proof (At_in _ _ _ _ _ _ AM A) as A2. rewrite <- !app_assoc in A2. destruct A2 as (before & EM & EP).
  assert (GB : getbof m (p + base) XL_WORKSHEET = Ok (v, p + base + 4 + zlen body)).
  { assert (PP : 0 <= p + base) by lia. apply (c47_getbof _ _ _ _ _ BM PP). exists op, body. split; [|split; [exact LB|]; split; [exact BS|]; split; [left; exact WB|reflexivity]].
    eexists before, _. split; [|symmetry; exact EP]. rewrite EM at 1. unfold frame. cbn [fst snd]. rewrite <- !app_assoc. reflexivity. }
  change (records_of (S (2 * List.length m)) m (p + base + (4 + zlen body))) with (stream m (p + base + (4 + zlen body))).
  assert (FR2 : Forall framable (recs ++ [(XL_EOF, [])])).
  { apply Forall_app; split; [exact FR|constructor; [split; [cbn [fst]; unfold XL_EOF; lia|reflexivity]|constructor]]. }
  assert (EM2 : m = (before ++ frame (op, body)) ++ frames (recs ++ [(XL_EOF, [])]) ++ t ++ post) by (rewrite EM at 1; rewrite <- app_assoc; reflexivity).
  eexists. split; [rewrite GB; f_equal; f_equal; lia|].
  replace (p + base + (4 + zlen body)) with (zlen (before ++ frame (op, body))) by (rewrite zlen_app; unfold frame; cbn [fst snd]; rewrite !zlen_app, !zlen_le_enc; lia).
  rewrite EM2 at 1. rewrite EM2 in BM. rewrite stream_frames by assumption. rewrite map_app, <- app_assoc. reflexivity.
Qed.

Lemma py_index_map : forall {A B} (f : A -> B) l i, py_index (map f l) i = rmap f (py_index l i).
Proof.
  intros A B f l i. rewrite !py_index_norm. assert (L : zlen (map f l) = zlen l) by (unfold zlen; rewrite map_length; reflexivity). rewrite L.
  rewrite znth_map. destruct (znth l _); reflexivity.
Qed.

Lemma get_sheet_place : forall b i, inside b ->
  (exists e, forall m base, placed m base -> get_sheet (at_base base b) m i = Err e) \/
  (exists b' sh, inside b' /\ forall m base, placed m base -> get_sheet (at_base base b) m i = Ok (at_base base b', sh)).
Proof.
  intros b i [V IN]. unfold BookApi.get_sheet.
  destruct (py_index (sl_posn (bk_sheets b)) i) as [p|e] eqn:E1.
  2:{ left. exists e. intros m base _. change (sl_posn (bk_sheets (at_base base b))) with (map (fun p => p + base) (sl_posn (bk_sheets b))). rewrite py_index_map, E1. reflexivity. }
  destruct (IN p) as (P & recs & SA). { apply py_index_ok in E1. apply znth_In in E1. exact E1. }
  destruct (sheet_place p recs P SA) as (v & k & HS). assert (CL : closed false recs) by (destruct SA as (_ & _ & _ & _ & _ & _ & _ & _ & _ & CL); exact CL).
  destruct (py_index (sl_names (bk_sheets b)) i) as [name|e] eqn:E2.
  2:{ left. exists e. intros m base PL. change (sl_posn (bk_sheets (at_base base b))) with (map (fun p => p + base) (sl_posn (bk_sheets b))). rewrite py_index_map, E1. cbn [rmap bind].
      destruct (HS m base PL) as (t & -> & _). cbn [bind]. change (sl_names (bk_sheets (at_base base b))) with (sl_names (bk_sheets b)). rewrite E2. reflexivity. }
  destruct (read_tail (config_of codec num8 rk ragged b) recs (g_countries (bk_shared b)) CL) as (r & HR).
  assert (LD : forall m base, placed m base -> exists q, getbof m (p + base) XL_WORKSHEET = Ok (v, q) /\
    load (at_base base b) m q name i = do vis <- py_index (sl_visibility (bk_sheets b)) i; do sh <- r; Ok (mk_shared (g_enc (bk_shared b)) (g_fmt (bk_shared b)) (sh_countries sh) (g_datemode (bk_shared b)), mk_loaded i name vis sh)).
  { intros m base PL. destruct (HS m base PL) as (t & GB & RE). eexists. split; [exact GB|]. unfold BookApi.load. change (bk_bv (at_base base b)) with (bk_bv b). replace (bk_bv b <=? 45) with false by lia.
    change (sl_visibility (bk_sheets (at_base base b))) with (sl_visibility (bk_sheets b)). change (bk_shared (at_base base b)) with (bk_shared b).
    change (config_of codec num8 rk ragged (at_base base b)) with (config_of codec num8 rk ragged b). cbv zeta. rewrite RE, HR. reflexivity. }
  destruct (do vis <- py_index (sl_visibility (bk_sheets b)) i; do sh <- r; Ok (mk_shared (g_enc (bk_shared b)) (g_fmt (bk_shared b)) (sh_countries sh) (g_datemode (bk_shared b)), mk_loaded i name vis sh)) as [[g sh]|e].
  2:{ left. exists e. intros m base PL. change (sl_posn (bk_sheets (at_base base b))) with (map (fun p => p + base) (sl_posn (bk_sheets b))). rewrite py_index_map, E1. cbn [rmap bind].
      destruct (LD m base PL) as (q & -> & LQ). cbn [bind]. change (sl_names (bk_sheets (at_base base b))) with (sl_names (bk_sheets b)). rewrite E2. cbn [bind]. rewrite LQ. reflexivity. }
  destruct (list_set (bk_list b) i (Some sh)) as [l|e] eqn:E3.
  - right. exists (with_list (with_shared b g) l), sh. split; [split; [exact V|exact IN]|]. intros m base PL.
    change (sl_posn (bk_sheets (at_base base b))) with (map (fun p => p + base) (sl_posn (bk_sheets b))). rewrite py_index_map, E1. cbn [rmap bind].
    destruct (LD m base PL) as (q & -> & LQ). cbn [bind]. change (sl_names (bk_sheets (at_base base b))) with (sl_names (bk_sheets b)). rewrite E2. cbn [bind]. rewrite LQ. cbn [bind].
    change (bk_list (at_base base b)) with (bk_list b). rewrite E3. reflexivity.
  - left. exists e. intros m base PL.
    change (sl_posn (bk_sheets (at_base base b))) with (map (fun p => p + base) (sl_posn (bk_sheets b))). rewrite py_index_map, E1. cbn [rmap bind].
    destruct (LD m base PL) as (q & -> & LQ). cbn [bind]. change (sl_names (bk_sheets (at_base base b))) with (sl_names (bk_sheets b)). rewrite E2. cbn [bind]. rewrite LQ. cbn [bind].
    change (bk_list (at_base base b)) with (bk_list b). rewrite E3. reflexivity.
Qed.

Lemma get_sheets_place : forall numbers b, inside b ->
  (exists e, forall m base, placed m base -> get_sheets_in (at_base base b) m numbers = Err e) \/
  (exists b', inside b' /\ forall m base, placed m base -> get_sheets_in (at_base base b) m numbers = Ok (at_base base b')).
Proof.
  induction numbers as [|i numbers IH]; intros b I; cbn [BookApi.get_sheets_in]; [right; exists b; auto|].
  destruct (get_sheet_place b i I) as [(e & G)|(b1 & sh & I1 & G)].
  - left. exists e. intros m base PL. rewrite (G m base PL). reflexivity.
  - destruct (IH b1 I1) as [(e & H)|(b' & I' & H)]; [left; exists e|right; exists b'; split; [exact I'|]]; intros m base PL; rewrite (G m base PL); cbn [bind]; apply H; exact PL.
Qed.

(** ** Calls *)

Definition api_at (m : list Z) (base : Z) (b : book) (alive : bool) : api := mk_api (at_base base b) (if alive then Some m else None).
(** What an operation on the book at its place gives does not depend on the place. *)
Definition fixed {A} (f : list Z -> Z -> A * api) : Prop := exists r b' alive, inside b' /\ forall m base, placed m base -> f m base = (r, api_at m base b' alive).

Lemma fixed_same : forall {A} (r : A) b alive, inside b -> fixed (fun m base => (r, api_at m base b alive)).
Proof. intros A r b alive I. exists r, b, alive. auto. Qed.

Lemma fixed_get : forall after b alive i, inside b -> fixed (fun m base => m_get_sheet codec num8 rk ragged old after (api_at m base b alive) i).
Proof.
  intros after b alive i I. unfold m_get_sheet. cbn [api_at a_mem a_book]. destruct alive; [|exact (fixed_same (Err XLRDError) b false I)].
  destruct (get_sheet_place b i I) as [(e & G)|(b1 & sh & I1 & G)].
  - exists (Err e), (set_countries b (countries_after after b)), true. split; [exact I|]. intros m base PL. rewrite (G m base PL). reflexivity.
  - exists (Ok sh), b1, true. split; [exact I1|]. intros m base PL. rewrite (G m base PL). reflexivity.
Qed.

Lemma fixed_index : forall after b alive i, inside b -> fixed (fun m base => m_sheet_by_index codec num8 rk ragged old after (api_at m base b alive) i).
Proof.
  intros after b alive i I. unfold m_sheet_by_index. cbn [api_at a_book]. change (fun (m : list Z) (base : Z) => match py_index (bk_list (at_base base b)) i with Err e => _ | Ok (Some sh) => _ | Ok None => _ end)
    with (fun (m : list Z) (base : Z) => match py_index (bk_list b) i with Err e => (Err e, api_at m base b alive) | Ok (Some sh) => (Ok sh, api_at m base b alive) | Ok None => m_get_sheet codec num8 rk ragged old after (api_at m base b alive) i end).
  destruct (py_index (bk_list b) i) as [[sh|]|e]; [apply fixed_same; exact I|apply fixed_get; exact I|apply fixed_same; exact I].
Qed.

Lemma fixed_iterate : forall after numbers b alive, inside b -> fixed (fun m base => m_iterate codec num8 rk ragged old after (api_at m base b alive) numbers).
Proof.
  intros after. induction numbers as [|i numbers IH]; intros b alive I; cbn [m_iterate]; [apply fixed_same; exact I|].
  destruct (fixed_index after b alive i I) as (r & b1 & al1 & I1 & H1). destruct r as [sh|e].
  - destruct (IH b1 al1 I1) as (r2 & b2 & al2 & I2 & H2). destruct r2 as [l|e]; [exists (Ok (Some sh :: l))|exists (Err e)]; exists b2, al2; (split; [exact I2|]); intros m base PL; rewrite (H1 m base PL), (H2 m base PL); reflexivity.
  - exists (Err e), b1, al1. split; [exact I1|]. intros m base PL. rewrite (H1 m base PL). reflexivity.
Qed.

Lemma fixed_all : forall after numbers b alive, inside b -> fixed (fun m base => m_load_all codec num8 rk ragged old after (api_at m base b alive) numbers).
Proof.
  intros after. induction numbers as [|i numbers IH]; intros b alive I; cbn [m_load_all]; [apply fixed_same; exact I|].
  destruct (py_index (bk_list b) i) as [[sh|]|e] eqn:E.
  - destruct (IH b alive I) as (r2 & b2 & al2 & I2 & H2). exists r2, b2, al2. split; [exact I2|]. intros m base PL. cbn [api_at a_book]. change (bk_list (at_base base b)) with (bk_list b). rewrite E. exact (H2 m base PL).
  - destruct (fixed_get after b alive i I) as (r & b1 & al1 & I1 & H1). destruct r as [sh|e].
    + destruct (IH b1 al1 I1) as (r2 & b2 & al2 & I2 & H2). exists r2, b2, al2. split; [exact I2|]. intros m base PL. cbn [api_at a_book]. change (bk_list (at_base base b)) with (bk_list b). rewrite E.
      fold (api_at m base b alive). rewrite (H1 m base PL). exact (H2 m base PL).
    + exists (Err e), b1, al1. split; [exact I1|]. intros m base PL. cbn [api_at a_book]. change (bk_list (at_base base b)) with (bk_list b). rewrite E. fold (api_at m base b alive). rewrite (H1 m base PL). reflexivity.
  - exists (Err e), b, alive. split; [exact I|]. intros m base PL. cbn [api_at a_book]. change (bk_list (at_base base b)) with (bk_list b). rewrite E. reflexivity.
Qed.

Lemma fixed_unload : forall b alive i, inside b -> fixed (fun m base => m_unload (api_at m base b alive) i).
Proof.
  intros b alive i I. unfold m_unload. destruct (list_set (bk_list b) i None) as [l|e] eqn:E.
  - exists (Ok Done), (with_list b l), alive. split; [exact I|]. intros m base PL. cbn [api_at a_book a_mem]. change (bk_list (at_base base b)) with (bk_list b). rewrite E. reflexivity.
  - exists (Err e), b, alive. split; [exact I|]. intros m base PL. cbn [api_at a_book a_mem]. change (bk_list (at_base base b)) with (bk_list b). rewrite E. reflexivity.
Qed.

Lemma fixed_got : forall f, fixed f -> fixed (fun m base => got (f m base)).
Proof.
  intros f (r & b & al & I & H). destruct r as [sh|e]; [exists (Ok (Got sh))|exists (Err e)]; exists b, al; (split; [exact I|]); intros m base PL; rewrite (H m base PL); reflexivity.
Qed.

Lemma fixed_perform : forall after b alive q, inside b -> fixed (fun m base => perform after (api_at m base b alive) q).
Proof.
  intros after b alive q I. unfold BookApi.perform. cbv zeta.
  assert (NM : forall m base, sl_names (bk_sheets (a_book (api_at m base b alive))) = sl_names (bk_sheets b)) by reflexivity.
  destruct q as [i|name| | |i|name|i|name|].
  - apply fixed_got, fixed_index. exact I.
  - destruct (index_of (sl_names (bk_sheets b)) name) as [i|e] eqn:E.
    + destruct (fixed_got _ (fixed_index after b alive i I)) as (r & b1 & al & I1 & H). exists r, b1, al. split; [exact I1|]. intros m base PL. rewrite NM, E. exact (H m base PL).
    + exists (Err e), b, alive. split; [exact I|]. intros m base PL. rewrite NM, E. reflexivity.
  - destruct (fixed_all after (zrange 0 (zlen (bk_list b))) b alive I) as (r & b1 & al & I1 & H). destruct r as [?|e]; [exists (Ok (GotAll (bk_list b1)))|exists (Err e)]; exists b1, al; (split; [exact I1|]);
      intros m base PL; change (nsheets (api_at m base b alive)) with (zlen (bk_list b)); rewrite (H m base PL); reflexivity.
  - destruct (fixed_iterate after (zrange 0 (zlen (bk_list b))) b alive I) as (r & b1 & al & I1 & H). destruct r as [l|e]; [exists (Ok (GotAll l))|exists (Err e)]; exists b1, al; (split; [exact I1|]);
      intros m base PL; change (nsheets (api_at m base b alive)) with (zlen (bk_list b)); rewrite (H m base PL); reflexivity.
  - exact (fixed_same (m_loaded (api_at [] 0 b alive) i) b alive I).
  - destruct (index_of (sl_names (bk_sheets b)) name) as [i|e] eqn:E.
    + exists (m_loaded (api_at [] 0 b alive) i), b, alive. split; [exact I|]. intros m base PL. rewrite NM, E. reflexivity.
    + exists (Err e), b, alive. split; [exact I|]. intros m base PL. rewrite NM, E. reflexivity.
  - apply fixed_unload. exact I.
  - destruct (index_of (sl_names (bk_sheets b)) name) as [i|e] eqn:E.
    + destruct (fixed_unload b alive i I) as (r & b1 & al & I1 & H). exists r, b1, al. split; [exact I1|]. intros m base PL. rewrite NM, E. exact (H m base PL).
    + exists (Err e), b, alive. split; [exact I|]. intros m base PL. rewrite NM, E. reflexivity.
  - exists (Ok Done), b, false. split; [exact I|]. reflexivity.
Qed.

Lemma fixed_history : forall h b alive, inside b -> fixed (fun m base => history (api_at m base b alive) h).
Proof.
  induction h as [|[q after] h IH]; intros b alive I; cbn [BookApi.history]; [apply fixed_same; exact I|].
  destruct (fixed_perform after b alive q I) as (r & b1 & al1 & I1 & H1). destruct (IH b1 al1 I1) as (rs & b2 & al2 & I2 & H2).
  exists (r :: rs), b2, al2. split; [exact I2|]. intros m base PL. rewrite (H1 m base PL), (H2 m base PL). reflexivity.
Qed.

(** ** Opening *)

Lemma open_place : forall bv rs ov fmt, book_stream s bv rs -> 50 <= bv ->
  (exists e, forall m base fuel, placed m base -> (List.length rs < fuel)%nat -> open_stream fuel m base ov fmt true = Err e /\ open_stream fuel m base ov fmt false = Err e) \/
  (exists b, 50 <= bk_bv b /\ forall m base fuel, placed m base -> (List.length rs < fuel)%nat -> open_stream fuel m base ov fmt true = Ok (api_at m base b true) /\
    open_stream fuel m base ov fmt false = do b <- get_sheets_in (at_base base b) m (zrange 0 (zlen (sl_names (bk_sheets b)))); Ok (mk_api b None)).
Proof.
  intros bv rs ov fmt (op & body & d & rest & E & LB & BS & W & FR & LD & NE) V.
  assert (GB : forall m base, placed m base -> getbof m base XL_WORKBOOK_GLOBALS = Ok (bv, base + 4 + zlen body) /\ here rs d m (base + 4 + zlen body)).
  { intros m base (BM & PB & post & A). subst s. rewrite <- !app_assoc in A. split.
    - apply c47_getbof; [exact BM|exact PB|]. exists op, body. split; [|split; [exact LB|]; split; [exact BS|]; split; [left; exact W|reflexivity]].
      destruct A as (p & -> & ->). exists p, (frames rs ++ frame (0x0a, d) ++ rest ++ post). split; [|reflexivity]. unfold frame at 1. cbn [fst snd]. rewrite <- !app_assoc. reflexivity.
    - exists (rest ++ post). apply (At_skip _ _ _ _ (base + 4 + zlen body)) in A; [exact A|]. unfold frame. cbn [fst snd]. rewrite !zlen_app, !zlen_le_enc. lia. }
  assert (B0 : forall base, @book0 N loaded bv base fmt ov = rmap (at_base base) (book0 bv 0 fmt ov)) by (intros base; unfold book0; destruct (fbook0 bv fmt); reflexivity).
  unfold BookApi.open_stream.
  destruct (guard (negb (bv =? 0)) XLRDError) as [?|e] eqn:G1; [|left; exists e; intros m base fuel PL LF; rewrite (proj1 (GB m base PL)); cbn [bind]; rewrite G1; split; reflexivity].
  destruct (guard (existsb (Z.eqb bv) SUPPORTED_VERSIONS) XLRDError) as [?|e] eqn:G2; [|left; exists e; intros m base fuel PL LF; rewrite (proj1 (GB m base PL)); cbn [bind]; rewrite G1; cbn [bind]; rewrite G2; split; reflexivity].
  destruct (@book0 N loaded bv 0 fmt ov) as [b|e] eqn:G3; [|left; exists e; intros m base fuel PL LF; rewrite (proj1 (GB m base PL)); cbn [bind]; rewrite G1; cbn [bind]; rewrite G2; cbn [bind]; rewrite B0; split; reflexivity].
  assert (VB : bk_bv b = bv) by (unfold book0 in G3; apply bind_ok in G3 as (f & _ & G3); injection G3 as <-; reflexivity).
  destruct (globals_place d LD _ rs b (le_n _) FR NE ltac:(lia)) as [(e & HG)|(b1 & HG)].
  - left. exists e. intros m base fuel PL LF. destruct (GB m base PL) as [-> HH]. cbn [bind]. rewrite G1. cbn [bind]. rewrite G2. cbn [bind]. rewrite B0. cbn [rmap bind].
    replace (bv <=? 40) with false by lia. replace (bv =? 45) with false by lia. rewrite (HG base m _ fuel LF HH). split; reflexivity.
  - right. exists (with_list b1 (map (fun _ => None) (sl_names (bk_sheets b1)))). split.
    + destruct (HG 0 (frames rs ++ frame (0x0a, d)) 0 (S (List.length rs)) ltac:(lia)) as (p & HG1); [exists []; rewrite app_nil_r; apply At_0|].
      assert (X : bk_bv (at_base 0 b1) = bk_bv (at_base 0 b)) by (exact (proj1 (globals_lengths _ _ _ _ _ _ _ _ _ _ HG1))). change (bk_bv b1 = bk_bv b) in X. cbn. lia.
    + intros m base fuel PL LF. destruct (GB m base PL) as [-> HH]. cbn [bind]. rewrite G1. cbn [bind]. rewrite G2. cbn [bind]. rewrite B0. cbn [rmap bind].
      replace (bv <=? 40) with false by lia. replace (bv =? 45) with false by lia. destruct (HG base m _ fuel LF HH) as (p & ->). cbn [bind]. split; reflexivity.
Qed.

(** What the sheets that are listed must be. *)
Definition in_stream (e : entry) : Prop := 0 <= e_posn e /\ exists recs, sheet_at s (e_posn e) recs.

Lemma open_fixed : forall bv rs es ov fmt od, bytes s -> book_stream s bv rs -> 50 <= bv -> lists codec bv ov None rs es -> Forall in_stream (filter worksheet es) ->
  (exists e, forall m base fuel, placed m base -> (List.length rs < fuel)%nat -> open_stream fuel m base ov fmt od = Err e) \/
  (exists b alive, inside b /\ forall m base fuel, placed m base -> (List.length rs < fuel)%nat -> open_stream fuel m base ov fmt od = Ok (api_at m base b alive)).
Proof.
  intros bv rs es ov fmt od B BS V L FI.
  destruct (open_place bv rs ov fmt BS V) as [(e & H)|(b & VB & H)].
  - left. exists e. intros m base fuel PL LF. destruct (H m base fuel PL LF). destruct od; assumption.
  - assert (P0 : placed s 0) by (split; [exact B|split; [lia|exists []; rewrite app_nil_r; apply At_0]]).
    assert (I : inside b).
    { split; [exact VB|]. destruct (H s 0 (S (List.length rs)) P0 ltac:(lia)) as [HO _].
      destruct (opened codec ops lower num8 rk ragged old _ _ _ _ _ _ _ _ _ es (book_at s 0 s [] bv rs B ltac:(lia) ltac:(rewrite app_nil_r; apply At_0) BS) V L HO) as (b0 & _ & _ & _ & _ & O & _ & _ & EP & _).
      rewrite HO in O. injection O as <-. intros p IP.
      assert (IN : In (p + 0) (sl_posn (bk_sheets (at_base 0 b)))) by (apply (in_map (fun p => p + 0)); exact IP).
      rewrite EP in IN. apply in_map_iff in IN as (e & EE & IE). rewrite Forall_forall in FI. destruct (FI e IE) as [P SA]. replace p with (e_posn e) by lia. split; assumption. }
    destruct od.
    + right. exists b, true. split; [exact I|]. intros m base fuel PL LF. exact (proj1 (H m base fuel PL LF)).
    + destruct (get_sheets_place (zrange 0 (zlen (sl_names (bk_sheets b)))) b I) as [(e & G)|(b1 & I1 & G)].
      * left. exists e. intros m base fuel PL LF. rewrite (proj2 (H m base fuel PL LF)), (G m base PL). reflexivity.
      * right. exists b1, false. split; [exact I1|]. intros m base fuel PL LF. rewrite (proj2 (H m base fuel PL LF)), (G m base PL). reflexivity.
Qed.
End Place.

(** ** Files *)

Section Files.
Context {N : Type}.
Variable codec : list Z -> list Z -> result (list Z).
Variable ops : numops N.
Variable lower : list Z -> list Z.
Variable num8 : list Z -> N.
Variable rk : list Z -> result N.
Variable ragged : bool.
Notation loaded := (loaded (N := N)).
Notation api := (api (N := N)).
Notation book := (book N loaded).
Variable old : book -> list Z -> Z -> list Z -> Z -> result (shared * loaded).
Notation history := (history codec num8 rk ragged old).
Notation open_workbook_xls := (open_workbook_xls codec ops lower num8 rk ragged old).

(** Everything a Book has but the place of its stream: biff_version, encoding, codepage,
    user_name, countries, datemode and what is read of fonts, formats, XFs, styles and
    colours ([bk_shared]), the shared strings and their runs, the sheet list with names and
    visibility, the external references, the defined names and their maps, the sheets that
    are loaded, and whether the file is still there. *)
Record agrees (a1 a2 : api) : Prop := mk_agrees {
  ag_version : bk_bv (a_book a1) = bk_bv (a_book a2);
  ag_shared : bk_shared (a_book a1) = bk_shared (a_book a2);
  ag_strings : bk_sst (a_book a1) = bk_sst (a_book a2) /\ bk_rich (a_book a1) = bk_rich (a_book a2);
  ag_sheets : sl_names (bk_sheets (a_book a1)) = sl_names (bk_sheets (a_book a2)) /\ sl_visibility (bk_sheets (a_book a1)) = sl_visibility (bk_sheets (a_book a2)) /\
    sl_allmap (bk_sheets (a_book a1)) = sl_allmap (bk_sheets (a_book a2));
  ag_refs : bk_refs (a_book a1) = bk_refs (a_book a2);
  ag_names : bk_names (a_book a1) = bk_names (a_book a2) /\ bk_maps (a_book a1) = bk_maps (a_book a2);
  ag_loaded : bk_list (a_book a1) = bk_list (a_book a2);
  ag_file : a_mem a1 = None <-> a_mem a2 = None }.

Lemma found_placed : forall fuel depth file s junk bv rs ov fmt od ignore, contains lower depth file (s ++ junk) -> book_stream s bv rs -> zlen file < Z.of_nat fuel ->
  bytes s /\ (List.length rs < fuel)%nat /\ exists m base, placed s m base /\
    open_workbook_xls fuel depth file ov fmt od ignore = open_stream codec ops lower num8 rk ragged old fuel m base ov fmt od.
Proof.
  intros fuel depth file s junk bv rs ov fmt od ig C BS LF.
  assert (BS2 : book_stream (s ++ junk) bv rs).
  { destruct BS as (op & body & d & rest & E & H). exists op, body, d, (rest ++ junk). split; [rewrite E, <- !app_assoc; reflexivity|exact H]. }
  destruct (found lower fuel depth file (s ++ junk) bv rs ig C BS2 LF) as (m & off & post & F & BM & OF & A & LS & L0). rewrite <- app_assoc in A.
  split; [destruct A as (p & -> & _); apply Forall_app in BM as [_ BM]; apply Forall_app in BM as [BM _]; exact BM|]. split.
  { destruct BS2 as (op & body & d & rest & E & _). pose proof (frames_len rs) as LR. rewrite E, !zlen_app in LS.
    pose proof (zlen_nonneg (frame (op, body))). pose proof (zlen_nonneg (frame (10, d))). pose proof (zlen_nonneg rest). unfold zlen in *. lia. }
  exists m, off. split; [split; [exact BM|]; split; [exact OF|]; exists (junk ++ post); exact A|].
  unfold BookApi.open_workbook_xls. replace (zlen file =? 0) with false by lia. cbn [negb guard]. rewrite bind_Ok, F. reflexivity.
Qed.

(** Two files with the same workbook give the same book, or refuse with the same exception;
    and the books stay the same whatever is asked of both. *)
Theorem c98_same_workbook : forall s bv rs es override fmt on_demand fuel1 depth1 file1 junk1 ignore1 fuel2 depth2 file2 junk2 ignore2,
  contains lower depth1 file1 (s ++ junk1) -> zlen file1 < Z.of_nat fuel1 -> contains lower depth2 file2 (s ++ junk2) -> zlen file2 < Z.of_nat fuel2 ->
  book_stream s bv rs -> 50 <= bv -> lists codec bv override None rs es -> Forall (in_stream s) (filter worksheet es) ->
  match open_workbook_xls fuel1 depth1 file1 override fmt on_demand ignore1, open_workbook_xls fuel2 depth2 file2 override fmt on_demand ignore2 with
  | Ok a1, Ok a2 => agrees a1 a2 /\ forall h, fst (history a1 h) = fst (history a2 h) /\ agrees (snd (history a1 h)) (snd (history a2 h))
  | Err e1, Err e2 => e1 = e2
  | _, _ => False
  end.
Proof.
  intros s bv rs es ov fmt od f1 d1 file1 j1 ig1 f2 d2 file2 j2 ig2 C1 L1 C2 L2 BS V L FI.
  destruct (found_placed f1 d1 file1 s j1 bv rs ov fmt od ig1 C1 BS L1) as (B & LF1 & m1 & o1 & P1 & ->).
  destruct (found_placed f2 d2 file2 s j2 bv rs ov fmt od ig2 C2 BS L2) as (_ & LF2 & m2 & o2 & P2 & ->).
  assert (AG : forall b al, agrees (api_at m1 o1 b al) (api_at m2 o2 b al)) by (intros b al; constructor; try (repeat split; reflexivity); cbn [api_at a_mem]; destruct al; split; (reflexivity || discriminate)).
  destruct (open_fixed codec ops lower num8 rk ragged old s bv rs es ov fmt od B BS V L FI) as [(e & H)|(b & al & I & H)]; rewrite !H by assumption; [reflexivity|].
  split; [apply AG|]. intros h. destruct (fixed_history codec lower num8 rk ragged old s h b al I) as (r & b1 & al1 & _ & HH).
  rewrite (HH m1 o1 P1), (HH m2 o2 P2). split; [reflexivity|apply AG].
Qed.
End Files.
Print Assumptions c98_same_workbook.

(** The workbook of PropWorkbook.v as a bare file with two bytes more, and in the compound
    file of PropFile.v. *)
Example c98_hypotheses :
  let codec := fun _ b => Ok b in let rk := fun b => Ok (le_val b) in
  contains ascii_low 1 (Small.file ++ [7; 7]) (Small.file ++ [7; 7]) /\ zlen (Small.file ++ [7; 7]) < Z.of_nat 300 /\
  contains ascii_low 2 Stored.file (Small.file ++ []) /\ zlen Stored.file < Z.of_nat 2000 /\
  book_stream Small.file 80 Small.records /\ lists codec 80 None None Small.records [mk_entry 130 1 0 (s2l "S")] /\
  Forall (in_stream Small.file) (filter worksheet [mk_entry 130 1 0 (s2l "S")]) /\
  match open_workbook_xls codec int_ops ascii_low le_val rk false (fun _ _ _ _ _ => Err XLRDError) 300 1 (Small.file ++ [7; 7]) None true true true with
  | Ok a => sl_names (bk_sheets (a_book a)) = [s2l "S"]
  | Err _ => False
  end.
Proof.
  cbv zeta. destruct c77_hypotheses as (C & LF & BS & _). destruct c75_hypotheses as (B & _ & L & _).
  split; [apply Bare; [apply bytes_check; vm_compute; reflexivity|reflexivity]|]. split; [vm_compute; reflexivity|].
  split; [rewrite app_nil_r; exact C|]. split; [exact LF|]. split; [exact BS|]. split; [exact L|]. split; [|vm_compute; reflexivity].
  constructor; [|constructor]. split; [cbn; lia|]. exists (flat_map (enc Small.config) Small.items).
  exists 0x809, (snd (Small.bof 0x10)), 80, []. split.
  { exists (firstn 130 Small.file). split; [vm_compute; reflexivity|reflexivity]. }
  split; [vm_compute; split; discriminate|]. split; [apply Excel97; reflexivity|]. split; [reflexivity|].
  split; [apply Forall_forall; intros [rc d] I; vm_compute in I; repeat (destruct I as [I|I]; [injection I as <- <-; split; cbn; lia|]); destruct I|].
  vm_compute. reflexivity.
Qed.
