(** The content of a worksheet, its records, and what reading them does:
    specification and lemmas for the theorems of PropRead.v. *)
From Verif Require Import Base BaseFacts Utf16 Strings Framing StringFacts PropBytes GridModel GridFacts PropGrid
  SheetObjects SheetModel SheetFacts SheetSteps LinkBytes NoteBytes.

Ltac inv_ok H :=
  lazymatch type of H with
  | bind ?m _ = Ok _ =>
      let E := fresh "E" in
      apply bind_ok in H as (? & E & H);
      lazymatch type of H with
      | (let (_, _) := ?p in _) = _ => destruct p
      | _ => idtac
      end; inv_ok H
  | (if ?b then _ else _) = Ok _ => destruct b; try discriminate H; inv_ok H
  | match ?m with _ => _ end = Ok _ => destruct m; try discriminate H; inv_ok H
  | Ok _ = Ok _ => first [injection H as <- <- | injection H as <-]
  | _ => idtac
  end.

(** ** Specification: the content of a worksheet and its records *)

Section Content.
Context {N : Type} (c : config N).

(** The result of a formula: a number, one of the marked kinds, or a text with
    the optional record before its STRING record and its pieces. *)
Inductive fresult : Type :=
| FNum (res : list Z)
| FBool (v : Z) | FErr (v : Z) | FEmpty
| FText (between : list (Z * list Z)) (raw t : list Z) (more ts : list (list Z)).

Inductive item : Type :=
| INumber (r k xf : Z) (d8 : list Z)
| IRk (r k xf : Z) (b : list Z) (x : N)
| IMulRk (r k : Z) (its : list (Z * list Z)) (xs : list N)
| ISst (r k xf i : Z) (s : list Z)
| ILabel (r k xf : Z) (raw s : list Z)
| IRString (r k xf : Z) (raw s : list Z) (runs : list (Z * Z))
| IBoolErr (r k xf v : Z) (e : bool)
| IBlank (r k xf : Z)
| IMulBlank (r k : Z) (xfs : list Z)
| IFormula (rc r k xf : Z) (u : Z * Z * Z * Z) (f : fresult) (rest : list Z)
| IMerged (ms : list mrange)
| IEmbedded (rc : Z) (bof : list Z) (body : list (Z * list Z))    (* a chart inside the sheet *)
| IDim (rc : Z) (d : list Z)                                       (* a DIMENSION record *)
| INoise (rc : Z) (d : list Z).                                    (* any other record *)

(** The records a writer emits. *)
Definition fresult_bytes (u : Z * Z * Z * Z) (f : fresult) : list Z :=
  let '(u1, u3, u4, u5) := u in
  match f with
  | FNum res => res
  | FBool v => marked 1 v u1 u3 u4 u5
  | FErr v => marked 2 v u1 u3 u4 u5
  | FEmpty => marked 3 0 u1 u3 u4 u5
  | FText _ _ _ _ _ => marked 0 0 u1 u3 u4 u5
  end.

Definition enc (it : item) : list (Z * list Z) :=
  match it with
  | INumber r k xf d8 => [(XL_NUMBER, head r k xf ++ d8)]
  | IRk r k xf b _ => [(XL_RK, head r k xf ++ b)]
  | IMulRk r k its _ => [(XL_MULRK, mulrk_data r k its)]
  | ISst r k xf i _ => [(XL_LABELSST, head r k xf ++ le_enc 4 i)]
  | ILabel r k xf raw _ => [(XL_LABEL, head r k xf ++ raw)]
  | IRString r k xf raw _ runs => [(XL_RSTRING, head r k xf ++ raw ++ rruns_bytes c runs)]
  | IBoolErr r k xf v e => [(XL_BOOLERR, head r k xf ++ [v; if e then 1 else 0])]
  | IBlank r k xf => [(XL_BLANK, head r k xf)]
  | IMulBlank r k xfs => [(XL_MULBLANK, mulblank_data r k xfs)]
  | IFormula rc r k xf u f rest =>
      (rc, formula_data r k xf (fresult_bytes u f) rest) ::
      match f with
      | FText between raw t more ts =>
          between ++ (XL_STRING, string_data (zlen (utf16_units (t ++ concat ts))) raw) :: map (pair XL_CONTINUE) more
      | _ => []
      end
  | IMerged ms => [(XL_MERGEDCELLS, ranges_data ms)]
  | IEmbedded rc bof body => (rc, bof) :: body ++ [(XL_EOF, [])]
  | IDim rc d | INoise rc d => [(rc, d)]
  end.

(** The cells they describe: row, column, type, value, XF index. *)
Definition numtype (xf : Z) : Z := match c_xftype c xf with Some t => t | None => XL_CELL_EMPTY end.

Fixpoint rk_cells (r k : Z) (its : list (Z * list Z)) (xs : list N) : list (@store (value N)) :=
  match its, xs with
  | (xf, _) :: its', x :: xs' => mk_store r k (numtype xf) (VNum x) xf :: rk_cells r (k + 1) its' xs'
  | _, _ => []
  end.
Fixpoint blank_cells (r k : Z) (xfs : list Z) : list (@store (value N)) :=
  match xfs with [] => [] | xf :: l => mk_store r k 6 vempty xf :: blank_cells r (k + 1) l end.

Definition cells (it : item) : list (@store (value N)) :=
  match it with
  | INumber r k xf d8 => [mk_store r k (numtype xf) (VNum (c_num8 c d8)) xf]
  | IRk r k xf _ x => [mk_store r k (numtype xf) (VNum x) xf]
  | IMulRk r k its xs => rk_cells r k its xs
  | ISst r k xf _ s | ILabel r k xf _ s | IRString r k xf _ s _ => [mk_store r k 1 (VText s) xf]
  | IBoolErr r k xf v e => [mk_store r k (if e then 5 else 4) (VInt v) xf]
  | IBlank r k xf => if c_fmt c then [mk_store r k 6 vempty xf] else []
  | IMulBlank r k xfs => if c_fmt c then blank_cells r k xfs else []
  | IFormula _ r k xf _ f _ =>
      match f with
      | FNum res => [mk_store r k (numtype xf) (VNum (c_num8 c res)) xf]
      | FBool v => [mk_store r k 4 (VInt v) xf]
      | FErr v => [mk_store r k 5 (VInt v) xf]
      | FEmpty => [mk_store r k 1 (VText []) xf]
      | FText _ _ t _ ts => [mk_store r k 1 (VText (t ++ concat ts)) xf]
      end
  | _ => []
  end.

Definition merges (it : item) : list mrange := match it with IMerged ms => if c_fmt c then ms else [] | _ => [] end.

(** The formatting runs they give: those of the shared string, or of the record itself. *)
Definition rich (it : item) : list ((Z * Z) * list (Z * Z)) :=
  match it with
  | ISst r k _ i _ => if c_fmt c then match dget Z.eqb (c_rich c) i with Some (x :: l) => [((r, k), x :: l)] | _ => [] end else []
  | IRString r k _ _ _ runs => [((r, k), runs)]
  | _ => []
  end.

(** Codes of records that hold cells, dimensions, merged ranges or bounds of substreams. *)
Definition noise_code (rc : Z) : bool :=
  negb ((rc =? XL_NUMBER) || (rc =? XL_LABELSST) || (rc =? XL_LABEL) || (rc =? XL_RSTRING) || (rc =? XL_RK) ||
        (rc =? XL_MULRK) || is_formula_code rc || (rc =? XL_BOOLERR) || (rc =? XL_BLANK) || (rc =? XL_MULBLANK) ||
        (rc =? XL_DIMENSION) || (rc =? XL_DIMENSION2) || (rc =? XL_MERGEDCELLS) || is_bof_code rc || (rc =? XL_EOF)).

(** Characters of the basic multilingual plane. *)
Definition bmp (t : list Z) : Prop := Forall (fun a => a < 65536) t.

Definition fresult_ok (xf : Z) (f : fresult) : Prop :=
  match f with
  | FNum res => zlen res = 8 /\ py_slice res 6 8 <> [255; 255] /\ c_xftype c xf <> None
  | FText between raw t more ts =>
      Forall between_ok between /\ zlen between <= 1 /\ piece_holds c raw t /\ Forall2 (piece_holds c) more ts /\
      (more = [] \/ last ts [] <> []) /\ bmp (t ++ concat ts) /\ text (t ++ concat ts) /\ zlen (t ++ concat ts) < 65536
  | _ => True
  end.

Definition item_ok (it : item) : Prop :=
  match it with
  | INumber r k xf d8 => u16v r /\ u16v k /\ u16v xf /\ zlen d8 = 8 /\ c_xftype c xf <> None
  | IRk r k xf b x => u16v r /\ u16v k /\ u16v xf /\ zlen b = 4 /\ c_xftype c xf <> None /\ c_rk c b = Ok x
  | IMulRk r k its xs => u16v r /\ 0 <= k /\ k + zlen its <= 65536 /\ 1 <= zlen its /\ Forall rk_item its /\
      Forall (fun it => c_xftype c (fst it) <> None) its /\ Forall2 (fun it x => c_rk c (snd it) = Ok x) its xs
  | ISst r k xf i s => u16v r /\ u16v k /\ u16v xf /\ i < 2 ^ 31 /\ znth (c_sst c) i = Some s
  | ILabel r k xf raw s => u16v r /\ u16v k /\ u16v xf /\ field_holds c raw s
  | IRString r k xf raw s runs => u16v r /\ u16v k /\ u16v xf /\ field_holds c raw s /\ rruns_ok c runs
  | IBoolErr r k xf v e => u16v r /\ u16v k /\ u16v xf /\ 0 <= v < 256
  | IBlank r k xf => u16v r /\ u16v k /\ u16v xf
  | IMulBlank r k xfs => u16v r /\ 0 <= k /\ k + zlen xfs <= 65536 /\ 1 <= zlen xfs /\ Forall u16v xfs
  | IFormula rc r k xf u f rest => is_formula_code rc = true /\ u16v r /\ u16v k /\ u16v xf /\ 2 <= zlen rest /\ fresult_ok xf f
  | IMerged ms => Forall range_ok ms /\ zlen ms < 65536
  | IEmbedded rc bof body => is_bof_code rc = true /\ 4 <= zlen bof /\ Forall (fun r => fst r <> XL_EOF) body
  | IDim rc d => rc = XL_DIMENSION \/ rc = XL_DIMENSION2
  | INoise rc d => noise_code rc = true
  end.

(** DIMENSION records come before the first cell. *)
Definition is_dim (it : item) : bool := match it with IDim _ _ => true | _ => false end.
Fixpoint dims_first (items : list item) : Prop :=
  match items with
  | [] => True
  | it :: l => match cells it with [] => dims_first l | _ :: _ => existsb is_dim l = false end
  end.

(** ** Proofs *)

Lemma numtype_known : forall xf, c_xftype c xf <> None -> c_xftype c xf = Some (numtype xf).
Proof. intros xf H. unfold numtype. destruct (c_xftype c xf); [reflexivity|contradiction]. Qed.

Lemma bmp_units : forall t, bmp t -> zlen (utf16_units t) = zlen t.
Proof.
  intros t H. induction H as [|a l Ha HL IH]; [reflexivity|].
  change (a :: l) with ([a] ++ l). rewrite utf16_units_app, zlen_app, zlen_app, IH. f_equal.
  unfold utf16_units. cbn [flat_map]. rewrite app_nil_r. unfold units_of. replace (a <? 65536) with true by lia. reflexivity.
Qed.

Lemma zlen_concat : forall ts : list (list Z), zlen (concat ts) = total_len ts.
Proof. induction ts as [|t ts IH]; [reflexivity|]. cbn [concat]. rewrite zlen_app, IH. reflexivity. Qed.

Lemma read_plain : forall sh rc d r rs, rc <> XL_EOF -> step c sh rc (zlen d) d rs = plain r rs ->
  read_all c sh (map rec_of [(rc, d)] ++ rs) = do sh1 <- r; read_all c sh1 rs.
Proof.
  intros sh rc d r rs H E. cbn [map app]. unfold rec_of. cbn [fst snd]. rewrite read_all_cons.
  replace (rc =? XL_EOF) with false by lia. rewrite E. unfold plain. rewrite bind_assoc. reflexivity.
Qed.

Lemma rk_records_read : forall its xs r k sh rs, u16v r -> 0 <= k -> k + zlen its <= 65536 -> Forall rk_item its ->
  Forall (fun it => c_xftype c (fst it) <> None) its -> Forall2 (fun it x => c_rk c (snd it) = Ok x) its xs ->
  read_all c sh (rk_records r k its ++ rs) = do sh1 <- puts c sh (rk_cells r k its xs); read_all c sh1 rs.
Proof.
  induction its as [|[xf b] its IH]; intros xs r k sh rs Hr Hk HL HF HT HX.
  - cbn [rk_records rk_cells app]. rewrite puts_nil. reflexivity.
  - inversion HF as [|? ? [Hx Hb] HF']; subst. inversion HT as [|? ? Ht HT']; subst. inversion HX as [|? x ? xs' Hv HX']; subst.
    cbn [fst snd] in *. rewrite zlen_cons in *. pose proof (zlen_nonneg its).
    cbn [rk_records rk_cells app]. rewrite read_all_cons. change (XL_RK =? XL_EOF) with false. cbv iota.
    rewrite (rk_step c sh r k xf b _ (numtype xf) x Hr ltac:(unfold u16v; lia) Hx Hb (numtype_known _ Ht) Hv).
    change (mk_store r k (numtype xf) (VNum x) xf :: rk_cells r (k + 1) its xs') with
      ([mk_store r k (numtype xf) (VNum x) xf] ++ rk_cells r (k + 1) its xs').
    rewrite puts_app. unfold plain. rewrite !bind_assoc.
    destruct (puts c sh [_]) as [sh1|e]; [|reflexivity]. cbn [bind]. apply IH; auto; lia.
Qed.

Lemma blank_records_read : forall xfs r k sh rs, u16v r -> 0 <= k -> k + zlen xfs <= 65536 -> Forall u16v xfs ->
  read_all c sh (blank_records r k xfs ++ rs) = do sh1 <- puts c sh (if c_fmt c then blank_cells r k xfs else []); read_all c sh1 rs.
Proof.
  induction xfs as [|xf xfs IH]; intros r k sh rs Hr Hk HL HF.
  - cbn [blank_records blank_cells app]. replace (if c_fmt c then [] else []) with (@nil (@store (value N))) by (destruct (c_fmt c); reflexivity).
    rewrite puts_nil. reflexivity.
  - inversion HF as [|? ? Hx HF']; subst. rewrite zlen_cons in *. pose proof (zlen_nonneg xfs).
    cbn [blank_records blank_cells app]. rewrite read_all_cons. change (XL_BLANK =? XL_EOF) with false. cbv iota.
    rewrite (blank_step c sh r k xf _ Hr ltac:(unfold u16v; lia) Hx).
    replace (if c_fmt c then mk_store r k 6 vempty xf :: blank_cells r (k + 1) xfs else []) with
      ((if c_fmt c then [mk_store r k 6 vempty xf] else []) ++ (if c_fmt c then blank_cells r (k + 1) xfs else []))
      by (destruct (c_fmt c); reflexivity).
    rewrite puts_app. unfold plain. rewrite !bind_assoc.
    destruct (puts c sh _) as [sh1|e]; [|reflexivity]. cbn [bind]. apply IH; auto; lia.
Qed.

Lemma skip_body : forall body rest, Forall (fun r : Z * list Z => fst r <> XL_EOF) body ->
  skip_to_eof (map rec_of body ++ (XL_EOF, 0, []) :: rest) = Ok rest.
Proof.
  intros body rest H. induction H as [|[rc d] l Hr HL IH]; [reflexivity|].
  cbn [map app]. unfold rec_of at 1. cbn [fst snd skip_to_eof] in *. replace (rc =? XL_EOF) with false by lia. exact IH.
Qed.

(** What reading the records of an item other than noise does. *)
Definition quiet (it : item) : bool := match it with INoise _ _ | IDim _ _ => false | _ => true end.

Lemma item_reads : forall it, c_bv c >= 50 -> item_ok it -> quiet it = true ->
  exists adj, (forall sh, sh_grid (adj sh) = sh_grid sh /\ f_merged (sh_fmt (adj sh)) = f_merged (sh_fmt sh) ++ merges it /\
      o_rich (sh_obj (adj sh)) = rich it ++ o_rich (sh_obj sh)) /\
    forall sh rs, read_all c sh (map rec_of (enc it) ++ rs) = do sh1 <- puts c sh (cells it); read_all c (adj sh1) rs.
Proof.
  intros it HV OK Q.
  assert (forall (sh : sheet N), sh_grid sh = sh_grid sh /\ f_merged (sh_fmt sh) = f_merged (sh_fmt sh) ++ [] /\
      o_rich (sh_obj sh) = [] ++ o_rich (sh_obj sh)) as ID
    by (intros; rewrite app_nil_r; auto).
  destruct it; cbn [item_ok] in OK; try discriminate Q.
  - destruct OK as (Hr & Hk & Hx & H8 & HT). exists (fun sh => sh). split; [exact ID|]. intros sh rs. cbn [enc cells].
    apply read_plain; [discriminate|]. rewrite zlen_app, zlen_head, H8. apply number_step; auto. apply numtype_known; exact HT.
  - destruct OK as (Hr & Hk & Hx & H8 & HT & HX). exists (fun sh => sh). split; [exact ID|]. intros sh rs. cbn [enc cells].
    apply read_plain; [discriminate|]. rewrite zlen_app, zlen_head, H8. apply rk_step; auto. apply numtype_known; exact HT.
  - destruct OK as (Hr & Hk & HL & H1 & HF & HT & HX). exists (fun sh => sh). split; [exact ID|]. intros sh rs. cbn [enc cells map app].
    unfold rec_of. cbn [fst snd]. rewrite mulrk_step by auto. apply rk_records_read; auto.
  - destruct OK as (Hr & Hk & Hx & H8 & HS). pose proof (znth_Some_range _ _ _ HS).
    exists (fun sh => match (if c_fmt c then dget Z.eqb (c_rich c) i else None) with
        | Some (x :: l) => set_rich sh r k (x :: l) | _ => sh end).
    split. { intros sh. cbn [merges rich]. rewrite app_nil_r. destruct (c_fmt c); [destruct (dget _ _ _) as [[|x l]|]|]; repeat split; reflexivity. }
    intros sh rs. cbn [enc cells map app]. unfold rec_of. cbn [fst snd]. rewrite read_all_cons.
    change (XL_LABELSST =? XL_EOF) with false. cbv iota. rewrite zlen_app, zlen_head, zlen_le_enc.
    change (6 + Z.of_nat 4) with 10. rewrite (labelsst_step c sh r k xf i s) by (auto; lia). rewrite bind_assoc. reflexivity.
  - destruct OK as (Hr & Hk & Hx & HF). exists (fun sh => sh). split; [exact ID|]. intros sh rs. cbn [enc cells].
    apply read_plain; [discriminate|]. rewrite zlen_app, zlen_head. apply label_step; auto.
  - destruct OK as (Hr & Hk & Hx & HF & HR). exists (fun sh => set_rich sh r k runs). split; [intros sh; cbn [merges rich]; rewrite app_nil_r; repeat split; reflexivity|].
    intros sh rs. cbn [enc cells map app]. unfold rec_of. cbn [fst snd]. rewrite read_all_cons.
    change (XL_RSTRING =? XL_EOF) with false. cbv iota. rewrite (rstring_step c sh r k xf raw s runs) by auto.
    rewrite bind_assoc. reflexivity.
  - destruct OK as (Hr & Hk & Hx & H8). exists (fun sh => sh). split; [exact ID|]. intros sh rs. cbn [enc cells].
    apply read_plain; [discriminate|]. rewrite zlen_app, zlen_head. apply boolerr_step; auto.
  - destruct OK as (Hr & Hk & Hx). exists (fun sh => sh). split; [exact ID|]. intros sh rs. cbn [enc cells].
    apply read_plain; [discriminate|]. rewrite zlen_head. apply blank_step; auto.
  - destruct OK as (Hr & Hk & HL & H1 & HF). exists (fun sh => sh). split; [exact ID|]. intros sh rs. cbn [enc cells map app].
    unfold rec_of. cbn [fst snd]. rewrite mulblank_step by auto. apply blank_records_read; auto.
  - destruct OK as (HC & Hr & Hk & Hx & H2 & HF). exists (fun sh => sh). split; [exact ID|]. intros sh rs.
    assert (rc <> XL_EOF) as HE by (intros ->; discriminate HC).
    destruct u as [[[u1 u3] u4] u5]. destruct f; cbn [fresult_ok fresult_bytes enc cells] in *.
    + destruct HF as (F1 & F2 & F3). apply read_plain; [exact HE|]. apply formula_number_step; auto. apply numtype_known; exact F3.
    + apply read_plain; [exact HE|]. rewrite formula_marked_step by auto. reflexivity.
    + apply read_plain; [exact HE|]. rewrite formula_marked_step by auto. reflexivity.
    + apply read_plain; [exact HE|]. rewrite formula_marked_step by auto. reflexivity.
    + destruct HF as (F1 & F2 & F3 & F4 & F5 & F6 & F7 & F8). cbn [map app]. unfold rec_of at 1. cbn [fst snd].
      rewrite read_all_cons. replace (rc =? XL_EOF) with false by lia. rewrite formula_marked_step by auto.
      change (0 =? 0) with true. cbv iota. rewrite bmp_units, zlen_app, zlen_concat by exact F6. rewrite zlen_app, zlen_concat in F8.
      rewrite formula_string_reads by (auto; lia). cbn [bind]. unfold plain. rewrite bind_assoc. reflexivity.
  - destruct OK as (HF & HL). exists (fun sh => if c_fmt c then with_merged sh (f_merged (sh_fmt sh) ++ ms) else sh).
    split. { intros sh. cbn [merges]. destruct (c_fmt c); [destruct sh; repeat split; reflexivity|apply ID]. }
    intros sh rs. cbn [enc cells map app]. unfold rec_of. cbn [fst snd]. rewrite read_all_cons.
    change (XL_MERGEDCELLS =? XL_EOF) with false. cbv iota. rewrite merged_step by auto. rewrite puts_nil. reflexivity.
  - destruct OK as (HB & H4 & HE). exists (fun sh => sh). split; [exact ID|]. intros sh rs. cbn [enc cells]. rewrite puts_nil.
    cbn [map app bind]. unfold rec_of at 1. cbn [fst snd]. rewrite read_all_cons.
    assert (rc <> XL_EOF /\ forall sh d rs, step c sh rc (zlen d) d rs = do _ <- need d 4; do rs <- skip_to_eof rs; Ok (sh, rs)) as [HE2 ->].
    { unfold is_bof_code in HB. split; [intros ->; discriminate HB|]. intros.
      repeat (apply orb_true_iff in HB as [HB|HB]); apply Z.eqb_eq in HB; subst rc; reflexivity. }
    replace (rc =? XL_EOF) with false by lia. rewrite need_ok by lia. cbn [bind].
    rewrite map_app, <- app_assoc. cbn [map app]. change (rec_of (XL_EOF, [])) with (XL_EOF, 0, @nil Z).
    rewrite skip_body by exact HE. reflexivity.
Qed.

(** *** Other records *)

Lemma txo_text_used : forall rs a b t t' rs', txo_text rs a b t = Ok (t', rs') ->
  exists used, rs = used ++ rs' /\ Forall (fun r : record => fst (fst r) = XL_CONTINUE) used.
Proof.
  induction rs as [|[[rc len] d] rs IH]; intros a b t t' rs' H; cbn [txo_text] in H.
  - destruct (b <? a); [discriminate|]. injection H as <- <-. exists []. auto.
  - destruct (b <? a); [|injection H as <- <-; exists []; auto].
    apply bind_ok in H as (? & G & H). unfold guard in G. destruct (rc =? XL_CONTINUE) eqn:E; [|discriminate].
    repeat (apply bind_ok in H as (? & _ & H)). destruct x2 as [? ?]. apply bind_ok in H as (? & _ & H).
    apply IH in H as (u & -> & F). exists ((rc, len, d) :: u). split; [reflexivity|]. constructor; [cbn; lia|exact F].
Qed.

Lemma txo_runs_used : forall rs a b t t' rs', txo_runs rs a b t = Ok (t', rs') ->
  exists used, rs = used ++ rs' /\ Forall (fun r : record => fst (fst r) = XL_CONTINUE) used.
Proof.
  induction rs as [|[[rc len] d] rs IH]; intros a b t t' rs' H; cbn [txo_runs] in H.
  - destruct (b <? a); [discriminate|]. injection H as <- <-. exists []. auto.
  - destruct (b <? a); [|injection H as <- <-; exists []; auto].
    apply bind_ok in H as (? & G & H). unfold guard in G. destruct (rc =? XL_CONTINUE) eqn:E; [|discriminate].
    repeat (apply bind_ok in H as (? & _ & H)).
    apply IH in H as (u & -> & F). exists ((rc, len, d) :: u). split; [reflexivity|]. constructor; [cbn; lia|exact F].
Qed.

Lemma note_used : forall rs e acc t rs', note_pieces rs e acc = Ok (t, rs') ->
  exists used, rs = used ++ rs' /\ Forall (fun r : record => fst (fst r) = XL_NOTE) used.
Proof.
  induction rs as [|[[rc len] d] rs IH]; intros e acc t rs' H; cbn [note_pieces] in H.
  - destruct (0 <? e); [discriminate|]. destruct (e =? 0); [|discriminate]. injection H as <- <-. exists []. auto.
  - destruct (0 <? e).
    + apply bind_ok in H as (? & G & H). unfold guard in G. destruct (rc =? XL_NOTE) eqn:E; [|discriminate].
      repeat (apply bind_ok in H as (? & _ & H)).
      apply IH in H as (u & -> & F). exists ((rc, len, d) :: u). split; [reflexivity|]. constructor; [cbn; lia|exact F].
    + destruct (e =? 0); [|discriminate]. injection H as <- <-. exists []. auto.
Qed.

Definition keeps (sh sh' : sheet N) : Prop := sh_grid sh' = sh_grid sh /\ f_merged (sh_fmt sh') = f_merged (sh_fmt sh).
Definition keeps_rich (sh sh' : sheet N) : Prop :=
  sh_grid sh' = sh_grid sh /\ f_merged (sh_fmt sh') = f_merged (sh_fmt sh) /\ o_rich (sh_obj sh') = o_rich (sh_obj sh).

Lemma noise_step_rich : forall sh rc len d rs sh' rs', noise_code rc = true -> step c sh rc len d rs = Ok (sh', rs') ->
  keeps_rich sh sh' /\ exists used, rs = used ++ rs' /\ Forall (fun r : record => noise_code (fst (fst r)) = true) used.
Proof.
  intros sh rc len d rs sh' rs' HN H.
  assert (forall X : Prop, X -> X /\ exists used, rs = used ++ rs /\ Forall (fun r : record => noise_code (fst (fst r)) = true) used) as SAME
    by (intros X HX; split; [exact HX|exists []; auto]).
  unfold noise_code in HN. unfold step, plain in H.
  destruct (rc =? XL_NUMBER); [discriminate|]. destruct (rc =? XL_LABELSST); [discriminate|].
  destruct (rc =? XL_LABEL); [discriminate|]. destruct (rc =? XL_RSTRING); [discriminate|].
  destruct (rc =? XL_RK); [discriminate|]. destruct (rc =? XL_MULRK); [discriminate|].
  destruct (rc =? XL_ROW). { unfold h_row in H. cbv zeta in H. inv_ok H. inv_ok E. all: apply SAME; destruct sh; repeat split; reflexivity. }
  destruct (is_formula_code rc); [discriminate|]. destruct (rc =? XL_BOOLERR); [discriminate|].
  destruct (rc =? XL_COLINFO). { unfold h_colinfo in H. cbv zeta in H. inv_ok H. inv_ok E. all: apply SAME; destruct sh; repeat split; reflexivity. }
  destruct (rc =? XL_DEFCOLWIDTH). { unfold h_defcolwidth in H. cbv zeta in H. inv_ok H. inv_ok E. all: apply SAME; destruct sh; repeat split; reflexivity. }
  destruct (rc =? XL_STANDARDWIDTH). { unfold h_standardwidth in H. cbv zeta in H. inv_ok H. inv_ok E. all: apply SAME; destruct sh; repeat split; reflexivity. }
  destruct (rc =? XL_GCW). { unfold h_gcw in H. cbv zeta in H. inv_ok H. inv_ok E. all: apply SAME; destruct sh; repeat split; reflexivity. }
  destruct (rc =? XL_BLANK); [discriminate|]. destruct (rc =? XL_MULBLANK); [discriminate|].
  destruct (rc =? XL_DIMENSION); [discriminate|]. destruct (rc =? XL_DIMENSION2); [discriminate|].
  destruct (rc =? XL_MERGEDCELLS) eqn:EM; [destruct (is_formula_code rc) in HN; discriminate HN|].
  destruct (is_bof_code rc); [discriminate HN|].
  cbn [orb] in H.
  destruct (rc =? XL_HLINK). { inv_ok H. apply SAME; destruct sh; repeat split; reflexivity. }
  destruct (rc =? XL_QUICKTIP). { inv_ok H. apply SAME; destruct sh; repeat split; reflexivity. }
  destruct (rc =? XL_OBJ). { unfold h_obj in H. cbv zeta in H. inv_ok H. inv_ok E. all: apply SAME; destruct sh; repeat split; reflexivity. }
  destruct (rc =? XL_MSO_DRAWING). { inv_ok H. apply SAME; repeat split; reflexivity. }
  destruct (rc =? XL_TXO).
  { unfold h_txo, handle_txo in H. cbv zeta in H.
    destruct (c_bv c <? 80); [cbn [bind] in H; inv_ok H; apply SAME; repeat split; reflexivity|].
    apply bind_ok in H as ((x & rs1) & E & H).
    apply bind_ok in E as (? & _ & E). apply bind_ok in E as (? & _ & E). apply bind_ok in E as (? & _ & E).
    apply bind_ok in E as ((t & rs2) & E1 & E). apply bind_ok in E as ((r & rs3) & E2 & E). injection E as <- <-.
    apply txo_text_used in E1 as (u1 & -> & F1). apply txo_runs_used in E2 as (u2 & -> & F2).
    assert (rs' = rs3 /\ keeps_rich sh sh') as [-> K] by (inv_ok H; split; try reflexivity; destruct sh; repeat split; reflexivity).
    split; [exact K|]. exists (u1 ++ u2). split; [apply app_assoc|].
    apply Forall_app. split; [eapply Forall_impl; [|exact F1]|eapply Forall_impl; [|exact F2]]; intros r0 ->; reflexivity. }
  destruct (rc =? XL_NOTE).
  { unfold h_note, handle_note in H. cbv zeta in H. apply bind_ok in H as ((m & rs1) & E & H).
    assert (rs' = rs1 /\ keeps_rich sh sh') as [-> K] by (injection H as <- <-; split; [reflexivity|]; destruct sh; repeat split; reflexivity).
    split; [exact K|]. destruct (c_bv c <? 80).
    - do 4 apply bind_ok in E as (? & _ & E). apply bind_ok in E as (? & _ & E).
      apply bind_ok in E as ((raw & rs2) & E1 & E). apply bind_ok in E as (? & _ & E). injection E as <- <-.
      apply note_used in E1 as (u & -> & F). exists u. split; [reflexivity|]. eapply Forall_impl; [|exact F]. intros r0 ->; reflexivity.
    - assert (rs1 = rs) as ->; [|exists []; auto].
      repeat (apply bind_ok in E as (? & ? & E); repeat match goal with x : (_ * _)%type |- _ => destruct x end).
      destruct (dget _ _ _) as [[? ?]|]; congruence. }
  destruct (rc =? XL_FEAT11). { inv_ok H. apply SAME; repeat split; reflexivity. }
  destruct (rc =? XL_COUNTRY). { unfold h_country in H. cbv zeta in H. inv_ok H. inv_ok E. all: apply SAME; destruct sh; repeat split; reflexivity. }
  destruct (rc =? XL_LABELRANGES). { unfold h_labelranges in H. cbv zeta in H. inv_ok H. inv_ok E. all: apply SAME; destruct sh; repeat split; reflexivity. }
  destruct (rc =? XL_ARRAY). { inv_ok H. apply SAME; repeat split; reflexivity. }
  destruct (rc =? XL_SHRFMLA). { inv_ok H. apply SAME; repeat split; reflexivity. }
  destruct (rc =? XL_CONDFMT). { unfold h_condfmt in H. cbv zeta in H. inv_ok H. inv_ok E. all: apply SAME; destruct sh; repeat split; reflexivity. }
  destruct (rc =? XL_CF). { unfold h_cf in H. cbv zeta in H. inv_ok H. inv_ok E. all: apply SAME; destruct sh; repeat split; reflexivity. }
  destruct (rc =? XL_DEFAULTROWHEIGHT). { unfold h_defaultrowheight in H. cbv zeta in H. inv_ok H. inv_ok E. all: apply SAME; destruct sh; repeat split; reflexivity. }
  destruct (rc =? XL_WINDOW2). { unfold h_window2 in H. cbv zeta in H. inv_ok H. inv_ok E. all: apply SAME; destruct sh; repeat split; reflexivity. }
  destruct (rc =? XL_SCL). { unfold h_scl in H. cbv zeta in H. inv_ok H. inv_ok E. all: apply SAME; destruct sh; repeat split; reflexivity. }
  destruct (rc =? XL_PANE). { unfold h_pane in H. cbv zeta in H. inv_ok H. inv_ok E. all: apply SAME; destruct sh; repeat split; reflexivity. }
  destruct (rc =? XL_HORIZONTALPAGEBREAKS). { unfold h_hbreaks in H. cbv zeta in H. inv_ok H. inv_ok E. all: apply SAME; destruct sh; repeat split; reflexivity. }
  destruct (rc =? XL_VERTICALPAGEBREAKS). { unfold h_vbreaks in H. cbv zeta in H. inv_ok H. inv_ok E. all: apply SAME; destruct sh; repeat split; reflexivity. }
  inv_ok H. apply SAME; repeat split; reflexivity.
Qed.

Lemma noise_step : forall sh rc len d rs sh' rs', noise_code rc = true -> step c sh rc len d rs = Ok (sh', rs') ->
  keeps sh sh' /\ exists used, rs = used ++ rs' /\ Forall (fun r : record => noise_code (fst (fst r)) = true) used.
Proof. intros sh rc len d rs sh' rs' HN H. destruct (noise_step_rich _ _ _ _ _ _ _ HN H) as ((K1 & K2 & _) & U). split; [split|]; assumption. Qed.

Lemma enc_head : forall it, item_ok it -> (exists rc d, it = INoise rc d) \/ exists rc d l, enc it = (rc, d) :: l /\ noise_code rc = false.
Proof.
  intros it OK. destruct it; try (right; eexists _, _, _; split; reflexivity).
  - right. destruct OK as (HC & _). do 3 eexists. split; [reflexivity|]. unfold noise_code. rewrite HC.
    rewrite !orb_true_r. reflexivity.
  - right. destruct OK as (HC & _). do 3 eexists. split; [reflexivity|]. unfold noise_code. rewrite HC.
    rewrite !orb_true_r. reflexivity.
  - right. do 3 eexists. split; [reflexivity|]. destruct OK as [-> | ->]; reflexivity.
  - left. eauto.
Qed.

(** Records consumed by noise are noise items. *)
Lemma strip_noise : forall used items rs1 len d rest, Forall item_ok items ->
  map rec_of (flat_map enc items) ++ (XL_EOF, len, d) :: rest = used ++ rs1 ->
  Forall (fun r : record => noise_code (fst (fst r)) = true) used ->
  exists n1 items2, items = n1 ++ items2 /\ rs1 = map rec_of (flat_map enc items2) ++ (XL_EOF, len, d) :: rest /\
    Forall (fun it => exists rc d, it = INoise rc d) n1.
Proof.
  induction used as [|u used IH]; intros items rs1 len d rest OK E F.
  - exists [], items. cbn [app] in *. auto.
  - inversion F as [|? ? Fu F']; subst. destruct items as [|it items].
    + cbn in E. injection E as <- _. discriminate Fu.
    + inversion OK as [|? ? O OK']; subst. destruct (enc_head it O) as [(rc & dd & ->)|(rc & dd & l & Ee & Hn)].
      * cbn [flat_map enc app map] in E. unfold rec_of at 1 in E. cbn [fst snd] in E. injection E as <- E.
        destruct (IH _ _ _ _ _ OK' E F') as (n1 & i2 & -> & -> & G). exists (INoise rc dd :: n1), i2.
        split; [reflexivity|]. split; [reflexivity|]. constructor; eauto.
      * cbn [flat_map] in E. rewrite Ee in E. cbn [app map] in E. unfold rec_of at 1 in E. cbn [fst snd] in E.
        injection E as <- _. cbn [fst] in Fu. congruence.
Qed.

Lemma dims_first_app : forall n1 items, Forall (fun it => exists rc d, it = INoise rc d) n1 -> dims_first (n1 ++ items) -> dims_first items.
Proof.
  intros n1 items F. induction F as [|it l (rc & d & ->) F IH]; intros H; [exact H|]. apply IH. exact H.
Qed.

Lemma no_dims_app : forall n1 items, existsb is_dim (n1 ++ items) = false -> existsb is_dim items = false.
Proof. intros n1 items H. rewrite existsb_app in H. apply orb_false_iff in H. apply H. Qed.

Lemma noise_nothing : forall n1, Forall (fun it => exists rc d, it = INoise rc d) n1 -> flat_map cells n1 = [] /\ flat_map merges n1 = [] /\ flat_map rich n1 = [].
Proof. intros n1 F. induction F as [|it l (rc & d & ->) F (IH1 & IH2 & IH3)]; auto. Qed.

Lemma dim_code : forall rc sh len d rs, rc = XL_DIMENSION \/ rc = XL_DIMENSION2 ->
  rc =? XL_EOF = false /\ step c sh rc len d rs = plain (h_dimension c sh len d) rs.
Proof. intros rc sh len d rs [-> | ->]; split; reflexivity. Qed.

Lemma dim_step : forall sh len d sh', h_dimension c sh len d = Ok sh' -> sh_grid sh = grid0 ->
  sh_grid sh' = grid0 /\ f_merged (sh_fmt sh') = f_merged (sh_fmt sh) /\ o_rich (sh_obj sh') = o_rich (sh_obj sh).
Proof.
  intros sh len d sh' H G. unfold h_dimension in H. cbv zeta in H. destruct (len =? 0).
  - injection H as <-. auto.
  - apply bind_ok in H as (dims & _ & H). injection H as <-. cbn. rewrite G. auto.
Qed.

Lemma items_content : c_bv c >= 50 -> forall items sh len d rest sh',
  Forall item_ok items -> (sh_grid sh = grid0 /\ dims_first items \/ existsb is_dim items = false) ->
  read_all c sh (map rec_of (flat_map enc items) ++ (XL_EOF, len, d) :: rest) = Ok sh' ->
  put_cells vempty (c_ragged c) (c_fmt c) (max_rows c) 256 (sh_grid sh) (flat_map cells items) = Ok (sh_grid sh') /\
  f_merged (sh_fmt sh') = f_merged (sh_fmt sh) ++ flat_map merges items /\
  o_rich (sh_obj sh') = rev (flat_map rich items) ++ o_rich (sh_obj sh).
Proof.
  intros HV items. remember (length items) as n eqn:En. revert items En.
  induction n as [n IH] using (well_founded_induction Wf_nat.lt_wf). intros items En sh len d rest sh' OK HD H.
  destruct items as [|it items].
  - cbn [flat_map map app] in H. rewrite read_all_cons in H. cbn in H. injection H as <-. cbn [flat_map put_cells rev app]. rewrite app_nil_r. auto.
  - inversion OK as [|? ? O OK']; subst. cbn [flat_map] in *.
    destruct (quiet it) eqn:Q.
    + destruct (item_reads it HV O Q) as (adj & HA & HR). rewrite map_app, <- app_assoc, HR in H.
      apply bind_ok in H as (sh1 & P & H). unfold puts in P. apply bind_ok in P as (g1 & P & P2). injection P2 as <-.
      destruct (HA (with_grid sh g1)) as (HA1 & HA2 & HA3). cbn [with_grid sh_grid sh_fmt sh_obj] in HA1, HA2, HA3.
      assert (sh_grid (adj (with_grid sh g1)) = grid0 /\ dims_first items \/ existsb is_dim items = false) as HD1.
      { destruct HD as [[HG HD]|HD].
        - cbn [dims_first] in HD. destruct (cells it) as [|s0 l0]; [|right; exact HD].
          left. cbn [put_cells] in P. injection P as <-. split; [rewrite HA1; exact HG|exact HD].
        - right. cbn [existsb] in HD. apply orb_false_iff in HD. apply HD. }
      destruct (IH (length items) ltac:(cbn [length]; lia) items eq_refl _ _ _ _ _ OK' HD1 H) as (K1 & K2 & K3).
      rewrite put_cells_app, P. cbn [bind]. rewrite HA1 in K1. split; [exact K1|]. split; [rewrite K2, HA2, app_assoc; reflexivity|].
      rewrite K3, HA3, rev_app_distr, <- app_assoc. do 2 f_equal.
      destruct it; cbn [rich]; try reflexivity. destruct (c_fmt c); [|reflexivity]. destruct (dget _ _ _) as [[|? ?]|]; reflexivity.
    + destruct it as [| | | | | | | | | | | |rc dd|rc dd]; try discriminate Q.
      * (* DIMENSION *)
        destruct HD as [[HG HD]|HD]; [|discriminate HD].
        cbn [item_ok enc cells merges dims_first] in *.
        cbn [app map] in H. unfold rec_of at 1 in H. cbn [fst snd] in H. rewrite read_all_cons in H.
        destruct (dim_code rc sh (zlen dd) dd (map rec_of (flat_map enc items) ++ (XL_EOF, len, d) :: rest) O) as [E1 E2].
        rewrite E1, E2 in H. unfold plain in H. rewrite bind_assoc in H. apply bind_ok in H as (sh1 & S & H). cbn [bind] in H.
        destruct (dim_step _ _ _ _ S HG) as (G1 & M1 & O1).
        destruct (IH (length items) ltac:(cbn [length]; lia) items eq_refl _ _ _ _ _ OK' (or_introl (conj G1 HD)) H) as (K1 & K2 & K3).
        cbn [app]. rewrite G1 in K1. rewrite HG. split; [exact K1|]. rewrite K2, M1, K3, O1. split; reflexivity.
      * cbn [item_ok enc cells merges] in *. cbn [app map] in H. unfold rec_of at 1 in H. cbn [fst snd] in H.
        rewrite read_all_cons in H. destruct (rc =? XL_EOF) eqn:EE; [apply Z.eqb_eq in EE; subst rc; discriminate O|].
        apply bind_ok in H as ((sh1 & rs1) & S & H). destruct (noise_step_rich _ _ _ _ _ _ _ O S) as ((G1 & M1 & O1) & used & EU & FU).
        destruct (strip_noise used items rs1 len d rest OK' EU FU) as (n1 & items2 & -> & -> & FN).
        apply Forall_app in OK' as [_ OK2].
        assert (sh_grid sh1 = grid0 /\ dims_first items2 \/ existsb is_dim items2 = false) as HD1.
        { destruct HD as [[HG HD]|HD].
          - left. split; [congruence|]. cbn [dims_first cells] in HD. eapply dims_first_app; eauto.
          - right. cbn [existsb is_dim orb] in HD. eapply no_dims_app; eauto. }
        destruct (IH (length items2) ltac:(cbn [length]; rewrite app_length; lia) items2 eq_refl _ _ _ _ _ OK2 HD1 H) as (K1 & K2 & K3).
        destruct (noise_nothing n1 FN) as (C1 & C2 & C3). cbn [app rich]. rewrite !flat_map_app, C1, C2, C3. cbn [app].
        rewrite G1 in K1. rewrite M1 in K2. rewrite O1 in K3. auto.
Qed.

(** The grid of a sheet read from the records of a content. *)
Lemma sheet_content : forall countries items len d rest sh, c_bv c >= 50 -> Forall item_ok items -> dims_first items ->
  sheet_read c countries (map rec_of (flat_map enc items) ++ (XL_EOF, len, d) :: rest) = Ok sh ->
  sheet_of vempty (c_ragged c) (c_fmt c) (max_rows c) 256 (flat_map cells items) (flat_map merges items) = Ok (sh_grid sh) /\
  f_merged (sh_fmt sh) = flat_map merges items /\ o_rich (sh_obj sh) = rev (flat_map rich items).
Proof.
  intros countries items len d rest sh HV OK HD H. unfold sheet_read in H. apply bind_ok in H as (sh1 & R & H).
  apply bind_ok in H as (g & T & H). injection H as <-. fold (read_all c (sheet0 countries) (map rec_of (flat_map enc items) ++ (XL_EOF, len, d) :: rest)) in R.
  destruct (items_content HV items (sheet0 countries) len d rest sh1 OK (or_introl (conj eq_refl HD)) R) as (K1 & K2 & K3).
  change (f_merged (sh_fmt (sheet0 countries))) with (@nil mrange) in K2. cbn [app] in K2.
  change (o_rich (sh_obj (sheet0 countries))) with (@nil ((Z * Z) * list (Z * Z))) in K3. rewrite app_nil_r in K3.
  split; [|split; [exact K2|exact K3]]. unfold sheet_of. change (sh_grid (sheet0 countries)) with (@grid0 (value N)) in K1. rewrite K1. cbn [bind].
  rewrite <- K2. exact T.
Qed.

(** Codes the loop passes over. *)
Definition handled : list Z := [XL_ROW; XL_COLINFO; XL_DEFCOLWIDTH; XL_STANDARDWIDTH; XL_GCW; XL_HLINK; XL_QUICKTIP; XL_OBJ;
  XL_TXO; XL_NOTE; XL_COUNTRY; XL_LABELRANGES; XL_ARRAY; XL_SHRFMLA; XL_CONDFMT; XL_CF;
  XL_DEFAULTROWHEIGHT; XL_WINDOW2; XL_SCL; XL_PANE; XL_HORIZONTALPAGEBREAKS; XL_VERTICALPAGEBREAKS].

Lemma ignored_step : forall sh rc len d rs, noise_code rc = true -> ~ In rc handled -> step c sh rc len d rs = Ok (sh, rs).
Proof.
  intros sh rc len d rs HN HH. unfold noise_code in HN. unfold step.
  repeat match goal with
  | |- context[if ?a =? ?b then _ else _] =>
      let E := fresh "E" in destruct (a =? b) eqn:E; [try reflexivity; exfalso; apply Z.eqb_eq in E; subst rc;
        first [discriminate HN | apply HH; unfold handled; cbn [In]; tauto]|]
  | |- context[if is_formula_code rc then _ else _] => let E := fresh "E" in destruct (is_formula_code rc) eqn:E;
      [exfalso; rewrite !orb_true_r in HN; discriminate HN|]
  | |- context[if is_bof_code rc then _ else _] => let E := fresh "E" in destruct (is_bof_code rc) eqn:E;
      [exfalso; rewrite !orb_true_r in HN; discriminate HN|]
  | |- context[if (rc =? ?a) || (rc =? ?b) then _ else _] => let E := fresh "E" in destruct ((rc =? a) || (rc =? b)) eqn:E;
      [exfalso; apply orb_true_iff in E as [E|E]; apply Z.eqb_eq in E; subst rc; discriminate HN|]
  end. reflexivity.
Qed.

(** Records about rows, columns, widths, windows, zoom, page breaks, conditional formats,
    label ranges, hyperlinks, drawing objects and comments that can always be read. *)
Definition record_lengths : list (Z * Z) :=
  [(0x208, 16); (0x7d, 10); (0x55, 2); (0x99, 2); (0x41, 9); (0x23e, 9); (0x221, 14); (0x4bc, 10)].
Inductive harmless : Z -> list Z -> Prop :=
| H_ignored : forall rc d, ~ In rc handled -> harmless rc d
| H_unwanted : forall rc d, In rc [0x208; 0x7d; 0xab; 0x1b0; 0x1b1; 0x1b; 0x1a] -> c_fmt c = false -> harmless rc d
| H_long : forall rc d k, In (rc, k) record_lengths -> k <= zlen d -> harmless rc d
| H_height : forall d, harmless 0x225 d
| H_object : forall d, c_bv c < 80 -> harmless 0x5d d
| H_zoom : forall d, zlen d = 4 -> harmless 0xa0 d
| H_gcw : forall bits, zlen bits = 32 -> harmless 0xab (0x20 :: 0 :: bits)
| H_breaks : forall rc n body, rc = 0x1b \/ rc = 0x1a -> u16v n -> zlen body = n * (if c_bv c >=? 80 then 6 else 2) -> harmless rc (le_enc 2 n ++ body)
| H_condfmt : forall fixed ms extra, c_bv c >= 80 -> zlen fixed = 12 -> Forall range_ok ms -> zlen ms < 65536 -> harmless 0x1b0 (fixed ++ ranges_data ms ++ extra)
| H_cf : forall t op n1 n2 flags u font border pattern f1 f2, u16v n1 -> u16v n2 -> 0 <= flags < 4294967296 ->
    zlen font = (if Z.testbit flags 26 then 118 else 0) -> zlen border = (if Z.testbit flags 28 then 8 else 0) ->
    zlen pattern = (if Z.testbit flags 29 then 4 else 0) -> zlen f1 = n1 -> zlen f2 = n2 ->
    harmless 0x1b1 (t :: op :: le_enc 2 n1 ++ le_enc 2 n2 ++ le_enc 4 flags ++ le_enc 2 u ++ font ++ border ++ pattern ++ f1 ++ f2)
| H_labels : forall rows cols, Forall range_ok rows -> zlen rows < 65536 -> Forall range_ok cols -> zlen cols < 65536 ->
    harmless 0x15f (ranges_data rows ++ ranges_data cols)
| H_link : forall p rest, hspec_ok p -> harmless 0x1b8 (hlink_bytes p ++ rest)
| H_shape : forall s, c_bv c >= 80 -> shape_ok s -> harmless 0x5d (shape_data s)
| H_note : forall n, c_bv c >= 80 -> comment_ok n -> harmless 0x1c (comment_data n).

(** Contents that can always be read. *)
Definition item_plain (it : item) : Prop :=
  match it with
  | INoise rc d => harmless rc d
  | IDim _ d => d = [] \/ 12 <= zlen d
  | _ => True
  end.

(** A text box is the record of its object, perhaps records the reader passes over (the drawing
    data), the record of its text and the continuations of that. Contents of plain items and
    text boxes can always be read. *)
Definition noise (r : Z * list Z) : item := INoise (fst r) (snd r).
Inductive contents_plain : list item -> Prop :=
| P_nil : contents_plain []
| P_item : forall it l, item_plain it -> contents_plain l -> contents_plain (it :: l)
| P_box : forall s between t l, c_bv c >= 80 -> shape_ok s -> Forall (fun r => ~ In (fst r) handled) between -> tbox_ok t ->
    contents_plain l ->
    contents_plain (noise (0x5d, shape_data s) :: map noise between ++ noise (0x1b6, tbox_data t) :: map noise (tbox_continues t) ++ l).

Lemma unpack_fits : forall n d pos, 0 <= pos -> 0 <= n -> pos + n <= zlen d -> exists v, unpack_le n d pos = Ok v.
Proof.
  intros n d pos Hp Hn H. unfold unpack_le. rewrite py_slice_len, !py_bound_id by lia.
  replace (Z.max 0 (pos + n - pos) =? n) with true by lia. eauto.
Qed.

Lemma need_long : forall (d : list Z) k, 0 <= k <= zlen d -> need d k = Ok tt.
Proof.
  intros d k H. unfold need. rewrite py_slice_len, !py_bound_id by lia. replace (Z.max 0 (k - 0) =? k) with true by lia. reflexivity.
Qed.

Lemma breaks_fine : forall last d k pos, 0 <= pos -> pos + Z.of_nat k * (if c_bv c >=? 80 then 6 else 2) <= zlen d -> exists l, breaks_loop c k d pos last = Ok l.
Proof.
  intros last d. induction k as [|k IH]; intros pos P L; cbn [breaks_loop]; [eauto|]. unfold unpack_u16.
  destruct (c_bv c <? 80) eqn:V.
  - replace (c_bv c >=? 80) with false in * by lia. destruct (unpack_fits 2 d pos ltac:(lia) ltac:(lia) ltac:(lia)) as (a & ->). cbn [bind].
    destruct (IH (pos + 2) ltac:(lia) ltac:(lia)) as (l & ->). cbn [bind]. eauto.
  - replace (c_bv c >=? 80) with true in * by lia. rewrite py_slice_len, !py_bound_id by lia. replace (Z.max 0 (pos + 6 - pos) =? 6) with true by lia. cbn [guard bind].
    destruct (unpack_fits 2 d pos ltac:(lia) ltac:(lia) ltac:(lia)) as (a & ->). destruct (unpack_fits 2 d (pos + 2) ltac:(lia) ltac:(lia) ltac:(lia)) as (a2 & ->).
    destruct (unpack_fits 2 d (pos + 4) ltac:(lia) ltac:(lia) ltac:(lia)) as (a3 & ->). cbn [bind].
    destruct (IH (pos + 6) ltac:(lia) ltac:(lia)) as (l & ->). cbn [bind]. eauto.
Qed.

Lemma read_breaks_fine : forall n body last, u16v n -> zlen body = n * (if c_bv c >=? 80 then 6 else 2) ->
  exists l, read_breaks c (zlen (le_enc 2 n ++ body)) (le_enc 2 n ++ body) last = Ok l.
Proof.
  intros n body last U L. unfold read_breaks. rewrite (At_u16 _ body n 0 (At_0 _) U). cbn [bind].
  rewrite zlen_app, zlen_le_enc. change (Z.of_nat 2) with 2. rewrite L. replace (_ =? _) with true by lia. cbn [guard bind].
  apply breaks_fine; [lia|]. rewrite zlen_app, zlen_le_enc, L. unfold u16v in U. change (Z.of_nat 2) with 2. rewrite Z2Nat.id by lia. lia.
Qed.

Lemma quad_fine : forall d l, (forall i, In i l -> 0 <= i < 8) -> 34 <= zlen d -> exists v, mapM (fun i => unpack_i32 d (2 + 4 * i)) l = Ok v.
Proof.
  intros d l R L. induction l as [|i l IH]; cbn [mapM]; [eauto|]. unfold unpack_i32 at 1.
  specialize (R i (or_introl eq_refl)) as RI. destruct (unpack_fits 4 d (2 + 4 * i) ltac:(lia) ltac:(lia) ltac:(lia)) as (v & ->). cbn [bind].
  destruct IH as (vs & ->); [intros j J; apply R; right; exact J|]. cbn [bind]. eauto.
Qed.

Lemma flag_bit : forall v i, 0 <= v < 4294967296 -> 0 <= i < 31 -> bit (to_signed 32 v) i =? 0 = negb (Z.testbit v i).
Proof.
  intros v i V I. unfold bit, to_signed. change (2 ^ (32 - 1)) with 2147483648. change (2 ^ 32) with 4294967296.
  assert (T : Z.testbit (if v <? 2147483648 then v else v - 4294967296) i = Z.testbit v i).
  { destruct (v <? 2147483648); [reflexivity|]. rewrite <- (Z.mod_pow2_bits_low v 32 i) by lia. rewrite <- (Z.mod_pow2_bits_low (v - 4294967296) 32 i) by lia.
    change (2 ^ 32) with 4294967296. f_equal. replace (v - 4294967296) with (v + (-1) * 4294967296) by lia. apply Z_mod_plus. lia. }
  revert T. generalize (if v <? 2147483648 then v else v - 4294967296). intros w T. rewrite <- T.
  change 1 with (Z.ones 1). rewrite Z.land_ones by lia. change (2 ^ 1) with 2. rewrite <- Z.bit0_mod, Z.shiftr_spec by lia. rewrite Z.add_0_l. destruct (Z.testbit w i); reflexivity.
Qed.

Lemma unwanted_step : forall sh rc len d rs, In rc [0x208; 0x7d; 0xab; 0x1b0; 0x1b1; 0x1b; 0x1a] -> c_fmt c = false -> step c sh rc len d rs = Ok (sh, rs).
Proof.
  intros sh rc len d rs I F.
  assert (E : step c sh 0x208 len d rs = plain (h_row c sh d) rs /\ step c sh 0x7d len d rs = plain (h_colinfo c sh d) rs /\
    step c sh 0xab len d rs = plain (h_gcw c sh len d) rs /\ step c sh 0x1b0 len d rs = plain (h_condfmt c sh d) rs /\ step c sh 0x1b1 len d rs = plain (h_cf c sh len d) rs /\
    step c sh 0x1b len d rs = plain (h_hbreaks c sh len d) rs /\ step c sh 0x1a len d rs = plain (h_vbreaks c sh len d) rs) by (repeat split).
  destruct E as (E1 & E2 & E3 & E4 & E5 & E6 & E7).
  cbn [In] in I. repeat (destruct I as [<-|I]; [rewrite ?E1, ?E2, ?E3, ?E4, ?E5, ?E6, ?E7; unfold plain, h_row, h_colinfo, h_gcw, h_condfmt, h_cf, h_hbreaks, h_vbreaks; rewrite F; reflexivity|]).
  contradiction.
Qed.

Lemma long_step : forall sh rc d k rs, In (rc, k) record_lengths -> k <= zlen d -> exists sh', step c sh rc (zlen d) d rs = Ok (sh', rs) /\ sh_grid sh' = sh_grid sh.
Proof.
  intros sh rc d k rs I L. unfold record_lengths in I. cbn [In] in I.
  assert (U2 : forall p, 0 <= p -> p + 2 <= zlen d -> exists v, unpack_u16 d p = Ok v) by (intros p P1 P2; apply unpack_fits; lia).
  assert (U4 : forall p, 0 <= p -> p + 4 <= zlen d -> exists v, unpack_i32 d p = Ok v).
  { intros p P1 P2. unfold unpack_i32. destruct (unpack_fits 4 d p ltac:(lia) ltac:(lia) ltac:(lia)) as (v & ->). cbn [bind]. eauto. }
  assert (U1 : forall p, 0 <= p -> p + 1 <= zlen d -> exists v, unpack_le 1 d p = Ok v) by (intros p P1 P2; apply unpack_fits; lia).
  repeat (destruct I as [E|I]; [injection E as <- <-|]); [..|destruct I].
  - change (step c sh 520 (zlen d) d rs) with (plain (h_row c sh d) rs). unfold plain, h_row. destruct (negb (c_fmt c)); [cbn [bind]; eauto|].
    rewrite need_long by lia. destruct (U2 0 ltac:(lia) ltac:(lia)) as (v0 & ->). destruct (U2 6 ltac:(lia) ltac:(lia)) as (v6 & ->). destruct (U4 12 ltac:(lia) ltac:(lia)) as (v12 & ->).
    cbn [bind]. cbv zeta. destruct (negb _); cbn [bind]; eexists; split; reflexivity.
  - change (step c sh 125 (zlen d) d rs) with (plain (h_colinfo c sh d) rs). unfold plain, h_colinfo. destruct (negb (c_fmt c)); [cbn [bind]; eauto|].
    rewrite need_long by lia. destruct (U2 0 ltac:(lia) ltac:(lia)) as (v0 & ->). destruct (U2 2 ltac:(lia) ltac:(lia)) as (v2 & ->).
    destruct (U2 4 ltac:(lia) ltac:(lia)) as (v4 & ->). destruct (U2 6 ltac:(lia) ltac:(lia)) as (v6 & ->). destruct (U2 8 ltac:(lia) ltac:(lia)) as (v8 & ->).
    cbn [bind]. cbv zeta. destruct (negb _); cbn [bind]; eexists; split; reflexivity.
  - change (step c sh 85 (zlen d) d rs) with (plain (h_defcolwidth sh d) rs). unfold plain, h_defcolwidth. destruct (U2 0 ltac:(lia) ltac:(lia)) as (v0 & ->). eexists; split; reflexivity.
  - change (step c sh 153 (zlen d) d rs) with (plain (h_standardwidth sh d) rs). unfold plain, h_standardwidth. destruct (U2 0 ltac:(lia) ltac:(lia)) as (v0 & ->). eexists; split; reflexivity.
  - change (step c sh 65 (zlen d) d rs) with (plain (h_pane sh d) rs). unfold plain, h_pane. rewrite need_long by lia.
    destruct (U2 0 ltac:(lia) ltac:(lia)) as (v0 & ->). destruct (U2 2 ltac:(lia) ltac:(lia)) as (v2 & ->).
    destruct (U2 4 ltac:(lia) ltac:(lia)) as (v4 & ->). destruct (U2 6 ltac:(lia) ltac:(lia)) as (v6 & ->). destruct (U1 8 ltac:(lia) ltac:(lia)) as (v8 & ->).
    eexists; split; reflexivity.
  - change (step c sh 574 (zlen d) d rs) with (plain (h_window2 c sh (zlen d) d) rs). unfold plain, h_window2. cbv zeta.
    destruct (U2 0 ltac:(lia) ltac:(lia)) as (v0 & ->). destruct (U2 2 ltac:(lia) ltac:(lia)) as (v2 & ->). destruct (U2 4 ltac:(lia) ltac:(lia)) as (v4 & ->).
    destruct ((c_bv c >=? 80) && (zlen d >=? 14)) eqn:E.
    + rewrite need_long by lia. destruct (U2 6 ltac:(lia) ltac:(lia)) as (v6 & ->). destruct (U2 10 ltac:(lia) ltac:(lia)) as (v10 & ->). destruct (U2 12 ltac:(lia) ltac:(lia)) as (v12 & ->).
      eexists; split; reflexivity.
    + rewrite need_long by lia. rewrite py_slice_len, !py_bound_id by lia. change (Z.max 0 (9 - 6) =? 3) with true. cbn [guard bind].
      destruct (U1 6 ltac:(lia) ltac:(lia)) as (v6 & ->). destruct (U1 7 ltac:(lia) ltac:(lia)) as (v7 & ->). destruct (U1 8 ltac:(lia) ltac:(lia)) as (v8 & ->).
      eexists; split; reflexivity.
  - change (step c sh 545 (zlen d) d rs) with (do _ <- need d 14; Ok (sh, rs)). rewrite need_long by lia. cbn [bind]. eauto.
  - change (step c sh 1212 (zlen d) d rs) with (do _ <- need d 10; Ok (sh, rs)). rewrite need_long by lia. cbn [bind]. eauto.
Qed.

Lemma harmless_step : forall sh rc d rs, noise_code rc = true -> harmless rc d -> exists sh', step c sh rc (zlen d) d rs = Ok (sh', rs) /\ sh_grid sh' = sh_grid sh.
Proof.
  intros sh rc d rs NC H. destruct H as [rc d NI|rc d I F|rc d k I L|d|d V|d L|bits L|rc n body RC U L|fixed ms extra V LF RO LM|
    t op n1 n2 flags u font border pattern f1 f2 U1 U2 FL LFO LB LP L1 L2|rows cols R1 Z1 R2 Z2|p rest PO|s V SO|n V CO].
  - rewrite ignored_step by assumption. eauto.
  - rewrite unwanted_step by assumption. eauto.
  - eapply long_step; eassumption.
  - change (step c sh 549 (zlen d) d rs) with (plain (h_defaultrowheight sh (zlen d) d) rs). unfold plain, h_defaultrowheight, unpack_u16. cbv zeta.
    destruct (zlen d =? 4) eqn:E4; [|destruct (zlen d =? 2) eqn:E2].
    + rewrite need_long by lia. destruct (unpack_fits 2 d 0 ltac:(lia) ltac:(lia) ltac:(lia)) as (v0 & ->). destruct (unpack_fits 2 d 2 ltac:(lia) ltac:(lia) ltac:(lia)) as (v2 & ->).
      eexists; split; reflexivity.
    + cbn [guard bind]. destruct (unpack_fits 2 d 0 ltac:(lia) ltac:(lia) ltac:(lia)) as (v0 & ->). eexists; split; reflexivity.
    + eexists; split; reflexivity.
  - change (step c sh 93 (zlen d) d rs) with (plain (h_obj c sh d) rs). unfold plain, h_obj, handle_obj. replace (c_bv c <? 80) with true by lia. eexists; split; reflexivity.
  - change (step c sh 160 (zlen d) d rs) with (plain (h_scl sh d) rs). unfold plain, h_scl, unpack_u16. cbv zeta. replace (zlen d =? 4) with true by lia. cbn [guard bind].
    destruct (unpack_fits 2 d 0 ltac:(lia) ltac:(lia) ltac:(lia)) as (v0 & ->). destruct (unpack_fits 2 d 2 ltac:(lia) ltac:(lia) ltac:(lia)) as (v2 & ->).
    eexists; split; reflexivity.
  - set (d := 32 :: 0 :: bits). change (step c sh 171 (zlen d) d rs) with (plain (h_gcw c sh (zlen d) d) rs). unfold plain, h_gcw. destruct (negb (c_fmt c)); [cbn [bind]; eauto|].
    assert (LD : zlen d = 34) by (unfold d; rewrite !zlen_cons; lia). rewrite LD. change (34 =? 34) with true. cbn [guard bind].
    assert (py_slice d 0 2 = [0x20; 0]) as -> by (exact (py_slice_pre [0x20; 0] bits 2 eq_refl)). change (list_eqb [0x20; 0] [0x20; 0]) with true. cbn [guard bind].
    rewrite py_slice_len, !py_bound_id by lia. change (Z.max 0 (34 - 2) =? 32) with true. cbn [guard bind].
    destruct (quad_fine d (zrange 0 8)) as (v & ->); [|lia|]; [intros i I; apply in_zrange in I; lia|]. cbn [bind]. eexists; split; reflexivity.
  - set (d := le_enc 2 n ++ body). destruct (read_breaks_fine n body 255 U L) as (l1 & E1). destruct (read_breaks_fine n body 65535 U L) as (l2 & E2). fold d in E1, E2.
    destruct RC as [-> | ->].
    + change (step c sh 27 (zlen d) d rs) with (plain (h_hbreaks c sh (zlen d) d) rs). unfold plain, h_hbreaks. destruct (negb (c_fmt c)); [cbn [bind]; eauto|].
      cbv zeta. rewrite E1. eexists; split; reflexivity.
    + change (step c sh 26 (zlen d) d rs) with (plain (h_vbreaks c sh (zlen d) d) rs). unfold plain, h_vbreaks. destruct (negb (c_fmt c)); [cbn [bind]; eauto|].
      cbv zeta. rewrite E2. eexists; split; reflexivity.
  - set (d := fixed ++ ranges_data ms ++ extra). change (step c sh 432 (zlen d) d rs) with (plain (h_condfmt c sh d) rs). unfold plain, h_condfmt. destruct (negb (c_fmt c)); [cbn [bind]; eauto|].
    replace (c_bv c >=? 80) with true by lia. cbn [guard bind].
    rewrite need_long by (unfold d; rewrite zlen_app; match goal with |- context [_ + zlen ?x] => pose proof (zlen_nonneg x) end; lia). cbn [bind].
    assert (A : At d 12 (ranges_data ms ++ extra)) by (exists fixed; auto). rewrite (range_list_enc ms [] d 12 extra RO LM A). cbn [bind]. eauto.
  - match goal with |- context [step c sh 0x1b1 _ ?x rs] => set (d := x) end. change (step c sh 0x1b1 (zlen d) d rs) with (plain (h_cf c sh (zlen d) d) rs). unfold plain, h_cf. destruct (negb (c_fmt c)); [cbn [bind]; eauto|].
    assert (LD : zlen d = 12 + zlen font + zlen border + zlen pattern + n1 + n2).
    { unfold d. rewrite !zlen_cons, !zlen_app, !zlen_le_enc. lia. }
    pose proof (zlen_nonneg font). pose proof (zlen_nonneg border). pose proof (zlen_nonneg pattern). unfold u16v in U1, U2.
    rewrite need_long by lia. cbn [bind].
    assert (A2 : At d 2 (le_enc 2 n1 ++ le_enc 2 n2 ++ le_enc 4 flags ++ le_enc 2 u ++ font ++ border ++ pattern ++ f1 ++ f2)) by (exists [t; op]; split; reflexivity).
    rewrite (At_u16 _ _ _ _ A2) by exact U1. cbn [bind].
    pose proof (At_skip _ _ _ _ 4 A2 eq_refl) as A4. rewrite (At_u16 _ _ _ _ A4) by exact U2. cbn [bind].
    pose proof (At_skip _ _ _ _ 6 A4 eq_refl) as A6. unfold unpack_i32. 
    assert (unpack_le 4 d 6 = Ok flags) as -> by (apply (At_u32 _ _ _ _ A6); lia). cbn [bind]. cbv zeta.
    rewrite !flag_bit by lia. rewrite !negb_involutive.
    destruct (Z.testbit flags 26).
    + rewrite py_slice_len, !py_bound_id by lia. change (Z.max 0 (12 + 118 - 12) =? 118) with true. cbn [guard bind].
      match goal with |- context [guard (?a =? ?b) AssertionError] => replace (a =? b) with true by (destruct (Z.testbit flags 28), (Z.testbit flags 29); lia) end. cbn [guard bind]. eauto.
    + cbn [bind]. match goal with |- context [guard (?a =? ?b) AssertionError] => replace (a =? b) with true by (destruct (Z.testbit flags 28), (Z.testbit flags 29); lia) end. cbn [guard bind]. eauto.
  - set (d := ranges_data rows ++ ranges_data cols). change (step c sh 351 (zlen d) d rs) with (plain (h_labelranges sh (zlen d) d) rs). unfold plain, h_labelranges. cbv zeta.
    rewrite (range_list_enc rows _ d 0 (ranges_data cols) R1 Z1 (At_0 _)). cbn [bind].
    assert (A : At d (0 + zlen (ranges_data rows)) (ranges_data cols ++ [])) by (exists (ranges_data rows); split; [rewrite app_nil_r; reflexivity|lia]).
    rewrite (range_list_enc cols _ d _ [] R2 Z2 A). cbn [bind].
    replace (_ =? zlen d) with true by (unfold d; rewrite zlen_app; lia). cbn [guard bind]. eexists; split; reflexivity.
  - set (d := hlink_bytes p ++ rest). change (step c sh 0x1b8 (zlen d) d rs) with (do l <- handle_hlink (o_links (sh_obj sh)) d; Ok (set_links sh l, rs)). unfold handle_hlink, d. rewrite hlink_reads by exact PO.
    eexists; split; reflexivity.
  - set (d := shape_data s). change (step c sh 93 (zlen d) d rs) with (plain (h_obj c sh d) rs). unfold plain, h_obj, d. rewrite shape_reads by (assumption || lia). eexists; split; reflexivity.
  - set (d := comment_data n). change (step c sh 28 (zlen d) d rs) with (h_note c sh d rs). unfold h_note, d. rewrite comment_reads by (assumption || lia). eexists; split; reflexivity.
Qed.

Lemma put_cells_fine : forall hist, Forall (in_bounds (c_fmt c) (max_rows c) 256) hist ->
  exists g, put_cells vempty (c_ragged c) (c_fmt c) (max_rows c) 256 (@grid0 (value N)) hist = Ok g.
Proof.
  intros hist HB. destruct (c_ragged c).
  - destruct (put_ragged_all vempty (c_fmt c) (max_rows c) 256 hist [] grid0 [] (grid0_holds vempty (c_fmt c))) as (g & W & E & _);
      [intros r w Ew; apply znth_Some_range in Ew; cbn in Ew; lia|reflexivity|reflexivity|exact HB|]. eauto.
  - destruct (put_unragged_all vempty (c_fmt c) (max_rows c) 256 hist [] grid0 [] (grid0_holds vempty (c_fmt c))) as (g & W & E & _);
      [split; [intros r w Ew; apply znth_Some_range in Ew; cbn in Ew; lia|right; left; auto]|reflexivity|reflexivity|exact HB|]. eauto.
Qed.

Lemma dim_fine : forall sh d, d = [] \/ 12 <= zlen d -> exists sh', h_dimension c sh (zlen d) d = Ok sh'.
Proof.
  intros sh d H. unfold h_dimension. destruct (zlen d =? 0) eqn:E; [eauto|].
  destruct H as [->|H]; [discriminate E|]. cbv zeta. unfold unpack_u16, unpack_i32.
  destruct (unpack_fits 2 d 2) as [v1 E1]; [lia..|]. destruct (unpack_fits 2 d 6) as [v2 E2]; [lia..|].
  destruct (unpack_fits 4 d 4) as [v3 E3]; [lia..|]. destruct (unpack_fits 2 d 10) as [v4 E4]; [lia..|].
  rewrite !py_slice_len, !py_bound_id by lia. rewrite E1, E2, E3, E4. cbn [bind].
  destruct (c_bv c <? 80); cbn; eauto.
Qed.

Lemma items_fine : c_bv c >= 50 -> forall items hist sh len d rest,
  Forall item_ok items -> contents_plain items ->
  (sh_grid sh = grid0 /\ hist = [] /\ dims_first items \/ existsb is_dim items = false) ->
  put_cells vempty (c_ragged c) (c_fmt c) (max_rows c) 256 grid0 hist = Ok (sh_grid sh) ->
  Forall (in_bounds (c_fmt c) (max_rows c) 256) (hist ++ flat_map cells items) ->
  exists sh', read_all c sh (map rec_of (flat_map enc items) ++ (XL_EOF, len, d) :: rest) = Ok sh'.
Proof.
  intros HV items hist sh len d rest OK PL. revert hist sh OK.
  induction PL as [|it items P PL' IH|s between t l V8 SO BO TO PL' IH]; intros hist sh OK HD HP HB.
  - eexists. cbn [flat_map map app]. rewrite read_all_cons. reflexivity.
  - inversion OK as [|? ? O OK']; subst. cbn [flat_map] in *.
    destruct (quiet it) eqn:Q.
    + destruct (item_reads it HV O Q) as (adj & HA & HR). rewrite map_app, <- app_assoc, HR.
      rewrite app_assoc in HB. pose proof HB as HB'. apply Forall_app in HB' as [HB1 _].
      destruct (put_cells_fine _ HB1) as (g1 & G1). rewrite put_cells_app, HP in G1. cbn [bind] in G1.
      unfold puts. rewrite G1. cbn [bind]. destruct (HA (with_grid sh g1)) as (HA1 & HA2 & _). cbn [with_grid sh_grid] in HA1.
      apply (IH (hist ++ cells it)); auto.
      * destruct HD as [(HG & -> & HD)|HD].
        -- cbn [dims_first] in HD. destruct (cells it) as [|s0 l0]; [|right; exact HD].
           left. cbn [put_cells] in G1. injection G1 as <-. split; [congruence|]. auto.
        -- right. cbn [existsb] in HD. apply orb_false_iff in HD. apply HD.
      * rewrite put_cells_app, HP. cbn [bind]. rewrite G1. congruence.
    + destruct it as [| | | | | | | | | | | |rc dd|rc dd]; try discriminate Q.
      * destruct HD as [(HG & -> & HD)|HD]; [|discriminate HD]. cbn [item_ok item_plain enc cells merges dims_first] in *.
        cbn [app map]. unfold rec_of at 1. cbn [fst snd]. rewrite read_all_cons.
        destruct (dim_code rc sh (zlen dd) dd (map rec_of (flat_map enc items) ++ (XL_EOF, len, d) :: rest) O) as [E1 E2].
        rewrite E1, E2. destruct (dim_fine sh dd P) as (sh1 & S). rewrite S. cbn [plain bind].
        destruct (dim_step _ _ _ _ S HG) as (G1 & M1 & _). apply (IH []); auto. cbn [put_cells]. congruence.
      * cbn [item_ok item_plain enc cells merges] in *.
        cbn [app map]. unfold rec_of at 1. cbn [fst snd]. rewrite read_all_cons.
        destruct (rc =? XL_EOF) eqn:EE; [apply Z.eqb_eq in EE; subst rc; discriminate O|].
        destruct (harmless_step sh rc dd (map rec_of (flat_map enc items) ++ (XL_EOF, len, d) :: rest) O P) as (sh1 & -> & G1). cbn [bind].
        apply (IH hist); auto; [|congruence].
        destruct HD as [(HG & HH & HD)|HD]; [left; split; [congruence|]; split; [exact HH|exact HD]|right; exact HD].
  - inversion OK as [|? ? _ OK1]; subst. apply Forall_app in OK1 as [OKB OK2]. inversion OK2 as [|? ? _ OK3]; subst. apply Forall_app in OK3 as [_ OK4].
    assert (NC : Forall (fun r => noise_code (fst r) = true) between).
    { apply Forall_forall. intros r R. rewrite Forall_forall in OKB. exact (OKB _ (in_map noise _ _ R)). }
    assert (EN : forall l0, flat_map enc (map noise l0) = l0 /\ flat_map cells (map noise l0) = []).
    { induction l0 as [|[rc0 d0] l0 (I1 & I2)]; [split; reflexivity|]. cbn [map flat_map]. rewrite I1, I2. split; reflexivity. }
    assert (DN : forall l0 l1, (dims_first (map noise l0 ++ l1) -> dims_first l1) /\ existsb is_dim (map noise l0 ++ l1) = existsb is_dim l1).
    { induction l0 as [|[rc0 d0] l0 IH0]; intros l1; [split; [auto|reflexivity]|]. destruct (IH0 l1) as (I1 & I2). cbn [map app existsb noise is_dim orb]. split; [exact I1|exact I2]. }
    set (tail := map rec_of (flat_map enc l) ++ (XL_EOF, len, d) :: rest).
    assert (R1 : map rec_of (flat_map enc (noise (93, shape_data s) :: map noise between ++ noise (438, tbox_data t) :: map noise (tbox_continues t) ++ l)) ++ (XL_EOF, len, d) :: rest =
      rec_of (93, shape_data s) :: map rec_of between ++ rec_of (438, tbox_data t) :: map rec_of (tbox_continues t) ++ tail).
    { cbn [flat_map]. rewrite flat_map_app. cbn [flat_map]. rewrite flat_map_app, (proj1 (EN between)), (proj1 (EN (tbox_continues t))).
      unfold noise. cbn [enc fst snd app map]. rewrite map_app. cbn [map]. rewrite map_app, <- app_assoc. cbn [app]. rewrite <- app_assoc. reflexivity. }
    rewrite R1. unfold rec_of at 1. cbn [fst snd]. rewrite read_all_cons. change (93 =? XL_EOF) with false. cbv iota.
    match goal with |- context [step c sh 93 _ ?x ?r] => change (step c sh 93 (zlen x) x r) with (plain (h_obj c sh x) r) end.
    unfold plain, h_obj. rewrite shape_reads by (assumption || lia). cbn [bind].
    match goal with |- context [read_all c ?x _] => set (sh1 := x) end.
    assert (RB : forall bs r, Forall (fun r => noise_code (fst r) = true) bs -> Forall (fun r => ~ In (fst r) handled) bs -> read_all c sh1 (map rec_of bs ++ r) = read_all c sh1 r).
    { induction bs as [|[rc0 d0] bs IHb]; intros r N0 B0; [reflexivity|]. inversion N0 as [|? ? N1 N2]; subst. inversion B0 as [|? ? B1 B2]; subst. cbn [fst] in *.
      cbn [map app]. unfold rec_of at 1. cbn [fst snd]. rewrite read_all_cons.
      destruct (rc0 =? XL_EOF) eqn:EE; [apply Z.eqb_eq in EE; subst rc0; discriminate N1|]. rewrite ignored_step by assumption. cbn [bind]. apply IHb; assumption. }
    rewrite (RB between) by assumption. unfold rec_of at 1. cbn [fst snd]. rewrite read_all_cons. change (438 =? XL_EOF) with false. cbv iota.
    match goal with |- context [step c sh1 438 _ ?x ?r] => change (step c sh1 438 (zlen x) x r) with (h_txo c sh1 x r) end.
    unfold h_txo. rewrite tbox_reads by (assumption || lia). cbn [bind].
    change (o_saved (sh_obj sh1)) with (Some (Some (sp_id s))). cbv zeta iota. destruct SO as (_ & SID & _). replace (sp_id s =? 0) with false by lia. cbn [bind].
    apply (IH hist); [exact OK4| |exact HP|].
    + destruct HD as [(HG & HH & HD)|HD].
      * left. split; [exact HG|]. split; [exact HH|]. cbn [dims_first noise cells] in HD. apply (DN (tbox_continues t)).
        apply DN in HD. exact HD.
      * right. cbn [existsb noise is_dim orb] in HD. rewrite (proj2 (DN _ _)) in HD. cbn [existsb noise is_dim orb] in HD. rewrite (proj2 (DN _ _)) in HD. exact HD.
    + cbn [flat_map noise cells app fst snd] in HB. rewrite flat_map_app, (proj2 (EN between)) in HB. cbn [flat_map noise cells app fst snd] in HB.
      rewrite flat_map_app, (proj2 (EN (tbox_continues t))) in HB. exact HB.
Qed.
End Content.
