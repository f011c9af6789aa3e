(** Reading a worksheet depends on the countries of the book only through its COUNTRY
    record: /repo/xlrd/sheet.py:1146-1147 and /repo/xlrd/book.py:843-848. *)
From Verif Require Import Base BaseFacts GridModel SheetObjects SheetModel.

Section Share.
Context {N : Type}.
Variable c : config N.
Notation sheet := (sheet N).

Definition set_c (sh : sheet) (k : Z * Z) : sheet := mk_sheet (sh_grid sh) (sh_fmt sh) (sh_view sh) (sh_obj sh) k.

Definition lift (r : result sheet) (k : Z * Z) : result sheet := do sh <- r; Ok (set_c sh k).
Definition lift2 (r : result (sheet * list record)) (k : Z * Z) : result (sheet * list record) :=
  do (sh, rs) <- r; Ok (set_c sh k, rs).

Lemma put_share : forall sh k r x t v xf, put c (set_c sh k) r x t v xf = lift (put c sh r x t v xf) k.
Proof.
  intros. unfold put, lift. cbn [set_c sh_grid].
  destruct (match t with Some t0 => Ok t0 | None => _ end); [rewrite !bind_Ok|reflexivity].
  destruct (put_cell _ _ _ _ _ _ _); reflexivity.
Qed.

Lemma mulrk_share : forall cols sh k row data pos,
  mulrk_loop c cols (set_c sh k) row data pos = lift (mulrk_loop c cols sh row data pos) k.
Proof.
  induction cols as [|x cols IH]; intros; cbn [mulrk_loop]; [reflexivity|].
  destruct (unpack_u16 data pos) as [xf|]; [rewrite !bind_Ok|reflexivity].
  destruct (c_rk c _) as [d|]; [rewrite !bind_Ok|reflexivity].
  rewrite put_share. destruct (put c sh row x None (VNum d) xf) as [s|]; [|reflexivity].
  unfold lift at 1. rewrite !bind_Ok. apply IH.
Qed.

Lemma mulblank_share : forall cols sh k row items pos,
  mulblank_loop c cols (set_c sh k) row items pos = lift (mulblank_loop c cols sh row items pos) k.
Proof.
  induction cols as [|x cols IH]; intros; cbn [mulblank_loop]; [reflexivity|].
  destruct (py_index items pos) as [xf|]; [rewrite !bind_Ok|reflexivity].
  rewrite put_share. destruct (put c sh row x _ vempty xf) as [s|]; [|reflexivity].
  unfold lift at 1. rewrite !bind_Ok. apply IH.
Qed.

Ltac share1 :=
  match goal with
  | |- ?x = ?x => reflexivity
  | |- Ok _ = Ok _ => reflexivity
  | |- context [put c (set_c _ _) _ _ _ _ _] => rewrite put_share; unfold lift
  | |- context [mulrk_loop c _ (set_c _ _) _ _ _] => rewrite mulrk_share; unfold lift
  | |- context [mulblank_loop c _ (set_c _ _) _ _ _] => rewrite mulblank_share; unfold lift
  | |- context [match ?m with Ok _ => _ | Err _ => _ end] => destruct m; cbn [bind]
  | |- context [bind ?m _] =>
      lazymatch m with
      | context [bind _ _] => fail
      | context [if _ then _ else _] => fail
      | context [match _ with _ => _ end] => fail
      | _ => destruct m; cbn [bind]
      end
  | |- context [if ?b then _ else _] =>
      lazymatch b with context [if _ then _ else _] => fail | _ => destruct b end
  | |- context [match ?m with _ => _ end] =>
      lazymatch m with context [match _ with _ => _ end] => fail | _ => destruct m end
  end.
Ltac share := unfold plain, lift, lift2; cbn [set_c sh_grid sh_fmt sh_view sh_obj sh_countries bind]; repeat (share1; cbn [bind]).

Lemma h_number_share : forall sh k data, h_number c (set_c sh k) data = lift (h_number c sh data) k.
Proof. intros. unfold h_number. share. Qed.

Lemma h_labelsst_share : forall sh k data, h_labelsst c (set_c sh k) data = lift (h_labelsst c sh data) k.
Proof. intros. unfold h_labelsst. share. Qed.

Lemma h_label_share : forall sh k data, h_label c (set_c sh k) data = lift (h_label c sh data) k.
Proof. intros. unfold h_label. share. Qed.

Lemma h_rstring_share : forall sh k data, h_rstring c (set_c sh k) data = lift (h_rstring c sh data) k.
Proof. intros. unfold h_rstring. share. Qed.

Lemma h_rk_share : forall sh k data, h_rk c (set_c sh k) data = lift (h_rk c sh data) k.
Proof. intros. unfold h_rk. share. Qed.

Lemma h_mulrk_share : forall sh k data, h_mulrk c (set_c sh k) data = lift (h_mulrk c sh data) k.
Proof. intros. unfold h_mulrk. share. Qed.

Lemma h_row_share : forall sh k data, h_row c (set_c sh k) data = lift (h_row c sh data) k.
Proof. intros. unfold h_row. share. Qed.

Lemma h_boolerr_share : forall sh k data, h_boolerr c (set_c sh k) data = lift (h_boolerr c sh data) k.
Proof. intros. unfold h_boolerr. share. Qed.

Lemma h_colinfo_share : forall sh k data, h_colinfo c (set_c sh k) data = lift (h_colinfo c sh data) k.
Proof. intros. unfold h_colinfo. share. Qed.

Lemma h_defcolwidth_share : forall sh k data, h_defcolwidth (set_c sh k) data = lift (h_defcolwidth sh data) k.
Proof. intros. unfold h_defcolwidth. share. Qed.

Lemma h_standardwidth_share : forall sh k data, h_standardwidth (set_c sh k) data = lift (h_standardwidth sh data) k.
Proof. intros. unfold h_standardwidth. share. Qed.

Lemma h_gcw_share : forall sh k len data, h_gcw c (set_c sh k) len data = lift (h_gcw c sh len data) k.
Proof. intros. unfold h_gcw. share. Qed.

Lemma h_blank_share : forall sh k data, h_blank c (set_c sh k) data = lift (h_blank c sh data) k.
Proof. intros. unfold h_blank. share. Qed.

Lemma h_mulblank_share : forall sh k len data, h_mulblank c (set_c sh k) len data = lift (h_mulblank c sh len data) k.
Proof. intros. unfold h_mulblank. share. Qed.

Lemma h_dimension_share : forall sh k len data, h_dimension c (set_c sh k) len data = lift (h_dimension c sh len data) k.
Proof. intros. unfold h_dimension. share. Qed.

Lemma h_obj_share : forall sh k data, h_obj c (set_c sh k) data = lift (h_obj c sh data) k.
Proof. intros. unfold h_obj. share. Qed.

Lemma h_labelranges_share : forall sh k len data, h_labelranges (set_c sh k) len data = lift (h_labelranges sh len data) k.
Proof. intros. unfold h_labelranges. share. Qed.

Lemma h_condfmt_share : forall sh k data, h_condfmt c (set_c sh k) data = lift (h_condfmt c sh data) k.
Proof. intros. unfold h_condfmt. share. Qed.

Lemma h_cf_share : forall sh k len data, h_cf c (set_c sh k) len data = lift (h_cf c sh len data) k.
Proof. intros. unfold h_cf. share. Qed.

Lemma h_defaultrowheight_share : forall sh k len data, h_defaultrowheight (set_c sh k) len data = lift (h_defaultrowheight sh len data) k.
Proof. intros. unfold h_defaultrowheight. share. Qed.

Lemma h_mergedcells_share : forall sh k len data, h_mergedcells c (set_c sh k) len data = lift (h_mergedcells c sh len data) k.
Proof. intros. unfold h_mergedcells. share. Qed.

Lemma h_window2_share : forall sh k len data, h_window2 c (set_c sh k) len data = lift (h_window2 c sh len data) k.
Proof. intros. unfold h_window2. share. Qed.

Lemma h_scl_share : forall sh k data, h_scl (set_c sh k) data = lift (h_scl sh data) k.
Proof. intros. unfold h_scl. share. Qed.

Lemma h_pane_share : forall sh k data, h_pane (set_c sh k) data = lift (h_pane sh data) k.
Proof. intros. unfold h_pane. share. Qed.

Lemma h_hbreaks_share : forall sh k len data, h_hbreaks c (set_c sh k) len data = lift (h_hbreaks c sh len data) k.
Proof. intros. unfold h_hbreaks. share. Qed.

Lemma h_vbreaks_share : forall sh k len data, h_vbreaks c (set_c sh k) len data = lift (h_vbreaks c sh len data) k.
Proof. intros. unfold h_vbreaks. share. Qed.

Lemma h_formula_share : forall sh k data rs, h_formula c (set_c sh k) data rs = lift2 (h_formula c sh data rs) k.
Proof. intros. unfold h_formula. share. Qed.

Lemma h_txo_share : forall sh k data rs, h_txo c (set_c sh k) data rs = lift2 (h_txo c sh data rs) k.
Proof. intros. unfold h_txo. share. Qed.

Lemma h_note_share : forall sh k data rs, h_note c (set_c sh k) data rs = lift2 (h_note c sh data rs) k.
Proof. intros. unfold h_note. share. Qed.

Lemma plain_share : forall r k rs, plain (lift r k) rs = lift2 (plain r rs) k.
Proof. intros [s|e] k rs; reflexivity. Qed.

Lemma step_share : forall sh k rc len data rs, rc <> XL_COUNTRY ->
  step c (set_c sh k) rc len data rs = lift2 (step c sh rc len data rs) k.
Proof.
  intros sh k rc len data rs NC. unfold step.
  replace (rc =? XL_COUNTRY) with false by lia.
  repeat match goal with |- (if ?b then _ else _) = _ => destruct b end.
  all: try (unfold lift2; reflexivity).
  all: try (first [apply h_formula_share | apply h_txo_share | apply h_note_share]).
  all: try ((rewrite h_number_share || rewrite h_labelsst_share || rewrite h_label_share || rewrite h_rstring_share || rewrite h_rk_share || rewrite h_mulrk_share || rewrite h_row_share || rewrite h_boolerr_share || rewrite h_colinfo_share || rewrite h_defcolwidth_share || rewrite h_standardwidth_share || rewrite h_gcw_share || rewrite h_blank_share || rewrite h_mulblank_share || rewrite h_dimension_share || rewrite h_obj_share || rewrite h_labelranges_share || rewrite h_condfmt_share || rewrite h_cf_share || rewrite h_defaultrowheight_share || rewrite h_mergedcells_share || rewrite h_window2_share || rewrite h_scl_share || rewrite h_pane_share || rewrite h_hbreaks_share || rewrite h_vbreaks_share); apply plain_share).
  all: share.
Qed.
Lemma set_c_same : forall sh : sheet, set_c sh (sh_countries sh) = sh.
Proof. intros []. reflexivity. Qed.

(** A step keeps the countries or replaces (0, 0). *)
Lemma step_countries : forall sh rc len data rs sh' rs', step c sh rc len data rs = Ok (sh', rs') ->
  sh_countries sh' = sh_countries sh \/ sh_countries sh = (0, 0).
Proof.
  intros sh rc len data rs sh' rs' H. destruct (Z.eq_dec rc XL_COUNTRY) as [->|NC].
  - change (plain (h_country sh data) rs = Ok (sh', rs')) in H. unfold plain, h_country in H.
    apply bind_ok in H as (s & H & E). injection E as <- <-.
    apply bind_ok in H as (? & _ & H). apply bind_ok in H as (a & _ & H). apply bind_ok in H as (b & _ & H).
    apply bind_ok in H as (g & G & H). injection H as <-. cbn [sh_countries].
    unfold guard in G. destruct (sh_countries sh) as [u v]. cbn [pair_eqb fst snd] in G.
    destruct (_ || _) eqn:E in G; [|discriminate]. unfold pair_eqb in E. cbn [fst snd] in E.
    assert (u = 0 /\ v = 0 \/ u = a /\ v = b) as [[-> ->]|[-> ->]] by lia; auto.
  - left. pose proof (step_share sh (sh_countries sh) rc len data rs NC) as S.
    rewrite set_c_same, H in S. unfold lift2 in S. cbn [bind] in S. injection S as E.
    apply (f_equal sh_countries) in E. exact E.
Qed.

(** With the same countries or none the step does the same. *)
Lemma step_weaker : forall sh k rc len data rs sh' rs', step c sh rc len data rs = Ok (sh', rs') ->
  k = sh_countries sh \/ k = (0, 0) ->
  exists k', step c (set_c sh k) rc len data rs = Ok (set_c sh' k', rs') /\ (k' = sh_countries sh' \/ k' = (0, 0)).
Proof.
  intros sh k rc len data rs sh' rs' H K. destruct (Z.eq_dec rc XL_COUNTRY) as [->|NC].
  - change (plain (h_country sh data) rs = Ok (sh', rs')) in H. unfold plain, h_country in H.
    apply bind_ok in H as (s & H & E). injection E as <- <-.
    apply bind_ok in H as (? & E1 & H). apply bind_ok in H as (a & E2 & H). apply bind_ok in H as (b & E3 & H).
    apply bind_ok in H as (g & G & H). injection H as <-. exists (a, b). split; [|left; reflexivity].
    change (plain (h_country (set_c sh k) data) rs = Ok (set_c (mk_sheet (sh_grid sh) (sh_fmt sh) (sh_view sh) (sh_obj sh) (a, b)) (a, b), rs)).
    unfold plain, h_country. rewrite E1, E2, E3, !bind_Ok. cbn [set_c sh_countries].
    replace (guard (pair_eqb k (0, 0) || pair_eqb k (a, b)) AssertionError) with (Ok tt); [reflexivity|].
    destruct K as [-> | ->]; [destruct g; symmetry; exact G|reflexivity].
  - exists k. rewrite step_share, H by assumption. unfold lift2. cbn [bind]. split; [reflexivity|].
    destruct K as [->|K]; [|right; exact K]. destruct (step_countries _ _ _ _ _ _ _ H) as [->|E]; [left; reflexivity|].
    right. exact E.
Qed.

Lemma read_loop_weaker : forall fuel sh k rs sh', read_loop c fuel sh rs = Ok sh' -> k = sh_countries sh \/ k = (0, 0) ->
  exists k', read_loop c fuel (set_c sh k) rs = Ok (set_c sh' k').
Proof.
  induction fuel as [|f IH]; intros sh k rs sh' H K; [discriminate|]. cbn [read_loop] in *.
  apply bind_ok in H as ([[[rc len] data] rs1] & E & H). rewrite E, bind_Ok.
  destruct (rc =? XL_EOF); [injection H as <-; exists k; reflexivity|].
  apply bind_ok in H as ([sh1 rs2] & S & H).
  destruct (step_weaker _ _ _ _ _ _ _ _ S K) as (k' & -> & K'). rewrite bind_Ok. exact (IH _ _ _ _ H K').
Qed.

Lemma read_loop_countries : forall fuel sh rs sh', read_loop c fuel sh rs = Ok sh' ->
  sh_countries sh' = sh_countries sh \/ sh_countries sh = (0, 0).
Proof.
  induction fuel as [|f IH]; intros sh rs sh' H; [discriminate|]. cbn [read_loop] in *.
  apply bind_ok in H as ([[[rc len] data] rs1] & E & H).
  destruct (rc =? XL_EOF); [injection H as <-; auto|].
  apply bind_ok in H as ([sh1 rs2] & S & H). pose proof (step_countries _ _ _ _ _ _ _ S) as C. pose proof (IH _ _ _ H) as D.
  destruct C as [C|C]; [|right; exact C]. rewrite <- C. exact D.
Qed.

Lemma sheet_read_weaker : forall k k' rs sh, sheet_read c k rs = Ok sh -> k' = k \/ k' = (0, 0) ->
  exists k2, sheet_read c k' rs = Ok (set_c sh k2).
Proof.
  intros k k' rs sh H K. unfold sheet_read in *. apply bind_ok in H as (s & R & H).
  destruct (read_loop_weaker _ (sheet0 k) k' _ _ R K) as (k2 & R').
  change (set_c (sheet0 k) k') with (sheet0 (N := N) k') in R'. rewrite R', bind_Ok. cbn [set_c sh_fmt sh_grid].
  apply bind_ok in H as (g & -> & H). injection H as <-. exists k2. reflexivity.
Qed.

Lemma sheet_read_countries : forall k rs sh, sheet_read c k rs = Ok sh -> sh_countries sh = k \/ k = (0, 0).
Proof.
  intros k rs sh H. unfold sheet_read in *. apply bind_ok in H as (s & R & H). apply bind_ok in H as (g & _ & H).
  injection H as <-. exact (read_loop_countries _ _ _ _ R).
Qed.
End Share.
