(** Property theorems C91: records act under the names that dump and count_records give them.
    The record codes of the reader and the table of names (biffh.py:113-213 and 354-519) are
    two separate tables of the source. *)
From Verif Require Import Base BaseFacts Text Framing GridModel SheetObjects SheetModel SheetFacts SheetSteps PropSheet PropRead FormatModel
  FormulaModel CompDoc BookModel BookApi OldSheet DumpModel.

(** ** Specification *)

(** Record [rc] has one of the [names]. *)
Definition named (names : list (list Z)) (rc : Z) : Prop := exists n, rec_name rc = Some n /\ In n names.

Definition cell_names : list (list Z) :=
  [s2l "NUMBER"; s2l "LABELSST"; s2l "LABEL"; s2l "RSTRING"; s2l "RK"; s2l "MULRK"; s2l "FORMULA"; s2l "FORMULA_B3"; s2l "FORMULA_B4"; s2l "BOOLERR";
   s2l "BLANK"; s2l "MULBLANK"].
Definition dimension_names : list (list Z) := [s2l "DIMENSIONS"; s2l "DIMENSIONS_B2"].
Definition column_names : list (list Z) := [s2l "COLINFO"; s2l "DEFCOLWIDTH"; s2l "STANDARDWIDTH"; s2l "GCW"].
Definition row_names : list (list Z) := [s2l "ROW"].
Definition view_names : list (list Z) := [s2l "DEFAULTROWHEIGHT"; s2l "WINDOW2"; s2l "SCL"; s2l "PANE"; s2l "HORIZONTALPAGEBREAKS"; s2l "VERTICALPAGEBREAKS"].
Definition layout_names : list (list Z) := [s2l "MERGEDCELLS"; s2l "LABELRANGES"].
Definition object_names : list (list Z) := [s2l "HLINK"; s2l "QUICKTIP"; s2l "OBJECT"; s2l "TXO"; s2l "NOTE"].
Definition other_names : list (list Z) := [s2l "BOF"; s2l "BOF_B2"; s2l "COUNTRY"; s2l "ARRAY"; s2l "SHRFMLA"; s2l "CONDFMT"; s2l "CF"].
Definition sheet_names : list (list Z) :=
  cell_names ++ dimension_names ++ column_names ++ row_names ++ view_names ++ layout_names ++ object_names ++ other_names.
Definition old_names : list (list Z) := sheet_names ++
  [s2l "FORMAT"; s2l "FORMAT_B2-3"; s2l "FONT"; s2l "FONT_B3B4"; s2l "STYLE"; s2l "PALETTE"; s2l "BUILTINFMTCOUNT_B3-4"; s2l "XF_B4"; s2l "XF_B3"; s2l "XF_B2";
   s2l "DATEMODE"; s2l "CODEPAGE"; s2l "FILEPASS"; s2l "WRITEACCESS"; s2l "IXFE_B2_ONLY"; s2l "NUMBER_B2"; s2l "INTEGER_B2_ONLY"; s2l "LABEL_B2"; s2l "BOOLERR_B2";
   s2l "BLANK_B2"; s2l "EFONT_B2_ONLY"; s2l "ROW_B2"; s2l "COLWIDTH_B2_ONLY"; s2l "COLUMNDEFAULT_B2_ONLY"; s2l "WINDOW2_B2"].
Definition global_names : list (list Z) :=
  [s2l "SST"; s2l "FONT"; s2l "FONT_B3B4"; s2l "FORMAT"; s2l "XF"; s2l "BOUNDSHEET"; s2l "DATEMODE"; s2l "CODEPAGE"; s2l "COUNTRY"; s2l "EXTERNNAME"; s2l "EXTERNSHEET";
   s2l "FILEPASS"; s2l "WRITEACCESS"; s2l "SHEETSOFFSET"; s2l "SHEETHDR"; s2l "SUPBOOK"; s2l "NAME_B2,5+"; s2l "PALETTE"; s2l "STYLE"].

(** The names of the first record of an item of a worksheet. *)
Definition item_names {N} (it : item (N := N)) : list (list Z) :=
  match it with
  | INumber _ _ _ _ => [s2l "NUMBER"]
  | IRk _ _ _ _ _ => [s2l "RK"]
  | IMulRk _ _ _ _ => [s2l "MULRK"]
  | ISst _ _ _ _ _ => [s2l "LABELSST"]
  | ILabel _ _ _ _ _ => [s2l "LABEL"]
  | IRString _ _ _ _ _ _ => [s2l "RSTRING"]
  | IBoolErr _ _ _ _ _ => [s2l "BOOLERR"]
  | IBlank _ _ _ => [s2l "BLANK"]
  | IMulBlank _ _ _ => [s2l "MULBLANK"]
  | IFormula _ _ _ _ _ _ _ => [s2l "FORMULA"; s2l "FORMULA_B3"; s2l "FORMULA_B4"]
  | IMerged _ => [s2l "MERGEDCELLS"]
  | IEmbedded _ _ _ => [s2l "BOF"; s2l "BOF_B2"]
  | IDim _ _ => dimension_names
  | INoise _ _ => []
  end.

(** ** Proofs *)

Ltac name_it := eexists; split; [vm_compute; reflexivity|]; vm_compute; tauto.
(** Decide the test of the outermost [if] on a record code; when it holds the record has a name. *)
Ltac tests rc done :=
  repeat match goal with
  | |- context [if ?b then _ else _] =>
      match b with context [rc =? _] => idtac | context [is_formula_code rc] => idtac | context [is_bof_code rc] => idtac end;
      let E := fresh "E" in destruct b eqn:E; [done E|clear E]
  end.

Section Sheet.
Context {N : Type}.
Variable c : config N.

(** The records of a sheet that do anything at all, or can be faulty. *)
Theorem c91_sheet : forall sh rc len data rs, ~ named sheet_names rc -> step c sh rc len data rs = Ok (sh, rs).
Proof.
  intros sh rc len data rs NN. unfold step.
  tests rc ltac:(fun E => try reflexivity; exfalso; apply NN; clear NN; unfold is_formula_code, is_bof_code in E; rewrite ?orb_true_iff in E;
    repeat match type of E with _ \/ _ => destruct E as [E|E] end; apply Z.eqb_eq in E; subst rc; name_it).
  reflexivity.
Qed.

(** Cells and sizes come from cell records and DIMENSIONS only. *)
Theorem c91_cells : forall sh rc len data rs sh' rs', step c sh rc len data rs = Ok (sh', rs') ->
  sh_grid sh' = sh_grid sh \/ named (cell_names ++ dimension_names) rc.
Proof.
  intros sh rc len data rs sh' rs' H. destruct (noise_code rc) eqn:NC.
  - left. exact (proj1 (proj1 (noise_step c _ _ _ _ _ _ _ NC H))).
  - unfold noise_code, is_formula_code, is_bof_code in NC. apply negb_false_iff in NC. rewrite !orb_true_iff in NC.
    repeat match type of NC with _ \/ _ => destruct NC as [NC|NC] end; apply Z.eqb_eq in NC; subst rc;
    try (right; name_it); left.
    { change (plain (h_mergedcells c sh len data) rs = Ok (sh', rs')) in H. unfold plain, h_mergedcells in H. cbv zeta in H.
      repeat (apply bind_ok in H as (? & ? & H)). inv_ok H; inv_ok H0. all: destruct sh; reflexivity. }
    all: cbn [step] in H; repeat (apply bind_ok in H as (? & ? & H)); injection H as <- <-; reflexivity.
Qed.

(** Each item that a writer emits begins with a record of its name. *)
Theorem c91_items : forall it, item_ok c it -> item_names it <> [] -> exists rc d l, enc c it = (rc, d) :: l /\ named (item_names it) rc.
Proof.
  intros it OK NE. destruct it; cbn [enc item_names] in *; try (eexists _, _, _; split; [reflexivity|]; name_it).
  - destruct OK as (HC & _). eexists _, _, _; split; [reflexivity|]. unfold is_formula_code in HC. rewrite !orb_true_iff in HC.
    repeat match type of HC with _ \/ _ => destruct HC as [HC|HC] end; apply Z.eqb_eq in HC; subst rc; name_it.
  - destruct OK as (HC & _). eexists _, _, _; split; [reflexivity|]. unfold is_bof_code in HC. rewrite !orb_true_iff in HC.
    repeat match type of HC with _ \/ _ => destruct HC as [HC|HC] end; apply Z.eqb_eq in HC; subst rc; name_it.
  - eexists _, _, _; split; [reflexivity|]. destruct OK as [-> | ->]; name_it.
  - contradiction.
Qed.
End Sheet.

Print Assumptions c91_sheet.
Print Assumptions c91_cells.
Print Assumptions c91_items.

(** The other records that the specifications of C25, C26, C30, C32-C34, C68, C81-C85 name by their codes. *)
Theorem c91_codes : Forall (fun p => rec_name (fst p) = Some (s2l (snd p)))
  [(XL_ROW, "ROW"); (XL_COLINFO, "COLINFO"); (XL_DEFCOLWIDTH, "DEFCOLWIDTH"); (XL_STANDARDWIDTH, "STANDARDWIDTH"); (XL_GCW, "GCW");
   (XL_DIMENSION, "DIMENSIONS"); (XL_DIMENSION2, "DIMENSIONS_B2"); (XL_HLINK, "HLINK"); (XL_QUICKTIP, "QUICKTIP"); (XL_OBJ, "OBJECT");
   (XL_TXO, "TXO"); (XL_NOTE, "NOTE"); (XL_CONTINUE, "CONTINUE"); (XL_STRING, "STRING"); (XL_EOF, "EOF"); (XL_COUNTRY, "COUNTRY"); (XL_LABELRANGES, "LABELRANGES");
   (XL_DEFAULTROWHEIGHT, "DEFAULTROWHEIGHT"); (XL_MERGEDCELLS, "MERGEDCELLS"); (XL_WINDOW2, "WINDOW2"); (XL_SCL, "SCL"); (XL_PANE, "PANE");
   (XL_HORIZONTALPAGEBREAKS, "HORIZONTALPAGEBREAKS"); (XL_VERTICALPAGEBREAKS, "VERTICALPAGEBREAKS"); (XL_IXFE, "IXFE_B2_ONLY"); (XL_NUMBER_B2, "NUMBER_B2");
   (XL_INTEGER, "INTEGER_B2_ONLY"); (XL_LABEL_B2, "LABEL_B2"); (XL_BOOLERR_B2, "BOOLERR_B2"); (XL_BLANK_B2, "BLANK_B2"); (XL_EFONT, "EFONT_B2_ONLY"); (XL_ROW_B2, "ROW_B2");
   (XL_COLWIDTH, "COLWIDTH_B2_ONLY"); (XL_COLUMNDEFAULT, "COLUMNDEFAULT_B2_ONLY"); (XL_WINDOW2_B2, "WINDOW2_B2"); (XL_XF2, "XF_B2"); (XL_XF3, "XF_B3"); (XL_XF4, "XF_B4");
   (XL_FORMAT, "FORMAT"); (XL_FORMAT2, "FORMAT_B2-3"); (XL_FONT, "FONT"); (XL_FONT_B3B4, "FONT_B3B4"); (XL_STYLE, "STYLE"); (XL_PALETTE, "PALETTE");
   (XL_DATEMODE, "DATEMODE"); (XL_CODEPAGE, "CODEPAGE"); (XL_FILEPASS, "FILEPASS"); (XL_WRITEACCESS, "WRITEACCESS")]%string.
Proof. repeat (apply Forall_cons; [vm_compute; reflexivity|]). apply Forall_nil. Qed.
Print Assumptions c91_codes.

Section Old.
Context {N : Type}.
Variable codec : list Z -> list Z -> result (list Z).
Variable num8 : list Z -> N.
Variable rk : list Z -> result N.
Variable int8 : Z -> N.
Variable ragged : bool.

(** The same for worksheets of BIFF2-4. *)
Theorem c91_old_sheet : forall bv (s : ost (N := N)) rc len data rs, ~ named old_names rc -> old_step codec num8 rk int8 ragged bv s rc len data rs = Ok (s, rs).
Proof.
  intros bv s rc len data rs NN. unfold old_step.
  tests rc ltac:(fun E => exfalso; apply NN; clear NN; unfold is_formula_code, is_bof_code in E; rewrite ?orb_true_iff in E;
    repeat match type of E with _ \/ _ => destruct E as [E|E] end; apply Z.eqb_eq in E; subst rc; name_it).
  unfold o_step. rewrite c91_sheet; [destruct s; reflexivity|]. intros (n & E & I). apply NN. exists n. split; [exact E|]. apply in_or_app. left. exact I.
Qed.

Context {S : Type}.
Variable load : book N S -> list Z -> Z -> list Z -> Z -> result (shared * S).

(** The records of the workbook globals that do anything at all, or can be faulty. *)
Theorem c91_globals : forall b mem position rc data, ~ named global_names rc -> gstep codec load b mem position rc data = Ok (b, position).
Proof.
  intros b mem position rc data NN. unfold gstep. cbv zeta.
  tests rc ltac:(fun E => exfalso; apply NN; clear NN; rewrite ?orb_true_iff in E;
    repeat match type of E with _ \/ _ => destruct E as [E|E] end; apply Z.eqb_eq in E; subst rc; name_it).
  reflexivity.
Qed.
End Old.
Print Assumptions c91_old_sheet.
Print Assumptions c91_globals.

Example c91_case : named cell_names 0x203 /\ ~ named sheet_names 0x23d /\ ~ named sheet_names 0xe0 /\ named global_names 0xe0 /\ ~ named sheet_names 0x14.
Proof.
  split; [name_it|]. assert (NO : forall names rc n, rec_name rc = n -> (forall m, n = Some m -> ~ In m names) -> ~ named names rc).
  { intros names rc n <- X (m & E & I). exact (X m E I). }
  split; [apply (NO _ _ _ eq_refl); vm_compute; discriminate|].
  split; [apply (NO _ _ _ eq_refl); intros m E; vm_compute in E; injection E as <-; vm_compute; intuition discriminate|].
  split; [name_it|]. apply (NO _ _ _ eq_refl). intros m E; vm_compute in E; injection E as <-; vm_compute; intuition discriminate.
Qed.
