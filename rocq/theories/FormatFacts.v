(** Lemmas about FormatModel.v. *)
From Verif Require Import Base BaseFacts Text Strings GridModel GridFacts SheetObjects SheetModel SheetSteps FormatModel.

(** Everything except [b_used]. *)
Definition same_but_used (a b : fbook) : Prop := with_used a [] = with_used b [].

Lemma mark_same : forall b cx, same_but_used (mark b cx) b.
Proof. intros. unfold mark, same_but_used. destruct (dget _ _ _); reflexivity. Qed.

Lemma marks_same : forall l b, same_but_used (fold_left mark l b) b.
Proof.
  induction l as [|c l IH]; intros b; [reflexivity|]. simpl.
  unfold same_but_used in *. rewrite IH. apply mark_same.
Qed.

Lemma same_fields : forall a b, same_but_used a b ->
  b_bv a = b_bv b /\ b_fmt a = b_fmt b /\ b_colours a = b_colours b /\ b_palette a = b_palette b /\ b_fonts a = b_fonts b /\
  b_formats a = b_formats b /\ b_format_list a = b_format_list b /\ b_fmtcount a = b_fmtcount b /\ b_xfs a = b_xfs b /\
  b_xfcount a = b_xfcount b /\ b_xftype a = b_xftype b /\ b_styles a = b_styles b.
Proof. intros a b E. unfold same_but_used, with_used in E. injection E. intros. repeat split; assumption. Qed.

(** What handle_xf does to the book, in terms of the record read. *)
Lemma handle_xf_inv : forall b data b', handle_xf b data = Ok b' ->
  exists b0 x, b0 = (if (b_bv b >=? 50) && (b_xfcount b =? 0) then fill_in_standard_formats b else b) /\
    read_xf (b_bv b) (zlen (b_xfs b)) data = Ok x /\
    b_bv b' = b_bv b /\ b_fmt b' = b_fmt b /\ b_colours b' = b_colours b /\ b_palette b' = b_palette b /\ b_fonts b' = b_fonts b /\
    b_formats b' = b_formats b0 /\ b_format_list b' = b_format_list b /\ b_fmtcount b' = b_fmtcount b /\
    b_xfs b' = b_xfs b ++ [match dget Z.eqb (b_formats b0) (xf_format_key x) with Some _ => x | None => set_key x 0 end] /\
    b_xfcount b' = b_xfcount b + 1 /\
    b_xftype b' = dset (b_xftype b) (zlen (b_xfs b)) (xf_cell_type b0 (xf_format_key x) XL_CELL_NUMBER) /\
    b_styles b' = b_styles b.
Proof.
  intros b data b' H. unfold handle_xf in H.
  set (b0 := if (b_bv b >=? 50) && (b_xfcount b =? 0) then fill_in_standard_formats b else b) in *.
  assert (S0 : b_bv b0 = b_bv b /\ b_fmt b0 = b_fmt b /\ b_colours b0 = b_colours b /\ b_palette b0 = b_palette b /\ b_fonts b0 = b_fonts b /\
               b_format_list b0 = b_format_list b /\ b_fmtcount b0 = b_fmtcount b /\ b_xfs b0 = b_xfs b /\ b_xfcount b0 = b_xfcount b /\
               b_xftype b0 = b_xftype b /\ b_styles b0 = b_styles b).
  { subst b0. destruct ((b_bv b >=? 50) && (b_xfcount b =? 0)); repeat split. }
  destruct S0 as (S1 & S2 & S3 & S4 & S5 & S6 & S7 & S8 & S9 & S10 & S11).
  rewrite S1, S8 in H. apply bind_ok in H as (x & R & H). cbv zeta in H.
  exists b0, x. split; [reflexivity|]. split; [exact R|].
  assert (M : same_but_used (if b_fmt b0 then fold_left mark (xf_colours x) b0 else b0) b0).
  { destruct (b_fmt b0); [apply marks_same|reflexivity]. }
  set (b1 := if b_fmt b0 then fold_left mark (xf_colours x) b0 else b0) in *.
  clearbody b1. apply (f_equal (fun r => match r with Ok v => v | Err _ => b end)) in H. cbv iota beta in H.
  apply same_fields in M. destruct M as (M1 & M2 & M3 & M4 & M5 & M6 & M7 & M8 & M9 & M10 & M11 & M12).
  subst b'. cbn. rewrite M1, M2, M3, M4, M5, M6, M7, M8, M9, M10, M11, M12, S1, S2, S3, S4, S5, S6, S7, S8, S9, S10, S11.
  repeat split.
Qed.

Lemma handle_xf_ok : forall b data x, read_xf (b_bv b) (zlen (b_xfs b)) data = Ok x -> exists b', handle_xf b data = Ok b'.
Proof.
  intros b data x R. unfold handle_xf.
  set (b0 := if (b_bv b >=? 50) && (b_xfcount b =? 0) then fill_in_standard_formats b else b) in *.
  assert (E : b_bv b0 = b_bv b /\ b_xfs b0 = b_xfs b).
  { subst b0. destruct ((b_bv b >=? 50) && (b_xfcount b =? 0)); split; reflexivity. }
  destruct E as [E1 E2]. rewrite E1, E2, R. eexists. reflexivity.
Qed.
