(** Property theorems C23, C26, C27, C28, C29, C31, C67: reading a worksheet.
    The content of a worksheet ([item]), the records that describe it ([enc])
    and the cells it means ([cells], [merges]) are specified in PropSheet.v. *)
From Verif Require Import Base BaseFacts Utf16 Strings Framing StringFacts PropBytes PyFloat RkModel GridModel GridFacts PropGrid
  SheetObjects SheetModel SheetFacts SheetSteps LinkBytes NoteBytes PropSheet.
From Flocq Require Import IEEE754.Bits.

(** ** From bytes to records *)

Lemma stream_frames : forall rs p t, Forall framable rs -> bytes (p ++ frames rs ++ t) ->
  stream (p ++ frames rs ++ t) (zlen p) = map rec_of rs ++ stream (p ++ frames rs ++ t) (zlen (p ++ frames rs)).
Proof.
  induction rs as [|r rs IH]; intros p t HF HB.
  - cbn [frames flat_map map app]. rewrite app_nil_r. reflexivity.
  - inversion HF as [|? ? Hr HF']; subst. cbn [frames flat_map] in *. fold (frames rs) in *. rewrite <- app_assoc in *.
    pose proof (stream_next _ (zlen p) HB) as S.
    rewrite (get_record_parts_frame p r (frames rs ++ t) (zlen p) Hr eq_refl) in S. rewrite S.
    cbn [map app]. apply (f_equal (cons (rec_of r))). rewrite !app_assoc in *. rewrite <- (app_assoc (p ++ frame r)) in *. apply IH; assumption.
Qed.

(** ** C29 *)

Section C29.
Context {N : Type} (c : config N).

(** What a user sees of a sheet with the given cells: every cell is inside,
    every position inside holds the last cell written there or is empty, and the
    merged ranges are the given ones. *)
Definition shows (sh : sheet N) (hist : list (@store (value N))) (merged : list mrange) : Prop :=
  (forall s, In s hist -> s_row s < g_nrows (sh_grid sh) /\ exists n, row_len (sh_grid sh) (s_row s) = Ok n /\ s_col s < n) /\
  (forall r k n, 0 <= r < g_nrows (sh_grid sh) -> row_len (sh_grid sh) r = Ok n -> 0 <= k < n ->
     cell_type (sh_grid sh) r k = Ok (spec_type hist r k) /\ cell_value (sh_grid sh) r k = Ok (spec_val vempty hist r k)) /\
  f_merged (sh_fmt sh) = merged.

Lemma max_rows_pos : 0 <= max_rows c.
Proof. unfold max_rows. destruct (c_bv c >=? 80); lia. Qed.

Lemma shows_of : forall sh hist merged, Forall (in_bounds (c_fmt c) (max_rows c) 256) hist -> merged_ok (max_rows c) merged ->
  sheet_of vempty (c_ragged c) (c_fmt c) (max_rows c) 256 hist merged = Ok (sh_grid sh) -> f_merged (sh_fmt sh) = merged ->
  shows sh hist merged.
Proof.
  intros sh hist merged HB HM E EM.
  destruct (c19_last_store (@vempty N) (c_ragged c) (c_fmt c) (max_rows c) 256 hist merged max_rows_pos ltac:(lia) HB HM)
    as (g & E' & H1 & H2).
  rewrite E in E'. injection E' as <-. split; [exact H1|]. split; [exact H2|exact EM].
Qed.

Lemma sheet_read_ok : forall countries rs sh1 g, read_all c (sheet0 countries) rs = Ok sh1 ->
  tidy_dimensions vempty (c_ragged c) (c_fmt c) (max_rows c) 256 (f_merged (sh_fmt sh1)) (sh_grid sh1) = Ok g ->
  sheet_read c countries rs = Ok (with_grid sh1 g).
Proof.
  intros countries rs sh1 g H1 H2. unfold read_all in H1. unfold sheet_read. rewrite H1. cbn [bind]. rewrite H2. reflexivity.
Qed.
End C29.

(** Whatever other records there are: if the sheet can be read at all, it holds
    the described cells and no others. *)
Theorem c29_content : forall {N} (c : config N) countries p items t sh, c_bv c >= 50 ->
  bytes (p ++ frames (flat_map (enc c) items ++ [(XL_EOF, [])]) ++ t) ->
  Forall framable (flat_map (enc c) items) ->
  Forall (item_ok c) items -> dims_first c items ->
  Forall (in_bounds (c_fmt c) (max_rows c) 256) (flat_map (cells c) items) -> merged_ok (max_rows c) (flat_map (merges c) items) ->
  sheet_read c countries (stream (p ++ frames (flat_map (enc c) items ++ [(XL_EOF, [])]) ++ t) (zlen p)) = Ok sh ->
  shows sh (flat_map (cells c) items) (flat_map (merges c) items).
Proof.
  intros N c countries p items t sh HV HB HF OK HD HI HM H.
  assert (Forall framable (flat_map (enc c) items ++ [(XL_EOF, [])])) as HF2
    by (apply Forall_app; split; [exact HF|constructor; [split; [cbn [fst]; unfold XL_EOF; lia|reflexivity]|constructor]]).
  rewrite stream_frames in H by assumption.
  rewrite map_app, <- app_assoc in H. cbn [map app] in H. unfold rec_of at 2 in H. cbn [fst snd] in H.
  destruct (sheet_content c countries items _ _ _ sh HV OK HD H) as (K1 & K2 & _).
  eapply shows_of; eauto.
Qed.
Print Assumptions c29_content.

(** The records of a content, together with records the reader passes over and records of other
    kinds that are well formed, can always be read. *)
Theorem c29_round_trip : forall {N} (c : config N) countries p items t, c_bv c >= 50 ->
  bytes (p ++ frames (flat_map (enc c) items ++ [(XL_EOF, [])]) ++ t) ->
  Forall framable (flat_map (enc c) items) ->
  Forall (item_ok c) items -> contents_plain c items -> dims_first c items ->
  Forall (in_bounds (c_fmt c) (max_rows c) 256) (flat_map (cells c) items) -> merged_ok (max_rows c) (flat_map (merges c) items) ->
  exists sh, sheet_read c countries (stream (p ++ frames (flat_map (enc c) items ++ [(XL_EOF, [])]) ++ t) (zlen p)) = Ok sh /\
    shows sh (flat_map (cells c) items) (flat_map (merges c) items).
Proof.
  intros N c countries p items t HV HB HF OK PL HD HI HM.
  assert (Forall framable (flat_map (enc c) items ++ [(XL_EOF, [])])) as HF2
    by (apply Forall_app; split; [exact HF|constructor; [split; [cbn [fst]; unfold XL_EOF; lia|reflexivity]|constructor]]).
  rewrite stream_frames by assumption.
  rewrite map_app, <- app_assoc. cbn [map app]. unfold rec_of at 2. cbn [fst snd].
  match goal with |- context[_ :: ?R] => set (rest := R) end.
  destruct (items_fine c HV items [] (sheet0 countries) (@zlen Z []) [] rest OK PL (or_introl (conj eq_refl (conj eq_refl HD))) eq_refl HI)
    as (sh1 & R1).
  destruct (items_content c HV items (sheet0 countries) (@zlen Z []) [] rest sh1 OK (or_introl (conj eq_refl HD)) R1) as (K1 & K2 & _).
  change (f_merged (sh_fmt (sheet0 countries))) with (@nil mrange) in K2. cbn [app] in K2.
  change (sh_grid (sheet0 countries)) with (@grid0 (value N)) in K1.
  destruct (c19_last_store (@vempty N) (c_ragged c) (c_fmt c) (max_rows c) 256 _ _ (max_rows_pos c) ltac:(lia) HI HM) as (g & E & _).
  pose proof E as E'. unfold sheet_of in E'. rewrite K1 in E'. cbn [bind] in E'.
  exists (with_grid sh1 g). split.
  - apply (sheet_read_ok c countries _ sh1 g R1). rewrite K2. exact E'.
  - eapply shows_of; eauto.
Qed.
Print Assumptions c29_round_trip.

Lemma last_at_none : forall {V} (hist : list (@store V)) r k,
  (forall s, In s hist -> ~ (s_row s = r /\ s_col s = k)) -> last_at hist r k = None.
Proof.
  intros V hist r k. induction hist as [|s hist IH] using rev_ind; intros H; [reflexivity|].
  rewrite last_at_snoc. rewrite IH by (intros s' Hs; apply H; apply in_or_app; auto).
  destruct ((r =? s_row s) && (k =? s_col s)) eqn:E; [|reflexivity].
  exfalso. apply (H s); [apply in_or_app; right; left; reflexivity|lia].
Qed.

Lemma last_at_some : forall {V} (a b : list (@store V)) s,
  (forall s', In s' b -> ~ (s_row s' = s_row s /\ s_col s' = s_col s)) -> last_at (a ++ s :: b) (s_row s) (s_col s) = Some s.
Proof.
  intros V a b s. induction b as [|s' b IH] using rev_ind; intros H.
  - rewrite last_at_snoc. rewrite !Z.eqb_refl. reflexivity.
  - change (a ++ s :: b ++ [s']) with (a ++ (s :: b) ++ [s']). rewrite app_assoc, last_at_snoc.
    replace ((s_row s =? s_row s') && (s_col s =? s_col s')) with false.
    + apply IH. intros s'' Hs. apply H. apply in_or_app; auto.
    + symmetry. apply not_true_is_false. intros E. apply (H s'); [apply in_or_app; right; left; reflexivity|lia].
Qed.

(** Cell for cell: a cell not overwritten later reads back with its type and value. *)
Theorem c29_cell : forall {N} (sh : sheet N) a s b merged, shows sh (a ++ s :: b) merged ->
  0 <= s_row s -> 0 <= s_col s ->
  (forall s', In s' b -> ~ (s_row s' = s_row s /\ s_col s' = s_col s)) ->
  cell_type (sh_grid sh) (s_row s) (s_col s) = Ok (s_type s) /\ cell_value (sh_grid sh) (s_row s) (s_col s) = Ok (s_val s).
Proof.
  intros N sh a s b merged (H1 & H2 & _) Hr Hc HN.
  destruct (H1 s ltac:(apply in_or_app; right; left; reflexivity)) as (L & n & E & Ln).
  destruct (H2 (s_row s) (s_col s) n ltac:(lia) E ltac:(lia)) as [K1 K2].
  unfold spec_type, spec_val in *. rewrite last_at_some in K1, K2 by exact HN. auto.
Qed.
Print Assumptions c29_cell.

(** ... and every other position inside is empty. *)
Theorem c29_no_others : forall {N} (sh : sheet N) hist merged r k n, shows sh hist merged ->
  0 <= r < g_nrows (sh_grid sh) -> row_len (sh_grid sh) r = Ok n -> 0 <= k < n ->
  (forall s, In s hist -> ~ (s_row s = r /\ s_col s = k)) ->
  cell_type (sh_grid sh) r k = Ok 0 /\ cell_value (sh_grid sh) r k = Ok vempty.
Proof.
  intros N sh hist merged r k n (_ & H2 & _) Hr E Hk HN. destruct (H2 r k n Hr E Hk) as [K1 K2].
  unfold spec_type, spec_val in *. rewrite last_at_none in K1, K2 by exact HN. auto.
Qed.
Print Assumptions c29_no_others.

(** Numbers are IEEE doubles: the eight bytes of any double give that double. *)
Theorem c29_double : forall (x : flt), b64_of_bits (le_val (le_enc 8 (bits_of_b64 x))) = x.
Proof.
  intros x.
  pose proof (bits_of_binary_float_range 52 11 eq_refl eq_refl x) as R. change (2 ^ (52 + 11 + 1)) with (2 ^ 64) in R.
  rewrite le_val_enc by exact R. exact (binary_float_of_bits_of_binary_float 52 11 eq_refl eq_refl eq_refl x).
Qed.
Print Assumptions c29_double.

(** *** A concrete content *)

(** Numbers as their eight bytes, every XF index below 30 a number format. *)
Definition ex_config (fmt : bool) : config (list Z) :=
  mk_config 80 fmt false [[72; 105]] [] (fun xf => if (0 <=? xf) && (xf <? 30) then Some XL_CELL_NUMBER else None)
    (fun b => Ok b) (fun b => b) (fun b => Ok b) (fun _ => 0).

Definition ex_items : list (@item (list Z)) :=
  [IDim XL_DIMENSION [0;0;0;0; 9;0;0;0; 0;0; 9;0; 0;0];
   INumber 3 2 15 [0;0;0;0;0;0;240;63];
   INoise 0x863 [1;2;3];
   ISst 0 1 15 0 [72; 105];
   IFormula 6 3 2 16 (0,0,0,0) (FText [] [0; 97; 98] [97; 98] [[0; 99]] [[99]]) [0;0;0;0];
   IMulBlank 1 0 [17; 18];
   IMerged [(4, 6, 0, 3)];
   IBoolErr 2 0 15 1 false].

(** Records of other kinds: a row, a column, the window, page breaks, a conditional format with
    a border and a pattern, label ranges, a hyperlink, and a comment with its text box. *)
Definition ex_box : tbox := mk_tbox [18;2; 0;0; 0;0; 0;0; 0;0] [mk_frag false [72; 105]] [[(0, 5, [0;0;0;0]); (2, 0, [0;0;0;0])]] [0;0;0;0].

Definition ex_others : list (@item (list Z)) :=
  [INoise 0x208 [0;0; 0;0; 9;0; 255;0; 0;0; 0;0; 0;1;15;0]; INoise 0x7d [3;0; 4;0; 0;8; 15;0; 1;2];
   INoise 0x1b [1;0; 5;0; 0;0; 255;0]; INoise 0x1b0 ([1;0; 0;0; 0;0; 1;0; 0;0; 1;0] ++ ranges_data [(0, 2, 0, 2)]);
   INoise 0x1b1 ([1;3; 3;0; 0;0; 0;0;0;48; 0;0] ++ [1;2;3;4;5;6;7;8] ++ [1;2;3;4] ++ [30;1;0]);
   INoise 0x23e [182;6; 0;0; 0;0; 64;0; 0;0; 0;0; 0;0; 0;0;0;0]; INoise 0x15f (ranges_data [(0, 1, 0, 9)] ++ ranges_data []);
   INoise 0x1b8 (hlink_bytes (mk_hspec 0 0 3 3 (Some [104; 105]) None GBook (Some [65])) ++ []);
   noise (0x5d, shape_data (mk_shape 25 1 0 [0;0;0;0;0;0;0;0;0;0;0;0] [(13, [1; 2])] 4)); noise (0xec, [15; 0; 13; 240; 0; 0; 0; 0]);
   noise (0x1b6, tbox_data ex_box); noise (XL_CONTINUE, [0; 72; 105]); noise (XL_CONTINUE, [0;0; 5;0; 0;0;0;0; 2;0; 0;0; 0;0;0;0]);
   INoise 0x1c (comment_data (mk_comment 0 3 2 1 (Build_ustring [74] false 0 None None) [0]))].

Example c29_others : Forall (item_ok (ex_config true)) ex_others /\ contents_plain (ex_config true) ex_others.
Proof.
  split; [repeat constructor|]. unfold ex_others.
  apply P_item; [apply (H_long _ _ _ 16); [cbn; tauto|vm_compute; discriminate]|].
  apply P_item; [apply (H_long _ _ _ 10); [cbn; tauto|vm_compute; discriminate]|].
  apply P_item; [apply (H_breaks _ _ 1 [5;0; 0;0; 255;0]); [left; reflexivity|unfold u16v; lia|reflexivity]|].
  apply P_item.
  { apply (H_condfmt (ex_config true) [1;0; 0;0; 0;0; 1;0; 0;0; 1;0] [(0, 2, 0, 2)] []); [cbn; lia|reflexivity|repeat constructor; cbn; unfold u16v; lia|reflexivity]. }
  apply P_item.
  { apply (H_cf (ex_config true) 1 3 3 0 0x30000000 0 [] [1;2;3;4;5;6;7;8] [1;2;3;4] [30;1;0] []); first [reflexivity|unfold u16v; lia]. }
  apply P_item; [apply (H_long _ _ _ 9); [cbn; tauto|vm_compute; discriminate]|].
  apply P_item; [apply H_labels; try reflexivity; [repeat constructor; cbn; unfold u16v; lia|constructor]|].
  apply P_item.
  { apply H_link. repeat split; try discriminate; repeat constructor; cbn; unfold u16v, scalar; lia. }
  apply (P_box _ (mk_shape 25 1 0 [0;0;0;0;0;0;0;0;0;0;0;0] [(13, [1; 2])] 4) [(0xec, [15; 0; 13; 240; 0; 0; 0; 0])] ex_box).
  - cbn; lia.
  - repeat split; try discriminate; repeat constructor; cbn; unfold u16v; lia.
  - constructor; [|constructor]. intros H. cbn in H. repeat (destruct H as [H|H]; [discriminate H|]). exact H.
  - repeat split; try discriminate; repeat constructor; cbn; unfold u16v, scalar; lia || discriminate.
  - apply P_item; [|apply P_nil]. apply H_note; [cbn; lia|]. repeat split; try discriminate; repeat constructor; cbn; unfold u16v, scalar; lia.
Qed.

Example c29_example :
  Forall (item_ok (ex_config true)) ex_items /\ contents_plain (ex_config true) ex_items /\ dims_first (ex_config true) ex_items /\
  Forall (in_bounds true 65536 256) (flat_map (cells (ex_config true)) ex_items) /\
  merged_ok 65536 (flat_map (merges (ex_config true)) ex_items) /\
  map (fun s => (s_row s, s_col s, s_val s)) (flat_map (cells (ex_config true)) ex_items) =
    [(3, 2, VNum [0;0;0;0;0;0;240;63]); (0, 1, VText [72; 105]); (3, 2, VText [97; 98; 99]);
     (1, 0, VText []); (1, 1, VText []); (2, 0, VInt 1)].
Proof.
  split; [|split; [|split; [|split; [|split]]]].
  - assert (text [97; 98] /\ text [99] /\ text [97; 98; 99]) as (T1 & T2 & T3)
      by (repeat split; repeat constructor; unfold scalar; lia).
    apply Forall_cons; [left; reflexivity|].
    apply Forall_cons; [cbn; unfold u16v; repeat split; (lia || discriminate)|].
    apply Forall_cons; [reflexivity|].
    apply Forall_cons; [cbn; unfold u16v; repeat split; lia|].
    apply Forall_cons.
    { cbn. unfold u16v, bmp. repeat split; try lia; [constructor|exists 0; split; [assumption|reflexivity]|constructor; [exists 0; split; [assumption|reflexivity]|constructor]|
        right; discriminate|repeat constructor; lia|exact T3]. }
    apply Forall_cons; [cbn; unfold u16v; repeat split; try lia; repeat constructor; lia|].
    apply Forall_cons; [cbn; unfold range_ok; repeat split; repeat constructor; lia|].
    apply Forall_cons; [cbn; unfold u16v; repeat split; lia|]. constructor.
  - apply P_item; [right; cbn; lia|]. apply P_item; [exact I|]. apply P_item.
    { apply H_ignored. intros H. cbn in H. repeat (destruct H as [H|H]; [discriminate H|]). exact H. }
    repeat (apply P_item; [exact I|]). constructor.
  - cbn. auto.
  - repeat constructor; cbn; lia.
  - repeat constructor; cbn; lia.
  - reflexivity.
Qed.

(** ** C23 *)

(** BLANK and MULBLANK records between any two steps of the reading have no effect. *)
Theorem c23_blank_no_effect : forall {N} (c : config N) countries a b tr sh rc len d, c_fmt c = false ->
  rc = XL_BLANK \/ rc = XL_MULBLANK ->
  ran c (sheet0 countries) (a ++ b) tr sh b ->
  sheet_read c countries (a ++ (rc, len, d) :: b) = sheet_read c countries (a ++ b).
Proof.
  intros N c countries a b tr sh rc len d HF HR HA. unfold sheet_read.
  change (read_loop c (S (length (a ++ (rc, len, d) :: b))) (sheet0 countries) (a ++ (rc, len, d) :: b)) with
    (read_all c (sheet0 countries) (a ++ (rc, len, d) :: b)).
  change (read_loop c (S (length (a ++ b))) (sheet0 countries) (a ++ b)) with (read_all c (sheet0 countries) (a ++ b)).
  rewrite (ran_read c _ _ _ _ _ HA).
  pose proof (ran_local c _ _ _ _ _ HA ((rc, len, d) :: b)) as HA2. rewrite (ran_read c _ _ _ _ _ HA2).
  rewrite read_all_cons. destruct HR as [-> | ->].
  - change (step c sh XL_BLANK len d b) with (plain (h_blank c sh d) b).
    unfold h_blank. rewrite HF. reflexivity.
  - change (step c sh XL_MULBLANK len d b) with (plain (h_mulblank c sh len d) b).
    unfold h_mulblank. rewrite HF. reflexivity.
Qed.
Print Assumptions c23_blank_no_effect.

(** The same for a whole content: dropping its blank items changes no cell. *)
Definition is_blank {N} (it : @item N) : bool := match it with IBlank _ _ _ | IMulBlank _ _ _ => true | _ => false end.

Theorem c23_content : forall {N} (c : config N) items, c_fmt c = false ->
  flat_map (cells c) items = flat_map (cells c) (filter (fun it => negb (is_blank it)) items).
Proof.
  intros N c items HF. induction items as [|it items IH]; [reflexivity|]. cbn [filter flat_map].
  destruct (is_blank it) eqn:E; cbn [negb].
  - destruct it; try discriminate E; cbn [cells]; rewrite HF; exact IH.
  - cbn [flat_map]. rewrite IH. reflexivity.
Qed.
Print Assumptions c23_content.

(** "Anywhere" is too strong: a BLANK record between a FORMULA record and its
    STRING record makes the sheet unreadable. *)
Definition ex_formula : record := (6, 20, formula_data 0 0 0 (marked 0 0 0 0 0 0) [0;0;0;0;0;0]).
Definition ex_string : record := (XL_STRING, 4, [1; 0; 0; 97]).
Definition ex_eof : record := (XL_EOF, 0, []).

Theorem c23_anywhere_refuted : exists (c : config (list Z)) a b rc d sh, c_fmt c = false /\ rc = XL_BLANK /\
  sheet_read c (0, 0) (a ++ b) = Ok sh /\ sheet_read c (0, 0) (a ++ (rc, zlen d, d) :: b) = Err XLRDError.
Proof.
  exists (ex_config false), [ex_formula], [ex_string; ex_eof], XL_BLANK, [0;0;0;0;0;0]. eexists.
  split; [reflexivity|]. split; [reflexivity|]. split; reflexivity.
Qed.
Print Assumptions c23_anywhere_refuted.

Example c23_example : exists tr sh, ran (ex_config false) (sheet0 (0, 0)) ([ex_formula; ex_string] ++ [ex_eof]) tr sh [ex_eof].
Proof.
  do 2 eexists. eapply ran_cons; [discriminate| |apply ran_nil]. reflexivity.
Qed.

(** ** C26 *)

(** merged_cells lists the ranges of all MERGEDCELLS records in order, and nothing
    without formatting_info; every range lies inside the sheet. *)
Theorem c26_merged : forall {N} (c : config N) countries items len d rest sh, c_bv c >= 50 ->
  Forall (item_ok c) items -> dims_first c items ->
  Forall (in_bounds (c_fmt c) (max_rows c) 256) (flat_map (cells c) items) -> merged_ok (max_rows c) (flat_map (merges c) items) ->
  sheet_read c countries (map rec_of (flat_map (enc c) items) ++ (XL_EOF, len, d) :: rest) = Ok sh ->
  f_merged (sh_fmt sh) =
    (if c_fmt c then flat_map (fun it => match it with IMerged ms => ms | _ => [] end) items else []) /\
  forall rlo rhi clo chi, In (rlo, rhi, clo, chi) (f_merged (sh_fmt sh)) ->
    rhi <= g_nrows (sh_grid sh) /\ chi <= g_ncols (sh_grid sh).
Proof.
  intros N c countries items len d rest sh HV OK HD HI HM H.
  destruct (sheet_content c countries items _ _ _ sh HV OK HD H) as (K1 & K2 & _). split.
  - rewrite K2. destruct (c_fmt c) eqn:F.
    + apply flat_map_ext. intros []; cbn [merges]; try reflexivity. rewrite F. reflexivity.
    + clear -F. induction items as [|it items IH]; [reflexivity|]. cbn [flat_map]. rewrite IH, app_nil_r.
      destruct it; cbn [merges]; try reflexivity. rewrite F. reflexivity.
  - rewrite K2. intros rlo rhi clo chi Hin. destruct (c_ragged c) eqn:ER.
    + destruct (sheet_ragged (@vempty N) (c_fmt c) (max_rows c) 256 _ _ (max_rows_pos c) ltac:(lia) HI HM)
        as (g & W & E & HR & HC & _). rewrite K1 in E. injection E as <-. rewrite HR, HC. unfold nrows_spec, ncols_spec.
      clear -Hin. revert Hin. generalize (flat_map (merges c) items) as l.
      induction l as [|m l IH]; [intros []|]. intros [E|Hin].
      * subst m. unfold merged_rows, merged_cols. cbn [fold_right]. lia.
      * specialize (IH Hin). destruct m as [[[a b] e] f]. unfold merged_rows, merged_cols in *. cbn [fold_right]. lia.
    + destruct (c20_dimensions (@vempty N) (c_fmt c) (max_rows c) 256 _ _ (max_rows_pos c) ltac:(lia) HI HM)
        as (g & E & _ & HMr & _). rewrite K1 in E. injection E as <-. eapply HMr. exact Hin.
Qed.
Print Assumptions c26_merged.
(* Its hypotheses hold of the content of c29_example. *)

(** ** C27 *)

(** A MULRK record and the RK records of its columns do the same, in every state and
    whatever follows; the same for MULBLANK and BLANK. *)
Theorem c27_mulrk : forall {N} (c : config N) its r k sh rs, u16v r -> 0 <= k -> k + zlen its <= 65536 -> 1 <= zlen its ->
  Forall rk_item its ->
  read_all c sh ((XL_MULRK, zlen (mulrk_data r k its), mulrk_data r k its) :: rs) =
  read_all c sh (rk_records r k its ++ rs).
Proof. intros. apply mulrk_step; assumption. Qed.
Print Assumptions c27_mulrk.

Theorem c27_mulblank : forall {N} (c : config N) xfs r k sh rs, u16v r -> 0 <= k -> k + zlen xfs <= 65536 -> 1 <= zlen xfs ->
  Forall u16v xfs ->
  read_all c sh ((XL_MULBLANK, zlen (mulblank_data r k xfs), mulblank_data r k xfs) :: rs) =
  read_all c sh (blank_records r k xfs ++ rs).
Proof. intros. apply mulblank_step; assumption. Qed.
Print Assumptions c27_mulblank.

Example c27_example :
  Forall rk_item [(15, [0; 0; 240; 63]); (16, [6; 0; 0; 0])] /\
  rk_records 4 7 [(15, [0; 0; 240; 63]); (16, [6; 0; 0; 0])] =
    [(XL_RK, 10, [4;0; 7;0; 15;0; 0;0;240;63]); (XL_RK, 10, [4;0; 8;0; 16;0; 6;0;0;0])].
Proof. split; [repeat constructor; cbn; lia|reflexivity]. Qed.

(** ** C28 *)

(** Every result field that is not a text: eight arbitrary bytes. *)
Theorem c28_kinds : forall {N} (c : config N) sh rc len r k xf b0 b1 b2 b3 b4 b5 b6 b7 rest rs,
  is_formula_code rc = true -> u16v r -> u16v k -> u16v xf -> 2 <= zlen rest ->
  let res := [b0; b1; b2; b3; b4; b5; b6; b7] in
  let outcome := read_all c sh ((rc, len, formula_data r k xf res rest) :: rs) in
  let gives t v := outcome = do sh1 <- puts c sh [mk_store r k t v xf]; read_all c sh1 rs in
  (~ (b6 = 255 /\ b7 = 255) -> forall t, c_xftype c xf = Some t -> gives t (VNum (c_num8 c res))) /\
  (b6 = 255 /\ b7 = 255 -> b0 = 1 -> gives 4 (VInt b2)) /\
  (b6 = 255 /\ b7 = 255 -> b0 = 2 -> gives 5 (VInt b2)) /\
  (b6 = 255 /\ b7 = 255 -> b0 = 3 -> gives 1 (VText [])) /\
  (b6 = 255 /\ b7 = 255 -> ~ (0 <= b0 <= 3) -> outcome = Err XLRDError).
Proof.
  intros N c sh rc len r k xf b0 b1 b2 b3 b4 b5 b6 b7 rest rs HC Hr Hk Hx H2 res outcome gives.
  assert (rc =? XL_EOF = false) as HE.
  { unfold is_formula_code in HC. apply orb_true_iff in HC as [HC|HC]; [apply orb_true_iff in HC as [HC|HC]|];
      apply Z.eqb_eq in HC; subst rc; reflexivity. }
  assert (b6 = 255 /\ b7 = 255 -> res = marked b0 b2 b1 b3 b4 b5) as HM by (intros [-> ->]; reflexivity).
  assert (forall o, step c sh rc len (formula_data r k xf res rest) rs = plain o rs -> outcome = do sh1 <- o; read_all c sh1 rs) as HO.
  { intros o E. unfold outcome. rewrite read_all_cons, HE, E. unfold plain. rewrite bind_assoc. reflexivity. }
  split; [|split; [|split; [|split]]].
  - intros HN t Ht. unfold gives. apply HO. apply formula_number_step; try assumption; [reflexivity|].
    unfold res. cbn. intros E. injection E as -> ->. apply HN. auto.
  - intros M ->. unfold gives. apply HO. rewrite (HM M). rewrite formula_marked_step by assumption. reflexivity.
  - intros M ->. unfold gives. apply HO. rewrite (HM M). rewrite formula_marked_step by assumption. reflexivity.
  - intros M ->. unfold gives. apply HO. rewrite (HM M). rewrite formula_marked_step by assumption. reflexivity.
  - intros M HB. unfold outcome. rewrite read_all_cons, HE, (HM M), formula_marked_step by assumption.
    replace (b0 =? 0) with false by lia. replace (b0 =? 1) with false by lia. replace (b0 =? 2) with false by lia.
    replace (b0 =? 3) with false by lia. reflexivity.
Qed.
Print Assumptions c28_kinds.

(** A text result takes the text of the following STRING record and its CONTINUE
    records, with at most one ARRAY, SHRFMLA or TABLEOP record in between. *)
Theorem c28_text : forall {N} (c : config N) sh rc len r k xf u1 v u3 u4 u5 rest between raw t more ts rs,
  c_bv c >= 50 -> is_formula_code rc = true -> u16v r -> u16v k -> u16v xf -> 2 <= zlen rest ->
  Forall between_ok between -> zlen between <= 1 -> piece_holds c raw t -> Forall2 (piece_holds c) more ts ->
  (more = [] \/ last ts [] <> []) -> bmp (t ++ concat ts) -> zlen (t ++ concat ts) < 65536 ->
  read_all c sh ((rc, len, formula_data r k xf (marked 0 v u1 u3 u4 u5) rest) ::
    map rec_of (between ++ (XL_STRING, string_data (zlen (utf16_units (t ++ concat ts))) raw) :: map (pair XL_CONTINUE) more) ++ rs) =
  do sh1 <- puts c sh [mk_store r k 1 (VText (t ++ concat ts)) xf]; read_all c sh1 rs.
Proof.
  intros N c sh rc len r k xf u1 v u3 u4 u5 rest between raw t more ts rs HV HC Hr Hk Hx H2 HB HB1 HP HM HL HBm HN.
  assert (rc =? XL_EOF = false) as HE.
  { unfold is_formula_code in HC. apply orb_true_iff in HC as [HC|HC]; [apply orb_true_iff in HC as [HC|HC]|];
      apply Z.eqb_eq in HC; subst rc; reflexivity. }
  rewrite read_all_cons, HE, formula_marked_step by assumption. cbn [Z.eqb].
  rewrite bmp_units by exact HBm. rewrite zlen_app, zlen_concat in HN |- *.
  rewrite formula_string_reads by (assumption || lia). cbn [bind]. unfold plain. rewrite bind_assoc. reflexivity.
Qed.
Print Assumptions c28_text.

(** Not for all texts: STRING announces UTF-16 units and the reader counts
    characters, so a text with a character beyond the BMP is not read. *)
Theorem c28_text_refuted : exists (c : config (list Z)) t rs, c_bv c = 80 /\ text t /\
  rs = [(6, 20, formula_data 0 0 0 (marked 0 0 0 0 0 0) [0;0;0;0;0;0]);
        rec_of (XL_STRING, string_data (zlen (utf16_units t)) (1 :: utf16_enc t)); ex_eof] /\
  sheet_read c (0, 0) rs = Err XLRDError.
Proof.
  exists (ex_config false), [0x1F600]. eexists. split; [reflexivity|]. split; [repeat constructor; unfold scalar; lia|].
  split; [reflexivity|]. reflexivity.
Qed.
Print Assumptions c28_text_refuted.

Example c28_example : piece_holds (ex_config false) [1; 0x61; 0; 0x3b1 mod 256; 3] [0x61; 0x3b1] /\ bmp [0x61; 0x3b1].
Proof.
  split; [|repeat constructor]. exists 1. split; [repeat constructor; unfold scalar; lia|reflexivity].
Qed.

(** ** C31 *)

(** A DIMENSION record after a cell: the row count no longer covers the cell. *)
Definition ex_two_dims : list record :=
  map rec_of [(XL_NUMBER, head 5 0 15 ++ [0;0;0;0;0;0;240;63]); (XL_DIMENSION, [0;0;0;0; 6;0;0;0; 0;0; 1;0; 0;0]); (XL_EOF, [])].

Theorem c31_second_dimension_refuted : exists (c : config (list Z)) sh, c_bv c = 80 /\
  sheet_read c (0, 0) ex_two_dims = Ok sh /\
  cell_type (sh_grid sh) 5 0 = Ok XL_CELL_NUMBER /\ zlen (g_vals (sh_grid sh)) = 6 /\ g_nrows (sh_grid sh) = 0.
Proof.
  exists (ex_config false).
  assert (match sheet_read (ex_config false) (0, 0) ex_two_dims with
          | Ok sh => (cell_type (sh_grid sh) 5 0, zlen (g_vals (sh_grid sh)), g_nrows (sh_grid sh)) = (Ok XL_CELL_NUMBER, 6, 0)
          | Err _ => False
          end) as K by (vm_compute; reflexivity).
  destruct (sheet_read (ex_config false) (0, 0) ex_two_dims) as [sh|e]; [|contradiction].
  exists sh. injection K as K1 K2 K3. auto.
Qed.
Print Assumptions c31_second_dimension_refuted.

(** With all DIMENSION records before the first cell, nrows and ncols cover every
    cell and are what is stored. *)
Theorem c31_dimension_first : forall {N} (c : config N) countries items len d rest sh, c_bv c >= 50 -> c_ragged c = false ->
  Forall (item_ok c) items -> dims_first c items ->
  Forall (in_bounds (c_fmt c) (max_rows c) 256) (flat_map (cells c) items) -> merged_ok (max_rows c) (flat_map (merges c) items) ->
  sheet_read c countries (map rec_of (flat_map (enc c) items) ++ (XL_EOF, len, d) :: rest) = Ok sh ->
  (forall s, In s (flat_map (cells c) items) -> s_row s < g_nrows (sh_grid sh) /\ s_col s < g_ncols (sh_grid sh)) /\
  zlen (g_vals (sh_grid sh)) = g_nrows (sh_grid sh) /\
  (forall r, 0 <= r < g_nrows (sh_grid sh) -> row_len (sh_grid sh) r = Ok (g_ncols (sh_grid sh))).
Proof.
  intros N c countries items len d rest sh HV HG OK HD HI HM H.
  destruct (sheet_content c countries items _ _ _ sh HV OK HD H) as (K1 & K2 & _). rewrite HG in K1.
  destruct (c20_dimensions (@vempty N) (c_fmt c) (max_rows c) 256 _ _ (max_rows_pos c) ltac:(lia) HI HM)
    as (g & E & HS & _ & _ & _ & HL & _ & HRow & _). rewrite K1 in E. injection E as <-. auto.
Qed.
Print Assumptions c31_dimension_first.

(** ** C67 *)

(** Reading a worksheet ends for every byte string: never out of fuel. *)
Theorem c67_reading_ends : forall {N} (c : config N) countries mem pos, bytes mem ->
  (forall b, nofuel (c_decode c b)) -> (forall b, nofuel (c_rk c b)) ->
  nofuel (sheet_read c countries (stream mem pos)).
Proof.
  intros N c countries mem pos HB HD HR.
  assert (Forall (fun r : record => bytes (snd r)) (stream mem pos)) as HS.
  { unfold stream. generalize (S (2 * length mem)) as f. intros f. revert pos.
    induction f as [|f IH]; intros pos; [constructor|]. cbn [records_of].
    destruct (get_record_parts mem pos) as [[r pos']|e] eqn:E; [|constructor]. constructor; [|apply IH].
    unfold get_record_parts in E. destruct (negb _); [discriminate|].
    apply bind_ok in E as (code & _ & E). apply bind_ok in E as (len & _ & E). injection E as <- _. cbn [snd].
    apply bytes_slice. exact HB. }
  unfold sheet_read. apply nofuel_bind.
  - apply (nofuel_read_all c HD HR). exact HS.
  - intros sh _. apply nofuel_bind; [apply nofuel_tidy|]. discriminate.
Qed.
Print Assumptions c67_reading_ends.

Example c67_example : nofuel (sheet_read (ex_config true) (0, 0) (stream [9; 8; 4; 0; 255; 255; 3] 0)).
Proof. apply c67_reading_ends; [repeat constructor; lia|discriminate|discriminate]. Qed.
