(** Property theorems C10, C11, C12, C63, C66: names of columns, cells and sheets. *)
From Verif Require Import Base BaseFacts Text TextFacts CellNames.

(** ** Specification *)

(** A non-empty text over A..Z. *)
Definition letterb (c : Z) : bool := (65 <=? c) && (c <=? 90).
Definition letters (s : list Z) : Prop := s <> [] /\ forallb letterb s = true.

(** Value of a bijective base-26 numeral, A = 1 ... Z = 26. *)
Definition col_val (s : list Z) : Z := fold_left (fun v c => 26 * v + (c - 64)) s 0.

Inductive lex_lt : list Z -> list Z -> Prop :=
| lex_here : forall c d r r', c < d -> lex_lt (c :: r) (d :: r')
| lex_there : forall c r r', lex_lt r r' -> lex_lt (c :: r) (c :: r').

(** Shorter first, then alphabetical. *)
Definition shortlex (s t : list Z) : Prop :=
  zlen s < zlen t \/ (zlen s = zlen t /\ lex_lt s t).

(** ** Facts about numerals *)

Lemma col_val_acc : forall s v, fold_left (fun v c => 26 * v + (c - 64)) s v = 26 ^ zlen s * v + col_val s.
Proof.
  unfold col_val. induction s as [|c s IH]; intros v.
  - cbn [fold_left]. rewrite zlen_nil. lia.
  - cbn [fold_left]. rewrite IH, (IH (26 * 0 + (c - 64))).
    rewrite zlen_cons, Z.pow_add_r by (pose proof (zlen_nonneg s); lia).
    change (26 ^ 1) with 26. ring.
Qed.

Lemma col_val_cons : forall c s, col_val (c :: s) = 26 ^ zlen s * (c - 64) + col_val s.
Proof. intros c s. unfold col_val at 1. cbn [fold_left]. rewrite col_val_acc. f_equal. Qed.

Lemma pow26_pos : forall {A} (s : list A), 0 < 26 ^ zlen s.
Proof. intros. apply Z.pow_pos_nonneg; [lia|apply zlen_nonneg]. Qed.

(** 25 * value lies between 26^k - 1 and 26 * (26^k - 1). *)
Lemma col_val_bounds : forall s, forallb letterb s = true ->
  26 ^ zlen s - 1 <= 25 * col_val s <= 26 * (26 ^ zlen s - 1).
Proof.
  induction s as [|c s IH]; intros H; [cbn; lia|].
  cbn [forallb] in H. apply andb_true_iff in H as [Hc H]. specialize (IH H).
  rewrite col_val_cons, zlen_cons, Z.pow_add_r by (pose proof (zlen_nonneg s); lia).
  change (26 ^ 1) with 26. pose proof (pow26_pos s). unfold letterb in Hc. nia.
Qed.

Lemma lex_col_val : forall s t, lex_lt s t -> zlen s = zlen t ->
  forallb letterb s = true -> forallb letterb t = true -> col_val s < col_val t.
Proof.
  intros s t H. induction H as [c d r r' Hcd|c r r' H IH]; intros L Hs Ht;
    cbn [forallb] in Hs, Ht; apply andb_true_iff in Hs as [Hc Hs]; apply andb_true_iff in Ht as [Hd Ht];
    rewrite !zlen_cons in L; assert (zlen r = zlen r') as L' by lia; rewrite !col_val_cons, L'.
  - pose proof (col_val_bounds r Hs) as B1. pose proof (col_val_bounds r' Ht) as B2. rewrite L' in B1.
    pose proof (pow26_pos r'). nia.
  - specialize (IH L' Hs Ht). lia.
Qed.

Lemma shortlex_col_val : forall s t, shortlex s t ->
  forallb letterb s = true -> forallb letterb t = true -> col_val s < col_val t.
Proof.
  intros s t [H|[H1 H2]] Hs Ht; [|apply lex_col_val; assumption].
  pose proof (col_val_bounds s Hs) as B1. pose proof (col_val_bounds t Ht) as B2.
  assert (26 * 26 ^ zlen s <= 26 ^ zlen t).
  { rewrite <- Z.pow_succ_r by apply zlen_nonneg. apply Z.pow_le_mono_r; lia. }
  lia.
Qed.

Lemma lex_total : forall s t, zlen s = zlen t -> lex_lt s t \/ s = t \/ lex_lt t s.
Proof.
  induction s as [|c s IH]; intros [|d t] L; rewrite ?zlen_cons, ?zlen_nil in L;
    try (pose proof (zlen_nonneg s)); try (pose proof (zlen_nonneg t)); try lia.
  - auto.
  - destruct (Z.lt_trichotomy c d) as [H1|[H1|H1]].
    + left. constructor; exact H1.
    + subst. destruct (IH t ltac:(lia)) as [H2|[H2|H2]].
      * left. constructor; exact H2.
      * right; left. congruence.
      * right; right. constructor; exact H2.
    + right; right. constructor; exact H1.
Qed.

Lemma shortlex_total : forall s t, shortlex s t \/ s = t \/ shortlex t s.
Proof.
  intros s t. unfold shortlex. destruct (Z.lt_trichotomy (zlen s) (zlen t)) as [H|[H|H]]; [auto| |auto].
  destruct (lex_total s t H) as [H1|[H1|H1]]; auto.
Qed.

Lemma col_val_inj : forall s t, forallb letterb s = true -> forallb letterb t = true ->
  col_val s = col_val t -> s = t.
Proof.
  intros s t Hs Ht E. destruct (shortlex_total s t) as [H|[H|H]]; [|exact H|];
    apply shortlex_col_val in H; auto; lia.
Qed.

Lemma col_val_pos : forall s, letters s -> 1 <= col_val s.
Proof.
  intros s [N H]. pose proof (col_val_bounds s H). destruct s as [|c s]; [congruence|].
  rewrite zlen_cons, Z.pow_add_r in H0 by (pose proof (zlen_nonneg s); lia).
  change (26 ^ 1) with 26 in H0. pose proof (pow26_pos s). lia.
Qed.

(** ** The code *)

Lemma A2Z_index : forall i, 0 <= i < 26 -> py_index A2Z i = Ok (65 + i).
Proof.
  assert (all_between 0 26 (fun i => match py_index A2Z i with Ok c => c =? 65 + i | Err _ => false end) = true) as H
    by (vm_compute; reflexivity).
  intros i Hi. pose proof (all_between_spec _ _ _ H i Hi) as E. cbv beta in E.
  destruct (py_index A2Z i); [f_equal; lia|discriminate].
Qed.

Lemma A2Z_index_out : forall i, 26 <= i -> py_index A2Z i = Err IndexError.
Proof.
  intros i Hi. unfold py_index. change (zlen A2Z) with 26. destruct (i <? 0) eqn:E; [lia|].
  replace (znth A2Z i) with (@None Z); [reflexivity|]. symmetry. apply znth_None. right. exact Hi.
Qed.

Lemma book_colname_loop_spec : forall fuel n name, 0 <= n -> n + 1 < 2 ^ Z.of_nat fuel ->
  exists s, book_colname_loop fuel n name = Ok (s ++ name) /\ letters s /\ col_val s = n + 1.
Proof.
  induction fuel as [|f IH]; intros n name Hn Hf.
  - change (Z.of_nat 0) with 0 in Hf. lia.
  - cbn [book_colname_loop]. rewrite A2Z_index by lia. cbn [bind].
    destruct (n / 26 =? 0) eqn:E.
    + exists [65 + n mod 26]. split; [reflexivity|]. split.
      * split; [discriminate|]. cbn [forallb]. unfold letterb. lia.
      * unfold col_val. cbn [fold_left]. lia.
    + destruct (IH (n / 26 - 1) ((65 + n mod 26) :: name)) as (s & Hs & [L1 L2] & V).
      * lia.
      * rewrite Nat2Z.inj_succ, Z.pow_succ_r in Hf by lia. lia.
      * exists (s ++ [65 + n mod 26]). split; [|split].
        -- rewrite Hs, <- app_assoc. reflexivity.
        -- split; [intros F; apply app_eq_nil in F as [_ F]; discriminate|].
           rewrite forallb_app, L2. cbn [forallb andb]. unfold letterb. lia.
        -- unfold col_val. rewrite fold_left_app. cbn [fold_left]. fold (col_val s). lia.
Qed.

Lemma book_colname_spec : forall n, 0 <= n ->
  exists s, book_colname n = Ok s /\ letters s /\ col_val s = n + 1.
Proof.
  intros n Hn. unfold book_colname. destruct (negb (n >=? 0)) eqn:E; [lia|].
  destruct (book_colname_loop_spec (S (Z.to_nat (Z.log2 (n + 1)))) n [] Hn) as (s & Hs & H).
  - apply log2_fuel. lia.
  - rewrite app_nil_r in Hs. eauto.
Qed.

(** ** C10 *)

(** Every index has a name, a non-empty text over A..Z whose numeral value is
    the index plus one. *)
Theorem c10_colname_numeral : forall n, 0 <= n ->
  exists s, book_colname n = Ok s /\ letters s /\ col_val s = n + 1.
Proof. exact book_colname_spec. Qed.
Print Assumptions c10_colname_numeral.

(** Every such text is the name of an index. *)
Theorem c10_colname_onto : forall s, letters s ->
  0 <= col_val s - 1 /\ book_colname (col_val s - 1) = Ok s.
Proof.
  intros s Hs. pose proof (col_val_pos s Hs). split; [lia|].
  destruct (book_colname_spec (col_val s - 1) ltac:(lia)) as (t & Ht & [_ L] & V).
  rewrite Ht. f_equal. apply col_val_inj; [exact L|apply Hs|lia].
Qed.
Print Assumptions c10_colname_onto.

(** One-to-one and in order of length, then alphabet. *)
Theorem c10_colname_order : forall m n s t, 0 <= m -> 0 <= n ->
  book_colname m = Ok s -> book_colname n = Ok t -> (m < n <-> shortlex s t) /\ (m = n <-> s = t).
Proof.
  intros m n s t Hm Hn Hs Ht.
  destruct (book_colname_spec m Hm) as (s' & Es & [_ Ls] & Vs).
  destruct (book_colname_spec n Hn) as (t' & Et & [_ Lt] & Vt).
  assert (s' = s) as -> by congruence. assert (t' = t) as -> by congruence.
  assert (shortlex s t -> m < n) as H1 by (intros H; apply shortlex_col_val in H; auto; lia).
  assert (shortlex t s -> n < m) as H2 by (intros H; apply shortlex_col_val in H; auto; lia).
  split; split; intros H.
  - destruct (shortlex_total s t) as [D|[D|D]]; [exact D| |].
    + subst. lia.
    + apply H2 in D. lia.
  - auto.
  - apply col_val_inj; auto; lia.
  - subst. lia.
Qed.
Print Assumptions c10_colname_order.

Example c10_example : book_colname 16383 = Ok (s2l "XFD") /\ letters (s2l "XFD") /\
  book_colname 701 = Ok (s2l "ZZ") /\ book_colname 702 = Ok (s2l "AAA") /\
  shortlex (s2l "ZZ") (s2l "AAA").
Proof.
  split; [vm_compute; reflexivity|]. split; [split; [discriminate|reflexivity]|].
  split; [vm_compute; reflexivity|]. split; [vm_compute; reflexivity|]. left. reflexivity.
Qed.

(** ** C11 *)

Lemma colname_small : forall c, 0 <= c < 702 -> colname c = book_colname c.
Proof.
  intros c Hc. destruct (book_colname_spec c ltac:(lia)) as (s & -> & [_ Ls] & Vs).
  unfold colname. destruct (c <=? 25) eqn:E.
  - rewrite A2Z_index by lia. cbn [bind]. f_equal.
    apply col_val_inj; [|exact Ls|].
    + cbn [forallb]. unfold letterb. lia.
    + rewrite Vs. unfold col_val. cbn [fold_left]. lia.
  - rewrite !A2Z_index by lia. cbn [bind]. f_equal.
    apply col_val_inj; [|exact Ls|].
    + cbn [forallb]. unfold letterb. lia.
    + rewrite Vs. unfold col_val. cbn [fold_left]. lia.
Qed.

Theorem c11_colnames_agree : forall c, 0 <= c ->
  (c < 702 -> colname c = book_colname c) /\
  (702 <= c -> colname c = Err IndexError /\ exists s, book_colname c = Ok s).
Proof.
  intros c Hc. split.
  - intros H. apply colname_small. lia.
  - intros H. split.
    + unfold colname. destruct (c <=? 25) eqn:E; [lia|]. rewrite A2Z_index_out by lia. reflexivity.
    + destruct (book_colname_spec c Hc) as (s & Hs & _). eauto.
Qed.
Print Assumptions c11_colnames_agree.

Example c11_example : colname 255 = Ok (s2l "IV") /\ book_colname 255 = Ok (s2l "IV").
Proof. split; reflexivity. Qed.

(** ** C12 *)

Lemma colname_ok : forall c s, 0 <= c -> colname c = Ok s -> letters s /\ col_val s = c + 1.
Proof.
  intros c s Hc H. destruct (Z_lt_dec c 702) as [L|L].
  - rewrite colname_small in H by lia. destruct (book_colname_spec c Hc) as (t & Ht & L1 & V).
    assert (t = s) as -> by congruence. auto.
  - destruct (c11_colnames_agree c Hc) as [_ H2]. destruct (H2 ltac:(lia)) as [H3 _]. congruence.
Qed.

Lemma fmt_d_not_letter : forall n x r, fmt_d n = x :: r -> letterb x = false.
Proof.
  intros n x r H. unfold fmt_d in H. destruct (n <? 0) eqn:E.
  - injection H as <- _. reflexivity.
  - pose proof (digits_digits n ltac:(lia)) as D. rewrite H in D. cbn [forallb] in D.
    apply andb_true_iff in D as [D _]. unfold digitb in D. unfold letterb. lia.
Qed.

(** The name is the column numeral followed by the decimal row number. *)
Theorem c12_cellname_recover : forall rowx colx s, 0 <= colx -> 0 <= rowx ->
  cellname rowx colx = Ok s ->
  exists L D, s = L ++ D /\ letters L /\ forallb digitb D = true /\ D <> [] /\
    col_val L - 1 = colx /\ dec_val D - 1 = rowx.
Proof.
  intros r c s Hc Hr H. unfold cellname in H. apply bind_ok in H as (L & HL & H). injection H as <-.
  destruct (colname_ok c L Hc HL) as [H1 H2].
  exists L, (fmt_d (r + 1)). unfold fmt_d. destruct (r + 1 <? 0) eqn:E; [lia|].
  split; [reflexivity|]. split; [exact H1|]. split; [apply digits_digits; lia|].
  split; [apply digits_nonempty|]. rewrite digits_val by lia. lia.
Qed.
Print Assumptions c12_cellname_recover.

(** Different cells have different names (any row number, columns >= 0). *)
Theorem c12_cellname_injective : forall r c r' c' s, 0 <= c -> 0 <= c' ->
  cellname r c = Ok s -> cellname r' c' = Ok s -> r = r' /\ c = c'.
Proof.
  intros r c r' c' s Hc Hc' H H'. unfold cellname in *.
  apply bind_ok in H as (L & HL & H). apply bind_ok in H' as (L' & HL' & H').
  destruct (colname_ok c L Hc HL) as [[_ H1] H2]. destruct (colname_ok c' L' Hc' HL') as [[_ H1'] H2'].
  assert (L ++ fmt_d (r + 1) = L' ++ fmt_d (r' + 1)) as E by congruence.
  apply (span_unique letterb) in E as [E1 E2]; [|assumption|assumption| |];
    try (intros x t Hx; eapply fmt_d_not_letter; exact Hx).
  apply fmt_d_inj in E2. subst L'. lia.
Qed.
Print Assumptions c12_cellname_injective.

Theorem c12_cellnameabs_injective : forall r c r' c' r1c1 s,
  (r1c1 = false -> 0 <= c /\ 0 <= c') ->
  cellnameabs r c r1c1 = Ok s -> cellnameabs r' c' r1c1 = Ok s -> r = r' /\ c = c'.
Proof.
  intros r c r' c' [|] s Hcc H H'; unfold cellnameabs in *.
  - assert (fmt_d (r + 1) ++ s2l "C" ++ fmt_d (c + 1) = fmt_d (r' + 1) ++ s2l "C" ++ fmt_d (c' + 1)) as E.
    { assert (s2l "R" ++ fmt_d (r + 1) ++ s2l "C" ++ fmt_d (c + 1)
            = s2l "R" ++ fmt_d (r' + 1) ++ s2l "C" ++ fmt_d (c' + 1)) as E by congruence.
      cbn [s2l list_ascii_of_string map app] in E. injection E as E. exact E. }
    assert (forall n, forallb (fun x => negb (x =? 67)) (fmt_d n) = true) as N.
    { intros n. unfold fmt_d.
      assert (forall k, 0 <= k -> forallb (fun x => negb (x =? 67)) (digits k) = true) as N.
      { intros k Hk. pose proof (digits_digits k Hk) as D. rewrite forallb_forall in *.
        intros x Hx. specialize (D x Hx). unfold digitb in D. lia. }
      destruct (n <? 0) eqn:En; [cbn [forallb]; rewrite N by lia; reflexivity|apply N; lia]. }
    apply (span_unique (fun x => negb (x =? 67))) in E as [E1 E2]; auto;
      try (intros x t Hx; cbn in Hx; injection Hx as <- _; reflexivity).
    apply fmt_d_inj in E1. cbn [s2l list_ascii_of_string map app] in E2. injection E2 as E2.
    apply fmt_d_inj in E2. lia.
  - destruct (Hcc eq_refl) as [Hc Hc'].
    apply bind_ok in H as (L & HL & H). apply bind_ok in H' as (L' & HL' & H').
    destruct (colname_ok c L Hc HL) as [[_ H1] H2]. destruct (colname_ok c' L' Hc' HL') as [[_ H1'] H2'].
    assert (L ++ s2l "$" ++ fmt_d (r + 1) = L' ++ s2l "$" ++ fmt_d (r' + 1)) as E.
    { assert (s2l "$" ++ L ++ s2l "$" ++ fmt_d (r + 1) = s2l "$" ++ L' ++ s2l "$" ++ fmt_d (r' + 1)) as E by congruence.
      cbn [s2l list_ascii_of_string map app] in E. injection E as E. exact E. }
    apply (span_unique letterb) in E as [E1 E2]; [|assumption|assumption| |];
      try (intros x t Hx; cbn in Hx; injection Hx as <- _; reflexivity).
    cbn [s2l list_ascii_of_string map app] in E2. injection E2 as E2.
    apply fmt_d_inj in E2. subst L'. lia.
Qed.
Print Assumptions c12_cellnameabs_injective.

(** The same recovery for the absolute forms. *)
Theorem c12_cellnameabs_recover : forall rowx colx r1c1 s, 0 <= colx -> 0 <= rowx ->
  cellnameabs rowx colx r1c1 = Ok s ->
  (r1c1 = false -> exists L D, s = s2l "$" ++ L ++ s2l "$" ++ D /\ letters L /\ forallb digitb D = true /\
     col_val L - 1 = colx /\ dec_val D - 1 = rowx) /\
  (r1c1 = true -> exists D E, s = s2l "R" ++ D ++ s2l "C" ++ E /\ forallb digitb D = true /\ forallb digitb E = true /\
     dec_val D - 1 = rowx /\ dec_val E - 1 = colx).
Proof.
  assert (forall n, 0 <= n -> forallb digitb (fmt_d (n + 1)) = true /\ dec_val (fmt_d (n + 1)) - 1 = n) as F.
  { intros n Hn. unfold fmt_d. destruct (n + 1 <? 0) eqn:E; [lia|].
    split; [apply digits_digits; lia|]. rewrite digits_val by lia. lia. }
  intros r c b s Hc Hr H. destruct (F r Hr) as [R1 R2], (F c Hc) as [C1 C2]. unfold cellnameabs in H.
  split; intros ->.
  - apply bind_ok in H as (L & HL & H). injection H as <-.
    destruct (colname_ok c L Hc HL) as [H1 H2]. exists L, (fmt_d (r + 1)).
    split; [reflexivity|]. split; [exact H1|]. split; [exact R1|]. lia.
  - injection H as <-. exists (fmt_d (r + 1)), (fmt_d (c + 1)). repeat split; auto.
Qed.
Print Assumptions c12_cellnameabs_recover.

Example c12_example : cellname 65535 255 = Ok (s2l "IV65536") /\
  cellnameabs 65535 255 false = Ok (s2l "$IV$65536") /\ cellnameabs 4 0 true = Ok (s2l "R5C1").
Proof. repeat split; reflexivity. Qed.

(** ** C63 *)

(** Text of a reference to cell (row, col), with '$' on absolute parts. *)
Definition a1_text (row col : Z) (rowrel colrel : bool) (s : list Z) : Prop :=
  exists L, letters L /\ col_val L = col + 1 /\
    s = (if colrel then [] else s2l "$") ++ L ++ (if rowrel then [] else s2l "$") ++ fmt_d (row + 1).

(** Two's complement reading of a [bits]-bit field. *)
Definition twos (bits v : Z) : Z := if v <? 2 ^ (bits - 1) then v else v - 2 ^ bits.

Lemma colname_text : forall c, 0 <= c < 256 -> exists L, colname c = Ok L /\ letters L /\ col_val L = c + 1.
Proof.
  intros c Hc. rewrite colname_small by lia. apply book_colname_spec. lia.
Qed.

Lemma cellnamerel_text : forall rowx colx rr cr br bc,
  (rr = false -> 0 <= rowx) -> (cr = false -> 0 <= colx < 256) ->
  exists s, cellnamerel rowx colx rr cr (Some br) (Some bc) false = Ok s /\
    a1_text (if rr then (br + rowx) mod 65536 else rowx)
            (if cr then (bc + colx) mod 256 else colx) rr cr s.
Proof.
  intros rowx colx rr cr br bc Hr Hc. unfold cellnamerel.
  destruct (negb rr && negb cr) eqn:E0.
  - assert (rr = false /\ cr = false) as [-> ->] by (destruct rr, cr; auto; discriminate).
    unfold cellnameabs. destruct (colname_text colx (Hc eq_refl)) as (L & -> & HL & V). cbn [bind].
    eexists. split; [reflexivity|]. exists L. split; [exact HL|]. split; [exact V|]. reflexivity.
  - replace ((rr && is_none (Some br)) || (cr && is_none (Some bc))) with false by (destruct rr, cr; reflexivity).
    unfold colnamerel, rownamerel.
    assert (exists L, colname (if cr then (bc + colx) mod 256 else colx) = Ok L /\ letters L /\
        col_val L = (if cr then (bc + colx) mod 256 else colx) + 1) as (L & HL & LL & V).
    { apply colname_text. destruct cr; [lia|]. auto. }
    exists ((if cr then [] else s2l "$") ++ L ++ (if rr then [] else s2l "$") ++
      fmt_d ((if rr then (br + rowx) mod 65536 else rowx) + 1)).
    split; [|exists L; auto].
    destruct cr, rr; cbn [negb] in *; try discriminate E0; rewrite HL; cbn [bind app];
      rewrite <- ?app_assoc; reflexivity.
Qed.

(** Offset form, BIFF8 (shared formulas, defined names). *)
Theorem c63_offset_biff8 : forall rowval colval br bc,
  0 <= rowval < 65536 -> 0 <= colval < 65536 ->
  let rr := Z.testbit colval 15 in let cr := Z.testbit colval 14 in
  exists rowx colx s,
    adjust_cell_addr_biff8 rowval colval true (Some br) (Some bc) = Ok (rowx, colx, rr, cr) /\
    cellnamerel rowx colx rr cr (Some br) (Some bc) false = Ok s /\
    a1_text (if rr then (br + twos 16 rowval) mod 65536 else rowval)
            (if cr then (bc + twos 8 (colval mod 256)) mod 256 else colval mod 256) rr cr s.
Proof.
  intros rowval colval br bc Hr Hc rr cr. unfold adjust_cell_addr_biff8. fold rr cr.
  replace (Z.land colval 255) with (colval mod 256) by (symmetry; apply (Z.land_ones colval 8); lia).
  do 2 eexists.
  destruct (cellnamerel_text
    (if rr && (rowval >=? 32768) then rowval - 65536 else rowval)
    (if cr && (colval mod 256 >=? 128) then colval mod 256 - 256 else colval mod 256) rr cr br bc)
    as (s & Hs & T).
  - intros ->. cbn [andb]. lia.
  - intros ->. cbn [andb]. lia.
  - exists s. split; [reflexivity|]. split; [exact Hs|].
    unfold twos. change (2 ^ (16 - 1)) with 32768. change (2 ^ (8 - 1)) with 128.
    change (2 ^ 16) with 65536. change (2 ^ 8) with 256.
    destruct rr, cr; cbn [andb] in T |- *;
      rewrite ?(Z.geb_leb rowval), ?(Z.geb_leb (colval mod 256)) in T;
      repeat match goal with |- context[if ?x <? ?y then _ else _] =>
        replace (x <? y) with (negb (y <=? x)) by lia; destruct (y <=? x) end;
      cbn [negb]; exact T.
Qed.
Print Assumptions c63_offset_biff8.

(** Address form (ordinary cell formulas): rendering at the formula's own cell
    gives back the stored address. *)
Theorem c63_address_biff8 : forall rowval colval br bc,
  0 <= rowval < 65536 -> 0 <= colval < 65536 ->
  let rr := Z.testbit colval 15 in let cr := Z.testbit colval 14 in
  exists rowx colx s,
    adjust_cell_addr_biff8 rowval colval false (Some br) (Some bc) = Ok (rowx, colx, rr, cr) /\
    cellnamerel rowx colx rr cr (Some br) (Some bc) false = Ok s /\
    a1_text rowval (colval mod 256) rr cr s.
Proof.
  intros rowval colval br bc Hr Hc rr cr. unfold adjust_cell_addr_biff8. fold rr cr.
  replace (Z.land colval 255) with (colval mod 256) by (symmetry; apply (Z.land_ones colval 8); lia).
  exists (if rr then rowval - br else rowval), (if cr then colval mod 256 - bc else colval mod 256).
  destruct (cellnamerel_text (if rr then rowval - br else rowval)
     (if cr then colval mod 256 - bc else colval mod 256) rr cr br bc) as (s & Hs & T).
  - intros ->. lia.
  - intros ->. lia.
  - exists s. split; [destruct rr, cr; reflexivity|]. split; [exact Hs|].
    replace (if rr then (br + (if rr then rowval - br else rowval)) mod 65536 else if rr then rowval - br else rowval)
      with rowval in T.
    2:{ destruct rr; [|reflexivity]. replace (br + (rowval - br)) with rowval by lia. symmetry. apply Z.mod_small; lia. }
    replace (if cr then (bc + (if cr then colval mod 256 - bc else colval mod 256)) mod 256
             else if cr then colval mod 256 - bc else colval mod 256)
      with (colval mod 256) in T.
    2:{ destruct cr; [|reflexivity]. replace (bc + (colval mod 256 - bc)) with (colval mod 256) by lia.
        symmetry. apply Z.mod_small. lia. }
    exact T.
Qed.
Print Assumptions c63_address_biff8.

(** Before BIFF8 a sheet has 16384 rows but the row is still reduced modulo
    65536: an offset that wraps names a row that does not exist. *)
Theorem c63_offset_biff7_refuted :
  exists rowval colval br bc rowx colx rr cr s,
    0 <= rowval < 65536 /\ 0 <= colval < 256 /\ 0 <= br < 16384 /\ 0 <= bc < 256 /\
    adjust_cell_addr_biff_le7 rowval colval true (Some br) (Some bc) = Ok (rowx, colx, rr, cr) /\
    cellnamerel rowx colx rr cr (Some br) (Some bc) false = Ok s /\
    ~ a1_text (if rr then (br + twos 14 (rowval mod 16384)) mod 16384 else rowval mod 16384)
              (if cr then (bc + twos 8 colval) mod 256 else colval) rr cr s.
Proof.
  exists (32768 + 16383), 0, 0, 0, (-1), 0, true, false, (s2l "$A65536").
  repeat (split; [lia|]). split; [reflexivity|]. split; [reflexivity|].
  intros (L & LL & V & E).
  change (s2l "$A65536") with (s2l "$" ++ s2l "A" ++ s2l "65536") in E.
  cbn [app s2l list_ascii_of_string map] in E. injection E as E.
  change ([65; 54; 53; 53; 51; 54]) with ([65] ++ [54; 53; 53; 51; 54]) in E.
  apply (span_unique letterb) in E as [_ E2].
  - vm_compute in E2. discriminate.
  - reflexivity.
  - apply LL.
  - intros x r H. injection H as <- _. reflexivity.
  - intros x r H. cbn [app] in H. eapply fmt_d_not_letter. exact H.
Qed.
Print Assumptions c63_offset_biff7_refuted.

(** It is right whenever base plus offset stays inside the sheet. *)
Theorem c63_offset_biff7_inside : forall rowval colval br bc,
  0 <= rowval < 65536 -> 0 <= colval < 256 ->
  let rr := Z.testbit rowval 15 in let cr := Z.testbit rowval 14 in
  (rr = true -> 0 <= br + twos 14 (rowval mod 16384) < 16384) ->
  exists rowx colx s,
    adjust_cell_addr_biff_le7 rowval colval true (Some br) (Some bc) = Ok (rowx, colx, rr, cr) /\
    cellnamerel rowx colx rr cr (Some br) (Some bc) false = Ok s /\
    a1_text (if rr then br + twos 14 (rowval mod 16384) else rowval mod 16384)
            (if cr then (bc + twos 8 colval) mod 256 else colval) rr cr s.
Proof.
  intros rowval colval br bc Hr Hc rr cr Hin. unfold adjust_cell_addr_biff_le7. fold rr cr.
  replace (Z.land rowval 16383) with (rowval mod 16384) by (symmetry; apply (Z.land_ones rowval 14); lia).
  do 2 eexists.
  destruct (cellnamerel_text
    (if rr && (rowval mod 16384 >=? 8192) then rowval mod 16384 - 16384 else rowval mod 16384)
    (if cr && (colval >=? 128) then colval - 256 else colval) rr cr br bc)
    as (s & Hs & T).
  - intros ->. cbn [andb]. lia.
  - intros ->. cbn [andb]. lia.
  - exists s. split; [reflexivity|]. split; [exact Hs|].
    unfold twos in *. change (2 ^ (14 - 1)) with 8192 in *. change (2 ^ (8 - 1)) with 128 in *.
    change (2 ^ 14) with 16384 in *. change (2 ^ 8) with 256 in *.
    match type of T with a1_text ?a ?b _ _ _ => match goal with |- a1_text ?a' ?b' _ _ _ =>
      replace a' with a; [replace b' with b; [exact T|]|] end end.
    + destruct cr; [|reflexivity]. cbn [andb].
      destruct (colval >=? 128) eqn:E1, (colval <? 128) eqn:E2; lia.
    + destruct rr; [|reflexivity]. cbn [andb]. specialize (Hin eq_refl).
      destruct (rowval mod 16384 >=? 8192) eqn:E1, (rowval mod 16384 <? 8192) eqn:E2; lia.
Qed.
Print Assumptions c63_offset_biff7_inside.

Example c63_example : adjust_cell_addr_biff8 65535 (49152 + 1) true (Some 0) (Some 255) = Ok (-1, 1, true, true) /\
  cellnamerel (-1) 1 true true (Some 0) (Some 255) false = Ok (s2l "A65536").
Proof. split; reflexivity. Qed.

(** Address form before BIFF8. *)
Theorem c63_address_biff7 : forall rowval colval br bc,
  0 <= rowval < 65536 -> 0 <= colval < 256 ->
  let rr := Z.testbit rowval 15 in let cr := Z.testbit rowval 14 in
  exists rowx colx s,
    adjust_cell_addr_biff_le7 rowval colval false (Some br) (Some bc) = Ok (rowx, colx, rr, cr) /\
    cellnamerel rowx colx rr cr (Some br) (Some bc) false = Ok s /\
    a1_text (rowval mod 16384) colval rr cr s.
Proof.
  intros rowval colval br bc Hr Hc rr cr. unfold adjust_cell_addr_biff_le7. fold rr cr.
  replace (Z.land rowval 16383) with (rowval mod 16384) by (symmetry; apply (Z.land_ones rowval 14); lia).
  exists (if rr then rowval mod 16384 - br else rowval mod 16384), (if cr then colval - bc else colval).
  destruct (cellnamerel_text (if rr then rowval mod 16384 - br else rowval mod 16384)
     (if cr then colval - bc else colval) rr cr br bc) as (s & Hs & T).
  - intros ->. lia.
  - intros ->. lia.
  - exists s. split; [destruct rr, cr; reflexivity|]. split; [exact Hs|].
    replace (if rr then (br + (if rr then rowval mod 16384 - br else rowval mod 16384)) mod 65536
             else if rr then rowval mod 16384 - br else rowval mod 16384) with (rowval mod 16384) in T.
    2:{ destruct rr; [|reflexivity]. replace (br + (rowval mod 16384 - br)) with (rowval mod 16384) by lia.
        symmetry. apply Z.mod_small; lia. }
    replace (if cr then (bc + (if cr then colval - bc else colval)) mod 256 else if cr then colval - bc else colval)
      with colval in T.
    2:{ destruct cr; [|reflexivity]. replace (bc + (colval - bc)) with colval by lia. symmetry. apply Z.mod_small; lia. }
    exact T.
Qed.
Print Assumptions c63_address_biff7.

(** The cell a stored pair of words means, at base cell (br, bc). *)
Definition meant8 (offset : bool) (rowval colval br bc : Z) : Z * Z :=
  (if offset && Z.testbit colval 15 then (br + twos 16 rowval) mod 65536 else rowval,
   if offset && Z.testbit colval 14 then (bc + twos 8 (colval mod 256)) mod 256 else colval mod 256).
Definition meant7 (offset : bool) (rowval colval br bc : Z) : Z * Z :=
  (if offset && Z.testbit rowval 15 then br + twos 14 (rowval mod 16384) else rowval mod 16384,
   if offset && Z.testbit rowval 14 then (bc + twos 8 colval) mod 256 else colval).

Lemma corner8 : forall off rowval colval br bc, 0 <= rowval < 65536 -> 0 <= colval < 65536 ->
  let rr := Z.testbit colval 15 in let cr := Z.testbit colval 14 in
  exists rowx colx s, adjust_cell_addr_biff8 rowval colval off (Some br) (Some bc) = Ok (rowx, colx, rr, cr) /\
    cellnamerel rowx colx rr cr (Some br) (Some bc) false = Ok s /\
    a1_text (fst (meant8 off rowval colval br bc)) (snd (meant8 off rowval colval br bc)) rr cr s.
Proof.
  intros off rowval colval br bc HR HC. unfold meant8. cbn [fst snd].
  destruct off; [apply c63_offset_biff8|apply c63_address_biff8]; assumption.
Qed.

Lemma corner7 : forall off rowval colval br bc, 0 <= rowval < 65536 -> 0 <= colval < 256 ->
  let rr := Z.testbit rowval 15 in let cr := Z.testbit rowval 14 in
  0 <= fst (meant7 off rowval colval br bc) < 16384 ->
  exists rowx colx s, adjust_cell_addr_biff_le7 rowval colval off (Some br) (Some bc) = Ok (rowx, colx, rr, cr) /\
    cellnamerel rowx colx rr cr (Some br) (Some bc) false = Ok s /\
    a1_text (fst (meant7 off rowval colval br bc)) (snd (meant7 off rowval colval br bc)) rr cr s.
Proof.
  intros off rowval colval br bc HR HC rr cr IN. unfold meant7 in *. cbn [fst snd] in *.
  destruct off; [apply c63_offset_biff7_inside; try assumption|apply c63_address_biff7; assumption].
  intros E. fold rr in E, IN. rewrite E in IN. exact IN.
Qed.

(** A single reference as stored in a formula. *)
Theorem c63_cell : forall bv off data pos rest rowval colval br bc, 80 <= bv ->
  0 <= rowval < 65536 -> 0 <= colval < 65536 -> At data pos (le_enc 2 rowval ++ le_enc 2 colval ++ rest) ->
  let rr := Z.testbit colval 15 in let cr := Z.testbit colval 14 in
  exists rowx colx s, get_cell_addr data pos bv off (Some br) (Some bc) = Ok (rowx, colx, rr, cr) /\
    cellnamerel rowx colx rr cr (Some br) (Some bc) false = Ok s /\
    a1_text (fst (meant8 off rowval colval br bc)) (snd (meant8 off rowval colval br bc)) rr cr s.
Proof.
  intros bv off data pos rest rowval colval br bc BV HR HC A. cbv zeta. unfold get_cell_addr. replace (bv >=? 80) with true by lia.
  assert (At data (pos + 2) (le_enc 2 colval ++ rest)) as A2 by (eapply At_skip; [exact A|reflexivity]).
  rewrite (At_slice data (le_enc 2 rowval ++ le_enc 2 colval) rest) by (rewrite <- ?app_assoc; first [exact A|reflexivity]).
  change (zlen (le_enc 2 rowval ++ le_enc 2 colval) =? 4) with true. cbv iota.
  rewrite (At_u16 _ _ _ _ A) by lia. cbn [bind]. rewrite (At_u16 _ _ _ _ A2) by lia. cbn [bind]. apply corner8; assumption.
Qed.
Print Assumptions c63_cell.

(** A rectangle as stored in a formula: both corners, BIFF8. *)
Theorem c63_area : forall bv off data pos rest r1 r2 c1 c2 br bc, 80 <= bv ->
  0 <= r1 < 65536 -> 0 <= r2 < 65536 -> 0 <= c1 < 65536 -> 0 <= c2 < 65536 ->
  At data pos (le_enc 2 r1 ++ le_enc 2 r2 ++ le_enc 2 c1 ++ le_enc 2 c2 ++ rest) ->
  exists x1 y1 x2 y2 s1 s2,
    get_cell_range_addr data pos bv off (Some br) (Some bc) =
      Ok ((x1, y1, Z.testbit c1 15, Z.testbit c1 14), (x2, y2, Z.testbit c2 15, Z.testbit c2 14)) /\
    rangename2drel x1 (x2 + 1) y1 (y2 + 1) (Z.testbit c1 15) (Z.testbit c2 15) (Z.testbit c1 14) (Z.testbit c2 14)
      (Some br) (Some bc) false = Ok (s1 ++ s2l ":" ++ s2) /\
    a1_text (fst (meant8 off r1 c1 br bc)) (snd (meant8 off r1 c1 br bc)) (Z.testbit c1 15) (Z.testbit c1 14) s1 /\
    a1_text (fst (meant8 off r2 c2 br bc)) (snd (meant8 off r2 c2 br bc)) (Z.testbit c2 15) (Z.testbit c2 14) s2.
Proof.
  intros bv off data pos rest r1 r2 c1 c2 br bc BV R1 R2 C1 C2 A. unfold get_cell_range_addr. replace (bv >=? 80) with true by lia.
  assert (At data (pos + 2) (le_enc 2 r2 ++ le_enc 2 c1 ++ le_enc 2 c2 ++ rest)) as A2 by (eapply At_skip; [exact A|reflexivity]).
  assert (At data (pos + 4) (le_enc 2 c1 ++ le_enc 2 c2 ++ rest)) as A4 by (eapply At_skip; [exact A2|cbn; lia]).
  assert (At data (pos + 6) (le_enc 2 c2 ++ rest)) as A6 by (eapply At_skip; [exact A4|cbn; lia]).
  rewrite (At_slice data (le_enc 2 r1 ++ le_enc 2 r2 ++ le_enc 2 c1 ++ le_enc 2 c2) rest) by (rewrite <- ?app_assoc; first [exact A|reflexivity]).
  change (zlen (le_enc 2 r1 ++ le_enc 2 r2 ++ le_enc 2 c1 ++ le_enc 2 c2) =? 8) with true. cbv iota.
  rewrite (At_u16 _ _ _ _ A), (At_u16 _ _ _ _ A2), (At_u16 _ _ _ _ A4), (At_u16 _ _ _ _ A6) by lia. cbn [bind].
  destruct (corner8 off r1 c1 br bc R1 C1) as (x1 & y1 & s1 & E1 & N1 & T1).
  destruct (corner8 off r2 c2 br bc R2 C2) as (x2 & y2 & s2 & E2 & N2 & T2).
  exists x1, y1, x2, y2, s1, s2. rewrite E1, E2. cbn [bind]. split; [reflexivity|]. split; [|auto].
  unfold rangename2drel. cbn [is_none]. rewrite !andb_false_r. replace (x2 + 1 - 1) with x2 by lia. replace (y2 + 1 - 1) with y2 by lia.
  rewrite N1. cbn [bind]. rewrite N2. reflexivity.
Qed.
Print Assumptions c63_area.

(** The same before BIFF8, inside the sheet. *)
Theorem c63_area_biff7 : forall bv off data pos rest r1 r2 c1 c2 br bc, bv < 80 ->
  0 <= r1 < 65536 -> 0 <= r2 < 65536 -> 0 <= c1 < 256 -> 0 <= c2 < 256 ->
  0 <= fst (meant7 off r1 c1 br bc) < 16384 -> 0 <= fst (meant7 off r2 c2 br bc) < 16384 ->
  At data pos (le_enc 2 r1 ++ le_enc 2 r2 ++ [c1; c2] ++ rest) ->
  exists x1 y1 x2 y2 s1 s2,
    get_cell_range_addr data pos bv off (Some br) (Some bc) =
      Ok ((x1, y1, Z.testbit r1 15, Z.testbit r1 14), (x2, y2, Z.testbit r2 15, Z.testbit r2 14)) /\
    rangename2drel x1 (x2 + 1) y1 (y2 + 1) (Z.testbit r1 15) (Z.testbit r2 15) (Z.testbit r1 14) (Z.testbit r2 14)
      (Some br) (Some bc) false = Ok (s1 ++ s2l ":" ++ s2) /\
    a1_text (fst (meant7 off r1 c1 br bc)) (snd (meant7 off r1 c1 br bc)) (Z.testbit r1 15) (Z.testbit r1 14) s1 /\
    a1_text (fst (meant7 off r2 c2 br bc)) (snd (meant7 off r2 c2 br bc)) (Z.testbit r2 15) (Z.testbit r2 14) s2.
Proof.
  intros bv off data pos rest r1 r2 c1 c2 br bc BV R1 R2 C1 C2 I1 I2 A. unfold get_cell_range_addr. replace (bv >=? 80) with false by lia.
  assert (At data (pos + 2) (le_enc 2 r2 ++ [c1; c2] ++ rest)) as A2 by (eapply At_skip; [exact A|reflexivity]).
  assert (At data (pos + 4) ([c1] ++ [c2] ++ rest)) as A4 by (eapply At_skip; [exact A2|cbn; lia]).
  assert (At data (pos + 5) ([c2] ++ rest)) as A5 by (eapply At_skip; [exact A4|cbn; lia]).
  rewrite (At_slice data (le_enc 2 r1 ++ le_enc 2 r2 ++ [c1; c2]) rest) by (rewrite <- ?app_assoc; first [exact A|reflexivity]).
  change (zlen (le_enc 2 r1 ++ le_enc 2 r2 ++ [c1; c2]) =? 6) with true. cbv iota.
  assert (forall c p t, 0 <= c < 256 -> At data p ([c] ++ t) -> unpack_le 1 data p = Ok c) as U1.
  { intros c p t HC AC. unfold unpack_le. cbv zeta. rewrite (At_slice data [c] t) by (exact AC || reflexivity). cbn. f_equal. lia. }
  rewrite (At_u16 _ _ _ _ A), (At_u16 _ _ _ _ A2), (U1 c1 _ _ C1 A4), (U1 c2 _ _ C2 A5) by lia. cbn [bind].
  destruct (corner7 off r1 c1 br bc R1 C1 I1) as (x1 & y1 & s1 & E1 & N1 & T1).
  destruct (corner7 off r2 c2 br bc R2 C2 I2) as (x2 & y2 & s2 & E2 & N2 & T2).
  exists x1, y1, x2, y2, s1, s2. rewrite E1, E2. cbn [bind]. split; [reflexivity|]. split; [|auto].
  unfold rangename2drel. cbn [is_none]. rewrite !andb_false_r. replace (x2 + 1 - 1) with x2 by lia. replace (y2 + 1 - 1) with y2 by lia.
  rewrite N1. cbn [bind]. rewrite N2. reflexivity.
Qed.
Print Assumptions c63_area_biff7.

Example c63_area_case : exists x, get_cell_range_addr [255; 255; 1; 0; 255; 192; 3; 0] 0 80 true (Some 4) (Some 2) = Ok x
  /\ rangename2drel (-1) 2 (-1) 4 true false true false (Some 4) (Some 2) false = Ok (s2l "B4:$D$2").
Proof. eexists. split; reflexivity. Qed.

(** The name of an absolute rectangle: its first and its last cell. *)
Theorem c12_rangename : forall rlo rhi clo chi, 0 <= rlo < rhi -> 0 <= clo < chi -> chi <= 256 ->
  exists s1 s2, a1_text rlo clo false false s1 /\ a1_text (rhi - 1) (chi - 1) false false s2 /\
    rangename2d rlo rhi clo chi false =
    Ok (Some (if (rhi =? rlo + 1) && (chi =? clo + 1) then s1 else s1 ++ s2l ":" ++ s2)).
Proof.
  intros rlo rhi clo chi HR HC HX. unfold rangename2d.
  destruct (cellnamerel_text rlo clo false false 0 0 ltac:(lia) ltac:(lia)) as (s1 & E1 & T1).
  destruct (cellnamerel_text (rhi - 1) (chi - 1) false false 0 0 ltac:(lia) ltac:(lia)) as (s2 & E2 & T2).
  exists s1, s2. split; [exact T1|]. split; [exact T2|].
  change (cellnameabs rlo clo false = Ok s1) in E1. change (cellnameabs (rhi - 1) (chi - 1) false = Ok s2) in E2.
  rewrite E1, E2. cbn [bind]. destruct (_ && _); reflexivity.
Qed.
Print Assumptions c12_rangename.

Example c12_rangename_case : rangename2d 0 3 1 2 false = Ok (Some (s2l "$B$1:$B$3")) /\ rangename2d 2 3 1 2 false = Ok (Some (s2l "$B$3")).
Proof. split; reflexivity. Qed.

(** ** C66 *)

(** Reading a quoted name (specification). *)
Fixpoint undouble (s : list Z) : list Z :=
  match s with
  | 39 :: 39 :: r => 39 :: undouble r
  | c :: r => c :: undouble r
  | [] => []
  end.
Definition unquote (q : list Z) : list Z :=
  match q with 39 :: r => undouble (removelast r) | _ => q end.

Lemma undouble_double : forall s, undouble (double_quotes s) = s.
Proof.
  induction s as [|c s IH]; [reflexivity|]. cbn [double_quotes]. destruct (c =? 39) eqn:E.
  - apply Z.eqb_eq in E as ->. cbn [undouble]. rewrite IH. reflexivity.
  - assert (forall r, undouble (c :: r) = c :: undouble r) as U.
    { intros r. destruct r as [|y r]; cbn [undouble].
      - destruct c as [|p|p]; try reflexivity. repeat (destruct p as [p|p|]; try reflexivity).
      - destruct c as [|p|p]; try reflexivity.
        repeat (destruct p as [p|p|]; try reflexivity). discriminate. }
    rewrite U, IH. reflexivity.
Qed.

Lemma double_id : forall s, has_char 39 s = false -> double_quotes s = s.
Proof.
  induction s as [|c s IH]; intros H; [reflexivity|]. unfold has_char in *. cbn [existsb] in H.
  apply orb_false_iff in H as [H1 H2]. cbn [double_quotes].
  replace (c =? 39) with false by lia. rewrite IH by exact H2. reflexivity.
Qed.

Theorem c66_recover : forall shnames shx q, 0 <= shx ->
  quotedsheetname shnames shx = Ok q -> py_index shnames shx = Ok (unquote q).
Proof.
  intros shnames shx q Hs H. unfold quotedsheetname in H.
  destruct (shx >=? 0) eqn:E; [|lia]. apply bind_ok in H as (n & Hn & H). rewrite Hn. f_equal.
  assert (forall t, unquote (39 :: t ++ [39]) = undouble t) as U.
  { intros t. unfold unquote. rewrite removelast_last. reflexivity. }
  destruct (has_char 39 n) eqn:E1.
  - injection H as <-. cbn [app]. rewrite U, undouble_double. reflexivity.
  - destruct (has_char 32 n) eqn:E2.
    + injection H as <-. cbn [app]. rewrite U. rewrite <- (double_id n E1) at 2. rewrite undouble_double. reflexivity.
    + injection H as <-. unfold unquote. destruct n as [|c r]; [reflexivity|].
      assert (c <> 39) as N.
      { intros ->. discriminate E1. }
      destruct c as [|p|p]; try reflexivity. repeat (destruct p as [p|p|]; try reflexivity). congruence.
Qed.
Print Assumptions c66_recover.

Theorem c66_injective : forall shnames i j n m q, 0 <= i -> 0 <= j ->
  znth shnames i = Some n -> znth shnames j = Some m ->
  quotedsheetname shnames i = Ok q -> quotedsheetname shnames j = Ok q -> n = m.
Proof.
  intros shnames i j n m q Hi Hj Hn Hm H1 H2.
  apply c66_recover in H1; [|exact Hi]. apply c66_recover in H2; [|exact Hj].
  apply (py_index_znth shnames i n Hi) in Hn. apply (py_index_znth shnames j m Hj) in Hm. congruence.
Qed.
Print Assumptions c66_injective.

(** Every sheet of the book gets a text. *)
Theorem c66_total : forall shnames shx, 0 <= shx < zlen shnames ->
  exists q, quotedsheetname shnames shx = Ok q.
Proof.
  intros shnames shx H. destruct (znth_in_range shnames shx H) as [n Hn].
  apply (py_index_znth shnames shx n ltac:(lia)) in Hn.
  unfold quotedsheetname. destruct (shx >=? 0) eqn:E; [|lia]. rewrite Hn. cbn [bind].
  destruct (has_char 39 n); [eauto|]. destruct (has_char 32 n); eauto.
Qed.
Print Assumptions c66_total.

Example c66_example :
  quotedsheetname [s2l "It's"; s2l "My Data"; s2l "Plain"] 0 = Ok (s2l "'It''s'") /\
  quotedsheetname [s2l "It's"; s2l "My Data"; s2l "Plain"] 1 = Ok (s2l "'My Data'") /\
  quotedsheetname [s2l "It's"; s2l "My Data"; s2l "Plain"] 2 = Ok (s2l "Plain").
Proof. repeat split; reflexivity. Qed.
