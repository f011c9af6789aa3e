(** Property theorems C64: range and intersection of references. *)
From Verif Require Import Base BaseFacts Text CellNames Utf16 Strings StringFacts GridModel SheetObjects
  FormulaTables FormulaModel FormulaFacts FormulaExpr PropNames PropFormulaText PropFormulaEnd.

(** ** Specification: sets of cells *)

Definition cell : Type := (Z * Z * Z)%type.         (* sheet, row, column *)
Definition region : Type := cell -> Prop.
Definition inside (b : box) : region := fun '(s, r, c) =>
  b_slo b <= s < b_shi b /\ b_rlo b <= r < b_rhi b /\ b_clo b <= c < b_chi b.
(** The cells in every box that contains the region. *)
Definition hull (p : region) : region := fun x => forall b, (forall y, p y -> inside b y) -> inside b x.

(** Reference formulas: an area on some sheets, intersection, range. *)
Inductive refs : Type :=
| Area (k : Z) (s1 s2 r1 r2 c1 c2 : Z)       (* reference number k; first and last of each *)
| Cell (k : Z) (s1 s2 r c : Z)
| Isect (a b : refs)
| Range (a b : refs)
| Grouped (a : refs).

Fixpoint denotes (x : refs) : region :=
  match x with
  | Area _ s1 s2 r1 r2 c1 c2 => fun '(s, r, c) => s1 <= s <= s2 /\ r1 <= r <= r2 /\ c1 <= c <= c2
  | Cell _ s1 s2 r0 c0 => fun '(s, r, c) => s1 <= s <= s2 /\ r = r0 /\ c = c0
  | Isect a b => fun x => denotes a x /\ denotes b x
  | Range a b => hull (fun x => denotes a x \/ denotes b x)
  | Grouped a => denotes a
  end.
(** No empty operand of a range. *)
Fixpoint proper (x : refs) : Prop :=
  match x with
  | Isect a b => proper a /\ proper b
  | Range a b => proper a /\ proper b /\ (exists y, denotes a y) /\ (exists y, denotes b y)
  | Grouped a => proper a
  | _ => True
  end.

(** Tokens of version 8. *)
Fixpoint ref_codes (x : refs) : list Z :=
  match x with
  | Area k _ _ r1 r2 c1 c2 => 0x3B :: le_enc 2 k ++ le_enc 2 r1 ++ le_enc 2 r2 ++ le_enc 2 c1 ++ le_enc 2 c2
  | Cell k _ _ r c => 0x3A :: le_enc 2 k ++ le_enc 2 r ++ le_enc 2 c
  | Isect a b => ref_codes a ++ ref_codes b ++ [0x0F]
  | Range a b => ref_codes a ++ ref_codes b ++ [0x11]
  | Grouped a => ref_codes a ++ [0x15]
  end.

(** ** The box functions *)

Lemma isect_inside : forall a b x, inside (isect_box a b) x <-> inside a x /\ inside b x.
Proof. intros a b [[s r] c]. unfold inside, isect_box. cbn. lia. Qed.

Lemma range_inside : forall a b x, (exists y, inside a y) -> (exists y, inside b y) ->
  (inside (range_box a b) x <-> hull (fun y => inside a y \/ inside b y) x).
Proof.
  intros a b [[s r] c] [[[s1 r1] c1] A] [[[s2 r2] c2] B]. split.
  - intros H w W.
    assert (inside w (b_slo a, b_rlo a, b_clo a)) as W1 by (apply W; left; cbn in *; lia).
    assert (inside w (b_shi a - 1, b_rhi a - 1, b_chi a - 1)) as W2 by (apply W; left; cbn in *; lia).
    assert (inside w (b_slo b, b_rlo b, b_clo b)) as W3 by (apply W; right; cbn in *; lia).
    assert (inside w (b_shi b - 1, b_rhi b - 1, b_chi b - 1)) as W4 by (apply W; right; cbn in *; lia).
    clear A B W. unfold inside, range_box in *. cbn in *.
    destruct W1 as (P1 & P2 & P3), W2 as (Q1 & Q2 & Q3), W3 as (R1 & R2 & R3), W4 as (S1 & S2 & S3), H as (H1 & H2 & H3).
    split; [clear - P1 Q1 R1 S1 H1; lia|]. split; [clear - P2 Q2 R2 S2 H2; lia|clear - P3 Q3 R3 S3 H3; lia].
  - intros H. apply (H (range_box a b)). intros [[s3 r3] c3]. unfold inside, range_box. cbn. clear. intros [(P1 & P2 & P3)|(P1 & P2 & P3)]; (split; [|split]); lia.
Qed.

(** What evaluation should give. *)
Fixpoint box_of (x : refs) : box :=
  match x with
  | Area _ s1 s2 r1 r2 c1 c2 => mk_box s1 (s2 + 1) r1 (r2 + 1) c1 (c2 + 1)
  | Cell _ s1 s2 r c => mk_box s1 (s2 + 1) r (r + 1) c (c + 1)
  | Isect a b => isect_box (box_of a) (box_of b)
  | Range a b => range_box (box_of a) (box_of b)
  | Grouped a => box_of a
  end.
Lemma hull_ext : forall p q, (forall y, p y <-> q y) -> forall x, hull p x <-> hull q x.
Proof. intros p q H x. unfold hull. split; intros A b B; apply A; intros y Y; apply B; apply H; exact Y. Qed.
Lemma box_of_denotes : forall x, proper x -> forall y, inside (box_of x) y <-> denotes x y.
Proof.
  induction x as [k s1 s2 r1 r2 c1 c2|k s1 s2 r0 c0|a IHa b IHb|a IHa b IHb|a IHa]; intros P y; cbn [box_of denotes].
  - destruct y as [[s r] c]. unfold inside. cbn. lia.
  - destruct y as [[s r] c]. unfold inside. cbn. lia.
  - destruct P as [Pa Pb]. rewrite isect_inside, IHa, IHb by assumption. reflexivity.
  - destruct P as (Pa & Pb & (ya & Ya) & (yb & Yb)).
    rewrite range_inside; [|exists ya; apply IHa; assumption|exists yb; apply IHb; assumption].
    apply hull_ext. intros z. rewrite IHa, IHb by assumption. reflexivity.
  - apply IHa. exact P.
Qed.

(** ** Evaluation *)

Section Eval.
Context {N : Type}.
Variable ops : numops N.
Variable e : fenv.
Hypothesis B8 : fe_bv e = 80.

(** The reference number stands for those sheets of this book; rows and columns are
    absolute. *)
Fixpoint in_book (x : refs) : Prop :=
  match x with
  | Area k s1 s2 r1 r2 c1 c2 =>
      0 <= k < 65536 /\ get_externsheet_local_range e k = Ok (s1, s2) /\ 0 <= s1 <= s2 /\ s2 < zlen (fe_sheets e) /\
      0 <= r1 < 65536 /\ 0 <= r2 < 65536 /\ 0 <= c1 < 256 /\ 0 <= c2 < 256
  | Cell k s1 s2 r c =>
      0 <= k < 65536 /\ get_externsheet_local_range e k = Ok (s1, s2) /\ 0 <= s1 <= s2 /\ s2 < zlen (fe_sheets e) /\
      0 <= r < 65536 /\ 0 <= c < 256
  | Isect a b | Range a b => in_book a /\ in_book b
  | Grouped a => in_book a
  end.

Variables (rec : list (nameobj N) -> Z -> result (list (nameobj N))) (namex : Z) (data : list Z) (fl : Z).

Definition reference (x : refs) (o : operand N) : Prop :=
  o_kind o = oREF /\ o_value o = VRefs [mk_ref (box_of x) absolute].

Lemma adjust_absolute : forall r c, 0 <= c < 256 -> adjust_cell_addr_biff8 r c true None None = Ok (r, c, false, false).
Proof.
  intros r c C. unfold adjust_cell_addr_biff8.
  assert (Z.testbit c 15 = false) as -> by (destruct (Z.eq_dec c 0); [subst; reflexivity|apply Z.bits_above_log2; [lia|apply Z.log2_lt_pow2; lia]]).
  assert (Z.testbit c 14 = false) as -> by (destruct (Z.eq_dec c 0); [subst; reflexivity|apply Z.bits_above_log2; [lia|apply Z.log2_lt_pow2; lia]]).
  change 255 with (Z.ones 8). rewrite Z.land_ones, Z.mod_small by lia. reflexivity.
Qed.
Lemma colname_ok : forall c, 0 <= c < 256 -> exists s, colname c = Ok s.
Proof.
  intros c C. unfold colname. destruct (c <=? 25) eqn:E.
  - destruct (nth_some A2Z c) as (a & H); [cbn; lia|]. rewrite (py_index_some _ _ _ (proj1 C) H). eexists; reflexivity.
  - assert (1 <= c / 26 <= 9) by (clear - C E; lia).
    destruct (nth_some A2Z (c / 26 - 1)) as (a & Ha); [change (zlen A2Z) with 26; lia|]. rewrite (py_index_some A2Z (c / 26 - 1) a ltac:(lia) Ha).
    destruct (nth_some A2Z (c mod 26)) as (b & Hb); [change (zlen A2Z) with 26; lia|]. rewrite (py_index_some A2Z (c mod 26) b ltac:(lia) Hb).
    eexists; reflexivity.
Qed.
Lemma rangename3d_ok : forall b, 0 <= b_slo b < b_shi b -> b_shi b <= zlen (fe_sheets e) ->
  0 <= b_clo b < 256 -> 0 < b_chi b <= 256 -> exists t, rangename3d e (mk_ref b absolute) = Ok t.
Proof.
  intros b S S2 C1 C2. unfold rangename3d. cbn [r_box]. unfold sheetrange.
  destruct (c66_total (fe_sheets e) (b_slo b)) as (q & ->); [lia|]. cbn [bind].
  destruct (c66_total (fe_sheets e) (b_shi b - 1)) as (q2 & ->); [lia|].
  destruct (colname_ok (b_clo b)) as (n1 & E1); [lia|]. destruct (colname_ok (b_chi b - 1)) as (n2 & E2); [lia|].
  destruct (negb _); cbn [bind]; unfold rangename2d, cellnameabs; rewrite E1, ?E2; destruct (_ && _); eexists; reflexivity.
Qed.

Definition ref_runs (x : refs) : Prop := in_book x -> forall p t s,
  At data p (ref_codes x ++ t) -> p + zlen (ref_codes x) <= fl ->
  exists o, reference x o /\ e_reach ops e rec namex data fl p s (p + zlen (ref_codes x)) (push o s).

Lemma ref_run_all : forall x, ref_runs x.
Proof.
  induction x as [k s1 s2 r1 r2 c1 c2|k s1 s2 r0 c0|a IHa b IHb|a IHa b IHb|a IHa]; intros W p t s A F.
  - destruct W as (K & G & S & S2 & R1 & R2 & C1 & C2). cbn [ref_codes] in *.
    rewrite zlen_cons, !zlen_app, !zlen_le_enc in *.
    change (1 + (Z.of_nat 2 + (Z.of_nat 2 + (Z.of_nat 2 + (Z.of_nat 2 + Z.of_nat 2))))) with 11 in *.
    destruct (rangename3d_ok (mk_box s1 (s2 + 1) r1 (r2 + 1) c1 (c2 + 1))) as (txt & T); cbn; try lia.
    exists (mk_operand oREF (VRefs [mk_ref (mk_box s1 (s2 + 1) r1 (r2 + 1) c1 (c2 + 1)) absolute]) LEAF_RANK txt).
    split; [split; reflexivity|]. pose proof (At_nonneg _ _ _ A). apply e_reach_one; [lia|].
    unfold eval_step. cbn [app] in A. rewrite (token_at _ _ _ _ _ A), B8. change (token_of 80 59) with (@Ok (Z*Z*Z) (0x1B, 1, 11)).
    cbn [bind guard Z.eqb Pos.eqb negb]. unfold eval_classed. opcode. cbn [orb].
    apply (At_skip1 _ _ _ _ (p + 1)) in A; [|reflexivity]. rewrite <- !app_assoc in A.
    pose proof (At_skip _ _ _ _ (p + 3) A ltac:(rewrite zlen_le_enc; lia)) as A1.
    pose proof (At_skip _ _ _ _ (p + 3 + 2) A1 ltac:(rewrite zlen_le_enc; lia)) as A2.
    pose proof (At_skip _ _ _ _ (p + 3 + 4) A2 ltac:(rewrite zlen_le_enc; lia)) as A3.
    pose proof (At_skip _ _ _ _ (p + 3 + 6) A3 ltac:(rewrite zlen_le_enc; lia)) as A4.
    unfold read_area3d, get_cell_range_addr. rewrite B8. cbn [Z.geb Z.compare Pos.compare Pos.compare_cont].
    replace (zlen (py_slice data (p + 3) (p + 3 + 8))) with 8.
    2:{ rewrite !app_assoc in A1. rewrite (At_slice _ _ _ _ (p + 3 + 8) A1); rewrite !zlen_app, !zlen_le_enc; lia. }
    cbn [Z.eqb Pos.eqb]. rewrite (At_u16 _ _ _ _ A1), (At_u16 _ _ _ _ A2), (At_u16 _ _ _ _ A3), (At_u16 _ _ _ _ A4), (At_u16 _ _ _ _ A) by lia.
    cbn [bind]. rewrite !adjust_absolute by assumption. cbn [bind]. rewrite G. cbn [bind].
    unfold ref_operand. cbn [existsb orb]. rewrite T. cbn [bind Z.eqb Pos.eqb]. rewrite !orb_false_r.
    destruct (s1 <? -1) eqn:E; [lia|]. rewrite orb_false_r. destruct s; reflexivity.
  - destruct W as (K & G & S & S2 & R1 & C1). cbn [ref_codes] in *.
    rewrite zlen_cons, !zlen_app, !zlen_le_enc in *.
    change (1 + (Z.of_nat 2 + (Z.of_nat 2 + Z.of_nat 2))) with 7 in *.
    destruct (rangename3d_ok (mk_box s1 (s2 + 1) r0 (r0 + 1) c0 (c0 + 1))) as (txt & T); cbn; try lia.
    exists (mk_operand oREF (VRefs [mk_ref (mk_box s1 (s2 + 1) r0 (r0 + 1) c0 (c0 + 1)) absolute]) LEAF_RANK txt).
    split; [split; reflexivity|]. pose proof (At_nonneg _ _ _ A). apply e_reach_one; [lia|].
    unfold eval_step. cbn [app] in A. rewrite (token_at _ _ _ _ _ A), B8. change (token_of 80 58) with (@Ok (Z*Z*Z) (0x1A, 1, 7)).
    cbn [bind guard Z.eqb Pos.eqb negb]. unfold eval_classed. opcode. cbn [orb].
    apply (At_skip1 _ _ _ _ (p + 1)) in A; [|reflexivity]. rewrite <- !app_assoc in A.
    pose proof (At_skip _ _ _ _ (p + 3) A ltac:(rewrite zlen_le_enc; lia)) as A1.
    pose proof (At_skip _ _ _ _ (p + 3 + 2) A1 ltac:(rewrite zlen_le_enc; lia)) as A2.
    unfold read_ref3d, get_cell_addr. rewrite B8. cbn [Z.geb Z.compare Pos.compare Pos.compare_cont].
    replace (zlen (py_slice data (p + 3) (p + 3 + 4))) with 4.
    2:{ rewrite !app_assoc in A1. rewrite (At_slice _ _ _ _ (p + 3 + 4) A1); rewrite !zlen_app, !zlen_le_enc; lia. }
    cbn [Z.eqb Pos.eqb]. rewrite (At_u16 _ _ _ _ A1), (At_u16 _ _ _ _ A2), (At_u16 _ _ _ _ A) by lia.
    cbn [bind]. rewrite !adjust_absolute by assumption. cbn [bind]. rewrite G. cbn [bind].
    unfold ref_operand. cbn [existsb orb]. rewrite T. cbn [bind Z.eqb Pos.eqb]. rewrite !orb_false_r.
    destruct (s1 <? -1) eqn:E; [lia|]. rewrite orb_false_r. destruct s; reflexivity.
  - destruct W as [Wa Wb]. cbn [ref_codes] in *. rewrite <- !app_assoc in A.
    rewrite !zlen_app, zlen_cons, zlen_nil in *. pose proof (zlen_nonneg (ref_codes b)). pose proof (zlen_nonneg (ref_codes a)).
    pose proof (At_nonneg _ _ _ A).
    destruct (IHa Wa p _ s A ltac:(lia)) as (oa & [Ka Va] & Ra).
    assert (At data (p + zlen (ref_codes a)) (ref_codes b ++ [15] ++ t)) as Ab by (apply (At_skip _ _ _ _ _ A); reflexivity).
    destruct (IHb Wb _ _ (push oa s) Ab ltac:(lia)) as (ob & [Kb Vb] & Rb).
    pose proof (At_skip _ _ _ _ _ Ab eq_refl) as Ac. cbn [app] in Ac.
    exists (mk_operand oREF (VRefs [mk_ref (isect_box (box_of a) (box_of b)) absolute]) 0 (infix 80 (s2l " ") oa ob)).
    split; [split; reflexivity|]. eapply e_reach_trans; [exact Ra|]. eapply e_reach_trans; [exact Rb|].
    replace (p + (zlen (ref_codes a) + (zlen (ref_codes b) + (1 + 0)))) with (p + zlen (ref_codes a) + zlen (ref_codes b) + 1) by lia.
    apply e_reach_one; [lia|]. unfold eval_step. rewrite (token_at _ _ _ _ _ Ac), B8. change (token_of 80 15) with (@Ok (Z*Z*Z) (0x0F, 0, 1)).
    cbn [bind guard Z.eqb Pos.eqb negb]. unfold eval_plain. opcode. cbn [push s_stack]. unfold do_isect, either, both.
    rewrite Ka, Kb. cbn [okind_eqb orb andb]. unfold combine. rewrite Va, Vb. reflexivity.
  - destruct W as [Wa Wb]. cbn [ref_codes] in *. rewrite <- !app_assoc in A.
    rewrite !zlen_app, zlen_cons, zlen_nil in *. pose proof (zlen_nonneg (ref_codes b)). pose proof (zlen_nonneg (ref_codes a)).
    pose proof (At_nonneg _ _ _ A).
    destruct (IHa Wa p _ s A ltac:(lia)) as (oa & [Ka Va] & Ra).
    assert (At data (p + zlen (ref_codes a)) (ref_codes b ++ [17] ++ t)) as Ab by (apply (At_skip _ _ _ _ _ A); reflexivity).
    destruct (IHb Wb _ _ (push oa s) Ab ltac:(lia)) as (ob & [Kb Vb] & Rb).
    pose proof (At_skip _ _ _ _ _ Ab eq_refl) as Ac. cbn [app] in Ac.
    exists (mk_operand oREF (VRefs [mk_ref (range_box (box_of a) (box_of b)) absolute]) 80 (infix 80 (s2l ":") oa ob)).
    split; [split; reflexivity|]. eapply e_reach_trans; [exact Ra|]. eapply e_reach_trans; [exact Rb|].
    replace (p + (zlen (ref_codes a) + (zlen (ref_codes b) + (1 + 0)))) with (p + zlen (ref_codes a) + zlen (ref_codes b) + 1) by lia.
    apply e_reach_one; [lia|]. unfold eval_step. rewrite (token_at _ _ _ _ _ Ac), B8. change (token_of 80 17) with (@Ok (Z*Z*Z) (0x11, 0, 1)).
    cbn [bind guard Z.eqb Pos.eqb negb]. unfold eval_plain. opcode. cbn [push s_stack]. unfold do_range, either, both.
    rewrite Ka, Kb. cbn [okind_eqb orb andb]. unfold combine. rewrite Va, Vb. reflexivity.
  - cbn [ref_codes] in *. rewrite <- app_assoc in A. rewrite zlen_app, zlen_cons, zlen_nil in *.
    pose proof (At_nonneg _ _ _ A). pose proof (zlen_nonneg (ref_codes a)).
    destruct (IHa W p _ s A ltac:(lia)) as (oa & Ha & Ra). exists oa. split; [exact Ha|].
    pose proof (At_skip _ _ _ _ _ A eq_refl) as Ac. cbn [app] in Ac.
    eapply e_reach_trans; [exact Ra|]. rewrite Z.add_0_r, Z.add_assoc. apply e_reach_one; [lia|].
    unfold eval_step. rewrite (token_at _ _ _ _ _ Ac), B8. change (token_of 80 21) with (@Ok (Z*Z*Z) (0x15, 0, 1)). reflexivity.
Qed.
End Eval.
Arguments reference {N} _ _.

(** C64: a defined name given by ranges and intersections of absolute references
    evaluates to one reference, to the box of exactly the cells meant. *)
Theorem c64_formula : forall {N} (ops : numops N) e levels names namex n x extra,
  fe_bv e = 80 -> in_book e x -> proper x -> 0 <= namex -> nth_error names (Z.to_nat namex) = Some n ->
  nm_raw n = ref_codes x ++ extra -> nm_len n = zlen (ref_codes x) ->
  exists names' n' o b,
    evaluate_name_formula ops e (S levels) names namex = Ok names' /\ nth_error names' (Z.to_nat namex) = Some n' /\
    nm_result n' = Some o /\ o_kind o = oREF /\ o_value o = VRefs [mk_ref b absolute] /\
    (forall y, inside b y <-> denotes x y) /\ nm_any_err n' = false /\ nm_any_rel n' = false.
Proof.
  intros N ops e levels names namex n x extra B8 W P I Hn R L. cbn [evaluate_name_formula].
  rewrite (py_index_some _ _ _ I Hn). cbn [bind]. rewrite B8. change (szdict 80) with (Ok sztab4). cbn [bind]. cbv zeta.
  assert (0 < zlen (ref_codes x)) as LP.
  { clear. induction x; cbn [ref_codes]; rewrite ?zlen_app, ?zlen_cons, ?zlen_app, ?zlen_cons, ?zlen_nil;
      repeat match goal with |- context[zlen ?l] => let H := fresh in pose proof (zlen_nonneg l) as H; revert H; generalize (zlen l) end;
      intros; lia. }
  rewrite L, R. destruct (_ =? 0) eqn:E; [lia|].
  destruct (ref_run_all ops e B8 (evaluate_name_formula ops e levels) namex (ref_codes x ++ extra) (zlen (ref_codes x)) x W 0 extra
              (mk_est [] false false names)) as (o & [Ko Vo] & Rn); [apply At_0|lia|].
  rewrite (eval_loop_done _ _ _ _ _ _ _ _ _ _ _ Rn) by lia. cbn [bind push s_names s_stack s_rel s_err].
  rewrite (py_index_some _ _ _ I Hn). cbn [bind]. unfold list_set. cbv zeta. destruct (namex <? 0) eqn:E1; [lia|].
  assert (namex < zlen names) by (assert (nth_error names (Z.to_nat namex) <> None) as Q by congruence; apply nth_error_Some in Q; unfold zlen; lia).
  destruct (_ && _) eqn:E2; [|lia].
  eexists _, _, o, (box_of x). split; [reflexivity|]. split.
  { rewrite nth_error_app2; rewrite firstn_length; unfold zlen in *; [|lia].
    replace (Z.to_nat namex - Nat.min (Z.to_nat namex) (List.length names))%nat with 0%nat by lia. reflexivity. }
  split; [reflexivity|]. split; [exact Ko|]. split; [exact Vo|]. split; [apply box_of_denotes; exact P|]. split; reflexivity.
Qed.
Print Assumptions c64_formula.

(** Data!A1:B2 Data!B2:C3, an intersection; and a range of two cells. *)
Example c64_example :
  let x := Isect (Area 0 0 0 0 1 0 1) (Area 0 0 0 1 2 1 2) in
  let z := Range (Cell 0 0 0 5 5) (Cell 0 0 0 2 8) in
  in_book example_env x /\ proper x /\ in_book example_env z /\ proper z /\
  match evaluate_name_formula int_ops example_env TOP_LEVELS [link (ref_codes x); link (ref_codes z)] 0 with
  | Ok (n :: _) => nm_result n = Some (mk_operand oREF (VRefs [mk_ref (mk_box 0 1 1 2 1 2) absolute]) 0 (s2l "Data!$A$1:$B$2 Data!$B$2:$C$3"))
  | _ => False
  end.
Proof.
  cbn zeta. repeat split; try reflexivity; try (cbn; lia).
  - exists (0, 5, 5). cbn. lia.
  - exists (0, 2, 8). cbn. lia.
Qed.

(** An empty operand spoils the range: (A1 A2):A3 meets no cell on the left, so the
    smallest box is A3, but the value is A2:A3. *)
Theorem c64_empty_operand_refuted :
  exists e x names' n' o b y, fe_bv e = 80 /\ in_book e x /\
    evaluate_name_formula int_ops e TOP_LEVELS [link (ref_codes x)] 0 = Ok names' /\
    nth_error names' 0 = Some n' /\ nm_result n' = Some o /\ o_value o = VRefs [mk_ref b absolute] /\
    inside b y /\ ~ denotes x y.
Proof.
  exists example_env, (Range (Isect (Cell 0 0 0 0 0) (Cell 0 0 0 1 0)) (Cell 0 0 0 2 0)).
  eexists _, _, _, _, (0, 1, 0). split; [reflexivity|]. split; [repeat split; cbn; lia|].
  split; [vm_compute; reflexivity|]. split; [reflexivity|]. split; [reflexivity|]. split; [reflexivity|].
  split; [cbn; lia|]. cbn [denotes]. intros H. specialize (H (mk_box 0 1 2 3 0 1)).
  assert (forall y, (denotes (Cell 0 0 0 0 0) y /\ denotes (Cell 0 0 0 1 0) y) \/ denotes (Cell 0 0 0 2 0) y -> inside (mk_box 0 1 2 3 0 1) y) as Q
    by (intros [[s r] c]; cbn; lia).
  specialize (H Q). cbn in H. lia.
Qed.
Print Assumptions c64_empty_operand_refuted.
