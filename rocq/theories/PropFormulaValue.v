(** Property theorems C65: the values of constant formulas. *)
From Verif Require Import Base BaseFacts Text CellNames Utf16 Strings StringFacts GridModel SheetObjects
  FormulaTables FormulaModel Decompile FormulaFacts PropBytes FormulaExpr PropFormulaText PropFormulaEnd.

(** ** Specification: what a constant formula means *)

Inductive value (N : Type) : Type := Number (n : N) | Words (s : list Z) | Truth (b : bool).
Arguments Number {N} _. Arguments Words {N} _. Arguments Truth {N} _.

(** Constant formulas: numbers, texts, booleans, operators. *)
Fixpoint constant (x : expr) : Prop :=
  match x with
  | Int _ | Num _ | Str _ | OldStr _ _ | Bool _ => True
  | Un _ a | Paren a | Spaced _ _ a => constant a
  | Bin _ a b => constant a /\ constant b
  | _ => False
  end.

(** The sort of a formula. *)
Inductive sort : Type := NumberSort | TextSort | TruthSort.
Fixpoint sort_of (x : expr) : sort :=
  match x with
  | Str _ | OldStr _ _ => TextSort
  | Bool _ => TruthSort
  | Paren a | Spaced _ _ a => sort_of a
  | Bin o _ _ =>
      match o with
      | Plus | Minus | Times | Divide | Power => NumberSort
      | Concat => TextSort
      | _ => TruthSort
      end
  | _ => NumberSort
  end.

(** Signs and percent are applied to numbers and booleans. *)
Fixpoint signs_ok (x : expr) : Prop :=
  match x with
  | Un _ a => sort_of a <> TextSort /\ signs_ok a
  | Paren a | Spaced _ _ a => signs_ok a
  | Bin _ a b => signs_ok a /\ signs_ok b
  | _ => True
  end.

(** Text order, by code points. *)
Fixpoint text_compare (a b : list Z) : comparison :=
  match a, b with
  | [], [] => Eq
  | [], _ => Lt
  | _, [] => Gt
  | x :: a', y :: b' => match x ?= y with Eq => text_compare a' b' | c => c end
  end.

Section Meaning.
Context {N : Type}.
Variable ops : numops N.

(** A number as text: as Python writes it, without a final ".0". *)
Definition short_text (n : N) : list Z :=
  match rev (n_str ops n) with 48 :: 46 :: r => rev r | _ => n_str ops n end.

Definition as_number (v : value N) : result (option N) :=
  match v with
  | Number n => Ok (Some n)
  | Words s => do n <- n_parse ops s; Ok (Some n)
  | Truth _ => Ok None
  end.
Definition as_text (v : value N) : option (list Z) :=
  match v with Number n => Some (short_text n) | Words s => Some s | Truth _ => None end.

Definition arithmetic (o : binary) (x y : N) : result N :=
  match o with
  | Plus => n_add ops x y | Minus => n_sub ops x y | Times => n_mul ops x y
  | Divide => n_div ops x y | _ => n_pow ops x y
  end.
Definition compare_numbers (o : binary) (x y : N) : result bool :=
  match o with
  | Less => n_lt ops x y | LessEq => n_le ops x y | Equal => Ok (n_eq ops x y)
  | GreaterEq => n_le ops y x | Greater => n_lt ops y x | _ => Ok (negb (n_eq ops x y))
  end.
Definition compare_texts (o : binary) (s t : list Z) : bool :=
  match o, text_compare s t with
  | Less, Lt | LessEq, Lt | LessEq, Eq | Equal, Eq | GreaterEq, Eq | GreaterEq, Gt | Greater, Gt
  | Unequal, Lt | Unequal, Gt => true
  | _, _ => false
  end.

(** The value of an operation; [None] if it is left unknown, which is so as soon as
    an operand is a boolean.  The right operand is converted first. *)
Definition operation (o : binary) (a b : value N) : result (option (value N)) :=
  match o with
  | Plus | Minus | Times | Divide | Power =>
      match a, b with
      | Truth _, _ | _, Truth _ => Ok None
      | _, _ =>
          do y <- as_number b; do x <- as_number a;
          match x, y with Some x, Some y => do r <- arithmetic o x y; Ok (Some (Number r)) | _, _ => Ok None end
      end
  | Concat =>
      match as_text a, as_text b with Some s, Some t => Ok (Some (Words (s ++ t))) | _, _ => Ok None end
  | _ =>
      match a, b with
      | Number x, Number y => do r <- compare_numbers o x y; Ok (Some (Truth r))
      | Words s, Words t => Ok (Some (Truth (compare_texts o s t)))
      | Truth _, _ | _, Truth _ => Ok None
      | _, _ => match o with Equal => Ok (Some (Truth false)) | Unequal => Ok (Some (Truth true)) | _ => Err TypeError end
      end
  end.

Definition sign (o : unary) (v : value N) : result (option (value N)) :=
  let on n := match o with
              | Negate => Ok (Some (Number (n_neg ops n)))
              | Affirm => Ok (Some (Number n))
              | Percent => do r <- n_pct ops n; Ok (Some (Number r))
              end in
  match v with
  | Number n => on n
  | Truth b => on (n_int ops (bit b))
  | Words _ => Err TypeError
  end.

Fixpoint meaning (x : expr) : result (option (value N)) :=
  match x with
  | Int n => Ok (Some (Number (n_float ops n)))
  | Num b => Ok (Some (Number (n_unpack ops b)))
  | Str u => Ok (Some (Words (us_text u)))
  | OldStr _ t => Ok (Some (Words t))
  | Bool b => Ok (Some (Truth b))
  | Paren a | Spaced _ _ a => meaning a
  | Un o a => do v <- meaning a; match v with Some v => sign o v | None => Ok None end
  | Bin o a b =>
      do v <- meaning a; do w <- meaning b;
      match v, w with Some v, Some w => operation o v w | _, _ => Ok None end
  | _ => Ok None
  end.
End Meaning.

(** ** Relation with the evaluator *)

Lemma text_lt_compare : forall a b, text_lt a b = match text_compare a b with Lt => true | _ => false end.
Proof.
  induction a as [|x a IH]; intros [|y b]; try reflexivity. cbn [text_lt text_compare]. rewrite IH.
  destruct (Z.compare_spec x y); destruct (x <? y) eqn:E1; destruct (x =? y) eqn:E2; try lia; reflexivity.
Qed.
Lemma text_compare_swap : forall a b, text_compare b a = CompOpp (text_compare a b).
Proof.
  induction a as [|x a IH]; intros [|y b]; try reflexivity. cbn [text_compare]. rewrite (Z.compare_antisym x y), IH.
  destruct (x ?= y); reflexivity.
Qed.
Lemma list_eqb_compare : forall a b, list_eqb a b = match text_compare a b with Eq => true | _ => false end.
Proof.
  induction a as [|x a IH]; intros [|y b]; try reflexivity. cbn [list_eqb text_compare]. rewrite IH.
  destruct (Z.compare_spec x y); destruct (x =? y) eqn:E2; try lia; reflexivity.
Qed.

Lemma strip_short : forall s, strip_point_zero s = match rev s with 48 :: 46 :: r => rev r | _ => s end.
Proof.
  intros s. unfold strip_point_zero. cbv zeta.
  assert (s = rev (rev s)) as E by (symmetry; apply rev_involutive). set (r := rev s) in *. clearbody r. subst s.
  rewrite zlen_rev.
  destruct r as [|x [|y r]]; [reflexivity|destruct (Z.eq_dec x 48); cbn; rewrite ?andb_false_r; destruct x as [|p|p]; try reflexivity; repeat (destruct p as [p|p|]; try reflexivity)|].
  cbn [rev]. rewrite <- app_assoc. cbn [app]. rewrite !zlen_cons. pose proof (zlen_nonneg r).
  replace (1 + (1 + zlen r) - 2) with (zlen (rev r)) by (rewrite zlen_rev; lia).
  rewrite (At_from (rev r ++ [y; x]) [y; x] (zlen (rev r))) by (apply (At_skip _ (rev r) _ 0); [apply At_0|lia]).
  replace (firstn (Z.to_nat (zlen (rev r))) (rev r ++ [y; x])) with (rev r)
    by (unfold zlen; rewrite Nat2Z.id, firstn_app, Nat.sub_diag, firstn_all; cbn [firstn]; rewrite app_nil_r; reflexivity).
  destruct (2 <=? 1 + (1 + zlen r)) eqn:E3; [|lia]. rewrite andb_true_r. cbn [list_eqb].
  change (s2l ".0") with [46; 48]. cbn [list_eqb]. rewrite andb_true_r.
  destruct (y =? 46) eqn:E4; destruct (x =? 48) eqn:E5; cbn [andb].
  - apply Z.eqb_eq in E4, E5. subst. reflexivity.
  - destruct x as [|p|p]; try reflexivity; repeat (destruct p as [p|p|]; try reflexivity). discriminate.
  - apply Z.eqb_eq in E5. subst. destruct y as [|p|p]; try reflexivity; repeat (destruct p as [p|p|]; try reflexivity). discriminate.
  - destruct x as [|p|p]; try reflexivity; repeat (destruct p as [p|p|]; try reflexivity). discriminate.
Qed.

Ltac number_ops := repeat (cbn [bind as_number arithmetic compare_numbers py_arith Z.eqb Pos.eqb];
  match goal with
  | |- context[n_parse ?q ?s] => destruct (n_parse q s)
  | |- context[n_add ?q ?s ?t] => destruct (n_add q s t)
  | |- context[n_sub ?q ?s ?t] => destruct (n_sub q s t)
  | |- context[n_mul ?q ?s ?t] => destruct (n_mul q s t)
  | |- context[n_div ?q ?s ?t] => destruct (n_div q s t)
  | |- context[n_pow ?q ?s ?t] => destruct (n_pow q s t)
  | |- context[n_lt ?q ?s ?t] => destruct (n_lt q s t)
  | |- context[n_le ?q ?s ?t] => destruct (n_le q s t)
  | |- context[n_pct ?q ?s] => destruct (n_pct q s)
  end).

Section Value.
Context {N : Type}.
Variable ops : numops N.
Variable e : fenv.
Hypothesis BV : biff (fe_bv e).

Definition kind_of (s : sort) : okind := match s with NumberSort => oNUM | TextSort => oSTRG | TruthSort => oBOOL end.
Definition repr (v : option (value N)) : oval N :=
  match v with
  | None => VNone
  | Some (Number n) => VNumber n
  | Some (Words s) => VString s
  | Some (Truth b) => VNumber (n_int ops (bit b))
  end.
Definition has_sort (v : option (value N)) (s : sort) : Prop :=
  match v, s with
  | None, _ | Some (Number _), NumberSort | Some (Words _), TextSort | Some (Truth _), TruthSort => True
  | _, _ => False
  end.
Definition fits (x : expr) : Prop := storable (fe_bv e) (fun b t => fe_decode e b = Ok t) (fun _ => False) x.
Definition text_in (x : expr) : list Z := text_of ops e [] x.
Definition operand_of (x : expr) (v : option (value N)) : operand N :=
  mk_operand (kind_of (sort_of x)) (repr v) (rank_of (level x)) (text_in x).


Lemma meaning_sort : forall x v, constant x -> signs_ok x -> meaning ops x = Ok v -> has_sort v (sort_of x).
Proof.
  induction x using expr_ind'; intros r C G M; cbn [meaning sort_of constant signs_ok] in *; try contradiction;
    try (injection M as <-; exact I); auto.
  - destruct G as [G1 G2]. apply bind_ok in M as (v & Ma & M). specialize (IHx v C G2 Ma).
    destruct v as [[n|s|b]|]; [| | |injection M as <-; exact I]; unfold sign in M; destruct o; cbn in M;
      try discriminate; try (injection M as <-; exact I); destruct (n_pct ops _); try discriminate; injection M as <-; exact I.
  - destruct C as [C1 C2], G as [G1 G2]. apply bind_ok in M as (v & Ma & M). apply bind_ok in M as (w & Mb & M).
    destruct v as [v|]; [|injection M as <-; exact I]. destruct w as [w|]; [|injection M as <-; exact I].
    revert M. destruct o, v, w; cbn; number_ops; cbn; intros M; try discriminate; injection M as <-; exact I.
Qed.

Lemma binop_value : forall o a b va vb stk, has_sort va (sort_of a) -> has_sort vb (sort_of b) ->
  do_binop ops (binary_code o) (operand_of b vb :: operand_of a va :: stk) =
  do v <- match va, vb with Some v, Some w => operation ops o v w | _, _ => Ok None end;
  Ok (operand_of (Bin o a b) v :: stk).
Proof.
  intros o a b va vb stk Ha Hb. unfold do_binop.
  assert (forall rank sym, rank = 10 * binary_level o -> sym = binary_sign o ->
    infix rank sym (operand_of a va) (operand_of b vb) = text_in (Bin o a b)) as T.
  { intros rank sym -> ->. unfold infix, operand_of, text_in, text_of. cbn [o_rank o_text written].
    rewrite !rank_lt by (try apply level_range; destruct o; cbn; lia). rewrite !paren_spec. reflexivity. }
  assert (rank_of (level (Bin o a b)) = 10 * binary_level o) as RK by (destruct o; reflexivity).
  assert (binop_rule (binary_code o) = Some (kind_of (sort_of (Bin o a b)), 10 * binary_level o, binary_sign o)) as ->
    by (destruct o; reflexivity).
  cbv zeta. rewrite (T _ _ eq_refl eq_refl). unfold operand_of at 1 2 3 4 5 6. cbn [o_kind o_value].
  assert (forall v, mk_operand (kind_of (sort_of (Bin o a b))) (repr v) (10 * binary_level o) (text_in (Bin o a b))
    = operand_of (Bin o a b) v) as OP by (intros v; unfold operand_of; rewrite RK; reflexivity).
  change VNone with (repr None). rewrite OP.
  destruct vb as [vb|]; [|destruct va as [va|]; destruct (argconv _ _ _); [destruct (argconv _ _ _)| |destruct (argconv _ _ _)|]; reflexivity].
  destruct va as [va|]; [|destruct (argconv _ _ _); [destruct (argconv _ _ _)|]; [destruct vb|..]; reflexivity].
  destruct (sort_of a), (sort_of b), va as [n|s|t], vb as [m|s'|t']; cbn [has_sort] in Ha, Hb; try contradiction;
    cbn [kind_of repr];
    destruct o; cbn [binary_code argconv Z.leb Z.eqb Z.compare Pos.compare Pos.compare_cont Pos.eqb py_float
                     operation as_number as_text bind py_arith py_compare arithmetic compare_numbers];
    rewrite ?OP; try reflexivity;
    try (number_ops; cbn [bind]; rewrite <- ?OP; reflexivity);
    try (unfold num2strg, short_text; rewrite ?strip_short; cbn [bind]; rewrite <- ?OP; reflexivity);
    try (rewrite ?list_eqb_compare, ?text_lt_compare, ?(text_compare_swap s s'); unfold compare_texts;
    destruct (text_compare s s'); cbn [CompOpp negb bind]; rewrite <- ?OP; reflexivity).
Qed.

Lemma unary_value : forall o a va stk, has_sort va (sort_of a) -> sort_of a <> TextSort ->
  do_unaryop ops (unary_code o) (operand_of a va :: stk) =
  do v <- match va with Some v => sign ops o v | None => Ok None end;
  Ok (operand_of (Un o a) v :: stk).
Proof.
  intros o a va stk Ha S. unfold do_unaryop. rewrite unop_rule_spec. cbv zeta.
  assert (forall v, mk_operand oNUM (repr v) (10 * unary_level o)
     (match o with Negate => [45] | Affirm => [43] | Percent => [] end ++
      paren (o_rank (operand_of a va) <? 10 * unary_level o) (o_text (operand_of a va)) ++
      match o with Percent => [37] | _ => [] end) = operand_of (Un o a) v) as OP.
  { intros v. unfold operand_of, text_in, text_of. cbn [o_rank o_text written].
    rewrite !rank_lt by (try apply level_range; destruct o; cbn; lia). rewrite !paren_spec.
    destruct o; cbn [app]; rewrite ?app_nil_r; reflexivity. }
  destruct va as [[n|s|t]|]; cbn [operand_of o_value repr bind] in *.
  - unfold sign. destruct o; cbn [unary_code Z.eqb Pos.eqb]; number_ops; cbn [bind]; rewrite <- ?OP; reflexivity.
  - destruct (sort_of a); cbn in Ha; contradiction || congruence.
  - unfold sign. destruct o; cbn [unary_code Z.eqb Pos.eqb]; number_ops; cbn [bind]; rewrite <- ?OP; reflexivity.
  - rewrite <- OP. reflexivity.
Qed.

(** ** Runs *)

Variables (rec : list (nameobj N) -> Z -> result (list (nameobj N))) (namex : Z) (data : list Z) (fl : Z).
Notation reach := (e_reach ops e rec namex data fl).

Definition evals (x : expr) : Prop := constant x -> signs_ok x -> fits x -> forall p t s,
  At data p (codes (fe_bv e) x ++ t) -> p + zlen (codes (fe_bv e) x) <= fl ->
  match meaning ops x with
  | Ok v => reach p s (p + zlen (codes (fe_bv e) x)) (push (operand_of x v) s)
  | Err er => exists p1 s1, reach p s p1 s1 /\ p1 < fl /\ eval_step ops e rec namex data p1 s1 = Err er
  end.

Ltac all_versions := let H := fresh in pose proof BV as H; unfold biff in H;
  repeat (destruct H as [H|H]; [rewrite H; reflexivity|]); rewrite H; reflexivity.

Lemma e_step_plain : forall b t p s o sz r, At data p (b :: t) -> token_of (fe_bv e) b = Ok (o, 0, sz) -> sz <> -2 ->
  eval_plain ops e data p o sz s = r ->
  eval_step ops e rec namex data p s =
  do (s1, sz1) <- r; do _ <- guard (negb (sz1 <=? 0)) FormulaError; Ok (s1, p + sz1).
Proof.
  intros b t p s o sz r A T S R. unfold eval_step. rewrite (token_at _ _ _ _ _ A), T. cbn [bind].
  unfold guard at 1. destruct (sz =? -2) eqn:E; [lia|]. cbn [negb bind Z.eqb]. rewrite R. reflexivity.
Qed.

Lemma evals_leaf : forall x b rest o sz v, codes (fe_bv e) x = b :: rest -> meaning ops x = Ok v ->
  token_of (fe_bv e) b = Ok (o, 0, sz) -> sz <> -2 ->
  (fits x -> forall p t s, At data p (b :: rest ++ t) ->
     eval_plain ops e data p o sz s = Ok (push (operand_of x v) s, zlen (b :: rest))) -> evals x.
Proof.
  intros x b rest o sz v C M T S H _ _ W p t s A F. rewrite M, C in *.
  rewrite zlen_cons in *. pose proof (zlen_nonneg rest). pose proof (At_nonneg _ _ _ A).
  apply e_reach_one; [lia|]. rewrite (e_step_plain _ _ _ _ _ _ _ A T S (H W p t s A)). cbn [bind].
  rewrite ?zlen_cons. cbn [bind]. destruct (1 + zlen rest <=? 0) eqn:E; [lia|]. reflexivity.
Qed.

Theorem evals_all : forall x, evals x.
Proof.
  intros x. induction x using expr_ind'; try (intros C; exfalso; exact C).
  - eapply (evals_leaf (Int n) 0x1E (le_enc 2 n) 0x1E 3); [reflexivity|reflexivity|all_versions|lia|].
    intros W p t s A. unfold fits in W. cbn [storable] in W. unfold eval_plain. opcode. unfold read_const. opcode.
    rewrite (At_u16 data t n (p + 1)) by (try lia; apply (At_skip1 _ _ _ _ _ A); reflexivity). reflexivity.
  - eapply (evals_leaf (Num b) 0x1F b 0x1F 9); [reflexivity|reflexivity|all_versions|lia|].
    intros W p t s A. unfold fits in W. cbn [storable] in W. unfold eval_plain. opcode. unfold read_const. opcode. cbv zeta.
    assert (At data (p + 1) (b ++ t)) as A1 by (apply (At_skip1 _ _ _ _ _ A); reflexivity).
    rewrite (At_slice _ _ _ _ (p + 9) A1) by lia. unfold guard. rewrite W. cbn [Z.eqb Pos.eqb bind].
    rewrite zlen_cons, W. reflexivity.
  - eapply (evals_leaf (Str u) 0x17 (us_field 1 u) 0x17 (-1)); [reflexivity|reflexivity|all_versions|lia|].
    intros W p t s A. destruct W as (W8 & W1 & W2). unfold eval_plain. opcode. unfold read_str. rewrite W8. cbn [Z.leb Z.compare Pos.compare Pos.compare_cont].
    assert (At data (p + 1) (us_field 1 u ++ t)) as A1 by (apply (At_skip1 _ _ _ _ _ A); reflexivity).
    destruct A1 as (pre & -> & L). change 1 with (Z.of_nat 1) at 2. rewrite L.
    rewrite (c13_unicode_update_pos u 1 pre t W1) by (try lia; auto). cbn [bind].
    unfold operand_of, text_in, text_of. cbn [sort_of kind_of repr level written]. rewrite quoted_spec. do 2 f_equal. rewrite zlen_app, zlen_cons. lia.
  - rename b into bs. rename t into st.
    eapply (evals_leaf (OldStr bs st) 0x17 (zlen bs :: bs) 0x17 (-1)); [reflexivity|reflexivity|all_versions|lia|].
    intros W p t s A. destruct W as (W8 & W1 & W2). unfold eval_plain. opcode. unfold read_str.
    destruct (fe_bv e <=? 70) eqn:E; [|pose proof BV as B; unfold biff in B; lia].
    pose proof (zlen_nonneg bs).
    assert (At data (p + 1) (zlen bs :: bs ++ t)) as A1 by (apply (At_skip1 _ _ _ _ _ A); reflexivity).
    unfold unpack_string_update_pos.
    rewrite (At_le data (bs ++ t) 1 (zlen bs) (p + 1) 1); [|cbn [le_enc]; rewrite Z.mod_small by lia; exact A1|reflexivity|lia].
    cbn [bind]. rewrite (At_slice data bs t (p + 1 + 1) (p + 1 + 1 + zlen bs));
      [|apply (At_skip1 _ _ _ _ _ A1); reflexivity|reflexivity].
    rewrite W2. cbn [bind]. unfold operand_of, text_in, text_of. cbn [sort_of kind_of repr level written].
    rewrite quoted_spec. do 2 f_equal. rewrite !zlen_cons. lia.
  - eapply (evals_leaf (Bool b) 0x1D [bit b] 0x1D 2); [reflexivity|reflexivity|all_versions|lia|].
    intros W p t s A. unfold eval_plain. opcode. unfold read_const. opcode.
    rewrite (At_le data t 1 (bit b) (p + 1) 1); [|destruct b; apply (At_skip1 _ _ _ _ _ A); reflexivity|reflexivity|destruct b; cbn; lia].
    cbn [bind]. destruct b; reflexivity.
  - (* Un *)
    intros C [G1 G2] W p t s A F. cbn [codes meaning constant] in *. rewrite <- app_assoc in A. rewrite zlen_app, zlen_cons, zlen_nil in *.
    specialize (IHx C G2 W p _ s A ltac:(lia)). pose proof (meaning_sort x) as MS.
    destruct (meaning ops x) as [v|er]; [|exact IHx]. cbn [bind].
    specialize (MS v C G2 eq_refl). rewrite Z.add_0_r, Z.add_assoc.
    pose proof (At_nonneg _ _ _ A). pose proof (zlen_nonneg (codes (fe_bv e) x)).
    pose proof (At_skip _ _ _ _ _ A eq_refl) as A1. cbn [app] in A1.
    assert (eval_plain ops e data (p + zlen (codes (fe_bv e) x)) (unary_code o) 1 (push (operand_of x v) s) =
      do v1 <- match v with Some v0 => sign ops o v0 | None => Ok None end; Ok (push (operand_of (Un o x) v1) s, 1)) as E.
    { pose proof (unary_value o x v (s_stack s) MS G1) as U. unfold eval_plain.
      destruct o; cbn [unary_code] in *; opcode; cbn [push s_stack]; rewrite U;
        destruct (match v with Some v0 => _ | None => _ end); reflexivity. }
    assert (token_of (fe_bv e) (unary_code o) = Ok (unary_code o, 0, 1)) as T by (destruct o; all_versions).
    pose proof (e_step_plain _ _ _ _ _ _ _ A1 T ltac:(lia) E) as ST.
    destruct (match v with Some v0 => sign ops o v0 | None => Ok None end) as [v1|er]; cbn [bind guard Z.leb Z.compare negb] in ST.
    + eapply e_reach_trans; [exact IHx|]. apply e_reach_one; [lia|exact ST].
    + eexists _, _. split; [exact IHx|]. split; [lia|exact ST].
  - (* Bin *)
    intros [C1 C2] [G1 G2] [W1 W2] p t s A F. cbn [codes meaning] in *. rewrite <- !app_assoc in A.
    rewrite !zlen_app, zlen_cons, zlen_nil in *.
    pose proof (At_nonneg _ _ _ A). pose proof (zlen_nonneg (codes (fe_bv e) x1)). pose proof (zlen_nonneg (codes (fe_bv e) x2)).
    specialize (IHx1 C1 G1 W1 p _ s A ltac:(lia)). pose proof (meaning_sort x1) as MS1.
    destruct (meaning ops x1) as [v|er]; [|exact IHx1]. cbn [bind]. specialize (MS1 v C1 G1 eq_refl).
    pose proof (At_skip _ _ _ _ _ A eq_refl) as A1. cbn [app] in A1.
    specialize (IHx2 C2 G2 W2 _ _ (push (operand_of x1 v) s) A1 ltac:(lia)). pose proof (meaning_sort x2) as MS2.
    destruct (meaning ops x2) as [w|er].
    2:{ destruct IHx2 as (p1 & s1 & R & L & S). eexists p1, s1. split; [|split; [exact L|exact S]]. eapply e_reach_trans; eassumption. }
    cbn [bind]. specialize (MS2 w C2 G2 eq_refl).
    pose proof (At_skip _ _ _ _ _ A1 eq_refl) as A2.
    replace (p + (zlen (codes (fe_bv e) x1) + (zlen (codes (fe_bv e) x2) + (1 + 0))))
      with (p + zlen (codes (fe_bv e) x1) + zlen (codes (fe_bv e) x2) + 1) by lia.
    assert (eval_plain ops e data (p + zlen (codes (fe_bv e) x1) + zlen (codes (fe_bv e) x2)) (binary_code o) 1
        (push (operand_of x2 w) (push (operand_of x1 v) s)) =
      do v1 <- match v, w with Some v0, Some w0 => operation ops o v0 w0 | _, _ => Ok None end;
      Ok (push (operand_of (Bin o x1 x2) v1) s, 1)) as E.
    { pose proof (binop_value o x1 x2 v w (s_stack s) MS1 MS2) as U. unfold eval_plain.
      destruct o; cbn [binary_code] in *; opcode; cbn [push s_stack]; rewrite U;
        destruct (match v with Some v0 => _ | None => _ end); reflexivity. }
    assert (token_of (fe_bv e) (binary_code o) = Ok (binary_code o, 0, 1)) as T by (destruct o; all_versions).
    pose proof (e_step_plain _ _ _ _ _ _ _ A2 T ltac:(lia) E) as ST.
    destruct (match v with Some v0 => _ | None => _ end) as [v1|er]; cbn [bind guard Z.leb Z.compare negb] in ST.
    + eapply e_reach_trans; [exact IHx1|]. eapply e_reach_trans; [exact IHx2|]. apply e_reach_one; [lia|exact ST].
    + eexists _, _. split; [eapply e_reach_trans; [exact IHx1|exact IHx2]|]. split; [lia|exact ST].
  - (* Paren *)
    intros C G W p t s A F. cbn [codes meaning] in *. rewrite <- app_assoc in A. rewrite zlen_app, zlen_cons, zlen_nil in *.
    specialize (IHx C G W p _ s A ltac:(lia)). destruct (meaning ops x) as [v|er]; [|exact IHx].
    pose proof (At_nonneg _ _ _ A). pose proof (zlen_nonneg (codes (fe_bv e) x)).
    pose proof (At_skip _ _ _ _ _ A eq_refl) as A1. cbn [app] in A1.
    rewrite Z.add_0_r, Z.add_assoc. eapply e_reach_trans; [exact IHx|]. apply e_reach_one; [lia|].
    erewrite (e_step_plain _ _ _ _ _ _ _ A1); [|all_versions|lia|reflexivity]. reflexivity.
  - (* Spaced *)
    intros C G W p t st A F. destruct W as (S1 & S2 & S3 & S4 & W). cbn [codes app meaning] in *.
    rewrite !zlen_cons, zlen_app, zlen_le_enc in *. rewrite <- app_assoc in A.
    pose proof (At_nonneg _ _ _ A). pose proof (codes_nonempty e x).
    assert (At data (p + 1) ((s :: le_enc 2 w) ++ codes (fe_bv e) x ++ t)) as A1 by (apply (At_skip1 _ _ _ _ _ A); reflexivity).
    assert (At data (p + 2) (le_enc 2 w ++ codes (fe_bv e) x ++ t)) as A2 by (apply (At_skip1 _ _ _ _ _ A1); lia).
    assert (At data (p + 4) (codes (fe_bv e) x ++ t)) as A4 by (apply (At_skip _ _ _ _ _ A2); rewrite zlen_le_enc; lia).
    assert (reach p st (p + 4) st) as R0.
    { apply e_reach_one; [lia|].
      erewrite (e_step_plain _ _ _ _ _ _ _ A); [|all_versions|lia|reflexivity].
      unfold eval_plain. opcode.
      rewrite (At_slice _ _ _ _ (p + 4) A1) by (rewrite zlen_cons, zlen_le_enc; lia).
      rewrite zlen_cons, zlen_le_enc. cbn [guard Z.add Z.of_nat Z.eqb Pos.of_succ_nat Pos.succ Pos.add Pos.eqb bind].
      rewrite (At_le data (le_enc 2 w ++ codes (fe_bv e) x ++ t) 1 s (p + 1) 1);
        [|cbn [le_enc]; rewrite (Z.mod_small s) by lia; exact A1|reflexivity|lia]. cbn [bind].
      rewrite (At_u16 _ _ _ _ A2) by lia. cbn [bind].
      destruct (s =? 4) eqn:E4; [lia|]. destruct (s =? 16) eqn:E16; [lia|]. reflexivity. }
    specialize (IHx C G W (p + 4) t st A4 ltac:(lia)).
    replace (p + (1 + (1 + (Z.of_nat 2 + zlen (codes (fe_bv e) x))))) with (p + 4 + zlen (codes (fe_bv e) x)) by lia.
    destruct (meaning ops x) as [v|er].
    + eapply e_reach_trans; [exact R0|exact IHx].
    + destruct IHx as (p1 & s1 & R & L & S). eexists p1, s1. split; [|split; [exact L|exact S]]. eapply e_reach_trans; eassumption.
Qed.
End Value.

(** C65: evaluating a defined name whose formula is a constant expression gives its
    value, kind and text, or the exception its evaluation raises. *)
Theorem c65_value : forall {N} (ops : numops N) e levels names namex n x extra,
  biff (fe_bv e) -> constant x -> signs_ok x -> fits e x ->
  0 <= namex -> nth_error names (Z.to_nat namex) = Some n ->
  nm_raw n = codes (fe_bv e) x ++ extra -> nm_len n = zlen (codes (fe_bv e) x) ->
  match meaning ops x with
  | Err er => evaluate_name_formula ops e (S levels) names namex = Err er
  | Ok v => exists names' n' o,
      evaluate_name_formula ops e (S levels) names namex = Ok names' /\ nth_error names' (Z.to_nat namex) = Some n' /\
      nm_result n' = Some o /\ o_kind o = kind_of (sort_of x) /\ o_value o = repr ops v /\ o_text o = text_in ops e x
  end.
Proof.
  intros N ops e levels names namex n x extra BV C G W I Hn R L. cbn [evaluate_name_formula].
  rewrite (py_index_some _ _ _ I Hn). cbn [bind]. destruct (biff_szdict _ BV) as (tab & ->). cbn [bind]. cbv zeta.
  pose proof (codes_nonempty e x) as LP. rewrite L, R. destruct (_ =? 0) eqn:E; [lia|].
  pose proof (evals_all ops e BV (evaluate_name_formula ops e levels) namex (codes (fe_bv e) x ++ extra) (zlen (codes (fe_bv e) x)) x C G W 0 extra
              (mk_est [] false false names)) as Rn.
  specialize (Rn (At_0 _) ltac:(lia)).
  destruct (meaning ops x) as [v|er].
  - rewrite (eval_loop_done _ _ _ _ _ _ _ _ _ _ _ Rn) by lia. cbn [bind push s_names s_stack s_rel s_err].
    rewrite (py_index_some _ _ _ I Hn). cbn [bind]. unfold list_set. cbv zeta. destruct (namex <? 0) eqn:E1; [lia|].
    assert (namex < zlen names) by (assert (nth_error names (Z.to_nat namex) <> None) as Q by congruence; apply nth_error_Some in Q; unfold zlen; lia).
    destruct (_ && _) eqn:E2; [|lia].
    eexists _, _, _. split; [reflexivity|]. split.
    { rewrite nth_error_app2; rewrite firstn_length; unfold zlen in *; [|lia].
      replace (Z.to_nat namex - Nat.min (Z.to_nat namex) (List.length names))%nat with 0%nat by lia. reflexivity. }
    split; [reflexivity|]. repeat split.
  - destruct Rn as (p1 & s1 & Rn & P1 & S1).
    rewrite (eval_loop_fails _ _ _ _ _ _ _ _ _ _ _ er Rn) by (try lia; exact S1). reflexivity.
Qed.
Print Assumptions c65_value.

(** ("a" & (1 + 2 * 3)) = "a7", a truth. *)
Definition c65_formula : expr :=
  Bin Equal (Bin Concat (Str {| us_text := [97]; us_wide := false; us_opts := 0; us_runs := None; us_phon := None |}) (Paren (Bin Plus (Int 1) (Bin Times (Int 2) (Int 3)))))
            (Str {| us_text := [97; 55]; us_wide := false; us_opts := 0; us_runs := None; us_phon := None |}).

Example c65_example : constant c65_formula /\ signs_ok c65_formula /\ fits example_env c65_formula /\
  meaning int_ops c65_formula = Ok (Some (Truth true)) /\
  match evaluate_name_formula int_ops example_env TOP_LEVELS [link (codes 80 c65_formula)] 0 with
  | Ok (n :: _) => nm_result n = Some (mk_operand oBOOL (VNumber 1) 10 (s2l """a""&1.0+2.0*3.0=""a7"""))
  | _ => False
  end.
Proof. repeat split; cbn; try lia; try (repeat constructor; lia); reflexivity. Qed.

(** Without booleans as operands of binary operators the value is known. *)
Fixpoint no_truth_operand (x : expr) : Prop :=
  match x with
  | Un _ a | Paren a | Spaced _ _ a => no_truth_operand a
  | Bin _ a b => sort_of a <> TruthSort /\ sort_of b <> TruthSort /\ no_truth_operand a /\ no_truth_operand b
  | _ => True
  end.
Theorem c65_known : forall {N} (ops : numops N) x, constant x -> signs_ok x -> no_truth_operand x ->
  meaning ops x <> Ok None.
Proof.
  intros N ops x. induction x using expr_ind'; cbn [constant signs_ok no_truth_operand meaning]; intros C G T; try contradiction; try discriminate; auto.
  - intros M. apply bind_ok in M as (v & Ma & M). destruct v as [v|]; [|apply (IHx C (proj2 G) T Ma)].
    revert M. unfold sign. destruct v, o; cbn; try discriminate; destruct (n_pct ops _); discriminate.
  - destruct C as [C1 C2], G as [G1 G2], T as (T1 & T2 & T3 & T4). intros M.
    apply bind_ok in M as (v & Ma & M). apply bind_ok in M as (w & Mb & M).
    destruct v as [v|]; [|apply (IHx1 C1 G1 T3 Ma)]. destruct w as [w|]; [|apply (IHx2 C2 G2 T4 Mb)].
    pose proof (meaning_sort ops x1 _ C1 G1 Ma) as S1. pose proof (meaning_sort ops x2 _ C2 G2 Mb) as S2.
    destruct v, w, (sort_of x1), (sort_of x2); cbn in S1, S2; try contradiction; try congruence;
      revert M; destruct o; cbn [operation as_text]; number_ops; cbn [bind]; intros M; discriminate.
Qed.
Print Assumptions c65_known.
Example c65_known_example : no_truth_operand c65_formula.
Proof. repeat split; discriminate. Qed.

(** With them it is not: TRUE+1, TRUE&"a" and (1=1)=TRUE have no value. *)
Theorem c65_boolean_refuted : forall {N} (ops : numops N) o b x, constant x -> signs_ok x ->
  (exists v, meaning ops x = Ok (Some v)) -> meaning ops (Bin o (Bool b) x) = Ok None /\ meaning ops (Bin o x (Bool b)) = Ok None.
Proof.
  intros N ops o b x C G (v & M). cbn [meaning]. rewrite M. cbn [bind].
  split; destruct o, v; reflexivity.
Qed.
Print Assumptions c65_boolean_refuted.
Example c65_boolean_example :
  match evaluate_name_formula int_ops example_env TOP_LEVELS [link (codes 80 (Bin Plus (Bool true) (Int 1)))] 0 with
  | Ok (n :: _) => nm_result n = Some (mk_operand oNUM VNone 30 (s2l "TRUE+1.0"))
  | _ => False
  end.
Proof. vm_compute. reflexivity. Qed.

(** A plus sign leaves a text a text but calls it a number, so +"12"+1 fails although
    "12"+1 is 13; whatever the number operations are. *)
Theorem c65_sign_refuted : forall {N} (ops : numops N) e levels t, fe_bv e = 80 -> us_ok t -> us_units t < 256 ->
  evaluate_name_formula ops e (S levels) [link (codes 80 (Bin Plus (Un Affirm (Str t)) (Int 1)))] 0 = Err TypeError.
Proof.
  intros N ops e levels t B8 U1 U2. cbn [evaluate_name_formula].
  assert (BV : biff (fe_bv e)) by (unfold biff; lia).
  change (py_index [link (codes 80 (Bin Plus (Un Affirm (Str t)) (Int 1)))] 0) with (Ok (link (N := N) (codes 80 (Bin Plus (Un Affirm (Str t)) (Int 1))))).
  cbn [bind]. rewrite B8. change (szdict 80) with (Ok sztab4). cbn [bind]. cbv zeta. cbn [nm_len nm_raw link].
  set (data := codes 80 (Bin Plus (Un Affirm (Str t)) (Int 1))).
  set (names := [link data]).
  assert (data = codes 80 (Str t) ++ [0x12; 0x1E; 1; 0; 0x03]) as D by (unfold data; cbn [codes app]; rewrite <- app_assoc; reflexivity).
  set (q := zlen (codes 80 (Str t))). assert (0 < q) by (unfold q; cbn [codes]; rewrite zlen_cons; pose proof (zlen_nonneg (us_field 1 t)); lia).
  assert (zlen data = q + 5) as LD by (rewrite D, zlen_app; reflexivity).
  rewrite LD. destruct (q + 5 =? 0) eqn:E; [lia|]. clear E.
  set (rec := evaluate_name_formula ops e levels). set (s0 := mk_est [] false false names).
  pose proof (evals_all ops e BV rec 0 data (q + 5) (Str t) I I) as R1. rewrite B8 in R1.
  assert (At data 0 (codes 80 (Str t) ++ [0x12; 0x1E; 1; 0; 0x03])) as A0 by (rewrite <- D; apply At_0).
  specialize (R1 ltac:(unfold fits; rewrite B8; cbn; auto) 0 _ s0 A0 ltac:(unfold q; lia)). cbn [meaning] in R1. fold q in R1. rewrite Z.add_0_l in R1.
  pose proof (At_skip _ _ _ _ q A0 ltac:(unfold q; lia)) as A1.
  pose proof (At_skip1 _ _ _ _ (q + 1) A1 ltac:(lia)) as A2.
  pose proof (At_skip _ [0x1E; 1; 0] [0x03] _ (q + 4) A2 ltac:(cbn; lia)) as A4.
  set (o1 := operand_of ops e (Str t) (Some (Words (us_text t)))) in *.
  set (o2 := mk_operand (N := N) oNUM (VString (us_text t)) 70 (s2l "+" ++ o_text o1 ++ [])).
  set (o3 := mk_operand oNUM (VNumber (n_float ops 1)) LEAF_RANK (n_str ops (n_float ops 1))).
  assert (e_reach ops e rec 0 data (q + 5) q (push o1 s0) (q + 1) (push o2 s0)) as R2.
  { apply e_reach_one; [lia|]. unfold eval_step. rewrite (token_at _ _ _ _ _ A1), B8. reflexivity. }
  assert (e_reach ops e rec 0 data (q + 5) (q + 1) (push o2 s0) (q + 4) (push o3 (push o2 s0))) as R3.
  { apply e_reach_one; [lia|]. unfold eval_step. rewrite (token_at _ _ _ _ _ A2), B8. change (token_of 80 30) with (@Ok (Z*Z*Z) (0x1E, 0, 3)).
    cbn [bind guard Z.eqb Pos.eqb negb]. unfold eval_plain. opcode. unfold read_const. opcode.
    rewrite (At_u16 data [3] 1 (q + 1 + 1)); [|apply (At_skip1 _ _ _ _ _ A2); reflexivity|lia].
    cbn [bind guard Z.leb Z.compare negb]. replace (q + 1 + 3) with (q + 4) by lia. reflexivity. }
  rewrite (eval_loop_fails _ _ _ _ _ _ _ _ _ _ _ TypeError (e_reach_trans _ _ _ _ _ _ _ _ _ _ _ _ R1 (e_reach_trans _ _ _ _ _ _ _ _ _ _ _ _ R2 R3)));
    try lia; [reflexivity|].
  unfold eval_step. rewrite (token_at _ _ _ _ _ A4), B8. reflexivity.
Qed.
Print Assumptions c65_sign_refuted.
