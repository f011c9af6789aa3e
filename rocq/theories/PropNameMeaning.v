(** Property theorems C94: defined names mean what their formulas mean. *)
From Verif Require Import Base BaseFacts Text CellNames Utf16 Strings StringFacts GridModel GridFacts SheetObjects
  FormulaTables FormulaModel FormulaFacts Decompile PropBytes FormulaExpr FormulaRefs PropFormulaText PropFormulaRefs PropFormulaValue
  BookModel NameFacts NameValues NameMeaning.

Section Operators.
Context {N : Type}.
Variable ops : numops N.

(** How an answer looks in an operand. *)
Definition kind_as (a : answer N) : okind :=
  match a with
  | Known (Number _) | Sorted NumberSort => oNUM
  | Known (Words _) | Sorted TextSort => oSTRG
  | Known (Truth _) | Sorted TruthSort => oBOOL
  | Failed _ => oERR
  | Omitted => oMSNG
  | Located rel _ => if rel then oREL else oREF
  | Unsure => oUNK
  end.
Definition value_as (a : answer N) : oval N :=
  match a with
  | Known (Number n) => VNumber n
  | Known (Words s) => VString s
  | Known (Truth b) => VNumber (n_int ops (bit b))
  | Failed (Some c) => VNumber (n_int ops c)
  | Located _ (Some l) => VRefs l
  | _ => VNone
  end.
Definition operand_as (a : answer N) (rank : Z) (text : list Z) : operand N := mk_operand (kind_as a) (value_as a) rank text.

Lemma binary_as : forall o a b r ra ta rb tb stk, binary_answer ops o a b = Some r ->
  do_binop ops (binary_code o) (operand_as b rb tb :: operand_as a ra ta :: stk) =
  Ok (operand_as r (10 * binary_level o) (paren (ra <? 10 * binary_level o) ta ++ binary_sign o ++ paren (rb <? 10 * binary_level o) tb) :: stk).
Proof.
  intros o a b r ra ta rb tb stk R. unfold do_binop, operand_as.
  assert (BR : binop_rule (binary_code o) = Some (kind_as (Sorted (sort_made o)), 10 * binary_level o, binary_sign o)) by (destruct o; reflexivity).
  rewrite BR. cbv zeta. unfold infix. cbn [o_kind o_value o_rank o_text].
  set (text := paren (ra <? 10 * binary_level o) ta ++ binary_sign o ++ paren (rb <? 10 * binary_level o) tb).
  assert (K : forall x : answer N, (exists v, x = Known v) \/
    ((forall v, x <> Known v) /\ (value_as x = VNone \/ argconv ops (binary_code o) (kind_as x) (value_as x) = None))).
  { intros x. destruct x as [v|s|c| |rel l|]; [left; eauto|right..]; (split; [discriminate|]).
    - left. destruct s; reflexivity.
    - right. destruct o; reflexivity.
    - left. reflexivity.
    - right. destruct rel, o; reflexivity.
    - left. reflexivity. }
  assert (UNK : forall (x y : option (result (oval N))) (v w : oval N), (v = VNone \/ x = None \/ w = VNone \/ y = None) ->
    forall (f : oval N -> oval N -> result (oval N)) g,
    match x, y with
    | Some rb, Some ra =>
        match v, w with
        | VNone, _ | _, VNone => Ok (mk_operand (kind_as (Sorted (sort_made o))) VNone (10 * binary_level o) text :: stk)
        | _, _ => do bval <- rb; do aval <- ra; do v <- f aval bval; Ok (g v)
        end
    | _, _ => Ok (mk_operand (kind_as (Sorted (sort_made o))) VNone (10 * binary_level o) text :: stk)
    end = Ok (operand_as (Sorted (sort_made o)) (10 * binary_level o) text :: stk)).
  { intros x y v w U f g. assert (operand_as (Sorted (sort_made o)) (10 * binary_level o) text
      = mk_operand (kind_as (Sorted (sort_made o))) VNone (10 * binary_level o) text) as -> by (destruct o; reflexivity).
    destruct U as [->|[->|[->| ->]]]; [destruct x, y|destruct y|destruct x, y; try destruct v|destruct x]; reflexivity. }
  destruct (K a) as [(v & ->)|(NA & UA)]; [destruct (K b) as [(w & ->)|(NB & UB)]|].
  - cbn [binary_answer] in R.
    destruct v as [n|s|t], w as [m|s'|t']; cbn [kind_as value_as]; destruct o;
      cbn [binary_code argconv Z.leb Z.eqb Z.compare Pos.compare Pos.compare_cont Pos.eqb py_float
           operation as_number as_text bind py_arith py_compare arithmetic compare_numbers sort_made kind_as value_as] in *;
      try (injection R as <-; reflexivity); try discriminate;
      try (revert R; number_ops; cbn [bind]; intros R; try discriminate; injection R as <-; reflexivity);
      try (revert R; number_ops; cbn [bind]; intros R; try discriminate; injection R as <-; unfold num2strg, short_text; rewrite ?strip_short; reflexivity);
      try (injection R as <-; cbn [kind_as value_as bind]; rewrite ?list_eqb_compare, ?text_lt_compare, ?(text_compare_swap s s'); unfold compare_texts;
           destruct (text_compare s s'); reflexivity).
  - assert (r = Sorted (sort_made o)) as -> by (destruct b; try (exfalso; eapply NB; reflexivity); destruct v; injection R as <-; reflexivity).
    apply UNK. tauto.
  - assert (r = Sorted (sort_made o)) as -> by (destruct a; try (exfalso; eapply NA; reflexivity); injection R as <-; reflexivity).
    apply UNK. tauto.
Qed.

Lemma unary_as : forall o a r ra ta stk, unary_answer ops o a = Some r ->
  do_unaryop ops (unary_code o) (operand_as a ra ta :: stk) =
  Ok (operand_as r (10 * unary_level o)
    (match o with Negate => [45] | Affirm => [43] | Percent => [] end ++ paren (ra <? 10 * unary_level o) ta
     ++ match o with Percent => [37] | _ => [] end) :: stk).
Proof.
  intros o a r ra ta stk R. unfold do_unaryop, operand_as. rewrite unop_rule_spec. cbv zeta. cbn [o_value o_rank o_text].
  destruct a as [[n|s|t]|s|[c|]| |rel [l|]|]; cbn [unary_answer value_as] in *; try discriminate;
    try (injection R as <-; reflexivity); revert R; unfold sign; destruct o; cbn [unary_code Z.eqb Pos.eqb];
    number_ops; cbn [bind]; intros R; try discriminate; injection R as <-; reflexivity.
Qed.

Definition set_rank (o : setop) : Z := match o with Common => 0 | _ => 80 end.
Definition do_set (o : setop) : list (operand N) -> result (list (operand N)) :=
  match o with Common => do_isect | Joined => do_list | Span => do_range end.
Lemma set_as : forall o a b r ra ta rb tb stk, set_answer o a b = Some r ->
  do_set o (operand_as b rb tb :: operand_as a ra ta :: stk) =
  Ok (operand_as r (set_rank o) (paren (ra <? 80) ta ++ set_sign o ++ paren (rb <? 80) tb) :: stk).
Proof.
  intros o a b r ra ta rb tb stk R. unfold operand_as.
  assert (C : forall f rel l l' q, (f = overlap \/ f = around) -> merged (N := N) f rel l l' = Some q ->
    kind_as q = (if rel then oREL else oREF) /\
    forall k ra' ta' k' rb' tb', combine (match f with _ => f end) rel
      (mk_operand k (value_as (Located rel l)) ra' ta') (mk_operand k' (value_as (Located rel l')) rb' tb') = Ok (value_as q)).
  { intros f rel l l' q _ M. unfold combine. cbn [o_value].
    destruct l as [[|x [|y l]]|], l' as [[|x' [|y' l']]|]; cbn [merged value_as] in *; try discriminate;
      try (injection M as <-; destruct rel; split; reflexivity).
    rewrite !zlen_cons, zlen_nil. cbn [guard Z.add Z.eqb Pos.eqb bind].
    destruct rel; cbn [negb] in *; [|injection M as <-; split; reflexivity].
    destruct (bools_eqb (r_rel x) (r_rel x')); injection M as <-; split; reflexivity. }
  assert (FK : forall a : answer N, okind_eqb (kind_as a) oERR = match a with Failed _ => true | _ => false end) by (intros [[]|[]|c| |[] l|]; reflexivity).
  assert (UN : forall a : answer N, okind_eqb (kind_as a) oUNK = match a with Unsure => true | _ => false end) by (intros [[]|[]|c| |[] l|]; reflexivity).
  assert (RF : forall a : answer N, okind_eqb (kind_as a) oREF = match a with Located false _ => true | _ => false end) by (intros [[]|[]|c| |[] l|]; reflexivity).
  assert (RL : forall a : answer N, okind_eqb (kind_as a) oREL = match a with Located true _ => true | _ => false end) by (intros [[]|[]|c| |[] l|]; reflexivity).
  destruct o; cbn [do_set]; unfold do_isect, do_list, do_range, infix, either, both, is_ref; cbn [o_kind o_rank o_text]; cbv zeta; rewrite ?FK, ?UN, ?RF, ?RL.
  - destruct a as [v|s|c| |rel l|], b as [v'|s'|c'| |rel' l'|]; try (injection R as <-; reflexivity);
      cbn [orb andb]; try (destruct rel; injection R as <-; reflexivity); try (destruct rel'; injection R as <-; reflexivity).
    cbn [set_answer] in R. destruct rel, rel'; cbn [Bool.eqb andb] in *; try (injection R as <-; reflexivity);
      destruct (C overlap _ _ _ _ (or_introl eq_refl) R) as (KQ & CQ); change isect_box with overlap; rewrite CQ; cbn [bind]; rewrite KQ; reflexivity.
  - destruct a as [v|s|c| |rel l|], b as [v'|s'|c'| |rel' l'|]; try (injection R as <-; reflexivity);
      cbn [orb andb]; try (destruct rel; injection R as <-; reflexivity); try (destruct rel'; injection R as <-; reflexivity).
    cbn [set_answer] in R.
    destruct l as [[|x l]|], l' as [[|x' [|y' l']]|]; cbn [value_as o_value] in *; try discriminate;
      try (injection R as <-; destruct rel, rel'; reflexivity).
    injection R as <-. rewrite !zlen_cons, zlen_nil. pose proof (zlen_nonneg l).
    unfold guard. destruct (1 <=? 1 + zlen l) eqn:Q; [|lia]. destruct rel, rel'; reflexivity.
  - destruct a as [v|s|c| |rel l|], b as [v'|s'|c'| |rel' l'|]; try (injection R as <-; reflexivity);
      cbn [orb andb]; try (destruct rel; injection R as <-; reflexivity); try (destruct rel'; injection R as <-; reflexivity).
    cbn [set_answer] in R. destruct rel, rel'; cbn [Bool.eqb andb] in *; try (injection R as <-; reflexivity);
      destruct (C around _ _ _ _ (or_intror eq_refl) R) as (KQ & CQ); change range_box with around; rewrite CQ; cbn [bind]; rewrite KQ; reflexivity.
Qed.

(** ** IF and CHOOSE *)

(** What Python's numbers do with 0 and 1: int() of what equals them is them. *)
Definition number_laws : Prop :=
  (n_eq ops (n_int ops 0) (n_int ops 0) = true /\ n_eq ops (n_int ops 1) (n_int ops 1) = true /\ n_eq ops (n_int ops 1) (n_int ops 0) = false) /\
  (forall v, n_eq ops v (n_int ops 0) = true -> n_trunc ops v = Ok 0) /\
  (forall v, n_eq ops v (n_int ops 1) = true -> n_trunc ops v = Ok 1).
Hypothesis LAWS : number_laws.

Definition shows (o : operand N) (a : answer N) : Prop := o_kind o = kind_as a /\ o_value o = value_as a.

Lemma from_top_item : forall {A} (items k : list A) i x, znth items i = Some x -> from_top (rev items ++ k) (zlen items - i) = Ok x.
Proof.
  intros A items k i x H. pose proof (znth_Some_range _ _ _ H) as R. unfold from_top. destruct (zlen items - i <=? 0) eqn:E; [lia|].
  apply index_at. rewrite znth_app_l by (rewrite zlen_rev; lia). unfold znth, zlen in *.
  destruct (i <? 0) eqn:E1; [lia|]. destruct (Z.of_nat (List.length items) - i - 1 <? 0) eqn:E2; [lia|].
  rewrite <- (rev_involutive items) in H. rewrite <- H.
  assert (forall (l : list A) n, (n < List.length l)%nat -> nth_error (rev l) n = nth_error l (List.length l - 1 - n)) as RV.
  { clear. intros l n L. destruct l as [|a0 l]; [inversion L|].
    rewrite (nth_error_nth' (rev (a0 :: l)) a0) by (rewrite rev_length; exact L).
    rewrite (nth_error_nth' (a0 :: l) a0) by lia. rewrite rev_nth by exact L. do 2 f_equal. lia. }
  assert (LT : (Z.to_nat i < List.length (rev items))%nat) by (rewrite rev_length; lia).
  rewrite (RV _ _ LT). rewrite rev_length. f_equal. lia.
Qed.

Lemma choose_given : forall o a, shows o a -> choose ops o = (kind_as (given ops a), value_as (given ops a)).
Proof.
  intros o a (K & V). unfold choose. rewrite K, V. destruct a as [[n|s|t]|[]|c| |[] l|]; reflexivity.
Qed.
Lemma shows_at : forall items l, Forall2 shows items l -> forall i a, znth l i = Some a -> exists o, znth items i = Some o /\ shows o a.
Proof.
  intros items l F. induction F as [|o a items l SH F IH]; intros i b H.
  - apply znth_Some_range in H. cbn in H. lia.
  - pose proof (znth_Some_range _ _ _ H) as R. destruct (Z.eq_dec i 0) as [->|NZ].
    + injection H as <-. exists o. split; [reflexivity|exact SH].
    + assert (forall {A} (x : A) l, znth (x :: l) i = znth l (i - 1)) as ST.
      { intros A x l0. unfold znth. destruct (i <? 0) eqn:E; [lia|]. destruct (i - 1 <? 0) eqn:E1; [lia|].
        replace (Z.to_nat i) with (S (Z.to_nat (i - 1))) by lia. reflexivity. }
      rewrite ST in H |- *. apply IH. exact H.
Qed.

Lemma shows_length : forall items l, Forall2 shows items l -> zlen items = zlen l.
Proof. intros items l F. induction F as [|o a items l SH F IH]; [reflexivity|]. rewrite !zlen_cons, IH. reflexivity. Qed.

Lemma if_as : forall items l k r, Forall2 shows items l -> 2 <= zlen l <= 3 -> if_answer ops l = Some r ->
  do_if ops (zlen items) (rev items ++ k) = Ok (kind_as r, value_as r).
Proof.
  intros items l k r F L R. destruct LAWS as ((L1 & L2 & L3) & L4 & L5).
  assert (zlen items = zlen l) as ZL by (exact (shows_length _ _ F)).
  destruct l as [|a [|b l]]; try (cbn in L; lia).
  destruct (shows_at _ _ F 0 a eq_refl) as (oa & Ia & Ka & Va). destruct (shows_at _ _ F 1 b eq_refl) as (ob & Ib & Sb).
  unfold do_if. replace (from_top (rev items ++ k) (zlen items)) with (Ok (A := operand N) oa)
    by (symmetry; rewrite <- (Z.sub_0_r (zlen items)) at 1; apply from_top_item; exact Ia). cbn [bind].
  assert (forall v, n_eq ops v (n_int ops 1) = true -> n_eq ops v (n_int ops 0) = false /\
    (do i <- n_trunc ops v; do chosen <- from_top (rev items ++ k) (zlen items - 2 + i); Ok (choose ops chosen))
    = Ok (kind_as (given ops b), value_as (given ops b))) as T.
  { intros v E. split.
    - destruct (n_eq ops v (n_int ops 0)) eqn:E0; [|reflexivity]. apply L4 in E0. apply L5 in E. congruence.
    - rewrite (L5 _ E). cbn [bind]. replace (zlen items - 2 + 1) with (zlen items - 1) by lia.
      rewrite (from_top_item _ _ _ _ Ib). cbn [bind]. rewrite (choose_given _ _ Sb). reflexivity. }
  assert (forall v, n_eq ops v (n_int ops 0) = true ->
    match l with [] => Some (Known (Truth false)) | c :: _ => Some (given ops c) end = Some r ->
    (if (zlen items =? 2) && n_eq ops v (n_int ops 0) then Ok (oBOOL, VNumber (n_int ops 0))
     else do i <- n_trunc ops v; do chosen <- from_top (rev items ++ k) (zlen items - 2 + i); Ok (choose ops chosen))
    = Ok (kind_as r, value_as r)) as U.
  { intros v E Q. rewrite E, andb_true_r. rewrite !zlen_cons in *. pose proof (zlen_nonneg l). destruct l as [|c l].
    - injection Q as <-. rewrite ZL. reflexivity.
    - rewrite zlen_cons in *. pose proof (zlen_nonneg l). destruct (zlen items =? 2) eqn:E2; [lia|].
      destruct (shows_at _ _ F 2 c eq_refl) as (oc & Ic & Sc). rewrite (L4 _ E). cbn [bind]. rewrite Z.add_0_r.
      rewrite (from_top_item _ _ _ _ Ic). cbn [bind]. rewrite (choose_given _ _ Sc). injection Q as <-. reflexivity. }
  rewrite Ka, Va. unfold zero_or_one.
  destruct a as [[n|s|t]|[]|[c|]| |[] q|]; cbn [kind_as value_as]; try (injection R as <-; reflexivity).
  - cbn [if_answer] in R. destruct (n_eq ops n (n_int ops 0)) eqn:E0.
    + cbn [orb negb]. apply (U n) in E0 as U1; [rewrite E0 in U1; exact U1|]. rewrite ?E0 in R. destruct l; exact R.
    + cbn [orb]. destruct (n_eq ops n (n_int ops 1)) eqn:E1; cbn [negb].
      * rewrite andb_false_r. rewrite (proj2 (T n E1)). rewrite ?E0, ?E1 in R. assert (R' : Some (given ops b) = Some r) by (destruct l; exact R). clear R; rename R' into R. injection R as <-. reflexivity.
      * rewrite ?E0, ?E1 in R. injection R as <-. reflexivity.
  - cbn [if_answer] in R. destruct t; cbn [bit].
    + destruct (T _ L2) as (T1 & T2). rewrite L2, T1. cbn [orb negb]. rewrite andb_false_r. rewrite T2. assert (R' : Some (given ops b) = Some r) by (destruct l; exact R). clear R; rename R' into R. injection R as <-. reflexivity.
    + pose proof (U _ L1) as U1. rewrite L1 in U1 |- *. cbn [orb negb]. apply U1. destruct l; exact R.
Qed.

Lemma choose_as : forall items l k r, Forall2 shows items l -> 1 <= zlen l -> choose_answer ops l = Some r ->
  do_choose ops (zlen items) (rev items ++ k) = Ok (kind_as r, value_as r).
Proof.
  intros items l k r F L R.
  assert (zlen items = zlen l) as ZL by (exact (shows_length _ _ F)).
  destruct l as [|a l]; [cbn in L; lia|].
  destruct (shows_at _ _ F 0 a eq_refl) as (oa & Ia & Ka & Va).
  unfold do_choose. replace (from_top (rev items ++ k) (zlen items)) with (Ok (A := operand N) oa)
    by (symmetry; rewrite <- (Z.sub_0_r (zlen items)) at 1; apply from_top_item; exact Ia). cbn [bind].
  rewrite Ka, Va. destruct a as [[n|s|t]|[]|[c|]| |[] q|]; cbn [kind_as value_as]; try (injection R as <-; reflexivity); try discriminate.
  cbn [choose_answer] in R. rewrite ZL. destruct (n_le ops (n_int ops 1) n) as [[]|]; cbn [bind negb]; try discriminate; [|injection R as <-; reflexivity].
  destruct (n_lt ops n (n_int ops (zlen (Known (Number n) :: l)))) as [[]|]; cbn [bind negb]; try discriminate; [|injection R as <-; reflexivity].
  destruct (n_trunc ops n) as [i|]; cbn [bind]; try discriminate.
  destruct (1 <=? i) eqn:E; [|discriminate]. destruct (znth (Known (Number n) :: l) i) as [c|] eqn:Q; [|discriminate].
  destruct (shows_at _ _ F i c Q) as (oc & Ic & Sc). rewrite <- ZL. rewrite (from_top_item _ _ _ _ Ic). cbn [bind].
  rewrite (choose_given _ _ Sc). injection R as <-. reflexivity.
Qed.
End Operators.

(** ** Evaluating the tokens of a formula *)

(** The bytes of a tNameX that leads to a name of another file, and its text. *)
Definition foreign (e : fenv) (own : Z) (b t : list Z) : Prop :=
  if fe_bv e <? 80 then
    exists x u n v, b = le_enc 2 x ++ u ++ le_enc 2 n ++ v /\ zlen u = 8 /\ 0 <= x < 65536 /\ 1 <= n < 65536 /\ n - 1 <> own /\
      ((0 < x < 32768 /\ t = foreign_text n x) \/
       (32768 <= x /\ (exists y, znth (fe_b57 e) (65535 - x) = Some y /\ y <> 4) /\ t = foreign_text n (x - 65536)))
  else
    exists refx n v w, b = le_enc 2 refx ++ le_enc 2 n ++ v /\ 0 <= refx < 65536 /\ 1 <= n < 65536 /\ n - 1 <> own /\
      PropFormulaRefs.leads e (le_enc 2 refx) w /\ (w = Gone \/ w = Outside) /\ t = foreign_text n refx.

(** What evaluation knows of: names of other files, and no calls of add-in functions. *)
Fixpoint evaluable (e : fenv) (own : Z) (f : formula) : Prop :=
  match f with
  | Outer _ b t => foreign e own b t
  | FUn _ a | FParen a | Before _ _ a | Jumps _ _ a | Mem _ _ a | After _ _ a | Sum _ a => evaluable e own a
  | FBin _ a b | FSet _ a b => evaluable e own a /\ evaluable e own b
  | FCall _ _ args => (fix all l := match l with [] => True | x :: r => evaluable e own x /\ all r end) args
  | FCallVar _ _ _ f args => f <> 255 /\ (fix all l := match l with [] => True | x :: r => evaluable e own x /\ all r end) args
  | _ => True
  end.

Section Simulation.
Context {N : Type}.
Variable ops : numops N.
Hypothesis LAWS : number_laws ops.
Variable e : fenv.
Hypothesis BV : biff (fe_bv e).
Variable rec : list (nameobj N) -> Z -> result (list (nameobj N)).
Variables (own : Z) (data : list Z) (fl : Z).
Variable nms : list (list Z * option Z).
Variable use : Z -> option (outcome N).
Variable Good : list (nameobj N) -> Prop.
Variable E : Prop.
Notation reach := (e_reach ops e rec own data fl).
Notation step := (eval_step ops e rec own data).

Definition used_well : Prop := forall n u s, known e nms n -> use n = Some u -> Good (s_names s) ->
  (exists names', Good names' /\ use_name e rec (n - 1) s =
     Ok (mk_est (operand_as ops (out_answer u) 90 (names_text e nms n) :: s_stack s) (s_rel s || out_rel u) (s_err s || out_err u) names')) \/
  (E /\ use_name e rec (n - 1) s = Err XLRDError).
Hypothesis USE : used_well.

Definition stops (p : Z) (s : est N) : Prop := exists p1 s1, reach p s p1 s1 /\ p1 < fl /\ step p1 s1 = Err XLRDError.
(** From p to q, leaving the stack k. *)
Definition gets (p : Z) (s : est N) (q : Z) (k : list (operand N)) (rel err : bool) : Prop :=
  (exists names', Good names' /\ reach p s q (mk_est k (s_rel s || rel) (s_err s || err) names')) \/ (E /\ stops p s).

Lemma gets_trans : forall p s q k rel err q2 k2 rel2 err2, gets p s q k rel err ->
  (forall names', Good names' -> gets q (mk_est k (s_rel s || rel) (s_err s || err) names') q2 k2 rel2 err2) ->
  gets p s q2 k2 (rel || rel2) (err || err2).
Proof.
  intros p s q k rel err q2 k2 rel2 err2 [(names' & G & R)|X] H; [|right; exact X].
  destruct (H _ G) as [(n2 & G2 & R2)|(E2 & p1 & s1 & R2 & L & ST)]; [left|right].
  - exists n2. split; [exact G2|]. cbn [s_rel s_err] in R2. rewrite !orb_assoc. exact (e_reach_trans _ _ _ _ _ _ _ _ _ _ _ _ R R2).
  - split; [exact E2|]. exists p1, s1. split; [exact (e_reach_trans _ _ _ _ _ _ _ _ _ _ _ _ R R2)|auto].
Qed.
Lemma gets_one : forall p s q k rel err, 0 <= p < fl -> Good (s_names s) ->
  step p s = Ok (mk_est k (s_rel s || rel) (s_err s || err) (s_names s), q) -> gets p s q k rel err.
Proof. intros p s q k rel err P G ST. left. exists (s_names s). split; [exact G|]. apply e_reach_one; assumption. Qed.

(** Then a step that just works on the stack. *)
Lemma gets_then : forall p s q k rel err q2 k2, gets p s q k rel err -> 0 <= q < fl ->
  (forall names', step q (mk_est k (s_rel s || rel) (s_err s || err) names') = Ok (mk_est k2 (s_rel s || rel) (s_err s || err) names', q2)) ->
  gets p s q2 k2 rel err.
Proof.
  intros p s q k rel err q2 k2 H Q ST. rewrite <- (orb_false_r rel), <- (orb_false_r err). eapply gets_trans; [exact H|].
  intros names' G. apply gets_one; [exact Q|exact G|]. rewrite ST. cbn [s_rel s_err s_names]. rewrite !orb_false_r. reflexivity.
Qed.

Ltac all_versions := let H := fresh in pose proof BV as H; unfold biff in H;
  repeat (destruct H as [H|H]; [rewrite H; reflexivity|]); rewrite H; reflexivity.

Lemma plain_step : forall b t p s o sz s1 sz1, At data p (b :: t) -> token_of (fe_bv e) b = Ok (o, 0, sz) -> sz <> -2 ->
  eval_plain ops e data p o sz s = Ok (s1, sz1) -> 0 < sz1 -> step p s = Ok (s1, p + sz1).
Proof.
  intros b t p s o sz s1 sz1 A T S R P. rewrite (e_step_plain ops e rec own data _ _ _ _ _ _ _ A T S R). cbn [bind].
  unfold guard. destruct (sz1 <=? 0) eqn:Q; [lia|]. reflexivity.
Qed.
Lemma classed_step : forall b t p s o ty sz s1, At data p (b :: t) -> token_of (fe_bv e) b = Ok (o, ty, sz) -> ty <> 0 -> 0 < sz ->
  eval_classed ops e rec own data p o ty s = s1 -> step p s = do s <- s1; Ok (s, p + sz).
Proof.
  intros b t p s o ty sz s1 A T NZ P R. unfold eval_step. rewrite (token_at _ _ _ _ _ A), T. cbn [bind].
  unfold guard at 1. destruct (sz =? -2) eqn:Q; [lia|]. cbn [negb bind]. destruct (ty =? 0) eqn:Q1; [lia|]. rewrite R.
  destruct s1 as [s1|er]; cbn [bind]; [|reflexivity]. unfold guard. destruct (sz <=? 0) eqn:Q2; [lia|]. reflexivity.
Qed.

Definition shown_as (f : formula) (a : answer N) : operand N := operand_as ops a (10 * grade (bare f)) (formula_text ops e nms None true (bare f)).
Notation toks := (formula_tokens e 32 None).
Definition goes (f : formula) : Prop := formula_holds e nms 32 None f -> evaluable e own f -> forall a, answer_of ops use f = Some a ->
  forall p t s, At data p (toks f ++ t) -> p + zlen (toks f) <= fl -> Good (s_names s) ->
  gets p s (p + zlen (toks f)) (shown_as f a :: s_stack s) (somewhere (relative_here use) f) (somewhere (wrong_here use) f).

(** A reference is one token. *)
Lemma goes_token : forall f b rest o ty, toks f = b :: rest ->
  (formula_holds e nms 32 None f -> token_of (fe_bv e) b = Ok (o, ty, zlen (b :: rest)) /\ ty <> 0) ->
  (formula_holds e nms 32 None f -> evaluable e own f -> forall a, answer_of ops use f = Some a -> forall p t s, At data p (b :: rest ++ t) ->
     eval_classed ops e rec own data p o ty s
     = Ok (mk_est (shown_as f a :: s_stack s) (s_rel s || somewhere (relative_here use) f) (s_err s || somewhere (wrong_here use) f) (s_names s))) -> goes f.
Proof.
  intros f b rest o ty C T H W EV a An p t s A F G. rewrite C in *. destruct (T W) as (T1 & T2).
  specialize (H W EV a An p t s A). pose proof (At_nonneg _ _ _ A). rewrite zlen_cons in *. pose proof (zlen_nonneg rest).
  apply gets_one; [lia|exact G|]. erewrite (classed_step _ _ _ _ _ _ _ _ A T1 T2); [|lia|exact H]. reflexivity.
Qed.

Lemma amounts : forall c, amount c = PropFormulaRefs.value c.
Proof. intros []; reflexivity. Qed.
Lemma reference_type : forall k, (Z.shiftr (class_code k) 5 =? 1) = reference_class k.
Proof. intros []; reflexivity. Qed.
Lemma dist32 : distances 32 = true.
Proof. reflexivity. Qed.

Lemma goes_cell : forall k alt r c, goes (Cell k alt r c).
Proof.
  intros k alt r c.
  apply (goes_token (Cell k alt r c) (class_code k + (if alt then 12 else 4)) (cell_bytes (fe_bv e) true None r c)
    (if alt then 12 else 4) (Z.shiftr (class_code k) 5)).
  - reflexivity.
  - intros _. rewrite (cell_size e BV), zlen_cons, cell_bytes_len. split; [reflexivity|apply class_nonzero].
  - intros [Hr Hc] _ a An p t s A. cbn [answer_of] in An. destruct alt; [discriminate|]. injection An as <-.
    assert (At data (p + 1) (cell_bytes (fe_bv e) true None r c ++ t)) as A1 by (apply (At_skip1 _ _ _ _ _ A); reflexivity).
    unfold eval_classed. opcode. rewrite (read_cell (fe_bv e) true None _ _ _ _ _ A1 Hr Hc : get_cell_addr data (p + 1) (fe_bv e) true None None = _). cbn [bind].
    rewrite reference_type. cbn [somewhere relative_here wrong_here orb]. rewrite !orb_false_r, !orb_true_r.
    unfold shown_as, cells. cbn [bare grade]. change amount with PropFormulaRefs.value. destruct (reference_class k); reflexivity.
Qed.
Lemma goes_area : forall k alt r1 r2 c1 c2, goes (Area k alt r1 r2 c1 c2).
Proof.
  intros k alt r1 r2 c1 c2.
  apply (goes_token (Area k alt r1 r2 c1 c2) (class_code k + (if alt then 13 else 5)) (area_bytes (fe_bv e) true None r1 r2 c1 c2)
    (if alt then 13 else 5) (Z.shiftr (class_code k) 5)).
  - reflexivity.
  - intros _. rewrite (area_size e BV), zlen_cons, area_bytes_len. split; [reflexivity|apply class_nonzero].
  - intros (H1 & H2 & H3 & H4) _ a An p t s A. cbn [answer_of] in An. destruct alt; [discriminate|]. injection An as <-.
    assert (At data (p + 1) (area_bytes (fe_bv e) true None r1 r2 c1 c2 ++ t)) as A1 by (apply (At_skip1 _ _ _ _ _ A); reflexivity).
    unfold eval_classed. opcode. rewrite (read_area (fe_bv e) true None _ _ _ _ _ _ _ A1 H1 H2 H3 H4 : get_cell_range_addr data (p + 1) (fe_bv e) true None None = _). cbn [bind].
    rewrite reference_type. cbn [somewhere relative_here wrong_here orb]. rewrite !orb_false_r, !orb_true_r.
    unfold shown_as, cells. cbn [bare grade]. change amount with PropFormulaRefs.value. destruct (reference_class k); reflexivity.
Qed.

(** References to other sheets. *)
Lemma ref_as : forall k s w r1 r2 c1 c2, place_ok (fe_bv e) (PropFormulaRefs.leads e) (has_name e) s w ->
  row_ok (fe_bv e) true None r1 -> row_ok (fe_bv e) true None r2 -> col_ok true None c1 -> col_ok true None c2 ->
  ref_operand (N := N) e (mk_box (fst (pair_of w)) (snd (pair_of w) + 1) (PropFormulaRefs.value r1) (PropFormulaRefs.value r2 + 1) (PropFormulaRefs.value c1) (PropFormulaRefs.value c2 + 1))
    [false; false; moving r1; moving r2; moving c1; moving c2] (Z.shiftr (class_code k) 5)
  = Ok (operand_as ops (Located (moving r1 || moving r2 || moving c1 || moving c2)
         (if reference_class k then Some [cells (fst (sheets_at w)) (snd (sheets_at w)) false r1 r2 c1 c2] else None)) 90
         (place_text (sheet_named e) w ++ 33 :: area3_text (rows (fe_bv e)) None true r1 r2 c1 c2)).
Proof.
  intros k s w r1 r2 c1 c2 P H1 H2 H3 H4. pose proof (ref3d_shown e BV 32 None true s w r1 r2 c1 c2 P H1 H2 H3 H4) as RS. cbv zeta in RS.
  unfold Decompile.d_ref3d in RS. unfold ref_operand. cbv zeta in *.
  replace (existsb (fun b => b) [false; false; moving r1; moving r2; moving c1; moving c2]) with (moving r1 || moving r2 || moving c1 || moving c2) in *
    by (cbn; destruct (moving r1), (moving r2), (moving c1), (moving c2); reflexivity).
  cbn [option_map] in RS. rewrite reference_type. unfold operand_as, cells. change amount with PropFormulaRefs.value. change sheets_at with pair_of.
  destruct (moving r1 || moving r2 || moving c1 || moving c2) eqn:MV.
  - destruct (rangename3drel _ _ _ _ _) as [x|]; cbn [bind] in *; [|discriminate]. injection RS as ->. destruct (reference_class k); reflexivity.
  - assert (moving r1 = false /\ moving r2 = false /\ moving c1 = false /\ moving c2 = false) as (-> & -> & -> & ->)
      by (destruct (moving r1), (moving r2), (moving c1), (moving c2); auto; discriminate).
    destruct (rangename3d _ _) as [x|]; cbn [bind] in *; [|discriminate]. injection RS as ->. destruct (reference_class k); reflexivity.
Qed.
Lemma pair_wrong : forall s w, place_ok (fe_bv e) (PropFormulaRefs.leads e) (has_name e) s w -> (fst (pair_of w) <? -1) = no_sheets w.
Proof. intros s w (_ & _ & _ & P). destruct w as [lo hi| | |]; try reflexivity. cbn. lia. Qed.

Lemma goes_cell3 : forall k s w r c, goes (Cell3 k s w r c).
Proof.
  intros k s w r c.
  apply (goes_token (Cell3 k s w r c) (class_code k + 0x1A) (s ++ cell_bytes (fe_bv e) true None r c) 0x1A (Z.shiftr (class_code k) 5)).
  - reflexivity.
  - intros ((P1 & P2 & _) & _). rewrite (cell3_size e BV k P1), zlen_cons, zlen_app, cell_bytes_len, P2.
    split; [reflexivity|apply class_nonzero].
  - intros (P & Hr & Hc) _ a An p t s0 A. injection An as <-. rewrite <- app_assoc in A.
    assert (At data (p + 1) (s ++ cell_bytes (fe_bv e) true None r c ++ t)) as A1 by (apply (At_skip1 _ _ _ _ _ A); reflexivity).
    pose proof (read_place e BV data p s _ w P A1) as RP.
    pose proof P as (_ & P2 & _).
    assert (At data (p + 1 + zlen s) (cell_bytes (fe_bv e) true None r c ++ t)) as A2 by (apply (At_skip _ _ _ _ _ A1); reflexivity).
    assert (read_ref3d e data p true None None = Ok ((PropFormulaRefs.value r, PropFormulaRefs.value c, moving r, moving c), pair_of w)) as RR.
    { unfold read_ref3d. rewrite P2 in A2. unfold sheet_bytes in A2. destruct (fe_bv e >=? 80) eqn:E0; destruct (fe_bv e <? 80) eqn:E1; try lia.
      - replace (p + 1 + 2) with (p + 3) in A2 by lia. rewrite (read_cell (fe_bv e) true None _ _ _ _ _ A2 Hr Hc : get_cell_addr _ _ _ _ None None = _). cbn [bind].
        apply bind_ok in RP as (refx & -> & G). cbn [bind]. rewrite G. reflexivity.
      - replace (p + 1 + 14) with (p + 15) in A2 by lia. rewrite (read_cell (fe_bv e) true None _ _ _ _ _ A2 Hr Hc : get_cell_addr _ _ _ _ None None = _). cbn [bind].
        apply bind_ok in RP as ([[x a] b] & -> & G). cbn [bind]. rewrite G. reflexivity. }
    unfold eval_classed. opcode. cbn [orb]. rewrite RR. cbn [bind].
    pose proof (ref_as k s w r r c c P Hr Hr Hc Hc) as RS. pose proof (pair_wrong s w P) as PW.
    destruct (pair_of w) as [x1 x2] eqn:PO. cbn [fst snd] in RS, PW. rewrite RS. cbn [bind]. rewrite PW.
    cbn [somewhere relative_here wrong_here]. rewrite !orb_false_r, orb_assoc. 
    replace (moving r || moving r || moving c || moving c) with (moving r || moving c) by (destruct (moving r), (moving c); reflexivity). reflexivity.
Qed.

Lemma goes_area3 : forall k s w r1 r2 c1 c2, goes (Area3 k s w r1 r2 c1 c2).
Proof.
  intros k s w r1 r2 c1 c2.
  apply (goes_token (Area3 k s w r1 r2 c1 c2) (class_code k + 0x1B) (s ++ area_bytes (fe_bv e) true None r1 r2 c1 c2) 0x1B (Z.shiftr (class_code k) 5)).
  - reflexivity.
  - intros ((P1 & P2 & _) & _). rewrite (area3_size e BV k P1), zlen_cons, zlen_app, area_bytes_len, P2.
    split; [reflexivity|apply class_nonzero].
  - intros (P & H1 & H2 & H3 & H4 & _) _ a An p t s0 A. injection An as <-. rewrite <- app_assoc in A.
    assert (At data (p + 1) (s ++ area_bytes (fe_bv e) true None r1 r2 c1 c2 ++ t)) as A1 by (apply (At_skip1 _ _ _ _ _ A); reflexivity).
    pose proof (read_place e BV data p s _ w P A1) as RP.
    pose proof P as (_ & P2 & _).
    assert (At data (p + 1 + zlen s) (area_bytes (fe_bv e) true None r1 r2 c1 c2 ++ t)) as A2 by (apply (At_skip _ _ _ _ _ A1); reflexivity).
    assert (read_area3d e data p true =
      Ok ((PropFormulaRefs.value r1, PropFormulaRefs.value c1, moving r1, moving c1), (PropFormulaRefs.value r2, PropFormulaRefs.value c2, moving r2, moving c2), pair_of w)) as RR.
    { unfold read_area3d. rewrite P2 in A2. unfold sheet_bytes in A2. destruct (fe_bv e >=? 80) eqn:E0; destruct (fe_bv e <? 80) eqn:E1; try lia.
      - replace (p + 1 + 2) with (p + 3) in A2 by lia. rewrite (read_area (fe_bv e) true None _ _ _ _ _ _ _ A2 H1 H2 H3 H4 : get_cell_range_addr _ _ _ _ None None = _). cbn [bind].
        apply bind_ok in RP as (refx & -> & G). cbn [bind]. rewrite G. reflexivity.
      - replace (p + 1 + 14) with (p + 15) in A2 by lia. rewrite (read_area (fe_bv e) true None _ _ _ _ _ _ _ A2 H1 H2 H3 H4 : get_cell_range_addr _ _ _ _ None None = _). cbn [bind].
        apply bind_ok in RP as ([[x a] b] & -> & G). cbn [bind]. rewrite G. reflexivity. }
    unfold eval_classed. opcode. cbn [orb]. rewrite RR. cbn [bind].
    pose proof (ref_as k s w r1 r2 c1 c2 P H1 H2 H3 H4) as RS. pose proof (pair_wrong s w P) as PW.
    destruct (pair_of w) as [x1 x2] eqn:PO. cbn [fst snd] in RS, PW. rewrite RS. cbn [bind]. rewrite PW.
    cbn [somewhere relative_here wrong_here]. rewrite !orb_false_r.
    replace (s_rel s0 || moving r1 || moving c1 || moving r2 || moving c2) with (s_rel s0 || (moving r1 || moving r2 || moving c1 || moving c2))
      by (destruct (s_rel s0), (moving r1), (moving r2), (moving c1), (moving c2); reflexivity). reflexivity.
Qed.

Lemma goes_lost : forall k area three b, goes (Lost k area three b).
Proof.
  intros k area three b.
  apply (goes_token (Lost k area three b) (class_code k + (if three then 0x1C else 0x0A) + (if area then 1 else 0)) b
    ((if three then 0x1C else 0x0A) + (if area then 1 else 0)) (Z.shiftr (class_code k) 5)).
  - reflexivity.
  - intros (L & B). rewrite (lost_size e BV k area three L), zlen_cons, B. split; [reflexivity|apply class_nonzero].
  - intros _ _ a An p t s A. injection An as <-. cbn [somewhere relative_here wrong_here orb]. rewrite !orb_false_r, orb_true_r. destruct area, three; reflexivity.
Qed.

Lemma goes_outer : forall k b x, goes (Outer k b x).
Proof.
  intros k b x.
  apply (goes_token (Outer k b x) (class_code k + 0x19) b 0x19 (Z.shiftr (class_code k) 5)).
  - reflexivity.
  - intros (L50 & LB & _). rewrite (outer_size e BV k L50), zlen_cons, LB. split; [reflexivity|apply class_nonzero].
  - intros (L50 & LB & _) O a An p s st A. injection An as <-. cbn [evaluable] in O. cbn [somewhere relative_here wrong_here orb]. rewrite !orb_false_r.
    assert (At data (p + 1) (b ++ s)) as A1 by (apply (At_skip1 _ _ _ _ _ A); reflexivity).
    unfold eval_classed. opcode. cbn [orb]. unfold foreign in O. unfold outer_bytes in LB. unfold read_namex, namex_sheets.
    destruct (fe_bv e <? 80) eqn:E0; destruct (fe_bv e >=? 80) eqn:E1; try lia; cbv iota in LB.
    + destruct O as (z & u & n & v & -> & U & X & NN & NO & O).
      assert (zlen v = 12) as V by (rewrite !zlen_app, !zlen_le_enc, U in LB; lia).
      assert (At data (p + 1) ((le_enc 2 z ++ u ++ le_enc 2 n) ++ v ++ s)) as A1' by (rewrite <- !app_assoc in A1 |- *; exact A1).
      rewrite (At_slice _ _ _ _ (p + 13) A1') by (rewrite !zlen_app, !zlen_le_enc, U; lia).
      replace (zlen (le_enc 2 z ++ u ++ le_enc 2 n) =? 12) with true by (rewrite !zlen_app, !zlen_le_enc, U; reflexivity). cbn [guard bind].
      rewrite <- !app_assoc in A1.
      assert (At data (p + 3) (u ++ le_enc 2 n ++ v ++ s)) as A2 by (apply (At_skip _ _ _ _ _ A1); rewrite zlen_le_enc; lia).
      assert (At data (p + 11) (le_enc 2 n ++ v ++ s)) as A3 by (apply (At_skip _ _ _ _ _ A2); lia).
      rewrite (At_i16 _ _ _ _ A1), (At_u16 _ _ _ _ A3) by lia. cbn [bind].
      assert (n - 1 =? own = false) as NS by lia.
      destruct O as [(X1 & ->)|(X1 & (y & Y & NY) & ->)].
      * destruct (z <? 32768) eqn:Q; [|lia]. destruct (z >? 0) eqn:Q1; [|lia]. cbn [bind]. rewrite NS. cbn [orb]. rewrite Q1. cbn [bind Z.ltb Z.compare Pos.compare Pos.compare_cont CompOpp].
        rewrite orb_false_r. reflexivity.
      * destruct (z <? 32768) eqn:Q; [lia|]. destruct (z - 65536 >? 0) eqn:Q1; [lia|]. destruct (z - 65536 <? 0) eqn:Q2; [|lia]. cbn [bind]. rewrite NS. cbn [orb]. rewrite Q1.
        replace (- (z - 65536) - 1) with (65535 - z) by lia. rewrite (index_at _ _ _ Y). cbn [bind].
        destruct (y =? 4) eqn:Q3; [lia|]. cbn [bind Z.ltb Z.compare Pos.compare Pos.compare_cont CompOpp]. rewrite orb_false_r. reflexivity.
    + destruct O as (refx & n & v & w & -> & R & NN & NO & L & W & ->).
      assert (zlen v = 2) as V by (rewrite !zlen_app, !zlen_le_enc in LB; lia).
      assert (At data (p + 1) ((le_enc 2 refx ++ le_enc 2 n) ++ v ++ s)) as A1' by (rewrite <- !app_assoc in A1 |- *; exact A1).
      rewrite (At_slice _ _ _ _ (p + 5) A1') by (rewrite !zlen_app, !zlen_le_enc; lia).
      replace (zlen (le_enc 2 refx ++ le_enc 2 n) =? 4) with true by (rewrite !zlen_app, !zlen_le_enc; reflexivity). cbn [guard bind].
      rewrite <- !app_assoc in A1.
      assert (At data (p + 3) (le_enc 2 n ++ v ++ s)) as A2 by (apply (At_skip _ _ _ _ _ A1); rewrite zlen_le_enc; lia).
      rewrite (At_u16 _ _ _ _ A1), (At_u16 _ _ _ _ A2) by lia. cbn [bind].
      assert (n - 1 =? own = false) as -> by lia. cbn [orb].
      destruct (bv_cases e BV) as [B|B]; [lia|]. rewrite (leads8 e refx w B L R) by (destruct W as [-> | ->]; exact I). cbn [bind].
      destruct W as [-> | ->]; cbn [pair_of bind Z.ltb Z.compare Pos.compare Pos.compare_cont CompOpp]; rewrite orb_false_r; reflexivity.
Qed.

(** Constants and names. *)
Lemma goes_leaf : forall x b rest o sz, codes (fe_bv e) x = b :: rest -> token_of (fe_bv e) b = Ok (o, 0, sz) -> sz <> -2 -> level x = 8 ->
  (forall k n u, x <> Name k n u) ->
  (stored e nms x -> forall a, plain_answer ops use x = Some a -> forall p t s, At data p (b :: rest ++ t) ->
     eval_plain ops e data p o sz s = Ok (push (operand_as ops a 90 (text_of ops e nms x)) s, zlen (b :: rest))) -> goes (Plain x).
Proof.
  intros x b rest o sz C T S L NN H W _ a An p t s A F G. unfold formula_tokens in *. cbn [tokens] in *. rewrite C in *.
  specialize (H W a An p t s A). pose proof (At_nonneg _ _ _ A). rewrite zlen_cons in *. pose proof (zlen_nonneg rest).
  apply gets_one; [lia|exact G|]. rewrite (plain_step _ _ _ _ _ _ _ _ A T S H) by lia.
  assert (somewhere (relative_here use) (Plain x) = false /\ somewhere (wrong_here use) (Plain x) = false) as [-> ->].
  { destruct x; try (split; reflexivity). exfalso. eapply NN. reflexivity. }
  unfold push, shown_as. cbn [bare grade]. rewrite L. rewrite !orb_false_r. reflexivity.
Qed.

Lemma goes_plain : forall x, goes (Plain x).
Proof.
  intros x. destruct x as [n|b|u|b st|b|c| |kl n u|o y|o y1 y2|y|s0 w0 y|kl f args|kl pr m f args];
    try (intros W EV a An; discriminate An).
  all: try solve [intros W EV a An; cbn in An; discriminate An].
  - eapply (goes_leaf (Int n) 0x1E (le_enc 2 n) 0x1E 3); [reflexivity|all_versions|lia|reflexivity|discriminate|].
    intros W a An p t s A. injection An as <-. unfold stored in W. cbn [storable] in W. unfold eval_plain. opcode. unfold read_const. opcode.
    rewrite (At_u16 data t n (p + 1)) by (try lia; apply (At_skip1 _ _ _ _ _ A); reflexivity). reflexivity.
  - eapply (goes_leaf (Num b) 0x1F b 0x1F 9); [reflexivity|all_versions|lia|reflexivity|discriminate|].
    intros W a An p t s A. injection An as <-. unfold stored in W. cbn [storable] in W. unfold eval_plain. opcode. unfold read_const. opcode. cbv zeta.
    assert (At data (p + 1) (b ++ t)) as A1 by (apply (At_skip1 _ _ _ _ _ A); reflexivity).
    rewrite (At_slice _ _ _ _ (p + 9) A1) by lia. unfold guard. rewrite W. cbn [Z.eqb Pos.eqb bind].
    rewrite zlen_cons, W. reflexivity.
  - eapply (goes_leaf (Str u) 0x17 (us_field 1 u) 0x17 (-1)); [reflexivity|all_versions|lia|reflexivity|discriminate|].
    intros W a An p t s A. injection An as <-. destruct W as (W8 & W1 & W2). unfold eval_plain. opcode. unfold read_str. rewrite W8. cbn [Z.leb Z.compare Pos.compare Pos.compare_cont].
    assert (At data (p + 1) (us_field 1 u ++ t)) as A1 by (apply (At_skip1 _ _ _ _ _ A); reflexivity).
    destruct A1 as (pre & -> & L). change 1 with (Z.of_nat 1) at 2. rewrite L.
    rewrite (c13_unicode_update_pos u 1 pre t W1) by (try lia; auto). cbn [bind].
    rewrite quoted_spec. do 2 f_equal. rewrite zlen_app, zlen_cons. lia.
  - eapply (goes_leaf (OldStr b st) 0x17 (zlen b :: b) 0x17 (-1)); [reflexivity|all_versions|lia|reflexivity|discriminate|].
    intros W a An p t s A. injection An as <-. destruct W as (W8 & W1 & W2). unfold eval_plain. opcode. unfold read_str.
    destruct (fe_bv e <=? 70) eqn:E0; [|pose proof BV as B; unfold biff in B; lia].
    pose proof (zlen_nonneg b).
    assert (At data (p + 1) (zlen b :: b ++ t)) as A1 by (apply (At_skip1 _ _ _ _ _ A); reflexivity).
    unfold unpack_string_update_pos.
    rewrite (At_le data (b ++ t) 1 (zlen b) (p + 1) 1); [|cbn [le_enc]; rewrite Z.mod_small by lia; exact A1|reflexivity|lia].
    cbn [bind]. rewrite (At_slice data b t (p + 1 + 1) (p + 1 + 1 + zlen b));
      [|apply (At_skip1 _ _ _ _ _ A1); reflexivity|reflexivity].
    rewrite W2. cbn [bind]. rewrite quoted_spec. do 2 f_equal. rewrite !zlen_cons. lia.
  - eapply (goes_leaf (Bool b) 0x1D [bit b] 0x1D 2); [reflexivity|all_versions|lia|reflexivity|discriminate|].
    intros W a An p t s A. injection An as <-. unfold eval_plain. opcode. unfold read_const. opcode.
    rewrite (At_le data t 1 (bit b) (p + 1) 1); [|destruct b; apply (At_skip1 _ _ _ _ _ A); reflexivity|reflexivity|destruct b; cbn; lia].
    cbn [bind]. destruct b; reflexivity.
  - eapply (goes_leaf (ErrorCode c) 0x1C [c] 0x1C 2); [reflexivity|all_versions|lia|reflexivity|discriminate|].
    intros W a An p t s A. injection An as <-. unfold eval_plain. opcode. unfold read_const. opcode.
    unfold stored in W. cbn [storable] in W.
    rewrite (At_le data t 1 c (p + 1) 1); [|cbn [le_enc]; rewrite Z.mod_small by lia; apply (At_skip1 _ _ _ _ _ A); reflexivity|reflexivity|lia].
    cbn [bind]. destruct W as [->|[->|[->|[->|[->|[->| ->]]]]]]; reflexivity.
  - eapply (goes_leaf Missing 0x16 [] 0x16 1); [reflexivity|all_versions|lia|reflexivity|discriminate|].
    intros W a An p t s A. injection An as <-. unfold eval_plain. opcode. reflexivity.
  - intros W _ a An p t s A F G. destruct W as (Wn & Wk & Wu). cbn [answer_of plain_answer] in An.
    destruct (use n) as [o|] eqn:UN; [|discriminate]. injection An as <-. unfold formula_tokens in *. cbn [tokens codes] in *.
    pose proof (At_nonneg _ _ _ A). cbn [app] in A. rewrite <- app_assoc in A. rewrite zlen_cons, zlen_app, zlen_le_enc, Wu in *.
    assert (0 < 3 + name_unused (fe_bv e)) by (rewrite <- Wu; pose proof (zlen_nonneg u); lia).
    replace (p + (1 + (Z.of_nat 2 + name_unused (fe_bv e)))) with (p + (3 + name_unused (fe_bv e))) by lia.
    assert (eval_classed ops e rec own data p 3 (Z.shiftr (class_code kl) 5) s = use_name e rec (n - 1) s) as EC.
    { unfold eval_classed. opcode. rewrite (At_u16 data (u ++ t) n (p + 1)); [reflexivity|eapply At_skip1; [exact A|reflexivity]|lia]. }
    assert (step p s = do s1 <- use_name e rec (n - 1) s; Ok (s1, p + (3 + name_unused (fe_bv e)))) as ST.
    { eapply classed_step; [exact A|apply name_unused_size; exact BV|apply class_nonzero|lia|exact EC]. }
    cbn [somewhere relative_here wrong_here]. rewrite !orb_false_r. unfold used. rewrite UN.
    destruct (USE n o s Wk UN G) as [(names' & G' & U)|(E0 & U)]; rewrite U in ST; cbn [bind] in ST.
    + left. exists names'. split; [exact G'|]. apply e_reach_one; [lia|]. exact ST.
    + right. split; [exact E0|]. exists p, s. split; [constructor|]. split; [lia|exact ST].
Qed.

(** Arguments. *)
Definition item_for (fa : formula * answer N) : operand N := shown_as (fst fa) (snd fa).
Lemma all_answers : forall args l,
  (fix all (l : list formula) : option (list (answer N)) :=
    match l with
    | [] => Some []
    | x :: r => match answer_of ops use x, all r with Some a, Some l => Some (a :: l) | _, _ => None end
    end) args = Some l -> Forall2 (fun f a => answer_of ops use f = Some a) args l.
Proof.
  induction args as [|f args IH]; intros l H; [injection H as <-; constructor|].
  destruct (answer_of ops use f) as [a|] eqn:A; [|discriminate].
  match type of H with (match ?x with _ => _ end) = _ => destruct x as [l'|] eqn:Q end; [|discriminate]. injection H as <-. constructor; auto.
Qed.
Lemma all_evaluable : forall args, (fix all l := match l with [] => True | x :: r => evaluable e own x /\ all r end) args -> Forall (evaluable e own) args.
Proof. induction args as [|a args IH]; intros H; constructor; [apply H|apply IH; apply H]. Qed.

Lemma goes_args : forall args l, Forall goes args -> Forall (formula_holds e nms 32 None) args -> Forall (evaluable e own) args ->
  Forall2 (fun f a => answer_of ops use f = Some a) args l -> forall p t s,
  At data p (flat_map toks args ++ t) -> p + zlen (flat_map toks args) <= fl -> Good (s_names s) ->
  gets p s (p + zlen (flat_map toks args)) (rev (map item_for (List.combine args l)) ++ s_stack s)
    (existsb (somewhere (relative_here use)) args) (existsb (somewhere (wrong_here use)) args).
Proof.
  induction args as [|f args IH]; intros l R S V F2 p t s A F G.
  - inversion F2; subst. cbn. rewrite Z.add_0_r. left. exists (s_names s). split; [exact G|]. rewrite !orb_false_r. destruct s; constructor.
  - inversion F2 as [|? a ? l' An F2']; subst. cbn [flat_map existsb List.combine map rev] in *. rewrite <- app_assoc in A. rewrite zlen_app in *.
    pose proof (zlen_nonneg (flat_map toks args)). inversion_clear R as [|? ? R1 R2]. inversion_clear S as [|? ? S1 S2]. inversion_clear V as [|? ? V1 V2].
    eapply gets_trans; [apply (R1 S1 V1 a An p _ s A); [lia|exact G]|].
    intros names' G'. rewrite Z.add_assoc, <- app_assoc. cbn [app].
    apply (IH l' R2 S2 V2 F2' _ t (mk_est (shown_as f a :: s_stack s) (s_rel s || somewhere (relative_here use) f) (s_err s || somewhere (wrong_here use) f) names'));
      [apply (At_skip _ _ _ _ _ A); reflexivity|lia|exact G'].
Qed.

(** An attribute token. *)
Lemma eval_attr : forall p s0 w t s, At data p (0x19 :: s0 :: le_enc 2 w ++ t) -> 0 <= s0 < 256 -> 0 <= w < 65536 ->
  eval_plain ops e data p 0x19 (-1) s =
  (if s0 =? 0x04 then Ok (s, w * 2 + 6)
   else if s0 =? 0x10 then
     match s_stack s with
     | aop :: k => Ok (with_stack s (mk_operand oNUM VNone FUNC_RANK (s2l "SUM(" ++ o_text aop ++ s2l ")") :: k), 4)
     | [] => Err AssertionError
     end
   else Ok (s, 4)).
Proof.
  intros p s0 w t s A S W.
  assert (At data (p + 1) ((s0 :: le_enc 2 w) ++ t)) as A1 by (apply (At_skip1 _ _ _ _ _ A); reflexivity).
  assert (At data (p + 2) (le_enc 2 w ++ t)) as A2 by (apply (At_skip1 _ _ _ _ _ A1); lia).
  unfold eval_plain. opcode.
  rewrite (At_slice _ _ _ _ (p + 4) A1) by (rewrite zlen_cons, zlen_le_enc; lia).
  rewrite zlen_cons, zlen_le_enc. cbn [guard Z.add Z.of_nat Z.eqb Pos.of_succ_nat Pos.succ Pos.add Pos.eqb bind].
  rewrite (At_le data (le_enc 2 w ++ t) 1 s0 (p + 1) 1);
    [|cbn [le_enc]; rewrite (Z.mod_small s0) by lia; exact A1|reflexivity|lia]. cbn [bind].
  rewrite (At_u16 _ _ _ _ A2) by lia. reflexivity.
Qed.

Lemma items_texts : forall args l, Forall2 (fun f a => answer_of ops use f = Some a) args l ->
  map o_text (map item_for (List.combine args l)) = map (formula_text ops e nms None true) (map bare args) /\
  Forall2 (shows ops) (map item_for (List.combine args l)) l /\ zlen (map item_for (List.combine args l)) = zlen args.
Proof.
  intros args l F. induction F as [|f a args l An F (I1 & I2 & I3)]; [repeat split; constructor|]. cbn [List.combine map].
  split; [f_equal; exact I1|]. split; [constructor; [split; reflexivity|exact I2]|]. rewrite !zlen_cons, I3. reflexivity.
Qed.

Theorem formula_goes : forall f, goes f.
Proof.
  intros f. induction f using formula_ind'.
  - apply goes_plain.
  - apply goes_cell.
  - apply goes_area.
  - apply goes_cell3.
  - apply goes_area3.
  - apply goes_outer.
  - apply goes_lost.
  - (* FUn *)
    intros W V a An p t s A F G. cbn [answer_of] in An. destruct (answer_of ops use f) as [b|] eqn:Ab; [|discriminate].
    unfold formula_tokens in *. cbn [tokens] in *. rewrite <- app_assoc in A. rewrite zlen_app, zlen_cons, zlen_nil in *.
    specialize (IHf W V b Ab p _ s A ltac:(unfold formula_tokens; lia) G). unfold formula_tokens in IHf.
    set (n := zlen (tokens (fe_bv e) (distances 32) None f)) in *. replace (p + (n + (1 + 0))) with (p + n + 1) by lia.
    pose proof (At_nonneg _ _ _ A). assert (0 <= n) by apply zlen_nonneg.
    eapply gets_then; [exact IHf|lia|]. intros names'.
    assert (At data (p + n) (unary_code o :: t)) as A1 by (apply (At_skip _ _ _ _ _ A); reflexivity).
    eapply (plain_step _ _ _ _ (unary_code o) 1); [exact A1|destruct o; all_versions|lia| |lia].
    pose proof (unary_as ops o b a (10 * grade (bare f)) (formula_text ops e nms None true (bare f)) (s_stack s) An) as U.
    change (operand_as ops b (10 * grade (bare f)) (formula_text ops e nms None true (bare f))) with (shown_as f b) in U.
    assert (do_unaryop ops (unary_code o) (shown_as f b :: s_stack s) = Ok (shown_as (FUn o f) a :: s_stack s)) as U'.
    { rewrite U. unfold shown_as. do 3 f_equal. unfold formula_text. cbn [shown bare]. rewrite paren_spec, grade_lt. destruct o; cbn [app]; rewrite ?app_nil_r; reflexivity. }
    destruct o; unfold eval_plain; cbn [unary_code s_stack] in *; opcode; rewrite U'; reflexivity.
  - (* FBin *)
    intros [W1 W2] [V1 V2] a An p t s A F G. cbn [answer_of] in An. destruct (answer_of ops use f1) as [b|] eqn:Ab; [|discriminate]. destruct (answer_of ops use f2) as [c|] eqn:Ac; [|discriminate].
    unfold formula_tokens in *. cbn [tokens] in *. rewrite <- !app_assoc in A. rewrite !zlen_app, zlen_cons, zlen_nil in *.
    set (n1 := zlen (tokens (fe_bv e) (distances 32) None f1)) in *. set (n2 := zlen (tokens (fe_bv e) (distances 32) None f2)) in *.
    replace (p + (n1 + (n2 + (1 + 0)))) with (p + n1 + n2 + 1) by lia.
    pose proof (At_nonneg _ _ _ A). assert (0 <= n1) by apply zlen_nonneg. assert (0 <= n2) by apply zlen_nonneg.
    assert (At data (p + n1) (tokens (fe_bv e) (distances 32) None f2 ++ binary_code o :: t)) as A2 by (apply (At_skip _ _ _ _ _ A); reflexivity).
    assert (At data (p + n1 + n2) (binary_code o :: t)) as A3 by (apply (At_skip _ _ _ _ _ A2); reflexivity).
    assert (gets p s (p + n1 + n2) (shown_as f2 c :: shown_as f1 b :: s_stack s) (somewhere (relative_here use) (FBin o f1 f2)) (somewhere (wrong_here use) (FBin o f1 f2))) as B2.
    { cbn [somewhere relative_here wrong_here orb]. eapply gets_trans; [apply (IHf1 W1 V1 b Ab p _ s A); [unfold formula_tokens; lia|exact G]|].
      intros names' G'. apply (IHf2 W2 V2 c Ac (p + n1) (binary_code o :: t) (mk_est (shown_as f1 b :: s_stack s) _ _ names')); [exact A2|unfold formula_tokens; lia|exact G']. }
    eapply gets_then; [exact B2|lia|]. intros names'. eapply (plain_step _ _ _ _ (binary_code o) 1); [exact A3|destruct o; all_versions|lia| |lia].
    pose proof (binary_as ops o b c a (10 * grade (bare f1)) (formula_text ops e nms None true (bare f1)) (10 * grade (bare f2)) (formula_text ops e nms None true (bare f2)) (s_stack s) An) as U.
    assert (do_binop ops (binary_code o) (shown_as f2 c :: shown_as f1 b :: s_stack s) = Ok (shown_as (FBin o f1 f2) a :: s_stack s)) as U'.
    { unfold shown_as at 1 2. rewrite U. unfold shown_as. do 3 f_equal. unfold formula_text. cbn [shown bare]. rewrite !paren_spec, !grade_lt. reflexivity. }
    destruct o; unfold eval_plain; cbn [binary_code s_stack] in *; opcode; rewrite U'; reflexivity.
  - (* FSet *)
    intros (W1 & W2 & _) [V1 V2] a An p t s A F G. cbn [answer_of] in An. destruct (answer_of ops use f1) as [b|] eqn:Ab; [|discriminate]. destruct (answer_of ops use f2) as [c|] eqn:Ac; [|discriminate].
    unfold formula_tokens in *. cbn [tokens] in *. rewrite <- !app_assoc in A. rewrite !zlen_app, zlen_cons, zlen_nil in *.
    set (n1 := zlen (tokens (fe_bv e) (distances 32) None f1)) in *. set (n2 := zlen (tokens (fe_bv e) (distances 32) None f2)) in *.
    replace (p + (n1 + (n2 + (1 + 0)))) with (p + n1 + n2 + 1) by lia.
    pose proof (At_nonneg _ _ _ A). assert (0 <= n1) by apply zlen_nonneg. assert (0 <= n2) by apply zlen_nonneg.
    assert (At data (p + n1) (tokens (fe_bv e) (distances 32) None f2 ++ set_code o :: t)) as A2 by (apply (At_skip _ _ _ _ _ A); reflexivity).
    assert (At data (p + n1 + n2) (set_code o :: t)) as A3 by (apply (At_skip _ _ _ _ _ A2); reflexivity).
    assert (gets p s (p + n1 + n2) (shown_as f2 c :: shown_as f1 b :: s_stack s) (somewhere (relative_here use) (FSet o f1 f2)) (somewhere (wrong_here use) (FSet o f1 f2))) as B2.
    { cbn [somewhere relative_here wrong_here orb]. eapply gets_trans; [apply (IHf1 W1 V1 b Ab p _ s A); [unfold formula_tokens; lia|exact G]|].
      intros names' G'. apply (IHf2 W2 V2 c Ac (p + n1) (set_code o :: t) (mk_est (shown_as f1 b :: s_stack s) _ _ names')); [exact A2|unfold formula_tokens; lia|exact G']. }
    eapply gets_then; [exact B2|lia|]. intros names'. eapply (plain_step _ _ _ _ (set_code o) 1); [exact A3|destruct o; all_versions|lia| |lia].
    pose proof (set_as ops o b c a (10 * grade (bare f1)) (formula_text ops e nms None true (bare f1)) (10 * grade (bare f2)) (formula_text ops e nms None true (bare f2)) (s_stack s) An) as U.
    assert (do_set o (shown_as f2 c :: shown_as f1 b :: s_stack s) = Ok (shown_as (FSet o f1 f2) a :: s_stack s)) as U'.
    { unfold shown_as at 1 2. rewrite U. unfold shown_as. do 2 f_equal.
      unfold formula_text. cbn [shown bare]. change 80 with (10 * 8). rewrite !paren_spec, !grade_lt. destruct o; reflexivity. }
    destruct o; unfold eval_plain; cbn [set_code s_stack do_set] in *; opcode; rewrite U'; reflexivity.
  - (* FParen *)
    intros W V a An p t s A F G. unfold formula_tokens in *. cbn [tokens] in *. rewrite <- app_assoc in A. rewrite zlen_app, zlen_cons, zlen_nil in *.
    specialize (IHf W V a An p _ s A ltac:(unfold formula_tokens; lia) G). unfold formula_tokens in IHf.
    set (n := zlen (tokens (fe_bv e) (distances 32) None f)) in *. replace (p + (n + (1 + 0))) with (p + n + 1) by lia.
    pose proof (At_nonneg _ _ _ A). assert (0 <= n) by apply zlen_nonneg.
    eapply gets_then; [exact IHf|lia|]. intros names'.
    assert (At data (p + n) (0x15 :: t)) as A1 by (apply (At_skip _ _ _ _ _ A); reflexivity).
    eapply plain_step; [exact A1|all_versions|lia|reflexivity|lia].
  - (* Before *)
    intros (S1 & S2 & S3 & S4 & W) V a An p t st A F G. unfold formula_tokens in *. cbn [tokens app] in *.
    rewrite !zlen_cons, zlen_app, zlen_le_enc in *. rewrite <- app_assoc in A.
    pose proof (At_nonneg _ _ _ A). pose proof (tokens_nonempty e 32 None f). unfold formula_tokens in *.
    pose proof (eval_attr p s w _ st A S1 S4) as D. destruct (s =? 4) eqn:E4; [lia|]. destruct (s =? 16) eqn:E16; [lia|].
    set (n := zlen (tokens (fe_bv e) (distances 32) None f)) in *.
    assert (At data (p + 4) (tokens (fe_bv e) (distances 32) None f ++ t)) as A4.
    { change (0x19 :: s :: le_enc 2 w ++ tokens (fe_bv e) (distances 32) None f ++ t) with ((0x19 :: s :: le_enc 2 w) ++ tokens (fe_bv e) (distances 32) None f ++ t) in A.
      apply (At_skip _ _ _ _ _ A). rewrite !zlen_cons, zlen_le_enc. lia. }
    replace (p + (1 + (1 + (Z.of_nat 2 + n)))) with (p + 4 + n) by lia.
    cbn [somewhere relative_here wrong_here orb]. rewrite <- (orb_false_l (somewhere (relative_here use) f)), <- (orb_false_l (somewhere (wrong_here use) f)).
    eapply (gets_trans p st (p + 4) (s_stack st)).
    + apply gets_one; [lia|exact G|]. erewrite plain_step; [|exact A|all_versions|lia|exact D|lia]. rewrite !orb_false_r. destruct st; reflexivity.
    + intros names' G'. apply (IHf W V a An (p + 4) t (mk_est (s_stack st) _ _ names')); [exact A4|unfold formula_tokens; lia|exact G'].
  - (* Jumps *)
    intros (S1 & S2 & W) V a An p t st A F G. unfold formula_tokens in *. cbn [tokens app] in *.
    rewrite !zlen_cons, !zlen_app, zlen_le_enc in *. rewrite <- !app_assoc in A.
    pose proof (At_nonneg _ _ _ A). pose proof (tokens_nonempty e 32 None f). pose proof (zlen_nonneg l). unfold formula_tokens in *.
    pose proof (eval_attr p 4 w _ st A ltac:(lia) S1) as D. cbn [Z.eqb Pos.eqb] in D.
    set (n := zlen (tokens (fe_bv e) (distances 32) None f)) in *.
    assert (At data (p + (w * 2 + 6)) (tokens (fe_bv e) (distances 32) None f ++ t)) as A4.
    { change (0x19 :: 0x04 :: le_enc 2 w ++ l ++ tokens (fe_bv e) (distances 32) None f ++ t) with ((0x19 :: 0x04 :: le_enc 2 w) ++ l ++ tokens (fe_bv e) (distances 32) None f ++ t) in A.
      rewrite app_assoc in A. apply (At_skip _ _ _ _ _ A). rewrite zlen_app, !zlen_cons, zlen_le_enc. lia. }
    replace (p + (1 + (1 + (Z.of_nat 2 + (zlen l + n))))) with (p + (w * 2 + 6) + n) by lia.
    cbn [somewhere relative_here wrong_here orb]. rewrite <- (orb_false_l (somewhere (relative_here use) f)), <- (orb_false_l (somewhere (wrong_here use) f)).
    eapply (gets_trans p st (p + (w * 2 + 6)) (s_stack st)).
    + apply gets_one; [lia|exact G|]. erewrite plain_step; [|exact A|all_versions|lia|exact D|lia]. rewrite !orb_false_r. destruct st; reflexivity.
    + intros names' G'. apply (IHf W V a An (p + (w * 2 + 6)) t (mk_est (s_stack st) _ _ names')); [exact A4|unfold formula_tokens; lia|exact G'].
  - (* Mem *)
    intros (S1 & W) V a An p t st A F G. unfold formula_tokens in *. cbn [tokens app] in *.
    rewrite !zlen_cons, zlen_app, zlen_le_enc in *. rewrite <- app_assoc in A.
    pose proof (At_nonneg _ _ _ A). pose proof (tokens_nonempty e 32 None f) as NE. unfold formula_tokens in *.
    set (n := zlen (tokens (fe_bv e) (distances 32) None f)) in *.
    assert (At data (p + 1) (le_enc (mem_bytes (fe_bv e)) w ++ tokens (fe_bv e) (distances 32) None f ++ t)) as A1 by (apply (At_skip1 _ _ _ _ _ A); reflexivity).
    assert (At data (p + (1 + Z.of_nat (mem_bytes (fe_bv e)))) (tokens (fe_bv e) (distances 32) None f ++ t)) as A4
      by (apply (At_skip _ _ _ _ _ A1); rewrite zlen_le_enc; lia).
    replace (p + (1 + (Z.of_nat (mem_bytes (fe_bv e)) + n))) with (p + (1 + Z.of_nat (mem_bytes (fe_bv e))) + n) by lia.
    assert (exists v, unpack_u16 data (p + 1) = Ok v) as (v & U).
    { assert (2 <= zlen (le_enc (mem_bytes (fe_bv e)) w ++ tokens (fe_bv e) (distances 32) None f ++ t)) as L2
        by (rewrite !zlen_app, zlen_le_enc; pose proof (zlen_nonneg t); fold n; unfold mem_bytes; destruct (fe_bv e <? 30); lia).
      destruct A1 as (pre & -> & LP).
      set (rest := le_enc (mem_bytes (fe_bv e)) w ++ tokens (fe_bv e) (distances 32) None f ++ t) in *.
      destruct rest as [|x [|y rest]]; [rewrite zlen_nil in L2; lia|rewrite zlen_cons, zlen_nil in L2; lia|].
      unfold unpack_u16, unpack_le. rewrite (At_slice (pre ++ x :: y :: rest) [x; y] rest (p + 1)) by (try (apply At_here; lia); rewrite ?zlen_cons, ?zlen_nil; lia).
      eexists. reflexivity. }
    cbn [somewhere relative_here wrong_here orb]. rewrite <- (orb_false_l (somewhere (relative_here use) f)), <- (orb_false_l (somewhere (wrong_here use) f)).
    eapply (gets_trans p st (p + (1 + Z.of_nat (mem_bytes (fe_bv e)))) (s_stack st)).
    + apply gets_one; [lia|exact G|]. erewrite (classed_step _ _ _ _ _ _ _ (Ok st) A); [|apply mem_size; exact BV|apply class_nonzero|lia|unfold eval_classed; opcode; rewrite U; reflexivity].
      cbn [bind]. rewrite !orb_false_r. destruct st; reflexivity.
    + intros names' G'. apply (IHf W V a An _ t (mk_est (s_stack st) _ _ names')); [exact A4|unfold formula_tokens; lia|exact G'].
  - (* After *)
    intros (S1 & S2 & S3 & S4 & W) V a An p t st A F G. unfold formula_tokens in *. cbn [tokens] in *. rewrite <- app_assoc in A. cbn [app] in A. rewrite zlen_app, !zlen_cons, zlen_le_enc in *.
    specialize (IHf W V a An p _ st A ltac:(unfold formula_tokens; lia) G). unfold formula_tokens in IHf.
    set (n := zlen (tokens (fe_bv e) (distances 32) None f)) in *. replace (p + (n + (1 + (1 + Z.of_nat 2)))) with (p + n + 4) by lia.
    pose proof (At_nonneg _ _ _ A). assert (0 <= n) by apply zlen_nonneg.
    assert (At data (p + n) (0x19 :: s :: le_enc 2 w ++ t)) as A1 by (apply (At_skip _ _ _ _ _ A); reflexivity).
    eapply gets_then; [exact IHf|lia|]. intros names'.
    eapply plain_step; [exact A1|all_versions|lia| |lia]. rewrite (eval_attr _ s w t _ A1) by assumption.
    destruct (s =? 4) eqn:E4; [lia|]. destruct (s =? 16) eqn:E16; [lia|]. reflexivity.
  - (* Sum *)
    intros (S4 & W) V a An p t st A F G. cbn [answer_of] in An. destruct (answer_of ops use f) as [b|] eqn:Ab; [|discriminate]. injection An as <-.
    unfold formula_tokens in *. cbn [tokens] in *. rewrite <- app_assoc in A. cbn [app] in A. rewrite zlen_app, !zlen_cons, zlen_le_enc in *.
    specialize (IHf W V b Ab p _ st A ltac:(unfold formula_tokens; lia) G). unfold formula_tokens in IHf.
    set (n := zlen (tokens (fe_bv e) (distances 32) None f)) in *. replace (p + (n + (1 + (1 + Z.of_nat 2)))) with (p + n + 4) by lia.
    pose proof (At_nonneg _ _ _ A). assert (0 <= n) by apply zlen_nonneg.
    assert (At data (p + n) (0x19 :: 0x10 :: le_enc 2 w ++ t)) as A1 by (apply (At_skip _ _ _ _ _ A); reflexivity).
    eapply gets_then; [exact IHf|lia|]. intros names'.
    eapply plain_step; [exact A1|all_versions|lia| |lia]. rewrite (eval_attr _ 16 w t _ A1) by (assumption || lia). reflexivity.
  - (* FCall *)
    intros (Wf & (name & most & Wd) & Wa) V a An p t st A F G. apply all_holds in Wa. cbn [evaluable] in V. apply all_evaluable in V. cbn [answer_of] in An.
    match type of An with (match ?x with _ => _ end) = _ => destruct x as [l|] eqn:Q end; [|discriminate]. injection An as <-. apply all_answers in Q.
    unfold formula_tokens in A, F |- *. cbn [tokens] in *. rewrite <- app_assoc in A. cbn [app] in A. rewrite zlen_app, zlen_cons, zlen_le_enc in *.
    change (flat_map (tokens (fe_bv e) (distances 32) None) args) with (flat_map toks args) in *.
    assert (0 <= zlen (flat_map toks args)) by apply zlen_nonneg. pose proof (At_nonneg _ _ _ A).
    pose proof (goes_args args l H Wa V Q p _ st A ltac:(lia) G) as R. rewrite Z.add_assoc.
    assert (At data (p + zlen (flat_map toks args)) ((class_code k + 1) :: le_enc (index_bytes (fe_bv e)) f ++ t)) as A1 by (apply (At_skip _ _ _ _ _ A); reflexivity).
    cbn [somewhere relative_here wrong_here orb]. eapply gets_then; [exact R|lia|]. intros names'.
    destruct (items_texts _ _ Q) as (I1 & I2 & I3). set (items := map item_for (List.combine args l)) in *.
    assert (do_func f (rev items ++ s_stack st) = Ok (shown_as (FCall k f args) Unsure :: s_stack st)) as DF.
    { unfold function in Wd. unfold do_func. rewrite Wd. rewrite zlen_app, zlen_rev. pose proof (zlen_nonneg (s_stack st)).
      unfold guard. destruct (zlen items + zlen (s_stack st) >=? zlen args) eqn:Q1; [|lia]. cbn [bind].
      unfold shown_as, formula_text. cbn [bare shown grade]. unfold fname, function. rewrite Wd.
      destruct (zlen args =? 0) eqn:Z0; cbn [negb].
      - apply Z.eqb_eq in Z0. rewrite Z0 in I3. apply zlen_zero_nil in Z0. apply zlen_zero_nil in I3. rewrite I3. subst args. reflexivity.
      - assert (items <> []) by (intros ->; rewrite zlen_nil in I3; lia). rewrite <- I3. rewrite last_args_rev, drop_args_rev by assumption.
        unfold call_text. rewrite I1, join_comma_spec. reflexivity. }
    erewrite (classed_step _ _ _ _ _ _ _ _ A1); [|apply func_size; exact BV|apply class_nonzero|lia|unfold eval_classed; opcode; rewrite (read_func_at e data _ _ _ _ A1 Wf); cbn [bind s_stack]; rewrite DF; reflexivity].
    reflexivity.
  - (* FCallVar *)
    intros (W0 & W1 & W2 & W3 & (name & least & most & Wd & Wn) & Wa) [NA V] a An p0 t st A F G. apply all_holds in Wa. apply all_evaluable in V. cbn [answer_of] in An.
    match type of An with (match ?x with _ => _ end) = _ => destruct x as [l|] eqn:Q end; [|discriminate]. apply all_answers in Q.
    unfold formula_tokens in A, F |- *. cbn [tokens] in *. rewrite <- app_assoc in A. cbn [app] in A. rewrite zlen_app, !zlen_cons, zlen_le_enc in *.
    change (flat_map (tokens (fe_bv e) (distances 32) None) args) with (flat_map toks args) in *.
    assert (0 <= zlen (flat_map toks args)) by apply zlen_nonneg. pose proof (At_nonneg _ _ _ A).
    pose proof (goes_args args l H Wa V Q p0 _ st A ltac:(lia) G) as R.
    replace (p0 + (zlen (flat_map toks args) + (1 + (1 + Z.of_nat (index_bytes (fe_bv e)))))) with (p0 + zlen (flat_map toks args) + (2 + Z.of_nat (index_bytes (fe_bv e)))) by lia.
    assert (At data (p0 + zlen (flat_map toks args)) ((class_code k + 2) :: (zlen args + 128 * bit p) :: le_enc (index_bytes (fe_bv e)) (f + 32768 * bit m) ++ t)) as A1 by (apply (At_skip _ _ _ _ _ A); reflexivity).
    cbn [somewhere relative_here wrong_here orb]. eapply gets_then; [exact R|lia|]. intros names'.
    destruct (items_texts _ _ Q) as (I1 & I2 & I3). set (items := map item_for (List.combine args l)) in *.
    pose proof (shows_length _ _ _ I2) as L2. unfold variadic in Wd. destruct (f =? 255) eqn:F255; [lia|]. pose proof Wd as Wd'. unfold function in Wd.
    assert (do_funcvar ops (zlen args) f (rev items ++ s_stack st) = Ok (shown_as (FCallVar k p m f args) a :: s_stack st)) as DF.
    { unfold do_funcvar. rewrite Wd. rewrite zlen_app, zlen_rev. pose proof (zlen_nonneg (s_stack st)).
      unfold guard. destruct (least <=? zlen args) eqn:Q1; [|lia]. destruct (zlen args <=? most) eqn:Q2; [|lia]. cbn [andb bind].
      destruct (zlen items + zlen (s_stack st) >=? zlen args) eqn:Q3; [|lia]. cbn [bind].
      assert (items <> []) by (intros ->; rewrite zlen_nil in I3; lia). rewrite <- I3.
      rewrite last_args_rev, drop_args_rev by assumption. unfold call_text. rewrite I1, join_comma_spec.
      unfold shown_as, formula_text. cbn [bare shown grade]. unfold fname, variadic. rewrite F255, Wd'.
      destruct (f =? 1) eqn:F1.
      - assert (f = 1) as -> by lia. assert (2 <= zlen l <= 3) by (injection Wd as _ <- <-; lia).
        rewrite (if_as ops LAWS items l (s_stack st) a I2) by assumption. reflexivity.
      - destruct (f =? 100) eqn:F100; [|injection An as <-; reflexivity].
        rewrite (choose_as ops items l (s_stack st) a I2) by (lia || assumption). reflexivity. }
    erewrite (classed_step _ _ _ _ _ _ _ _ A1); [|apply funcvar_size; exact BV|apply class_nonzero|lia|unfold eval_classed; opcode; rewrite (read_funcvar_at e data _ _ (zlen args) p m f t) with (5 := A1) by lia; cbn [bind s_stack]; rewrite DF; reflexivity].
    reflexivity.
Qed.
End Simulation.

(** ** Evaluation of names *)

Lemma evaluable_below : forall e j f, evaluable e j f -> forall own, own < 0 -> evaluable e own f.
Proof.
  intros e j f. induction f using formula_ind'; intros V own O; cbn [evaluable] in *; auto.
  - unfold foreign in *. destruct (fe_bv e <? 80).
    + destruct V as (x & u & n & v & V1 & V2 & V3 & V4 & _ & V6). exists x, u, n, v. repeat (split; [assumption || lia|]). exact V6.
    + destruct V as (x & n & v & w & V1 & V2 & V3 & _ & V6). exists x, n, v, w. repeat (split; [assumption || lia|]). exact V6.
  - destruct V; split; [apply IHf1|apply IHf2]; assumption.
  - destruct V; split; [apply IHf1|apply IHf2]; assumption.
  - revert V. induction H as [|a args HA H IH]; [auto|]. intros [V1 V2]. split; [exact (HA V1 own O)|exact (IH V2)].
  - destruct V as [V0 V]. split; [exact V0|]. revert V. induction H as [|a args HA H IH]; [auto|]. intros [V1 V2]. split; [exact (HA V1 own O)|exact (IH V2)].
Qed.

(** Just what names mean matters. *)
Lemma outcome_ext : forall {N} (ops : numops N) use use', (forall n, use n = use' n) -> forall f, outcome_of ops use f = outcome_of ops use' f.
Proof.
  intros N ops use use' U f. unfold outcome_of.
  assert (A : answer_of ops use f = answer_of ops use' f).
  { induction f using formula_ind'; cbn [answer_of]; try reflexivity; try (rewrite IHf; reflexivity); try (rewrite IHf1, IHf2; reflexivity); auto.
    - destruct x; cbn [plain_answer]; try reflexivity. rewrite U. reflexivity.
    - match goal with |- match ?x with _ => _ end = match ?y with _ => _ end => assert (x = y) as -> end; [|reflexivity].
      induction H as [|a args HA _ IH]; [reflexivity|]. rewrite HA, IH. reflexivity.
    - match goal with |- match ?x with _ => _ end = match ?y with _ => _ end => assert (x = y) as -> end; [|reflexivity].
      induction H as [|a args HA _ IH]; [reflexivity|]. rewrite HA, IH. reflexivity. }
  rewrite A. assert (S : forall (h : (Z -> option (outcome N)) -> formula -> bool), (forall g, h use g = h use' g) -> somewhere (h use) f = somewhere (h use') f).
  { intros h HH. clear A. induction f using formula_ind'; cbn [somewhere]; rewrite HH; try reflexivity; try (rewrite IHf; reflexivity); try (rewrite IHf1, IHf2; reflexivity).
    - f_equal. induction H as [|a args HA _ IH]; [reflexivity|]. cbn [existsb]. rewrite HA, IH. reflexivity.
    - f_equal. induction H as [|a args HA _ IH]; [reflexivity|]. cbn [existsb]. rewrite HA, IH. reflexivity. }
  rewrite (S relative_here), (S wrong_here); [reflexivity| |].
  - intros g. destruct g; try reflexivity. destruct x; try reflexivity. cbn [wrong_here]. unfold used. rewrite U. reflexivity.
  - intros g. destruct g; try reflexivity. destruct x; try reflexivity. cbn [relative_here]. unfold used. rewrite U. reflexivity.
Qed.

Section Evaluation.
Context {N : Type}.
Variable ops : numops N.
Hypothesis LAWS : number_laws ops.
Variable e : fenv.
Hypothesis BV : biff (fe_bv e).
Variable start : list (nameobj N).               (* the names before any is evaluated *)
Variable defined : list (option formula).        (* formulas of some of them *)

Definition titles : list (list Z * option Z) := map (fun n => (nm_name n, nm_scope n)) start.
Definition strange (j : Z) : bool := match znth start j with Some n => nm_macro n || nm_binary n | None => false end.
Notation means := (name_means ops defined strange).
Notation toks := (formula_tokens e 32 None).

(** The formulas are those of the names. *)
Definition written_as (j : Z) (n : nameobj N) (f : formula) : Prop :=
  (exists extra, nm_raw n = toks f ++ extra) /\ nm_len n = zlen (toks f) /\ formula_holds e titles 32 None f /\ evaluable e j f.
Hypothesis DEFINED : forall j f, znth defined j = Some (Some f) -> exists n, znth start j = Some n /\ written_as j n f.

(** A name holds what it means. *)
Definition worth (n : nameobj N) (f : formula) (o : outcome N) : Prop :=
  nm_stack n = [shown_as ops e titles f (out_answer o)] /\ nm_any_rel n = out_rel o /\ nm_any_err n = out_err o.
Definition good (names : list (nameobj N)) : Prop := map ident names = map ident start /\
  forall d j o n f, means d j = Some o -> znth defined j = Some (Some f) -> znth names j = Some n -> nm_evaluated n = true -> worth n f o.

Lemma means_defined : forall d j o, means d j = Some o -> exists d' f, d = S d' /\ znth defined j = Some (Some f) /\
  outcome_of ops (fun n => option_map (used_as (strange (n - 1))) (means d' (n - 1))) f = Some o.
Proof.
  intros [|d] j o H; cbn [name_means] in H; [discriminate|]. destruct (znth defined j) as [[f|]|]; try discriminate. eauto.
Qed.
Lemma same_ident : forall (names : list (nameobj N)) j n, map ident names = map ident start -> znth start j = Some n -> exists n', znth names j = Some n' /\ ident n' = ident n.
Proof.
  intros names j n I Z0. assert (Q : znth (map ident names) j = znth (map ident start) j) by (rewrite I; reflexivity).
  rewrite !znth_map, Z0 in Q. destruct (znth names j) as [n'|]; [|discriminate]. cbn in Q. exists n'. split; [reflexivity|]. unfold ident in *. congruence.
Qed.

(** Evaluating a name with a meaning: it comes to hold it, unless names are nested deeper
    than there are levels. *)
Definition evaluates (lv : nat) : Prop := forall d j o names, means d j = Some o -> good names ->
  (exists names', evaluate_name_formula ops e lv names j = Ok names' /\ good names' /\ done names' j) \/
  ((lv < d)%nat /\ evaluate_name_formula ops e lv names j = Err XLRDError).

Lemma use_works : forall lv d, evaluates lv ->
  used_well ops e (evaluate_name_formula ops e lv) titles (fun n => option_map (used_as (strange (n - 1))) (means d (n - 1))) good (lv < d)%nat.
Proof.
  intros lv d IH n u s K U G. destruct (means d (n - 1)) as [o|] eqn:M; [|discriminate]. injection U as <-.
  destruct K as (nm & sc & N1 & NE & SC). unfold titles in NE. rewrite nth_error_map in NE.
  destruct (nth_error start (Z.to_nat (n - 1))) as [n0|] eqn:NS; [|discriminate]. injection NE as N2 N3.
  assert (Z0 : znth start (n - 1) = Some n0) by (unfold znth; replace (n - 1 <? 0) with false by lia; exact NS).
  assert (FIN : forall names tgt, good names -> znth names (n - 1) = Some tgt -> nm_evaluated tgt = true ->
    (do tgt <- py_index names (n - 1);
     do res <- (if nm_macro tgt || nm_binary tgt || nm_any_err tgt then Ok unk_opnd else match nm_stack tgt with [o] => Ok o | _ => Err AssertionError end);
     do text <- name_text e tgt;
     Ok (mk_est (mk_operand (o_kind res) (o_value res) LEAF_RANK text :: s_stack s)
        (s_rel s || ((nm_macro tgt || nm_binary tgt || nm_any_err tgt) && nm_any_rel tgt)) (s_err s || (nm_macro tgt || nm_binary tgt || nm_any_err tgt)) names)) =
    Ok (mk_est (operand_as ops (out_answer (used_as (strange (n - 1)) o)) 90 (names_text e titles n) :: s_stack s)
         (s_rel s || out_rel (used_as (strange (n - 1)) o)) (s_err s || out_err (used_as (strange (n - 1)) o)) names)).
  { intros names tgt [GI GV] ZT EV. rewrite (index_at _ _ _ ZT). cbn [bind].
    destruct (same_ident _ _ _ GI Z0) as (n1 & Z1 & ID). rewrite ZT in Z1. injection Z1 as <-. unfold ident in ID. injection ID as I1 I2 I3 I4 I5 I6 I7.
    destruct (means_defined _ _ _ M) as (d' & f & -> & DF & _). destruct (GV _ _ _ _ _ M DF ZT EV) as (W1 & W2 & W3).
    assert (nm_macro tgt || nm_binary tgt = strange (n - 1)) as ->.
    { unfold strange. rewrite Z0. unfold nm_macro, nm_binary. rewrite I1. reflexivity. }
    rewrite W2, W3, W1.
    assert (name_text e tgt = Ok (names_text e titles n)) as ->.
    { unfold name_text, names_text. rewrite I7, I2, N3, N2. unfold titles. rewrite nth_error_map, NS. cbn [option_map]. rewrite N2, N3.
      destruct SC as [->|[S0 SH]]; [reflexivity|]. destruct (sc =? -1) eqn:Q; [lia|]. destruct (nth_error (fe_sheets e) (Z.to_nat sc)) as [sh|] eqn:Q1; [|contradiction].
      rewrite (index_at (fe_sheets e) sc sh) by (unfold znth; replace (sc <? 0) with false by lia; exact Q1). reflexivity. }
    unfold used_as. destruct (strange (n - 1) || out_err o) eqn:Q; cbn [bind andb orb out_answer out_rel out_err]; reflexivity. }
  pose proof G as [GI GV]. destruct (same_ident _ _ _ GI Z0) as (tgt & ZT & ID).
  unfold use_name. rewrite (index_at _ _ _ ZT). cbn [bind]. destruct (nm_evaluated tgt) eqn:EV.
  - left. exists (s_names s). split; [exact G|]. exact (FIN _ _ G ZT EV).
  - destruct (IH _ _ _ _ M G) as [(names' & R & G' & (t' & Z' & E'))|(LT & R)]; rewrite R; cbn [bind].
    + left. exists names'. split; [exact G'|]. exact (FIN _ _ G' Z' E').
    + right. split; [exact LT|reflexivity].
Qed.

(** The run over a formula with a meaning. *)
Lemma loop_works : forall lv d j own o f n names, evaluates lv -> means (S d) j = Some o -> znth defined j = Some (Some f) -> znth start j = Some n ->
  own = j \/ own < 0 -> good names ->
  (exists names', good names' /\ eval_loop ops e (Z.to_nat (nm_len n)) (evaluate_name_formula ops e lv) own (nm_raw n) (nm_len n) 0
     (mk_est (if nm_len n =? 0 then [unk_opnd] else []) false false names) = Ok (mk_est [shown_as ops e titles f (out_answer o)] (out_rel o) (out_err o) names')) \/
  ((lv < d)%nat /\ eval_loop ops e (Z.to_nat (nm_len n)) (evaluate_name_formula ops e lv) own (nm_raw n) (nm_len n) 0
     (mk_est (if nm_len n =? 0 then [unk_opnd] else []) false false names) = Err XLRDError).
Proof.
  intros lv d j own o f n names IH M DF Z0 O G. destruct (DEFINED _ _ DF) as (n' & Z1 & (extra & RW) & LN & H & V). rewrite Z0 in Z1. injection Z1 as <-.
  destruct (means_defined _ _ _ M) as (d' & f' & Q & DF' & OC). injection Q as <-. rewrite DF in DF'. injection DF' as <-.
  unfold outcome_of in OC. match type of OC with option_map _ ?x = _ => destruct x as [a|] eqn:AN end; [|discriminate]. injection OC as <-. cbn [out_answer out_rel out_err].
  rewrite LN, RW. pose proof (tokens_nonempty e 32 None f) as NE. unfold formula_tokens in NE |- *. set (T := tokens (fe_bv e) (distances 32) None f) in *.
  replace (zlen T =? 0) with false by lia.
  assert (V' : evaluable e own f) by (destruct O as [->|O]; [exact V|exact (evaluable_below _ _ _ V _ O)]).
  destruct (formula_goes ops LAWS e BV (evaluate_name_formula ops e lv) own (T ++ extra) (zlen T) titles _ good _ (use_works lv d IH) f H V' a AN 0 extra
    (mk_est [] false false names) (At_0 _) ltac:(unfold formula_tokens; fold T; lia) G) as [(names' & G' & R)|(LT & p1 & s1 & R & P1 & ST)].
  - left. exists names'. split; [exact G'|]. unfold formula_tokens in R. fold T in R. rewrite (eval_loop_done _ _ _ _ _ _ _ _ _ _ _ R) by lia. reflexivity.
  - right. split; [exact LT|]. apply (eval_loop_fails _ _ _ _ _ _ _ _ _ _ _ XLRDError R); try lia. exact ST.
Qed.

Lemma biff_sizes : exists x, szdict (fe_bv e) = Ok x.
Proof. pose proof BV as B. unfold biff in B. repeat (destruct B as [B|B]; [rewrite B; eexists; reflexivity|]). rewrite B. eexists. reflexivity. Qed.

(** Storing what a run gave keeps names good. *)
Lemma good_set : forall lv names k names' n s names2, (forall lv', (lv' <= lv)%nat -> evaluates lv') -> good names -> py_index names k = Ok n ->
  eval_loop ops e (Z.to_nat (nm_len n)) (evaluate_name_formula ops e lv) k (nm_raw n) (nm_len n) 0
     (mk_est (if nm_len n =? 0 then [unk_opnd] else []) false false names) = Ok s -> good (s_names s) -> names' = s_names s ->
  forall n', py_index names' k = Ok n' ->
  list_set names' k (mk_name (nm_flags n') (nm_name n') (nm_extn n') (nm_sheet n') (nm_raw n') (nm_len n') (nm_scope n') true (s_stack s) (s_rel s) (s_err s)) = Ok names2 ->
  good names2.
Proof.
  intros lv names k names' n s names2 IH G P L G' -> n' P' LS. pose proof G as [GI GV]. pose proof G' as [GI' GV'].
  assert (LEN : zlen (s_names s) = zlen names) by (unfold zlen; rewrite <- (map_length ident (s_names s)), GI', <- GI, map_length; reflexivity).
  split; [assert (X := fun Y => list_set_ident _ _ _ _ _ P' Y LS); rewrite (X eq_refl); exact GI'|].
  destruct (list_set_znth _ _ _ _ _ LS) as (R & S1 & S2). set (j := if k <? 0 then k + zlen (s_names s) else k) in *.
  intros d j2 o n2 f M DF Z2 EV. destruct (Z.eq_dec j2 j) as [->|NE]; [|rewrite S2 in Z2 by exact NE; exact (GV' _ _ _ _ _ M DF Z2 EV)].
  rewrite S1 in Z2. injection Z2 as <-. unfold worth. cbn [nm_stack nm_any_rel nm_any_err].
  destruct (DEFINED _ _ DF) as (n0 & Z0 & _). destruct (same_ident _ _ _ GI Z0) as (n1 & Z1 & ID). unfold py_index in P. rewrite <- LEN in P. fold j in P. rewrite Z1 in P. injection P as ->.
  unfold ident in ID. injection ID as I1 I2 I3 I4 I5 I6 I7. rewrite I5, I6 in L.
  destruct (means_defined _ _ _ M) as (d' & f' & -> & _).
  destruct (loop_works lv d' j k o f n0 names (IH lv ltac:(lia)) M DF Z0 ltac:(unfold j; destruct (k <? 0) eqn:Q; lia) G) as [(names' & _ & L')|(_ & L')]; rewrite L' in L; [|discriminate].
  injection L as <-. cbn. auto.
Qed.

Theorem evaluates_all : forall lv, evaluates lv.
Proof.
  intros lv. induction lv as [lv IH] using lt_wf_ind. intros d j o names M G.
  destruct (means_defined _ _ _ M) as (d' & f & -> & DF & _). destruct (DEFINED _ _ DF) as (n0 & Z0 & _). pose proof G as [GI GV].
  destruct (same_ident _ _ _ GI Z0) as (n & ZN & ID). pose proof (index_at _ _ _ ZN) as P.
  destruct lv as [|lv]; cbn [evaluate_name_formula]; rewrite P; cbn [bind]; [right; split; [lia|reflexivity]|].
  destruct biff_sizes as (sz & ->). cbn [bind]. cbv zeta.
  pose proof ID as ID'. unfold ident in ID'. injection ID' as I1 I2 I3 I4 I5 I6 I7.
  destruct (loop_works lv d' j j o f n0 names (IH lv ltac:(lia)) M DF Z0 (or_introl eq_refl) G) as [(names' & G' & L)|(LT & L)]; rewrite <- I5, <- I6 in L; rewrite L; cbn [bind].
  2: { right. split; [lia|reflexivity]. }
  left. cbn [s_names s_stack s_rel s_err]. destruct (same_ident _ _ _ (proj1 G') Z0) as (n' & ZN' & _). rewrite (index_at _ _ _ ZN'). cbn [bind].
  pose proof (znth_Some_range _ _ _ ZN') as R.
  match goal with |- exists x, list_set ?l ?i ?y = Ok x /\ _ => destruct (list_set l i y) as [names2|er] eqn:LS end.
  2: { unfold list_set in LS. destruct (j <? 0) eqn:Q; [lia|]. replace ((0 <=? j) && (j <? zlen names')) with true in LS by lia. discriminate. }
  exists names2. split; [reflexivity|]. destruct (list_set_znth _ _ _ _ _ LS) as (_ & S1 & _). replace (j <? 0) with false in S1 by lia.
  split; [|eexists; split; [exact S1|reflexivity]].
  eapply (good_set lv names j names' n _ names2 ltac:(intros; apply IH; lia) G P L G' eq_refl n' (index_at _ _ _ ZN')). exact LS.
Qed.

(** Evaluating any name keeps names good. *)
Lemma evaluate_good : forall lv names k names', evaluate_name_formula ops e lv names k = Ok names' -> good names -> good names'.
Proof.
  induction lv as [|lv IH]; intros names k names' H G; cbn [evaluate_name_formula] in H; apply bind_ok in H as (n & P & H); [discriminate|].
  apply bind_ok in H as (? & _ & H). cbv zeta in H. apply bind_ok in H as (s & L & H). apply bind_ok in H as (n' & P' & H).
  assert (G' : good (s_names s)).
  { refine (loop_relates ops e (fun a b => good a -> good b) _ _ (evaluate_name_formula ops e lv) _ _ _ _ _ _ _ _ L G); [auto|auto|]. intros a b c X; eauto. }
  exact (good_set lv names k _ n s names' (fun lv' _ => evaluates_all lv') G P L G' eq_refl n' P' H).
Qed.

Lemma eval_names_good : forall todo names names', eval_names ops e todo names = Ok names' -> good names -> good names'.
Proof.
  induction todo as [|x todo IH]; intros names names' H G; cbn [eval_names] in H; [injection H as <-; exact G|].
  apply bind_ok in H as (n & P & H). apply bind_ok in H as (names1 & E & H). apply (IH _ _ H).
  destruct (nm_macro n || nm_binary n || nm_evaluated n); [injection E as <-; exact G|]. exact (evaluate_good _ _ _ _ E G).
Qed.

Hypothesis START : Forall (fun n => nm_evaluated n = false) start.
Lemma start_good : good start.
Proof.
  split; [reflexivity|]. intros d j o n f _ _ Z0 EV. apply znth_In in Z0. rewrite Forall_forall in START. rewrite (START _ Z0) in EV. discriminate.
Qed.

(** Once all names are evaluated, those with a meaning hold it. *)
Theorem c94_holds : forall names' d j o f n, eval_names ops e (zrange 0 (zlen start)) start = Ok names' ->
  means d j = Some o -> znth defined j = Some (Some f) -> znth start j = Some n -> nm_macro n || nm_binary n = false ->
  exists n', znth names' j = Some n' /\ ident n' = ident n /\ nm_evaluated n' = true /\ worth n' f o.
Proof.
  intros names' d j o f n H M DF Z0 OR. pose proof (eval_names_good _ _ _ H start_good) as [GI GV].
  destruct (eval_names_values ops e start names' j n H START Z0 OR) as (n' & s & ZN & ID & EV & _).
  exists n'. split; [exact ZN|]. split; [exact ID|]. split; [exact EV|]. exact (GV _ _ _ _ _ M DF ZN EV).
Qed.

(** If every name has a meaning at most eleven names deep, all can be evaluated. *)
Theorem c94_total : (forall j, 0 <= j < zlen start -> exists d o, (d <= 11)%nat /\ means d j = Some o) ->
  exists names', eval_names ops e (zrange 0 (zlen start)) start = Ok names'.
Proof.
  intros ALL. assert (X : forall todo names, (forall j, In j todo -> 0 <= j < zlen start) -> good names -> exists names', eval_names ops e todo names = Ok names').
  { induction todo as [|x todo IH]; intros names I G; cbn [eval_names]; [eauto|].
    destruct (I x (or_introl eq_refl)) as [X1 X2]. pose proof G as [GI GV].
    destruct (znth start x) as [n0|] eqn:Z0; [|exfalso].
    2: { revert Z0. unfold znth. replace (x <? 0) with false by lia. intros Z0. apply nth_error_None in Z0. unfold zlen in X2. lia. }
    destruct (same_ident _ _ _ GI Z0) as (n & ZN & _). rewrite (index_at _ _ _ ZN). cbn [bind].
    destruct (nm_macro n || nm_binary n || nm_evaluated n); [cbn [bind]; apply IH; auto; intros; apply I; right; assumption|].
    destruct (ALL x (conj X1 X2)) as (d & o & D & M).
    destruct (evaluates_all TOP_LEVELS d x o names M G) as [(names' & -> & G' & _)|(LT & _)]; [|unfold TOP_LEVELS in LT; lia].
    cbn [bind]. apply IH; [intros; apply I; right; assumption|exact G']. }
  apply X; [intros j J; apply in_zrange in J; lia|exact start_good].
Qed.

(** CHOOSE with an index that is a number which is not known, such as the value of a
    function: not an unknown result but an exception. *)
Theorem c94_choose_refuted : forall lv d j names k p m args l n, good names -> znth start j = Some n ->
  written_as j n (FCallVar k p m 100 args) ->
  Forall2 (fun f a => answer_of ops (fun n => option_map (used_as (strange (n - 1))) (means d (n - 1))) f = Some a) args (Sorted NumberSort :: l) ->
  evaluate_name_formula ops e (S lv) names j = Err TypeError \/ ((lv < d)%nat /\ evaluate_name_formula ops e (S lv) names j = Err XLRDError).
Proof.
  intros lv d j names k p m args l n G Z0 ((extra & RW) & LN & H & V) Q. pose proof G as [GI GV].
  destruct (same_ident _ _ _ GI Z0) as (n' & ZN & ID). cbn [evaluate_name_formula]. rewrite (index_at _ _ _ ZN). cbn [bind].
  destruct biff_sizes as (sz & ->). cbn [bind]. cbv zeta. unfold ident in ID. injection ID as I1 I2 I3 I4 I5 I6 I7. rewrite I5, I6, RW, LN.
  set (F := FCallVar k p m 100 args) in *. pose proof (tokens_nonempty e 32 None F) as NE. unfold formula_tokens in NE |- *. set (T := tokens (fe_bv e) (distances 32) None F) in *.
  replace (zlen T =? 0) with false by lia.
  destruct H as (W0 & W1 & W2 & W3 & (name & least & most & Wd & Wn) & Wa). destruct V as [NA V]. apply all_holds in Wa. apply all_evaluable in V.
  assert (A : At (T ++ extra) 0 (flat_map (formula_tokens e 32 None) args ++ (class_code k + 2) :: (zlen args + 128 * bit p) :: le_enc (index_bytes (fe_bv e)) (100 + 32768 * bit m) ++ extra)).
  { unfold T, F. cbn [tokens]. rewrite <- !app_assoc. cbn [app]. apply At_0. }
  assert (LT : zlen T = zlen (flat_map (formula_tokens e 32 None) args) + (2 + Z.of_nat (index_bytes (fe_bv e)))).
  { unfold T, F. cbn [tokens]. rewrite zlen_app, !zlen_cons, zlen_le_enc. change (flat_map (tokens (fe_bv e) (distances 32) None) args) with (flat_map (formula_tokens e 32 None) args). lia. }
  assert (0 <= zlen (flat_map (formula_tokens e 32 None) args)) by apply zlen_nonneg.
  assert (GO : forall f, goes ops e (evaluate_name_formula ops e lv) j (T ++ extra) (zlen T) titles (fun n => option_map (used_as (strange (n - 1))) (means d (n - 1))) good (lv < d)%nat f)
    by (intros f; apply (formula_goes ops LAWS e BV); apply use_works; apply evaluates_all).
  destruct (goes_args ops e (evaluate_name_formula ops e lv) j (T ++ extra) (zlen T) titles _ good (lv < d)%nat args _ (proj2 (Forall_forall _ _) (fun f _ => GO f)) Wa V Q 0 _
    (mk_est [] false false names) A ltac:(lia) G) as [(names' & G' & R)|(LV & p1 & s1 & R & P1 & ST)].
  2: { right. split; [exact LV|]. rewrite (eval_loop_fails _ _ _ _ _ _ _ _ _ _ _ XLRDError R) by (try lia; exact ST). reflexivity. }
  left. rewrite Z.add_0_l in R.
  assert (At (T ++ extra) (zlen (flat_map (formula_tokens e 32 None) args)) ((class_code k + 2) :: (zlen args + 128 * bit p) :: le_enc (index_bytes (fe_bv e)) (100 + 32768 * bit m) ++ extra)) as A1
    by (apply (At_skip _ _ _ _ _ A); lia).
  destruct (items_texts ops e titles _ _ _ Q) as (J1 & J2 & J3). set (items := map _ (List.combine args _)) in *. cbn [s_stack s_rel s_err] in R. rewrite app_nil_r in R.
  rewrite (eval_loop_fails _ _ _ _ _ _ _ _ _ _ _ TypeError R); [reflexivity|lia|lia|lia|].
  erewrite (classed_step ops e (evaluate_name_formula ops e lv) j (T ++ extra)); [|exact A1|apply funcvar_size; exact BV|apply class_nonzero|lia|reflexivity].
  unfold eval_classed. opcode. rewrite (read_funcvar_at e (T ++ extra) _ _ (zlen args) p m 100 extra) with (5 := A1) by lia. cbn [bind s_stack].
  unfold variadic in Wd. cbn [Z.eqb Pos.eqb] in Wd. unfold function in Wd. unfold do_funcvar. rewrite Wd. rewrite zlen_rev.
  unfold guard. destruct (least <=? zlen args) eqn:Q1; [|lia]. destruct (zlen args <=? most) eqn:Q2; [|lia]. cbn [andb bind].
  destruct (zlen items >=? zlen args) eqn:Q3; [|lia]. cbn [bind Z.eqb Pos.eqb]. unfold do_choose.
  inversion J2 as [|o a its l' [K1 K2] J2' E1 E2]. subst a l'. rewrite <- E1 in *.
  rewrite <- J3. rewrite <- (app_nil_r (rev (o :: its))). pose proof (from_top_item (o :: its) [] 0 o eq_refl) as FT. rewrite Z.sub_0_r in FT. rewrite FT. cbn [bind].
  rewrite K1, K2. reflexivity.
Qed.
End Evaluation.
Print Assumptions c94_holds.
Print Assumptions c94_total.
Print Assumptions c94_choose_refuted.

(** The text is that of the formula elsewhere (C93), if no reference is without a sheet. *)
Theorem c94_text : forall {N} (ops : numops N) e names n f o extra, biff (fe_bv e) ->
  worth ops e names n f o -> formula_holds e (titles names) 32 None f -> bare f = f ->
  exists r, nm_result n = Some r /\
    decompile_formula ops e (titles names) (formula_tokens e 32 None f ++ extra) (zlen (formula_tokens e 32 None f)) (Some 32) None None true = Ok (Some (o_text r)).
Proof.
  intros N ops e names n f o extra BV (W & _) H B. unfold nm_result. rewrite W. eexists. split; [reflexivity|].
  pose proof (c93_text ops e (titles names) f 32 None true extra BV ltac:(lia) H) as X. cbn [option_map] in X. rewrite X. unfold shown_as. cbn [o_text operand_as]. rewrite B. reflexivity.
Qed.
Print Assumptions c94_text.

(** Six names: five is 5, area is Data!$A$1:$B$3, pick is IF(five>3,area,"no"), which is
    CHOOSE(2,1,five+1), both is (area,Data:Other!$C$4), and Other's local name same is pick. *)
Module Meant.
Definition name (n : Z) : formula := Plain (Name Reference n [0; 0]).
Definition formulas : list formula := [
  Plain (Int 5);
  Area3 Reference [0; 0] (On 0 0) (Fixed 0) (Fixed 2) (Fixed 0) (Fixed 1);
  FCallVar Reference false false 1 [FBin Greater (name 1) (Plain (Int 3)); name 2; Plain (Bool false)];
  FCallVar Value false false 100 [Plain (Int 2); Plain (Int 1); FBin Plus (name 1) (Plain (Int 1))];
  FParen (FSet Joined (name 2) (Cell3 Reference [1; 0] (On 0 1) (Fixed 3) (Fixed 2)));
  name 3 ].
Definition named (x : list Z * Z * formula) : nameobj Z :=
  let '(nm, sc, f) := x in let t := formula_tokens example_env 32 None f in
  mk_name 0 nm 0 0 t (zlen t) (Some sc) false [] false false.
Definition names : list (nameobj Z) :=
  map named (List.combine (List.combine [s2l "five"; s2l "area"; s2l "pick"; s2l "which"; s2l "both"; s2l "same"] [-1; -1; -1; -1; -1; 1]) formulas).
Definition defined : list (option formula) := map Some formulas.
Definition area : ref3d := cells 0 0 false (Fixed 0) (Fixed 2) (Fixed 0) (Fixed 1).
End Meant.

Lemma int_laws : number_laws int_ops.
Proof. split; [split; [reflexivity|split; reflexivity]|]. split; intros v H; apply Z.eqb_eq in H; subst; reflexivity. Qed.

Example c94_hypotheses :
  Forall (fun n => nm_evaluated n = false) Meant.names /\
  forall j f, znth Meant.defined j = Some (Some f) -> exists n, znth Meant.names j = Some n /\ written_as example_env Meant.names j n f.
Proof.
  assert (K : forall n, 1 <= n <= 3 -> known example_env (titles Meant.names) n).
  { intros n Q. assert (n = 1 \/ n = 2 \/ n = 3) as [->|[->| ->]] by lia.
    - exists (s2l "five"), (-1). repeat split; auto; lia.
    - exists (s2l "area"), (-1). repeat split; auto; lia.
    - exists (s2l "pick"), (-1). repeat split; auto; lia. }
  assert (P0 : place_ok 80 (PropFormulaRefs.leads example_env) (has_name example_env) [0; 0] (On 0 0)).
  { split; [lia|]. split; [reflexivity|]. split.
    - unfold PropFormulaRefs.leads. cbn. exists 0, 0, 0, 0. repeat split; try lia; discriminate.
    - split; [lia|]. split; exists (s2l "Data"); (split; [discriminate|reflexivity]). }
  assert (P1 : place_ok 80 (PropFormulaRefs.leads example_env) (has_name example_env) [1; 0] (On 0 1)).
  { split; [lia|]. split; [reflexivity|]. split.
    - unfold PropFormulaRefs.leads. cbn. exists 1, 0, 0, 1. repeat split; try lia; discriminate.
    - split; [lia|]. split; [exists (s2l "Data")|exists (s2l "Other")]; (split; [discriminate|reflexivity]). }
  split; [repeat constructor|].
  intros j f H. pose proof (znth_Some_range _ _ _ H) as R. cbn in R.
  assert (j = 0 \/ j = 1 \/ j = 2 \/ j = 3 \/ j = 4 \/ j = 5) as J by lia.
  assert (C : forall n, znth Meant.names j = Some n -> nm_raw n = formula_tokens example_env 32 None f ++ [] /\ nm_len n = zlen (formula_tokens example_env 32 None f)).
  { repeat destruct J as [->|J]; [..|subst j]; cbn in H; injection H as <-; intros n Q; injection Q as <-; split; reflexivity. }
  assert (exists n, znth Meant.names j = Some n) as (n & ZN) by (repeat destruct J as [->|J]; [..|subst j]; eexists; reflexivity).
  destruct (C n ZN) as [C1 C2]. exists n. split; [exact ZN|]. split; [eauto|]. split; [exact C2|]. clear C C1 C2 ZN n.
  repeat destruct J as [->|J]; [..|subst j]; cbn in H; injection H as <-; (split; [unfold formula_holds; cbn [holds Meant.name]|cbn; repeat split; discriminate || exact I]);
    repeat match goal with
    | |- stored _ _ _ => unfold stored; cbn [storable]
    | |- _ /\ _ => split
    | |- place_ok _ _ _ [0; 0] _ => exact P0
    | |- place_ok _ _ _ [1; 0] _ => exact P1
    | |- known _ _ _ => apply K
    | |- True => exact I
    | |- exists name least most, variadic 1 = _ /\ _ => exists (s2l "IF"), 2, 3
    | |- exists name least most, variadic 100 = _ /\ _ => exists (s2l "CHOOSE"), 2, 30
    end; try (cbn; lia); try reflexivity; try (left; reflexivity); try discriminate; try (intros Q; discriminate Q); cbn; intuition lia.
Qed.
Example c94_example :
  match eval_names int_ops example_env (zrange 0 6) Meant.names with
  | Ok names => map (fun n => (nm_result n, nm_any_rel n, nm_any_err n)) names = [
      (Some (mk_operand oNUM (VNumber 5) 90 (s2l "5.0")), false, false);
      (Some (mk_operand oREF (VRefs [Meant.area]) 90 (s2l "Data!$A$1:$B$3")), false, false);
      (Some (mk_operand oREF (VRefs [Meant.area]) 90 (s2l "IF(five>3.0,area,FALSE)")), false, false);
      (Some (mk_operand oNUM (VNumber 6) 90 (s2l "CHOOSE(2.0,1.0,five+1.0)")), false, false);
      (Some (mk_operand oREF (VRefs [Meant.area; cells 0 1 false (Fixed 3) (Fixed 3) (Fixed 2) (Fixed 2)]) 80 (s2l "area,Data:Other!$C$4")), false, false);
      (Some (mk_operand oREF (VRefs [Meant.area]) 90 (s2l "pick")), false, false)] /\
      map (name_means int_ops Meant.defined (strange Meant.names) 3) (zrange 0 6) = map (fun a => Some (mk_outcome a false false))
        [Known (Number 5); Located false (Some [Meant.area]); Located false (Some [Meant.area]); Known (Number 6);
         Located false (Some [Meant.area; cells 0 1 false (Fixed 3) (Fixed 3) (Fixed 2) (Fixed 2)]); Located false (Some [Meant.area])]
  | Err _ => False
  end.
Proof. vm_compute. split; reflexivity. Qed.

(** The negative of an error such as #N/A is not an error but a number. *)
Definition sole {N} (f : formula) : nameobj N := let t := formula_tokens example_env 32 None f in mk_name 0 [120] 0 0 t (zlen t) (Some (-1)) false [] false false.
Theorem c94_negated_error_refuted : forall {N} (ops : numops N), exists f, f = FUn Negate (Plain (ErrorCode 0x2A)) /\
  formula_holds example_env [] 32 None f /\
  match eval_names ops example_env [0] [sole f] with
  | Ok [n] => nm_result n = Some (mk_operand oNUM (VNumber (n_neg ops (n_int ops 42))) 70 (45 :: 34 :: s2l "#N/A" ++ [34]))
  | _ => False
  end.
Proof. intros N ops. eexists. split; [reflexivity|]. split; [cbn; auto 10|]. vm_compute. reflexivity. Qed.
Print Assumptions c94_negated_error_refuted.

(** A name that is another name with relative references does not count as having any. *)
Theorem c94_relative_refuted : forall {N} (ops : numops N),
  let f := Cell3 Reference [0; 0] (On 0 0) (Away 1) (Away 1) in let g := Plain (Name Reference 1 [0; 0]) in
  match eval_names ops example_env [0; 1] [sole f; sole g] with
  | Ok [n; m] => nm_any_rel n = true /\ nm_any_rel m = false /\
      exists o o', nm_result n = Some o /\ nm_result m = Some o' /\ o_kind o = oREL /\ o_kind o' = oREL /\ o_value o' = o_value o
  | _ => False
  end.
Proof. intros N ops. vm_compute. split; [reflexivity|]. split; [reflexivity|]. do 2 eexists. repeat split; reflexivity. Qed.
Print Assumptions c94_relative_refuted.

(** Twelve names that each use the next, the last being a number: although all of them have a
    meaning, evaluation fails.  Eleven are fine. *)
Definition chain (k : Z) : list (nameobj Z) :=
  map (fun j => sole (if j =? k then Plain (Int 7) else Plain (Name Reference (j + 1) [0; 0]))) (zrange 1 (k + 1)).
Theorem c94_deep_refuted :
  eval_names int_ops example_env (zrange 0 12) (chain 12) = Err XLRDError /\
  name_means int_ops (map (fun j => Some (if j =? 12 then Plain (Int 7) else Plain (Name Reference (j + 1) [0; 0]))) (zrange 1 13)) (fun _ => false) 12 0 =
    Some (mk_outcome (Known (Number 7)) false false) /\
  match eval_names int_ops example_env (zrange 0 11) (chain 11) with
  | Ok names => map (fun n => option_map o_value (nm_result n)) names = repeat (Some (VNumber 7)) 11
  | Err _ => False
  end.
Proof. vm_compute. repeat split. Qed.
Print Assumptions c94_deep_refuted.
