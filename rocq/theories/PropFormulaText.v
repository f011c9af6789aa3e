(** Property theorems C59 and C61: the text of a formula. *)
From Verif Require Import Base BaseFacts Text CellNames Utf16 Strings StringFacts GridModel SheetObjects
  FormulaTables FormulaModel Decompile FormulaFacts PropBytes FormulaExpr.

Lemma quoted_spec : forall s, quoted s = in_quotes s.
Proof.
  intros s. unfold quoted, in_quotes. cbn [app]. f_equal. f_equal.
  induction s as [|c s IH]; [reflexivity|]. cbn [double_dquotes flat_map].
  destruct (c =? 34) eqn:E; cbn [app]; rewrite IH; [|reflexivity]. reflexivity.
Qed.
Lemma join_comma_spec : forall l, join_comma l = commas l.
Proof. induction l as [|t [|u r] IH]; [reflexivity|reflexivity|]. cbn [join_comma commas] in *. rewrite IH. reflexivity. Qed.
Lemma paren_spec : forall b s, paren b s = wrapped b s.
Proof. reflexivity. Qed.

Lemma biff_szdict : forall bv, biff bv -> exists tab, szdict bv = Ok tab.
Proof. intros bv H. unfold biff in H. repeat (destruct H as [->|H]; [eexists; reflexivity|]). subst. eexists. reflexivity. Qed.

(** The rank the code gives to a level. *)
Definition rank_of (l : Z) : Z := if l =? 8 then 90 else 10 * l.
Lemma level_range : forall e, 1 <= level e <= 8.
Proof.
  intros e. induction e using expr_ind'; cbn [level]; try lia; destruct o; cbn; lia.
Qed.
Lemma rank_lt : forall l m, 1 <= l <= 8 -> 1 <= m <= 7 -> (rank_of l <? 10 * m) = (l <? m).
Proof. intros l m H1 H2. unfold rank_of. destruct (l =? 8) eqn:E; lia. Qed.

Lemma binop_rule_spec : forall o, exists kind,
  binop_rule (binary_code o) = Some (kind, 10 * binary_level o, binary_sign o).
Proof. intros []; eexists; reflexivity. Qed.
Lemma unop_rule_spec : forall o, unop_rule (unary_code o) =
  Some (10 * unary_level o, match o with Negate => [45] | Affirm => [43] | Percent => [] end,
        match o with Percent => [37] | _ => [] end).
Proof. intros []; reflexivity. Qed.

Ltac opcode := cbn [Z.leb Z.eqb Z.compare Pos.compare Pos.compare_cont Pos.eqb].

Section Text.
Context {N : Type}.
Variable ops : numops N.
Variable e : fenv.
Variable names : list (list Z * option Z).
Hypothesis BV : biff (fe_bv e).

(** How numbers and names are written: Python's str, and the name, preceded by its
    sheet if it belongs to one. *)
Definition int_text (n : Z) : list Z := n_str ops (n_float ops n).
Definition num_text (b : list Z) : list Z := n_str ops (n_unpack ops b).
Definition names_text (n : Z) : list Z :=
  match nth_error names (Z.to_nat (n - 1)) with
  | Some (s, Some k) =>
      if k =? -1 then s
      else match nth_error (fe_sheets e) (Z.to_nat k) with Some sh => sh ++ 33 :: s | None => [] end
  | _ => []
  end.
(** The n-th name exists and is global or belongs to an existing sheet. *)
Definition known (n : Z) : Prop :=
  exists s k, 1 <= n /\ nth_error names (Z.to_nat (n - 1)) = Some (s, Some k) /\
    (k = -1 \/ (0 <= k /\ nth_error (fe_sheets e) (Z.to_nat k) <> None)).

Definition stored (x : expr) : Prop := storable (fe_bv e) (fun b t => fe_decode e b = Ok t) known x.
Definition text_of (x : expr) : list Z := written int_text num_text names_text x.

Variables (ft : Z) (browx bcolx : option Z) (r1c1 : bool).
Hypothesis FT : ft = 1 \/ ft = 2 \/ ft = 4 \/ ft = 8 \/ ft = 16 \/ ft = 32.
Variables (data : list Z) (fl : Z).

Notation reach := (d_reach ops e names (Some ft) browx bcolx r1c1 data fl).

Lemma token_not_allowed_ok : forall opx,
  (if Z.land (token_not_allowed opx) ft =? 0 then Ok tt else unexpected_opcode ft) = Ok tt.
Proof.
  intros opx. destruct (_ =? 0); [reflexivity|]. unfold unexpected_opcode.
  destruct FT as [->|[->|[->|[->|[->| ->]]]]]; reflexivity.
Qed.

(** What the loop does with a token of a known kind. *)
Lemma step_plain : forall b t p k x o sz k1 sz1,
  At data p (b :: t) -> token_of (fe_bv e) b = Ok (o, 0, sz) -> sz <> -2 ->
  d_plain ops e ft data fl p o sz k = Ok (k1, sz1) -> 0 < sz1 ->
  d_step ops e names (Some ft) browx bcolx r1c1 data fl p k x = Ok (k1, x, p + sz1).
Proof.
  intros b t p k x o sz k1 sz1 A T S P L. unfold d_step. rewrite (token_at _ _ _ _ _ A), T. cbn [bind].
  unfold guard. destruct (sz =? -2) eqn:E; [lia|]. cbn [negb bind]. rewrite token_not_allowed_ok. cbn [bind Z.eqb].
  rewrite P. cbn [bind]. destruct (sz1 <=? 0) eqn:E1; [lia|]. reflexivity.
Qed.
Lemma step_classed : forall b t p k x o ty sz k1 x1,
  At data p (b :: t) -> token_of (fe_bv e) b = Ok (o, ty, sz) -> ty <> 0 -> 0 < sz ->
  d_classed e names ((ft =? 2) || (ft =? 32) || (ft =? 8) || (ft =? 16)) browx bcolx r1c1 data p o ty k x = Ok (k1, x1) ->
  d_step ops e names (Some ft) browx bcolx r1c1 data fl p k x = Ok (k1, x1, p + sz).
Proof.
  intros b t p k x o ty sz k1 x1 A T Y S P. unfold d_step. rewrite (token_at _ _ _ _ _ A), T. cbn [bind].
  unfold guard. destruct (sz =? -2) eqn:E; [lia|]. cbn [negb bind]. rewrite token_not_allowed_ok. cbn [bind].
  destruct (ty =? 0) eqn:E0; [lia|]. unfold FMLA_TYPE_SHARED, FMLA_TYPE_NAME, FMLA_TYPE_COND_FMT, FMLA_TYPE_DATA_VAL.
  rewrite P. cbn [bind]. destruct (sz <=? 0) eqn:E1; [lia|]. reflexivity.
Qed.

Ltac all_versions := let H := fresh in pose proof BV as H; unfold biff in H;
  repeat (destruct H as [H|H]; [rewrite H; reflexivity|]); rewrite H; reflexivity.

Definition pushed (x : expr) (kind : okind) : ditem := DOp (mk_dop kind (rank_of (level x)) (text_of x)).

(** Whether a formula is an error code. *)
Fixpoint is_error (x : expr) : bool :=
  match x with ErrorCode _ => true | Paren a => is_error a | Spaced _ _ a => is_error a | _ => false end.

(** Running a formula's tokens pushes one operand with its text. *)
Definition runs (x : expr) : Prop := stored x -> forall p t k l,
  At data p (codes (fe_bv e) x ++ t) -> p + zlen (codes (fe_bv e) x) <= fl ->
  exists kind, reach p k l (p + zlen (codes (fe_bv e) x)) (pushed x kind :: k) l /\
    okind_eqb kind oERR = is_error x.

Lemma runs_leaf : forall x b rest o sz kind, codes (fe_bv e) x = b :: rest ->
  token_of (fe_bv e) b = Ok (o, 0, sz) -> sz <> -2 -> okind_eqb kind oERR = is_error x ->
  (stored x -> forall p t k, At data p (b :: rest ++ t) ->
     d_plain ops e ft data fl p o sz k = Ok (pushed x kind :: k, zlen (b :: rest))) -> runs x.
Proof.
  intros x b rest o sz kind C T S KE H W p t k l A F. exists kind. split; [|exact KE]. rewrite C in *.
  rewrite zlen_cons in *. pose proof (zlen_nonneg rest). pose proof (At_nonneg _ _ _ A).
  apply d_reach_one; [lia|].
  eapply (step_plain _ _ _ _ _ _ _ _ _ A T S); [apply (H W p t k A)|lia].
Qed.


Lemma run_int : forall n, runs (Int n).
Proof.
  intros n. eapply (runs_leaf (Int n) 0x1E (le_enc 2 n) 0x1E 3 oNUM); [reflexivity|all_versions|lia|reflexivity|].
  intros W p t k A. cbn [stored storable] in W. unfold d_plain. opcode. unfold read_const. opcode.
  rewrite (At_u16 data t n (p + 1)) by (try lia; apply (At_skip1 _ _ _ _ _ A); reflexivity). reflexivity.
Qed.
Lemma run_num : forall b, runs (Num b).
Proof.
  intros b. eapply (runs_leaf (Num b) 0x1F b 0x1F 9 oNUM); [reflexivity|all_versions|lia|reflexivity|].
  intros W p t k A. cbn [stored storable] in W. unfold d_plain. opcode. unfold read_const. opcode. cbv zeta.
  assert (At data (p + 1) (b ++ t)) as A1 by (apply (At_skip1 _ _ _ _ _ A); reflexivity).
  change (storable (fe_bv e) (fun b0 t0 => fe_decode e b0 = Ok t0) known (Num b)) with (zlen b = 8) in W.
  rewrite (At_slice _ _ _ _ (p + 9) A1) by lia. unfold guard. rewrite W. cbn [Z.eqb Pos.eqb bind].
  rewrite zlen_cons, W. reflexivity.
Qed.
Lemma run_bool : forall b, runs (Bool b).
Proof.
  intros b. eapply (runs_leaf (Bool b) 0x1D [bit b] 0x1D 2 oBOOL); [reflexivity|all_versions|lia|reflexivity|].
  intros W p t k A. unfold d_plain. opcode. unfold read_const. opcode.
  rewrite (At_le data t 1 (bit b) (p + 1) 1); [|destruct b; apply (At_skip1 _ _ _ _ _ A); reflexivity|reflexivity|destruct b; cbn; lia].
  cbn [bind]. destruct b; reflexivity.
Qed.
Lemma run_error : forall c, runs (ErrorCode c).
Proof.
  intros c. eapply (runs_leaf (ErrorCode c) 0x1C [c] 0x1C 2 oERR); [reflexivity|all_versions|lia|reflexivity|].
  intros W p t k A. unfold d_plain. opcode. unfold read_const. opcode.
  unfold stored in W. cbn [storable] in W.
  rewrite (At_le data t 1 c (p + 1) 1); [|cbn [le_enc]; rewrite Z.mod_small by lia; apply (At_skip1 _ _ _ _ _ A); reflexivity|reflexivity|lia].
  cbn [bind]. destruct W as [->|[->|[->|[->|[->|[->| ->]]]]]]; reflexivity.
Qed.
Lemma run_missing : runs Missing.
Proof.
  eapply (runs_leaf Missing 0x16 [] 0x16 1 oMSNG); [reflexivity|all_versions|lia|reflexivity|].
  intros W p t k A. unfold d_plain. opcode. reflexivity.
Qed.
Lemma run_str : forall u, runs (Str u).
Proof.
  intros u. eapply (runs_leaf (Str u) 0x17 (us_field 1 u) 0x17 (-1) oSTRG); [reflexivity|all_versions|lia|reflexivity|].
  intros W p t k A. destruct W as (W8 & W1 & W2). unfold d_plain. opcode. unfold read_str. rewrite W8. cbn [Z.leb Z.compare Pos.compare Pos.compare_cont].
  assert (At data (p + 1) (us_field 1 u ++ t)) as A1 by (apply (At_skip1 _ _ _ _ _ A); reflexivity).
  destruct A1 as (pre & -> & L). change 1 with (Z.of_nat 1) at 2. rewrite L.
  rewrite (c13_unicode_update_pos u 1 pre t W1) by (try lia; auto). cbn [bind].
  rewrite quoted_spec. do 2 f_equal. rewrite zlen_app, zlen_cons. lia.
Qed.
Lemma run_oldstr : forall b s, runs (OldStr b s).
Proof.
  intros b s. eapply (runs_leaf (OldStr b s) 0x17 (zlen b :: b) 0x17 (-1) oSTRG); [reflexivity|all_versions|lia|reflexivity|].
  intros W p t k A. destruct W as (W8 & W1 & W2). unfold d_plain. opcode. unfold read_str.
  destruct (fe_bv e <=? 70) eqn:E; [|pose proof BV as B; unfold biff in B; lia].
  pose proof (zlen_nonneg b).
  assert (At data (p + 1) (zlen b :: b ++ t)) as A1 by (apply (At_skip1 _ _ _ _ _ A); reflexivity).
  unfold unpack_string_update_pos.
  rewrite (At_le data (b ++ t) 1 (zlen b) (p + 1) 1); [|cbn [le_enc]; rewrite Z.mod_small by lia; exact A1|reflexivity|lia].
  cbn [bind]. rewrite (At_slice data b t (p + 1 + 1) (p + 1 + 1 + zlen b));
    [|apply (At_skip1 _ _ _ _ _ A1); reflexivity|reflexivity].
  rewrite W2. cbn [bind]. rewrite quoted_spec. do 2 f_equal. rewrite !zlen_cons. lia.
Qed.

Lemma name_unused_size : forall k, token_of (fe_bv e) (class_code k + 3) =
  Ok (3, Z.shiftr (class_code k) 5, 3 + name_unused (fe_bv e)).
Proof. intros []; all_versions. Qed.

Lemma run_name : forall k n u, runs (Name k n u).
Proof.
  intros kl n u W p t k l A F. destruct W as (Wn & Wk & Wu). exists oUNK. split; [|reflexivity].
  pose proof (At_nonneg _ _ _ A).
  assert (zlen (codes (fe_bv e) (Name kl n u)) = 3 + name_unused (fe_bv e)) as L
    by (cbn [codes]; rewrite zlen_cons, zlen_app, zlen_le_enc, Wu; lia).
  assert (0 < 3 + name_unused (fe_bv e)) by (rewrite <- Wu; pose proof (zlen_nonneg u); lia).
  rewrite L in *. apply d_reach_one; [lia|]. cbn [codes] in A.
  eapply step_classed; [exact A|apply name_unused_size|destruct kl; discriminate|lia|].
  unfold d_classed. opcode.
  rewrite (At_u16 data (u ++ t) n (p + 1)); [|eapply At_skip1; [cbn [app] in A; rewrite <- app_assoc in A; exact A|reflexivity]|lia].
  cbn [bind]. destruct Wk as (s & sc & N1 & Ns & Hk).
  unfold d_name. unfold py_index, znth. cbv zeta.
  destruct (n - 1 <? 0) eqn:E1; [lia|]. cbn [orb]. rewrite E1, Ns. cbn [bind].
  unfold pushed, text_of. cbn [written level]. unfold names_text. rewrite Ns.
  destruct Hk as [->|[K1 K2]]; [reflexivity|].
  destruct (sc =? -1) eqn:E2; [lia|].
  destruct (sc <? 0) eqn:E3; [lia|]. cbn [orb]. rewrite E3.
  destruct (nth_error (fe_sheets e) (Z.to_nat sc)); [|congruence]. reflexivity.
Qed.

(** A token that turns the operands [k] on the stack into [k1]. *)
Lemma then_plain : forall p x k p1 k1 l b t o sz k2, reach p k l p1 k1 l -> At data p (x ++ b :: t) ->
  p1 = p + zlen x -> p1 < fl -> token_of (fe_bv e) b = Ok (o, 0, sz) -> 0 < sz ->
  d_plain ops e ft data fl p1 o sz k1 = Ok (k2, sz) -> reach p k l (p1 + sz) k2 l.
Proof.
  intros p x k p1 k1 l b t o sz k2 R A E F T S P. eapply d_reach_trans; [exact R|].
  pose proof (At_nonneg _ _ _ A). pose proof (zlen_nonneg x).
  apply d_reach_one; [lia|]. eapply step_plain; [apply (At_skip _ _ _ _ _ A E)|exact T|lia|exact P|lia].
Qed.

Lemma codes_nonempty : forall x, 0 < zlen (codes (fe_bv e) x).
Proof.
  intros x. destruct x; cbn [codes]; rewrite ?zlen_app, ?zlen_cons, ?zlen_app, ?zlen_nil;
    repeat match goal with |- context[zlen ?l] => let H := fresh in pose proof (zlen_nonneg l) as H; revert H; generalize (zlen l) end;
    intros; lia.
Qed.

Lemma all_stored : forall args,
  (fix all l := match l with [] => True | x :: r => storable (fe_bv e) (fun b t => fe_decode e b = Ok t) known x /\ all r end) args ->
  Forall stored args.
Proof. induction args as [|a args IH]; intros H; constructor; [apply H|apply IH; apply H]. Qed.

(** Running the arguments of a function pushes them one after the other. *)
Lemma run_args : forall args, Forall runs args -> Forall stored args -> forall p t k l,
  At data p (flat_map (codes (fe_bv e)) args ++ t) -> p + zlen (flat_map (codes (fe_bv e)) args) <= fl ->
  exists items, reach p k l (p + zlen (flat_map (codes (fe_bv e)) args)) (rev items ++ k) l /\
    mapM item_text items = Ok (map text_of args).
Proof.
  induction args as [|a args IH]; intros R S p t k l A F.
  - exists []. cbn. rewrite Z.add_0_r. split; [constructor|reflexivity].
  - cbn [flat_map] in *. rewrite <- app_assoc in A. rewrite zlen_app in *.
    pose proof (zlen_nonneg (flat_map (codes (fe_bv e)) args)).
    inversion_clear R. inversion_clear S.
    destruct (H0 H2 p _ k l A) as (kind & R1 & _); [lia|].
    destruct (IH H1 H3 (p + zlen (codes (fe_bv e) a)) t (pushed a kind :: k) l) as (items & R2 & M);
      [apply (At_skip _ _ _ _ _ A); reflexivity|lia|].
    exists (pushed a kind :: items). split.
    + cbn [rev]. rewrite <- app_assoc. cbn [app]. rewrite Z.add_assoc. eapply d_reach_trans; eassumption.
    + cbn [mapM map]. rewrite M. reflexivity.
Qed.

Lemma last_args_rev : forall {A} (items k : list A), items <> [] -> last_args (zlen items) (rev items ++ k) = items.
Proof.
  intros A items k H. unfold last_args. destruct (zlen items =? 0) eqn:E; [destruct items; [congruence|rewrite zlen_cons in E; pose proof (zlen_nonneg items); lia]|].
  unfold zlen. rewrite Nat2Z.id, <- rev_length, firstn_app, Nat.sub_diag. cbn [firstn]. rewrite app_nil_r, firstn_all. apply rev_involutive.
Qed.
Lemma drop_args_rev : forall {A} (items k : list A), items <> [] -> drop_args (zlen items) (rev items ++ k) = k.
Proof.
  intros A items k H. unfold drop_args. destruct (zlen items =? 0) eqn:E; [destruct items; [congruence|rewrite zlen_cons in E; pose proof (zlen_nonneg items); lia]|].
  unfold zlen. rewrite Nat2Z.id, <- rev_length, skipn_app, Nat.sub_diag, skipn_all. reflexivity.
Qed.

Lemma mapM_length : forall {A B} (f : A -> result B) l r, mapM f l = Ok r -> zlen l = zlen r.
Proof.
  intros A B f. induction l as [|a l IH]; intros r H; cbn [mapM] in H; [injection H as <-; reflexivity|].
  apply bind_ok in H as (b & _ & H). apply bind_ok in H as (bs & E & H). injection H as <-. rewrite !zlen_cons, (IH _ E). reflexivity.
Qed.

Lemma d_call_run : forall name items k ts, mapM item_text items = Ok ts -> items <> [] ->
  d_call name (zlen items) (rev items ++ k) =
  Ok (DOp (mk_dop oUNK 90 (name ++ 40 :: commas ts ++ [41])) :: k).
Proof.
  intros name items k ts M H. unfold d_call. rewrite last_args_rev by exact H. rewrite M. cbn [bind].
  rewrite drop_args_rev by exact H. rewrite join_comma_spec. reflexivity.
Qed.

Lemma func_size : forall k, token_of (fe_bv e) (class_code k + 1) =
  Ok (1, Z.shiftr (class_code k) 5, 1 + Z.of_nat (index_bytes (fe_bv e))).
Proof. intros []; all_versions. Qed.
Lemma funcvar_size : forall k, token_of (fe_bv e) (class_code k + 2) =
  Ok (2, Z.shiftr (class_code k) 5, 2 + Z.of_nat (index_bytes (fe_bv e))).
Proof. intros []; all_versions. Qed.

Lemma read_func_at : forall p b f t, At data p (b :: le_enc (index_bytes (fe_bv e)) f ++ t) ->
  0 <= f < 256 ^ Z.of_nat (index_bytes (fe_bv e)) -> read_func e data p = Ok f.
Proof.
  intros p b f t A F. apply (At_skip1 _ _ _ _ (p + 1)) in A; [|reflexivity].
  unfold read_func, unpack_u16. unfold index_bytes in *.
  destruct (fe_bv e <? 40) eqn:E; destruct (fe_bv e >=? 40) eqn:E1; try lia;
    (eapply At_le; [exact A|reflexivity|exact F]).
Qed.

Lemma read_funcvar_at : forall p b n pr m f t, 0 <= n < 128 -> 0 <= f -> f < 32768 ->
  f + 32768 * bit m < 256 ^ Z.of_nat (index_bytes (fe_bv e)) ->
  At data p (b :: (n + 128 * bit pr) :: le_enc (index_bytes (fe_bv e)) (f + 32768 * bit m) ++ t) ->
  read_funcvar e data p = Ok (n, f).
Proof.
  intros p b n pr m f t Hn F0 F1 F A. apply (At_skip1 _ _ _ _ (p + 1)) in A; [|reflexivity].
  pose proof (At_skip1 _ _ _ _ (p + 2) A ltac:(lia)) as A2.
  unfold read_funcvar.
  assert ((if fe_bv e >=? 40 then 2 else 1) = Z.of_nat (index_bytes (fe_bv e))) as -> by
    (unfold index_bytes; destruct (fe_bv e <? 40) eqn:E; destruct (fe_bv e >=? 40) eqn:E1; lia).
  change ((n + 128 * bit pr) :: le_enc (index_bytes (fe_bv e)) (f + 32768 * bit m) ++ t) with
    (((n + 128 * bit pr) :: le_enc (index_bytes (fe_bv e)) (f + 32768 * bit m)) ++ t) in A.
  rewrite (At_slice _ _ _ _ (p + 2 + Z.of_nat (index_bytes (fe_bv e))) A) by (rewrite zlen_cons, zlen_le_enc; lia).
  rewrite zlen_cons, zlen_le_enc. unfold guard. rewrite Z.eqb_refl. cbn [bind].
  assert (0 <= bit m <= 1) by (destruct m; cbn; lia). assert (0 <= bit pr <= 1) by (destruct pr; cbn; lia).
  rewrite (At_le data (le_enc (index_bytes (fe_bv e)) (f + 32768 * bit m) ++ t) 1 (n + 128 * bit pr) (p + 1) 1);
    [|cbn [le_enc]; rewrite Z.mod_small by lia; exact A|reflexivity|lia]. cbn [bind].
  rewrite (At_le data t _ _ _ _ A2) by lia. cbn [bind].
  do 2 f_equal; lia.
Qed.

Theorem run_all : forall x, runs x.
Proof.
  intros x. induction x using expr_ind'.
  - apply run_int.
  - apply run_num.
  - apply run_str.
  - apply run_oldstr.
  - apply run_bool.
  - apply run_error.
  - apply run_missing.
  - apply run_name.
  - (* Un *)
    intros W p t k l A F. cbn [codes] in *. rewrite <- app_assoc in A. rewrite zlen_app, zlen_cons, zlen_nil in *.
    destruct (IHx W p _ k l A ltac:(lia)) as (kind & R & _).
    exists oNUM. split; [|reflexivity]. rewrite Z.add_0_r, Z.add_assoc.
    eapply (then_plain _ _ _ _ _ _ _ _ (unary_code o) 1 _ R A); [reflexivity|lia|destruct o; all_versions|lia|].
    assert (d_unaryop (unary_code o) (pushed x kind :: k) = Ok (pushed (Un o x) oNUM :: k)) as E.
    { unfold d_unaryop. rewrite unop_rule_spec. unfold pushed. cbn [item_op bind d_rank d_text].
      rewrite rank_lt by (try apply level_range; destruct o; cbn; lia).
      unfold text_of. cbn [written level]. rewrite paren_spec.
      destruct o; cbn [app]; rewrite ?app_nil_r; reflexivity. }
    destruct o; unfold d_plain; cbn [unary_code] in *; opcode; rewrite E; reflexivity.
  - (* Bin *)
    intros W p t k l A F. destruct W as [W1 W2]. cbn [codes] in *. rewrite <- !app_assoc in A.
    rewrite !zlen_app, zlen_cons, zlen_nil in *. pose proof (zlen_nonneg (codes (fe_bv e) x2)).
    destruct (IHx1 W1 p _ k l A ltac:(lia)) as (kind1 & R1 & _).
    assert (At data (p + zlen (codes (fe_bv e) x1)) (codes (fe_bv e) x2 ++ binary_code o :: t)) as A2
      by (apply (At_skip _ _ _ _ _ A); reflexivity).
    destruct (IHx2 W2 _ _ (pushed x1 kind1 :: k) l A2 ltac:(lia)) as (kind2 & R2 & _).
    destruct (binop_rule_spec o) as (kind & B). exists kind.
    split; [|destruct o; injection B as <-; reflexivity].
    replace (p + (zlen (codes (fe_bv e) x1) + (zlen (codes (fe_bv e) x2) + (1 + 0))))
      with (p + zlen (codes (fe_bv e) x1) + zlen (codes (fe_bv e) x2) + 1) by lia.
    eapply d_reach_trans; [exact R1|].
    eapply (then_plain _ _ _ _ _ _ _ _ (binary_code o) 1 _ R2 A2); [reflexivity|lia|destruct o; all_versions|lia|].
    assert (d_binop (binary_code o) (pushed x2 kind2 :: pushed x1 kind1 :: k) = Ok (pushed (Bin o x1 x2) kind :: k)) as E.
    { unfold d_binop. rewrite B. unfold pushed. cbn [item_op bind]. unfold d_infix. cbn [d_rank d_text].
      rewrite !rank_lt by (try apply level_range; destruct o; cbn; lia).
      unfold text_of. cbn [written level]. rewrite !paren_spec.
      replace (rank_of (binary_level o)) with (10 * binary_level o) by (destruct o; reflexivity). reflexivity. }
    destruct o; unfold d_plain; cbn [binary_code] in *; opcode; rewrite E; reflexivity.
  - (* Paren *)
    intros W p t k l A F. cbn [codes] in *. rewrite <- app_assoc in A. rewrite zlen_app, zlen_cons, zlen_nil in *.
    destruct (IHx W p _ k l A ltac:(lia)) as (kind & R & KE).
    exists kind. split; [|exact KE]. rewrite Z.add_0_r, Z.add_assoc.
    eapply (then_plain _ _ _ _ _ _ _ _ 0x15 1 _ R A); [reflexivity|lia|all_versions|lia|reflexivity].
  - (* Spaced *)
    intros W p t k l A F. destruct W as (S1 & S2 & S3 & S4 & W). cbn [codes app] in *.
    rewrite !zlen_cons, zlen_app, zlen_le_enc in *. rewrite <- app_assoc in A.
    pose proof (At_nonneg _ _ _ A). pose proof (codes_nonempty x).
    assert (At data (p + 1) ((s :: le_enc 2 w) ++ codes (fe_bv e) x ++ t)) as A1 by (apply (At_skip1 _ _ _ _ _ A); reflexivity).
    assert (At data (p + 2) (le_enc 2 w ++ codes (fe_bv e) x ++ t)) as A2 by (apply (At_skip1 _ _ _ _ _ A1); lia).
    assert (At data (p + 4) (codes (fe_bv e) x ++ t)) as A4 by (apply (At_skip _ _ _ _ _ A2); rewrite zlen_le_enc; lia).
    destruct (IHx W (p + 4) t k l A4 ltac:(lia)) as (kind & R & KE). exists kind. split; [|exact KE].
    replace (p + (1 + (1 + (Z.of_nat 2 + zlen (codes (fe_bv e) x))))) with (p + 4 + zlen (codes (fe_bv e) x)) by lia.
    eapply d_reach_step; [lia| |exact R].
    eapply step_plain; [exact A|all_versions|lia| |lia].
    unfold d_plain. opcode.
    rewrite (At_slice _ _ _ _ (p + 4) A1) by (rewrite zlen_cons, zlen_le_enc; lia).
    rewrite zlen_cons, zlen_le_enc. cbn [guard Z.add Z.of_nat Z.eqb Pos.of_succ_nat Pos.succ Pos.add Pos.eqb bind].
    rewrite (At_le data (le_enc 2 w ++ codes (fe_bv e) x ++ t) 1 s (p + 1) 1);
      [|cbn [le_enc]; rewrite (Z.mod_small s) by lia; exact A1|reflexivity|lia]. cbn [bind].
    rewrite (At_u16 _ _ _ _ A2) by lia. cbn [bind].
    destruct (s =? 4) eqn:E4; [lia|]. destruct (s =? 16) eqn:E16; [lia|]. reflexivity.
  - (* Call *)
    intros W p t k0 l A F. destruct W as (Wf & (name & most & Wd) & Wa). apply all_stored in Wa.
    cbn [codes] in *. rewrite <- app_assoc in A. cbn [app] in A. rewrite zlen_app, zlen_cons, zlen_le_enc in *.
    destruct (run_args args H Wa p _ k0 l A ltac:(lia)) as (items & R & M).
    exists oUNK. split; [|reflexivity]. pose proof (At_nonneg _ _ _ A). pose proof (zlen_nonneg (flat_map (codes (fe_bv e)) args)).
    rewrite Z.add_assoc. eapply d_reach_trans; [exact R|]. apply d_reach_one; [lia|].
    assert (At data (p + zlen (flat_map (codes (fe_bv e)) args))
              ((class_code k + 1) :: le_enc (index_bytes (fe_bv e)) f ++ t)) as A1
      by (apply (At_skip _ _ _ _ _ A); reflexivity).
    eapply step_classed; [exact A1|apply func_size|destruct k; discriminate|lia|].
    unfold d_classed. opcode. rewrite (read_func_at _ _ _ _ A1 Wf). cbn [bind].
    assert (d_func f (rev items ++ k0) = Ok (pushed (Call k f args) oUNK :: k0)) as E; [|rewrite E; reflexivity].
    unfold function in Wd. unfold d_func. rewrite Wd.
    pose proof (mapM_length _ _ _ M) as L. rewrite zlen_map in L.
    rewrite zlen_app, zlen_rev. pose proof (zlen_nonneg k0).
    unfold guard. destruct (zlen items + zlen k0 >=? zlen args) eqn:G; [|lia]. cbn [bind].
    unfold pushed, text_of. cbn [written level]. unfold fname, function. rewrite Wd.
    destruct (zlen args =? 0) eqn:Z0; cbn [negb].
    + apply Z.eqb_eq in Z0. rewrite Z0 in L. apply zlen_zero_nil in Z0. apply zlen_zero_nil in L. subst. reflexivity.
    + rewrite <- L. rewrite (d_call_run _ _ _ _ M) by (intros ->; rewrite zlen_nil in L; lia). reflexivity.
  - (* CallVar *)
    intros W p0 t k0 l A F. destruct W as (W0 & W1 & W2 & W3 & (name & least & most & Wd & Wn) & Wa). apply all_stored in Wa.
    cbn [codes] in *. rewrite <- app_assoc in A. cbn [app] in A. rewrite zlen_app, !zlen_cons, zlen_le_enc in *.
    destruct (run_args args H Wa p0 _ k0 l A ltac:(lia)) as (items & R & M).
    exists oUNK. split; [|reflexivity]. pose proof (At_nonneg _ _ _ A). pose proof (zlen_nonneg (flat_map (codes (fe_bv e)) args)).
    replace (p0 + (zlen (flat_map (codes (fe_bv e)) args) + (1 + (1 + Z.of_nat (index_bytes (fe_bv e))))))
      with (p0 + zlen (flat_map (codes (fe_bv e)) args) + (2 + Z.of_nat (index_bytes (fe_bv e)))) by lia.
    eapply d_reach_trans; [exact R|]. apply d_reach_one; [lia|].
    assert (At data (p0 + zlen (flat_map (codes (fe_bv e)) args))
              ((class_code k + 2) :: (zlen args + 128 * bit p) :: le_enc (index_bytes (fe_bv e)) (f + 32768 * bit m) ++ t)) as A1
      by (apply (At_skip _ _ _ _ _ A); reflexivity).
    eapply step_classed; [exact A1|apply funcvar_size|destruct k; discriminate|lia|].
    unfold d_classed. opcode. rewrite (read_funcvar_at _ _ (zlen args) p m f t) with (5 := A1) by lia. cbn [bind].
    assert (d_funcvar (zlen args) f (rev items ++ k0) = Ok (pushed (CallVar k p m f args) oUNK :: k0)) as E; [|rewrite E; reflexivity].
    unfold d_funcvar. unfold variadic, function in Wd. rewrite Wd.
    pose proof (mapM_length _ _ _ M) as L. rewrite zlen_map in L.
    rewrite zlen_app, zlen_rev. pose proof (zlen_nonneg k0).
    unfold guard. destruct (least <=? zlen args) eqn:G1; [|lia]. destruct (zlen args <=? most) eqn:G2; [|lia]. cbn [andb bind].
    destruct (zlen items + zlen k0 >=? zlen args) eqn:G; [|lia]. cbn [bind].
    unfold pushed, text_of. cbn [written level]. unfold fname, variadic, function. rewrite Wd.
    rewrite <- L. rewrite (d_call_run _ _ _ _ M) by (intros ->; rewrite zlen_nil in L; lia). reflexivity.
Qed.
End Text.

(** C59: decompiling the tokens of any storable formula gives its text, whatever
    follows the tokens. *)
Theorem c59_text : forall {N} (ops : numops N) e names x ft browx bcolx r1c1 extra,
  biff (fe_bv e) -> (ft = 1 \/ ft = 2 \/ ft = 4 \/ ft = 8 \/ ft = 16 \/ ft = 32) -> stored e names x ->
  decompile_formula ops e names (codes (fe_bv e) x ++ extra) (zlen (codes (fe_bv e) x)) (Some ft) browx bcolx r1c1
    = Ok (Some (text_of ops e names x)).
Proof.
  intros N ops e names x ft browx bcolx r1c1 extra BV FT W. unfold decompile_formula.
  destruct (biff_szdict _ BV) as (tab & ->). cbn [bind]. cbv zeta.
  pose proof (codes_nonempty e x) as L. destruct (_ =? 0) eqn:E; [lia|].
  destruct (run_all ops e names BV ft browx bcolx r1c1 FT (codes (fe_bv e) x ++ extra) (zlen (codes (fe_bv e) x)) x W 0 extra [] None)
    as (kind & R & _); [apply At_0|lia|].
  rewrite (d_loop_done _ _ _ _ _ _ _ _ _ _ _ _ _ _ _ _ R) by lia. reflexivity.
Qed.
Print Assumptions c59_text.

(** Numbers for the examples: integers, written the way Python writes floats. *)
Definition int_ops : numops Z := {|
  n_int v := v; n_float v := v; n_unpack b := le_val b; n_str v := fmt_d v ++ s2l ".0";
  n_parse _ := Err ValueError;
  n_add a b := Ok (a + b); n_sub a b := Ok (a - b); n_mul a b := Ok (a * b);
  n_div a b := if b =? 0 then Err ZeroDivisionError else Ok (a / b);
  n_pow a b := Ok (a ^ b); n_neg a := - a; n_pct a := Ok (a / 100);
  n_lt a b := Ok (a <? b); n_le a b := Ok (a <=? b); n_eq a b := a =? b;
  n_trunc a := Ok a; n_as_int a := Some a; refs_str _ := []; refs_cmp _ _ _ := Err TypeError |}.
Definition example_env : fenv :=
  mk_fenv 80 (fun b => Ok b) [s2l "Data"; s2l "Other"] [0; 1] [(0, 0, 0); (0, 0, 1)] [] (Some 0) None [].
Definition example_names : list (list Z * option Z) := [(s2l "rate", Some (-1)); (s2l "base", Some 1)].

(** (rate + 2) * Other!base & IF(TRUE, -(3 ^ 4), MAX(5, 6)) *)
Definition example_formula : expr :=
  Bin Concat
    (Bin Times (Paren (Bin Plus (Name Value 1 [0; 0]) (Spaced 0x40 3 (Int 2)))) (Name Reference 2 [0; 0]))
    (CallVar Value false false 1
       [Bool true; Un Negate (Paren (Bin Power (Int 3) (Int 4))); CallVar Value false false 7 [Int 5; Int 6]]).
Example c59_example :
  stored example_env example_names example_formula /\
  text_of int_ops example_env example_names example_formula
    = s2l "(rate+2.0)*Other!base&IF(TRUE,-(3.0^4.0),MAX(5.0,6.0))".
Proof.
  split; [|vm_compute; reflexivity]. unfold stored. cbn.
  repeat split; try lia; try discriminate.
  - exists (s2l "rate"), (-1). cbn. repeat split; try lia; auto.
  - exists (s2l "base"), 1. cbn. repeat split; try lia; auto. right. split; [lia|discriminate].
  - exists (s2l "IF"), 2, 3. split; [reflexivity|lia].
  - exists (s2l "MAX"), 1, 30. split; [reflexivity|lia].
Qed.

(** ** C61 *)

(** With one argument or more the token uses its arguments only: what lies below
    them on the stack changes nothing and stays. *)
Definition add_below {A} (k : list A) (r : result (list A)) : result (list A) := do s <- r; Ok (s ++ k).

Lemma last_args_below : forall {A} (args k : list A), args <> [] -> last_args (zlen args) (args ++ k) = last_args (zlen args) args.
Proof.
  intros A args k H. unfold last_args. destruct (_ =? 0) eqn:E; [destruct args; [congruence|rewrite zlen_cons in E; pose proof (zlen_nonneg args); lia]|].
  unfold zlen. rewrite Nat2Z.id, firstn_app, Nat.sub_diag. cbn [firstn]. rewrite app_nil_r. reflexivity.
Qed.
Lemma drop_args_below : forall {A} (args k : list A), args <> [] -> drop_args (zlen args) (args ++ k) = k /\ drop_args (zlen args) args = [].
Proof.
  intros A args k H. unfold drop_args. destruct (_ =? 0) eqn:E; [destruct args; [congruence|rewrite zlen_cons in E; pose proof (zlen_nonneg args); lia]|].
  unfold zlen. rewrite Nat2Z.id, skipn_app, Nat.sub_diag, skipn_all. split; reflexivity.
Qed.

Theorem c61_positive : forall f args below, args <> [] ->
  d_funcvar (zlen args) f (args ++ below) = add_below below (d_funcvar (zlen args) f args).
Proof.
  intros f args k H. unfold d_funcvar.
  destruct (if f =? 255 then _ else _) as [[[name least] most]|]; [|reflexivity].
  unfold guard. destruct (_ && _); [|reflexivity]. cbn [bind]. rewrite zlen_app.
  pose proof (zlen_nonneg k). destruct (zlen args + zlen k >=? zlen args) eqn:G1; [|lia].
  destruct (zlen args >=? zlen args) eqn:G2; [|lia]. cbn [bind]. unfold d_call.
  rewrite last_args_below by exact H. destruct (drop_args_below args k H) as [-> ->].
  destruct (mapM item_text _); reflexivity.
Qed.
Print Assumptions c61_positive.

(** The evaluator: IF and CHOOSE look at their arguments, given that truncating a
    number equal to 0 or 1 gives that number, and one from 1 to below n gives an
    index in that range. *)
Definition truncates {N} (ops : numops N) : Prop :=
  (forall v k, n_eq ops v (n_int ops k) = true -> n_trunc ops v = Ok k) /\
  (forall v n i, n_le ops (n_int ops 1) v = Ok true -> n_lt ops v (n_int ops n) = Ok true -> n_trunc ops v = Ok i -> 1 <= i < n).

Lemma from_top_below : forall {A} (args k : list A) i, 1 <= i <= zlen args -> from_top (args ++ k) i = from_top args i.
Proof.
  intros A args k i H. unfold from_top. destruct (i <=? 0) eqn:E; [lia|]. unfold py_index, znth. cbv zeta.
  destruct (i - 1 <? 0) eqn:E1; [lia|]. cbn [orb]. rewrite E1.
  unfold zlen in H. rewrite nth_error_app1 by lia. reflexivity.
Qed.

Theorem c61_positive_evaluated : forall {N} (ops : numops N) f args below, truncates ops -> args <> [] ->
  do_funcvar ops (zlen args) f (args ++ below) = add_below below (do_funcvar ops (zlen args) f args).
Proof.
  intros N ops f args k [T1 T2] H. unfold do_funcvar.
  destruct (dget Z.eqb func_defs f) as [[[name least] most]|] eqn:D; [|reflexivity].
  unfold guard. destruct (_ && _) eqn:B; [|reflexivity]. cbn [bind]. rewrite zlen_app.
  pose proof (zlen_nonneg k). destruct (zlen args + zlen k >=? zlen args) eqn:G1; [|lia].
  destruct (zlen args >=? zlen args) eqn:G2; [|lia]. cbn [bind]. unfold call_text.
  rewrite last_args_below by exact H. destruct (drop_args_below args k H) as [-> ->].
  assert (1 <= zlen args) by (destruct args; [congruence|rewrite zlen_cons; pose proof (zlen_nonneg args); lia]).
  destruct (f =? 1) eqn:F1.
  - apply Z.eqb_eq in F1. subst f. vm_compute in D. injection D as <- <- <-. apply andb_true_iff in B as [B1 B2].
    unfold do_if. rewrite from_top_below by lia. destruct (from_top args (zlen args)) as [test|]; [|reflexivity].
    cbn [bind]. destruct (o_kind test); try reflexivity;
      (destruct (o_value test) as [|v| |]; try reflexivity;
       destruct (zero_or_one ops (VNumber v)) eqn:Z; cbn [negb]; [|reflexivity];
       destruct (n_eq ops v (n_int ops 0)) eqn:E0;
       [rewrite (T1 _ _ E0)|cbn [zero_or_one] in Z; rewrite E0 in Z; rewrite (T1 v 1 Z)];
       (destruct (zlen args =? 2) eqn:E2; cbn [andb]; [try reflexivity|]);
       cbn [bind]; (rewrite from_top_below by lia; destruct (from_top args _) as [a|]; [|reflexivity]; cbn [bind]; destruct (choose ops a); reflexivity)).
  - destruct (f =? 100) eqn:F2; [|reflexivity].
    unfold do_choose. rewrite from_top_below by lia. destruct (from_top args (zlen args)) as [test|]; [|reflexivity].
    cbn [bind]. destruct (o_kind test); try reflexivity.
    destruct (o_value test) as [|v| |]; try reflexivity.
    destruct (n_le ops (n_int ops 1) v) as [[]|] eqn:L1; try reflexivity. cbn [bind negb].
    destruct (n_lt ops v (n_int ops (zlen args))) as [[]|] eqn:L2; try reflexivity. cbn [bind negb].
    destruct (n_trunc ops v) as [i|] eqn:L3; [|reflexivity]. cbn [bind].
    specialize (T2 _ _ _ L1 L2 L3). rewrite from_top_below by lia. destruct (from_top args _) as [a|]; [|reflexivity]. cbn [bind]. destruct (choose ops a). reflexivity.
Qed.
Print Assumptions c61_positive_evaluated.
Example c61_positive_example : truncates int_ops /\
  do_funcvar int_ops 2 1 [mk_operand oNUM (VNumber 7) 90 (s2l "7"); mk_operand oBOOL (VNumber 1) 90 (s2l "TRUE");
                          mk_operand oNUM (VNumber 3) 90 (s2l "3")]
  = Ok [mk_operand oNUM (VNumber 7) 90 (s2l "IF(TRUE,7)"); mk_operand oNUM (VNumber 3) 90 (s2l "3")].
Proof.
  split; [|reflexivity]. split; cbn.
  - intros v k E. apply Z.eqb_eq in E. congruence.
  - intros v n i A B C. injection A as A. injection B as B. injection C as <-. lia.
Qed.

(** Without arguments the whole stack is taken. *)
Theorem c61_zero : forall f name most stk ts, dget Z.eqb func_defs f = Some (name, 0, most) -> f <> 255 -> 0 <= most ->
  mapM item_text (rev stk) = Ok ts ->
  d_funcvar 0 f stk = Ok [DOp (mk_dop oUNK FUNC_RANK (name ++ s2l "(" ++ commas ts ++ s2l ")"))].
Proof.
  intros f name most stk ts D F M T. unfold d_funcvar. destruct (f =? 255) eqn:E; [lia|]. rewrite D.
  unfold guard. destruct (0 <=? most) eqn:E1; [|lia]. cbn [Z.leb Z.compare andb bind].
  destruct (zlen stk >=? 0) eqn:E2; [|pose proof (zlen_nonneg stk); lia]. cbn [bind]. unfold d_call, last_args, drop_args.
  cbn [Z.eqb]. rewrite T. cbn [bind]. rewrite join_comma_spec. reflexivity.
Qed.
Print Assumptions c61_zero.

(** So no formula [x op F()] in which F is called without arguments this way can be
    decompiled. *)
Theorem c61_no_arguments_refuted : forall {N} (ops : numops N) e names x o k f name most ft browx bcolx r1c1 extra,
  biff (fe_bv e) -> (ft = 1 \/ ft = 2 \/ ft = 4 \/ ft = 8 \/ ft = 16 \/ ft = 32) -> stored e names x ->
  0 <= f < 256 ^ Z.of_nat (index_bytes (fe_bv e)) -> f < 32768 -> f <> 255 ->
  dget Z.eqb func_defs f = Some (name, 0, most) -> 0 <= most ->
  let tokens := codes (fe_bv e) x ++ (class_code k + 2) :: 0 :: le_enc (index_bytes (fe_bv e)) f ++ [binary_code o] in
  decompile_formula ops e names (tokens ++ extra) (zlen tokens) (Some ft) browx bcolx r1c1 = Err AssertionError.
Proof.
  intros N ops e names x o k f name most ft browx bcolx r1c1 extra BV FT W F0 F1 F2 D M tokens.
  unfold decompile_formula. destruct (biff_szdict _ BV) as (tab & ->). cbn [bind]. cbv zeta.
  pose proof (codes_nonempty e x) as L.
  assert (zlen tokens = zlen (codes (fe_bv e) x) + (2 + Z.of_nat (index_bytes (fe_bv e))) + 1) as LT
    by (unfold tokens; rewrite zlen_app, !zlen_cons, zlen_app, zlen_le_enc, zlen_cons, zlen_nil; lia).
  destruct (_ =? 0) eqn:E; [lia|]. set (fl := zlen tokens) in *. clearbody fl. unfold tokens.
  rewrite <- app_assoc. cbn [app]. rewrite <- app_assoc. cbn [app].
  set (rest := (class_code k + 2) :: 0 :: le_enc (index_bytes (fe_bv e)) f ++ binary_code o :: extra).
  set (data := codes (fe_bv e) x ++ rest).
  destruct (run_all ops e names BV ft browx bcolx r1c1 FT data fl x W 0 rest [] None)
    as (kind & R & _); [apply At_0|lia|].
  assert (At data (0 + zlen (codes (fe_bv e) x)) rest) as A by (eapply At_skip; [apply At_0|reflexivity]).
  set (p := 0 + zlen (codes (fe_bv e) x)) in *.
  assert (d_reach ops e names (Some ft) browx bcolx r1c1 data fl 0 [] None
            (p + (2 + Z.of_nat (index_bytes (fe_bv e))))
            [DOp (mk_dop oUNK FUNC_RANK (name ++ s2l "(" ++ commas [text_of ops e names x] ++ s2l ")"))] None) as R2.
  { eapply d_reach_trans; [exact R|]. apply d_reach_one; [lia|].
    eapply step_classed; [exact FT|exact A|apply funcvar_size; exact BV|destruct k; discriminate|lia|].
    unfold d_classed. opcode.
    rewrite (read_funcvar_at e data p (class_code k + 2) 0 false false f (binary_code o :: extra)); try lia;
      [|cbn [bit]; lia|cbn [bit]; rewrite !Z.mul_0_r, !Z.add_0_r; exact A].
    cbn [bind]. erewrite c61_zero; [|exact D|exact F2|exact M|reflexivity]. reflexivity. }
  match goal with |- (do stk <- ?L; _) = _ => assert (L = Err AssertionError) as ->; [|reflexivity] end.
  eapply d_loop_fails; [exact R2|lia|lia|lia|].
  assert (At data (p + (2 + Z.of_nat (index_bytes (fe_bv e)))) (binary_code o :: extra)) as A2.
  { apply (At_skip data ((class_code k + 2) :: 0 :: le_enc (index_bytes (fe_bv e)) f) (binary_code o :: extra) p); [exact A|].
    rewrite !zlen_cons, zlen_le_enc. lia. }
  unfold d_step. rewrite (token_at _ _ _ _ _ A2).
  assert (token_of (fe_bv e) (binary_code o) = Ok (binary_code o, 0, 1)) as ->
    by (unfold biff in BV; destruct o; repeat (destruct BV as [->|BV]; [reflexivity|]); rewrite BV; reflexivity).
  cbn [bind guard Z.eqb negb]. rewrite token_not_allowed_ok by exact FT. cbn [bind].
  destruct o; reflexivity.
Qed.
Print Assumptions c61_no_arguments_refuted.
(** 1+ROW() *)
Example c61_row : stored example_env example_names (Int 1) /\ dget Z.eqb func_defs 8 = Some (s2l "ROW", 0, 1) /\
  decompile_formula int_ops example_env example_names [0x1E; 1; 0; 0x42; 0; 8; 0; 0x03] 8 (Some 1) None None false
    = Err AssertionError.
Proof. repeat split; cbn; try lia. Qed.

(** The evaluator of defined names fails on [v op F()] likewise. *)
Theorem c61_no_arguments_evaluated_refuted : forall {N} (ops : numops N) e levels names namex n v o k f name most extra,
  biff (fe_bv e) -> 40 <= fe_bv e -> py_index names namex = Ok n -> 0 <= v < 65536 -> 0 <= f < 32768 ->
  f <> 1 -> f <> 100 ->
  dget Z.eqb func_defs f = Some (name, 0, most) -> 0 <= most ->
  let tokens := (0x1E :: le_enc 2 v) ++ (class_code k + 2) :: 0 :: le_enc 2 f ++ [binary_code o] in
  nm_raw n = tokens ++ extra -> nm_len n = zlen tokens ->
  evaluate_name_formula ops e (S levels) names namex = Err AssertionError.
Proof.
  intros N ops e levels names namex n v o k f name most extra BV B4 I V F N1 N100 D M tokens R L.
  cbn [evaluate_name_formula]. rewrite I. cbn [bind]. destruct (biff_szdict _ BV) as (tab & ->). cbn [bind]. cbv zeta.
  assert (zlen tokens = 8) as LT by (unfold tokens; rewrite zlen_app, !zlen_cons, zlen_app, !zlen_le_enc, zlen_cons, zlen_nil; lia).
  rewrite L, LT. cbn [Z.eqb Z.to_nat]. rewrite R. set (data := tokens ++ extra).
  assert (At data 0 ((0x1E :: le_enc 2 v) ++ (class_code k + 2) :: 0 :: le_enc 2 f ++ binary_code o :: extra)) as A0.
  { unfold data, tokens. rewrite <- app_assoc. cbn [app]. rewrite <- app_assoc. cbn [app]. apply At_0. }
  assert (At data 3 ((class_code k + 2) :: 0 :: le_enc 2 f ++ binary_code o :: extra)) as A3
    by (apply (At_skip _ _ _ _ _ A0); rewrite zlen_cons, zlen_le_enc; lia).
  assert (At data 7 (binary_code o :: extra)) as A7.
  { apply (At_skip data ((class_code k + 2) :: 0 :: le_enc 2 f) (binary_code o :: extra) 3); [exact A3|rewrite !zlen_cons, zlen_le_enc; lia]. }
  set (rec := evaluate_name_formula ops e levels). set (s0 := mk_est [] false false names).
  assert (e_reach ops e rec namex data 8 0 s0 3 (push (mk_operand oNUM (VNumber (n_float ops v)) LEAF_RANK (n_str ops (n_float ops v))) s0)) as R1.
  { apply e_reach_one; [lia|]. unfold eval_step. rewrite (token_at _ _ _ _ _ A0).
    assert (token_of (fe_bv e) 0x1E = Ok (0x1E, 0, 3)) as -> by (unfold biff in BV; repeat (destruct BV as [->|BV]; [reflexivity|]); rewrite BV; reflexivity).
    cbn [bind guard Z.eqb Pos.eqb negb]. unfold eval_plain. opcode. unfold read_const. opcode.
    rewrite (At_u16 data ((class_code k + 2) :: 0 :: le_enc 2 f ++ binary_code o :: extra) v (0 + 1)) by (try lia; apply (At_skip1 _ _ _ _ _ A0); reflexivity).
    reflexivity. }
  assert (e_reach ops e rec namex data 8 0 s0 7 (with_stack s0 [mk_operand oUNK VNone FUNC_RANK (call_text name [mk_operand oNUM (VNumber (n_float ops v)) LEAF_RANK (n_str ops (n_float ops v))])])) as R2.
  { eapply e_reach_trans; [exact R1|]. apply e_reach_one; [lia|]. unfold eval_step. rewrite (token_at _ _ _ _ _ A3).
    rewrite (funcvar_size e BV). assert (index_bytes (fe_bv e) = 2%nat) as IB by (unfold index_bytes; destruct (fe_bv e <? 40) eqn:E; [lia|reflexivity]).
    rewrite IB. cbn [bind guard]. assert (forall z, ((z =? 0) = false) -> (if z =? 0 then eval_plain ops e data 3 2 (2 + Z.of_nat 2) (push (mk_operand oNUM (VNumber (n_float ops v)) LEAF_RANK (n_str ops (n_float ops v))) s0) else do s <- eval_classed ops e rec namex data 3 2 z (push (mk_operand oNUM (VNumber (n_float ops v)) LEAF_RANK (n_str ops (n_float ops v))) s0); Ok (s, 2 + Z.of_nat 2)) =
       do s <- eval_classed ops e rec namex data 3 2 z (push (mk_operand oNUM (VNumber (n_float ops v)) LEAF_RANK (n_str ops (n_float ops v))) s0); Ok (s, 2 + Z.of_nat 2)) as EZ by (intros z ->; reflexivity).
    rewrite EZ by (destruct k; reflexivity). clear EZ.
    cbn [Z.of_nat Z.add Z.eqb Pos.of_succ_nat Pos.succ Pos.add Pos.eqb negb bind].
    unfold eval_classed. opcode.
    rewrite (read_funcvar_at e data 3 (class_code k + 2) 0 false false f (binary_code o :: extra)); try lia;
      [|rewrite IB; cbn [bit]; lia|cbn [bit]; rewrite IB, !Z.mul_0_r, !Z.add_0_r; exact A3].
    cbn [bind]. unfold do_funcvar. rewrite D. unfold guard at 1. cbn [Z.leb Z.compare andb]. destruct (0 <=? most) eqn:E1; [|lia]. cbn [bind].
    unfold push, with_stack, s0. cbn [s_stack]. rewrite zlen_cons, zlen_nil. cbn [Z.add guard Z.geb Z.compare bind].
    destruct (f =? 1) eqn:E2; [lia|]. destruct (f =? 100) eqn:E3; [lia|]. reflexivity. }
  rewrite (eval_loop_fails _ _ _ _ _ _ _ _ _ _ _ AssertionError R2); try lia; [reflexivity|].
  unfold eval_step. rewrite (token_at _ _ _ _ _ A7).
  assert (token_of (fe_bv e) (binary_code o) = Ok (binary_code o, 0, 1)) as ->
    by (unfold biff in BV; destruct o; repeat (destruct BV as [->|BV]; [reflexivity|]); rewrite BV; reflexivity).
  destruct o; reflexivity.
Qed.
Print Assumptions c61_no_arguments_evaluated_refuted.
