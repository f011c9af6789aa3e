(** Property theorems C62: reading a formula ends, and names nest at most eleven deep. *)
From Verif Require Import Base BaseFacts Text CellNames Utf16 Strings StringFacts GridModel SheetObjects
  FormulaTables FormulaModel Decompile FormulaFacts FormulaExpr PropFormulaText.

(** [total ops e]: Python's number operations and the text decoder return something
    or raise an exception. *)
Theorem c62_decompile_ends : forall {N} (ops : numops N) e, total ops e ->
  forall names fmla fmlalen fmlatype browx bcolx r1c1,
  decompile_formula ops e names fmla fmlalen fmlatype browx bcolx r1c1 <> Err OutOfFuel.
Proof. intros N ops e T names fmla fl t a b c. apply (decompile_ends ops e T). Qed.
Print Assumptions c62_decompile_ends.

Theorem c62_evaluate_ends : forall {N} (ops : numops N) e, total ops e ->
  forall names namex, evaluate_name_formula ops e TOP_LEVELS names namex <> Err OutOfFuel.
Proof. intros N ops e T names namex. apply (evaluate_ends ops e T). Qed.
Print Assumptions c62_evaluate_ends.
Example c62_total : total int_ops example_env.
Proof. repeat split; unfold nofuel; cbn; try discriminate; intros; destruct (_ =? 0); discriminate. Qed.

(** A name token of version 8. *)
Definition name_token (k : class) (n : Z) (u : list Z) : list Z := (class_code k + 3) :: le_enc 2 n ++ u.

Lemma name_step : forall {N} (ops : numops N) e rec namex k n u t data p s, fe_bv e = 80 -> 0 <= n < 65536 ->
  zlen u = 2 -> At data p (name_token k n u ++ t) ->
  eval_step ops e rec namex data p s = do s <- use_name e rec (n - 1) s; Ok (s, p + 5).
Proof.
  intros N ops e rec namex k n u t data p s B R U A. unfold eval_step, name_token in *. cbn [app] in A.
  rewrite (token_at _ _ _ _ _ A), (name_unused_size e) by (unfold biff; lia). rewrite B.
  change (3 + name_unused 80) with 5. cbn [bind guard Z.eqb Pos.eqb negb].
  destruct (Z.shiftr (class_code k) 5 =? 0) eqn:E; [destruct k; discriminate|]. unfold eval_classed. opcode.
  rewrite (At_u16 data (u ++ t) n (p + 1)); [|rewrite <- app_assoc in A; apply (At_skip1 _ _ _ _ _ A); reflexivity|lia].
  cbn [bind]. destruct (use_name e rec (n - 1) s); reflexivity.
Qed.

Lemma py_index_some : forall {A} (l : list A) i a, 0 <= i -> nth_error l (Z.to_nat i) = Some a -> py_index l i = Ok a.
Proof. intros A l i a I H. unfold py_index, znth. cbv zeta. destruct (i <? 0) eqn:E; [lia|]. rewrite E, H. reflexivity. Qed.
Lemma nth_some : forall {A} (l : list A) i, 0 <= i < zlen l -> exists a, nth_error l (Z.to_nat i) = Some a.
Proof.
  intros A l i I. destruct (nth_error l (Z.to_nat i)) eqn:D; [eauto|]. apply nth_error_None in D. unfold zlen in I. lia.
Qed.

(** Names each of which stands for another one of them never get a value: evaluation
    stops with the documented error, however they refer to each other. *)
Theorem c62_cycle : forall {N} (ops : numops N) e names, fe_bv e = 80 ->
  (forall i n, nth_error names i = Some n -> nm_evaluated n = false /\
     exists k j u rest, nm_raw n = name_token k j u ++ rest /\ zlen u = 2 /\ 1 <= j <= zlen names /\ j < 65536 /\ 5 <= nm_len n) ->
  forall levels i, 0 <= i < zlen names -> evaluate_name_formula ops e levels names i = Err XLRDError.
Proof.
  intros N ops e names B H. induction levels as [|lv IH]; intros i I; cbn [evaluate_name_formula];
    destruct (nth_some names i I) as (n & Hn); rewrite (py_index_some _ _ _ (proj1 I) Hn); [reflexivity|].
  cbn [bind]. rewrite B. change (szdict 80) with (Ok sztab4). cbn [bind]. cbv zeta.
  destruct (H _ n Hn) as (Ev & k & j & u & rest & R & U & J & J2 & L).
  destruct (nm_len n =? 0) eqn:E0; [lia|].
  destruct (Z.to_nat (nm_len n)) as [|f] eqn:F; [lia|]. cbn [eval_loop].
  destruct (0 <? nm_len n) eqn:E1; [|lia]. cbn [Z.leb Z.compare andb negb].
  rewrite (name_step _ _ _ _ k j u rest) by (auto; try lia; rewrite R; apply At_0).
  unfold use_name. cbn [s_names].
  destruct (nth_some names (j - 1) ltac:(lia)) as (m & Hm). rewrite (py_index_some names (j - 1) m ltac:(lia) Hm).
  cbn [bind]. destruct (H _ m Hm) as (-> & _). rewrite IH by lia. reflexivity.
Qed.
Print Assumptions c62_cycle.

Definition link {N} (raw : list Z) : nameobj N :=
  mk_name 0 (s2l "n") 0 0 raw (zlen raw) (Some (-1)) false [] false false.
(** Two names that refer to each other. *)
Example c62_cycle_example :
  let names := [link (name_token Value 2 [0; 0]); link (N := Z) (name_token Value 1 [0; 0])] in
  (forall i n, nth_error names i = Some n -> nm_evaluated n = false /\
     exists k j u rest, nm_raw n = name_token k j u ++ rest /\ zlen u = 2 /\ 1 <= j <= zlen names /\ j < 65536 /\ 5 <= nm_len n) /\
  evaluate_name_formula int_ops example_env TOP_LEVELS names 0 = Err XLRDError.
Proof.
  intros names. split; [|vm_compute; reflexivity].
  intros [|[|[|i]]] n E; cbn in E; try discriminate; injection E as <-; (split; [reflexivity|]).
  - exists Value, 2, [0; 0], []. repeat split; cbn; lia.
  - exists Value, 1, [0; 0], []. repeat split; cbn; lia.
Qed.

(** ** A chain of names: n1 stands for n2, n2 for n3, ..., and the last is a number *)

Section Chain.
Context {N : Type}.
Variable ops : numops N.
Variable e : fenv.
Hypothesis B8 : fe_bv e = 80.
Variable v : Z.
Hypothesis V : 0 <= v < 65536.
Variable count : nat.                       (* names in the chain *)
Hypothesis COUNT : Z.of_nat count < 65535.

Definition raw_of (i : nat) : list Z :=
  if (S i =? count)%nat then 0x1E :: le_enc 2 v else name_token Value (Z.of_nat i + 2) [0; 0].
(** What the i-th name evaluates to: the number, written as a number or as a name. *)
Definition value_of (i : nat) : operand N :=
  mk_operand oNUM (VNumber (n_float ops v)) LEAF_RANK
    (if (S i =? count)%nat then n_str ops (n_float ops v) else s2l "n").
Definition chained (i : nat) (done : bool) : nameobj N :=
  mk_name 0 (s2l "n") 0 0 (raw_of i) (zlen (raw_of i)) (Some (-1)) done (if done then [value_of i] else []) false false.
(** The chain when the names from number [k] on have been evaluated. *)
Definition chain (k : nat) : list (nameobj N) := map (fun i => chained i (k <=? i)%nat) (seq 0 count).

Lemma nth_chain : forall k i, (i < count)%nat -> nth_error (chain k) i = Some (chained i (k <=? i)%nat).
Proof.
  intros k i H. unfold chain. rewrite nth_error_map.
  replace (nth_error (seq 0 count) i) with (Some i); [reflexivity|].
  rewrite (nth_error_nth' _ 0%nat) by (rewrite seq_length; lia). rewrite seq_nth by lia. reflexivity.
Qed.
Lemma chain_index : forall k i, (i < count)%nat -> py_index (chain k) (Z.of_nat i) = Ok (chained i (k <=? i)%nat).
Proof. intros k i H. apply py_index_some; [lia|]. rewrite Nat2Z.id. apply nth_chain. exact H. Qed.
Lemma chain_len : forall k, List.length (chain k) = count.
Proof. intros k. unfold chain. rewrite map_length, seq_length. reflexivity. Qed.

Lemma nth_ext_error : forall {A} (l l' : list A), (forall i, nth_error l i = nth_error l' i) -> l = l'.
Proof.
  induction l as [|a l IH]; intros [|b l'] H; [reflexivity|specialize (H 0%nat); discriminate|specialize (H 0%nat); discriminate|].
  pose proof (H 0%nat) as H0. injection H0 as <-. f_equal. apply IH. intros i. apply (H (S i)).
Qed.

Lemma nth_error_firstn : forall {A} (l : list A) k i, (i < k)%nat -> nth_error (firstn k l) i = nth_error l i.
Proof.
  induction l as [|a l IH]; intros [|k] [|i] H; try lia; try reflexivity. cbn [firstn nth_error]. apply IH. lia.
Qed.
Lemma nth_error_skipn : forall {A} (l : list A) k i, nth_error (skipn k l) i = nth_error l (k + i).
Proof.
  induction l as [|a l IH]; intros [|k] i; try reflexivity; [destruct i; reflexivity|]. cbn [skipn Nat.add nth_error]. apply IH.
Qed.

Lemma chain_set : forall i, (i < count)%nat -> list_set (chain (S i)) (Z.of_nat i) (chained i true) = Ok (chain i).
Proof.
  intros i H. unfold list_set. cbv zeta. destruct (Z.of_nat i <? 0) eqn:E; [lia|]. unfold zlen. rewrite chain_len.
  destruct (_ && _) eqn:E1; [|lia]. f_equal. rewrite Nat2Z.id. apply nth_ext_error. intros j.
  destruct (Nat.lt_ge_cases j count) as [J|J].
  - rewrite nth_chain by exact J. destruct (Nat.lt_trichotomy j i) as [C|[C|C]].
    + rewrite nth_error_app1 by (rewrite firstn_length, chain_len; lia). rewrite nth_error_firstn by lia.
      rewrite nth_chain by exact J. f_equal. f_equal. destruct (Nat.leb_spec (S i) j), (Nat.leb_spec i j); lia.
    + subst j. rewrite nth_error_app2 by (rewrite firstn_length, chain_len; lia).
      rewrite firstn_length, chain_len. replace (i - Nat.min i count)%nat with 0%nat by lia. cbn [nth_error].
      rewrite (proj2 (Nat.leb_le i i)) by lia. reflexivity.
    + rewrite nth_error_app2 by (rewrite firstn_length, chain_len; lia).
      rewrite firstn_length, chain_len. replace (j - Nat.min i count)%nat with (S (j - i - 1)) by lia. cbn [nth_error].
      rewrite nth_error_skipn. replace (S i + (j - i - 1))%nat with j by lia. rewrite nth_chain by exact J.
      f_equal. f_equal. destruct (Nat.leb_spec (S i) j), (Nat.leb_spec i j); lia.
  - rewrite (proj2 (nth_error_None (chain i) j)) by (rewrite chain_len; lia). apply nth_error_None.
    rewrite app_length. cbn [List.length]. rewrite firstn_length, skipn_length, chain_len. lia.
Qed.

(** The whole chain is unevaluated when [k] is [count] or more; evaluating name [i]. *)
Lemma chain_run : forall levels i, (i < count)%nat ->
  evaluate_name_formula ops e levels (chain count) (Z.of_nat i) =
  if (count - i <=? levels)%nat then Ok (chain i) else Err XLRDError.
Proof.
  induction levels as [|lv IH]; intros i I; cbn [evaluate_name_formula]; rewrite chain_index by exact I; cbn [bind].
  - destruct (Nat.leb_spec (count - i) 0); [lia|reflexivity].
  - rewrite B8. change (szdict 80) with (Ok sztab4). cbn [bind]. cbv zeta.
    rewrite (proj2 (Nat.leb_gt count i)) by lia. cbn [nm_len nm_raw chained].
    unfold raw_of. destruct (Nat.eqb_spec (S i) count) as [L|L].
    + rewrite zlen_cons, zlen_le_enc. change (1 + Z.of_nat 2) with 3. cbn [Z.eqb].
      change (Z.to_nat 3) with 3%nat. cbn [eval_loop]. cbn [Z.leb Z.ltb Z.compare andb negb].
      set (data := 0x1E :: le_enc 2 v). assert (At data 0 ((0x1E :: le_enc 2 v) ++ [])) as A by (rewrite app_nil_r; apply (At_0 data)).
      unfold eval_step. rewrite (token_at _ _ _ _ _ A). rewrite B8. change (token_of 80 30) with (@Ok (Z * Z * Z) (0x1E, 0, 3)).
      cbn [bind guard Z.eqb Pos.eqb negb]. unfold eval_plain. opcode. unfold read_const. opcode.
      rewrite (At_u16 data [] v (0 + 1)) by (try lia; apply (At_skip1 _ _ _ _ _ A); reflexivity).
      cbn [bind guard Z.leb Z.compare negb Z.add eval_loop Pos.compare Pos.compare_cont Z.ltb andb push s_stack s_rel s_err s_names].
      rewrite chain_index by exact I. cbn [bind nm_flags nm_name nm_extn nm_sheet nm_raw nm_len nm_scope chained].
      destruct (Nat.leb_spec (count - i) (S lv)); [|lia].
      replace count with (S i) at 1 by lia.
      rewrite <- (chain_set i I). f_equal. unfold chained, raw_of, value_of. rewrite (proj2 (Nat.eqb_eq (S i) count) L). reflexivity.
    + set (data := name_token Value (Z.of_nat i + 2) [0; 0]). assert (zlen data = 5) as ZL by reflexivity. rewrite ZL.
      cbn [Z.eqb]. change (Z.to_nat 5) with 5%nat. cbn [eval_loop]. cbn [Z.leb Z.ltb Z.compare andb negb].
      rewrite (name_step ops e _ _ Value (Z.of_nat i + 2) [0; 0] []) by (auto; try lia; try reflexivity; rewrite app_nil_r; apply (At_0 data)).
      unfold use_name. cbn [s_names]. replace (Z.of_nat i + 2 - 1) with (Z.of_nat (S i)) by lia.
      rewrite chain_index by lia. cbn [bind]. rewrite (proj2 (Nat.leb_gt count (S i))) by lia. cbn [nm_evaluated chained].
      rewrite IH by lia. destruct (Nat.leb_spec (count - S i) lv); destruct (Nat.leb_spec (count - i) (S lv)); try lia; [|reflexivity].
      cbn [bind]. rewrite chain_index by lia. rewrite (proj2 (Nat.leb_le (S i) (S i))) by lia. cbn [bind].
      unfold nm_macro, nm_binary. cbn [nm_flags chained Z.testbit orb nm_any_err nm_stack nm_any_rel name_text nm_scope nm_name bind Z.eqb Pos.eqb andb value_of o_kind o_value].
      unfold name_text. cbn [nm_scope Z.eqb Pos.eqb bind s_rel s_err s_stack orb nm_name guard].
      cbn [Z.add Pos.add Pos.succ Z.leb Z.ltb Z.compare Pos.compare Pos.compare_cont andb negb s_names].
      cbn [bind s_names s_stack s_rel s_err].
      rewrite chain_index by exact I. cbn [bind nm_flags nm_name nm_extn nm_sheet nm_raw nm_len nm_scope chained].
      rewrite <- (chain_set i I). f_equal. unfold chained, raw_of, value_of. rewrite (proj2 (Nat.eqb_neq (S i) count) L). reflexivity.
Qed.
End Chain.

(** Eleven names in a row can be evaluated, twelve cannot. *)
Theorem c62_depth : forall {N} (ops : numops N) e v count, fe_bv e = 80 -> 0 <= v < 65536 ->
  (0 < count)%nat -> Z.of_nat count < 65535 ->
  evaluate_name_formula ops e TOP_LEVELS (chain ops v count count) 0 =
  if (count <=? 11)%nat then Ok (chain ops v count 0) else Err XLRDError.
Proof.
  intros N ops e v count B V C0 C. pose proof (chain_run ops e B v V count C TOP_LEVELS 0 C0) as H.
  rewrite Nat.sub_0_r in H. exact H.
Qed.
Print Assumptions c62_depth.
(** Three names: the first gets the number of the third. *)
Example c62_depth_example :
  match evaluate_name_formula int_ops example_env TOP_LEVELS (chain int_ops 7 3 3) 0 with
  | Ok (n :: _) => nm_result n = Some (mk_operand oNUM (VNumber 7) 90 (s2l "n"))
  | _ => False
  end.
Proof. vm_compute. reflexivity. Qed.
