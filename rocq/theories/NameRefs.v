(** Lemmas about FormulaModel.v: what the references held by evaluated names look like. *)
From Verif Require Import Base BaseFacts Text CellNames Strings GridModel GridFacts SheetObjects FormulaTables FormulaModel BookModel NameFacts.

Lemma adjust8_abs : forall r c rx cx cr, adjust_cell_addr_biff8 r c true None None = Ok (rx, cx, false, cr) -> 0 <= r -> 0 <= rx.
Proof.
  intros r c rx cx cr H R. unfold adjust_cell_addr_biff8 in H. cbv zeta in H. injection H as <- <- E1 E2. rewrite E1. exact R.
Qed.
Lemma adjust8_abs_col : forall r c rx cx rr, adjust_cell_addr_biff8 r c true None None = Ok (rx, cx, rr, false) -> 0 <= cx.
Proof.
  intros r c rx cx cr H. unfold adjust_cell_addr_biff8 in H. cbv zeta in H. injection H as <- <- E1 E2. rewrite E2. cbn [andb]. apply Z.land_nonneg. right. lia.
Qed.
Lemma adjust7_abs : forall r c rx cx cr, adjust_cell_addr_biff_le7 r c true None None = Ok (rx, cx, false, cr) -> 0 <= rx.
Proof.
  intros r c rx cx cr H. unfold adjust_cell_addr_biff_le7 in H. cbv zeta in H. injection H as <- <- E1 E2. rewrite E1. cbn [andb]. apply Z.land_nonneg. right. lia.
Qed.
Lemma adjust7_abs_col : forall r c rx cx rr, adjust_cell_addr_biff_le7 r c true None None = Ok (rx, cx, rr, false) -> 0 <= c -> 0 <= cx.
Proof.
  intros r c rx cx cr H R. unfold adjust_cell_addr_biff_le7 in H. cbv zeta in H. injection H as <- <- E1 E2. rewrite E2. exact R.
Qed.

Lemma cell_addr_abs : forall data pos bv rx cx, bytes data -> get_cell_addr data pos bv true None None = Ok (rx, cx, false, false) -> 0 <= rx /\ 0 <= cx.
Proof.
  intros data pos bv rx cx B H. unfold get_cell_addr in H.
  destruct (bv >=? 80); (destruct (_ =? _); [|discriminate]); apply bind_ok in H as (r & R & H); apply bind_ok in H as (c & C & H).
  - apply unpack_u16_range in R; [|exact B]. split; [eapply adjust8_abs; [exact H|lia]|eapply adjust8_abs_col; exact H].
  - apply unpack_le_range in C; [|exact B]. split; [eapply adjust7_abs; exact H|eapply adjust7_abs_col; [exact H|lia]].
Qed.

Lemma cell_range_addr_abs : forall data pos bv rx cx r2 c2, bytes data ->
  get_cell_range_addr data pos bv true None None = Ok ((rx, cx, false, false), (r2, c2, false, false)) -> 0 <= rx /\ 0 <= cx.
Proof.
  intros data pos bv rx cx r2 c2 B H. unfold get_cell_range_addr in H.
  destruct (bv >=? 80); (destruct (_ =? _); [|discriminate]); apply bind_ok in H as (r & R & H); apply bind_ok in H as (r' & _ & H);
    apply bind_ok in H as (c & C & H); apply bind_ok in H as (c' & _ & H); apply bind_ok in H as (x1 & X1 & H); apply bind_ok in H as (x2 & _ & H); injection H as -> _.
  - apply unpack_u16_range in R; [|exact B]. split; [eapply adjust8_abs; [exact X1|lia]|eapply adjust8_abs_col; exact X1].
  - apply unpack_le_range in C; [|exact B]. split; [eapply adjust7_abs; exact X1|eapply adjust7_abs_col; [exact X1|lia]].
Qed.

Section Held.
Context {N : Type}.
Variable ops : numops N.
Variable e : fenv.
Variable ns : Z.
Hypothesis NS : 0 <= ns.
Hypothesis MAP : Forall (fun x => x < ns) (fe_allmap e).

(** Low bounds that are not negative, and no worksheet beyond the last. *)
Definition sane (b : box) : Prop := 0 <= b_rlo b /\ 0 <= b_clo b /\ b_shi b <= ns.
Definition held (k : okind) (v : oval N) : Prop :=
  k = oREF -> match v with VNone => True | VRefs l => Forall (fun r => sane (r_box r)) l | _ => False end.
Definition good (o : operand N) : Prop := held (o_kind o) (o_value o).
Definition good_name (n : nameobj N) : Prop := bytes (nm_raw n) /\ Forall good (nm_stack n).

Lemma map_below : forall i x, py_index (fe_allmap e) i = Ok x -> x < ns.
Proof.
  intros i x H. unfold py_index in H. destruct (znth _ _) as [y|] eqn:E; [|discriminate]. injection H as ->.
  rewrite Forall_forall in MAP. apply MAP. unfold znth in E. destruct (_ <? 0); [discriminate|]. exact (nth_error_In _ _ E).
Qed.

Lemma local_below : forall refx a b, get_externsheet_local_range e refx = Ok (a, b) -> b < ns.
Proof.
  intros refx a b H. unfold get_externsheet_local_range in H. destruct (py_index (fe_info e) refx) as [[[rec first] last]|]; [|injection H as <- <-; lia].
  destruct (match fe_addins e with Some _ => _ | None => _ end). { apply bind_ok in H as (? & _ & H). injection H as <- <-. lia. }
  destruct (negb _); [injection H as <- <-; lia|]. destruct (_ && _); [injection H as <- <-; lia|]. destruct (_ && _); [injection H as <- <-; lia|].
  cbv zeta in H. destruct (negb _); [injection H as <- <-; lia|]. apply bind_ok in H as (x1 & _ & H). apply bind_ok in H as (x2 & X & H).
  apply map_below in X. destruct (negb _); injection H as <- <-; lia.
Qed.
Lemma local57_below : forall x f l a b, get_externsheet_local_range_b57 e x f l = Ok (a, b) -> b < ns.
Proof.
  intros x f l a b H. unfold get_externsheet_local_range_b57 in H. destruct (x >? 0); [injection H as <- <-; lia|].
  destruct (_ && _); [injection H as <- <-; lia|].
  cbv zeta in H. destruct (negb _); [injection H as <- <-; lia|]. apply bind_ok in H as (x1 & _ & H). apply bind_ok in H as (x2 & X & H).
  apply map_below in X. destruct (negb _); injection H as <- <-; lia.
Qed.

Lemma ref3d_sane : forall data pos rx cx a b, bytes data -> read_ref3d e data pos true None None = Ok ((rx, cx, false, false), (a, b)) ->
  0 <= rx /\ 0 <= cx /\ b < ns.
Proof.
  intros data pos rx cx a b B H. unfold read_ref3d in H. destruct (fe_bv e >=? 80).
  - apply bind_ok in H as (res & R & H). apply bind_ok in H as (refx & _ & H). apply bind_ok in H as (sh & S & H). injection H as -> ->.
    apply cell_addr_abs in R; [|exact B]. apply local_below in S. tauto.
  - apply bind_ok in H as (res & R & H). apply bind_ok in H as ([[? ?] ?] & _ & H). apply bind_ok in H as (sh & S & H). injection H as -> ->.
    apply cell_addr_abs in R; [|exact B]. apply local57_below in S. tauto.
Qed.
Lemma area3d_sane : forall data pos rx cx r2 c2 a b, bytes data ->
  read_area3d e data pos true = Ok ((rx, cx, false, false), (r2, c2, false, false), (a, b)) -> 0 <= rx /\ 0 <= cx /\ b < ns.
Proof.
  intros data pos rx cx r2 c2 a b B H. unfold read_area3d in H. destruct (fe_bv e >=? 80).
  - apply bind_ok in H as (res & R & H). apply bind_ok in H as (refx & _ & H). apply bind_ok in H as (sh & S & H). injection H as -> ->.
    apply cell_range_addr_abs in R; [|exact B]. apply local_below in S. tauto.
  - apply bind_ok in H as (res & R & H). apply bind_ok in H as ([[? ?] ?] & _ & H). apply bind_ok in H as (sh & S & H). injection H as -> ->.
    apply cell_range_addr_abs in R; [|exact B]. apply local57_below in S. tauto.
Qed.

Lemma good_other : forall k v r t, k <> oREF -> good (mk_operand k v r t).
Proof. intros k v r t NE E. contradiction. Qed.
Lemma good_none : forall k r t, good (mk_operand k VNone r t).
Proof. intros k r t E. exact I. Qed.
Hint Resolve good_other good_none : core.

Lemma binop_good : forall op stk stk', do_binop ops op stk = Ok stk' -> Forall good stk -> Forall good stk'.
Proof.
  intros op stk stk' H F. unfold do_binop in H. destruct stk as [|b [|a stk]]; try discriminate.
  apply Forall_cons_iff in F as [_ F]. apply Forall_cons_iff in F as [_ F].
  destruct (binop_rule op) as [[[kind rank] sym]|] eqn:R; [|discriminate].
  assert (K : kind <> oREF).
  { unfold binop_rule in R. repeat (destruct (op =? _); [injection R as <- _ _; discriminate|]). discriminate. }
  destruct (argconv ops op (o_kind b) (o_value b)); [|injection H as <-; constructor; auto].
  destruct (argconv ops op (o_kind a) (o_value a)); [|injection H as <-; constructor; auto].
  destruct (o_value b); try (injection H as <-; constructor; auto; fail);
  destruct (o_value a); try (injection H as <-; constructor; auto; fail);
  apply bind_ok in H as (? & _ & H); apply bind_ok in H as (? & _ & H); apply bind_ok in H as (? & _ & H); injection H as <-; constructor; auto.
Qed.

Lemma unop_good : forall op stk stk', do_unaryop ops op stk = Ok stk' -> Forall good stk -> Forall good stk'.
Proof.
  intros op stk stk' H F. unfold do_unaryop in H. destruct stk as [|a stk]; try discriminate. apply Forall_cons_iff in F as [_ F].
  destruct (unop_rule op) as [[[rank s1] s2]|]; [|discriminate]. cbv zeta in H. apply bind_ok in H as (v & _ & H). injection H as <-.
  constructor; [apply good_other; discriminate|exact F].
Qed.

Lemma combine_held : forall f a b v, combine f false a b = Ok v -> (forall x y, sane x -> sane y -> sane (f x y)) -> both oREF a b = true ->
  good a -> good b -> held oREF v.
Proof.
  intros f a b v H F K GA GB _. unfold combine in H. unfold both in K.
  assert (KB : o_kind b = oREF) by (destruct (o_kind b); try discriminate K; reflexivity).
  assert (KA : o_kind a = oREF) by (rewrite KB in K; destruct (o_kind a); try discriminate K; reflexivity).
  specialize (GA KA). specialize (GB KB). destruct (o_value a) as [| | |la], (o_value b) as [| | |lb]; try discriminate; try (injection H as <-; exact I).
  apply bind_ok in H as (? & _ & H). apply bind_ok in H as (? & _ & H). destruct la as [|ra la]; [discriminate|]. destruct lb as [|rb lb]; [discriminate|].
  cbn in H. injection H as <-. apply Forall_cons_iff in GA as [GA _]. apply Forall_cons_iff in GB as [GB _]. constructor; [|constructor]. apply F; assumption.
Qed.

Lemma isect_sane : forall x y, sane x -> sane y -> sane (isect_box x y).
Proof. unfold sane, isect_box. cbn. lia. Qed.
Lemma range_sane : forall x y, sane x -> sane y -> sane (range_box x y).
Proof. unfold sane, range_box. cbn. lia. Qed.

Lemma isect_good : forall stk stk', do_isect stk = Ok stk' -> Forall good stk -> Forall good stk'.
Proof.
  intros stk stk' H F. unfold do_isect in H. destruct stk as [|b [|a stk]]; try discriminate. cbv zeta in H.
  apply Forall_cons_iff in F as [Gb F]. apply Forall_cons_iff in F as [Ga F].
  apply bind_ok in H as ([k v] & C & H). injection H as <-. constructor; [|exact F]. unfold good. cbn [o_kind o_value].
  destruct (either oERR a b); [injection C as <- <-; intros _; exact I|]. destruct (either oUNK a b); [injection C as <- <-; intros _; exact I|].
  destruct (both oREF a b) eqn:BR. { apply bind_ok in C as (w & C & Q). injection Q as <- <-. exact (combine_held _ _ _ _ C isect_sane BR Ga Gb). }
  destruct (both oREL a b). { apply bind_ok in C as (w & C & Q). injection Q as <- <-. intros X. discriminate X. }
  injection C as <- <-. intros _. exact I.
Qed.
Lemma range_good : forall stk stk', do_range stk = Ok stk' -> Forall good stk -> Forall good stk'.
Proof.
  intros stk stk' H F. unfold do_range in H. destruct stk as [|b [|a stk]]; try discriminate. cbv zeta in H.
  apply Forall_cons_iff in F as [Gb F]. apply Forall_cons_iff in F as [Ga F].
  apply bind_ok in H as ([k v] & C & H). injection H as <-. constructor; [|exact F]. unfold good. cbn [o_kind o_value].
  destruct (either oERR a b); [injection C as <- <-; intros _; exact I|].
  destruct (both oREF a b) eqn:BR. { apply bind_ok in C as (w & C & Q). injection Q as <- <-. exact (combine_held _ _ _ _ C range_sane BR Ga Gb). }
  destruct (both oREL a b). { apply bind_ok in C as (w & C & Q). injection Q as <- <-. intros X. discriminate X. }
  injection C as <- <-. intros _. exact I.
Qed.
Lemma list_good : forall stk stk', do_list stk = Ok stk' -> Forall good stk -> Forall good stk'.
Proof.
  intros stk stk' H F. unfold do_list in H. destruct stk as [|b [|a stk]]; try discriminate. cbv zeta in H.
  apply Forall_cons_iff in F as [Gb F]. apply Forall_cons_iff in F as [Ga F].
  apply bind_ok in H as ([k v] & C & H). injection H as <-. constructor; [|exact F]. unfold good. cbn [o_kind o_value].
  destruct (either oERR a b); [injection C as <- <-; intros _; exact I|].
  destruct (is_ref b && is_ref a) eqn:R; [|injection C as <- <-; intros _; exact I].
  apply bind_ok in C as (w & C & Q). injection Q as <- <-. intros K.
  assert (KA : o_kind a = oREF) by (unfold is_ref in R; destruct (o_kind a), (o_kind b); cbn in *; congruence).
  assert (KB : o_kind b = oREF) by (unfold is_ref in R; destruct (o_kind a), (o_kind b); cbn in *; congruence).
  specialize (Ga KA). specialize (Gb KB). destruct (o_value a) as [| | |la], (o_value b) as [| | |lb]; try discriminate; try (injection C as <-; exact I).
  apply bind_ok in C as (? & _ & C). apply bind_ok in C as (? & _ & C). injection C as <-. apply Forall_app. auto.
Qed.

Lemma drop_good : forall n stk, Forall good stk -> Forall good (drop_args n stk).
Proof.
  intros n stk F. unfold drop_args. destruct (n =? 0); [constructor|]. rewrite Forall_forall in *. intros x X. apply F.
  rewrite <- (firstn_skipn (Z.to_nat n) stk). apply in_or_app. auto.
Qed.
Lemma func_good : forall f stk stk', do_func f stk = Ok stk' -> Forall good stk -> Forall good stk'.
Proof.
  intros f stk stk' H F. unfold do_func in H. destruct (dget Z.eqb _ f) as [[[name nargs] ?]|]; [|injection H as <-; constructor; [apply good_none|exact F]].
  apply bind_ok in H as (? & _ & H). destruct (negb _); injection H as <-; constructor; auto using drop_good.
Qed.

Lemma from_top_in : forall (stk : list (operand N)) k o, from_top stk k = Ok o -> In o stk.
Proof.
  intros stk k o H. unfold from_top in H.
  assert (P : forall (l : list (operand N)) i x, py_index l i = Ok x -> In x l).
  { intros l i x X. unfold py_index in X. destruct (znth _ _) as [y|] eqn:Y; [|discriminate]. injection X as ->.
    unfold znth in Y. destruct (_ <? 0); [discriminate|]. exact (nth_error_In _ _ Y). }
  destruct (k <=? 0); apply P in H; [apply in_rev; exact H|exact H].
Qed.
Lemma choose_held : forall o, good o -> held (fst (choose ops o)) (snd (choose ops o)).
Proof. intros [k v r t] G. unfold choose. cbn [o_kind o_value]. destruct k; try exact G; intros X; discriminate X. Qed.
Lemma if_held : forall n stk k v, do_if ops n stk = Ok (k, v) -> Forall good stk -> held k v.
Proof.
  intros n stk k v H F. rewrite Forall_forall in F. unfold do_if in H. apply bind_ok in H as (t & _ & H).
  assert (U : Ok (oUNK, @VNone N) = Ok (k, v) -> held k v) by (intros X; injection X as <- <-; intros Y; discriminate Y).
  assert (T : forall m, (if negb (zero_or_one ops (VNumber m)) then Ok (oUNK, VNone)
      else if (n =? 2) && n_eq ops m (n_int ops 0) then Ok (oBOOL, VNumber (n_int ops 0))
      else do i <- n_trunc ops m; do chosen <- from_top stk (n - 2 + i); Ok (choose ops chosen)) = Ok (k, v) -> held k v).
  { intros m X. destruct (negb _); [auto|]. destruct (_ && _); [injection X as <- <-; intros Y; discriminate Y|].
    apply bind_ok in X as (i & _ & X). apply bind_ok in X as (o & O & X). injection X as X.
    pose proof (choose_held o (F o (from_top_in _ _ _ O))) as C. rewrite X in C. exact C. }
  destruct (o_kind t), (o_value t); auto; exact (T _ H).
Qed.
Lemma choose_fn_held : forall n stk k v, do_choose ops n stk = Ok (k, v) -> Forall good stk -> held k v.
Proof.
  intros n stk k v H F. rewrite Forall_forall in F. unfold do_choose in H. apply bind_ok in H as (t & _ & H).
  assert (U : Ok (oUNK, @VNone N) = Ok (k, v) -> held k v) by (intros X; injection X as <- <-; intros Y; discriminate Y).
  destruct (o_kind t); auto. destruct (o_value t); try discriminate.
  apply bind_ok in H as (? & _ & H). destruct (negb _); [auto|]. apply bind_ok in H as (? & _ & H). destruct (negb _); [auto|].
  apply bind_ok in H as (i & _ & H). apply bind_ok in H as (o & O & H). injection H as H.
  pose proof (choose_held o (F o (from_top_in _ _ _ O))) as C. rewrite H in C. exact C.
Qed.
Lemma funcvar_good : forall n f stk stk', do_funcvar ops n f stk = Ok stk' -> Forall good stk -> Forall good stk'.
Proof.
  intros n f stk stk' H F. unfold do_funcvar in H. destruct (dget Z.eqb _ f) as [[[name mn] mx]|]; [|injection H as <-; constructor; [apply good_none|exact F]].
  apply bind_ok in H as (? & _ & H). apply bind_ok in H as (? & _ & H). cbv zeta in H. apply bind_ok in H as ([k v] & C & H). injection H as <-.
  constructor; [|apply drop_good; exact F]. unfold good. cbn [o_kind o_value].
  destruct (f =? 1); [exact (if_held _ _ _ _ C F)|]. destruct (f =? 100); [exact (choose_fn_held _ _ _ _ C F)|]. injection C as <- <-. intros _. exact I.
Qed.

Lemma plain_good : forall data pos opcode sz s s' sz', eval_plain ops e data pos opcode sz s = Ok (s', sz') -> Forall good (s_stack s) -> Forall good (s_stack s').
Proof.
  intros data pos opcode sz s s' sz' H F. unfold eval_plain in H. cbv zeta in H.
  destruct (opcode <=? 0x02); [discriminate|].
  destruct (opcode <=? 0x0E). { apply bind_ok in H as (k & K & H). injection H as <- _. exact (binop_good _ _ _ K F). }
  destruct (opcode =? 0x0F). { apply bind_ok in H as (k & K & H). injection H as <- _. exact (isect_good _ _ K F). }
  destruct (opcode =? 0x10). { apply bind_ok in H as (k & K & H). injection H as <- _. exact (list_good _ _ K F). }
  destruct (opcode =? 0x11). { apply bind_ok in H as (k & K & H). injection H as <- _. exact (range_good _ _ K F). }
  destruct (opcode <=? 0x14). { apply bind_ok in H as (k & K & H). injection H as <- _. exact (unop_good _ _ _ K F). }
  destruct (opcode =? 0x15); [injection H as <- _; exact F|].
  destruct (opcode =? 0x16); [injection H as <- _; constructor; auto|].
  destruct (opcode =? 0x17). { apply bind_ok in H as ([t z] & K & H). injection H as <- _. constructor; [apply good_other; discriminate|exact F]. }
  destruct (opcode =? 0x18). { apply bind_ok in H as (? & _ & H). discriminate. }
  destruct (opcode =? 0x19).
  { apply bind_ok in H as (? & _ & H). apply bind_ok in H as (? & _ & H). apply bind_ok in H as (? & _ & H).
    destruct (_ =? 0x04); [injection H as <- _; exact F|]. destruct (_ =? 0x10); [|injection H as <- _; exact F].
    destruct (s_stack s) as [|a stk]; [discriminate|]. injection H as <- _. apply Forall_cons_iff in F as [_ F]. constructor; auto. }
  destruct (opcode <=? 0x1B). { apply bind_ok in H as (? & _ & H). discriminate. }
  apply bind_ok in H as ([[k v] t] & K & H). injection H as <- _. constructor; [|exact F]. apply good_other. clear - K. unfold read_const in K.
  destruct (opcode =? 0x1C). { apply bind_ok in K as (? & _ & K). destruct (dget _ _ _); [|discriminate]. injection K as <- _ _. discriminate. }
  destruct (opcode =? 0x1D). { apply bind_ok in K as (? & _ & K). apply bind_ok in K as (? & _ & K). injection K as <- _ _. discriminate. }
  destruct (opcode =? 0x1E). { apply bind_ok in K as (? & _ & K). injection K as <- _ _. discriminate. }
  cbv zeta in K. apply bind_ok in K as (? & _ & K). injection K as <- _ _. discriminate.
Qed.

Definition keeps_good (rec : list (nameobj N) -> Z -> result (list (nameobj N))) : Prop :=
  forall names k names', rec names k = Ok names' -> Forall good_name names -> Forall good_name names'.

Lemma use_name_good : forall rec, keeps_good rec -> forall t s s', use_name e rec t s = Ok s' ->
  Forall good (s_stack s) -> Forall good_name (s_names s) -> Forall good (s_stack s') /\ Forall good_name (s_names s').
Proof.
  intros rec K t s s' H F FN. unfold use_name in H. apply bind_ok in H as (tgt & _ & H). apply bind_ok in H as (names & R & H).
  apply bind_ok in H as (tgt' & P & H). cbv zeta in H. apply bind_ok in H as (res & RS & H). apply bind_ok in H as (text & _ & H).
  injection H as <-. cbn [s_names s_stack].
  assert (FN' : Forall good_name names) by (destruct (nm_evaluated tgt); [injection R as <-; exact FN|exact (K _ _ _ R FN)]).
  split; [|exact FN']. constructor; [|exact F]. change (good res).
  destruct (_ || _); [injection RS as <-; apply good_none|].
  assert (In tgt' names) as I.
  { unfold py_index in P. destruct (znth _ _) as [y|] eqn:Y; [|discriminate]. injection P as ->. unfold znth in Y. destruct (_ <? 0); [discriminate|]. exact (nth_error_In _ _ Y). }
  rewrite Forall_forall in FN'. destruct (FN' _ I) as [_ G]. destruct (nm_stack tgt') as [|o [|o' l]]; try discriminate. injection RS as <-.
  apply Forall_cons_iff in G as [G _]. exact G.
Qed.

Lemma ref_operand_good : forall bx rel ty o, ref_operand e bx rel ty = Ok o -> (existsb (fun b => b) rel = false -> sane bx) -> good o.
Proof.
  intros bx rel ty o H S. unfold ref_operand in H. cbv zeta in H. apply bind_ok in H as (t & _ & H). injection H as <-.
  destruct (existsb _ rel); [apply good_other; discriminate|]. destruct (ty =? 1); [|apply good_none]. intros _. cbn [o_value]. constructor; [|constructor]. apply S. reflexivity.
Qed.

Lemma classed_good : forall rec, keeps_good rec -> forall namex data pos opcode optype s s', bytes data ->
  eval_classed ops e rec namex data pos opcode optype s = Ok s' ->
  Forall good (s_stack s) -> Forall good_name (s_names s) -> Forall good (s_stack s') /\ Forall good_name (s_names s').
Proof.
  intros rec K namex data pos opcode optype s s' B H F FN. unfold eval_classed in H. cbv zeta in H.
  pose proof (use_name_good rec K) as U. set (u := use_name e rec) in *. clearbody u.
  assert (P : forall o r x, good o -> Forall good (s_stack (mk_est (o :: s_stack s) r x (s_names s))) /\ Forall good_name (s_names (mk_est (o :: s_stack s) r x (s_names s)))).
  { intros o r x G. split; [constructor; assumption|exact FN]. }
  destruct (opcode =? 0x00); [injection H as <-; apply P, good_none|].
  destruct (opcode =? 0x01). { apply bind_ok in H as (f & _ & H). apply bind_ok in H as (k & D & H). injection H as <-. split; [exact (func_good _ _ _ D F)|exact FN]. }
  destruct (opcode =? 0x02). { apply bind_ok in H as ([n f] & _ & H). apply bind_ok in H as (k & D & H). injection H as <-. split; [exact (funcvar_good _ _ _ _ D F)|exact FN]. }
  destruct (opcode =? 0x03). { apply bind_ok in H as (t & _ & H). exact (U _ _ _ H F FN). }
  destruct (opcode =? 0x04). { apply bind_ok in H as ([[[? ?] ?] ?] & _ & H). injection H as <-. apply P. destruct (optype =? 1); [apply good_other; discriminate|apply good_none]. }
  destruct (opcode =? 0x05).
  { apply bind_ok in H as ([[[[? ?] ?] ?] [[[? ?] ?] ?]] & _ & H). injection H as <-. apply P. destruct (optype =? 1); [apply good_other; discriminate|apply good_none]. }
  destruct (opcode =? 0x06); [discriminate|].
  destruct (opcode =? 0x09). { apply bind_ok in H as (? & _ & H). injection H as <-. auto. }
  destruct (_ || _); [discriminate|].
  destruct (opcode =? 0x1A).
  { apply bind_ok in H as ([[[[rx cx] rr] cr] [s1 s2]] & R & H). apply bind_ok in H as (o & O & H). injection H as <-. apply P. apply (ref_operand_good _ _ _ _ O).
    cbn. intros X. assert (rr = false) as -> by (destruct rr; cbn in X; congruence). assert (cr = false) as -> by (destruct cr; cbn in X; congruence).
    apply ref3d_sane in R; [|exact B]. unfold sane. cbn. lia. }
  destruct (opcode =? 0x1B).
  { apply bind_ok in H as ([[[[[r1 c1] rr1] cr1] [[[r2 c2] rr2] cr2]] [s1 s2]] & R & H). apply bind_ok in H as (o & O & H). injection H as <-. apply P. apply (ref_operand_good _ _ _ _ O).
    cbn. intros X. assert (rr1 = false) as -> by (destruct rr1; cbn in X; congruence). assert (rr2 = false) as -> by (destruct rr2; cbn in X; congruence).
    assert (cr1 = false) as -> by (destruct cr1; cbn in X; congruence). assert (cr2 = false) as -> by (destruct cr2; cbn in X; congruence).
    apply area3d_sane in R; [|exact B]. unfold sane. cbn. lia. }
  destruct (opcode =? 0x19).
  { apply bind_ok in H as ([[[? ?] ?] ?] & _ & H). apply bind_ok in H as (x & _ & H). destruct x; [injection H as <-; apply P, good_none|]. exact (U _ _ _ H F FN). }
  destruct (error_opcode opcode); injection H as <-; [apply P, good_none|]. auto.
Qed.

Lemma loop_good : forall rec, keeps_good rec -> forall fuel namex data len pos s s', bytes data ->
  eval_loop ops e fuel rec namex data len pos s = Ok s' ->
  Forall good (s_stack s) -> Forall good_name (s_names s) -> Forall good (s_stack s') /\ Forall good_name (s_names s').
Proof.
  intros rec K. induction fuel as [|f IH]; intros namex data len pos s s' B H F FN; cbn [eval_loop] in H.
  - destruct (negb _); [injection H as <-; auto|discriminate].
  - destruct (negb _); [injection H as <-; auto|]. apply bind_ok in H as ([s1 p1] & ST & H).
    assert (G : Forall good (s_stack s1) /\ Forall good_name (s_names s1)).
    { unfold eval_step in ST. apply bind_ok in ST as ([[o t] sz] & _ & ST). apply bind_ok in ST as ([] & _ & ST).
      apply bind_ok in ST as ([s2 z2] & E & ST). apply bind_ok in ST as ([] & _ & ST). injection ST as <- <-.
      destruct (t =? 0); [rewrite (eval_plain_names _ _ _ _ _ _ _ _ _ E); split; [exact (plain_good _ _ _ _ _ _ _ E F)|exact FN]|].
      apply bind_ok in E as (s3 & E & Q). injection Q as <- <-. exact (classed_good _ K _ _ _ _ _ _ _ B E F FN). }
    destruct G as [G1 G2]. exact (IH _ _ _ _ _ _ B H G1 G2).
Qed.

Lemma list_set_Forall : forall A (P : A -> Prop) l i x l', list_set l i x = Ok l' -> Forall P l -> P x -> Forall P l'.
Proof.
  intros A P l i x l' H F X. unfold list_set in H. cbv zeta in H. destruct (_ && _); [|discriminate]. injection H as <-.
  rewrite Forall_forall in F. apply Forall_app. split; [|constructor; [exact X|]]; apply Forall_forall; intros y Y; apply F;
    [rewrite <- (firstn_skipn (Z.to_nat (if i <? 0 then i + zlen l else i)) l); apply in_or_app; left; exact Y|].
  rewrite <- (firstn_skipn (S (Z.to_nat (if i <? 0 then i + zlen l else i))) l). apply in_or_app. right. exact Y.
Qed.

Lemma py_index_in : forall A (l : list A) i x, py_index l i = Ok x -> In x l.
Proof.
  intros A l i x X. unfold py_index in X. destruct (znth _ _) as [y|] eqn:Y; [|discriminate]. injection X as ->.
  unfold znth in Y. destruct (_ <? 0); [discriminate|]. exact (nth_error_In _ _ Y).
Qed.

Lemma evaluate_good : forall levels, keeps_good (evaluate_name_formula ops e levels).
Proof.
  induction levels as [|lv IH]; intros names k names' H F; cbn [evaluate_name_formula] in H; apply bind_ok in H as (n & P0 & H); [discriminate|].
  apply bind_ok in H as (? & _ & H). cbv zeta in H. apply bind_ok in H as (s & L & H). apply bind_ok in H as (n' & P & H).
  assert (BN : bytes (nm_raw n)) by (apply py_index_in in P0; rewrite Forall_forall in F; exact (proj1 (F _ P0))).
  destruct (loop_good _ IH _ _ _ _ _ _ _ BN L) as [G1 G2]; [cbn; destruct (nm_len n =? 0); repeat constructor; apply good_none|exact F|].
  apply (list_set_Forall _ good_name _ _ _ _ H G2). split; [|exact G1]. cbn. apply py_index_in in P. rewrite Forall_forall in G2. exact (proj1 (G2 _ P)).
Qed.

Lemma eval_names_good : forall todo names names', eval_names ops e todo names = Ok names' -> Forall good_name names -> Forall good_name names'.
Proof.
  induction todo as [|x todo IH]; intros names names' H F; cbn [eval_names] in H; [injection H as <-; exact F|].
  apply bind_ok in H as (n & _ & H). apply bind_ok in H as (names1 & E & H). apply (IH _ _ H).
  destruct (_ || _); [injection E as <-; exact F|]. exact (evaluate_good _ _ _ _ E F).
Qed.
End Held.
