(** Lemmas about FormulaModel.v and BookModel.v: what evaluating names leaves alone. *)
From Verif Require Import Base BaseFacts Text Strings GridModel GridFacts SheetObjects FormulaModel BookModel.

Section Kept.
Context {N : Type}.
Variable ops : numops N.
Variable e : fenv.

(** All of a name that was in its record, and its scope. *)
Definition ident (n : nameobj N) : Z * list Z * Z * Z * list Z * Z * option Z :=
  (nm_flags n, nm_name n, nm_extn n, nm_sheet n, nm_raw n, nm_len n, nm_scope n).

Lemma list_set_ident : forall (l : list (nameobj N)) i x y l', py_index l i = Ok y -> ident x = ident y -> list_set l i x = Ok l' ->
  map ident l' = map ident l.
Proof.
  intros l i x y l' P I H. unfold py_index in P. unfold list_set in H.
  set (j := if i <? 0 then i + zlen l else i) in *.
  destruct (znth l j) as [z|] eqn:ZN; [|discriminate]. injection P as ->.
  pose proof (znth_Some_range _ _ _ ZN) as R.
  destruct ((0 <=? j) && (j <? zlen l)) eqn:B; [|discriminate].
  assert (L' : l' = firstn (Z.to_nat j) l ++ x :: skipn (S (Z.to_nat j)) l) by (injection H as <-; reflexivity).
  clear H. subst l'. rewrite map_app. cbn [map]. rewrite I.
  assert (D : l = firstn (Z.to_nat j) l ++ y :: skipn (S (Z.to_nat j)) l).
  { apply znth_ext. intros k K. destruct (Z.ltb_spec k j) as [Lt|Ge].
    - rewrite znth_app_l by (rewrite zlen_firstn; lia). rewrite znth_firstn by lia. reflexivity.
    - rewrite znth_app_r by (rewrite zlen_firstn; lia). rewrite zlen_firstn, Z.min_l by lia.
      destruct (Z.eq_dec k j) as [->|NE]; [rewrite Z2Nat.id, Z.sub_diag by lia; exact ZN|].
      rewrite znth_cons, znth_skipn by lia. f_equal. lia. }
  rewrite D at 3. rewrite map_app. reflexivity.
Qed.

Definition keeps (rec : list (nameobj N) -> Z -> result (list (nameobj N))) : Prop :=
  forall names k names', rec names k = Ok names' -> map ident names' = map ident names.

Lemma use_name_keeps : forall rec, keeps rec -> forall t s s', use_name e rec t s = Ok s' ->
  map ident (s_names s') = map ident (s_names s).
Proof.
  intros rec K t s s' H. unfold use_name in H. apply bind_ok in H as (tgt & _ & H). apply bind_ok in H as (names & R & H).
  apply bind_ok in H as (tgt' & _ & H). cbv zeta in H. apply bind_ok in H as (res & _ & H). apply bind_ok in H as (text & _ & H).
  injection H as <-. cbn [s_names]. destruct (nm_evaluated tgt); [injection R as <-; reflexivity|]. exact (K _ _ _ R).
Qed.

Ltac bust H :=
  repeat first
    [ apply bind_ok in H as ([] & _ & H)
    | apply bind_ok in H as ([[[? ?] ?] ?] & _ & H)
    | apply bind_ok in H as ([[? ?] ?] & _ & H)
    | apply bind_ok in H as ([? ?] & _ & H)
    | apply bind_ok in H as (? & _ & H)
    | match type of H with (if ?c then _ else _) = _ => destruct c end
    | match type of H with (match ?c with _ => _ end) = _ => destruct c end
    | discriminate ].

Lemma eval_plain_names : forall data pos opcode sz s s' sz', eval_plain ops e data pos opcode sz s = Ok (s', sz') ->
  s_names s' = s_names s.
Proof.
  intros data pos opcode sz s s' sz' H. unfold eval_plain in H. cbv zeta in H. bust H; injection H as <- <-; reflexivity.
Qed.

Lemma eval_classed_keeps : forall rec, keeps rec -> forall namex data pos opcode optype s s',
  eval_classed ops e rec namex data pos opcode optype s = Ok s' -> map ident (s_names s') = map ident (s_names s).
Proof.
  intros rec K namex data pos opcode optype s s' H. unfold eval_classed in H. cbv zeta in H.
  pose proof (use_name_keeps rec K) as U. set (u := use_name e rec) in *. clearbody u.
  bust H; try (injection H as <-; reflexivity); apply U in H; exact H.
Qed.

Lemma eval_loop_keeps : forall rec, keeps rec -> forall fuel namex data len pos s s',
  eval_loop ops e fuel rec namex data len pos s = Ok s' -> map ident (s_names s') = map ident (s_names s).
Proof.
  intros rec K. induction fuel as [|f IH]; intros namex data len pos s s' H; cbn [eval_loop] in H.
  - destruct (negb _); [injection H as <-; reflexivity|discriminate].
  - destruct (negb _); [injection H as <-; reflexivity|]. apply bind_ok in H as ([s1 p1] & ST & H). rewrite (IH _ _ _ _ _ _ H).
    unfold eval_step in ST. apply bind_ok in ST as ([[o t] sz] & _ & ST). apply bind_ok in ST as ([] & _ & ST).
    apply bind_ok in ST as ([s2 z2] & E & ST). apply bind_ok in ST as ([] & _ & ST). injection ST as <- <-.
    destruct (t =? 0); [rewrite (eval_plain_names _ _ _ _ _ _ _ E); reflexivity|].
    apply bind_ok in E as (s3 & E & Q). injection Q as <- <-. exact (eval_classed_keeps _ K _ _ _ _ _ _ _ E).
Qed.

Lemma evaluate_keeps : forall levels, keeps (evaluate_name_formula ops e levels).
Proof.
  induction levels as [|lv IH]; intros names k names' H; cbn [evaluate_name_formula] in H; apply bind_ok in H as (n & _ & H); [discriminate|].
  apply bind_ok in H as (? & _ & H). cbv zeta in H. apply bind_ok in H as (s & L & H). apply bind_ok in H as (n' & P & H).
  assert (E := fun I => list_set_ident _ _ _ _ _ P I H). rewrite (E eq_refl). exact (eval_loop_keeps _ IH _ _ _ _ _ _ _ L).
Qed.

Lemma eval_names_keeps : forall todo names names', eval_names ops e todo names = Ok names' -> map ident names' = map ident names.
Proof.
  induction todo as [|x todo IH]; intros names names' H; cbn [eval_names] in H; [injection H as <-; reflexivity|].
  apply bind_ok in H as (n & _ & H). apply bind_ok in H as (names1 & E & H). rewrite (IH _ _ H).
  destruct (_ || _); [injection E as <-; reflexivity|]. exact (evaluate_keeps _ _ _ _ E).
Qed.
End Kept.
