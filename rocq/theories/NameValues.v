(** Lemmas about FormulaModel.v and BookModel.v: every name that is evaluated holds what its
    own formula gives. *)
From Verif Require Import Base BaseFacts Text Strings GridModel GridFacts SheetObjects FormulaModel BookModel NameFacts.

Lemma znth_In : forall A (l : list A) i x, znth l i = Some x -> In x l.
Proof. intros A l i x H. unfold znth in H. destruct (i <? 0); [discriminate|]. exact (nth_error_In _ _ H). Qed.

(** What holds of evaluating other names holds of the loop over a formula. *)
Section Related.
Context {N : Type}.
Variable ops : numops N.
Variable e : fenv.
Variable R : list (nameobj N) -> list (nameobj N) -> Prop.
Hypothesis R_refl : forall a, R a a.
Hypothesis R_trans : forall a b c, R a b -> R b c -> R a c.

Definition relates (rec : list (nameobj N) -> Z -> result (list (nameobj N))) : Prop := forall names k names', rec names k = Ok names' -> R names names'.

Lemma use_name_relates : forall rec, relates rec -> forall t s s', use_name e rec t s = Ok s' -> R (s_names s) (s_names s').
Proof.
  intros rec K t s s' H. unfold use_name in H. apply bind_ok in H as (tgt & _ & H). apply bind_ok in H as (names & RC & H).
  apply bind_ok in H as (tgt' & _ & H). cbv zeta in H. apply bind_ok in H as (res & _ & H). apply bind_ok in H as (text & _ & H).
  injection H as <-. cbn [s_names]. destruct (nm_evaluated tgt); [injection RC as <-; apply R_refl|]. exact (K _ _ _ RC).
Qed.

Lemma classed_relates : forall rec, relates rec -> forall namex data pos opcode optype s s',
  eval_classed ops e rec namex data pos opcode optype s = Ok s' -> R (s_names s) (s_names s').
Proof.
  intros rec K namex data pos opcode optype s s' H. unfold eval_classed in H. cbv zeta in H.
  pose proof (use_name_relates rec K) as U. set (u := use_name e rec) in *. clearbody u.
  repeat first
    [ apply bind_ok in H as ([] & _ & H)
    | apply bind_ok in H as ([[[? ?] ?] ?] & _ & H)
    | apply bind_ok in H as ([[? ?] ?] & _ & H)
    | apply bind_ok in H as ([? ?] & _ & H)
    | apply bind_ok in H as (? & _ & H)
    | match type of H with (if ?c then _ else _) = _ => destruct c end
    | match type of H with (match ?c with _ => _ end) = _ => destruct c end
    | discriminate ]; try (injection H as <-; apply R_refl); apply U in H; exact H.
Qed.

Lemma loop_relates : forall rec, relates rec -> forall fuel namex data len pos s s',
  eval_loop ops e fuel rec namex data len pos s = Ok s' -> R (s_names s) (s_names s').
Proof.
  intros rec K. induction fuel as [|f IH]; intros namex data len pos s s' H; cbn [eval_loop] in H.
  - destruct (negb _); [injection H as <-; apply R_refl|discriminate].
  - destruct (negb _); [injection H as <-; apply R_refl|]. apply bind_ok in H as ([s1 p1] & ST & H).
    eapply R_trans; [|exact (IH _ _ _ _ _ _ H)].
    unfold eval_step in ST. apply bind_ok in ST as ([[o t] sz] & _ & ST). apply bind_ok in ST as ([] & _ & ST).
    apply bind_ok in ST as ([s2 z2] & E & ST). apply bind_ok in ST as ([] & _ & ST). injection ST as <- <-.
    destruct (t =? 0); [rewrite (eval_plain_names _ _ _ _ _ _ _ _ _ E); apply R_refl|].
    apply bind_ok in E as (s3 & E & Q). injection Q as <- <-. exact (classed_relates _ K _ _ _ _ _ _ _ E).
Qed.
End Related.

Section Values.
Context {N : Type}.
Variable ops : numops N.
Variable e : fenv.
Variable ids : list (Z * list Z * Z * Z * list Z * Z * option Z).

(** An evaluated name is what some run over its formula leaves, among those names. *)
Definition run_of (raw : list Z) (len : Z) (s : est N) : Prop :=
  exists lv k names, map ident names = ids /\
    eval_loop ops e (Z.to_nat len) (evaluate_name_formula ops e lv) k raw len 0
      (mk_est (if len =? 0 then [unk_opnd] else []) false false names) = Ok s.
Definition made (n : nameobj N) : Prop := nm_evaluated n = true ->
  exists s, run_of (nm_raw n) (nm_len n) s /\ nm_stack n = s_stack s /\ nm_any_rel n = s_rel s /\ nm_any_err n = s_err s.

Definition done (names : list (nameobj N)) (j : Z) : Prop := exists n, znth names j = Some n /\ nm_evaluated n = true.
Definition onward (names names' : list (nameobj N)) : Prop :=
  (map ident names = ids -> Forall made names -> map ident names' = ids /\ Forall made names') /\ forall j, done names j -> done names' j.
Lemma onward_refl : forall names, onward names names.
Proof. intros names. split; auto. Qed.
Lemma onward_trans : forall a b c, onward a b -> onward b c -> onward a c.
Proof. intros a b c [A1 A2] [B1 B2]. split; [intros I F; destruct (A1 I F); auto|auto]. Qed.

Definition moves (rec : list (nameobj N) -> Z -> result (list (nameobj N))) : Prop := relates onward rec.
Lemma loop_moves : forall rec, moves rec -> forall fuel namex data len pos s s',
  eval_loop ops e fuel rec namex data len pos s = Ok s' -> onward (s_names s) (s_names s').
Proof. exact (loop_relates ops e onward onward_refl onward_trans). Qed.

(** Replacing an element. *)
Lemma list_set_znth : forall A (l : list A) i x l', list_set l i x = Ok l' ->
  let j := if i <? 0 then i + zlen l else i in 0 <= j < zlen l /\ znth l' j = Some x /\ forall k, k <> j -> znth l' k = znth l k.
Proof.
  intros A l i x l' H j. unfold list_set in H. cbv zeta in H. fold j in H.
  destruct ((0 <=? j) && (j <? zlen l)) eqn:B; [|discriminate]. injection H as <-.
  assert (R : 0 <= j < zlen l) by lia. split; [exact R|]. change (firstn _ _ ++ _) with (zset l j x). split; [rewrite znth_zset by lia; rewrite Z.eqb_refl; reflexivity|].
  intros k K. rewrite znth_zset by lia. replace (k =? j) with false by lia. reflexivity.
Qed.

Lemma evaluate_moves : forall levels names k names', evaluate_name_formula ops e levels names k = Ok names' ->
  onward names names' /\ done names' (if k <? 0 then k + zlen names else k).
Proof.
  induction levels as [|lv IH]; intros names k names' H; cbn [evaluate_name_formula] in H; apply bind_ok in H as (n & P0 & H); [discriminate|].
  apply bind_ok in H as (? & _ & H). cbv zeta in H. apply bind_ok in H as (s & L & H). apply bind_ok in H as (n' & P & H).
  assert (M : moves (evaluate_name_formula ops e lv)) by (intros a b c X; exact (proj1 (IH _ _ _ X))).
  pose proof (loop_moves _ M _ _ _ _ _ _ _ L) as [O1 O2]. cbn [s_names] in O1, O2.
  pose proof (eval_loop_keeps ops e _ (evaluate_keeps ops e lv) _ _ _ _ _ _ _ L) as K. cbn [s_names] in K.
  assert (LEN : zlen (s_names s) = zlen names) by (unfold zlen; rewrite <- (map_length ident (s_names s)), K, map_length; reflexivity).
  destruct (list_set_znth _ _ _ _ _ H) as (R & S1 & S2). rewrite LEN in R, S1, S2. set (j := if k <? 0 then k + zlen names else k) in *.
  assert (ID : ident n' = ident n).
  { unfold py_index in P, P0. rewrite LEN in P. fold j in P, P0.
    destruct (znth names j) as [y0|] eqn:Z0; [|discriminate]. injection P0 as ->. destruct (znth (s_names s) j) as [y1|] eqn:Z1; [|discriminate]. injection P as ->.
    assert (Q : znth (map ident (s_names s)) j = znth (map ident names) j) by (rewrite K; reflexivity).
    rewrite !znth_map, Z0, Z1 in Q. cbn in Q. injection Q as Q1 Q2 Q3 Q4 Q5 Q6 Q7. unfold ident. congruence. }
  split; [split|].
  - intros I F. destruct (O1 I F) as [I' F']. split; [assert (LI := fun X => list_set_ident _ _ _ _ _ P X H); rewrite (LI eq_refl); exact I'|].
    assert (MN : made (mk_name (nm_flags n') (nm_name n') (nm_extn n') (nm_sheet n') (nm_raw n') (nm_len n') (nm_scope n') true (s_stack s) (s_rel s) (s_err s))).
    { intros _. exists s. cbn. split; [|auto]. exists lv, k, names. split; [exact I|]. unfold ident in ID. injection ID as _ _ _ _ -> -> _. exact L. }
    apply Forall_forall. intros m X. apply In_nth_error in X as (q & X).
    assert (ZX : znth names' (Z.of_nat q) = Some m) by (unfold znth; replace (Z.of_nat q <? 0) with false by lia; rewrite Nat2Z.id; exact X).
    destruct (Z.eq_dec (Z.of_nat q) j) as [E|NE]; [rewrite E, S1 in ZX; injection ZX as <-; exact MN|].
    rewrite S2 in ZX by exact NE. rewrite Forall_forall in F'. apply F'.
    exact (znth_In _ _ _ _ ZX).
  - intros q D. destruct (Z.eq_dec q j) as [->|NE]; [eexists; split; [exact S1|reflexivity]|].
    destruct (O2 _ D) as (m & X & E). exists m. split; [rewrite S2 by exact NE; exact X|exact E].
  - eexists; split; [exact S1|reflexivity].
Qed.

Lemma eval_names_moves : forall todo names names', eval_names ops e todo names = Ok names' -> map ident names = ids -> Forall made names ->
  map ident names' = ids /\ Forall made names' /\ (forall j, done names j -> done names' j) /\
  forall j n, In j todo -> 0 <= j -> znth names j = Some n -> nm_macro n || nm_binary n = false -> done names' j.
Proof.
  induction todo as [|x todo IH]; intros names names' H I F; cbn [eval_names] in H.
  { injection H as <-. split; [exact I|]. split; [exact F|]. split; [auto|]. intros j n []. }
  apply bind_ok in H as (n & P & H). apply bind_ok in H as (names1 & E & H).
  assert (O : onward names names1 /\ (nm_macro n || nm_binary n = false -> done names1 (if x <? 0 then x + zlen names else x))).
  { destruct (nm_macro n || nm_binary n || nm_evaluated n) eqn:C.
    - injection E as <-. split; [apply onward_refl|]. intros C'. rewrite C' in C. cbn in C. unfold py_index in P.
      destruct (znth names _) as [y|] eqn:Y; [|discriminate]. injection P as ->. exists n. auto.
    - destruct (evaluate_moves _ _ _ _ E) as [M D]. split; auto. }
  destruct O as [[O1 O2] O3]. destruct (O1 I F) as [I1 F1]. destruct (IH _ _ H I1 F1) as (R1 & R2 & R3 & R4).
  split; [exact R1|]. split; [exact R2|]. split; [auto|]. intros j m [<-|IN] J Z0 MB.
  - apply R3. replace (x <? 0) with false in * by lia. apply O3.
    unfold py_index in P. replace (x <? 0) with false in P by lia. rewrite Z0 in P. injection P as ->. exact MB.
  - assert (Q : znth (map ident names1) j = znth (map ident names) j) by (rewrite I1, I; reflexivity).
    rewrite !znth_map, Z0 in Q. destruct (znth names1 j) as [m1|] eqn:Z1; [|discriminate]. cbn in Q. injection Q as Q1 Q2 Q3 Q4 Q5 Q6 Q7.
    apply (R4 j m1 IN J Z1). unfold nm_macro, nm_binary in *. rewrite Q1. exact MB.
Qed.
End Values.

(** Every name that is neither a macro nor binary holds what a run over its formula leaves. *)
Lemma eval_names_values : forall {N} (ops : numops N) e names names' j n, eval_names ops e (zrange 0 (zlen names)) names = Ok names' ->
  Forall (fun n => nm_evaluated n = false) names -> znth names j = Some n -> nm_macro n || nm_binary n = false ->
  exists n' s, znth names' j = Some n' /\ ident n' = ident n /\ nm_evaluated n' = true /\ run_of ops e (map ident names) (nm_raw n) (nm_len n) s /\
    nm_stack n' = s_stack s /\ nm_any_rel n' = s_rel s /\ nm_any_err n' = s_err s.
Proof.
  intros N ops e names names' j n H F Z0 MB.
  assert (F0 : Forall (made ops e (map ident names)) names).
  { apply Forall_forall. intros x X E. rewrite Forall_forall in F. rewrite (F x X) in E. discriminate. }
  destruct (eval_names_moves ops e _ _ _ _ H eq_refl F0) as (I & F' & _ & D).
  pose proof (znth_Some_range _ _ _ Z0) as R. destruct (D j n) as (n' & Z1 & E); auto; [apply in_zrange; lia|lia|].
  assert (Q : znth (map ident names') j = znth (map ident names) j) by (rewrite I; reflexivity).
  rewrite !znth_map, Z0, Z1 in Q. cbn in Q. injection Q as Q1 Q2 Q3 Q4 Q5 Q6 Q7.
  rewrite Forall_forall in F'. destruct (F' n') with (1 := E) as (s & S1 & S2 & S3 & S4) || destruct (F' n') as (s & S1 & S2 & S3 & S4); auto.
  - exact (znth_In _ _ _ _ Z1).
  - exists n', s. split; [exact Z1|]. split; [unfold ident; congruence|]. rewrite <- Q5, <- Q6. auto.
Qed.
