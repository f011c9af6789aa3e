(** Lemmas about BookModel.v: the two maps of defined names. *)
From Coq Require Import Sorting.Permutation Sorting.Sorted.
From Verif Require Import Base BaseFacts Text Strings GridModel GridFacts SheetObjects FormulaModel BookModel.

(** The places of the items [(key, scope)] with a given key. *)
Fixpoint hits (key : list Z) (i : Z) (items : list (list Z * Z)) : list (Z * Z) :=
  match items with
  | [] => []
  | (k, s) :: r => if list_eqb key k then (s, i) :: hits key (i + 1) r else hits key (i + 1) r
  end.

Lemma in_hits : forall key items i s j, In (s, j) (hits key i items) <-> i <= j /\ znth items (j - i) = Some (key, s).
Proof.
  intros key. induction items as [|[k t] r IH]; intros i s j; cbn [hits].
  - split; [intros []|]. intros [_ Q]. apply znth_Some_range in Q. cbn in Q. lia.
  - assert (E : (i <= j /\ znth ((k, t) :: r) (j - i) = Some (key, s)) <->
                (j = i /\ k = key /\ t = s) \/ (i + 1 <= j /\ znth r (j - (i + 1)) = Some (key, s))).
    { split.
      - intros [L Q]. destruct (Z.eq_dec j i) as [->|NE].
        + left. rewrite Z.sub_diag in Q. cbn in Q. split; [reflexivity|]. split; congruence.
        + right. rewrite znth_cons in Q by lia. split; [lia|]. rewrite <- Q. f_equal. lia.
      - intros [(-> & -> & ->)|[L Q]].
        + rewrite Z.sub_diag. split; [lia|reflexivity].
        + split; [lia|]. rewrite znth_cons by lia. rewrite <- Q. f_equal. lia. }
    rewrite E. destruct (list_eqb key k) eqn:K; cbn [In]; rewrite IH.
    + apply list_eqb_eq in K as ->. split.
      * intros [Q|Q]; [left; split; [congruence|]; split; congruence|right; exact Q].
      * intros [(-> & _ & ->)|Q]; auto.
    + split; [auto|]. intros [(_ & -> & _)|Q]; [|exact Q]. rewrite list_eqb_refl in K. discriminate.
Qed.

Lemma hits_places : forall key items i, NoDup (map snd (hits key i items)).
Proof.
  intros key. induction items as [|[k t] r IH]; intros i; cbn [hits]; [constructor|].
  destruct (list_eqb key k); [|apply IH]. cbn [map snd]. constructor; [|apply IH].
  intros Q. apply in_map_iff in Q as ([s j] & <- & Q). apply in_hits in Q as [L _]. cbn [snd] in L. lia.
Qed.

(** ** Sorting *)

Lemma insert_perm : forall x l, Permutation (insert x l) (x :: l).
Proof.
  intros x. induction l as [|y r IH]; cbn [insert]; [reflexivity|]. destruct (pair_le x y); [reflexivity|].
  rewrite IH. constructor.
Qed.
Lemma sort_perm : forall l, Permutation (sort l) l.
Proof. induction l as [|x r IH]; [reflexivity|]. cbn [sort fold_right]. rewrite insert_perm. constructor. exact IH. Qed.

Definition le (a b : Z * Z) : Prop := fst a < fst b \/ (fst a = fst b /\ snd a <= snd b).
Lemma pair_le_le : forall a b, pair_le a b = true <-> le a b.
Proof. intros [a1 a2] [b1 b2]. unfold pair_le, le. cbn [fst snd]. lia. Qed.
Lemma le_total : forall a b, pair_le a b = false -> le b a.
Proof. intros [a1 a2] [b1 b2]. unfold pair_le, le. cbn [fst snd]. lia. Qed.
Lemma le_trans : forall a b c, le a b -> le b c -> le a c.
Proof. intros [a1 a2] [b1 b2] [c1 c2]. unfold le. cbn [fst snd]. lia. Qed.

Lemma insert_sorted : forall x l, StronglySorted le l -> StronglySorted le (insert x l).
Proof.
  intros x l S. induction S as [|y r S IH F]; cbn [insert]; [repeat constructor|].
  destruct (pair_le x y) eqn:E.
  - apply pair_le_le in E. constructor; [constructor; assumption|]. constructor; [exact E|].
    rewrite Forall_forall in *. intros z Z. exact (le_trans _ _ _ E (F z Z)).
  - constructor; [exact IH|]. rewrite Forall_forall in *. intros z Q.
    apply (Permutation_in _ (insert_perm x r)) in Q as [<- | Q]; [exact (le_total _ _ E)|exact (F z Q)].
Qed.
Lemma sort_sorted : forall l, StronglySorted le (sort l).
Proof. induction l as [|x r IH]; cbn [sort fold_right]; [constructor|]. apply insert_sorted. exact IH. Qed.

(** ** The maps *)

Lemma key_eqb_eq : forall a b, key_eqb a b = true <-> a = b.
Proof.
  intros [a1 a2] [b1 b2]. unfold key_eqb. cbn [fst snd]. rewrite andb_true_iff, list_eqb_eq, Z.eqb_eq.
  split; [intros [-> ->]; reflexivity|intros Q; split; congruence].
Qed.

Lemma dget_multi_add : forall d k v key, dget list_eqb (multi_add d k v) key =
  if list_eqb key k then Some (match dget list_eqb d key with Some l => l | None => [] end ++ [v]) else dget list_eqb d key.
Proof.
  induction d as [|[k' l] r IH]; intros k v key; cbn [multi_add dget]; [destruct (list_eqb key k); reflexivity|].
  destruct (list_eqb k k') eqn:E.
  - apply list_eqb_eq in E as <-. cbn [dget]. destruct (list_eqb key k); reflexivity.
  - cbn [dget]. rewrite IH. destruct (list_eqb key k') eqn:E'; [|reflexivity].
    apply list_eqb_eq in E' as ->. replace (list_eqb k' k) with false; [reflexivity|].
    symmetry. apply not_true_is_false. intros Q. apply list_eqb_eq in Q as ->. rewrite list_eqb_refl in E. discriminate.
Qed.

Lemma multi_add_keys : forall d k v x, In x (map fst (multi_add d k v)) <-> x = k \/ In x (map fst d).
Proof.
  induction d as [|[k' l] r IH]; intros k v x; cbn [multi_add map fst In].
  - split; [intros [->|[]]; auto|intros [->|[]]; auto].
  - destruct (list_eqb k k') eqn:E; cbn [map fst In].
    + apply list_eqb_eq in E as ->. split; [auto|]. intros [->|Q]; auto.
    + rewrite IH. tauto.
Qed.
Lemma multi_add_nodup : forall d k v, NoDup (map fst d) -> NoDup (map fst (multi_add d k v)).
Proof.
  induction d as [|[k' l] r IH]; intros k v H; cbn [multi_add map fst]; [repeat constructor; intros []|].
  cbn [map fst] in H. apply NoDup_cons_iff in H as [H1 H2]. destruct (list_eqb k k') eqn:E; cbn [map fst]; apply NoDup_cons_iff; split; auto.
  rewrite multi_add_keys. intros [->|Q]; [|exact (H1 Q)]. rewrite list_eqb_refl in E. discriminate.
Qed.

Section Maps.
Context {N : Type}.
Variable lower : list Z -> list Z.

(** Names with their scopes, as items. *)
Definition item (n : nameobj N) (x : list Z * Z) : Prop := fst x = lower (nm_name n) /\ nm_scope n = Some (snd x).

Lemma build_maps_spec : forall names i m d m' d', build_maps lower i names m d = Ok (m', d') ->
  exists items, Forall2 item names items /\
    (forall key s, (exists j, znth items j = Some (key, s) /\ (forall j', j < j' -> znth items j' <> Some (key, s)) /\
                              dget key_eqb m' (key, s) = Some (i + j)) \/
                   ((forall j, znth items j <> Some (key, s)) /\ dget key_eqb m' (key, s) = dget key_eqb m (key, s))) /\
    (forall key, dget list_eqb d' key =
       match hits key i items with
       | [] => dget list_eqb d key
       | h => Some (match dget list_eqb d key with Some l => l | None => [] end ++ h)
       end) /\
    (NoDup (map fst d) -> NoDup (map fst d')).
Proof.
  induction names as [|n r IH]; intros i m d m' d' H; cbn [build_maps] in H.
  - injection H as <- <-. exists []. split; [constructor|]. split; [|split; [|auto]].
    + intros key s. right. split; [|reflexivity]. intros j Q. apply znth_Some_range in Q. cbn in Q. lia.
    + intros key. reflexivity.
  - destruct (nm_scope n) as [scope|] eqn:SC; [|discriminate]. cbv zeta in H.
    destruct (IH _ _ _ _ _ H) as (items & F & M & D & ND). exists ((lower (nm_name n), scope) :: items).
    split; [constructor; [split; [reflexivity|exact SC]|exact F]|]. split; [|split].
    + intros key s. destruct (M key s) as [(j & J1 & J2 & J3)|[J1 J2]].
      * left. pose proof (znth_Some_range _ _ _ J1) as R. exists (j + 1). split; [|split].
        -- rewrite znth_cons by lia. rewrite <- J1. f_equal. lia.
        -- intros j' L. rewrite znth_cons by lia. apply J2. lia.
        -- rewrite J3. f_equal. lia.
      * cbn [dset dget] in J2. destruct (key_eqb (key, s) (lower (nm_name n), scope)) eqn:E.
        -- apply key_eqb_eq in E as [= -> ->]. left. exists 0. split; [reflexivity|]. split; [|rewrite J2; f_equal; lia].
           intros j' L. rewrite znth_cons by lia. apply J1.
        -- right. split; [|exact J2]. intros j Q. destruct (Z.eq_dec j 0) as [->|NZ].
           ++ cbn in Q. injection Q as <- <-. rewrite (proj2 (key_eqb_eq _ _)) in E by reflexivity. discriminate.
           ++ pose proof (znth_Some_range _ _ _ Q) as R. rewrite znth_cons in Q by lia. exact (J1 _ Q).
    + intros key. rewrite D, dget_multi_add. cbn [hits]. destruct (list_eqb key (lower (nm_name n))) eqn:E.
      * destruct (hits key (i + 1) items) as [|h hs]; [reflexivity|]. rewrite <- app_assoc. reflexivity.
      * reflexivity.
    + intros Q. apply ND. apply multi_add_nodup. exact Q.
Qed.

(** name_map and name_and_scope_map *)
Lemma name_maps_spec : forall names m d, name_maps lower names = Ok (m, d) ->
  exists items, Forall2 item names items /\
    (forall key s, match dget key_eqb m (key, s) with
                   | Some j => znth items j = Some (key, s) /\ forall j', j < j' -> znth items j' <> Some (key, s)
                   | None => forall j, znth items j <> Some (key, s)
                   end) /\
    (forall key, match dget list_eqb d key with
                 | Some l => l <> [] /\ (forall j, In j l <-> exists s, znth items j = Some (key, s)) /\
                     StronglySorted (fun j j' => exists s s', znth items j = Some (key, s) /\ znth items j' = Some (key, s') /\
                                                             (s < s' \/ s = s' /\ j < j')) l
                 | None => forall j s, znth items j <> Some (key, s)
                 end) /\
    NoDup (map fst d).
Proof.
  intros names m d H. unfold name_maps in H. apply bind_ok in H as ([m0 d0] & B & H). injection H as <- <-.
  destruct (build_maps_spec _ _ _ _ _ _ B) as (items & F & M & D & ND). exists items. split; [exact F|]. split; [|split].
  - intros key s. destruct (M key s) as [(j & J1 & J2 & J3)|[J1 J2]].
    + rewrite J3. cbn [Z.add]. auto.
    + rewrite J2. exact J1.
  - intros key. assert (E : dget list_eqb (map (fun '(k, l) => (k, map snd (sort l))) d0) key =
      option_map (fun l => map snd (sort l)) (dget list_eqb d0 key)).
    { clear. induction d0 as [|[k l] r IH]; [reflexivity|]. cbn [map dget]. destruct (list_eqb key k); [reflexivity|exact IH]. }
    rewrite E, D. cbn [dget]. destruct (hits key 0 items) as [|h hs] eqn:Q; cbn [option_map].
    + intros j s Z. assert (In (s, j) (hits key 0 items)) as I.
      { apply in_hits. pose proof (znth_Some_range _ _ _ Z). split; [lia|]. rewrite Z.sub_0_r. exact Z. }
      rewrite Q in I. exact I.
    + cbn [app]. assert (NE : hits key 0 items <> []) by (rewrite Q; discriminate). rewrite <- Q. clear Q h hs E.
      assert (IN : forall s j, In (s, j) (sort (hits key 0 items)) <-> znth items j = Some (key, s)).
      { intros s j. transitivity (In (s, j) (hits key 0 items)).
        - split; apply Permutation_in; [|apply Permutation_sym]; apply sort_perm.
        - rewrite in_hits, Z.sub_0_r. split; [tauto|]. intros Z. split; [|exact Z]. apply znth_Some_range in Z. lia. }
      split; [|split].
      * intros Q. apply NE. apply map_eq_nil in Q. apply Permutation_nil. rewrite <- Q. apply sort_perm.
      * intros j. rewrite in_map_iff. split.
        -- intros ([s j'] & <- & Q). apply IN in Q. eauto.
        -- intros (s & Q). exists (s, j). split; [reflexivity|]. apply IN. exact Q.
      * assert (ND' : NoDup (map snd (sort (hits key 0 items)))).
        { apply (Permutation_NoDup (l := map snd (hits key 0 items))); [|apply hits_places].
          apply Permutation_map, Permutation_sym, sort_perm. }
        assert (IN' : forall s j, In (s, j) (sort (hits key 0 items)) -> znth items j = Some (key, s)) by (intros s j; apply IN).
        pose proof (sort_sorted (hits key 0 items)) as S. revert ND' IN'. clear -S.
        induction S as [|[s j] r S IH F]; intros ND' IN'; cbn [map snd]; constructor.
        -- apply IH; [cbn [map] in ND'; apply NoDup_cons_iff in ND'; tauto|]. intros. apply IN'. right. assumption.
        -- rewrite Forall_forall in F |- *. intros j' Q. pose proof Q as Q0. apply in_map_iff in Q as ([s' j''] & E & Q). cbn [snd] in E. subst j''.
           exists s, s'. split; [apply IN'; left; reflexivity|]. split; [apply IN'; right; exact Q|].
           specialize (F _ Q). unfold le in F. cbn [fst snd] in F. cbn [map snd] in ND'. apply NoDup_cons_iff in ND' as [N1 _].
           destruct (Z.eq_dec j j') as [->|NE]; [contradiction|]. lia.
  - rewrite map_map. replace (map _ d0) with (map fst d0); [apply ND; constructor|].
    apply map_ext. intros [k l]. reflexivity.
Qed.
End Maps.
