(** Facts about the cell planes used by the sheet theorems. *)
From Verif Require Import Base BaseFacts GridModel.

(** ** Lists *)

Lemma list_set_spec : forall {A} (l : list A) i a, 0 <= i < zlen l ->
  list_set l i a = Ok (firstn (Z.to_nat i) l ++ a :: skipn (S (Z.to_nat i)) l).
Proof.
  intros A l i a H. unfold list_set. destruct (i <? 0) eqn:E; [lia|].
  replace ((0 <=? i) && (i <? zlen l)) with true by lia. reflexivity.
Qed.

Lemma list_set_out : forall {A} (l : list A) i a, zlen l <= i -> list_set l i a = Err IndexError.
Proof.
  intros A l i a H. unfold list_set. pose proof (zlen_nonneg l). destruct (i <? 0) eqn:E; [lia|].
  replace ((0 <=? i) && (i <? zlen l)) with false by lia. reflexivity.
Qed.

(** The updated list. *)
Definition zset {A} (l : list A) (i : Z) (a : A) : list A :=
  firstn (Z.to_nat i) l ++ a :: skipn (S (Z.to_nat i)) l.

Lemma zlen_zset : forall {A} (l : list A) i a, 0 <= i < zlen l -> zlen (zset l i a) = zlen l.
Proof.
  intros A l i a H. unfold zset. rewrite zlen_app, zlen_cons, zlen_firstn, zlen_skipn. lia.
Qed.

Lemma znth_zset : forall {A} (l : list A) i a j, 0 <= i < zlen l ->
  znth (zset l i a) j = if j =? i then Some a else znth l j.
Proof.
  intros A l i a j H. unfold zset.
  assert (zlen (firstn (Z.to_nat i) l) = i) as L by (rewrite zlen_firstn; lia).
  destruct (j <? 0) eqn:E0.
  { replace (j =? i) with false by lia.
    assert (forall (m : list A), znth m j = None) as N by (intros m; apply znth_None; lia). rewrite !N. reflexivity. }
  destruct (Z_lt_le_dec j i) as [Hlt|Hge].
  - rewrite znth_app_l by lia. rewrite znth_firstn by lia. replace (j =? i) with false by lia. reflexivity.
  - rewrite znth_app_r by lia. rewrite L. destruct (j =? i) eqn:E.
    + replace (j - i) with 0 by lia. reflexivity.
    + rewrite znth_cons by lia. rewrite znth_skipn by lia. f_equal. lia.
Qed.

Lemma map_zset : forall {A B} (f : A -> B) l i a, map f (zset l i a) = zset (map f l) i (f a).
Proof. intros. unfold zset. rewrite map_app. cbn [map]. rewrite firstn_map, skipn_map. reflexivity. Qed.

Lemma zset_same : forall {A} (l : list A) i a, znth l i = Some a -> zset l i a = l.
Proof.
  intros A l i a H. pose proof (znth_Some_range _ _ _ H) as R. apply znth_ext. intros j Hj.
  rewrite znth_zset by exact R. destruct (j =? i) eqn:E; [|reflexivity]. replace j with i by lia. auto.
Qed.

Lemma py_index_some : forall {A} (l : list A) i a, znth l i = Some a -> py_index l i = Ok a.
Proof. intros A l i a H. pose proof (znth_Some_range _ _ _ H). apply py_index_znth; [lia|exact H]. Qed.

Lemma py_index_none : forall {A} (l : list A) i, zlen l <= i -> py_index l i = Err IndexError.
Proof.
  intros A l i H. unfold py_index. pose proof (zlen_nonneg l). destruct (i <? 0) eqn:E; [lia|].
  replace (znth l i) with (@None A); [reflexivity|]. symmetry. apply znth_None. lia.
Qed.

Lemma znth_zrepeat : forall {A} (a : A) n i, 0 <= i < n -> znth (zrepeat a n) i = Some a.
Proof.
  intros A a n i H. unfold znth, zrepeat. destruct (i <? 0) eqn:E; [lia|].
  rewrite nth_error_repeat by lia. reflexivity.
Qed.

Lemma znth_zrepeat_inv : forall {A} (a b : A) n i, znth (zrepeat a n) i = Some b -> b = a.
Proof.
  intros A a b n i H. unfold znth, zrepeat in H. destruct (i <? 0); [discriminate|].
  apply nth_error_In in H. apply repeat_spec in H. exact H.
Qed.

(** ** Planes: contents and widths *)

Definition look {A} (d : A) (p : list (list A)) (r c : Z) : A :=
  match znth p r with
  | Some row => match znth row c with Some a => a | None => d end
  | None => d
  end.

Definition widths {A} (p : list (list A)) : list Z := map zlen p.

Lemma width_row : forall {A} (p : list (list A)) r w, znth (widths p) r = Some w ->
  exists row, znth p r = Some row /\ zlen row = w.
Proof.
  intros A p r w H. unfold widths in H. rewrite znth_map in H.
  destruct (znth p r) as [row|]; cbn in H; [|discriminate]. exists row. split; congruence.
Qed.

Lemma zlen_widths : forall {A} (p : list (list A)), zlen (widths p) = zlen p.
Proof. intros. apply zlen_map. Qed.

Lemma plane_get_look : forall {A} (d : A) p r c w, znth (widths p) r = Some w -> 0 <= c < w ->
  plane_get p r c = Ok (look d p r c).
Proof.
  intros A d p r c w H Hc. apply width_row in H as (row & H1 & H2).
  unfold plane_get, look. rewrite (py_index_some _ _ _ H1), H1. cbn [bind].
  destruct (znth_in_range row c ltac:(lia)) as [a Ha]. rewrite (py_index_some _ _ _ Ha), Ha. reflexivity.
Qed.

Lemma plane_set_in : forall {A} (p : list (list A)) r c a w, znth (widths p) r = Some w -> 0 <= c < w ->
  exists p', plane_set p r c a = Ok p' /\ widths p' = widths p /\
    forall d r' c', look d p' r' c' = if (r' =? r) && (c' =? c) then a else look d p r' c'.
Proof.
  intros A p r c a w H Hc. apply width_row in H as (row & H1 & H2).
  pose proof (znth_Some_range _ _ _ H1) as R.
  unfold plane_set. rewrite (py_index_some _ _ _ H1). cbn [bind].
  rewrite list_set_spec by lia. cbn [bind]. rewrite list_set_spec by lia. fold (zset row c a).
  fold (zset p r (zset row c a)).
  eexists. split; [reflexivity|]. split.
  - unfold widths. rewrite map_zset. rewrite zlen_zset by lia. apply zset_same.
    rewrite znth_map, H1. reflexivity.
  - intros d r' c'. unfold look. rewrite znth_zset by lia.
    destruct (r' =? r) eqn:E; cbn [andb]; [|reflexivity].
    replace r' with r by lia. rewrite H1. rewrite znth_zset by lia. destruct (c' =? c); reflexivity.
Qed.

Lemma plane_set_out : forall {A} (p : list (list A)) r c a, 0 <= r -> 0 <= c ->
  (forall w, znth (widths p) r = Some w -> w <= c) -> plane_set p r c a = Err IndexError.
Proof.
  intros A p r c a Hr Hc H. unfold plane_set. destruct (znth p r) as [row|] eqn:E.
  - rewrite (py_index_some _ _ _ E). cbn [bind]. rewrite list_set_out; [reflexivity|].
    apply H. unfold widths. rewrite znth_map, E. reflexivity.
  - rewrite py_index_none; [reflexivity|]. apply znth_None in E. lia.
Qed.

Lemma look_ext_row : forall {A} (d : A) p r row k, znth p r = Some row ->
  forall r' c', look d (zset p r (row ++ zrepeat d k)) r' c' = look d p r' c'.
Proof.
  intros A d p r row k H r' c'. pose proof (znth_Some_range _ _ _ H) as R.
  unfold look. rewrite znth_zset by exact R. destruct (r' =? r) eqn:E; [|reflexivity].
  replace r' with r by lia. rewrite H. destruct (Z_lt_le_dec c' (zlen row)) as [L|L].
  - destruct (c' <? 0) eqn:E0.
    + assert (forall m : list A, znth m c' = None) as N by (intros; apply znth_None; lia). rewrite !N. reflexivity.
    + rewrite znth_app_l by lia. reflexivity.
  - rewrite znth_app_r by lia. destruct (znth (zrepeat d k) _) as [b|] eqn:Eb.
    + apply znth_zrepeat_inv in Eb. subst b. replace (znth row c') with (@None A); [reflexivity|].
      symmetry. apply znth_None. lia.
    + replace (znth row c') with (@None A); [reflexivity|]. symmetry. apply znth_None. lia.
Qed.

Lemma row_extend_spec : forall {A} (d : A) p r w k, znth (widths p) r = Some w -> 0 <= k ->
  exists p', row_extend p r (zrepeat d k) = Ok p' /\ widths p' = zset (widths p) r (w + k) /\
    forall r' c', look d p' r' c' = look d p r' c'.
Proof.
  intros A d p r w k H Hk. apply width_row in H as (row & H1 & H2).
  pose proof (znth_Some_range _ _ _ H1) as R.
  unfold row_extend. rewrite (py_index_some _ _ _ H1). cbn [bind]. rewrite list_set_spec by exact R.
  eexists. split; [reflexivity|]. split.
  - fold (zset p r (row ++ zrepeat d k)). unfold widths. rewrite map_zset, zlen_app, zlen_zrepeat by lia.
    rewrite H2. reflexivity.
  - apply look_ext_row. exact H1.
Qed.

Lemma row_tail_spec : forall {A} (d : A) p r w k, znth (widths p) r = Some w -> 0 <= k ->
  exists p', row_tail p r w (zrepeat d k) = Ok p' /\ widths p' = zset (widths p) r (w + k) /\
    forall r' c', look d p' r' c' = look d p r' c'.
Proof.
  intros A d p r w k H Hk. pose proof H as H0. apply width_row in H as (row & H1 & H2).
  destruct (row_extend_spec d p r w k H0 Hk) as (p' & E & R). exists p'. split; [|exact R].
  unfold row_tail, row_extend in *. rewrite (py_index_some _ _ _ H1) in *. cbn [bind] in *.
  rewrite py_slice_all by lia. exact E.
Qed.

Lemma widths_app : forall {A} (p q : list (list A)), widths (p ++ q) = widths p ++ widths q.
Proof. intros. apply map_app. Qed.

Lemma widths_new_rows : forall {A} (d : A) n k, 0 <= n -> widths (zrepeat (zrepeat d n) k) = zrepeat n k.
Proof.
  intros A d n k Hn. unfold widths. unfold zrepeat at 1 3. induction (Z.to_nat k) as [|j IH]; [reflexivity|].
  cbn [repeat map]. rewrite IH, zlen_zrepeat by lia. reflexivity.
Qed.

Lemma look_new_rows : forall {A} (d : A) p n k r c, look d (p ++ zrepeat (zrepeat d n) k) r c = look d p r c.
Proof.
  intros A d p n k r c. unfold look. destruct (Z_lt_le_dec r (zlen p)) as [L|L].
  - destruct (r <? 0) eqn:E0.
    + assert (forall m : list (list A), znth m r = None) as N by (intros; apply znth_None; lia). rewrite !N. reflexivity.
    + rewrite znth_app_l by lia. reflexivity.
  - rewrite znth_app_r by lia. replace (znth p r) with (@None (list A)) by (symmetry; apply znth_None; lia).
    destruct (znth _ (r - zlen p)) as [row|] eqn:E; [|reflexivity].
    apply znth_zrepeat_inv in E. subst row. destruct (znth _ c) as [b|] eqn:Eb; [|reflexivity].
    apply znth_zrepeat_inv in Eb. exact Eb.
Qed.

Lemma zrepeat_nil_rows : forall {A} (d : A) k, zrepeat (@nil A) k = zrepeat (zrepeat d 0) k.
Proof. reflexivity. Qed.

(** Two planes of the same widths with the same contents are equal. *)
Lemma plane_ext : forall {A} (d : A) (p q : list (list A)), widths p = widths q ->
  (forall r c, look d p r c = look d q r c) -> p = q.
Proof.
  intros A d p q HW HL. apply znth_ext. intros r Hr.
  assert (zlen p = zlen q) as L by (rewrite <- !zlen_widths, HW; reflexivity).
  destruct (znth p r) as [row|] eqn:E.
  - destruct (znth_in_range q r) as [row' E']; [apply znth_Some_range in E; lia|]. rewrite E'. f_equal.
    assert (zlen row = zlen row') as LR.
    { assert (znth (widths p) r = Some (zlen row)) as A1 by (unfold widths; rewrite znth_map, E; reflexivity).
      rewrite HW in A1. unfold widths in A1. rewrite znth_map, E' in A1. cbn in A1. congruence. }
    apply znth_ext. intros c Hc. specialize (HL r c). unfold look in HL. rewrite E, E' in HL.
    destruct (znth row c) as [a|] eqn:Ea.
    + destruct (znth_in_range row' c) as [b Eb]; [apply znth_Some_range in Ea; lia|]. rewrite Eb in *. congruence.
    + symmetry. apply znth_None. apply znth_None in Ea. lia.
  - symmetry. apply znth_None. apply znth_None in E. lia.
Qed.
