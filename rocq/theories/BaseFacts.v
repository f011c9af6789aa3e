(** Lemmas about the definitions of Base.v. *)
From Coq Require Import FinFun.
From Verif Require Import Base.

Lemma bind_ok : forall {A B} (m : result A) (f : A -> result B) b,
  bind m f = Ok b -> exists a, m = Ok a /\ f a = Ok b.
Proof. intros A B [a|e] f b H; cbn in H; [eauto|discriminate]. Qed.

Lemma bind_Ok : forall {A B} (a : A) (f : A -> result B), bind (Ok a) f = f a.
Proof. reflexivity. Qed.

Lemma bind_assoc : forall {A B C} (m : result A) (f : A -> result B) (g : B -> result C),
  bind (bind m f) g = bind m (fun a => bind (f a) g).
Proof. intros A B C [a|e] f g; reflexivity. Qed.

Lemma zlen_nonneg : forall {A} (l : list A), 0 <= zlen l.
Proof. intros; unfold zlen; lia. Qed.

Lemma zlen_nil : forall {A}, zlen (@nil A) = 0.
Proof. reflexivity. Qed.

Lemma zlen_cons : forall {A} (a : A) l, zlen (a :: l) = 1 + zlen l.
Proof. intros; unfold zlen; cbn [length]; lia. Qed.

Lemma zlen_app : forall {A} (l m : list A), zlen (l ++ m) = zlen l + zlen m.
Proof. intros; unfold zlen; rewrite app_length; lia. Qed.

Lemma zlen_map : forall {A B} (f : A -> B) l, zlen (map f l) = zlen l.
Proof. intros; unfold zlen; rewrite map_length; reflexivity. Qed.

Lemma zlen_rev : forall {A} (l : list A), zlen (rev l) = zlen l.
Proof. intros; unfold zlen; rewrite rev_length; reflexivity. Qed.

Lemma zlen_zrepeat : forall {A} (a : A) n, 0 <= n -> zlen (zrepeat a n) = n.
Proof. intros; unfold zlen, zrepeat; rewrite repeat_length; lia. Qed.

Lemma zlen_zero_nil : forall {A} (l : list A), zlen l = 0 -> l = [].
Proof. intros A [|a l] H; [reflexivity|rewrite zlen_cons in H; pose proof (zlen_nonneg l); lia]. Qed.

Lemma znth_app_l : forall {A} (l m : list A) i, 0 <= i < zlen l -> znth (l ++ m) i = znth l i.
Proof.
  intros A l m i H; unfold znth, zlen in *.
  destruct (i <? 0) eqn:E; [reflexivity|].
  apply nth_error_app1; lia.
Qed.

Lemma znth_app_r : forall {A} (l m : list A) i, zlen l <= i -> znth (l ++ m) i = znth m (i - zlen l).
Proof.
  intros A l m i H; unfold znth, zlen in *.
  destruct (i <? 0) eqn:E; [lia|].
  destruct (i - Z.of_nat (length l) <? 0) eqn:E2; [lia|].
  rewrite nth_error_app2 by lia. f_equal; lia.
Qed.

Lemma znth_Some_range : forall {A} (l : list A) i a, znth l i = Some a -> 0 <= i < zlen l.
Proof.
  intros A l i a H; unfold znth, zlen in *.
  destruct (i <? 0) eqn:E; [discriminate|].
  assert (nth_error l (Z.to_nat i) <> None) by congruence.
  apply nth_error_Some in H0. lia.
Qed.

Lemma znth_in_range : forall {A} (l : list A) i, 0 <= i < zlen l -> exists a, znth l i = Some a.
Proof.
  intros A l i H; unfold znth, zlen in *.
  destruct (i <? 0) eqn:E; [lia|].
  destruct (nth_error l (Z.to_nat i)) eqn:E2; [eauto|].
  apply nth_error_None in E2; lia.
Qed.

Lemma znth_None : forall {A} (l : list A) i, znth l i = None <-> i < 0 \/ zlen l <= i.
Proof.
  intros A l i; split.
  - intros H. destruct (Z_lt_dec i 0); [auto|]. destruct (Z_lt_dec i (zlen l)); [|lia].
    destruct (znth_in_range l i) as [a Ha]; [lia|congruence].
  - intros H. destruct (znth l i) eqn:E; [|reflexivity]. apply znth_Some_range in E. lia.
Qed.

Lemma znth_map : forall {A B} (f : A -> B) l i, znth (map f l) i = option_map f (znth l i).
Proof.
  intros A B f l i; unfold znth. destruct (i <? 0); [reflexivity|].
  rewrite nth_error_map; reflexivity.
Qed.

Lemma znth_0 : forall {A} (a : A) l, znth (a :: l) 0 = Some a.
Proof. reflexivity. Qed.

Lemma znth_cons : forall {A} (a : A) l i, 0 < i -> znth (a :: l) i = znth l (i - 1).
Proof.
  intros A a l i H. unfold znth.
  destruct (i <? 0) eqn:E; [lia|]. destruct (i - 1 <? 0) eqn:E1; [lia|].
  replace (Z.to_nat i) with (S (Z.to_nat (i - 1))) by lia. reflexivity.
Qed.

Lemma znth_ext : forall {A} (l m : list A), (forall i, 0 <= i -> znth l i = znth m i) -> l = m.
Proof.
  intros A l; induction l as [|a l IH]; intros m H.
  - destruct m as [|b m]; [reflexivity|]. specialize (H 0 ltac:(lia)). discriminate H.
  - destruct m as [|b m]; [specialize (H 0 ltac:(lia)); discriminate H|].
    pose proof (H 0 ltac:(lia)) as H0. cbn in H0. injection H0 as ->.
    f_equal. apply IH. intros i Hi. specialize (H (i + 1) ltac:(lia)).
    rewrite !znth_cons in H by lia. replace (i + 1 - 1) with i in H by lia. exact H.
Qed.

Lemma znth_skipn : forall {A} (l : list A) k i, 0 <= i -> znth (skipn k l) i = znth l (Z.of_nat k + i).
Proof.
  intros A l k i Hi; unfold znth.
  destruct (i <? 0) eqn:E; [lia|]. destruct (Z.of_nat k + i <? 0) eqn:E1; [lia|].
  replace (Z.to_nat (Z.of_nat k + i)) with (k + Z.to_nat i)%nat by lia.
  clear. revert l. induction k; intros l; [reflexivity|].
  destruct l; [destruct (Z.to_nat i); reflexivity|]. cbn. apply IHk.
Qed.

Lemma znth_firstn : forall {A} (l : list A) k i, 0 <= i < Z.of_nat k -> znth (firstn k l) i = znth l i.
Proof.
  intros A l k i Hi; unfold znth.
  destruct (i <? 0) eqn:E; [reflexivity|].
  assert (Z.to_nat i < k)%nat as Hk by lia. revert Hk. clear.
  generalize (Z.to_nat i) as j. revert l. induction k; intros l j Hj; [lia|].
  destruct l; [reflexivity|]. destruct j; [reflexivity|]. cbn. apply IHk; lia.
Qed.

Lemma zlen_firstn : forall {A} (l : list A) k, zlen (firstn k l) = Z.min (Z.of_nat k) (zlen l).
Proof. intros; unfold zlen; rewrite firstn_length; lia. Qed.

Lemma zlen_skipn : forall {A} (l : list A) k, zlen (skipn k l) = Z.max 0 (zlen l - Z.of_nat k).
Proof. intros; unfold zlen; rewrite skipn_length; lia. Qed.

(** ** Slices of concatenations *)

Lemma py_bound_id : forall n i, 0 <= i <= n -> py_bound n i = i.
Proof. intros; unfold py_bound. destruct (i <? 0) eqn:E; lia. Qed.

Lemma py_bound_range : forall n i, 0 <= n -> 0 <= py_bound n i <= n.
Proof. intros; unfold py_bound. destruct (i <? 0) eqn:E; lia. Qed.

Lemma py_slice_mid : forall {A} (p s t : list A) a b,
  a = zlen p -> b = zlen p + zlen s -> py_slice (p ++ s ++ t) a b = s.
Proof.
  intros A p s t a b -> ->. unfold py_slice.
  pose proof (zlen_nonneg p). pose proof (zlen_nonneg s). pose proof (zlen_nonneg t).
  rewrite !py_bound_id by (rewrite !zlen_app; lia).
  replace (Z.to_nat (zlen p)) with (length p) by (unfold zlen; lia).
  rewrite skipn_app, skipn_all, Nat.sub_diag. cbn [skipn app].
  replace (Z.to_nat (zlen p + zlen s - zlen p)) with (length s) by (unfold zlen; lia).
  rewrite firstn_app, firstn_all, Nat.sub_diag. cbn. apply app_nil_r.
Qed.

Lemma py_slice_pre : forall {A} (s t : list A) b, b = zlen s -> py_slice (s ++ t) 0 b = s.
Proof. intros A s t b ->. apply (py_slice_mid [] s t); cbn; reflexivity. Qed.

Lemma py_slice_all : forall {A} (s : list A) b, zlen s <= b -> py_slice s 0 b = s.
Proof.
  intros A s b Hb. unfold py_slice. pose proof (zlen_nonneg s).
  replace (py_bound (zlen s) 0) with 0 by (unfold py_bound; cbn; lia).
  replace (py_bound (zlen s) b) with (zlen s) by (unfold py_bound; destruct (b <? 0) eqn:E; lia).
  cbn [Z.to_nat skipn]. rewrite Z.sub_0_r. unfold zlen. rewrite Nat2Z.id. apply firstn_all.
Qed.

Lemma py_from_app : forall {A} (p t : list A) a, a = zlen p -> py_from (p ++ t) a = t.
Proof.
  intros A p t a ->. unfold py_from. pose proof (zlen_nonneg p). pose proof (zlen_nonneg t).
  rewrite py_bound_id by (rewrite zlen_app; lia).
  unfold zlen. rewrite Nat2Z.id. rewrite skipn_app, skipn_all, Nat.sub_diag. reflexivity.
Qed.

Lemma py_slice_len : forall {A} (l : list A) a b, zlen (py_slice l a b) =
  Z.max 0 (py_bound (zlen l) b - py_bound (zlen l) a).
Proof.
  intros A l a b. unfold py_slice. pose proof (zlen_nonneg l) as Hl.
  pose proof (py_bound_range (zlen l) a Hl). pose proof (py_bound_range (zlen l) b Hl).
  rewrite zlen_firstn, zlen_skipn. lia.
Qed.

Lemma py_index_app : forall {A} (p : list A) a t i, i = zlen p -> py_index (p ++ a :: t) i = Ok a.
Proof.
  intros A p a t i ->. unfold py_index. pose proof (zlen_nonneg p).
  destruct (zlen p <? 0) eqn:E; [lia|].
  rewrite znth_app_r by lia. rewrite Z.sub_diag. reflexivity.
Qed.

Lemma py_index_znth : forall {A} (l : list A) i a, 0 <= i -> (py_index l i = Ok a <-> znth l i = Some a).
Proof.
  intros A l i a Hi. unfold py_index. destruct (i <? 0) eqn:E; [lia|].
  destruct (znth l i); split; intros H; congruence.
Qed.

Lemma znth_py_slice : forall {A} (l : list A) a b i, 0 <= a -> 0 <= i < b - a -> b <= zlen l ->
  znth (py_slice l a b) i = znth l (a + i).
Proof.
  intros A l a b i Ha Hi Hb. unfold py_slice.
  rewrite !py_bound_id by lia. rewrite znth_firstn by lia. rewrite znth_skipn by lia.
  f_equal; lia.
Qed.

(** ** zrange *)

Lemma zlen_zrange : forall a b, zlen (zrange a b) = Z.max 0 (b - a).
Proof. intros; unfold zrange, zlen; rewrite map_length, seq_length; lia. Qed.

Lemma in_zrange : forall a b x, In x (zrange a b) <-> a <= x < b.
Proof.
  intros a b x; unfold zrange; rewrite in_map_iff; split.
  - intros [k [Hk Hin]]. apply in_seq in Hin. lia.
  - intros H. exists (Z.to_nat (x - a)). split; [lia|]. apply in_seq. lia.
Qed.

Lemma zrange_nil : forall a b, b <= a -> zrange a b = [].
Proof. intros a b H; unfold zrange. replace (Z.to_nat (b - a)) with 0%nat by lia. reflexivity. Qed.

Lemma zrange_cons : forall a b, a < b -> zrange a b = a :: zrange (a + 1) b.
Proof.
  intros a b H; unfold zrange.
  replace (Z.to_nat (b - a)) with (S (Z.to_nat (b - (a + 1)))) by lia.
  cbn [seq map]. rewrite Z.add_0_r. f_equal.
  rewrite <- seq_shift, map_map. apply map_ext. intros k. lia.
Qed.

Lemma zrange_snoc : forall a b, a <= b -> zrange a (b + 1) = zrange a b ++ [b].
Proof.
  intros a b H; unfold zrange.
  replace (Z.to_nat (b + 1 - a)) with (Z.to_nat (b - a) + 1)%nat by lia.
  rewrite seq_app, map_app. cbn [seq map]. f_equal. f_equal. lia.
Qed.

Lemma zrange_app : forall a b c, a <= b <= c -> zrange a c = zrange a b ++ zrange b c.
Proof.
  intros a b c H; unfold zrange.
  replace (Z.to_nat (c - a)) with (Z.to_nat (b - a) + Z.to_nat (c - b))%nat by lia.
  rewrite seq_app, map_app. f_equal.
  cbn [Nat.add]. generalize (Z.to_nat (c - b)) as n. intros n.
  replace (Z.to_nat (b - a)) with (Z.to_nat (b - a) + 0)%nat by lia.
  assert (forall s, map (fun k => a + Z.of_nat k) (seq (Z.to_nat (b - a) + s) n)
                 = map (fun k => b + Z.of_nat k) (seq s n)) as Hs.
  { induction n; intros s; [reflexivity|]. cbn [seq map]. f_equal; [lia|].
    rewrite <- (IHn (S s)). f_equal. f_equal. lia. }
  apply Hs.
Qed.

Lemma znth_zrange : forall a b i, 0 <= i < b - a -> znth (zrange a b) i = Some (a + i).
Proof.
  intros a b i H. unfold zrange. rewrite znth_map.
  unfold znth. destruct (i <? 0) eqn:E; [lia|].
  rewrite (nth_error_nth' _ 0%nat) by (rewrite seq_length; lia).
  rewrite seq_nth by lia. cbn. f_equal. lia.
Qed.

Lemma NoDup_zrange : forall a b, NoDup (zrange a b).
Proof.
  intros; unfold zrange. apply Injective_map_NoDup; [|apply seq_NoDup].
  intros x y H; lia.
Qed.

(** ** Little-endian *)

Lemma le_enc_length : forall k v, length (le_enc k v) = k.
Proof. induction k; intros v; cbn; [reflexivity|]. rewrite IHk; reflexivity. Qed.

Lemma zlen_le_enc : forall k v, zlen (le_enc k v) = Z.of_nat k.
Proof. intros; unfold zlen; rewrite le_enc_length; reflexivity. Qed.

Lemma le_enc_bytes : forall k v, bytes (le_enc k v).
Proof.
  induction k; intros v; cbn; constructor; [|apply IHk].
  apply Z.mod_pos_bound; lia.
Qed.

Lemma le_val_enc : forall k v, 0 <= v < 256 ^ Z.of_nat k -> le_val (le_enc k v) = v.
Proof.
  induction k; intros v H.
  - cbn in *. lia.
  - cbn [le_enc le_val]. rewrite IHk.
    + pose proof (Z.div_mod v 256). lia.
    + rewrite Nat2Z.inj_succ, Z.pow_succ_r in H by lia.
      split; [apply Z.div_pos; lia|]. apply Z.div_lt_upper_bound; lia.
Qed.

Lemma le_val_range : forall l, bytes l -> 0 <= le_val l < 256 ^ zlen l.
Proof.
  induction l; intros H.
  - cbn. lia.
  - inversion H; subst. specialize (IHl H3). rewrite zlen_cons.
    rewrite Z.pow_add_r by (pose proof (zlen_nonneg l); lia). cbn [le_val].
    change (256 ^ 1) with 256. lia.
Qed.

Lemma le_enc_val : forall l, bytes l -> le_enc (length l) (le_val l) = l.
Proof.
  induction l; intros H; [reflexivity|].
  inversion H; subst. cbn [length le_enc le_val].
  replace ((a + 256 * le_val l) / 256) with (le_val l) by lia.
  f_equal; [lia|]. apply IHl; assumption.
Qed.

Lemma unpack_le_enc : forall p t k v pos n,
  pos = zlen p -> n = Z.of_nat k -> 0 <= v < 256 ^ n ->
  unpack_le n (p ++ le_enc k v ++ t) pos = Ok v.
Proof.
  intros p t k v pos n -> -> H. unfold unpack_le.
  rewrite py_slice_mid by (rewrite ?zlen_le_enc; reflexivity).
  rewrite zlen_le_enc, Z.eqb_refl. rewrite le_val_enc by assumption. reflexivity.
Qed.

Lemma unpack_le_bytes : forall p t s n pos,
  pos = zlen p -> zlen s = n -> unpack_le n (p ++ s ++ t) pos = Ok (le_val s).
Proof.
  intros p t s n pos -> <-. unfold unpack_le.
  rewrite py_slice_mid by reflexivity. rewrite Z.eqb_refl. reflexivity.
Qed.

Lemma unpack_le_ok : forall k data pos v,
  0 <= k -> 0 <= pos -> unpack_le k data pos = Ok v ->
  (0 < k -> pos + k <= zlen data) /\ v = le_val (py_slice data pos (pos + k)).
Proof.
  intros k data pos v Hk Hp H. unfold unpack_le in H.
  destruct (zlen (py_slice data pos (pos + k)) =? k) eqn:E; [|discriminate].
  injection H as <-. split; [|reflexivity]. intros Hk0.
  rewrite py_slice_len in E. unfold py_bound in E. pose proof (zlen_nonneg data).
  destruct (pos <? 0) eqn:E1; [lia|]. destruct (pos + k <? 0) eqn:E2; lia.
Qed.

Lemma bytes_app : forall a b, bytes (a ++ b) <-> bytes a /\ bytes b.
Proof. intros; unfold bytes; apply Forall_app. Qed.

Lemma list_eqb_eq : forall a b, list_eqb a b = true <-> a = b.
Proof.
  induction a; intros [|y b]; cbn; split; intros H; try congruence.
  - apply andb_true_iff in H as [H1 H2]. apply Z.eqb_eq in H1. apply IHa in H2. congruence.
  - injection H as -> ->. rewrite Z.eqb_refl. cbn. apply IHa. reflexivity.
Qed.

Lemma list_eqb_refl : forall a, list_eqb a a = true.
Proof. intros a; apply list_eqb_eq; reflexivity. Qed.

(** ** Evaluating a test on an interval *)

Fixpoint all_from (n : nat) (a : Z) (f : Z -> bool) : bool :=
  match n with O => true | S n' => if f a then all_from n' (a + 1) f else false end.

Lemma all_from_spec : forall n a f, all_from n a f = true ->
  forall x, a <= x < a + Z.of_nat n -> f x = true.
Proof.
  induction n as [|n IH]; intros a f H x Hx; [lia|].
  cbn in H. destruct (f a) eqn:E; [|discriminate].
  destruct (Z.eq_dec x a) as [->|N]; [exact E|].
  apply (IH (a + 1) f H). lia.
Qed.

Definition all_between (a b : Z) (f : Z -> bool) : bool := all_from (Z.to_nat (b - a)) a f.

Lemma all_between_spec : forall a b f, all_between a b f = true ->
  forall x, a <= x < b -> f x = true.
Proof. intros a b f H x Hx. apply (all_from_spec _ _ _ H). lia. Qed.

(** ** Reading at a position: [data] continues with [l] at [pos]. *)

Definition At {A} (data : list A) (pos : Z) (l : list A) : Prop :=
  exists p, data = p ++ l /\ pos = zlen p.

Lemma At_here : forall {A} (p l : list A) pos, pos = zlen p -> At (p ++ l) pos l.
Proof. intros A p l pos H. exists p. auto. Qed.

Lemma At_0 : forall {A} (l : list A), At l 0 l.
Proof. intros A l. exists []. auto. Qed.

Lemma At_skip : forall {A} (data s t : list A) pos pos', At data pos (s ++ t) -> pos' = pos + zlen s -> At data pos' t.
Proof.
  intros A data s t pos pos' (p & -> & ->) ->. exists (p ++ s).
  rewrite <- app_assoc, zlen_app. auto.
Qed.

Lemma At_skip1 : forall {A} (data t : list A) a pos pos', At data pos (a :: t) -> pos' = pos + 1 -> At data pos' t.
Proof. intros A data t a pos pos' H ->. apply (At_skip data [a] t pos); [exact H|reflexivity]. Qed.

Lemma At_slice : forall {A} (data s t : list A) pos e, At data pos (s ++ t) -> e = pos + zlen s -> py_slice data pos e = s.
Proof. intros A data s t pos e (p & -> & ->) ->. apply py_slice_mid; reflexivity. Qed.

Lemma At_index : forall {A} (data t : list A) a pos, At data pos (a :: t) -> py_index data pos = Ok a.
Proof. intros A data t a pos (p & -> & ->). apply py_index_app. reflexivity. Qed.

Lemma At_from : forall {A} (data t : list A) pos, At data pos t -> py_from data pos = t.
Proof. intros A data t pos (p & -> & ->). apply py_from_app. reflexivity. Qed.

Lemma At_len : forall {A} (data t : list A) pos, At data pos t -> zlen data = pos + zlen t.
Proof. intros A data t pos (p & -> & ->). apply zlen_app. Qed.

Lemma At_nonneg : forall {A} (data t : list A) pos, At data pos t -> 0 <= pos.
Proof. intros A data t pos (p & -> & ->). apply zlen_nonneg. Qed.

Lemma At_le : forall data t k v pos n, At data pos (le_enc k v ++ t) -> n = Z.of_nat k -> 0 <= v < 256 ^ n ->
  unpack_le n data pos = Ok v.
Proof. intros data t k v pos n (p & -> & ->) Hn Hv. apply unpack_le_enc; auto. Qed.

Lemma At_u16 : forall data t v pos, At data pos (le_enc 2 v ++ t) -> 0 <= v < 65536 -> unpack_u16 data pos = Ok v.
Proof. intros data t v pos H Hv. apply (At_le data t 2 v); [exact H|reflexivity|cbn; lia]. Qed.

Lemma At_u32 : forall data t v pos, At data pos (le_enc 4 v ++ t) -> 0 <= v < 2 ^ 32 -> unpack_u32 data pos = Ok v.
Proof. intros data t v pos H Hv. apply (At_le data t 4 v); [exact H|reflexivity|cbn in *; lia]. Qed.

Lemma At_i32_pos : forall data t v pos, At data pos (le_enc 4 v ++ t) -> 0 <= v < 2 ^ 31 -> unpack_i32 data pos = Ok v.
Proof.
  intros data t v pos H Hv. unfold unpack_i32. rewrite (At_le data t 4 v) by (try exact H; cbn in *; lia).
  cbn [bind]. unfold to_signed. change (2 ^ (32 - 1)) with (2 ^ 31). destruct (v <? 2 ^ 31) eqn:E; [reflexivity|lia].
Qed.

Lemma At_zslice_len : forall {A} (data s t : list A) pos n, At data pos (s ++ t) -> zlen s = n ->
  zlen (py_slice data pos (pos + n)) =? n = true.
Proof. intros A data s t pos n H <-. rewrite (At_slice data s t pos) by (auto; lia). apply Z.eqb_refl. Qed.

Lemma In_py_slice : forall {A} (l : list A) a b x, In x (py_slice l a b) -> In x l.
Proof.
  intros A l a b x H. unfold py_slice in H.
  rewrite <- (firstn_skipn (Z.to_nat (py_bound (zlen l) a)) l). apply in_or_app. right.
  rewrite <- (firstn_skipn (Z.to_nat (py_bound (zlen l) b - py_bound (zlen l) a))).
  apply in_or_app. left. exact H.
Qed.

Lemma bytes_slice : forall l a b, bytes l -> bytes (py_slice l a b).
Proof. intros l a b H. unfold bytes in *. rewrite Forall_forall in *. intros x Hx. apply H. eapply In_py_slice; exact Hx. Qed.

Lemma unpack_le_range : forall k data pos v, bytes data -> unpack_le k data pos = Ok v -> 0 <= v < 256 ^ k.
Proof.
  intros k data pos v Hb H. unfold unpack_le in H.
  destruct (zlen (py_slice data pos (pos + k)) =? k) eqn:E; [|discriminate].
  apply Z.eqb_eq in E. injection H as <-. pose proof (le_val_range _ (bytes_slice data pos (pos + k) Hb)) as R.
  rewrite E in R. exact R.
Qed.

Lemma unpack_u16_range : forall data pos v, bytes data -> unpack_u16 data pos = Ok v -> 0 <= v < 65536.
Proof. intros data pos v Hb H. apply (unpack_le_range 2 data pos v Hb H). Qed.

(** A result that is not the model's "out of fuel". *)
Definition nofuel {A} (r : result A) : Prop := r <> Err OutOfFuel.

Lemma nofuel_ok : forall {A} (a : A), nofuel (Ok a).
Proof. intros A a. discriminate. Qed.

Lemma nofuel_bind : forall {A B} (m : result A) (f : A -> result B),
  nofuel m -> (forall a, m = Ok a -> nofuel (f a)) -> nofuel (bind m f).
Proof. intros A B [a|e] f H1 H2; cbn; [apply H2; reflexivity|]. intros E. apply H1. congruence. Qed.

Lemma nofuel_unpack_le : forall k d p, nofuel (unpack_le k d p).
Proof. intros k d p. unfold nofuel, unpack_le. cbv zeta. destruct (_ =? _); discriminate. Qed.
Lemma nofuel_u16 : forall d p, nofuel (unpack_u16 d p).
Proof. intros. apply nofuel_unpack_le. Qed.
Lemma nofuel_u32 : forall d p, nofuel (unpack_u32 d p).
Proof. intros. apply nofuel_unpack_le. Qed.
Lemma nofuel_i16 : forall d p, nofuel (unpack_i16 d p).
Proof. intros. apply nofuel_bind; [apply nofuel_unpack_le|]. intros; apply nofuel_ok. Qed.
Lemma nofuel_i32 : forall d p, nofuel (unpack_i32 d p).
Proof. intros. apply nofuel_bind; [apply nofuel_unpack_le|]. intros; apply nofuel_ok. Qed.
Lemma nofuel_index : forall {A} (d : list A) i, nofuel (py_index d i).
Proof. intros A d i. unfold nofuel, py_index. cbv zeta. destruct (znth _ _); discriminate. Qed.

Create HintDb nofuel.
#[export] Hint Resolve nofuel_ok nofuel_unpack_le nofuel_u16 nofuel_u32 nofuel_i16 nofuel_i32 nofuel_index : nofuel.

(** Splits binds, conditionals and matches; leaves the rest. *)
Ltac nofuel_step :=
  match goal with
  | |- nofuel (Err _) => discriminate
  | |- nofuel (Ok _) => apply nofuel_ok
  | |- nofuel (let _ := _ in _) => cbv zeta
  | |- nofuel (bind _ _) => apply nofuel_bind; [|let a := fresh "a" in let E := fresh "E" in intros a E]
  | |- nofuel (if ?b then _ else _) => let E := fresh "E" in destruct b eqn:E
  | |- nofuel (match ?x with _ => _ end) => let E := fresh "E" in destruct x eqn:E
  | |- nofuel _ => solve [auto with nofuel]
  end.
Ltac nofuel := repeat nofuel_step.
