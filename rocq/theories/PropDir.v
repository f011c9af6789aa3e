(** C39-C41: which sectors are used, the directory tree and searching it. *)
From Coq Require Import Relations.
From Verif Require Import Base BaseFacts GridModel GridFacts Text CompDoc CompDocFacts CompDocOpen PropChain.

(** ** C39 *)

(** Without ignore_workbook_corruption the sectors of the master table
    extension, the allocation table, the directory, the short stream container,
    the short allocation table and the located stream are all different, and
    they exist.  What each of them is used for is stated by [layout]. *)
Theorem c39_sectors_disjoint : forall lower f1 f2 depth mem cd qname m off len cd',
  bytes mem -> open_compdoc f1 depth mem false = Ok cd ->
  locate_named_stream lower f2 cd qname = Ok (Some (m, off, len), cd') -> i32_at mem 56 <= len ->
  exists lx ls ld lc lt l d, layout mem cd lx ls ld lc lt
    /\ dir_search lower (cd_dirlist cd) (cd_children cd) (split_slash qname) 0 = Ok (Some d)
    /\ chain (cd_sat cd) (d_first d) l
    /\ denotes m off len = firstn (Z.to_nat len) (sectors mem 512 (sector_size mem) l)
    /\ NoDup (lx ++ ls ++ ld ++ lc ++ lt ++ l)
    /\ Forall (fun s => 0 <= s < sector_count mem) (lx ++ ls ++ ld ++ lc ++ lt ++ l).
Proof.
  intros lower f1 f2 depth mem cd qname m off len cd' B O H SZ.
  assert (cd_ignore cd = false) as IG.
  { unfold open_compdoc in O. destruct (list_eqb (py_slice mem 0 8) SIGNATURE); [|discriminate].
    destruct (list_eqb (py_slice mem 28 30) [0xFE; 0xFF]); [|discriminate]. cbn [negb] in O.
    repeat match type of O with bind _ _ = _ => let x := fresh "x" in apply bind_ok in O as (x & ? & O) end.
    cbv zeta in O.
    repeat match type of O with bind _ _ = _ => let x := fresh "x" in apply bind_ok in O as (x & ? & O) end.
    cbv zeta in O.
    repeat match type of O with
           | bind _ _ = _ => let x := fresh "x" in apply bind_ok in O as (x & ? & O)
           | (let (_, _) := ?x in _) = _ => destruct x
           end.
    injection O as <-. reflexivity. }
  apply layout_of_open in O as (lx & ls & ld & lc & lt & L); [|exact B].
  unfold locate_named_stream in H. apply bind_ok in H as (d & D & H). destruct d as [d|]; [|discriminate].
  destruct (d_size d >? cd_data_len cd); [discriminate|].
  pose proof (open_did _ _ _ _ _ _ _ d L (dir_search_in _ _ _ _ _ _ D)) as DP.
  pose proof (lay_size8 _ _ _ _ _ _ _ L) as S8.
  rewrite (lay_min _ _ _ _ _ _ _ L), (lay_size _ _ _ _ _ _ _ L), (lay_mem _ _ _ _ _ _ _ L), IG in H.
  destruct (d_size d >=? i32_at mem 56) eqn:E.
  - apply bind_ok in H as ((((m' & off') & len') & seen) & LS & H). injection H as <- <- <- <-.
    apply locate_stream_sound in LS as (l & C & F & NE & -> & HO & DE & R & CL); [|lia|lia].
    specialize (CL eq_refl ltac:(lia)). pose proof (lay_claimed _ _ _ _ _ _ _ L) as C0.
    pose proof (claimed_app _ _ _ _ _ C0 CL) as (ND & FR & _).
    exists lx, ls, ld, lc, lt, l, d. rewrite <- !app_assoc in ND, FR.
    repeat (split; [assumption|]). eapply Forall_impl; [|exact FR]. intros s Hs. unfold free in Hs.
    apply znth_Some_range in Hs. unfold zlen, zrepeat in Hs. rewrite repeat_length in Hs. lia.
  - apply bind_ok in H as (b & G & H). injection H as <- <- <- <-. lia.
Qed.
Print Assumptions c39_sectors_disjoint.

(** When a chain runs into a sector that is already used, the stream is refused. *)
Theorem c39_shared_sector_refused : forall lower f1 f2 depth mem cd qname d l s,
  bytes mem -> open_compdoc f1 depth mem false = Ok cd ->
  dir_search lower (cd_dirlist cd) (cd_children cd) (split_slash qname) 0 = Ok (Some d) -> i32_at mem 56 <= d_size d ->
  chain (cd_sat cd) (d_first d) l -> In s l -> ~ free (cd_seen cd) s ->
  forall r, locate_named_stream lower f2 cd qname <> Ok r.
Proof.
  intros lower f1 f2 depth mem cd qname d l s B O D SZ C I NF [[[[m off] len]|] cd'] H.
  - assert (len = d_size d) as ->.
    { pose proof (c35_located _ _ _ _ _ _ _ _ _ _ _ _ B O H) as (d' & D' & E & _). congruence. }
    pose proof (c39_sectors_disjoint _ _ _ _ _ _ _ _ _ _ _ B O H SZ) as (lx & ls & ld & lc & lt & l' & d' & L & D' & C' & _ & ND & FR).
    rewrite D in D'. injection D' as <-. destruct (walk_det _ _ _ _ C _ _ C') as [-> _].
    pose proof (lay_claimed _ _ _ _ _ _ _ L) as (_ & _ & LEN & EQ). apply NF. apply EQ. split.
    + unfold free. apply znth_zrepeat. rewrite !Forall_app in FR. destruct FR as (_ & _ & _ & _ & _ & FR).
      rewrite Forall_forall in FR. apply FR, I.
    + intros J. replace (lx ++ ls ++ ld ++ lc ++ lt ++ l) with ((lx ++ ls ++ ld ++ lc ++ lt) ++ l) in ND by (rewrite <- !app_assoc; reflexivity).
      clear - ND I J. induction (lx ++ ls ++ ld ++ lc ++ lt) as [|x k IH]; [destruct J|]. cbn [app] in ND. inversion ND; subst.
      destruct J as [->|J]; [|auto]. apply H1, in_or_app. right. exact I.
  - unfold locate_named_stream in H. rewrite D in H. cbn [bind] in H.
    destruct (_ >? _); [discriminate|]. destruct (_ >=? _).
    + apply bind_ok in H as ([? ?] & _ & H). discriminate.
    + apply bind_ok in H as (? & _ & H). discriminate.
Qed.
Print Assumptions c39_shared_sector_refused.

Example c39_case : exists r cd', locate_named_stream Demo.low 9 Demo.cd [66] = Ok (Some r, cd') /\ i32_at Demo.mem 56 <= 150.
Proof. do 2 eexists. split; [vm_compute; reflexivity|]. vm_compute. discriminate. Qed.

(** ** C41 *)

(** A directory tree: an entry, its left and right siblings and what it contains. *)
Inductive tree : Type := Leaf | Node (id : Z) (l sub r : tree).

(** The links of the directory form the tree, from entry [id] on. *)
Inductive rep (dl : list dirnode) : Z -> tree -> Prop :=
| rep_leaf : forall id, id < 0 -> rep dl id Leaf
| rep_node : forall id d l sub r, 0 <= id -> znth dl id = Some d -> rep dl (d_left d) l -> rep dl (d_right d) r ->
    rep dl (if d_etype d =? 1 then d_root d else -1) sub -> rep dl id (Node id l sub r).

(** The siblings from left to right, all entries of the tree, its height, and
    the entries with their contents. *)
Fixpoint siblings (t : tree) : list Z :=
  match t with Leaf => [] | Node id l _ r => siblings l ++ id :: siblings r end.
Fixpoint ids (t : tree) : list Z :=
  match t with Leaf => [] | Node id l sub r => id :: ids l ++ ids sub ++ ids r end.
Fixpoint height (t : tree) : nat :=
  match t with Leaf => O | Node _ l sub r => S (Nat.max (height l) (Nat.max (height sub) (height r))) end.
Inductive occurs (id : Z) (s : tree) : tree -> Prop :=
| occ_here : forall l r, occurs id s (Node id l s r)
| occ_left : forall i l sub r, occurs id s l -> occurs id s (Node i l sub r)
| occ_sub : forall i l sub r, occurs id s sub -> occurs id s (Node i l sub r)
| occ_right : forall i l sub r, occurs id s r -> occurs id s (Node i l sub r).

(** The pairs (parent, child) in the order in which they are noted. *)
Fixpoint assign (p : Z) (t : tree) : list (Z * Z) :=
  match t with Leaf => [] | Node id l sub r => assign p l ++ (p, id) :: assign p r ++ assign id sub end.

Definition adoptz (fam : family) (pc : Z * Z) : family :=
  mk_family (zset (f_children fam) (fst pc) (match znth (f_children fam) (fst pc) with Some k => k | None => [] end ++ [snd pc]))
            (zset (f_parent fam) (snd pc) (fst pc)).

Definition sized (dl : list dirnode) (fam : family) : Prop := zlen (f_children fam) = zlen dl /\ zlen (f_parent fam) = zlen dl.

Lemma zlen_zset : forall {A} (l : list A) i a, 0 <= i < zlen l -> zlen (zset l i a) = zlen l.
Proof.
  intros A l i a H. unfold zset. rewrite zlen_app, zlen_cons, zlen_firstn by lia. unfold zlen in *. rewrite skipn_length. lia.
Qed.

Lemma adopt_ok : forall dl fam p c, sized dl fam -> 0 <= p < zlen dl -> 0 <= c < zlen dl ->
  adopt fam p c = Ok (adoptz fam (p, c)) /\ sized dl (adoptz fam (p, c)).
Proof.
  intros dl fam p c [S1 S2] HP HC. unfold adopt, adoptz. cbn [fst snd].
  destruct (znth_in_range (f_children fam) p ltac:(lia)) as (k & K). rewrite (py_index_some _ _ _ K), K. cbn [bind].
  rewrite !list_set_spec by lia. cbn [bind]. split; [reflexivity|]. split; cbn [f_children f_parent]; rewrite zlen_zset; lia.
Qed.

Lemma fold_sized : forall dl l fam, sized dl fam -> Forall (fun pc => 0 <= fst pc < zlen dl /\ 0 <= snd pc < zlen dl) l ->
  sized dl (fold_left adoptz l fam).
Proof.
  intros dl l. induction l as [|[p c] l IH]; intros fam S F; cbn [fold_left]; [exact S|]. inversion F as [|? ? [F1 F2] F3]; subst.
  apply IH; [|exact F3]. eapply adopt_ok; eassumption.
Qed.

Lemma assign_range : forall dl id t, rep dl id t -> forall p, 0 <= p < zlen dl ->
  Forall (fun pc => 0 <= fst pc < zlen dl /\ 0 <= snd pc < zlen dl) (assign p t).
Proof.
  intros dl id t R. revert id R. induction t as [|i l IHl sub IHs r IHr]; intros id R p HP; cbn [assign]; [constructor|].
  inversion R as [|? d ? ? ? H0 H1 H2 H3 H4]; subst. pose proof (znth_Some_range _ _ _ H1) as RG.
  apply Forall_app. split; [eapply IHl; eauto|]. constructor; [cbn; lia|]. apply Forall_app. split; [eapply IHr; eauto|].
  eapply IHs; eauto.
Qed.

Lemma build_rep : forall dl id t, rep dl id t -> forall depth fam p, (height t < depth)%nat -> sized dl fam -> 0 <= p < zlen dl ->
  build_family_tree depth dl fam p id = Ok (fold_left adoptz (assign p t) fam).
Proof.
  intros dl id t R. revert id R. induction t as [|i l IHl sub IHs r IHr]; intros id R depth fam p HD S HP;
    (destruct depth as [|depth]; [lia|]); cbn [build_family_tree].
  - inversion R; subst. replace (id <? 0) with true by lia. reflexivity.
  - inversion R as [|? d ? ? ? H0 H1 H2 H3 H4]; subst. replace (i <? 0) with false by lia.
    pose proof (znth_Some_range _ _ _ H1) as RG. rewrite (py_index_some _ _ _ H1). cbn [bind]. cbn [height] in HD.
    rewrite (IHl _ H2) by (assumption || lia). cbn [bind].
    pose proof (fold_sized _ _ _ S (assign_range _ _ _ H2 _ HP)) as S1.
    destruct (adopt_ok dl _ p i S1 HP RG) as [-> S2]. cbn [bind].
    rewrite (IHr _ H3) by (assumption || lia). cbn [bind].
    pose proof (fold_sized _ _ _ S2 (assign_range _ _ _ H3 _ HP)) as S3.
    cbn [assign]. rewrite fold_left_app. cbn [fold_left]. rewrite fold_left_app.
    destruct (d_etype d =? 1); [apply (IHs _ H4); assumption || lia|]. inversion H4; [reflexivity|lia].
Qed.

Lemma build_ok_rep : forall depth dl fam p id fam', build_family_tree depth dl fam p id = Ok fam' ->
  exists t, rep dl id t /\ (height t < depth)%nat.
Proof.
  induction depth as [|depth IH]; intros dl fam p id fam' H; cbn [build_family_tree] in H; [discriminate|].
  destruct (id <? 0) eqn:E; [exists Leaf; split; [constructor; lia|cbn; lia]|].
  apply bind_ok in H as (d & D & H). apply bind_ok in H as (f1 & H1 & H). apply bind_ok in H as (f2 & _ & H).
  apply bind_ok in H as (f3 & H3 & H). apply IH in H1 as (l & L1 & L2). apply IH in H3 as (r & R1 & R2).
  apply py_index_znth in D; [|lia]. destruct (d_etype d =? 1) eqn:ET.
  - apply IH in H as (s & S1 & S2). exists (Node id l s r). split; [|cbn [height]; lia].
    econstructor; eauto; [lia|]. rewrite ET. exact S1.
  - exists (Node id l Leaf r). split; [|cbn [height]; lia]. econstructor; eauto; [lia|]. rewrite ET. constructor. lia.
Qed.

Lemma rep_det : forall dl id t, rep dl id t -> forall t', rep dl id t' -> t' = t.
Proof.
  intros dl id t R. revert id R. induction t as [|i l IHl sub IHs r IHr]; intros id R t' R'.
  - inversion R; subst. inversion R'; subst; [reflexivity|lia].
  - inversion R as [|? d ? ? ? H0 H1 H2 H3 H4]; subst. inversion R' as [|? d' ? ? ? G0 G1 G2 G3 G4]; subst; [lia|].
    rewrite H1 in G1. injection G1 as <-. rewrite (IHl _ H2 _ G2), (IHr _ H3 _ G3).
    rewrite (IHs _ H4 _ G4). reflexivity.
Qed.

(** Children and parents after noting the pairs. *)
Lemma fold_children : forall dl l fam q, sized dl fam -> Forall (fun pc => 0 <= fst pc < zlen dl /\ 0 <= snd pc < zlen dl) l ->
  0 <= q < zlen dl -> exists ks, znth (f_children fam) q = Some ks /\
  znth (f_children (fold_left adoptz l fam)) q = Some (ks ++ map snd (filter (fun pc => fst pc =? q) l)).
Proof.
  intros dl l. induction l as [|[p c] l IH]; intros fam q S F Q.
  - destruct S as [S1 S2]. destruct (znth_in_range (f_children fam) q ltac:(lia)) as (k & K). exists k. cbn. rewrite app_nil_r. auto.
  - inversion F as [|? ? [F1 F2] F3]; subst. cbn [fst snd] in F1, F2.
    destruct (adopt_ok dl fam p c S F1 F2) as [_ S']. destruct S as [S1 S2].
    destruct (znth_in_range (f_children fam) q ltac:(lia)) as (k & K). exists k. split; [exact K|].
    cbn [fold_left]. destruct (IH _ q S' F3 Q) as (ks & K1 & K2). rewrite K2. f_equal. cbn [filter fst].
    unfold adoptz in K1. cbn [f_children fst snd] in K1. rewrite znth_zset in K1 by lia.
    rewrite (Z.eqb_sym p q). destruct (q =? p) eqn:E.
    + replace p with q in K1 by lia. rewrite K in K1. injection K1 as <-. cbn [map snd]. rewrite <- app_assoc. reflexivity.
    + rewrite K in K1. injection K1 as <-. reflexivity.
Qed.

Lemma fold_parents : forall dl l fam q, sized dl fam -> Forall (fun pc => 0 <= fst pc < zlen dl /\ 0 <= snd pc < zlen dl) l ->
  znth (f_parent (fold_left adoptz l fam)) q =
  fold_left (fun r pc => if q =? snd pc then Some (fst pc) else r) l (znth (f_parent fam) q).
Proof.
  intros dl l. induction l as [|[p c] l IH]; intros fam q S F; [reflexivity|].
  inversion F as [|? ? [F1 F2] F3]; subst. cbn [fst snd] in F1, F2. cbn [fold_left].
  destruct (adopt_ok dl fam p c S F1 F2) as [_ S']. rewrite (IH _ q S' F3). f_equal.
  unfold adoptz. cbn [f_parent fst snd]. destruct S. rewrite znth_zset by lia. reflexivity.
Qed.

Lemma assign_ids : forall t p a b, In (a, b) (assign p t) -> (a = p \/ In a (ids t)) /\ In b (ids t).
Proof.
  induction t as [|i l IHl sub IHs r IHr]; intros p a b H; cbn [assign] in H; [destruct H|].
  cbn [ids In]. rewrite !in_app_iff. apply in_app_iff in H as [H|[H|H]].
  - apply IHl in H as [[?|?] ?]; intuition.
  - injection H as -> ->. intuition.
  - apply in_app_iff in H as [H|H]; [apply IHr in H as [[?|?] ?]; intuition|apply IHs in H as [[?|?] ?]; intuition].
Qed.

Lemma filter_none : forall (l : list (Z * Z)) q, (forall b, ~ In (q, b) l) -> filter (fun pc => fst pc =? q) l = [].
Proof.
  intros l q. induction l as [|[a b] l IH]; intros H; [reflexivity|]. cbn [filter fst].
  destruct (a =? q) eqn:E; [|apply IH; intros c K; apply (H c); right; exact K].
  exfalso. apply (H b). left. f_equal. lia.
Qed.

Lemma nodup_app : forall {A} (a b : list A), NoDup (a ++ b) -> NoDup a /\ NoDup b /\ (forall x, In x a -> ~ In x b).
Proof.
  intros A a b. induction a as [|x a IH]; intros H; [repeat split; [constructor|exact H|intros ? []]|].
  cbn [app] in H. inversion H; subst. destruct (IH H3) as (I1 & I2 & I3). repeat split; [|exact I2|].
  - constructor; [|exact I1]. intros K. apply H2, in_or_app. left. exact K.
  - intros y [->|K] L; [|eapply I3; eauto]. apply H2, in_or_app. right. exact L.
Qed.

(** With distinct entries the pairs of parent [p] are the siblings. *)
Lemma assign_top : forall t p, NoDup (p :: ids t) -> map snd (filter (fun pc => fst pc =? p) (assign p t)) = siblings t.
Proof.
  induction t as [|i l IHl sub IHs r IHr]; intros p ND; [reflexivity|]. cbn [ids] in ND.
  inversion ND as [|? ? N1 N2]; subst. cbn [In] in N1. rewrite !in_app_iff in N1. inversion N2 as [|? ? N3 N4]; subst.
  apply nodup_app in N4 as (M1 & M2 & M3). apply nodup_app in M2 as (M4 & M5 & M6).
  cbn [assign siblings]. rewrite filter_app, map_app, IHl by (constructor; intuition). f_equal.
  cbn [filter fst]. rewrite Z.eqb_refl. cbn [map snd]. f_equal. rewrite filter_app, map_app, IHr by (constructor; intuition).
  rewrite filter_none; [apply app_nil_r|]. intros b H. apply assign_ids in H as [[H|H] _]; intuition.
Qed.

Lemma assign_occ : forall t p id s, NoDup (p :: ids t) -> occurs id s t ->
  map snd (filter (fun pc => fst pc =? id) (assign p t)) = siblings s /\ In id (ids t).
Proof.
  induction t as [|i l IHl sub IHs r IHr]; intros p id s ND O; [inversion O|]. cbn [ids] in ND.
  inversion ND as [|? ? N1 N2]; subst. cbn [In] in N1. rewrite !in_app_iff in N1. inversion N2 as [|? ? N3 N4]; subst.
  rewrite !in_app_iff in N3.
  apply nodup_app in N4 as (M1 & M2 & M3). apply nodup_app in M2 as (M4 & M5 & M6).
  assert (forall x, In x (ids l) -> ~ In x (ids sub) /\ ~ In x (ids r)) as D1.
  { intros x Hx. specialize (M3 x Hx). rewrite in_app_iff in M3. intuition. }
  cbn [assign ids In]. rewrite !filter_app, !map_app. cbn [filter fst].
  assert (forall q u, q <> p -> ~ In q (ids u) -> filter (fun pc => fst pc =? q) (assign p u) = []) as K1.
  { intros q u A1 A2. apply filter_none. intros b H. apply assign_ids in H as [[H|H] _]; intuition. }
  assert (forall q u, q <> i -> ~ In q (ids u) -> filter (fun pc => fst pc =? q) (assign i u) = []) as K2.
  { intros q u A1 A2. apply filter_none. intros b H. apply assign_ids in H as [[H|H] _]; intuition. }
  rewrite !in_app_iff.
  inversion O as [? ? |? ? ? ? Q|? ? ? ? Q|? ? ? ? Q]; subst.
  - (* the entry itself *)
    rewrite K1 by intuition. replace (p =? i) with false by (symmetry; apply Z.eqb_neq; intuition).
    rewrite filter_app, K1 by intuition. cbn [map app]. split; [|auto]. apply assign_top. constructor; intuition.
  - destruct (IHl p id s) as [E I]; [constructor; intuition|exact Q|]. destruct (D1 _ I). rewrite E.
    assert (id <> p) by (intros ->; intuition). assert (id <> i) by (intros ->; intuition).
    replace (p =? id) with false by (symmetry; apply Z.eqb_neq; auto). rewrite filter_app, K1, K2 by intuition.
    cbn. rewrite app_nil_r. auto.
  - destruct (IHs i id s) as [E I]; [constructor; intuition|exact Q|].
    assert (id <> p) by (intros ->; intuition). assert (id <> i) by (intros ->; intuition).
    assert (~ In id (ids l)) by (intros X; apply D1 in X; intuition). assert (~ In id (ids r)) by (apply M6, I).
    replace (p =? id) with false by (symmetry; apply Z.eqb_neq; auto). rewrite filter_app, !K1 by assumption.
    cbn [map app]. auto.
  - destruct (IHr p id s) as [E I]; [constructor; intuition|exact Q|].
    assert (id <> p) by (intros ->; intuition). assert (id <> i) by (intros ->; intuition).
    assert (~ In id (ids l)) by (intros X; apply D1 in X; intuition). assert (~ In id (ids sub)) by (intros X; apply (M6 _ X I)).
    replace (p =? id) with false by (symmetry; apply Z.eqb_neq; auto). rewrite filter_app, K1, K2 by assumption.
    cbn [map app]. rewrite app_nil_r. auto.
Qed.

(** The parent noted for an entry. *)
Lemma assign_parent : forall t p, NoDup (ids t) -> forall q b, In (b, q) (assign p t) -> forall r0,
  fold_left (fun r pc => if q =? snd pc then Some (fst pc) else r) (assign p t) r0 = Some b.
Proof.
  assert (forall q l r0, (forall a, ~ In (a, q) l) ->
            fold_left (fun r (pc : Z * Z) => if q =? snd pc then Some (fst pc) else r) l r0 = r0) as NO.
  { intros q l. induction l as [|[a c] l IH]; intros r0 H; [reflexivity|]. cbn [fold_left fst snd].
    destruct (q =? c) eqn:E; [exfalso; apply (H a); left; f_equal; lia|]. apply IH. intros x X. apply (H x). right. exact X. }
  assert (forall t p, NoDup (ids t) -> NoDup (map snd (assign p t))) as NDA.
  { induction t as [|i l IHl sub IHs r IHr]; intros p ND; [constructor|]. cbn [ids] in ND. inversion ND as [|? ? N1 N2]; subst.
    rewrite !in_app_iff in N1. apply nodup_app in N2 as (M1 & M2 & M3). apply nodup_app in M2 as (M4 & M5 & M6).
    cbn [assign]. rewrite map_app. cbn [map snd]. rewrite map_app.
    assert (forall u v x, In x (map snd (assign u v)) -> In x (ids v)) as SUB.
    { intros u v x X. apply in_map_iff in X as ([a b] & <- & X). apply assign_ids in X as [_ X]. exact X. }
    assert (forall (a b : list Z), NoDup a -> NoDup b -> (forall x, In x a -> ~ In x b) -> NoDup (a ++ b)) as APP.
    { clear. intros a b. induction a as [|x a IH]; intros A B D; [exact B|]. cbn [app]. inversion A; subst. constructor.
      - rewrite in_app_iff. intros [X|X]; [auto|]. apply (D x); [left; reflexivity|exact X].
      - apply IH; [assumption|assumption|]. intros y Y. apply D. right. exact Y. }
    apply APP; [apply IHl, M1| |].
    - constructor; [rewrite in_app_iff; intros [X|X]; apply SUB in X; intuition|].
      apply APP; [apply IHr, M5|apply IHs, M4|]. intros x X Y. apply SUB in X, Y. apply (M6 x Y X).
    - intros x X [Y|Y]; [subst x; apply SUB in X; intuition|]. apply SUB in X. specialize (M3 x X). rewrite in_app_iff in M3, Y.
      destruct Y as [Y|Y]; apply SUB in Y; intuition. }
  intros t p ND q b I. apply (NDA t p) in ND. revert ND I. generalize (assign p t). intros l. induction l as [|[a c] l IH]; intros ND I r0; [destruct I|].
  cbn [map snd] in ND. inversion ND as [|? ? N1 N2]; subst. cbn [fold_left fst snd]. destruct I as [I|I].
  - injection I as -> ->. rewrite Z.eqb_refl. apply NO. intros a X. apply N1. change q with (snd (a, q)). apply in_map, X.
  - apply IH; assumption.
Qed.

Definition blank_family (dl : list dirnode) : family := mk_family (map (fun _ => []) dl) (map (fun _ => -1) dl).

Lemma blank_sized : forall dl, sized dl (blank_family dl).
Proof. intros dl. split; cbn; unfold zlen; rewrite map_length; reflexivity. Qed.

(** When the links form a tree of distinct entries, other than the root entry,
    building succeeds with enough depth: children are listed from left to right,
    and the parents are right. *)
Theorem c41_tree : forall dl root t depth, znth dl 0 = Some root -> rep dl (d_root root) t -> NoDup (0 :: ids t) ->
  (height t < depth)%nat ->
  exists fam, build_family_tree depth dl (blank_family dl) 0 (d_root root) = Ok fam
    /\ znth (f_children fam) 0 = Some (siblings t)
    /\ (forall id s, occurs id s t -> znth (f_children fam) id = Some (siblings s))
    /\ (forall c, In c (siblings t) -> znth (f_parent fam) c = Some 0)
    /\ (forall id s c, occurs id s t -> In c (siblings s) -> znth (f_parent fam) c = Some id)
    /\ (forall c, 0 <= c < zlen dl -> ~ In c (ids t) -> znth (f_parent fam) c = Some (-1)).
Proof.
  intros dl root t depth R0 R ND HD. pose proof (znth_Some_range _ _ _ R0) as RG. pose proof (blank_sized dl) as S.
  pose proof (assign_range _ _ _ R 0 RG) as AR.
  exists (fold_left adoptz (assign 0 t) (blank_family dl)). split; [apply build_rep; assumption|].
  assert (forall q, 0 <= q < zlen dl -> znth (f_children (fold_left adoptz (assign 0 t) (blank_family dl))) q =
            Some (map snd (filter (fun pc => fst pc =? q) (assign 0 t)))) as CH.
  { intros q Q. destruct (fold_children _ _ _ q S AR Q) as (ks & K1 & K2). rewrite K2. cbn [f_children blank_family] in K1.
    rewrite znth_map in K1. destruct (znth dl q); [injection K1 as <-; reflexivity|discriminate]. }
  assert (forall c, In c (ids t) -> 0 <= c < zlen dl) as IR.
  { clear - R. intros c I. revert R. generalize (d_root root). induction t as [|i l IHl sub IHs r IHr]; intros k R; [destruct I|].
    inversion R as [|? d ? ? ? H0 H1 H2 H3 H4]; subst. apply znth_Some_range in H1. cbn [ids] in I. destruct I as [<-|I]; [exact H1|].
    rewrite !in_app_iff in I. destruct I as [I|[I|I]]; [eapply IHl; eauto|eapply IHs; eauto|eapply IHr; eauto]. }
  assert (forall v p c, In c (siblings v) -> In (p, c) (assign p v)) as SA.
  { induction v as [|i l IHl sub IHs r IHr]; intros p c I; [destruct I|]. cbn [siblings assign] in *. rewrite in_app_iff in *.
    destruct I as [I|[->|I]]; [left; auto|right; left; reflexivity|right; right; apply in_app_iff; left; auto]. }
  assert (forall v p id s c, occurs id s v -> In c (siblings s) -> In (id, c) (assign p v)) as OA.
  { intros v p id s c O. revert p. induction O as [l r|i l sub r O IH|i l sub r O IH|i l sub r O IH]; intros p I; cbn [assign]; rewrite in_app_iff; cbn [In]; rewrite in_app_iff.
    - right. right. right. apply SA, I.
    - left. apply IH, I.
    - right. right. right. apply IH, I.
    - right. right. left. apply IH, I. }
  assert (forall c b, In (b, c) (assign 0 t) -> znth (f_parent (fold_left adoptz (assign 0 t) (blank_family dl))) c = Some b) as PA.
  { intros c b I. rewrite (fold_parents _ _ _ _ S AR). apply assign_parent; [|exact I]. inversion ND; assumption. }
  split; [rewrite CH by exact RG; f_equal; apply assign_top, ND|].
  split; [intros id s O; destruct (assign_occ _ _ _ _ ND O) as [E I]; rewrite CH by (apply IR, I); f_equal; exact E|].
  split; [intros c I; apply PA, SA, I|]. split; [intros id s c O I; apply PA; eapply OA; eauto|].
  intros c Q NI. rewrite (fold_parents _ _ _ _ S AR). cbn [blank_family f_parent]. rewrite znth_map.
  destruct (znth_in_range dl c Q) as (d & ->). cbn [option_map].
  assert (forall a, ~ In (a, c) (assign 0 t)) as NA by (intros a X; apply assign_ids in X as [_ X]; auto).
  revert NA. generalize (assign 0 t). intros l. induction l as [|[a b] l IH]; intros NA; [reflexivity|]. cbn [fold_left fst snd].
  destruct (c =? b) eqn:E; [exfalso; apply (NA a); left; f_equal; lia|]. apply IH. intros x X. apply (NA x). right. exact X.
Qed.
Print Assumptions c41_tree.

(** The directory of every file that opens has finite sibling trees; with
    distinct entries the children are those of [c41_tree]. *)
Theorem c41_opened : forall fuel depth mem ignore cd, bytes mem -> open_compdoc fuel depth mem ignore = Ok cd ->
  exists root t, znth (cd_dirlist cd) 0 = Some root /\ rep (cd_dirlist cd) (d_root root) t
    /\ cd_children cd = f_children (fold_left adoptz (assign 0 t) (blank_family (cd_dirlist cd)))
    /\ (NoDup (0 :: ids t) -> znth (cd_children cd) 0 = Some (siblings t)
        /\ forall id s, occurs id s t -> znth (cd_children cd) id = Some (siblings s)).
Proof.
  intros fuel depth mem ignore cd B O.
  assert (exists dirlist root fam, py_index dirlist 0 = Ok root
            /\ build_family_tree depth dirlist (blank_family dirlist) 0 (d_root root) = Ok fam
            /\ cd_dirlist cd = dirlist /\ cd_children cd = f_children fam) as (dl & root & fam & P & BF & -> & ->).
  { unfold open_compdoc in O. destruct (list_eqb (py_slice mem 0 8) SIGNATURE); [|discriminate].
    destruct (list_eqb (py_slice mem 28 30) [0xFE; 0xFF]); [|discriminate]. cbn [negb] in O.
    repeat match type of O with bind _ _ = _ => let x := fresh "x" in apply bind_ok in O as (x & ? & O) end.
    cbv zeta in O.
    repeat match type of O with
           | bind _ _ = _ => let x := fresh "x" in apply bind_ok in O as (x & ? & O)
           | (let (_, _) := ?x in _) = _ => destruct x
           end.
    injection O as <-. cbn [cd_dirlist cd_children]. do 3 eexists. repeat split; eassumption. }
  apply py_index_znth in P; [|lia]. pose proof (build_ok_rep _ _ _ _ _ _ BF) as (t & R & H).
  exists root, t. split; [exact P|]. split; [exact R|]. pose proof (znth_Some_range _ _ _ P) as RG.
  rewrite (build_rep _ _ _ R _ _ 0 H (blank_sized _) RG) in BF. injection BF as <-. split; [reflexivity|].
  intros ND. destruct (c41_tree _ _ _ _ P R ND H) as (fam' & B' & C1 & C2 & _).
  rewrite (build_rep _ _ _ R _ _ 0 H (blank_sized _) RG) in B'. injection B' as <-. auto.
Qed.
Print Assumptions c41_opened.

(** The links of an entry. *)
Definition link (dl : list dirnode) (a b : Z) : Prop :=
  0 <= a /\ exists d, znth dl a = Some d /\ (b = d_left d \/ b = d_right d \/ d_etype d = 1 /\ b = d_root d).

Lemma rep_link : forall dl a t, rep dl a t -> forall b, link dl a b -> exists t', rep dl b t' /\ (height t' < height t)%nat.
Proof.
  intros dl a t R b (A & d & D & L). inversion R as [|? d' l s r H0 H1 H2 H3 H4]; subst; [lia|]. rewrite D in H1. injection H1 as <-.
  cbn [height]. destruct L as [->|[->|[E ->]]]; [exists l|exists r|exists s]; (split; [try assumption|lia]).
  rewrite E in H4. exact H4.
Qed.

(** With a cycle in the links, building does not end normally at any depth. *)
Theorem c41_cycle : forall depth dl fam p a b fam',
  clos_refl_trans_1n Z (link dl) a b -> clos_trans_1n Z (link dl) b b ->
  build_family_tree depth dl fam p a <> Ok fam'.
Proof.
  intros depth dl fam p a b fam' R T H. apply build_ok_rep in H as (t & RT & _).
  assert (exists t', rep dl b t') as (tb & RB).
  { clear T. revert t RT. induction R as [a|a c b L R IH]; intros t RT; [eauto|].
    destruct (rep_link _ _ _ RT _ L) as (t' & RT' & _). eapply IH, RT'. }
  assert (exists t', rep dl b t' /\ (height t' < height tb)%nat) as (t2 & R2 & H2).
  { clear - T RB. assert (forall x y, clos_trans_1n Z (link dl) x y -> forall tx, rep dl x tx ->
      exists ty, rep dl y ty /\ (height ty < height tx)%nat) as K; [|eapply K; eauto].
    clear. intros x y T. induction T as [b c L|b e c L T IH]; intros tb RB.
    - destruct (rep_link _ _ _ RB _ L) as (t' & RT' & ?). eauto.
    - destruct (rep_link _ _ _ RB _ L) as (t' & RT' & ?). destruct (IH _ RT') as (t2 & ? & ?). exists t2. split; [assumption|lia]. }
  rewrite (rep_det _ _ _ RB _ R2) in H2. lia.
Qed.
Print Assumptions c41_cycle.

(** Root, a storage A with contents B < C, and a stream D to the right of A. *)
Example c41_case : let dl := [mk_dirnode 0 [82] 5 (-1) (-1) 1 (-2) 0; mk_dirnode 1 [65] 1 (-1) 4 3 0 0;
                              mk_dirnode 2 [66] 2 (-1) (-1) (-1) 0 0; mk_dirnode 3 [67] 2 2 (-1) (-1) 0 0;
                              mk_dirnode 4 [68] 2 (-1) (-1) (-1) 0 0] in
  let t := Node 1 Leaf (Node 3 (Node 2 Leaf Leaf Leaf) Leaf Leaf) (Node 4 Leaf Leaf Leaf) in
  rep dl 1 t /\ NoDup (0 :: ids t) /\ siblings t = [1; 4] /\ occurs 1 (Node 3 (Node 2 Leaf Leaf Leaf) Leaf Leaf) t.
Proof.
  cbv zeta. split.
  - repeat (first [apply rep_leaf; cbn; lia | eapply rep_node; [lia|reflexivity| | |]; cbn [d_left d_right d_etype d_root Z.eqb Pos.eqb]]).
  - split; [repeat constructor; cbn; lia|]. split; [reflexivity|]. constructor.
Qed.

Example c41_cycle_case : let dl := [mk_dirnode 0 [82] 5 (-1) (-1) 1 (-2) 0; mk_dirnode 1 [65] 2 2 (-1) (-1) 0 0;
                                    mk_dirnode 2 [66] 2 (-1) 1 (-1) 0 0] in
  clos_refl_trans_1n Z (link dl) 1 1 /\ clos_trans_1n Z (link dl) 1 1.
Proof.
  cbv zeta. split; [constructor|]. econstructor 2 with (y := 2).
  - split; [lia|]. eexists. split; [reflexivity|]. left. reflexivity.
  - constructor. split; [lia|]. eexists. split; [reflexivity|]. right. left. reflexivity.
Qed.

(** ** C40 *)

Inductive outcome : Type := Found (d : dirnode) | Missing | Refused.

Section Search.
Variable lower : list Z -> list Z.
Variable dl : list dirnode.
Variable children : list (list Z).

(** The child [c] is the first one whose name equals [name] up to case. *)
Definition first_match (kids : list Z) (name : list Z) (c : Z) (d : dirnode) : Prop :=
  exists before after, kids = before ++ c :: after /\ znth dl c = Some d /\ lower (d_name d) = lower name
    /\ forall b e, In b before -> znth dl b = Some e -> lower (d_name e) <> lower name.

(** Looking up a path from a storage on. *)
Inductive lookup : list (list Z) -> Z -> outcome -> Prop :=
| lk_none : forall name rest st kids, znth children st = Some kids ->
    (forall b e, In b kids -> znth dl b = Some e -> lower (d_name e) <> lower name) -> lookup (name :: rest) st Missing
| lk_stream : forall name rest st kids c d, znth children st = Some kids -> first_match kids name c d ->
    d_etype d = 2 -> lookup (name :: rest) st (Found d)
| lk_inner : forall name rest st kids c d o, znth children st = Some kids -> first_match kids name c d ->
    d_etype d = 1 -> rest <> [] -> lookup rest c o -> lookup (name :: rest) st o
| lk_storage : forall name st kids c d, znth children st = Some kids -> first_match kids name c d ->
    d_etype d = 1 -> lookup [name] st Refused
| lk_other : forall name rest st kids c d, znth children st = Some kids -> first_match kids name c d ->
    d_etype d <> 1 -> d_etype d <> 2 -> lookup (name :: rest) st Refused.

Definition answer (o : outcome) : result (option dirnode) :=
  match o with Found d => Ok (Some d) | Missing => Ok None | Refused => Err CompDocError end.

(** The links between entries are inside the directory. *)
Definition inside : Prop := zlen children = zlen dl /\
  forall st kids, znth children st = Some kids -> Forall (fun c => 0 <= c < zlen dl) kids.

Lemma search_split : forall kids name, Forall (fun c => 0 <= c < zlen dl) kids ->
  (forall b e, In b kids -> znth dl b = Some e -> lower (d_name e) <> lower name) \/ exists c d, first_match kids name c d.
Proof.
  induction kids as [|k kids IH]; intros name F; [left; intros b e []|]. inversion F as [|? ? F1 F2]; subst.
  destruct (znth_in_range dl k F1) as (d & D).
  destruct (list_eqb (lower (d_name d)) (lower name)) eqn:E.
  - right. exists k, d. exists [], kids. apply list_eqb_eq in E. repeat split; auto; intros b e [].
  - assert (lower (d_name d) <> lower name) as NE by (intros X; apply list_eqb_eq in X; congruence).
    destruct (IH name F2) as [N|(c & d' & b & a & -> & D' & M & N)].
    + left. intros b e [<-|I] Z; [congruence|eauto].
    + right. exists c, d', (k :: b), a. repeat split; auto. intros x e [<-|I] Z; [congruence|eauto].
Qed.

Lemma search_first : forall rec last kids name c d, first_match kids name c d -> Forall (fun c => 0 <= c < zlen dl) kids ->
  search_children lower dl rec last name kids =
  (if d_etype d =? 2 then Ok (Some d) else if d_etype d =? 1 then (if last then Err CompDocError else rec c) else Err CompDocError).
Proof.
  intros rec last kids name c d (b & a & -> & D & M & N) F.
  pose proof (znth_Some_range _ _ _ D) as RG. induction b as [|k b IH]; cbn [app search_children].
  - rewrite (py_index_some _ _ _ D). cbn [bind]. apply list_eqb_eq in M. rewrite M. reflexivity.
  - cbn [app] in F. inversion F as [|? ? F1 F2]; subst. destruct (znth_in_range dl k F1) as (e & E).
    rewrite (py_index_some _ _ _ E). cbn [bind].
    destruct (list_eqb (lower (d_name e)) (lower name)) eqn:Q.
    { apply list_eqb_eq in Q. exfalso. eapply N; [left; reflexivity|exact E|exact Q]. }
    apply IH; [|exact F2]. intros. eapply N; eauto. right. assumption.
Qed.

Lemma search_none : forall rec last kids name, (forall b e, In b kids -> znth dl b = Some e -> lower (d_name e) <> lower name) ->
  Forall (fun c => 0 <= c < zlen dl) kids -> search_children lower dl rec last name kids = Ok None.
Proof.
  intros rec last kids name. induction kids as [|k kids IH]; intros N F; [reflexivity|]. inversion F as [|? ? F1 F2]; subst.
  cbn [search_children]. destruct (znth_in_range dl k F1) as (e & E). rewrite (py_index_some _ _ _ E). cbn [bind].
  destruct (list_eqb (lower (d_name e)) (lower name)) eqn:Q.
  { apply list_eqb_eq in Q. exfalso. eapply N; [left; reflexivity|exact E|exact Q]. }
  apply IH; [|exact F2]. intros. eapply N; eauto. right. assumption.
Qed.

Lemma lookup_ok : inside -> forall path st o, lookup path st o -> dir_search lower dl children path st = answer o.
Proof.
  intros [S I] path st o L.
  induction L as [name rest st kids K N|name rest st kids c d K M E|name rest st kids c d o K M E R L IH|name st kids c d K M E|name rest st kids c d K M E1 E2];
    cbn [dir_search]; rewrite (py_index_some _ _ _ K); cbn [bind]; pose proof (I _ _ K) as F.
  - apply search_none; assumption.
  - rewrite (search_first _ _ _ _ _ _ M F), E. reflexivity.
  - rewrite (search_first _ _ _ _ _ _ M F), E. cbn [Z.eqb Pos.eqb]. destruct rest; [congruence|exact IH].
  - rewrite (search_first _ _ _ _ _ _ M F), E. reflexivity.
  - rewrite (search_first _ _ _ _ _ _ M F). replace (d_etype d =? 2) with false by lia. replace (d_etype d =? 1) with false by lia.
    reflexivity.
Qed.

Lemma lookup_total : inside -> forall path st, path <> [] -> 0 <= st < zlen children -> exists o, lookup path st o.
Proof.
  intros [S I] path. induction path as [|name rest IH]; intros st NE RG; [congruence|].
  destruct (znth_in_range children st RG) as (kids & K). pose proof (I _ _ K) as F.
  destruct (search_split kids name F) as [N|(c & d & M)]; [exists Missing; eapply lk_none; eauto|].
  destruct (Z.eq_dec (d_etype d) 2) as [E2|E2]; [exists (Found d); eapply lk_stream; eauto|].
  destruct (Z.eq_dec (d_etype d) 1) as [E1|E1]; [|exists Refused; eapply lk_other; eauto].
  destruct rest as [|n2 rest]; [exists Refused; eapply lk_storage; eauto|].
  destruct (IH c) as (o & L); [discriminate|rewrite S; destruct M as (? & ? & _ & D & _); apply znth_Some_range in D; exact D|].
  exists o. eapply lk_inner; eauto. discriminate.
Qed.
End Search.

Lemma fold_inside : forall dl l fam, sized dl fam -> Forall (fun pc => 0 <= fst pc < zlen dl /\ 0 <= snd pc < zlen dl) l ->
  (forall st kids, znth (f_children fam) st = Some kids -> Forall (fun c => 0 <= c < zlen dl) kids) ->
  inside dl (f_children (fold_left adoptz l fam)).
Proof.
  intros dl l. induction l as [|[p c] l IH]; intros fam S F K; cbn [fold_left]; [split; [apply S|exact K]|].
  inversion F as [|? ? [F1 F2] F3]; subst. cbn [fst snd] in F1, F2. destruct (adopt_ok dl fam p c S F1 F2) as [_ S'].
  apply IH; [exact S'|exact F3|]. intros st kids Z. unfold adoptz in Z. cbn [f_children fst snd] in Z. destruct S as [S1 S2].
  rewrite znth_zset in Z by lia. destruct (st =? p) eqn:E; [|eauto]. injection Z as <-.
  apply Forall_app. split; [|repeat constructor; lia]. destruct (znth (f_children fam) p) eqn:Q; [eauto|constructor].
Qed.

Lemma open_inside : forall fuel depth mem ignore cd, bytes mem -> open_compdoc fuel depth mem ignore = Ok cd ->
  inside (cd_dirlist cd) (cd_children cd) /\ 0 < zlen (cd_dirlist cd).
Proof.
  intros fuel depth mem ignore cd B O. destruct (c41_opened _ _ _ _ _ B O) as (root & t & R0 & R & C & _).
  pose proof (znth_Some_range _ _ _ R0) as RG. split; [|lia]. rewrite C. apply fold_inside.
  - apply blank_sized.
  - apply assign_range with (id := d_root root); assumption.
  - intros st kids K. cbn [blank_family f_children] in K. rewrite znth_map in K. destruct (znth (cd_dirlist cd) st); [|discriminate].
    injection K as <-. constructor.
Qed.

(** A path cut at the slashes: joined again it is the text, and no component
    contains a slash. *)
Fixpoint join_slash (l : list (list Z)) : list Z :=
  match l with [] => [] | [w] => w | w :: ws => w ++ 47 :: join_slash ws end.

Theorem c40_components : forall s, join_slash (split_slash s) = s /\ split_slash s <> []
  /\ Forall (fun w => ~ In 47 w) (split_slash s).
Proof.
  induction s as [|c s (J & NE & F)]; [split; [reflexivity|split; [discriminate|repeat constructor; intros []]]|].
  cbn [split_slash]. destruct (split_slash s) as [|w ws] eqn:E; [congruence|]. inversion F as [|? ? F1 F2]; subst.
  destruct (c =? 47) eqn:Q.
  - assert (c = 47) as -> by lia. split; [|split; [discriminate|]]; [|constructor; [intros []|exact F]].
    change (join_slash ([] :: w :: ws)) with ([] ++ 47 :: join_slash (w :: ws)). reflexivity.
  - split; [|split; [discriminate|]]; [|constructor; [intros [X|I]; [lia|auto]|exact F2]].
    destruct ws; reflexivity.
Qed.
Print Assumptions c40_components.

(** Searching in a file that opened: exactly one outcome is right, and it is the
    one that is returned. *)
Theorem c40_search : forall lower fuel depth mem ignore cd qname, bytes mem -> open_compdoc fuel depth mem ignore = Ok cd ->
  exists o, lookup lower (cd_dirlist cd) (cd_children cd) (split_slash qname) 0 o
    /\ (forall o', lookup lower (cd_dirlist cd) (cd_children cd) (split_slash qname) 0 o' -> answer o' = answer o)
    /\ dir_search lower (cd_dirlist cd) (cd_children cd) (split_slash qname) 0 = answer o
    /\ forall fuel', match o with
       | Found _ => True
       | Missing => locate_named_stream lower fuel' cd qname = Ok (None, cd)
                    /\ get_named_stream lower fuel' cd qname = Ok (None, cd)
       | Refused => locate_named_stream lower fuel' cd qname = Err CompDocError
                    /\ get_named_stream lower fuel' cd qname = Err CompDocError
       end.
Proof.
  intros lower fuel depth mem ignore cd qname B O. destruct (open_inside _ _ _ _ _ B O) as [I P].
  destruct (lookup_total lower _ _ I (split_slash qname) 0) as (o & L).
  - apply c40_components.
  - destruct I as [-> _]. lia.
  - exists o. pose proof (lookup_ok _ _ _ I _ _ _ L) as E. split; [exact L|]. split.
    + intros o' L'. rewrite <- E. symmetry. apply lookup_ok; assumption.
    + split; [exact E|]. intros fuel'. unfold locate_named_stream, get_named_stream. rewrite E. destruct o; cbn; auto.
Qed.
Print Assumptions c40_search.

(** A stream entry ends the search even when components are left. *)
Theorem c40_rest_ignored : forall lower dl children name rest st kids c d, inside dl children ->
  znth children st = Some kids -> first_match lower dl kids name c d -> d_etype d = 2 ->
  dir_search lower dl children (name :: rest) st = Ok (Some d).
Proof.
  intros lower dl children name rest st kids c d I K M E.
  apply (lookup_ok lower dl children I (name :: rest) st (Found d)). eapply lk_stream; eauto.
Qed.
Print Assumptions c40_rest_ignored.

Definition ascii_low (s : list Z) : list Z := map (fun c => if (65 <=? c) && (c <=? 90) then c + 32 else c) s.

Example c40_case : dir_search ascii_low (cd_dirlist Demo.cd) (cd_children Demo.cd) (split_slash [98]) 0
  = Ok (Some (mk_dirnode 1 [66] 2 (-1) 2 (-1) 10 150))
  /\ dir_search ascii_low (cd_dirlist Demo.cd) (cd_children Demo.cd) (split_slash [98; 47; 99]) 0
  = Ok (Some (mk_dirnode 1 [66] 2 (-1) 2 (-1) 10 150))
  /\ dir_search ascii_low (cd_dirlist Demo.cd) (cd_children Demo.cd) (split_slash [120]) 0 = Ok None.
Proof. vm_compute. repeat split; reflexivity. Qed.
