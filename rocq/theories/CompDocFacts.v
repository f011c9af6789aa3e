(** Sector chains: what following an allocation table visits and marks. *)
From Coq Require Import Relations.
From Verif Require Import Base BaseFacts GridModel GridFacts CompDoc.

(** ** Specification: walks through an allocation table *)

(** From [s] the table leads through the sectors [l] to the negative number [fin]. *)
Inductive walk (sat : list Z) : Z -> list Z -> Z -> Prop :=
| walk_end : forall s, s < 0 -> walk sat s [] s
| walk_next : forall s s' l fin, 0 <= s -> znth sat s = Some s' -> walk sat s' l fin -> walk sat s (s :: l) fin.

(** A chain: a walk that ends at the end-of-chain mark. *)
Definition chain (sat : list Z) (s : Z) (l : list Z) : Prop := walk sat s l (-2).

(** Bytes [a], ..., [b - 1] of a file, as far as they exist. *)
Definition cut (mem : list Z) (a b : Z) : list Z := firstn (Z.to_nat (b - a)) (skipn (Z.to_nat a) mem).

(** Sector [s], and the sectors of a list one after the other. *)
Definition sector (mem : list Z) (base sz s : Z) : list Z := cut mem (base + s * sz) (base + s * sz + sz).
Definition sectors (mem : list Z) (base sz : Z) (l : list Z) : list Z := flat_map (sector mem base sz) l.

(** Sector not used so far. *)
Definition free (seen : list Z) (s : Z) : Prop := znth seen s = Some 0.

(** The sectors [l] were free and distinct, and now they are taken. *)
Definition claimed (seen : list Z) (l : list Z) (seen' : list Z) : Prop :=
  NoDup l /\ Forall (free seen) l /\ zlen seen' = zlen seen
  /\ forall i, free seen' i <-> free seen i /\ ~ In i l.

(** ** Cutting *)

Lemma py_slice_cut : forall (mem : list Z) a b, 0 <= a -> a <= b -> py_slice mem a b = cut mem a b.
Proof.
  intros mem a b Ha Hb. unfold py_slice, cut, py_bound. pose proof (zlen_nonneg mem).
  replace (a <? 0) with false by lia. replace (b <? 0) with false by lia.
  destruct (Z_le_gt_dec b (zlen mem)).
  { rewrite !Z.min_l by lia. reflexivity. }
  rewrite (Z.min_r b) by lia. destruct (Z_le_gt_dec a (zlen mem)).
  - rewrite Z.min_l by lia. rewrite !firstn_all2; [reflexivity| |];
      rewrite skipn_length; unfold zlen in *; lia.
  - rewrite Z.min_r by lia. replace (zlen mem - zlen mem) with 0 by lia. cbn [Z.to_nat firstn].
    rewrite (skipn_all2 mem) by (unfold zlen in *; lia). rewrite firstn_nil. reflexivity.
Qed.

Lemma cut_app : forall mem a b c, 0 <= a -> a <= b -> b <= c -> cut mem a b ++ cut mem b c = cut mem a c.
Proof.
  intros mem a b c Ha Hb Hc. unfold cut.
  replace (Z.to_nat (c - a)) with (Z.to_nat (b - a) + Z.to_nat (c - b))%nat by lia.
  replace (Z.to_nat b) with (Z.to_nat a + Z.to_nat (b - a))%nat by lia.
  assert (forall n m (l : list Z), skipn (n + m) l = skipn m (skipn n l)) as SS.
  { induction n as [|n IHn]; intros m l; [reflexivity|]. destruct l; [rewrite !skipn_nil; reflexivity|apply IHn]. }
  rewrite SS. generalize (skipn (Z.to_nat a) mem). intros l.
  revert l. induction (Z.to_nat (b - a)) as [|n IH]; intros l; [reflexivity|].
  destruct l as [|x l]; [cbn; rewrite ?firstn_nil; reflexivity|].
  cbn [Nat.add firstn skipn app]. f_equal. apply IH.
Qed.

Lemma cut_nil : forall mem a b, b <= a -> cut mem a b = [].
Proof. intros. unfold cut. replace (Z.to_nat (b - a)) with O by lia. reflexivity. Qed.

Lemma cut_firstn : forall mem a b n, 0 <= n -> n <= b - a -> firstn (Z.to_nat n) (cut mem a b) = cut mem a (a + n).
Proof. intros. unfold cut. rewrite firstn_firstn. f_equal. lia. Qed.

Lemma zlen_cut : forall mem a b, 0 <= a -> a <= b -> b <= zlen mem -> zlen (cut mem a b) = b - a.
Proof. intros. unfold cut. rewrite zlen_firstn, zlen_skipn. lia. Qed.

(** ** Marks *)

Lemma claimed_nil : forall seen, claimed seen [] seen.
Proof.
  intros seen. split; [constructor|]. split; [constructor|]. split; [reflexivity|]. intros i. cbn. tauto.
Qed.

Lemma claimed_app : forall a l b m c, claimed a l b -> claimed b m c -> claimed a (l ++ m) c.
Proof.
  intros a l b m c (N1 & F1 & L1 & I1) (N2 & F2 & L2 & I2). rewrite Forall_forall in *.
  assert (forall i, In i m -> free a i /\ ~ In i l) as D by (intros i Hi; apply I1, F2, Hi).
  repeat split.
  - clear - N1 N2 D. induction l as [|x l IH]; [exact N2|]. inversion_clear N1 as [|? ? X N1'].
    cbn. constructor.
    + rewrite in_app_iff. intros [H|H]; [tauto|]. apply D in H. cbn in H. tauto.
    + apply IH; [exact N1'|]. intros i Hi. apply D in Hi. cbn in Hi. tauto.
  - rewrite Forall_forall. intros i Hi. apply in_app_iff in Hi. destruct Hi as [Hi|Hi]; [auto|]. apply D, Hi.
  - congruence.
  - apply I1, I2, H.
  - rewrite in_app_iff. apply I2 in H as [H1 H2]. apply I1 in H1. tauto.
  - intros [H1 H2]. rewrite in_app_iff in H2. apply I2. split; [apply I1; tauto|tauto].
Qed.

Lemma claimed_len : forall a l b, claimed a l b -> zlen b = zlen a.
Proof. intros a l b H. apply H. Qed.

Lemma mark_claimed : forall seen s id seen', 0 <= s -> id <> 0 -> mark seen s id = Ok seen' -> claimed seen [s] seen'.
Proof.
  intros seen s id seen' Hs Hid H. unfold mark in H. apply bind_ok in H as (v & V & H).
  apply py_index_znth in V; [|exact Hs]. destruct (v =? 0) eqn:E; cbn [negb] in H; [|discriminate].
  assert (v = 0) by lia. subst v. pose proof (znth_Some_range _ _ _ V) as R.
  unfold seen_set in H. rewrite list_set_spec in H by exact R. cbn [bind] in H. fold (zset seen s id) in H.
  destruct (_ && _); [|discriminate]. injection H as <-. unfold claimed, free.
  repeat split.
  - constructor; [auto|constructor].
  - constructor; [exact V|constructor].
  - apply zlen_zset, R.
  - rewrite znth_zset in H by exact R. destruct (i =? s) eqn:Ei; [congruence|exact H].
  - rewrite znth_zset in H by exact R. destruct (i =? s) eqn:Ei; [congruence|]. cbn. lia.
  - intros [H1 H2]. rewrite znth_zset by exact R. destruct (i =? s) eqn:Ei; [|exact H1].
    exfalso. apply H2. left. lia.
Qed.

Lemma mark_ok : forall seen s id, free seen s -> 1 <= id <= 255 -> exists seen', mark seen s id = Ok seen'.
Proof.
  intros seen s id F Hid. pose proof (znth_Some_range _ _ _ F) as R. unfold mark, seen_set.
  rewrite (py_index_some _ _ _ F). cbn [bind negb Z.eqb]. rewrite list_set_spec by exact R. cbn [bind].
  replace ((0 <=? id) && (id <=? 255)) with true by lia. eauto.
Qed.

(** ** Walks *)

Lemma walk_det : forall sat s l fin, walk sat s l fin -> forall l' fin', walk sat s l' fin' -> l' = l /\ fin' = fin.
Proof.
  induction 1 as [s Hs|s s' l fin Hs Hn W IH]; intros l' fin' W'; inversion W'; subst; try lia; [auto|].
  rewrite Hn in H0. injection H0 as <-. destruct (IH _ _ H1) as [-> ->]. auto.
Qed.

Lemma walk_nonneg : forall sat s l fin, walk sat s l fin -> Forall (fun x => 0 <= x) l.
Proof. induction 1; constructor; auto. Qed.

(** ** get_stream *)

Definition grab_of (sz : Z) (todo : option Z) : Z :=
  match todo with None => sz | Some t => if sz >? t then t else sz end.

(** What [get_stream] joins. *)
Fixpoint pieces (mem : list Z) (base sz : Z) (l : list Z) (todo : option Z) : list Z :=
  match l with
  | [] => []
  | s :: r =>
      py_slice mem (base + s * sz) (base + s * sz + grab_of sz todo)
      ++ pieces mem base sz r (option_map (fun t => t - grab_of sz todo) todo)
  end.

Lemma get_stream_sound : forall fuel mem base sat sz id seen s todo b seen',
  get_stream fuel mem base sat sz id seen s todo = Ok (b, seen') ->
  exists l, chain sat s l /\ b = pieces mem base sz l todo
    /\ match id with None => seen' = seen | Some i => i <> 0 -> claimed seen l seen' end.
Proof.
  induction fuel as [|fuel IH]; intros mem base sat sz id seen s todo b seen' H; [discriminate|].
  cbn [get_stream] in H. destruct (s <? 0) eqn:Es.
  - unfold guard, EOCSID in H. destruct (s =? -2) eqn:E; [|discriminate]. cbn [bind] in H. injection H as <- <-.
    exists []. assert (s = -2) by lia. subst s. split; [constructor; lia|]. split; [reflexivity|].
    destruct id; [intros _; apply claimed_nil|reflexivity].
  - apply bind_ok in H as (seen1 & M & H). cbv zeta in H. fold (grab_of sz todo) in H.
    apply bind_ok in H as (s' & N & H). apply bind_ok in H as ((r & seen2) & G & H). injection H as <- <-.
    destruct (py_index sat s) as [v|] eqn:PI; [|discriminate]. injection N as ->.
    apply py_index_znth in PI; [|lia]. apply IH in G as (l & C & -> & D).
    exists (s :: l). split; [eapply walk_next; [lia|exact PI|exact C]|]. split; [reflexivity|].
    destruct id as [i|].
    + intros Hi. change (s :: l) with ([s] ++ l). eapply claimed_app; [eapply mark_claimed; [|exact Hi|exact M]; lia|auto].
    + injection M as <-. exact D.
Qed.

Lemma get_stream_complete : forall sat s l, chain sat s l -> forall fuel mem base sz id seen todo,
  (length l < fuel)%nat ->
  match id with None => True | Some i => 1 <= i <= 255 /\ NoDup l /\ Forall (free seen) l end ->
  exists seen', get_stream fuel mem base sat sz id seen s todo = Ok (pieces mem base sz l todo, seen').
Proof.
  intros sat s l C. unfold chain in C. remember (-2) as fin eqn:Efin. induction C as [s Hs|s s' l fin Hs Hn C IH];
    intros fuel mem base sz id seen todo Hf Hid; (destruct fuel as [|fuel]; [cbn in Hf; lia|]); cbn [get_stream].
  - subst s. cbn. eauto.
  - replace (s <? 0) with false by lia. fold (grab_of sz todo). rewrite (py_index_some _ _ _ Hn).
    destruct id as [i|].
    + destruct Hid as (Hi & ND & FR). inversion_clear ND as [|? ? X ND']. inversion_clear FR as [|? ? F0 FR'].
      destruct (mark_ok seen s i F0 Hi) as (seen1 & M). rewrite M. cbn [bind].
      assert (claimed seen [s] seen1) as CL by (eapply mark_claimed; [exact Hs| |exact M]; lia).
      destruct (IH Efin fuel mem base sz (Some i) seen1 (option_map (fun t => t - grab_of sz todo) todo)) as (seen' & G);
        [cbn in Hf; lia| |].
      { split; [exact Hi|]. split; [exact ND'|]. rewrite Forall_forall in *. intros x Hx. apply CL. split; [auto|].
        cbn. intros [->|[]]. contradiction. }
      cbv zeta. rewrite G. cbn [bind pieces]. eauto.
    + cbn [bind]. destruct (IH Efin fuel mem base sz None seen (option_map (fun t => t - grab_of sz todo) todo)) as (seen' & G);
        [cbn in Hf; lia|exact I|].
      cbv zeta. rewrite G. cbn [bind pieces]. eauto.
Qed.

(** The pieces, when the sectors are whole: the sectors cut to the size. *)
Lemma pieces_all : forall mem base sz l, 0 <= base -> 0 <= sz -> Forall (fun s => 0 <= s) l ->
  pieces mem base sz l None = sectors mem base sz l.
Proof.
  intros mem base sz l Hb Hz F. induction F as [|s l Hs F IH]; [reflexivity|]. cbn [pieces sectors flat_map option_map].
  f_equal; [|exact IH]. apply py_slice_cut; cbn [grab_of]; nia.
Qed.

Lemma pieces_cut : forall mem base sz l t, 0 <= base -> 0 < sz -> Forall (fun s => 0 <= s) l ->
  Forall (fun s => zlen (sector mem base sz s) = sz) l -> 0 <= t ->
  pieces mem base sz l (Some t) = firstn (Z.to_nat t) (sectors mem base sz l).
Proof.
  intros mem base sz l t Hb Hz F. revert t. induction F as [|s l Hs F IH]; intros t W Ht.
  { cbn. rewrite firstn_nil. reflexivity. }
  inversion_clear W as [|? ? W0 W']. cbn [pieces sectors flat_map option_map].
  assert (0 <= grab_of sz (Some t) <= sz) by (cbn [grab_of]; destruct (sz >? t) eqn:E; lia).
  rewrite py_slice_cut by nia. rewrite IH; [|exact W'|cbn [grab_of]; destruct (sz >? t) eqn:E; lia].
  fold (sectors mem base sz l). rewrite firstn_app.
  replace (length (sector mem base sz s)) with (Z.to_nat sz) by (unfold zlen in W0; lia).
  cbn [grab_of]. destruct (sz >? t) eqn:E.
  - replace (t - t) with 0 by lia. replace (Z.to_nat t - Z.to_nat sz)%nat with O by lia. cbn [Z.to_nat firstn].
    f_equal. unfold sector. rewrite cut_firstn by lia. reflexivity.
  - rewrite firstn_all2 with (l := sector mem base sz s) by (unfold zlen in W0; lia).
    f_equal. f_equal. lia.
Qed.

Lemma pieces_len : forall mem base sz l t, 0 <= base -> 0 < sz -> Forall (fun s => 0 <= s) l -> 0 <= t ->
  zlen (pieces mem base sz l (Some t)) <= t.
Proof.
  intros mem base sz l t Hb Hz F. revert t. induction F as [|s l Hs F IH]; intros t Ht.
  { cbn [pieces]. change (zlen (@nil Z)) with 0. lia. }
  cbn [pieces option_map]. rewrite zlen_app.
  assert (0 <= grab_of sz (Some t) <= sz) by (cbn [grab_of]; destruct (sz >? t) eqn:E; lia).
  rewrite py_slice_cut by nia. specialize (IH (t - grab_of sz (Some t))). cbn [grab_of] in *.
  unfold cut at 1. rewrite zlen_firstn. destruct (sz >? t) eqn:E; lia.
Qed.

(** ** locate_stream *)

Definition intervals (mem : list Z) (l : list (Z * Z)) : list Z := flat_map (fun ab => py_slice mem (fst ab) (snd ab)) l.

Lemma locate_loop_sound : forall fuel ignore mem base sat sz id limit seen s p sp ep tot slices last tot' fin seen',
  0 <= base -> 0 < sz -> 0 <= p -> 0 <= sp <= ep -> ep = base + p * sz + sz ->
  locate_loop fuel ignore base sat sz id limit seen s p sp ep tot = Ok (slices, last, tot', fin, seen') ->
  exists l, walk sat s l fin /\ tot' = tot + zlen l
    /\ intervals mem (slices ++ [last]) = cut mem sp ep ++ sectors mem base sz l
    /\ (slices = [] -> last = (sp, ep + zlen l * sz))
    /\ (l <> [] -> tot' <= limit)
    /\ Forall (fun x => x < zlen seen) l
    /\ (ignore = false -> id <> 0 -> claimed seen l seen').
Proof.
  induction fuel as [|fuel IH]; intros ignore mem base sat sz id limit seen s p sp ep tot slices last tot' fin seen'
    Hb Hz Hp Hsp Hep H; [discriminate|].
  cbn [locate_loop] in H. destruct (s <? 0) eqn:Es.
  { injection H as <- <- <- <- <-. exists []. split; [constructor; lia|]. split; [change (zlen (@nil Z)) with 0; lia|].
    cbn [app intervals flat_map fst snd sectors]. split; [rewrite !app_nil_r; apply py_slice_cut; lia|].
    split; [intros _; f_equal; change (zlen (@nil Z)) with 0; lia|]. split; [congruence|]. split; [constructor|].
    intros _ _. apply claimed_nil. }
  apply bind_ok in H as (v & V & H). apply bind_ok in H as ([] & G1 & H). apply bind_ok in H as (seen1 & S1 & H).
  cbv zeta in H. apply bind_ok in H as ([] & G2 & H).
  apply py_index_znth in V; [|lia]. pose proof (znth_Some_range _ _ _ V) as RV.
  unfold guard in G1, G2. destruct ((v =? 0) || ignore) eqn:EV; [|discriminate].
  destruct (negb (tot + 1 >? limit)) eqn:EL; [|discriminate]. clear G1 G2.
  assert (zlen seen1 = zlen seen) as LS.
  { unfold seen_set in S1. rewrite list_set_spec in S1 by exact RV. cbn [bind] in S1.
    destruct (_ && _); [|discriminate]. injection S1 as <-. apply zlen_zset, RV. }
  assert (ignore = false -> id <> 0 -> claimed seen [s] seen1) as CL.
  { intros -> Hid. apply (mark_claimed seen s id); [lia|exact Hid|]. unfold mark.
    rewrite (py_index_some _ _ _ V). cbn [bind]. replace (v =? 0) with true by lia. exact S1. }
  destruct (s =? p + 1) eqn:Ep; cbn [fst snd] in H.
  - apply bind_ok in H as (s' & N & H). apply bind_ok in H as (((((sl & la) & tt') & fi) & se) & H & E). cbn [app] in E.
    injection E as <- <- <- <- <-.
    apply py_index_znth in N; [|lia].
    apply (IH ignore mem) in H; [|lia|lia|lia|nia|nia].
    destruct H as (l & W & T & I & L & B & R & CL2). exists (s :: l).
    split; [eapply walk_next; [lia|exact N|exact W]|]. split; [rewrite zlen_cons; lia|].
    split.
    { rewrite I. cbn [sectors flat_map]. rewrite app_assoc. f_equal. unfold sector.
      replace (base + s * sz) with ep by nia. rewrite cut_app by lia. reflexivity. }
    split; [intros E; rewrite (L E), zlen_cons; f_equal; nia|].
    split. { intros _. destruct l as [|x l]; [change (zlen (@nil Z)) with 0 in T; lia|]. apply B. discriminate. }
    split; [constructor; [lia|rewrite LS in R; exact R]|].
    intros Hi Hid. change (s :: l) with ([s] ++ l). eapply claimed_app; eauto.
  - replace (p >=? 0) with true in H by lia.
    apply bind_ok in H as (s' & N & H). apply bind_ok in H as (((((sl & la) & tt') & fi) & se) & H & E).
    injection E as <- <- <- <- <-.
    apply py_index_znth in N; [|lia].
    apply (IH ignore mem) in H; [|lia|lia|lia|nia|nia].
    destruct H as (l & W & T & I & L & B & R & CL2). exists (s :: l).
    split; [eapply walk_next; [lia|exact N|exact W]|]. split; [rewrite zlen_cons; lia|].
    split.
    { cbn [app intervals flat_map fst snd]. fold (intervals mem (sl ++ [la])). rewrite I. rewrite py_slice_cut by lia.
      f_equal. }
    split; [discriminate|].
    split. { intros _. destruct l as [|x l]; [change (zlen (@nil Z)) with 0 in T; lia|]. apply B. discriminate. }
    split; [constructor; [lia|rewrite LS in R; exact R]|].
    intros Hi Hid. change (s :: l) with ([s] ++ l). eapply claimed_app; eauto.
Qed.

Lemma locate_stream_sound : forall fuel ignore mem base sat sz start size id seen m off len seen',
  0 <= base -> 0 < sz ->
  locate_stream fuel ignore mem base sat sz start size id seen = Ok ((m, off, len), seen') ->
  exists l, chain sat start l /\ (zlen l - 1) * sz < size <= zlen l * sz /\ l <> [] /\ len = size /\ 0 <= off
    /\ cut m off (off + len) = firstn (Z.to_nat size) (sectors mem base sz l)
    /\ Forall (fun x => x < zlen seen) l
    /\ (ignore = false -> id <> 0 -> claimed seen l seen').
Proof.
  intros fuel ignore mem base sat sz start size id seen m off len seen' Hb Hz H. unfold locate_stream in H.
  destruct (start <? 0) eqn:Es; [discriminate|]. cbv zeta in H. set (limit := (size + sz - 1) / sz) in *.
  apply bind_ok in H as (((((slices & last) & tot) & fin) & seen2) & L & H).
  apply bind_ok in H as ([] & G1 & H). apply bind_ok in H as ([] & G2 & H).
  unfold guard in G1, G2. destruct (fin =? EOCSID) eqn:EF; [|discriminate]. unfold EOCSID in EF.
  destruct (tot =? limit) eqn:ET; [|discriminate]. clear G1 G2.
  destruct fuel as [|fuel]; [discriminate|]. cbn [locate_loop] in L. rewrite Es in L.
  apply bind_ok in L as (v & V & L). apply bind_ok in L as ([] & G1 & L). apply bind_ok in L as (seen1 & S1 & L).
  cbv zeta in L. apply bind_ok in L as ([] & G2 & L).
  apply py_index_znth in V; [|lia]. pose proof (znth_Some_range _ _ _ V) as RV.
  unfold guard in G1, G2. destruct ((v =? 0) || ignore) eqn:EV; [|discriminate].
  destruct (negb (0 + 1 >? limit)) eqn:EL; [|discriminate]. clear G1 G2.
  replace (start =? -99 + 1) with false in L by lia. cbn [Z.geb Z.compare] in L.
  apply bind_ok in L as (s' & N & L). apply bind_ok in L as (((((sl & la) & tt') & fi) & se) & L & E).
  cbn [app] in E. injection E as <- <- <- <- <-.
  apply py_index_znth in N; [|lia].
  assert (zlen seen1 = zlen seen) as LS.
  { unfold seen_set in S1. rewrite list_set_spec in S1 by exact RV. cbn [bind] in S1.
    destruct (_ && _); [|discriminate]. injection S1 as <-. apply zlen_zset, RV. }
  assert (ignore = false -> id <> 0 -> claimed seen [start] seen1) as CL.
  { intros -> Hid. apply (mark_claimed seen start id); [lia|exact Hid|]. unfold mark.
    rewrite (py_index_some _ _ _ V). cbn [bind]. replace (v =? 0) with true by lia. exact S1. }
  apply (locate_loop_sound _ _ mem) in L; [|lia|lia|lia|nia|nia].
  destruct L as (l & W & T & I & LA & B & R & CL2). exists (start :: l).
  assert (zlen (start :: l) = limit) as ZL by (rewrite zlen_cons; lia).
  assert (chain sat start (start :: l)) as CH.
  { replace fi with (-2) in W by lia. eapply walk_next; [lia|exact N|exact W]. }
  assert ((limit - 1) * sz < size <= limit * sz) as BD by (unfold limit; nia).
  assert (sectors mem base sz (start :: l) = intervals mem (sl ++ [la])) as SI.
  { rewrite I. reflexivity. }
  split; [exact CH|]. rewrite ZL. split; [exact BD|]. split; [discriminate|].
  assert (Forall (fun x => x < zlen seen) (start :: l)) as FR by (constructor; [lia|rewrite LS in R; exact R]).
  assert (ignore = false -> id <> 0 -> claimed seen (start :: l) se) as CF.
  { intros Hi Hid. change (start :: l) with ([start] ++ l). eapply claimed_app; eauto. }
  destruct sl as [|x sl].
  - injection H as <- <- <- <-. split; [reflexivity|]. rewrite (LA eq_refl) in *. cbn [fst].
    split; [nia|]. split; [|split; [exact FR|exact CF]].
    rewrite SI. cbn [app intervals flat_map fst snd]. rewrite app_nil_r. rewrite zlen_cons in ZL.
    rewrite py_slice_cut by nia. rewrite cut_firstn by nia. reflexivity.
  - injection H as <- <- <- <-. split; [reflexivity|]. split; [lia|]. split; [|split; [exact FR|exact CF]].
    rewrite SI. unfold cut. cbn [Z.to_nat skipn]. f_equal. f_equal. lia.
Qed.

Lemma seen_set_ok : forall seen s id, 0 <= s < zlen seen -> 0 <= id <= 255 -> seen_set seen s id = Ok (zset seen s id).
Proof.
  intros seen s id R Hid. unfold seen_set. rewrite list_set_spec by exact R. cbn [bind].
  replace ((0 <=? id) && (id <=? 255)) with true by lia. reflexivity.
Qed.

Lemma locate_loop_complete : forall sat s l fin, walk sat s l fin ->
  forall fuel ignore base sz id limit seen p sp ep tot,
  (length l < fuel)%nat -> 1 <= id <= 255 -> NoDup l -> Forall (free seen) l -> tot + zlen l <= limit ->
  exists slices last seen',
    locate_loop fuel ignore base sat sz id limit seen s p sp ep tot = Ok (slices, last, tot + zlen l, fin, seen').
Proof.
  induction 1 as [s Hs|s s' l fin Hs Hn W IH]; intros fuel ignore base sz id limit seen p sp ep tot Hf Hid ND FR Hl;
    (destruct fuel as [|fuel]; [cbn in Hf; lia|]); cbn [locate_loop].
  - replace (s <? 0) with true by lia. change (zlen (@nil Z)) with 0. rewrite Z.add_0_r. eauto.
  - replace (s <? 0) with false by lia. inversion_clear ND as [|? ? X ND']. inversion_clear FR as [|? ? F0 FR'].
    rewrite zlen_cons in *. pose proof (zlen_nonneg l).
    rewrite (py_index_some _ _ _ F0). cbn [bind Z.eqb orb guard].
    rewrite seen_set_ok; [|eapply znth_Some_range, F0|lia]. cbn [bind].
    replace (negb (tot + 1 >? limit)) with true by lia. cbn [guard bind].
    assert (Forall (free (zset seen s id)) l) as FR2.
    { rewrite Forall_forall in *. intros x Hx. unfold free. rewrite znth_zset by (eapply znth_Some_range, F0).
      destruct (x =? s) eqn:E; [exfalso; apply X; replace s with x by lia; exact Hx|]. apply FR', Hx. }
    cbn [length] in Hf. rewrite (py_index_some _ _ _ Hn).
    replace (tot + (1 + zlen l)) with (tot + 1 + zlen l) by lia.
    destruct (s =? p + 1); cbn [bind].
    + destruct (IH fuel ignore base sz id limit (zset seen s id) s sp (ep + sz) (tot + 1)) as (sl & la & se & E);
        [lia|exact Hid|exact ND'|exact FR2|lia|]. rewrite E. cbn [bind]. eauto.
    + destruct (IH fuel ignore base sz id limit (zset seen s id) s (base + s * sz) (base + s * sz + sz) (tot + 1))
        as (sl & la & se & E); [lia|exact Hid|exact ND'|exact FR2|lia|]. rewrite E. cbn [bind]. eauto.
Qed.

Lemma locate_stream_complete : forall sat start l, chain sat start l -> l <> [] ->
  forall fuel ignore mem base sz size id seen,
  (length l < fuel)%nat -> 1 <= id <= 255 -> NoDup l -> Forall (free seen) l -> 0 < sz ->
  (zlen l - 1) * sz < size <= zlen l * sz ->
  exists r, locate_stream fuel ignore mem base sat sz start size id seen = Ok r.
Proof.
  intros sat start l C Hne fuel ignore mem base sz size id seen Hf Hid ND FR Hz Hs. unfold locate_stream.
  assert (0 <= start) by (destruct C; [congruence|lia]). replace (start <? 0) with false by lia. cbv zeta.
  assert ((size + sz - 1) / sz = zlen l) as EL by (symmetry; apply Z.div_unique with (r := size + sz - 1 - zlen l * sz); nia).
  rewrite EL. destruct (locate_loop_complete _ _ _ _ C fuel ignore base sz id (zlen l) seen (-99) (-9999) (-8888) 0)
    as (sl & la & se & E); auto; [lia|]. rewrite E. cbn [bind]. unfold EOCSID. rewrite Z.eqb_refl. cbn [guard bind].
  rewrite Z.add_0_l, Z.eqb_refl. cbn [guard bind]. destruct sl; eauto.
Qed.

(** ** The loops end *)

Definition zeros (seen : list Z) : nat := length (filter (Z.eqb 0) seen).

Lemma zeros_le : forall seen, (zeros seen <= length seen)%nat.
Proof. intros. unfold zeros. induction seen as [|x l IH]; cbn [filter length]; [lia|]. destruct (0 =? x); cbn [length]; lia. Qed.

Lemma zset_zeros : forall seen s id, free seen s -> id <> 0 -> S (zeros (zset seen s id)) = zeros seen.
Proof.
  intros seen s id F Hid. pose proof (znth_Some_range _ _ _ F) as R. rewrite <- (zset_same _ _ _ F) at 2.
  unfold zset, zeros. rewrite !filter_app. cbn [filter]. replace (0 =? id) with false by lia. cbn [Z.eqb].
  rewrite !app_length. cbn [length]. lia.
Qed.

Lemma mark_zeros : forall seen s id seen', 0 <= s -> id <> 0 -> mark seen s id = Ok seen' -> S (zeros seen') = zeros seen.
Proof.
  intros seen s id seen' Hs Hid H. unfold mark in H. apply bind_ok in H as (v & V & H).
  apply py_index_znth in V; [|exact Hs]. destruct (v =? 0) eqn:E; cbn [negb] in H; [|discriminate].
  assert (v = 0) by lia. subst v. pose proof (znth_Some_range _ _ _ V) as R.
  unfold seen_set in H. rewrite list_set_spec in H by exact R. cbn [bind] in H. fold (zset seen s id) in H.
  destruct (_ && _); [|discriminate]. injection H as <-. apply zset_zeros; assumption.
Qed.

Lemma nofuel_list_set : forall {A} (l : list A) i a, nofuel (list_set l i a).
Proof. intros. unfold list_set. cbv zeta. destruct (_ && _); discriminate. Qed.
Lemma nofuel_seen_set : forall seen s id, nofuel (seen_set seen s id).
Proof. intros. unfold seen_set. apply nofuel_bind; [apply nofuel_list_set|]. intros. destruct (_ && _); discriminate. Qed.
Lemma nofuel_mark : forall seen s id, nofuel (mark seen s id).
Proof.
  intros. unfold mark. apply nofuel_bind; [apply nofuel_index|]. intros. destruct (negb _); [discriminate|apply nofuel_seen_set].
Qed.
Lemma nofuel_guard : forall b e, e <> OutOfFuel -> nofuel (guard b e).
Proof. intros [] e H; cbn; [discriminate|]. intros X. congruence. Qed.

Lemma get_stream_ends : forall fuel mem base sat sz id seen s todo, id <> 0 -> (zeros seen < fuel)%nat ->
  nofuel (get_stream fuel mem base sat sz (Some id) seen s todo).
Proof.
  induction fuel as [|fuel IH]; intros mem base sat sz id seen s todo Hid Hf; [lia|]. cbn [get_stream].
  destruct (s <? 0) eqn:Es.
  { apply nofuel_bind; [apply nofuel_guard; discriminate|]. intros. discriminate. }
  apply nofuel_bind; [apply nofuel_mark|]. intros seen1 M. cbv zeta.
  apply mark_zeros in M; [|lia|exact Hid].
  apply nofuel_bind; [destruct (py_index sat s); discriminate|]. intros s' _.
  apply nofuel_bind; [apply IH; [exact Hid|lia]|]. intros [r se] _. discriminate.
Qed.

Lemma locate_loop_ends : forall fuel ignore base sat sz id limit seen s p sp ep tot,
  (ignore = false /\ id <> 0 /\ (zeros seen < fuel)%nat) \/ (Z.max 0 (limit - tot) + 1 < Z.of_nat fuel) ->
  nofuel (locate_loop fuel ignore base sat sz id limit seen s p sp ep tot).
Proof.
  induction fuel as [|fuel IH]; intros ignore base sat sz id limit seen s p sp ep tot H; [lia|]. cbn [locate_loop].
  destruct (s <? 0) eqn:Es; [discriminate|].
  apply nofuel_bind; [apply nofuel_index|]. intros v V. apply nofuel_bind; [apply nofuel_guard; discriminate|]. intros [] G1.
  apply nofuel_bind; [apply nofuel_seen_set|]. intros seen1 S1. cbv zeta.
  apply nofuel_bind; [apply nofuel_guard; discriminate|]. intros [] G2.
  unfold guard in G1, G2. destruct ((v =? 0) || ignore) eqn:EV; [|discriminate].
  destruct (negb (tot + 1 >? limit)) eqn:EL; [|discriminate]. clear G1 G2.
  assert (forall s' p' sp' ep', nofuel (locate_loop fuel ignore base sat sz id limit seen1 s' p' sp' ep' (tot + 1))) as N.
  { intros. apply IH. destruct H as [(-> & Hid & Z)|H]; [left|right; lia]. split; [reflexivity|]. split; [exact Hid|].
    assert (mark seen s id = Ok seen1) as M.
    { unfold mark. rewrite V. cbn [bind]. replace (v =? 0) with true by lia. exact S1. }
    apply mark_zeros in M; [|lia|exact Hid]. lia. }
  destruct (s =? p + 1); (apply nofuel_bind; [apply nofuel_index|]; intros s' _; apply nofuel_bind; [apply N|];
    intros ((((sl & la) & t') & fi) & se) _; discriminate).
Qed.

Lemma locate_stream_ends : forall fuel ignore mem base sat sz start size id seen,
  (ignore = false /\ id <> 0 /\ (zeros seen < fuel)%nat) \/ (Z.max 0 ((size + sz - 1) / sz) + 1 < Z.of_nat fuel) ->
  nofuel (locate_stream fuel ignore mem base sat sz start size id seen).
Proof.
  intros fuel ignore mem base sat sz start size id seen H. unfold locate_stream. destruct (start <? 0); [discriminate|].
  cbv zeta. apply nofuel_bind.
  { apply locate_loop_ends. rewrite Z.sub_0_r. exact H. }
  intros ((((sl & la) & t') & fi) & se) _.
  apply nofuel_bind; [apply nofuel_guard; discriminate|]. intros [] _.
  apply nofuel_bind; [apply nofuel_guard; discriminate|]. intros [] _. destruct sl; discriminate.
Qed.

(** More fuel than needed makes no difference. *)
Lemma get_stream_fuel : forall fuel fuel' mem base sat sz id seen s todo,
  nofuel (get_stream fuel mem base sat sz id seen s todo) -> (fuel <= fuel')%nat ->
  get_stream fuel' mem base sat sz id seen s todo = get_stream fuel mem base sat sz id seen s todo.
Proof.
  induction fuel as [|fuel IH]; intros fuel' mem base sat sz id seen s todo N L; [exfalso; apply N; reflexivity|].
  destruct fuel' as [|fuel']; [lia|]. cbn [get_stream] in *. destruct (s <? 0); [reflexivity|].
  destruct (match id with None => Ok seen | Some i => mark seen s i end) as [seen1|] eqn:E; cbn [bind] in *; [|reflexivity].
  destruct (py_index sat s) as [s'|]; cbn [bind] in *; [|reflexivity].
  rewrite IH; [reflexivity| |lia]. intros X. rewrite X in N. apply N. reflexivity.
Qed.

Lemma locate_loop_fuel : forall fuel fuel' ignore base sat sz id limit seen s p sp ep tot,
  nofuel (locate_loop fuel ignore base sat sz id limit seen s p sp ep tot) -> (fuel <= fuel')%nat ->
  locate_loop fuel' ignore base sat sz id limit seen s p sp ep tot
  = locate_loop fuel ignore base sat sz id limit seen s p sp ep tot.
Proof.
  induction fuel as [|fuel IH]; intros fuel' ignore base sat sz id limit seen s p sp ep tot N L; [exfalso; apply N; reflexivity|].
  destruct fuel' as [|fuel']; [lia|]. cbn [locate_loop] in *. destruct (s <? 0); [reflexivity|].
  destruct (py_index seen s) as [v|]; cbn [bind] in *; [|reflexivity].
  destruct (guard _ _) as [[]|]; cbn [bind] in *; [|reflexivity].
  destruct (seen_set seen s id) as [seen1|]; cbn [bind] in *; [|reflexivity].
  destruct (guard _ _) as [[]|]; cbn [bind] in *; [|reflexivity].
  destruct (s =? p + 1); (destruct (py_index sat s) as [s'|]; cbn [bind] in *; [|reflexivity]);
    (rewrite IH; [reflexivity| |lia]; intros X; rewrite X in N; apply N; reflexivity).
Qed.
