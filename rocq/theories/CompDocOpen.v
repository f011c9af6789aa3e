(** What opening a compound file leaves behind, in terms of the file image. *)
From Verif Require Import Base BaseFacts GridModel GridFacts CompDoc CompDocFacts.

(** ** Specification: fields and tables of the image *)

(** The signed 32-bit number at offset [off], and the unsigned 16-bit one. *)
Definition i32_at (mem : list Z) (off : Z) : Z := to_signed 32 (le_val (cut mem off (off + 4))).
Definition w16_at (mem : list Z) (off : Z) : Z := le_val (cut mem off (off + 2)).

(** The table entries held in sector [s]. *)
Definition entries (mem : list Z) (sz s : Z) : list Z :=
  map (fun i => i32_at mem (512 + s * sz + 4 * i)) (zrange 0 (sz / 4)).

(** The sectors of the master table extension, from [sid] on: the last entry of
    each names the next. *)
Inductive msatx (mem : list Z) (sz : Z) : Z -> list Z -> Prop :=
| msatx_end : forall sid, sid = -2 \/ sid = -1 \/ sid = -4 -> msatx mem sz sid []
| msatx_next : forall sid l, 0 <= sid -> msatx mem sz (last (entries mem sz sid) 0) l -> msatx mem sz sid (sid :: l).

(** The master table: 109 entries in the header, then the extension. *)
Definition master (mem : list Z) (sz : Z) (lx : list Z) : list Z :=
  map (fun i => i32_at mem (76 + 4 * i)) (zrange 0 109) ++ flat_map (fun s => removelast (entries mem sz s)) lx.

(** Sector size and number of sectors (the last one may be cut short). *)
Definition sector_size (mem : list Z) : Z := 2 ^ (if w16_at mem 30 >? 20 then 9 else w16_at mem 30).
Definition sector_count (mem : list Z) : Z := (zlen mem - 512 + sector_size mem - 1) / sector_size mem.

(** The sectors used for the master table extension, the allocation table, the
    directory, the short stream container and the short allocation table. *)
Record layout (mem : list Z) (cd : compdoc) (lx ls ld lc lt : list Z) : Prop := mk_layout {
  lay_mem : cd_mem cd = mem;
  lay_long : 512 <= zlen mem;
  lay_size : cd_sec_size cd = sector_size mem;
  lay_size8 : 8 <= sector_size mem;
  lay_short : 0 < cd_short_sec_size cd;
  lay_len : cd_data_len cd = zlen mem - 512;
  lay_min : cd_min_std cd = i32_at mem 56;
  lay_count : zlen (cd_seen cd) = sector_count mem;
  lay_msatx : if (i32_at mem 72 =? 0) && ((i32_at mem 68 =? -2) || (i32_at mem 68 =? -1) || (i32_at mem 68 =? 0))
              then lx = [] else msatx mem (sector_size mem) (i32_at mem 68) lx;
  lay_ls : ls = filter (fun s => (0 <=? s) && (s <? sector_count mem)) (master mem (sector_size mem) lx);
  lay_sat : cd_sat cd = flat_map (entries mem (sector_size mem)) ls;
  lay_dir : chain (cd_sat cd) (i32_at mem 48) ld;
  lay_dirbytes : dir_nodes 0 (sectors mem 512 (sector_size mem) ld)
                   (positions128 (zlen (sectors mem 512 (sector_size mem) ld))) = Ok (cd_dirlist cd);
  lay_root : exists root, znth (cd_dirlist cd) 0 = Some root /\ d_etype root = 5
    /\ (if (d_first root <? 0) || (d_size root =? 0) then lc = [] /\ cd_sscs cd = None
        else chain (cd_sat cd) (d_first root) lc
             /\ cd_sscs cd = Some (pieces mem 512 (sector_size mem) lc (Some (d_size root))))
    /\ (if d_size root >? 0
        then chain (cd_sat cd) (i32_at mem 60) lt /\ zlen lt = i32_at mem 64
             /\ cd_ssat cd = flat_map (entries mem (sector_size mem)) lt
        else lt = [] /\ cd_ssat cd = []);
  lay_claimed : claimed (zrepeat 0 (sector_count mem)) (lx ++ ls ++ ld ++ lc ++ lt) (cd_seen cd);
}.

(** ** Reading fields *)

Lemma unpack_i32_at : forall mem off v, 0 <= off -> unpack_i32 mem off = Ok v -> v = i32_at mem off.
Proof.
  intros mem off v H E. unfold unpack_i32 in E. apply bind_ok in E as (w & W & E). injection E as <-.
  unfold unpack_le in W. cbv zeta in W. destruct (_ =? _); [|discriminate]. injection W as <-.
  rewrite py_slice_cut by lia. reflexivity.
Qed.

Lemma unpack_w16_at : forall mem off v, 0 <= off -> unpack_u16 mem off = Ok v -> v = w16_at mem off.
Proof.
  intros mem off v H E. unfold unpack_u16, unpack_le in E. cbv zeta in E. destruct (_ =? _); [|discriminate].
  injection E as <-. rewrite py_slice_cut by lia. reflexivity.
Qed.

Lemma mapM_map : forall {A B} (f : A -> result B) (g : A -> B) l v,
  (forall x y, In x l -> f x = Ok y -> y = g x) -> mapM f l = Ok v -> v = map g l.
Proof.
  intros A B f g l. induction l as [|a l IH]; intros v H E; cbn [mapM] in E; [injection E as <-; reflexivity|].
  apply bind_ok in E as (b & Eb & E). apply bind_ok in E as (bs & Ebs & E). injection E as <-.
  cbn [map]. f_equal; [apply H; [left; reflexivity|exact Eb]|]. apply IH; [|exact Ebs]. intros x y Hx. apply H. right. exact Hx.
Qed.

Lemma unpack_i32s_at : forall n size mem pos v, 0 <= pos -> unpack_i32s n size mem pos = Ok v ->
  v = map (fun i => i32_at mem (pos + 4 * i)) (zrange 0 n) /\ zlen (py_slice mem pos (pos + size)) = 4 * n.
Proof.
  intros n size mem pos v H E. unfold unpack_i32s in E. destruct (zlen _ =? _) eqn:L; cbn [negb] in E; [|discriminate].
  split; [|lia]. eapply mapM_map; [|exact E]. intros x y Hx Ey. apply in_zrange in Hx. apply unpack_i32_at; [lia|exact Ey].
Qed.

Lemma unpack_entries : forall sz mem s v, 0 <= s -> 0 < sz -> unpack_i32s (sz / 4) sz mem (512 + sz * s) = Ok v ->
  v = entries mem sz s.
Proof.
  intros sz mem s v Hs Hz E. apply unpack_i32s_at in E as [E _]; [|nia]. rewrite E. unfold entries.
  replace (sz * s) with (s * sz) by lia. reflexivity.
Qed.

Lemma entries_len : forall mem sz s, 0 < sz -> zlen (entries mem sz s) = sz / 4.
Proof.
  intros. unfold entries. rewrite zlen_map, zlen_zrange. lia.
Qed.

(** ** The tables *)

Lemma removelast_app_ne : forall {A} (a b : list A), b <> [] -> removelast (a ++ b) = a ++ removelast b.
Proof. intros. apply removelast_app. assumption. Qed.

Lemma last_index : forall (l : list Z), l <> [] -> py_index l (-1) = Ok (last l 0).
Proof.
  intros l H. destruct (exists_last H) as (p & x & ->). rewrite last_last. unfold py_index. cbv zeta.
  replace (-1 <? 0) with true by lia. rewrite zlen_app. cbn [zlen length Z.of_nat Pos.of_succ_nat].
  rewrite znth_app_r by (unfold zlen; lia). replace (-1 + (zlen p + 1) - zlen p) with 0 by lia. reflexivity.
Qed.

Lemma last_app_ne : forall {A} (a b : list A) d, b <> [] -> last (a ++ b) d = last b d.
Proof.
  intros A a b d H. destruct (exists_last H) as (p & x & ->). rewrite app_assoc, !last_last. reflexivity.
Qed.

Lemma msatx_sound : forall fuel mem sz secs seen msat sid msat' seen', 8 <= sz ->
  msatx_loop fuel mem sz (sz / 4) secs seen msat sid = Ok (msat', seen') ->
  exists l, msatx mem sz sid l /\ claimed seen l seen'
    /\ msat' = msat ++ flat_map (fun s => removelast (entries mem sz s)) l.
Proof.
  induction fuel as [|fuel IH]; intros mem sz secs seen msat sid msat' seen' Hz H; [discriminate|].
  cbn [msatx_loop] in H. unfold EOCSID, FREESID, MSATSID in H.
  destruct ((sid =? -2) || (sid =? -1) || (sid =? -4)) eqn:E.
  { injection H as <- <-. exists []. split; [constructor; lia|]. split; [apply claimed_nil|]. cbn. rewrite app_nil_r. reflexivity. }
  destruct (sid >=? secs); [discriminate|]. destruct (sid <? 0) eqn:E0; [discriminate|].
  apply bind_ok in H as (seen1 & M & H). apply bind_ok in H as (news & N & H). cbv zeta in H.
  apply unpack_entries in N; [|lia|lia]. subst news.
  assert (entries mem sz sid <> []) as NE.
  { intros X. pose proof (entries_len mem sz sid ltac:(lia)) as L. rewrite X in L. change (zlen (@nil Z)) with 0 in L. lia. }
  rewrite last_index in H by (intros X; apply app_eq_nil in X; tauto). cbn [bind] in H.
  rewrite last_app_ne, removelast_app_ne in H by exact NE.
  apply IH in H as (l & W & C & ->); [|exact Hz]. exists (sid :: l). split; [constructor; [lia|exact W]|].
  split.
  - change (sid :: l) with ([sid] ++ l). eapply claimed_app; [eapply mark_claimed; [| |exact M]; lia|exact C].
  - cbn [flat_map]. rewrite app_assoc. reflexivity.
Qed.

Lemma sat_sound : forall mem sz secs msat seen sat seen', 8 <= sz ->
  sat_loop mem sz (sz / 4) secs seen msat = Ok (sat, seen') ->
  claimed seen (filter (fun s => (0 <=? s) && (s <? secs)) msat) seen'
  /\ sat = flat_map (entries mem sz) (filter (fun s => (0 <=? s) && (s <? secs)) msat).
Proof.
  intros mem sz secs msat. induction msat as [|m rest IH]; intros seen sat seen' Hz H; cbn [sat_loop] in H.
  { injection H as <- <-. split; [apply claimed_nil|reflexivity]. }
  unfold EOCSID, FREESID in H. cbn [filter]. destruct ((m =? -1) || (m =? -2)) eqn:E.
  { replace ((0 <=? m) && (m <? secs)) with false by lia. apply IH; assumption. }
  destruct (m >=? secs) eqn:E2.
  { replace ((0 <=? m) && (m <? secs)) with false by lia. apply IH; assumption. }
  destruct (m <? -2) eqn:E3; [discriminate|]. replace ((0 <=? m) && (m <? secs)) with true by lia.
  apply bind_ok in H as (seen1 & M & H). apply bind_ok in H as (news & N & H).
  apply bind_ok in H as ((sat1 & seen2) & R & H). injection H as <- <-.
  apply unpack_entries in N; [|lia|lia]. subst news. apply IH in R as [C ->]; [|exact Hz]. split.
  - match goal with |- claimed _ (m :: ?l) _ => change (m :: l) with ([m] ++ l) end.
    eapply claimed_app; [eapply mark_claimed; [| |exact M]; lia|exact C].
  - reflexivity.
Qed.

Lemma ssat_sound : forall n mem sz sat seen sid ssat seen' fin k, 8 <= sz ->
  ssat_loop n mem sz (sz / 4) sat seen sid = Ok (ssat, seen', fin, k) -> fin = -2 -> k = O ->
  exists l, chain sat sid l /\ zlen l = Z.of_nat n /\ claimed seen l seen' /\ ssat = flat_map (entries mem sz) l.
Proof.
  induction n as [|n IH]; intros mem sz sat seen sid ssat seen' fin k Hz H Hfin Hk; cbn [ssat_loop] in H.
  - destruct (sid <? 0) eqn:E; injection H as <- <- <- <-; [|lia].
    exists []. split; [subst sid; constructor; lia|]. split; [reflexivity|]. split; [apply claimed_nil|reflexivity].
  - destruct (sid <? 0) eqn:E; [injection H as <- <- <- <-; discriminate|].
    apply bind_ok in H as (seen1 & M & H). apply bind_ok in H as (news & N & H). apply bind_ok in H as (s' & P & H).
    apply bind_ok in H as ((((ssat1 & seen2) & fin1) & k1) & R & H). injection H as <- <- <- <-.
    replace (sid * sz) with (sz * sid) in N by lia. apply unpack_entries in N; [|lia|lia]. subst news.
    apply IH in R as (l & C & L & CL & ->); [|exact Hz|exact Hfin|exact Hk].
    apply py_index_znth in P; [|lia]. exists (sid :: l). split; [eapply walk_next; [lia|exact P|exact C]|].
    split; [rewrite zlen_cons; lia|]. split; [|reflexivity].
    change (sid :: l) with ([sid] ++ l). eapply claimed_app; [eapply mark_claimed; [| |exact M]; lia|exact CL].
Qed.

(** ** Opening *)

Lemma layout_of_open : forall fuel depth mem ignore cd, bytes mem -> open_compdoc fuel depth mem ignore = Ok cd ->
  exists lx ls ld lc lt, layout mem cd lx ls ld lc lt.
Proof.
  intros fuel depth mem ignore cd B H. unfold open_compdoc in H.
  destruct (list_eqb (py_slice mem 0 8) SIGNATURE); cbn [negb] in H; [|discriminate].
  destruct (list_eqb _ _); cbn [negb] in H; [|discriminate].
  apply bind_ok in H as ([] & _ & H). apply bind_ok in H as ([] & _ & H).
  apply bind_ok in H as (ssz & E1 & H). apply bind_ok in H as (sssz & E2 & H). cbv zeta in H.
  apply bind_ok in H as ([] & _ & H).
  apply bind_ok in H as (dir_first & E3 & H). apply bind_ok in H as (min_std & E4 & H).
  apply bind_ok in H as (ssat_first & E5 & H). apply bind_ok in H as (ssat_tot & E6 & H).
  apply bind_ok in H as (msatx_first & E7 & H). apply bind_ok in H as (msatx_tot & E8 & H).
  pose proof (unpack_u16_range _ _ _ B E1) as R1. pose proof (unpack_u16_range _ _ _ B E2) as R2.
  apply unpack_w16_at in E1; [|lia]. apply unpack_w16_at in E2; [|lia].
  apply unpack_i32_at in E3, E4, E5, E6, E7, E8; try lia.
  set (z := if ssz >? 20 then 9 else ssz) in *.
  set (zz := if sssz >? z then 6 else sssz) in *.
  assert (0 <= z <= 20) as RZ by (unfold z; destruct (ssz >? 20) eqn:Q; lia).
  assert (0 <= zz) as RZZ by (unfold zz; destruct (sssz >? z) eqn:Q; lia).
  assert (Z.shiftl 1 z = sector_size mem) as SZ.
  { rewrite Z.shiftl_1_l. unfold sector_size, z. rewrite E1. reflexivity. }
  rewrite SZ in H. rewrite (Z.shiftl_1_l zz) in H.
  assert (0 < sector_size mem) as SP by (rewrite <- SZ, Z.shiftl_1_l; apply Z.pow_pos_nonneg; lia).
  assert (0 < 2 ^ zz) as SSP by (apply Z.pow_pos_nonneg; lia).
  set (sz := sector_size mem) in *.
  assert ((if negb ((zlen mem - 512) mod sz =? 0) then (zlen mem - 512) / sz + 1 else (zlen mem - 512) / sz)
          = sector_count mem) as SC.
  { unfold sector_count. fold sz. destruct ((zlen mem - 512) mod sz =? 0) eqn:Q; cbn [negb].
    - apply Z.div_unique with (r := sz - 1); [lia|]. pose proof (Z.div_mod (zlen mem - 512) sz). lia.
    - apply Z.div_unique with (r := (zlen mem - 512) mod sz - 1);
        [pose proof (Z.mod_pos_bound (zlen mem - 512) sz); lia|]. pose proof (Z.div_mod (zlen mem - 512) sz). lia. }
  rewrite SC in H. set (secs := sector_count mem) in *.
  apply bind_ok in H as (msat0 & E9 & H). apply unpack_i32s_at in E9 as [E9 L9]; [|lia].
  assert (512 <= zlen mem) as LONG.
  { rewrite py_slice_len in L9. unfold py_bound in L9. replace (76 <? 0) with false in L9 by reflexivity. replace (76 + 436 <? 0) with false in L9 by reflexivity. pose proof (zlen_nonneg mem). lia. }
  assert (0 <= secs) as SECS by (unfold secs, sector_count; fold sz; apply Z.div_pos; lia).
  apply bind_ok in H as ([] & G1 & H). apply bind_ok in H as ([] & G2 & H).
  unfold guard in G1, G2. destruct (negb (sz / 4 =? 0)) eqn:Q1; [|discriminate].
  destruct (negb (sz / 4 =? 1)) eqn:Q2; [|discriminate]. clear G1 G2.
  assert (8 <= sz) as S8 by lia.
  apply bind_ok in H as ((msat & seen1) & X1 & H). apply bind_ok in H as ((sat & seen2) & X2 & H).
  apply bind_ok in H as ((dbytes & seen3) & X3 & H). apply bind_ok in H as (dirlist & X4 & H).
  apply bind_ok in H as (root & X5 & H). apply bind_ok in H as (fam & X6 & H).
  apply bind_ok in H as ([] & X7 & H). apply bind_ok in H as ((sscs & seen4) & X8 & H).
  apply bind_ok in H as ((ssat & seen5) & X9 & H). injection H as <-.
  assert (exists lx, claimed (zrepeat 0 secs) lx seen1
    /\ (if (i32_at mem 72 =? 0) && ((i32_at mem 68 =? -2) || (i32_at mem 68 =? -1) || (i32_at mem 68 =? 0))
        then lx = [] else msatx mem sz (i32_at mem 68) lx) /\ msat = master mem sz lx) as (lx & CX & WX & MX).
  { unfold EOCSID, FREESID in X1. subst msatx_tot msatx_first.
    destruct ((i32_at mem 72 =? 0) && ((i32_at mem 68 =? -2) || (i32_at mem 68 =? -1) || (i32_at mem 68 =? 0))).
    - injection X1 as <- <-. exists []. split; [apply claimed_nil|]. split; [reflexivity|].
      unfold master. cbn [flat_map]. rewrite app_nil_r. exact E9.
    - apply msatx_sound in X1 as (lx & W & C & ->); [|exact S8]. exists lx. split; [exact C|]. split; [exact W|].
      unfold master. rewrite <- E9. reflexivity. }
  apply sat_sound in X2 as [CS ES]; [|exact S8]. rewrite MX in CS, ES.
  apply get_stream_sound in X3 as (ld & CD & DB & CLD). specialize (CLD ltac:(lia)).
  pose proof (walk_nonneg _ _ _ _ CD) as ND. rewrite pieces_all in DB by (auto; lia). subst dbytes.
  apply py_index_znth in X5; [|lia]. unfold guard in X7. destruct (d_etype root =? 5) eqn:E5t; [|discriminate].
  assert (exists lc, claimed seen3 lc seen4
     /\ if (d_first root <? 0) || (d_size root =? 0) then lc = [] /\ sscs = None
        else chain sat (d_first root) lc /\ sscs = Some (pieces mem 512 sz lc (Some (d_size root)))) as (lc & CC & WC).
  { destruct ((d_first root <? 0) || (d_size root =? 0)).
    - injection X8 as <- <-. exists []. split; [apply claimed_nil|auto].
    - apply bind_ok in X8 as ((b & se) & G & E). injection E as <- <-.
      apply get_stream_sound in G as (lc & C & -> & CL). exists lc. split; [apply CL; lia|auto]. }
  assert (exists lt, claimed seen4 lt seen5
     /\ if d_size root >? 0 then chain sat (i32_at mem 60) lt /\ zlen lt = i32_at mem 64 /\ ssat = flat_map (entries mem sz) lt
        else lt = [] /\ ssat = []) as (lt & CT & WT).
  { destruct (d_size root >? 0).
    - apply bind_ok in X9 as ((((s1 & s2) & s3) & s4) & L & X9). apply bind_ok in X9 as ([] & G & X9).
      injection X9 as <- <-. unfold guard, EOCSID in G.
      destruct ((Z.max 0 ssat_tot =? ssat_tot) && match s4 with O => true | S _ => false end && (s3 =? -2)) eqn:Q; [|discriminate].
      apply andb_true_iff in Q as [Q Q3]. apply andb_true_iff in Q as [Q Q4]. destruct s4 as [|s4]; [|discriminate].
      apply ssat_sound in L as (lt & C & ZL & CL & ->); [|exact S8|lia|reflexivity].
      exists lt. split; [exact CL|]. subst. split; [exact C|]. split; [lia|reflexivity].
    - injection X9 as <- <-. exists []. split; [apply claimed_nil|auto]. }
  set (ls := filter (fun s => (0 <=? s) && (s <? secs)) (master mem sz lx)) in *.
  assert (claimed (zrepeat 0 secs) (lx ++ ls ++ ld ++ lc ++ lt) seen5) as CALL by eauto 10 using claimed_app.
  exists lx, ls, ld, lc, lt. constructor; cbn [cd_mem cd_sec_size cd_short_sec_size cd_data_len cd_min_std cd_seen cd_sat
    cd_dirlist cd_sscs cd_ssat]; auto.
  - rewrite (claimed_len _ _ _ CALL), zlen_zrepeat; [reflexivity|exact SECS].
  - rewrite <- E3. exact CD.
  - exists root. split; [exact X5|]. split; [lia|]. split; [exact WC|exact WT].
Qed.

(** Directory entries carry their position. *)
Lemma dir_nodes_did : forall ps did dbytes ds, dir_nodes did dbytes ps = Ok ds ->
  forall i d, znth ds i = Some d -> d_did d = did + i.
Proof.
  induction ps as [|p ps IH]; intros did dbytes ds H i d Hd; cbn [dir_nodes] in H.
  { injection H as <-. apply znth_Some_range in Hd. change (zlen (@nil dirnode)) with 0 in Hd. lia. }
  apply bind_ok in H as (d0 & D0 & H). apply bind_ok in H as (ds' & DS & H). injection H as <-.
  pose proof (znth_Some_range _ _ _ Hd) as R. destruct (Z.eq_dec i 0) as [->|Hi].
  - rewrite znth_0 in Hd. injection Hd as <-. unfold dir_node in D0.
    repeat match type of D0 with bind _ _ = _ => apply bind_ok in D0 as (? & _ & D0) end.
    injection D0 as <-. cbn. lia.
  - rewrite znth_cons in Hd by lia. apply (IH _ _ _ DS) in Hd. lia.
Qed.

Lemma search_children_in : forall lower dl rec last head kids d,
  (forall c d, rec c = Ok (Some d) -> In d dl) -> search_children lower dl rec last head kids = Ok (Some d) -> In d dl.
Proof.
  intros lower dl rec last head kids d R. induction kids as [|c kids IH]; intros H; cbn [search_children] in H; [discriminate|].
  apply bind_ok in H as (e & E & H). destruct (list_eqb _ _); [|auto].
  destruct (d_etype e =? 2).
  - injection H as <-. unfold py_index in E. cbv zeta in E. destruct (znth dl _) eqn:Z; [|discriminate]. injection E as <-.
    unfold znth in Z. destruct (_ <? 0); [discriminate|]. eapply nth_error_In, Z.
  - destruct (d_etype e =? 1); [|discriminate]. destruct last; [discriminate|]. eapply R, H.
Qed.

Lemma dir_search_in : forall lower dl children path storage d,
  dir_search lower dl children path storage = Ok (Some d) -> In d dl.
Proof.
  intros lower dl children path. induction path as [|h t IH]; intros storage d H; cbn [dir_search] in H; [discriminate|].
  apply bind_ok in H as (kids & _ & H). eapply search_children_in; [|exact H]. intros. eapply IH; eauto.
Qed.

Lemma open_did : forall mem cd lx ls ld lc lt d, layout mem cd lx ls ld lc lt -> In d (cd_dirlist cd) -> 0 <= d_did d.
Proof.
  intros mem cd lx ls ld lc lt d L H. destruct (In_nth_error _ _ H) as (n & N).
  assert (znth (cd_dirlist cd) (Z.of_nat n) = Some d) as Z.
  { unfold znth. replace (Z.of_nat n <? 0) with false by lia. rewrite Nat2Z.id. exact N. }
  apply (dir_nodes_did _ _ _ _ (lay_dirbytes _ _ _ _ _ _ _ L)) in Z. lia.
Qed.
