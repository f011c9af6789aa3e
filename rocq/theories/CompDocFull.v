(** Compound files laid out properly: specification, and the proof that they open. *)
From Verif Require Import Base BaseFacts Utf16 StringFacts GridModel GridFacts Text CompDoc CompDocFacts CompDocOpen PropChain PropDir.

(** ** Specification *)

Definition i32_enc (v : Z) : list Z := le_enc 4 (v mod 2 ^ 32).
Definition i32v (v : Z) : Prop := - 2 ^ 31 <= v < 2 ^ 31.

(** A directory entry of 128 bytes: the name in UTF-16 with two more bytes in 64, its size,
    the type, a colour, the links, 36 bytes of other data, the first sector and the size. *)
Inductive dirent (d : dirnode) : list Z -> Prop :=
| Dirent : forall pad csize colour other rest,
    text (d_name d) -> (d_name d = [] /\ csize = 0 \/ csize = zlen (utf16_enc (d_name d)) + 2) ->
    zlen (utf16_enc (d_name d)) + zlen pad = 64 -> 0 <= csize <= 65535 ->
    0 <= d_etype d < 256 -> i32v (d_left d) -> i32v (d_right d) -> i32v (d_root d) ->
    zlen other = 36 -> i32v (d_first d) -> i32v (d_size d) -> zlen rest = 4 ->
    dirent d (utf16_enc (d_name d) ++ pad ++ le_enc 2 csize ++ d_etype d :: colour :: i32_enc (d_left d) ++ i32_enc (d_right d) ++
              i32_enc (d_root d) ++ other ++ i32_enc (d_first d) ++ i32_enc (d_size d) ++ rest).

(** A compound file with sector allocation table [sat], directory [dl] and tree [t] of
    entries below the root entry.  The sectors of the master table extension, the
    allocation table, the directory, the short stream container and the short allocation
    table are [lx], [ls], [ld], [lc] and [lt]. *)
Record compound (file : list Z) (sat : list Z) (dl : list dirnode) (t : tree) (lx ls ld lc lt : list Z) : Prop := {
  cp_bytes : bytes file;
  cp_long : 512 <= zlen file;
  cp_signature : cut file 0 8 = [0xD0; 0xCF; 0x11; 0xE0; 0xA1; 0xB1; 0x1A; 0xE1];
  cp_order : cut file 28 30 = [0xFE; 0xFF];
  cp_size : 8 <= sector_size file;
  cp_msatx : if (i32_at file 72 =? 0) && ((i32_at file 68 =? -2) || (i32_at file 68 =? -1) || (i32_at file 68 =? 0))
             then lx = [] else msatx file (sector_size file) (i32_at file 68) lx;
  cp_master : Forall (fun m => -2 <= m) (master file (sector_size file) lx);
  cp_ls : ls = filter (fun s => (0 <=? s) && (s <? sector_count file)) (master file (sector_size file) lx);
  cp_sat : sat = flat_map (entries file (sector_size file)) ls;
  cp_dir : chain sat (i32_at file 48) ld;
  cp_dirlist : exists es, sectors file 512 (sector_size file) ld = List.concat es /\ Forall2 dirent dl es;
  cp_numbers : forall i d, znth dl i = Some d -> d_did d = i;
  cp_root : exists root, znth dl 0 = Some root /\ d_etype root = 5 /\ rep dl (d_root root) t /\ NoDup (0 :: ids t)
    /\ (if (d_first root <? 0) || (d_size root =? 0) then lc = [] else chain sat (d_first root) lc)
    /\ (if d_size root >? 0 then chain sat (i32_at file 60) lt /\ zlen lt = i32_at file 64 else lt = []);
  cp_apart : NoDup (lx ++ ls ++ ld ++ lc ++ lt);
  cp_inside : Forall (fun s => 0 <= s < sector_count file) (lx ++ ls ++ ld ++ lc ++ lt);
  cp_tables : Forall (fun s => 512 + (s + 1) * sector_size file <= zlen file) (lx ++ ls ++ lt) }.

(** Short sectors and the short stream container *)
Definition short_size (file : list Z) : Z :=
  let shift := if w16_at file 30 >? 20 then 9 else w16_at file 30 in
  2 ^ (if w16_at file 32 >? shift then 6 else w16_at file 32).
Definition container (file : list Z) (root : dirnode) (lc : list Z) : option (list Z) :=
  if (d_first root <? 0) || (d_size root =? 0) then None else Some (pieces file 512 (sector_size file) lc (Some (d_size root))).

(** ** Proofs *)

Lemma i32_read : forall data t v pos, At data pos (i32_enc v ++ t) -> i32v v -> unpack_i32 data pos = Ok v.
Proof.
  intros data t v pos A V. unfold i32_enc, i32v in *. unfold unpack_i32. rewrite (At_le data t 4 (v mod 2 ^ 32)).
  - rewrite bind_Ok. f_equal. unfold to_signed. destruct (_ <? _) eqn:E; change (2 ^ (32 - 1)) with (2 ^ 31) in *; lia.
  - exact A.
  - reflexivity.
  - change (256 ^ 4) with (2 ^ 32). apply Z.mod_pos_bound. lia.
Qed.

Lemma zlen_i32_enc : forall v, zlen (i32_enc v) = 4.
Proof. intros v. unfold i32_enc. apply zlen_le_enc. Qed.

Lemma dirent_len : forall d e, dirent d e -> zlen e = 128.
Proof.
  intros d e [pad csize colour other rest T CS L64 CR ET LL RR RT LO FF SS LR].
  rewrite !zlen_app, !zlen_cons, !zlen_app, !zlen_i32_enc, zlen_le_enc. lia.
Qed.

Lemma slice_fits : forall (l : list Z) a b, 0 <= a <= b -> b <= zlen l -> zlen (py_slice l a b) = b - a.
Proof. intros l a b R L. rewrite py_slice_cut by lia. apply zlen_cut; lia. Qed.

Lemma byte_here : forall data t v pos, At data pos (v :: t) -> 0 <= v < 256 -> unpack_le 1 data pos = Ok v.
Proof.
  intros data t v pos A B. apply (At_le data t 1 v); [|reflexivity|cbn; lia].
  cbn [le_enc app]. rewrite Z.mod_small by lia. exact A.
Qed.

Lemma dirent_read : forall d e, dirent d e -> dir_node (d_did d) e = Ok d.
Proof.
  intros d e D. pose proof (dirent_len d e D) as LE. unfold dir_node.
  rewrite !slice_fits by lia. change (80 - 64 =? 16) with true. change (124 - 116 =? 8) with true. change (116 - 100 =? 16) with true.
  cbn [guard]. rewrite !bind_Ok.
  destruct D as [pad csize colour other rest T CS L64 CR ET LL RR RT LO FF SS LR].
  set (nm := utf16_enc (d_name d)) in *.
  match goal with |- context [unpack_u16 ?x _] => set (e := x) in * end.
  assert (A0 : At e 0 e) by apply At_0. unfold e in A0 at 2.
  pose proof (At_skip _ _ _ _ (zlen nm) A0 eq_refl) as A1.
  pose proof (At_skip _ _ _ _ 64 A1 ltac:(lia)) as A64.
  pose proof (At_skip _ _ _ _ 66 A64 ltac:(rewrite zlen_le_enc; lia)) as A66.
  pose proof (At_skip1 _ _ _ _ 67 A66 ltac:(lia)) as A67.
  pose proof (At_skip1 _ _ _ _ 68 A67 ltac:(lia)) as A68.
  pose proof (At_skip _ _ _ _ 72 A68 ltac:(rewrite zlen_i32_enc; lia)) as A72.
  pose proof (At_skip _ _ _ _ 76 A72 ltac:(rewrite zlen_i32_enc; lia)) as A76.
  pose proof (At_skip _ _ _ _ 80 A76 ltac:(rewrite zlen_i32_enc; lia)) as A80.
  pose proof (At_skip _ _ _ _ 116 A80 ltac:(lia)) as A116.
  pose proof (At_skip _ _ _ _ 120 A116 ltac:(rewrite zlen_i32_enc; lia)) as A120.
  rewrite (At_u16 _ _ _ _ A64) by lia. rewrite bind_Ok.
  rewrite (byte_here _ _ _ _ A66) by lia. rewrite bind_Ok.
  rewrite (i32_read _ _ _ _ A68), bind_Ok, (i32_read _ _ _ _ A72), bind_Ok, (i32_read _ _ _ _ A76), bind_Ok by assumption.
  rewrite (i32_read _ _ _ _ A116), bind_Ok, (i32_read _ _ _ _ A120), bind_Ok by assumption.
  assert (N : (if csize =? 0 then Ok [] else utf16_dec (py_slice e 0 (csize - 2))) = Ok (d_name d)).
  { destruct CS as [[-> ->] | ->]; [reflexivity|]. pose proof (zlen_nonneg nm). replace (zlen nm + 2 =? 0) with false by lia.
    rewrite (At_slice _ _ _ 0 (zlen nm + 2 - 2) A0) by lia. apply utf16_dec_enc. exact T. }
  rewrite N, bind_Ok. destruct d; reflexivity.
Qed.

Lemma dirents_read : forall dl es, Forall2 dirent dl es -> forall n pre,
  (forall i d, znth dl i = Some d -> d_did d = n + i) -> zlen pre = 128 * n -> 0 <= n ->
  dir_nodes n (pre ++ List.concat es) (map (fun k => 128 * k) (zrange n (n + zlen es))) = Ok dl.
Proof.
  induction 1 as [|d e dl es D F IH]; intros n pre DI LP N0.
  - change (zlen (@nil (list Z))) with 0. rewrite zrange_nil by lia. reflexivity.
  - rewrite zlen_cons. pose proof (zlen_nonneg es). rewrite zrange_cons by lia. cbn [map dir_nodes List.concat].
    assert (A : At (pre ++ e ++ List.concat es) (128 * n) (e ++ List.concat es)) by (exists pre; auto).
    rewrite (At_slice _ _ _ _ (128 * n + 128) A) by (rewrite (dirent_len d e D); reflexivity).
    assert (DD : d_did d = n) by (rewrite (DI 0 d eq_refl); lia). rewrite <- DD at 1. rewrite (dirent_read d e D), bind_Ok.
    replace (n + (1 + zlen es)) with (n + 1 + zlen es) by lia. rewrite app_assoc.
    rewrite (IH (n + 1) (pre ++ e)); [reflexivity| | |lia].
    + intros i x X. pose proof (znth_Some_range _ _ _ X) as R. rewrite (DI (i + 1) x); [lia|]. rewrite znth_cons by lia. replace (i + 1 - 1) with i by lia. exact X.
    + rewrite zlen_app, (dirent_len d e D). lia.
Qed.

Lemma concat_len : forall dl es, Forall2 dirent dl es -> zlen (List.concat es) = 128 * zlen es.
Proof. induction 1 as [|d e dl es D F IH]; [reflexivity|]. cbn [List.concat]. rewrite zlen_app, zlen_cons, (dirent_len d e D), IH. lia. Qed.

(** *** The tables *)

Lemma unpack_i32_total : forall mem off, 0 <= off -> off + 4 <= zlen mem -> unpack_i32 mem off = Ok (i32_at mem off).
Proof.
  intros mem off H L. unfold unpack_i32, unpack_le. cbv zeta. rewrite slice_fits by lia. replace (off + 4 - off =? 4) with true by lia.
  rewrite bind_Ok, py_slice_cut by lia. reflexivity.
Qed.
Lemma unpack_w16_total : forall mem off, 0 <= off -> off + 2 <= zlen mem -> unpack_u16 mem off = Ok (w16_at mem off).
Proof.
  intros mem off H L. unfold unpack_u16, unpack_le. cbv zeta. rewrite slice_fits by lia. replace (off + 2 - off =? 2) with true by lia.
  rewrite py_slice_cut by lia. reflexivity.
Qed.
Lemma mapM_total : forall {A B} (f : A -> result B) (g : A -> B) l, (forall x, In x l -> f x = Ok (g x)) -> mapM f l = Ok (map g l).
Proof.
  intros A B f g l. induction l as [|a l IH]; intros H; [reflexivity|]. cbn [mapM map]. rewrite H by (left; reflexivity). rewrite bind_Ok.
  rewrite IH by (intros x X; apply H; right; exact X). reflexivity.
Qed.
Lemma unpack_i32s_total : forall n mem pos, 0 <= pos -> 0 <= n -> pos + 4 * n <= zlen mem ->
  unpack_i32s n (4 * n) mem pos = Ok (map (fun i => i32_at mem (pos + 4 * i)) (zrange 0 n)).
Proof.
  intros n mem pos P N L. unfold unpack_i32s. rewrite slice_fits by lia. replace (pos + 4 * n - pos =? 4 * n) with true by lia. cbn [negb].
  apply mapM_total. intros x X. apply in_zrange in X. apply unpack_i32_total; lia.
Qed.

Section Tables.
Variables (file : list Z) (sz : Z).
Hypothesis S8 : 8 <= sz.
Hypothesis S4 : sz = 4 * (sz / 4).
Notation here := (fun s => 512 + (s + 1) * sz <= zlen file).

Lemma entries_total : forall s, 0 <= s -> here s -> unpack_i32s (sz / 4) sz file (512 + sz * s) = Ok (entries file sz s).
Proof.
  intros s P H. rewrite S4 at 2. rewrite unpack_i32s_total by (cbv beta in H; nia). unfold entries. replace (sz * s) with (s * sz) by lia. reflexivity.
Qed.

Lemma claim_one : forall seen s id, free seen s -> 1 <= id <= 255 -> exists seen', mark seen s id = Ok seen' /\ claimed seen [s] seen'.
Proof.
  intros seen s id F I. destruct (mark_ok seen s id F I) as (seen' & M). exists seen'. split; [exact M|].
  pose proof (znth_Some_range _ _ _ F). eapply mark_claimed; [| |exact M]; lia.
Qed.

Lemma claim_rest : forall seen l m seen', claimed seen l seen' -> NoDup (l ++ m) -> Forall (free seen) (l ++ m) -> NoDup m /\ Forall (free seen') m.
Proof.
  intros seen l m seen' (_ & _ & _ & C) ND F. apply Forall_app in F as [_ F]. rewrite Forall_forall in F. split.
  - clear - ND. induction l as [|a l IH]; [exact ND|]. inversion ND; auto.
  - apply Forall_forall. intros x X. apply C. split; [exact (F x X)|]. intros Y.
    clear - ND X Y. induction l as [|a l IH]; [destruct Y|]. inversion ND as [|? ? N1 N2]; subst. destruct Y as [->|Y]; [apply N1, in_or_app; right; exact X|exact (IH N2 Y)].
Qed.

Lemma msatx_complete : forall sid l, msatx file sz sid l -> forall fuel secs seen msat, (List.length l < fuel)%nat -> NoDup l -> Forall (free seen) l -> zlen seen = secs ->
  Forall here l ->
  exists seen', msatx_loop fuel file sz (sz / 4) secs seen msat sid = Ok (msat ++ flat_map (fun s => removelast (entries file sz s)) l, seen') /\ claimed seen l seen'.
Proof.
  induction 1 as [sid E|sid l P W IH]; intros fuel secs seen msat LF ND FR LS H; (destruct fuel as [|fuel]; [cbn in LF; lia|]); cbn [msatx_loop]; unfold EOCSID, FREESID, MSATSID.
  - replace ((sid =? -2) || (sid =? -1) || (sid =? -4)) with true by lia. exists seen. cbn [flat_map]. rewrite app_nil_r. split; [reflexivity|apply claimed_nil].
  - replace ((sid =? -2) || (sid =? -1) || (sid =? -4)) with false by lia. inversion FR as [|? ? FR1 FR2]; subst. inversion H as [|? ? H1 H2]; subst.
    pose proof (znth_Some_range _ _ _ FR1) as R. replace (sid >=? zlen seen) with false by lia. replace (sid <? 0) with false by lia.
    destruct (claim_one seen sid 1 FR1 ltac:(lia)) as (seen1 & M & C1). rewrite M, bind_Ok, entries_total, bind_Ok by assumption. cbv zeta.
    assert (entries file sz sid <> []) as NE.
    { intros X. pose proof (entries_len file sz sid ltac:(lia)) as L. rewrite X in L. change (zlen (@nil Z)) with 0 in L. lia. }
    rewrite last_index by (intros X; apply app_eq_nil in X; tauto). rewrite bind_Ok, last_app_ne, removelast_app_ne by exact NE.
    destruct (claim_rest seen [sid] l seen1 C1 ND FR) as [ND2 FR3].
    destruct (IH fuel (zlen seen) seen1 (msat ++ removelast (entries file sz sid)) ltac:(cbn [List.length] in LF; lia) ND2 FR3 (claimed_len _ _ _ C1) H2) as (seen' & E & C2).
    rewrite E. exists seen'. cbn [flat_map]. rewrite app_assoc. split; [reflexivity|]. change (sid :: l) with ([sid] ++ l). eapply claimed_app; eassumption.
Qed.

Lemma sat_complete : forall secs msat seen, Forall (fun m => -2 <= m) msat -> zlen seen = secs ->
  let l := filter (fun s => (0 <=? s) && (s <? secs)) msat in NoDup l -> Forall (free seen) l -> Forall here l ->
  exists seen', sat_loop file sz (sz / 4) secs seen msat = Ok (flat_map (entries file sz) l, seen') /\ claimed seen l seen'.
Proof.
  intros secs. cbv zeta. induction msat as [|m rest IH]; intros seen FM LS ND FR H; cbn [sat_loop filter] in *.
  { exists seen. split; [reflexivity|apply claimed_nil]. }
  inversion FM as [|? ? M1 M2]; subst. unfold EOCSID, FREESID. destruct ((0 <=? m) && (m <? zlen seen)) eqn:E.
  - replace ((m =? -1) || (m =? -2)) with false by lia. replace (m >=? zlen seen) with false by lia. replace (m <? -2) with false by lia.
    inversion FR as [|? ? FR1 FR2]; subst. inversion H as [|? ? H1 H2]; subst.
    destruct (claim_one seen m 2 FR1 ltac:(lia)) as (seen1 & M & C1). rewrite M, bind_Ok, entries_total, bind_Ok by first [lia|assumption].
    set (l := filter _ rest) in *. destruct (claim_rest seen [m] l seen1 C1 ND FR) as [ND2 FR3].
    destruct (IH seen1 M2 (claimed_len _ _ _ C1) ND2 FR3 H2) as (seen' & E2 & C2). rewrite E2. cbn [bind].
    exists seen'. split; [reflexivity|]. change (m :: l) with ([m] ++ l). eapply claimed_app; eassumption.
  - destruct ((m =? -1) || (m =? -2)) eqn:E1; [exact (IH seen M2 eq_refl ND FR H)|].
    replace (m >=? zlen seen) with true by lia. exact (IH seen M2 eq_refl ND FR H).
Qed.

Lemma ssat_complete : forall sat sid l, chain sat sid l -> forall seen, NoDup l -> Forall (free seen) l -> Forall here l ->
  exists seen', ssat_loop (List.length l) file sz (sz / 4) sat seen sid = Ok (flat_map (entries file sz) l, seen', -2, O) /\ claimed seen l seen'.
Proof.
  intros sat sid l W. unfold chain in W. remember (-2) as fin eqn:EF. induction W as [s Hs|s s' l fin Hs Hn W IH]; intros seen ND FR H; cbn [List.length ssat_loop].
  - replace (s <? 0) with true by lia. exists seen. split; [reflexivity|apply claimed_nil].
  - replace (s <? 0) with false by lia. inversion FR as [|? ? FR1 FR2]; subst. inversion H as [|? ? H1 H2]; subst.
    destruct (claim_one seen s 5 FR1 ltac:(lia)) as (seen1 & M & C1). rewrite M, bind_Ok. replace (s * sz) with (sz * s) by lia. rewrite entries_total, bind_Ok by assumption.
    rewrite (py_index_some _ _ _ Hn), bind_Ok. destruct (claim_rest seen [s] l seen1 C1 ND FR) as [ND2 FR3].
    destruct (IH eq_refl seen1 ND2 FR3 H2) as (seen' & E & C2). rewrite E. cbn [bind]. exists seen'. split; [reflexivity|].
    change (s :: l) with ([s] ++ l). eapply claimed_app; eassumption.
Qed.
End Tables.

Lemma stream_claimed : forall sat s l fuel mem base sz id seen todo, chain sat s l -> (List.length l < fuel)%nat -> 1 <= id <= 255 -> NoDup l -> Forall (free seen) l ->
  exists seen', get_stream fuel mem base sat sz (Some id) seen s todo = Ok (pieces mem base sz l todo, seen') /\ claimed seen l seen'.
Proof.
  intros sat s l fuel mem base sz id seen todo C LF I ND FR.
  destruct (get_stream_complete sat s l C fuel mem base sz (Some id) seen todo LF (conj I (conj ND FR))) as (seen' & G).
  exists seen'. split; [exact G|]. destruct (get_stream_sound _ _ _ _ _ _ _ _ _ _ _ G) as (l' & C' & _ & CL).
  destruct (walk_det _ _ _ _ C _ _ C') as [-> _]. apply CL. lia.
Qed.

(** *** Opening *)

Lemma compound_opens : forall file sat dl t lx ls ld lc lt fuel depth ignore, compound file sat dl t lx ls ld lc lt ->
  (List.length (lx ++ ld ++ lc) < fuel)%nat -> (height t < depth)%nat ->
  exists cd, open_compdoc fuel depth file ignore = Ok cd /\ cd_dirlist cd = dl /\ cd_sat cd = sat /\ znth (cd_children cd) 0 = Some (siblings t) /\
    (forall id s, occurs id s t -> znth (cd_children cd) id = Some (siblings s)) /\
    claimed (zrepeat 0 (sector_count file)) (lx ++ ls ++ ld ++ lc ++ lt) (cd_seen cd) /\ cd_ignore cd = ignore /\
    cd_mem cd = file /\ cd_data_len cd = zlen file - 512 /\ cd_min_std cd = i32_at file 56 /\ cd_short_sec_size cd = short_size file /\
    cd_ssat cd = flat_map (entries file (sector_size file)) lt /\ forall root, znth dl 0 = Some root -> cd_sscs cd = container file root lc.
Proof.
  intros file sat dl t lx ls ld lc lt fuel depth ignore CP LF HD.
  destruct CP as [B LONG SG BO S8 MX MA ELS ES CD (es & EB & FD) NUM (root & R0 & RE & RP & NT & RC & RT) AP IN TB].
  unfold open_compdoc. rewrite !py_slice_cut by lia. rewrite SG, BO.
  change (list_eqb SIGNATURE SIGNATURE) with true. change (list_eqb [254; 255] [254; 255]) with true. cbn [negb].
  rewrite !zlen_cut by lia. change (28 - 24 =? 4) with true. change (34 - 30 =? 4) with true. cbn [guard]. rewrite !bind_Ok.
  rewrite !unpack_w16_total by lia. rewrite !bind_Ok. cbv zeta.
  rewrite !unpack_i32_total by lia. change (76 - 44 =? 32) with true. cbn [guard]. rewrite !bind_Ok.
  assert (W1 : 0 <= w16_at file 30).
  { destruct (unpack_u16_range file 30 (w16_at file 30) B) as [X _]; [apply unpack_w16_total; lia|exact X]. }
  assert (SZ : Z.shiftl 1 (if w16_at file 30 >? 20 then 9 else w16_at file 30) = sector_size file) by (rewrite Z.shiftl_1_l; reflexivity).
  rewrite !SZ.
  set (sz := sector_size file) in *.
  assert (S4 : sz = 4 * (sz / 4)).
  { unfold sz, sector_size in *. set (z := if w16_at file 30 >? 20 then 9 else w16_at file 30) in *.
    assert (Z3 : 3 <= z).
    { destruct (Z_lt_le_dec z 3) as [X|X]; [|exact X]. exfalso. assert (0 <= z) by (unfold z; destruct (_ >? _); lia).
      assert (z = 0 \/ z = 1 \/ z = 2) as [-> | [-> | ->]] by lia; vm_compute in S8; apply S8; reflexivity. }
    replace z with (2 + (z - 2)) by lia. rewrite Z.pow_add_r by lia. change (2 ^ 2) with 4. rewrite Z.mul_comm, Z.div_mul by lia. lia. }
  assert (SC : (if negb ((zlen file - 512) mod sz =? 0) then (zlen file - 512) / sz + 1 else (zlen file - 512) / sz) = sector_count file).
  { unfold sector_count. fold sz. destruct ((zlen file - 512) mod sz =? 0) eqn:Q; cbn [negb].
    - apply Z.div_unique with (r := sz - 1); [lia|]. pose proof (Z.div_mod (zlen file - 512) sz). lia.
    - apply Z.div_unique with (r := (zlen file - 512) mod sz - 1);
        [pose proof (Z.mod_pos_bound (zlen file - 512) sz); lia|]. pose proof (Z.div_mod (zlen file - 512) sz). lia. }
  rewrite !SC. set (secs := sector_count file) in *.
  assert (SP : 0 <= secs) by (unfold secs, sector_count; fold sz; apply Z.div_pos; lia).
  change 436 with (4 * 109). rewrite unpack_i32s_total by lia. rewrite bind_Ok.
  replace (sz / 4 =? 0) with false by lia. replace (sz / 4 =? 1) with false by lia. cbn [negb guard]. rewrite !bind_Ok.
  assert (LZ : zlen (zrepeat 0 secs) = secs) by (apply zlen_zrepeat; exact SP).
  assert (FREE : Forall (free (zrepeat 0 secs)) (lx ++ ls ++ ld ++ lc ++ lt)).
  { eapply Forall_impl; [|exact IN]. intros s Hs. apply znth_zrepeat. exact Hs. }
  rewrite !app_length in LF. rewrite !Forall_app in TB. destruct TB as (TX & TS & TT).
  (* the master table *)
  assert (STEP1 : exists seen1, (if (i32_at file 72 =? 0) && ((i32_at file 68 =? EOCSID) || (i32_at file 68 =? FREESID) || (i32_at file 68 =? 0))
      then Ok (map (fun i => i32_at file (76 + 4 * i)) (zrange 0 109), zrepeat 0 secs)
      else msatx_loop fuel file sz (sz / 4) secs (zrepeat 0 secs) (map (fun i => i32_at file (76 + 4 * i)) (zrange 0 109)) (i32_at file 68))
      = Ok (master file sz lx, seen1) /\ claimed (zrepeat 0 secs) lx seen1).
  { unfold EOCSID, FREESID. destruct ((i32_at file 72 =? 0) && ((i32_at file 68 =? -2) || (i32_at file 68 =? -1) || (i32_at file 68 =? 0))).
    - subst lx. exists (zrepeat 0 secs). unfold master. cbn [flat_map]. rewrite app_nil_r. split; [reflexivity|apply claimed_nil].
    - apply Forall_app in FREE as [FREE _]. assert (NX : NoDup lx) by (clear - AP; induction lx as [|a l IH]; [constructor|]; inversion AP as [|? ? N1 N2]; subst; constructor; [intros X; apply N1, in_or_app; left; exact X|apply IH; exact N2]).
      apply (msatx_complete file sz S8 S4 _ _ MX); auto. lia. }
  destruct STEP1 as (seen1 & E1 & C1). rewrite E1. cbn [bind].
  destruct (claim_rest _ _ _ _ C1 AP FREE) as [AP2 FREE2].
  (* the allocation table *)
  assert (L1 : zlen seen1 = secs) by (rewrite (claimed_len _ _ _ C1); exact LZ).
  assert (NS : NoDup ls) by (clear - AP2; induction ls as [|a l IH]; [constructor|]; inversion AP2 as [|? ? N1 N2]; subst; constructor; [intros X; apply N1, in_or_app; left; exact X|apply IH; exact N2]).
  pose proof FREE2 as FREE2'. apply Forall_app in FREE2' as [FREEs _].
  destruct (sat_complete file sz S8 S4 secs (master file sz lx) seen1 MA L1) as (seen2 & E2 & C2); [rewrite <- ELS; assumption|rewrite <- ELS; assumption|rewrite <- ELS; assumption|].
  rewrite E2. cbn [bind]. rewrite <- ELS in C2 |- *. rewrite <- ES.
  destruct (claim_rest _ _ _ _ C2 AP2 FREE2) as [AP3 FREE3].
  (* the directory *)
  assert (ND : NoDup ld) by (clear - AP3; induction ld as [|a l IH]; [constructor|]; inversion AP3 as [|? ? N1 N2]; subst; constructor; [intros X; apply N1, in_or_app; left; exact X|apply IH; exact N2]).
  pose proof FREE3 as FREE3'. apply Forall_app in FREE3' as [FREEd _].
  destruct (stream_claimed sat _ ld fuel file 512 sz 3 seen2 None CD ltac:(lia) ltac:(lia) ND FREEd) as (seen3 & E3 & C3).
  rewrite E3. cbn [bind]. rewrite pieces_all by first [lia|exact (walk_nonneg _ _ _ _ CD)]. rewrite EB.
  assert (DN : dir_nodes 0 (List.concat es) (positions128 (zlen (List.concat es))) = Ok dl).
  { pose proof (dirents_read dl es FD 0 [] NUM eq_refl ltac:(lia)) as X. cbn [app] in X. rewrite Z.add_0_l in X.
    unfold positions128. rewrite (concat_len dl es FD). replace ((128 * zlen es + 127) / 128) with (zlen es) by (apply Z.div_unique with (r := 127); lia). exact X. }
  rewrite DN, bind_Ok. rewrite (py_index_some _ _ _ R0), bind_Ok.
  destruct (c41_tree dl root t depth R0 RP NT HD) as (fam & BF & K1 & K2 & _). unfold blank_family in BF. rewrite BF, bind_Ok.
  rewrite RE. cbn [guard Z.eqb Pos.eqb]. rewrite bind_Ok.
  destruct (claim_rest _ _ _ _ C3 AP3 FREE3) as [AP4 FREE4].
  (* the short stream container *)
  assert (STEP4 : exists seen4, (if (d_first root <? 0) || (d_size root =? 0) then Ok (None, seen3)
       else do (b, seen) <- get_stream fuel file 512 sat sz (Some 4) seen3 (d_first root) (Some (d_size root)); Ok (Some b, seen)) = Ok (container file root lc, seen4)
       /\ claimed seen3 lc seen4).
  { unfold container. fold sz. destruct ((d_first root <? 0) || (d_size root =? 0)).
    - subst lc. exists seen3. split; [reflexivity|apply claimed_nil].
    - assert (NC : NoDup lc) by (clear - AP4; induction lc as [|a l IH]; [constructor|]; inversion AP4 as [|? ? N1 N2]; subst; constructor; [intros X; apply N1, in_or_app; left; exact X|apply IH; exact N2]).
      apply Forall_app in FREE4 as [FREE4 _].
      destruct (stream_claimed sat _ lc fuel file 512 sz 4 seen3 (Some (d_size root)) RC ltac:(lia) ltac:(lia) NC FREE4) as (seen4 & E4 & C4).
      rewrite E4. cbn [bind]. eauto. }
  destruct STEP4 as (seen4 & E4 & C4). rewrite E4. cbn [bind].
  destruct (claim_rest _ _ _ _ C4 AP4 FREE4) as [AP5 FREE5].
  assert (STEP5 : exists seen5, (if d_size root >? 0 then
       do (ssat, seen, sid, n) <- ssat_loop (Z.to_nat (i32_at file 64)) file sz (sz / 4) sat seen4 (i32_at file 60);
       do _ <- guard ((Z.max 0 (i32_at file 64) =? i32_at file 64) && (match n with O => true | S _ => false end) && (sid =? EOCSID)) AssertionError;
       Ok (ssat, seen) else Ok ([], seen4)) = Ok (flat_map (entries file sz) lt, seen5) /\ claimed seen4 lt seen5).
  { destruct (d_size root >? 0).
    - destruct RT as [RT1 RT2]. destruct (ssat_complete file sz S8 S4 sat _ lt RT1 seen4 AP5 FREE5 TT) as (seen5 & E5 & C5).
      rewrite <- RT2. unfold zlen at 1. rewrite Nat2Z.id, E5. cbn [bind]. pose proof (zlen_nonneg lt).
      replace (Z.max 0 (zlen lt) =? zlen lt) with true by lia. cbn [andb EOCSID Z.eqb Pos.eqb guard bind]. eauto.
    - subst lt. exists seen4. split; [reflexivity|apply claimed_nil]. }
  destruct STEP5 as (seen5 & E5 & C5). rewrite E5. cbn [bind].
  eexists. split; [reflexivity|]. cbn [cd_dirlist cd_sat cd_children cd_seen cd_ignore cd_mem cd_data_len cd_min_std cd_short_sec_size cd_ssat cd_sscs].
  split; [reflexivity|]. split; [reflexivity|]. split; [exact K1|]. split; [exact K2|].
  split; [eauto 10 using claimed_app|]. do 4 (split; [reflexivity|]).
  split. { unfold short_size. cbv zeta. apply Z.shiftl_1_l. }
  split; [reflexivity|]. intros r Er. congruence.
Qed.

(** ** Finding a stream *)

(** The bytes [s] of the stream with the directory entry [d]: the sectors of its chain, which
    no other part of the file uses, or short sectors of the container. *)
Inductive stream_is (file sat : list Z) (dl : list dirnode) (used lc lt : list Z) (d : dirnode) (s : list Z) : Prop :=
| Standard : forall l, i32_at file 56 <= d_size d <= zlen file - 512 -> d_did d <= 249 ->
    chain sat (d_first d) l -> fills (sector_size file) (d_size d) l ->
    NoDup l -> Forall (fun x => 0 <= x < sector_count file /\ ~ In x used) l ->
    s = firstn (Z.to_nat (d_size d)) (sectors file 512 (sector_size file) l) -> stream_is file sat dl used lc lt d s
| Short : forall l root c, 0 <= d_size d < i32_at file 56 -> d_size d <= zlen file - 512 ->
    znth dl 0 = Some root -> 0 <= d_first root -> 0 < d_size root ->
    c = firstn (Z.to_nat (d_size root)) (sectors file 512 (sector_size file) lc) ->
    Forall (fun x => 512 + (x + 1) * sector_size file <= zlen file) lc ->
    chain (flat_map (entries file (sector_size file)) lt) (d_first d) l -> fills (short_size file) (d_size d) l ->
    Forall (fun x => (x + 1) * short_size file <= zlen c) l ->
    s = firstn (Z.to_nat (d_size d)) (sectors c 0 (short_size file) l) -> stream_is file sat dl used lc lt d s.

(** The first entry of a storage with this name, which is a stream; no entry with this name *)
Definition named (lower : list Z -> list Z) (dl : list dirnode) (kids name : list Z) (d : dirnode) : Prop :=
  exists c, first_match lower dl kids name c d /\ d_etype d = 2.
Definition absent (lower : list Z -> list Z) (dl : list dirnode) (kids name : list Z) : Prop :=
  forall b e, In b kids -> znth dl b = Some e -> lower (d_name e) <> lower name.

Lemma bytes_flat : forall {A} (f : A -> list Z) l, (forall x, In x l -> bytes (f x)) -> bytes (flat_map f l).
Proof.
  intros A f l. induction l as [|a l IH]; intros H; [constructor|]. cbn [flat_map]. apply Forall_app. split; [apply H; left; reflexivity|].
  apply IH. intros x X. apply H. right. exact X.
Qed.
Lemma bytes_pieces : forall mem base sz l todo, bytes mem -> bytes (pieces mem base sz l todo).
Proof.
  intros mem base sz l. induction l as [|s l IH]; intros todo B; [constructor|]. cbn [pieces]. apply Forall_app. split; [apply bytes_slice; exact B|apply IH; exact B].
Qed.

Lemma inside_len : forall (l : list Z) n, NoDup l -> Forall (fun s => 0 <= s < n) l -> zlen l <= Z.max 0 n.
Proof.
  intros l n ND F. assert (I : incl l (zrange 0 n)) by (intros x X; apply in_zrange; rewrite Forall_forall in F; exact (F x X)).
  pose proof (NoDup_incl_length ND I) as L. pose proof (zlen_zrange 0 n) as Z. unfold zlen in *. lia.
Qed.

Lemma count_bound : forall file, 8 <= sector_size file -> 512 <= zlen file -> 0 <= sector_count file <= zlen file - 512.
Proof.
  intros file S L. unfold sector_count. split; [apply Z.div_pos; lia|]. assert ((zlen file - 512 + sector_size file - 1) / sector_size file < zlen file - 512 + 1) by (apply Z.div_lt_upper_bound; nia). lia.
Qed.

Lemma bytes_located : forall lower fuel cd qname m off len cd', bytes (cd_mem cd) -> (forall c, cd_sscs cd = Some c -> bytes c) -> 0 < cd_sec_size cd ->
  locate_named_stream lower fuel cd qname = Ok (Some (m, off, len), cd') -> bytes m /\ 0 <= off.
Proof.
  intros lower fuel cd qname m off len cd' B BC S8 H. unfold locate_named_stream in H. apply bind_ok in H as (d & _ & H).
  destruct d as [d|]; [|discriminate]. destruct (d_size d >? cd_data_len cd); [discriminate|]. destruct (d_size d >=? cd_min_std cd).
  - apply bind_ok in H as ((((m' & off') & len') & seen) & LS & H). injection H as <- <- <- <-.
    assert (B0 : 0 <= 512) by lia. split; [|destruct (locate_stream_sound _ _ _ _ _ _ _ _ _ _ _ _ _ _ B0 S8 LS) as (l & _ & _ & _ & _ & O & _); exact O].
    unfold locate_stream in LS. destruct (d_first d <? 0); [discriminate|]. cbv zeta in LS.
    apply bind_ok in LS as (((((slices & last) & tot) & fin) & seen2) & _ & LS). apply bind_ok in LS as ([] & _ & LS). apply bind_ok in LS as ([] & _ & LS).
    destruct slices; injection LS as <- _ _ _; [exact B|]. change (bytes (flat_map (fun ab => py_slice (cd_mem cd) (fst ab) (snd ab)) ((p :: slices) ++ [last]))). apply bytes_flat. intros x _. apply bytes_slice. exact B.
  - apply bind_ok in H as (b & G & H). injection H as <- <- <- <-. split; [|lia]. unfold get_short in G. apply bind_ok in G as ((b' & se) & G & Q).
    apply get_stream_sound in G as (l & _ & -> & _). destruct (cd_sscs cd) as [c|] eqn:E.
    + injection Q as <-. apply bytes_pieces. auto.
    + destruct (_ <? 0); [|discriminate]. injection Q as <-. apply bytes_pieces. constructor.
Qed.

Lemma located : forall lower file sat dl t lx ls ld lc lt fuel depth ignore name d s, compound file sat dl t lx ls ld lc lt ->
  zlen file < Z.of_nat fuel -> (height t < depth)%nat -> split_slash name = [name] ->
  exists cd, open_compdoc fuel depth file ignore = Ok cd /\
  (absent lower dl (siblings t) name -> locate_named_stream lower fuel cd name = Ok (None, cd)) /\
  (named lower dl (siblings t) name d -> stream_is file sat dl (lx ++ ls ++ ld ++ lc ++ lt) lc lt d s -> s <> [] ->
   exists m off cd', locate_named_stream lower fuel cd name = Ok (Some (m, off, d_size d), cd') /\ bytes m /\ 0 <= off /\ exists post, At m off (s ++ post)).
Proof.
  intros lower file sat dl t lx ls ld lc lt fuel depth ignore name d s CP LF HD SP.
  pose proof (cp_bytes _ _ _ _ _ _ _ _ _ CP) as B. pose proof (cp_long _ _ _ _ _ _ _ _ _ CP) as LG. pose proof (cp_size _ _ _ _ _ _ _ _ _ CP) as S8.
  pose proof (count_bound file S8 LG) as CB.
  assert (LU : (List.length (lx ++ ld ++ lc) < fuel)%nat).
  { pose proof (inside_len _ _ (cp_apart _ _ _ _ _ _ _ _ _ CP) (cp_inside _ _ _ _ _ _ _ _ _ CP)) as L. unfold zlen in *. rewrite !app_length in *. lia. }
  destruct (compound_opens file sat dl t lx ls ld lc lt fuel depth ignore CP LU HD) as (cd & O & E1 & E2 & K1 & K2 & CL & E3 & E4 & E5 & E6 & E7 & E8 & E9).
  exists cd. split; [exact O|]. destruct (open_inside _ _ _ _ _ B O) as [IN _]. rewrite E1 in IN.
  split.
  - intros AB. unfold locate_named_stream. rewrite SP, E1. rewrite (lookup_ok lower dl (cd_children cd) IN [name] 0 Missing) by (econstructor; eassumption). reflexivity.
  - intros (c & FM & ET) ST NE.
    assert (DS : dir_search lower (cd_dirlist cd) (cd_children cd) (split_slash name) 0 = Ok (Some d)).
    { rewrite SP, E1. apply (lookup_ok lower dl (cd_children cd) IN [name] 0 (Found d)). eapply lk_stream; eassumption. }
    assert (X : exists m off cd', locate_named_stream lower fuel cd name = Ok (Some (m, off, d_size d), cd') /\ denotes m off (d_size d) = s).
    { destruct ST as [l SZ DI C FL ND FR ES|l root c0 SZ SZ2 R0 RF RS EC WH C FL IN0 ES].
      - subst s. eapply c35_found; try eassumption; [rewrite E2; exact C| |].
        + apply Forall_forall. intros x X. rewrite Forall_forall in FR. destruct (FR x X) as [X1 X2]. apply CL. split; [apply znth_zrepeat; exact X1|exact X2].
        + assert (Forall (fun s => 0 <= s < sector_count file) l) as FL2 by (eapply Forall_impl; [|exact FR]; cbv beta; tauto).
          pose proof (inside_len _ _ ND FL2) as L. unfold zlen in *. lia.
      - pose proof (walk_nonneg _ _ _ _ C) as N0.
        assert (SS : 0 < short_size file).
        { destruct (layout_of_open _ _ _ _ _ B O) as (? & ? & ? & ? & ? & LY). rewrite <- E7. exact (lay_short _ _ _ _ _ _ _ LY). }
        assert (LL : (List.length l < fuel)%nat) by (destruct FL as [FL _]; unfold zlen in *; nia).
        destruct (get_stream_complete _ _ _ C fuel c0 0 (short_size file) None [] (Some (d_size d)) LL I) as (se & G).
        assert (EK : cd_sscs cd = Some c0).
        { rewrite (E9 root R0). unfold container. replace ((d_first root <? 0) || (d_size root =? 0)) with false by lia. f_equal. subst c0.
          pose proof (cp_inside _ _ _ _ _ _ _ _ _ CP) as I0. rewrite !Forall_app in I0. destruct I0 as (_ & _ & _ & I0 & _).
          apply pieces_cut; try lia.
          - eapply Forall_impl; [|exact I0]. cbv beta. lia.
          - rewrite Forall_forall in *. intros x X. specialize (WH x X). specialize (I0 x X). cbv beta in *. unfold sector. rewrite zlen_cut; nia. }
        assert (GS : get_short fuel cd d = Ok s).
        { unfold get_short. rewrite EK, E8, E7, G. cbn [bind]. f_equal. subst s. apply pieces_cut; try lia; [exact N0|].
          rewrite Forall_forall in *. intros x X. specialize (IN0 x X). specialize (N0 x X). cbv beta in *. unfold sector. rewrite zlen_cut; nia. }
        exists s, 0, cd. split.
        + unfold locate_named_stream. rewrite DS. cbn [bind]. rewrite E5, E6. replace (d_size d >? zlen file - 512) with false by lia.
          replace (d_size d >=? i32_at file 56) with false by lia. rewrite GS. reflexivity.
        + unfold denotes, cut. cbn [Z.to_nat skipn]. apply firstn_all2. subst s. rewrite firstn_length. lia. }
    destruct X as (m & off & cd' & L & DE). exists m, off, cd'. split; [exact L|].
    assert (BC : forall c1, cd_sscs cd = Some c1 -> bytes c1).
    { intros c1 Q. destruct (cp_root _ _ _ _ _ _ _ _ _ CP) as (root & R0 & _). rewrite (E9 root R0) in Q. unfold container in Q.
      destruct (_ || _); [discriminate|]. injection Q as <-. apply bytes_pieces. exact B. }
    assert (SP0 : 0 < cd_sec_size cd).
    { destruct (layout_of_open _ _ _ _ _ B O) as (? & ? & ? & ? & ? & LY). rewrite (lay_size _ _ _ _ _ _ _ LY). lia. }
    rewrite <- E4 in B. destruct (bytes_located _ _ _ _ _ _ _ _ B BC SP0 L) as [BM OF]. split; [exact BM|]. split; [exact OF|].
    unfold denotes, cut in DE. replace (off + d_size d - off) with (d_size d) in DE by lia.
    exists (skipn (Z.to_nat (d_size d)) (skipn (Z.to_nat off) m)). exists (firstn (Z.to_nat off) m). split.
    + rewrite <- DE, !firstn_skipn. reflexivity.
    + rewrite zlen_firstn. assert (off < zlen m); [|lia].
      destruct (Z_lt_le_dec off (zlen m)) as [Y|Y]; [exact Y|]. exfalso. apply NE. rewrite <- DE, (skipn_all2 m) by (unfold zlen in Y; lia). apply firstn_nil.
Qed.
