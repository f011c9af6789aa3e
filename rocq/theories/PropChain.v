(** C35-C38: extracting streams from a compound file. *)
From Coq Require Import Relations.
From Verif Require Import Base BaseFacts GridModel GridFacts Text CompDoc CompDocFacts CompDocOpen.

(** The bytes a triple (text, offset, length) stands for. *)
Definition denotes (m : list Z) (off len : Z) : list Z := cut m off (off + len).

(** A stream of [size] bytes fills the sectors [l]: the last one is needed. *)
Definition fills (sz size : Z) (l : list Z) : Prop := (zlen l - 1) * sz < size <= zlen l * sz /\ l <> [].

(** ** C35 *)

(** Every stream that is found: its bytes are those of the chain's sectors, cut
    to the size in the directory. *)
Theorem c35_located : forall lower fuel fuel' depth mem ignore cd qname m off len cd',
  bytes mem -> open_compdoc fuel depth mem ignore = Ok cd ->
  locate_named_stream lower fuel' cd qname = Ok (Some (m, off, len), cd') ->
  exists d, dir_search lower (cd_dirlist cd) (cd_children cd) (split_slash qname) 0 = Ok (Some d) /\ len = d_size d
    /\ (i32_at mem 56 <= d_size d ->
        exists l, chain (cd_sat cd) (d_first d) l /\ fills (sector_size mem) (d_size d) l
          /\ denotes m off len = firstn (Z.to_nat (d_size d)) (sectors mem 512 (sector_size mem) l))
    /\ (0 <= d_size d < i32_at mem 56 ->
        exists l, chain (cd_ssat cd) (d_first d) l
          /\ forall c, cd_sscs cd = Some c ->
             Forall (fun s => (s + 1) * cd_short_sec_size cd <= zlen c) l ->
             denotes m off len = firstn (Z.to_nat (d_size d)) (sectors c 0 (cd_short_sec_size cd) l)).
Proof.
  intros lower fuel fuel' depth mem ignore cd qname m off len cd' B O H.
  apply layout_of_open in O as (lx & ls & ld & lc & lt & L); [|exact B].
  unfold locate_named_stream in H. apply bind_ok in H as (d & D & H). destruct d as [d|]; [|discriminate].
  destruct (d_size d >? cd_data_len cd); [discriminate|]. exists d. split; [exact D|].
  pose proof (lay_size8 _ _ _ _ _ _ _ L) as S8.
  rewrite (lay_min _ _ _ _ _ _ _ L), (lay_size _ _ _ _ _ _ _ L), (lay_mem _ _ _ _ _ _ _ L) in H.
  destruct (d_size d >=? i32_at mem 56) eqn:E.
  - apply bind_ok in H as ((((m' & off') & len') & seen) & LS & H). injection H as <- <- <- <-.
    apply locate_stream_sound in LS as (l & C & F & NE & -> & HO & DE & _ & _); [|lia|lia].
    split; [reflexivity|]. split; [|intros; lia]. intros _. exists l. split; [exact C|]. split; [split; [exact F|exact NE]|exact DE].
  - apply bind_ok in H as (b & G & H). injection H as <- <- <- <-. split; [reflexivity|]. split; [intros; lia|]. intros SZ.
    unfold get_short in G. apply bind_ok in G as ((b' & se) & G & Q).
    apply get_stream_sound in G as (l & C & -> & _). exists l. split; [exact C|]. intros c EC W. rewrite EC in Q. injection Q as <-.
    pose proof (lay_short _ _ _ _ _ _ _ L) as SS. pose proof (walk_nonneg _ _ _ _ C) as N.
    unfold denotes, cut. cbn [Z.to_nat skipn]. rewrite firstn_all2.
    + apply pieces_cut; try lia; [exact N|].
      rewrite Forall_forall in *. intros s Hs. specialize (W s Hs). specialize (N s Hs). unfold sector. rewrite zlen_cut; nia.
    + pose proof (pieces_len c 0 (cd_short_sec_size cd) l (d_size d) ltac:(lia) SS N ltac:(lia)) as PL.
      unfold zlen in PL. lia.
Qed.
Print Assumptions c35_located.

(** Every stream laid out properly is found: the sectors may be anywhere and in
    any order, but must not be used for anything else. *)
Theorem c35_found : forall lower fuel fuel' depth mem ignore cd qname d l,
  bytes mem -> open_compdoc fuel depth mem ignore = Ok cd ->
  dir_search lower (cd_dirlist cd) (cd_children cd) (split_slash qname) 0 = Ok (Some d) ->
  i32_at mem 56 <= d_size d <= zlen mem - 512 -> d_did d <= 249 ->
  chain (cd_sat cd) (d_first d) l -> fills (sector_size mem) (d_size d) l ->
  NoDup l -> Forall (free (cd_seen cd)) l -> (List.length l < fuel')%nat ->
  exists m off cd', locate_named_stream lower fuel' cd qname = Ok (Some (m, off, d_size d), cd')
    /\ denotes m off (d_size d) = firstn (Z.to_nat (d_size d)) (sectors mem 512 (sector_size mem) l).
Proof.
  intros lower fuel fuel' depth mem ignore cd qname d l B O D SZ DID C [F NE] ND FR HF.
  pose proof O as O'. apply layout_of_open in O as (lx & ls & ld & lc & lt & L); [|exact B].
  pose proof (open_did _ _ _ _ _ _ _ d L (dir_search_in _ _ _ _ _ _ D)) as DP.
  pose proof (lay_size8 _ _ _ _ _ _ _ L) as S8.
  destruct (locate_stream_complete _ _ _ C NE fuel' (cd_ignore cd) (cd_mem cd) 512 (sector_size mem) (d_size d) (d_did d + 6)
              (cd_seen cd)) as ([[[m off] len] seen] & E); auto; [lia|lia|].
  assert (locate_named_stream lower fuel' cd qname = Ok (Some (m, off, len), with_seen cd seen)) as R.
  { unfold locate_named_stream. rewrite D. cbn [bind].
    rewrite (lay_len _ _ _ _ _ _ _ L), (lay_min _ _ _ _ _ _ _ L), (lay_size _ _ _ _ _ _ _ L).
    replace (d_size d >? zlen mem - 512) with false by lia. replace (d_size d >=? i32_at mem 56) with true by lia.
    rewrite E. reflexivity. }
  pose proof (c35_located _ _ _ _ _ _ _ _ _ _ _ _ B O' R) as (d' & D' & EL & ST & _).
  rewrite D in D'. injection D' as <-. subst len. exists m, off, (with_seen cd seen). split; [exact R|].
  destruct ST as (l' & C' & _ & DE); [lia|]. destruct (walk_det _ _ _ _ C _ _ C') as [-> _]. exact DE.
Qed.
Print Assumptions c35_found.

(** A stream of standard size whose directory entry has a number above 249
    cannot be located: its mark does not fit into a byte. *)
Theorem c35_entry_limit : forall lower fuel cd qname d,
  dir_search lower (cd_dirlist cd) (cd_children cd) (split_slash qname) 0 = Ok (Some d) ->
  249 < d_did d -> cd_min_std cd <= d_size d ->
  forall r, locate_named_stream lower fuel cd qname <> Ok r.
Proof.
  intros lower fuel cd qname d D DID SZ r H. unfold locate_named_stream in H. rewrite D in H. cbn [bind] in H.
  destruct (d_size d >? cd_data_len cd); [discriminate|]. replace (d_size d >=? cd_min_std cd) with true in H by lia.
  apply bind_ok in H as (x & H & _). unfold locate_stream in H. destruct (d_first d <? 0) eqn:E; [discriminate|].
  cbv zeta in H. apply bind_ok in H as (y & H & _). destruct fuel as [|fuel]; [discriminate|].
  cbn [locate_loop] in H. rewrite E in H. apply bind_ok in H as (v & _ & H). apply bind_ok in H as ([] & _ & H).
  apply bind_ok in H as (s & S & _). unfold seen_set in S. apply bind_ok in S as (? & _ & S).
  replace ((0 <=? d_did d + 6) && (d_did d + 6 <=? 255)) with false in S by lia. discriminate.
Qed.
Print Assumptions c35_entry_limit.

(** ** C36 *)

(** On a file of whole sectors both methods give the same bytes. *)
Theorem c36_agree : forall lower f1 f2 f3 depth mem ignore cd qname b cd1 m off len cd2,
  bytes mem -> open_compdoc f1 depth mem ignore = Ok cd ->
  (zlen mem - 512) mod sector_size mem = 0 -> Forall (fun d => 0 <= d_size d) (cd_dirlist cd) ->
  get_named_stream lower f2 cd qname = Ok (Some b, cd1) ->
  locate_named_stream lower f3 cd qname = Ok (Some (m, off, len), cd2) ->
  b = denotes m off len.
Proof.
  intros lower f1 f2 f3 depth mem ignore cd qname b cd1 m off len cd2 B O WH POS G H.
  apply layout_of_open in O as (lx & ls & ld & lc & lt & L); [|exact B].
  unfold get_named_stream in G. unfold locate_named_stream in H.
  apply bind_ok in G as (d & D & G). rewrite D in H. cbn [bind] in H. destruct d as [d|]; [|discriminate].
  destruct (d_size d >? cd_data_len cd); [discriminate|].
  pose proof (lay_size8 _ _ _ _ _ _ _ L) as S8. pose proof (lay_short _ _ _ _ _ _ _ L) as SS.
  rewrite Forall_forall in POS. pose proof (POS d (dir_search_in _ _ _ _ _ _ D)) as PD.
  rewrite (lay_min _ _ _ _ _ _ _ L), (lay_size _ _ _ _ _ _ _ L), (lay_mem _ _ _ _ _ _ _ L) in G, H.
  destruct (d_size d >=? i32_at mem 56) eqn:E.
  - apply bind_ok in G as ((b' & se) & G & Q). injection Q as <- <-.
    apply bind_ok in H as ((((m' & off') & len') & seen) & LS & H). injection H as <- <- <- <-.
    apply get_stream_sound in G as (l & C & -> & _).
    apply locate_stream_sound in LS as (l' & C' & F & NE & -> & HO & DE & R & _); [|lia|lia].
    destruct (walk_det _ _ _ _ C _ _ C') as [-> _]. unfold denotes. rewrite DE.
    pose proof (walk_nonneg _ _ _ _ C) as N. apply pieces_cut; try lia; [exact N|].
    rewrite (lay_count _ _ _ _ _ _ _ L) in R. rewrite Forall_forall in *. intros s Hs. specialize (R s Hs). specialize (N s Hs).
    cbv beta in R, N. unfold sector_count in R. unfold sector.
    assert (sector_size mem * ((zlen mem - 512) / sector_size mem) = zlen mem - 512) as WD.
    { pose proof (Z.div_mod (zlen mem - 512) (sector_size mem) ltac:(lia)). lia. }
    assert ((zlen mem - 512 + sector_size mem - 1) / sector_size mem = (zlen mem - 512) / sector_size mem) as SD.
    { symmetry. apply Z.div_unique with (r := sector_size mem - 1); [lia|]. nia. }
    rewrite SD in R. rewrite zlen_cut; nia.
  - apply bind_ok in G as (b' & G & Q). injection Q as <- <-. apply bind_ok in H as (b2 & H & Q). injection Q as <- <- <- <-.
    set (c := match cd_sscs cd with Some b => b | None => [] end).
    assert (forall f b, get_short f cd d = Ok b ->
              exists l, chain (cd_ssat cd) (d_first d) l /\ b = pieces c 0 (cd_short_sec_size cd) l (Some (d_size d))) as K.
    { intros f x X. unfold get_short in X. apply bind_ok in X as ((y & se) & X & Q).
      apply get_stream_sound in X as (l & C & -> & _). exists l. split; [exact C|]. subst c.
      destruct (cd_sscs cd); [injection Q; auto|]. destruct (d_first d <? 0); [injection Q; auto|discriminate]. }
    apply K in G as (l & C & ->). apply K in H as (l2 & C2 & ->). destruct (walk_det _ _ _ _ C _ _ C2) as [-> _].
    pose proof (walk_nonneg _ _ _ _ C) as N. unfold denotes, cut. cbn [Z.to_nat skipn]. symmetry. apply firstn_all2.
    pose proof (pieces_len c 0 (cd_short_sec_size cd) l (d_size d) ltac:(lia) SS N ltac:(lia)) as PL. unfold zlen in PL. lia.
Qed.
Print Assumptions c36_agree.

(** ** C37 *)

Lemma msatx_ends : forall fuel mem sz nent secs seen msat sid, (zeros seen < fuel)%nat ->
  nofuel (msatx_loop fuel mem sz nent secs seen msat sid).
Proof.
  induction fuel as [|fuel IH]; intros mem sz nent secs seen msat sid H; [lia|]. cbn [msatx_loop].
  destruct (_ || _ || _); [discriminate|]. destruct (sid >=? secs); [discriminate|]. destruct (sid <? 0) eqn:E; [discriminate|].
  apply nofuel_bind; [apply nofuel_mark|]. intros seen1 M. apply mark_zeros in M; [|lia|lia].
  apply nofuel_bind.
  { unfold unpack_i32s. destruct (negb _); [discriminate|]. induction (zrange 0 nent) as [|a l IHl]; cbn [mapM]; [discriminate|].
    apply nofuel_bind; [apply nofuel_i32|]. intros. apply nofuel_bind; [exact IHl|]. intros. discriminate. }
  intros news _. cbv zeta. apply nofuel_bind; [apply nofuel_index|]. intros s' _. apply IH. lia.
Qed.

Lemma nofuel_i32s : forall n size mem pos, nofuel (unpack_i32s n size mem pos).
Proof.
  intros. unfold unpack_i32s. destruct (negb _); [discriminate|]. induction (zrange 0 n) as [|a l IHl]; cbn [mapM]; [discriminate|].
  apply nofuel_bind; [apply nofuel_i32|]. intros. apply nofuel_bind; [exact IHl|]. intros. discriminate.
Qed.

Lemma nofuel_sat : forall mem sz nent secs msat seen, nofuel (sat_loop mem sz nent secs seen msat).
Proof.
  intros mem sz nent secs msat. induction msat as [|m r IH]; intros seen; cbn [sat_loop]; [discriminate|].
  destruct (_ || _); [apply IH|]. destruct (_ >=? _); [apply IH|]. destruct (_ <? _); [discriminate|].
  apply nofuel_bind; [apply nofuel_mark|]. intros. apply nofuel_bind; [apply nofuel_i32s|]. intros.
  apply nofuel_bind; [apply IH|]. intros [? ?] _. discriminate.
Qed.

Lemma nofuel_ssat : forall n mem sz nent sat seen sid, nofuel (ssat_loop n mem sz nent sat seen sid).
Proof.
  induction n as [|n IH]; intros mem sz nent sat seen sid; cbn [ssat_loop]; (destruct (sid <? 0); [discriminate|]); [discriminate|].
  apply nofuel_bind; [apply nofuel_mark|]. intros. apply nofuel_bind; [apply nofuel_i32s|]. intros.
  apply nofuel_bind; [apply nofuel_index|]. intros. apply nofuel_bind; [apply IH|]. intros (((? & ?) & ?) & ?) _. discriminate.
Qed.

Lemma nofuel_utf16_dec : forall n b, (List.length b < n)%nat -> nofuel (Utf16.utf16_dec b).
Proof.
  induction n as [|n IH]; intros b H; [lia|]. destruct b as [|b0 [|b1 r]]; cbn [Utf16.utf16_dec]; try discriminate.
  cbn [List.length] in H. cbv zeta. destruct (_ || _); [apply nofuel_bind; [apply IH; lia|]; intros; discriminate|].
  destruct (56320 <=? _); [discriminate|]. destruct r as [|b2 [|b3 r]]; try discriminate. cbn [List.length] in H.
  destruct (_ && _); [|discriminate]. apply nofuel_bind; [apply IH; lia|]. intros. discriminate.
Qed.

Lemma nofuel_dir_nodes : forall ps did b, nofuel (dir_nodes did b ps).
Proof.
  induction ps as [|p ps IH]; intros did b; cbn [dir_nodes]; [discriminate|]. apply nofuel_bind.
  - unfold dir_node.
    repeat (apply nofuel_bind; [solve [apply nofuel_guard; discriminate | auto with nofuel
      | destruct (_ =? 0); [discriminate|eapply nofuel_utf16_dec; eauto]]|intros ? _]). apply nofuel_ok.
  - intros. apply nofuel_bind; [apply IH|]. intros. discriminate.
Qed.

Lemma nofuel_family : forall depth dl fam p c, nofuel (build_family_tree depth dl fam p c).
Proof.
  induction depth as [|n IH]; intros dl fam p c; cbn [build_family_tree]; [discriminate|]. destruct (c <? 0); [discriminate|].
  apply nofuel_bind; [apply nofuel_index|]. intros. apply nofuel_bind; [apply IH|]. intros.
  apply nofuel_bind.
  { unfold adopt. apply nofuel_bind; [apply nofuel_index|]. intros. apply nofuel_bind; [apply nofuel_list_set|]. intros.
    apply nofuel_bind; [apply nofuel_list_set|]. intros. discriminate. }
  intros. apply nofuel_bind; [apply IH|]. intros. destruct (_ =? _); [apply IH|discriminate].
Qed.

(** Following one chain, with marks, takes at most one turn per sector and one more. *)
Theorem c37_chain : forall fuel mem base sat sz id seen s todo, id <> 0 -> zlen seen < Z.of_nat fuel ->
  get_stream fuel mem base sat sz (Some id) seen s todo <> Err OutOfFuel.
Proof.
  intros. apply get_stream_ends; [assumption|]. pose proof (zeros_le seen). unfold zlen in *. lia.
Qed.
Print Assumptions c37_chain.

(** Opening any file ends. *)
Theorem c37_open : forall fuel depth mem ignore, zlen mem < Z.of_nat fuel ->
  open_compdoc fuel depth mem ignore <> Err OutOfFuel.
Proof.
  intros fuel depth mem ignore HF. change (nofuel (open_compdoc fuel depth mem ignore)). unfold open_compdoc.
  destruct (list_eqb (py_slice mem 0 8) SIGNATURE); cbn [negb]; [|discriminate].
  destruct (list_eqb _ _); cbn [negb]; [|discriminate].
  do 2 (apply nofuel_bind; [apply nofuel_guard; discriminate|]; intros [] _).
  apply nofuel_bind; [auto with nofuel|]; intros ssz E1. apply nofuel_bind; [auto with nofuel|]; intros sssz E2.
  cbv zeta. apply nofuel_bind; [apply nofuel_guard; discriminate|]; intros [] _.
  do 6 (apply nofuel_bind; [auto with nofuel|]; intros ? _).
  set (sz := Z.shiftl 1 (if ssz >? 20 then 9 else ssz)). set (data := zlen mem - 512).
  apply nofuel_bind; [apply nofuel_i32s|]; intros msat E3.
  apply nofuel_bind; [apply nofuel_guard; discriminate|]; intros [] G1.
  apply nofuel_bind; [apply nofuel_guard; discriminate|]; intros [] G2.
  set (secs := if negb (data mod sz =? 0) then data / sz + 1 else data / sz).
  assert (0 <= sz) as SZ by (unfold sz; apply Z.shiftl_nonneg; lia).
  assert (sz <> 0) as SZ0.
  { intros X. unfold guard in G1. rewrite X in G1. cbn in G1. discriminate. }
  assert (secs <= zlen mem) as SC.
  { unfold secs, data. pose proof (zlen_nonneg mem).
    assert ((zlen mem - 512) / sz <= Z.max 0 (zlen mem - 512)) as Q.
    { destruct (Z_le_gt_dec 0 (zlen mem - 512)).
      - rewrite Z.max_r by lia. apply Z.div_le_upper_bound; nia.
      - rewrite Z.max_l by lia. apply Z.div_le_upper_bound; nia. }
    unfold unpack_i32s in E3. destruct (zlen (py_slice mem 76 (76 + 436)) =? 4 * 109) eqn:L; cbn [negb] in E3; [|discriminate].
    rewrite py_slice_len in L. unfold py_bound in L. replace (76 <? 0) with false in L by reflexivity.
    replace (76 + 436 <? 0) with false in L by reflexivity.
    assert (512 <= zlen mem) as L5 by (clear - L; lia).
    generalize dependent ((zlen mem - 512) / sz). intros q Q. rewrite Z.max_r in Q by lia. destruct (negb ((zlen mem - 512) mod sz =? 0)); lia. }
  assert (forall seen, zlen seen <= Z.max 0 secs -> (zeros seen < fuel)%nat) as ZF.
  { intros seen HS. pose proof (zeros_le seen). pose proof (zlen_nonneg mem). unfold zlen in *. lia. }
  assert (zlen (zrepeat 0 secs) <= Z.max 0 secs) as Z0 by (unfold zlen, zrepeat; rewrite repeat_length; lia).
  assert (0 < sz / 4) as S4.
  { unfold guard in G1. destruct (negb (sz / 4 =? 0)) eqn:Q; [|discriminate]. pose proof (Z.div_pos sz 4). lia. }
  assert (8 <= sz) as S8.
  { unfold guard in G1, G2. destruct (negb (sz / 4 =? 0)) eqn:Q; [|discriminate].
    destruct (negb (sz / 4 =? 1)) eqn:Q2; [|discriminate]. lia. }
  clearbody secs. generalize dependent (zrepeat 0 secs). intros seen0 Z0.
  apply nofuel_bind.
  { destruct (_ && _); [discriminate|]. apply msatx_ends, ZF, Z0. }
  intros (msat' & seen1) X1.
  assert (zlen seen1 <= Z.max 0 secs) as Z1.
  { destruct (_ && _) in X1; [injection X1 as <- <-; exact Z0|].
    apply msatx_sound in X1 as (? & _ & C & _); [|exact S8]. rewrite (claimed_len _ _ _ C). exact Z0. }
  apply nofuel_bind; [apply nofuel_sat|]. intros (sat & seen2) X2.
  apply sat_sound in X2 as [C2 _]; [|exact S8]. assert (zlen seen2 <= Z.max 0 secs) as Z2 by (rewrite (claimed_len _ _ _ C2); exact Z1).
  apply nofuel_bind; [apply get_stream_ends; [lia|apply ZF, Z2]|]. intros (dbytes & seen3) X3.
  apply get_stream_sound in X3 as (? & _ & _ & C3). specialize (C3 ltac:(lia)).
  assert (zlen seen3 <= Z.max 0 secs) as Z3 by (rewrite (claimed_len _ _ _ C3); exact Z2).
  apply nofuel_bind; [apply nofuel_dir_nodes|]. intros dirlist _.
  apply nofuel_bind; [apply nofuel_index|]. intros root _. apply nofuel_bind; [apply nofuel_family|]. intros fam _.
  apply nofuel_bind; [apply nofuel_guard; discriminate|]. intros [] _.
  apply nofuel_bind.
  { destruct ((d_first root <? 0) || (d_size root =? 0)); [discriminate|]. apply nofuel_bind; [apply get_stream_ends; [lia|apply ZF, Z3]|]. intros [? ?] _. discriminate. }
  intros (sscs & seen4) _. apply nofuel_bind.
  { destruct (d_size root >? 0); [|discriminate]. apply nofuel_bind; [apply nofuel_ssat|]. intros (((? & ?) & ?) & ?) _.
    apply nofuel_bind; [apply nofuel_guard; discriminate|]. intros. discriminate. }
  intros [? ?] _. discriminate.
Qed.
Print Assumptions c37_open.

Lemma nofuel_search : forall lower dl children path st, nofuel (dir_search lower dl children path st).
Proof.
  intros lower dl children path. induction path as [|h t IH]; intros st; cbn [dir_search]; [discriminate|].
  apply nofuel_bind; [apply nofuel_index|]. intros kids _. induction kids as [|c kids IHk]; cbn [search_children]; [discriminate|].
  apply nofuel_bind; [apply nofuel_index|]. intros d _. destruct (list_eqb _ _); [|exact IHk].
  destruct (_ =? 2); [discriminate|]. destruct (_ =? 1); [|discriminate]. destruct t; [discriminate|apply IH].
Qed.

(** Locating a stream of standard size ends after at most one turn per sector
    and one more, whatever the allocation table says, and also with
    ignore_workbook_corruption. *)
Theorem c37_locate : forall lower fuel fuel' depth mem ignore cd qname d,
  bytes mem -> open_compdoc fuel depth mem ignore = Ok cd ->
  dir_search lower (cd_dirlist cd) (cd_children cd) (split_slash qname) 0 = Ok (Some d) -> i32_at mem 56 <= d_size d ->
  sector_count mem + 1 < Z.of_nat fuel' ->
  locate_named_stream lower fuel' cd qname <> Err OutOfFuel.
Proof.
  intros lower fuel fuel' depth mem ignore cd qname d B O D SZ HF.
  apply layout_of_open in O as (lx & ls & ld & lc & lt & L); [|exact B].
  pose proof (lay_size8 _ _ _ _ _ _ _ L) as S8. pose proof (lay_long _ _ _ _ _ _ _ L) as LONG.
  change (nofuel (locate_named_stream lower fuel' cd qname)). unfold locate_named_stream. rewrite D. cbn [bind].
  rewrite (lay_len _ _ _ _ _ _ _ L), (lay_min _ _ _ _ _ _ _ L), (lay_size _ _ _ _ _ _ _ L).
  destruct (d_size d >? zlen mem - 512) eqn:E; [discriminate|]. replace (d_size d >=? i32_at mem 56) with true by lia.
  apply nofuel_bind; [|intros [? ?] _; discriminate]. apply locate_stream_ends. right.
  assert ((d_size d + sector_size mem - 1) / sector_size mem <= sector_count mem) as Q.
  { unfold sector_count. apply Z.div_le_mono; lia. }
  assert (0 <= sector_count mem) by (unfold sector_count; apply Z.div_pos; lia). lia.
Qed.
Print Assumptions c37_locate.

(** The amount of fuel does not matter once it is enough. *)
Theorem c37_fuel : forall fuel fuel' mem base sat sz id seen s todo,
  get_stream fuel mem base sat sz id seen s todo <> Err OutOfFuel -> (fuel <= fuel')%nat ->
  get_stream fuel' mem base sat sz id seen s todo = get_stream fuel mem base sat sz id seen s todo.
Proof. intros. apply get_stream_fuel; assumption. Qed.
Print Assumptions c37_fuel.

(** ** C38 *)

(** The table leads from sector [a] to [b] in one step. *)
Definition leads (sat : list Z) (a b : Z) : Prop := 0 <= a /\ znth sat a = Some b.

(** From [s] a cycle is reached. *)
Definition cyclic (sat : list Z) (s : Z) : Prop :=
  exists t, clos_refl_trans_1n Z (leads sat) s t /\ clos_trans_1n Z (leads sat) t t.

Lemma cyclic_step : forall sat s, cyclic sat s -> exists s', leads sat s s' /\ cyclic sat s'.
Proof.
  intros sat s (t & R & T). inversion R as [|s' ? H1 H2]; subst.
  - inversion T as [? H|u ? H1 H2]; subst; [exists t; split; [exact H|exists t; split; [constructor|exact T]]|].
    exists u. split; [exact H1|]. exists t. split; [|exact T]. clear - H2. induction H2; econstructor; eauto. constructor.
  - exists s'. split; [exact H1|]. exists t. auto.
Qed.

Lemma cyclic_never : forall fuel mem base sat sz seen s todo, cyclic sat s ->
  get_stream fuel mem base sat sz None seen s todo = Err OutOfFuel.
Proof.
  induction fuel as [|fuel IH]; intros mem base sat sz seen s todo C; [reflexivity|]. cbn [get_stream].
  apply cyclic_step in C as (s' & (H1 & H2) & C). replace (s <? 0) with false by lia. cbn [bind]. cbv zeta.
  rewrite (py_index_some _ _ _ H2). cbn [bind]. rewrite IH by exact C. reflexivity.
Qed.

(** With a cyclic chain of short sectors no number of steps is enough. *)
Theorem c38_cyclic_never_ends : forall lower fuel cd qname d,
  dir_search lower (cd_dirlist cd) (cd_children cd) (split_slash qname) 0 = Ok (Some d) ->
  d_size d <= cd_data_len cd -> d_size d < cd_min_std cd -> cyclic (cd_ssat cd) (d_first d) ->
  locate_named_stream lower fuel cd qname = Err OutOfFuel.
Proof.
  intros lower fuel cd qname d D S1 S2 C. unfold locate_named_stream. rewrite D. cbn [bind].
  replace (d_size d >? cd_data_len cd) with false by lia. replace (d_size d >=? cd_min_std cd) with false by lia.
  unfold get_short. rewrite cyclic_never by exact C. reflexivity.
Qed.
Print Assumptions c38_cyclic_never_ends.

(** A path of [n] steps inside the table. *)
Inductive path (sat : list Z) : Z -> list Z -> Z -> Prop :=
| path_nil : forall s, path sat s [] s
| path_cons : forall s s' l t, leads sat s s' -> path sat s' l t -> path sat s (s :: l) t.

Lemma path_of_fuel : forall fuel mem base sat sz seen s todo,
  get_stream fuel mem base sat sz None seen s todo = Err OutOfFuel ->
  exists l t, path sat s l t /\ List.length l = fuel.
Proof.
  induction fuel as [|fuel IH]; intros mem base sat sz seen s todo H; [exists [], s; split; [constructor|reflexivity]|].
  cbn [get_stream] in H. destruct (s <? 0) eqn:E.
  { unfold guard in H. destruct (s =? EOCSID); discriminate. }
  cbn [bind] in H. cbv zeta in H. destruct (py_index sat s) as [s'|] eqn:P; cbn [bind] in H; [|discriminate].
  destruct (get_stream fuel mem base sat sz None seen s' _) as [[r se]|e] eqn:G; cbn [bind] in H; [discriminate|].
  injection H as ->. apply IH in G as (l & t & W & L). apply py_index_znth in P; [|lia].
  exists (s :: l), t. split; [econstructor; [split; [lia|exact P]|exact W]|cbn; lia].
Qed.

Lemma path_reach : forall sat s l t, path sat s l t -> clos_refl_trans_1n Z (leads sat) s t.
Proof. induction 1; econstructor; eauto. Qed.

Lemma path_mid : forall sat s l t, path sat s l t -> forall a x b, l = a ++ x :: b -> path sat s a x /\ path sat x (x :: b) t.
Proof.
  induction 1 as [s|s s' l t H P IH]; intros a x b E; [destruct a; discriminate|].
  destruct a as [|y a]; cbn in E; injection E as <- ->.
  - split; [constructor|]. econstructor; eauto.
  - destruct (IH a x b eq_refl) as [P1 P2]. split; [econstructor; eauto|exact P2].
Qed.

Lemma path_range : forall sat s l t, path sat s l t -> Forall (fun x => 0 <= x < zlen sat) l.
Proof.
  induction 1 as [|s s' l t [H1 H2] P IH]; constructor; [|exact IH]. apply znth_Some_range in H2. exact H2.
Qed.

(** Reading a short stream ends exactly when its chain does not run into a cycle. *)
Theorem c38_ends_iff : forall mem base sat sz seen s todo,
  (exists fuel, get_stream fuel mem base sat sz None seen s todo <> Err OutOfFuel) <-> ~ cyclic sat s.
Proof.
  intros mem base sat sz seen s todo. split.
  - intros (fuel & H) C. apply H, cyclic_never, C.
  - intros NC. exists (S (List.length sat)). intros H. apply path_of_fuel in H as (l & t & P & L). apply NC. clear NC.
    assert (~ NoDup l) as ND.
    { intros N. pose proof (path_range _ _ _ _ P) as R.
      assert (incl l (zrange 0 (zlen sat))) as I by (intros x Hx; apply in_zrange; rewrite Forall_forall in R; apply R, Hx).
      pose proof (NoDup_incl_length N I) as Q. pose proof (zlen_zrange 0 (zlen sat)) as ZR. unfold zlen in *. lia. }
    assert (exists a x b c, l = a ++ x :: b ++ x :: c) as (a & x & b & c & ->).
    { clear - ND. induction l as [|y l IH]; [exfalso; apply ND; constructor|].
      destruct (in_dec Z.eq_dec y l) as [I|I].
      - apply in_split in I as (b & c & ->). exists [], y, b, c. reflexivity.
      - destruct IH as (a & x & b & c & E); [intros N; apply ND; constructor; assumption|].
        exists (y :: a), x, b, c. rewrite E. reflexivity. }
    destruct (path_mid _ _ _ _ P a x (b ++ x :: c) eq_refl) as [P1 P2].
    exists x. split; [eapply path_reach, P1|].
    destruct (path_mid _ _ _ _ P2 (x :: b) x c eq_refl) as [P3 _]. inversion P3 as [|? s' ? ? H1 H2]; subst.
    apply path_reach in H2. clear - H1 H2.
    assert (forall u v w, leads sat u v -> clos_refl_trans_1n Z (leads sat) v w -> clos_trans_1n Z (leads sat) u w) as K.
    { intros u v w A B. revert u A. induction B as [v|v v' w B1 B2 IH]; intros u A; [constructor 1; exact A|].
      econstructor 2; [exact A|]. apply IH, B1. }
    eapply K; eauto.
Qed.
Print Assumptions c38_ends_iff.

(** ** A concrete file
    Sectors of 64 bytes and short sectors of 8: sector 0 the allocation table,
    1-6 the directory, 7 the short stream container, 8 its table, 9-11 a stream
    of 150 bytes stored in the order 10, 9, 11.  The entry [c] is a stream of 12
    bytes in the short sectors 1, 0. *)
Lemma bytes_check : forall l, forallb (fun b => (0 <=? b) && (b <? 256)) l = true -> bytes l.
Proof. intros l H. rewrite forallb_forall in H. apply Forall_forall. intros x Hx. specialize (H x Hx). lia. Qed.

Module Demo.
Definition le4 (n : Z) : list Z := map (fun i => (n / 256 ^ i) mod 256) [0; 1; 2; 3].
Definition pad (n : Z) (b : list Z) : list Z := b ++ zrepeat 0 (n - zlen b).
Definition header : list Z :=
  pad 28 SIGNATURE ++ [0xFE; 0xFF; 6; 0; 3; 0] ++ zrepeat 0 10 ++ le4 1 ++ le4 1 ++ le4 0 ++ le4 64 ++ le4 8 ++ le4 1
  ++ le4 (-2) ++ le4 0 ++ le4 0 ++ flat_map (fun _ => le4 (-1)) (zrange 0 108).
Definition entry (name : Z) (etype ldid rdid sub first size : Z) : list Z :=
  pad 64 [name; 0] ++ [4; 0; etype; 0] ++ le4 ldid ++ le4 rdid ++ le4 sub ++ zrepeat 0 36 ++ le4 first ++ le4 size ++ le4 0.
Definition sat : list Z := [-3; 2; 3; 4; 5; 6; -2; -2; -2; 11; 9; -2; -1; -1; -1; -1].
Definition directory : list Z :=
  entry 82 5 (-1) (-1) 1 7 32 ++ entry 66 2 (-1) 2 (-1) 10 150 ++ entry 67 2 (-1) (-1) (-1) 1 12.
Definition file (sat ssat : list Z) : list Z :=
  header ++ flat_map le4 sat ++ directory ++ pad 64 (zrange 1 33) ++ flat_map le4 ssat
  ++ zrepeat 9 64 ++ zrepeat 10 64 ++ zrepeat 11 64.
Definition short : list Z := [-2; 0; -1; -1; -1; -1; -1; -1; -1; -1; -1; -1; -1; -1; -1; -1].
Definition looping : list Z := [1; 0; -1; -1; -1; -1; -1; -1; -1; -1; -1; -1; -1; -1; -1; -1].
Definition sat_cut : list Z := [-3; 2; 3; 4; 5; 6; -2; -2; -2; -2; 11; 9; -1; -1; -1; -1].
Definition get {A} (r : result A) (a : A) : A := match r with Ok a => a | Err _ => a end.
Definition none : compdoc := mk_compdoc [] 0 0 0 0 [] [] None [] [] [] false.

(** The file, and the same with a cyclic short chain, and one whose stream is
    stored in the order 10, 11, 9 and whose last sector is cut short. *)
Definition mem : list Z := Eval vm_compute in file sat short.
Definition mem_loop : list Z := Eval vm_compute in file sat looping.
Definition mem_cut : list Z := Eval vm_compute in firstn 1256 (file sat_cut short).
Definition cd : compdoc := Eval vm_compute in get (open_compdoc 99 99 mem false) none.
Definition cd_loop : compdoc := Eval vm_compute in get (open_compdoc 99 99 mem_loop false) none.
Definition cd_cut : compdoc := Eval vm_compute in get (open_compdoc 99 99 mem_cut false) none.
Definition low (s : list Z) : list Z := s.

Lemma mem_bytes : bytes mem.
Proof. apply bytes_check. vm_compute. reflexivity. Qed.
Lemma opened : open_compdoc 99 99 mem false = Ok cd.
Proof. vm_compute. reflexivity. Qed.
Lemma opened_loop : open_compdoc 99 99 mem_loop false = Ok cd_loop.
Proof. vm_compute. reflexivity. Qed.
Lemma opened_cut : open_compdoc 99 99 mem_cut false = Ok cd_cut.
Proof. vm_compute. reflexivity. Qed.
End Demo.

Example c35_case : exists d m off cd', locate_named_stream Demo.low 9 Demo.cd [66] = Ok (Some (m, off, d_size d), cd')
  /\ denotes m off (d_size d) = zrepeat 10 64 ++ zrepeat 9 64 ++ zrepeat 11 22.
Proof.
  destruct (c35_found Demo.low 99 9 99 Demo.mem false Demo.cd [66] (mk_dirnode 1 [66] 2 (-1) 2 (-1) 10 150) [10; 9; 11])
    as (m & off & cd' & E1 & E2).
  - exact Demo.mem_bytes.
  - exact Demo.opened.
  - vm_compute. reflexivity.
  - vm_compute. split; discriminate.
  - cbn. lia.
  - repeat (eapply walk_next; [cbn; lia|reflexivity|]). constructor. lia.
  - split; [vm_compute; split; [reflexivity|discriminate]|discriminate].
  - repeat constructor; cbn; lia.
  - repeat constructor.
  - cbn. lia.
  - eexists _, m, off, cd'. split; [exact E1|]. etransitivity; [exact E2|]. vm_compute. reflexivity.
Qed.

Example c36_case : exists b cd1 r cd2, get_named_stream Demo.low 9 Demo.cd [67] = Ok (Some b, cd1)
  /\ locate_named_stream Demo.low 9 Demo.cd [67] = Ok (Some r, cd2) /\ b = [9; 10; 11; 12; 13; 14; 15; 16; 1; 2; 3; 4].
Proof. do 4 eexists. vm_compute. repeat split; reflexivity. Qed.

(** Without whole sectors the two methods may differ. *)
Theorem c36_cut_file_refuted : ~ (forall lower f1 f2 f3 depth mem ignore cd qname b cd1 m off len cd2,
  bytes mem -> open_compdoc f1 depth mem ignore = Ok cd ->
  get_named_stream lower f2 cd qname = Ok (Some b, cd1) ->
  locate_named_stream lower f3 cd qname = Ok (Some (m, off, len), cd2) ->
  b = denotes m off len).
Proof.
  intros H.
  assert (match get_named_stream Demo.low 9 Demo.cd_cut [66], locate_named_stream Demo.low 9 Demo.cd_cut [66] with
          | Ok (Some b, _), Ok (Some (m, off, len), _) => list_eqb b (denotes m off len) = false
          | _, _ => False
          end) as K by (vm_compute; reflexivity).
  destruct (get_named_stream Demo.low 9 Demo.cd_cut [66]) as [[[b|] cd1]|] eqn:G; try contradiction.
  destruct (locate_named_stream Demo.low 9 Demo.cd_cut [66]) as [[[[[m off] len]|] cd2]|] eqn:L; try contradiction.
  assert (bytes Demo.mem_cut) as B by (apply bytes_check; vm_compute; reflexivity).
  rewrite (H _ _ _ _ _ _ _ _ _ _ _ _ _ _ _ B Demo.opened_cut G L), list_eqb_refl in K. discriminate.
Qed.
Print Assumptions c36_cut_file_refuted.

Example c37_case : zlen Demo.mem = 1280 /\ sector_count Demo.mem = 12.
Proof. vm_compute. split; reflexivity. Qed.

(** A file of 1280 bytes with which reading never ends. *)
Theorem c38_file : open_compdoc 99 99 Demo.mem_loop false = Ok Demo.cd_loop /\
  forall fuel, locate_named_stream Demo.low fuel Demo.cd_loop [67] = Err OutOfFuel.
Proof.
  split; [exact Demo.opened_loop|]. intros fuel.
  apply c38_cyclic_never_ends with (d := mk_dirnode 2 [67] 2 (-1) (-1) (-1) 1 12); try (vm_compute; (reflexivity || discriminate)).
  exists 1. split; [constructor|]. econstructor 2 with (y := 0); [split; [lia|reflexivity]|]. constructor. split; [lia|reflexivity].
Qed.
Print Assumptions c38_file.
