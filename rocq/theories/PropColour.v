(** C55: nearest colours.  C56: PALETTE records. *)
From Verif Require Import Base BaseFacts Text Strings GridModel GridFacts SheetObjects SheetModel SheetSteps FormatModel FormatFacts PropFormat.

(** ** C55 *)

(** The square of the Euclidean distance. *)
Definition dist2 (a b : rgb) : Z :=
  (fst (fst a) - fst (fst b)) ^ 2 + (snd (fst a) - snd (fst b)) ^ 2 + (snd a - snd b) ^ 2.

Definition byte_colour (c : rgb) : Prop :=
  0 <= fst (fst c) < 256 /\ 0 <= snd (fst c) < 256 /\ 0 <= snd c < 256.

Definition byte_map (m : cmap) : Prop := forall k c, In (k, Some c) m -> byte_colour c.

Lemma metric_dist : forall a b, metric a b = dist2 a b.
Proof. intros [[a1 a2] a3] [[b1 b2] b3]. unfold metric, dist2. cbn [fst snd]. ring. Qed.

Lemma dist2_nonneg : forall a b, 0 <= dist2 a b.
Proof. intros a b. unfold dist2. pose proof (Z.pow_even_nonneg (fst (fst a) - fst (fst b)) 2). pose proof (Z.pow_even_nonneg (snd (fst a) - snd (fst b)) 2).
  pose proof (Z.pow_even_nonneg (snd a - snd b) 2). assert (Z.Even 2) by (exists 1; reflexivity). lia. Qed.

Lemma square_small : forall x, -255 <= x <= 255 -> x ^ 2 <= 65025.
Proof. intros x H. rewrite Z.pow_2_r. nia. Qed.

Lemma dist2_small : forall a b, byte_colour a -> byte_colour b -> dist2 a b < 3 * 256 * 256.
Proof.
  intros a b (A1 & A2 & A3) (B1 & B2 & B3). unfold dist2.
  pose proof (square_small (fst (fst a) - fst (fst b)) ltac:(lia)). pose proof (square_small (snd (fst a) - snd (fst b)) ltac:(lia)).
  pose proof (square_small (snd a - snd b) ltac:(lia)). lia.
Qed.

(** [i] is the index of the first of the nearest known colours. *)
Definition first_nearest (m : cmap) (c : rgb) (i : Z) : Prop :=
  exists p cand r, m = p ++ (i, Some cand) :: r /\
    (forall j d, In (j, Some d) p -> dist2 c cand < dist2 c d) /\
    (forall j d, In (j, Some d) r -> dist2 c cand <= dist2 c d).

Lemma nearest_inv : forall m c bm best, 0 < bm ->
  (first_nearest m c (nearest_loop m c bm best) /\ exists j d, In (j, Some d) m /\ dist2 c d < bm) \/
  (nearest_loop m c bm best = best /\ forall j d, In (j, Some d) m -> bm <= dist2 c d).
Proof.
  induction m as [|[x [cand|]] m IH]; intros c bm best B; cbn [nearest_loop].
  - right. split; [reflexivity|]. intros j d [].
  - rewrite metric_dist. pose proof (dist2_nonneg c cand) as NN. destruct (dist2 c cand <? bm) eqn:L.
    + apply Z.ltb_lt in L. destruct (dist2 c cand =? 0) eqn:E0.
      * apply Z.eqb_eq in E0. left. split; [|exists x, cand; split; [left; reflexivity|exact L]].
        exists [], cand, m. split; [reflexivity|]. split; [intros j d []|]. intros j d _. pose proof (dist2_nonneg c d). lia.
      * apply Z.eqb_neq in E0. destruct (IH c (dist2 c cand) x ltac:(lia)) as [[(p & c2 & r & E & P & R) (j & d & J & D)]|[E R]].
        -- left. split; [|exists x, cand; split; [left; reflexivity|exact L]].
           exists ((x, Some cand) :: p), c2, r. rewrite E at 1. split; [reflexivity|]. split; [|exact R].
           intros j' d' [Q|Q]; [|apply (P j'); exact Q]. injection Q as <- <-.
           assert (dist2 c c2 <= dist2 c d); [|lia].
           rewrite E in J. apply in_app_or in J as [J|[J|J]].
           ++ specialize (P _ _ J). lia.
           ++ injection J as _ ->. lia.
           ++ apply (R j). exact J.
        -- left. rewrite E. split; [|exists x, cand; split; [left; reflexivity|exact L]].
           exists [], cand, m. split; [reflexivity|]. split; [intros j d []|]. exact R.
    + apply Z.ltb_ge in L. destruct (IH c bm best B) as [[(p & c2 & r & E & P & R) (j & d & J & D)]|[E R]].
      * left. split; [|exists j, d; split; [right; exact J|exact D]].
        exists ((x, Some cand) :: p), c2, r. rewrite E at 1. split; [reflexivity|]. split; [|exact R].
        intros j' d' [Q|Q]; [|apply (P j'); exact Q]. injection Q as <- <-.
        assert (dist2 c c2 <= dist2 c d); [|lia].
        rewrite E in J. apply in_app_or in J as [J|[J|J]].
        -- specialize (P _ _ J). lia.
        -- injection J as _ ->. lia.
        -- apply (R j). exact J.
      * right. split; [exact E|]. intros j d [Q|Q]; [injection Q as <- <-; exact L|apply (R j); exact Q].
  - destruct (IH c bm best B) as [[(p & c2 & r & E & P & R) (j & d & J & D)]|[E R]].
    + left. split; [|exists j, d; split; [right; exact J|exact D]].
      exists ((x, None) :: p), c2, r. rewrite E at 1. split; [reflexivity|]. split; [|exact R].
      intros j' d' [Q|Q]; [discriminate|apply (P j'); exact Q].
    + right. split; [exact E|]. intros j d [Q|Q]; [discriminate|apply (R j); exact Q].
Qed.

(** Colours are bytes: then the answer is the first nearest of the known colours, or 0 if no colour is known. *)
Theorem c55_nearest : forall m c, byte_map m -> byte_colour c ->
  first_nearest m c (nearest_colour_index m c) \/
  ((forall k d, ~ In (k, Some d) m) /\ nearest_colour_index m c = 0).
Proof.
  intros m c M C. unfold nearest_colour_index. destruct (nearest_inv m c (3 * 256 * 256) 0 ltac:(lia)) as [[F _]|[E R]].
  - left. exact F.
  - right. split; [|exact E]. intros k d I. specialize (R k d I). pose proof (dist2_small c d C (M k d I)). lia.
Qed.
Print Assumptions c55_nearest.

(** *** The maps that books have *)
Definition keys (m : cmap) : list Z := map fst m.

Lemma dget_od_set : forall {V} (m : list (Z * V)) k v j, dget Z.eqb (od_set m k v) j = if j =? k then Some v else dget Z.eqb m j.
Proof.
  induction m as [|[k' v'] m IH]; intros k v j; cbn [od_set dget]; [reflexivity|].
  destruct (k =? k') eqn:E.
  - apply Z.eqb_eq in E. subst k'. cbn [dget]. destruct (j =? k); reflexivity.
  - cbn [dget]. rewrite IH. destruct (j =? k') eqn:E2; [|reflexivity]. replace (j =? k) with false by lia. reflexivity.
Qed.

Lemma keys_od_set : forall (m : cmap) k v, keys (od_set m k v) = if existsb (Z.eqb k) (keys m) then keys m else keys m ++ [k].
Proof.
  induction m as [|[k' v'] m IH]; intros k v; cbn [od_set keys map existsb fst]; [reflexivity|].
  destruct (k =? k') eqn:E; cbn [orb].
  - apply Z.eqb_eq in E. subst. reflexivity.
  - cbn [map fst]. fold (keys (od_set m k v)). rewrite IH. fold (keys m). destruct (existsb (Z.eqb k) (keys m)); reflexivity.
Qed.

Lemma od_set_nodup : forall (m : cmap) k v, NoDup (keys m) -> NoDup (keys (od_set m k v)).
Proof.
  intros m k v N. rewrite keys_od_set. destruct (existsb (Z.eqb k) (keys m)) eqn:E; [exact N|].
  apply NoDup_rev in N. rewrite <- (rev_involutive (keys m ++ [k])). apply NoDup_rev. rewrite rev_app_distr. cbn [rev app].
  constructor; [|exact N]. intros I. apply in_rev in I. assert (existsb (Z.eqb k) (keys m) = true); [|congruence].
  apply existsb_exists. exists k. split; [exact I|apply Z.eqb_refl].
Qed.

Lemma dget_in : forall (m : cmap) k v, dget Z.eqb m k = Some v -> In (k, v) m.
Proof.
  induction m as [|[k' v'] m IH]; intros k v H; [discriminate|]. cbn [dget] in H. destruct (k =? k') eqn:E.
  - apply Z.eqb_eq in E. injection H as ->. subst. left. reflexivity.
  - right. apply IH. exact H.
Qed.

Lemma in_dget : forall (m : cmap) k v, NoDup (keys m) -> In (k, v) m -> dget Z.eqb m k = Some v.
Proof.
  induction m as [|[k' v'] m IH]; intros k v N I; [destruct I|]. inversion N as [|? ? NI N']; subst. cbn [dget].
  destruct I as [E|I].
  - injection E as -> ->. rewrite Z.eqb_refl. reflexivity.
  - destruct (k =? k') eqn:E; [|apply IH; assumption]. apply Z.eqb_eq in E. subst k'. exfalso. apply NI.
    apply (in_map fst) in I. exact I.
Qed.

(** The first nearest colour, with the map as a dictionary. *)
Theorem c55_index : forall m c, NoDup (keys m) -> byte_map m -> byte_colour c -> (exists k d, dget Z.eqb m k = Some (Some d)) ->
  exists cand, dget Z.eqb m (nearest_colour_index m c) = Some (Some cand) /\
    forall k d, dget Z.eqb m k = Some (Some d) -> dist2 c cand <= dist2 c d.
Proof.
  intros m c N M C (k0 & d0 & X). destruct (c55_nearest m c M C) as [(p & cand & r & E & P & R)|[Q _]].
  - exists cand. split.
    + apply in_dget; [exact N|]. generalize dependent (nearest_colour_index m c). intros z E. rewrite E. apply in_or_app. right. left. reflexivity.
    + intros k d D. apply dget_in in D. rewrite E in D. apply in_app_or in D as [D|[D|D]].
      * specialize (P _ _ D). lia.
      * injection D as _ ->. lia.
      * apply (R k). exact D.
  - exfalso. apply dget_in in X. exact (Q _ _ X).
Qed.
Print Assumptions c55_index.

Example c55_case : let m := [(0, Some (0, 0, 0)); (9, None); (2, Some (10, 0, 0)); (3, Some (0, 10, 0))] in
  NoDup (keys m) /\ byte_map m /\ nearest_colour_index m (7, 7, 0) = 2 /\ nearest_colour_index m (1, 1, 1) = 0.
Proof.
  cbv zeta. split; [repeat constructor; cbn; intuition discriminate|]. split; [|split; reflexivity].
  intros k c I. cbn [In] in I. unfold byte_colour. repeat destruct I as [I|I]; try discriminate; try contradiction; injection I as _ <-; cbn; lia.
Qed.

(** ** C56 *)

(** The bytes of one colour; the fourth is not used. *)
Definition colour_bytes (c : rgb * Z) : list Z := [fst (fst (fst c)); snd (fst (fst c)); snd (fst c); snd c].

Definition palette_bytes (cs : list (rgb * Z)) (extra : list Z) : list Z :=
  le_enc 2 (zlen cs) ++ flat_map colour_bytes cs ++ extra.

Definition byte_entry (c : rgb * Z) : Prop := byte_colour (fst c) /\ 0 <= snd c < 256.

Lemma zlen_colours : forall cs, zlen (flat_map colour_bytes cs) = 4 * zlen cs.
Proof. induction cs as [|c cs IH]; [reflexivity|]. cbn [flat_map]. rewrite zlen_app, IH, zlen_cons. change (zlen (colour_bytes c)) with 4. lia. Qed.

Definition pick (v : Z) : rgb := (Z.land v 0xff, Z.land (Z.shiftr v 8) 0xff, Z.land (Z.shiftr v 16) 0xff).

Lemma land_ff : forall v, Z.land v 0xff = v mod 256.
Proof. intros v. change 0xff with (Z.ones 8). rewrite Z.land_ones by lia. reflexivity. Qed.

Lemma pick_mod : forall v, pick (to_signed 32 v) = pick v.
Proof.
  intros v. unfold to_signed. change (2 ^ (32 - 1)) with 2147483648. change (2 ^ 32) with 4294967296.
  destruct (v <? 2147483648); [reflexivity|]. unfold pick. rewrite !land_ff, !Z.shiftr_div_pow2 by lia.
  change (2 ^ 8) with 256. change (2 ^ 16) with 65536.
  replace (v - 4294967296) with (v + (-16777216) * 256) by lia. f_equal; [f_equal|].
  - apply Z_mod_plus_full.
  - rewrite Z_div_plus_full by lia. change (-16777216) with ((-65536) * 256). apply Z_mod_plus_full.
  - replace (v + (-16777216) * 256) with (v + (-65536) * 65536) by lia. rewrite Z_div_plus_full by lia.
    change (-65536) with ((-256) * 256). apply Z_mod_plus_full.
Qed.

Lemma read_colour : forall data pos c t, At data pos (colour_bytes c ++ t) -> byte_entry c ->
  exists v, unpack_i32 data pos = Ok v /\ pick v = fst c.
Proof.
  intros data pos [[[r g] b] x] t A ((R & G & B) & X). cbn [fst snd] in *.
  set (v := r + 256 * g + 65536 * b + 16777216 * x).
  assert (E : le_enc 4 v = colour_bytes ((r, g, b), x)).
  { unfold colour_bytes. cbn [le_enc fst snd]. unfold v. f_equal; [|f_equal; [|f_equal; [|f_equal]]]; lia. }
  exists (to_signed 32 v). split.
  - unfold unpack_i32. rewrite (At_le data t 4 v pos 4); [reflexivity| |reflexivity|cbn; unfold v; lia]. rewrite E. exact A.
  - rewrite pick_mod. unfold pick. rewrite !land_ff, !Z.shiftr_div_pow2 by lia. change (2 ^ 8) with 256. change (2 ^ 16) with 65536.
    unfold v. f_equal; [f_equal|]; lia.
Qed.

Lemma read_colours : forall cs data pos t, At data pos (flat_map colour_bytes cs ++ t) -> Forall byte_entry cs ->
  exists vs, unpack_ints (List.length cs) data pos = Ok vs /\ map pick vs = map fst cs.
Proof.
  induction cs as [|c cs IH]; intros data pos t A F; [exists []; split; reflexivity|].
  inversion F as [|? ? B F']; subst. cbn [flat_map] in A. rewrite <- app_assoc in A.
  destruct (read_colour _ _ _ _ A B) as (v & V & P).
  assert (A' : At data (pos + 4) (flat_map colour_bytes cs ++ t)) by (apply (At_skip _ (colour_bytes c) _ pos); [exact A|reflexivity]).
  destruct (IH _ _ _ A' F') as (vs & VS & PS).
  exists (v :: vs). cbn [List.length unpack_ints]. rewrite V, VS. cbn [bind]. split; [reflexivity|]. cbn [map]. rewrite P, PS. reflexivity.
Qed.

Lemma palette_loop_ok : forall vs b i, (forall j, 0 <= j < zlen vs -> dget Z.eqb (b_colours b) (8 + i + j) <> None) ->
  exists b', palette_loop b i vs = Ok b' /\ b_palette b' = b_palette b ++ map pick vs /\
    (forall k, dget Z.eqb (b_colours b') k =
       if (8 + i <=? k) && (k <? 8 + i + zlen vs) then option_map Some (znth (map pick vs) (k - 8 - i)) else dget Z.eqb (b_colours b) k) /\
    keys (b_colours b') = keys (b_colours b) /\
    b' = with_palette (with_colours b (b_colours b')) (b_palette b').
Proof.
  induction vs as [|v vs IH]; intros b i H.
  - exists b. cbn [palette_loop map]. rewrite app_nil_r. split; [reflexivity|]. split; [reflexivity|]. split; [|split; [reflexivity|destruct b; reflexivity]].
    intros k. change (zlen (@nil Z)) with 0. replace ((8 + i <=? k) && (k <? 8 + i + 0)) with false by lia. reflexivity.
  - cbn [palette_loop]. fold (pick v). pose proof (zlen_nonneg vs) as NN.
    pose proof (H 0) as H0. rewrite zlen_cons, Z.add_0_r in H0. specialize (H0 ltac:(lia)).
    destruct (dget Z.eqb (b_colours b) (8 + i)) as [old|] eqn:D; [|exfalso; apply H0; reflexivity]. clear H0.
    set (b1 := with_colours _ _).
    assert (C1 : forall k, dget Z.eqb (b_colours b1) k = if k =? 8 + i then Some (Some (pick v)) else dget Z.eqb (b_colours b) k).
    { intros k. subst b1. cbn [b_colours with_colours with_palette]. apply dget_od_set. }
    destruct (IH b1 (i + 1)) as (b' & E & P & C & K & W).
    { intros j J. rewrite C1. replace (8 + (i + 1) + j =? 8 + i) with false by lia.
      replace (8 + (i + 1) + j) with (8 + i + (j + 1)) by lia. apply H. rewrite zlen_cons. lia. }
    exists b'. split; [exact E|]. split; [rewrite P; subst b1; cbn [b_palette with_colours with_palette map]; rewrite <- app_assoc; reflexivity|].
    split; [|split].
    + intros k. rewrite C, C1, zlen_cons. cbn [map].
      destruct (Z.eq_dec k (8 + i)) as [->|NE].
      * replace ((8 + (i + 1) <=? 8 + i) && (8 + i <? 8 + (i + 1) + zlen vs)) with false by lia. rewrite Z.eqb_refl.
        replace ((8 + i <=? 8 + i) && (8 + i <? 8 + i + (1 + zlen vs))) with true by lia.
        replace (8 + i - 8 - i) with 0 by lia. reflexivity.
      * replace (k =? 8 + i) with false by lia.
        replace ((8 + (i + 1) <=? k) && (k <? 8 + (i + 1) + zlen vs)) with ((8 + i <=? k) && (k <? 8 + i + (1 + zlen vs))) by lia.
        destruct ((8 + i <=? k) && (k <? 8 + i + (1 + zlen vs))) eqn:Q; [|reflexivity].
        rewrite (znth_cons _ _ (k - 8 - i)) by lia. replace (k - 8 - i - 1) with (k - 8 - (i + 1)) by lia. reflexivity.
    + rewrite K. subst b1. cbn [b_colours with_colours with_palette]. rewrite keys_od_set.
      replace (existsb (Z.eqb (8 + i)) (keys (b_colours b))) with true; [reflexivity|]. symmetry. apply existsb_exists. exists (8 + i).
      split; [|apply Z.eqb_refl]. apply dget_in in D. apply (in_map fst) in D. exact D.
    + rewrite W. subst b1. reflexivity.
Qed.

Lemma palette_loop_key : forall vs b i j, 0 <= j < zlen vs -> dget Z.eqb (b_colours b) (8 + i + j) = None -> palette_loop b i vs = Err KeyError.
Proof.
  induction vs as [|v vs IH]; intros b i j J H; [change (zlen (@nil Z)) with 0 in J; lia|].
  cbn [palette_loop]. rewrite zlen_cons in J. destruct (Z.eq_dec j 0) as [->|NE].
  - rewrite Z.add_0_r in H. rewrite H. reflexivity.
  - destruct (dget Z.eqb (b_colours b) (8 + i)) eqn:D; [|reflexivity]. apply (IH _ _ (j - 1)); [lia|].
    cbn [b_colours with_colours with_palette]. rewrite dget_od_set. replace (8 + (i + 1) + (j - 1) =? 8 + i) with false by lia.
    replace (8 + (i + 1) + (j - 1)) with (8 + i + j) by lia. exact H.
Qed.

(** A PALETTE record of a right size, in a book that has had none and whose map has the indexes. *)
Theorem c56_palette : forall b cs extra, b_fmt b = true -> b_palette b = [] -> Forall byte_entry cs -> zlen cs < 65536 -> zlen extra <= 4 ->
  (forall i, 0 <= i < zlen cs -> dget Z.eqb (b_colours b) (8 + i) <> None) ->
  exists b', handle_palette b (palette_bytes cs extra) = Ok b' /\
    (forall i c, znth cs i = Some c -> dget Z.eqb (b_colours b') (8 + i) = Some (Some (fst c))) /\
    (forall k, (k < 8 \/ 8 + zlen cs <= k) -> dget Z.eqb (b_colours b') k = dget Z.eqb (b_colours b) k) /\
    keys (b_colours b') = keys (b_colours b) /\
    b_palette b' = map fst cs /\
    b' = with_palette (with_colours b (b_colours b')) (b_palette b').
Proof.
  intros b cs extra F P B N X H. unfold handle_palette. rewrite F. cbn [negb]. pose proof (zlen_nonneg cs) as NN. pose proof (zlen_nonneg extra).
  assert (A0 : At (palette_bytes cs extra) 0 (palette_bytes cs extra)) by apply At_0. unfold palette_bytes in A0 at 2.
  rewrite (At_u16 _ _ _ _ A0) by lia. cbn [bind]. cbv zeta.
  assert (L : zlen (palette_bytes cs extra) = 2 + 4 * zlen cs + zlen extra).
  { unfold palette_bytes. rewrite !zlen_app, zlen_le_enc, zlen_colours. lia. }
  replace (negb ((4 * zlen cs + 2 <=? zlen (palette_bytes cs extra)) && (zlen (palette_bytes cs extra) <=? 4 * zlen cs + 2 + 4))) with false by lia.
  replace (py_slice (palette_bytes cs extra) 0 (4 * zlen cs + 2)) with (le_enc 2 (zlen cs) ++ flat_map colour_bytes cs).
  2: { symmetry. unfold palette_bytes. rewrite app_assoc. apply (At_slice _ _ extra); [apply At_0|]. rewrite zlen_app, zlen_le_enc, zlen_colours. lia. }
  assert (A2 : At (le_enc 2 (zlen cs) ++ flat_map colour_bytes cs) 2 (flat_map colour_bytes cs ++ [])).
  { rewrite app_nil_r. apply (At_skip _ (le_enc 2 (zlen cs)) _ 0); [apply At_0|]. rewrite zlen_le_enc. reflexivity. }
  destruct (read_colours _ _ _ _ A2 B) as (vs & V & PS).
  replace (Z.to_nat (zlen cs)) with (List.length cs) by (unfold zlen; lia). rewrite V. cbn [bind]. rewrite P. cbn [zlen List.length Z.of_nat Z.eqb guard bind].
  assert (LV : zlen vs = zlen cs) by (apply (f_equal zlen) in PS; rewrite !zlen_map in PS; exact PS).
  destruct (palette_loop_ok vs b 0) as (b' & E & P' & C & K & W). { intros j J. rewrite Z.add_0_r. apply H. lia. }
  exists b'. split; [exact E|]. split; [|split; [|split; [exact K|split; [|exact W]]]].
  - intros i c I. pose proof (znth_Some_range _ _ _ I). rewrite C, LV, PS.
    replace ((8 + 0 <=? 8 + i) && (8 + i <? 8 + 0 + zlen cs)) with true by lia. replace (8 + i - 8 - 0) with i by lia.
    rewrite znth_map, I. reflexivity.
  - intros k J. rewrite C, LV. replace ((8 + 0 <=? k) && (k <? 8 + 0 + zlen cs)) with false by lia. reflexivity.
  - rewrite P', P, PS. reflexivity.
Qed.
Print Assumptions c56_palette.

(** A record of a wrong size: no book is returned. *)
Theorem c56_size : forall b n rest, b_fmt b = true -> 0 <= n < 65536 -> (zlen rest < 4 * n \/ 4 * n + 4 < zlen rest) ->
  handle_palette b (le_enc 2 n ++ rest) = Err XLRDError.
Proof.
  intros b n rest F N S. unfold handle_palette. rewrite F. cbn [negb].
  rewrite (At_u16 _ rest n 0) by (try apply At_0; lia). cbn [bind]. cbv zeta. rewrite zlen_app, zlen_le_enc.
  replace (negb ((4 * n + 2 <=? Z.of_nat 2 + zlen rest) && (Z.of_nat 2 + zlen rest <=? 4 * n + 2 + 4))) with true by lia. reflexivity.
Qed.
Print Assumptions c56_size.

Theorem c56_no_formatting : forall b data, b_fmt b = false -> handle_palette b data = Ok b.
Proof. intros b data F. unfold handle_palette. rewrite F. reflexivity. Qed.
Print Assumptions c56_no_formatting.

(** *** Books *)

Lemma set_colours_get : forall cs m i k, dget Z.eqb (set_colours m i cs) k =
  if (i <=? k) && (k <? i + zlen cs) then option_map Some (znth cs (k - i)) else dget Z.eqb m k.
Proof.
  induction cs as [|c cs IH]; intros m i k; cbn [set_colours].
  - change (zlen (@nil rgb)) with 0. replace ((i <=? k) && (k <? i + 0)) with false by lia. reflexivity.
  - rewrite IH, dget_od_set, zlen_cons. pose proof (zlen_nonneg cs). destruct (Z.eq_dec k i) as [->|NE].
    + replace ((i + 1 <=? i) && (i <? i + 1 + zlen cs)) with false by lia. rewrite Z.eqb_refl.
      replace ((i <=? i) && (i <? i + (1 + zlen cs))) with true by lia. rewrite Z.sub_diag. reflexivity.
    + replace (k =? i) with false by lia.
      replace ((i + 1 <=? k) && (k <? i + 1 + zlen cs)) with ((i <=? k) && (k <? i + (1 + zlen cs))) by lia.
      destruct ((i <=? k) && (k <? i + (1 + zlen cs))) eqn:Q; [|reflexivity].
      rewrite (znth_cons _ _ (k - i)) by lia. replace (k - i - 1) with (k - (i + 1)) by lia. reflexivity.
Qed.

(** The colours a new book has: 8 fixed ones, the default palette of the version, and the indexes whose colour
    depends on the system. *)
Definition palette_size (bv : Z) : Z := if 50 <=? bv then 56 else 16.

Lemma palette_lengths : forall bv p, default_palette bv = Ok p -> zlen p = palette_size bv /\ Forall byte_colour p.
Proof.
  intros bv p H. unfold default_palette in H. unfold palette_size.
  assert (B : forall l : list rgb, forallb (fun '(r, g, b) => byteb r && byteb g && byteb b) l = true -> Forall byte_colour l).
  { intros l A. rewrite forallb_forall in A. apply Forall_forall. intros [[r g] b] I. specialize (A _ I). cbv beta iota in A.
    unfold byteb in A. unfold byte_colour. cbn [fst snd]. lia. }
  destruct (bv =? 80) eqn:E1; [injection H as <-; replace (50 <=? bv) with true by lia; split; [reflexivity|apply B; reflexivity]|].
  destruct ((bv =? 70) || (bv =? 50)) eqn:E2; [injection H as <-; replace (50 <=? bv) with true by lia; split; [reflexivity|apply B; reflexivity]|].
  destruct ((bv =? 45) || (bv =? 40) || (bv =? 30) || (bv =? 21) || (bv =? 20)) eqn:E3; [|discriminate].
  injection H as <-. replace (50 <=? bv) with false by lia. split; [reflexivity|apply B; reflexivity].
Qed.

Lemma first_eight : zlen (firstn 8 excel_default_palette_b8) = 8 /\ Forall byte_colour (firstn 8 excel_default_palette_b8).
Proof. destruct (palette_lengths 80 _ eq_refl) as [_ F]. split; [reflexivity|]. rewrite <- (firstn_skipn 8 excel_default_palette_b8) in F. apply Forall_app in F. apply F. Qed.

Theorem c56_initial : forall bv b, fbook0 bv true = Ok b -> exists pal,
  default_palette bv = Ok pal /\ zlen pal = palette_size bv /\
  forall k, dget Z.eqb (b_colours b) k =
    if (k =? palette_size bv + 8) || (k =? palette_size bv + 9) || (k =? 0x51) || (k =? 0x7FFF) then Some None
    else if (0 <=? k) && (k <? 8) then option_map Some (znth excel_default_palette_b8 k)
    else if (8 <=? k) && (k <? palette_size bv + 8) then option_map Some (znth pal (k - 8))
    else None.
Proof.
  intros bv b H. unfold fbook0, initial_colours in H. apply bind_ok in H as (m & M & H). cbv zeta in M. apply bind_ok in M as (pal & PAL & M).
  injection H as <-. cbn [b_colours]. exists pal. split; [exact PAL|]. destruct (palette_lengths _ _ PAL) as [L _]. split; [exact L|].
  intros k. rewrite L in M. apply (f_equal (fun r => match r with Ok v => v | Err _ => [] end)) in M. subst m.
  rewrite !dget_od_set, !set_colours_get, L. destruct first_eight as [L8 _]. rewrite L8.
  assert (PS : palette_size bv = 56 \/ palette_size bv = 16) by (unfold palette_size; destruct (50 <=? bv); auto).
  replace (palette_size bv + 8 + 1) with (palette_size bv + 9) by lia.
  destruct (k =? 32767) eqn:E1; [replace ((k =? palette_size bv + 8) || (k =? palette_size bv + 9) || (k =? 81) || true) with true by lia; reflexivity|].
  destruct (k =? 81) eqn:E2; [replace ((k =? palette_size bv + 8) || (k =? palette_size bv + 9) || true || false) with true by lia; reflexivity|].
  destruct (k =? palette_size bv + 9) eqn:E3; [replace ((k =? palette_size bv + 8) || true || false || false) with true by lia; reflexivity|].
  destruct (k =? palette_size bv + 8) eqn:E4; [reflexivity|]. cbn [orb].
  destruct ((8 <=? k) && (k <? 8 + palette_size bv)) eqn:E5.
  - replace ((0 <=? k) && (k <? 8)) with false by lia. replace ((8 <=? k) && (k <? palette_size bv + 8)) with true by lia. reflexivity.
  - replace ((8 <=? k) && (k <? palette_size bv + 8)) with false by lia. rewrite Z.add_0_l, Z.sub_0_r.
    destruct ((0 <=? k) && (k <? 8)) eqn:E6; [|reflexivity]. rewrite znth_firstn by lia. reflexivity.
Qed.
Print Assumptions c56_initial.

(** The colours themselves, as RRGGBB numbers from index 8 on.  Versions 5 and 7 differ
    from version 8 in one of them, and earlier versions have the first sixteen. *)
Definition standard : list Z :=
  [0x000000; 0xFFFFFF; 0xFF0000; 0x00FF00; 0x0000FF; 0xFFFF00; 0xFF00FF; 0x00FFFF;
   0x800000; 0x008000; 0x000080; 0x808000; 0x800080; 0x008080; 0xC0C0C0; 0x808080;
   0x9999FF; 0x993366; 0xFFFFCC; 0xCCFFFF; 0x660066; 0xFF8080; 0x0066CC; 0xCCCCFF;
   0x000080; 0xFF00FF; 0xFFFF00; 0x00FFFF; 0x800080; 0x800000; 0x008080; 0x0000FF;
   0x00CCFF; 0xCCFFFF; 0xCCFFCC; 0xFFFF99; 0x99CCFF; 0xFF99CC; 0xCC99FF; 0xFFCC99;
   0x3366FF; 0x33CCCC; 0x99CC00; 0xFFCC00; 0xFF9900; 0xFF6600; 0x666699; 0x969696;
   0x003366; 0x339966; 0x003300; 0x333300; 0x993300; 0x993366; 0x333399; 0x333333].
Definition of_number (n : Z) : rgb := (n / 65536, n / 256 mod 256, n mod 256).
Definition usual_colour (bv k : Z) : option Z :=
  if (bv <? 80) && (k =? 47) then Some 0xE3E3E3 else znth standard (k - (if k <? 8 then 0 else 8)).

Theorem c56_standard : forall bv b k, fbook0 bv true = Ok b -> 0 <= k < palette_size bv + 8 ->
  exists n, usual_colour bv k = Some n /\ dget Z.eqb (b_colours b) k = Some (Some (of_number n)).
Proof.
  intros bv b k H K. destruct (c56_initial _ _ H) as (pal & P & L & I). rewrite I.
  assert (PS : palette_size bv = 56 \/ palette_size bv = 16) by (unfold palette_size; destruct (50 <=? bv); auto).
  replace ((k =? palette_size bv + 8) || (k =? palette_size bv + 9) || (k =? 0x51) || (k =? 0x7FFF)) with false by lia.
  assert (palette_size bv = zlen pal) as PL by congruence.
  assert (forall j, 0 <= j < zlen pal -> exists n, (if (bv <? 80) && (j =? 39) then Some 0xE3E3E3 else znth standard j) = Some n /\ znth pal j = Some (of_number n)) as T.
  { intros j J. clear -P J.
    assert (forall (l : list rgb) (s : list Z), map of_number s = l -> forall j, 0 <= j < zlen l -> exists n, znth s j = Some n /\ znth l j = Some (of_number n)) as M.
    { intros l s <- i Hi. destruct (znth_in_range s i) as (n & Zn); [rewrite zlen_map in Hi; exact Hi|]. exists n. split; [exact Zn|]. rewrite znth_map, Zn. reflexivity. }
    unfold default_palette in P. destruct (bv =? 80) eqn:E8; [|destruct ((bv =? 70) || (bv =? 50)) eqn:E5; [|destruct (_ || _) eqn:E2 in P; [|discriminate]]];
      injection P as <-.
    - replace (bv <? 80) with false by lia. cbn [andb]. apply M; [reflexivity|exact J].
    - replace (bv <? 80) with true by lia. cbn [andb]. destruct (M _ (firstn 39 standard ++ [0xE3E3E3] ++ skipn 40 standard) eq_refl j J) as (n & N1 & N2).
      exists n. split; [|exact N2]. rewrite <- N1. destruct (j =? 39) eqn:Ej; [assert (j = 39) as -> by lia; reflexivity|].
      destruct (Z_lt_ge_dec j 39).
      + rewrite znth_app_l by (change (zlen (firstn 39 standard)) with 39; lia). symmetry. apply znth_firstn. lia.
      + rewrite app_assoc, znth_app_r by (change (zlen (firstn 39 standard ++ [0xE3E3E3])) with 40; lia).
        change (zlen (firstn 39 standard ++ [0xE3E3E3])) with 40.
        rewrite <- (firstn_skipn 40 standard) at 1. rewrite znth_app_r by (change (zlen (firstn 40 standard)) with 40; lia). reflexivity.
    - replace (bv <? 80) with true by lia. change (zlen excel_default_palette_b2) with 16 in J. replace (j =? 39) with false by lia. cbn [andb].
      destruct (M _ (firstn 16 standard) eq_refl j J) as (n & N1 & N2).
      exists n. split; [|exact N2]. rewrite <- N1. symmetry. apply znth_firstn. lia. }
  unfold usual_colour. destruct (k <? 8) eqn:K8.
  - replace ((0 <=? k) && (k <? 8)) with true by lia. replace ((bv <? 80) && (k =? 47)) with false by lia. rewrite Z.sub_0_r.
    assert (In k [0; 1; 2; 3; 4; 5; 6; 7]) as Ik by (cbn; lia).
    cbn in Ik. decompose [or] Ik; try tauto; subst k; eexists; split; reflexivity.
  - replace ((0 <=? k) && false) with false by lia. replace ((8 <=? k) && (k <? palette_size bv + 8)) with true by lia.
    destruct (T (k - 8) ltac:(lia)) as (n & N1 & N2). exists n. replace (k - 8 =? 39) with (k =? 47) in N1 by lia. split; [exact N1|]. rewrite N2. reflexivity.
Qed.
Print Assumptions c56_standard.
Example c56_standard_example : exists b, fbook0 70 true = Ok b /\ dget Z.eqb (b_colours b) 47 = Some (Some (227, 227, 227)).
Proof. eexists. split; reflexivity. Qed.

(** A book that has read other records has the map it began with. *)
Lemma frun_colours : forall rs b b', frun b rs = Ok b' -> (forall d data, ~ In (d, RPalette data) rs) -> b_colours b' = b_colours b /\ b_palette b' = b_palette b.
Proof.
  induction rs as [|[d r] rs IH]; intros b b' H N; [injection H as <-; split; reflexivity|].
  cbn [frun] in H. apply bind_ok in H as (b1 & S & H). destruct (IH _ _ H) as [I1 I2]. { intros d0 data I. apply (N d0 data). right. exact I. }
  rewrite I1, I2. clear IH H I1 I2. destruct r as [data|data|data f2|data|data|data]; cbn [fstep] in S.
  - unfold handle_font in S. destruct (negb (b_fmt b)); [injection S as <-; split; reflexivity|].
    apply bind_ok in S as (f & _ & S). injection S as <-. split; reflexivity.
  - unfold handle_efont in S. destruct (negb (b_fmt b)); [injection S as <-; split; reflexivity|].
    apply bind_ok in S as (f & _ & S). apply bind_ok in S as (u & _ & S). apply bind_ok in S as (cx & _ & S).
    apply bind_ok in S as (fs & _ & S). injection S as <-. split; reflexivity.
  - unfold handle_format in S. cbv zeta in S. apply bind_ok in S as (k & _ & S). apply bind_ok in S as (s & _ & S).
    injection S as <-. split; reflexivity.
  - exfalso. apply (N d data). left. reflexivity.
  - unfold handle_style in S. destruct (negb (b_fmt b)); [injection S as <-; split; reflexivity|].
    apply bind_ok in S as (u & _ & S). apply bind_ok in S as (w & _ & S). apply bind_ok in S as (i & _ & S). apply bind_ok in S as (l & _ & S).
    cbv zeta in S. apply bind_ok in S as ((nm & e) & _ & S). injection S as <-. split; reflexivity.
  - apply handle_xf_inv in S as (b0 & x & _ & _ & S). tauto.
Qed.

(** The first PALETTE record of a book: read if it has no more colours than the version allows, a KeyError otherwise. *)
Theorem c56_book : forall bv b0 rs b cs extra, fbook0 bv true = Ok b0 -> frun b0 rs = Ok b -> (forall d data, ~ In (d, RPalette data) rs) ->
  Forall byte_entry cs -> zlen cs < 65536 -> zlen extra <= 4 ->
  if zlen cs <=? palette_size bv + 2 then
    exists b', handle_palette b (palette_bytes cs extra) = Ok b' /\ b_palette b' = map fst cs /\
      forall k, dget Z.eqb (b_colours b') k = if (8 <=? k) && (k <? 8 + zlen cs) then option_map (fun c => Some (fst c)) (znth cs (k - 8)) else dget Z.eqb (b_colours b0) k
  else handle_palette b (palette_bytes cs extra) = Err KeyError.
Proof.
  intros bv b0 rs b cs extra F R N B S X. destruct (frun_colours _ _ _ R N) as [C P].
  destruct (frun_bv _ _ _ R) as [_ FM].
  assert (F0 : b_fmt b0 = true /\ b_palette b0 = []) by (unfold fbook0 in F; apply bind_ok in F as (m & _ & F); injection F as <-; split; reflexivity).
  destruct F0 as [F1 F2]. rewrite F1 in FM. rewrite F2 in P.
  destruct (c56_initial _ _ F) as (pal & _ & PL & I). pose proof (zlen_nonneg cs). pose proof (zlen_nonneg extra).
  assert (PS : palette_size bv = 56 \/ palette_size bv = 16) by (unfold palette_size; destruct (50 <=? bv); auto).
  destruct (zlen cs <=? palette_size bv + 2) eqn:E.
  - destruct (c56_palette b cs extra FM P B S X) as (b' & H1 & H2 & H3 & _ & H5 & _).
    { intros i J. rewrite C, I.
      destruct ((8 + i =? palette_size bv + 8) || (8 + i =? palette_size bv + 9) || (8 + i =? 81) || (8 + i =? 32767)) eqn:Q; [discriminate|].
      replace ((0 <=? 8 + i) && (8 + i <? 8)) with false by lia. replace ((8 <=? 8 + i) && (8 + i <? palette_size bv + 8)) with true by lia.
      destruct (znth_in_range pal (8 + i - 8)) as (c & Z1); [lia|]. rewrite Z1. discriminate. }
    exists b'. split; [exact H1|]. split; [exact H5|]. intros k. destruct ((8 <=? k) && (k <? 8 + zlen cs)) eqn:Q.
    + destruct (znth_in_range cs (k - 8)) as (c & Z1); [lia|]. rewrite Z1. cbn [option_map]. rewrite <- (H2 _ _ Z1). f_equal. lia.
    + rewrite H3 by lia. rewrite C. reflexivity.
  - unfold handle_palette. rewrite FM. cbn [negb].
    assert (A0 : At (palette_bytes cs extra) 0 (palette_bytes cs extra)) by apply At_0. unfold palette_bytes in A0 at 2.
    rewrite (At_u16 _ _ _ _ A0) by lia. cbn [bind]. cbv zeta.
    assert (L : zlen (palette_bytes cs extra) = 2 + 4 * zlen cs + zlen extra).
    { unfold palette_bytes. rewrite !zlen_app, zlen_le_enc, zlen_colours. lia. }
    replace (negb ((4 * zlen cs + 2 <=? zlen (palette_bytes cs extra)) && (zlen (palette_bytes cs extra) <=? 4 * zlen cs + 2 + 4))) with false by lia.
    replace (py_slice (palette_bytes cs extra) 0 (4 * zlen cs + 2)) with (le_enc 2 (zlen cs) ++ flat_map colour_bytes cs).
    2: { symmetry. unfold palette_bytes. rewrite app_assoc. apply (At_slice _ _ extra); [apply At_0|]. rewrite zlen_app, zlen_le_enc, zlen_colours. lia. }
    assert (A2 : At (le_enc 2 (zlen cs) ++ flat_map colour_bytes cs) 2 (flat_map colour_bytes cs ++ [])).
    { rewrite app_nil_r. apply (At_skip _ (le_enc 2 (zlen cs)) _ 0); [apply At_0|]. rewrite zlen_le_enc. reflexivity. }
    destruct (read_colours _ _ _ _ A2 B) as (vs & V & PV).
    replace (Z.to_nat (zlen cs)) with (List.length cs) by (unfold zlen; lia). rewrite V. cbn [bind]. rewrite P. cbn [zlen List.length Z.of_nat Z.eqb guard bind].
    assert (LV : zlen vs = zlen cs) by (apply (f_equal zlen) in PV; rewrite !zlen_map in PV; exact PV).
    apply (palette_loop_key vs b 0 (palette_size bv + 2)); [lia|]. rewrite C, I.
    replace ((8 + 0 + (palette_size bv + 2) =? palette_size bv + 8) || (8 + 0 + (palette_size bv + 2) =? palette_size bv + 9) || (8 + 0 + (palette_size bv + 2) =? 81) || (8 + 0 + (palette_size bv + 2) =? 32767)) with false by lia.
    replace ((0 <=? 8 + 0 + (palette_size bv + 2)) && (8 + 0 + (palette_size bv + 2) <? 8)) with false by lia.
    replace ((8 <=? 8 + 0 + (palette_size bv + 2)) && (8 + 0 + (palette_size bv + 2) <? palette_size bv + 8)) with false by lia. reflexivity.
Qed.
Print Assumptions c56_book.

Example c56_case :
  let data := palette_bytes [((1, 2, 3), 0); ((250, 251, 252), 255)] [0; 0] in
  match (do b0 <- fbook0 80 true; handle_palette b0 data) with
  | Ok b => map (dget Z.eqb (b_colours b)) [7; 8; 9; 10; 64; 66] =
      [Some (Some (0, 255, 255)); Some (Some (1, 2, 3)); Some (Some (250, 251, 252)); Some (Some (255, 0, 0)); Some None; None] /\
      b_palette b = [(1, 2, 3); (250, 251, 252)]
  | Err _ => False
  end.
Proof. vm_compute. split; reflexivity. Qed.

(** Every book's colour map has distinct indexes and byte colours, so that C55 holds of it. *)
Definition map_ok (m : cmap) : Prop := NoDup (keys m) /\ byte_map m /\ exists c, dget Z.eqb m 0 = Some (Some c).

Lemma od_set_bytes : forall m k c, byte_map m -> byte_colour c -> byte_map (od_set m k (Some c)).
Proof.
  induction m as [|[k' v'] m IH]; intros k c M C k0 c0 I; cbn [od_set] in I.
  - destruct I as [I|[]]. injection I as _ <-. exact C.
  - destruct (k =? k').
    + destruct I as [I|I]; [injection I as _ <-; exact C|]. apply (M k0). right. exact I.
    + destruct I as [I|I]; [apply (M k0); left; exact I|]. apply (IH k c) with (k := k0); [|exact C|exact I].
      intros k1 c1 I1. apply (M k1). right. exact I1.
Qed.

Lemma od_set_none : forall m k, byte_map m -> byte_map (od_set m k None).
Proof.
  induction m as [|[k' v'] m IH]; intros k M k0 c0 I; cbn [od_set] in I.
  - destruct I as [I|[]]. discriminate.
  - destruct (k =? k').
    + destruct I as [I|I]; [discriminate|]. apply (M k0). right. exact I.
    + destruct I as [I|I]; [apply (M k0); left; exact I|]. apply (IH k) with (k := k0); [|exact I].
      intros k1 c1 I1. apply (M k1). right. exact I1.
Qed.

Lemma set_colours_ok : forall cs m i, NoDup (keys m) -> byte_map m -> Forall byte_colour cs -> NoDup (keys (set_colours m i cs)) /\ byte_map (set_colours m i cs).
Proof.
  induction cs as [|c cs IH]; intros m i N M F; cbn [set_colours]; [split; assumption|]. inversion F; subst.
  apply IH; [apply od_set_nodup; exact N|apply od_set_bytes; assumption|assumption].
Qed.

Lemma pick_byte : forall v, byte_colour (pick v).
Proof. intros v. unfold byte_colour, pick. cbn [fst snd]. rewrite !land_ff. lia. Qed.

Lemma palette_loop_map : forall vs b i b', palette_loop b i vs = Ok b' -> 0 <= i -> map_ok (b_colours b) -> map_ok (b_colours b').
Proof.
  induction vs as [|v vs IH]; intros b i b' H I M; cbn [palette_loop] in H; [injection H as <-; exact M|].
  destruct (dget Z.eqb (b_colours b) (8 + i)) eqn:D; [|discriminate]. apply IH in H; [exact H|lia|].
  cbn [b_colours with_colours with_palette]. destruct M as (M1 & M2 & c & M3). split; [apply od_set_nodup; exact M1|].
  split; [apply od_set_bytes; [exact M2|apply (pick_byte v)]|]. exists c. rewrite dget_od_set. replace (0 =? 8 + i) with false by lia. exact M3.
Qed.

Lemma map_ok_run : forall bv rs b0 b, fbook0 bv true = Ok b0 -> frun b0 rs = Ok b -> map_ok (b_colours b).
Proof.
  intros bv rs b0 b F R.
  assert (M0 : map_ok (b_colours b0)).
  { split; [|split].
    3: { destruct (c56_initial _ _ F) as (pal & _ & _ & I). rewrite I.
         assert (PS : palette_size bv = 56 \/ palette_size bv = 16) by (unfold palette_size; destruct (50 <=? bv); auto).
         replace ((0 =? palette_size bv + 8) || (0 =? palette_size bv + 9) || (0 =? 81) || (0 =? 32767)) with false by lia.
         eexists. reflexivity. }
    all: unfold fbook0, initial_colours in F; apply bind_ok in F as (m & M & F); cbv zeta in M; apply bind_ok in M as (pal & PAL & M);
         injection F as <-; cbn [b_colours]; apply (f_equal (fun r => match r with Ok v => v | Err _ => [] end)) in M; subst m;
         destruct (palette_lengths _ _ PAL) as [_ PB]; destruct first_eight as [_ B8];
         destruct (set_colours_ok _ [] 0 (NoDup_nil _) (fun _ _ (i : In _ []) => match i with end) B8) as [N1 M1];
         destruct (set_colours_ok _ _ 8 N1 M1 PB) as [N2 M2].
    - repeat apply od_set_nodup. exact N2.
    - repeat apply od_set_none. exact M2. }
  clear F. revert b0 b M0 R. induction rs as [|[d r] rs IH]; intros b0 b M0 R; [injection R as <-; exact M0|].
  cbn [frun] in R. apply bind_ok in R as (b1 & S & R). refine (IH _ _ _ R). clear IH R.
  destruct r as [data|data|data f2|data|data|data];
    try (assert (RR : frun b0 [(d, _)] = Ok b1) by (cbn [frun]; rewrite S; reflexivity);
         apply frun_colours in RR; [destruct RR as [-> _]; exact M0|intros d0 data0 [Q|[]]; discriminate]).
  cbn [fstep] in S. unfold handle_palette in S. destruct (negb (b_fmt b0)); [injection S as <-; exact M0|].
  apply bind_ok in S as (n & _ & S). cbv zeta in S.
  destruct (negb ((4 * n + 2 <=? zlen data) && (zlen data <=? 4 * n + 2 + 4))); [discriminate|].
  apply bind_ok in S as (cs & _ & S). apply bind_ok in S as (u & _ & S). apply palette_loop_map in S; [exact S|lia|exact M0].
Qed.

Theorem c55_book : forall bv rs b0 b c, fbook0 bv true = Ok b0 -> frun b0 rs = Ok b -> byte_colour c ->
  first_nearest (b_colours b) c (nearest_colour_index (b_colours b) c) /\
  exists cand, dget Z.eqb (b_colours b) (nearest_colour_index (b_colours b) c) = Some (Some cand) /\
    forall k d, dget Z.eqb (b_colours b) k = Some (Some d) -> dist2 c cand <= dist2 c d.
Proof.
  intros bv rs b0 b c F R C. destruct (map_ok_run _ _ _ _ F R) as (N & M & c0 & Z0). split.
  - destruct (c55_nearest _ _ M C) as [G|[G _]]; [exact G|]. exfalso. apply dget_in in Z0. exact (G _ _ Z0).
  - apply c55_index; try assumption. exists 0, c0. exact Z0.
Qed.
Print Assumptions c55_book.
