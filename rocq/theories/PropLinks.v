(** Property theorems C30 and C68: hyperlinks. *)
From Verif Require Import Base BaseFacts Utf16 Strings StringFacts Framing GridModel GridFacts PropGrid
  SheetObjects SheetModel SheetFacts SheetSteps PropSheet PropRead SheetTrace.
From Verif Require Export LinkBytes.

(** ** C30: hyperlink_map and hyperlink_list *)

(** A hyperlink covers the cells of its rectangle. *)
Definition covers (h : hyperlink) (r k : Z) : bool :=
  (h_frowx h <=? r) && (r <=? h_lrowx h) && (h_fcolx h <=? k) && (k <=? h_lcolx h).

(** The last hyperlink of a list that covers a cell. *)
Definition last_link (l : list hyperlink) (r k : Z) : option hyperlink :=
  fold_left (fun acc h => if covers h r k then Some h else acc) l None.

(** A hyperlink apart from its quick tip. *)
Definition untip (h : hyperlink) : hyperlink :=
  mk_hyperlink (h_frowx h) (h_lrowx h) (h_fcolx h) (h_lcolx h) (h_type h) (h_url h) (h_desc h) (h_target h) (h_textmark h) None.

(** The data of the HLINK records among the records read. *)
Definition hlink_data (tr : list record) : list (list Z) :=
  flat_map (fun r : record => let '(rc, _, d) := r in if rc =? XL_HLINK then [d] else []) tr.

Definition last_idx (l : list hyperlink) (r k : Z) : option Z :=
  fst (fold_left (fun (acc : option Z * Z) h => (if covers h r k then Some (snd acc) else fst acc, snd acc + 1)) l (None, 0)).

Lemma last_idx_snoc : forall l h r k, last_idx (l ++ [h]) r k = if covers h r k then Some (zlen l) else last_idx l r k.
Proof.
  intros l h r k. unfold last_idx. rewrite fold_left_app. cbn [fold_left fst].
  assert (forall l (acc : option Z * Z),
    snd (fold_left (fun (acc : option Z * Z) h => (if covers h r k then Some (snd acc) else fst acc, snd acc + 1)) l acc) = snd acc + zlen l) as K.
  { induction l0 as [|a l0 IH]; intros acc; cbn [fold_left]; [change (zlen []) with 0; lia|]. rewrite IH, zlen_cons. cbn [snd]. lia. }
  rewrite K. reflexivity.
Qed.

Lemma last_link_snoc : forall l h r k, last_link (l ++ [h]) r k = if covers h r k then Some h else last_link l r k.
Proof. intros. unfold last_link. rewrite fold_left_app. reflexivity. Qed.

Lemma last_idx_link : forall l r k, match last_idx l r k with
  | Some i => 0 <= i < zlen l /\ znth l i = last_link l r k /\ exists h, last_link l r k = Some h
  | None => last_link l r k = None end.
Proof.
  intros l r k. induction l as [|h l IH] using rev_ind; [reflexivity|].
  rewrite last_idx_snoc, last_link_snoc, zlen_app. change (zlen [h]) with 1. pose proof (zlen_nonneg l).
  destruct (covers h r k).
  - split; [lia|]. rewrite znth_app_r by lia. rewrite Z.sub_diag. split; [reflexivity|eauto].
  - destruct (last_idx l r k) as [i|]; [|exact IH]. destruct IH as (Hi & E & X). split; [lia|]. rewrite znth_app_l by lia. auto.
Qed.

Lemma dget_cols : forall lo hi (idx : Z) rowx m r k,
  dget pair_eqb (fold_left (fun m colx => dset m (rowx, colx) idx) (zrange lo hi) m) (r, k) =
  if (r =? rowx) && (lo <=? k) && (k <? hi) then Some idx else dget pair_eqb m (r, k).
Proof.
  intros lo hi idx rowx. remember (Z.to_nat (hi - lo)) as n eqn:En. revert lo En.
  induction n as [|n IH]; intros lo En m r k.
  - rewrite (zrange_nil lo hi) by lia. cbn [fold_left]. destruct (_ && _) eqn:E; [lia|reflexivity].
  - rewrite (zrange_cons lo hi) by lia. cbn [fold_left]. rewrite IH by lia. cbn [dset dget]. unfold pair_eqb at 1. cbn [fst snd].
    destruct (r =? rowx) eqn:E1; cbn [andb]; [|reflexivity].
    destruct (k =? lo) eqn:E2.
    + replace ((lo + 1 <=? k) && (k <? hi)) with false by lia. replace ((lo <=? k) && (k <? hi)) with true by lia. reflexivity.
    + replace ((lo + 1 <=? k) && (k <? hi)) with ((lo <=? k) && (k <? hi)) by lia. reflexivity.
Qed.

Lemma dget_rect : forall c1 c2 (idx : Z) lo hi m r k,
  dget pair_eqb (fold_left (fun m rowx => fold_left (fun m colx => dset m (rowx, colx) idx) (zrange c1 c2) m) (zrange lo hi) m) (r, k) =
  if (lo <=? r) && (r <? hi) && (c1 <=? k) && (k <? c2) then Some idx else dget pair_eqb m (r, k).
Proof.
  intros c1 c2 idx lo hi. remember (Z.to_nat (hi - lo)) as n eqn:En. revert lo En.
  induction n as [|n IH]; intros lo En m r k.
  - rewrite (zrange_nil lo hi) by lia. cbn [fold_left]. destruct (_ && _) eqn:E; [lia|reflexivity].
  - rewrite (zrange_cons lo hi) by lia. cbn [fold_left]. rewrite IH by lia. rewrite dget_cols.
    destruct ((lo + 1 <=? r) && (r <? hi) && (c1 <=? k) && (k <? c2)) eqn:E1.
    + replace ((lo <=? r) && (r <? hi) && (c1 <=? k) && (k <? c2)) with true by lia. reflexivity.
    + replace ((lo <=? r) && (r <? hi) && (c1 <=? k) && (k <? c2)) with ((r =? lo) && (c1 <=? k) && (k <? c2)) by lia. reflexivity.
Qed.

Definition map_ok (l : links) : Prop := forall r k, dget pair_eqb (l_map l) (r, k) = last_idx (l_list l) r k.

Lemma map_ok_add : forall l h, map_ok l -> map_ok (add_link l h).
Proof.
  intros l h H r k. unfold add_link. cbn [l_map l_list]. rewrite dget_rect, last_idx_snoc, H. unfold covers.
  replace (r <? h_lrowx h + 1) with (r <=? h_lrowx h) by lia. replace (k <? h_lcolx h + 1) with (k <=? h_lcolx h) by lia. reflexivity.
Qed.

Lemma map_ok_link : forall l, map_ok l -> forall r k, link_at l r k = last_link (l_list l) r k.
Proof.
  intros l H r k. unfold link_at. rewrite H. pose proof (last_idx_link (l_list l) r k) as K.
  destruct (last_idx (l_list l) r k) as [i|]; [apply K|symmetry; exact K].
Qed.

Lemma set_tip_covers : forall h q r k, covers (set_quicktip h q) r k = covers h r k.
Proof. reflexivity. Qed.

Lemma quicktip_step : forall l d l', handle_quicktip l d = Ok l' ->
  exists before h q, l_list l = before ++ [h] /\ l' = mk_links (before ++ [set_quicktip h q]) (l_map l).
Proof.
  intros l d l' H. unfold handle_quicktip in H. repeat (apply bind_ok in H as (? & ? & H)).
  destruct (rev (l_list l)) as [|h before] eqn:E; [discriminate|]. repeat (apply bind_ok in H as (? & ? & H)). injection H as <-.
  exists (rev before), h. eexists. split; [|reflexivity]. rewrite <- (rev_involutive (l_list l)), E. reflexivity.
Qed.

Lemma map_ok_tip : forall l d l', handle_quicktip l d = Ok l' -> map_ok l -> map_ok l'.
Proof.
  intros l d l' H M r k. destruct (quicktip_step _ _ _ H) as (before & h & q & E & ->). cbn [l_map l_list].
  rewrite M, E, !last_idx_snoc. reflexivity.
Qed.

Lemma parse_no_tip : forall d h, parse_hlink d = Ok h -> h_quicktip h = None.
Proof.
  intros d h P. unfold parse_hlink in P. cbv zeta in P.
  repeat match type of P with
         | bind _ _ = _ => let x := fresh "x" in apply bind_ok in P as (x & _ & P); cbv beta in P
         | (let '(_, _) := ?x in _) = _ => destruct x
         end.
  injection P as <-. reflexivity.
Qed.

Lemma links_trace : forall {N} (c : config N) sh rs tr sh' rs', ran c sh rs tr sh' rs' -> forall ds,
  map_ok (o_links (sh_obj sh)) -> Forall2 (fun d h => parse_hlink d = Ok (untip h)) ds (l_list (o_links (sh_obj sh))) ->
  map_ok (o_links (sh_obj sh')) /\ Forall2 (fun d h => parse_hlink d = Ok (untip h)) (ds ++ hlink_data tr) (l_list (o_links (sh_obj sh'))).
Proof.
  intros N c sh rs tr sh' rs' H. induction H as [|sh rc len d rs sh1 rs1 tr sh2 rs2 E S H IH]; intros ds HM HF.
  - rewrite app_nil_r. auto.
  - unfold hlink_data. cbn [flat_map]. fold (hlink_data tr). rewrite app_assoc. apply IH; clear IH.
    + destruct (Z.eq_dec rc XL_HLINK) as [->|N1]; [|destruct (Z.eq_dec rc XL_QUICKTIP) as [->|N2]].
      * change (step c sh XL_HLINK len d rs) with (do l <- handle_hlink (o_links (sh_obj sh)) d; Ok (set_links sh l, rs)) in S.
        apply bind_ok in S as (l & E1 & E2). injection E2 as <- _. unfold handle_hlink in E1. apply bind_ok in E1 as (h & _ & E1).
        injection E1 as <-. apply (map_ok_add _ h HM).
      * change (step c sh XL_QUICKTIP len d rs) with (do l <- handle_quicktip (o_links (sh_obj sh)) d; Ok (set_links sh l, rs)) in S.
        apply bind_ok in S as (l & E1 & E2). injection E2 as <- _. exact (map_ok_tip _ _ _ E1 HM).
      * rewrite (la_links _ _ _ (step_alone c _ _ _ _ _ _ _ S) N1 N2). exact HM.
    + destruct (Z.eqb_spec rc XL_HLINK) as [->|N1]; [|rewrite app_nil_r; destruct (Z.eq_dec rc XL_QUICKTIP) as [->|N2]].
      * change (step c sh XL_HLINK len d rs) with (do l <- handle_hlink (o_links (sh_obj sh)) d; Ok (set_links sh l, rs)) in S.
        apply bind_ok in S as (l & E1 & E2). injection E2 as <- _. unfold handle_hlink in E1. apply bind_ok in E1 as (h & P & E1).
        injection E1 as <-. change (l_list (o_links (sh_obj (set_links sh (add_link (o_links (sh_obj sh)) h))))) with (l_list (o_links (sh_obj sh)) ++ [h]).
        apply Forall2_app; [exact HF|]. constructor; [|constructor]. rewrite P. f_equal.
        unfold untip. rewrite <- (parse_no_tip _ _ P). destruct h; reflexivity.
      * change (step c sh XL_QUICKTIP len d rs) with (do l <- handle_quicktip (o_links (sh_obj sh)) d; Ok (set_links sh l, rs)) in S.
        apply bind_ok in S as (l & E1 & E2). injection E2 as <- _. destruct (quicktip_step _ _ _ E1) as (before & h & q & E3 & ->).
        change (l_list (o_links (sh_obj (set_links sh (mk_links (before ++ [set_quicktip h q]) (l_map (o_links (sh_obj sh)))))))) with (before ++ [set_quicktip h q]).
        rewrite E3 in HF. apply Forall2_app_inv_r in HF as (d1 & d2 & F1 & F2 & ->). apply Forall2_app; [exact F1|].
        inversion F2 as [|? ? ? ? P F3]; subst. inversion F3; subst. constructor; [exact P|constructor].
      * rewrite (la_links _ _ _ (step_alone c _ _ _ _ _ _ _ S) N1 N2). exact HF.
Qed.

(** Every cell is sent to the last hyperlink of hyperlink_list that covers it, and
    no other cell is in the map; hyperlink_list has one entry for each HLINK record
    read, in order. *)
Theorem c30_links : forall {N} (c : config N) countries rs tr sh rs', ran c (sheet0 countries) rs tr sh rs' ->
  (forall r k, link_at (o_links (sh_obj sh)) r k = last_link (l_list (o_links (sh_obj sh))) r k) /\
  Forall2 (fun d h => parse_hlink d = Ok (untip h)) (hlink_data tr) (l_list (o_links (sh_obj sh))).
Proof.
  intros N c countries rs tr sh rs' H. destruct (links_trace c _ _ _ _ _ H []) as [H1 H2].
  - intros r k. reflexivity.
  - constructor.
  - split; [apply map_ok_link; exact H1|exact H2].
Qed.
Print Assumptions c30_links.

(** The quick tip of a hyperlink is the text of the QUICKTIP record that follows
    its HLINK record, whatever lies between, unless there is another HLINK. *)
Definition quicktip_data (h : hyperlink) (t : list Z) : list Z :=
  le_enc 2 XL_QUICKTIP ++ le_enc 2 (h_frowx h) ++ le_enc 2 (h_lrowx h) ++ le_enc 2 (h_fcolx h) ++ le_enc 2 (h_lcolx h) ++
  utf16_enc t ++ [0; 0].

Theorem c30_quicktip : forall {N} (c : config N) countries rs tr sh rs' before h t len rest,
  ran c (sheet0 countries) rs tr sh rs' -> l_list (o_links (sh_obj sh)) = before ++ [h] ->
  Forall u16v [h_frowx h; h_lrowx h; h_fcolx h; h_lcolx h] -> text t ->
  step c sh XL_QUICKTIP len (quicktip_data h t) rest =
    Ok (set_links sh (mk_links (before ++ [set_quicktip h t]) (l_map (o_links (sh_obj sh)))), rest).
Proof.
  intros N c countries rs tr sh rs' before h t len rest HR HL HU HT.
  change (step c sh XL_QUICKTIP len (quicktip_data h t) rest) with
    (do l <- handle_quicktip (o_links (sh_obj sh)) (quicktip_data h t); Ok (set_links sh l, rest)).
  unfold handle_quicktip. rewrite HL, rev_app_distr. cbn [rev app]. rewrite rev_involutive.
  inversion HU as [|? ? U1 HU1]; subst. inversion HU1 as [|? ? U2 HU2]; subst. inversion HU2 as [|? ? U3 HU3]; subst.
  inversion HU3 as [|? ? U4 _]; subst. clear HU HU1 HU2 HU3. unfold u16v in *.
  set (d := quicktip_data h t). assert (At d 0 (quicktip_data h t)) as A0 by apply At_0. unfold quicktip_data in A0.
  pose proof (At_skip _ _ _ _ 2 A0 ltac:(rewrite zlen_le_enc; lia)) as A1. pose proof (At_skip _ _ _ _ 4 A1 ltac:(rewrite zlen_le_enc; lia)) as A2.
  pose proof (At_skip _ _ _ _ 6 A2 ltac:(rewrite zlen_le_enc; lia)) as A3. pose proof (At_skip _ _ _ _ 8 A3 ltac:(rewrite zlen_le_enc; lia)) as A4.
  pose proof (At_skip _ _ _ _ 10 A4 ltac:(rewrite zlen_le_enc; lia)) as A5.
  pose proof (At_len _ _ _ A5) as LD. rewrite zlen_app in LD. change (zlen [0; 0]) with 2 in LD. pose proof (zlen_nonneg (utf16_enc t)).
  assert (need d 10 = Ok tt) as ->.
  { unfold need. rewrite py_slice_len, !py_bound_id by lia. reflexivity. }
  cbn [bind]. rewrite (At_u16 _ _ _ _ A0), (At_u16 _ _ _ _ A1), (At_u16 _ _ _ _ A2), (At_u16 _ _ _ _ A3), (At_u16 _ _ _ _ A4) by (unfold XL_QUICKTIP; lia).
  cbn [bind]. rewrite Z.eqb_refl. cbn [guard bind]. rewrite !Z.eqb_refl. cbn [andb guard bind].
  assert (py_from d (-2) = [0; 0]) as ->.
  { pose proof (At_skip _ _ _ _ (10 + zlen (utf16_enc t)) A5 eq_refl) as A6. rewrite <- (At_from _ _ _ A6).
    unfold py_from. f_equal. unfold py_bound. destruct (-2 <? 0) eqn:?, (_ + _ <? 0) eqn:?; lia. }
  cbn [list_eqb]. rewrite !Z.eqb_refl. cbn [andb guard bind].
  assert (py_slice d 10 (-2) = utf16_enc t) as ->.
  { rewrite <- (At_slice _ _ _ _ (10 + zlen (utf16_enc t)) A5 eq_refl). unfold py_slice.
    replace (py_bound (zlen d) (-2)) with (py_bound (zlen d) (10 + zlen (utf16_enc t))); [reflexivity|].
    unfold py_bound. destruct (-2 <? 0) eqn:?, (_ + _ <? 0) eqn:?; lia. }
  rewrite utf16_dec_enc by exact HT. reflexivity.
Qed.
Print Assumptions c30_quicktip.

(** ** C68: hyperlink records *)

(** The layout of a hyperlink record, [hlink_bytes], is in LinkBytes.v. *)

(** A hyperlink record is read back as what it was made from. *)
Theorem c68_hlink : forall p rest, hspec_ok p ->
  parse_hlink (hlink_bytes p ++ rest) =
    Ok (mk_hyperlink (p_r1 p) (p_r2 p) (p_c1 p) (p_c2 p) (Some (goal_type (p_goal p))) (goal_path (p_goal p))
          (p_desc p) (p_target p) (p_textmark p) None).
Proof. exact hlink_reads. Qed.
Print Assumptions c68_hlink.

(** A link with a description, a URL and a text mark; one to a file. *)
Definition ex_link : hspec := mk_hspec 1 2 3 4 (Some [104; 105]) None (GUrl [104; 116; 116; 112] (repeat 7 24)) (Some [65; 128512]).
Definition ex_link2 : hspec := mk_hspec 0 5 3 3 None None (GFile 1 [97; 46; 120] (repeat 0 24)) None.
Ltac txt := unfold text; repeat (apply Forall_cons; [unfold scalar; lia|]); apply Forall_nil.
Example c68_example : hspec_ok ex_link /\ hspec_ok ex_link2 /\
  match parse_hlink (hlink_bytes ex_link ++ [1]) with Ok h => h_url h = Some (UText [104; 116; 116; 112]) | Err _ => False end /\
  match parse_hlink (hlink_bytes ex_link2) with Ok h => h_url h = Some (UBytes [46; 46; 92; 97; 46; 120]) | Err _ => False end.
Proof.
  split; [|split; [|split; vm_compute; reflexivity]].
  - unfold hspec_ok, ex_link. cbn [p_r1 p_r2 p_c1 p_c2 p_desc p_target p_goal p_textmark opt_ok goal_ok].
    split; [unfold u16v; repeat constructor; lia|].
    split; [split; [txt|vm_compute; reflexivity]|]. split; [exact I|].
    split; [|split; [split; [txt|vm_compute; reflexivity]|discriminate]].
    split; [txt|]. split; [repeat constructor; lia|]. split; [right; reflexivity|].
    split; [eexists; vm_compute; reflexivity|vm_compute; reflexivity].
  - unfold hspec_ok, ex_link2. cbn [p_r1 p_r2 p_c1 p_c2 p_desc p_target p_goal p_textmark opt_ok goal_ok].
    split; [unfold u16v; repeat constructor; lia|]. split; [exact I|]. split; [exact I|].
    split; [split; [unfold u16v; lia|split; [vm_compute; reflexivity|reflexivity]]|]. split; [exact I|discriminate].
Qed.

(** A URL with a character outside the basic multilingual plane cannot be read:
    the assertion about the bytes after the URL fails. *)
Theorem c68_astral_url_refuted : exists p, text [128512] /\ p_goal p = GUrl [128512] [] /\
  parse_hlink (hlink_bytes p) = Err AssertionError.
Proof.
  exists (mk_hspec 0 0 0 0 None None (GUrl [128512] []) None). split; [repeat constructor; unfold scalar; lia|].
  split; [reflexivity|]. vm_compute. reflexivity.
Qed.
Print Assumptions c68_astral_url_refuted.

(** The hyperlinks of c68_example in one sheet: the second replaces the first where they overlap. *)
Example c30_example :
  let c := ex_config false in
  let rs := map rec_of [(XL_HLINK, hlink_bytes ex_link); (XL_HLINK, hlink_bytes ex_link2); (XL_EOF, [])] in
  match sheet_read c (0, 0) rs with
  | Ok sh => map (fun p : Z * Z => option_map h_frowx (link_at (o_links (sh_obj sh)) (fst p) (snd p))) [(1, 3); (1, 4); (3, 3); (3, 4)]
             = [Some 0; Some 1; Some 0; None]
  | Err _ => False
  end.
Proof. vm_compute. reflexivity. Qed.
