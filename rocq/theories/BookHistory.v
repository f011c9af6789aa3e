(** Lemmas about BookApi.v: what a history of sheet accesses keeps. *)
From Verif Require Import Base BaseFacts Text Strings Framing GridModel GridFacts SheetObjects SheetModel SstModel FormatModel
  FormulaModel CompDoc BookModel PropEnc BookFacts BookSheets BookApi SheetShare.

(** A Python index as one counted from the start. *)
Definition norm (n i : Z) : Z := if i <? 0 then i + n else i.

Lemma py_index_norm : forall {A} (l : list A) i, py_index l i = match znth l (norm (zlen l) i) with Some a => Ok a | None => Err IndexError end.
Proof. reflexivity. Qed.

Lemma py_index_ok : forall {A} (l : list A) i a, py_index l i = Ok a <-> znth l (norm (zlen l) i) = Some a.
Proof. intros A l i a. rewrite py_index_norm. destruct (znth _ _); split; congruence. Qed.

Lemma list_set_ok : forall {A} (l : list A) i a l', list_set l i a = Ok l' ->
  0 <= norm (zlen l) i < zlen l /\ l' = zset l (norm (zlen l) i) a.
Proof.
  intros A l i a l' H. unfold list_set in H. fold (norm (zlen l) i) in H. destruct (_ && _) eqn:E in H; [|discriminate].
  injection H as <-. split; [lia|reflexivity].
Qed.

Lemma list_set_norm : forall {A} (l : list A) i a, 0 <= norm (zlen l) i < zlen l -> list_set l i a = Ok (zset l (norm (zlen l) i) a).
Proof.
  intros A l i a H. unfold list_set. fold (norm (zlen l) i). replace (_ && _) with true by lia. reflexivity.
Qed.

Lemma norm_norm : forall n i, 0 <= norm n i -> norm n (norm n i) = norm n i.
Proof. intros n i H. unfold norm at 1. destruct (_ <? 0) eqn:E; [lia|reflexivity]. Qed.

Lemma index_of_range : forall names name i, index_of names name = Ok i -> 0 <= i < zlen names.
Proof.
  induction names as [|x r IH]; intros name i H; cbn [index_of] in H; [discriminate|]. rewrite zlen_cons.
  pose proof (zlen_nonneg r). destruct (list_eqb x name); [injection H as <-; lia|].
  apply bind_ok in H as (k & E & H). injection H as <-. apply IH in E. lia.
Qed.

Section Lengths.
Context {N : Type}.
Variable codec : list Z -> list Z -> result (list Z).
Notation loaded := (loaded (N := N)).
Notation book := (book N loaded).

(** The three lists of worksheets go together. *)
Definition lengths (b : book) : Prop :=
  zlen (sl_visibility (bk_sheets b)) = zlen (sl_names (bk_sheets b)) /\
  zlen (sl_posn (bk_sheets b)) = zlen (sl_names (bk_sheets b)).

Lemma boundsheet_lengths : forall bv base offset enc s data s', handle_boundsheet codec bv base offset enc s data = Ok s' ->
  zlen (sl_visibility s) = zlen (sl_names s) -> zlen (sl_posn s) = zlen (sl_names s) ->
  zlen (sl_visibility s') = zlen (sl_names s') /\ zlen (sl_posn s') = zlen (sl_names s').
Proof.
  intros bv base offset enc s data s' H V P. unfold handle_boundsheet in H. apply bind_ok in H as ([[[name v] t] p] & _ & H).
  destruct (negb (t =? 0)); injection H as <-; cbn [sl_names sl_visibility sl_posn]; [auto|]. rewrite !zlen_app. cbn. lia.
Qed.

Lemma sheethdr_sheets : forall (ld : book -> list Z -> Z -> list Z -> Z -> result (shared * loaded)) b mem pos data b' p,
  handle_sheethdr codec ld b mem pos data = Ok (b', p) -> bk_bv b' = bk_bv b /\ bk_sheets b' = bk_sheets b.
Proof.
  intros ld b mem pos data b' p H. unfold handle_sheethdr in H. apply bind_ok in H as (b1 & D & H).
  destruct (derive_alike _ _ _ D) as ([D1 D2 D3 D4 D5] & _).
  apply bind_ok in H as (? & _ & H). apply bind_ok in H as (? & _ & H). apply bind_ok in H as (? & _ & H).
  apply bind_ok in H as (? & _ & H). cbv zeta in H. apply bind_ok in H as ([? ?] & _ & H). apply bind_ok in H as ([g sh] & _ & H).
  apply bind_ok in H as (l & _ & H). injection H as <- <-. cbn. auto.
Qed.

Lemma gstep_lengths : forall (ld : book -> list Z -> Z -> list Z -> Z -> result (shared * loaded)) b mem pos rc data b' p,
  gstep codec ld b mem pos rc data = Ok (b', p) ->
  bk_bv b' = bk_bv b /\ (lengths b -> lengths b').
Proof.
  intros ld b mem pos rc data b' p H. unfold lengths.
  destruct (Z.eq_dec rc 0x85) as [->|N1].
  { apply gstep_boundsheet in H as (bd & s & D & HB & -> & ->). destruct (derive_alike _ _ _ D) as ([D1 D2 D3 D4 D5] & _).
    split; [exact D1|]. intros [V P]. rewrite D3 in HB. exact (boundsheet_lengths _ _ _ _ _ _ _ HB V P). }
  destruct (Z.eq_dec rc 0x42) as [->|N2].
  { apply gstep_codepage in H as (c & _ & K1 & _ & K3 & _). rewrite K1, K3. auto. }
  destruct (Z.eq_dec rc 0x8f) as [->|N3].
  { apply sheethdr_sheets in H as [K1 K3]. rewrite K1, K3. auto. }
  destruct (gstep_alike _ _ _ _ _ _ _ _ _ H N1 N2 N3) as [K1 _ K3 _ _]. rewrite K1, K3. auto.
Qed.

Lemma globals_lengths : forall (ops : numops N) (lower : list Z -> list Z) (ld : book -> list Z -> Z -> list Z -> Z -> result (shared * loaded)) fuel b mem pos b' p,
  globals codec ops lower ld fuel b mem pos = Ok (b', p) -> bk_bv b' = bk_bv b /\ (lengths b -> lengths b').
Proof.
  intros ops lower ld. induction fuel as [|f IH]; intros b mem pos b' p H; [discriminate|]. cbn [globals] in H.
  apply bind_ok in H as ([[[rc len] data] p1] & _ & H). destruct (rc =? 0x0a).
  - apply bind_ok in H as (b1 & E & H). injection H as -> _. destruct (globals_end_alike _ _ _ _ _ E) as [K1 _ K3 _ _].
    unfold lengths. rewrite K1, K3. auto.
  - apply bind_ok in H as ([b1 p2] & G & H). destruct (gstep_lengths _ _ _ _ _ _ _ _ G) as [K1 K2].
    destruct (IH _ _ _ _ _ H) as [L1 L2]. split; [congruence|auto].
Qed.

End Lengths.

Section History.
Context {N : Type}.
Variable codec : list Z -> list Z -> result (list Z).
Variable num8 : list Z -> N.
Variable rk : list Z -> result N.
Variable ragged : bool.
Notation loaded := (loaded (N := N)).
Notation api := (api (N := N)).
Notation book := (book N loaded).
Variable old : book -> list Z -> Z -> list Z -> Z -> result (shared * loaded).

Notation load := (load codec num8 rk ragged old).
Notation get_sheet := (get_sheet codec num8 rk ragged old).
Notation get_sheets_in := (get_sheets_in codec num8 rk ragged old).
Notation perform := (perform codec num8 rk ragged old).
Notation history := (history codec num8 rk ragged old).

(** ** Loading one sheet *)

(** What a sheet object says about its worksheet: everything but its number and the
    countries of the book. *)
Definition content (l : loaded) : list Z * Z * sheet N := (ls_name l, ls_visibility l, set_c (ls_sheet l) (0, 0)).

(** [b0], as it may look later on. *)
Definition later (b0 : book) (k : Z * Z) (l : list (option loaded)) : book := with_list (set_countries b0 k) l.
Definition k_ok (b0 : book) (k : Z * Z) : Prop := k = g_countries (bk_shared b0) \/ g_countries (bk_shared b0) = (0, 0).

Definition fresh (b0 : book) (mem : list Z) (i : Z) (sh : loaded) : Prop :=
  exists b' sh0, get_sheet b0 mem i = Ok (b', sh0) /\ content sh = content sh0.

Lemma get_sheet_later : forall b0 mem k l i b' sh, 45 < bk_bv b0 -> lengths b0 ->
  zlen (bk_list b0) = zlen (sl_names (bk_sheets b0)) -> zlen l = zlen (sl_names (bk_sheets b0)) -> k_ok b0 k ->
  get_sheet (later b0 k l) mem i = Ok (b', sh) ->
  let j := norm (zlen l) i in
  0 <= j < zlen l /\ fresh b0 mem j sh /\ exists k', k_ok b0 k' /\ b' = later b0 k' (zset l j (Some sh)).
Proof.
  intros b0 mem k l i b' sh V [LV LP] LB LL K H j. unfold BookApi.get_sheet in H.
  change (bk_sheets (later b0 k l)) with (bk_sheets b0) in H. change (bk_list (later b0 k l)) with l in H.
  apply bind_ok in H as (posn & E1 & H). apply bind_ok in H as ([ver p] & E2 & H). apply bind_ok in H as (name & E3 & H).
  apply bind_ok in H as ([g s] & E4 & H). apply bind_ok in H as (l' & E5 & H). injection H as <- <-.
  apply list_set_ok in E5 as [R ->]. fold j in R |- *. split; [exact R|].
  unfold BookApi.load in E4. change (bk_bv (later b0 k l)) with (bk_bv b0) in E4.
  replace (bk_bv b0 <=? 45) with false in E4 by lia.
  change (bk_sheets (later b0 k l)) with (bk_sheets b0) in E4.
  change (config_of codec num8 rk ragged (later b0 k l)) with (config_of codec num8 rk ragged b0) in E4.
  change (g_countries (bk_shared (later b0 k l))) with k in E4.
  apply bind_ok in E4 as (vis & F1 & E4). cbv zeta in E4. apply bind_ok in E4 as (sd & F2 & E4).
  assert (JN : norm (zlen l) j = j) by (apply norm_norm; fold j; lia).
  apply py_index_ok in E1. rewrite LP, <- LL in E1. fold j in E1.
  apply py_index_ok in E3. rewrite <- LL in E3. fold j in E3.
  apply py_index_ok in F1. rewrite LV, <- LL in F1. fold j in F1.
  injection E4 as <- <-.
  split.
  - destruct (sheet_read_weaker _ k (g_countries (bk_shared b0)) _ _ F2) as (k2 & F2').
    { destruct K as [K|K]; [left; congruence|right; exact K]. }
    unfold fresh. exists (later b0 k2 (zset (bk_list b0) j (Some (mk_loaded j name vis (set_c sd k2))))), (mk_loaded j name vis (set_c sd k2)).
    split; [|reflexivity]. unfold BookApi.get_sheet.
    rewrite (py_index_some _ _ _ E1), bind_Ok, E2, bind_Ok, (py_index_some _ _ _ E3), bind_Ok.
    unfold BookApi.load. replace (bk_bv b0 <=? 45) with false by lia.
    rewrite (py_index_some _ _ _ F1), bind_Ok. cbv zeta. rewrite F2', !bind_Ok.
    rewrite list_set_spec by lia. reflexivity.
  - exists (sh_countries sd). split; [|reflexivity].
    destruct (sheet_read_countries _ _ _ _ F2) as [C|C]; unfold k_ok in *; [rewrite C; exact K|].
    destruct K as [K|K]; [right; congruence|right; exact K].
Qed.

(** ** Histories *)

Section From.
Variable b0 : book.
Variable mem : list Z.
Hypothesis V : 45 < bk_bv b0.
Hypothesis LS : lengths b0.
Hypothesis LB : zlen (bk_list b0) = zlen (sl_names (bk_sheets b0)).
Let n := zlen (sl_names (bk_sheets b0)).

Definition Inv (a : api) : Prop := exists k l,
  a_book a = later b0 k l /\ k_ok b0 k /\ zlen l = n /\
  (forall i sh, znth l i = Some (Some sh) -> fresh b0 mem i sh) /\
  (a_mem a = None \/ a_mem a = Some mem).

Lemma m_get_sheet_inv : forall after a i r a', Inv a -> m_get_sheet codec num8 rk ragged old after a i = (r, a') ->
  Inv a' /\ match r with
            | Ok sh => fresh b0 mem (norm n i) sh /\ 0 <= norm n i < n /\
                       bk_list (a_book a') = zset (bk_list (a_book a)) (norm n i) (Some sh)
            | Err _ => bk_list (a_book a') = bk_list (a_book a)
            end.
Proof.
  intros after [ab am] i r a' (k & l & E & K & L & F & M) H. cbn [a_book a_mem] in *. subst ab. unfold m_get_sheet in H.
  cbn [a_book a_mem] in H. destruct am as [m|]; [|injection H as <- <-; split; [exists k, l; auto 6|reflexivity]].
  assert (m = mem) as -> by (destruct M as [M|M]; congruence).
  destruct (get_sheet (later b0 k l) mem i) as [[b' sh]|e] eqn:G; injection H as <- <-.
  - destruct (get_sheet_later _ _ _ _ _ _ _ V LS LB L K G) as (R & FR & k' & K' & ->). rewrite L in *.
    split; [|split; [exact FR|split; [exact R|reflexivity]]].
    exists k', (zset l (norm n i) (Some sh)). cbn [a_book a_mem]. split; [reflexivity|]. split; [exact K'|].
    split; [rewrite zlen_zset by (rewrite L; exact R); exact L|]. split; [|auto].
    intros j s. rewrite znth_zset by (rewrite L; exact R). destruct (j =? norm n i) eqn:Q; [|apply F].
    intros [= <-]. replace j with (norm n i) by lia. exact FR.
  - split; [|reflexivity].
    exists (countries_after after (later b0 k l)), l. cbn [a_book a_mem]. split; [reflexivity|]. split; [|auto].
    unfold countries_after, k_ok. change (g_countries (bk_shared (later b0 k l))) with k.
    destruct (pair_eqb k (0, 0)) eqn:Q; [|exact K].
    assert (k = (0, 0)) as -> by (destruct k as [u v]; unfold pair_eqb in Q; cbn [fst snd] in Q; f_equal; lia).
    destruct K as [K|K]; right; congruence.
Qed.

Lemma m_sheet_by_index_inv : forall after a i r a', Inv a -> m_sheet_by_index codec num8 rk ragged old after a i = (r, a') ->
  Inv a' /\ (forall j sh, znth (bk_list (a_book a)) j = Some (Some sh) -> znth (bk_list (a_book a')) j = Some (Some sh)) /\
  match r with
  | Ok sh => fresh b0 mem (norm n i) sh /\ 0 <= norm n i < n /\ znth (bk_list (a_book a')) (norm n i) = Some (Some sh)
  | Err _ => True
  end.
Proof.
  intros after a i r a' I H. unfold m_sheet_by_index in H.
  pose proof I as (k & l & E & K & L & F & M). assert (BL : bk_list (a_book a) = l) by (rewrite E; reflexivity).
  rewrite BL in *. rewrite py_index_norm, L in H.
  destruct (znth l (norm n i)) as [[sh|]|] eqn:Z1.
  - injection H as <- <-. rewrite BL. repeat split; auto; pose proof (znth_Some_range _ _ _ Z1); lia.
  - destruct (m_get_sheet_inv _ _ _ _ _ I H) as [I' Q]. destruct r as [sh|e].
    + destruct Q as (Q1 & Q2 & Q3). rewrite BL in Q3. rewrite Q3. split; [exact I'|]. split.
      * intros j s J. rewrite znth_zset by lia. destruct (j =? norm n i) eqn:X; [|exact J].
        replace j with (norm n i) in J by lia. congruence.
      * split; [exact Q1|]. split; [exact Q2|]. rewrite znth_zset by lia. rewrite Z.eqb_refl. reflexivity.
    + rewrite Q, BL. auto.
  - injection H as <- <-. rewrite BL. auto.
Qed.

Lemma m_iterate_inv : forall after numbers a r a', Inv a -> Forall (fun i => 0 <= i) numbers ->
  m_iterate codec num8 rk ragged old after a numbers = (r, a') ->
  Inv a' /\ match r with
            | Ok l => Forall2 (fun i x => exists sh, x = Some sh /\ fresh b0 mem i sh) numbers l
            | Err _ => True
            end.
Proof.
  intros after. induction numbers as [|i rest IH]; intros a r a' I P H; cbn [m_iterate] in H.
  - injection H as <- <-. split; [exact I|constructor].
  - inversion P as [|? ? P1 P2]; subst.
    destruct (m_sheet_by_index _ _ _ _ _ _ _ _) as [[sh|e] a1] eqn:E.
    + destruct (m_sheet_by_index_inv _ _ _ _ _ I E) as (I1 & _ & F & _).
      destruct (m_iterate _ _ _ _ _ _ a1 rest) as [[l|e] a2] eqn:E2; injection H as <- <-.
      * destruct (IH _ _ _ I1 P2 E2) as [I2 Q]. split; [exact I2|]. constructor; [|exact Q].
        exists sh. split; [reflexivity|]. unfold norm in F. replace (i <? 0) with false in F by lia. exact F.
      * destruct (IH _ _ _ I1 P2 E2) as [I2 _]. auto.
    + injection H as <- <-. destruct (m_sheet_by_index_inv _ _ _ _ _ I E) as (I1 & _). auto.
Qed.

Lemma m_load_all_inv : forall after numbers a r a', Inv a -> Forall (fun i => 0 <= i < n) numbers ->
  m_load_all codec num8 rk ragged old after a numbers = (r, a') ->
  Inv a' /\ (forall j sh, znth (bk_list (a_book a)) j = Some (Some sh) -> znth (bk_list (a_book a')) j = Some (Some sh)) /\
  match r with
  | Ok _ => Forall (fun i => exists sh, znth (bk_list (a_book a')) i = Some (Some sh)) numbers
  | Err _ => True
  end.
Proof.
  intros after. induction numbers as [|i rest IH]; intros a r a' I P H; cbn [m_load_all] in H.
  - injection H as <- <-. auto.
  - inversion P as [|? ? P1 P2]; subst.
    assert (S : m_sheet_by_index codec num8 rk ragged old after a i =
      match py_index (bk_list (a_book a)) i with
      | Err e => (Err e, a)
      | Ok (Some sh) => (Ok sh, a)
      | Ok None => m_get_sheet codec num8 rk ragged old after a i
      end) by reflexivity.
    assert (T : (match m_sheet_by_index codec num8 rk ragged old after a i with
                 | (Err e, a) => (Err e, a)
                 | (Ok _, a) => m_load_all codec num8 rk ragged old after a rest
                 end) = (r, a')).
    { rewrite S. destruct (py_index (bk_list (a_book a)) i) as [[sh|]|e]; exact H. }
    clear S H. destruct (m_sheet_by_index _ _ _ _ _ _ _ _) as [[sh|e] a1] eqn:E.
    + destruct (m_sheet_by_index_inv _ _ _ _ _ I E) as (I1 & M1 & _ & _ & F).
      destruct (IH _ _ _ I1 P2 T) as (I2 & M2 & Q). split; [exact I2|]. split; [auto|].
      destruct r; [|exact Logic.I]. constructor; [|exact Q]. exists sh. apply M2.
      unfold norm in F. replace (i <? 0) with false in F by lia. exact F.
    + injection T as <- <-. destruct (m_sheet_by_index_inv _ _ _ _ _ I E) as (I1 & M1 & _). auto.
Qed.

Definition says (c : call) (x : answer (N := N)) : Prop :=
  match c, x with
  | SheetByIndex i, Got sh => fresh b0 mem (norm n i) sh /\ 0 <= norm n i < n
  | SheetByName name, Got sh => exists i, index_of (sl_names (bk_sheets b0)) name = Ok i /\ fresh b0 mem i sh
  | Sheets, GotAll l | Iterate, GotAll l =>
      Forall2 (fun i x => exists sh, x = Some sh /\ fresh b0 mem i sh) (zrange 0 n) l
  | SheetLoaded _, GotBool _ | SheetLoadedName _, GotBool _ => True
  | UnloadSheet _, Done | UnloadSheetName _, Done | ReleaseResources, Done => True
  | _, _ => False
  end.

Lemma m_unload_inv : forall a i, Inv a -> Inv (snd (m_unload a i)).
Proof.
  intros a i (k & l & E & K & L & F & M). unfold m_unload. rewrite E.
  change (bk_list (later b0 k l)) with l.
  destruct (list_set l i None) as [l'|e] eqn:S; cbn [snd]; [|exists k, l; auto 6].
  apply list_set_ok in S as [R ->]. exists k, (zset l (norm (zlen l) i) None). cbn [a_book a_mem].
  split; [reflexivity|]. split; [exact K|]. split; [rewrite zlen_zset by exact R; exact L|]. split; [|exact M].
  intros j sh. rewrite znth_zset by exact R. destruct (j =? _); [discriminate|]. apply F.
Qed.

Lemma perform_inv : forall after a c r a', Inv a -> perform after a c = (r, a') ->
  Inv a' /\ match r with Ok x => says c x | Err _ => True end.
Proof.
  intros after a c r a' I H. pose proof I as (k & l & E & K & L & F & M).
  assert (BL : bk_list (a_book a) = l) by (rewrite E; reflexivity).
  assert (NM : sl_names (bk_sheets (a_book a)) = sl_names (bk_sheets b0)) by (rewrite E; reflexivity).
  assert (NS : nsheets a = n) by (unfold nsheets; rewrite BL; exact L).
  assert (P : Forall (fun i => 0 <= i < n) (zrange 0 n)) by (apply Forall_forall; intros x X; apply in_zrange in X; exact X).
  destruct c as [i|name| | |i|name|i|name|]; cbn [BookApi.perform] in H; rewrite ?NM, ?NS in H.
  - unfold got in H. destruct (m_sheet_by_index _ _ _ _ _ _ _ _) as [[sh|e] a1] eqn:S; injection H as <- <-;
      destruct (m_sheet_by_index_inv _ _ _ _ _ I S) as (I1 & _ & Q); [|auto]. destruct Q as (Q1 & Q2 & _). cbn [says]. auto.
  - destruct (index_of (sl_names (bk_sheets b0)) name) as [i|e] eqn:IX; [|injection H as <- <-; auto].
    pose proof (index_of_range _ _ _ IX) as R.
    unfold got in H. destruct (m_sheet_by_index _ _ _ _ _ _ _ _) as [[sh|e] a1] eqn:S; injection H as <- <-;
      destruct (m_sheet_by_index_inv _ _ _ _ _ I S) as (I1 & _ & Q); [|auto]. destruct Q as (Q1 & Q2 & _). split; [exact I1|].
    exists i. split; [exact IX|]. unfold norm in Q1. replace (i <? 0) with false in Q1 by lia. exact Q1.
  - destruct (m_load_all _ _ _ _ _ _ _ _) as [[u|e] a1] eqn:S; injection H as <- <-;
      destruct (m_load_all_inv _ _ _ _ _ I P S) as (I1 & _ & Q); [|auto]. split; [exact I1|]. cbn [says].
    destruct I1 as (k1 & l1 & E1 & _ & L1 & F1 & _). rewrite E1 in *. change (bk_list (later b0 k1 l1)) with l1 in *.
    clear - Q L1 F1. rewrite <- L1 in *. clear L1.
    assert (G : forall l m, 0 <= m -> Forall (fun i => exists sh, znth l (i - m) = Some (Some sh)) (zrange m (m + zlen l)) ->
              (forall i sh, znth l i = Some (Some sh) -> fresh b0 mem (i + m) sh) ->
              Forall2 (fun i x => exists sh, x = Some sh /\ fresh b0 mem i sh) (zrange m (m + zlen l)) l).
    { clear. induction l as [|x l IH]; intros m M A B.
      - rewrite zrange_nil by (cbn; lia). constructor.
      - pose proof (zlen_nonneg l). rewrite zlen_cons in *. rewrite zrange_cons in * by lia.
        replace (m + (1 + zlen l)) with (m + 1 + zlen l) in * by lia.
        apply Forall_cons_iff in A as [(sh & A1) A2]. replace (m - m) with 0 in A1 by lia. cbn in A1. injection A1 as ->.
        constructor; [exists sh; split; [reflexivity|]; exact (B 0 sh eq_refl)|].
        apply IH; [lia| |].
        + rewrite Forall_forall in *. intros i J. destruct (A2 i J) as (s & S). apply in_zrange in J.
          rewrite znth_cons in S by lia. exists s. rewrite <- S. f_equal. lia.
        + intros i s S. pose proof (znth_Some_range _ _ _ S). replace (i + (m + 1)) with (i + 1 + m) by lia.
          apply B. rewrite znth_cons by lia. rewrite <- S. f_equal. lia. }
    apply (G l1 0); [lia| |].
    + rewrite Forall_forall in *. intros i J. destruct (Q i J) as (s & S). exists s. rewrite <- S. f_equal. lia.
    + intros i s S. replace (i + 0) with i by lia. auto.
  - destruct (m_iterate _ _ _ _ _ _ _ _) as [[l1|e] a1] eqn:S; injection H as <- <-;
      destruct (m_iterate_inv _ _ _ _ _ I (Forall_impl _ (fun i H => proj1 H) P) S) as (I1 & Q); auto.
  - injection H as <- <-. split; [exact I|]. unfold m_loaded. destruct (py_index _ _); cbn [bind]; exact Logic.I.
  - destruct (index_of _ name); injection H as <- <-; (split; [exact I|]); [|exact Logic.I].
    unfold m_loaded. destruct (py_index _ _); cbn [bind]; exact Logic.I.
  - pose proof (m_unload_inv a i I) as J. rewrite H in J. split; [exact J|].
    unfold m_unload in H. destruct (list_set _ _ _); injection H as <- <-; exact Logic.I.
  - destruct (index_of _ name) as [i|]; [|injection H as <- <-; auto].
    pose proof (m_unload_inv a i I) as J. rewrite H in J. split; [exact J|].
    unfold m_unload in H. destruct (list_set _ _ _); injection H as <- <-; exact Logic.I.
  - injection H as <- <-. split; [|exact Logic.I]. exists k, l. cbn [a_book a_mem]. auto 7.
Qed.

Lemma history_inv : forall h a, Inv a ->
  Inv (snd (history a h)) /\
  forall j c k r, nth_error h j = Some (c, k) -> nth_error (fst (history a h)) j = Some r ->
    match r with Ok x => says c x | Err _ => True end.
Proof.
  induction h as [|[c k] h IH]; intros a I; cbn [BookApi.history].
  - split; [exact I|]. intros [|]; discriminate.
  - destruct (perform k a c) as [r a1] eqn:P. destruct (perform_inv _ _ _ _ _ I P) as [I1 Q].
    specialize (IH a1 I1). destruct (history a1 h) as [rs a2] eqn:H. cbn [fst snd] in *. destruct IH as [I2 J].
    split; [exact I2|]. intros [|j] c' k' r' A B; cbn [nth_error] in A, B.
    + injection A as <- <-. injection B as <-. exact Q.
    + eapply J; eassumption.
Qed.
End From.
End History.
