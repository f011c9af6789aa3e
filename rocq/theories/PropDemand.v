(** C42: loading sheets on demand. *)
From Verif Require Import Base BaseFacts Text Strings Framing GridModel GridFacts SheetObjects SheetModel SstModel FormatModel
  FormulaModel CompDoc BookModel PropEnc BookFacts BookSheets BookApi SheetShare BookHistory PropGlobals PropFormulaText.

(** ** Specification *)

(** What a Sheet object tells about its worksheet: everything it was read into except
    its number; the countries belong to the book. *)
Definition same_content {N} (s t : loaded (N := N)) : Prop :=
  ls_name s = ls_name t /\ ls_visibility s = ls_visibility t /\
  sh_grid (ls_sheet s) = sh_grid (ls_sheet t) /\ sh_fmt (ls_sheet s) = sh_fmt (ls_sheet t) /\
  sh_view (ls_sheet s) = sh_view (ls_sheet t) /\ sh_obj (ls_sheet s) = sh_obj (ls_sheet t).

(** [i] is the first place of [name]. *)
Definition first_place (names : list (list Z)) (name : list Z) (i : Z) : Prop :=
  znth names i = Some name /\ forall j, 0 <= j < i -> znth names j <> Some name.

Lemma Forall2_znth : forall {A B} (R : A -> B -> Prop) l m, Forall2 R l m ->
  zlen l = zlen m /\ forall i a b, znth l i = Some a -> znth m i = Some b -> R a b.
Proof.
  intros A B R l m F. induction F as [|x y l m XY F [L IH]]; [split; [reflexivity|]|].
  - intros i a b H. apply znth_Some_range in H. cbn in H. lia.
  - rewrite !zlen_cons. split; [lia|]. intros i a b H1 H2. pose proof (znth_Some_range _ _ _ H1) as I.
    destruct (Z.eq_dec i 0) as [->|NZ]; [cbn in H1, H2; congruence|].
    rewrite znth_cons in H1 by lia. rewrite znth_cons in H2 by lia. exact (IH _ _ _ H1 H2).
Qed.

Definition unloads (c : call) : bool := match c with UnloadSheet _ | UnloadSheetName _ => true | _ => false end.

Lemma index_of_first : forall names name i, index_of names name = Ok i -> first_place names name i.
Proof.
  induction names as [|x r IH]; intros name i H; cbn [index_of] in H; [discriminate|].
  destruct (list_eqb x name) eqn:E.
  - injection H as <-. apply list_eqb_eq in E as ->. split; [reflexivity|lia].
  - apply bind_ok in H as (k & K & H). injection H as <-. destruct (IH _ _ K) as [P Q].
    pose proof (znth_Some_range _ _ _ P) as R. split.
    + rewrite znth_cons by lia. rewrite <- P. f_equal. lia.
    + intros j J. destruct (Z.eq_dec j 0) as [->|NZ].
      * cbn. intros [= ->]. rewrite list_eqb_refl in E. discriminate.
      * rewrite znth_cons by lia. apply Q. lia.
Qed.

Lemma index_of_none : forall names name e, index_of names name = Err e -> e = XLRDError /\ ~ In name names.
Proof.
  induction names as [|x r IH]; intros name e H; cbn [index_of] in H; [injection H as <-; auto|].
  destruct (list_eqb x name) eqn:E; [discriminate|]. destruct (index_of r name) as [k|e'] eqn:K; [discriminate|].
  injection H as <-. destruct (IH _ _ K) as [-> Q]. split; [reflexivity|]. intros [->|I]; [|exact (Q I)].
  rewrite list_eqb_refl in E. discriminate.
Qed.

Section Demand.
Context {N : Type}.
Variable codec : list Z -> list Z -> result (list Z).
Variable ops : numops N.
Variable lower : list Z -> list Z.
Variable num8 : list Z -> N.
Variable rk : list Z -> result N.
Variable ragged : bool.
Notation loaded := (loaded (N := N)).
Notation api := (api (N := N)).
Notation book := (book N loaded).
Variable old : book -> list Z -> Z -> list Z -> Z -> result (shared * loaded).
Notation perform := (perform codec num8 rk ragged old).
Notation history := (history codec num8 rk ragged old).
Notation open_stream := (open_stream codec ops lower num8 rk ragged old).

(** [sh] is what sheet_by_index([i]) gives when it is the first call on [a0]. *)
Definition as_first (a0 : api) (i : Z) (sh : loaded) : Prop :=
  exists sh0 a1, perform (0, 0) a0 (SheetByIndex i) = (Ok (Got sh0), a1) /\ same_content sh sh0.

Definition names_of (a : api) : list (list Z) := sl_names (bk_sheets (a_book a)).
Definition count (a : api) : Z := zlen (names_of a).

(** The answers that return sheets. *)
Definition truthful (a0 : api) (c : call) (x : answer (N := N)) : Prop :=
  match c, x with
  | SheetByIndex i, Got sh => exists j, 0 <= j < count a0 /\ (j = i \/ j = i + count a0) /\ as_first a0 j sh
  | SheetByName name, Got sh => exists i, first_place (names_of a0) name i /\ as_first a0 i sh
  | Sheets, GotAll l | Iterate, GotAll l =>
      zlen l = count a0 /\ forall i, 0 <= i < count a0 -> exists sh, znth l i = Some (Some sh) /\ as_first a0 i sh
  | SheetLoaded _, GotBool _ | SheetLoadedName _, GotBool _ => True
  | UnloadSheet _, Done | UnloadSheetName _, Done | ReleaseResources, Done => True
  | _, _ => False
  end.

(** ** Proofs *)

Lemma content_same : forall s t : loaded, content s = content t -> same_content s t.
Proof. intros [? ? ? [? ? ? ? ?]] [? ? ? [? ? ? ? ?]] H. unfold content in H. cbn in H. injection H as -> -> -> -> -> ->. repeat split. Qed.

Lemma fresh_first : forall b0 mem i sh, 0 <= i < zlen (sl_names (bk_sheets b0)) ->
  bk_list b0 = map (fun _ => None) (sl_names (bk_sheets b0)) ->
  fresh codec num8 rk ragged old b0 mem i sh -> as_first (mk_api b0 (Some mem)) i sh.
Proof.
  intros b0 mem i sh R E (b' & sh0 & G & C). exists sh0, (mk_api b' (Some mem)). split; [|exact (content_same _ _ C)].
  cbn [BookApi.perform]. unfold m_sheet_by_index. cbn [a_book]. rewrite E at 1.
  destruct (znth_in_range (sl_names (bk_sheets b0)) i R) as (x & X).
  rewrite (py_index_some _ i None) by (rewrite znth_map, X; reflexivity).
  unfold m_get_sheet. cbn [a_mem a_book]. rewrite G. reflexivity.
Qed.

Lemma get_sheets_inv : forall b0 mem, 45 < bk_bv b0 -> lengths b0 -> zlen (bk_list b0) = zlen (sl_names (bk_sheets b0)) ->
  forall numbers b b', Inv codec num8 rk ragged old b0 mem (mk_api b None) ->
  get_sheets_in codec num8 rk ragged old b mem numbers = Ok b' -> Inv codec num8 rk ragged old b0 mem (mk_api b' None).
Proof.
  intros b0 mem V LS LB. induction numbers as [|i r IH]; intros b b' I H; cbn [get_sheets_in] in H; [injection H as <-; exact I|].
  apply bind_ok in H as ([b1 sh] & G & H). apply (IH b1 b'); [|exact H]. clear IH H.
  assert (I' : Inv codec num8 rk ragged old b0 mem (mk_api b (Some mem))).
  { destruct I as (k & l & E & K & L & F & M). exists k, l. cbn [a_book a_mem] in *. auto 6. }
  destruct (m_get_sheet_inv codec num8 rk ragged old b0 mem V LS LB (0, 0) (mk_api b (Some mem)) i (Ok sh) (mk_api b1 (Some mem)) I') as [J _].
  { unfold m_get_sheet. cbn [a_book a_mem]. rewrite G. reflexivity. }
  destruct J as (k & l & E & K & L & F & M). exists k, l. cbn [a_book a_mem] in *. auto 6.
Qed.

(** Opening with or without on_demand starts from the same book. *)
Lemma open_inv : forall fuel mem base ov fmt od a, open_stream fuel mem base ov fmt od = Ok a -> 45 < bk_bv (a_book a) ->
  exists b0, open_stream fuel mem base ov fmt true = Ok (mk_api b0 (Some mem)) /\ 45 < bk_bv b0 /\ lengths b0 /\
    bk_list b0 = map (fun _ => None) (sl_names (bk_sheets b0)) /\ Inv codec num8 rk ragged old b0 mem a /\
    (od = true -> a = mk_api b0 (Some mem)).
Proof.
  intros fuel mem base ov fmt od a H V. unfold BookApi.open_stream in *.
  apply bind_ok in H as ([bv pos] & E1 & H). rewrite E1, bind_Ok.
  apply bind_ok in H as (? & E2 & H). rewrite E2, bind_Ok.
  apply bind_ok in H as (? & E3 & H). rewrite E3, bind_Ok.
  apply bind_ok in H as (b & E4 & H). rewrite E4, bind_Ok.
  assert (B : bk_bv b = bv /\ bk_sheets b = sheets0).
  { unfold book0 in E4. apply bind_ok in E4 as (f & _ & E4). injection E4 as <-. split; reflexivity. }
  destruct B as [B1 B2].
  destruct (bv <=? 40) eqn:C1.
  { exfalso. apply bind_ok in H as (b' & G & H). injection H as <-. cbn [a_book] in V.
    assert (P : forall numbers c c', get_sheets_in codec num8 rk ragged old c mem numbers = Ok c' -> bk_bv c' = bk_bv c).
    { induction numbers as [|i r IH]; intros c c' X; cbn [get_sheets_in] in X; [injection X as <-; reflexivity|].
      apply bind_ok in X as ([c1 sh] & Y & X). rewrite (IH _ _ X). unfold BookApi.get_sheet in Y.
      apply bind_ok in Y as (? & _ & Y). apply bind_ok in Y as ([? ?] & _ & Y). apply bind_ok in Y as (? & _ & Y).
      apply bind_ok in Y as ([? ?] & _ & Y). apply bind_ok in Y as (? & _ & Y). injection Y as <- _. reflexivity. }
    apply P in G. cbn in G. lia. }
  destruct (bv =? 45) eqn:C2.
  { exfalso. apply bind_ok in H as ([b' p'] & G & H). injection H as <-. cbn [a_book] in V.
    destruct (globals_lengths _ _ _ _ _ _ _ _ _ _ G) as [G1 _]. lia. }
  apply bind_ok in H as ([b1 p'] & G & H). rewrite G, bind_Ok. cbv zeta in *.
  destruct (globals_lengths _ _ _ _ _ _ _ _ _ _ G) as [G1 G2].
  set (b0 := with_list b1 (map (fun _ => None) (sl_names (bk_sheets b1)))) in *.
  assert (LS : lengths b0).
  { apply G2. unfold lengths. rewrite B2. split; reflexivity. }
  assert (V0 : 45 < bk_bv b0) by (change (45 < bk_bv b1); rewrite G1, B1; unfold guard in E3;
    destruct (existsb _ _) eqn:X in E3; [|discriminate]; cbn [existsb SUPPORTED_VERSIONS] in X; lia).
  assert (LB : zlen (bk_list b0) = zlen (sl_names (bk_sheets b0))) by apply zlen_map.
  assert (I : forall m, m = None \/ m = Some mem -> Inv codec num8 rk ragged old b0 mem (mk_api b0 m)).
  { intros m M. exists (g_countries (bk_shared b0)), (bk_list b0). cbn [a_book a_mem]. split; [|split; [left; reflexivity|split; [exact LB|split; [|exact M]]]].
    - unfold later, set_countries, b0. destruct b1 as [? ? [? ? ? ?] ? ? ? ? ? ? ? ? ?]. reflexivity.
    - intros i sh Z1. unfold b0 in Z1. cbn [bk_list with_list] in Z1. rewrite znth_map in Z1. destruct (znth _ i); discriminate. }
  exists b0. split; [reflexivity|]. split; [exact V0|]. split; [exact LS|]. split; [reflexivity|].
  destruct od.
  - injection H as <-. split; [apply I; auto|reflexivity].
  - apply bind_ok in H as (b2 & Q & H). injection H as <-. split; [|discriminate].
    eapply get_sheets_inv; [exact V0|exact LS|exact LB| |exact Q]. apply I. auto.
Qed.

(** Every sheet returned in any history has the content it has when it is asked for
    first thing after opening with on_demand. *)
Theorem c42_same_content : forall fuel mem base override fmt on_demand a,
  open_stream fuel mem base override fmt on_demand = Ok a -> 50 <= bk_bv (a_book a) ->
  exists a0, open_stream fuel mem base override fmt true = Ok a0 /\
  forall h j c k x, nth_error h j = Some (c, k) -> nth_error (fst (history a h)) j = Some (Ok x) -> truthful a0 c x.
Proof.
  intros fuel mem base ov fmt od a H V. destruct (open_inv _ _ _ _ _ _ _ H ltac:(lia)) as (b0 & O & V0 & LS & BL & I & _).
  exists (mk_api b0 (Some mem)). split; [exact O|]. intros h j c k x A B.
  assert (LB : zlen (bk_list b0) = zlen (sl_names (bk_sheets b0))) by (rewrite BL; apply zlen_map).
  destruct (history_inv codec num8 rk ragged old b0 mem V0 LS LB h a I) as [_ P].
  specialize (P j c k (Ok x) A B). cbv beta iota in P.
  set (n := zlen (sl_names (bk_sheets b0))) in *.
  assert (W : forall i sh, 0 <= i < n -> fresh codec num8 rk ragged old b0 mem i sh -> as_first (mk_api b0 (Some mem)) i sh)
    by (intros; apply fresh_first; assumption).
  assert (A2 : forall l, Forall2 (fun i x => exists sh, x = Some sh /\ fresh codec num8 rk ragged old b0 mem i sh) (zrange 0 n) l ->
    zlen l = n /\ forall i, 0 <= i < n -> exists sh, znth l i = Some (Some sh) /\ as_first (mk_api b0 (Some mem)) i sh).
  { intros l F. apply Forall2_znth in F as [L F]. rewrite zlen_zrange in L.
    assert (L' : zlen l = n) by (pose proof (zlen_nonneg (sl_names (bk_sheets b0))); lia). split; [exact L'|].
    intros i R. destruct (znth_in_range l i ltac:(lia)) as (y & Y).
    destruct (F i i y ltac:(rewrite znth_zrange; [f_equal; lia|lia]) Y) as (sh & -> & FR). eauto. }
  clear H I A B. destruct c, x; cbn [says truthful] in *; try contradiction; try exact Logic.I; unfold count, names_of; cbn [a_book];
    try (apply A2; exact P).
  - destruct P as [P R]. exists (norm n i). split; [exact R|]. split; [unfold norm; fold n; destruct (i <? 0); auto|]. apply W; auto.
  - destruct P as (i & P & F). exists i. split; [eapply index_of_first; exact P|]. apply W; [eapply index_of_range; exact P|exact F].
Qed.

(** ** Sheets that stay *)

Definition at_place (a : api) (j : Z) (sh : loaded) : Prop := znth (bk_list (a_book a)) j = Some (Some sh).

Lemma m_get_list : forall after a i r a', m_get_sheet codec num8 rk ragged old after a i = (r, a') ->
  zlen (bk_list (a_book a')) = zlen (bk_list (a_book a)) /\
  match r with
  | Ok sh => 0 <= norm (zlen (bk_list (a_book a))) i < zlen (bk_list (a_book a)) /\
             bk_list (a_book a') = zset (bk_list (a_book a)) (norm (zlen (bk_list (a_book a))) i) (Some sh)
  | Err _ => bk_list (a_book a') = bk_list (a_book a)
  end.
Proof.
  intros after [b m] i r a' H. unfold m_get_sheet in H. cbn [a_mem a_book] in *. destruct m as [mem|]; [|injection H as <- <-; auto].
  destruct (get_sheet codec num8 rk ragged old b mem i) as [[b' sh]|e] eqn:G; injection H as <- <-; cbn [a_book]; [|auto].
  unfold BookApi.get_sheet in G.
  apply bind_ok in G as (? & _ & G). apply bind_ok in G as ([? ?] & _ & G). apply bind_ok in G as (? & _ & G).
  apply bind_ok in G as ([g s] & _ & G). apply bind_ok in G as (l & E & G). injection G as <- <-.
  apply list_set_ok in E as [R ->]. cbn [bk_list with_list]. rewrite zlen_zset by exact R. auto.
Qed.

Lemma m_sheet_by_index_list : forall after a i r a', m_sheet_by_index codec num8 rk ragged old after a i = (r, a') ->
  zlen (bk_list (a_book a')) = zlen (bk_list (a_book a)) /\ (forall j sh, at_place a j sh -> at_place a' j sh) /\
  match r with Ok sh => at_place a' (norm (zlen (bk_list (a_book a))) i) sh | Err _ => True end.
Proof.
  intros after a i r a' H. unfold m_sheet_by_index in H. rewrite py_index_norm in H.
  destruct (znth _ _) as [[sh|]|] eqn:E.
  - injection H as <- <-. repeat split; auto.
  - destruct (m_get_list _ _ _ _ _ H) as [L Q]. split; [exact L|]. unfold at_place in *. destruct r as [sh|e].
    + destruct Q as [R ->]. split.
      * intros j s J. rewrite znth_zset by exact R. destruct (j =? _) eqn:X; [|exact J].
        apply Z.eqb_eq in X. subst j. congruence.
      * rewrite znth_zset by exact R. rewrite Z.eqb_refl. reflexivity.
    + rewrite Q. auto.
  - injection H as <- <-. auto.
Qed.

Lemma perform_stays : forall after a c j sh, unloads c = false -> at_place a j sh -> at_place (snd (perform after a c)) j sh.
Proof.
  intros after a c j sh U P. destruct c as [i|name| | |i|name|i|name|]; try discriminate U; cbn [BookApi.perform].
  - destruct (m_sheet_by_index _ _ _ _ _ _ _ _) as [r a1] eqn:E. pose proof (m_sheet_by_index_list _ _ _ _ _ E) as (_ & M & _).
    destruct r; cbn [got snd]; auto.
  - destruct (index_of _ name) as [i|e]; [|exact P].
    destruct (m_sheet_by_index _ _ _ _ _ _ _ _) as [r a1] eqn:E. pose proof (m_sheet_by_index_list _ _ _ _ _ E) as (_ & M & _).
    destruct r; cbn [got snd]; auto.
  - assert (Q : forall l a, at_place a j sh -> at_place (snd (m_load_all codec num8 rk ragged old after a l)) j sh).
    { clear. induction l as [|i r IH]; intros a P; cbn [m_load_all]; [exact P|].
      assert (S : m_sheet_by_index codec num8 rk ragged old after a i =
        match py_index (bk_list (a_book a)) i with
        | Err e => (Err e, a)
        | Ok (Some s) => (Ok s, a)
        | Ok None => m_get_sheet codec num8 rk ragged old after a i
        end) by reflexivity.
      destruct (py_index (bk_list (a_book a)) i) as [[s|]|e]; [apply IH; exact P| |exact P].
      destruct (m_get_sheet _ _ _ _ _ _ _ _) as [[s|e] a1]; pose proof (m_sheet_by_index_list _ _ _ _ _ S) as (_ & M & _); cbn [snd]; auto. }
    specialize (Q (zrange 0 (nsheets a)) a P). destruct (m_load_all _ _ _ _ _ _ _ _) as [[u|e] a1]; exact Q.
  - assert (Q : forall l a, at_place a j sh -> at_place (snd (m_iterate codec num8 rk ragged old after a l)) j sh).
    { clear. induction l as [|i r IH]; intros a P; cbn [m_iterate]; [exact P|].
      destruct (m_sheet_by_index _ _ _ _ _ _ _ _) as [[s|e] a1] eqn:E; pose proof (m_sheet_by_index_list _ _ _ _ _ E) as (_ & M & _); cbn [snd]; auto.
      specialize (IH a1 (M _ _ P)). destruct (m_iterate _ _ _ _ _ _ _ _) as [[l|e] a2]; exact IH. }
    specialize (Q (zrange 0 (nsheets a)) a P). destruct (m_iterate _ _ _ _ _ _ _ _) as [[l|e] a1]; exact Q.
  - exact P.
  - destruct (index_of _ name); exact P.
  - exact P.
Qed.

Lemma history_stays : forall h a j sh, Forall (fun ck => unloads (fst ck) = false) h -> at_place a j sh ->
  at_place (snd (history a h)) j sh.
Proof.
  induction h as [|[c k] h IH]; intros a j sh F P; cbn [BookApi.history]; [exact P|]. apply Forall_cons_iff in F as [F1 F2].
  pose proof (perform_stays k a c j sh F1 P) as Q. destruct (perform k a c) as [r a1]. specialize (IH a1 j sh F2 Q).
  destruct (history a1 h) as [rs a2]. exact IH.
Qed.

Lemma perform_length : forall after a c, zlen (bk_list (a_book (snd (perform after a c)))) = zlen (bk_list (a_book a)).
Proof.
  intros after a c.
  assert (S1 : forall (a : api) i, zlen (bk_list (a_book (snd (m_sheet_by_index codec num8 rk ragged old after a i)))) = zlen (bk_list (a_book a))).
  { clear a. intros a i. destruct (m_sheet_by_index _ _ _ _ _ _ _ _) as [r a1] eqn:E. exact (proj1 (m_sheet_by_index_list _ _ _ _ _ E)). }
  assert (S2 : forall (a : api) i, zlen (bk_list (a_book (snd (m_unload a i)))) = zlen (bk_list (a_book a))).
  { clear. intros a i. unfold m_unload. destruct (list_set _ i None) as [l|] eqn:E; [|reflexivity]. cbn [snd a_book bk_list with_list].
    apply list_set_ok in E as [R ->]. apply zlen_zset. exact R. }
  destruct c as [i|name| | |i|name|i|name|]; cbn [BookApi.perform]; try reflexivity; try apply S2.
  - specialize (S1 a i). destruct (m_sheet_by_index _ _ _ _ _ _ _ _) as [[r|] a1]; exact S1.
  - destruct (index_of _ name) as [i|e]; [|reflexivity]. specialize (S1 a i).
    destruct (m_sheet_by_index _ _ _ _ _ _ _ _) as [[r|] a1]; exact S1.
  - assert (Q : forall l (a : api), zlen (bk_list (a_book (snd (m_load_all codec num8 rk ragged old after a l)))) = zlen (bk_list (a_book a))).
    { clear - S1. induction l as [|i r IH]; intros a; cbn [m_load_all]; [reflexivity|].
      specialize (S1 a i). unfold m_sheet_by_index in S1. destruct (py_index (bk_list (a_book a)) i) as [[s|]|e]; [apply IH| |reflexivity].
      destruct (m_get_sheet _ _ _ _ _ _ _ _) as [[s|e] a1]; cbn [snd] in *; [rewrite IH|]; exact S1. }
    specialize (Q (zrange 0 (nsheets a)) a). destruct (m_load_all _ _ _ _ _ _ _ _) as [[u|e] a1]; exact Q.
  - assert (Q : forall l (a : api), zlen (bk_list (a_book (snd (m_iterate codec num8 rk ragged old after a l)))) = zlen (bk_list (a_book a))).
    { clear - S1. induction l as [|i r IH]; intros a; cbn [m_iterate]; [reflexivity|].
      specialize (S1 a i). destruct (m_sheet_by_index _ _ _ _ _ _ _ _) as [[s|e] a1]; cbn [snd] in *; [|exact S1].
      specialize (IH a1). destruct (m_iterate _ _ _ _ _ _ _ _) as [[l|e] a2]; cbn [snd] in *; congruence. }
    specialize (Q (zrange 0 (nsheets a)) a). destruct (m_iterate _ _ _ _ _ _ _ _) as [[l|e] a1]; exact Q.
  - destruct (index_of _ name); reflexivity.
  - destruct (index_of _ name); [apply S2|reflexivity].
Qed.

Lemma history_length : forall h a, zlen (bk_list (a_book (snd (history a h)))) = zlen (bk_list (a_book a)).
Proof.
  induction h as [|[c k] h IH]; intros a; cbn [BookApi.history]; [reflexivity|].
  pose proof (perform_length k a c) as Q. destruct (perform k a c) as [r a1]. specialize (IH a1).
  destruct (history a1 h) as [rs a2]. cbn [snd] in *. congruence.
Qed.

(** A sheet once returned is returned again, the same object, until it is unloaded;
    release_resources does not matter. *)
Theorem c42_stays : forall a i k sh a1 h k', perform k a (SheetByIndex i) = (Ok (Got sh), a1) ->
  Forall (fun ck => unloads (fst ck) = false) h ->
  perform k' (snd (history a1 h)) (SheetByIndex i) = (Ok (Got sh), snd (history a1 h)).
Proof.
  intros a i k sh a1 h k' H U. cbn [BookApi.perform] in H.
  destruct (m_sheet_by_index _ _ _ _ _ _ _ _) as [[s|e] a2] eqn:E; [|discriminate]. injection H as -> ->.
  destruct (m_sheet_by_index_list _ _ _ _ _ E) as (L & _ & P).
  pose proof (history_stays h a1 _ _ U P) as Q. unfold at_place in Q.
  cbn [BookApi.perform]. unfold m_sheet_by_index. rewrite py_index_norm, history_length, L, Q. reflexivity.
Qed.

(** Nothing brings the file back after release_resources; then a sheet is returned if it
    is loaded, and XLRDError is raised if it is not. *)
Theorem c42_released : forall a k h, let a' := snd (history (snd (perform k a ReleaseResources)) h) in
  forall i k1 k2,
  (fst (perform k1 a' (SheetLoaded i)) = Ok (GotBool true) -> exists sh, perform k2 a' (SheetByIndex i) = (Ok (Got sh), a')) /\
  (fst (perform k1 a' (SheetLoaded i)) = Ok (GotBool false) -> perform k2 a' (SheetByIndex i) = (Err XLRDError, a')).
Proof.
  intros a k h a' i k1 k2.
  assert (M : a_mem a' = None).
  { assert (G : forall after a i, a_mem a = None -> a_mem (snd (m_get_sheet codec num8 rk ragged old after a i)) = None).
    { intros after x j H. unfold m_get_sheet. rewrite H. exact H. }
    assert (S1 : forall after a i, a_mem a = None -> a_mem (snd (m_sheet_by_index codec num8 rk ragged old after a i)) = None).
    { intros after x j H. unfold m_sheet_by_index. destruct (py_index _ j) as [[s|]|e]; auto. }
    assert (S2 : forall (a : api) i, a_mem a = None -> a_mem (snd (m_unload a i)) = None).
    { intros x j H. unfold m_unload. destruct (list_set _ j None); exact H. }
    assert (P : forall after a c, a_mem a = None -> a_mem (snd (perform after a c)) = None).
    { intros after x c H. destruct c as [j|name| | |j|name|j|name|]; cbn [BookApi.perform]; try exact H; try (apply S2; exact H).
      - specialize (S1 after x j H). destruct (m_sheet_by_index _ _ _ _ _ _ _ _) as [[r|] a1]; exact S1.
      - destruct (index_of _ name) as [j|e]; [|exact H]. specialize (S1 after x j H).
        destruct (m_sheet_by_index _ _ _ _ _ _ _ _) as [[r|] a1]; exact S1.
      - assert (Q : forall l a, a_mem a = None -> a_mem (snd (m_load_all codec num8 rk ragged old after a l)) = None).
        { clear - G. induction l as [|j r IH]; intros a H; cbn [m_load_all]; [exact H|].
          destruct (py_index (bk_list (a_book a)) j) as [[s|]|e]; [apply IH; exact H| |exact H].
          specialize (G after a j H). destruct (m_get_sheet _ _ _ _ _ _ _ _) as [[s|e] a1]; cbn [snd] in *; auto. }
        specialize (Q (zrange 0 (nsheets x)) x H). destruct (m_load_all _ _ _ _ _ _ _ _) as [[u|e] a1]; exact Q.
      - assert (Q : forall l a, a_mem a = None -> a_mem (snd (m_iterate codec num8 rk ragged old after a l)) = None).
        { clear - S1. induction l as [|j r IH]; intros a H; cbn [m_iterate]; [exact H|].
          specialize (S1 after a j H). destruct (m_sheet_by_index _ _ _ _ _ _ _ _) as [[s|e] a1]; cbn [snd] in *; [|exact S1].
          specialize (IH a1 S1). destruct (m_iterate _ _ _ _ _ _ _ _) as [[l|e] a2]; exact IH. }
        specialize (Q (zrange 0 (nsheets x)) x H). destruct (m_iterate _ _ _ _ _ _ _ _) as [[l|e] a1]; exact Q.
      - destruct (index_of _ name); exact H.
      - destruct (index_of _ name); [apply S2; exact H|exact H].
      - reflexivity. }
    assert (Hh : forall h a, a_mem a = None -> a_mem (snd (history a h)) = None).
    { clear - P. induction h as [|[c k] h IH]; intros a H; cbn [BookApi.history]; [exact H|].
      specialize (P k a c H). destruct (perform k a c) as [r a1]. specialize (IH a1 P). destruct (history a1 h). exact IH. }
    apply Hh. reflexivity. }
  cbn [BookApi.perform fst]. unfold m_loaded, m_sheet_by_index, m_get_sheet.
  destruct (py_index (bk_list (a_book a')) i) as [[sh|]|e]; cbn [bind]; split; try discriminate; intros _; [exists sh; reflexivity|].
  rewrite M. reflexivity.
Qed.

(** ** The order of loading *)

(** If the globals name the countries, the order does not matter at all: a sheet that is
    not loaded comes out as on the first call, and so do its errors. *)
Theorem c42_any_order : forall fuel mem base override fmt a h i k,
  open_stream fuel mem base override fmt true = Ok a -> 50 <= bk_bv (a_book a) ->
  g_countries (bk_shared (a_book a)) <> (0, 0) -> 0 <= i < nsheets a ->
  let a' := snd (history a h) in
  a_mem a' <> None -> fst (perform k a' (SheetLoaded i)) = Ok (GotBool false) ->
  fst (perform k a' (SheetByIndex i)) = fst (perform k a (SheetByIndex i)).
Proof.
  intros fuel mem base ov fmt a h i k H V C R a' M U. destruct (open_inv _ _ _ _ _ _ _ H ltac:(lia)) as (b0 & O & V0 & LS & BL & I & A).
  specialize (A eq_refl). subst a. cbn [a_book] in *.
  assert (LB : zlen (bk_list b0) = zlen (sl_names (bk_sheets b0))) by (rewrite BL; apply zlen_map).
  destruct (history_inv codec num8 rk ragged old b0 mem V0 LS LB h _ I) as [(k1 & l & E & K & L & F & MM) _].
  fold a' in E, MM, L. destruct MM as [MM|MM]; [contradiction|].
  assert (k1 = g_countries (bk_shared b0)) as -> by (destruct K; [assumption|contradiction]).
  cbn [BookApi.perform fst] in U |- *. unfold m_loaded in U. rewrite E in U. change (bk_list (later b0 _ l)) with l in U.
  unfold nsheets in R. cbn [a_book] in R. rewrite LB in R.
  unfold m_sheet_by_index. rewrite E. cbn [a_book]. change (bk_list (later b0 _ l)) with l.
  destruct (py_index l i) as [[sh|]|e] eqn:P; cbn [bind] in U; try discriminate.
  destruct (znth_in_range (sl_names (bk_sheets b0)) i R) as (nm & NM).
  rewrite BL. rewrite (py_index_some (map _ _) i None) by (rewrite znth_map, NM; reflexivity).
  unfold m_get_sheet. rewrite MM, E. cbn [a_mem a_book].
  unfold BookApi.get_sheet. change (bk_sheets (later b0 (g_countries (bk_shared b0)) l)) with (bk_sheets b0).
  change (bk_list (later b0 (g_countries (bk_shared b0)) l)) with l.
  destruct (py_index (sl_posn (bk_sheets b0)) i) as [posn|e]; [|reflexivity]. rewrite !bind_Ok.
  destruct (getbof mem posn XL_WORKSHEET) as [[ver p]|e]; [|reflexivity]. rewrite !bind_Ok.
  destruct (py_index (sl_names (bk_sheets b0)) i) as [name|e]; [|reflexivity]. rewrite !bind_Ok.
  unfold BookApi.load. change (bk_bv (later b0 (g_countries (bk_shared b0)) l)) with (bk_bv b0).
  replace (bk_bv b0 <=? 45) with false by lia.
  change (bk_sheets (later b0 (g_countries (bk_shared b0)) l)) with (bk_sheets b0).
  change (config_of codec num8 rk ragged (later b0 (g_countries (bk_shared b0)) l)) with (config_of codec num8 rk ragged b0).
  change (g_countries (bk_shared (later b0 (g_countries (bk_shared b0)) l))) with (g_countries (bk_shared b0)).
  destruct (py_index (sl_visibility (bk_sheets b0)) i) as [vis|e]; [|reflexivity]. rewrite !bind_Ok. cbv zeta.
  destruct (sheet_read _ _ _) as [sd|e]; [|reflexivity]. rewrite !bind_Ok.
  rewrite !list_set_norm; [reflexivity| |]; unfold norm; replace (i <? 0) with false by lia; lia.
Qed.
End Demand.
Print Assumptions c42_same_content.
Print Assumptions c42_stays.
Print Assumptions c42_released.
Print Assumptions c42_any_order.

(** ** Witnesses *)

Module Demand.
Definition country (a : Z) : list Z := frame (0x8c, le_enc 2 a ++ le_enc 2 a).
Definition bound (posn : Z) : list Z := frame (0x85, le_enc 4 posn ++ [0; 0; 0]).
Definition worksheet (body : list Z) : list Z := Loop.bof 0x10 ++ body ++ frame (0x0a, []).
(** Two worksheets, each with a COUNTRY record of its own. *)
Definition file : list Z :=
  Loop.bof 5 ++ bound 38 ++ bound 62 ++ frame (0x0a, []) ++ worksheet (country 1) ++ worksheet (country 44).
End Demand.

(** Without countries in the globals it can depend on the order whether a sheet can be
    loaded. *)
Theorem c42_load_refuted : exists file, bytes file /\
  forall N codec (ops : numops N) lower num8 rk ragged old k,
  let run := perform codec num8 rk ragged old k in
  exists a sh0 sh1 a0 a1,
    open_stream codec ops lower num8 rk ragged old 50 file 0 None false true = Ok a /\
    run a (SheetByIndex 1) = (Ok (Got sh1), a1) /\ run a (SheetByIndex 0) = (Ok (Got sh0), a0) /\
    fst (run a0 (SheetByIndex 1)) = Err AssertionError.
Proof.
  exists Demand.file. split; [vm_compute; repeat constructor; discriminate|].
  intros N codec ops lower num8 rk ragged old k run. subst run.
  destruct ragged; do 5 eexists; (split; [vm_compute; reflexivity|]); (split; [vm_compute; reflexivity|]);
    (split; [vm_compute; reflexivity|]); vm_compute; reflexivity.
Qed.
Print Assumptions c42_load_refuted.

(** The number of a sheet does: the last sheet asked for as sheet_by_index(-1) has
    number -1 from then on. *)
Theorem c42_number_refuted : exists file, bytes file /\
  forall N codec (ops : numops N) lower num8 rk ragged old k,
  let run := perform codec num8 rk ragged old k in
  exists a sh s1 a1 a2,
    open_stream codec ops lower num8 rk ragged old 50 file 0 None false true = Ok a /\
    run a (SheetByIndex 1) = (Ok (Got s1), a1) /\ ls_number s1 = 1 /\
    run a (SheetByIndex (-1)) = (Ok (Got sh), a2) /\ fst (run a2 (SheetByIndex 1)) = Ok (Got sh) /\ ls_number sh = -1.
Proof.
  exists Demand.file. split; [vm_compute; repeat constructor; discriminate|].
  intros N codec ops lower num8 rk ragged old k run. subst run.
  destruct ragged; do 5 eexists; (split; [vm_compute; reflexivity|]); (split; [vm_compute; reflexivity|]);
    (split; [reflexivity|]); (split; [vm_compute; reflexivity|]); (split; [vm_compute; reflexivity|]); reflexivity.
Qed.
Print Assumptions c42_number_refuted.

(** A workbook that names its countries, opened on demand; sheet 1 is not loaded after
    sheet 0 has been read, unloaded and read again. *)
Example c42_hypotheses :
  let file := Loop.bof 5 ++ Demand.country 1 ++ Demand.bound 46 ++ Demand.bound 70 ++ frame (0x0a, [])
              ++ Demand.worksheet (Demand.country 1) ++ Demand.worksheet (Demand.country 1) in
  let run := history (N := Z) (fun _ b => Ok b) (fun _ => 0) (fun _ => Ok 0) false (fun _ _ _ _ _ => Err XLRDError) in
  match open_stream (fun _ b => Ok b) int_ops (fun s => s) (fun _ => 0) (fun _ => Ok 0) false (fun _ _ _ _ _ => Err XLRDError)
          50 file 0 None false true with
  | Ok a =>
      50 <= bk_bv (a_book a) /\ g_countries (bk_shared (a_book a)) <> (0, 0) /\ 0 <= 1 < nsheets a /\
      let h := [(SheetByIndex 0, (0, 0)); (UnloadSheet 0, (0, 0)); (Iterate, (0, 0)); (UnloadSheetName [], (0, 0)); (UnloadSheet 1, (0, 0))] in
      let '(answers, a') := run a h in
      a_mem a' <> None /\ Forall (fun r => match r with Ok _ => True | Err _ => False end) answers /\
      fst (run a' [(SheetLoaded 1, (0, 0))]) = [Ok (GotBool false)]
  | Err _ => False
  end.
Proof. vm_compute. repeat split; try discriminate; repeat constructor. Qed.
