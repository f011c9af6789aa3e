(** What single turns of the worksheet loop do, on records as a writer lays
    them out.  Used by the property files on worksheets. *)
From Verif Require Import Base BaseFacts Utf16 Strings Framing StringFacts PropBytes GridModel GridFacts PropGrid
  SheetObjects SheetModel SheetFacts.

(** Three 16-bit fields and then the rest: the head of every cell record. *)
Definition head (r k xf : Z) : list Z := le_enc 2 r ++ le_enc 2 k ++ le_enc 2 xf.
Definition u16v (v : Z) : Prop := 0 <= v < 65536.

Lemma zlen_head : forall r k xf, zlen (head r k xf) = 6.
Proof. reflexivity. Qed.

Lemma head_read : forall r k xf rest, u16v r -> u16v k -> u16v xf ->
  let d := head r k xf ++ rest in
  unpack_u16 d 0 = Ok r /\ unpack_u16 d 2 = Ok k /\ unpack_u16 d 4 = Ok xf /\ At d 6 rest.
Proof.
  intros r k xf rest Hr Hk Hx d. unfold u16v in *.
  assert (At d 0 (le_enc 2 r ++ le_enc 2 k ++ le_enc 2 xf ++ rest)) as A0
    by (unfold d, head; rewrite <- !app_assoc; apply At_0).
  pose proof (At_skip _ _ _ _ 2 A0 eq_refl) as A1. pose proof (At_skip _ _ _ _ 4 A1 eq_refl) as A2.
  pose proof (At_skip _ _ _ _ 6 A2 eq_refl) as A3.
  rewrite (At_u16 _ _ _ _ A0), (At_u16 _ _ _ _ A1), (At_u16 _ _ _ _ A2) by lia. auto.
Qed.

Lemma At_slice_end : forall {A} (data s : list A) pos e, At data pos s -> e = pos + zlen s -> py_slice data pos e = s.
Proof. intros A data s pos e H. apply (At_slice data s [] pos e). rewrite app_nil_r. exact H. Qed.

Lemma need_ok : forall d n, 0 <= n <= zlen d -> need d n = Ok tt.
Proof.
  intros d n H. unfold need. rewrite py_slice_len. rewrite !py_bound_id by lia.
  replace (Z.max 0 (n - 0) =? n) with true by lia. reflexivity.
Qed.

Section Steps.
Context {N : Type} (c : config N).

(** A whole list of stores into the sheet. *)
Definition puts (sh : sheet N) (ss : list store) : result (sheet N) :=
  do g <- put_cells vempty (c_ragged c) (c_fmt c) (max_rows c) 256 (sh_grid sh) ss; Ok (with_grid sh g).

Lemma with_grid_same : forall sh : sheet N, with_grid sh (sh_grid sh) = sh.
Proof. intros []. reflexivity. Qed.

Lemma puts_nil : forall sh, puts sh [] = Ok sh.
Proof. intros. unfold puts. cbn [put_cells bind]. rewrite with_grid_same. reflexivity. Qed.

Lemma put_cells_app : forall {V} (ve : V) rg fm mr mc a b g,
  put_cells ve rg fm mr mc g (a ++ b) = do g <- put_cells ve rg fm mr mc g a; put_cells ve rg fm mr mc g b.
Proof.
  intros V ve rg fm mr mc a b. induction a as [|s a IH]; intros g; [reflexivity|].
  cbn [app put_cells]. rewrite bind_assoc. destruct (put_cell _ _ _ _ _ _ _); [apply IH|reflexivity].
Qed.

Lemma puts_app : forall a b sh, puts sh (a ++ b) = do sh <- puts sh a; puts sh b.
Proof.
  intros a b sh. unfold puts. rewrite put_cells_app, !bind_assoc.
  destruct (put_cells _ _ _ _ _ (sh_grid sh) a) as [g|e]; [|reflexivity]. cbn [bind].
  unfold with_grid at 2. cbn [sh_grid]. destruct (put_cells _ _ _ _ _ g b); reflexivity.
Qed.

Lemma puts_put : forall sh r k t v xf, puts sh [mk_store r k t v xf] = put c sh r k (Some t) v xf.
Proof.
  intros. unfold puts, put. cbn [put_cells bind].
  destruct (put_cell _ _ _ _ _ _ _); reflexivity.
Qed.

Lemma put_known : forall sh r k xf t v, c_xftype c xf = Some t -> put c sh r k None v xf = puts sh [mk_store r k t v xf].
Proof. intros sh r k xf t v H. rewrite puts_put. unfold put. rewrite H. reflexivity. Qed.

(** *** NUMBER, RK, BOOLERR, BLANK, LABELSST *)

Lemma number_step : forall sh r k xf d8 rs t, u16v r -> u16v k -> u16v xf -> zlen d8 = 8 -> c_xftype c xf = Some t ->
  step c sh XL_NUMBER 14 (head r k xf ++ d8) rs = plain (puts sh [mk_store r k t (VNum (c_num8 c d8)) xf]) rs.
Proof.
  intros sh r k xf d8 rs t Hr Hk Hx H8 HT. change (step c sh XL_NUMBER 14 (head r k xf ++ d8) rs) with
    (plain (h_number c sh (head r k xf ++ d8)) rs). f_equal. unfold h_number.
  destruct (head_read r k xf d8 Hr Hk Hx) as (E1 & E2 & E3 & A).
  rewrite need_ok by (rewrite zlen_app, zlen_head; lia). rewrite E1, E2, E3. cbn [bind].
  rewrite <- (app_nil_r d8) in A at 2. rewrite (At_slice _ _ _ _ 14 A) by lia. apply put_known. exact HT.
Qed.

Lemma rk_step : forall sh r k xf b rs t x, u16v r -> u16v k -> u16v xf -> zlen b = 4 -> c_xftype c xf = Some t -> c_rk c b = Ok x ->
  step c sh XL_RK 10 (head r k xf ++ b) rs = plain (puts sh [mk_store r k t (VNum x) xf]) rs.
Proof.
  intros sh r k xf b rs t x Hr Hk Hx H8 HT HV. change (step c sh XL_RK 10 (head r k xf ++ b) rs) with
    (plain (h_rk c sh (head r k xf ++ b)) rs). f_equal. unfold h_rk.
  destruct (head_read r k xf b Hr Hk Hx) as (E1 & E2 & E3 & A).
  rewrite need_ok by (rewrite zlen_app, zlen_head; lia). rewrite E1, E2, E3. cbn [bind].
  rewrite <- (app_nil_r b) in A at 2. rewrite (At_slice _ _ _ _ 10 A) by lia. rewrite HV. apply put_known. exact HT.
Qed.

Lemma boolerr_step : forall sh r k xf v (e : bool) rs, u16v r -> u16v k -> u16v xf -> 0 <= v < 256 ->
  step c sh XL_BOOLERR 8 (head r k xf ++ [v; if e then 1 else 0]) rs =
    plain (puts sh [mk_store r k (if e then XL_CELL_ERROR else XL_CELL_BOOLEAN) (VInt v) xf]) rs.
Proof.
  intros sh r k xf v e rs Hr Hk Hx Hv.
  set (b := [v; if e then 1 else 0]). change (step c sh XL_BOOLERR 8 (head r k xf ++ b) rs) with
    (plain (h_boolerr c sh (head r k xf ++ b)) rs). f_equal. unfold h_boolerr.
  destruct (head_read r k xf b Hr Hk Hx) as (E1 & E2 & E3 & A).
  rewrite need_ok by (rewrite zlen_app, zlen_head; cbn; lia). rewrite E1, E2, E3. cbn [bind].
  assert (unpack_le 1 (head r k xf ++ b) 6 = Ok v) as ->.
  { unfold unpack_le. rewrite (At_slice _ [v] [if e then 1 else 0] 6) by (try exact A; reflexivity). cbn. f_equal. lia. }
  assert (unpack_le 1 (head r k xf ++ b) 7 = Ok (if e then 1 else 0)) as ->.
  { unfold unpack_le. rewrite (At_slice _ [if e then 1 else 0] [] 7) by (try (eapply At_skip1; [exact A|reflexivity]); reflexivity).
    destruct e; reflexivity. }
  cbn [bind]. destruct e; cbn [py_index bind]; rewrite puts_put; reflexivity.
Qed.

Lemma blank_step : forall sh r k xf rs, u16v r -> u16v k -> u16v xf ->
  step c sh XL_BLANK 6 (head r k xf) rs =
    plain (puts sh (if c_fmt c then [mk_store r k XL_CELL_BLANK vempty xf] else [])) rs.
Proof.
  intros sh r k xf rs Hr Hk Hx. change (step c sh XL_BLANK 6 (head r k xf) rs) with (plain (h_blank c sh (head r k xf)) rs).
  f_equal. unfold h_blank. destruct (c_fmt c); cbn [negb]; [|symmetry; apply puts_nil].
  destruct (head_read r k xf [] Hr Hk Hx) as (E1 & E2 & E3 & A). rewrite app_nil_r in *.
  rewrite need_ok by (rewrite zlen_head; lia). rewrite E1, E2, E3. cbn [bind]. rewrite puts_put. reflexivity.
Qed.

Lemma labelsst_step : forall sh r k xf i s rs, u16v r -> u16v k -> u16v xf -> 0 <= i < 2 ^ 31 -> znth (c_sst c) i = Some s ->
  step c sh XL_LABELSST 10 (head r k xf ++ le_enc 4 i) rs =
    do sh <- puts sh [mk_store r k XL_CELL_TEXT (VText s) xf];
    Ok (match (if c_fmt c then dget Z.eqb (c_rich c) i else None) with
        | Some (x :: l) => set_rich sh r k (x :: l) | _ => sh end, rs).
Proof.
  intros sh r k xf i s rs Hr Hk Hx Hi HS. change (step c sh XL_LABELSST 10 (head r k xf ++ le_enc 4 i) rs) with
    (plain (h_labelsst c sh (head r k xf ++ le_enc 4 i)) rs). unfold h_labelsst.
  destruct (head_read r k xf (le_enc 4 i) Hr Hk Hx) as (E1 & E2 & E3 & A).
  rewrite zlen_app, zlen_head, zlen_le_enc. cbn [Z.of_nat Z.add Z.eqb guard bind].
  rewrite E1, E2, E3. cbn [bind]. rewrite <- (app_nil_r (le_enc 4 i)) in A at 2. rewrite (At_i32_pos _ _ _ _ A) by lia.
  cbn [bind]. rewrite (py_index_some _ _ _ HS). cbn [bind]. rewrite puts_put. unfold plain. rewrite !bind_assoc.
  destruct (put c sh r k _ _ xf) as [sh'|e]; [|reflexivity]. cbn [bind]. destruct (c_fmt c); [|reflexivity].
  destruct (dget _ _ _) as [[|x l]|]; reflexivity.
Qed.

(** *** MULRK, MULBLANK *)

Definition mulrk_body (its : list (Z * list Z)) : list Z := flat_map (fun it => le_enc 2 (fst it) ++ snd it) its.
Definition mulrk_data (r k : Z) (its : list (Z * list Z)) : list Z :=
  le_enc 2 r ++ le_enc 2 k ++ mulrk_body its ++ le_enc 2 (k + zlen its - 1).

(** The same cells as single records. *)
Fixpoint rk_records (r k : Z) (its : list (Z * list Z)) : list record :=
  match its with [] => [] | (xf, b) :: l => (XL_RK, 10, head r k xf ++ b) :: rk_records r (k + 1) l end.
Fixpoint blank_records (r k : Z) (xfs : list Z) : list record :=
  match xfs with [] => [] | xf :: l => (XL_BLANK, 6, head r k xf) :: blank_records r (k + 1) l end.

Definition rk_item (it : Z * list Z) : Prop := u16v (fst it) /\ zlen (snd it) = 4.

Lemma zlen_mulrk_body : forall its, Forall rk_item its -> zlen (mulrk_body its) = 6 * zlen its.
Proof.
  intros its H. induction H as [|it l [H1 H2] HL IH]; [reflexivity|]. unfold mulrk_body in *. cbn [flat_map].
  rewrite !zlen_app, IH, zlen_le_enc, H2, zlen_cons. lia.
Qed.

(** One MULRK item does what the RK record of its cell does, whatever that is. *)
Lemma mulrk_loop_steps : forall its r k data pos tail sh, u16v r -> 0 <= k -> k + zlen its <= 65536 -> Forall rk_item its ->
  At data pos (mulrk_body its ++ tail) ->
  forall rs, (do sh' <- mulrk_loop c (zrange k (k + zlen its)) sh r data pos; read_all c sh' rs) =
    read_all c sh (rk_records r k its ++ rs).
Proof.
  induction its as [|[xf b] its IH]; intros r k data pos tail sh Hr Hk HL HF HA rs.
  - change (zlen []) with 0. rewrite zrange_nil by lia. reflexivity.
  - inversion HF as [|? ? [Hx Hb] HF']; subst. rewrite zlen_cons in *. pose proof (zlen_nonneg its).
    rewrite zrange_cons by lia. cbn [mulrk_loop]. cbn [rk_records app fst snd] in *. rewrite read_all_cons.
    change (XL_RK =? XL_EOF) with false. cbn [Z.eqb].
    change (step c sh XL_RK 10 (head r k xf ++ b) (rk_records r (k + 1) its ++ rs)) with
      (plain (h_rk c sh (head r k xf ++ b)) (rk_records r (k + 1) its ++ rs)).
    unfold h_rk. destruct (head_read r k xf b Hr ltac:(unfold u16v; lia) Hx) as (E1 & E2 & E3 & A).
    rewrite need_ok by (rewrite zlen_app, zlen_head; lia). rewrite E1, E2, E3. cbn [bind].
    rewrite <- (app_nil_r b) in A at 2. rewrite (At_slice _ _ _ _ 10 A) by lia.
    unfold mulrk_body in HA. cbn [flat_map fst snd] in HA. rewrite <- !app_assoc in HA.
    rewrite (At_u16 _ _ _ _ HA) by exact Hx. cbn [bind].
    pose proof (At_skip _ _ _ _ (pos + 2) HA eq_refl) as HA1. rewrite (At_slice _ _ _ _ (pos + 6) HA1) by lia.
    pose proof (At_skip _ _ _ _ (pos + 6) HA1 ltac:(lia)) as HA2.
    unfold plain. rewrite !bind_assoc. destruct (c_rk c b) as [x|e]; [|reflexivity]. cbn [bind].
    destruct (put c sh r k None (VNum x) xf) as [sh'|e]; [|reflexivity]. cbn [bind].
    replace (k + (1 + zlen its)) with (k + 1 + zlen its) by lia.
    eapply IH; [exact Hr|lia|lia|exact HF'|exact HA2].
Qed.

Lemma mulrk_step : forall its r k sh rs, u16v r -> 0 <= k -> k + zlen its <= 65536 -> 1 <= zlen its -> Forall rk_item its ->
  read_all c sh ((XL_MULRK, zlen (mulrk_data r k its), mulrk_data r k its) :: rs) = read_all c sh (rk_records r k its ++ rs).
Proof.
  intros its r k sh rs Hr Hk HL H1 HF. rewrite read_all_cons. change (XL_MULRK =? XL_EOF) with false. cbn [Z.eqb].
  set (d := mulrk_data r k its). change (step c sh XL_MULRK (zlen d) d rs) with (plain (h_mulrk c sh d) rs). unfold h_mulrk.
  assert (zlen d = 6 + 6 * zlen its) as Hd
    by (unfold d, mulrk_data; rewrite !zlen_app, !zlen_le_enc, zlen_mulrk_body by exact HF; lia).
  rewrite need_ok by lia. cbn [bind].
  assert (At d 0 (le_enc 2 r ++ le_enc 2 k ++ mulrk_body its ++ le_enc 2 (k + zlen its - 1))) as A0 by apply At_0.
  pose proof (At_skip _ _ _ _ 2 A0 eq_refl) as A1. pose proof (At_skip _ _ _ _ 4 A1 eq_refl) as A2.
  rewrite (At_u16 _ _ _ _ A0) by exact Hr. cbn [bind]. rewrite (At_u16 _ _ _ _ A1) by lia. cbn [bind].
  assert (py_from d (-2) = le_enc 2 (k + zlen its - 1)) as ->.
  { unfold py_from, py_bound. replace (-2 <? 0) with true by reflexivity. rewrite Z.max_r by lia.
    pose proof (At_skip _ _ _ _ (4 + 6 * zlen its) A2 ltac:(rewrite zlen_mulrk_body by exact HF; lia)) as A3.
    pose proof (At_from _ _ _ A3) as F. unfold py_from in F. rewrite py_bound_id in F by lia.
    replace (-2 + zlen d) with (4 + 6 * zlen its) by lia. exact F. }
  rewrite (At_u16 (le_enc 2 (k + zlen its - 1)) [] (k + zlen its - 1) 0) by (try lia; rewrite app_nil_r; apply At_0). cbn [bind].
  replace (k + zlen its - 1 + 1) with (k + zlen its) by lia. unfold plain. rewrite bind_assoc. cbn [bind].
  exact (mulrk_loop_steps its r k d 4 _ sh Hr Hk HL HF A2 rs).
Qed.

Definition mulblank_data (r k : Z) (xfs : list Z) : list Z :=
  le_enc 2 r ++ le_enc 2 k ++ flat_map (le_enc 2) xfs ++ le_enc 2 (k + zlen xfs - 1).

Lemma u16s_enc : forall vs, Forall u16v vs -> u16s (flat_map (le_enc 2) vs) = vs.
Proof.
  intros vs H. induction H as [|v l Hv HL IH]; [reflexivity|]. change (flat_map (le_enc 2) (v :: l)) with (v mod 256 :: (v / 256) mod 256 :: flat_map (le_enc 2) l). cbn [u16s]. rewrite IH. f_equal.
  unfold u16v in Hv. cbn [le_val]. lia.
Qed.

Lemma zlen_u16s_enc : forall vs, zlen (flat_map (le_enc 2) vs) = 2 * zlen vs.
Proof. induction vs as [|v l IH]; [reflexivity|]. cbn [flat_map]. rewrite zlen_app, IH, zlen_cons, zlen_le_enc. lia. Qed.

Lemma mulblank_loop_steps : forall xfs r k items pos tail sh, c_fmt c = true -> u16v r -> 0 <= k -> k + zlen xfs <= 65536 ->
  Forall u16v xfs -> At items pos (xfs ++ tail) ->
  forall rs, (do sh' <- mulblank_loop c (zrange k (k + zlen xfs)) sh r items pos; read_all c sh' rs) =
    read_all c sh (blank_records r k xfs ++ rs).
Proof.
  induction xfs as [|xf xfs IH]; intros r k items pos tail sh HFm Hr Hk HL HF HA rs.
  - change (zlen []) with 0. rewrite zrange_nil by lia. reflexivity.
  - inversion HF as [|? ? Hx HF']; subst. rewrite zlen_cons in *. pose proof (zlen_nonneg xfs).
    rewrite zrange_cons by lia. cbn [mulblank_loop blank_records app] in *. rewrite read_all_cons.
    change (XL_BLANK =? XL_EOF) with false. cbn [Z.eqb].
    rewrite (blank_step sh r k xf _ Hr ltac:(unfold u16v; lia) Hx), HFm, puts_put.
    rewrite (At_index _ _ _ _ HA). cbn [bind]. unfold plain. rewrite !bind_assoc.
    destruct (put c sh r k (Some XL_CELL_BLANK) vempty xf) as [sh'|e]; [|reflexivity]. cbn [bind].
    replace (k + (1 + zlen xfs)) with (k + 1 + zlen xfs) by lia.
    eapply IH; [exact HFm|exact Hr|lia|lia|exact HF'|]. eapply At_skip1; [exact HA|reflexivity].
Qed.

Lemma skip_blanks : forall xfs r k sh rs, c_fmt c = false -> u16v r -> 0 <= k -> k + zlen xfs <= 65536 -> Forall u16v xfs ->
  read_all c sh (blank_records r k xfs ++ rs) = read_all c sh rs.
Proof.
  induction xfs as [|xf xfs IH]; intros r k sh rs HFm Hr Hk HL HF; [reflexivity|].
  inversion HF as [|? ? Hx HF']; subst. rewrite zlen_cons in *. pose proof (zlen_nonneg xfs).
  cbn [blank_records app]. rewrite read_all_cons. change (XL_BLANK =? XL_EOF) with false. cbn [Z.eqb].
  rewrite (blank_step sh r k xf _ Hr ltac:(unfold u16v; lia) Hx), HFm, puts_nil. cbn [plain bind].
  apply IH; auto; lia.
Qed.

Lemma mulblank_step : forall xfs r k sh rs, u16v r -> 0 <= k -> k + zlen xfs <= 65536 -> 1 <= zlen xfs -> Forall u16v xfs ->
  read_all c sh ((XL_MULBLANK, zlen (mulblank_data r k xfs), mulblank_data r k xfs) :: rs) =
  read_all c sh (blank_records r k xfs ++ rs).
Proof.
  intros xfs r k sh rs Hr Hk HL H1 HF. rewrite read_all_cons. change (XL_MULBLANK =? XL_EOF) with false. cbn [Z.eqb].
  set (d := mulblank_data r k xfs). change (step c sh XL_MULBLANK (zlen d) d rs) with (plain (h_mulblank c sh (zlen d) d) rs).
  unfold h_mulblank. destruct (c_fmt c) eqn:HFm; cbn [negb].
  2:{ cbn [plain bind]. symmetry. apply skip_blanks; auto. }
  set (vs := r :: k :: xfs ++ [k + zlen xfs - 1]).
  assert (d = flat_map (le_enc 2) vs) as Ed.
  { unfold d, mulblank_data, vs. cbn [flat_map]. rewrite flat_map_app. cbn [flat_map]. rewrite app_nil_r. reflexivity. }
  assert (zlen vs = 3 + zlen xfs) as Lv by (unfold vs; rewrite !zlen_cons, zlen_app; change (zlen [k + zlen xfs - 1]) with 1; lia).
  assert (zlen d = 2 * zlen vs) as Ld by (rewrite Ed; apply zlen_u16s_enc).
  rewrite Z.shiftr_div_pow2 by lia. change (2 ^ 1) with 2. replace (zlen d / 2) with (zlen vs) by lia.
  replace (zlen d =? 2 * zlen vs) with true by lia. cbn [guard bind].
  rewrite Ed, u16s_enc.
  2:{ unfold vs. constructor; [exact Hr|]. constructor; [unfold u16v; lia|]. apply Forall_app. split; [exact HF|].
      constructor; [unfold u16v; lia|constructor]. }
  unfold vs. cbv beta iota. fold vs.
  assert (py_index vs (-1) = Ok (k + zlen xfs - 1)) as ->.
  { unfold py_index. cbn [Z.ltb Z.compare]. rewrite Lv. unfold vs.
    change (r :: k :: xfs ++ [k + zlen xfs - 1]) with ((r :: k :: xfs) ++ [k + zlen xfs - 1]).
    assert (zlen (r :: k :: xfs) = 2 + zlen xfs) as Z1 by (rewrite !zlen_cons; lia).
    rewrite znth_app_r by lia. rewrite Z1.
    replace (-1 + (3 + zlen xfs) - (2 + zlen xfs)) with 0 by lia. reflexivity. }
  cbn [bind]. replace (zlen vs =? k + zlen xfs - 1 + 4 - k) with true by lia. cbn [guard bind].
  replace (k + zlen xfs - 1 + 1) with (k + zlen xfs) by lia. unfold plain. rewrite bind_assoc. cbn [bind].
  apply (mulblank_loop_steps xfs r k vs 2 [k + zlen xfs - 1] sh HFm Hr Hk HL HF). exists [r; k]. split; reflexivity.
Qed.

(** *** LABEL and RSTRING *)

(** A string field of the version at hand, holding the text [s]. *)
Definition field_holds (raw s : list Z) : Prop :=
  if c_bv c >=? 80 then exists u, us_ok u /\ us_units u < 65536 /\ raw = us_field 2 u /\ us_text u = s
  else exists b, zlen b < 65536 /\ raw = le_enc 2 (zlen b) ++ b /\ c_decode c b = Ok s.

Lemma label_step : forall sh r k xf raw s rs, u16v r -> u16v k -> u16v xf -> field_holds raw s ->
  step c sh XL_LABEL (6 + zlen raw) (head r k xf ++ raw) rs = plain (puts sh [mk_store r k XL_CELL_TEXT (VText s) xf]) rs.
Proof.
  intros sh r k xf raw s rs Hr Hk Hx HF. change (step c sh XL_LABEL (6 + zlen raw) (head r k xf ++ raw) rs) with
    (plain (h_label c sh (head r k xf ++ raw)) rs). f_equal. unfold h_label.
  destruct (head_read r k xf raw Hr Hk Hx) as (E1 & E2 & E3 & A). pose proof (zlen_nonneg raw).
  rewrite need_ok by (rewrite zlen_app, zlen_head; lia). rewrite E1, E2, E3. cbn [bind].
  unfold field_holds in HF. destruct (c_bv c >=? 80) eqn:E8.
  - destruct HF as (u & Hu & Hl & -> & <-). replace (c_bv c <? 80) with false by lia.
    pose proof (c13_unpack_unicode u 2 (head r k xf) [] Hu (or_intror eq_refl) Hl) as E.
    rewrite app_nil_r, zlen_head in E. change (Z.of_nat 2) with 2 in E. rewrite E. cbn [bind]. rewrite puts_put. reflexivity.
  - destruct HF as (b & Hl & -> & HD). replace (c_bv c <? 80) with true by lia. unfold unpack_string.
    pose proof (zlen_nonneg b). unfold unpack_u16 in *. rewrite (At_le _ _ _ _ _ 2 A eq_refl) by (change (256 ^ 2) with 65536; lia). cbn [bind].
    pose proof (At_skip _ _ _ _ (6 + 2) A eq_refl) as A1.
    rewrite (At_slice_end _ _ _ (6 + 2 + zlen b) A1) by lia. rewrite HD. cbn [bind]. rewrite puts_put. reflexivity.
Qed.

(** The run list after an RSTRING text. *)
Definition rruns_bytes (runs : list (Z * Z)) : list Z :=
  if c_bv c >=? 80 then le_enc 2 (zlen runs) ++ flat_map (fun p => le_enc 2 (fst p) ++ le_enc 2 (snd p)) runs
  else zlen runs :: flat_map (fun p => [fst p; snd p]) runs.
Definition rruns_ok (runs : list (Z * Z)) : Prop :=
  if c_bv c >=? 80 then zlen runs < 65536 /\ Forall (fun p => u16v (fst p) /\ u16v (snd p)) runs
  else zlen runs < 256 /\ Forall (fun p => 0 <= fst p < 256 /\ 0 <= snd p < 256) runs.

Lemma rstring_runs_2 : forall runs data pos, Forall (fun p => u16v (fst p) /\ u16v (snd p)) runs ->
  At data pos (flat_map (fun p => le_enc 2 (fst p) ++ le_enc 2 (snd p)) runs) ->
  rstring_runs (length runs) data pos 2 = Ok (runs, pos + 4 * zlen runs).
Proof.
  induction runs as [|[a b] runs IH]; intros data pos HF HA.
  - cbn [length rstring_runs]. do 2 f_equal. change (zlen []) with 0. lia.
  - inversion HF as [|? ? [Ha Hb] HF']; subst. cbn [flat_map fst snd length rstring_runs] in *. rewrite <- app_assoc in HA.
    change (2 * 2) with 4. replace (zlen (py_slice data pos (pos + 4)) =? 4) with true.
    2:{ symmetry. rewrite app_assoc in HA. exact (At_zslice_len _ _ _ _ 4 HA eq_refl). }
    cbn [guard bind]. fold unpack_u16. rewrite (At_u16 _ _ _ _ HA Ha). cbn [bind].
    pose proof (At_skip _ _ _ _ (pos + 2) HA eq_refl) as H1. rewrite (At_u16 _ _ _ _ H1 Hb). cbn [bind].
    pose proof (At_skip _ _ _ _ (pos + 4) H1 ltac:(rewrite zlen_le_enc; lia)) as H2.
    rewrite (IH _ _ HF' H2). cbn [bind]. do 2 f_equal. rewrite zlen_cons. lia.
Qed.

Lemma rstring_runs_1 : forall runs data pos, Forall (fun p => 0 <= fst p < 256 /\ 0 <= snd p < 256) runs ->
  At data pos (flat_map (fun p => [fst p; snd p]) runs) ->
  rstring_runs (length runs) data pos 1 = Ok (runs, pos + 2 * zlen runs).
Proof.
  induction runs as [|[a b] runs IH]; intros data pos HF HA.
  - cbn [length rstring_runs]. do 2 f_equal. change (zlen []) with 0. lia.
  - inversion HF as [|? ? [Ha Hb] HF']; subst. cbn [flat_map fst snd length rstring_runs app] in *.
    change (2 * 1) with 2. replace (zlen (py_slice data pos (pos + 2)) =? 2) with true.
    2:{ symmetry. exact (At_zslice_len _ [a; b] _ _ 2 HA eq_refl). }
    cbn [guard bind].
    assert (forall x t p, At data p (x :: t) -> 0 <= x < 256 -> unpack_le 1 data p = Ok x) as K.
    { intros x t p HP Hx. unfold unpack_le. rewrite (At_slice data [x] t p) by (try exact HP; reflexivity). cbn. f_equal. lia. }
    rewrite (K _ _ _ HA Ha). cbn [bind].
    pose proof (At_skip1 _ _ _ _ (pos + 1) HA eq_refl) as H1. rewrite (K _ _ _ H1 Hb). cbn [bind].
    pose proof (At_skip1 _ _ _ _ (pos + 2) H1 ltac:(lia)) as H2.
    rewrite (IH _ _ HF' H2). cbn [bind]. do 2 f_equal. rewrite zlen_cons. lia.
Qed.

Lemma zlen_flat_map_const : forall {A B} (f : A -> list B) n l, (forall a, zlen (f a) = n) -> zlen (flat_map f l) = n * zlen l.
Proof.
  intros A B f n l H. induction l as [|a l IH]; [change (zlen (flat_map f [])) with 0; change (zlen []) with 0; lia|].
  cbn [flat_map]. rewrite zlen_app, H, IH, zlen_cons. lia.
Qed.

Lemma rstring_step : forall sh r k xf raw s runs rs, u16v r -> u16v k -> u16v xf -> field_holds raw s -> rruns_ok runs ->
  let d := head r k xf ++ raw ++ rruns_bytes runs in
  step c sh XL_RSTRING (zlen d) d rs =
    do sh <- puts sh [mk_store r k XL_CELL_TEXT (VText s) xf]; Ok (set_rich sh r k runs, rs).
Proof.
  intros sh r k xf raw s runs rs Hr Hk Hx HF HR d. change (step c sh XL_RSTRING (zlen d) d rs) with
    (plain (h_rstring c sh d) rs). unfold h_rstring.
  destruct (head_read r k xf (raw ++ rruns_bytes runs) Hr Hk Hx) as (E1 & E2 & E3 & A). fold d in E1, E2, E3, A.
  pose proof (zlen_nonneg (raw ++ rruns_bytes runs)).
  rewrite need_ok by (unfold d; rewrite zlen_app, zlen_head; lia). rewrite E1, E2, E3. cbn [bind].
  assert (forall e, (do (strg, runs0) <- e; do sh <- put c sh r k (Some XL_CELL_TEXT) (VText strg) xf; Ok (set_rich sh r k runs0)) =
    (do (strg, runs0) <- e; do sh <- puts sh [mk_store r k XL_CELL_TEXT (VText strg) xf]; Ok (set_rich sh r k runs0))) as P.
  { intros [[strg runs0]|e]; [|reflexivity]. cbn [bind]. rewrite puts_put. reflexivity. }
  rewrite P. clear P.
  match goal with |- plain (bind ?m _) _ = _ => assert (m = Ok (s, runs)) as -> end.
  { unfold field_holds, rruns_ok, rruns_bytes in *. destruct (c_bv c >=? 80) eqn:E8.
    - destruct HF as (u & Hu & Hl & -> & <-). destruct HR as [HR1 HR2]. replace (c_bv c <? 80) with false by lia.
      set (RB := le_enc 2 (zlen runs) ++ flat_map (fun p : Z * Z => le_enc 2 (fst p) ++ le_enc 2 (snd p)) runs) in *.
      pose proof (c13_unicode_update_pos u 2 (head r k xf) RB Hu (or_intror eq_refl) Hl) as E.
      fold d in E. rewrite zlen_head in E. change (Z.of_nat 2) with 2 in E. rewrite E. cbn [bind]. clear E.
      pose proof (At_skip _ _ _ _ (zlen (head r k xf ++ us_field 2 u)) A ltac:(rewrite zlen_app, zlen_head; lia)) as A1.
      set (p1 := zlen (head r k xf ++ us_field 2 u)) in *. unfold RB in A1.
      pose proof (zlen_nonneg runs). rewrite (At_u16 _ _ _ _ A1) by lia. cbn [bind].
      pose proof (At_skip _ _ _ _ (p1 + 2) A1 eq_refl) as A2.
      replace (Z.to_nat (zlen runs)) with (length runs) by (unfold zlen; lia).
      rewrite (rstring_runs_2 _ _ _ HR2 A2). cbn [bind].
      replace (p1 + 2 + 4 * zlen runs =? zlen d) with true; [reflexivity|]. symmetry. apply Z.eqb_eq.
      rewrite (At_len _ _ _ A2). rewrite (zlen_flat_map_const _ 4); [lia|]. intros a. rewrite zlen_app, !zlen_le_enc. lia.
    - destruct HF as (b & Hl & -> & HD). destruct HR as [HR1 HR2]. replace (c_bv c <? 80) with true by lia.
      unfold unpack_string_update_pos. pose proof (zlen_nonneg b). pose proof (zlen_nonneg runs).
      rewrite <- app_assoc in A.
      rewrite (At_le _ _ _ _ _ 2 A eq_refl) by (change (256 ^ 2) with 65536; lia). cbn [bind].
      pose proof (At_skip _ _ _ _ (6 + 2) A eq_refl) as A1.
      rewrite (At_slice _ _ _ _ (6 + 2 + zlen b) A1) by lia. rewrite HD. cbn [bind].
      pose proof (At_skip _ _ _ _ (6 + 2 + zlen b) A1 ltac:(lia)) as A2.
      rewrite (At_index _ _ _ _ A2). cbn [bind].
      replace (Z.to_nat (zlen runs)) with (length runs) by (unfold zlen; lia).
      pose proof (At_skip1 _ _ _ _ (6 + 2 + zlen b + 1) A2 ltac:(lia)) as A3.
      rewrite (rstring_runs_1 _ _ _ HR2 A3). cbn [bind].
      replace (6 + 2 + zlen b + 1 + 2 * zlen runs =? zlen d) with true; [reflexivity|]. symmetry. apply Z.eqb_eq.
      rewrite (At_len _ _ _ A3). rewrite (zlen_flat_map_const _ 2); [lia|]. reflexivity. }
  cbn [bind]. unfold plain. rewrite bind_assoc. destruct (puts sh _); reflexivity.
Qed.

(** *** FORMULA *)

Definition formula_data (r k xf : Z) (res rest : list Z) : list Z := head r k xf ++ res ++ rest.

Lemma formula_read : forall r k xf res rest, u16v r -> u16v k -> u16v xf -> zlen res = 8 -> 2 <= zlen rest ->
  let d := formula_data r k xf res rest in
  need d 16 = Ok tt /\ unpack_u16 d 0 = Ok r /\ unpack_u16 d 2 = Ok k /\ unpack_u16 d 4 = Ok xf /\ py_slice d 6 14 = res.
Proof.
  intros r k xf res rest Hr Hk Hx H8 H2 d. unfold d, formula_data.
  destruct (head_read r k xf (res ++ rest) Hr Hk Hx) as (E1 & E2 & E3 & A).
  rewrite need_ok by (rewrite !zlen_app, zlen_head; lia). rewrite E1, E2, E3, (At_slice _ _ _ _ 14 A) by lia. auto.
Qed.

Lemma formula_code_step : forall sh rc len d rs, is_formula_code rc = true -> step c sh rc len d rs = h_formula c sh d rs.
Proof.
  intros sh rc len d rs H. unfold is_formula_code in H. apply orb_true_iff in H as [H|H]; [apply orb_true_iff in H as [H|H]|];
    apply Z.eqb_eq in H; subst rc; reflexivity.
Qed.

(** Any result field not ending in FF FF is a number. *)
Lemma formula_number_step : forall sh rc len r k xf res rest rs t, is_formula_code rc = true ->
  u16v r -> u16v k -> u16v xf -> zlen res = 8 -> 2 <= zlen rest -> py_slice res 6 8 <> [255; 255] -> c_xftype c xf = Some t ->
  step c sh rc len (formula_data r k xf res rest) rs = plain (puts sh [mk_store r k t (VNum (c_num8 c res)) xf]) rs.
Proof.
  intros sh rc len r k xf res rest rs t HC Hr Hk Hx H8 H2 HN HT. rewrite formula_code_step by exact HC. unfold h_formula.
  destruct (formula_read r k xf res rest Hr Hk Hx H8 H2) as (E0 & E1 & E2 & E3 & ->). rewrite E0, E1, E2, E3. cbn [bind].
  destruct (list_eqb (py_slice res 6 8) [255; 255]) eqn:E; [apply list_eqb_eq in E; contradiction|].
  rewrite (put_known _ _ _ _ _ _ HT). reflexivity.
Qed.

(** The marked results: kind, unused, value, three unused, FF FF. *)
Definition marked (kind v u1 u3 u4 u5 : Z) : list Z := [kind; u1; v; u3; u4; u5; 255; 255].

Lemma formula_marked_step : forall sh rc len r k xf kind v u1 u3 u4 u5 rest rs, is_formula_code rc = true ->
  u16v r -> u16v k -> u16v xf -> 2 <= zlen rest ->
  step c sh rc len (formula_data r k xf (marked kind v u1 u3 u4 u5) rest) rs =
    if kind =? 0 then do (s, rs) <- formula_string c rs; plain (puts sh [mk_store r k XL_CELL_TEXT (VText s) xf]) rs
    else if kind =? 1 then plain (puts sh [mk_store r k XL_CELL_BOOLEAN (VInt v) xf]) rs
    else if kind =? 2 then plain (puts sh [mk_store r k XL_CELL_ERROR (VInt v) xf]) rs
    else if kind =? 3 then plain (puts sh [mk_store r k XL_CELL_TEXT (VText []) xf]) rs
    else Err XLRDError.
Proof.
  intros sh rc len r k xf kind v u1 u3 u4 u5 rest rs HC Hr Hk Hx H2. rewrite formula_code_step by exact HC. unfold h_formula.
  destruct (formula_read r k xf (marked kind v u1 u3 u4 u5) rest Hr Hk Hx eq_refl H2) as (E0 & E1 & E2 & E3 & ->).
  rewrite E0, E1, E2, E3. cbn [bind].
  change (py_slice (marked kind v u1 u3 u4 u5) 6 8) with [255; 255].
  change (py_index (marked kind v u1 u3 u4 u5) 0) with (Ok kind).
  change (py_index (marked kind v u1 u3 u4 u5) 2) with (Ok v).
  change (list_eqb [255; 255] [255; 255]) with true. cbn [bind]. cbv iota.
  destruct (kind =? 0). { destruct (formula_string c rs) as [[s rs']|e]; [|reflexivity]. cbn [bind]. rewrite puts_put. reflexivity. }
  rewrite !puts_put. reflexivity.
Qed.

(** A piece of the text of a STRING record and its CONTINUE records. *)
Definition piece_holds (raw t : list Z) : Prop :=
  if c_bv c >=? 80 then exists opts, text t /\ if Z.testbit opts 0 then raw = opts :: utf16_enc t else raw = opts :: t
  else c_decode c raw = Ok t.

Lemma piece_decode : forall data pos raw t, At data pos raw -> piece_holds raw t ->
  (if c_bv c >=? 80 then
     do b <- py_index data pos;
     if Z.testbit b 0 then utf16_dec (py_from data (pos + 1)) else Ok (py_from data (pos + 1))
   else c_decode c (py_from data pos)) = Ok t.
Proof.
  intros data pos raw t HA HP. unfold piece_holds in HP. destruct (c_bv c >=? 80).
  - destruct HP as (opts & Ht & HP). destruct (Z.testbit opts 0) eqn:E; subst raw;
      rewrite (At_index _ _ _ _ HA); cbn [bind]; rewrite E;
      rewrite (At_from _ _ _ (At_skip1 _ _ _ _ (pos + 1) HA eq_refl)); [apply utf16_dec_enc; exact Ht|reflexivity].
  - rewrite (At_from _ _ _ HA). exact HP.
Qed.

Definition total_len (ts : list (list Z)) : Z := fold_right (fun t n => zlen t + n) 0 ts.

Lemma total_len_nonneg : forall ts, 0 <= total_len ts.
Proof. induction ts as [|t ts IH]; unfold total_len in *; cbn [fold_right]; [lia|]. pose proof (zlen_nonneg t). lia. Qed.

(** Pieces are joined; the announced number of characters says which is the last. *)
Lemma string_loop_pieces : forall more ts raw t data pos nexp nfound acc rs,
  At data pos raw -> piece_holds raw t -> Forall2 piece_holds more ts ->
  (more = [] \/ last ts [] <> []) -> nexp = nfound + zlen t + total_len ts ->
  string_loop c (map (fun p => (XL_CONTINUE, zlen p, p)) more ++ rs) data pos nexp nfound acc = Ok (acc ++ t ++ concat ts, rs).
Proof.
  induction more as [|raw2 more IH]; intros ts raw t data pos nexp nfound acc rs HA HP HM HL HN.
  - inversion HM; subst. cbn [map app concat]. rewrite app_nil_r. destruct rs as [|[[rc len] d] rs]; cbn [string_loop];
      rewrite (piece_decode _ _ _ _ HA HP); cbn [bind]; unfold total_len; cbn [fold_right];
      replace (nfound + zlen t =? nfound + zlen t + 0) with true by lia; reflexivity.
  - inversion HM as [|? t2 ? ts2 HP2 HM2]; subst. cbn [map app string_loop]. rewrite (piece_decode _ _ _ _ HA HP). cbn [bind].
    destruct HL as [HL|HL]; [discriminate|].
    assert (0 < total_len (t2 :: ts2)) as Hpos.
    { clear -HL. revert t2 HL. induction ts2 as [|t3 ts3 IH]; intros t2 HL.
      - cbn [last] in HL. unfold total_len. cbn [fold_right]. destruct t2; [contradiction|]. rewrite zlen_cons. pose proof (zlen_nonneg t2). lia.
      - change (last (t2 :: t3 :: ts3) []) with (last (t3 :: ts3) []) in HL. specialize (IH _ HL).
        change (total_len (t2 :: t3 :: ts3)) with (zlen t2 + total_len (t3 :: ts3)). pose proof (zlen_nonneg t2). lia. }
    replace (nfound + zlen t =? nfound + zlen t + total_len (t2 :: ts2)) with false by lia.
    replace (nfound + zlen t >? nfound + zlen t + total_len (t2 :: ts2)) with false by lia.
    change (negb (XL_CONTINUE =? XL_CONTINUE)) with false. cbv iota.
    rewrite (IH ts2 raw2 t2 raw2 0 _ _ _ _ (At_0 _) HP2 HM2).
    + cbn [concat]. rewrite <- !app_assoc. reflexivity.
    + destruct more; [left; reflexivity|]. right. inversion HM2; subst. exact HL.
    + change (total_len (t2 :: ts2)) with (zlen t2 + total_len ts2). lia.
Qed.

(** The record that may stand between FORMULA and STRING. *)
Definition between_ok (r : Z * list Z) : Prop :=
  fst r = XL_ARRAY /\ 14 <= zlen (snd r) \/ fst r = XL_SHRFMLA /\ 10 <= zlen (snd r) \/
  fst r = XL_TABLEOP \/ fst r = XL_TABLEOP2 \/ fst r = XL_ARRAY2 \/ fst r = XL_TABLEOP_B2.

Definition string_data (n : Z) (raw : list Z) : list Z := le_enc 2 n ++ raw.

Definition rec_of (r : Z * list Z) : record := (fst r, zlen (snd r), snd r).

Lemma formula_string_reads : forall between raw t more ts rs, c_bv c >= 30 ->
  Forall between_ok between -> zlen between <= 1 ->
  piece_holds raw t -> Forall2 piece_holds more ts -> (more = [] \/ last ts [] <> []) -> zlen t + total_len ts < 65536 ->
  formula_string c (map rec_of (between ++ (XL_STRING, string_data (zlen t + total_len ts) raw) :: map (pair XL_CONTINUE) more) ++ rs)
    = Ok (t ++ concat ts, rs).
Proof.
  intros between raw t more ts rs HV HB HB1 HP HM HL HN.
  pose proof (zlen_nonneg t). pose proof (total_len_nonneg ts).
  set (n := zlen t + total_len ts) in *.
  assert (forall rs, string_record_contents c (map rec_of (map (pair XL_CONTINUE) more) ++ rs) (string_data n raw) = Ok (t ++ concat ts, rs)) as K.
  { intros rs0. unfold string_record_contents. replace (c_bv c >=? 30) with true by lia.
    assert (At (string_data n raw) 0 (le_enc 2 n ++ raw)) as A0 by apply At_0.
    rewrite (At_le _ _ _ _ _ 2 A0 eq_refl) by (change (256 ^ 2) with 65536; lia). cbn [bind].
    rewrite map_map. change (fun x : list Z => rec_of (XL_CONTINUE, x)) with (fun p : list Z => (XL_CONTINUE, zlen p, p)).
    apply (string_loop_pieces more ts raw t (string_data n raw) 2 n 0 [] rs0); auto.
    eapply At_skip; [exact A0|reflexivity]. }
  unfold formula_string. destruct between as [|b [|b2 l]].
  - cbn [app map]. unfold rec_of at 1. cbn [fst snd next bind].
    change ((XL_STRING =? XL_STRING) || (XL_STRING =? XL_STRING_B2)) with true. cbv iota. cbn [bind]. apply K.
  - inversion HB as [|? ? Hb _]; subst. cbn [app map]. unfold rec_of at 1 2. cbn [fst snd next bind].
    change (negb (XL_STRING =? XL_STRING)) with false.
    assert (((fst b =? XL_STRING) || (fst b =? XL_STRING_B2)) = false) as -> by
      (unfold between_ok, XL_ARRAY, XL_SHRFMLA, XL_TABLEOP, XL_TABLEOP2, XL_ARRAY2, XL_TABLEOP_B2 in Hb; unfold XL_STRING, XL_STRING_B2; lia).
    assert ((if fst b =? XL_ARRAY then need (snd b) 14
              else if fst b =? XL_SHRFMLA then need (snd b) 10
              else if (fst b =? XL_TABLEOP) || (fst b =? XL_TABLEOP2) || (fst b =? XL_ARRAY2) || (fst b =? XL_TABLEOP_B2)
              then Ok tt else Err XLRDError) = Ok tt) as ->.
    { destruct Hb as [[-> Hb]|[[-> Hb]|[ -> |[ -> |[ -> | -> ]]]]]; try reflexivity.
      - rewrite Z.eqb_refl. apply need_ok. lia.
      - change (XL_SHRFMLA =? XL_ARRAY) with false. rewrite Z.eqb_refl. cbv iota. apply need_ok. lia. }
    cbn [bind]. change ((XL_STRING =? XL_STRING) || (XL_STRING =? XL_STRING_B2)) with true. cbv iota. cbn [bind]. apply K.
  - rewrite !zlen_cons in HB1. pose proof (zlen_nonneg l). lia.
Qed.

(** *** MERGEDCELLS *)

(** The bytes of a range list: inclusive bounds, two columns and two rows of 16 bits. *)
Definition range_bytes (m : mrange) : list Z :=
  let '(rlo, rhi, clo, chi) := m in le_enc 2 rlo ++ le_enc 2 (rhi - 1) ++ le_enc 2 clo ++ le_enc 2 (chi - 1).
Definition ranges_data (ms : list mrange) : list Z := le_enc 2 (zlen ms) ++ flat_map range_bytes ms.
Definition range_ok (m : mrange) : Prop := let '(rlo, rhi, clo, chi) := m in u16v rlo /\ u16v (rhi - 1) /\ u16v clo /\ u16v (chi - 1).

Lemma cell_range_loop_enc : forall ms data pos acc tail, Forall range_ok ms -> At data pos (flat_map range_bytes ms ++ tail) ->
  cell_range_loop (length ms) data pos 8 acc = Ok (acc ++ ms, pos + 8 * zlen ms).
Proof.
  induction ms as [|[[[a b] p] q] ms IH]; intros data pos acc tail HF HA.
  - cbn [length cell_range_loop]. rewrite app_nil_r. do 2 f_equal. change (zlen []) with 0. lia.
  - inversion HF as [|? ? HR HF']; subst. cbn [range_ok] in HR. destruct HR as (Ha & Hb & Hp & Hq). cbn [length cell_range_loop flat_map] in *.
    assert (zlen (py_slice data pos (pos + 8)) =? 8 = true) as ->.
    { rewrite <- app_assoc in HA. exact (At_zslice_len _ _ _ _ 8 HA eq_refl). }
    unfold range_bytes in HA at 1. rewrite <- !app_assoc in HA.
    pose proof (At_skip _ _ _ _ (pos + 2) HA eq_refl) as A1.
    pose proof (At_skip _ _ _ _ (pos + 4) A1 ltac:(rewrite zlen_le_enc; lia)) as A2.
    pose proof (At_skip _ _ _ _ (pos + 6) A2 ltac:(rewrite zlen_le_enc; lia)) as A3.
    pose proof (At_skip _ _ _ _ (pos + 8) A3 ltac:(rewrite zlen_le_enc; lia)) as A4.
    rewrite (At_u16 _ _ _ _ HA Ha), (At_u16 _ _ _ _ A1 Hb), (At_u16 _ _ _ _ A2 Hp), (At_u16 _ _ _ _ A3 Hq).
    change (8 =? 6) with false. cbn [bind]. rewrite (IH _ _ _ _ HF' A4). rewrite <- app_assoc. cbn [app].
    replace (b - 1 + 1) with b by lia. replace (q - 1 + 1) with q by lia. do 2 f_equal. rewrite zlen_cons. lia.
Qed.

Lemma range_list_enc : forall ms acc data pos tail, Forall range_ok ms -> zlen ms < 65536 -> At data pos (ranges_data ms ++ tail) ->
  unpack_cell_range_address_list_update_pos acc data pos 8 = Ok (acc ++ ms, pos + zlen (ranges_data ms)).
Proof.
  intros ms acc data pos tail HF HL HA. unfold unpack_cell_range_address_list_update_pos, ranges_data in *.
  change (negb ((8 =? 6) || (8 =? 8))) with false. cbv iota. rewrite <- app_assoc in HA. pose proof (zlen_nonneg ms).
  rewrite (At_u16 _ _ _ _ HA) by lia. cbn [bind]. replace (Z.to_nat (zlen ms)) with (length ms) by (unfold zlen; lia).
  rewrite (cell_range_loop_enc ms data (pos + 2) acc tail HF ltac:(eapply At_skip; [exact HA|reflexivity])).
  do 2 f_equal. rewrite zlen_app, zlen_le_enc.
  rewrite (zlen_flat_map_const range_bytes 8) by (intros [[[? ?] ?] ?]; reflexivity). lia.
Qed.

Definition with_merged (sh : sheet N) (m : list mrange) : sheet N :=
  let f := sh_fmt sh in with_fmt sh (mk_fmtst m (f_rows f) (f_cols f) (f_defcolwidth f) (f_standardwidth f) (f_gcw f)).

Lemma merged_step : forall sh ms rs, Forall range_ok ms -> zlen ms < 65536 ->
  step c sh XL_MERGEDCELLS (zlen (ranges_data ms)) (ranges_data ms) rs =
    Ok (if c_fmt c then with_merged sh (f_merged (sh_fmt sh) ++ ms) else sh, rs).
Proof.
  intros sh ms rs HF HL. change (step c sh XL_MERGEDCELLS (zlen (ranges_data ms)) (ranges_data ms) rs) with
    (plain (h_mergedcells c sh (zlen (ranges_data ms)) (ranges_data ms)) rs). unfold h_mergedcells.
  destruct (c_fmt c); cbn [negb]; [|reflexivity].
  rewrite (range_list_enc ms (f_merged (sh_fmt sh)) _ 0 [] HF HL) by (rewrite app_nil_r; apply At_0). cbn [bind].
  rewrite Z.add_0_l, Z.eqb_refl. reflexivity.
Qed.
End Steps.
