(** C47: BOF records are classified by a fixed table. *)
From Verif Require Import Base BaseFacts Framing SheetObjects BookModel.

(** ** Specification *)

(** The [i]-th 16-bit word of a record body; missing bytes count as zero. *)
Definition word (body : list Z) (i : nat) : Z := le_val (firstn 2 (skipn (2 * i) body)).

(** A record with this code and body stands at [pos]. *)
Definition stands (mem : list Z) (pos op : Z) (body : list Z) : Prop :=
  exists before after, mem = before ++ le_enc 2 op ++ le_enc 2 (zlen body) ++ body ++ after /\ zlen before = pos.

(** Versions of BOF records: 80 is BIFF8 (Excel 97 and later), 70 is Excel 95, 50 Excel 5,
    45 a BIFF4 workbook, 40 to 21 the older single sheets, 0 is unknown. *)
Inductive bof_says (body : list Z) : Z -> Z -> Prop :=
| Excel97 : word body 0 = 0x600 -> bof_says body 0x809 80
| Excel5_year : word body 0 = 0x500 -> word body 3 < 1994 -> bof_says body 0x809 50
| Excel5_build : word body 0 = 0x500 -> In (word body 2) [2412; 3218; 3321] -> bof_says body 0x809 50
| Excel95 : word body 0 = 0x500 -> 1994 <= word body 3 -> ~ In (word body 2) [2412; 3218; 3321] -> bof_says body 0x809 70
| Odd2 : In (word body 0) [0; 7; 0x200] -> bof_says body 0x809 21
| Odd3 : word body 0 = 0x300 -> bof_says body 0x809 30
| Odd4 : word body 0 = 0x400 -> word body 1 <> 0x100 -> bof_says body 0x809 40
| Odd4W : word body 0 = 0x400 -> word body 1 = 0x100 -> bof_says body 0x809 45
| Unknown : ~ In (word body 0) [0x600; 0x500; 0; 7; 0x200; 0x300; 0x400] -> bof_says body 0x809 0
| Biff4 : word body 1 <> 0x100 -> bof_says body 0x409 40
| Biff4W : word body 1 = 0x100 -> bof_says body 0x409 45
| Biff3 : bof_says body 0x209 30
| Biff2 : bof_says body 0x009 21.

(** The streams that are accepted when [wanted] is asked for: 5 is workbook globals,
    0x10 a worksheet, 0x100 the globals of a BIFF4 workbook. *)
Definition right_stream (wanted v stream : Z) : Prop :=
  stream = wanted \/ (wanted = 5 /\ stream = 0x100 /\ v = 45) \/ (stream = 0x10 /\ v < 50).

(** ** Proofs *)

Lemma word_padded : forall body n i, 0 <= n -> (2 * Z.of_nat i + 2 <= zlen body + n) ->
  unpack_u16 (body ++ zrepeat 0 n) (2 * Z.of_nat i) = Ok (word body i).
Proof.
  intros body n i N H. unfold unpack_u16, unpack_le, word.
  pose proof (zlen_nonneg body) as B.
  assert (L : zlen (body ++ zrepeat 0 n) = zlen body + n) by (rewrite zlen_app, zlen_zrepeat; lia).
  rewrite py_slice_len, !py_bound_id by lia.
  replace (Z.max _ _ =? 2) with true by lia. f_equal.
  unfold py_slice. rewrite !py_bound_id by lia.
  replace (Z.to_nat (2 * Z.of_nat i)) with (2 * i)%nat by lia.
  replace (Z.to_nat (2 * Z.of_nat i + 2 - 2 * Z.of_nat i)) with 2%nat by lia.
  rewrite skipn_app.
  assert (Z0 : forall k m, le_val (firstn k (skipn m (zrepeat 0 n))) = 0).
  { clear. intros k m. unfold zrepeat. generalize (Z.to_nat n). intros q. revert m k.
    induction q as [|q IH]; intros m k; [destruct m, k; reflexivity|].
    destruct m as [|m]; [|apply IH]. destruct k as [|k]; [reflexivity|].
    cbn [repeat skipn firstn le_val]. pose proof (IH 0%nat k) as Z1. cbn [skipn] in Z1. rewrite Z1. reflexivity. }
  assert (G : forall (a b : list Z) k, (forall k, le_val (firstn k b) = 0) -> le_val (firstn k (a ++ b)) = le_val (firstn k a)).
  { clear. induction a as [|x a IH]; intros b k Hb; cbn [app].
    - rewrite Hb. destruct k; reflexivity.
    - destruct k; cbn [firstn le_val]; auto. rewrite IH; auto. }
  apply G. intros. apply Z0.
Qed.

Lemma skipn_skipn' : forall {A} a b (l : list A), skipn a (skipn b l) = skipn (b + a) l.
Proof. intros A a b. induction b as [|b IH]; intros l; [reflexivity|]. destruct l; [destruct a; reflexivity|apply IH]. Qed.

Lemma lor_bytes : forall lo hi, 0 <= lo < 256 -> Z.lor lo (Z.shiftl hi 8) = lo + 256 * hi.
Proof.
  intros lo hi L. rewrite Z.shiftl_mul_pow2 by lia. change (2 ^ 8) with 256.
  assert (N : Z.land lo (hi * 256) = 0).
  { apply Z.bits_inj'. intros n Hn. rewrite Z.land_spec, Z.bits_0.
    destruct (Z.ltb_spec n 8).
    - change 256 with (2 ^ 8). rewrite Z.mul_pow2_bits_low by lia. apply andb_false_r.
    - replace lo with (lo mod 2 ^ 8) by (change (2 ^ 8) with 256; lia).
      rewrite Z.mod_pow2_bits_high by lia. reflexivity. }
  rewrite <- Z.lxor_lor, <- Z.add_nocarry_lxor by assumption. lia.
Qed.

Lemma getbof_unfold : forall mem pos wanted op body,
  bytes mem -> stands mem pos op body -> 0 <= op < 65536 -> 4 <= zlen body <= 20 ->
  getbof mem pos wanted =
  match boflen op with
  | None => Err XLRDError
  | Some _ =>
      let v1 := Z.shiftr op 8 in
      let v := bof_version v1 (word body 0) (if v1 =? 8 then word body 2 else 0) (if v1 =? 8 then word body 3 else 0) (word body 1) in
      let globals := (word body 1 =? 5) || ((v =? 45) && (word body 1 =? 0x100)) in
      if ((wanted =? 5) && globals) || (word body 1 =? wanted) then Ok (v, pos + 4 + zlen body)
      else if (v <? 50) && (word body 1 =? 0x10) then Ok (v, pos + 4 + zlen body) else Err XLRDError
  end.
Proof.
  intros mem pos wanted op body B (pre & post & E & P) O L. unfold getbof.
  assert (A : At mem pos (le_enc 2 op ++ le_enc 2 (zlen body) ++ body ++ post)) by (rewrite E; apply At_here; lia).
  assert (G : forall v q t, 0 <= v < 65536 -> At mem q (le_enc 2 v ++ t) -> get2bytes mem q = Ok (v, q + 2)).
  { clear. intros v q t V A. unfold get2bytes.
    rewrite (At_slice _ _ _ _ (q + 2) A) by (rewrite zlen_le_enc; lia).
    cbn [le_enc]. rewrite Z.lor_comm, lor_bytes by lia. change (zlen _) with 2. do 2 f_equal. lia. }
  rewrite (G _ _ _ O A), bind_Ok.
  unfold MY_EOF. replace (op =? 251706026) with false by lia. cbn [negb guard]. rewrite bind_Ok.
  destruct (boflen op) as [bl|] eqn:EB; [|reflexivity].
  pose proof (At_skip _ _ _ _ (pos + 2) A ltac:(rewrite zlen_le_enc; lia)) as A2.
  rewrite (G (zlen body) _ _ ltac:(lia) A2), bind_Ok.
  replace (zlen body =? 251706026) with false by lia. cbn [negb guard]. rewrite bind_Ok.
  replace ((4 <=? zlen body) && (zlen body <=? 20)) with true by lia. cbn [guard]. rewrite bind_Ok.
  pose proof (At_skip _ _ _ _ (pos + 4) A2 ltac:(rewrite zlen_le_enc; lia)) as A4.
  unfold read. replace (pos + 2 + 2) with (pos + 4) by lia.
  rewrite (At_slice _ _ _ _ (pos + 4 + zlen body) A4) by lia.
  replace (zlen body <? zlen body) with false by lia. cbn [negb guard]. rewrite bind_Ok.
  assert (BL : 4 <= bl <= 8 /\ (Z.shiftr op 8 = 8 -> bl = 8)).
  { clear - EB O. unfold boflen in EB. rewrite Z.shiftr_div_pow2 by lia. change (2 ^ 8) with 256.
    destruct (op =? 0x809) eqn:E1; [injection EB as <-; lia|].
    destruct ((op =? 0x409) || (op =? 0x209)) eqn:E2; [injection EB as <-; lia|].
    destruct (op =? 9) eqn:E3; [injection EB as <-; lia|discriminate]. }
  change 0 with (2 * Z.of_nat 0) at 2.
  rewrite (word_padded body _ 0) by lia. rewrite bind_Ok.
  change 2 with (2 * Z.of_nat 1) at 1.
  rewrite (word_padded body _ 1) by lia. rewrite bind_Ok.
  destruct (Z.shiftr op 8 =? 8) eqn:E8.
  - change 4 with (2 * Z.of_nat 2) at 1. rewrite (word_padded body _ 2) by lia. rewrite bind_Ok.
    change 6 with (2 * Z.of_nat 3) at 1. rewrite (word_padded body _ 3) by lia. rewrite !bind_Ok. reflexivity.
  - rewrite bind_Ok. reflexivity.
Qed.

Lemma getbof_errors : forall mem pos wanted e, getbof mem pos wanted = Err e -> e = XLRDError.
Proof.
  intros mem pos wanted e. unfold getbof, get2bytes.
  destruct (py_slice mem pos (pos + 2)) as [|lo [|hi [|? ?]]]; try (rewrite !bind_Ok; cbn; congruence).
  rewrite bind_Ok. generalize (Z.lor (Z.shiftl hi 8) lo). intros op.
  destruct (negb (op =? MY_EOF)); cbn [guard]; [rewrite bind_Ok|cbn; congruence].
  destruct (boflen op) as [bl|] eqn:EB; [|congruence].
  set (q := pos + zlen [lo; hi]). clearbody q.
  destruct (py_slice mem q (q + 2)) as [|lo' [|hi' [|? ?]]]; try (rewrite !bind_Ok; cbn; congruence).
  rewrite bind_Ok. generalize (Z.lor (Z.shiftl hi' 8) lo'). intros n.
  destruct (negb (n =? MY_EOF)); cbn [guard]; [rewrite bind_Ok|cbn; congruence].
  destruct ((4 <=? n) && (n <=? 20)) eqn:EN; cbn [guard]; [rewrite bind_Ok|cbn; congruence].
  unfold read. generalize (q + zlen [lo'; hi']). intros p.
  set (body := py_slice mem p (p + n)). clearbody body.
  destruct (negb (zlen body <? n)) eqn:EL; cbn [guard]; [rewrite bind_Ok|cbn; congruence].
  set (pad := zrepeat 0 (Z.max 0 (bl - n))).
  assert (P : zlen pad = Z.max 0 (bl - n)) by (apply zlen_zrepeat; lia).
  assert (U : forall k, 0 <= k -> k + 2 <= Z.max n bl -> exists v, unpack_u16 (body ++ pad) k = Ok v).
  { clear - EL P EN. intros k K1 K2. unfold unpack_u16, unpack_le.
    rewrite py_slice_len, zlen_app, !py_bound_id by lia.
    replace (Z.max _ _ =? 2) with true by lia. eauto. }
  destruct (U 0 ltac:(lia) ltac:(lia)) as [v2 ->]. rewrite bind_Ok.
  destruct (U 2 ltac:(lia) ltac:(lia)) as [st ->]. rewrite bind_Ok.
  destruct (Z.shiftr op 8 =? 8) eqn:E8.
  - assert (bl = 8).
    { clear - EB E8. unfold boflen in EB.
      destruct (op =? 0x809) eqn:E1; [congruence|].
      destruct (op =? 0x409) eqn:E2; [replace op with 0x409 in E8 by lia; discriminate|].
      destruct (op =? 0x209) eqn:E3; [replace op with 0x209 in E8 by lia; discriminate|].
      destruct (op =? 9) eqn:E4; [replace op with 9 in E8 by lia; discriminate|discriminate]. }
    destruct (U 4 ltac:(lia) ltac:(lia)) as [b ->]. rewrite bind_Ok.
    destruct (U 6 ltac:(lia) ltac:(lia)) as [y ->]. rewrite !bind_Ok.
    repeat match goal with |- context [if ?c then _ else _] => destruct c end; congruence.
  - rewrite bind_Ok.
    repeat match goal with |- context [if ?c then _ else _] => destruct c end; congruence.
Qed.

Lemma getbof_stands : forall mem pos wanted v p,
  bytes mem -> 0 <= pos -> getbof mem pos wanted = Ok (v, p) ->
  exists op body, stands mem pos op body /\ 0 <= op < 65536 /\ 4 <= zlen body <= 20.
Proof.
  intros mem pos wanted v p B P. unfold getbof.
  assert (G : forall q op q', 0 <= q -> get2bytes mem q = Ok (op, q') -> op <> MY_EOF ->
            0 <= op < 65536 /\ py_slice mem q (q + 2) = le_enc 2 op /\ q' = q + 2).
  { clear - B. intros q op q' Q. unfold get2bytes. pose proof (bytes_slice mem q (q + 2) B) as BS.
    destruct (py_slice mem q (q + 2)) as [|lo [|hi [|? ?]]]; try (intros [= <- <-]; congruence).
    inversion BS as [|? ? B1 BS']; subst. inversion BS' as [|? ? B2 BS'']; subst.
    rewrite Z.lor_comm, lor_bytes by lia. change (zlen _) with 2. intros EQ _.
    assert (op = lo + 256 * hi /\ q' = q + 2) as [-> ->] by (split; congruence).
    split; [lia|]. split; [|reflexivity].
    cbn [le_enc]. f_equal; [lia|]. f_equal. lia. }
  destruct (get2bytes mem pos) as [[op q]|] eqn:E1; [rewrite bind_Ok|discriminate].
  destruct (negb (op =? MY_EOF)) eqn:N1; cbn [guard]; [rewrite bind_Ok|discriminate].
  destruct (G _ _ _ P E1 ltac:(lia)) as (O & S1 & ->).
  destruct (boflen op); [|discriminate].
  destruct (get2bytes mem (pos + 2)) as [[n q]|] eqn:E2; [rewrite bind_Ok|discriminate].
  destruct (negb (n =? MY_EOF)) eqn:N2; cbn [guard]; [rewrite bind_Ok|discriminate].
  destruct (G (pos + 2) _ _ ltac:(lia) E2 ltac:(lia)) as (_ & S2 & ->).
  destruct ((4 <=? n) && (n <=? 20)) eqn:EN; cbn [guard]; [rewrite bind_Ok|discriminate].
  unfold read. set (body := py_slice mem (pos + 2 + 2) (pos + 2 + 2 + n)).
  destruct (negb (zlen body <? n)) eqn:EL; cbn [guard]; [|discriminate].
  intros _. exists op, body.
  assert (T : forall a b c, 0 <= a -> a <= b -> b <= c -> py_slice mem a b ++ py_slice mem b c = py_slice mem a c).
  { clear. intros a b c A1 AB BC. unfold py_slice. pose proof (zlen_nonneg mem) as M.
    assert (K : forall i, 0 <= i -> py_bound (zlen mem) i = Z.min i (zlen mem)).
    { intros i I. unfold py_bound. destruct (i <? 0) eqn:E; lia. }
    rewrite !K by lia.
    set (x := Z.min a (zlen mem)). set (y := Z.min b (zlen mem)). set (z := Z.min c (zlen mem)).
    replace (Z.to_nat (z - x)) with (Z.to_nat (y - x) + Z.to_nat (z - y))%nat by lia.
    replace (skipn (Z.to_nat y) mem) with (skipn (Z.to_nat (y - x)) (skipn (Z.to_nat x) mem)).
    - generalize (skipn (Z.to_nat x) mem) (Z.to_nat (y - x)) (Z.to_nat (z - y)).
      intros l k. revert l. induction k as [|k IH]; intros l m; [reflexivity|].
      destruct l; cbn [firstn skipn app Nat.add]; [now rewrite firstn_nil|]. now rewrite IH.
    - rewrite skipn_skipn'. f_equal. lia. }
  assert (LB : zlen body = n).
  { assert (zlen body <= n); [|lia]. unfold body. rewrite py_slice_len.
    assert (L2 : zlen (py_slice mem (pos + 2) (pos + 2 + 2)) = 2) by (rewrite S2; apply zlen_le_enc).
    rewrite py_slice_len in L2. unfold py_bound in *.
    pose proof (zlen_nonneg mem).
    destruct (pos + 2 + 2 + n <? 0) eqn:?; destruct (pos + 2 + 2 <? 0) eqn:?; lia. }
  split; [|rewrite LB; split; lia].
  exists (py_slice mem 0 pos), (py_slice mem (pos + 2 + 2 + n) (pos + 2 + 2 + n + zlen mem)).
  pose proof (zlen_nonneg mem).
  rewrite LB, <- S1, <- S2. unfold body. split.
  - rewrite !T by lia. symmetry. apply py_slice_all. lia.
  - assert (L2 : zlen (py_slice mem (pos + 2) (pos + 2 + 2)) = 2) by (rewrite S2; apply zlen_le_enc).
    rewrite py_slice_len in *. unfold py_bound in *. cbn [Z.ltb Z.compare] in *.
    destruct (pos <? 0) eqn:?; destruct (pos + 2 + 2 <? 0) eqn:?; destruct (pos + 2 <? 0) eqn:?; lia.
Qed.

Definition model_version (op : Z) (body : list Z) : Z :=
  let v1 := Z.shiftr op 8 in
  bof_version v1 (word body 0) (if v1 =? 8 then word body 2 else 0) (if v1 =? 8 then word body 3 else 0) (word body 1).

Lemma bof_says_version : forall body op v,
  bof_says body op v <-> boflen op <> None /\ v = model_version op body.
Proof.
  intros body op v. unfold model_version.
  assert (F1 : forall s, bof_version 4 (word body 0) 0 0 s = if s =? 0x100 then 45 else 40) by (intros; unfold bof_version, XL_WORKBOOK_GLOBALS_4W; cbn; destruct (s =? 256); reflexivity).
  split.
  - intros H. split; [destruct H; discriminate|].
    destruct H;
      try change (Z.shiftr 0x809 8) with 8; try change (Z.shiftr 0x409 8) with 4; cbn [Z.eqb Pos.eqb];
      try rewrite F1; try reflexivity;
      unfold bof_version, XL_WORKBOOK_GLOBALS_4W; cbn [Z.eqb Pos.eqb];
      repeat match goal with H : In _ _ |- _ => cbn [In] in H end;
      repeat match goal with H : ~ In _ _ |- _ => cbn [In] in H end;
      repeat match goal with |- context [if ?c then _ else _] =>
        lazymatch c with context [if _ then _ else _] => fail | _ => destruct c eqn:? end end; lia.
  - intros [O ->].
    assert (op = 0x809 \/ op = 0x409 \/ op = 0x209 \/ op = 9) as [-> | [-> | [-> | ->]]].
    { unfold boflen in O. repeat match type of O with context [if ?c then _ else _] => destruct c eqn:? end; first [lia | congruence]. }
    + change (Z.shiftr 0x809 8) with 8. cbn [Z.eqb Pos.eqb]. unfold bof_version, XL_WORKBOOK_GLOBALS_4W. cbn [Z.eqb Pos.eqb].
      destruct (word body 0 =? 0x600) eqn:E1; [cbn; apply Excel97; lia|].
      destruct (word body 0 =? 0x500) eqn:E2.
      { destruct ((word body 3 <? 1994) || (word body 2 =? 2412) || (word body 2 =? 3218) || (word body 2 =? 3321)) eqn:E3; cbn.
        - destruct (word body 3 <? 1994) eqn:E4; [apply Excel5_year; lia|apply Excel5_build; cbn [In]; lia].
        - apply Excel95; cbn [In]; lia. }
      destruct ((word body 0 =? 0) || (word body 0 =? 7) || (word body 0 =? 0x200)) eqn:E3; [cbn; apply Odd2; cbn [In]; lia|].
      destruct (word body 0 =? 0x300) eqn:E4; [cbn; apply Odd3; lia|].
      destruct (word body 0 =? 0x400) eqn:E5.
      * cbn [Z.eqb Pos.eqb andb]. destruct (word body 1 =? 256) eqn:E6; [apply Odd4W; lia|apply Odd4; lia].
      * cbn. apply Unknown. cbn [In]. lia.
    + change (Z.shiftr 0x409 8) with 4. cbn [Z.eqb Pos.eqb]. rewrite F1.
      destruct (word body 1 =? 256) eqn:E6; [apply Biff4W; lia|apply Biff4; lia].
    + apply Biff3.
    + apply Biff2.
Qed.

(** A version and a position come out exactly when a BOF record of 4 to 20 bytes for an
    acceptable stream stands at [pos]; the version is the one of the table and the
    position is the end of the record. *)
Theorem c47_getbof : forall mem pos wanted v p,
  bytes mem -> 0 <= pos ->
  (getbof mem pos wanted = Ok (v, p) <->
   exists op body, stands mem pos op body /\ 4 <= zlen body <= 20 /\ bof_says body op v /\
                   right_stream wanted v (word body 1) /\ p = pos + 4 + zlen body).
Proof.
  intros mem pos wanted v p B P.
  assert (RS : forall w m s, right_stream w m s <->
     (if (w =? 5) && ((s =? 5) || ((m =? 45) && (s =? 0x100))) || (s =? w) then true else (m <? 50) && (s =? 0x10)) = true).
  { intros w m s. unfold right_stream.
    destruct ((w =? 5) && ((s =? 5) || ((m =? 45) && (s =? 0x100))) || (s =? w)) eqn:E; lia. }
  split.
  - intros H. destruct (getbof_stands _ _ _ _ _ B P H) as (op & body & S & O & L).
    exists op, body. rewrite (getbof_unfold _ _ _ _ _ B S O L) in H.
    destruct (boflen op) eqn:EB; [|discriminate].
    cbn zeta in H. change (bof_version _ _ _ _ _) with (model_version op body) in H.
    split; [exact S|]. split; [exact L|].
    rewrite RS, bof_says_version.
    destruct ((wanted =? 5) && _ || _) eqn:E1.
    + injection H as <- <-. rewrite E1. repeat split; congruence.
    + destruct ((model_version op body <? 50) && (word body 1 =? 16)) eqn:E2; [|discriminate].
      injection H as <- <-. rewrite E1. repeat split; congruence.
  - intros (op & body & S & L & V & R & ->). rewrite bof_says_version in V. destruct V as [O ->].
    assert (O2 : 0 <= op < 65536).
    { clear - O. unfold boflen in O. repeat match type of O with context [if ?c then _ else _] => destruct c eqn:? end; first [lia | congruence]. }
    rewrite (getbof_unfold _ _ _ _ _ B S O2 L).
    destruct (boflen op); [|congruence]. cbn zeta. change (bof_version _ _ _ _ _) with (model_version op body).
    rewrite RS in R.
    destruct ((wanted =? 5) && _ || _); [reflexivity|]. rewrite R. reflexivity.
Qed.
Print Assumptions c47_getbof.

(** The table gives at most one version. *)
Theorem c47_one_version : forall body op v w, bof_says body op v -> bof_says body op w -> v = w.
Proof. intros body op v w H K. apply bof_says_version in H, K. destruct H, K. congruence. Qed.
Print Assumptions c47_one_version.

(** Anything else raises XLRDError, wherever the reading starts. *)
Theorem c47_only_xlrderror : forall mem pos wanted e, getbof mem pos wanted = Err e -> e = XLRDError.
Proof. exact getbof_errors. Qed.
Print Assumptions c47_only_xlrderror.

(** A BIFF8 globals record with 16 bytes, at offset 3. *)
Example c47_instance :
  getbof ([1; 2; 3] ++ le_enc 2 0x809 ++ le_enc 2 16 ++ le_enc 2 0x600 ++ le_enc 2 5 ++ zrepeat 0 12 ++ [9]) 3 5 = Ok (80, 23)
  /\ stands ([1; 2; 3] ++ le_enc 2 0x809 ++ le_enc 2 16 ++ le_enc 2 0x600 ++ le_enc 2 5 ++ zrepeat 0 12 ++ [9]) 3 0x809
       (le_enc 2 0x600 ++ le_enc 2 5 ++ zrepeat 0 12)
  /\ bof_says (le_enc 2 0x600 ++ le_enc 2 5 ++ zrepeat 0 12) 0x809 80.
Proof.
  split; [reflexivity|]. split.
  - exists [1; 2; 3], [9]. split; reflexivity.
  - apply Excel97. reflexivity.
Qed.
(** A worksheet record is no globals record from BIFF5 on; an unknown version of one is
    returned as 0, which open_workbook refuses. *)
Example c47_worksheet :
  getbof (le_enc 2 0x809 ++ le_enc 2 4 ++ le_enc 2 0x600 ++ le_enc 2 0x10) 0 5 = Err XLRDError
  /\ getbof (le_enc 2 0x809 ++ le_enc 2 4 ++ le_enc 2 0x777 ++ le_enc 2 0x10) 0 5 = Ok (0, 8).
Proof. split; reflexivity. Qed.
