(** Property theorems C97: date mode, code page, encoding, countries and user name of
    an opened workbook are those that its records give. *)
From Verif Require Import Base BaseFacts Text Strings Utf16 StringFacts PropBytes Framing GridModel GridFacts SheetObjects SheetModel SstModel FormatModel
  FormatFacts FormulaModel CompDoc BookModel BookFacts PropBof PropEnc BookSheets BookRefs BookApi SheetShare BookHistory PropGlobals PropDemand PropSheetList
  PropView PropFormulaText BookContent PropAttrs.

(** ** Specification *)

(** The data of the last record with a code. *)
Fixpoint last_of (code : Z) (rs : list (Z * list Z)) : option (list Z) :=
  match rs with
  | [] => None
  | (c, d) :: r => match last_of code r with Some x => Some x | None => if c =? code then Some d else None end
  end.

(** DATEMODE, COUNTRY and CODEPAGE records hold 16-bit numbers. *)
Definition datemode_of (rs : list (Z * list Z)) : Z :=
  match last_of 0x22 rs with Some d => u16_at d 0 | None => 0 end.
Definition countries_of (rs : list (Z * list Z)) : Z * Z :=
  match last_of 0x8C rs with Some d => (u16_at d 0, u16_at d 2) | None => (0, 0) end.
Definition page_of (rs : list (Z * list Z)) : option Z := option_map (fun d => u16_at d 0) (last_of 0x42 rs).

(** Records whose texts need an encoding: CODEPAGE (which says so), BOUNDSHEET,
    EXTERNSHEET, NAME, FORMAT and, with formatting_info, FONT. *)
Definition wants (fmt : bool) (r : Z * list Z) : bool :=
  existsb (Z.eqb (fst r)) [0x42; 0x85; 0x17; 0x18; 0x41E] || (fmt && existsb (Z.eqb (fst r)) [0x31; 0x231]).

(** A code page that has an encoding. *)
Definition has_encoding (cp : Z) : bool := existsb (Z.eqb cp) (map fst codepage_table) || ((300 <=? cp) && (cp <=? 1999)).

(** encoding_override, when there is one. *)
Definition overrides (o : option (list Z)) : bool := match o with Some (_ :: _) => true | _ => false end.

(** The code page that is reported: in BIFF8 without an override, 1200 stands for none
    and for one without an encoding. *)
Definition codepage_of (bv : Z) (override : option (list Z)) (rs : list (Z * list Z)) : option Z :=
  if (bv <? 80) || overrides override then page_of rs
  else match page_of rs with
       | Some cp => Some (if has_encoding cp then cp else 1200)
       | None => Some 1200
       end.

(** The code page for a user name between [before] and [after]: the last one before it, or
    if nothing had needed an encoding by then, that of the record that first does. *)
Definition user_page (fmt : bool) (before after : list (Z * list Z)) : option Z :=
  if existsb (wants fmt) before then page_of before
  else match find (wants fmt) after with
       | Some (c, d) => if c =? 0x42 then Some (u16_at d 0) else None
       | None => None
       end.

(** A text without its trailing white space. *)
Definition trimmed (t u : list Z) : Prop :=
  exists w, t = u ++ w /\ Forall (fun c => str_space c = true) w /\ (forall c, last (map Some u) None = Some c -> str_space c = false).

Definition is_user (r : Z * list Z) : bool := fst r =? 0x5C.

(** ** Proofs *)

Lemma last_of_app : forall code a b, last_of code (a ++ b) = match last_of code b with Some x => Some x | None => last_of code a end.
Proof.
  induction a as [|[c d] a IH]; intros b; cbn [app last_of]; [destruct (last_of code b); reflexivity|].
  rewrite IH. destruct (last_of code b); reflexivity.
Qed.

Lemma last_of_continues : forall code cs, code <> 0x3c -> Forall (fun r => noncont r = false) cs -> last_of code cs = None.
Proof.
  intros code cs N. induction 1 as [|[c d] cs H _ IH]; [reflexivity|]. cbn [last_of]. rewrite IH. unfold noncont in H. cbn [fst] in H.
  replace (c =? code) with false by lia. reflexivity.
Qed.

Lemma last_of_snoc : forall code done rc d cs, code <> 0x3c -> Forall (fun r => noncont r = false) cs ->
  last_of code (done ++ (rc, d) :: cs) = if rc =? code then Some d else last_of code done.
Proof.
  intros code done rc d cs N C. rewrite last_of_app. cbn [last_of]. rewrite (last_of_continues _ _ N C). destruct (rc =? code); reflexivity.
Qed.

Lemma page_of_snoc : forall done rc d cs, Forall (fun r => noncont r = false) cs ->
  page_of (done ++ (rc, d) :: cs) = if rc =? 0x42 then Some (u16_at d 0) else page_of done.
Proof. intros done rc d cs C. unfold page_of. rewrite last_of_snoc by (assumption || lia). destruct (rc =? 0x42); reflexivity. Qed.

Lemma continues_want : forall fmt cs, Forall (fun r => noncont r = false) cs -> existsb (wants fmt) cs = false /\ find (wants fmt) cs = None /\ existsb is_user cs = false.
Proof.
  intros fmt cs. induction 1 as [|[c d] cs H _ (I1 & I2 & I3)]; [auto|]. unfold noncont in H. cbn [fst] in H. assert (c = 0x3c) as -> by lia.
  cbn [existsb find]. assert (W : wants fmt (0x3c, d) = false) by (destruct fmt; reflexivity). rewrite W. change (is_user (0x3c, d)) with false. auto.
Qed.

Lemma wants_snoc : forall fmt done rc d cs, Forall (fun r => noncont r = false) cs ->
  existsb (wants fmt) (done ++ (rc, d) :: cs) = existsb (wants fmt) done || wants fmt (rc, d).
Proof.
  intros fmt done rc d cs C. rewrite existsb_app. cbn [existsb]. rewrite (proj1 (continues_want fmt cs C)), orb_false_r. reflexivity.
Qed.

Lemma lstrip_spec : forall space s, exists w, s = w ++ lstrip space s /\ Forall (fun c => space c = true) w /\
  (forall c r, lstrip space s = c :: r -> space c = false).
Proof.
  intros space. induction s as [|c s (w & E & F & H)]; cbn [lstrip].
  - exists []. split; [reflexivity|]. split; [constructor|]. intros; discriminate.
  - destruct (space c) eqn:S.
    + exists (c :: w). split; [cbn [app]; congruence|]. split; [constructor; assumption|exact H].
    + exists []. split; [reflexivity|]. split; [constructor|]. intros x r [= <- <-]. exact S.
Qed.

Lemma rstrip_trimmed : forall t, trimmed t (rstrip str_space t).
Proof.
  intros t. unfold trimmed, rstrip. destruct (lstrip_spec str_space (rev t)) as (w & E & F & H). exists (rev w).
  split; [rewrite <- rev_app_distr, <- E, rev_involutive; reflexivity|]. split; [apply Forall_rev; exact F|].
  intros c L. destruct (lstrip str_space (rev t)) as [|x r]; [discriminate L|]. apply (H x r) in L as _ || idtac.
  cbn [rev] in L. rewrite map_app in L. cbn [map] in L. rewrite last_last in L. injection L as <-. exact (H _ _ eq_refl).
Qed.

Section Opened.
Context {N : Type}.
Variable codec : list Z -> list Z -> result (list Z).
Variable ops : numops N.
Variable lower : list Z -> list Z.
Variable num8 : list Z -> N.
Variable rk : list Z -> result N.
Variable ragged : bool.
Notation loaded := (loaded (N := N)).
Notation api := (api (N := N)).
Notation book := (book N loaded).
Variable old : book -> list Z -> Z -> list Z -> Z -> result (shared * loaded).
Notation perform := (perform codec num8 rk ragged old).
Notation history := (history codec num8 rk ragged old).
Notation open_stream := (open_stream codec ops lower num8 rk ragged old).
Notation load := (load codec num8 rk ragged old).

(** The attributes of a Book: book.py:277-334. *)
Definition biff_version (a : api) : Z := bk_bv (a_book a).
Definition datemode (a : api) : Z := g_datemode (bk_shared (a_book a)).
Definition countries (a : api) : Z * Z := g_countries (bk_shared (a_book a)).
Definition codepage (a : api) : option Z := en_codepage (bk_enc (a_book a)).
Definition encoding (a : api) : option (list Z) := en_encoding (bk_enc (a_book a)).
Definition user_name (a : api) : list Z := en_user (bk_enc (a_book a)).

(** What a record does to these. *)
Definition enc_effect (b b' : book) (rc : Z) (data : list Z) : Prop :=
  if rc =? 0x42 then derive_encoding codec (bk_bv b) (with_codepage (bk_enc b) (u16_at data 0)) = Ok (bk_enc b')
  else if rc =? 0x5C then handle_writeaccess codec (bk_bv b) (bk_enc b) data = Ok (bk_enc b')
  else if existsb (Z.eqb rc) [0x85; 0x17; 0x18] then derive_encoding codec (bk_bv b) (bk_enc b) = Ok (bk_enc b')
  else if wants (b_fmt (bk_fmt b)) (rc, data) then ensure_encoding codec (bk_bv b) (bk_enc b) = Ok (bk_enc b')
  else bk_enc b' = bk_enc b.

Definition date_effect (b b' : book) (rc : Z) (data : list Z) : Prop :=
  let g := bk_shared b in let g' := bk_shared b' in
  (if rc =? 0x22 then g_datemode g' = u16_at data 0 /\ (g_datemode g' = 0 \/ g_datemode g' = 1) else g_datemode g' = g_datemode g) /\
  (if rc =? 0x8C then g_countries g' = (u16_at data 0, u16_at data 2) /\ (g_countries g = (0, 0) \/ g_countries g = g_countries g')
   else g_countries g' = g_countries g).

Lemma derive_here : forall (b b' : book), derive codec b = Ok b' -> derive_encoding codec (bk_bv b) (bk_enc b) = Ok (bk_enc b') /\
  g_datemode (bk_shared b') = g_datemode (bk_shared b) /\ g_countries (bk_shared b') = g_countries (bk_shared b).
Proof. intros b b' H. unfold derive in H. apply bind_ok in H as (s & D & H). injection H as <-. auto. Qed.

Lemma ensure_here : forall (b b' : book), ensure codec b = Ok b' -> ensure_encoding codec (bk_bv b) (bk_enc b) = Ok (bk_enc b') /\
  g_datemode (bk_shared b') = g_datemode (bk_shared b) /\ g_countries (bk_shared b') = g_countries (bk_shared b).
Proof. intros b b' H. unfold ensure in H. apply bind_ok in H as (s & D & H). injection H as <-. auto. Qed.

Lemma format_here : forall (b b' : book) r, format_record codec b r = Ok b' ->
  (match r with RFont _ => b_fmt (bk_fmt b) | RFormat _ _ => true | _ => false end = true -> ensure_encoding codec (bk_bv b) (bk_enc b) = Ok (bk_enc b')) /\
  (match r with RFont _ => b_fmt (bk_fmt b) | RFormat _ _ => true | _ => false end = false -> bk_enc b' = bk_enc b) /\
  g_datemode (bk_shared b') = g_datemode (bk_shared b) /\ g_countries (bk_shared b') = g_countries (bk_shared b).
Proof.
  intros b b' r H. unfold format_record in H. apply bind_ok in H as (b1 & E & H). apply bind_ok in H as (f & _ & H). injection H as <-.
  destruct r; try destruct (b_fmt (bk_fmt b));
    try (injection E as <-; repeat split; (discriminate || reflexivity));
    destruct (ensure_here _ _ E) as (E1 & E2 & E3); repeat split; auto; discriminate.
Qed.

Lemma gstep_attrs : forall (b : book) mem pos rc data b' p, gstep codec load b mem pos rc data = Ok (b', p) -> rc <> 0x8f -> 50 <= bk_bv b ->
  enc_effect b b' rc data /\ date_effect b b' rc data.
Proof.
  intros b mem pos rc data b' p H N3 V. unfold gstep in H. cbv zeta in H.
  assert (Stay : forall r : result book, (do b <- r; Ok (b, pos)) = Ok (b', p) -> r = Ok b').
  { intros r E. apply bind_ok in E as (? & ? & E). injection E as <- <-. assumption. }
  assert (Same : existsb (Z.eqb rc) [0x42; 0x5C; 0x85; 0x17; 0x18; 0x41e; 0x31; 0x231; 0x22; 0x8c] = false -> bk_enc b' = bk_enc b ->
    g_datemode (bk_shared b') = g_datemode (bk_shared b) -> g_countries (bk_shared b') = g_countries (bk_shared b) ->
    enc_effect b b' rc data /\ date_effect b b' rc data).
  { intros X E1 E2 E3. cbn [existsb] in X. unfold enc_effect, date_effect, wants. cbn [existsb fst].
    replace (rc =? 0x42) with false by lia. replace (rc =? 0x5c) with false by lia. replace (rc =? 0x85) with false by lia.
    replace (rc =? 0x17) with false by lia. replace (rc =? 0x18) with false by lia. replace (rc =? 0x41e) with false by lia.
    replace (rc =? 0x31) with false by lia. replace (rc =? 0x231) with false by lia. replace (rc =? 0x22) with false by lia.
    replace (rc =? 0x8c) with false by lia. cbn [orb]. rewrite andb_false_r. auto. }
  assert (Enc : existsb (Z.eqb rc) [0x22; 0x8c] = false -> enc_effect b b' rc data ->
    g_datemode (bk_shared b') = g_datemode (bk_shared b) -> g_countries (bk_shared b') = g_countries (bk_shared b) ->
    enc_effect b b' rc data /\ date_effect b b' rc data).
  { intros X E1 E2 E3. split; [exact E1|]. cbn [existsb] in X. unfold date_effect. replace (rc =? 0x22) with false by lia. replace (rc =? 0x8c) with false by lia. auto. }
  destruct (rc =? 0xfc) eqn:EFC.
  { apply bind_ok in H as ([[st ru] po] & _ & H). injection H as <- <-. apply Same; try reflexivity. cbn [existsb]. lia. }
  destruct ((rc =? 0x31) || (rc =? 0x231)) eqn:EFO.
  { apply Stay in H. destruct (format_here _ _ _ H) as (F1 & F2 & F3 & F4). apply Enc; [cbn [existsb]; lia| |exact F3|exact F4].
    unfold enc_effect, wants. cbn [existsb fst]. replace (rc =? 0x42) with false by lia. replace (rc =? 0x5c) with false by lia.
    replace (rc =? 0x85) with false by lia. replace (rc =? 0x17) with false by lia. replace (rc =? 0x18) with false by lia. replace (rc =? 0x41e) with false by lia.
    cbn [orb]. rewrite orb_false_r, EFO, andb_true_r. destruct (b_fmt (bk_fmt b)); auto. }
  destruct (rc =? 0x41e) eqn:E41.
  { apply Stay in H. destruct (format_here _ _ _ H) as (F1 & F2 & F3 & F4). apply Z.eqb_eq in E41. subst rc. apply Enc; [reflexivity| |exact F3|exact F4]. exact (F1 eq_refl). }
  destruct (rc =? 0xe0) eqn:EE0.
  { apply Stay in H. destruct (format_here _ _ _ H) as (F1 & F2 & F3 & F4). apply Same; auto. cbn [existsb]. lia. }
  destruct (rc =? 0x85) eqn:E85.
  { apply Stay in H. apply bind_ok in H as (b1 & D & H). apply bind_ok in H as (s & _ & H). injection H as <-.
    destruct (derive_here _ _ D) as (D1 & D2 & D3). apply Z.eqb_eq in E85. subst rc. apply Enc; auto. }
  destruct (rc =? 0x22) eqn:E22.
  { apply Stay in H. unfold handle_datemode in H. apply bind_ok in H as (dm & U & H). apply bind_ok in H as (? & Gu & H).
    injection H as <-. apply Z.eqb_eq in E22. subst rc. apply unpack_u16_at in U. unfold guard in Gu. destruct ((dm =? 0) || (dm =? 1)) eqn:Q; [|discriminate].
    split; [unfold enc_effect, wants; cbn; rewrite andb_false_r; reflexivity|]. split; [|reflexivity]. cbn. split; [exact U|lia]. }
  destruct (rc =? 0x42) eqn:E42.
  { apply Stay in H. apply bind_ok in H as (s & W & H). unfold handle_codepage in W. apply bind_ok in W as (cp & U & W). injection H as <-.
    apply unpack_u16_at in U. subst cp. apply Enc; [cbn [existsb]; lia| |reflexivity|reflexivity]. unfold enc_effect. rewrite E42. exact W. }
  destruct (rc =? 0x8c) eqn:E8C.
  { apply Stay in H. unfold handle_country in H. apply bind_ok in H as (? & _ & H). apply bind_ok in H as (cx & U1 & H).
    apply bind_ok in H as (cy & U2 & H). cbv zeta in H. apply bind_ok in H as (? & Gu & H). injection H as <-. apply Z.eqb_eq in E8C. subst rc.
    apply unpack_u16_at in U1. apply unpack_u16_at in U2.
    split; [unfold enc_effect, wants; cbn; rewrite andb_false_r; reflexivity|]. split; [reflexivity|]. cbn. split; [congruence|]. unfold guard in Gu.
    destruct (g_countries (bk_shared b)) as [k1 k2] eqn:K. unfold pair_eqb in Gu. cbn [fst snd] in Gu.
    destruct ((k1 =? 0) && (k2 =? 0)) eqn:Q1; [left; f_equal; lia|]. destruct ((k1 =? cx) && (k2 =? cy)) eqn:Q2; [right; f_equal; lia|discriminate]. }
  destruct (rc =? 0x23) eqn:E23.
  { apply Stay in H; apply bind_ok in H as (r & _ & H); injection H as <-. apply Same; try reflexivity. cbn [existsb]. lia. }
  destruct (rc =? 0x17) eqn:E17.
  { apply bind_ok in H as (b1 & D & H). apply bind_ok in H as ([r q] & _ & H). injection H as <- <-.
    destruct (derive_here _ _ D) as (D1 & D2 & D3). apply Z.eqb_eq in E17. subst rc. apply Enc; auto. }
  destruct (rc =? 0x2f); [discriminate|].
  destruct (rc =? 0x5c) eqn:E5C.
  { apply Stay in H. apply bind_ok in H as (s & W & H). injection H as <-. apply Z.eqb_eq in E5C. subst rc. apply Enc; auto. }
  destruct (rc =? 0x8e) eqn:E8E.
  { apply Stay in H. apply bind_ok in H as (? & _ & H). apply bind_ok in H as (? & _ & H). injection H as <-.
    apply Same; try reflexivity. cbn [existsb]. lia. }
  replace (rc =? 0x8f) with false in H by lia.
  destruct (rc =? 0x1ae) eqn:E1AE.
  { apply Stay in H; apply bind_ok in H as (r & _ & H); injection H as <-. apply Same; try reflexivity. cbn [existsb]. lia. }
  destruct (rc =? 0x18) eqn:E18.
  { replace (bk_bv b <? 50) with false in H by lia.
    apply Stay in H. apply bind_ok in H as (b1 & D & H). apply bind_ok in H as (n & _ & H). injection H as <-.
    destruct (derive_here _ _ D) as (D1 & D2 & D3). apply Z.eqb_eq in E18. subst rc. apply Enc; auto. }
  destruct (rc =? 0x92) eqn:E92.
  { apply Stay in H. destruct (format_here _ _ _ H) as (F1 & F2 & F3 & F4). apply Same; auto. cbn [existsb]. lia. }
  destruct (rc =? 0x293) eqn:E293.
  { apply Stay in H. destruct (format_here _ _ _ H) as (F1 & F2 & F3 & F4). apply Same; auto. cbn [existsb]. lia. }
  injection H as <- <-. apply Same; try reflexivity. cbn [existsb]. lia.
Qed.

(** *** Files before BIFF8 *)

Lemma derive_old : forall bv s s', bv < 80 -> derive_encoding codec bv s = Ok s' ->
  en_override s' = en_override s /\ en_codepage s' = en_codepage s /\ en_raw s' = false /\
  exists e, encoding_for bv (en_override s) (en_codepage s) e /\ en_encoding s' = Some e /\
    (en_raw s = false -> en_user s' = en_user s) /\
    (en_raw s = true -> exists t, unpack_string (codec e) (en_user s) 0 1 = Ok t /\ en_user s' = rstrip str_space t).
Proof.
  intros bv s s' V D. unfold derive_encoding in D. pose proof (choose_codepage codec bv s V) as CP.
  destruct (choose_spec bv s) as (K1 & K2 & K3 & e & EF & [(Q & _)|(_ & A & _)]); [|lia].
  set (c := choose_encoding bv s) in *. clearbody c. apply bind_ok in D as (tr & _ & D).
  rewrite K2 in D. destruct (en_raw s) eqn:R.
  - apply bind_ok in D as (t & U & D). injection D as <-. cbn [with_user en_override en_codepage en_raw en_encoding en_user].
    split; [exact K1|]. split; [exact CP|]. split; [reflexivity|]. exists e. split; [exact EF|]. split; [exact Q|]. split; [discriminate|].
    intros _. rewrite Q in U. cbn [unicode] in U. rewrite K3 in U. eauto.
  - injection D as <-. split; [exact K1|]. split; [exact CP|]. split; [exact K2|]. exists e. split; [exact EF|]. split; [exact Q|]. split; [auto|discriminate].
Qed.

(** The name as stored: a byte with the length, and the characters. *)
Definition name_bytes (d : list Z) : list Z := py_slice d 1 (1 + nth 0 d 0).

Lemma unpack_name : forall dec d t, unpack_string dec d 0 1 = Ok t -> dec (name_bytes d) = Ok t.
Proof.
  intros dec d t H. unfold unpack_string in H. apply bind_ok in H as (n & U & H). unfold unpack_le in U.
  destruct d as [|x d]; [discriminate U|]. unfold name_bytes. cbn [nth]. 
  assert (E : py_slice (x :: d) 0 (0 + 1) = [x]) 
    by (replace (0 + 1) with 1 by lia; change (x :: d) with ([x] ++ d); apply (py_slice_pre [x] d); reflexivity).
  cbv zeta in U. rewrite E in U. change (zlen [x] =? 1) with true in U. cbv iota in U. injection U as <-. cbn [le_val] in H.
  rewrite Z.add_0_r in H. exact H.
Qed.

Section Old.
Variables (bv : Z) (ov : option (list Z)) (fmt : bool).
Hypothesis V : 50 <= bv < 80.

Definition user_inv (s : encst) (done : list (Z * list Z)) : Prop :=
  (existsb is_user done = false /\ en_raw s = false /\ en_user s = []) \/
  (exists before d after, done = before ++ (0x5C, d) :: after /\ existsb is_user after = false /\
     if existsb (wants fmt) (before ++ after) then
       en_raw s = false /\ exists e t, encoding_for bv ov (user_page fmt before after) e /\ codec e (name_bytes d) = Ok t /\ en_user s = rstrip str_space t
     else en_raw s = true /\ en_user s = d).

Definition old_inv (s : encst) (done : list (Z * list Z)) : Prop :=
  en_override s = ov /\ en_codepage s = page_of done /\
  (if existsb (wants fmt) done then exists e, encoding_for bv ov (page_of done) e /\ en_encoding s = Some e else en_encoding s = None) /\
  user_inv s done.

Lemma page_of_unwanted : forall done, existsb (wants fmt) done = false -> page_of done = None.
Proof.
  intros done H. unfold page_of. assert (E : last_of 0x42 done = None); [|rewrite E; reflexivity].
  induction done as [|[c d] r IH]; [reflexivity|]. cbn [existsb] in H. apply orb_false_iff in H as [H1 H2]. cbn [last_of]. rewrite (IH H2).
  unfold wants in H1. cbn [fst existsb] in H1. replace (c =? 0x42) with false by lia. reflexivity.
Qed.

(** A record that needs an encoding. *)
Lemma old_wanted : forall s s' done rc data cs, Forall (fun r => noncont r = false) cs -> wants fmt (rc, data) = true ->
  old_inv s done -> derive_encoding codec bv (if rc =? 0x42 then with_codepage s (u16_at data 0) else s) = Ok s' ->
  old_inv s' (done ++ (rc, data) :: cs).
Proof.
  intros s s' done rc data cs C W (I1 & I2 & I3 & I4) D. apply derive_old in D; [|lia]. destruct D as (D1 & D2 & D3 & e & EF & D4 & D5 & D6).
  assert (PO : en_codepage (if rc =? 0x42 then with_codepage s (u16_at data 0) else s) = page_of (done ++ (rc, data) :: cs)).
  { rewrite page_of_snoc by exact C. destruct (rc =? 0x42); [reflexivity|exact I2]. }
  assert (X : forall A (f : encst -> A), (f (with_codepage s (u16_at data 0)) = f s) -> f (if rc =? 0x42 then with_codepage s (u16_at data 0) else s) = f s).
  { intros A f Q. destruct (rc =? 0x42); [exact Q|reflexivity]. }
  rewrite (X _ en_override eq_refl) in D1, EF. rewrite (X _ en_raw eq_refl) in D5, D6. rewrite (X _ en_user eq_refl) in D5, D6.
  rewrite PO in D2, EF. rewrite I1 in D1, EF.
  assert (NU : is_user (rc, data) = false).
  { unfold wants in W. unfold is_user. cbn [fst existsb] in W |- *. destruct (rc =? 0x5c) eqn:Q; [|reflexivity]. apply Z.eqb_eq in Q. subst rc. destruct fmt; discriminate W. }
  split; [exact D1|]. split; [exact D2|]. split.
  { rewrite wants_snoc by exact C. rewrite W, orb_true_r. eauto. }
  destruct (continues_want fmt cs C) as (C1 & C2 & C3).
  destruct I4 as [(U1 & U2 & U3)|(before & d & after & -> & U1 & U2)].
  - left. split; [rewrite existsb_app; cbn [existsb]; rewrite U1, NU, C3; reflexivity|]. split; [exact D3|]. rewrite (D5 U2). exact U3.
  - right. exists before, d, (after ++ (rc, data) :: cs). split; [rewrite <- app_assoc; reflexivity|].
    split; [rewrite existsb_app; cbn [existsb]; rewrite U1, NU, C3; reflexivity|].
    rewrite app_assoc, wants_snoc by exact C. rewrite W, orb_true_r. split; [exact D3|].
    destruct (existsb (wants fmt) (before ++ after)) eqn:WB.
    + destruct U2 as (U2 & e0 & t & U3 & U4 & U5). exists e0, t. split; [|split; [exact U4|rewrite (D5 U2); exact U5]].
      revert U3. unfold user_page. destruct (existsb (wants fmt) before) eqn:WB2; [auto|].
      rewrite existsb_app, WB2 in WB. cbn [orb] in WB. intros U3.
      assert (FA : find (wants fmt) (after ++ (rc, data) :: cs) = find (wants fmt) after); [|rewrite FA; exact U3].
      clear - WB. induction after as [|r a IH]; [discriminate|]. cbn [app find existsb] in *. destruct (wants fmt r); [reflexivity|]. apply IH. exact WB.
    + destruct U2 as (U2 & U3). destruct (D6 U2) as (t & UT & US). rewrite U3 in UT. apply unpack_name in UT. exists e, t.
      split; [|split; [exact UT|exact US]].
      rewrite existsb_app in WB. apply orb_false_iff in WB as [WB WA]. unfold user_page. rewrite WB.
      assert (FA : find (wants fmt) (after ++ (rc, data) :: cs) = Some (rc, data)).
      { clear - WA W. induction after as [|r a IH]; cbn [app find existsb] in *; [rewrite W; reflexivity|]. apply orb_false_iff in WA as [W1 W2]. rewrite W1. auto. }
      rewrite FA. rewrite page_of_snoc in EF by exact C. destruct (rc =? 0x42); [exact EF|].
      rewrite page_of_unwanted in EF; [exact EF|]. rewrite existsb_app. cbn [existsb]. rewrite WB, WA. destruct fmt; reflexivity.
Qed.

(** Asking again changes nothing. *)
Lemma old_again : forall s done, existsb (wants fmt) done = true -> old_inv s done -> en_raw s = false.
Proof.
  intros s done W (_ & _ & _ & [(_ & U & _)|(before & d & after & -> & _ & U)]); [exact U|].
  rewrite existsb_app in W. cbn [existsb] in W. assert (wants fmt (0x5c, d) = false) as Q by (destruct fmt; reflexivity). rewrite Q in W. cbn [orb] in W.
  rewrite <- existsb_app in W. rewrite W in U. exact (proj1 U).
Qed.

Lemma old_settled : forall s done rc data cs, Forall (fun r => noncont r = false) cs -> wants fmt (rc, data) = true -> rc <> 0x42 ->
  existsb (wants fmt) done = true -> old_inv s done -> old_inv s (done ++ (rc, data) :: cs).
Proof.
  intros s done rc data cs C W N4 WD I. pose proof (old_again _ _ WD I) as R. destruct I as (I1 & I2 & I3 & I4). rewrite WD in I3.
  destruct (continues_want fmt cs C) as (C1 & C2 & C3).
  assert (NU : is_user (rc, data) = false).
  { unfold wants in W. unfold is_user. cbn [fst existsb] in W |- *. destruct (rc =? 0x5c) eqn:Q; [|reflexivity]. apply Z.eqb_eq in Q. subst rc. destruct fmt; discriminate W. }
  assert (PO : page_of (done ++ (rc, data) :: cs) = page_of done) by (rewrite page_of_snoc by exact C; replace (rc =? 0x42) with false by lia; reflexivity).
  split; [exact I1|]. split; [congruence|]. split; [rewrite wants_snoc by exact C; rewrite WD, PO; exact I3|].
  destruct I4 as [(U1 & U2 & U3)|(before & d & after & -> & U1 & U2)].
  - left. split; [rewrite existsb_app; cbn [existsb]; rewrite U1, NU, C3; reflexivity|auto].
  - right. exists before, d, (after ++ (rc, data) :: cs). split; [rewrite <- app_assoc; reflexivity|].
    split; [rewrite existsb_app; cbn [existsb]; rewrite U1, NU, C3; reflexivity|].
    rewrite app_assoc, wants_snoc by exact C. rewrite W, orb_true_r.
    destruct (existsb (wants fmt) (before ++ after)) eqn:WB; [|destruct U2; congruence].
    destruct U2 as (U2 & e0 & t & U3 & U4 & U5). split; [exact U2|]. exists e0, t. split; [|auto].
    revert U3. unfold user_page. destruct (existsb (wants fmt) before) eqn:WB2; [auto|].
    rewrite existsb_app, WB2 in WB. cbn [orb] in WB. intros U3.
    assert (FA : find (wants fmt) (after ++ (rc, data) :: cs) = find (wants fmt) after); [|rewrite FA; exact U3].
    clear - WB. induction after as [|r a IH]; [discriminate|]. cbn [app find existsb] in *. destruct (wants fmt r); [reflexivity|]. apply IH. exact WB.
Qed.

(** A record that neither needs an encoding nor holds the user name. *)
Lemma old_other : forall s done rc data cs, Forall (fun r => noncont r = false) cs -> wants fmt (rc, data) = false -> is_user (rc, data) = false ->
  old_inv s done -> old_inv s (done ++ (rc, data) :: cs).
Proof.
  intros s done rc data cs C W NU (I1 & I2 & I3 & I4). destruct (continues_want fmt cs C) as (C1 & C2 & C3).
  assert (PO : page_of (done ++ (rc, data) :: cs) = page_of done).
  { rewrite page_of_snoc by exact C. destruct (rc =? 0x42) eqn:Q; [|reflexivity]. unfold wants in W. cbn [fst existsb] in W. rewrite Q in W. discriminate W. }
  split; [exact I1|]. split; [congruence|]. split; [rewrite wants_snoc by exact C; rewrite W, orb_false_r, PO; exact I3|].
  destruct I4 as [(U1 & U2 & U3)|(before & d & after & -> & U1 & U2)].
  - left. split; [rewrite existsb_app; cbn [existsb]; rewrite U1, NU, C3; reflexivity|auto].
  - right. exists before, d, (after ++ (rc, data) :: cs). split; [rewrite <- app_assoc; reflexivity|].
    split; [rewrite existsb_app; cbn [existsb]; rewrite U1, NU, C3; reflexivity|].
    rewrite app_assoc, wants_snoc by exact C. rewrite W, orb_false_r.
    assert (UP : user_page fmt before (after ++ (rc, data) :: cs) = user_page fmt before after); [|rewrite UP; exact U2].
    unfold user_page. destruct (existsb (wants fmt) before); [reflexivity|].
    assert (FA : find (wants fmt) (after ++ (rc, data) :: cs) = find (wants fmt) after); [|rewrite FA; reflexivity].
    clear - W C2. induction after as [|r a IH]; cbn [app find]; [rewrite W; exact C2|]. destruct (wants fmt r); auto.
Qed.

(** The user name. *)
Lemma old_user : forall s s' done data cs, Forall (fun r => noncont r = false) cs -> handle_writeaccess codec bv s data = Ok s' ->
  old_inv s done -> old_inv s' (done ++ (0x5C, data) :: cs).
Proof.
  intros s s' done data cs C H I. unfold handle_writeaccess in H. replace (bv <? 80) with true in H by lia.
  destruct (continues_want fmt cs C) as (C1 & C2 & C3).
  assert (W : wants fmt (0x5c, data) = false) by (destruct fmt; reflexivity).
  assert (PO : page_of (done ++ (0x5c, data) :: cs) = page_of done) by (rewrite page_of_snoc by exact C; reflexivity).
  destruct (existsb (wants fmt) done) eqn:WD.
  - pose proof (old_again _ _ WD I) as R. destruct I as (I1 & I2 & I3 & I4). rewrite WD in I3. destruct I3 as (e & EF & EN).
    rewrite EN in H. rewrite (encoding_for_nonempty _ _ _ _ EF) in H. cbn [negb unicode] in H. apply bind_ok in H as (t & U & H). injection H as <-.
    apply unpack_name in U. split; [exact I1|]. split; [cbn; congruence|].
    split; [rewrite wants_snoc by exact C; rewrite WD, PO; exists e; auto|].
    right. exists done, data, cs. split; [reflexivity|]. split; [exact C3|]. rewrite existsb_app, WD. cbn [orb]. split; [exact R|].
    exists e, t. split; [unfold user_page; rewrite WD; exact EF|auto].
  - destruct I as (I1 & I2 & I3 & I4). rewrite WD in I3. rewrite I3 in H. cbn [truthy negb] in H. injection H as <-.
    split; [exact I1|]. split; [cbn; congruence|]. split; [rewrite wants_snoc by exact C; rewrite WD, W; exact I3|].
    right. exists done, data, cs. split; [reflexivity|]. split; [exact C3|]. rewrite existsb_app, WD, C1. split; reflexivity.
Qed.

Lemma old_step : forall (b b' : book) done rc data cs, Forall (fun r => noncont r = false) cs -> bk_bv b = bv -> b_fmt (bk_fmt b) = fmt ->
  enc_effect b b' rc data -> old_inv (bk_enc b) done -> old_inv (bk_enc b') (done ++ (rc, data) :: cs).
Proof.
  intros b b' done rc data cs C BV BF E I. unfold enc_effect in E. rewrite BV, BF in E.
  destruct (rc =? 0x42) eqn:Q1.
  { apply (old_wanted (bk_enc b)); [exact C| |exact I|rewrite Q1; exact E]. unfold wants. cbn [fst existsb]. rewrite Q1. reflexivity. }
  destruct (rc =? 0x5c) eqn:Q2; [apply Z.eqb_eq in Q2; subst rc; exact (old_user _ _ _ _ _ C E I)|].
  destruct (existsb (Z.eqb rc) [0x85; 0x17; 0x18]) eqn:Q3.
  { apply (old_wanted (bk_enc b)); [exact C| |exact I|rewrite Q1; exact E]. unfold wants. cbn [fst existsb] in *. lia. }
  destruct (wants fmt (rc, data)) eqn:Q4; [|rewrite E; apply old_other; assumption].
  unfold ensure_encoding in E. destruct (existsb (wants fmt) done) eqn:WD.
  - assert (T : truthy (en_encoding (bk_enc b)) = true).
    { destruct I as (_ & _ & I3 & _). rewrite WD in I3. destruct I3 as (e & EF & ->). exact (encoding_for_nonempty _ _ _ _ EF). }
    rewrite T in E. injection E as <-. apply old_settled; auto. lia.
  - assert (T : truthy (en_encoding (bk_enc b)) = false).
    { destruct I as (_ & _ & I3 & _). rewrite WD in I3. rewrite I3. reflexivity. }
    rewrite T in E. apply (old_wanted (bk_enc b)); [exact C|exact Q4|exact I|rewrite Q1; exact E].
Qed.
End Old.

Lemma old_end : forall bv ov fmt s s' done, 50 <= bv < 80 -> old_inv bv ov fmt s done -> ensure_encoding codec bv s = Ok s' ->
  en_codepage s' = page_of done /\ (exists e, encoding_for bv ov (page_of done) e /\ en_encoding s' = Some e) /\
  ((existsb is_user done = false /\ en_user s' = []) \/
   (exists before d after, done = before ++ (0x5C, d) :: after /\ existsb is_user after = false /\
      exists e t, encoding_for bv ov (user_page fmt before after) e /\ codec e (name_bytes d) = Ok t /\ en_user s' = rstrip str_space t)).
Proof.
  intros bv ov fmt s s' done V (I1 & I2 & I3 & I4) H. unfold ensure_encoding in H. destruct (existsb (wants fmt) done) eqn:WD.
  - destruct I3 as (e & EF & EN). rewrite EN, (encoding_for_nonempty _ _ _ _ EF) in H. injection H as <-. split; [exact I2|]. split; [eauto|].
    destruct I4 as [(U1 & _ & U3)|(before & d & after & -> & U1 & U2)]; [left; auto|right]. exists before, d, after. split; [reflexivity|]. split; [exact U1|].
    rewrite existsb_app in WD. cbn [existsb] in WD. assert (wants fmt (0x5c, d) = false) as Q by (destruct fmt; reflexivity). rewrite Q in WD. cbn [orb] in WD.
    rewrite <- existsb_app in WD. rewrite WD in U2. exact (proj2 U2).
  - rewrite I3 in H. cbn [truthy] in H. apply derive_old in H; [|lia]. destruct H as (D1 & D2 & D3 & e & EF & D4 & D5 & D6). rewrite I1, I2 in EF.
    split; [congruence|]. split; [eauto|].
    destruct I4 as [(U1 & U2 & U3)|(before & d & after & -> & U1 & U2)]; [left; split; [exact U1|rewrite (D5 U2); exact U3]|right].
    exists before, d, after. split; [reflexivity|]. split; [exact U1|].
    pose proof (page_of_unwanted _ _ WD) as PN. rewrite PN in EF.
    rewrite existsb_app in WD. apply orb_false_iff in WD as [W1 W2]. cbn [existsb] in W2. apply orb_false_iff in W2 as [_ W2].
    rewrite existsb_app, W1, W2 in U2. destruct U2 as (U2 & U3). destruct (D6 U2) as (t & UT & US). rewrite U3 in UT. apply unpack_name in UT.
    exists e, t. split; [|auto]. unfold user_page. rewrite W1.
    assert (FA : find (wants fmt) after = None); [|rewrite FA; exact EF].
    clear - W2. induction after as [|r a IH]; [reflexivity|]. cbn [existsb find] in *. apply orb_false_iff in W2 as [-> W2]. auto.
Qed.

(** *** BIFF8 *)

Lemma has_encoding_spec : forall cp, has_encoding cp = match encoding_from_codepage cp with Some _ => true | None => (300 <=? cp) && (cp <=? 1999) end.
Proof.
  intros cp. unfold has_encoding, codepage_table, encoding_from_codepage. cbn [map fst existsb].
  repeat match goal with |- context [if cp =? ?n then _ else _] => destruct (cp =? n) eqn:?; [lia|] end. lia.
Qed.

Lemma choose_page8 : forall bv s cp, 80 <= bv -> overrides (en_override s) = false -> en_codepage s = Some cp ->
  en_codepage (choose_encoding bv s) = Some (if has_encoding cp then cp else 1200) /\
  exists e, page_encoding bv cp e /\ en_encoding (choose_encoding bv s) = Some e.
Proof.
  intros bv s cp V O C. split.
  - rewrite has_encoding_spec. destruct s as [ov c enc raw user]. cbn [en_override en_codepage] in *. subst c. unfold choose_encoding. cbn [en_override en_codepage].
    assert (X : (match encoding_from_codepage cp with Some e => with_encoding (mk_encst ov (Some cp) enc raw user) e
       | None => if (300 <=? cp) && (cp <=? 1999) then with_encoding (mk_encst ov (Some cp) enc raw user) (s2l "cp" ++ fmt_d cp)
                 else if bv >=? 80 then with_encoding (with_codepage (mk_encst ov (Some cp) enc raw user) 1200) (s2l "utf_16_le")
                 else with_encoding (mk_encst ov (Some cp) enc raw user) (s2l "unknown_codepage_" ++ fmt_d cp) end) =
       choose_encoding bv (mk_encst ov (Some cp) enc raw user)).
    { unfold choose_encoding. cbn [en_override en_codepage]. destruct ov as [[|]|]; try discriminate O; reflexivity. }
    unfold choose_encoding in X. cbn [en_override en_codepage] in X. rewrite <- X. clear X.
    destruct (encoding_from_codepage cp); [reflexivity|]. destruct ((300 <=? cp) && (cp <=? 1999)); [reflexivity|].
    replace (bv >=? 80) with true by lia. reflexivity.
  - destruct (choose_spec bv s) as (_ & _ & _ & e & EF & [(Q & _)|(_ & _ & _ & Q & _)]); [|congruence]. exists e. split; [|exact Q].
    rewrite C in EF. inversion EF as [o c NE Q1 Q2 Q3|o c x ON PE Q1 Q2 Q3| |]; subst; [|exact PE].
    exfalso. match goal with X : Some _ = en_override s |- _ => rewrite <- X in O end. destruct e; [contradiction|discriminate O].
Qed.

Lemma page_1200 : forall bv e, page_encoding bv 1200 e -> e = s2l "utf_16_le".
Proof.
  intros bv e H. remember 1200 as p eqn:P. destruct H as [e I|A B|NI _ _|NI _ _].
  - subst p. unfold codepage_table in I. cbn [In] in I. repeat (destruct I as [I|I]; [pose proof (f_equal fst I) as Q; pose proof (f_equal snd I) as Q'; cbn [fst snd] in Q, Q'; try discriminate Q; try (symmetry; exact Q')|]). contradiction.
  - contradiction.
  - reflexivity.
  - exfalso. subst p. apply (NI (s2l "utf_16_le")). left. reflexivity.
Qed.

Section New.
Variables (bv : Z) (ov : option (list Z)) (fmt : bool).
Hypothesis V : 80 <= bv.

Definition enc8 (s : encst) (done : list (Z * list Z)) : Prop :=
  if overrides ov then en_codepage s = page_of done /\ en_encoding s = (if existsb (wants fmt) done then ov else None)
  else match page_of done with
       | Some cp => en_codepage s = Some (if has_encoding cp then cp else 1200) /\ exists e, page_encoding bv cp e /\ en_encoding s = Some e
       | None => if existsb (wants fmt) done then en_codepage s = Some 1200 /\ (en_encoding s = None \/ en_encoding s = Some (s2l "utf_16_le"))
                 else en_codepage s = None /\ en_encoding s = None
       end.

Definition read8 (d t : list Z) : Prop :=
  unpack_unicode d 0 2 = Ok t \/
  (unpack_unicode d 0 2 = Err UnicodeDecodeError /\ unpack_unicode (lstrip byte_space (rstrip byte_space d)) 0 2 = Ok t).

Definition new_inv (s : encst) (done : list (Z * list Z)) : Prop :=
  en_override s = ov /\ en_raw s = false /\ enc8 s done /\
  match last_of 0x5C done with
  | Some d => exists t, read8 d t /\ en_user s = rstrip str_space t
  | None => en_user s = []
  end.

Lemma wants_page : forall done cp, page_of done = Some cp -> existsb (wants fmt) done = true.
Proof.
  intros done cp H. destruct (existsb (wants fmt) done) eqn:W; [reflexivity|]. rewrite (page_of_unwanted _ _ W) in H. discriminate.
Qed.

(** Deriving the encoding once more. *)
Lemma enc8_derive : forall s s' done, en_override s = ov -> en_raw s = false -> enc8 s done -> derive_encoding codec bv s = Ok s' ->
  en_override s' = ov /\ en_raw s' = false /\ en_user s' = en_user s /\
  (if overrides ov then en_codepage s' = page_of done /\ en_encoding s' = ov
   else match page_of done with
       | Some cp => en_codepage s' = Some (if has_encoding cp then cp else 1200) /\ exists e, page_encoding bv cp e /\ en_encoding s' = Some e
       | None => en_codepage s' = Some 1200 /\ (en_encoding s' = if existsb (wants fmt) done then Some (s2l "utf_16_le") else None)
       end).
Proof.
  intros s s' done O R E D. apply derive_ok in D as (u & -> & U). rewrite (U R).
  destruct (choose_keeps bv s) as (K1 & K2 & K3). cbn [with_user en_override en_raw en_user en_codepage en_encoding].
  split; [congruence|]. split; [reflexivity|]. split; [reflexivity|]. unfold enc8 in E. destruct (overrides ov) eqn:OV.
  - destruct E as [E _]. rewrite <- E. destruct s as [o c enc raw user]. cbn [en_override] in O. subst o. unfold choose_encoding.
    cbn [en_override]. destruct ov as [[|x y]|]; try discriminate OV. split; reflexivity.
  - rewrite <- O in OV. destruct (page_of done) as [cp|] eqn:P.
    + destruct E as (E1 & e & PE & E2). destruct (choose_page8 bv s _ V OV E1) as (Q1 & e' & Q2 & Q3). destruct (has_encoding cp) eqn:HE.
      * rewrite HE in Q1. split; [exact Q1|]. eauto.
      * change (has_encoding 1200) with true in Q1. split; [exact Q1|]. exists e'. split; [|exact Q3]. rewrite (page_1200 _ _ Q2).
        rewrite has_encoding_spec in HE. pose proof (page_table cp) as T. destruct (encoding_from_codepage cp); [discriminate|]. apply Fallback; [exact T|lia|exact V].
    + destruct (existsb (wants fmt) done).
      * destruct E as (E1 & _). destruct (choose_page8 bv s _ V OV E1) as (Q1 & e' & Q2 & Q3). split; [exact Q1|]. rewrite Q3, (page_1200 _ _ Q2). reflexivity.
      * destruct E as (E1 & E2). destruct s as [o c enc raw user]. cbn [en_override en_codepage en_encoding] in *. subst c enc. unfold choose_encoding. cbn [en_override en_codepage].
        replace (bv <? 80) with false by lia. destruct o as [[|]|]; try discriminate OV; split; reflexivity.
Qed.

Lemma new_step : forall (b b' : book) done rc data cs, Forall (fun r => noncont r = false) cs -> bk_bv b = bv -> b_fmt (bk_fmt b) = fmt ->
  enc_effect b b' rc data -> new_inv (bk_enc b) done -> new_inv (bk_enc b') (done ++ (rc, data) :: cs).
Proof.
  intros b b' done rc data cs C BV BF E (I1 & I2 & I3 & I4). unfold enc_effect in E. rewrite BV, BF in E.
  assert (LU : last_of 0x5c (done ++ (rc, data) :: cs) = if rc =? 0x5c then Some data else last_of 0x5c done) by (apply last_of_snoc; [lia|exact C]).
  pose proof (page_of_snoc done rc data cs C) as PO. pose proof (wants_snoc fmt done rc data cs C) as WO.
  destruct (rc =? 0x42) eqn:Q1.
  { replace (rc =? 0x5c) with false in LU by lia. apply derive_ok in E as (u & E & U). rewrite (U I2) in E.
    destruct (choose_keeps bv (with_codepage (bk_enc b) (u16_at data 0))) as (K1 & K2 & K3).
    assert (X : en_override (bk_enc b') = ov) by (rewrite E; cbn [with_user en_override]; rewrite K1; exact I1).
    split; [exact X|]. split; [rewrite E; reflexivity|]. split; [|rewrite LU, E; exact I4].
    unfold enc8. rewrite PO, E. cbn [with_user en_codepage en_encoding]. destruct (overrides ov) eqn:OV.
    - rewrite <- PO at 1. rewrite PO. assert (W : existsb (wants fmt) (done ++ (rc, data) :: cs) = true) by (eapply wants_page; exact PO). rewrite W.
      destruct (bk_enc b) as [o c enc raw user]. cbn [en_override] in I1. subst o. unfold choose_encoding, with_codepage. cbn [en_override en_codepage].
      destruct ov as [[|x y]|]; try discriminate OV. split; reflexivity.
    - rewrite <- I1 in OV. exact (choose_page8 bv (with_codepage (bk_enc b) (u16_at data 0)) (u16_at data 0) V OV eq_refl). }
  destruct (rc =? 0x5c) eqn:Q2.
  { unfold handle_writeaccess in E. replace (bv <? 80) with false in E by lia. apply bind_ok in E as (t & UT & E). injection E as E. rewrite <- E.
    assert (W : wants fmt (rc, data) = false) by (apply Z.eqb_eq in Q2; subst rc; destruct fmt; reflexivity). rewrite W, orb_false_r in WO.
    split; [exact I1|]. split; [exact I2|]. split; [unfold enc8 in *; rewrite PO, WO; exact I3|].
    rewrite LU. exists t. split; [|reflexivity]. unfold read8. destruct (unpack_unicode data 0 2) as [y|e] eqn:UU; [left; congruence|].
    destruct e; try discriminate UT. right. auto. }
  assert (Main : wants fmt (rc, data) = true -> derive_encoding codec bv (bk_enc b) = Ok (bk_enc b') -> new_inv (bk_enc b') (done ++ (rc, data) :: cs)).
  { intros W D. destruct (enc8_derive _ _ _ I1 I2 I3 D) as (D1 & D2 & D3 & D4). rewrite W, orb_true_r in WO.
    split; [exact D1|]. split; [exact D2|]. split; [|rewrite LU, D3; exact I4]. unfold enc8. rewrite PO, WO.
    destruct (overrides ov); [exact D4|]. destruct (page_of done); [exact D4|]. destruct D4 as [D4 D5]. split; [exact D4|]. rewrite D5. destruct (existsb _ done); auto. }
  destruct (existsb (Z.eqb rc) [0x85; 0x17; 0x18]) eqn:Q3.
  { apply Main; [|exact E]. unfold wants. cbn [fst existsb] in *. lia. }
  destruct (wants fmt (rc, data)) eqn:Q4.
  - unfold ensure_encoding in E. destruct (truthy (en_encoding (bk_enc b))) eqn:T; [|exact (Main eq_refl E)].
    injection E as <-. rewrite orb_true_r in WO. split; [exact I1|]. split; [exact I2|]. split; [|rewrite LU; exact I4].
    unfold enc8 in *. rewrite PO, WO. destruct (overrides ov).
    + destruct I3 as [J1 J2]. split; [exact J1|]. rewrite J2. destruct (existsb _ done); [reflexivity|]. rewrite J2 in T. discriminate.
    + destruct (page_of done); [exact I3|]. destruct (existsb _ done); [exact I3|]. destruct I3 as [_ J2]. rewrite J2 in T. discriminate.
  - rewrite orb_false_r in WO. rewrite E. split; [exact I1|]. split; [exact I2|]. split; [|rewrite LU; exact I4]. unfold enc8 in *. rewrite PO, WO. exact I3.
Qed.

Lemma new_end : forall s s' done, new_inv s done -> ensure_encoding codec bv s = Ok s' ->
  en_codepage s' = codepage_of bv ov done /\
  (exists e, encoding_for bv ov (page_of done) e /\ en_encoding s' = if overrides ov || existsb (wants fmt) done then Some e else None) /\
  match last_of 0x5C done with
  | Some d => exists t, read8 d t /\ en_user s' = rstrip str_space t
  | None => en_user s' = []
  end.
Proof.
  intros s s' done (I1 & I2 & I3 & I4) H. unfold codepage_of. replace (bv <? 80) with false by lia. cbn [orb].
  assert (BY : overrides ov = true -> exists o, ov = Some o /\ o <> []) by (destruct ov as [[|x y]|]; try discriminate; intros _; eexists; split; [reflexivity|discriminate]).
  assert (NO : overrides ov = false -> ov = None \/ ov = Some []) by (destruct ov as [[|]|]; try discriminate; auto).
  unfold ensure_encoding in H. destruct (truthy (en_encoding s)) eqn:T.
  - injection H as <-. unfold enc8 in I3. destruct (overrides ov) eqn:OV.
    + destruct I3 as [J1 J2]. split; [exact J1|]. split; [|exact I4]. destruct (BY eq_refl) as (o & -> & NE). exists o. split; [apply ByOverride; exact NE|].
      cbn [orb]. destruct (existsb _ done); [exact J2|]. rewrite J2 in T. discriminate.
    + destruct (page_of done) as [cp|] eqn:P.
      * destruct I3 as (J1 & e & J2 & J3). split; [exact J1|]. split; [|exact I4]. exists e. split; [apply ByCodepage; auto|]. rewrite (wants_page _ _ P). exact J3.
      * destruct (existsb _ done).
        -- destruct I3 as (J1 & [J2|J2]); [rewrite J2 in T; discriminate|]. split; [exact J1|]. split; [|exact I4]. exists (s2l "utf_16_le"). split; [apply ByVersion8; auto|]. exact J2.
        -- destruct I3 as [_ J2]. rewrite J2 in T. discriminate.
  - destruct (enc8_derive _ _ _ I1 I2 I3 H) as (D1 & D2 & D3 & D4). rewrite D3. destruct (overrides ov) eqn:OV.
    + destruct D4 as [D4 D5]. split; [exact D4|]. split; [|exact I4]. destruct (BY eq_refl) as (o & -> & NE). exists o. split; [apply ByOverride; exact NE|exact D5].
    + destruct (page_of done) as [cp|] eqn:P.
      * destruct D4 as (J1 & e & J2 & J3). split; [exact J1|]. split; [|exact I4]. exists e. split; [apply ByCodepage; auto|]. rewrite (wants_page _ _ P). exact J3.
      * destruct D4 as [D4 D5]. split; [exact D4|]. split; [|exact I4]. exists (s2l "utf_16_le"). split; [apply ByVersion8; auto|exact D5].
Qed.
End New.

(** *** Date mode and countries *)

Definition country_of (d : list Z) : Z * Z := (u16_at d 0, u16_at d 2).

Definition date_inv (g : shared) (done : list (Z * list Z)) : Prop :=
  g_datemode g = datemode_of done /\ (g_datemode g = 0 \/ g_datemode g = 1) /\ g_countries g = countries_of done /\
  forall d, In (0x8C, d) done -> country_of d = (0, 0) \/ country_of d = countries_of done.

Lemma date_step : forall (b b' : book) done rc data cs, Forall (fun r => noncont r = false) cs ->
  date_effect b b' rc data -> date_inv (bk_shared b) done -> date_inv (bk_shared b') (done ++ (rc, data) :: cs).
Proof.
  intros b b' done rc data cs C [E1 E2] (I1 & I2 & I3 & I4). cbv zeta in *.
  assert (NC : forall d, In (0x8C, d) cs -> False).
  { intros d I. rewrite Forall_forall in C. specialize (C _ I). discriminate C. }
  unfold date_inv, datemode_of, countries_of. rewrite !last_of_snoc by (assumption || lia).
  split; [destruct (rc =? 0x22); [exact (proj1 E1)|rewrite E1; exact I1]|]. split; [destruct (rc =? 0x22); [exact (proj2 E1)|rewrite E1; exact I2]|].
  destruct (rc =? 0x8c) eqn:Q.
  - destruct E2 as [E2 E3]. split; [exact E2|]. intros d I. apply in_app_or in I as [I|[I|I]]; [|injection I as _ ->; right; reflexivity|destruct (NC _ I)].
    apply I4 in I. rewrite <- I3, E2 in *. destruct E3 as [E3|E3]; [rewrite E3 in I; destruct I as [I|I]; auto|]. rewrite E3 in I. exact I.
  - rewrite E2. split; [exact I3|]. intros d I. apply in_app_or in I as [I|[I|I]]; [exact (I4 _ I)|injection I as -> _; discriminate Q|destruct (NC _ I)].
Qed.

(** *** The whole of the globals *)

Lemma end_effect : forall (b b' : book), globals_end codec ops lower b = Ok b' ->
  ensure_encoding codec (bk_bv b) (bk_enc b) = Ok (bk_enc b') /\ g_datemode (bk_shared b') = g_datemode (bk_shared b) /\ g_countries (bk_shared b') = g_countries (bk_shared b).
Proof.
  intros b b' H. unfold globals_end in H. cbv zeta in H. apply bind_ok in H as ([names maps] & _ & H). unfold ensure_encoding.
  match type of H with (if truthy (en_encoding (bk_enc ?x)) then _ else _) = _ => set (b1 := x) in * end.
  assert (X : bk_enc b1 = bk_enc b /\ bk_bv b1 = bk_bv b /\ g_datemode (bk_shared b1) = g_datemode (bk_shared b) /\ g_countries (bk_shared b1) = g_countries (bk_shared b)) by (repeat split).
  destruct X as (X1 & X2 & X3 & X4). rewrite X1 in H. destruct (truthy _); [injection H as <-; rewrite X1; auto|]. destruct (derive_here _ _ H) as (D1 & D2 & D3). rewrite X1, X2 in D1.
  split; [exact D1|]. split; congruence.
Qed.

Lemma opened_attrs : forall fuel mem base bv rs ov fmt b0 m, workbook mem base bv rs -> 50 <= bv ->
  open_stream fuel mem base ov fmt true = Ok (mk_api b0 m) ->
  bk_bv b0 = bv /\ date_inv (bk_shared b0) rs /\
  exists s, (if bv <? 80 then old_inv bv ov fmt s rs else new_inv bv ov fmt s rs) /\ ensure_encoding codec bv s = Ok (bk_enc b0).
Proof.
  intros fuel mem base bv rs ov fmt b0 m (pos & d & post & GB & FR & LD & A & NE) V O.
  unfold BookApi.open_stream in O. rewrite GB, bind_Ok in O.
  apply bind_ok in O as (? & _ & O). apply bind_ok in O as (? & _ & O). apply bind_ok in O as (b & B & O).
  replace (bv <=? 40) with false in O by lia. replace (bv =? 45) with false in O by lia.
  apply bind_ok in O as ([b1 p1] & G & O). cbv zeta in O.
  assert (b0 = with_list b1 (map (fun _ => None) (sl_names (bk_sheets b1)))) as -> by congruence.
  change (bk_bv b1 = bv /\ date_inv (bk_shared b1) rs /\
    exists s, (if bv <? 80 then old_inv bv ov fmt s rs else new_inv bv ov fmt s rs) /\ ensure_encoding codec bv s = Ok (bk_enc b1)).
  set (P := fun (b : book) (rest : list (Z * list Z)) => bk_bv b = bv /\ b_fmt (bk_fmt b) = fmt /\ exists done, rs = done ++ rest /\
     date_inv (bk_shared b) done /\ (if bv <? 80 then old_inv bv ov fmt (bk_enc b) done else new_inv bv ov fmt (bk_enc b) done)).
  assert (PB : P b rs).
  { unfold book0 in B. apply bind_ok in B as (f & F & B). injection B as <-. split; [reflexivity|].
    unfold fbook0 in F. apply bind_ok in F as (cm & _ & F). injection F as <-. split; [reflexivity|]. exists []. split; [reflexivity|].
    split; [repeat split; [left; reflexivity|intros ? []]|]. destruct (bv <? 80).
    - repeat split. left. repeat split.
    - repeat split. unfold enc8. cbn. destruct (overrides ov); split; reflexivity. }
  destruct (globals_walk codec load ops lower P mem d post LD) with (fuel := fuel) (rs := rs) (b := b) (pos := pos) (b' := b1) (p' := p1) as (bl & (P1 & P2 & done & P3 & P4 & P5) & GE); auto.
  { intros b2 pos2 rc data rs2 b3 p3 cs rs3 (Q1 & Q2 & done & Q3 & Q4 & Q5) _ _ _ _ N8 S CS.
    split; [rewrite (gstep_version _ _ _ _ _ _ _ _ _ S N8); exact Q1|].
    split; [rewrite (gstep_fmt codec lower num8 rk ragged old _ _ _ _ _ _ _ S N8); exact Q2|].
    destruct (gstep_attrs _ _ _ _ _ _ _ S N8 ltac:(lia)) as [E1 E2].
    exists (done ++ (rc, data) :: cs). split; [rewrite Q3, <- app_assoc; reflexivity|]. split; [exact (date_step _ _ _ _ _ _ CS E2 Q4)|].
    destruct (bv <? 80) eqn:VV; [exact (old_step bv ov fmt ltac:(lia) _ _ _ _ _ _ CS Q1 Q2 E1 Q5)|exact (new_step bv ov fmt ltac:(lia) _ _ _ _ _ _ CS Q1 Q2 E1 Q5)]. }
  rewrite app_nil_r in P3. subst done. destruct (globals_end_alike _ _ _ _ _ GE) as [K1 _ _ _ _]. destruct (end_effect _ _ GE) as (E1 & E2 & E3).
  split; [congruence|]. split; [unfold date_inv; rewrite E2, E3; exact P4|]. exists (bk_enc bl). split; [exact P5|]. rewrite <- P1. exact E1.
Qed.

Lemma after_history : forall fuel mem base bv rs ov fmt od a h, workbook mem base bv rs -> 50 <= bv ->
  open_stream fuel mem base ov fmt od = Ok a ->
  exists b0 k l, open_stream fuel mem base ov fmt true = Ok (mk_api b0 (Some mem)) /\ a_book (snd (history a h)) = later b0 k l /\ k_ok b0 k /\
    (od = true -> a_book a = b0).
Proof.
  intros fuel mem base bv rs ov fmt od a h (pos & d & post & GB & FR & LD & A & NE) V H.
  assert (VA : 45 < bk_bv (a_book a)).
  { unfold BookApi.open_stream in H. rewrite GB, bind_Ok in H.
    apply bind_ok in H as (? & _ & H). apply bind_ok in H as (? & _ & H). apply bind_ok in H as (b & B & H).
    assert (bk_bv b = bv) as BV by (unfold book0 in B; apply bind_ok in B as (f & _ & B); injection B as <-; reflexivity).
    replace (bv <=? 40) with false in H by lia. replace (bv =? 45) with false in H by lia.
    apply bind_ok in H as ([b1 p1] & G & H). destruct (globals_lengths _ _ _ _ _ _ _ _ _ _ G) as [G1 _]. cbv zeta in H.
    destruct od; [injection H as <-; cbn; lia|]. apply bind_ok in H as (b2 & G2 & H). injection H as <-. cbn [a_book].
    assert (P : forall numbers c c', get_sheets_in codec num8 rk ragged old c mem numbers = Ok c' -> bk_bv c' = bk_bv c).
    { induction numbers as [|i r IH]; intros c c' X; cbn [get_sheets_in] in X; [injection X as <-; reflexivity|].
      apply bind_ok in X as ([c1 sh] & Y & X). rewrite (IH _ _ X). unfold BookApi.get_sheet in Y.
      apply bind_ok in Y as (? & _ & Y). apply bind_ok in Y as ([? ?] & _ & Y). apply bind_ok in Y as (? & _ & Y).
      apply bind_ok in Y as ([? ?] & _ & Y). apply bind_ok in Y as (? & _ & Y). injection Y as <- _. reflexivity. }
    apply P in G2. cbn in G2. lia. }
  destruct (open_inv _ _ _ _ _ _ _ _ _ _ _ _ _ _ H VA) as (b0 & O & V0 & LS & BL & I & OD).
  assert (LB : zlen (bk_list b0) = zlen (sl_names (bk_sheets b0))) by (rewrite BL; apply zlen_map).
  destruct (history_inv codec num8 rk ragged old b0 mem V0 LS LB h a I) as [(k & l & E & K & _) _].
  exists b0, k, l. split; [exact O|]. split; [exact E|]. split; [exact K|]. intros Q. rewrite (OD Q). reflexivity.
Qed.

(** ** Theorems *)

(** Version, date mode, code page and encoding, whatever has been done with the book since it was opened. *)
Theorem c97_attributes : forall fuel mem base bv rs override fmt on_demand a h,
  workbook mem base bv rs -> 50 <= bv -> open_stream fuel mem base override fmt on_demand = Ok a ->
  let a' := snd (history a h) in
  biff_version a' = bv /\ datemode a' = datemode_of rs /\ (datemode a' = 0 \/ datemode a' = 1) /\
  codepage a' = codepage_of bv override rs /\
  exists e, encoding_for bv override (page_of rs) e /\
    encoding a' = if (bv <? 80) || overrides override || existsb (wants fmt) rs then Some e else None.
Proof.
  intros fuel mem base bv rs ov fmt od a h W V H a'. subst a'.
  destruct (after_history _ _ _ _ _ _ _ _ _ h W V H) as (b0 & k & l & O & E & K & _).
  destruct (opened_attrs _ _ _ _ _ _ _ _ _ W V O) as (B & (D1 & D2 & D3 & D4) & s & I & S).
  unfold biff_version, datemode, codepage, encoding. rewrite E. cbn [later with_list set_countries bk_bv bk_shared bk_enc].
  change (bk_enc (later b0 k l)) with (bk_enc b0).
  split; [exact B|]. split; [exact D1|]. split; [exact D2|]. destruct (bv <? 80) eqn:VV.
  - destruct (old_end bv ov fmt _ _ _ ltac:(lia) I S) as (E1 & (e & E2 & E3) & _). unfold codepage_of. rewrite VV. eauto.
  - destruct (new_end bv ov fmt ltac:(lia) _ _ _ I S) as (E1 & E2 & _). auto.
Qed.
Print Assumptions c97_attributes.

(** The country codes: those of the COUNTRY records, which agree.  A worksheet of a workbook
    without such a record may have one itself. *)
Theorem c97_countries : forall fuel mem base bv rs override fmt on_demand a h,
  workbook mem base bv rs -> 50 <= bv -> open_stream fuel mem base override fmt on_demand = Ok a ->
  (countries_of rs <> (0, 0) -> countries (snd (history a h)) = countries_of rs) /\
  (on_demand = true -> countries a = countries_of rs) /\
  (forall d, In (0x8C, d) rs -> country_of d = (0, 0) \/ country_of d = countries_of rs).
Proof.
  intros fuel mem base bv rs ov fmt od a h W V H.
  destruct (after_history _ _ _ _ _ _ _ _ _ h W V H) as (b0 & k & l & O & E & K & OD).
  destruct (opened_attrs _ _ _ _ _ _ _ _ _ W V O) as (B & (D1 & D2 & D3 & D4) & _).
  split; [|split; [intros Q; unfold countries; rewrite (OD Q); exact D3|exact D4]].
  intros NZ. unfold countries. rewrite E. change (k = countries_of rs). destruct K as [K|K]; [congruence|]. exfalso. apply NZ. congruence.
Qed.
Print Assumptions c97_countries.

Lemma last_of_some : forall code before d after, (forall r, In r after -> fst r <> code) -> last_of code (before ++ (code, d) :: after) = Some d.
Proof.
  intros code before d after H. rewrite last_of_app. cbn [last_of]. rewrite Z.eqb_refl.
  destruct (last_of code after) eqn:L; [|reflexivity]. exfalso. clear - H L. induction after as [|[c x] a IH]; [discriminate|]. cbn [last_of] in L.
  destruct (last_of code a) eqn:Q; [apply IH; [intros r I; apply H; right; exact I|exact L]|].
  destruct (c =? code) eqn:Q2; [|discriminate]. apply (H (c, x)); [left; reflexivity|cbn; lia].
Qed.

Lemma same_split : forall (before1 before2 after1 after2 : list (Z * list Z)) d1 d2,
  before1 ++ (0x5C, d1) :: after1 = before2 ++ (0x5C, d2) :: after2 -> existsb is_user after1 = false -> existsb is_user after2 = false ->
  before1 = before2 /\ d1 = d2 /\ after1 = after2.
Proof.
  induction before1 as [|r b IH]; intros [|r2 b2] after1 after2 d1 d2 E U1 U2; cbn [app] in E.
  - injection E as -> ->. auto.
  - injection E as <- ->. rewrite existsb_app in U1. cbn [existsb] in U1. change (is_user (0x5C, d2)) with true in U1. rewrite orb_true_r in U1. discriminate.
  - injection E as -> <-. rewrite existsb_app in U2. cbn [existsb] in U2. change (is_user (0x5C, d1)) with true in U2. rewrite orb_true_r in U2. discriminate.
  - injection E as -> E. destruct (IH _ _ _ _ _ E U1 U2) as (-> & -> & ->). auto.
Qed.

(** In a BIFF5 or BIFF7 file the user name is that of the last WRITEACCESS record, in the encoding
    of the workbook as it stands at that record, or when that is not known there, as soon as it is. *)
Theorem c97_user_name : forall fuel mem base bv before d after override fmt on_demand a h,
  workbook mem base bv (before ++ (0x5C, d) :: after) -> existsb is_user after = false -> 50 <= bv < 80 ->
  open_stream fuel mem base override fmt on_demand = Ok a ->
  exists e t, encoding_for bv override (user_page fmt before after) e /\ codec e (name_bytes d) = Ok t /\
    trimmed t (user_name (snd (history a h))).
Proof.
  intros fuel mem base bv before d after ov fmt od a h W U V H.
  destruct (after_history _ _ _ _ _ _ _ _ _ h W ltac:(lia) H) as (b0 & k & l & O & E & _).
  destruct (opened_attrs _ _ _ _ _ _ _ _ _ W ltac:(lia) O) as (B & _ & s & I & S). replace (bv <? 80) with true in I by lia.
  unfold user_name. rewrite E. change (bk_enc (later b0 k l)) with (bk_enc b0).
  destruct (old_end bv ov fmt _ _ _ ltac:(lia) I S) as (_ & _ & [(U1 & _)|(before2 & d2 & after2 & E2 & U2 & e & t & X1 & X2 & X3)]).
  - rewrite existsb_app in U1. cbn [existsb] in U1. change (is_user (0x5C, d)) with true in U1. rewrite orb_true_r in U1. discriminate.
  - destruct (same_split _ _ _ _ _ _ E2 U U2) as (-> & -> & ->). exists e, t. split; [exact X1|]. split; [exact X2|]. rewrite X3. apply rstrip_trimmed.
Qed.
Print Assumptions c97_user_name.

(** In a BIFF8 file it is the Unicode string of that record. *)
Theorem c97_user_name8 : forall fuel mem base bv before u pad after override fmt on_demand a h,
  workbook mem base bv (before ++ (0x5C, us_field 2 u ++ pad) :: after) -> existsb is_user after = false -> us_ok u -> us_units u < 65536 -> 80 <= bv ->
  open_stream fuel mem base override fmt on_demand = Ok a ->
  trimmed (us_text u) (user_name (snd (history a h))).
Proof.
  intros fuel mem base bv before u pad after ov fmt od a h W U UO LU V H.
  destruct (after_history _ _ _ _ _ _ _ _ _ h W ltac:(lia) H) as (b0 & k & l & O & E & _).
  destruct (opened_attrs _ _ _ _ _ _ _ _ _ W ltac:(lia) O) as (B & _ & s & I & S). replace (bv <? 80) with false in I by lia.
  unfold user_name. rewrite E. change (bk_enc (later b0 k l)) with (bk_enc b0).
  destruct (new_end bv ov fmt ltac:(lia) _ _ _ I S) as (_ & _ & X).
  rewrite last_of_some in X. 2:{ intros r R Q. assert (existsb is_user after = true); [|congruence]. apply existsb_exists. exists r. split; [exact R|]. unfold is_user. lia. }
  destruct X as (t & R & ->). replace t with (us_text u); [apply rstrip_trimmed|].
  pose proof (c13_unpack_unicode u 2 [] pad UO (or_intror eq_refl) LU) as Q. cbn [app] in Q. change (zlen (@nil Z)) with 0 in Q. change (Z.of_nat 2) with 2 in Q.
  destruct R as [R|[R _]]; congruence.
Qed.
Print Assumptions c97_user_name8.

(** Without such a record it is empty. *)
Theorem c97_no_user : forall fuel mem base bv rs override fmt on_demand a h,
  workbook mem base bv rs -> existsb is_user rs = false -> 50 <= bv ->
  open_stream fuel mem base override fmt on_demand = Ok a -> user_name (snd (history a h)) = [].
Proof.
  intros fuel mem base bv rs ov fmt od a h W U V H.
  destruct (after_history _ _ _ _ _ _ _ _ _ h W V H) as (b0 & k & l & O & E & _).
  destruct (opened_attrs _ _ _ _ _ _ _ _ _ W V O) as (B & _ & s & I & S).
  unfold user_name. rewrite E. change (bk_enc (later b0 k l)) with (bk_enc b0). destruct (bv <? 80) eqn:VV.
  - destruct (old_end bv ov fmt _ _ _ ltac:(lia) I S) as (_ & _ & [(_ & X)|(before2 & d2 & after2 & E2 & _)]); [exact X|].
    rewrite E2, existsb_app in U. cbn [existsb] in U. change (is_user (0x5C, d2)) with true in U. rewrite orb_true_r in U. discriminate.
  - destruct (new_end bv ov fmt ltac:(lia) _ _ _ I S) as (_ & _ & X). assert (L : last_of 0x5c rs = None); [|rewrite L in X; exact X].
    clear - U. induction rs as [|[c x] r IH]; [reflexivity|]. cbn [existsb last_of] in *. apply orb_false_iff in U as [U1 U2]. rewrite (IH U2).
    unfold is_user in U1. cbn [fst] in U1. rewrite U1. reflexivity.
Qed.
Print Assumptions c97_no_user.
End Opened.

(** A BIFF7 file whose user name comes before the code page, and a BIFF8 file. *)
Module Attrs.
Definition bof (v kind : Z) : Z * list Z := (0x0809, [0; v; kind; 0; 0; 0; 0xcd; 7]).
Definition name7 : list Z := [4; 74; 97; 110; 32; 32; 32].
Definition before7 : list (Z * list Z) := [(0x5C, [1; 88]); (0x22, [1; 0])].
Definition after7 : list (Z * list Z) := [(0x42, [0xE4; 4]); (0x8C, [1; 0; 44; 0]); (0x42, [0xE3; 4])].
Definition records7 : list (Z * list Z) := before7 ++ (0x5C, name7) :: after7.
Definition user : ustring := {| us_text := s2l "Eva "; us_wide := false; us_opts := 0; us_runs := None; us_phon := None |}.
Definition records8 : list (Z * list Z) := [(0x22, [0; 0])] ++ (0x5C, us_field 2 user ++ [32; 32]) :: [(0x8C, [49; 0; 49; 0]); (0x8C, [49; 0; 49; 0])].
Definition file (v : Z) (rs : list (Z * list Z)) : list Z := frame (bof v 5) ++ frames rs ++ frame (0x0a, []).
Definition says (e : list Z) (b : list Z) : result (list Z) := Ok (e ++ [58] ++ b).
End Attrs.

Example c97_example :
  let codec := Attrs.says in let rk := fun b => Ok (le_val b) in let old := fun _ _ _ _ _ => Err XLRDError in
  let opening v rs := open_stream codec int_ops (fun s => s) le_val rk false old 50 (Attrs.file v rs) 0 None true false in
  (exists bv, workbook (Attrs.file 5 Attrs.records7) 0 bv Attrs.records7 /\ 50 <= bv < 80) /\ existsb is_user Attrs.after7 = false /\
  user_page true Attrs.before7 Attrs.after7 = Some 1252 /\ page_of Attrs.records7 = Some 1251 /\
  workbook (Attrs.file 6 Attrs.records8) 0 80 Attrs.records8 /\ us_ok Attrs.user /\ us_units Attrs.user < 65536 /\
  match opening 5 Attrs.records7 with
  | Ok a => (datemode a, countries a, codepage a, encoding a, user_name a) = (1, (1, 44), Some 1251, Some (s2l "cp1251"), s2l "cp1252:Jan")
  | Err _ => False
  end /\
  match opening 6 Attrs.records8 with
  | Ok a => (biff_version a, datemode a, countries a, codepage a, encoding a, user_name a) = (80, 0, (49, 49), Some 1200, None, s2l "Eva")
  | Err _ => False
  end.
Proof.
  cbv zeta.
  split. { exists 70. split; [|lia]. exists 12, [], []. split; [vm_compute; reflexivity|].
    split; [apply Forall_forall; intros [rc d] I; vm_compute in I; repeat (destruct I as [I|I]; [injection I as <- <-; split; cbn; lia|]); destruct I|].
    split; [reflexivity|]. split; [exists (firstn 12 (Attrs.file 5 Attrs.records7)); split; vm_compute; reflexivity|]. vm_compute. repeat constructor; discriminate. }
  split; [reflexivity|]. split; [vm_compute; reflexivity|]. split; [vm_compute; reflexivity|].
  split. { exists 12, [], []. split; [vm_compute; reflexivity|].
    split; [apply Forall_forall; intros [rc d] I; vm_compute in I; repeat (destruct I as [I|I]; [injection I as <- <-; split; cbn; lia|]); destruct I|].
    split; [reflexivity|]. split; [exists (firstn 12 (Attrs.file 6 Attrs.records8)); split; vm_compute; reflexivity|]. vm_compute. repeat constructor; discriminate. }
  split. { repeat split; cbn; try (intros _); repeat constructor; unfold scalar; try lia. }
  split; [vm_compute; reflexivity|].
  split; vm_compute; reflexivity.
Qed.
