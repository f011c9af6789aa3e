(** Hyperlink records: specification and lemmas for theorem C68. *)
From Verif Require Import Base BaseFacts Utf16 Strings StringFacts Framing GridModel GridFacts
  SheetObjects SheetModel SheetFacts SheetSteps.

(** What a hyperlink points to. *)
Inductive goal : Type :=
| GUrl (url : list Z) (extra : list Z)                  (* [extra]: nothing, or 24 bytes *)
| GFile (up : Z) (short : list Z) (unknown : list Z)    (* a short path in bytes; 24 unknown bytes *)
| GFileExt (up : Z) (short : list Z) (unknown : list Z) (sz : Z) (mark : Z) (path : list Z)
| GUnc (path : list Z)
| GBook.

Record hspec : Type := mk_hspec {
  p_r1 : Z; p_r2 : Z; p_c1 : Z; p_c2 : Z;
  p_desc : option (list Z);
  p_target : option (list Z);
  p_goal : goal;
  p_textmark : option (list Z);
}.

(** A text with its terminating NUL, after the number of UTF-16 units. *)
Definition nul_text (t : list Z) : list Z :=
  let u := utf16_enc (t ++ [0]) in le_enc 4 (zlen u / 2) ++ u.
Definition opt_text (o : option (list Z)) : list Z := match o with Some t => nul_text t | None => [] end.

(** The classes of links: 79EAC9D0-BAF9-11CE-8C82-00AA004BA90B for a hyperlink, the same with
    E0 for a URL, and 00000303-0000-0000-C000-000000000046 for a file.  The first three
    groups are stored low byte first. *)
Definition link_guid (a b c : Z) (rest : list Z) : list Z := le_enc 4 a ++ le_enc 2 b ++ le_enc 2 c ++ rest.
Definition link_class : list Z := link_guid 0x79EAC9D0 0xBAF9 0x11CE [0x8C; 0x82; 0x00; 0xAA; 0x00; 0x4B; 0xA9; 0x0B].
Definition url_class : list Z := link_guid 0x79EAC9E0 0xBAF9 0x11CE [0x8C; 0x82; 0x00; 0xAA; 0x00; 0x4B; 0xA9; 0x0B].
Definition file_class : list Z := link_guid 0x00000303 0 0 [0xC0; 0; 0; 0; 0; 0; 0; 0x46].

Definition goal_bytes (g : goal) : list Z :=
  match g with
  | GUrl url extra => let u := utf16_enc (url ++ [0]) in url_class ++ le_enc 4 (zlen u + zlen extra) ++ u ++ extra
  | GFile up short unknown => file_class ++ le_enc 2 up ++ le_enc 4 (zlen short + 1) ++ short ++ [0] ++ unknown ++ le_enc 4 0
  | GFileExt up short unknown sz mark path =>
      file_class ++ le_enc 2 up ++ le_enc 4 (zlen short + 1) ++ short ++ [0] ++ unknown ++ le_enc 4 sz ++
      le_enc 4 (zlen (utf16_enc path)) ++ le_enc 2 mark ++ utf16_enc path
  | GUnc path => nul_text path
  | GBook => []
  end.

Definition flags (p : hspec) : Z :=
  (match p_desc p with Some _ => 0x14 | None => 0 end) + (match p_target p with Some _ => 0x80 | None => 0 end) +
  (match p_goal p with GUrl _ _ => 3 | GFile _ _ _ => 1 | GFileExt _ _ _ _ _ _ => 1 | GUnc _ => 0x103 | GBook => 0 end) +
  (match p_textmark p with Some _ => 8 | None => 0 end).

Definition hlink_bytes (p : hspec) : list Z :=
  le_enc 2 (p_r1 p) ++ le_enc 2 (p_r2 p) ++ le_enc 2 (p_c1 p) ++ le_enc 2 (p_c2 p) ++ link_class ++ [2; 0; 0; 0] ++
  le_enc 4 (flags p) ++ opt_text (p_desc p) ++ opt_text (p_target p) ++ goal_bytes (p_goal p) ++ opt_text (p_textmark p).

(** Texts fit their length fields; a URL has no NUL and no character outside the
    basic multilingual plane; a link within the workbook has a text mark. *)
Definition short_text (t : list Z) : Prop := text t /\ zlen (utf16_enc (t ++ [0])) / 2 < 2 ^ 32.
Definition opt_ok (o : option (list Z)) : Prop := match o with Some t => short_text t | None => True end.

Definition goal_ok (g : goal) : Prop :=
  match g with
  | GUrl url extra => text url /\ Forall (fun c => c <> 0 /\ c < 65536) url /\ (extra = [] \/ zlen extra = 24) /\ (exists e, utf16_dec extra = Ok e) /\
      zlen (utf16_enc (url ++ [0])) + zlen extra < 2 ^ 32
  | GFile up short unknown => u16v up /\ zlen short + 1 < 2 ^ 31 /\ zlen unknown = 24
  | GFileExt up short unknown sz mark path => u16v up /\ zlen short + 1 < 2 ^ 31 /\ zlen unknown = 24 /\
      0 < sz < 2 ^ 31 /\ text path /\ zlen (utf16_enc path) < 2 ^ 31
  | GUnc path => short_text path
  | GBook => True
  end.

Definition hspec_ok (p : hspec) : Prop :=
  Forall u16v [p_r1 p; p_r2 p; p_c1 p; p_c2 p] /\ opt_ok (p_desc p) /\ opt_ok (p_target p) /\ goal_ok (p_goal p) /\ opt_ok (p_textmark p) /\
  (p_goal p = GBook -> p_textmark p <> None).

Definition goal_type (g : goal) : htype :=
  match g with GUrl _ _ => HUrl | GFile _ _ _ => HLocalFile | GFileExt _ _ _ _ _ _ => HLocalFile | GUnc _ => HUnc | GBook => HWorkbook end.
Definition goal_path (g : goal) : option upath :=
  match g with
  | GUrl url _ => Some (UText url)
  | GFile up short _ => Some (UBytes (concat (repeat [46; 46; 92] (Z.to_nat up)) ++ short))
  | GFileExt _ _ _ _ _ path => Some (UText path)
  | GUnc path => Some (UText path)
  | GBook => None
  end.

Lemma enc_even : forall t, zlen (utf16_enc t) / 2 * 2 = zlen (utf16_enc t).
Proof. intros t. rewrite zlen_utf16_enc. lia. Qed.

Lemma text_nul : forall t, text t -> text (t ++ [0]).
Proof. intros t H. apply Forall_app. split; [exact H|]. constructor; [left; lia|constructor]. Qed.

Lemma nul_text_reads : forall data pos t rest, At data pos (nul_text t ++ rest) -> short_text t ->
  get_nul_terminated_unicode data pos = Ok (t, pos + zlen (nul_text t)) /\ At data (pos + zlen (nul_text t)) rest.
Proof.
  intros data pos t rest HA [HT HL]. split; [|exact (At_skip _ _ _ _ _ HA eq_refl)].
  unfold nul_text in *. set (u := utf16_enc (t ++ [0])) in *. rewrite <- app_assoc in HA. pose proof (zlen_nonneg u).
  unfold get_nul_terminated_unicode. rewrite (At_u32 _ _ _ _ HA) by lia. cbn [bind].
  pose proof (At_skip _ _ _ _ (pos + 4) HA ltac:(rewrite zlen_le_enc; lia)) as A1.
  assert (zlen u / 2 * 2 = zlen u) as EV by apply enc_even. rewrite EV.
  rewrite (At_slice _ _ _ _ _ A1 eq_refl). unfold u. rewrite utf16_dec_enc by (apply text_nul; exact HT). cbn [bind].
  f_equal. f_equal.
  - unfold py_slice, py_bound. change (-1 <? 0) with true. change (0 <? 0) with false. cbv iota. pose proof (zlen_nonneg t).
    rewrite zlen_app. change (zlen [0]) with 1. replace (Z.max 0 (-1 + (zlen t + 1)) - Z.min 0 (zlen t + 1)) with (zlen t) by lia.
    replace (Z.to_nat (Z.min 0 (zlen t + 1))) with 0%nat by lia. cbn [skipn]. unfold zlen. rewrite Nat2Z.id, firstn_app, firstn_all, Nat.sub_diag.
    cbn [firstn]. apply app_nil_r.
  - rewrite zlen_app, zlen_le_enc. fold u. lia.
Qed.

Lemma opt_text_reads : forall data pos o rest b, At data pos (opt_text o ++ rest) -> opt_ok o ->
  negb (b =? 0) = match o with Some _ => true | None => false end ->
  (if negb (b =? 0) then do (d, p) <- get_nul_terminated_unicode data pos; Ok (Some d, p) else Ok (None, pos))
    = Ok (o, pos + zlen (opt_text o)) /\ At data (pos + zlen (opt_text o)) rest.
Proof.
  intros data pos [t|] rest b HA HO HB; rewrite HB; cbn [opt_text] in *.
  - destruct (nul_text_reads _ _ _ _ HA HO) as [E A]. rewrite E. auto.
  - cbn [app] in HA. change (zlen []) with 0. rewrite Z.add_0_r. auto.
Qed.

Lemma find0_none : forall u r i, Forall (fun c => c <> 0) u -> find0_from (u ++ 0 :: r) i = i + zlen u.
Proof.
  induction u as [|a u IH]; intros r i H; cbn [app find0_from].
  - change (zlen []) with 0. rewrite Z.eqb_refl. lia.
  - inversion H; subst. destruct (a =? 0) eqn:E; [lia|]. rewrite IH by assumption. rewrite zlen_cons. lia.
Qed.

Lemma bmp_units : forall u, Forall (fun c => c <> 0 /\ c < 65536) u -> zlen (utf16_units u) = zlen u.
Proof.
  induction u as [|a u IH]; intros H; [reflexivity|]. inversion H as [|? ? Ha Hu]; subst. unfold utf16_units. cbn [flat_map].
  rewrite zlen_app. fold (utf16_units u). rewrite IH by assumption. unfold units_of. destruct (a <? 65536) eqn:E; [|lia].
  rewrite (zlen_cons a u). change (zlen [a]) with 1. lia.
Qed.

Lemma url_reads : forall data pos url extra rest,
  At data pos ((le_enc 4 (zlen (utf16_enc (url ++ [0])) + zlen extra) ++ utf16_enc (url ++ [0]) ++ extra) ++ rest) ->
  goal_ok (GUrl url extra) ->
  url_moniker data pos = Ok (url, pos + 4 + zlen (utf16_enc (url ++ [0])) + zlen extra) /\
  At data (pos + 4 + zlen (utf16_enc (url ++ [0])) + zlen extra) rest.
Proof.
  intros data pos url extra rest HA (HT & HB & HX & (e & HE) & HL). set (u := utf16_enc (url ++ [0])) in *.
  pose proof (zlen_nonneg u). pose proof (zlen_nonneg extra). rewrite <- app_assoc in HA.
  pose proof (At_skip _ _ _ _ (pos + 4) HA ltac:(rewrite zlen_le_enc; lia)) as A1.
  assert (At data (pos + 4 + zlen u + zlen extra) rest) as A2
    by (eapply At_skip; [exact A1|rewrite zlen_app; lia]).
  split; [|exact A2]. unfold url_moniker. rewrite (At_u32 _ _ _ _ HA) by lia. cbn [bind].
  rewrite (At_slice _ _ _ _ (pos + 4 + (zlen u + zlen extra)) A1) by (rewrite zlen_app; lia).
  unfold u at 1. rewrite utf16_dec_app by (apply text_nul; exact HT). rewrite HE. cbn [bind].
  assert (zlen u = 2 * (zlen url + 1)) as LU.
  { unfold u. rewrite zlen_utf16_enc, utf16_units_app, zlen_app, bmp_units by exact HB. change (zlen (utf16_units [0])) with 1. lia. }
  assert (find0 ((url ++ [0]) ++ e) = zlen url) as ->.
  { unfold find0. rewrite <- app_assoc. cbn [app]. rewrite find0_none; [lia|]. eapply Forall_impl; [|exact HB]. intros a [K _]. exact K. }
  replace (zlen u + zlen extra - 2 * (zlen url + 1)) with (zlen extra) by lia.
  replace ((zlen extra =? 24) || (zlen extra =? 0)) with true by (destruct HX as [-> | ->]; reflexivity).
  cbn [guard bind]. f_equal. f_equal; [|lia].
  rewrite <- app_assoc. rewrite (At_slice _ _ _ _ _ (At_0 (url ++ [0] ++ e))) by lia. reflexivity.
Qed.

Lemma repeat_app_concat : forall n s, repeat_app n s = concat (repeat s n).
Proof. induction n as [|n IH]; intros s; [reflexivity|]. cbn. rewrite IH. reflexivity. Qed.

Lemma file_reads : forall data pos up short unknown tail rest, u16v up -> zlen short + 1 < 2 ^ 31 -> zlen unknown = 24 ->
  At data pos (le_enc 2 up ++ le_enc 4 (zlen short + 1) ++ short ++ [0] ++ unknown ++ tail ++ rest) ->
  file_moniker data pos =
    (let offset := pos + 31 + zlen short in
     do sz <- unpack_i32 data offset;
     let offset := offset + 4 in
     if negb (sz =? 0) then
       do xl <- unpack_i32 data offset;
       let offset := offset + 4 + 2 in
       do path <- utf16_dec (py_slice data offset (offset + xl));
       Ok (UText path, offset + xl)
     else Ok (UBytes (concat (repeat [46; 46; 92] (Z.to_nat up)) ++ short), offset)) /\
  At data (pos + 31 + zlen short) (tail ++ rest).
Proof.
  intros data pos up short unknown tail rest HU HS HK HA. pose proof (zlen_nonneg short).
  pose proof (At_skip _ _ _ _ (pos + 2) HA ltac:(rewrite zlen_le_enc; lia)) as A1.
  pose proof (At_skip _ _ _ _ (pos + 6) A1 ltac:(rewrite zlen_le_enc; lia)) as A2.
  pose proof (At_skip _ _ _ _ (pos + 6 + zlen short) A2 eq_refl) as A3.
  pose proof (At_skip _ _ _ _ (pos + 7 + zlen short) A3 ltac:(change (zlen [0]) with 1; lia)) as A4.
  pose proof (At_skip _ _ _ _ (pos + 31 + zlen short) A4 ltac:(lia)) as A5.
  split; [|exact A5]. unfold file_moniker. unfold u16v in HU.
  pose proof HA as HA'. rewrite app_assoc in HA'.
  rewrite (At_zslice_len _ _ _ _ 6 HA') by (rewrite zlen_app, !zlen_le_enc; reflexivity). cbn [guard bind].
  rewrite (At_u16 _ _ _ _ HA) by lia. rewrite (At_i32_pos _ _ _ _ A1) by lia. cbn [bind].
  rewrite (At_slice _ _ _ _ (pos + 6 + (zlen short + 1) - 1) A2) by lia.
  replace (pos + 6 + (zlen short + 1) + 24) with (pos + 31 + zlen short) by lia. rewrite repeat_app_concat. reflexivity.
Qed.

(** A hyperlink record is read back as what it was made from. *)
Lemma hlink_reads : forall p rest, hspec_ok p ->
  parse_hlink (hlink_bytes p ++ rest) =
    Ok (mk_hyperlink (p_r1 p) (p_r2 p) (p_c1 p) (p_c2 p) (Some (goal_type (p_goal p))) (goal_path (p_goal p))
          (p_desc p) (p_target p) (p_textmark p) None).
Proof.
  intros p rest (HU & HD & HT & HG & HM & HB).
  inversion HU as [|? ? U1 HU1]; subst. inversion HU1 as [|? ? U2 HU2]; subst. inversion HU2 as [|? ? U3 HU3]; subst.
  inversion HU3 as [|? ? U4 _]; subst. clear HU HU1 HU2 HU3. unfold u16v in *.
  set (d := hlink_bytes p ++ rest). assert (At d 0 (hlink_bytes p ++ rest)) as A0 by apply At_0. unfold hlink_bytes in A0.
  repeat rewrite <- app_assoc in A0.
  pose proof (At_skip _ _ _ _ 2 A0 ltac:(rewrite zlen_le_enc; lia)) as A1. pose proof (At_skip _ _ _ _ 4 A1 ltac:(rewrite zlen_le_enc; lia)) as A2.
  pose proof (At_skip _ _ _ _ 6 A2 ltac:(rewrite zlen_le_enc; lia)) as A3. pose proof (At_skip _ _ _ _ 8 A3 ltac:(rewrite zlen_le_enc; lia)) as A4.
  pose proof (At_skip _ _ _ _ 24 A4 eq_refl) as A5. pose proof (At_skip _ _ _ _ 28 A5 eq_refl) as A6.
  pose proof (At_skip _ _ _ _ 32 A6 ltac:(rewrite zlen_le_enc; lia)) as A7.
  unfold parse_hlink.
  assert (need d 32 = Ok tt) as ->.
  { pose proof (At_len _ _ _ A7) as L. match type of L with _ = _ + zlen ?l => pose proof (zlen_nonneg l) end.
    unfold need. rewrite py_slice_len, !py_bound_id by lia. reflexivity. }
  cbn [bind]. rewrite (At_u16 _ _ _ _ A0), (At_u16 _ _ _ _ A1), (At_u16 _ _ _ _ A2), (At_u16 _ _ _ _ A3) by lia. cbn [bind].
  assert (0 <= flags p < 2 ^ 31) as HF by (unfold flags; destruct (p_desc p), (p_target p), (p_goal p), (p_textmark p); cbn; lia).
  rewrite (At_i32_pos _ _ _ _ A6) by exact HF. cbn [bind].
  rewrite (At_slice _ _ _ _ 24 A4 eq_refl), (At_slice _ _ _ _ 28 A5 eq_refl).
  change (list_eqb link_class GUID0) with true. change (list_eqb [2; 0; 0; 0] [2; 0; 0; 0]) with true. cbn [guard bind].
  destruct (opt_text_reads d 32 (p_desc p) _ (Z.land (flags p) 0x14) A7 HD) as [E1 A8].
  { unfold flags. destruct (p_desc p), (p_target p), (p_goal p), (p_textmark p); reflexivity. }
  rewrite E1. cbn [bind].
  destruct (opt_text_reads d _ (p_target p) _ (Z.land (flags p) 0x80) A8 HT) as [E2 A9].
  { unfold flags. destruct (p_desc p), (p_target p), (p_goal p), (p_textmark p); reflexivity. }
  rewrite E2. cbn [bind]. clear E1 E2 A0 A1 A2 A3 A4 A5 A6 A7 A8.
  set (pos := 32 + zlen (opt_text (p_desc p)) + zlen (opt_text (p_target p))) in *.
  match goal with |- bind ?m _ = _ => assert (exists pos', m = Ok (Some (goal_type (p_goal p)), goal_path (p_goal p), pos') /\ At d pos' (opt_text (p_textmark p) ++ rest)) as (pos' & E3 & A10) end.
  { assert (negb (Z.land (flags p) 1 =? 0) && (Z.land (flags p) 0x100 =? 0) =
            match p_goal p with GUrl _ _ | GFile _ _ _ | GFileExt _ _ _ _ _ _ => true | _ => false end) as ->
      by (unfold flags; destruct (p_desc p), (p_target p), (p_goal p), (p_textmark p); reflexivity).
    destruct (p_goal p) as [url extra|up short unknown|up short unknown sz mark path|path|] eqn:EG; cbn [goal_bytes goal_type goal_path] in *.
    - rewrite <- app_assoc in A9. rewrite (At_zslice_len _ _ _ _ 16 A9) by reflexivity. cbn [guard bind].
      rewrite (At_slice _ _ _ _ (pos + 16) A9 eq_refl). change (list_eqb url_class CLSID_URL) with true. cbv iota.
      pose proof (At_skip _ _ _ _ (pos + 16) A9 eq_refl) as A11.
      destruct (url_reads _ _ _ _ _ A11 HG) as [E A12]. rewrite E. cbn [bind]. eauto.
    - rewrite <- app_assoc in A9. rewrite (At_zslice_len _ _ _ _ 16 A9) by reflexivity. cbn [guard bind].
      rewrite (At_slice _ _ _ _ (pos + 16) A9 eq_refl). change (list_eqb file_class CLSID_URL) with false.
      change (list_eqb file_class CLSID_FILE) with true. cbv iota.
      pose proof (At_skip _ _ _ _ (pos + 16) A9 eq_refl) as A11. destruct HG as (G1 & G2 & G3). repeat rewrite <- app_assoc in A11.
      destruct (file_reads _ _ _ _ _ _ _ G1 G2 G3 A11) as [E A12]. rewrite E. cbv zeta.
      rewrite (At_i32_pos _ _ _ _ A12) by lia. cbn [bind]. change (negb (0 =? 0)) with false. cbv iota. cbn [bind].
      eexists. split; [reflexivity|]. eapply At_skip; [exact A12|]. rewrite zlen_le_enc. lia.
    - rewrite <- app_assoc in A9. rewrite (At_zslice_len _ _ _ _ 16 A9) by reflexivity. cbn [guard bind].
      rewrite (At_slice _ _ _ _ (pos + 16) A9 eq_refl). change (list_eqb file_class CLSID_URL) with false.
      change (list_eqb file_class CLSID_FILE) with true. cbv iota.
      pose proof (At_skip _ _ _ _ (pos + 16) A9 eq_refl) as A11. destruct HG as (G1 & G2 & G3 & G4 & G5 & G6). repeat rewrite <- app_assoc in A11.
      destruct (file_reads _ _ _ _ _ _ _ G1 G2 G3 A11) as [E A12]. rewrite E. cbv zeta.
      rewrite (At_i32_pos _ _ _ _ A12) by lia. cbn [bind]. replace (negb (sz =? 0)) with true by lia.
      pose proof (At_skip _ _ _ _ (pos + 16 + 31 + zlen short + 4) A12 ltac:(rewrite zlen_le_enc; lia)) as A13.
      pose proof (zlen_nonneg (utf16_enc path)).
      rewrite (At_i32_pos _ _ _ _ A13) by lia. cbn [bind].
      pose proof (At_skip _ _ _ _ (pos + 16 + 31 + zlen short + 4 + 4) A13 ltac:(rewrite zlen_le_enc; lia)) as A14.
      pose proof (At_skip _ _ _ _ (pos + 16 + 31 + zlen short + 4 + 4 + 2) A14 ltac:(rewrite zlen_le_enc; lia)) as A15.
      rewrite (At_slice _ _ _ _ _ A15 eq_refl). rewrite utf16_dec_enc by exact G5. cbn [bind].
      eexists. split; [reflexivity|]. exact (At_skip _ _ _ _ _ A15 eq_refl).
    - replace (Z.land (flags p) 0x163 =? 0x103) with true
        by (unfold flags; rewrite EG; destruct (p_desc p), (p_target p), (p_textmark p); reflexivity).
      destruct (nul_text_reads _ _ _ _ A9 HG) as [E A12]. rewrite E. cbn [bind]. eauto.
    - replace (Z.land (flags p) 0x163 =? 0x103) with false
        by (unfold flags; rewrite EG; destruct (p_desc p), (p_target p), (p_textmark p); reflexivity).
      replace (Z.land (flags p) 0x16B =? 8) with true
        by (specialize (HB eq_refl); unfold flags; rewrite EG; destruct (p_desc p), (p_target p), (p_textmark p); (reflexivity || congruence)).
      eauto. }
  rewrite E3. cbn [bind].
  destruct (opt_text_reads d _ (p_textmark p) _ (Z.land (flags p) 8) A10 HM) as [E4 A11].
  { unfold flags. destruct (p_desc p), (p_target p), (p_goal p), (p_textmark p); reflexivity. }
  rewrite E4. cbn [bind]. pose proof (At_len _ _ _ A11) as L. pose proof (zlen_nonneg rest).
  replace (0 <=? zlen d - (pos' + zlen (opt_text (p_textmark p)))) with true by lia. reflexivity.
Qed.
