(** C48 and C70: the text encoding of a workbook and the name of its last user. *)
From Verif Require Import Base BaseFacts Text TextFacts Strings SheetObjects BookModel.

(** ** Specification *)

(** Codepages with an encoding of their own. *)
Definition codepage_table : list (Z * list Z) :=
  [(1200, s2l "utf_16_le"); (10000, s2l "mac_roman"); (10006, s2l "mac_greek"); (10007, s2l "mac_cyrillic");
   (10029, s2l "mac_latin2"); (10079, s2l "mac_iceland"); (10081, s2l "mac_turkish"); (32768, s2l "mac_roman");
   (32769, s2l "cp1252")].

(** The encoding of a codepage in a file of version [bv]. *)
Inductive page_encoding (bv cp : Z) : list Z -> Prop :=
| Listed : forall e, In (cp, e) codepage_table -> page_encoding bv cp e
| Windows : 300 <= cp <= 1999 -> cp <> 1200 -> page_encoding bv cp (s2l "cp" ++ fmt_d cp)
| Fallback : (forall e, ~ In (cp, e) codepage_table) -> ~ 300 <= cp <= 1999 -> 80 <= bv ->
    page_encoding bv cp (s2l "utf_16_le")
| NoSuch : (forall e, ~ In (cp, e) codepage_table) -> ~ 300 <= cp <= 1999 -> bv < 80 ->
    page_encoding bv cp (s2l "unknown_codepage_" ++ fmt_d cp).

(** Override, codepage, version: the encoding.  An empty override is none. *)
Inductive encoding_for (bv : Z) : option (list Z) -> option Z -> list Z -> Prop :=
| ByOverride : forall o cp, o <> [] -> encoding_for bv (Some o) cp o
| ByCodepage : forall o cp e, o = None \/ o = Some [] -> page_encoding bv cp e -> encoding_for bv o (Some cp) e
| ByVersion : forall o, o = None \/ o = Some [] -> bv < 80 -> encoding_for bv o None (s2l "iso-8859-1")
| ByVersion8 : forall o, o = None \/ o = Some [] -> 80 <= bv -> encoding_for bv o None (s2l "utf_16_le").

(** ** Proofs *)

Lemma page_table : forall cp,
  match encoding_from_codepage cp with
  | Some e => In (cp, e) codepage_table
  | None => forall e, ~ In (cp, e) codepage_table
  end.
Proof.
  intros cp. unfold encoding_from_codepage, codepage_table.
  repeat match goal with |- context [if ?c then _ else _] => destruct c eqn:?E end;
    try (match goal with E : (cp =? ?n) = true |- _ => apply Z.eqb_eq in E; subst cp end; cbn [In]; tauto).
  intros e H. cbn [In] in H.
  repeat (destruct H as [H|H]; [pose proof (f_equal fst H) as Hc; cbn [fst] in Hc; clear H; lia|]). exact H.
Qed.

Lemma page_table_unique : forall cp e f, In (cp, e) codepage_table -> In (cp, f) codepage_table -> e = f.
Proof.
  assert (T : forall cp e, In (cp, e) codepage_table -> encoding_from_codepage cp = Some e).
  { intros cp e H. unfold codepage_table in H. cbn [In] in H.
    repeat (destruct H as [H|H]; [pose proof (f_equal fst H) as H1; pose proof (f_equal snd H) as H2;
      cbn [fst snd] in H1, H2; subst cp e; reflexivity|]). contradiction. }
  intros cp e f H K. apply T in H, K. congruence.
Qed.

Lemma page_encoding_unique : forall bv cp e f, page_encoding bv cp e -> page_encoding bv cp f -> e = f.
Proof.
  assert (T : forall cp e, In (cp, e) codepage_table -> cp = 1200 \/ ~ 300 <= cp <= 1999).
  { intros cp e H. unfold codepage_table in H. cbn [In] in H.
    repeat (destruct H as [H|H]; [pose proof (f_equal fst H) as Hc; cbn [fst] in Hc; clear H; lia|]). contradiction. }
  intros bv cp e f H K.
  destruct H as [e H|H N|H N V|H N V]; destruct K as [f K|K M|K M W|K M W]; try reflexivity; try lia;
    try (exfalso; match goal with I : In _ _ |- _ => apply T in I end; lia).
  1: eapply page_table_unique; eassumption.
  all: exfalso; match goal with I : In _ _, J : forall _, ~ _ |- _ => exact (J _ I) end.
Qed.

Lemma encoding_for_unique : forall bv o cp e f, encoding_for bv o cp e -> encoding_for bv o cp f -> e = f.
Proof.
  intros bv o cp e f H K.
  destruct H; inversion K; subst; try reflexivity; try lia;
    try match goal with X : _ \/ _ |- _ => destruct X; congruence end.
  eapply page_encoding_unique; eassumption.
Qed.


Lemma choose_keeps : forall bv s,
  en_override (choose_encoding bv s) = en_override s /\ en_raw (choose_encoding bv s) = en_raw s /\
  en_user (choose_encoding bv s) = en_user s.
Proof.
  intros bv [ov cp enc raw user]. unfold choose_encoding. cbn [en_override en_codepage].
  destruct ov as [[|]|], cp as [c|]; try destruct (encoding_from_codepage c);
    repeat match goal with |- context [if ?c then _ else _] => destruct c end; auto.
Qed.

Lemma choose_spec : forall bv s,
  let s1 := choose_encoding bv s in
  en_override s1 = en_override s /\ en_raw s1 = en_raw s /\ en_user s1 = en_user s /\
  (exists e, encoding_for bv (en_override s) (en_codepage s) e /\
   ((en_encoding s1 = Some e /\ encoding_for bv (en_override s) (en_codepage s1) e /\ choose_encoding bv s1 = s1)
    \/ (en_encoding s1 = en_encoding s /\ 80 <= bv /\ (en_override s = None \/ en_override s = Some []) /\
        en_codepage s = None /\ en_codepage s1 = Some 1200))).
Proof.
  intros bv s. cbn zeta.
  assert (P : forall cp, exists e, page_encoding bv cp e /\
     e = match encoding_from_codepage cp with
         | Some e => e
         | None => if (300 <=? cp) && (cp <=? 1999) then s2l "cp" ++ fmt_d cp
                   else if bv >=? 80 then s2l "utf_16_le" else s2l "unknown_codepage_" ++ fmt_d cp
         end).
  { intros cp. pose proof (page_table cp) as T. destruct (encoding_from_codepage cp) as [e|] eqn:EC.
    - exists e. split; [apply Listed; exact T|reflexivity].
    - eexists. split; [|reflexivity].
      destruct ((300 <=? cp) && (cp <=? 1999)) eqn:E1.
      + apply Windows; [lia|]. intros ->. discriminate EC.
      + destruct (bv >=? 80) eqn:E2; [apply Fallback|apply NoSuch]; auto; lia. }
  destruct (choose_keeps bv s) as (K1 & K2 & K3). split; [exact K1|]. split; [exact K2|]. split; [exact K3|].
  clear K1 K2 K3. unfold choose_encoding at 1 2 3 4 5 6.
  destruct s as [ov cp enc raw user]. cbn [en_override en_codepage en_encoding en_raw en_user].
  assert (Main : ov = None \/ ov = Some [] ->
    let s1 := match cp with
      | None => if bv <? 80 then mk_encst ov cp (Some (s2l "iso-8859-1")) raw user else mk_encst ov (Some 1200) enc raw user
      | Some c => match encoding_from_codepage c with
         | Some e => mk_encst ov cp (Some e) raw user
         | None => if (300 <=? c) && (c <=? 1999) then mk_encst ov cp (Some (s2l "cp" ++ fmt_d c)) raw user
                   else if bv >=? 80 then mk_encst ov (Some 1200) (Some (s2l "utf_16_le")) raw user
                   else mk_encst ov cp (Some (s2l "unknown_codepage_" ++ fmt_d c)) raw user
         end
      end in
    exists e, encoding_for bv ov cp e /\
     ((en_encoding s1 = Some e /\ encoding_for bv ov (en_codepage s1) e /\ choose_encoding bv s1 = s1)
      \/ (en_encoding s1 = enc /\ 80 <= bv /\ (ov = None \/ ov = Some []) /\ cp = None /\ en_codepage s1 = Some 1200))).
  { intros O. cbn zeta.
    assert (CE : forall c en, choose_encoding bv (mk_encst ov c en raw user) =
      match c with
      | None => if bv <? 80 then mk_encst ov c (Some (s2l "iso-8859-1")) raw user else mk_encst ov (Some 1200) en raw user
      | Some p => match encoding_from_codepage p with
         | Some e => mk_encst ov c (Some e) raw user
         | None => if (300 <=? p) && (p <=? 1999) then mk_encst ov c (Some (s2l "cp" ++ fmt_d p)) raw user
                   else if bv >=? 80 then mk_encst ov (Some 1200) (Some (s2l "utf_16_le")) raw user
                   else mk_encst ov c (Some (s2l "unknown_codepage_" ++ fmt_d p)) raw user
         end
      end).
    { intros c en. destruct O as [-> | ->]; reflexivity. }
    destruct cp as [c|].
    - destruct (P c) as (e & PE & EE). pose proof PE as PE0.
      destruct (encoding_from_codepage c) as [e'|] eqn:EC.
      + exists e. split; [apply ByCodepage; assumption|]. left. subst e'. cbn [en_encoding en_codepage].
        split; [reflexivity|]. split; [apply ByCodepage; assumption|]. rewrite CE, EC. reflexivity.
      + exists e. split; [apply ByCodepage; assumption|]. left. rewrite EE in PE |- *. clear EE PE0.
        destruct ((300 <=? c) && (c <=? 1999)) eqn:E1; [|destruct (bv >=? 80) eqn:E2]; cbn [en_encoding en_codepage].
        * split; [reflexivity|]. split; [apply ByCodepage; assumption|]. rewrite CE, EC, ?E1. reflexivity.
        * split; [reflexivity|]. split; [|rewrite CE; reflexivity].
          apply ByCodepage; [assumption|]. apply Listed. left. reflexivity.
        * split; [reflexivity|]. split; [apply ByCodepage; assumption|]. rewrite CE, EC, ?E1, ?E2. reflexivity.
    - destruct (bv <? 80) eqn:E1; cbn [en_encoding en_codepage].
      + eexists. split; [apply ByVersion; [assumption|lia]|]. left.
        split; [reflexivity|]. split; [apply ByVersion; [assumption|lia]|]. rewrite CE, ?E1. reflexivity.
      + eexists. split; [apply ByVersion8; [assumption|lia]|]. right. repeat split; auto. lia. }
  destruct ov as [[|x r]|].
  - specialize (Main (or_intror eq_refl)). exact Main.
  - exists (x :: r). split; [apply ByOverride; discriminate|]. left. cbn [en_encoding en_codepage].
    split; [reflexivity|]. split; [apply ByOverride; discriminate|]. reflexivity.
  - specialize (Main (or_introl eq_refl)). exact Main.
Qed.

Lemma encoding_total : forall bv o cp, exists e, encoding_for bv o cp e.
Proof.
  intros bv o cp. destruct (choose_spec bv (mk_encst o cp None false [])) as (_ & _ & _ & e & E & _). exists e. exact E.
Qed.

(** The one case in which a call leaves the encoding as it was. *)
Definition first_call8 (bv : Z) (s : encst) : Prop :=
  80 <= bv /\ (en_override s = None \/ en_override s = Some []) /\ en_codepage s = None.

Section Enc.
Variable codec : list Z -> list Z -> result (list Z).

Lemma derive_ok : forall bv s s1, derive_encoding codec bv s = Ok s1 ->
  exists u, s1 = with_user (choose_encoding bv s) false u /\ (en_raw s = false -> u = en_user s).
Proof.
  intros bv s s1. unfold derive_encoding. destruct (choose_keeps bv s) as (K1 & K2 & K3).
  set (c := choose_encoding bv s) in *. clearbody c. intros H. apply bind_ok in H as (t & _ & H).
  destruct (en_raw c) eqn:ER.
  - apply bind_ok in H as (u & _ & H). injection H as <-. exists (rstrip str_space u). split; [reflexivity|congruence].
  - injection H as <-. exists (en_user c). split; [|auto]. destruct c; cbn in *; subst; reflexivity.
Qed.

Lemma choose_with_user : forall bv s raw u,
  choose_encoding bv (with_user s raw u) = with_user (choose_encoding bv s) raw u.
Proof.
  intros bv [ov cp enc r us] raw u. unfold choose_encoding, with_user. cbn [en_override en_codepage en_encoding en_raw en_user].
  destruct ov as [[|]|], cp as [c|]; try destruct (encoding_from_codepage c);
    repeat match goal with |- context [if ?c then _ else _] => destruct c end; reflexivity.
Qed.

Lemma derive_again : forall bv s s1, derive_encoding codec bv s = Ok s1 -> ~ first_call8 bv s ->
  derive_encoding codec bv s1 = Ok s1.
Proof.
  intros bv s s1 H F. destruct (derive_ok _ _ _ H) as (u & -> & _).
  destruct (choose_spec bv s) as (K1 & K2 & K3 & e & _ & [(_ & _ & St)|(_ & A & B & C & _)]);
    [|exfalso; apply F; repeat split; assumption].
  unfold derive_encoding in *. rewrite choose_with_user, St.
  cbn [with_user en_codepage en_encoding en_raw].
  apply bind_ok in H as (t & -> & _). rewrite bind_Ok. reflexivity.
Qed.
End Enc.

(** Each override, codepage and version has exactly one encoding. *)
Theorem c48_one_encoding : forall bv override codepage,
  exists e, encoding_for bv override codepage e /\ forall f, encoding_for bv override codepage f -> f = e.
Proof.
  intros bv o cp. destruct (encoding_total bv o cp) as [e E]. exists e. split; [exact E|].
  intros f F. eapply encoding_for_unique; eassumption.
Qed.
Print Assumptions c48_one_encoding.

(** derive_encoding sets it, unless this is the first call for a BIFF8 file without
    codepage and override; and then repeating the call changes nothing. *)
Theorem c48_encoding : forall codec bv s s1 e,
  derive_encoding codec bv s = Ok s1 ->
  (bv < 80 \/ en_codepage s <> None \/ exists c o, en_override s = Some (c :: o)) ->
  encoding_for bv (en_override s) (en_codepage s) e ->
  en_encoding s1 = Some e /\ derive_encoding codec bv s1 = Ok s1.
Proof.
  intros codec bv s s1 e H C E.
  assert (F : ~ first_call8 bv s).
  { intros (A & B & D). destruct C as [C|[C|(c & o & C)]]; [lia|congruence|]. destruct B; congruence. }
  split; [|exact (derive_again _ _ _ _ H F)].
  destruct (derive_ok _ _ _ _ H) as (u & -> & _).
  destruct (choose_spec bv s) as (_ & _ & _ & f & EF & [(Q & _)|(_ & A & B & D & _)]);
    [|exfalso; apply F; repeat split; assumption].
  cbn [with_user en_encoding]. rewrite Q. f_equal. eapply encoding_for_unique; eassumption.
Qed.
Print Assumptions c48_encoding.

(** In that case the second call sets the encoding, and from then on nothing changes:
    two calls always settle it. *)
Theorem c48_settles : forall codec bv s s1 e,
  derive_encoding codec bv s = Ok s1 -> encoding_for bv (en_override s) (en_codepage s) e ->
  exists s2, derive_encoding codec bv s1 = Ok s2 /\ en_encoding s2 = Some e /\ derive_encoding codec bv s2 = Ok s2.
Proof.
  intros codec bv s s1 e H E.
  destruct (choose_spec bv s) as (K1 & K2 & K3 & f & EF & C).
  assert (f = e) as -> by (eapply encoding_for_unique; eassumption).
  destruct C as [(Q & _ & St)|(Q & A & B & D & G)].
  - exists s1. destruct (derive_ok _ _ _ _ H) as (u & -> & _).
    assert (R : derive_encoding codec bv (with_user (choose_encoding bv s) false u) = Ok (with_user (choose_encoding bv s) false u)).
    { unfold derive_encoding in *. rewrite choose_with_user, St. cbn [with_user en_codepage en_encoding en_raw].
      apply bind_ok in H as (t & -> & _). rewrite bind_Ok. reflexivity. }
    repeat split; [exact R|exact Q|exact R].
  - destruct (derive_ok _ _ _ _ H) as (u & -> & _).
    assert (X : e = s2l "utf_16_le").
    { rewrite D in E. destruct B as [B|B]; rewrite B in E; inversion E; subst; try reflexivity; try lia; congruence. }
    clear H EF E. set (c := choose_encoding bv s) in *. clearbody c. destruct c as [ov cp en rw us].
    cbn [en_override en_codepage en_encoding en_raw en_user] in *. rewrite <- K1 in B. subst cp e.
    exists (mk_encst ov (Some 1200) (Some (s2l "utf_16_le")) false u).
    destruct B as [-> | ->]; repeat split; reflexivity.
Qed.
Print Assumptions c48_settles.

(** "Repeating it does not change the outcome" fails for the first call: a BIFF8 file
    without CODEPAGE record is left without encoding. *)
Theorem c48_repeat_refuted : exists bv s s1 s2, forall codec,
  derive_encoding codec bv s = Ok s1 /\ derive_encoding codec bv s1 = Ok s2 /\
  en_encoding s1 = None /\ en_encoding s2 = Some (s2l "utf_16_le").
Proof.
  exists 80, (mk_encst None None None false []), (mk_encst None (Some 1200) None false []),
    (mk_encst None (Some 1200) (Some (s2l "utf_16_le")) false []).
  intros codec. repeat split; reflexivity.
Qed.
Print Assumptions c48_repeat_refuted.

(** An encoding that cannot decode the five letters "trial" is reported at once, with
    the error of the codec. *)
Theorem c48_unusable : forall codec bv s e x,
  bv < 80 -> en_codepage s <> Some 1200 -> en_raw s = false ->
  encoding_for bv (en_override s) (en_codepage s) e ->
  (derive_encoding codec bv s = Err x <-> codec e (s2l "trial") = Err x).
Proof.
  intros codec bv s e x V N R E. unfold derive_encoding.
  destruct (choose_spec bv s) as (K1 & K2 & K3 & f & EF & [(Q & _)|(_ & A & _)]); [|lia].
  assert (f = e) as -> by (eapply encoding_for_unique; eassumption).
  assert (CP : en_codepage (choose_encoding bv s) = en_codepage s).
  { clear - V. destruct s as [ov cp enc raw user]. unfold choose_encoding. cbn [en_override en_codepage].
    replace (bv <? 80) with true by lia. replace (bv >=? 80) with false by lia.
    destruct ov as [[|]|], cp as [c|]; try destruct (encoding_from_codepage c);
      repeat match goal with |- context [if ?c then _ else _] => destruct c end; reflexivity. }
  rewrite CP, K2, R, Q. cbn [unicode].
  replace (match en_codepage s with Some cp => cp =? 1200 | None => false end) with false.
  - destruct (codec e (s2l "trial")); cbn [bind]; split; congruence.
  - destruct (en_codepage s) as [cp|]; [|reflexivity]. assert (cp <> 1200) by congruence. lia.
Qed.
Print Assumptions c48_unusable.

Example c48_instance :
  encoding_for 70 None (Some 1251) (s2l "cp1251") /\ encoding_for 70 (Some (s2l "koi8_r")) (Some 1251) (s2l "koi8_r")
  /\ encoding_for 80 None (Some 5) (s2l "utf_16_le") /\ encoding_for 50 None (Some 32768) (s2l "mac_roman").
Proof.
  split; [apply ByCodepage; [left; reflexivity|apply (Windows 70 1251); lia]|].
  split; [apply ByOverride; discriminate|].
  split; apply ByCodepage; try (left; reflexivity).
  - apply Fallback; [|lia|lia]. intros e H. pose proof (page_table 5) as T. cbn in T. exact (T e H).
  - apply Listed. cbn [In codepage_table]. tauto.
Qed.

(** ** C70: the user name *)

(** In files before BIFF8 the user name is text in the codepage of the file.  With no
    encoding known yet, it comes out the same whether the CODEPAGE record follows or
    precedes it; so do the errors. *)
Theorem c70_user_name_order : forall codec bv s user page,
  bv < 80 -> truthy (en_encoding s) = false -> en_raw s = false ->
  (do s1 <- handle_writeaccess codec bv s user; handle_codepage codec bv s1 page)
  = (do s1 <- handle_codepage codec bv s page; handle_writeaccess codec bv s1 user).
Proof.
  intros codec bv s user page V T R. unfold handle_writeaccess at 1. replace (bv <? 80) with true by lia.
  rewrite T. cbn [negb]. rewrite bind_Ok. unfold handle_codepage.
  destruct (unpack_u16 page 0) as [cp|x]; [rewrite !bind_Ok|reflexivity].
  change (with_codepage (with_user s true user) cp) with (with_user (with_codepage s cp) true user).
  set (q := with_codepage s cp). assert (Q : en_codepage q = Some cp) by reflexivity.
  assert (RQ : en_raw q = false) by exact R. clearbody q. clear T R s.
  unfold derive_encoding. rewrite choose_with_user.
  destruct (choose_spec bv q) as (K1 & K2 & K3 & e & EF & [(E & _)|(_ & A & _)]); [|lia].
  set (c := choose_encoding bv q) in *. clearbody c.
  cbn [with_user en_codepage en_encoding en_raw en_user].
  rewrite K2, RQ.
  destruct (if match en_codepage c with Some cp0 => cp0 =? 1200 | None => false end then Ok [] else _) as [t|x];
    [rewrite !bind_Ok|reflexivity].
  unfold handle_writeaccess. replace (bv <? 80) with true by lia. rewrite E.
  assert (NE : truthy (Some e) = true).
  { clear - EF Q V. rewrite Q in EF. inversion EF; subst; clear EF.
    - destruct e; [congruence|reflexivity].
    - match goal with H : page_encoding _ _ _ |- _ => inversion H; subst; try reflexivity end.
      match goal with H : In _ _ |- _ => cbn [codepage_table In] in H;
        repeat (destruct H as [H|H]; [pose proof (f_equal snd H) as HE; cbn [snd] in HE; rewrite <- HE; reflexivity|]); contradiction end. }
  rewrite NE. cbn [negb]. rewrite K2, RQ.
  destruct (unpack_string (unicode codec (Some e)) user 0 1); [rewrite !bind_Ok|]; reflexivity.
Qed.
Print Assumptions c70_user_name_order.

(** It is not enough that a CODEPAGE record exists: once something else has asked for
    an encoding (a FONT record with formatting_info, a BOUNDSHEET record), a user name
    before the CODEPAGE record is decoded as iso-8859-1. *)
Theorem c70_early_derivation_refuted : exists codec bv s user page s1 s2,
  derive_encoding codec bv s = Ok s1 /\
  (do t <- handle_writeaccess codec bv s1 user; handle_codepage codec bv t page) = Ok s2 /\
  (do t <- handle_writeaccess codec bv s user; handle_codepage codec bv t page)
  <> Ok s2 /\
  en_user s2 = [0xC6] /\
  (exists s3, (do t <- handle_writeaccess codec bv s user; handle_codepage codec bv t page) = Ok s3 /\ en_user s3 = [0x416]).
Proof.
  exists (fun e b => if list_eqb e (s2l "cp1251") then Ok (map (fun c => if c =? 0xC6 then 0x416 else c) b) else Ok b),
    70, (mk_encst None None None false []), [1; 0xC6], (le_enc 2 1251),
    (mk_encst None None (Some (s2l "iso-8859-1")) false []), (mk_encst None (Some 1251) (Some (s2l "cp1251")) false [0xC6]).
  repeat split; try reflexivity; [cbv; discriminate|]. eexists. split; reflexivity.
Qed.
Print Assumptions c70_early_derivation_refuted.

(** The two orders on a file without encoding: a Cyrillic letter in codepage 1251. *)
Example c70_instance : forall codec,
  (forall b, codec (s2l "cp1251") b = Ok (map (fun c => if c =? 0xC6 then 0x416 else c) b)) ->
  (do s1 <- handle_writeaccess codec 70 (mk_encst None None None false []) [3; 0xC6; 32; 32];
   handle_codepage codec 70 s1 (le_enc 2 1251))
  = Ok (mk_encst None (Some 1251) (Some (s2l "cp1251")) false [0x416]).
Proof.
  intros codec C.
  assert (T : codec (s2l "cp1251") (s2l "trial") = Ok (s2l "trial")) by (rewrite C; reflexivity).
  assert (U : codec (s2l "cp1251") [0xC6; 32; 32] = Ok [0x416; 32; 32]) by (rewrite C; reflexivity).
  clear C. vm_compute in T, U |- *. rewrite T. cbn. rewrite U. reflexivity.
Qed.
