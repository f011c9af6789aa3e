(** Facts about the string readers and record framing. *)
From Verif Require Import Base BaseFacts Utf16 Strings Framing.

Lemma units_of_range : forall c, scalar c -> Forall (fun u => 0 <= u < 65536) (units_of c).
Proof.
  intros c H. unfold units_of, scalar in *. destruct (c <? 65536) eqn:E;
    repeat constructor; lia.
Qed.

Lemma utf16_dec_app : forall s r, text s ->
  utf16_dec (utf16_enc s ++ r) = do t <- utf16_dec r; Ok (s ++ t).
Proof.
  induction s as [|c s IH]; intros r H.
  - cbn. destruct (utf16_dec r); reflexivity.
  - inversion H; subst. specialize (IH r H3). unfold utf16_enc, utf16_units, units_bytes in *.
    cbn [flat_map]. rewrite flat_map_app, <- app_assoc.
    set (tl := flat_map (le_enc 2) (flat_map units_of s) ++ r) in *.
    unfold units_of. destruct (c <? 65536) eqn:E.
    + cbn [flat_map le_enc app utf16_dec].
      replace (c mod 256 + 256 * ((c / 256) mod 256)) with c by (unfold scalar in H2; lia).
      replace ((c <? 55296) || (57344 <=? c)) with true by (unfold scalar in H2; lia).
      rewrite IH. destruct (utf16_dec r); reflexivity.
    + cbn [flat_map app]. set (hi := 55296 + (c - 65536) / 1024). set (lo := 56320 + (c - 65536) mod 1024).
      assert (55296 <= hi < 56320) as Hh by (subst hi; unfold scalar in H2; lia).
      assert (56320 <= lo < 57344) as Hl by (subst lo; lia).
      cbn [flat_map le_enc app utf16_dec].
      replace (hi mod 256 + 256 * ((hi / 256) mod 256)) with hi by lia.
      replace (lo mod 256 + 256 * ((lo / 256) mod 256)) with lo by lia.
      replace ((hi <? 55296) || (57344 <=? hi)) with false by lia.
      replace (56320 <=? hi) with false by lia.
      replace ((56320 <=? lo) && (lo <? 57344)) with true by lia.
      replace (65536 + (hi - 55296) * 1024 + (lo - 56320)) with c by (subst hi lo; lia).
      rewrite IH. destruct (utf16_dec r); reflexivity.
Qed.

Lemma utf16_dec_enc : forall s, text s -> utf16_dec (utf16_enc s) = Ok s.
Proof.
  intros s H. rewrite <- (app_nil_r (utf16_enc s)), utf16_dec_app by exact H. cbn. rewrite app_nil_r. reflexivity.
Qed.

Lemma zlen_units_bytes : forall us, zlen (units_bytes us) = 2 * zlen us.
Proof.
  induction us as [|u us IH]; [reflexivity|]. unfold units_bytes in *. cbn [flat_map].
  rewrite zlen_app, zlen_cons, IH, zlen_le_enc. lia.
Qed.

Lemma zlen_utf16_enc : forall s, zlen (utf16_enc s) = 2 * zlen (utf16_units s).
Proof. intros; apply zlen_units_bytes. Qed.

Lemma utf16_units_app : forall a b, utf16_units (a ++ b) = utf16_units a ++ utf16_units b.
Proof. intros; apply flat_map_app. Qed.

Lemma units_narrow : forall s, Forall (fun c => 0 <= c < 256) s -> utf16_units s = s.
Proof.
  induction s as [|c s IH]; intros H; [reflexivity|]. inversion H; subst.
  unfold utf16_units in *. cbn [flat_map]. rewrite IH by assumption.
  unfold units_of. destruct (c <? 65536) eqn:E; [reflexivity|lia].
Qed.

Lemma zlen_nonzero_app : forall {A} (a b : list A), 0 < zlen a -> zlen (a ++ b) =? 0 = false.
Proof. intros. rewrite zlen_app. pose proof (zlen_nonneg b). lia. Qed.

(** ** Framing *)

Lemma zlen_frame : forall r, zlen (frame r) = 4 + zlen (snd r).
Proof. intros [c d]. unfold frame. rewrite !zlen_app, !zlen_le_enc. cbn [fst snd]. lia. Qed.

Lemma frame_head : forall p r t, framable r ->
  zlen (py_slice (p ++ frame r ++ t) (zlen p) (zlen p + 4)) = 4 /\
  unpack_u16 (p ++ frame r ++ t) (zlen p) = Ok (fst r) /\
  unpack_u16 (p ++ frame r ++ t) (zlen p + 2) = Ok (zlen (snd r)) /\
  py_slice (p ++ frame r ++ t) (zlen p + 4) (zlen p + 4 + zlen (snd r)) = snd r.
Proof.
  intros p [c d] t [Hc Hd]. cbn [fst snd] in *. unfold frame. cbn [fst snd].
  pose proof (zlen_nonneg d).
  split; [|split; [|split]].
  - replace (p ++ (le_enc 2 c ++ le_enc 2 (zlen d) ++ d) ++ t)
      with (p ++ (le_enc 2 c ++ le_enc 2 (zlen d)) ++ d ++ t) by (rewrite <- !app_assoc; reflexivity).
    rewrite py_slice_mid; [|reflexivity|]; rewrite zlen_app, !zlen_le_enc; reflexivity.
  - unfold unpack_u16. rewrite <- !app_assoc. apply unpack_le_enc; [reflexivity|reflexivity|]. cbn. lia.
  - unfold unpack_u16.
    replace (p ++ (le_enc 2 c ++ le_enc 2 (zlen d) ++ d) ++ t)
      with ((p ++ le_enc 2 c) ++ le_enc 2 (zlen d) ++ (d ++ t)) by (rewrite <- !app_assoc; reflexivity).
    apply unpack_le_enc; [rewrite zlen_app, zlen_le_enc; reflexivity|reflexivity|]. cbn. lia.
  - replace (p ++ (le_enc 2 c ++ le_enc 2 (zlen d) ++ d) ++ t)
      with ((p ++ le_enc 2 c ++ le_enc 2 (zlen d)) ++ d ++ t) by (rewrite <- !app_assoc; reflexivity).
    apply py_slice_mid; rewrite !zlen_app, !zlen_le_enc; lia.
Qed.

Lemma get_record_parts_frame : forall p r t pos, framable r -> pos = zlen p ->
  get_record_parts (p ++ frame r ++ t) pos = Ok ((fst r, zlen (snd r), snd r), zlen (p ++ frame r)).
Proof.
  intros p r t pos Hr ->. destruct (frame_head p r t Hr) as (H1 & H2 & H3 & H4).
  unfold get_record_parts. rewrite H1. cbn [Z.eqb Pos.eqb negb]. rewrite H2, H3. cbn [bind]. rewrite H4.
  rewrite zlen_app, zlen_frame. do 2 f_equal. lia.
Qed.

Lemma get_record_parts_conditional_frame : forall p r t pos reqd, framable r -> pos = zlen p ->
  get_record_parts_conditional (p ++ frame r ++ t) pos reqd =
    if fst r =? reqd then Ok (Some (fst r, zlen (snd r), snd r), zlen (p ++ frame r)) else Ok (None, pos).
Proof.
  intros p r t pos reqd Hr ->. destruct (frame_head p r t Hr) as (H1 & H2 & H3 & H4).
  unfold get_record_parts_conditional. rewrite H1. cbn [Z.eqb Pos.eqb negb]. rewrite H2, H3. cbn [bind]. rewrite H4.
  destruct (fst r =? reqd); cbn [negb]; [|reflexivity].
  rewrite zlen_app, zlen_frame. do 2 f_equal. lia.
Qed.

Lemma frames_app : forall a b, frames (a ++ b) = frames a ++ frames b.
Proof. intros; apply flat_map_app. Qed.

Lemma nofuel_utf16_dec : forall b, nofuel (utf16_dec b).
Proof.
  fix D 1. intros [|b0 [|b1 r]]; cbn [utf16_dec]; try discriminate.
  destruct (_ || _).
  - apply nofuel_bind; [apply D|]. intros; apply nofuel_ok.
  - destruct (56320 <=? _); [discriminate|]. destruct r as [|b2 [|b3 r']]; try discriminate.
    destruct (_ && _); [|discriminate]. apply nofuel_bind; [apply D|]. intros; apply nofuel_ok.
Qed.
#[export] Hint Resolve nofuel_utf16_dec : nofuel.
