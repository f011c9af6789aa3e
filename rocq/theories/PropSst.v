(** Property theorems C16, C17, C18: the shared string table. *)
From Verif Require Import Base BaseFacts Utf16 Strings Framing StringFacts SstModel.

(** ** Specification: how a writer may lay out the shared strings *)

(** A layout is a sequence of byte blocks and record boundaries. *)
Inductive elem : Type := Bytes (l : list Z) | Brk.

(** The first record body and the bodies after it. *)
Fixpoint bodies (es : list elem) : list Z * list (list Z) :=
  match es with
  | [] => ([], [])
  | Bytes l :: r => (l ++ fst (bodies r), snd (bodies r))
  | Brk :: r => ([], fst (bodies r) :: snd (bodies r))
  end.

(** One stored string.  Its characters are stored in one segment per record
    touched; every segment has an option byte (the first one in the header)
    whose lowest bit tells 2-byte from 1-byte storage.  A run may be preceded
    by a record boundary.  The phonetic block may contain one boundary. *)
Record sst_string : Type := {
  ss_opts : Z;
  ss_first : list Z;                          (* raw bytes of the first segment *)
  ss_more : list (Z * list Z);                (* option byte and raw bytes of the others *)
  ss_runs : list (bool * (Z * Z));
  ss_phon : list Z * option (list Z);
}.

Definition wideb (opts : Z) : bool := Z.testbit opts 0.
Definition seg_units (s : Z * list Z) : Z := if wideb (fst s) then zlen (snd s) / 2 else zlen (snd s).
Fixpoint total (l : list (Z * list Z)) : Z :=
  match l with [] => 0 | s :: r => seg_units s + total r end.
Definition ss_segs (s : sst_string) : list (Z * list Z) := (ss_opts s, ss_first s) :: ss_more s.
Definition ss_nchars (s : sst_string) : Z := total (ss_segs s).
Definition phon_size (s : sst_string) : Z :=
  zlen (fst (ss_phon s)) + match snd (ss_phon s) with Some p => zlen p | None => 0 end.

Definition enc_more (l : list (Z * list Z)) : list elem :=
  flat_map (fun s : Z * list Z => [Brk; Bytes [fst s]; Bytes (snd s)]) l.
Definition enc_runs (l : list (bool * (Z * Z))) : list elem :=
  flat_map (fun r : bool * (Z * Z) => (if fst r then [Brk] else []) ++ [Bytes (le_enc 2 (fst (snd r)) ++ le_enc 2 (snd (snd r)))]) l.
Definition enc_phon (p : list Z * option (list Z)) : list elem :=
  Bytes (fst p) :: match snd p with Some q => [Brk; Bytes q] | None => [] end.

Definition ss_header (s : sst_string) : list Z :=
  le_enc 2 (ss_nchars s) ++ [ss_opts s] ++
  (if Z.testbit (ss_opts s) 3 then le_enc 2 (zlen (ss_runs s)) else []) ++
  (if Z.testbit (ss_opts s) 2 then le_enc 4 (phon_size s) else []).

Definition enc_string (s : sst_string) : list elem :=
  Bytes (ss_header s) :: Bytes (ss_first s) :: enc_more (ss_more s) ++ enc_runs (ss_runs s) ++ enc_phon (ss_phon s).

(** Strings in order, each with a mark telling whether a boundary follows it;
    anything may follow the last one. *)
Fixpoint enc_all (l : list (sst_string * bool)) (tl : list elem) : list elem :=
  match l with
  | [] => tl
  | (s, b) :: r => enc_string s ++ (if b then [Brk] else []) ++ enc_all r tl
  end.

(** Every continuation segment is there for a reason: characters are still missing. *)
Fixpoint live (l : list (Z * list Z)) : Prop :=
  match l with [] => True | s :: r => 0 < total (s :: r) /\ live r end.

(** Format rules that do not concern the text itself. *)
Definition ss_form (s : sst_string) : Prop :=
  live (ss_more s) /\ ss_nchars s < 65536 /\
  Forall (fun g => wideb (fst g) = true -> exists k, zlen (snd g) = 2 * k) (ss_segs s) /\
  zlen (ss_runs s) < 65536 /\
  Forall (fun r => 0 <= fst (snd r) < 65536 /\ 0 <= snd (snd r) < 65536) (ss_runs s) /\
  (Z.testbit (ss_opts s) 3 = false -> ss_runs s = []) /\
  phon_size s < 2 ^ 31 /\
  (Z.testbit (ss_opts s) 2 = false -> ss_phon s = ([], None)).

(** A phonetic block that crosses a boundary must not end right at the next one. *)
Fixpoint seps_ok (l : list (sst_string * bool)) : Prop :=
  match l with
  | [] => True
  | (s, b) :: r => (r <> [] -> snd (ss_phon s) <> None -> b = false) /\ seps_ok r
  end.

(** The segments hold the texts [ts]: no character is divided between segments. *)
Definition seg_holds (g : Z * list Z) (t : list Z) : Prop :=
  if wideb (fst g) then text t /\ snd g = utf16_enc t
  else Forall (fun c => 0 <= c < 256) t /\ snd g = t.
Definition ss_holds (s : sst_string) (t : list Z) : Prop :=
  exists ts, Forall2 seg_holds (ss_segs s) ts /\ concat ts = t.

(** The run lists by string number, for strings that have runs. *)
Fixpoint runs_from (i : Z) (l : list sst_string) : list (Z * list (Z * Z)) :=
  match l with
  | [] => []
  | s :: r => (match ss_runs s with [] => [] | _ => [(i, map snd (ss_runs s))] end) ++ runs_from (i + 1) r
  end.

(** ** Proofs *)

Definition Here (data : list Z) (pos : Z) (rest : list (list Z)) (es : list elem) : Prop :=
  At data pos (fst (bodies es)) /\ rest = snd (bodies es).

Lemma Here_skip : forall data pos rest l es pos', Here data pos rest (Bytes l :: es) -> pos' = pos + zlen l ->
  Here data pos' rest es.
Proof. intros data pos rest l es pos' [H1 H2] E. split; [|exact H2]. eapply At_skip; [exact H1|exact E]. Qed.

Lemma Here_brk : forall data pos rest es, Here data pos rest (Brk :: es) ->
  pos = zlen data /\ exists d r, rest = d :: r /\ Here d 0 r es.
Proof.
  intros data pos rest es [H1 H2]. cbn [bodies fst snd] in *. split.
  - apply At_len in H1. rewrite zlen_nil in H1. lia.
  - exists (fst (bodies es)), (snd (bodies es)). split; [exact H2|]. split; [apply At_0|reflexivity].
Qed.

Lemma seg_units_nonneg : forall s, 0 <= seg_units s.
Proof. intros s. unfold seg_units. pose proof (zlen_nonneg (snd s)). destruct (wideb (fst s)); lia. Qed.

Lemma total_nonneg : forall l, 0 <= total l.
Proof. induction l as [|s l IH]; cbn; [lia|]. pose proof (seg_units_nonneg s). lia. Qed.

Definition dec_seg (g : Z * list Z) : result (list Z) :=
  if wideb (fst g) then utf16_dec (snd g) else Ok (snd g).

Fixpoint dec_all (l : list (Z * list Z)) : result (list Z) :=
  match l with
  | [] => Ok []
  | g :: r => do a <- dec_seg g; do b <- dec_all r; Ok (a ++ b)
  end.

Lemma sst_chars_spec : forall more data pos rest opts raw es nchars got acc,
  Here data pos rest (Bytes raw :: enc_more more ++ es) ->
  Forall (fun g => wideb (fst g) = true -> exists k, zlen (snd g) = 2 * k) ((opts, raw) :: more) ->
  live more -> got + total ((opts, raw) :: more) = nchars ->
  match dec_all ((opts, raw) :: more) with
  | Ok t => exists data' pos' rest', sst_chars rest data pos opts nchars got acc = Ok (acc ++ t, data', pos', rest')
              /\ Here data' pos' rest' es
  | Err e => sst_chars rest data pos opts nchars got acc = Err e
  end.
Proof.
  induction more as [|[o2 raw2] more IH]; intros data pos rest opts raw es nchars got acc HH HW HL HN.
  - cbn [enc_more flat_map app] in HH. cbn [total] in HN.
    inversion HW as [|g gs Hw _]; subst g gs. cbn [fst snd] in Hw.
    pose proof HH as [HA HR]. cbn [bodies fst snd] in HA, HR.
    pose proof (At_len _ _ _ HA) as HLen. rewrite zlen_app in HLen.
    pose proof (zlen_nonneg (fst (bodies es))) as Hnn.
    pose proof (Here_skip _ _ _ _ _ (pos + zlen raw) HH eq_refl) as HH2.
    unfold seg_units in HN. cbn [fst snd] in HN.
    cbn [dec_all]. unfold dec_seg. cbn [fst snd].
    assert (forall r, (do a <- r; do b <- Ok (@nil Z); Ok (a ++ b)) = r) as Hr.
    { intros [a|e]; cbn [bind]; [rewrite app_nil_r|]; reflexivity. }
    rewrite Hr.
    destruct rest as [|d rest]; cbn [sst_chars]; fold (wideb opts); destruct (wideb opts).
    + destruct (Hw eq_refl) as [k Hk]. rewrite Z.shiftr_div_pow2 by lia. change (2 ^ 1) with 2.
      replace (Z.min ((zlen data - pos) / 2) (nchars - got)) with k by lia.
      rewrite (At_slice _ _ _ _ _ HA) by lia. destruct (utf16_dec raw) as [t|e]; cbn [bind]; [|reflexivity].
      replace (got + k =? nchars) with true by lia.
      do 3 eexists. split; [reflexivity|]. replace (pos + 2 * k) with (pos + zlen raw) by lia. exact HH2.
    + replace (Z.min (zlen data - pos) (nchars - got)) with (zlen raw) by lia.
      rewrite (At_slice _ _ _ _ _ HA) by lia. cbn [bind].
      replace (got + zlen raw =? nchars) with true by lia.
      do 3 eexists. split; [reflexivity|]. exact HH2.
    + destruct (Hw eq_refl) as [k Hk]. rewrite Z.shiftr_div_pow2 by lia. change (2 ^ 1) with 2.
      replace (Z.min ((zlen data - pos) / 2) (nchars - got)) with k by lia.
      rewrite (At_slice _ _ _ _ _ HA) by lia. destruct (utf16_dec raw) as [t|e]; cbn [bind]; [|reflexivity].
      replace (got + k =? nchars) with true by lia.
      do 3 eexists. split; [reflexivity|]. replace (pos + 2 * k) with (pos + zlen raw) by lia. exact HH2.
    + replace (Z.min (zlen data - pos) (nchars - got)) with (zlen raw) by lia.
      rewrite (At_slice _ _ _ _ _ HA) by lia. cbn [bind].
      replace (got + zlen raw =? nchars) with true by lia.
      do 3 eexists. split; [reflexivity|]. exact HH2.
  - inversion HW as [|g gs Hw HW2]; subst g gs. cbn [fst snd] in Hw.
    destruct HL as [HL1 HL2].
    cbn [enc_more flat_map] in HH. fold (enc_more more) in HH. rewrite <- !app_assoc in HH.
    cbn [fst snd app] in HH.
    pose proof HH as [HA HR]. cbn [bodies fst snd] in HA, HR. rewrite app_nil_r in HA.
    pose proof (At_len _ _ _ HA) as HLen.
    pose proof (Here_skip _ _ _ _ _ (pos + zlen raw) HH eq_refl) as HH2.
    apply Here_brk in HH2 as (Hpos & d & r & -> & HH2).
    assert (py_index d 0 = Ok o2) as Ho.
    { destruct HH2 as [HA2 _]. cbn [bodies fst app] in HA2. apply (At_index _ _ _ _ HA2). }
    pose proof (Here_skip _ _ _ _ _ 1 HH2 eq_refl) as HH3.
    change (total ((opts, raw) :: (o2, raw2) :: more)) with (seg_units (opts, raw) + total ((o2, raw2) :: more)) in HN.
    specialize (IH d 1 r o2 raw2 es nchars (got + seg_units (opts, raw))).
    rewrite <- (app_nil_r raw) in HA.
    change (dec_all ((opts, raw) :: (o2, raw2) :: more)) with
      (do a <- dec_seg (opts, raw); do b <- dec_all ((o2, raw2) :: more); Ok (a ++ b)).
    cbn [sst_chars]. fold (wideb opts). unfold dec_seg at 1.
    assert (seg_units (opts, raw) = if wideb opts then zlen raw / 2 else zlen raw) as Hu by reflexivity.
    cbn [fst snd] in *.
    remember ((o2, raw2) :: more) as mm eqn:Emm.
    destruct (wideb opts).
    + destruct (Hw eq_refl) as [k Hk]. rewrite Z.shiftr_div_pow2 by lia. change (2 ^ 1) with 2.
      replace (Z.min ((zlen data - pos) / 2) (nchars - got)) with k by lia.
      rewrite (At_slice _ _ _ _ _ HA) by lia. destruct (utf16_dec raw) as [t|e]; cbn [bind]; [|reflexivity].
      replace (got + k =? nchars) with false by lia. rewrite Ho. cbn [bind].
      specialize (IH (acc ++ t) HH3 HW2 HL2 ltac:(lia)).
      replace (got + seg_units (opts, raw)) with (got + k) in IH by lia.
      destruct (dec_all mm) as [t2|e]; cbn [bind]; [|exact IH].
      destruct IH as (data' & pos' & rest' & IH & HI). do 3 eexists. split; [|exact HI].
      rewrite IH, <- app_assoc. reflexivity.
    + replace (Z.min (zlen data - pos) (nchars - got)) with (zlen raw) by lia.
      rewrite (At_slice _ _ _ _ _ HA) by lia. cbn [bind].
      replace (got + zlen raw =? nchars) with false by lia. rewrite Ho. cbn [bind].
      specialize (IH (acc ++ raw) HH3 HW2 HL2 ltac:(lia)). rewrite Hu in IH.
      destruct (dec_all mm) as [t2|e]; cbn [bind]; [|exact IH].
      destruct IH as (data' & pos' & rest' & IH & HI). do 3 eexists. split; [|exact HI].
      rewrite IH, <- app_assoc. reflexivity.
Qed.

Lemma sst_runs_spec : forall l data pos rest es acc,
  Here data pos rest (enc_runs l ++ es) ->
  Forall (fun r => 0 <= fst (snd r) < 65536 /\ 0 <= snd (snd r) < 65536) l ->
  exists data' pos' rest', sst_runs (length l) rest data pos acc = Ok (acc ++ map snd l, data', pos', rest')
    /\ Here data' pos' rest' es.
Proof.
  induction l as [|[b [x y]] l IH]; intros data pos rest es acc HH HF.
  - cbn [length sst_runs map]. rewrite app_nil_r. eauto.
  - inversion HF as [|g gs [Hx Hy] HF2]; subst. cbn [fst snd] in *.
    cbn [enc_runs flat_map] in HH. fold (enc_runs l) in HH. rewrite <- !app_assoc in HH. cbn [fst snd] in HH.
    assert (exists d p r, (if pos =? zlen data then
           match rest with [] => Err IndexError | d :: r => Ok (d, 0, r) end
         else Ok (data, pos, rest)) = Ok (d, p, r) /\
         Here d p r (Bytes (le_enc 2 x ++ le_enc 2 y) :: enc_runs l ++ es)) as (d & p & r & E & H1).
    { destruct b; cbn [app] in HH.
      - apply Here_brk in HH as (-> & d & r & -> & HH). rewrite Z.eqb_refl. eauto.
      - destruct HH as [HA HR]. pose proof (At_len _ _ _ HA) as L. cbn [bodies fst] in L.
        rewrite !zlen_app, !zlen_le_enc in L.
        pose proof (zlen_nonneg (fst (bodies (enc_runs l ++ es)))).
        destruct (pos =? zlen data) eqn:E; [lia|]. do 3 eexists. split; [reflexivity|]. split; assumption. }
    cbn [length sst_runs]. rewrite E. cbn [bind].
    pose proof H1 as [HA _]. cbn [bodies fst] in HA.
    rewrite (At_zslice_len _ _ _ _ 4 HA) by (rewrite zlen_app, !zlen_le_enc; reflexivity). cbn [negb].
    rewrite <- app_assoc in HA. rewrite (At_u16 _ _ _ _ HA) by lia. cbn [bind].
    assert (At d (p + 2) (le_enc 2 y ++ fst (bodies (enc_runs l ++ es)))) as HA2
      by (eapply At_skip; [exact HA|rewrite zlen_le_enc; reflexivity]).
    rewrite (At_u16 _ _ _ _ HA2) by lia. cbn [bind].
    pose proof (Here_skip _ _ _ _ _ (p + 4) H1 ltac:(rewrite zlen_app, !zlen_le_enc; reflexivity)) as H2.
    destruct (IH d (p + 4) r es (acc ++ [(x, y)]) H2 HF2) as (data' & pos' & rest' & E2 & H3).
    do 3 eexists. split; [|exact H3]. rewrite E2. cbn [map snd]. rewrite <- app_assoc. reflexivity.
Qed.

Lemma dec_seg_holds : forall g t, seg_holds g t -> dec_seg g = Ok t.
Proof.
  intros g t H. unfold seg_holds, dec_seg in *. destruct (wideb (fst g)); destruct H as [H ->].
  - apply utf16_dec_enc; exact H.
  - reflexivity.
Qed.

Lemma dec_all_holds : forall l ts, Forall2 seg_holds l ts -> dec_all l = Ok (concat ts).
Proof.
  intros l ts H. induction H as [|g t l ts H1 H2 IH]; [reflexivity|].
  cbn [dec_all concat]. rewrite (dec_seg_holds g t H1), IH. reflexivity.
Qed.

(** Reading one string up to (not including) its phonetic block. *)
Lemma sst_head : forall s n data pos rest es strings runs, ss_form s ->
  Here data pos rest (enc_string s ++ es) ->
  match dec_all (ss_segs s) with
  | Err e => sst_loop (S n) rest data pos strings runs = Err e
  | Ok t => exists data' pos' rest',
      Here data' pos' rest' (enc_phon (ss_phon s) ++ es) /\
      sst_loop (S n) rest data pos strings runs =
        let runs' := runs ++ match ss_runs s with [] => [] | _ => [(zlen strings, map snd (ss_runs s))] end in
        do (data, pos, rest) <-
          (if pos' + phon_size s >=? zlen data' then
             match rest' with
             | d :: r => Ok (d, pos' + phon_size s - zlen data', r)
             | [] => if (match n with O => true | S _ => false end)
                     then Ok (data', pos' + phon_size s - zlen data', []) else Err AssertionError
             end
           else Ok (data', pos' + phon_size s, rest'));
        sst_loop n rest data pos (strings ++ [t]) runs'
  end.
Proof.
  intros s n data pos rest es strings runs (HL & HN & HW & HRN & HRF & HR0 & HPS & HP0) HH.
  unfold enc_string in HH. cbn [app] in HH. rewrite <- !app_assoc in HH.
  pose proof HH as [HA _]. cbn [bodies fst] in HA.
  set (T1 := bodies (Bytes (ss_first s) :: enc_more (ss_more s) ++ enc_runs (ss_runs s) ++ enc_phon (ss_phon s) ++ es)) in *.
  change (fst (bodies (Bytes (ss_first s) :: enc_more (ss_more s) ++ enc_runs (ss_runs s) ++ enc_phon (ss_phon s) ++ es)))
    with (fst T1) in HA.
  pose proof (Here_skip _ _ _ _ _ (pos + zlen (ss_header s)) HH eq_refl) as HH1.
  unfold ss_header in HA, HH1. rewrite <- !app_assoc in HA.
  rewrite !zlen_app, zlen_le_enc in HH1. change (zlen [ss_opts s]) with 1 in HH1. change (Z.of_nat 2) with 2 in HH1.
  pose proof (total_nonneg (ss_segs s)) as HT. fold (ss_nchars s) in HT.
  cbn [sst_loop]. rewrite (At_u16 _ _ _ _ HA) by lia. cbn [bind].
  assert (At data (pos + 2) ([ss_opts s] ++
    (if Z.testbit (ss_opts s) 3 then le_enc 2 (zlen (ss_runs s)) else []) ++
    (if Z.testbit (ss_opts s) 2 then le_enc 4 (phon_size s) else []) ++ fst T1)) as HA1
    by (eapply At_skip; [exact HA|rewrite zlen_le_enc; reflexivity]).
  rewrite (At_index _ _ _ _ HA1). cbn [bind].
  pose proof (At_skip1 _ _ _ _ (pos + 2 + 1) HA1 eq_refl) as HA2.
  assert (exists p2, (if Z.testbit (ss_opts s) 3 then do v <- unpack_u16 data (pos + 2 + 1); Ok (v, pos + 2 + 1 + 2) else Ok (0, pos + 2 + 1))
     = Ok (zlen (ss_runs s), p2) /\ p2 = pos + 2 + 1 + zlen (if Z.testbit (ss_opts s) 3 then le_enc 2 (zlen (ss_runs s)) else []))
    as (p2 & E2 & Hp2).
  { destruct (Z.testbit (ss_opts s) 3).
    - pose proof (zlen_nonneg (ss_runs s)). rewrite (At_u16 _ _ _ _ HA2) by lia. cbn [bind]. eexists. split; [reflexivity|].
      rewrite zlen_le_enc. lia.
    - rewrite HR0 by reflexivity. eexists. split; [reflexivity|]. rewrite zlen_nil. lia. }
  rewrite E2. cbn [bind]. clear E2.
  pose proof (At_skip _ _ _ _ p2 HA2 Hp2) as HA3.
  assert (0 <= phon_size s) as Hps0.
  { unfold phon_size. pose proof (zlen_nonneg (fst (ss_phon s))).
    destruct (snd (ss_phon s)) as [q|]; [pose proof (zlen_nonneg q)|]; lia. }
  assert (exists p3, (if Z.testbit (ss_opts s) 2 then do v <- unpack_i32 data p2; Ok (v, p2 + 4) else Ok (0, p2))
     = Ok (phon_size s, p3) /\ p3 = p2 + zlen (if Z.testbit (ss_opts s) 2 then le_enc 4 (phon_size s) else []))
    as (p3 & E3 & Hp3).
  { destruct (Z.testbit (ss_opts s) 2).
    - rewrite (At_i32_pos _ _ _ _ HA3) by lia. cbn [bind]. eexists. split; [reflexivity|]. rewrite zlen_le_enc. lia.
    - unfold phon_size. rewrite HP0 by reflexivity. eexists. split; [reflexivity|]. rewrite !zlen_nil. lia. }
  rewrite E3. cbn [bind]. clear E3.
  match type of HH1 with Here _ ?q _ _ => replace q with p3 in HH1 by lia end.
  pose proof (sst_chars_spec (ss_more s) data p3 rest (ss_opts s) (ss_first s) _ (ss_nchars s) 0 [] HH1 HW HL eq_refl) as HC.
  fold (ss_segs s) in HC.
  destruct (dec_all (ss_segs s)) as [t|e]; [|rewrite HC; reflexivity].
  destruct HC as (d4 & p4 & r4 & -> & H4). cbn [bind app].
  destruct (sst_runs_spec (ss_runs s) d4 p4 r4 _ [] H4 HRF) as (d5 & p5 & r5 & E5 & H5).
  destruct (ss_runs s) as [|x0 l0] eqn:ER.
  - cbn [enc_runs flat_map app] in H4. change (zlen []) with 0. cbn [Z.eqb negb bind].
    exists d4, p4, r4. split; [exact H4|]. rewrite app_nil_r. reflexivity.
  - replace (zlen (x0 :: l0) =? 0) with false
      by (rewrite zlen_cons; pose proof (zlen_nonneg l0); lia).
    cbn [negb]. replace (Z.to_nat (zlen (x0 :: l0))) with (length (x0 :: l0)) by (unfold zlen; lia).
    rewrite E5. cbn [bind app]. exists d5, p5, r5. split; [exact H5|reflexivity].
Qed.

(** Moving over the phonetic block and a boundary to the next string. *)
Lemma sst_next : forall s b r tl data pos rest n,
  ss_form s -> r <> [] -> (snd (ss_phon s) <> None -> b = false) ->
  Here data pos rest (enc_phon (ss_phon s) ++ (if b then [Brk] else []) ++ enc_all r tl) ->
  exists data' pos' rest',
    (if pos + phon_size s >=? zlen data then
       match rest with
       | d :: r => Ok (d, pos + phon_size s - zlen data, r)
       | [] => if (match n with O => true | S _ => false end)
               then Ok (data, pos + phon_size s - zlen data, []) else Err AssertionError
       end
     else Ok (data, pos + phon_size s, rest)) = Ok (data', pos', rest') /\
    Here data' pos' rest' (enc_all r tl).
Proof.
  intros s b r tl data pos rest n HS HR HB HH.
  assert (exists h es, enc_all r tl = Bytes h :: es /\ 0 < zlen h) as (h & es & Er & Hh).
  { destruct r as [|[s' b'] r]; [congruence|]. cbn [enc_all]. unfold enc_string. cbn [app].
    do 2 eexists. split; [reflexivity|]. unfold ss_header. rewrite !zlen_app, zlen_le_enc.
    repeat match goal with |- context[zlen ?l] => lazymatch goal with
       | _ : 0 <= zlen l |- _ => fail | _ => pose proof (zlen_nonneg l) end end. lia. }
  destruct (ss_phon s) as [p q] eqn:EP. unfold phon_size. rewrite EP. cbn [fst snd] in *.
  unfold enc_phon in HH. cbn [fst snd app] in HH.
  pose proof (Here_skip _ _ _ _ _ (pos + zlen p) HH eq_refl) as H1.
  destruct q as [q|]; cbn [app] in H1.
  - apply Here_brk in H1 as (Hp & d & rr & -> & H1).
    pose proof (zlen_nonneg q). replace (pos + (zlen p + zlen q) >=? zlen data) with true by lia.
    do 3 eexists. split; [reflexivity|].
    rewrite HB in H1 by discriminate. cbn [app] in H1.
    eapply Here_skip; [exact H1|]. lia.
  - rewrite Z.add_0_r. destruct b; cbn [app] in H1.
    + apply Here_brk in H1 as (Hp & d & rr & -> & H1).
      replace (pos + zlen p >=? zlen data) with true by lia.
      do 3 eexists. split; [reflexivity|]. replace (pos + zlen p - zlen data) with 0 by lia. exact H1.
    + rewrite Er in H1. pose proof H1 as [HA _]. pose proof (At_len _ _ _ HA) as L. cbn [bodies fst] in L.
      rewrite zlen_app in L. pose proof (zlen_nonneg (fst (bodies es))).
      destruct (pos + zlen p >=? zlen data) eqn:E; [lia|].
      do 3 eexists. split; [reflexivity|]. rewrite Er. exact H1.
Qed.

Lemma sst_last : forall data pos rest size, exists st : list Z * Z * list (list Z),
  (if pos + size >=? zlen data then
       match rest with
       | d :: r => Ok (d, pos + size - zlen data, r)
       | [] => if (match O with O => true | S _ => false end)
               then Ok (data, pos + size - zlen data, []) else Err AssertionError
       end
     else Ok (data, pos + size, rest)) = Ok st.
Proof.
  intros data pos rest size. destruct (pos + size >=? zlen data); [destruct rest|]; eauto.
Qed.

Lemma sst_loop_spec : forall l ts data pos rest tl strings runs,
  Forall (fun sb => ss_form (fst sb)) l -> seps_ok l ->
  Forall2 (fun sb t => ss_holds (fst sb) t) l ts ->
  Here data pos rest (enc_all l tl) ->
  sst_loop (length l) rest data pos strings runs =
    Ok (strings ++ ts, runs ++ runs_from (zlen strings) (map fst l)).
Proof.
  induction l as [|[s b] l IH]; intros ts data pos rest tl strings runs HF HS H2 HH.
  - inversion H2; subst. cbn. rewrite !app_nil_r. reflexivity.
  - inversion H2 as [|x t l' ts' Hs Ht]; subst. inversion HF as [|x l' Hf HF']; subst.
    cbn [fst] in *. destruct HS as [HB HS].
    cbn [enc_all] in HH. cbn [length].
    pose proof (sst_head s (length l) data pos rest _ strings runs Hf HH) as H1.
    destruct Hs as (ts0 & Hs0 & Hc). rewrite (dec_all_holds _ _ Hs0), Hc in H1.
    destruct H1 as (d' & p' & r' & H1 & E). rewrite E. cbn zeta.
    assert (strings ++ t :: ts' = (strings ++ [t]) ++ ts') as Es by (rewrite <- app_assoc; reflexivity).
    cbn [map fst runs_from].
    destruct l as [|sb2 l2].
    + destruct (sst_last d' p' r' (phon_size s)) as [[[d2 p2] r2] E2]. cbn [length] in *. rewrite E2. cbn [bind sst_loop].
      inversion Ht; subst. cbn [map runs_from]. rewrite app_nil_r. reflexivity.
    + destruct (sst_next s b (sb2 :: l2) tl d' p' r' (length (sb2 :: l2)) Hf ltac:(discriminate)
                  (HB ltac:(discriminate)) H1) as (d2 & p2 & r2 & E2 & H3).
      rewrite E2. cbn [bind].
      rewrite (IH ts' d2 p2 r2 tl _ _ HF' HS Ht H3). rewrite Es.
      rewrite zlen_app. change (zlen [t]) with 1. rewrite <- !app_assoc. reflexivity.
Qed.

Lemma collect_continue_spec : forall conts pre next post fuel acc,
  Forall (fun d => zlen d < 65536) conts -> framable next -> fst next <> 60 ->
  (length conts < fuel)%nat ->
  collect_continue fuel (pre ++ frames (map (pair 60) conts) ++ frame next ++ post) (zlen pre) acc
    = Ok (acc ++ conts, zlen (pre ++ frames (map (pair 60) conts))).
Proof.
  induction conts as [|d conts IH]; intros pre next post fuel acc HF HN HX HL;
    (destruct fuel as [|f]; [cbn in HL; lia|]).
  - cbn [map frames flat_map app collect_continue].
    rewrite get_record_parts_conditional_frame by auto.
    destruct (fst next =? 60) eqn:E; [lia|]. cbn [bind]. rewrite !app_nil_r. reflexivity.
  - inversion HF; subst. cbn [map frames flat_map collect_continue]. fold (frames (map (pair 60) conts)).
    rewrite <- !app_assoc.
    rewrite get_record_parts_conditional_frame by (auto; split; cbn; lia).
    cbn [fst Z.eqb Pos.eqb bind snd].
    replace (pre ++ frame (60, d) ++ frames (map (pair 60) conts) ++ frame next ++ post)
      with ((pre ++ frame (60, d)) ++ frames (map (pair 60) conts) ++ frame next ++ post)
      by (rewrite <- app_assoc; reflexivity).
    rewrite IH by (auto; cbn in HL; lia). rewrite <- !app_assoc. reflexivity.
Qed.

(** The SST record and its CONTINUE records in the workbook stream. *)
Definition sst_records (tot : Z) (l : list (sst_string * bool)) (tl : list elem) : list Z * list (list Z) :=
  bodies (Bytes (le_enc 4 tot ++ le_enc 4 (zlen l)) :: enc_all l tl).

Lemma handle_sst_loop : forall tot l tl pre next post,
  zlen l < 2 ^ 31 ->
  Forall (fun d => zlen d < 65536) (snd (sst_records tot l tl)) -> framable next -> fst next <> 60 ->
  let conts := frames (map (pair 60) (snd (sst_records tot l tl))) in
  exists rest data pos, Here data pos rest (enc_all l tl) /\
  handle_sst (pre ++ conts ++ frame next ++ post) (zlen pre) (fst (sst_records tot l tl))
    = do (strings, runs) <- sst_loop (length l) rest data pos [] [];
      Ok (strings, runs, zlen (pre ++ conts)).
Proof.
  intros tot l tl pre next post HL HF HN HX conts.
  assert (Here (fst (sst_records tot l tl)) 0 (snd (sst_records tot l tl))
           (Bytes (le_enc 4 tot ++ le_enc 4 (zlen l)) :: enc_all l tl)) as HH
    by (split; [apply At_0|reflexivity]).
  pose proof (Here_skip _ _ _ _ _ 8 HH ltac:(rewrite zlen_app, !zlen_le_enc; reflexivity)) as HH1.
  do 3 eexists. split; [exact HH1|].
  unfold handle_sst. destruct HH as [HA _]. cbn [bodies fst] in HA. rewrite <- app_assoc in HA.
  assert (At (fst (sst_records tot l tl)) 4 (le_enc 4 (zlen l) ++ fst (bodies (enc_all l tl)))) as HA2
    by (eapply At_skip; [exact HA|rewrite zlen_le_enc; reflexivity]).
  pose proof (zlen_nonneg l). rewrite (At_i32_pos _ _ _ _ HA2) by lia. cbn [bind].
  assert (forall c : list (list Z), (length c <= length (frames (map (pair 60%Z) c)))%nat) as Hc.
  { intros c. induction c as [|d c IH]; [cbn; lia|]. cbn [map frames flat_map length]. fold (frames (map (pair 60) c)).
    rewrite app_length. unfold frame. rewrite !app_length. cbn. lia. }
  specialize (Hc (snd (sst_records tot l tl))).
  unfold conts. rewrite (collect_continue_spec _ pre next post _ _ HF HN HX) by (rewrite !app_length; lia).
  cbn [bind app]. unfold unpack_SST_table.
  replace (Z.to_nat (zlen l)) with (length l) by (unfold zlen; lia).
  destruct (sst_loop _ _ _ _ _ _) as [[? ?]|?]; reflexivity.
Qed.

(** ** C16 *)
Theorem c16_sst_split_transparent : forall tot l ts tl pre next post,
  Forall (fun sb => ss_form (fst sb)) l -> seps_ok l ->
  Forall2 (fun sb t => ss_holds (fst sb) t) l ts ->
  zlen l < 2 ^ 31 ->
  Forall (fun d => zlen d < 65536) (snd (sst_records tot l tl)) -> framable next -> fst next <> 60 ->
  let conts := frames (map (pair 60) (snd (sst_records tot l tl))) in
  handle_sst (pre ++ conts ++ frame next ++ post) (zlen pre) (fst (sst_records tot l tl))
    = Ok (ts, runs_from 0 (map fst l), zlen (pre ++ conts)).
Proof.
  intros tot l ts tl pre next post HF HS H2 HL HB HN HX conts.
  destruct (handle_sst_loop tot l tl pre next post HL HB HN HX) as (rest & data & pos & HH & E).
  fold conts in E. rewrite E. rewrite (sst_loop_spec l ts data pos rest tl [] [] HF HS H2 HH). reflexivity.
Qed.
Print Assumptions c16_sst_split_transparent.

(** A three-record example: "ab" split after "a" with a switch to 16-bit
    storage, a boundary between two runs, one inside the phonetic block. *)
Definition ex_s1 : sst_string := {| ss_opts := 12; ss_first := [97]; ss_more := [(1, [152; 3])];
  ss_runs := [(false, (0, 5)); (true, (1, 6))]; ss_phon := ([1; 2], Some [3]) |}.
Definition ex_s2 : sst_string := {| ss_opts := 0; ss_first := [99; 100]; ss_more := [];
  ss_runs := []; ss_phon := ([], None) |}.

Example c16_example :
  Forall (fun sb => ss_form (fst sb)) [(ex_s1, false); (ex_s2, true)] /\ seps_ok [(ex_s1, false); (ex_s2, true)] /\
  Forall2 (fun sb t => ss_holds (fst sb) t) [(ex_s1, false); (ex_s2, true)] [[97; 920]; [99; 100]] /\
  zlen (snd (sst_records 2 [(ex_s1, false); (ex_s2, true)] [])) = 4 /\
  runs_from 0 [ex_s1; ex_s2] = [(0, [(0, 5); (1, 6)])].
Proof.
  split; [|split; [|split; [|split; reflexivity]]].
  - repeat constructor; cbn; try lia; try discriminate; try (intros; discriminate);
      try (intros _; exists 1; reflexivity).
  - cbn. repeat split; auto; try (intros; discriminate); try congruence.
  - repeat constructor.
    + exists [[97]; [920]]. split; [|reflexivity].
      repeat constructor; cbn; try lia.
    + exists [[99; 100]]. split; [|reflexivity]. repeat constructor; cbn; lia.
Qed.

(** ** C17 *)

(** [l] reads well; the next string has the character [c] above U+FFFF, its two
    code units in different records. *)
Theorem c17_split_pair_fails : forall tot l ts s segs1 o1 t1 c o2 raw2 segs2 b r tl pre next post,
  Forall (fun sb => ss_form (fst sb)) l -> seps_ok (l ++ (s, b) :: r) ->
  Forall2 (fun sb t => ss_holds (fst sb) t) l ts ->
  ss_form s -> 65536 <= c < 1114112 ->
  ss_segs s = segs1 ++ (o1, units_bytes (utf16_units t1 ++ [55296 + (c - 65536) / 1024])) :: (o2, raw2) :: segs2 ->
  wideb o1 = true -> text t1 -> (exists us, Forall2 seg_holds segs1 us) ->
  zlen (l ++ (s, b) :: r) < 2 ^ 31 ->
  Forall (fun d => zlen d < 65536) (snd (sst_records tot (l ++ (s, b) :: r) tl)) -> framable next -> fst next <> 60 ->
  let recs := sst_records tot (l ++ (s, b) :: r) tl in
  let conts := frames (map (pair 60) (snd recs)) in
  handle_sst (pre ++ conts ++ frame next ++ post) (zlen pre) (fst recs) = Err UnicodeDecodeError.
Proof.
  intros tot l ts s segs1 o1 t1 c o2 raw2 segs2 b r tl pre next post HF HS H2 Hs Hc Hseg Hw1 Ht1 [us Hus] HL HB HN HX recs conts.
  destruct (handle_sst_loop tot _ tl pre next post HL HB HN HX) as (rest & data & pos & HH & E).
  fold recs in E. fold conts in E. rewrite E. clear E.
  assert (dec_all (ss_segs s) = Err UnicodeDecodeError) as HD.
  { rewrite Hseg. clear -Hw1 Ht1 Hus Hc. induction Hus as [|g t segs1 us Hg _ IH].
    - cbn [app dec_all]. unfold dec_seg at 1. cbn [fst snd]. rewrite Hw1.
      assert (units_bytes (utf16_units t1 ++ [55296 + (c - 65536) / 1024])
              = utf16_enc t1 ++ le_enc 2 (55296 + (c - 65536) / 1024)) as ->.
      { unfold units_bytes, utf16_enc, units_bytes. rewrite flat_map_app. cbn [flat_map]. rewrite app_nil_r. reflexivity. }
      rewrite utf16_dec_app by exact Ht1.
      cbn [le_enc utf16_dec]. set (u := 55296 + (c - 65536) / 1024).
      replace (u mod 256 + 256 * ((u / 256) mod 256)) with u by lia.
      replace ((u <? 55296) || (57344 <=? u)) with false by lia.
      replace (56320 <=? u) with false by lia. reflexivity.
    - cbn [app dec_all]. rewrite (dec_seg_holds g t Hg). cbn [bind]. rewrite IH. reflexivity. }
  enough (forall l ts data pos rest strings runs,
    Forall (fun sb => ss_form (fst sb)) l -> seps_ok (l ++ (s, b) :: r) ->
    Forall2 (fun sb t => ss_holds (fst sb) t) l ts ->
    Here data pos rest (enc_all (l ++ (s, b) :: r) tl) ->
    sst_loop (length (l ++ (s, b) :: r)) rest data pos strings runs = Err UnicodeDecodeError) as K.
  { rewrite (K l ts data pos rest [] [] HF HS H2 HH). reflexivity. }
  clear -HD Hs.
  induction l as [|[s0 b0] l IH]; intros ts data pos rest strings runs HF HS H2 HH.
  - cbn [app enc_all length] in *.
    pose proof (sst_head s (length r) data pos rest _ strings runs Hs HH) as H1. rewrite HD in H1. exact H1.
  - inversion H2 as [|x t l' ts' Hs0 Ht]; subst. inversion HF as [|x l' Hf HF']; subst.
    cbn [fst app] in *. destruct HS as [HB HS]. cbn [enc_all length] in *.
    pose proof (sst_head s0 (length (l ++ (s, b) :: r)) data pos rest _ strings runs Hf HH) as H1.
    destruct Hs0 as (ts0 & Hh & Hc0). rewrite (dec_all_holds _ _ Hh), Hc0 in H1.
    destruct H1 as (d' & p' & r' & H1 & E). rewrite E. cbn zeta.
    assert (l ++ (s, b) :: r <> []) as NE by (destruct l; discriminate).
    destruct (sst_next s0 b0 (l ++ (s, b) :: r) tl d' p' r' (length (l ++ (s, b) :: r)) Hf NE (HB NE) H1)
      as (d2 & p2 & r2 & E2 & H3).
    rewrite E2. cbn [bind]. apply (IH ts'); assumption.
Qed.
Print Assumptions c17_split_pair_fails.

(** The witness: U+1F600 alone, split, and the same string unsplit. *)
Definition ex_bad : sst_string := {| ss_opts := 1; ss_first := [61; 216]; ss_more := [(1, [0; 222])];
  ss_runs := []; ss_phon := ([], None) |}.
Definition ex_good : sst_string := {| ss_opts := 1; ss_first := [61; 216; 0; 222]; ss_more := [];
  ss_runs := []; ss_phon := ([], None) |}.

Theorem c17_transparent_for_units_refuted :
  exists s s', concat (map snd (ss_segs s)) = concat (map snd (ss_segs s')) /\ ss_nchars s = ss_nchars s' /\
    ss_form s /\ ss_form s' /\
    (let rs := sst_records 1 [(s, false)] [] in
     handle_sst (frames (map (pair 60) (snd rs)) ++ frame (10, [])) 0 (fst rs) = Err UnicodeDecodeError) /\
    (let rs := sst_records 1 [(s', false)] [] in
     handle_sst (frames (map (pair 60) (snd rs)) ++ frame (10, [])) 0 (fst rs) = Ok ([[128512]], [], 0)).
Proof.
  exists ex_bad, ex_good. split; [reflexivity|]. split; [reflexivity|].
  split; [|split; [|split; vm_compute; reflexivity]];
    repeat constructor; cbn; try lia; try (intros; discriminate); try (intros _; exists 1; reflexivity);
    try (intros _; exists 2; reflexivity).
Qed.
Print Assumptions c17_transparent_for_units_refuted.

Example c17_example : ss_form ex_bad /\
  ss_segs ex_bad = [] ++ (1, units_bytes (utf16_units [] ++ [55296 + (128512 - 65536) / 1024])) :: (1, [0; 222]) :: [].
Proof.
  split; [|reflexivity].
  repeat constructor; cbn; try lia; try (intros; discriminate); try (intros _; exists 1; reflexivity).
Qed.

(** ** C18 *)
Lemma sst_loop_count : forall n rest data pos strings runs strings' runs',
  sst_loop n rest data pos strings runs = Ok (strings', runs') -> length strings' = (length strings + n)%nat.
Proof.
  induction n as [|n IH]; intros rest data pos strings runs strings' runs' H.
  - cbn in H. assert (strings = strings') as -> by congruence. lia.
  - cbn [sst_loop] in H.
    apply bind_ok in H as (v1 & _ & H). apply bind_ok in H as (v2 & _ & H).
    apply bind_ok in H as ([v3 v4] & _ & H). apply bind_ok in H as ([v5 v6] & _ & H).
    apply bind_ok in H as ([[[v7 v8] v9] v10] & _ & H). apply bind_ok in H as ([[[v11 v12] v13] v14] & _ & H).
    apply bind_ok in H as ([[v15 v16] v17] & _ & H).
    apply IH in H. rewrite app_length in H. cbn in H. lia.
Qed.

(** The collector of CONTINUE records cannot run out of fuel ... *)
Lemma collect_continue_ends : forall fuel mem pos acc, bytes mem -> 0 <= pos ->
  zlen mem - pos < 4 * Z.of_nat fuel -> (0 < fuel)%nat -> collect_continue fuel mem pos acc <> Err OutOfFuel.
Proof.
  induction fuel as [|f IH]; intros mem pos acc Hb Hp HL H0; [lia|].
  cbn [collect_continue]. unfold get_record_parts_conditional.
  destruct (zlen (py_slice mem pos (pos + 4)) =? 4) eqn:E; cbn [negb bind]; [|discriminate].
  assert (pos + 4 <= zlen mem) as HM.
  { rewrite py_slice_len in E. unfold py_bound in E. pose proof (zlen_nonneg mem).
    destruct (pos <? 0) eqn:E1; [lia|]. destruct (pos + 4 <? 0) eqn:E2; lia. }
  assert (forall k d p e, unpack_le k d p = Err e -> e = StructError) as HE.
  { intros k d p e He. unfold unpack_le in He. cbv zeta in He.
    destruct (zlen (py_slice d p (p + k)) =? k); congruence. }
  destruct (unpack_u16 mem pos) as [code|e] eqn:E1; cbn [bind]; [|apply HE in E1; congruence].
  destruct (unpack_u16 mem (pos + 2)) as [len|e] eqn:E2; cbn [bind]; [|apply HE in E2; congruence].
  pose proof (unpack_u16_range _ _ _ Hb E2).
  destruct (negb (code =? 60)); cbn [bind]; [discriminate|].
  destruct f as [|f]; [lia|]. apply IH; [exact Hb|lia|lia|lia].
Qed.

(** ... so handling the record always ends; and the count is as announced. *)
Theorem c18_count : forall mem pos data strings runs pos' n,
  unpack_i32 data 4 = Ok n -> handle_sst mem pos data = Ok (strings, runs, pos') ->
  zlen strings = Z.max 0 n.
Proof.
  intros mem pos data strings runs pos' n Hn H. unfold handle_sst in H. rewrite Hn in H. cbn [bind] in H.
  apply bind_ok in H as ([sl p] & _ & H). apply bind_ok in H as ([st rn] & H1 & H).
  assert (st = strings) as -> by congruence.
  unfold unpack_SST_table in H1. apply sst_loop_count in H1. unfold zlen. rewrite H1. cbn [length]. lia.
Qed.
Print Assumptions c18_count.

Lemma nofuel_sst_chars : forall rest data pos o n g acc, nofuel (sst_chars rest data pos o n g acc).
Proof. induction rest as [|d rest IH]; intros data pos o n g acc; cbn [sst_chars]; nofuel. Qed.
#[local] Hint Resolve nofuel_sst_chars : nofuel.

Lemma nofuel_sst_runs : forall k rest data pos acc, nofuel (sst_runs k rest data pos acc).
Proof. induction k as [|k IH]; intros rest data pos acc; cbn [sst_runs]; nofuel. Qed.
#[local] Hint Resolve nofuel_sst_runs : nofuel.

Lemma nofuel_sst_loop : forall n rest data pos strings runs, nofuel (sst_loop n rest data pos strings runs).
Proof. induction n as [|n IH]; intros rest data pos strings runs; cbn [sst_loop]; nofuel. Qed.
#[local] Hint Resolve nofuel_sst_loop : nofuel.

Theorem c18_ends : forall mem pos data, bytes mem -> 0 <= pos -> handle_sst mem pos data <> Err OutOfFuel.
Proof.
  intros mem pos data Hb Hp. change (nofuel (handle_sst mem pos data)). unfold handle_sst, unpack_SST_table.
  pose proof (collect_continue_ends (S (length mem)) mem pos [] Hb Hp ltac:(unfold zlen; lia) ltac:(lia)) as C.
  nofuel.
Qed.
Print Assumptions c18_ends.

Example c18_example :
  let rs := sst_records 2 [(ex_s1, false); (ex_s2, true)] [] in
  unpack_i32 (fst rs) 4 = Ok 2 /\
  exists r p, handle_sst (frames (map (pair 60) (snd rs)) ++ frame (10, [])) 0 (fst rs) = Ok ([[97; 920]; [99; 100]], r, p).
Proof. split; [reflexivity|]. do 2 eexists. vm_compute. reflexivity. Qed.
