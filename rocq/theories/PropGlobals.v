(** C69: opening a workbook ends.  C50: encrypted workbooks are refused. *)
From Verif Require Import Base BaseFacts Text Strings StringFacts Framing GridModel SheetObjects SheetModel SheetFacts SstModel
  PropSst PropRead FormatModel FormulaModel FormulaFacts PropFormulaText PropFormulaEnd CompDoc PropChain BookModel BookFacts BookApi BookEnds GridFacts.

(** ** C69 *)

Section Opening.
Context {N : Type}.
Variable codec : list Z -> list Z -> result (list Z).
Variable ops : numops N.
Variable lower : list Z -> list Z.
Variable num8 : list Z -> N.
Variable rk : list Z -> result N.
Variable ragged : bool.
Notation book := (book N (loaded (N := N))).
Variable old : book -> list Z -> Z -> list Z -> Z -> result (shared * loaded (N := N)).

(** Decoding, arithmetic and the old worksheet reader raise Python's errors, never the
    model's own. *)
Definition oracles_total : Prop :=
  (forall e b, nofuel (codec e b)) /\ (forall b, nofuel (rk b)) /\
  (forall b mem pos name x, bytes mem -> nofuel (old b mem pos name x)) /\
  (forall e, (forall b, nofuel (fe_decode e b)) -> total ops e).

Notation load := (load codec num8 rk ragged old).
Notation globals := (globals codec ops lower load).
Notation steps := (steps codec load).
Notation open_stream := (open_stream codec ops lower num8 rk ragged old).

(** Every SHEETHDR record met announces a length that is not negative. *)
Definition never_back (b : book) (mem : list Z) (pos : Z) : Prop :=
  forall tr b' p1 len data p2 l, steps mem b pos tr b' p1 -> get_record_parts mem p1 = Ok ((0x8f, len, data), p2) ->
    unpack_i32 data 0 = Ok l -> 0 <= l.

Lemma never_back_step : forall b mem pos rc len data p1 b1 p2, never_back b mem pos ->
  get_record_parts mem pos = Ok ((rc, len, data), p1) -> rc <> 0x0a -> gstep codec load b mem p1 rc data = Ok (b1, p2) ->
  never_back b1 mem p2.
Proof.
  intros b mem pos rc len data p1 b1 p2 NB G NE S tr b' q1 len' data' q2 l ST. apply (NB ((rc, data) :: tr) b').
  eapply steps_cons; eassumption.
Qed.

Hypothesis O : oracles_total.

Lemma load_total : forall b mem pos name x, bytes mem -> nofuel (load b mem pos name x).
Proof.
  destruct O as (O1 & O2 & O3 & O4). intros b mem pos name x B. unfold BookApi.load. nofuel.
  apply (c67_reading_ends (config_of codec num8 rk ragged b) _ mem pos B); cbn [config_of c_decode c_rk]; auto.
  intros s. apply nofuel_unicode. exact O1.
Qed.

Lemma globals_ends : forall fuel b mem pos, bytes mem -> 0 <= pos -> never_back b mem pos ->
  Z.max 0 (zlen mem - pos) < 4 * Z.of_nat fuel -> nofuel (globals fuel b mem pos).
Proof.
  destruct O as (O1 & O2 & O3 & O4).
  induction fuel as [|f IH]; intros b mem pos B P NB L; [lia|]. cbn [BookModel.globals].
  destruct (get_record_parts mem pos) as [[[[rc len] data] p1]|e] eqn:G; cbn [bind];
    [|intros E; apply (nofuel_get_record_parts mem pos); congruence].
  destruct (get_record_parts_forward _ _ _ _ _ _ B P G) as [F1 F2].
  destruct (rc =? 0x0a) eqn:R.
  { nofuel. apply nofuel_globals_end; auto. }
  destruct (gstep codec load b mem p1 rc data) as [[b1 p2]|e] eqn:S; cbn [bind].
  - destruct (gstep_forward codec load b mem p1 rc data b1 p2 B ltac:(lia) S) as [S1 S2].
    assert (p1 <= p2).
    { destruct (Z.eq_dec rc 0x8f) as [-> | NR]; [|auto].
      destruct S1 as (l & S1 & ->); [reflexivity|]. enough (0 <= l) by lia.
      exact (NB [] b pos len data p1 l (steps_nil _ _ _ _ _) G S1). }
    apply IH; auto; try lia. eapply never_back_step; try eassumption. lia.
  - pose proof (nofuel_gstep codec O1 load load_total b mem p1 rc data B ltac:(lia)). congruence.
Qed.

(** Reading the globals ends, unless a SHEETHDR record sends the reader back. *)
Theorem c69_globals_end : forall b mem pos, bytes mem -> 0 <= pos -> never_back b mem pos ->
  nofuel (globals (S (List.length mem)) b mem pos).
Proof. intros b mem pos B P NB. apply globals_ends; auto. unfold zlen. lia. Qed.

(** A stream in which the bytes 8F 00 never follow each other has no SHEETHDR record. *)
Definition no_sheethdr (mem : list Z) : Prop := forall p s, mem <> p ++ [0x8f; 0x00] ++ s.

Lemma no_sheethdr_never_back : forall b mem pos, bytes mem -> no_sheethdr mem -> never_back b mem pos.
Proof.
  intros b mem pos B NS tr b' p1 len data p2 l _ G _. exfalso.
  unfold get_record_parts in G. cbv zeta in G. destruct (negb _) eqn:E; [discriminate|].
  apply bind_ok in G as (code & G1 & G). apply bind_ok in G as (? & _ & G).
  assert (code = 0x8f) as -> by (injection G as <- <- <- <-; reflexivity).
  unfold unpack_u16, unpack_le in G1. cbv zeta in G1.
  pose proof (bytes_slice mem p1 (p1 + 2) B) as BS.
  assert (exists p s, mem = p ++ py_slice mem p1 (p1 + 2) ++ s) as (p & s & E2).
  { unfold py_slice. match goal with |- context [firstn ?n (skipn ?m mem)] => exists (firstn m mem), (skipn n (skipn m mem)) end.
    rewrite !firstn_skipn. reflexivity. }
  destruct (py_slice mem p1 (p1 + 2)) as [|x0 [|y [|z r]]]; try discriminate; cbn [zlen List.length] in G1.
  - unfold zlen in G1. cbn [List.length Z.of_nat Pos.of_succ_nat Pos.succ Z.eqb Pos.eqb le_val] in G1.
    inversion BS as [|? ? B1 B2]; subst. inversion B2 as [|? ? B3 _]; subst.
    assert (x0 + 256 * (y + 256 * 0) = 143) as X by congruence.
    assert (x0 = 143 /\ y = 0) as [-> ->] by lia. exact (NS p s eq_refl).
  - unfold zlen in G1. destruct (_ =? 2) eqn:Q; [|discriminate]. cbn [List.length] in Q. lia.
Qed.

Lemma get_sheets_ends : forall l b mem, bytes mem -> nofuel (get_sheets_in codec num8 rk ragged old b mem l).
Proof.
  induction l as [|i l IH]; intros b mem B; cbn [get_sheets_in]; [discriminate|].
  pose proof (load_total) as LT. unfold get_sheet. nofuel.
Qed.

Lemma getbof_forward : forall mem pos r v p, bytes mem -> 0 <= pos -> getbof mem pos r = Ok (v, p) -> 0 <= p.
Proof.
  intros mem pos r v p B P H. unfold getbof in H. apply bind_ok in H as ([op p1] & G1 & H).
  assert (0 <= p1).
  { unfold get2bytes in G1. cbv zeta in G1. pose proof (zlen_nonneg (py_slice mem pos (pos + 2))).
    destruct (py_slice mem pos (pos + 2)) as [|? [|? [|? ?]]]; injection G1 as <- <-; lia. }
  apply bind_ok in H as (_ & _ & H). destruct (boflen op); [|discriminate].
  apply bind_ok in H as ([len p2] & G2 & H).
  assert (0 <= p2).
  { unfold get2bytes in G2. cbv zeta in G2. pose proof (zlen_nonneg (py_slice mem p1 (p1 + 2))).
    destruct (py_slice mem p1 (p1 + 2)) as [|? [|? [|? ?]]]; injection G2 as <- <-; lia. }
  apply bind_ok in H as (_ & _ & H). apply bind_ok in H as (_ & _ & H). cbv zeta in H. unfold read in H.
  apply bind_ok in H as (_ & _ & H). apply bind_ok in H as (? & _ & H). apply bind_ok in H as (? & _ & H).
  apply bind_ok in H as ([? ?] & _ & H). pose proof (zlen_nonneg (py_slice mem p2 (p2 + len))).
  repeat (match type of H with (if ?c then _ else _) = _ => destruct c end); try discriminate; injection H as <- <-; lia.
Qed.

(** Opening a workbook from its stream ends, with or without on_demand. *)
Theorem c69_open_ends : forall mem base override fmt on_demand, bytes mem -> 0 <= base -> no_sheethdr mem ->
  nofuel (open_stream (S (List.length mem)) mem base override fmt on_demand).
Proof.
  intros mem base override fmt on_demand B P NS. unfold BookApi.open_stream.
  assert (forall bv, nofuel (book0 (N := N) (SH := loaded (N := N)) bv base fmt override)) as B0.
  { intros bv. unfold book0, fbook0, initial_colours, default_palette. nofuel. }
  pose proof (fun b => get_sheets_ends (zrange 0 (zlen (sl_names (bk_sheets b)))) b mem B) as GS.
  assert (GL : forall b pos v, getbof mem base XL_WORKBOOK_GLOBALS = Ok (v, pos) -> nofuel (globals (S (List.length mem)) b mem pos)).
  { intros b pos v G. apply c69_globals_end; auto; [eapply getbof_forward; eassumption|]. apply no_sheethdr_never_back; assumption. }
  unfold get_sheets. nofuel; eauto.
Qed.
End Opening.
Print Assumptions c69_globals_end.
Print Assumptions c69_open_ends.

(** A stream with a SHEETHDR record that points back to the BOUNDSHEET record before it. *)
Module Loop.
Definition bof (kind : Z) : list Z := frame (0x0809, [0x00; 0x06; kind; 0; 0; 0; 0; 0]).
Definition bound : list Z := frame (0x85, [0; 0; 0; 0; 0; 0; 0]).
Definition header : list Z := frame (0x8f, le_enc 4 (2 ^ 32 - 20) ++ [0]).
Definition file : list Z := bof 5 ++ bound ++ header ++ bof 0x10 ++ frame (0x0a, []).
End Loop.

Section Refuted.
Context {N : Type}.
Variable codec : list Z -> list Z -> result (list Z).
Variable ops : numops N.
Variable lower : list Z -> list Z.
Variable num8 : list Z -> N.
Variable rk : list Z -> result N.
Variable ragged : bool.
Notation book := (book N (loaded (N := N))).
Variable old : book -> list Z -> Z -> list Z -> Z -> result (shared * loaded (N := N)).
Notation load := (load codec num8 rk ragged old).
Notation globals := (globals codec ops lower load).
(** No bytes are no text. *)
Hypothesis empty_text : codec (s2l "utf_16_le") [] = Ok [].

Lemma empty_sheet : forall (c : config N) countries rest, exists sh, sheet_read c countries ((0x0a, 0, []) :: rest) = Ok sh.
Proof. intros c countries rest. unfold sheet_read. cbn. destruct (c_ragged c); eexists; reflexivity. Qed.

(** A book each time the BOUNDSHEET record is met. *)
Definition again (b : book) : Prop :=
  bk_bv b = 80 /\ en_override (bk_enc b) = None /\ (en_codepage (bk_enc b) = None \/ en_codepage (bk_enc b) = Some 1200) /\
  en_raw (bk_enc b) = false /\ Forall (fun n => n = []) (sl_names (bk_sheets b)) /\
  bk_hdr b = zlen (sl_names (bk_sheets b)) /\ zlen (sl_visibility (bk_sheets b)) = bk_hdr b /\
  zlen (bk_list b) = bk_hdr b.

Lemma bound_step : forall b pos, again b -> exists b', gstep codec load b Loop.file pos 0x85 [0; 0; 0; 0; 0; 0; 0] = Ok (b', pos) /\
  en_override (bk_enc b') = None /\ en_codepage (bk_enc b') = Some 1200 /\ en_raw (bk_enc b') = false /\ bk_bv b' = 80 /\
  bk_hdr b' = bk_hdr b /\ bk_list b' = bk_list b /\ sl_names (bk_sheets b') = sl_names (bk_sheets b) ++ [[]] /\
  zlen (sl_visibility (bk_sheets b')) = bk_hdr b + 1.
Proof.
  intros [bv base [[ov cp en raw user] fm co dm] sst rich [nm vi po al nu] refs names maps l hdr off] pos H.
  unfold again in H. cbn in H. destruct H as (-> & -> & C & -> & F & -> & V & L).
  destruct C as [-> | ->]; eexists; (split; [reflexivity|]); cbn; rewrite zlen_app, V; auto 10.
Qed.

Lemma load_empty : forall (b : book) pos name x v rest, bk_bv b = 80 -> py_index (sl_visibility (bk_sheets b)) x = Ok v ->
  records_of (S (2 * List.length Loop.file)) Loop.file pos = (0x0a, 0, []) :: rest ->
  exists g sh, load b Loop.file pos name x = Ok (g, sh) /\ g_enc g = bk_enc b.
Proof.
  intros b pos name x v rest B V R. unfold BookApi.load. rewrite B, V, R. cbn [Z.leb Z.compare Pos.compare Pos.compare_cont bind].
  cbv zeta. destruct (empty_sheet (config_of codec num8 rk ragged b) (g_countries (bk_shared b)) rest) as (sh & ->).
  cbn [bind]. eexists. eexists. split; reflexivity.
Qed.

Lemma header_step : forall b pos, en_override (bk_enc b) = None -> en_codepage (bk_enc b) = Some 1200 -> en_raw (bk_enc b) = false ->
  bk_bv b = 80 -> forall l, sl_names (bk_sheets b) = l ++ [[]] -> Forall (fun n => n = []) l -> bk_hdr b = zlen l ->
  zlen (sl_visibility (bk_sheets b)) = zlen l + 1 -> zlen (bk_list b) = zlen l -> pos = 32 ->
  exists b', gstep codec load b Loop.file pos 0x8f (le_enc 4 (2 ^ 32 - 20) ++ [0]) = Ok (b', pos - 20) /\ again b'.
Proof.
  intros b pos O C R B l E F H V L P.
  unfold gstep. cbn [Z.eqb Pos.eqb orb]. unfold handle_sheethdr.
  assert (exists b1, derive codec b = Ok b1 /\ b1 = with_enc b (with_encoding (bk_enc b) (s2l "utf_16_le"))) as (b1 & -> & D).
  { unfold derive, derive_encoding, choose_encoding. rewrite O, C. cbn. rewrite C, R. eexists. split; reflexivity. }
  cbn [bind]. change (unpack_i32 (le_enc 4 (2 ^ 32 - 20) ++ [0]) 0) with (Ok (-20)). cbn [bind].
  replace (unpack_string _ _ 4 1) with (Ok (A := list Z) []).
  2: { subst b1. unfold unpack_string. cbn. symmetry. exact empty_text. }
  assert (bk_hdr b1 = zlen l) as -> by (subst b1; exact H).
  assert (sl_names (bk_sheets b1) = l ++ [[]]) as -> by (subst b1; exact E).
  cbn [bind]. rewrite py_index_app by reflexivity. cbn [bind list_eqb guard].
  subst pos. change (getbof Loop.file 32 XL_WORKSHEET) with (Ok (80, 44)). cbn [bind].
  set (b2 := with_list _ _).
  destruct (znth_in_range (sl_visibility (bk_sheets b)) (zlen l)) as (v & ZV); [pose proof (zlen_nonneg l); lia|].
  destruct (load_empty b2 44 [] (zlen l) v []) as (g & sh & -> & G).
  { subst b2 b1. exact B. }
  { subst b2 b1. apply py_index_znth; [apply zlen_nonneg|exact ZV]. }
  { vm_compute. reflexivity. }
  cbn [bind].
  assert (bk_list (with_shared b2 g) = bk_list b ++ [None]) as -> by (subst b2 b1; reflexivity).
  assert (list_set (bk_list b ++ [None]) (zlen l) (Some sh) = Ok (bk_list b ++ [Some sh])) as ->.
  { rewrite list_set_spec by (rewrite zlen_app; change (zlen [None]) with 1; pose proof (zlen_nonneg l); lia).
    f_equal. rewrite <- L. unfold zlen. rewrite Nat2Z.id, firstn_app, Nat.sub_diag, firstn_all. cbn [firstn].
    rewrite app_nil_r, skipn_all2 by (rewrite app_length; cbn; lia). reflexivity. }
  cbn [bind]. eexists. split; [reflexivity|]. unfold again.
  unfold bk_enc. cbn [with_list with_shared bk_shared bk_bv bk_sheets bk_hdr bk_list]. rewrite G.
  subst b2 b1. cbn. rewrite B, O, C, R, E, V, !zlen_app, L.
  repeat split; auto. apply Forall_app. auto.
Qed.

Lemma loops : forall fuel b, again b -> globals fuel b Loop.file 12 = Err OutOfFuel.
Proof.
  intros fuel. induction fuel as [fuel IH] using lt_wf_ind. intros b A.
  destruct fuel as [|[|f]]; [reflexivity| |].
  - cbn [BookModel.globals]. change (get_record_parts Loop.file 12) with (Ok ((0x85, 7, [0; 0; 0; 0; 0; 0; 0]), 23)).
    cbn [bind Z.eqb Pos.eqb]. destruct (bound_step b 23 A) as (b' & -> & _). reflexivity.
  - cbn [BookModel.globals]. change (get_record_parts Loop.file 12) with (Ok ((0x85, 7, [0; 0; 0; 0; 0; 0; 0]), 23)).
    cbn [bind Z.eqb Pos.eqb]. destruct (bound_step b 23 A) as (b' & -> & E1 & E2 & E3 & E4 & E5 & E6 & E7 & E8). cbn [bind].
    change (get_record_parts Loop.file 23) with (Ok ((0x8f, 5, le_enc 4 (2 ^ 32 - 20) ++ [0]), 32)).
    cbn [bind Z.eqb Pos.eqb]. destruct A as (A1 & A2 & A3 & A4 & A5 & A6 & A7 & A8).
    destruct (header_step b' 32 E1 E2 E3 E4 (sl_names (bk_sheets b)) E7 A5) as (b2 & -> & A); try congruence.
    cbn [bind]. apply IH; [lia|exact A].
Qed.
End Refuted.

(** A file of 48 bytes for which opening a workbook never ends, whatever the options;
    the reader goes round in its globals and lists one more sheet each time. *)
Theorem c69_open_refuted : exists file, bytes file /\
  forall N codec (ops : numops N) lower num8 rk ragged old, codec (s2l "utf_16_le") [] = Ok [] ->
  forall fuel depth fmt on_demand ignore,
    open_workbook_xls codec ops lower num8 rk ragged old fuel depth file None fmt on_demand ignore = Err OutOfFuel.
Proof.
  exists Loop.file. split; [vm_compute; repeat constructor; discriminate|].
  intros N codec ops lower num8 rk ragged old T fuel depth fmt on_demand ignore.
  unfold open_workbook_xls, find_stream. change (zlen Loop.file =? 0) with false.
  change (list_eqb (py_slice Loop.file 0 8) SIGNATURE) with false. cbn [negb guard bind]. unfold open_stream.
  change (getbof Loop.file 0 XL_WORKBOOK_GLOBALS) with (Ok (80, 12)). cbn [bind Z.eqb negb guard existsb SUPPORTED_VERSIONS Pos.eqb orb].
  destruct (fbook0 80 fmt) as [f|e] eqn:E; [|destruct fmt; discriminate].
  unfold book0. rewrite E. cbn [bind]. cbn [Z.leb Z.compare Pos.compare Pos.compare_cont].
  rewrite loops; [reflexivity|exact T|]. unfold again. cbn. repeat split; auto.
Qed.
Print Assumptions c69_open_refuted.

(** A small workbook without SHEETHDR records and oracles that raise nothing odd. *)
Example c69_hypotheses :
  oracles_total (fun _ b => Ok b) int_ops (fun _ => Ok 0) (fun _ _ _ _ _ => Err XLRDError) /\
  let mem := Loop.bof 5 ++ frame (0x85, [27; 0; 0; 0; 0; 0; 0]) ++ frame (0x0a, []) ++ Loop.bof 0x10 ++ frame (0x0a, []) in
  bytes mem /\ no_sheethdr mem /\
  match open_workbook_xls (fun _ b => Ok b) int_ops (fun s => s) (fun _ => 0) (fun _ => Ok 0) false (fun _ _ _ _ _ => Err XLRDError)
          50 50 mem None false true false with
  | Ok a => sl_names (bk_sheets (a_book a)) = [[]]
  | Err _ => False
  end.
Proof.
  split; [|cbv zeta; split; [|split]].
  - split; [discriminate|]. split; [discriminate|]. split; [discriminate|].
    intros e D. repeat split; unfold nofuel; cbn; try discriminate; auto; intros; destruct (_ =? 0); discriminate.
  - vm_compute. repeat constructor; discriminate.
  - intros p s. vm_compute. intros E.
    repeat (destruct p as [|? p]; cbn [app] in E; [discriminate|]; first [discriminate | injection E as _ E]).
  - vm_compute. reflexivity.
Qed.

(** ** C50 *)

Section Filepass.
Variable codec : list Z -> list Z -> result (list Z).
Context {N SH : Type}.
Variable ops : numops N.
Variable lower : list Z -> list Z.
Notation book := (book N SH).

Lemma gstep_load : forall load load' (b : book) mem pos rc data, rc <> 0x8f ->
  gstep codec load b mem pos rc data = gstep codec load' b mem pos rc data.
Proof. intros load load' b mem pos rc data R. unfold gstep. replace (rc =? 0x8f) with false by lia. reflexivity. Qed.

(** A record before FILEPASS that cannot be read. *)
Definition fails (load : book -> list Z -> Z -> list Z -> Z -> result (shared * SH)) (b : book) (mem : list Z) (pos : Z)
  (rs : list (Z * list Z)) (e : error) : Prop :=
  exists tr b' p1 len p2 rc data, steps codec load mem b pos tr b' p1 /\ get_record_parts mem p1 = Ok ((rc, len, data), p2) /\
    In (rc, data) rs /\ gstep codec load b' mem p2 rc data = Err e.

Lemma fails_step : forall load b mem pos rs e rc len data p1 b1 p2 rs', get_record_parts mem pos = Ok ((rc, len, data), p1) ->
  rc <> 0x0a -> gstep codec load b mem p1 rc data = Ok (b1, p2) -> fails load b1 mem p2 rs' e -> (forall r, In r rs' -> In r rs) ->
  fails load b mem pos rs e.
Proof.
  intros load b mem pos rs e rc len data p1 b1 p2 rs' G R S (tr & b' & q1 & len' & q2 & rc' & d' & F1 & F2 & F3 & F4) I.
  exists ((rc, data) :: tr), b', q1, len', q2, rc', d'. repeat split; auto. eapply steps_cons; eassumption.
Qed.

Lemma filepass : forall fuel mem rs d post (b : book) pos,
  Forall framable rs -> zlen d < 65536 -> At mem pos (frames rs ++ frame (0x2f, d) ++ post) ->
  Forall (fun r => fst r <> 0x0a /\ fst r <> 0x8f) rs ->
  exists e, forall load, globals codec ops lower load fuel b mem pos = Err e /\
    (e = XLRDError \/ e = OutOfFuel \/ fails load b mem pos rs e).
Proof.
  induction fuel as [|f IH]; intros mem rs d post b pos F LD A NE; [exists OutOfFuel; auto|]. cbn [BookModel.globals].
  assert (FD : framable (0x2f, d)) by (split; cbn; lia).
  destruct rs as [|[rc data] rs].
  - cbn [frames flat_map app] in A. rewrite (At_frame _ _ _ _ A FD). cbn [bind fst snd].
    change (0x2f =? 0x0a) with false. cbv iota. exists XLRDError. auto.
  - inversion F as [|? ? F1 F2]; subst. inversion NE as [|? ? [N1 N2] N3]; subst. cbn [fst] in N1, N2.
    cbn [frames flat_map] in A. rewrite <- app_assoc in A.
    pose proof (At_frame _ _ _ _ A F1) as G. rewrite G. cbn [bind fst snd].
    replace (rc =? 0x0a) with false by lia.
    set (load0 := fun (_ : book) (_ : list Z) (_ : Z) (_ : list Z) (_ : Z) => Err XLRDError : result (shared * SH)).
    pose proof (fun load => gstep_load load load0 b mem (pos + zlen (frame (rc, data))) rc data N2) as GL.
    destruct (gstep codec load0 b mem (pos + zlen (frame (rc, data))) rc data) as [[b1 p2]|e] eqn:G1.
    2: { exists e. intros load. rewrite GL. split; [reflexivity|]. right. right.
         exists [], b, pos, (zlen data), (pos + zlen (frame (rc, data))), rc, data. cbn [fst snd] in G. repeat split; auto.
         - apply steps_nil.
         - left. reflexivity. }
    pose proof (At_skip _ _ _ _ _ A eq_refl) as A1.
    assert (A1' : At mem (pos + zlen (frame (rc, data))) (frames (rs ++ [(0x2f, d)]) ++ post)).
    { rewrite frames_app, <- app_assoc. cbn [frames flat_map]. rewrite app_nil_r. exact A1. }
    destruct (gstep_at codec lower load0 mem (rs ++ [(0x2f, d)]) post (pos + zlen (frame (rc, data))) b rc data b1 p2) as (cs & rs' & E & C1 & C2 & C3); auto.
    { apply Forall_app. split; [exact F2|]. constructor; [exact FD|constructor]. }
    { rewrite existsb_app. cbn [existsb noncont fst]. apply orb_true_intro. right. reflexivity. }
    assert (exists rs'', rs' = rs'' ++ [(0x2f, d)] /\ rs = cs ++ rs'') as (rs'' & -> & ->).
    { clear - E C3. destruct rs' as [|x l _] using rev_ind; [discriminate|].
      rewrite app_assoc in E. apply app_inj_tail in E as [E1 E2]. subst. eauto. }
    apply Forall_app in F2 as [_ F2]. apply Forall_app in N3 as [_ N3].
    rewrite frames_app, <- app_assoc in C2. cbn [frames flat_map] in C2. rewrite app_nil_r in C2.
    destruct (IH mem rs'' d post b1 p2 F2 LD C2 N3) as (e & H). exists e. intros load. rewrite GL. cbn [bind].
    destruct (H load) as [H1 H2]. split; [exact H1|]. destruct H2 as [H2 | [H2 | H2]]; auto. right. right.
    eapply fails_step; [exact G|exact N1|rewrite GL; reflexivity|exact H2|].
    intros r R. right. apply in_or_app. right. exact R.
Qed.
End Filepass.

(** A workbook with a FILEPASS record among its globals, before the end of the globals,
    cannot be opened: whatever reading worksheets would give, the outcome is the same
    error.  It is XLRDError unless a record before FILEPASS could not be read. *)
Theorem c50_filepass : forall {N} codec (ops : numops N) lower fuel mem base override fmt on_demand v pos rs d post b0,
  getbof mem base XL_WORKBOOK_GLOBALS = Ok (v, pos) -> 45 <= v -> book0 v base fmt override = Ok b0 ->
  Forall framable rs -> zlen d < 65536 -> At mem pos (frames rs ++ frame (0x2f, d) ++ post) ->
  Forall (fun r => fst r <> 0x0a /\ fst r <> 0x8f) rs ->
  exists e, forall num8 rk ragged old,
    open_stream codec ops lower num8 rk ragged old fuel mem base override fmt on_demand = Err e /\
    (e = XLRDError \/ e = OutOfFuel \/ fails codec (load codec num8 rk ragged old) b0 mem pos rs e).
Proof.
  intros N codec ops lower fuel mem base override fmt on_demand v pos rs d post b0 G V B F LD A NE.
  destruct (filepass codec ops lower fuel mem rs d post b0 pos F LD A NE) as (e & H).
  destruct (existsb (Z.eqb v) SUPPORTED_VERSIONS) eqn:S.
  - exists e. intros num8 rk ragged old. destruct (H (load codec num8 rk ragged old)) as [H1 H2]. split; [|exact H2].
    unfold open_stream. rewrite G. cbn [bind]. replace (v =? 0) with false by lia. rewrite S, B. cbn [negb guard bind].
    replace (v <=? 40) with false by lia. rewrite H1. destruct (v =? 45); reflexivity.
  - exists XLRDError. intros num8 rk ragged old. split; [|auto].
    unfold open_stream. rewrite G. cbn [bind]. replace (v =? 0) with false by lia. rewrite S. reflexivity.
Qed.
Print Assumptions c50_filepass.

(** With FILEPASS as the first record, or after records that xlrd skips, the outcome is
    XLRDError. *)
Definition skipped (rc : Z) : Prop :=
  ~ In rc [0xfc; 0x31; 0x231; 0x41e; 0xe0; 0x85; 0x22; 0x42; 0x8c; 0x23; 0x17; 0x2f; 0x5c; 0x8e; 0x8f; 0x1ae; 0x18; 0x92; 0x293; 0x0a].

Theorem c50_filepass_first : forall {N} codec (ops : numops N) lower num8 rk ragged old fuel mem base override fmt on_demand v pos rs d post,
  getbof mem base XL_WORKBOOK_GLOBALS = Ok (v, pos) -> 45 <= v ->
  Forall framable rs -> zlen d < 65536 -> At mem pos (frames rs ++ frame (0x2f, d) ++ post) ->
  Forall (fun r => skipped (fst r)) rs -> (List.length rs < fuel)%nat ->
  open_stream codec ops lower num8 rk ragged old fuel mem base override fmt on_demand = Err XLRDError.
Proof.
  intros N codec ops lower num8 rk ragged old fuel mem base override fmt on_demand v pos rs d post G V F LD A SK FU.
  unfold open_stream. rewrite G. cbn [bind]. replace (v =? 0) with false by lia. cbn [negb guard bind].
  destruct (existsb (Z.eqb v) SUPPORTED_VERSIONS) eqn:S; [cbn [guard bind]|reflexivity].
  assert (exists b0, book0 (N := N) (SH := loaded (N := N)) v base fmt override = Ok b0) as (b0 & ->).
  { unfold book0, fbook0, initial_colours, default_palette. destruct fmt; cbn [bind]; [|eexists; reflexivity].
    cbn [existsb SUPPORTED_VERSIONS] in S.
    assert (v = 80 \/ v = 70 \/ v = 50 \/ v = 45) as [-> | [-> | [-> | ->]]] by lia; eexists; reflexivity. }
  cbn [bind]. replace (v <=? 40) with false by lia.
  enough (globals codec ops lower (load codec num8 rk ragged old) fuel b0 mem pos = Err XLRDError) as ->
    by (destruct (v =? 45); reflexivity).
  clear G S V. revert pos fuel A FU. induction rs as [|[rc data] rs IH]; intros pos fuel A FU;
    (destruct fuel as [|f]; [cbn in FU; lia|]); cbn [BookModel.globals].
  - cbn [frames flat_map app] in A. assert (FD : framable (0x2f, d)) by (split; cbn; lia).
    rewrite (At_frame _ _ _ _ A FD). reflexivity.
  - inversion F as [|? ? F1 F2]; subst. inversion SK as [|? ? SK1 SK2]; subst. cbn [fst] in SK1.
    cbn [frames flat_map] in A. rewrite <- app_assoc in A.
    rewrite (At_frame _ _ _ _ A F1). cbn [bind fst snd].
    assert (rc <> 0x0a) by (intros ->; apply SK1; cbn; auto 30). replace (rc =? 0x0a) with false by lia.
    assert (gstep codec (load codec num8 rk ragged old) b0 mem (pos + zlen (frame (rc, data))) rc data = Ok (b0, pos + zlen (frame (rc, data)))) as ->.
    { unfold gstep. unfold skipped in SK1. cbn [In] in SK1.
      repeat match goal with |- context [rc =? ?k] => replace (rc =? k) with false by (symmetry; apply Z.eqb_neq; intros ->; apply SK1; auto 30) end.
      reflexivity. }
    cbn [bind]. apply IH; auto; [eapply At_skip; [exact A|reflexivity]|cbn [List.length] in FU; lia].
Qed.
Print Assumptions c50_filepass_first.

(** WINDOW1, FILEPASS, WRITEACCESS. *)
Example c50_example : let rs := [(0x3d, [0; 0])] in
  let mem := Loop.bof 5 ++ frames rs ++ frame (0x2f, [0; 0; 1; 2; 3; 4]) ++ frame (0x5c, [1; 2]) in
  getbof mem 0 XL_WORKBOOK_GLOBALS = Ok (80, 12) /\ At mem 12 (frames rs ++ frame (0x2f, [0; 0; 1; 2; 3; 4]) ++ frame (0x5c, [1; 2])) /\
  Forall (fun r => skipped (fst r)) rs /\ Forall framable rs.
Proof.
  cbv zeta. repeat split.
  - exists (Loop.bof 5). split; reflexivity.
  - repeat constructor. unfold skipped. cbn. lia.
  - repeat constructor; cbn; lia.
Qed.
