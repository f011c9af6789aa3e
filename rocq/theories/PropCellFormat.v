(** Property theorems C89: the number formats and the XFs of an opened workbook are those
    of its FORMAT and XF records. *)
From Verif Require Import Base BaseFacts Text Strings Utf16 StringFacts PropBytes Framing GridModel GridFacts SheetObjects SheetModel SheetSteps
  SstModel FormatModel BitFields FormatFacts PropXf PropFormat PropColour FormulaModel PropFormulaText BookModel BookApi BookHistory PropSheetList BookContent FormatRun PropFonts.

(** ** Specification *)

(** The FORMAT records of BIFF5 and later, in order: format codes and texts. *)
Inductive defines (bv : Z) : files -> list (Z * list Z) -> Prop :=
| D_nil : defines bv [] []
| D_format : forall dec d k tail s fs l, bytes d -> u16v k -> d = le_enc 2 k ++ tail -> string_at bv dec 2 tail s -> defines bv fs l ->
    defines bv ((dec, RFormat d false) :: fs) ((k, s) :: l)
| D_other : forall dec r fs l, (forall d o, r <> RFormat d o) -> defines bv fs l -> defines bv ((dec, r) :: fs) l.

(** The bytes of an XF record with the attributes of [x]; unused bits are arbitrary. *)
Inductive xf_bytes (bv : Z) (x : xf) : list Z -> Prop :=
| Xf8 : forall s1 s2 s3 s4 s5 extra, bv = 80 -> Forall word_ok (layout8 x s1 s2 s3 s4 s5) -> xf_bytes bv x (encode (layout8 x s1 s2 s3 s4 s5) ++ extra)
| Xf5 : forall o s1 s2 s3 extra, bv = 50 \/ bv = 70 -> orientation o (al_rotation (xf_alignment x)) -> no_biff8 x ->
    Forall word_ok (layout5 x o s1 s2 s3) -> xf_bytes bv x (encode (layout5 x o s1 s2 s3) ++ extra).

(** The last text of a format code. *)
Definition last_text (l : list (Z * list Z)) (k : Z) (s : list Z) : Prop := exists p q, l = p ++ (k, s) :: q /\ ~ In k (map fst q).

(** The format of a code: the last text, date or general; else the standard format. *)
Inductive format_for (l : list (Z * list Z)) (k : Z) : format -> Prop :=
| Given : forall s, last_text l k s -> format_for l k (mk_format k (if is_date_format_string s then FDT else FGE) (Some s))
| Standard : forall f, ~ In k (map fst l) -> builtin k = Some f -> format_for l k f.

(** ** Proofs *)

Definition made (e : Z * list Z) : format := mk_format (fst e) (if is_date_format_string (snd e) then FDT else FGE) (Some (snd e)).

Lemma defines_says : forall bv fs l, 50 <= bv -> defines bv fs l ->
  zlen (format_records fs) = zlen l /\
  forall n r k s, znth (format_records fs) n = Some r -> PropFormat.says bv n r k s -> znth l n = Some (k, s).
Proof.
  intros bv fs l V D.
  assert (G : zlen (format_records fs) = zlen l /\
    forall m n r k s, znth (format_records fs) n = Some r -> PropFormat.says bv m r k s -> znth l n = Some (k, s)).
  { induction D as [|dec d k tail s fs l B K E S D [L IH]|dec r fs l NF D [L IH]].
    - split; [reflexivity|]. intros m n r k s H. apply znth_Some_range in H. cbn in H. lia.
    - cbn [format_records]. split; [rewrite !zlen_cons; lia|]. intros m n r k' s' H Y. pose proof (znth_Some_range _ _ _ H) as R.
      destruct (Z.eq_dec n 0) as [->|NZ].
      + rewrite znth_0 in H. injection H as <-. rewrite znth_0. unfold PropFormat.says in Y. cbn [orb] in Y.
        replace (bv <=? 30) with false in Y by lia. replace (bv <? 50) with false in Y by lia.
        assert (U : unpack_u16 d 0 = Ok k) by (subst d; apply (At_u16 _ tail k 0); [apply At_0|exact K]).
        pose proof (string_read bv dec 2 d (le_enc 2 k) tail s B E S (or_intror eq_refl)) as SR. rewrite zlen_le_enc in SR.
        change (Z.of_nat 2) with 2 in SR. destruct (bv <? 80) eqn:E8.
        * replace (bv >=? 80) with false in SR by lia. destruct Y as [Y1 Y2]. congruence.
        * replace (bv >=? 80) with true in SR by lia. destruct Y as [Y1 Y2]. congruence.
      + rewrite znth_cons in H by lia. rewrite znth_cons by lia. exact (IH m _ _ _ _ H Y).
    - assert (X : format_records ((dec, r) :: fs) = format_records fs) by (destruct r; try reflexivity; exfalso; eapply NF; reflexivity).
      rewrite X. split; assumption. }
  destruct G as [L G]. split; [exact L|]. intros n r k s. apply G.
Qed.

Lemma format_list_made : forall bv fmt fs l b0 b, 50 <= bv -> fbook0 bv fmt = Ok b0 -> frun b0 fs = Ok b -> defines bv fs l -> b_format_list b = map made l.
Proof.
  intros bv fmt fs l b0 b V F R D. destruct (c54_format_list _ _ _ _ _ F R) as [L G]. destruct (defines_says _ _ _ V D) as [L' G'].
  apply znth_ext. intros i I. rewrite znth_map. destruct (Z_lt_ge_dec i (zlen l)) as [J|J].
  2: { rewrite (proj2 (znth_None l i)) by lia. apply znth_None. lia. }
  destruct (znth_in_range (format_records fs) i ltac:(lia)) as (r & E). destruct (G i r E) as (k & s & Y & ->).
  rewrite (G' i r k s E Y). reflexivity.
Qed.

Lemma find_made : forall l k,
  (forall s, last_text l k s -> find (fun f => fm_key f =? k) (rev (map made l)) = Some (made (k, s))) /\
  (~ In k (map fst l) -> find (fun f => fm_key f =? k) (rev (map made l)) = None) /\
  (In k (map fst l) -> exists s, last_text l k s).
Proof.
  intros l k. induction l as [|[k0 s0] l [I1 [I2 I3]]] using rev_ind; [split; [|split]|].
  - intros s ([|? ?] & q & H & _); discriminate.
  - reflexivity.
  - intros [].
  - rewrite map_app, rev_app_distr. cbn [map rev app find]. change (fm_key (made (k0, s0))) with k0. rewrite map_app. cbn [map fst].
    destruct (k0 =? k) eqn:E.
    + assert (k0 = k) as -> by lia. split; [|split].
      * intros s (p & q & H & N). apply snoc_split in H as [(-> & -> & H)|(q' & -> & H)]; [injection H as <-; reflexivity|].
        exfalso. apply N. rewrite map_app. apply in_or_app. right. left. reflexivity.
      * intros N. exfalso. apply N. apply in_or_app. right. left. reflexivity.
      * intros _. exists s0, l, []. split; [reflexivity|intros []].
    + split; [|split].
      * intros s (p & q & H & N). apply I1. apply snoc_split in H as [(-> & -> & H)|(q' & -> & H)]; [injection H as <- <-; lia|].
        exists p, q'. split; [exact H|]. intros X. apply N. rewrite map_app. apply in_or_app. left. exact X.
      * intros N. apply I2. intros X. apply N. apply in_or_app. left. exact X.
      * intros X. apply in_app_or in X as [X|[X|[]]]; [|lia]. destruct (I3 X) as (s & p & q & -> & N). exists s, p, (q ++ [(k0, s0)]).
        split; [rewrite <- app_assoc; reflexivity|]. rewrite map_app. intros Y. apply in_app_or in Y as [Y|[Y|[]]]; [exact (N Y)|cbn [fst] in Y; lia].
Qed.

Lemma in_force_for : forall bv n l k, 50 <= bv -> 0 < n ->
  match in_force bv n (map made l) k with
  | Some f => format_for l k f
  | None => ~ In k (map fst l) /\ builtin k = None
  end.
Proof.
  intros bv n l k V N. unfold in_force. destruct (find_made l k) as (I1 & I2 & I3).
  destruct (in_dec Z.eq_dec k (map fst l)) as [I|I].
  - destruct (I3 I) as (s & S). rewrite (I1 s S). exact (Given _ _ _ S).
  - rewrite (I2 I). replace ((50 <=? bv) && (0 <? n)) with true by lia. destruct (builtin k) eqn:E; [exact (Standard _ _ _ I E)|split; auto].
Qed.

Lemma format_for_unique : forall l k f g, format_for l k f -> format_for l k g -> f = g.
Proof.
  assert (IN : forall l k s, last_text l k s -> In k (map fst l)).
  { intros l k s (p & q & -> & _). rewrite map_app. apply in_or_app. right. left. reflexivity. }
  intros l k f g F G. destruct F as [s S|f N E], G as [s' S'|g N' E'].
  - destruct (find_made l k) as (I1 & _). pose proof (I1 _ S) as A. rewrite (I1 _ S') in A. injection A as A. congruence.
  - exfalso. eauto.
  - exfalso. eauto.
  - congruence.
Qed.

Lemma finished_formats : forall f, b_formats (finished f) = b_formats f.
Proof.
  intros f. unfold finished, palette_epilogue. change (b_formats f) with (b_formats (xf_epilogue f)).
  generalize (b_fonts (xf_epilogue f)) as l. intros l. generalize (xf_epilogue f) as b. induction l as [|t l IH]; intros b; [reflexivity|].
  cbn [fold_left]. rewrite IH. unfold mark. repeat match goal with |- context [if ?c then _ else _] => destruct c | |- context [match ?c with Some _ => _ | None => _ end] => destruct c end; reflexivity.
Qed.

Section Opened.
Context {N : Type}.
Variable codec : list Z -> list Z -> result (list Z).
Variable ops : numops N.
Variable lower : list Z -> list Z.
Variable num8 : list Z -> N.
Variable rk : list Z -> result N.
Variable ragged : bool.
Notation loaded := (loaded (N := N)).
Notation api := (api (N := N)).
Notation book := (book N loaded).
Variable old : book -> list Z -> Z -> list Z -> Z -> result (shared * loaded).
Notation history := (history codec num8 rk ragged old).
Notation open_stream := (open_stream codec ops lower num8 rk ragged old).

(** format_map of a workbook with an XF record. *)
Theorem c89_formats : forall fuel mem base bv rs override fmt on_demand a es h fs l,
  workbook mem base bv rs -> 50 <= bv -> lists codec bv override None rs es -> formatting codec bv override None rs fs ->
  open_stream fuel mem base override fmt on_demand = Ok a -> defines bv fs l -> xf_records fs <> [] ->
  forall k f, format_map (snd (history a h)) k = Some f <-> format_for l k f.
Proof.
  intros fuel mem base bv rs ov fmt od a es h fs l W V L FS H D NX k f.
  destruct (opened_formatting codec ops lower num8 rk ragged old _ _ _ _ _ _ _ _ _ _ h _ W V L H FS) as (f0 & b & F0 & R & E).
  unfold format_map. rewrite E. change (b_formats (palette_epilogue (xf_epilogue b))) with (b_formats (finished b)).
  rewrite finished_formats.
  rewrite (c54_format_map _ _ _ _ _ F0 R), (format_list_made _ _ _ _ _ _ V F0 R D).
  assert (0 < zlen (xf_records fs)) as P by (destruct (xf_records fs) as [|? r]; [contradiction|rewrite zlen_cons; pose proof (zlen_nonneg r); lia]).
  pose proof (in_force_for bv _ l k V P) as X. destruct (in_force _ _ _ _) as [g|].
  - split; [intros Y; injection Y as <-; exact X|]. intros Y. f_equal. exact (format_for_unique _ _ _ _ X Y).
  - split; [discriminate|]. intros Y. exfalso. destruct X as [X1 X2]. destruct Y as [s (p & q & -> & _)|g _ Y]; [|congruence].
    apply X1. rewrite map_app. apply in_or_app. right. left. reflexivity.
Qed.

(** The standard formats come with the first XF record: a workbook without one has only its
    own formats. *)
Theorem c89_formats_only : forall fuel mem base bv rs override fmt on_demand a es h fs l,
  workbook mem base bv rs -> 50 <= bv -> lists codec bv override None rs es -> formatting codec bv override None rs fs ->
  open_stream fuel mem base override fmt on_demand = Ok a -> defines bv fs l -> xf_records fs = [] ->
  forall k f, format_map (snd (history a h)) k = Some f <-> exists s, last_text l k s /\ f = mk_format k (if is_date_format_string s then FDT else FGE) (Some s).
Proof.
  intros fuel mem base bv rs ov fmt od a es h fs l W V L FS H D NX k f.
  destruct (opened_formatting codec ops lower num8 rk ragged old _ _ _ _ _ _ _ _ _ _ h _ W V L H FS) as (f0 & b & F0 & R & E).
  unfold format_map. rewrite E. change (b_formats (palette_epilogue (xf_epilogue b))) with (b_formats (finished b)).
  rewrite finished_formats.
  rewrite (c54_format_map _ _ _ _ _ F0 R), (format_list_made _ _ _ _ _ _ V F0 R D), NX.
  unfold in_force. destruct (find_made l k) as (I1 & I2 & I3). rewrite andb_false_r.
  split.
  - destruct (in_dec Z.eq_dec k (map fst l)) as [I|I]; [|rewrite (I2 I); discriminate].
    destruct (I3 I) as (s & S). rewrite (I1 s S). intros [= <-]. eauto.
  - intros (s & S & ->). rewrite (I1 s S). reflexivity.
Qed.

(** The XF of each XF record: all its attributes, but format code 0 when its own is not
    known at that point, and parent 0 when there is no such XF. *)
Theorem c89_xfs : forall fuel mem base bv rs override on_demand a es h fs,
  workbook mem base bv rs -> 50 <= bv -> lists codec bv override None rs es -> formatting codec bv override None rs fs ->
  open_stream fuel mem base override true on_demand = Ok a ->
  let xfs := xf_list (snd (history a h)) in
  zlen xfs = zlen (xf_records fs) /\
  forall p dec d q lp x, fs = p ++ (dec, RXf d) :: q -> defines bv p lp -> xf_index x = zlen (xf_records p) -> xf_bytes bv x d ->
    exists y, znth xfs (xf_index x) = Some y /\ same_xf y x /\
      (In (xf_format_key x) (map fst lp) \/ builtin_type (xf_format_key x) <> None -> xf_format_key y = xf_format_key x) /\
      (~ In (xf_format_key x) (map fst lp) -> builtin_type (xf_format_key x) = None -> xf_format_key y = 0) /\
      xf_parent y = (if (xf_is_style x =? 0) && (zlen xfs <=? xf_parent x) then 0 else xf_parent x).
Proof.
  intros fuel mem base bv rs ov od a es h fs W V L FS H xfs.
  destruct (opened_formatting codec ops lower num8 rk ragged old _ _ _ _ _ _ _ _ _ _ h _ W V L H FS) as (f0 & b & F0 & R & E).
  assert (K : xfs = b_xfs (xf_epilogue b)).
  { subst xfs. unfold xf_list. rewrite E. fold (finished b). destruct (finished_keeps b) as (_ & _ & _ & ->). reflexivity. }
  rewrite K. destruct (c57_xfs _ _ _ _ _ F0 R) as [LX _]. split; [exact LX|].
  intros p dec d q lp x -> D I X.
  destruct (c57_record _ _ _ _ _ _ _ _ F0 R) as (b1 & y & z & R1 & RX & ZN & SX & KEY & PAR). rewrite <- I in *.
  assert (y = x) as ->.
  { destruct X as [s1 s2 s3 s4 s5 extra -> WO|o s1 s2 s3 extra BV O NB WO].
    - change (read_xf 80) with read_xf80 in RX. rewrite (read8 x s1 s2 s3 s4 s5 extra _ WO) in RX by apply At_0. congruence.
    - replace (read_xf bv) with read_xf50 in RX by (destruct BV as [-> | ->]; reflexivity).
      rewrite (read5 x o s1 s2 s3 extra _ O NB WO) in RX by apply At_0. congruence. }
  exists z. split; [exact ZN|]. split; [exact SX|]. rewrite KEY, (format_list_made _ _ _ _ _ _ V F0 R1 D). clear KEY.
  assert (P : 0 < xf_index x + 1) by (rewrite I; pose proof (zlen_nonneg (xf_records p)); lia).
  pose proof (in_force_for bv _ lp (xf_format_key x) V P) as G. split; [|split].
  - intros J. destruct (in_force _ _ _ _); [reflexivity|]. exfalso. destruct G as [G1 G2]. unfold builtin in G2. destruct J as [J|J]; [exact (G1 J)|].
    destruct (builtin_type _); [discriminate|exact (J eq_refl)].
  - intros J1 J2. destruct (in_force _ _ _ _); [|reflexivity]. exfalso. destruct G as [s (p' & q' & -> & _)|g _ G].
    + apply J1. rewrite map_app. apply in_or_app. right. left. reflexivity.
    + unfold builtin in G. rewrite J2 in G. discriminate.
  - rewrite PAR. assert (zlen (b_xfs (xf_epilogue b)) = zlen (b_xfs b)) as -> by (unfold xf_epilogue; cbn [b_xfs with_xftype with_xfs]; apply zlen_map).
    assert (0 <= xf_parent x).
    { assert (T : word_ok (Word 2 (type_bits x))).
      { destruct X as [s1 s2 s3 s4 s5 extra -> WO|o s1 s2 s3 extra BV O NB WO]; rewrite Forall_forall in WO; apply WO; unfold layout8, layout5; cbn [In]; auto. }
      destruct T as [T _]. rewrite Forall_forall in T. destruct (T (12, xf_parent x)) as [_ T']; [unfold type_bits; cbn [In]; auto 6|]. exact (proj1 T'). }
    destruct (xf_is_style x =? 0); cbn [negb orb andb]; [|reflexivity].
    destruct (zlen (b_xfs b) <=? xf_parent x) eqn:Q; [replace (xf_parent x <? zlen (b_xfs b)) with false by lia|replace (xf_parent x <? zlen (b_xfs b)) with true by lia];
      replace (0 <=? xf_parent x) with true by lia; reflexivity.
Qed.
End Opened.
Print Assumptions c89_formats.
Print Assumptions c89_formats_only.
Print Assumptions c89_xfs.

(** A workbook with formatting: a font, a FORMAT record, two XFs, the style Normal. *)
Module Sample.
Definition plain (s : list Z) : ustring := {| us_text := s; us_wide := false; us_opts := 0; us_runs := None; us_phon := None |}.
Definition xf1 : xf := mk_xf 1 0 164 0 0 0 (mk_flags 1 0 1 0 1 0) (mk_alignment 2 1 45 1 3 0 1) (mk_border 1 2 3 4 5 10 11 12 13 14 1 0) (mk_background 1 40 41) (mk_protection 1 0).
Definition format_data : list Z := le_enc 2 164 ++ us_field 2 (plain (s2l "yyyy")).
Definition font_data : list Z := [200; 0; 0x0a; 0; 0xff; 0x7f; 0xbc; 2; 1; 0; 0x21; 2; 0x12; 0; 1; 0; 65].
Definition xf0_data : list Z := repeat 0 20.
Definition xf1_data : list Z := encode (layout8 xf1 0 0 0 0 0).
Definition style_data (id : Z) : list Z := [0; 0x80; id; 0].
Definition records (id : Z) : list (Z * list Z) :=
  [(0x31, font_data); (0x41e, format_data); (0xe0, xf0_data); (0xe0, xf1_data); (0x293, style_data id); (0x8c, [1; 0; 44; 0]);
   (0x85, le_enc 4 0 ++ [0; 0] ++ us_field 1 (plain (s2l "S")))].
Definition bof (kind : Z) : Z * list Z := (0x0809, [0x00; 0x06; kind; 0; 0; 0; 0xcd; 7]).
Definition file (id : Z) : list Z := frame (bof 5) ++ frames (records id) ++ frame (0x0a, []) ++ frame (bof 0x10) ++ frame (0x0a, []).
Definition codec : list Z -> list Z -> result (list Z) := fun _ b => Ok b.
Definition formatting_records (id : Z) : files :=
  [(codec [], RFont font_data); (codec [], RFormat format_data false); (codec [], RXf xf0_data); (codec [], RXf xf1_data); (codec [], RStyle (style_data id))].
Definition opened (id : Z) (fmt : bool) := open_stream codec int_ops (fun s => s) le_val (fun b => Ok (le_val b)) false (fun _ _ _ _ _ => Err XLRDError) 50 (file id) 0 None fmt true.
End Sample.

Example c89_case : workbook (Sample.file 0) 0 80 (Sample.records 0) /\
  lists Sample.codec 80 None None (Sample.records 0) [mk_entry 0 0 0 (s2l "S")] /\
  formatting Sample.codec 80 None None (Sample.records 0) (Sample.formatting_records 0) /\
  defines 80 (Sample.formatting_records 0) [(164, s2l "yyyy")] /\ xf_bytes 80 Sample.xf1 Sample.xf1_data /\
  match Sample.opened 0 true with
  | Ok a => zlen (font_list a) = 1 /\ znth (xf_list a) 1 = Some Sample.xf1 /\ format_map a 164 = Some (mk_format 164 FDT (Some (s2l "yyyy"))) /\
            style_name_map a (s2l "Normal") = Some (1, 0) /\ In 14 (colour_indexes_used a) /\ ~ In 15 (colour_indexes_used a)
  | Err _ => False
  end.
Proof.
  assert (U : us_ok (Sample.plain (s2l "yyyy"))).
  { unfold us_ok. cbn [us_text us_wide us_opts us_runs us_phon Sample.plain]. repeat split; try reflexivity; repeat constructor; discriminate. }
  assert (U' : us_ok (Sample.plain (s2l "S"))).
  { unfold us_ok. cbn [us_text us_wide us_opts us_runs us_phon Sample.plain]. repeat split; try reflexivity; repeat constructor; discriminate. }
  split; [|split; [|split; [|split; [|split]]]].
  - exists 12, [], (skipn (List.length (Sample.file 0) - 16) (Sample.file 0)).
    split; [vm_compute; reflexivity|]. split; [apply Forall_forall; intros [rc d] I; vm_compute in I; repeat (destruct I as [I|I]; [injection I as <- <-; split; cbn; lia|]); destruct I|].
    split; [reflexivity|]. split; [exists (firstn 12 (Sample.file 0)); split; vm_compute; reflexivity|].
    vm_compute. repeat constructor; discriminate.
  - do 6 (apply L_other; [lia|lia|]). apply L_sheet.
    + change (le_enc 4 0 ++ [0; 0] ++ us_field 1 (Sample.plain (s2l "S"))) with (fixed_part (mk_entry 0 0 0 (s2l "S")) ++ us_field 1 (Sample.plain (s2l "S")) ++ []).
      apply Biff8; [lia|repeat split; cbn; lia|exact U'|vm_compute; reflexivity|reflexivity].
    + apply L_nil.
  - do 5 (eapply F_record; [reflexivity|intros; lia|]). do 2 (apply F_other; [reflexivity|lia|]). apply F_end.
  - apply D_other; [discriminate|]. eapply D_format; [repeat constructor; discriminate|unfold u16v; lia|reflexivity| |].
    + right. exists (Sample.plain (s2l "yyyy")), []. rewrite app_nil_r. repeat (split; [first [reflexivity|exact U]|]). reflexivity.
    + do 3 (apply D_other; [discriminate|]). apply D_nil.
  - unfold Sample.xf1_data. rewrite <- (app_nil_r (encode _)). apply Xf8; [reflexivity|]. vm_compute layout8. repeat (apply Forall_cons; [split; [repeat (apply Forall_cons; [split; cbn; lia|]); apply Forall_nil|reflexivity]|]). apply Forall_nil.
  - vm_compute. intuition discriminate.
Qed.

(** A workbook with a built-in style that the reader does not know: with formatting_info
    it cannot be opened. *)
Theorem c88_open_refuted : formatting Sample.codec 80 None None (Sample.records 15) (Sample.formatting_records 15) /\
  Sample.opened 15 true = Err IndexError /\ exists a, Sample.opened 15 false = Ok a.
Proof.
  split; [|split].
  - do 5 (eapply F_record; [reflexivity|intros; lia|]). do 2 (apply F_other; [reflexivity|lia|]). apply F_end.
  - vm_compute. reflexivity.
  - assert (H : match Sample.opened 15 false with Ok _ => true | Err _ => false end = true) by (vm_compute; reflexivity).
    destruct (Sample.opened 15 false) as [a|e]; [eauto|discriminate].
Qed.
Print Assumptions c88_open_refuted.
