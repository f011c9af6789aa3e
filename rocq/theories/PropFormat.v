(** C54: number formats.  C57: XF records after loading.  C58: fonts. *)
From Verif Require Import Base BaseFacts Text Strings GridModel GridFacts SheetObjects SheetModel SheetSteps FormatModel FormatFacts.

Definition decoder : Type := list Z -> result (list Z).
Definition files : Type := list (decoder * frecord).

Lemma frun_app : forall p q b, frun b (p ++ q) = (do b <- frun b p; frun b q).
Proof.
  induction p as [|[d r] p IH]; intros q b; [reflexivity|]. cbn [app frun].
  destruct (fstep d b r); cbn [bind]; [apply IH|reflexivity].
Qed.

Lemma frun_snoc : forall p d r b b', frun b (p ++ [(d, r)]) = Ok b' -> exists b1, frun b p = Ok b1 /\ fstep d b1 r = Ok b'.
Proof.
  intros p d r b b' H. rewrite frun_app in H. apply bind_ok in H as (b1 & E & H). exists b1. split; [exact E|].
  cbn [frun] in H. apply bind_ok in H as (b2 & E2 & H). injection H as <-. exact E2.
Qed.

Lemma palette_loop_same : forall cs b i b', palette_loop b i cs = Ok b' ->
  b_bv b' = b_bv b /\ b_fmt b' = b_fmt b /\ b_fonts b' = b_fonts b /\ b_formats b' = b_formats b /\
  b_format_list b' = b_format_list b /\ b_fmtcount b' = b_fmtcount b /\ b_xfs b' = b_xfs b /\ b_xfcount b' = b_xfcount b /\
  b_xftype b' = b_xftype b.
Proof.
  induction cs as [|c cs IH]; intros b i b' H; cbn [palette_loop] in H.
  - injection H as <-. repeat split.
  - destruct (dget Z.eqb (b_colours b) (8 + i)); [|discriminate]. apply IH in H. exact H.
Qed.

(** What one record leaves alone. *)
Definition rest_same (b b' : fbook) : Prop :=
  b_formats b' = b_formats b /\ b_format_list b' = b_format_list b /\ b_fmtcount b' = b_fmtcount b /\
  b_xfs b' = b_xfs b /\ b_xfcount b' = b_xfcount b /\ b_xftype b' = b_xftype b.

Lemma step_frame : forall d b r b', fstep d b r = Ok b' ->
  b_bv b' = b_bv b /\ b_fmt b' = b_fmt b /\
  match r with RXf _ => True | RFormat _ _ => b_xfs b' = b_xfs b /\ b_xfcount b' = b_xfcount b /\ b_xftype b' = b_xftype b | _ => rest_same b b' end /\
  match r with RFont _ | REfont _ => True | _ => b_fonts b' = b_fonts b end.
Proof.
  intros d b r b' H. destruct r as [data|data|data f2|data|data|data]; cbn [fstep] in H.
  - unfold handle_font in H. destruct (negb (b_fmt b)); [injection H as <-; repeat split|].
    apply bind_ok in H as (f & _ & H). injection H as <-. repeat split.
  - unfold handle_efont in H. destruct (negb (b_fmt b)); [injection H as <-; repeat split|].
    apply bind_ok in H as (f & _ & H). apply bind_ok in H as (u & _ & H). apply bind_ok in H as (cx & _ & H).
    apply bind_ok in H as (fs & _ & H). injection H as <-. repeat split.
  - unfold handle_format in H. cbv zeta in H. apply bind_ok in H as (k & _ & H). apply bind_ok in H as (s & _ & H).
    injection H as <-. repeat split.
  - unfold handle_palette in H. destruct (negb (b_fmt b)); [injection H as <-; repeat split|].
    apply bind_ok in H as (n & _ & H). cbv zeta in H.
    destruct (negb _) in H; [discriminate|].
    apply bind_ok in H as (cs & _ & H). apply bind_ok in H as (u & _ & H).
    apply palette_loop_same in H. unfold rest_same. tauto.
  - unfold handle_style in H. destruct (negb (b_fmt b)); [injection H as <-; repeat split|].
    apply bind_ok in H as (u & _ & H). apply bind_ok in H as (w & _ & H). apply bind_ok in H as (i & _ & H). apply bind_ok in H as (l & _ & H).
    cbv zeta in H. apply bind_ok in H as ((nm & e) & _ & H). injection H as <-. repeat split.
  - apply handle_xf_inv in H as (b0 & x & _ & _ & H). tauto.
Qed.

(** ** C58: fonts *)

(** The FONT records, in order. *)
Fixpoint font_records (rs : files) : list (decoder * list Z) :=
  match rs with
  | [] => []
  | (d, RFont data) :: r => (d, data) :: font_records r
  | _ :: r => font_records r
  end.

Lemma font_records_app : forall p q, font_records (p ++ q) = font_records p ++ font_records q.
Proof. induction p as [|[d r] p IH]; intros q; [reflexivity|]. destruct r; cbn [app font_records]; rewrite IH; reflexivity. Qed.

(** The place of the k-th FONT record. *)
Definition place (k : Z) : Z := if k <? 4 then k else k + 1.

Definition no_efont (rs : files) : bool := forallb (fun '(_, r) => match r with REfont _ => false | _ => true end) rs.

(** The same font, perhaps of another colour. *)
Definition same_but_colour (f g : font) : Prop :=
  f = mk_font (fo_index g) (fo_height g) (fo_bold g) (fo_italic g) (fo_underlined g) (fo_struck_out g) (fo_outline g)
        (fo_shadow g) (fo_colour_index f) (fo_weight g) (fo_escapement g) (fo_underline_type g) (fo_family g)
        (fo_character_set g) (fo_name g).

Lemma same_but_colour_refl : forall f, same_but_colour f f.
Proof. intros []. reflexivity. Qed.

Lemma read_font_index : forall d bv k data f, read_font d bv k data = Ok f -> fo_index f = k.
Proof.
  intros d bv k data f H. unfold read_font in H.
  destruct (bv >=? 50); [|destruct (bv >=? 30)];
    repeat (apply bind_ok in H as (? & _ & H)); injection H as <-; reflexivity.
Qed.

Definition font_inv (bv : Z) (fmt : bool) (rs : files) (b : fbook) : Prop :=
  b_bv b = bv /\ b_fmt b = fmt /\
  if fmt then
    zlen (b_fonts b) = (if zlen (font_records rs) <=? 4 then zlen (font_records rs) else zlen (font_records rs) + 1) /\
    (4 < zlen (b_fonts b) -> znth (b_fonts b) 4 = Some dummy_font) /\
    (forall k d data, znth (font_records rs) k = Some (d, data) ->
       exists f g, read_font d bv (place k) data = Ok f /\ znth (b_fonts b) (place k) = Some g /\ same_but_colour g f /\
                   (no_efont rs = true -> g = f))
  else b_fonts b = [].

Lemma no_efont_app : forall p q, no_efont (p ++ q) = no_efont p && no_efont q.
Proof. intros. unfold no_efont. apply forallb_app. Qed.

Lemma last_set_eq : forall {A} (p : list A) x a, list_set (p ++ [x]) (-1) a = Ok (p ++ [a]).
Proof.
  intros A l y a. unfold list_set. rewrite zlen_app. change (zlen [y]) with 1.
  change (-1 <? 0) with true. cbv iota zeta. pose proof (zlen_nonneg l) as NN.
  replace (-1 + (zlen l + 1)) with (zlen l) by lia.
  replace ((0 <=? zlen l) && (zlen l <? zlen l + 1)) with true by lia. f_equal.
  replace (Z.to_nat (zlen l)) with (List.length l) by (unfold zlen; lia).
  rewrite firstn_app, Nat.sub_diag, firstn_all, app_nil_r. f_equal. f_equal.
  apply skipn_all2. rewrite app_length. cbn [List.length]. lia.
Qed.

Lemma last_set : forall {A} (l : list A) a l', list_set l (-1) a = Ok l' -> exists p x, l = p ++ [x] /\ l' = p ++ [a].
Proof.
  intros A l a l' H. destruct l as [|y l] using rev_ind; [discriminate|]. clear IHl.
  rewrite last_set_eq in H. injection H as <-. exists l, y. split; reflexivity.
Qed.

Lemma same_but_colour_set : forall g f cx, same_but_colour g f ->
  same_but_colour (mk_font (fo_index g) (fo_height g) (fo_bold g) (fo_italic g) (fo_underlined g) (fo_struck_out g)
       (fo_outline g) (fo_shadow g) cx (fo_weight g) (fo_escapement g) (fo_underline_type g) (fo_family g)
       (fo_character_set g) (fo_name g)) f.
Proof. intros g f cx H. unfold same_but_colour in *. rewrite H. reflexivity. Qed.

Lemma font_inv_run : forall bv fmt rs b0 b, fbook0 bv fmt = Ok b0 -> frun b0 rs = Ok b -> font_inv bv fmt rs b.
Proof.
  intros bv fmt rs b0 b F0. revert b. induction rs as [|[d r] rs IH] using rev_ind; intros b H.
  - injection H as <-. unfold fbook0 in F0. apply bind_ok in F0 as (m & _ & F0). injection F0 as <-.
    split; [reflexivity|]. split; [reflexivity|]. destruct fmt; [|reflexivity].
    split; [reflexivity|]. split; [intros X; exfalso; revert X; cbn; lia|].
    intros k d data X. apply znth_Some_range in X. cbn in X. lia.
  - apply frun_snoc in H as (b1 & R & S). destruct (IH b1 R) as (I1 & I2 & I3). clear IH.
    destruct (step_frame _ _ _ _ S) as (S1 & S2 & _ & S4).
    split; [congruence|]. split; [congruence|].
    destruct fmt.
    2: { destruct r; try (rewrite S4; exact I3).
         - cbn [fstep] in S. unfold handle_font in S. rewrite I2 in S. injection S as <-. exact I3.
         - cbn [fstep] in S. unfold handle_efont in S. rewrite I2 in S. injection S as <-. exact I3. }
    destruct I3 as (L & D & K). rewrite font_records_app, no_efont_app.
    destruct r as [data|data|data f2|data|data|data]; cbn [font_records no_efont forallb andb app] in *;
      rewrite ?app_nil_r, ?andb_true_r, ?andb_false_r; try (rewrite S4; split; [exact L|split; [exact D|exact K]]).
    + (* FONT *)
      cbn [fstep] in S. unfold handle_font in S. rewrite I2 in S. cbn [negb] in S. cbv zeta in S.
      set (fs := if zlen (b_fonts b1) =? 4 then b_fonts b1 ++ [dummy_font] else b_fonts b1) in *.
      apply bind_ok in S as (f & RF & S). injection S as <-. cbn [b_fonts with_fonts].
      set (n := zlen (font_records rs)) in *. pose proof (zlen_nonneg (font_records rs)).
      assert (LF : zlen fs = place n).
      { subst fs. unfold place. destruct (zlen (b_fonts b1) =? 4) eqn:E; rewrite ?zlen_app, L.
        - change (zlen [dummy_font]) with 1. destruct (n <=? 4) eqn:E1; destruct (n <? 4) eqn:E2; lia.
        - destruct (n <=? 4) eqn:E1; destruct (n <? 4) eqn:E2; lia. }
      assert (OLD : forall i, 0 <= i < zlen (b_fonts b1) -> znth (fs ++ [f]) i = znth (b_fonts b1) i).
      { intros i I. subst fs. destruct (zlen (b_fonts b1) =? 4).
        - rewrite <- app_assoc. apply znth_app_l. exact I.
        - apply znth_app_l. exact I. }
      split; [|split].
      * rewrite !zlen_app, LF. unfold place. change (zlen [f]) with 1. change (zlen [(d, data)]) with 1. fold n.
        destruct (n <? 4) eqn:E1; destruct (n + 1 <=? 4) eqn:E2; lia.
      * intros X. destruct (Z.eq_dec (zlen (b_fonts b1)) 4) as [E|E].
        -- subst fs. rewrite (proj2 (Z.eqb_eq _ _) E). rewrite <- app_assoc, znth_app_r by lia. rewrite E. reflexivity.
        -- destruct (Z_lt_ge_dec 4 (zlen (b_fonts b1))).
           ++ rewrite OLD by lia. apply D. lia.
           ++ exfalso. rewrite zlen_app, LF in X. change (zlen [f]) with 1 in X. unfold place in X.
              destruct (n <? 4) eqn:E1; destruct (n <=? 4) eqn:E2; lia.
      * intros k d' data' X. pose proof (znth_Some_range _ _ _ X) as KR. rewrite zlen_app in KR. fold n in KR. change (zlen [(d, data)]) with 1 in KR.
        destruct (Z.eq_dec k n) as [->|NE].
        -- unfold n in X at 1. rewrite znth_app_r in X by (fold n; lia). rewrite Z.sub_diag in X. injection X as <- <-.
           exists f, f. rewrite <- LF, <- I1. split; [exact RF|]. split; [|split; [apply same_but_colour_refl|reflexivity]].
           rewrite znth_app_r by lia. rewrite Z.sub_diag. reflexivity.
        -- rewrite znth_app_l in X by (fold n; lia). destruct (K k d' data' X) as (f' & g & K1 & K2 & K3 & K4).
           exists f', g. split; [exact K1|]. split; [|split; [exact K3|exact K4]].
           rewrite OLD by (apply znth_Some_range in K2; exact K2). exact K2.
    + (* EFONT *)
      cbn [fstep] in S. unfold handle_efont in S. rewrite I2 in S. cbn [negb] in S.
      apply bind_ok in S as (g & G & S). apply bind_ok in S as (u & _ & S). apply bind_ok in S as (cx & _ & S).
      apply bind_ok in S as (fs & FS & S). injection S as <-. cbn [b_fonts with_fonts].
      apply last_set in FS as (p & x & E1 & E2).
      assert (GX : g = x).
      { rewrite E1 in G. unfold py_index in G. rewrite zlen_app in G. change (zlen [x]) with 1 in G. pose proof (zlen_nonneg p).
        replace (-1 <? 0) with true in G by reflexivity. rewrite znth_app_r in G by lia.
        replace (-1 + (zlen p + 1) - zlen p) with 0 in G by lia. cbn in G. congruence. }
      subst g. rewrite E1 in *. subst fs. rewrite !zlen_app in *. change (zlen [x]) with 1 in *.
      match goal with |- context [p ++ [?y]] => set (x' := y) in * end. change (zlen [x']) with 1.
      split; [exact L|]. pose proof (zlen_nonneg p). split.
      * intros X. specialize (D X). destruct (Z.eq_dec (zlen p) 4) as [E|E].
        -- exfalso. destruct (zlen (font_records rs) <=? 4) eqn:Q; lia.
        -- rewrite znth_app_l in * by lia. exact D.
      * intros k d' data' X. destruct (K k d' data' X) as (f' & g & K1 & K2 & K3 & K4).
        destruct (Z.eq_dec (place k) (zlen p)) as [E|E].
        -- exists f', x'. split; [exact K1|]. rewrite E in K2 |- *. rewrite znth_app_r, Z.sub_diag in * by lia.
           injection K2 as ->. split; [reflexivity|]. split; [apply same_but_colour_set; exact K3|discriminate].
        -- exists f', g. split; [exact K1|]. split; [|split; [exact K3|discriminate]].
           pose proof (znth_Some_range _ _ _ K2) as KR. rewrite zlen_app in KR. change (zlen [x]) with 1 in KR.
           rewrite znth_app_l in * by lia. exact K2.
Qed.

(** Positions and indexes of the fonts, with formatting information. *)
Theorem c58_fonts : forall bv rs b0 b, fbook0 bv true = Ok b0 -> frun b0 rs = Ok b ->
  zlen (b_fonts b) = (if zlen (font_records rs) <=? 4 then zlen (font_records rs) else zlen (font_records rs) + 1) /\
  (forall i f, znth (b_fonts b) i = Some f -> fo_index f = i) /\
  (4 < zlen (b_fonts b) -> znth (b_fonts b) 4 = Some dummy_font) /\
  (forall k d data, znth (font_records rs) k = Some (d, data) ->
     exists f g, read_font d bv (place k) data = Ok f /\ znth (b_fonts b) (place k) = Some g /\ same_but_colour g f /\
                 (no_efont rs = true -> g = f)).
Proof.
  intros bv rs b0 b F R. destruct (font_inv_run _ _ _ _ _ F R) as (_ & _ & L & D & K).
  split; [exact L|]. split; [|split; [exact D|exact K]].
  intros i f N. pose proof (znth_Some_range _ _ _ N) as I. set (n := zlen (font_records rs)) in *.
  destruct (Z.eq_dec i 4) as [->|E].
  - rewrite D in N by lia. injection N as <-. reflexivity.
  - assert (X : exists k, 0 <= k < n /\ i = place k).
    { unfold place. destruct (Z_lt_ge_dec i 4) as [I4|I4].
      - exists i. replace (i <? 4) with true by lia. destruct (n <=? 4) eqn:E2; lia.
      - exists (i - 1). replace (i - 1 <? 4) with false by lia. destruct (n <=? 4) eqn:E2; lia. }
    destruct X as (k & KR & ->). destruct (znth_in_range _ _ KR) as ((d & data) & X).
    destruct (K k d data X) as (f' & g & K1 & K2 & K3 & _). rewrite K2 in N. injection N as <-.
    rewrite K3. cbn [fo_index]. apply read_font_index in K1. exact K1.
Qed.
Print Assumptions c58_fonts.

(** The font that no record describes is plain: no attribute, weight 400. *)
Theorem c58_dummy : forall bv rs b0 b, fbook0 bv true = Ok b0 -> frun b0 rs = Ok b -> 4 < zlen (b_fonts b) ->
  exists f, znth (b_fonts b) 4 = Some f /\ fo_name f = s2l "Dummy Font" /\ fo_weight f = 400 /\
    [fo_index f; fo_height f; fo_bold f; fo_italic f; fo_underlined f; fo_struck_out f; fo_outline f; fo_shadow f; fo_colour_index f;
     fo_escapement f; fo_underline_type f; fo_family f; fo_character_set f] = [4; 0; 0; 0; 0; 0; 0; 0; 0; 0; 0; 0; 0].
Proof.
  intros bv rs b0 b F R L. destruct (c58_fonts _ _ _ _ F R) as (_ & _ & D & _). exists dummy_font. split; [exact (D L)|]. repeat split.
Qed.
Print Assumptions c58_dummy.

(** Without formatting information there is no font list. *)
Theorem c58_no_formatting : forall bv rs b0 b, fbook0 bv false = Ok b0 -> frun b0 rs = Ok b -> b_fonts b = [].
Proof. intros bv rs b0 b F R. destruct (font_inv_run _ _ _ _ _ F R) as (_ & _ & L). exact L. Qed.
Print Assumptions c58_no_formatting.

(** An EFONT record sets the colour of the font before it. *)
Theorem c58_efont : forall b cx p f, b_fmt b = true -> 0 <= cx < 65536 -> b_fonts b = p ++ [f] ->
  exists g, handle_efont b (le_enc 2 cx) = Ok (with_fonts b (p ++ [g])) /\ same_but_colour g f /\ fo_colour_index g = cx.
Proof.
  intros b cx p f F C E. unfold handle_efont. rewrite F, E. cbn [negb].
  assert (I : py_index (p ++ [f]) (-1) = Ok f).
  { unfold py_index. change (-1 <? 0) with true. cbv iota zeta. rewrite zlen_app. change (zlen [f]) with 1.
    replace (-1 + (zlen p + 1)) with (zlen p) by lia. rewrite znth_app_r, Z.sub_diag by lia. reflexivity. }
  rewrite I. cbn [bind]. rewrite zlen_le_enc. cbn [guard Z.eqb bind].
  replace (unpack_u16 (le_enc 2 cx) 0) with (@Ok Z cx).
  2: { symmetry. apply (At_u16 (le_enc 2 cx) [] cx 0); [rewrite app_nil_r; apply At_0|exact C]. }
  cbn [bind]. rewrite last_set_eq. cbn [bind]. eexists. split; [reflexivity|]. split; reflexivity.
Qed.
Print Assumptions c58_efont.

Example c58_case :
  match (do b0 <- fbook0 21 true;
         frun b0 (map (fun r => (fun s => Ok s, r))
             [RFont [200; 0; 1; 0; 1; 65]; RFont [200; 0; 0; 0; 1; 66]; REfont [9; 0]; RFont [200; 0; 0; 0; 1; 67];
              RFont [200; 0; 0; 0; 1; 68]; RFont [200; 0; 0; 0; 1; 69]])) with
  | Ok b => map (fun f => (fo_index f, fo_colour_index f, fo_name f)) (b_fonts b) =
    [(0, 0x7FFF, s2l "A"); (1, 9, s2l "B"); (2, 0x7FFF, s2l "C"); (3, 0x7FFF, s2l "D"); (4, 0, s2l "Dummy Font"); (5, 0x7FFF, s2l "E")]
  | Err _ => False
  end.
Proof. vm_compute. reflexivity. Qed.

(** ** C54: number formats *)

(** The FORMAT records, in order; the flag marks the old record type 0x1E. *)
Fixpoint format_records (rs : files) : list (decoder * list Z * bool) :=
  match rs with
  | [] => []
  | (d, RFormat data old) :: r => (d, data, old) :: format_records r
  | _ :: r => format_records r
  end.

Fixpoint xf_records (rs : files) : list (list Z) :=
  match rs with
  | [] => []
  | (_, RXf data) :: r => data :: xf_records r
  | _ :: r => xf_records r
  end.

Lemma format_records_app : forall p q, format_records (p ++ q) = format_records p ++ format_records q.
Proof. induction p as [|[d r] p IH]; intros q; [reflexivity|]. destruct r; cbn [app format_records]; rewrite IH; reflexivity. Qed.

Lemma xf_records_app : forall p q, xf_records (p ++ q) = xf_records p ++ xf_records q.
Proof. induction p as [|[d r] p IH]; intros q; [reflexivity|]. destruct r; cbn [app xf_records]; rewrite IH; reflexivity. Qed.

(** The key and the text that the n-th FORMAT record of a file gives. *)
Definition says (bv n : Z) (r : decoder * list Z * bool) (k : Z) (s : list Z) : Prop :=
  let '(d, data, old) := r in
  if old || (bv <=? 30) then
    if old && (30 <? bv) || (bv <=? 30) then k = n /\ unpack_string d data 0 1 = Ok s else False
  else if bv <? 50 then k = n /\ unpack_string d data 2 1 = Ok s
  else if bv <? 80 then unpack_u16 data 0 = Ok k /\ unpack_string d data 2 1 = Ok s
  else unpack_u16 data 0 = Ok k /\ unpack_unicode data 2 2 = Ok s.

(** The type and the text of the formats that are always there. *)
Definition within (k : Z) (rs : list (Z * Z)) : bool := existsb (fun '(lo, hi) => (lo <=? k) && (k <=? hi)) rs.

Definition builtin_type (k : Z) : option Z :=
  if k =? 0 then Some FGE
  else if k =? 49 then Some FTX
  else if within k [(14, 22); (27, 36); (45, 47); (50, 58); (71, 81)] then Some FDT
  else if within k [(1, 13); (37, 44); (48, 48); (59, 62); (67, 70)] then Some FNU
  else None.

Definition builtin (k : Z) : option format :=
  option_map (fun ty => mk_format k ty (dget Z.eqb std_format_strings k)) (builtin_type k).

Lemma dget_range : forall n lo hi (ty : Z) r k, Z.to_nat (hi - lo) = n ->
  dget Z.eqb (map (fun x => (x, ty)) (zrange lo hi) ++ r) k = if (lo <=? k) && (k <? hi) then Some ty else dget Z.eqb r k.
Proof.
  induction n as [|n IH]; intros lo hi ty r k N.
  - rewrite (zrange_nil lo hi) by lia. replace ((lo <=? k) && (k <? hi)) with false by lia. reflexivity.
  - rewrite (zrange_cons lo hi) by lia. cbn [map app dget]. rewrite IH by lia.
    destruct (k =? lo) eqn:E.
    + replace ((lo <=? k) && (k <? hi)) with true by lia. reflexivity.
    + replace ((lo + 1 <=? k) && (k <? hi)) with ((lo <=? k) && (k <? hi)) by lia. reflexivity.
Qed.

Lemma std_types : forall k, dget Z.eqb std_format_code_types k = builtin_type k.
Proof.
  intros k. unfold std_format_code_types, fmt_code_ranges. cbn [flat_map].
  rewrite !(dget_range _ _ _ _ _ _ eq_refl). cbn [dget]. unfold builtin_type, within. cbn [existsb].
  destruct (Z.eq_dec k 0) as [->|]; [reflexivity|]. destruct (Z.eq_dec k 49) as [->|]; [reflexivity|].
  repeat match goal with |- context [if ?c then _ else _] => let E := fresh in destruct c eqn:E end; try reflexivity; exfalso; lia.
Qed.

Lemma fill_lookup : forall l m k,
  dget Z.eqb (fold_left (fun m '(x, ty) => match dget Z.eqb m x with Some _ => m | None => dset m x (mk_format x ty (dget Z.eqb std_format_strings x)) end) l m) k =
  match dget Z.eqb m k with
  | Some f => Some f
  | None => option_map (fun ty => mk_format k ty (dget Z.eqb std_format_strings k)) (dget Z.eqb l k)
  end.
Proof.
  induction l as [|[x ty] l IH]; intros m k; [cbn; destruct (dget Z.eqb m k); reflexivity|].
  cbn [fold_left]. rewrite IH. cbn [dget]. destruct (dget Z.eqb m x) as [f|] eqn:E.
  - destruct (dget Z.eqb m k) eqn:E2; [reflexivity|]. destruct (k =? x) eqn:K; [|reflexivity].
    apply Z.eqb_eq in K. subst. congruence.
  - unfold dset. cbn [dget]. destruct (k =? x) eqn:K; [|reflexivity]. apply Z.eqb_eq in K. subst k. rewrite E. reflexivity.
Qed.

Lemma fill_formats : forall b k, dget Z.eqb (b_formats (fill_in_standard_formats b)) k =
  match dget Z.eqb (b_formats b) k with Some f => Some f | None => builtin k end.
Proof.
  intros b k. unfold fill_in_standard_formats. cbn [b_formats with_formats]. rewrite fill_lookup, std_types. reflexivity.
Qed.

(** The definition in force for a key: that of the last FORMAT record with the key, or
    else the standard one. *)
Definition in_force (bv : Z) (xfs : Z) (given : list format) (k : Z) : option format :=
  match find (fun f => fm_key f =? k) (rev given) with
  | Some f => Some f
  | None => if (50 <=? bv) && (0 <? xfs) then builtin k else None
  end.

Definition format_inv (bv : Z) (rs : files) (b : fbook) : Prop :=
  b_bv b = bv /\
  b_fmtcount b = zlen (format_records rs) /\ zlen (b_format_list b) = zlen (format_records rs) /\
  b_xfcount b = zlen (xf_records rs) /\ zlen (b_xfs b) = zlen (xf_records rs) /\
  (forall n r, znth (format_records rs) n = Some r ->
     exists k s, says bv n r k s /\ znth (b_format_list b) n = Some (mk_format k (if is_date_format_string s then FDT else FGE) (Some s))) /\
  (forall k, dget Z.eqb (b_formats b) k = in_force bv (zlen (xf_records rs)) (b_format_list b) k).

Lemma fbook0_inv : forall bv fmt b0, fbook0 bv fmt = Ok b0 -> format_inv bv [] b0.
Proof.
  intros bv fmt b0 F0. unfold fbook0 in F0. apply bind_ok in F0 as (m & _ & F0). injection F0 as <-.
  split; [reflexivity|]. split; [reflexivity|]. split; [reflexivity|]. split; [reflexivity|]. split; [reflexivity|]. split.
  - intros n r H. apply znth_Some_range in H. cbn in H. lia.
  - intros k. unfold in_force. cbn. rewrite andb_false_r. reflexivity.
Qed.

Lemma format_inv_run : forall bv fmt rs b0 b, fbook0 bv fmt = Ok b0 -> frun b0 rs = Ok b -> format_inv bv rs b.
Proof.
  intros bv fmt rs b0 b F0. revert b. induction rs as [|[d r] rs IH] using rev_ind; intros b H.
  - injection H as <-. apply fbook0_inv in F0. exact F0.
  - apply frun_snoc in H as (b1 & R & S). destruct (IH b1 R) as (I1 & I2 & I3 & I4 & I5 & I6 & I7). clear IH.
    destruct (step_frame _ _ _ _ S) as (S1 & S2 & S3 & _).
    unfold format_inv. rewrite format_records_app, xf_records_app.
    destruct r as [data|data|data f2|data|data|data]; cbn [format_records xf_records];
      try (rewrite !app_nil_r; destruct S3 as (Q1 & Q2 & Q3 & Q4 & Q5 & Q6); rewrite S1, Q1, Q2, Q3, Q4, Q5;
           split; [exact I1|]; split; [exact I2|]; split; [exact I3|]; split; [exact I4|]; split; [exact I5|]; split; [exact I6|exact I7]).
    + (* FORMAT *)
      rewrite app_nil_r. destruct S3 as (Q4 & Q5 & Q6). rewrite S1, Q4, Q5, !zlen_app.
      cbn [fstep] in S. unfold handle_format in S. cbv zeta in S.
      apply bind_ok in S as (k & K & S). apply bind_ok in S as (s & ST & S). injection S as <-.
      cbn [b_fmtcount b_format_list b_formats with_format_list with_formats with_fmtcount] in *.
      rewrite zlen_app. change (zlen [(d, data, f2)]) with 1.
      match goal with |- context [b_format_list b1 ++ [?g]] => set (f := g) in * end. change (zlen [f]) with 1.
      split; [exact I1|]. split; [lia|]. split; [lia|]. split; [exact I4|]. split; [exact I5|]. split.
      * intros n r H. pose proof (znth_Some_range _ _ _ H) as NR. rewrite zlen_app in NR. change (zlen [(d, data, f2)]) with 1 in NR.
        destruct (Z.eq_dec n (zlen (format_records rs))) as [->|NE].
        -- rewrite znth_app_r, Z.sub_diag in H by lia. injection H as <-. exists k, s. split.
           ++ unfold says. rewrite I1 in K, ST. rewrite <- I2. destruct f2; cbn [orb andb].
              ** replace ((30 <? bv) || (bv <=? 30)) with true by lia.
                 replace (Z.min bv 30 >=? 50) with false in K by lia. injection K as <-. split; [reflexivity|].
                 replace (Z.min bv 30 >=? 80) with false in ST by lia.
                 replace ((Z.min bv 30 <? 50) && (Z.min bv 30 <=? 30)) with true in ST by lia. exact ST.
              ** destruct (bv <=? 30) eqn:E30.
                 --- replace (bv >=? 50) with false in K by lia. injection K as <-. split; [reflexivity|].
                     replace (bv >=? 80) with false in ST by lia. replace ((bv <? 50) && true) with true in ST by lia. exact ST.
                 --- replace ((bv <? 50) && false) with false in ST by lia. destruct (bv <? 50) eqn:E50.
                     +++ replace (bv >=? 50) with false in K by lia. injection K as <-. split; [reflexivity|].
                         replace (bv >=? 80) with false in ST by lia. exact ST.
                     +++ replace (bv >=? 50) with true in K by lia. destruct (bv <? 80) eqn:E80.
                         *** replace (bv >=? 80) with false in ST by lia. split; assumption.
                         *** replace (bv >=? 80) with true in ST by lia. split; assumption.
           ++ rewrite znth_app_r by lia. rewrite I3, Z.sub_diag. reflexivity.
        -- rewrite znth_app_l in H by lia. destruct (I6 n r H) as (k' & s' & A & B). exists k', s'. split; [exact A|].
           rewrite znth_app_l by lia. exact B.
      * intros k'. unfold dset, in_force. cbn [dget]. rewrite rev_app_distr. cbn [rev app find].
        change (fm_key f) with k. rewrite (Z.eqb_sym k' k). destruct (k =? k') eqn:E; [apply Z.eqb_eq in E; subst; reflexivity|].
        rewrite I7. reflexivity.
    + (* XF *)
      rewrite app_nil_r. rewrite S1. apply handle_xf_inv in S as (b2 & x & E0 & _ & _ & _ & _ & _ & _ & E1 & E2 & E3 & E4 & E5 & _).
      rewrite E1, E2, E3, E4, E5, !zlen_app. change (zlen [data]) with 1.
      split; [exact I1|]. split; [exact I2|]. split; [exact I3|]. split; [lia|]. split; [rewrite I5; reflexivity|]. split; [exact I6|].
      intros k. pose proof (zlen_nonneg (xf_records rs)). subst b2. rewrite I1, I4.
      destruct ((bv >=? 50) && (zlen (xf_records rs) =? 0)) eqn:E.
      * rewrite fill_formats, I7. unfold in_force.
        replace ((50 <=? bv) && (0 <? zlen (xf_records rs) + 1)) with true by lia.
        replace ((50 <=? bv) && (0 <? zlen (xf_records rs))) with false by lia.
        destruct (find _ _); reflexivity.
      * rewrite I7. unfold in_force.
        replace ((50 <=? bv) && (0 <? zlen (xf_records rs) + 1)) with ((50 <=? bv) && (0 <? zlen (xf_records rs))) by lia. reflexivity.
Qed.

(** [format_list] has one entry for each FORMAT record, with the key and the text of the
    record and the type that the text has. *)
Theorem c54_format_list : forall bv fmt rs b0 b, fbook0 bv fmt = Ok b0 -> frun b0 rs = Ok b ->
  zlen (b_format_list b) = zlen (format_records rs) /\
  (forall n r, znth (format_records rs) n = Some r ->
     exists k s, says bv n r k s /\ znth (b_format_list b) n = Some (mk_format k (if is_date_format_string s then FDT else FGE) (Some s))).
Proof. intros bv fmt rs b0 b F R. destruct (format_inv_run _ _ _ _ _ F R) as (_ & _ & I3 & _ & _ & I6 & _). split; assumption. Qed.
Print Assumptions c54_format_list.

(** [format_map]: the last FORMAT record with the key, else the standard format once
    an XF record has been read. *)
Theorem c54_format_map : forall bv fmt rs b0 b, fbook0 bv fmt = Ok b0 -> frun b0 rs = Ok b ->
  forall k, dget Z.eqb (b_formats b) k = in_force bv (zlen (xf_records rs)) (b_format_list b) k.
Proof. intros bv fmt rs b0 b F R. destruct (format_inv_run _ _ _ _ _ F R) as (_ & _ & _ & _ & _ & _ & I7). exact I7. Qed.
Print Assumptions c54_format_map.

(** Hence, for BIFF5 and later, every standard code is defined. *)
Theorem c54_standard : forall bv fmt rs b0 b k ty, fbook0 bv fmt = Ok b0 -> frun b0 rs = Ok b -> 50 <= bv -> xf_records rs <> [] ->
  builtin_type k = Some ty -> exists f, dget Z.eqb (b_formats b) k = Some f.
Proof.
  intros bv fmt rs b0 b k ty F R BV NE T. rewrite (c54_format_map _ _ _ _ _ F R). unfold in_force.
  destruct (find _ _); [eexists; reflexivity|].
  destruct (xf_records rs); [contradiction|]. rewrite zlen_cons. pose proof (zlen_nonneg l0).
  replace ((50 <=? bv) && (0 <? 1 + zlen l0)) with true by lia. unfold builtin. rewrite T. eexists. reflexivity.
Qed.
Print Assumptions c54_standard.

(** Type and text of a standard format, as documented: 1 is a date, 2 a number, 3 is
    General and 4 is text.  The texts are those of Excel in the USA; some are not known. *)
Definition texts (first : Z) (l : list string) (k : Z) : option (list Z) := option_map s2l (znth l (k - first)).
Definition documented (k : Z) : option (Z * option (list Z)) :=
  if k <? 0 then None
  else if k <? 1 then Some (3, Some (s2l "General"))
  else if k <? 14 then Some (2, texts 1 ["0"; "0.00"; "#,##0"; "#,##0.00"; "$#,##0_);($#,##0)"; "$#,##0_);[Red]($#,##0)";
    "$#,##0.00_);($#,##0.00)"; "$#,##0.00_);[Red]($#,##0.00)"; "0%"; "0.00%"; "0.00E+00"; "# ?/?"; "# ??/??"]%string k)
  else if k <? 23 then Some (1, texts 14 ["m/d/yy"; "d-mmm-yy"; "d-mmm"; "mmm-yy"; "h:mm AM/PM"; "h:mm:ss AM/PM"; "h:mm"; "h:mm:ss"; "m/d/yy h:mm"]%string k)
  else if k <? 27 then None
  else if k <? 37 then Some (1, None)
  else if k <? 45 then Some (2, texts 37 ["#,##0_);(#,##0)"; "#,##0_);[Red](#,##0)"; "#,##0.00_);(#,##0.00)"; "#,##0.00_);[Red](#,##0.00)";
    "_(* #,##0_);_(* (#,##0);_(* ""-""_);_(@_)"; "_($* #,##0_);_($* (#,##0);_($* ""-""_);_(@_)";
    "_(* #,##0.00_);_(* (#,##0.00);_(* ""-""??_);_(@_)"; "_($* #,##0.00_);_($* (#,##0.00);_($* ""-""??_);_(@_)"]%string k)
  else if k <? 48 then Some (1, texts 45 ["mm:ss"; "[h]:mm:ss"; "mm:ss.0"]%string k)
  else if k <? 49 then Some (2, Some (s2l "##0.0E+0"))
  else if k <? 50 then Some (4, Some (s2l "@"))
  else if k <? 59 then Some (1, None)
  else if k <? 63 then Some (2, None)
  else if k <? 67 then None
  else if k <? 71 then Some (2, None)
  else if k <? 82 then Some (1, None)
  else None.

Lemma builtin_documented : forall k, builtin k = option_map (fun '(ty, t) => mk_format k ty t) (documented k).
Proof.
  assert (OUT : forall k, k < 0 \/ 82 <= k -> builtin k = None /\ documented k = None).
  { intros k O. unfold documented, builtin, builtin_type, within. cbn [existsb].
    split.
    - repeat match goal with |- context [k =? ?n] => replace (k =? n) with false by lia end.
      repeat match goal with |- context [(?a <=? k) && (k <=? ?n)] => replace ((a <=? k) && (k <=? n)) with false by lia end. reflexivity.
    - destruct O; [replace (k <? 0) with true by lia; reflexivity|].
      repeat match goal with |- context [k <? ?n] => replace (k <? n) with false by lia end. reflexivity. }
  intros k. destruct (Z_lt_ge_dec k 0) as [L|L]; [destruct (OUT k ltac:(lia)) as [-> ->]; reflexivity|].
  destruct (Z_lt_ge_dec k 82) as [U|U]; [|destruct (OUT k ltac:(lia)) as [-> ->]; reflexivity].
  assert (A : forallb (fun k => match builtin k, documented k with
      | Some f, Some (ty, t) => (fm_key f =? k) && (fm_type f =? ty) && match fm_str f, t with Some a, Some b => list_eqb a b | None, None => true | _, _ => false end
      | None, None => true | _, _ => false end) (zrange 0 82) = true) by (vm_compute; reflexivity).
  rewrite forallb_forall in A. specialize (A k ltac:(apply in_zrange; lia)).
  destruct (builtin k) as [[x ty s]|], (documented k) as [[ty' t]|]; try discriminate; [|reflexivity]. cbn in A |- *.
  assert (x = k) as -> by lia. assert (ty = ty') as -> by lia. f_equal. f_equal.
  destruct s, t; try (rewrite ?andb_false_r in A; discriminate); [|reflexivity]. apply andb_prop in A as [_ A]. apply list_eqb_eq in A. subst. reflexivity.
Qed.

(** Every format that is not defined in the workbook is the documented one. *)
Theorem c54_documented : forall bv fmt rs b0 b k, fbook0 bv fmt = Ok b0 -> frun b0 rs = Ok b -> 50 <= bv -> xf_records rs <> [] ->
  (forall f, In f (b_format_list b) -> fm_key f <> k) ->
  dget Z.eqb (b_formats b) k = option_map (fun '(ty, t) => mk_format k ty t) (documented k).
Proof.
  intros bv fmt rs b0 b k F R BV NE NO. rewrite (c54_format_map _ _ _ _ _ F R). unfold in_force.
  destruct (find _ _) as [f|] eqn:FI.
  - apply find_some in FI as [I K]. exfalso. apply (NO f); [apply in_rev; exact I|lia].
  - destruct (xf_records rs); [contradiction|]. rewrite zlen_cons. pose proof (zlen_nonneg l0).
    replace ((50 <=? bv) && (0 <? 1 + zlen l0)) with true by lia. apply builtin_documented.
Qed.
Print Assumptions c54_documented.

(** The types of the standard formats agree with their texts. *)
Theorem c54_consistent : forall k s ty, dget Z.eqb std_format_strings k = Some s -> builtin_type k = Some ty ->
  (ty = FDT <-> is_date_format_string s = true).
Proof.
  intros k s ty S T.
  assert (A : forallb (fun '(k, s) => match builtin_type k with Some ty => Bool.eqb (ty =? FDT) (is_date_format_string s) | None => false end)
                std_format_strings = true) by reflexivity.
  assert (D : forall (l : list (Z * list Z)) k s, dget Z.eqb l k = Some s -> In (k, s) l).
  { induction l as [|[k' s'] l IH]; intros k0 s0 H; [discriminate|]. cbn [dget] in H. destruct (k0 =? k') eqn:E.
    - apply Z.eqb_eq in E. injection H as <-. subst. left. reflexivity.
    - right. apply IH. exact H. }
  rewrite forallb_forall in A. specialize (A (k, s) (D _ _ _ S)). cbv beta iota in A. rewrite T in A. apply eqb_prop in A.
  rewrite <- A. symmetry. apply Z.eqb_eq.
Qed.
Print Assumptions c54_consistent.

(** The own definition of code 14 as "0.0" stands against the standard date format, and code 15
    and the rest are standard. *)
Example c54_case :
  match (do b0 <- fbook0 70 false;
         frun b0 (map (fun r => (fun s => Ok s, r))
             [RFormat [14; 0; 3; 48; 46; 48] false; RXf (zrepeat 0 16); RFormat [164; 0; 2; 121; 121] false])) with
  | Ok b => dget Z.eqb (b_formats b) 14 = Some (mk_format 14 FGE (Some (s2l "0.0"))) /\
            dget Z.eqb (b_formats b) 15 = Some (mk_format 15 FDT (Some (s2l "d-mmm-yy"))) /\
            dget Z.eqb (b_formats b) 164 = Some (mk_format 164 FDT (Some (s2l "yy"))) /\
            dget Z.eqb (b_formats b) 90 = None
  | Err _ => False
  end.
Proof. vm_compute. repeat split. Qed.

(** ** C57: XF records *)

Lemma read_xf_index : forall bv i data x, read_xf bv i data = Ok x -> xf_index x = i.
Proof.
  intros bv i data x H. unfold read_xf in H.
  destruct (bv >=? 80); [|destruct (bv >=? 50); [|destruct (bv >=? 40); [|destruct (bv =? 30); [|destruct (bv =? 21); [|discriminate]]]]];
    unfold read_xf80, read_xf50, read_xf40, read_xf30, read_xf21 in H;
    repeat match type of H with
    | bind _ _ = Ok _ => apply bind_ok in H as (? & _ & H)
    | (let '(_, _) := ?p in _) = Ok _ => destruct p
    | _ => progress cbv zeta in H
    end; injection H as <-; reflexivity.
Qed.

(** The same XF, perhaps with another format key or parent. *)
Definition same_xf (x y : xf) : Prop :=
  x = mk_xf (xf_index y) (xf_font y) (xf_format_key x) (xf_is_style y) (xf_lotus y) (xf_parent x) (xf_flags y) (xf_alignment y)
        (xf_border y) (xf_background y) (xf_protection y).

Definition format_type_ok (f : format) : Prop := In (fm_type f) [FDT; FGE; FNU; FTX].

Lemma builtin_type_ok : forall k ty, builtin_type k = Some ty -> In ty [FDT; FGE; FNU; FTX].
Proof.
  intros k ty H. unfold builtin_type in H.
  repeat match type of H with (if ?c then _ else _) = _ => destruct c end; try discriminate; injection H as <-; cbn; auto.
Qed.

Lemma formats_ok : forall bv fmt rs b0 b k f, fbook0 bv fmt = Ok b0 -> frun b0 rs = Ok b -> dget Z.eqb (b_formats b) k = Some f -> format_type_ok f.
Proof.
  intros bv fmt rs b0 b k f F R H. destruct (format_inv_run _ _ _ _ _ F R) as (_ & _ & L & _ & _ & I6 & I7).
  rewrite I7 in H. unfold in_force in H. destruct (find _ _) eqn:E.
  - injection H as ->. apply find_some in E as [E _]. apply in_rev in E. apply In_nth_error in E as (n & E).
    assert (Z1 : znth (b_format_list b) (Z.of_nat n) = Some f).
    { unfold znth. replace (Z.of_nat n <? 0) with false by lia. rewrite Nat2Z.id. exact E. }
    pose proof (znth_Some_range _ _ _ Z1) as NR. rewrite L in NR. destruct (znth_in_range _ _ NR) as (r & RR).
    destruct (I6 _ _ RR) as (k' & s & _ & B). rewrite Z1 in B. injection B as ->.
    unfold format_type_ok. cbn [fm_type]. destruct (is_date_format_string s); cbn; auto.
  - destruct ((50 <=? bv) && (0 <? zlen (xf_records rs))); [|discriminate]. unfold builtin in H.
    destruct (builtin_type k) as [ty|] eqn:T; [|discriminate]. injection H as <-. apply builtin_type_ok in T. exact T.
Qed.

Definition xf_inv (bv : Z) (fmt : bool) (b0 : fbook) (rs : files) (b : fbook) : Prop :=
  b_fmt b = fmt /\
  (forall i x, znth (b_xfs b) i = Some x -> xf_index x = i) /\
  (forall p d data q, rs = p ++ (d, RXf data) :: q ->
     exists b1 y, frun b0 p = Ok b1 /\ read_xf bv (zlen (xf_records p)) data = Ok y /\
       znth (b_xfs b) (zlen (xf_records p)) =
         Some (match in_force bv (zlen (xf_records p) + 1) (b_format_list b1) (xf_format_key y) with Some _ => y | None => set_key y 0 end)).

Lemma snoc_split : forall {A} (rs : list A) a p e q, rs ++ [a] = p ++ e :: q ->
  (q = [] /\ p = rs /\ e = a) \/ (exists q', q = q' ++ [a] /\ rs = p ++ e :: q').
Proof.
  intros A rs a p e q H. destruct q as [|z q] using rev_ind.
  - apply app_inj_tail in H as [-> ->]. left. repeat split.
  - clear IHq. right. exists q. rewrite app_comm_cons, app_assoc in H. apply app_inj_tail in H as [-> ->]. split; reflexivity.
Qed.

Lemma frun_bv : forall rs b0 b, frun b0 rs = Ok b -> b_bv b = b_bv b0 /\ b_fmt b = b_fmt b0.
Proof.
  induction rs as [|[d r] rs IH]; intros b0 b H; [injection H as <-; split; reflexivity|].
  cbn [frun] in H. apply bind_ok in H as (b1 & S & H). apply IH in H. destruct (step_frame _ _ _ _ S) as (S1 & S2 & _). split; [destruct H; congruence|destruct H; congruence].
Qed.

Lemma xf_inv_run : forall bv fmt rs b0 b, fbook0 bv fmt = Ok b0 -> frun b0 rs = Ok b -> xf_inv bv fmt b0 rs b.
Proof.
  intros bv fmt rs b0 b F0 H. 
  assert (BV : b_fmt b = fmt).
  { destruct (frun_bv _ _ _ H) as [_ E]. rewrite E. unfold fbook0 in F0. apply bind_ok in F0 as (m & _ & F0). injection F0 as <-. reflexivity. }
  split; [exact BV|]. clear BV. revert b H. induction rs as [|[d r] rs IH] using rev_ind; intros b H.
  - injection H as <-. unfold fbook0 in F0. apply bind_ok in F0 as (m & _ & F0). injection F0 as <-. split.
    + intros i x X. apply znth_Some_range in X. cbn in X. lia.
    + intros p d data q E. destruct p; discriminate.
  - apply frun_snoc in H as (b1 & R & S). destruct (IH b1 R) as (I1 & I2). clear IH.
    destruct (step_frame _ _ _ _ S) as (S1 & S2 & S3 & _).
    destruct (format_inv_run _ _ _ _ _ F0 R) as (F1 & _ & _ & F4 & F5 & _ & F7).
    assert (KEEP : b_xfs b = b_xfs b1 -> (forall data, r <> RXf data) ->
      (forall i x, znth (b_xfs b) i = Some x -> xf_index x = i) /\
      (forall p d0 data q, rs ++ [(d, r)] = p ++ (d0, RXf data) :: q ->
       exists b1 y, frun b0 p = Ok b1 /\ read_xf bv (zlen (xf_records p)) data = Ok y /\
       znth (b_xfs b) (zlen (xf_records p)) =
         Some (match in_force bv (zlen (xf_records p) + 1) (b_format_list b1) (xf_format_key y) with Some _ => y | None => set_key y 0 end))).
    { intros E NX. rewrite E. split; [exact I1|]. intros p d0 data q SP. apply snoc_split in SP as [(_ & _ & SP)|(q' & _ & SP)].
      - exfalso. injection SP as _ SP. apply (NX data). symmetry. exact SP.
      - apply (I2 _ _ _ _ SP). }
    destruct r as [data|data|data f2|data|data|data];
      try (apply KEEP; [destruct S3 as (? & ? & ? & S3 & ?); exact S3|discriminate]).
    + apply KEEP; [apply S3|discriminate].
    + clear KEEP S3. cbn [fstep] in S. pose proof S as SX.
      apply handle_xf_inv in S as (b2 & y & E0 & RX & _ & _ & _ & _ & _ & _ & _ & _ & E4 & _).
      rewrite F1, F5 in RX. rewrite E4.
      match goal with |- context [b_xfs b1 ++ [?z]] => set (x := z) in * end.
      assert (XI : xf_index x = zlen (xf_records rs)).
      { apply read_xf_index in RX. subst x. destruct (dget _ _ _); exact RX. }
      split.
      * intros i x0 X. pose proof (znth_Some_range _ _ _ X) as IR. rewrite zlen_app in IR. change (zlen [x]) with 1 in IR.
        destruct (Z.eq_dec i (zlen (b_xfs b1))) as [->|NE].
        -- rewrite znth_app_r, Z.sub_diag in X by lia. injection X as <-. congruence.
        -- rewrite znth_app_l in X by lia. apply I1. exact X.
      * intros p d0 data0 q SP. apply snoc_split in SP as [(-> & -> & SP)|(q' & _ & SP)].
        -- injection SP as -> ->. exists b1, y. split; [exact R|]. split; [exact RX|].
           rewrite znth_app_r by lia. rewrite F5, Z.sub_diag, znth_0. f_equal. subst x. pose proof (zlen_nonneg (xf_records rs)).
           replace (dget Z.eqb (b_formats b2) (xf_format_key y)) with (in_force bv (zlen (xf_records rs) + 1) (b_format_list b1) (xf_format_key y)); [reflexivity|].
           subst b2. rewrite F1, F4. destruct ((bv >=? 50) && (zlen (xf_records rs) =? 0)) eqn:E.
           ++ rewrite fill_formats, F7. unfold in_force.
              replace ((50 <=? bv) && (0 <? zlen (xf_records rs) + 1)) with true by lia.
              replace ((50 <=? bv) && (0 <? zlen (xf_records rs))) with false by lia.
              destruct (find _ _); reflexivity.
           ++ rewrite F7. unfold in_force.
              replace ((50 <=? bv) && (0 <? zlen (xf_records rs) + 1)) with ((50 <=? bv) && (0 <? zlen (xf_records rs))) by lia. reflexivity.
        -- destruct (I2 _ _ _ _ SP) as (b3 & y3 & A & B & C). exists b3, y3. split; [exact A|]. split; [exact B|].
           rewrite znth_app_l by (apply znth_Some_range in C; exact C). exact C.
Qed.

Lemma dget_fold_index : forall (t : xf -> Z) l m i k, (forall j x, znth l j = Some x -> xf_index x = k + j) ->
  dget Z.eqb (fold_left (fun m x => dset m (xf_index x) (t x)) l m) i =
  match znth l (i - k) with Some x => Some (t x) | None => dget Z.eqb m i end.
Proof.
  intros t. induction l as [|x l IH]; intros m i k H.
  - cbn [fold_left]. replace (znth (@nil xf) (i - k)) with (@None xf); [reflexivity|]. symmetry. apply znth_None. change (zlen (@nil xf)) with 0. lia.
  - cbn [fold_left]. rewrite (IH _ _ (k + 1)).
    2: { intros j y Y. rewrite (H (j + 1) y); [lia|]. pose proof (znth_Some_range _ _ _ Y). rewrite znth_cons by lia. replace (j + 1 - 1) with j by lia. exact Y. }
    rewrite (H 0 x) by reflexivity. rewrite Z.add_0_r. unfold dset. cbn [dget]. destruct (i =? k) eqn:E.
    + apply Z.eqb_eq in E. subst i. rewrite Z.sub_diag, znth_0.
      replace (znth l (k - (k + 1))) with (@None xf); [reflexivity|]. symmetry. apply znth_None. lia.
    + destruct (Z_lt_ge_dec i k).
      * replace (znth l (i - (k + 1))) with (@None xf) by (symmetry; apply znth_None; lia).
        replace (znth (x :: l) (i - k)) with (@None xf) by (symmetry; apply znth_None; lia). reflexivity.
      * rewrite znth_cons by lia. replace (i - k - 1) with (i - (k + 1)) by lia. reflexivity.
Qed.

Lemma conform_fields : forall fmt n x, xf_index (conform fmt n x) = xf_index x /\ xf_format_key (conform fmt n x) = xf_format_key x /\
  xf_is_style (conform fmt n x) = xf_is_style x /\ same_xf (conform fmt n x) x.
Proof.
  intros fmt n x. assert (R : same_xf x x) by (destruct x; reflexivity).
  unfold conform. destruct (negb fmt); [repeat split; exact R|]. destruct (negb (xf_is_style x =? 0)); [repeat split; exact R|].
  destruct (negb _); repeat split; try exact R.
Qed.

(** After the globals have been read: the index is the position, a cell XF has a valid parent, and
    the cell type is that of the format. *)
Theorem c57_xfs : forall bv fmt rs b0 b, fbook0 bv fmt = Ok b0 -> frun b0 rs = Ok b ->
  let e := xf_epilogue b in
  zlen (b_xfs e) = zlen (xf_records rs) /\
  forall i x, znth (b_xfs e) i = Some x ->
    xf_index x = i /\
    (fmt = true -> xf_is_style x = 0 -> 0 <= xf_parent x < zlen (b_xfs e)) /\
    dget Z.eqb (b_xftype e) i =
      Some (match dget Z.eqb (b_formats e) (xf_format_key x) with
            | Some f => if fm_type f =? FDT then XL_CELL_DATE else XL_CELL_NUMBER
            | None => XL_CELL_TEXT
            end).
Proof.
  intros bv fmt rs b0 b F R e. destruct (format_inv_run _ _ _ _ _ F R) as (_ & _ & _ & _ & L & _ & _).
  destruct (xf_inv_run _ _ _ _ _ F R) as (FM & IX & _).
  subst e. unfold xf_epilogue. cbn [b_xfs b_xftype b_formats with_xftype with_xfs].
  rewrite zlen_map. split; [exact L|]. intros i x X. rewrite znth_map in X.
  destruct (znth (b_xfs b) i) as [y|] eqn:Y; [|discriminate]. injection X as <-.
  destruct (conform_fields (b_fmt b) (zlen (b_xfs b)) y) as (C1 & C2 & C3 & _). rewrite C1, C2, C3.
  split; [apply IX; exact Y|]. split.
  - intros -> ST. unfold conform. rewrite FM, ST. cbn [negb Z.eqb]. pose proof (znth_Some_range _ _ _ Y).
    destruct ((0 <=? xf_parent y) && (xf_parent y <? zlen (b_xfs b))) eqn:E; cbn [negb]; [lia|]. cbn [xf_parent set_parent]. lia.
  - rewrite (dget_fold_index _ _ _ _ 0) by (intros j z Z1; rewrite Z.add_0_l; apply IX; exact Z1).
    rewrite Z.sub_0_r, Y. unfold xf_cell_type. destruct (dget Z.eqb (b_formats b) (xf_format_key y)) as [f|] eqn:D; [|reflexivity].
    pose proof (formats_ok _ _ _ _ _ _ _ F R D) as OK. unfold format_type_ok in OK. cbn [In] in OK.
    destruct OK as [E|[E|[E|[E|[]]]]]; rewrite <- E; reflexivity.
Qed.
Print Assumptions c57_xfs.

(** The XF of one record: the attributes read, with format 0 in the place of a format that is not
    known then, and with parent 0 in the place of an index that is not valid. *)
Theorem c57_record : forall bv fmt p d data q b0 b, fbook0 bv fmt = Ok b0 -> frun b0 (p ++ (d, RXf data) :: q) = Ok b ->
  let i := zlen (xf_records p) in
  exists b1 y x, frun b0 p = Ok b1 /\ read_xf bv i data = Ok y /\ znth (b_xfs (xf_epilogue b)) i = Some x /\ same_xf x y /\
    xf_format_key x = (match in_force bv (i + 1) (b_format_list b1) (xf_format_key y) with Some _ => xf_format_key y | None => 0 end) /\
    xf_parent x = (if negb fmt || negb (xf_is_style y =? 0) || ((0 <=? xf_parent y) && (xf_parent y <? zlen (b_xfs b))) then xf_parent y else 0).
Proof.
  intros bv fmt p d data q b0 b F R i. destruct (xf_inv_run _ _ _ _ _ F R) as (FM & _ & K).
  destruct (K p d data q eq_refl) as (b1 & y & A & B & C). fold i in B, C.
  set (z := match in_force bv (i + 1) (b_format_list b1) (xf_format_key y) with Some _ => y | None => set_key y 0 end) in *.
  exists b1, y, (conform fmt (zlen (b_xfs b)) z). split; [exact A|]. split; [exact B|].
  destruct (conform_fields fmt (zlen (b_xfs b)) z) as (C1 & C2 & C3 & C4).
  split. { unfold xf_epilogue. cbn [b_xfs with_xftype with_xfs]. rewrite znth_map. fold i in C. rewrite C, FM. reflexivity. }
  split. { unfold same_xf in *. rewrite C4. subst z. destruct (in_force _ _ _ _); reflexivity. }
  split. { rewrite C2. subst z. destruct (in_force _ _ _ _); reflexivity. }
  assert (Z1 : xf_is_style z = xf_is_style y /\ xf_parent z = xf_parent y) by (subst z; destruct (in_force _ _ _ _); split; reflexivity).
  destruct Z1 as [Z1 Z2]. unfold conform. rewrite Z1, Z2.
  destruct fmt; cbn [negb orb]; [|exact Z2]. destruct (negb (xf_is_style y =? 0)); cbn [orb]; [exact Z2|].
  destruct ((0 <=? xf_parent y) && (xf_parent y <? zlen (b_xfs b))); cbn [negb]; [exact Z2|reflexivity].
Qed.
Print Assumptions c57_record.

(** From BIFF5 on the format of an XF is always known, and its type is number or date. *)
Theorem c57_types : forall bv fmt rs b0 b i x, fbook0 bv fmt = Ok b0 -> frun b0 rs = Ok b -> 50 <= bv ->
  znth (b_xfs (xf_epilogue b)) i = Some x ->
  exists f, dget Z.eqb (b_formats b) (xf_format_key x) = Some f /\
    dget Z.eqb (b_xftype (xf_epilogue b)) i = Some (if fm_type f =? FDT then XL_CELL_DATE else XL_CELL_NUMBER).
Proof.
  intros bv fmt rs b0 b i x F R BV X. destruct (c57_xfs _ _ _ _ _ F R) as (L & K). destruct (K i x X) as (_ & _ & T).
  change (b_formats (xf_epilogue b)) with (b_formats b) in T.
  assert (KN : exists f, dget Z.eqb (b_formats b) (xf_format_key x) = Some f).
  { pose proof (znth_Some_range _ _ _ X) as IR. rewrite L in IR. destruct (znth_in_range _ _ IR) as (data & D).
    assert (SP : exists p d q, rs = p ++ (d, RXf data) :: q /\ zlen (xf_records p) = i).
    { clear - D. revert i D. induction rs as [|[d r] rs IH]; intros i D.
      - apply znth_Some_range in D. cbn in D. lia.
      - assert (G : (forall dd, r <> RXf dd) -> exists p d0 q, (d, r) :: rs = p ++ (d0, RXf data) :: q /\ zlen (xf_records p) = i).
        { intros NX. assert (E : xf_records ((d, r) :: rs) = xf_records rs) by (destruct r; try reflexivity; exfalso; eapply NX; reflexivity).
          rewrite E in D. destruct (IH i D) as (p & d0 & q & E1 & E2). exists ((d, r) :: p), d0, q. subst rs. split; [reflexivity|].
          destruct r; try exact E2. exfalso. eapply NX. reflexivity. }
        destruct r; try (apply G; discriminate). clear G. cbn [xf_records] in D.
        destruct (Z.eq_dec i 0) as [->|NE].
        + injection D as ->. exists [], d, rs. split; reflexivity.
        + pose proof (znth_Some_range _ _ _ D) as IR. rewrite znth_cons in D by lia. destruct (IH _ D) as (p & d0 & q & E1 & E2).
          exists ((d, RXf data0) :: p), d0, q. subst rs. split; [reflexivity|]. cbn [xf_records]. rewrite zlen_cons. lia. }
    destruct SP as (p & d & q & -> & PI). destruct (c57_record _ _ _ _ _ _ _ _ F R) as (b1 & y & x' & A & B & C & _ & KEY & _).
    rewrite PI in C, KEY. rewrite X in C. injection C as <-.
    destruct (Z.eq_dec (xf_format_key x) 0) as [Z0|NZ].
    - rewrite Z0. apply (c54_standard _ _ _ _ _ 0 FGE F R BV); [|reflexivity]. intros E. rewrite E in D.
      apply znth_Some_range in D. cbn in D. lia.
    - destruct (in_force bv (i + 1) (b_format_list b1) (xf_format_key y)) as [f|] eqn:IFE; [|congruence]. rewrite KEY.
      rewrite (c54_format_map _ _ _ _ _ F R). unfold in_force in IFE |- *.
      assert (PRE : exists more, b_format_list b = b_format_list b1 ++ more).
      { rewrite frun_app, A in R. cbn [bind] in R. clear - R. remember ((d, RXf data) :: q) as l. clear Heql. revert b1 b R.
        induction l as [|[d0 r] l IH]; intros b1 b R; [injection R as <-; exists []; rewrite app_nil_r; reflexivity|].
        cbn [frun] in R. apply bind_ok in R as (b2 & S & R). destruct (IH _ _ R) as (m & M). rewrite M. clear IH R M.
        assert (G : exists m1, b_format_list b2 = b_format_list b1 ++ m1).
        { pose proof (step_frame _ _ _ _ S) as (_ & _ & Q & _). destruct r;
            try (destruct Q as (_ & Q & _); exists []; rewrite app_nil_r; exact Q).
          - cbn [fstep] in S. unfold handle_format in S. cbv zeta in S. apply bind_ok in S as (k & _ & S). apply bind_ok in S as (s & _ & S).
            injection S as <-. eexists. reflexivity.
          - cbn [fstep] in S. apply handle_xf_inv in S as (b3 & y & _ & _ & _ & _ & _ & _ & _ & _ & E & _). exists []. rewrite app_nil_r. exact E. }
        destruct G as (m1 & ->). exists (m1 ++ m). rewrite app_assoc. reflexivity. }
      destruct PRE as (more & ->). rewrite rev_app_distr.
      assert (FA : forall (g : format -> bool) u v, find g (u ++ v) = match find g u with Some z => Some z | None => find g v end).
      { intros g u v. induction u as [|a u IHu]; [reflexivity|]. cbn [app find]. destruct (g a); [reflexivity|exact IHu]. }
      rewrite FA. destruct (find _ (rev more)); [eexists; reflexivity|]. destruct (find _ (rev (b_format_list b1))); [eexists; reflexivity|].
      pose proof (zlen_nonneg (xf_records p)).
      replace ((50 <=? bv) && (0 <? zlen (xf_records (p ++ (d, RXf data) :: q)))) with true by lia.
      replace ((50 <=? bv) && (0 <? i + 1)) with true in IFE by lia. eexists. exact IFE. }
  destruct KN as (f & KN). exists f. split; [exact KN|]. rewrite T, KN. reflexivity.
Qed.
Print Assumptions c57_types.

(** A style XF and two cell XFs, the second with an unknown format and an invalid parent. *)
Definition xf_bytes (key par : Z) : list Z := [0; 0] ++ le_enc 2 key ++ le_enc 2 par ++ zrepeat 0 10.

Example c57_case :
  match (do b0 <- fbook0 70 true;
         frun b0 (map (fun r => (fun s => Ok s, r)) [RXf (xf_bytes 0 0xFFF4); RXf (xf_bytes 14 0); RXf (xf_bytes 200 0x0990)])) with
  | Ok b => let e := xf_epilogue b in
      map (fun x => (xf_index x, xf_format_key x, xf_is_style x, xf_parent x)) (b_xfs e) = [(0, 0, 1, 0xFFF); (1, 14, 0, 0); (2, 0, 0, 0)] /\
      map (dget Z.eqb (b_xftype e)) [0; 1; 2; 3] = [Some 2; Some 3; Some 2; None]
  | Err _ => False
  end.
Proof. vm_compute. split; reflexivity. Qed.
