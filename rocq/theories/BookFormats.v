(** What the records of the globals say about strings, number formats and text encodings:
    specification, and the book that follows from them. *)
From Verif Require Import Base BaseFacts Text Strings Utf16 StringFacts PropBytes Framing GridModel GridFacts SheetObjects SheetModel SheetSteps SstModel PropSst FormatModel
  FormatFacts PropFormat PropNumType FormulaModel BookModel BookFacts PropEnc BookSheets BookRefs BookContent.

(** ** Specification *)

(** FORMAT and XF records: a format code gets a format text; the next XF uses a format code. *)
Inductive fevent : Type := Defines (k : Z) (s : list Z) | Uses (k : Z).

Section Spec.
Variable codec : list Z -> list Z -> result (list Z).
Variable bv : Z.
Variable override : option (list Z).

Inductive format_body (cp : option Z) (k : Z) (s : list Z) : list Z -> Prop :=
| Format8 : forall u extra, 80 <= bv -> u16v k -> us_ok u -> us_units u < 65536 -> us_text u = s ->
    format_body cp k s (le_enc 2 k ++ us_field 2 u ++ extra)
| Format5 : forall raw extra enc, bv < 80 -> u16v k -> zlen raw < 256 -> encoding_for bv override cp enc ->
    codec enc raw = Ok s -> format_body cp k s (le_enc 2 k ++ zlen raw :: raw ++ extra).
Definition xf_body (k : Z) (d : list Z) : Prop := u16v k /\ exists font rest, zlen font = 2 /\ d = font ++ le_enc 2 k ++ rest.

(** The FORMAT and XF records among some records, in order. *)
Inductive formats : option Z -> list (Z * list Z) -> list fevent -> Prop :=
| F_nil : forall cp, formats cp [] []
| F_format : forall cp d k s rs es, format_body cp k s d -> formats cp rs es -> formats cp ((0x41e, d) :: rs) (Defines k s :: es)
| F_xf : forall cp d k rs es, xf_body k d -> formats cp rs es -> formats cp ((0xe0, d) :: rs) (Uses k :: es)
| F_page : forall cp n extra rs es, u16v n -> formats (Some n) rs es -> formats cp ((0x42, le_enc 2 n ++ extra) :: rs) es
| F_other : forall cp rc d rs es, rc <> 0x41e -> rc <> 0xe0 -> rc <> 0x42 -> formats cp rs es -> formats cp ((rc, d) :: rs) es.

(** The codepage after some records. *)
Inductive page : option Z -> list (Z * list Z) -> option Z -> Prop :=
| P_nil : forall cp, page cp [] cp
| P_page : forall cp n extra rs cp', u16v n -> page (Some n) rs cp' -> page cp ((0x42, le_enc 2 n ++ extra) :: rs) cp'
| P_other : forall cp rc d rs cp', rc <> 0x42 -> page cp rs cp' -> page cp ((rc, d) :: rs) cp'.
End Spec.

Fixpoint defs (es : list fevent) : list (Z * list Z) :=
  match es with [] => [] | Defines k s :: r => (k, s) :: defs r | Uses _ :: r => defs r end.
Fixpoint uses (es : list fevent) : list Z :=
  match es with [] => [] | Defines _ _ :: r => uses r | Uses k :: r => k :: uses r end.

(** The last format text given for a code. *)
Inductive defined_as (es : list fevent) (k : Z) : option (list Z) -> Prop :=
| D_last : forall a s b, defs es = a ++ (k, s) :: b -> (forall s', ~ In (k, s') b) -> defined_as es k (Some s)
| D_none : (forall s, ~ In (k, s) (defs es)) -> defined_as es k None.

(** A date format: by its text, or by its code when it is one of the standard formats. *)
Definition dated (k : Z) (text : option (list Z)) : bool :=
  match text with
  | Some s => is_date_format_string s
  | None => match builtin_type k with Some t => t =? FDT | None => false end
  end.

(** A format code that an XF can use: standard, or given before the XF. *)
Definition known (before : list fevent) (k : Z) : Prop := builtin_type k <> None \/ exists s, In (k, s) (defs before).

(** The type of the number cells of an XF: 3 if the format it uses is a date format, else 2.
    An XF that uses an unknown code uses code 0. *)
Inductive number_type (es : list fevent) : Z -> Z -> Prop :=
| T_xf : forall before k after k' text, es = before ++ Uses k :: after ->
    (known before k /\ k' = k \/ ~ known before k /\ k' = 0) -> defined_as es k' text ->
    number_type es (zlen (uses before)) (if dated k' text then 3 else 2)
| T_no_xfs : uses es = [] -> number_type es 0 2.

(** The shared strings: the texts and the runs of those with formatting, from the last SST
    record and its CONTINUE records. *)
Inductive strings (rs : list (Z * list Z)) : list (list Z) -> list (Z * list (Z * Z)) -> Prop :=
| S_none : (forall d, ~ In (0xfc, d) rs) -> strings rs [] []
| S_sst : forall before tot l ts tl after, rs = before ++ (0xfc, fst (sst_records tot l tl)) :: map (pair 0x3c) (snd (sst_records tot l tl)) ++ after ->
    (forall d, ~ In (0xfc, d) after) -> (match after with (rc, _) :: _ => rc <> 0x3c | [] => True end) ->
    Forall (fun sb => ss_form (fst sb)) l -> seps_ok l -> Forall2 (fun sb t => ss_holds (fst sb) t) l ts -> zlen l < 2 ^ 31 ->
    strings rs ts (runs_from 0 (map fst l)).

(** ** Proofs *)

Lemma defs_app : forall p q, defs (p ++ q) = defs p ++ defs q.
Proof. induction p as [|[k s|k] p IH]; intros q; cbn [app defs]; rewrite ?IH; reflexivity. Qed.
Lemma uses_app : forall p q, uses (p ++ q) = uses p ++ uses q.
Proof. induction p as [|[k s|k] p IH]; intros q; cbn [app uses]; rewrite ?IH; reflexivity. Qed.

Section Files.
Variable bv : Z.
Hypothesis V50 : 50 <= bv.

(** The records as FormatModel.v reads them, and the events. *)
Inductive agree : files -> list fevent -> Prop :=
| A_nil : agree [] []
| A_other : forall fs es d r, agree fs es -> (match r with RXf _ | RFormat _ _ => False | _ => True end) -> agree (fs ++ [(d, r)]) es
| A_format : forall fs es d data k s, agree fs es -> (forall n, says bv n (d, data, false) k s) -> agree (fs ++ [(d, RFormat data false)]) (es ++ [Defines k s])
| A_xf : forall fs es d data k, agree fs es -> unpack_u16 data 2 = Ok k -> agree (fs ++ [(d, RXf data)]) (es ++ [Uses k]).

Lemma format_records_app : forall p q, format_records (p ++ q) = format_records p ++ format_records q.
Proof. induction p as [|[d r] p IH]; intros q; [reflexivity|]. destruct r; cbn [app format_records]; rewrite IH; reflexivity. Qed.
Lemma xf_records_app : forall p q, xf_records (p ++ q) = xf_records p ++ xf_records q.
Proof. induction p as [|[d r] p IH]; intros q; [reflexivity|]. destruct r; cbn [app xf_records]; rewrite IH; reflexivity. Qed.

Lemma agree_defs : forall fs es, agree fs es -> Forall2 (fun r ks => forall n, says bv n r (fst ks) (snd ks)) (format_records fs) (defs es).
Proof.
  induction 1 as [|fs es d r A IH O|fs es d data k s A IH S|fs es d data k A IH U]; [constructor| | |];
    rewrite format_records_app, ?defs_app.
  - destruct r; try contradiction; cbn [format_records]; rewrite app_nil_r; exact IH.
  - cbn [format_records defs]. apply Forall2_app; [exact IH|]. constructor; [exact S|constructor].
  - cbn [format_records defs]. rewrite !app_nil_r. exact IH.
Qed.

Lemma agree_uses : forall fs es, agree fs es -> zlen (xf_records fs) = zlen (uses es).
Proof.
  induction 1 as [|fs es d r A IH O|fs es d data k s A IH S|fs es d data k A IH U]; [reflexivity| | |];
    rewrite xf_records_app, ?uses_app.
  - destruct r; try contradiction; cbn [xf_records]; rewrite app_nil_r; exact IH.
  - cbn [xf_records uses]. rewrite !app_nil_r. exact IH.
  - cbn [xf_records uses]. rewrite !zlen_app, IH. reflexivity.
Qed.

Lemma snoc_cases : forall {A} (p : list A) x q l y, p ++ x :: q = l ++ [y] -> (q = [] /\ p = l /\ x = y) \/ (exists q', q = q' ++ [y] /\ p ++ x :: q' = l).
Proof.
  intros A p x q l y H. destruct q as [|z q] using rev_ind.
  - left. apply app_inj_tail in H as [-> ->]. auto.
  - right. clear IHq. rewrite app_comm_cons, app_assoc in H. apply app_inj_tail in H as [H ->]. eauto.
Qed.

Lemma agree_split : forall fs es, agree fs es -> forall before k after, es = before ++ Uses k :: after ->
  exists p d data q, fs = p ++ (d, RXf data) :: q /\ agree p before /\ unpack_u16 data 2 = Ok k.
Proof.
  induction 1 as [|fs es d r A IH O|fs es d data k0 s A IH S|fs es d data k0 A IH U]; intros before k after E.
  - destruct before; discriminate.
  - destruct (IH _ _ _ E) as (p & d0 & data & q & -> & A1 & U). exists p, d0, data, (q ++ [(d, r)]). rewrite <- app_assoc. auto.
  - symmetry in E. apply snoc_cases in E as [(_ & _ & E)|(q' & -> & E)]; [discriminate|]. symmetry in E.
    destruct (IH _ _ _ E) as (p & d0 & data0 & q & -> & A1 & U). exists p, d0, data0, (q ++ [(d, RFormat data false)]). rewrite <- app_assoc. auto.
  - symmetry in E. apply snoc_cases in E as [(-> & -> & E)|(q' & -> & E)].
    + injection E as ->. exists fs, d, data, []. auto.
    + symmetry in E. destruct (IH _ _ _ E) as (p & d0 & data0 & q & -> & A1 & U1). exists p, d0, data0, (q ++ [(d, RXf data)]). rewrite <- app_assoc. auto.
Qed.

Lemma says_unique : forall n r k s k' s', says bv n r k s -> says bv n r k' s' -> k = k' /\ s = s'.
Proof.
  intros n [[d data] old] k s k' s' H K. unfold says in *.
  repeat match type of H with context [if ?c then _ else _] => destruct c end; try contradiction; destruct H, K; split; congruence.
Qed.

Lemma format_list_of : forall fmt fs es b0 b, fbook0 bv fmt = Ok b0 -> frun b0 fs = Ok b -> agree fs es ->
  b_format_list b = map (fun '(k, s) => mk_format k (if is_date_format_string s then FDT else FGE) (Some s)) (defs es).
Proof.
  intros fmt fs es b0 b F R A. destruct (c54_format_list _ _ _ _ _ F R) as [L K]. pose proof (agree_defs _ _ A) as D.
  clear F R A. revert L K. generalize (b_format_list b). 
  assert (G : forall rs ks, Forall2 (fun r ks => forall n, says bv n r (fst ks) (snd ks)) rs ks -> forall l m, zlen l = zlen rs ->
    (forall n r, znth rs n = Some r -> exists k s, says bv (n + m) r k s /\ znth l n = Some (mk_format k (if is_date_format_string s then FDT else FGE) (Some s))) ->
    l = map (fun '(k, s) => mk_format k (if is_date_format_string s then FDT else FGE) (Some s)) ks).
  { clear. induction 1 as [|r [k s] rs ks S D IH]; intros l m L K.
    - destruct l; [reflexivity|]. rewrite zlen_cons in L. change (zlen (@nil (decoder * list Z * bool))) with 0 in L. pose proof (zlen_nonneg l). lia.
    - destruct l as [|f l]; [rewrite zlen_cons in L; change (zlen (@nil format)) with 0 in L; pose proof (zlen_nonneg rs); lia|].
      cbn [map]. f_equal.
      + destruct (K 0 r) as (k1 & s1 & S1 & E); [apply znth_0|]. rewrite znth_0 in E. destruct (says_unique _ _ _ _ _ _ (S _) S1) as [E1 E2]. cbn [fst snd] in E1, E2. subst k1 s1. cbv beta iota. congruence.
      + apply (IH l (m + 1)); [rewrite !zlen_cons in L; lia|]. intros n r0 Z0. pose proof (znth_Some_range _ _ _ Z0).
        destruct (K (n + 1) r0) as (k1 & s1 & S1 & E); [rewrite znth_cons by lia; replace (n + 1 - 1) with n by lia; exact Z0|].
        rewrite znth_cons in E by lia. replace (n + 1 - 1) with n in E by lia. exists k1, s1. split; [|exact E]. replace (n + (m + 1)) with (n + 1 + m) by lia. exact S1. }
  intros l L K. apply (G _ _ D l 0 L). intros n r Z0. rewrite Z.add_0_r. apply K. exact Z0.
Qed.

Lemma find_last : forall es k text, defined_as es k text ->
  find (fun f => fm_key f =? k) (rev (map (fun '(k, s) => mk_format k (if is_date_format_string s then FDT else FGE) (Some s)) (defs es))) =
  option_map (fun s => mk_format k (if is_date_format_string s then FDT else FGE) (Some s)) text.
Proof.
  intros es k text D.
  assert (NO : forall b u, (forall s', ~ In (k, s') b) ->
    find (fun f => fm_key f =? k) (rev (map (fun '(k, s) => mk_format k (if is_date_format_string s then FDT else FGE) (Some s)) b) ++ u) = find (fun f => fm_key f =? k) u).
  { clear. induction b as [|[k1 s1] b IH]; intros u H; [reflexivity|]. cbn [map rev]. rewrite <- app_assoc. rewrite IH by (intros s' I; apply (H s'); right; exact I).
    cbn [app find fm_key]. destruct (k1 =? k) eqn:E; [|reflexivity]. exfalso. apply (H s1). left. f_equal. lia. }
  destruct D as [a s b E H|H].
  - rewrite E, map_app, rev_app_distr. cbn [map rev]. rewrite <- app_assoc. cbn [app]. rewrite NO by exact H. cbn [find fm_key]. rewrite Z.eqb_refl. reflexivity.
  - rewrite <- (app_nil_r (rev _)). rewrite NO by exact H. reflexivity.
Qed.

Lemma read_xf_key : forall i data y k, read_xf bv i data = Ok y -> unpack_u16 data 2 = Ok k -> xf_format_key y = k.
Proof.
  intros i data y k H K. unfold read_xf in H. destruct (bv >=? 80); [|replace (bv >=? 50) with true in H by lia].
  - unfold read_xf80 in H. apply bind_ok in H as (? & _ & H). apply bind_ok in H as (? & _ & H). rewrite K, bind_Ok in H.
    repeat (apply bind_ok in H as (? & _ & H)). injection H as <-. reflexivity.
  - unfold read_xf50 in H. apply bind_ok in H as (? & _ & H). apply bind_ok in H as (? & _ & H). rewrite K, bind_Ok in H.
    repeat (apply bind_ok in H as (? & _ & H)). injection H as <-. reflexivity.
Qed.

Lemma defined_unique : forall es k t1 t2, defined_as es k t1 -> defined_as es k t2 -> t1 = t2.
Proof.
  intros es k t1 t2 H1 H2. pose proof (find_last _ _ _ H1) as F1. rewrite (find_last _ _ _ H2) in F1.
  destruct t1, t2; cbn in F1; try discriminate; [|reflexivity]. injection F1 as _ F1. congruence.
Qed.

Lemma defined_exists : forall es k, exists t, defined_as es k t.
Proof.
  intros es k. assert (G : forall l : list (Z * list Z), (exists a s b, l = a ++ (k, s) :: b /\ (forall s', ~ In (k, s') b)) \/ (forall s, ~ In (k, s) l)).
  { induction l as [|[k1 s1] l IH]; [right; intros s []|]. destruct IH as [(a & s & b & -> & H)|H].
    - left. exists ((k1, s1) :: a), s, b. auto.
    - destruct (Z.eq_dec k1 k) as [->|NE]; [left; exists [], s1, l; auto|]. right. intros s [I|I]; [congruence|exact (H s I)]. }
  destruct (G (defs es)) as [(a & s & b & E & H)|H]; [exists (Some s); eapply D_last; eassumption|exists None; apply D_none; exact H].
Qed.

(** The type table of the book is the one the records ask for. *)
Lemma types_of : forall fmt fs es b0 b xf t, fbook0 bv fmt = Ok b0 -> frun b0 fs = Ok b -> agree fs es ->
  number_type es xf t -> book_types b xf = Some t.
Proof.
  intros fmt fs es b0 b xf t F R A T. destruct T as [before k after k' text E KN D|NX].
  - destruct (agree_split _ _ A _ _ _ E) as (p & d & data & q & EF & AP & U). rewrite EF in R.
    destruct (c57_record _ _ _ _ _ _ _ _ F R) as (b1 & y & x & R1 & RX & X & _ & KEY & _).
    pose proof (read_xf_key _ _ _ _ RX U) as YK. rewrite YK in KEY. rewrite (agree_uses _ _ AP) in X, KEY.
    pose proof (zlen_nonneg (uses before)) as NN.
    assert (KE : xf_format_key x = k').
    { rewrite KEY. unfold in_force. rewrite (format_list_of _ _ _ _ _ F R1 AP).
      destruct (defined_exists before k) as (t0 & D0). rewrite (find_last _ _ _ D0).
      replace ((50 <=? bv) && (0 <? zlen (uses before) + 1)) with true by lia.
      assert (Q : match option_map (fun s => mk_format k (if is_date_format_string s then FDT else FGE) (Some s)) t0 with Some f => Some f | None => builtin k end <> None <-> known before k).
      { unfold known. destruct D0 as [a s b' ED H|H]; cbn [option_map].
        - split; [|discriminate]. intros _. right. exists s. rewrite ED. apply in_or_app. right. left. reflexivity.
        - unfold builtin. destruct (builtin_type k); cbn [option_map]; split; auto; try discriminate; [intros _; left; discriminate|].
          intros [X0|(s & I)] _; [congruence|exact (H s I)]. }
      destruct KN as [[KN ->]|[KN ->]]; destruct (match option_map _ t0 with Some f => Some f | None => _ end) as [f|]; try reflexivity.
      - exfalso. apply Q in KN. congruence.
      - exfalso. apply KN, Q. discriminate. }
    rewrite <- EF in R.
    assert (LX : zlen (uses before) < zlen (b_xfs b)).
    { pose proof (znth_Some_range _ _ _ X) as LX. unfold xf_epilogue in LX. cbn [b_xfs with_xftype with_xfs] in LX. rewrite zlen_map in LX. lia. }
    rewrite (type_of_xf _ _ _ _ _ F R V50). replace ((0 <=? zlen (uses before)) && (zlen (uses before) <? zlen (b_xfs b))) with true by lia.
    f_equal. assert (DX : date_xf b (zlen (uses before)) = dated k' text).
    { unfold date_xf. rewrite X, KE, (c54_format_map _ _ _ _ _ F R). unfold in_force.
      rewrite (format_list_of _ _ _ _ _ F R A), (find_last _ _ _ D). unfold dated. destruct text as [s|]; cbn [option_map].
      - cbn [fm_type]. destruct (is_date_format_string s); reflexivity.
      - assert (0 < zlen (xf_records fs)) by (rewrite (agree_uses _ _ A), E, uses_app, zlen_app; cbn [uses]; rewrite zlen_cons; pose proof (zlen_nonneg (uses after)); lia).
        replace ((50 <=? bv) && (0 <? zlen (xf_records fs))) with true by lia. unfold builtin. destruct (builtin_type k') as [ty|]; [|reflexivity]. reflexivity. }
    rewrite DX. reflexivity.
  - rewrite (type_of_xf _ _ _ _ _ F R V50). destruct (format_inv_run _ _ _ _ _ F R) as (_ & _ & _ & _ & L5 & _).
    rewrite (agree_uses _ _ A), NX in L5. change (zlen (@nil Z)) with 0 in L5. rewrite L5. reflexivity.
Qed.
End Files.
