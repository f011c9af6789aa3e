(** C49: which content reaches the xls parser. *)
From Verif Require Import Base BaseFacts Text OpenModel.

(** ** Specification *)

Definition begins (p s : list Z) : Prop := exists r, s = p ++ r.

(** The eight bytes of an OLE2 file and the four of a zip file. *)
Definition ole_magic : list Z := [208; 207; 17; 224; 161; 177; 26; 225].
Definition zip_magic : list Z := [80; 75; 3; 4].

(** [n'] is [n] with every backslash turned into a slash. *)
Definition slashed (n n' : list Z) : Prop := Forall2 (fun c d => c = 92 /\ d = 47 \/ c <> 92 /\ d = c) n n'.

Section C49.
Variable files : list Z -> result (list Z).
Variable expanduser : list Z -> list Z.
Variable namelist : list Z -> result (list (list Z)).
Variable lower : list Z -> list Z.

Definition has (names : list (list Z)) (target : list Z) : Prop :=
  exists n n', In n names /\ slashed n n' /\ lower n' = target.

Inductive kind (whole : list Z) : option file_format -> Prop :=
| k_xls : begins ole_magic whole -> kind whole (Some Xls)
| k_xlsx : forall names, begins zip_magic whole -> namelist whole = Ok names ->
    has names (s2l "xl/workbook.xml") -> kind whole (Some Xlsx)
| k_xlsb : forall names, begins zip_magic whole -> namelist whole = Ok names ->
    ~ has names (s2l "xl/workbook.xml") -> has names (s2l "xl/workbook.bin") -> kind whole (Some Xlsb)
| k_ods : forall names, begins zip_magic whole -> namelist whole = Ok names ->
    ~ has names (s2l "xl/workbook.xml") -> ~ has names (s2l "xl/workbook.bin") ->
    has names (s2l "content.xml") -> kind whole (Some Ods)
| k_zip : forall names, begins zip_magic whole -> namelist whole = Ok names ->
    ~ has names (s2l "xl/workbook.xml") -> ~ has names (s2l "xl/workbook.bin") ->
    ~ has names (s2l "content.xml") -> kind whole (Some Zip)
| k_none : ~ begins ole_magic whole -> ~ begins zip_magic whole -> kind whole None.

(** Where the bytes come from. *)
Inductive source (via : list Z -> list Z) (path content : option (list Z)) (whole : list Z) : Prop :=
| s_content : content = Some whole -> whole <> [] -> source via path content whole
| s_file : forall p, content = None \/ content = Some [] -> path = Some p -> files (via p) = Ok whole ->
    source via path content whole.

(** ** Proofs *)

Lemma startswith_begins : forall p s, startswith s p = true <-> begins p s.
Proof.
  intros p s. unfold startswith, begins. rewrite list_eqb_eq. split.
  - intros H. exists (skipn (List.length p) s). rewrite <- H at 1. symmetry; apply firstn_skipn.
  - intros [r ->]. rewrite firstn_app, firstn_all, Nat.sub_diag. cbn. apply app_nil_r.
Qed.

Lemma firstn_begins : forall (k : nat) p s, (List.length p <= k)%nat -> begins p (firstn k s) <-> begins p s.
Proof.
  intros k p s Hk. unfold begins. split.
  - intros [r H]. exists (r ++ skipn k s). rewrite app_assoc, <- H. symmetry; apply firstn_skipn.
  - intros [r ->]. exists (firstn (k - List.length p) r).
    rewrite firstn_app, (firstn_all2 p) by lia. reflexivity.
Qed.

Lemma peek_firstn : forall s : list Z, py_slice s 0 PEEK_SIZE = firstn 8 s.
Proof.
  intros s. unfold py_slice, PEEK_SIZE. change (Z.max (zlen XLS_SIGNATURE) (zlen ZIP_SIGNATURE)) with 8.
  unfold py_bound. cbn [Z.ltb Z.compare]. rewrite (Z.min_l 0) by (unfold zlen; lia). cbn [Z.to_nat skipn].
  rewrite Z.sub_0_r. destruct (Z_le_dec 8 (zlen s)).
  - rewrite Z.min_l by lia. reflexivity.
  - rewrite Z.min_r by lia. rewrite !firstn_all2; [reflexivity|unfold zlen in *; lia..].
Qed.

Lemma peek_begins : forall p s, (List.length p <= 8)%nat ->
  startswith (py_slice s 0 PEEK_SIZE) p = true <-> begins p s.
Proof. intros p s H. rewrite startswith_begins, peek_firstn. apply firstn_begins; exact H. Qed.

Lemma slashed_map : forall n n', slashed n n' <-> n' = forward_slashes n.
Proof.
  unfold slashed, forward_slashes. induction n as [|c n IH]; intros n'; split; intros H.
  - inversion H; reflexivity.
  - subst; constructor.
  - inversion H as [|? d ? r Hd Hr]; subst. cbn. f_equal.
    + destruct (c =? 92) eqn:E; lia.
    + apply IH; exact Hr.
  - subst. cbn. constructor.
    + destruct (c =? 92) eqn:E; lia.
    + apply IH; reflexivity.
Qed.

Lemma member_has : forall names t,
  member t (map (fun name => lower (forward_slashes name)) names) = true <-> has names t.
Proof.
  intros names t. unfold member, has. rewrite existsb_exists. split.
  - intros (x & Hx & E). apply list_eqb_eq in E. subst x. apply in_map_iff in Hx. destruct Hx as (n & E & Hn).
    exists n, (forward_slashes n). split; [exact Hn|]. split; [apply slashed_map; reflexivity|exact E].
  - intros (n & n' & Hn & S & L). apply slashed_map in S. subst n'. exists t. split.
    + apply in_map_iff. exists n. split; [exact L|exact Hn].
    + apply list_eqb_refl.
Qed.

Lemma magic_apart : forall s, begins ole_magic s -> begins zip_magic s -> False.
Proof. intros s [r ->] [t H]. discriminate H. Qed.

Lemma bool_false_not : forall b P, (b = true <-> P) -> (b = false <-> ~ P).
Proof. intros [|] P H; split; intros; try discriminate; intuition discriminate. Qed.

Definition fetch (path content : option (list Z)) : result (list Z) :=
  match content with
  | Some (b :: r) => Ok (b :: r)
  | _ => match path with None => Err TypeError | Some p => files (expanduser p) end
  end.

Lemma fetch_source : forall path content w, fetch path content = Ok w <-> source expanduser path content w.
Proof.
  intros path content w. unfold fetch. split.
  - destruct content as [[|b r]|]; intros H.
    + destruct path as [p|]; [|discriminate]. eapply s_file; eauto.
    + injection H as <-. apply s_content; [reflexivity|discriminate].
    + destruct path as [p|]; [|discriminate]. eapply s_file; eauto.
  - intros [E N|p [E|E] P F]; subst.
    + destruct w; [congruence|reflexivity].
    + exact F.
    + exact F.
Qed.

Definition classify (whole : list Z) : result (option file_format) :=
  let peek := py_slice whole 0 PEEK_SIZE in
  if startswith peek XLS_SIGNATURE then Ok (Some Xls) else
  if startswith peek ZIP_SIGNATURE then
    do names <- namelist whole;
    let component_names := map (fun name => lower (forward_slashes name)) names in
    if member (s2l "xl/workbook.xml") component_names then Ok (Some Xlsx) else
    if member (s2l "xl/workbook.bin") component_names then Ok (Some Xlsb) else
    if member (s2l "content.xml") component_names then Ok (Some Ods) else
    Ok (Some Zip)
  else Ok None.

Lemma inspect_split : forall path content,
  inspect_format files expanduser namelist lower path content = bind (fetch path content) classify.
Proof. reflexivity. Qed.

Lemma classify_kind : forall w f, classify w = Ok f <-> kind w f.
Proof.
  intros w f. unfold classify. cbn zeta.
  pose proof (peek_begins XLS_SIGNATURE w) as Hx. specialize (Hx ltac:(cbn; lia)).
  pose proof (peek_begins ZIP_SIGNATURE w) as Hz. specialize (Hz ltac:(cbn; lia)).
  change XLS_SIGNATURE with ole_magic in *. change ZIP_SIGNATURE with zip_magic in *.
  destruct (startswith (py_slice w 0 PEEK_SIZE) ole_magic) eqn:Ex.
  { assert (B : begins ole_magic w) by (apply Hx; reflexivity). split.
    - intros H. injection H as <-. apply k_xls, B.
    - intros K. destruct K as [| ? Z| ? Z| ? Z| ? Z|N Z]; try reflexivity;
        [exfalso; exact (magic_apart _ B Z)..|contradiction]. }
  assert (Nx : ~ begins ole_magic w) by (intros B; apply Hx in B; discriminate).
  destruct (startswith (py_slice w 0 PEEK_SIZE) zip_magic) eqn:Ez.
  2:{ assert (Nz : ~ begins zip_magic w) by (intros B; apply Hz in B; discriminate). split.
      - intros H. injection H as <-. apply k_none; assumption.
      - intros K. destruct K; contradiction || reflexivity. }
  assert (B : begins zip_magic w) by (apply Hz; reflexivity).
  destruct (namelist w) as [names|e] eqn:En; cbn [bind].
  2:{ split; [discriminate|]. intros K. destruct K; congruence. }
  destruct (member (s2l "xl/workbook.xml") _) eqn:E1.
  { apply member_has in E1. split.
    - intros H. injection H as <-. eapply k_xlsx; eassumption.
    - intros K. destruct K as [|n Z L H1|n Z L H1 H2|n Z L H1 H2 H3|n Z L H1 H2 H3|]; try contradiction; try reflexivity;
        rewrite En in L; injection L as <-; contradiction. }
  apply (bool_false_not _ _ (member_has _ _)) in E1.
  destruct (member (s2l "xl/workbook.bin") _) eqn:E2.
  { apply member_has in E2. split.
    - intros H. injection H as <-. eapply k_xlsb; eassumption.
    - intros K. destruct K as [|n Z L H1|n Z L H1 H2|n Z L H1 H2 H3|n Z L H1 H2 H3|]; try contradiction; try reflexivity;
        rewrite En in L; injection L as <-; contradiction. }
  apply (bool_false_not _ _ (member_has _ _)) in E2.
  destruct (member (s2l "content.xml") _) eqn:E3.
  { apply member_has in E3. split.
    - intros H. injection H as <-. eapply k_ods; eassumption.
    - intros K. destruct K as [|n Z L H1|n Z L H1 H2|n Z L H1 H2 H3|n Z L H1 H2 H3|]; try contradiction; try reflexivity;
        rewrite En in L; injection L as <-; contradiction. }
  apply (bool_false_not _ _ (member_has _ _)) in E3.
  split.
  - intros H. injection H as <-. eapply k_zip; eassumption.
  - intros K. destruct K as [|n Z L H1|n Z L H1 H2|n Z L H1 H2 H3|n Z L H1 H2 H3|]; try contradiction; try reflexivity;
      rewrite En in L; injection L as <-; contradiction.
Qed.

(** inspect_format answers exactly what the first bytes and the member names say. *)
Theorem c49_inspect : forall path content f,
  inspect_format files expanduser namelist lower path content = Ok f <->
  exists whole, source expanduser path content whole /\ kind whole f.
Proof.
  intros path content f. rewrite inspect_split. split.
  - intros H. destruct (fetch path content) as [w|e] eqn:E; [|discriminate]. cbn [bind] in H.
    exists w. split; [apply fetch_source; exact E|apply classify_kind; exact H].
  - intros (w & S & K). apply fetch_source in S. rewrite S. apply classify_kind, K.
Qed.

(** A recognised format other than xls is refused, whatever the parser would do. *)
Theorem c49_refused : forall {B} (parser : list Z -> result B) path content whole f,
  source expanduser path content whole -> kind whole (Some f) -> f <> Xls ->
  open_workbook files expanduser namelist lower parser path content = Err XLRDError.
Proof.
  intros B parser path content w f S K N. unfold open_workbook.
  assert (H : inspect_format files expanduser namelist lower path content = Ok (Some f)) by
    (apply c49_inspect; eauto). rewrite H. cbn [bind]. destruct f; try reflexivity. congruence.
Qed.

(** Everything else goes to the parser as it is (an empty file is refused). *)
Theorem c49_let_through : forall {B} (parser : list Z -> result B) path content whole f,
  source expanduser path content whole -> kind whole f -> f = None \/ f = Some Xls ->
  (forall p, path = Some p -> expanduser p = p) ->
  open_workbook files expanduser namelist lower parser path content =
  match whole with [] => Err XLRDError | _ => parser whole end.
Proof.
  intros B parser path content w f S K D X. unfold open_workbook.
  assert (H : inspect_format files expanduser namelist lower path content = Ok f) by
    (apply c49_inspect; eauto). rewrite H. cbn [bind].
  destruct S as [E N|p E P F].
  - subst content. destruct w as [|a w]; [congruence|]. destruct D as [-> | ->]; reflexivity.
  - subst path. rewrite (X p eq_refl) in F.
    destruct D as [-> | ->]; destruct E as [-> | ->]; cbn [bind]; rewrite F; cbn [bind];
      destruct w as [|a w]; try reflexivity; unfold zlen; cbn [List.length];
      (replace (Z.of_nat (S (List.length w)) =? 0) with false by lia); reflexivity.
Qed.

(** So a workbook comes only from xls or unrecognised content. *)
Theorem c49_only_xls : forall {B} (parser : list Z -> result B) path content b,
  (forall p, path = Some p -> expanduser p = p) ->
  open_workbook files expanduser namelist lower parser path content = Ok b ->
  exists whole, source expanduser path content whole /\ whole <> [] /\
    (kind whole None \/ kind whole (Some Xls)) /\ parser whole = Ok b.
Proof.
  intros B parser path content b X H.
  assert (I : exists f, inspect_format files expanduser namelist lower path content = Ok f).
  { unfold open_workbook in H. destruct (inspect_format _ _ _ _ _ _); [eauto|discriminate]. }
  destruct I as [f I]. apply c49_inspect in I. destruct I as (w & S & K). exists w. split; [exact S|].
  assert (D : f = None \/ f = Some Xls).
  { destruct f as [f|]; [|auto]. destruct f; auto;
      (rewrite (c49_refused parser path content w _ S K) in H; [discriminate|discriminate]). }
  rewrite (c49_let_through parser path content w f S K D X) in H.
  destruct w as [|a w]; [discriminate|]. split; [discriminate|]. split; [|exact H].
  destruct D as [-> | ->]; auto.
Qed.

(** Case and slash variants: letters of either case, either slash. *)
Definition ascii_lower (c : Z) : Z := if (65 <=? c) && (c <=? 90) then c + 32 else c.
Definition variant (c d : Z) : Prop := d = c \/ 97 <= c <= 122 /\ d = c - 32 \/ c = 47 /\ d = 92.

Theorem c49_variants : forall names n target,
  (forall s, Forall (fun c => 0 <= c < 128) s -> lower s = map ascii_lower s) ->
  target = s2l "xl/workbook.xml" \/ target = s2l "xl/workbook.bin" \/ target = s2l "content.xml" ->
  Forall2 variant target n -> In n names -> has names target.
Proof.
  intros names n target L T V I. exists n, (forward_slashes n). split; [exact I|].
  split; [apply slashed_map; reflexivity|].
  assert (G : Forall (fun c => 0 <= c < 128 /\ c <> 92 /\ ~ (65 <= c <= 90)) target).
  { destruct T as [-> | [-> | ->]]; cbn; repeat constructor; lia. }
  clear T I. rewrite L.
  - induction V as [|c d t n Hv V IH]; [reflexivity|]. inversion G as [|? ? Gc Gt]; subst. cbn. f_equal.
    + unfold ascii_lower. unfold variant in Hv. destruct (d =? 92) eqn:E; destruct ((65 <=? _) && (_ <=? 90)) eqn:E2; lia.
    + apply IH, Gt.
  - induction V as [|c d t n Hv V IH]; [constructor|]. inversion G as [|? ? Gc Gt]; subst. cbn. constructor.
    + unfold variant in Hv. destruct (d =? 92) eqn:E; lia.
    + apply IH, Gt.
Qed.
End C49.

(** The claim without the tilde condition is false: inspect_format expands a leading
    tilde, the parser's open does not, so a zip file in a directory called "~" reaches
    the parser when the file below the home directory is not a zip file. *)
Theorem c49_tilde_refuted : exists files expanduser namelist lower filename whole,
  kind namelist lower whole (Some Zip) /\
  (forall B (parser : list Z -> result B),
     open_workbook files expanduser namelist lower parser (Some filename) None = parser whole).
Proof.
  exists (fun p => if list_eqb p (s2l "~/a") then Ok [80; 75; 3; 4; 0] else Ok [1]).
  exists (fun p => s2l "/home/a").
  exists (fun _ => Ok []). exists (fun s => s). exists (s2l "~/a"). exists [80; 75; 3; 4; 0].
  split.
  - apply k_zip with (names := []); try reflexivity.
    + exists [0]. reflexivity.
    + intros (n & n' & [] & _).
    + intros (n & n' & [] & _).
    + intros (n & n' & [] & _).
  - intros B parser. reflexivity.
Qed.

(** A zip file with "XL\Workbook.XML" in it is xlsx. *)
Example c49_case :
  let lower := map ascii_lower in
  let names := [s2l "a"; s2l "XL\Workbook.XML"] in
  let whole := [80; 75; 3; 4; 0; 0] in
  inspect_format (fun _ => Err OSError) (fun p => p) (fun _ => Ok names) lower None (Some whole) = Ok (Some Xlsx) /\
  open_workbook (fun _ => Err OSError) (fun p => p) (fun _ => Ok names) lower (fun w => Ok w) None (Some whole) = Err XLRDError /\
  open_workbook (fun _ => Err OSError) (fun p => p) (fun _ => Ok names) lower (fun w => Ok w) None (Some [9; 0; 4; 0]) = Ok [9; 0; 4; 0].
Proof. vm_compute. auto. Qed.

Print Assumptions c49_inspect.
Print Assumptions c49_refused.
Print Assumptions c49_let_through.
Print Assumptions c49_only_xls.
Print Assumptions c49_variants.
Print Assumptions c49_tilde_refuted.
