(** Property theorems C93: the text of formulas with references. *)
From Verif Require Import Base BaseFacts Text CellNames Utf16 Strings StringFacts GridModel SheetObjects
  FormulaTables FormulaModel Decompile FormulaFacts PropBytes FormulaExpr FormulaRefs PropFormulaText.

Lemma two_words : forall n, 0 <= n < 65536 -> le_enc 2 n = [n mod 256; n / 256].
Proof. intros n H. cbn [le_enc]. rewrite (Z.mod_small (n / 256)) by lia. reflexivity. Qed.

Lemma index_at : forall {A} (l : list A) i a, znth l i = Some a -> py_index l i = Ok a.
Proof. intros A l i a H. pose proof (znth_Some_range _ _ _ H). apply py_index_znth; [lia|exact H]. Qed.

Lemma letters_spec : forall n, 0 <= n < 256 -> colname n = Ok (letters n).
Proof.
  intros n H. unfold colname, letters.
  assert (forall i, 0 <= i < 26 -> py_index A2Z i = Ok (65 + i)) as L.
  { intros i I. assert (exists j, (j < 26)%nat /\ i = Z.of_nat j) as (j & J & ->) by (exists (Z.to_nat i); lia).
    do 26 (destruct j as [|j]; [reflexivity|]). lia. }
  destruct (n <=? 25) eqn:E; destruct (n <? 26) eqn:E1; try lia.
  - rewrite L by lia. reflexivity.
  - rewrite !L by lia. cbn [bind]. do 2 f_equal. lia.
Qed.

Section Cells.
Variables (bv : Z) (offset : bool) (base : option (Z * Z)).
Local Notation browx := (option_map fst base).
Local Notation bcolx := (option_map snd base).

(** The numbers the code works with. *)
Definition value (c : coord) : Z := match c with Fixed n => n | Away d => d end.

Lemma row_number_range : forall r, row_ok bv offset base r -> 0 <= row_number bv offset base r < rows bv.
Proof.
  intros [n|d] H; cbn [row_ok row_number] in *; [exact H|].
  destruct offset; [unfold rows; destruct (bv <? 80); lia|]. destruct base as [[b c]|]; [lia|contradiction].
Qed.
Lemma col_number_range : forall c, col_ok offset base c -> 0 <= col_number offset base c < 256.
Proof.
  intros [n|d] H; cbn [col_ok col_number] in *; [exact H|].
  destruct offset; [lia|]. destruct base as [[a b]|]; [lia|contradiction].
Qed.
Lemma bit_range : forall b, 0 <= bit b <= 1.
Proof. intros []; cbn; lia. Qed.

Lemma flag_bits : forall v m n, 0 <= v < 16384 ->
  Z.testbit (v + (32768 * bit m + 16384 * bit n)) 15 = m /\
  Z.testbit (v + (32768 * bit m + 16384 * bit n)) 14 = n /\
  Z.land (v + (32768 * bit m + 16384 * bit n)) 16383 = v /\
  (v < 256 -> Z.land (v + (32768 * bit m + 16384 * bit n)) 255 = v).
Proof.
  intros v m n H. set (w := v + (32768 * bit m + 16384 * bit n)).
  assert (Z.land w 16383 = w mod 16384) as E by (apply (Z.land_ones w 14); lia).
  assert (Z.land w 255 = w mod 256) as E1 by (apply (Z.land_ones w 8); lia).
  rewrite E, E1, !Z.testbit_odd, !Z.shiftr_div_pow2 by lia. change (2 ^ 15) with 32768. change (2 ^ 14) with 16384.
  subst w. destruct m, n; cbn [bit].
  - replace ((v + (32768 * 1 + 16384 * 1)) / 32768) with 1 by lia. replace ((v + (32768 * 1 + 16384 * 1)) / 16384) with 3 by lia. repeat split; lia.
  - replace ((v + (32768 * 1 + 16384 * 0)) / 32768) with 1 by lia. replace ((v + (32768 * 1 + 16384 * 0)) / 16384) with 2 by lia. repeat split; lia.
  - replace ((v + (32768 * 0 + 16384 * 1)) / 32768) with 0 by lia. replace ((v + (32768 * 0 + 16384 * 1)) / 16384) with 1 by lia. repeat split; lia.
  - replace ((v + (32768 * 0 + 16384 * 0)) / 32768) with 0 by lia. replace ((v + (32768 * 0 + 16384 * 0)) / 16384) with 0 by lia. repeat split; lia.
Qed.

Lemma row_word_range : forall r c, row_ok bv offset base r -> 0 <= row_word bv offset base r c < 65536.
Proof.
  intros r c H. pose proof (row_number_range r H) as R. pose proof (bit_range (moving r)). pose proof (bit_range (moving c)).
  unfold row_word, flags, rows in *. destruct (bv <? 80); lia.
Qed.
Lemma col_word_range : forall r c, col_ok offset base c -> 0 <= col_word bv offset base r c < 256 ^ Z.of_nat (col_bytes bv).
Proof.
  intros r c H. pose proof (col_number_range c H) as R. pose proof (bit_range (moving r)). pose proof (bit_range (moving c)).
  unfold col_word, flags, col_bytes in *. destruct (bv <? 80).
  - change (256 ^ Z.of_nat 1) with 256. lia.
  - change (256 ^ Z.of_nat 2) with 65536. lia.
Qed.

(** The words lead back to the coordinates. *)
Lemma adjust8 : forall r c, 80 <= bv -> row_ok bv offset base r -> col_ok offset base c ->
  adjust_cell_addr_biff8 (row_word bv offset base r c) (col_word bv offset base r c) offset browx bcolx
  = Ok (value r, value c, moving r, moving c).
Proof.
  intros r c B Hr Hc. pose proof (row_number_range r Hr) as R. pose proof (col_number_range c Hc) as C.
  unfold adjust_cell_addr_biff8, row_word, col_word, flags. unfold rows in *. destruct (bv <? 80) eqn:E; [lia|]. rewrite Z.add_0_r.
  destruct (flag_bits (col_number offset base c) (moving r) (moving c)) as (-> & -> & _ & ->); [lia| |lia].
  destruct r as [n|d], c as [m|f]; cbn [moving value row_number col_number row_ok col_ok] in *; unfold rows in *; rewrite ?E in *;
    destruct offset; cbn [andb sub_base]; destruct base as [[b1 b2]|]; cbn [option_map fst snd sub_base bind]; try contradiction; do 2 f_equal;
    repeat match goal with |- (_, _, _, _) = _ => f_equal | |- (_, _) = _ => f_equal end; try reflexivity;
    try (destruct (_ >=? 32768) eqn:G); try (destruct (_ >=? 128) eqn:G1); lia.
Qed.
Lemma adjust7 : forall r c, bv < 80 -> row_ok bv offset base r -> col_ok offset base c ->
  adjust_cell_addr_biff_le7 (row_word bv offset base r c) (col_word bv offset base r c) offset browx bcolx
  = Ok (value r, value c, moving r, moving c).
Proof.
  intros r c B Hr Hc. pose proof (row_number_range r Hr) as R. pose proof (col_number_range c Hc) as C.
  unfold adjust_cell_addr_biff_le7, row_word, col_word, flags. unfold rows in *. destruct (bv <? 80) eqn:E; [|lia]. rewrite Z.add_0_r.
  destruct (flag_bits (row_number bv offset base r) (moving r) (moving c)) as (-> & -> & -> & _); [lia|].
  destruct r as [n|d], c as [m|f]; cbn [moving value row_number col_number row_ok col_ok] in *; unfold rows in *; rewrite ?E in *;
    destruct offset; cbn [andb sub_base]; destruct base as [[b1 b2]|]; cbn [option_map fst snd sub_base bind]; try contradiction; do 2 f_equal;
    repeat match goal with |- (_, _, _, _) = _ => f_equal | |- (_, _) = _ => f_equal end; try reflexivity;
    try (destruct (_ >=? 8192) eqn:G); try (destruct (_ >=? 128) eqn:G1); lia.
Qed.

Lemma cell_bytes_len : forall r c, zlen (cell_bytes bv offset base r c) = 2 + Z.of_nat (col_bytes bv).
Proof. intros. unfold cell_bytes. rewrite zlen_app, !zlen_le_enc. reflexivity. Qed.
Lemma area_bytes_len : forall r1 r2 c1 c2, zlen (area_bytes bv offset base r1 r2 c1 c2) = 4 + 2 * Z.of_nat (col_bytes bv).
Proof. intros. unfold area_bytes. rewrite !zlen_app, !zlen_le_enc. lia. Qed.

Lemma read_cell : forall data p t r c, At data p (cell_bytes bv offset base r c ++ t) ->
  row_ok bv offset base r -> col_ok offset base c ->
  get_cell_addr data p bv offset browx bcolx = Ok (value r, value c, moving r, moving c).
Proof.
  intros data p t r c A Hr Hc. pose proof (row_word_range r c Hr) as R. pose proof (col_word_range r c Hc) as C.
  pose proof (At_slice _ _ _ _ _ A eq_refl) as SL. rewrite cell_bytes_len in SL.
  pose proof (cell_bytes_len r c) as CL.
  unfold cell_bytes in A. rewrite <- app_assoc in A.
  assert (At data (p + 2) (le_enc (col_bytes bv) (col_word bv offset base r c) ++ t)) as A2
    by (apply (At_skip _ _ _ _ _ A); rewrite zlen_le_enc; lia).
  unfold get_cell_addr. rewrite (At_u16 _ _ _ _ A) by lia. unfold unpack_u16.
  unfold col_bytes in *. destruct (bv <? 80) eqn:E; destruct (bv >=? 80) eqn:E1; try lia.
  - change (p + (2 + Z.of_nat 1)) with (p + 3) in SL. rewrite SL, CL. cbn [Z.add Z.of_nat Pos.of_succ_nat Pos.succ Pos.add Z.eqb Pos.eqb bind].
    rewrite (At_le _ _ _ _ _ 1 A2) by (try reflexivity; exact C). cbn [bind]. apply adjust7; [lia|assumption|assumption].
  - change (p + (2 + Z.of_nat 2)) with (p + 4) in SL. rewrite SL, CL. cbn [Z.add Z.of_nat Pos.of_succ_nat Pos.succ Pos.add Z.eqb Pos.eqb bind].
    rewrite (At_le _ _ _ _ _ 2 A2) by (try reflexivity; exact C). cbn [bind]. apply adjust8; [lia|assumption|assumption].
Qed.

Lemma read_area : forall data p t r1 r2 c1 c2, At data p (area_bytes bv offset base r1 r2 c1 c2 ++ t) ->
  row_ok bv offset base r1 -> row_ok bv offset base r2 -> col_ok offset base c1 -> col_ok offset base c2 ->
  get_cell_range_addr data p bv offset browx bcolx
  = Ok ((value r1, value c1, moving r1, moving c1), (value r2, value c2, moving r2, moving c2)).
Proof.
  intros data p t r1 r2 c1 c2 A Hr1 Hr2 Hc1 Hc2.
  pose proof (row_word_range r1 c1 Hr1) as R1. pose proof (col_word_range r1 c1 Hc1) as C1.
  pose proof (row_word_range r2 c2 Hr2) as R2. pose proof (col_word_range r2 c2 Hc2) as C2.
  pose proof (At_slice _ _ _ _ _ A eq_refl) as SL. rewrite area_bytes_len in SL.
  pose proof (area_bytes_len r1 r2 c1 c2) as CL.
  unfold area_bytes in A. rewrite <- !app_assoc in A.
  assert (At data (p + 2) (le_enc 2 (row_word bv offset base r2 c2) ++ le_enc (col_bytes bv) (col_word bv offset base r1 c1)
    ++ le_enc (col_bytes bv) (col_word bv offset base r2 c2) ++ t)) as A2 by (apply (At_skip _ _ _ _ _ A); rewrite zlen_le_enc; lia).
  assert (At data (p + 4) (le_enc (col_bytes bv) (col_word bv offset base r1 c1)
    ++ le_enc (col_bytes bv) (col_word bv offset base r2 c2) ++ t)) as A3 by (apply (At_skip _ _ _ _ _ A2); rewrite zlen_le_enc; lia).
  assert (At data (p + 4 + Z.of_nat (col_bytes bv)) (le_enc (col_bytes bv) (col_word bv offset base r2 c2) ++ t)) as A4
    by (apply (At_skip _ _ _ _ _ A3); rewrite zlen_le_enc; lia).
  unfold get_cell_range_addr. rewrite (At_u16 _ _ _ _ A) by lia. rewrite (At_u16 _ _ _ _ A2) by lia. unfold unpack_u16.
  unfold col_bytes in *. destruct (bv <? 80) eqn:E; destruct (bv >=? 80) eqn:E1; try lia.
  - change (p + (4 + 2 * Z.of_nat 1)) with (p + 6) in SL. rewrite SL, CL. cbn [Z.add Z.mul Pos.mul Z.of_nat Pos.of_succ_nat Pos.succ Pos.add Z.eqb Pos.eqb bind].
    replace (p + 5) with (p + 4 + Z.of_nat 1) by lia.
    rewrite (At_le _ _ _ _ _ 1 A3) by (try reflexivity; exact C1). rewrite (At_le _ _ _ _ _ 1 A4) by (try reflexivity; exact C2).
    cbn [bind]. rewrite !adjust7 by (try assumption; lia). reflexivity.
  - change (p + (4 + 2 * Z.of_nat 2)) with (p + 8) in SL. rewrite SL, CL. cbn [Z.add Z.mul Pos.mul Z.of_nat Pos.of_succ_nat Pos.succ Pos.add Z.eqb Pos.eqb bind].
    replace (p + 6) with (p + 4 + Z.of_nat 2) by lia.
    rewrite (At_le _ _ _ _ _ 2 A3) by (try reflexivity; exact C1). rewrite (At_le _ _ _ _ _ 2 A4) by (try reflexivity; exact C2).
    cbn [bind]. rewrite !adjust8 by (try assumption; lia). reflexivity.
Qed.

(** *** Their texts *)
Ltac texts :=
  change (s2l "R[") with [82; 91]; change (s2l "C[") with [67; 91]; change (s2l "]") with [93];
  change (s2l "R") with [82]; change (s2l "C") with [67]; change (s2l "$") with [36];
  cbn [app]; rewrite <- ?app_assoc; cbn [app]; rewrite <- ?app_assoc; reflexivity.
Lemma cell_shown : forall r c rc, row_ok bv offset base r -> col_ok offset base c -> biff bv ->
  (moving r || moving c = true -> base = None -> rc = true) ->
  cellnamerel (value r) (value c) (moving r) (moving c) browx bcolx rc = Ok (cell_text (rows bv) base rc r c).
Proof.
  intros r c rc Hr Hc B S. unfold cellnamerel, cellnameabs, colnamerel, rownamerel, cell_text, row_text, col_text, distance.
  destruct base as [[b1 b2]|] eqn:BE.
  -  cbn [option_map fst snd is_none]. rewrite !andb_false_r. cbn [orb].
    assert (forall d, row_ok bv offset (Some (b1, b2)) (Away d) -> (b1 + d) mod 65536 = (b1 + d) mod rows bv) as RW.
    { intros d D. cbn [row_ok] in D. unfold rows in *. destruct (bv <? 80) eqn:E8; [|reflexivity].
      destruct offset; rewrite !Z.mod_small by lia; reflexivity. }
    destruct r as [n|d], c as [m|f]; cbn [moving value negb andb orb]; destruct rc; cbn [app bind];
      repeat match goal with |- context[?x =? 0] => destruct (x =? 0); cbn [negb bind] end;
      cbn [col_ok] in Hc; rewrite ?letters_spec, ?RW by (try lia; assumption); cbn [bind]; texts.
  -  cbn [option_map is_none]. rewrite !andb_true_r.
    destruct r as [n|d], c as [m|f]; cbn [moving value negb andb orb] in *.
    + destruct rc; cbn [app bind]; [reflexivity|]. cbn [col_ok] in Hc. rewrite letters_spec by lia. reflexivity.
    + rewrite S by reflexivity. cbn [app bind]. destruct (f =? 0); cbn [negb bind]; texts.
    + rewrite S by reflexivity. cbn [app bind]. destruct (d =? 0); cbn [negb bind app]; texts.
    + rewrite S by reflexivity. cbn [app bind]. destruct (d =? 0), (f =? 0); cbn [negb bind app]; texts.
Qed.

Lemma area_shown : forall r1 r2 c1 c2 r1c1, row_ok bv offset base r1 -> row_ok bv offset base r2 ->
  col_ok offset base c1 -> col_ok offset base c2 -> biff bv ->
  rangename2drel (value r1) (value r2 + 1) (value c1) (value c2 + 1) (moving r1) (moving r2) (moving c1) (moving c2) browx bcolx r1c1
  = Ok (area_text (rows bv) base (style base r1c1 (moving r1 || moving r2 || moving c1 || moving c2)) r1 r2 c1 c2).
Proof.
  intros r1 r2 c1 c2 r1c1 H1 H2 H3 H4 B. unfold rangename2drel. cbv zeta.
  set (rc := if (moving c1 || moving c2) && is_none bcolx then true else if (moving r1 || moving r2) && is_none browx then true else r1c1).
  assert (rc = style base r1c1 (moving r1 || moving r2 || moving c1 || moving c2)) as RC.
  { unfold rc, style.  destruct base as [[]|]; cbn [option_map is_none]; destruct r1c1, (moving r1), (moving r2), (moving c1), (moving c2); reflexivity. }
  rewrite <- RC. rewrite !Z.add_simpl_r.
  assert (forall r c, (moving r || moving c = true -> moving r1 || moving r2 || moving c1 || moving c2 = true) ->
    moving r || moving c = true -> base = None -> rc = true) as ST.
  { intros r c I J K. rewrite RC. unfold style. rewrite K, (I J). destruct r1c1; reflexivity. }
  rewrite !cell_shown; try assumption.
  - reflexivity.
  - apply ST. destruct (moving r1), (moving r2), (moving c1), (moving c2); cbn; auto.
  - apply ST. destruct (moving r1), (moving r2), (moving c1), (moving c2); cbn; auto.
Qed.

Lemma fixed_shown : forall r c, moving r = false -> moving c = false -> row_ok bv offset base r -> col_ok offset base c ->
  cellnameabs (value r) (value c) false = Ok (cell_text (rows bv) base false r c).
Proof.
  intros [n|d] [m|f] Mr Mc Hr Hc; try discriminate. cbn [col_ok] in Hc. unfold cellnameabs, cell_text. cbn [value col_text row_text].
  rewrite letters_spec by lia. reflexivity.
Qed.
End Cells.

(** ** Sheets and names *)

(** Where the sheet bytes of a reference lead, by the sheet table of the book. *)
Definition leads (e : fenv) (s : list Z) (w : place) : Prop :=
  if fe_bv e <? 80 then
    exists x u a b, s = le_enc 2 x ++ u ++ le_enc 2 a ++ le_enc 2 b /\ zlen u = 8 /\
      0 <= x < 65536 /\ 0 <= a < 65536 /\ 0 <= b < 65536 /\
      match w with
      | Outside => 0 < x < 32768
      | AnySheet => False
      | Gone => (x = 0 \/ 32768 <= x) /\ a = 65535 /\ b = 65535
      | On lo hi => (x = 0 \/ 32768 <= x) /\ a <= b < 32768 /\
          znth (fe_allmap e) a = Some lo /\ znth (fe_allmap e) b = Some hi
      end
  else
    exists refx rec first last, s = le_enc 2 refx /\ 0 <= refx < 65536 /\
      znth (fe_info e) refx = Some (rec, first, last) /\ fe_addins e <> Some rec /\
      match w with
      | Outside => fe_locals e <> Some rec
      | AnySheet => fe_locals e = Some rec /\ first = 0xFFFE /\ last = 0xFFFE
      | Gone => fe_locals e = Some rec /\ first = 0xFFFF /\ last = 0xFFFF
      | On lo hi => fe_locals e = Some rec /\ 0 <= first <= last /\ last < 0xFFFE /\
          znth (fe_allmap e) first = Some lo /\ znth (fe_allmap e) last = Some hi
      end.

Definition sheet_named (e : fenv) (i : Z) : list Z :=
  match znth (fe_sheets e) i with Some s => s | None => [] end.
Definition has_name (e : fenv) (i : Z) : Prop := exists s, s <> [] /\ znth (fe_sheets e) i = Some s.

(** The text for a name of another book. *)
Definition foreign_text (n file : Z) : list Z :=
  s2l "<<Name #" ++ fmt_d (n - 1) ++ s2l " in external(?) file #" ++ fmt_d file ++ s2l ">>".

(** The bytes of a tNameX and the text for it: the name of an add-in function in double
    quotes, the text of a name of this book, or a remark. *)
Definition outer (e : fenv) (names : list (list Z * option Z)) (b t : list Z) : Prop :=
  if fe_bv e <? 80 then
    exists x u n v, b = le_enc 2 x ++ u ++ le_enc 2 n ++ v /\ zlen u = 8 /\ 0 <= x < 65536 /\ 1 <= n < 65536 /\
      ((0 < x < 32768 /\ t = foreign_text n x) \/
       (32768 <= x /\ znth (fe_b57 e) (65535 - x) = Some 4 /\ known e names n /\ t = names_text e names n) \/
       (32768 <= x /\ (exists y, znth (fe_b57 e) (65535 - x) = Some y /\ y <> 4) /\ t = foreign_text n (x - 65536)))
  else
    exists refx n v, b = le_enc 2 refx ++ le_enc 2 n ++ v /\ 0 <= refx < 65536 /\ 1 <= n < 65536 /\
      ((exists rec s, znth (fe_info e) refx = Some (rec, 0xFFFE, 0xFFFE) /\ fe_addins e = Some rec /\
          znth (fe_addin_names e) (n - 1) = Some s /\ t = in_quotes s) \/
       (exists w, leads e (le_enc 2 refx) w /\
          match w with
          | On lo hi => 0 <= lo <= hi /\ known e names n /\ t = names_text e names n
          | AnySheet => known e names n /\ t = names_text e names n
          | _ => t = foreign_text n refx
          end)).

Section Text.
Context {N : Type}.
Variable ops : numops N.
Variable e : fenv.
Variable names : list (list Z * option Z).
Hypothesis BV : biff (fe_bv e).
Variables (ft : Z) (base : option (Z * Z)) (r1c1 : bool).
Hypothesis FT : ft = 1 \/ ft = 2 \/ ft = 4 \/ ft = 8 \/ ft = 16 \/ ft = 32.

(** Shared formulas, names, conditional formats and validations store distances. *)
Definition distances : bool := (ft =? 2) || (ft =? 8) || (ft =? 16) || (ft =? 32).

Definition formula_tokens (f : formula) : list Z := tokens (fe_bv e) distances base f.
Definition formula_holds (f : formula) : Prop :=
  holds (fe_bv e) distances base (stored e names) (leads e) (has_name e) (outer e names) f.
Definition formula_text (f : formula) : list Z :=
  shown (rows (fe_bv e)) base r1c1 (text_of ops e names) (sheet_named e) f.

Variables (data : list Z) (fl : Z).
Local Notation browx := (option_map fst base).
Local Notation bcolx := (option_map snd base).
Notation reach := (d_reach ops e names (Some ft) browx bcolx r1c1 data fl).

Definition pair_of (w : place) : Z * Z :=
  match w with On lo hi => (lo, hi) | AnySheet => (-1, -1) | Gone => (-2, -2) | Outside => (-4, -4) end.

Lemma At_i16 : forall t v pos, At data pos (le_enc 2 v ++ t) -> 0 <= v < 65536 ->
  unpack_i16 data pos = Ok (if v <? 32768 then v else v - 65536).
Proof.
  intros t v pos A R. unfold unpack_i16. rewrite (At_le _ _ _ _ _ 2 A) by (try reflexivity; change (256 ^ 2) with 65536; lia). cbn [bind].
  unfold to_signed. change (2 ^ (16 - 1)) with 32768. change (2 ^ 16) with 65536.
  destruct (v <? 32768) eqn:E; destruct (v >=? 32768) eqn:E1; try lia; try reflexivity.
Qed.

Lemma leads8 : forall refx w, fe_bv e = 80 -> leads e (le_enc 2 refx) w -> 0 <= refx < 65536 ->
  match w with On lo hi => 0 <= lo <= hi | _ => True end ->
  get_externsheet_local_range e refx = Ok (pair_of w).
Proof.
  intros refx w B L R P. unfold leads in L. rewrite B in L. change (80 <? 80) with false in L. cbv iota in L.
  destruct L as (r2 & rec & first & last & E & R2 & I & NA & W).
  assert (r2 = refx) as ->.
  { rewrite !two_words in E by assumption. injection E as E1 E2. lia. }
  unfold get_externsheet_local_range.
  rewrite (index_at _ _ _ I).
  assert (match fe_addins e with Some a => rec =? a | None => false end = false) as ->
    by (destruct (fe_addins e) as [a|]; [|reflexivity]; destruct (rec =? a) eqn:Q; [exfalso; apply NA; f_equal; lia|reflexivity]).
  destruct w as [lo hi| | |]; cbn [pair_of].
  - destruct W as (W1 & W2 & W3 & W4 & W5). rewrite W1, Z.eqb_refl. cbn [negb].
    destruct (first =? 65534) eqn:Q1; [lia|]. cbn [andb]. destruct (first =? 65535) eqn:Q2; [lia|]. cbn [andb]. cbv zeta.
    pose proof (znth_Some_range _ _ _ W5). 
    destruct (0 <=? first) eqn:Q3; [|lia]. destruct (first <=? last) eqn:Q4; [|lia]. destruct (last <? zlen (fe_allmap e)) eqn:Q5; [|lia]. cbn [andb negb].
    rewrite (index_at _ _ _ W4), (index_at _ _ _ W5). cbn [bind].
    destruct (0 <=? lo) eqn:Q6; [|lia]. destruct (lo <=? hi) eqn:Q7; [|lia]. reflexivity.
  - destruct W as (W1 & -> & ->). rewrite W1, Z.eqb_refl. reflexivity.
  - destruct W as (W1 & -> & ->). rewrite W1, Z.eqb_refl. reflexivity.
  - destruct (fe_locals e) as [a|]; [|reflexivity]. destruct (rec =? a) eqn:Q; [exfalso; apply W; f_equal; lia|reflexivity].
Qed.

Lemma bv_cases : fe_bv e < 80 \/ fe_bv e = 80.
Proof. unfold biff in BV. lia. Qed.

(** What the code reads as sheets. *)
Lemma read_place : forall p s t w, place_ok (fe_bv e) (leads e) (has_name e) s w -> At data (p + 1) (s ++ t) ->
  (if fe_bv e >=? 80 then do refx <- unpack_u16 data (p + 1); get_externsheet_local_range e refx
   else do (x, a, b) <- unpack_ref57 data p; get_externsheet_local_range_b57 e x a b) = Ok (pair_of w).
Proof.
  intros p s t w (P1 & P2 & P3 & P4) A.
  destruct bv_cases as [B|B].
  - destruct (fe_bv e >=? 80) eqn:E; [lia|]. unfold leads in P3. destruct (fe_bv e <? 80) eqn:E1; [|lia].
    destruct P3 as (x & u & a & b & -> & U & X & HA & HB & W). unfold sheet_bytes in P2. rewrite E1 in P2. cbv iota in P2.
    unfold unpack_ref57. rewrite (At_slice _ _ _ _ (p + 15) A) by lia. rewrite P2. cbn [guard Z.eqb Pos.eqb bind].
    rewrite <- !app_assoc in A. 
    assert (At data (p + 3) (u ++ le_enc 2 a ++ le_enc 2 b ++ t)) as A2 by (apply (At_skip _ _ _ _ _ A); rewrite zlen_le_enc; lia).
    assert (At data (p + 11) (le_enc 2 a ++ le_enc 2 b ++ t)) as A3 by (apply (At_skip _ _ _ _ _ A2); lia).
    assert (At data (p + 13) (le_enc 2 b ++ t)) as A4 by (apply (At_skip _ _ _ _ _ A3); rewrite zlen_le_enc; lia).
    rewrite (At_i16 _ _ _ A), (At_i16 _ _ _ A3), (At_i16 _ _ _ A4) by assumption. cbn [bind].
    unfold get_externsheet_local_range_b57. destruct w as [lo hi| | |]; cbn [pair_of].
    + destruct W as (W1 & W2 & W3 & W4). pose proof (znth_Some_range _ _ _ W4).
      destruct ((if x <? 32768 then x else x - 65536) >? 0) eqn:Q1; [destruct (x <? 32768) eqn:Q; lia|].
      destruct (a <? 32768) eqn:Q2; [|lia]. destruct (b <? 32768) eqn:Q3; [|lia].
      destruct (a =? -1) eqn:Q4; [lia|]. cbn [andb]. cbv zeta.
      destruct (0 <=? a) eqn:Q5; [|lia]. destruct (a <=? b) eqn:Q6; [|lia]. destruct (b <? zlen (fe_allmap e)) eqn:Q7; [|lia]. cbn [andb negb].
      rewrite (index_at _ _ _ W3), (index_at _ _ _ W4). cbn [bind].
      destruct (0 <=? lo) eqn:Q8; [|lia]. destruct (lo <=? hi) eqn:Q9; [|lia]. reflexivity.
    + contradiction.
    + destruct W as (W1 & -> & ->). destruct ((if x <? 32768 then x else x - 65536) >? 0) eqn:Q1; [destruct (x <? 32768) eqn:Q; lia|]. reflexivity.
    + destruct (x <? 32768) eqn:Q; [|lia]. destruct (x >? 0) eqn:Q1; [|lia]. reflexivity.
  - destruct (fe_bv e >=? 80) eqn:E; [|lia].
    assert (exists refx, s = le_enc 2 refx /\ 0 <= refx < 65536) as (refx & -> & R).
    { unfold leads in P3. destruct (fe_bv e <? 80) eqn:E1; [lia|]. destruct P3 as (refx & ? & ? & ? & -> & R & _). eauto. }
    rewrite (At_u16 _ _ _ _ A) by assumption. cbn [bind]. apply leads8; try assumption.
    destruct w; [apply P4|exact I|exact I|exact I].
Qed.

Lemma double_quotes_spec : forall s, double_quotes s = flat_map (fun c => if c =? 39 then [39; 39] else [c]) s.
Proof.
  induction s as [|c s IH]; [reflexivity|]. cbn [double_quotes flat_map]. rewrite IH. destruct (c =? 39) eqn:E; [|reflexivity].
  apply Z.eqb_eq in E. subst. reflexivity.
Qed.
Lemma no_quotes : forall s, existsb (Z.eqb 39) s = false -> flat_map (fun c => if c =? 39 then [39; 39] else [c]) s = s.
Proof.
  induction s as [|c s IH]; intros H; [reflexivity|]. cbn [existsb flat_map] in *. apply orb_false_iff in H as [H1 H2].
  rewrite Z.eqb_sym, H1, IH by exact H2. reflexivity.
Qed.
Lemma sheet_shown : forall i, has_name e i -> quotedsheetname (fe_sheets e) i = Ok (sheet_quoted (sheet_named e i)).
Proof.
  intros i (s & S & H). pose proof (znth_Some_range _ _ _ H). unfold quotedsheetname, sheet_named. rewrite H.
  destruct (i >=? 0) eqn:E; [|lia]. rewrite (index_at _ _ _ H). cbn [bind].
  unfold sheet_quoted, has_char. destruct (existsb (Z.eqb 39) s) eqn:Q; cbn [orb].
  - rewrite double_quotes_spec. reflexivity.
  - destruct (existsb (Z.eqb 32) s) eqn:Q2; [|reflexivity]. rewrite no_quotes by exact Q. reflexivity.
Qed.

Lemma place_shown : forall s w, place_ok (fe_bv e) (leads e) (has_name e) s w ->
  sheetrange (fe_sheets e) (fst (pair_of w)) (snd (pair_of w) + 1) = Ok (place_text (sheet_named e) w) /\
  place_text (sheet_named e) w <> [].
Proof.
  intros s w (_ & _ & _ & P). unfold sheetrange. destruct w as [lo hi| | |]; cbn [pair_of fst snd place_text].
  - destruct P as (P1 & P2 & P3). rewrite (sheet_shown lo P2). cbn [bind].
    assert (sheet_quoted (sheet_named e lo) <> []) as NE.
    { destruct P2 as (n & N0 & H). unfold sheet_named. rewrite H. unfold sheet_quoted. destruct (_ || _); [discriminate|exact N0]. }
    split; [|destruct (sheet_quoted (sheet_named e lo)); [congruence|discriminate]].
    rewrite Z.add_simpl_r. destruct (lo =? hi) eqn:E; cbn [negb]; [rewrite app_nil_r; reflexivity|].
    rewrite (sheet_shown hi P3). reflexivity.
  - split; [reflexivity|discriminate].
  - split; [reflexivity|discriminate].
  - split; [reflexivity|discriminate].
Qed.

Definition runs (f : formula) : Prop := formula_holds f -> forall p t k l,
  At data p (formula_tokens f ++ t) -> p + zlen (formula_tokens f) <= fl ->
  exists kind l', reach p k l (p + zlen (formula_tokens f))
      (DOp (mk_dop kind (10 * grade f) (formula_text f)) :: k) l' /\
    okind_eqb kind oERR = erroneous f.

Lemma distances_spec : ((ft =? 2) || (ft =? 32) || (ft =? 8) || (ft =? 16)) = distances.
Proof. unfold distances. destruct (ft =? 2), (ft =? 32), (ft =? 8), (ft =? 16); reflexivity. Qed.

(** A reference is one token. *)
Lemma runs_token : forall f b rest o ty kind, formula_tokens f = b :: rest ->
  (formula_holds f -> token_of (fe_bv e) b = Ok (o, ty, zlen (b :: rest)) /\ ty <> 0) ->
  okind_eqb kind oERR = erroneous f ->
  (formula_holds f -> forall p t k l, At data p (b :: rest ++ t) ->
     exists l', d_classed e names distances browx bcolx r1c1 data p o ty k l
     = Ok (DOp (mk_dop kind (10 * grade f) (formula_text f)) :: k, l')) -> runs f.
Proof.
  intros f b rest o ty kind C T KE H W p t k l A F. rewrite C in *. destruct (T W) as (T1 & T2).
  destruct (H W p t k l A) as (l' & D). exists kind, l'. split; [|exact KE].
  pose proof (At_nonneg _ _ _ A). rewrite zlen_cons in *. pose proof (zlen_nonneg rest).
  apply d_reach_one; [lia|].
  eapply (step_classed ops e names ft browx bcolx r1c1 FT data fl b _ p k l o ty); [exact A|exact T1|exact T2|lia|].
  rewrite distances_spec. exact D.
Qed.

Ltac all_versions := let H := fresh in pose proof BV as H; unfold biff in H;
  repeat (destruct H as [H|H]; [rewrite H; reflexivity|]); rewrite H; reflexivity.

Lemma cell_size : forall k (alt : bool), token_of (fe_bv e) (class_code k + (if alt then 12 else 4)) =
  Ok (if alt then 12 else 4, Z.shiftr (class_code k) 5, 1 + (2 + Z.of_nat (col_bytes (fe_bv e)))).
Proof. intros [] []; all_versions. Qed.
Lemma area_size : forall k (alt : bool), token_of (fe_bv e) (class_code k + (if alt then 13 else 5)) =
  Ok (if alt then 13 else 5, Z.shiftr (class_code k) 5, 1 + (4 + 2 * Z.of_nat (col_bytes (fe_bv e)))).
Proof. intros [] []; all_versions. Qed.
Ltac late_versions := let H := fresh in pose proof BV as H; unfold biff in H;
  repeat (destruct H as [H|H]; [first [rewrite H; reflexivity|lia]|]); rewrite H; reflexivity.
Lemma cell3_size : forall k, 50 <= fe_bv e -> token_of (fe_bv e) (class_code k + 0x1A) =
  Ok (0x1A, Z.shiftr (class_code k) 5, 1 + (sheet_bytes (fe_bv e) + (2 + Z.of_nat (col_bytes (fe_bv e))))).
Proof. intros [] L; late_versions. Qed.
Lemma area3_size : forall k, 50 <= fe_bv e -> token_of (fe_bv e) (class_code k + 0x1B) =
  Ok (0x1B, Z.shiftr (class_code k) 5, 1 + (sheet_bytes (fe_bv e) + (4 + 2 * Z.of_nat (col_bytes (fe_bv e))))).
Proof. intros [] L; late_versions. Qed.
Lemma outer_size : forall k, 50 <= fe_bv e -> token_of (fe_bv e) (class_code k + 0x19) =
  Ok (0x19, Z.shiftr (class_code k) 5, 1 + outer_bytes (fe_bv e)).
Proof. intros [] L; late_versions. Qed.
Lemma lost_size : forall k (area three : bool), (three = true -> 50 <= fe_bv e) ->
  token_of (fe_bv e) (class_code k + (if three then 0x1C else 0x0A) + (if area then 1 else 0)) =
  Ok ((if three then 0x1C else 0x0A) + (if area then 1 else 0), Z.shiftr (class_code k) 5, 1 + lost_bytes (fe_bv e) area three).
Proof. intros [] [] [] L; try (specialize (L eq_refl)); try all_versions; late_versions. Qed.
Lemma mem_size : forall k, token_of (fe_bv e) (class_code k + 9) =
  Ok (9, Z.shiftr (class_code k) 5, 1 + Z.of_nat (mem_bytes (fe_bv e))).
Proof. intros []; all_versions. Qed.

Lemma class_nonzero : forall k, Z.shiftr (class_code k) 5 <> 0.
Proof. intros []; discriminate. Qed.

Lemma run_cell : forall k alt r c, runs (Cell k alt r c).
Proof.
  intros k alt r c.
  apply (runs_token (Cell k alt r c) (class_code k + (if alt then 12 else 4)) (cell_bytes (fe_bv e) distances base r c)
    (if alt then 12 else 4) (Z.shiftr (class_code k) 5) (if moving r || moving c then oREL else oREF)).
  - reflexivity.
  - intros _. rewrite cell_size, zlen_cons, cell_bytes_len. split; [reflexivity|apply class_nonzero].
  - destruct (moving r || moving c); reflexivity.
  - intros [Hr Hc] p t k0 l A. exists l.
    assert (At data (p + 1) (cell_bytes (fe_bv e) distances base r c ++ t)) as A1 by (apply (At_skip1 _ _ _ _ _ A); reflexivity).
    assert (d_cell e data p distances browx bcolx r1c1 =
      Ok (DOp (mk_dop (if moving r || moving c then oREL else oREF) 90 (formula_text (Cell k alt r c))))) as D.
    { unfold d_cell. rewrite (read_cell _ _ _ _ _ _ _ _ A1 Hr Hc). cbn [bind].
      unfold formula_text. cbn [shown].
      set (rc := style base r1c1 (moving r || moving c)).
      assert (cellnamerel (value r) (value c) (moving r) (moving c) browx bcolx r1c1
        = cellnamerel (value r) (value c) (moving r) (moving c) browx bcolx rc) as ->.
      { unfold rc, style, cellnamerel.  destruct (moving r), (moving c), base as [[]|], r1c1; reflexivity. }
      rewrite (cell_shown (fe_bv e) distances base r c rc Hr Hc BV).
      - reflexivity.
      - intros M Z. unfold rc, style. rewrite M, Z. destruct r1c1; reflexivity. }
    unfold d_classed. destruct alt; opcode; cbn [orb]; rewrite D; reflexivity.
Qed.

Lemma run_area : forall k alt r1 r2 c1 c2, runs (Area k alt r1 r2 c1 c2).
Proof.
  intros k alt r1 r2 c1 c2. set (mv := moving r1 || moving r2 || moving c1 || moving c2).
  apply (runs_token (Area k alt r1 r2 c1 c2) (class_code k + (if alt then 13 else 5)) (area_bytes (fe_bv e) distances base r1 r2 c1 c2)
    (if alt then 13 else 5) (Z.shiftr (class_code k) 5) (if mv then oREL else oREF)).
  - reflexivity.
  - intros _. rewrite area_size, zlen_cons, area_bytes_len. split; [reflexivity|apply class_nonzero].
  - destruct mv; reflexivity.
  - intros (H1 & H2 & H3 & H4) p t k0 l A. exists l.
    assert (At data (p + 1) (area_bytes (fe_bv e) distances base r1 r2 c1 c2 ++ t)) as A1 by (apply (At_skip1 _ _ _ _ _ A); reflexivity).
    assert (d_area e data p distances browx bcolx r1c1 =
      Ok (DOp (mk_dop (if mv then oREL else oREF) 90 (formula_text (Area k alt r1 r2 c1 c2))))) as D.
    { unfold d_area. rewrite (read_area _ _ _ _ _ _ _ _ _ _ A1 H1 H2 H3 H4). cbn [bind].
      rewrite (area_shown (fe_bv e) distances base r1 r2 c1 c2 r1c1 H1 H2 H3 H4 BV). reflexivity. }
    unfold d_classed. destruct alt; opcode; cbn [orb]; rewrite D; reflexivity.
Qed.

(** The text of a reference to other sheets. *)
Lemma ref3d_shown : forall s w r1 r2 c1 c2, place_ok (fe_bv e) (leads e) (has_name e) s w ->
  row_ok (fe_bv e) distances base r1 -> row_ok (fe_bv e) distances base r2 ->
  col_ok distances base c1 -> col_ok distances base c2 ->
  let mv := moving r1 || moving r2 || moving c1 || moving c2 in
  d_ref3d e (mk_box (fst (pair_of w)) (snd (pair_of w) + 1) (value r1) (value r2 + 1) (value c1) (value c2 + 1))
    [false; false; moving r1; moving r2; moving c1; moving c2] browx bcolx r1c1
  = Ok (DOp (mk_dop (if mv then oREL else oREF) 90
      (place_text (sheet_named e) w ++ 33 :: area3_text (rows (fe_bv e)) base r1c1 r1 r2 c1 c2))).
Proof.
  intros s w r1 r2 c1 c2 P H1 H2 H3 H4 mv. destruct (place_shown s w P) as (PS & PN).
  unfold d_ref3d. cbv zeta. cbn [existsb orb]. replace (moving r1 || (moving r2 || (moving c1 || (moving c2 || false)))) with mv
    by (unfold mv; destruct (moving r1), (moving r2), (moving c1), (moving c2); reflexivity).
  destruct mv eqn:M.
  - unfold rangename3drel. cbn [r_box r_rel b_slo b_shi b_rlo b_rhi b_clo b_chi]. unfold sheetrangerel. cbn [negb andb]. rewrite PS. cbn [bind].
    rewrite (area_shown (fe_bv e) distances base r1 r2 c1 c2 r1c1 H1 H2 H3 H4 BV). fold mv. rewrite M. cbn [bind].
    replace (area3_text (rows (fe_bv e)) base r1c1 r1 r2 c1 c2) with (area_text (rows (fe_bv e)) base (style base r1c1 true) r1 r2 c1 c2)
      by (unfold mv in M; destruct r1, r2, c1, c2; try discriminate M; reflexivity).
    destruct (place_text (sheet_named e) w); [congruence|reflexivity].
  - unfold rangename3d. cbn [r_box b_slo b_shi b_rlo b_rhi b_clo b_chi]. rewrite PS. cbn [bind]. unfold rangename2d. cbv iota.
    assert (moving r1 = false /\ moving r2 = false /\ moving c1 = false /\ moving c2 = false) as (M1 & M2 & M3 & M4)
      by (unfold mv in M; destruct (moving r1), (moving r2), (moving c1), (moving c2); auto).
    rewrite !Z.add_simpl_r.
    rewrite (fixed_shown (fe_bv e) distances base r1 c1) by assumption.
    rewrite (fixed_shown (fe_bv e) distances base r2 c2) by assumption. cbn [bind].
    destruct r1 as [n1|], r2 as [n2|], c1 as [n3|], c2 as [n4|]; try discriminate. cbn [value area3_text].
    destruct ((n2 + 1 =? n1 + 1) && (n4 + 1 =? n3 + 1)) eqn:Q; destruct ((n1 =? n2) && (n3 =? n4)) eqn:Q1; try lia; reflexivity.
Qed.

Lemma run_cell3 : forall k s w r c, runs (Cell3 k s w r c).
Proof.
  intros k s w r c.
  apply (runs_token (Cell3 k s w r c) (class_code k + 0x1A) (s ++ cell_bytes (fe_bv e) distances base r c)
    0x1A (Z.shiftr (class_code k) 5) (if moving r || moving c then oREL else oREF)).
  - reflexivity.
  - intros ((P1 & P2 & _) & _). rewrite (cell3_size k P1), zlen_cons, zlen_app, cell_bytes_len, P2.
    split; [reflexivity|apply class_nonzero].
  - destruct (moving r || moving c); reflexivity.
  - intros (P & Hr & Hc) p t k0 l A. rewrite <- app_assoc in A.
    assert (At data (p + 1) (s ++ cell_bytes (fe_bv e) distances base r c ++ t)) as A1 by (apply (At_skip1 _ _ _ _ _ A); reflexivity).
    pose proof (read_place p s _ w P A1) as RP.
    pose proof P as (_ & P2 & _).
    assert (At data (p + 1 + zlen s) (cell_bytes (fe_bv e) distances base r c ++ t)) as A2 by (apply (At_skip _ _ _ _ _ A1); reflexivity).
    assert (read_ref3d e data p distances browx bcolx = Ok ((value r, value c, moving r, moving c), pair_of w)) as RR.
    { unfold read_ref3d. rewrite P2 in A2. unfold sheet_bytes in A2. destruct (fe_bv e >=? 80) eqn:E; destruct (fe_bv e <? 80) eqn:E1; try lia.
      - replace (p + 1 + 2) with (p + 3) in A2 by lia. rewrite (read_cell _ _ _ _ _ _ _ _ A2 Hr Hc). cbn [bind].
        apply bind_ok in RP as (refx & -> & G). cbn [bind]. rewrite G. reflexivity.
      - replace (p + 1 + 14) with (p + 15) in A2 by lia. rewrite (read_cell _ _ _ _ _ _ _ _ A2 Hr Hc). cbn [bind].
        apply bind_ok in RP as ([[x a] b] & -> & G). cbn [bind]. rewrite G. reflexivity. }
    unfold d_classed. opcode. cbn [orb]. rewrite RR. cbn [bind].
    pose proof (ref3d_shown s w r r c c P Hr Hr Hc Hc) as RS. cbv zeta in RS.
    replace (moving r || moving r || moving c || moving c) with (moving r || moving c) in RS by (destruct (moving r), (moving c); reflexivity).
    destruct (pair_of w) as [x1 x2]. cbn [fst snd] in RS. exists (Some x1). rewrite RS. reflexivity.
Qed.

Lemma area3_based : forall r1 r2 c1 c2,
  distances = true \/ moving r1 || moving r2 || moving c1 || moving c2 = false ->
  row_ok (fe_bv e) distances base r1 -> row_ok (fe_bv e) distances base r2 -> col_ok distances base c1 -> col_ok distances base c2 ->
  row_ok (fe_bv e) distances None r1 /\ row_ok (fe_bv e) distances None r2 /\ col_ok distances None c1 /\ col_ok distances None c2 /\
  area_bytes (fe_bv e) distances base r1 r2 c1 c2 = area_bytes (fe_bv e) distances None r1 r2 c1 c2.
Proof.
  intros r1 r2 c1 c2 [D|M] H1 H2 H3 H4.
  - rewrite D in *. repeat split; try (destruct r1); try (destruct r2); try (destruct c1); try (destruct c2); cbn in *; try tauto; lia.
  - destruct r1, r2, c1, c2; try discriminate M. repeat split; cbn in *; try tauto; lia.
Qed.

Lemma run_area3 : forall k s w r1 r2 c1 c2, runs (Area3 k s w r1 r2 c1 c2).
Proof.
  intros k s w r1 r2 c1 c2. set (mv := moving r1 || moving r2 || moving c1 || moving c2).
  apply (runs_token (Area3 k s w r1 r2 c1 c2) (class_code k + 0x1B) (s ++ area_bytes (fe_bv e) distances base r1 r2 c1 c2)
    0x1B (Z.shiftr (class_code k) 5) (if mv then oREL else oREF)).
  - reflexivity.
  - intros ((P1 & P2 & _) & _). rewrite (area3_size k P1), zlen_cons, zlen_app, area_bytes_len, P2.
    split; [reflexivity|apply class_nonzero].
  - destruct mv; reflexivity.
  - intros (P & H1 & H2 & H3 & H4 & D) p t k0 l A. rewrite <- app_assoc in A.
    destruct (area3_based _ _ _ _ D H1 H2 H3 H4) as (G1 & G2 & G3 & G4 & GE).
    assert (At data (p + 1) (s ++ area_bytes (fe_bv e) distances base r1 r2 c1 c2 ++ t)) as A1 by (apply (At_skip1 _ _ _ _ _ A); reflexivity).
    pose proof (read_place p s _ w P A1) as RP.
    pose proof P as (_ & P2 & _).
    assert (At data (p + 1 + zlen s) (area_bytes (fe_bv e) distances base r1 r2 c1 c2 ++ t)) as A2 by (apply (At_skip _ _ _ _ _ A1); reflexivity).
    rewrite GE in A2.
    assert (read_area3d e data p distances =
      Ok ((value r1, value c1, moving r1, moving c1), (value r2, value c2, moving r2, moving c2), pair_of w)) as RR.
    { unfold read_area3d. rewrite P2 in A2. unfold sheet_bytes in A2. destruct (fe_bv e >=? 80) eqn:E; destruct (fe_bv e <? 80) eqn:E1; try lia.
      - replace (p + 1 + 2) with (p + 3) in A2 by lia.
        pose proof (read_area (fe_bv e) distances None _ _ _ _ _ _ _ A2 G1 G2 G3 G4) as RA. cbn [option_map] in RA. rewrite RA. cbn [bind].
        apply bind_ok in RP as (refx & -> & G). cbn [bind]. rewrite G. reflexivity.
      - replace (p + 1 + 14) with (p + 15) in A2 by lia.
        pose proof (read_area (fe_bv e) distances None _ _ _ _ _ _ _ A2 G1 G2 G3 G4) as RA. cbn [option_map] in RA. rewrite RA. cbn [bind].
        apply bind_ok in RP as ([[x a] b] & -> & G). cbn [bind]. rewrite G. reflexivity. }
    unfold d_classed. opcode. cbn [orb]. rewrite RR. cbn [bind].
    pose proof (ref3d_shown s w r1 r2 c1 c2 P H1 H2 H3 H4) as RS. cbv zeta in RS. fold mv in RS.
    destruct (pair_of w) as [x1 x2]. cbn [fst snd] in RS. exists (Some x1). rewrite RS. reflexivity.
Qed.

Lemma run_lost : forall k area three b, runs (Lost k area three b).
Proof.
  intros k area three b.
  apply (runs_token (Lost k area three b) (class_code k + (if three then 0x1C else 0x0A) + (if area then 1 else 0)) b
    ((if three then 0x1C else 0x0A) + (if area then 1 else 0)) (Z.shiftr (class_code k) 5) oERR).
  - reflexivity.
  - intros (L & B). rewrite (lost_size k area three L), zlen_cons, B. split; [reflexivity|apply class_nonzero].
  - reflexivity.
  - intros _ p t k0 l A. exists l. destruct area, three; reflexivity.
Qed.

Lemma d_name_known : forall n, known e names n -> d_name e names (n - 1) = Ok (names_text e names n).
Proof.
  intros n (s & sc & N1 & Ns & Hk). unfold d_name, py_index, znth. cbv zeta.
  destruct (n - 1 <? 0) eqn:E1; [lia|]. cbn [orb]. rewrite E1, Ns. cbn [bind]. unfold names_text. rewrite Ns.
  destruct Hk as [->|[K1 K2]]; [reflexivity|].
  destruct (sc =? -1) eqn:E2; [lia|]. destruct (sc <? 0) eqn:E3; [lia|]. cbn [orb]. rewrite E3.
  destruct (nth_error (fe_sheets e) (Z.to_nat sc)); [|congruence]. reflexivity.
Qed.

(** A foreign name pushes a kind that is no error. *)
Lemma outer_read : forall p b0 b t s k l, 50 <= fe_bv e -> zlen b = outer_bytes (fe_bv e) -> outer e names b t ->
  At data p (b0 :: b ++ s) -> forall ty, exists kind l', okind_eqb kind oERR = false /\
  d_classed e names distances browx bcolx r1c1 data p 0x19 ty k l = Ok (DOp (mk_dop kind 90 t) :: k, l').
Proof.
  intros p b0 b t s k l L50 LB O A ty. unfold d_classed. opcode. cbn [orb].
  assert (At data (p + 1) (b ++ s)) as A1 by (apply (At_skip1 _ _ _ _ _ A); reflexivity).
  unfold outer in O. unfold outer_bytes in LB. unfold read_namex, namex_sheets.
  destruct (fe_bv e <? 80) eqn:E; destruct (fe_bv e >=? 80) eqn:E1; try lia; cbv iota in LB.
  - destruct O as (x & u & n & v & -> & U & X & NN & O).
    assert (zlen v = 12) as V by (rewrite !zlen_app, !zlen_le_enc, U in LB; lia).
    assert (At data (p + 1) ((le_enc 2 x ++ u ++ le_enc 2 n) ++ v ++ s)) as A1' by (rewrite <- !app_assoc in A1 |- *; exact A1).
    rewrite (At_slice _ _ _ _ (p + 13) A1') by (rewrite !zlen_app, !zlen_le_enc, U; lia).
    replace (zlen (le_enc 2 x ++ u ++ le_enc 2 n) =? 12) with true by (rewrite !zlen_app, !zlen_le_enc, U; reflexivity). cbn [guard bind].
    rewrite <- !app_assoc in A1.
    assert (At data (p + 3) (u ++ le_enc 2 n ++ v ++ s)) as A2 by (apply (At_skip _ _ _ _ _ A1); rewrite zlen_le_enc; lia).
    assert (At data (p + 11) (le_enc 2 n ++ v ++ s)) as A3 by (apply (At_skip _ _ _ _ _ A2); lia).
    rewrite (At_i16 _ _ _ A1), (At_u16 _ _ _ _ A3) by lia. cbn [bind].
    destruct O as [(X1 & ->)|[(X1 & Y & K & ->)|(X1 & (y & Y & NY) & ->)]].
    + destruct (x <? 32768) eqn:Q; [|lia]. destruct (x >? 0) eqn:Q1; [|lia]. cbn [bind]. rewrite Q1. cbn [bind Z.eqb Pos.eqb orb Z.ltb Z.compare Pos.compare Pos.compare_cont CompOpp].
      exists oUNK, (Some (-4)). split; reflexivity.
    + destruct (x <? 32768) eqn:Q; [lia|]. destruct (x - 65536 >? 0) eqn:Q1; [lia|]. destruct (x - 65536 <? 0) eqn:Q2; [|lia]. cbn [bind]. rewrite Q1.
      replace (- (x - 65536) - 1) with (65535 - x) by lia. rewrite (index_at _ _ _ Y). cbn [bind Z.eqb Pos.eqb orb Z.ltb Z.compare Pos.compare Pos.compare_cont CompOpp].
      rewrite d_name_known by exact K. exists oUNK, (Some (-1)). split; reflexivity.
    + destruct (x <? 32768) eqn:Q; [lia|]. destruct (x - 65536 >? 0) eqn:Q1; [lia|]. destruct (x - 65536 <? 0) eqn:Q2; [|lia]. cbn [bind]. rewrite Q1.
      replace (- (x - 65536) - 1) with (65535 - x) by lia. rewrite (index_at _ _ _ Y). cbn [bind].
      destruct (y =? 4) eqn:Q3; [lia|]. cbn [bind Z.eqb Pos.eqb orb Z.ltb Z.compare Pos.compare Pos.compare_cont CompOpp].
      exists oUNK, (Some (-666)). split; reflexivity.
  - destruct O as (refx & n & v & -> & R & NN & O).
    assert (zlen v = 2) as V by (rewrite !zlen_app, !zlen_le_enc in LB; lia).
    assert (At data (p + 1) ((le_enc 2 refx ++ le_enc 2 n) ++ v ++ s)) as A1' by (rewrite <- !app_assoc in A1 |- *; exact A1).
    rewrite (At_slice _ _ _ _ (p + 5) A1') by (rewrite !zlen_app, !zlen_le_enc; lia).
    replace (zlen (le_enc 2 refx ++ le_enc 2 n) =? 4) with true by (rewrite !zlen_app, !zlen_le_enc; reflexivity). cbn [guard bind].
    rewrite <- !app_assoc in A1.
    assert (At data (p + 3) (le_enc 2 n ++ v ++ s)) as A2 by (apply (At_skip _ _ _ _ _ A1); rewrite zlen_le_enc; lia).
    rewrite (At_u16 _ _ _ _ A1), (At_u16 _ _ _ _ A2) by lia. cbn [bind].
    destruct O as [(rec & nm & I & AD & NM & ->)|(w & L & W)].
    + unfold get_externsheet_local_range. rewrite (index_at _ _ _ I), AD, Z.eqb_refl.
      cbn [Z.eqb Pos.eqb andb guard bind]. rewrite (index_at _ _ _ NM). cbn [bind]. rewrite quoted_spec.
      exists oSTRG, (Some (-5)). split; reflexivity.
    + assert (match w with On lo hi => 0 <= lo <= hi | _ => True end) as PO by (destruct w; [apply W|exact I|exact I|exact I]).
      destruct bv_cases as [B|B]; [lia|]. rewrite (leads8 refx w B L R PO). cbn [bind].
      destruct w as [lo hi| | |]; cbn [pair_of bind].
      * destruct W as (_ & K & ->). destruct (lo =? -5) eqn:Q; [lia|]. destruct (lo <? -1) eqn:Q1; [lia|]. cbn [orb]. rewrite d_name_known by exact K.
        exists oUNK, (Some lo). split; reflexivity.
      * destruct W as (K & ->). cbn [Z.eqb Pos.eqb orb Z.ltb Z.compare Pos.compare Pos.compare_cont CompOpp]. rewrite d_name_known by exact K.
        exists oUNK, (Some (-1)). split; reflexivity.
      * rewrite W. cbn [Z.eqb Pos.eqb orb Z.ltb Z.compare Pos.compare Pos.compare_cont CompOpp]. exists oUNK, (Some (-2)). split; reflexivity.
      * rewrite W. cbn [Z.eqb Pos.eqb orb Z.ltb Z.compare Pos.compare Pos.compare_cont CompOpp]. exists oUNK, (Some (-4)). split; reflexivity.
Qed.

Lemma run_outer : forall k b s, runs (Outer k b s).
Proof.
  intros k b s (L50 & LB & O) p t k0 l A F. unfold formula_tokens in *. cbn [tokens app] in *.
  destruct (outer_read p _ b s t k0 l L50 LB O A (Z.shiftr (class_code k) 5)) as (kind & l' & KE & D).
  exists kind, l'. split; [|exact KE]. pose proof (At_nonneg _ _ _ A). rewrite zlen_cons in *. pose proof (zlen_nonneg b).
  apply d_reach_one; [lia|].
  eapply (step_classed ops e names ft browx bcolx r1c1 FT data fl _ _ p k0 l); [exact A|rewrite (outer_size k L50), LB; reflexivity|apply class_nonzero|lia|].
  rewrite distances_spec. exact D.
Qed.

Lemma plain_error_spec : forall x, plain_error x = is_error x.
Proof. intros x. induction x using expr_ind'; cbn [plain_error is_error]; auto. Qed.

Lemma run_plain : forall x, runs (Plain x).
Proof.
  intros x W p t k l A F. unfold formula_tokens in *. cbn [tokens] in *.
  destruct (run_all ops e names BV ft browx bcolx r1c1 FT data fl x W p t k l A F) as (kind & R & KE).
  exists kind, l. split; [|cbn [erroneous]; rewrite plain_error_spec; exact KE].
  unfold pushed in R. replace (10 * grade (Plain x)) with (rank_of (level x)); [exact R|].
  unfold rank_of. cbn [grade]. destruct (level x =? 8) eqn:E; reflexivity.
Qed.

Lemma grade_range : forall f, 0 <= grade f <= 9.
Proof.
  intros f. induction f using formula_ind'; cbn [grade]; try lia; try (destruct o; cbn; lia).
  pose proof (level_range x). destruct (level x =? 8); lia.
Qed.
Lemma grade_lt : forall f m, (10 * grade f <? 10 * m) = (grade f <? m).
Proof. intros. lia. Qed.

Lemma tokens_nonempty : forall f, 0 < zlen (formula_tokens f).
Proof.
  intros f. unfold formula_tokens. destruct f; cbn [tokens]; [apply codes_nonempty|..];
    rewrite ?zlen_app, ?zlen_cons, ?zlen_app, ?zlen_nil, ?zlen_cons;
    repeat match goal with |- context[zlen ?l] => let H := fresh in pose proof (zlen_nonneg l) as H; revert H; generalize (zlen l) end;
    intros; lia.
Qed.

Lemma then_step : forall p x k l p1 k1 l1 b t o sz k2, reach p k l p1 k1 l1 -> At data p (x ++ b :: t) ->
  p1 = p + zlen x -> p1 < fl -> token_of (fe_bv e) b = Ok (o, 0, sz) -> sz <> -2 -> forall sz2, 0 < sz2 ->
  d_plain ops e ft data fl p1 o sz k1 = Ok (k2, sz2) -> reach p k l (p1 + sz2) k2 l1.
Proof.
  intros p x k l p1 k1 l1 b t o sz k2 R A E F T S sz2 S2 P. eapply d_reach_trans; [exact R|].
  pose proof (At_nonneg _ _ _ A). pose proof (zlen_nonneg x).
  apply d_reach_one; [lia|]. eapply (step_plain ops e names ft browx bcolx r1c1 FT data fl); [apply (At_skip _ _ _ _ _ A E)|exact T|lia|exact P|lia].
Qed.

Lemma all_holds : forall args,
  (fix all l := match l with [] => True | x :: r =>
     holds (fe_bv e) distances base (stored e names) (leads e) (has_name e) (outer e names) x /\ all r end) args ->
  Forall formula_holds args.
Proof. induction args as [|a args IH]; intros H; constructor; [apply H|apply IH; apply H]. Qed.

Lemma run_args : forall args, Forall runs args -> Forall formula_holds args -> forall p t k l,
  At data p (flat_map formula_tokens args ++ t) -> p + zlen (flat_map formula_tokens args) <= fl ->
  exists items l', reach p k l (p + zlen (flat_map formula_tokens args)) (rev items ++ k) l' /\
    mapM item_text items = Ok (map formula_text args).
Proof.
  induction args as [|a args IH]; intros R S p t k l A F.
  - exists [], l. cbn. rewrite Z.add_0_r. split; [constructor|reflexivity].
  - cbn [flat_map] in *. rewrite <- app_assoc in A. rewrite zlen_app in *.
    pose proof (zlen_nonneg (flat_map formula_tokens args)).
    inversion_clear R. inversion_clear S.
    destruct (H0 H2 p _ k l A) as (kind & l1 & R1 & _); [lia|].
    destruct (IH H1 H3 (p + zlen (formula_tokens a)) t (DOp (mk_dop kind (10 * grade a) (formula_text a)) :: k) l1) as (items & l2 & R2 & M);
      [apply (At_skip _ _ _ _ _ A); reflexivity|lia|].
    exists (DOp (mk_dop kind (10 * grade a) (formula_text a)) :: items), l2. split.
    + cbn [rev]. rewrite <- app_assoc. cbn [app]. rewrite Z.add_assoc. eapply d_reach_trans; eassumption.
    + cbn [mapM map]. rewrite M. reflexivity.
Qed.

(** An attribute token without effect, a jump table, a sum. *)
Lemma attr_read : forall p s w t k, At data p (0x19 :: s :: le_enc 2 w ++ t) -> 0 <= s < 256 -> 0 <= w < 65536 ->
  d_plain ops e ft data fl p 0x19 (-1) k =
  (if s =? 0x04 then Ok (k, w * 2 + 6)
   else if s =? 0x10 then
     match k with
     | a :: r => do x <- item_text a; Ok (DOp (mk_dop oNUM FUNC_RANK (s2l "SUM(" ++ x ++ s2l ")")) :: r, 4)
     | [] => Err AssertionError
     end
   else Ok (k, 4)).
Proof.
  intros p s w t k A S W.
  assert (At data (p + 1) ((s :: le_enc 2 w) ++ t)) as A1 by (apply (At_skip1 _ _ _ _ _ A); reflexivity).
  assert (At data (p + 2) (le_enc 2 w ++ t)) as A2 by (apply (At_skip1 _ _ _ _ _ A1); lia).
  unfold d_plain. opcode.
  rewrite (At_slice _ _ _ _ (p + 4) A1) by (rewrite zlen_cons, zlen_le_enc; lia).
  rewrite zlen_cons, zlen_le_enc. cbn [guard Z.add Z.of_nat Z.eqb Pos.of_succ_nat Pos.succ Pos.add Pos.eqb bind].
  rewrite (At_le data (le_enc 2 w ++ t) 1 s (p + 1) 1);
    [|cbn [le_enc]; rewrite (Z.mod_small s) by lia; exact A1|reflexivity|lia]. cbn [bind].
  rewrite (At_u16 _ _ _ _ A2) by lia. reflexivity.
Qed.

Theorem formula_run : forall f, runs f.
Proof.
  intros f. induction f using formula_ind'.
  - apply run_plain.
  - apply run_cell.
  - apply run_area.
  - apply run_cell3.
  - apply run_area3.
  - apply run_outer.
  - apply run_lost.
  - (* FUn *)
    intros W p t k l A F. unfold formula_tokens in *. cbn [tokens] in *. rewrite <- app_assoc in A. rewrite zlen_app, zlen_cons, zlen_nil in *.
    destruct (IHf W p _ k l A ltac:(unfold formula_tokens; lia)) as (kind & l' & R & _). unfold formula_tokens in R.
    exists oNUM, l'. split; [|reflexivity]. rewrite Z.add_0_r, Z.add_assoc.
    eapply (then_step _ _ _ _ _ _ _ _ _ (unary_code o) 1 _ R A); [reflexivity|lia|destruct o; all_versions|lia|lia|].
    set (i := DOp (mk_dop kind (10 * grade f) (formula_text f))) in *.
    assert (d_unaryop (unary_code o) (i :: k) = Ok (DOp (mk_dop oNUM (10 * grade (FUn o f)) (formula_text (FUn o f))) :: k)) as E.
    { unfold d_unaryop. rewrite unop_rule_spec. unfold i. cbn [item_op bind d_rank d_text]. rewrite grade_lt.
      unfold formula_text. cbn [shown grade]. rewrite paren_spec. destruct o; cbn [app]; rewrite ?app_nil_r; reflexivity. }
    destruct o; unfold d_plain; cbn [unary_code] in *; opcode; rewrite E; reflexivity.
  - (* FBin *)
    intros W p t k l A F. destruct W as [W1 W2]. unfold formula_tokens in *. cbn [tokens] in *. rewrite <- !app_assoc in A.
    rewrite !zlen_app, zlen_cons, zlen_nil in *.
    pose proof (zlen_nonneg (tokens (fe_bv e) distances base f2)).
    destruct (IHf1 W1 p _ k l A ltac:(unfold formula_tokens; lia)) as (kind1 & l1 & R1 & _). unfold formula_tokens in R1.
    assert (At data (p + zlen (tokens (fe_bv e) distances base f1)) (tokens (fe_bv e) distances base f2 ++ binary_code o :: t)) as A2
      by (apply (At_skip _ _ _ _ _ A); reflexivity).
    set (i1 := DOp (mk_dop kind1 (10 * grade f1) (formula_text f1))) in *.
    destruct (IHf2 W2 _ _ (i1 :: k) l1 A2 ltac:(unfold formula_tokens; lia)) as (kind2 & l2 & R2 & _). unfold formula_tokens in R2.
    set (i2 := DOp (mk_dop kind2 (10 * grade f2) (formula_text f2))) in *.
    destruct (binop_rule_spec o) as (kind & B). exists kind, l2.
    split; [|destruct o; injection B as <-; reflexivity].
    replace (p + (zlen (tokens (fe_bv e) distances base f1) + (zlen (tokens (fe_bv e) distances base f2) + (1 + 0))))
      with (p + zlen (tokens (fe_bv e) distances base f1) + zlen (tokens (fe_bv e) distances base f2) + 1) by lia.
    eapply d_reach_trans; [exact R1|].
    eapply (then_step _ _ _ _ _ _ _ _ _ (binary_code o) 1 _ R2 A2); [reflexivity|lia|destruct o; all_versions|lia|lia|].
    assert (d_binop (binary_code o) (i2 :: i1 :: k) = Ok (DOp (mk_dop kind (10 * grade (FBin o f1 f2)) (formula_text (FBin o f1 f2))) :: k)) as E.
    { unfold d_binop. rewrite B. unfold i1, i2. cbn [item_op bind]. unfold d_infix. cbn [d_rank d_text]. rewrite !grade_lt.
      unfold formula_text. cbn [shown grade]. rewrite !paren_spec. reflexivity. }
    destruct o; unfold d_plain; cbn [binary_code] in *; opcode; rewrite E; reflexivity.
  - (* FSet *)
    intros W p t k l A F. destruct W as (W1 & W2 & W3). unfold formula_tokens in *. cbn [tokens] in *. rewrite <- !app_assoc in A.
    rewrite !zlen_app, zlen_cons, zlen_nil in *.
    pose proof (zlen_nonneg (tokens (fe_bv e) distances base f2)).
    destruct (IHf1 W1 p _ k l A ltac:(unfold formula_tokens; lia)) as (kind1 & l1 & R1 & K1). unfold formula_tokens in R1.
    assert (At data (p + zlen (tokens (fe_bv e) distances base f1)) (tokens (fe_bv e) distances base f2 ++ set_code o :: t)) as A2
      by (apply (At_skip _ _ _ _ _ A); reflexivity).
    set (i1 := DOp (mk_dop kind1 (10 * grade f1) (formula_text f1))) in *.
    destruct (IHf2 W2 _ _ (i1 :: k) l1 A2 ltac:(unfold formula_tokens; lia)) as (kind2 & l2 & R2 & K2). unfold formula_tokens in R2.
    set (i2 := DOp (mk_dop kind2 (10 * grade f2) (formula_text f2))) in *.
    assert (exists kind, okind_eqb kind oERR = erroneous (FSet o f1 f2) /\
      d_refop (set_code o) (i2 :: i1 :: k) = Ok (DOp (mk_dop kind (10 * grade (FSet o f1 f2)) (formula_text (FSet o f1 f2))) :: k)) as (kind & KE & E).
    { unfold d_refop, i1, i2. cbn [item_op bind]. cbv zeta. unfold d_infix. cbn [d_rank d_text].
      unfold formula_text. cbn [shown grade].
      change 80 with (10 * 8). rewrite !grade_lt, !paren_spec. unfold d_either, d_both, d_ref. cbn [d_kind]. rewrite K1, K2.
      destruct o; cbn [set_code Z.eqb Pos.eqb erroneous set_sign].
      - eexists. split; [|reflexivity].
        rewrite (orb_comm (erroneous f2)). destruct (erroneous f1 || erroneous f2); [reflexivity|].
        repeat match goal with |- context[if ?b then _ else _] => destruct b end; reflexivity.
      - eexists. split; [|reflexivity].
        rewrite (orb_comm (erroneous f2)). destruct (erroneous f1 || erroneous f2); [reflexivity|].
        repeat match goal with |- context[if ?b then _ else _] => destruct b end; reflexivity.
      - destruct (W3 eq_refl) as (-> & ->). cbn [orb]. eexists. split; [|reflexivity]. reflexivity. }
    exists kind, l2. split; [|exact KE].
    replace (p + (zlen (tokens (fe_bv e) distances base f1) + (zlen (tokens (fe_bv e) distances base f2) + (1 + 0))))
      with (p + zlen (tokens (fe_bv e) distances base f1) + zlen (tokens (fe_bv e) distances base f2) + 1) by lia.
    eapply d_reach_trans; [exact R1|].
    eapply (then_step _ _ _ _ _ _ _ _ _ (set_code o) 1 _ R2 A2); [reflexivity|lia|destruct o; all_versions|lia|lia|].
    destruct o; unfold d_plain; cbn [set_code] in *; opcode; rewrite E; reflexivity.
  - (* FParen *)
    intros W p t k l A F. unfold formula_tokens in *. cbn [tokens] in *. rewrite <- app_assoc in A. rewrite zlen_app, zlen_cons, zlen_nil in *.
    destruct (IHf W p _ k l A ltac:(unfold formula_tokens; lia)) as (kind & l' & R & KE). unfold formula_tokens in R.
    exists kind, l'. split; [|exact KE]. rewrite Z.add_0_r, Z.add_assoc.
    eapply (then_step _ _ _ _ _ _ _ _ _ 0x15 1 _ R A); [reflexivity|lia|all_versions|lia|lia|reflexivity].
  - (* Before *)
    intros W p t k l A F. destruct W as (S1 & S2 & S3 & S4 & W). unfold formula_tokens in *. cbn [tokens app] in *.
    rewrite !zlen_cons, zlen_app, zlen_le_enc in *. rewrite <- app_assoc in A.
    pose proof (At_nonneg _ _ _ A). pose proof (tokens_nonempty f). unfold formula_tokens in *.
    pose proof (attr_read p s w _ k A S1 S4) as D. destruct (s =? 4) eqn:E4; [lia|]. destruct (s =? 16) eqn:E16; [lia|].
    assert (At data (p + 4) (tokens (fe_bv e) distances base f ++ t)) as A4.
    { change (0x19 :: s :: le_enc 2 w ++ tokens (fe_bv e) distances base f ++ t) with ((0x19 :: s :: le_enc 2 w) ++ tokens (fe_bv e) distances base f ++ t) in A.
      apply (At_skip _ _ _ _ _ A). rewrite !zlen_cons, zlen_le_enc. lia. }
    destruct (IHf W (p + 4) t k l A4 ltac:(unfold formula_tokens; lia)) as (kind & l' & R & KE). unfold formula_tokens in R. exists kind, l'. split; [|exact KE].
    replace (p + (1 + (1 + (Z.of_nat 2 + zlen (tokens (fe_bv e) distances base f))))) with (p + 4 + zlen (tokens (fe_bv e) distances base f)) by lia.
    eapply d_reach_step; [lia| |exact R].
    eapply (step_plain ops e names ft browx bcolx r1c1 FT data fl); [exact A|all_versions|lia|exact D|lia].
  - (* Jumps *)
    intros W p t k l0 A F. destruct W as (S1 & S2 & W). unfold formula_tokens in *. cbn [tokens app] in *.
    rewrite !zlen_cons, !zlen_app, zlen_le_enc in *. rewrite <- !app_assoc in A.
    pose proof (At_nonneg _ _ _ A). pose proof (tokens_nonempty f). pose proof (zlen_nonneg l). unfold formula_tokens in *.
    pose proof (attr_read p 4 w _ k A ltac:(lia) S1) as D. cbn [Z.eqb Pos.eqb] in D.
    assert (At data (p + (w * 2 + 6)) (tokens (fe_bv e) distances base f ++ t)) as A4.
    { change (0x19 :: 0x04 :: le_enc 2 w ++ l ++ tokens (fe_bv e) distances base f ++ t) with ((0x19 :: 0x04 :: le_enc 2 w) ++ l ++ tokens (fe_bv e) distances base f ++ t) in A.
      rewrite app_assoc in A. apply (At_skip _ _ _ _ _ A). rewrite zlen_app, !zlen_cons, zlen_le_enc. lia. }
    destruct (IHf W (p + (w * 2 + 6)) t k l0 A4 ltac:(unfold formula_tokens; lia)) as (kind & l' & R & KE). unfold formula_tokens in R. exists kind, l'. split; [|exact KE].
    replace (p + (1 + (1 + (Z.of_nat 2 + (zlen l + zlen (tokens (fe_bv e) distances base f)))))) with (p + (w * 2 + 6) + zlen (tokens (fe_bv e) distances base f)) by lia.
    eapply d_reach_step; [lia| |exact R].
    eapply (step_plain ops e names ft browx bcolx r1c1 FT data fl); [exact A|all_versions|lia|exact D|lia].
  - (* Mem *)
    intros W p t k0 l A F. destruct W as (S1 & W). unfold formula_tokens in *. cbn [tokens app] in *.
    rewrite !zlen_cons, zlen_app, zlen_le_enc in *. rewrite <- app_assoc in A.
    pose proof (At_nonneg _ _ _ A). pose proof (tokens_nonempty f) as NE. unfold formula_tokens in *.
    assert (At data (p + 1) (le_enc (mem_bytes (fe_bv e)) w ++ tokens (fe_bv e) distances base f ++ t)) as A1 by (apply (At_skip1 _ _ _ _ _ A); reflexivity).
    assert (At data (p + (1 + Z.of_nat (mem_bytes (fe_bv e)))) (tokens (fe_bv e) distances base f ++ t)) as A4
      by (apply (At_skip _ _ _ _ _ A1); rewrite zlen_le_enc; lia).
    destruct (IHf W _ t k0 l A4 ltac:(unfold formula_tokens; lia)) as (kind & l' & R & KE). unfold formula_tokens in R. exists kind, l'. split; [|exact KE].
    replace (p + (1 + (Z.of_nat (mem_bytes (fe_bv e)) + zlen (tokens (fe_bv e) distances base f))))
      with (p + (1 + Z.of_nat (mem_bytes (fe_bv e))) + zlen (tokens (fe_bv e) distances base f)) by lia.
    assert (exists v, unpack_u16 data (p + 1) = Ok v) as (v & U).
    { assert (2 <= zlen (le_enc (mem_bytes (fe_bv e)) w ++ tokens (fe_bv e) distances base f ++ t)) as L2
        by (rewrite !zlen_app, zlen_le_enc; pose proof (zlen_nonneg t); unfold mem_bytes; destruct (fe_bv e <? 30); lia).
      destruct A1 as (pre & -> & LP).
      set (rest := le_enc (mem_bytes (fe_bv e)) w ++ tokens (fe_bv e) distances base f ++ t) in *.
      destruct rest as [|x [|y rest]]; [rewrite zlen_nil in L2; lia|rewrite zlen_cons, zlen_nil in L2; lia|].
      unfold unpack_u16, unpack_le. rewrite (At_slice (pre ++ x :: y :: rest) [x; y] rest (p + 1)) by (try (apply At_here; lia); rewrite ?zlen_cons, ?zlen_nil; lia).
      eexists. reflexivity. }
    eapply d_reach_step; [lia| |exact R].
    eapply (step_classed ops e names ft browx bcolx r1c1 FT data fl); [exact A|apply mem_size|apply class_nonzero|lia|].
    unfold d_classed. opcode. cbn [orb]. rewrite U. reflexivity.
  - (* After *)
    intros W p t k l A F. destruct W as (S1 & S2 & S3 & S4 & W). unfold formula_tokens in *. cbn [tokens] in *. rewrite <- app_assoc in A. cbn [app] in A.
    rewrite zlen_app, !zlen_cons, zlen_le_enc in *.
    destruct (IHf W p _ k l A ltac:(unfold formula_tokens; lia)) as (kind & l' & R & KE). unfold formula_tokens in R.
    exists kind, l'. split; [|exact KE].
    replace (p + (zlen (tokens (fe_bv e) distances base f) + (1 + (1 + Z.of_nat 2)))) with (p + zlen (tokens (fe_bv e) distances base f) + 4) by lia.
    eapply (then_step _ _ _ _ _ _ _ _ _ 0x19 (-1) _ R A); [reflexivity|lia|all_versions|lia|lia|].
    rewrite (attr_read _ s w t) by (try assumption; apply (At_skip _ _ _ _ _ A); reflexivity).
    destruct (s =? 4) eqn:E4; [lia|]. destruct (s =? 16) eqn:E16; [lia|]. reflexivity.
  - (* Sum *)
    intros W p t k l A F. destruct W as (S4 & W). unfold formula_tokens in *. cbn [tokens] in *. rewrite <- app_assoc in A. cbn [app] in A.
    rewrite zlen_app, !zlen_cons, zlen_le_enc in *.
    destruct (IHf W p _ k l A ltac:(unfold formula_tokens; lia)) as (kind & l' & R & KE). unfold formula_tokens in R.
    exists oNUM, l'. split; [|reflexivity].
    replace (p + (zlen (tokens (fe_bv e) distances base f) + (1 + (1 + Z.of_nat 2)))) with (p + zlen (tokens (fe_bv e) distances base f) + 4) by lia.
    eapply (then_step _ _ _ _ _ _ _ _ _ 0x19 (-1) _ R A); [reflexivity|lia|all_versions|lia|lia|].
    rewrite (attr_read _ 16 w t) by (try assumption; try lia; apply (At_skip _ _ _ _ _ A); reflexivity). reflexivity.
  - (* FCall *)
    intros W p t k0 l A F. destruct W as (Wf & (name & most & Wd) & Wa). apply all_holds in Wa.
    unfold formula_tokens in A, F |- *. cbn [tokens] in *. rewrite <- app_assoc in A. cbn [app] in A. rewrite zlen_app, zlen_cons, zlen_le_enc in *.
    destruct (run_args args H Wa p _ k0 l A ltac:(change (flat_map formula_tokens args) with (flat_map (tokens (fe_bv e) distances base) args); lia)) as (items & l' & R & M).
    change (flat_map formula_tokens args) with (flat_map (tokens (fe_bv e) distances base) args) in R.
    exists oUNK, l'. split; [|reflexivity]. pose proof (At_nonneg _ _ _ A). pose proof (zlen_nonneg (flat_map (tokens (fe_bv e) distances base) args)).
    rewrite Z.add_assoc. eapply d_reach_trans; [exact R|]. apply d_reach_one; [lia|].
    assert (At data (p + zlen (flat_map (tokens (fe_bv e) distances base) args))
              ((class_code k + 1) :: le_enc (index_bytes (fe_bv e)) f ++ t)) as A1
      by (apply (At_skip _ _ _ _ _ A); reflexivity).
    eapply (step_classed ops e names ft browx bcolx r1c1 FT data fl); [exact A1|apply func_size; exact BV|apply class_nonzero|lia|].
    unfold d_classed. opcode. rewrite (read_func_at e data _ _ _ _ A1 Wf). cbn [bind].
    assert (d_func f (rev items ++ k0) = Ok (DOp (mk_dop oUNK (10 * grade (FCall k f args)) (formula_text (FCall k f args))) :: k0)) as E; [|rewrite E; reflexivity].
    unfold function in Wd. unfold d_func. rewrite Wd.
    pose proof (mapM_length _ _ _ M) as L. rewrite zlen_map in L.
    rewrite zlen_app, zlen_rev. pose proof (zlen_nonneg k0).
    unfold guard. destruct (zlen items + zlen k0 >=? zlen args) eqn:G; [|lia]. cbn [bind].
    unfold formula_text. cbn [shown grade]. unfold fname, function. rewrite Wd.
    destruct (zlen args =? 0) eqn:Z0; cbn [negb].
    + apply Z.eqb_eq in Z0. rewrite Z0 in L. apply zlen_zero_nil in Z0. apply zlen_zero_nil in L. subst. reflexivity.
    + rewrite <- L. rewrite (d_call_run _ _ _ _ M) by (intros ->; rewrite zlen_nil in L; lia). reflexivity.
  - (* FCallVar *)
    intros W p0 t k0 l A F. destruct W as (W0 & W1 & W2 & W3 & (name & least & most & Wd & Wn) & Wa). apply all_holds in Wa.
    unfold formula_tokens in A, F |- *. cbn [tokens] in *. rewrite <- app_assoc in A. cbn [app] in A. rewrite zlen_app, !zlen_cons, zlen_le_enc in *.
    destruct (run_args args H Wa p0 _ k0 l A ltac:(change (flat_map formula_tokens args) with (flat_map (tokens (fe_bv e) distances base) args); lia)) as (items & l' & R & M).
    change (flat_map formula_tokens args) with (flat_map (tokens (fe_bv e) distances base) args) in R.
    exists oUNK, l'. split; [|reflexivity]. pose proof (At_nonneg _ _ _ A). pose proof (zlen_nonneg (flat_map (tokens (fe_bv e) distances base) args)).
    replace (p0 + (zlen (flat_map (tokens (fe_bv e) distances base) args) + (1 + (1 + Z.of_nat (index_bytes (fe_bv e))))))
      with (p0 + zlen (flat_map (tokens (fe_bv e) distances base) args) + (2 + Z.of_nat (index_bytes (fe_bv e)))) by lia.
    eapply d_reach_trans; [exact R|]. apply d_reach_one; [lia|].
    assert (At data (p0 + zlen (flat_map (tokens (fe_bv e) distances base) args))
              ((class_code k + 2) :: (zlen args + 128 * bit p) :: le_enc (index_bytes (fe_bv e)) (f + 32768 * bit m) ++ t)) as A1
      by (apply (At_skip _ _ _ _ _ A); reflexivity).
    eapply (step_classed ops e names ft browx bcolx r1c1 FT data fl); [exact A1|apply funcvar_size; exact BV|apply class_nonzero|lia|].
    unfold d_classed. opcode. rewrite (read_funcvar_at e data _ _ (zlen args) p m f t) with (5 := A1) by lia. cbn [bind].
    assert (d_funcvar (zlen args) f (rev items ++ k0) =
      Ok (DOp (mk_dop oUNK (10 * grade (FCallVar k p m f args)) (formula_text (FCallVar k p m f args))) :: k0)) as E; [|rewrite E; reflexivity].
    unfold d_funcvar. unfold variadic, function in Wd. rewrite Wd.
    pose proof (mapM_length _ _ _ M) as L. rewrite zlen_map in L.
    rewrite zlen_app, zlen_rev. pose proof (zlen_nonneg k0).
    unfold guard. destruct (least <=? zlen args) eqn:G1; [|lia]. destruct (zlen args <=? most) eqn:G2; [|lia]. cbn [andb bind].
    destruct (zlen items + zlen k0 >=? zlen args) eqn:G; [|lia]. cbn [bind].
    unfold formula_text. cbn [shown grade]. unfold fname, variadic, function. rewrite Wd.
    rewrite <- L. rewrite (d_call_run _ _ _ _ M) by (intros ->; rewrite zlen_nil in L; lia). reflexivity.
Qed.
End Text.

(** C93: decompiling the tokens of any formula that a file can hold gives its text,
    with every reference written as the cells it means. *)
Theorem c93_text : forall {N} (ops : numops N) e names f ft base r1c1 extra,
  biff (fe_bv e) -> (ft = 1 \/ ft = 2 \/ ft = 4 \/ ft = 8 \/ ft = 16 \/ ft = 32) ->
  formula_holds e names ft base f ->
  decompile_formula ops e names (formula_tokens e ft base f ++ extra) (zlen (formula_tokens e ft base f)) (Some ft)
    (option_map fst base) (option_map snd base) r1c1
  = Ok (Some (formula_text ops e names base r1c1 f)).
Proof.
  intros N ops e names f ft base r1c1 extra BV FT W. unfold decompile_formula.
  destruct (biff_szdict _ BV) as (tab & ->). cbn [bind]. cbv zeta.
  pose proof (tokens_nonempty e ft base f) as L. destruct (_ =? 0) eqn:E; [lia|].
  destruct (formula_run ops e names BV ft base r1c1 FT (formula_tokens e ft base f ++ extra) (zlen (formula_tokens e ft base f)) f W 0 extra [] None)
    as (kind & l' & R & _); [apply At_0|lia|].
  rewrite (d_loop_done _ _ _ _ _ _ _ _ _ _ _ _ _ _ _ _ R) by lia. reflexivity.
Qed.
Print Assumptions c93_text.

(** The text does not depend on how relative coordinates are stored: a formula that
    can be stored as distances and as addresses has one text. *)
Theorem c93_forms_agree : forall {N} (ops : numops N) e names f ft ft' base r1c1 extra extra',
  biff (fe_bv e) -> (ft = 1 \/ ft = 4) -> (ft' = 2 \/ ft' = 8 \/ ft' = 16 \/ ft' = 32) ->
  formula_holds e names ft base f -> formula_holds e names ft' base f ->
  decompile_formula ops e names (formula_tokens e ft base f ++ extra) (zlen (formula_tokens e ft base f)) (Some ft)
    (option_map fst base) (option_map snd base) r1c1
  = decompile_formula ops e names (formula_tokens e ft' base f ++ extra') (zlen (formula_tokens e ft' base f)) (Some ft')
    (option_map fst base) (option_map snd base) r1c1.
Proof. intros. rewrite !c93_text by (try assumption; lia). reflexivity. Qed.
Print Assumptions c93_forms_agree.

(** A shared formula reads the same in R1C1 style in every cell that shares it. *)
Lemma shown_r1c1 : forall rows base base' plain sheets f, shown rows base true plain sheets f = shown rows base' true plain sheets f.
Proof.
  intros rows base base' plain sheets f.
  assert (forall b, style b true true = true) as ST by reflexivity.
  induction f using formula_ind'; cbn [shown]; try reflexivity; try congruence.
  all: try (destruct r, c; reflexivity).
  all: try (destruct r1, r2, c1, c2; reflexivity).
  all: try (rewrite ?IHf, ?IHf1, ?IHf2; reflexivity).
  all: do 4 f_equal; match goal with H : Forall _ _ |- _ => induction H as [|? ? H0 ? IH]; [reflexivity|]; cbn [map]; rewrite H0, IH; reflexivity end.
Qed.
Theorem c93_shared : forall {N} (ops : numops N) e names f ft base base' extra,
  biff (fe_bv e) -> (ft = 2 \/ ft = 8 \/ ft = 16 \/ ft = 32) ->
  formula_holds e names ft base f -> formula_holds e names ft base' f ->
  formula_tokens e ft base f = formula_tokens e ft base' f /\
  decompile_formula ops e names (formula_tokens e ft base f ++ extra) (zlen (formula_tokens e ft base f)) (Some ft)
    (option_map fst base) (option_map snd base) true
  = decompile_formula ops e names (formula_tokens e ft base f ++ extra) (zlen (formula_tokens e ft base f)) (Some ft)
    (option_map fst base') (option_map snd base') true.
Proof.
  intros N ops e names f ft base base' extra BV FT H H'.
  assert (formula_tokens e ft base f = formula_tokens e ft base' f) as T.
  { unfold formula_tokens. assert (distances ft = true) as -> by (unfold distances; destruct FT as [->|[->|[->| ->]]]; reflexivity).
    clear. induction f using formula_ind'; cbn [tokens]; try reflexivity; try congruence.
    all: try (destruct r, c; reflexivity).
    all: try (destruct r1, r2, c1, c2; reflexivity).
    all: f_equal; match goal with H : Forall _ _ |- _ => induction H as [|? ? H0 ? IH]; [reflexivity|]; cbn [flat_map]; rewrite H0, IH; reflexivity end. }
  split; [exact T|]. rewrite c93_text by (try assumption; lia). rewrite T. rewrite c93_text by (try assumption; lia).
  unfold formula_text. rewrite (shown_r1c1 _ base base'). reflexivity.
Qed.
Print Assumptions c93_shared.

(** A formula that uses most of it, as Excel lays it out:
    IF(SUM(B2:C$4)>0,'Data':Other!$A$1,CHOOSE(A1,Data!C3:C3,SUM((B1:C2 C2:D3),?))). *)
Definition c93_formula : formula :=
  FCallVar Value false false 1
    [FBin Greater (Sum 0 (Area Reference false (Away 1) (Fixed 3) (Away 1) (Away 2))) (Plain (Int 0));
     Before 0x02 20 (Cell3 Reference [1; 0] (On 0 1) (Fixed 0) (Fixed 0));
     After 0x08 3 (Before 0x08 30
       (FCallVar Value false false 100
         [Cell Value false (Away 0) (Away 0);
          Jumps 2 [6; 0; 12; 0; 20; 0] (Cell3 Reference [0; 0] (On 0 0) (Away 2) (Away 2));
          After 0x08 3 (FCallVar Value false false 4
            [FParen (FSet Common (Area Reference false (Fixed 0) (Fixed 1) (Fixed 1) (Fixed 2))
                                 (Area Reference false (Away 1) (Away 2) (Away 2) (Away 3)));
             Lost Reference false false [0; 0; 0; 0]])]))].
Example c93_example : formula_holds example_env example_names 1 (Some (0, 0)) c93_formula /\
  formula_holds example_env example_names 2 (Some (0, 0)) c93_formula /\
  formula_text int_ops example_env example_names (Some (0, 0)) false c93_formula
  = s2l "IF(SUM(B2:C$4)>0.0,Data:Other!$A$1,CHOOSE(A1,Data!C3:C3,SUM($B$1:$C$2 C2:D3,?)))" /\
  formula_text int_ops example_env example_names (Some (0, 0)) true c93_formula
  = s2l "IF(SUM(R[1]C[1]:R4C[2])>0.0,Data:Other!$A$1,CHOOSE(RC,Data!R[2]C[2]:R[2]C[2],SUM(R1C2:R2C3 R[1]C[2]:R[2]C[3],?)))".
Proof.
  assert (leads example_env [1; 0] (On 0 1) /\ leads example_env [0; 0] (On 0 0)) as (L1 & L0).
  { unfold leads. cbn. split.
    - exists 1, 0, 0, 1. repeat split; try lia; discriminate.
    - exists 0, 0, 0, 0. repeat split; try lia; discriminate. }
  assert (has_name example_env 0 /\ has_name example_env 1) as (N0 & N1)
    by (split; unfold has_name; cbn; [exists (s2l "Data")|exists (s2l "Other")]; split; [discriminate|reflexivity|discriminate|reflexivity]).
  split; [|split; [|split; reflexivity]].
  - unfold formula_holds, c93_formula. cbn [holds]. unfold place_ok.
    repeat match goal with
    | |- _ /\ _ => split
    | |- leads _ _ _ => assumption
    | |- has_name _ _ => assumption
    end; try (cbn; lia); try discriminate; try (cbn; intuition lia); try (right; reflexivity); try (left; reflexivity);
    repeat eexists; try reflexivity; cbn; lia.
  - unfold formula_holds, c93_formula. cbn [holds]. unfold place_ok.
    repeat match goal with
    | |- _ /\ _ => split
    | |- leads _ _ _ => assumption
    | |- has_name _ _ => assumption
    end; try (cbn; lia); try discriminate; try (cbn; intuition lia); try (right; reflexivity); try (left; reflexivity);
    repeat eexists; try reflexivity; cbn; lia.
Qed.

(** Reading stops at the first token that fails. *)
Lemma first_fails : forall {N} (ops : numops N) e names ft browx bcolx r1c1 data fl err, biff (fe_bv e) -> 0 < fl ->
  d_step ops e names (Some ft) browx bcolx r1c1 data fl 0 [] None = Err err ->
  decompile_formula ops e names data fl (Some ft) browx bcolx r1c1 = Err err.
Proof.
  intros N ops e names ft browx bcolx r1c1 data fl err BV L S. unfold decompile_formula.
  destruct (biff_szdict _ BV) as (tab & ->). cbn [bind]. cbv zeta. destruct (fl =? 0) eqn:E; [lia|].
  rewrite (d_loop_fails ops e names (Some ft) browx bcolx r1c1 data fl 0 [] None 0 [] None _ err) by (try constructor; try assumption; lia).
  reflexivity.
Qed.

(** The class of a token decides nothing. *)
Lemma fails_classed : forall {N} (ops : numops N) e names ft browx bcolx r1c1 data fl p k x b t o ty sz err,
  (ft = 1 \/ ft = 2 \/ ft = 4 \/ ft = 8 \/ ft = 16 \/ ft = 32) ->
  At data p (b :: t) -> token_of (fe_bv e) b = Ok (o, ty, sz) -> ty <> 0 -> 0 < sz ->
  d_classed e names (distances ft) browx bcolx r1c1 data p o ty k x = Err err ->
  d_step ops e names (Some ft) browx bcolx r1c1 data fl p k x = Err err.
Proof.
  intros N ops e names ft browx bcolx r1c1 data fl p k x b t o ty sz err FT A T Y S D. unfold d_step. rewrite (token_at _ _ _ _ _ A), T. cbn [bind].
  unfold guard. destruct (sz =? -2) eqn:E; [lia|]. cbn [negb bind]. rewrite (token_not_allowed_ok _ FT). cbn [bind].
  destruct (ty =? 0) eqn:E0; [lia|]. unfold FMLA_TYPE_SHARED, FMLA_TYPE_NAME, FMLA_TYPE_COND_FMT, FMLA_TYPE_DATA_VAL.
  rewrite distances_spec, D. reflexivity.
Qed.

(** The full claim would have no condition on areas of other sheets.  It fails: in a
    cell formula such an area with a relative coordinate makes decompile_formula
    raise TypeError, although a single cell of another sheet is fine. *)
Theorem c93_area3_refuted : forall {N} (ops : numops N) e names ft base r1c1 k s w r1 r2 c1 c2 extra,
  biff (fe_bv e) -> (ft = 1 \/ ft = 4) -> place_ok (fe_bv e) (leads e) (has_name e) s w ->
  row_ok (fe_bv e) false base r1 -> row_ok (fe_bv e) false base r2 -> col_ok false base c1 -> col_ok false base c2 ->
  moving r1 || moving c1 = true ->
  let t := formula_tokens e ft base (Area3 k s w r1 r2 c1 c2) in
  decompile_formula ops e names (t ++ extra) (zlen t) (Some ft) (option_map fst base) (option_map snd base) r1c1 = Err TypeError.
Proof.
  intros N ops e names ft base r1c1 k s w r1 r2 c1 c2 extra BV FT P H1 H2 H3 H4 M t.
  assert (distances ft = false) as D by (destruct FT as [->| ->]; reflexivity).
  apply first_fails; [exact BV|apply tokens_nonempty|].
  pose proof P as (L50 & LS & _).
  set (data := t ++ extra). set (fl := zlen t).
  assert (At data 0 ((class_code k + 0x1B) :: s ++ area_bytes (fe_bv e) false base r1 r2 c1 c2 ++ extra)) as A.
  { unfold data, t, formula_tokens. rewrite D. cbn [tokens app]. rewrite <- app_assoc. apply At_0. }
  eapply fails_classed; [lia|exact A|apply (area3_size e BV k L50)|apply class_nonzero|
    unfold sheet_bytes; destruct (fe_bv e <? 80); lia|].
  unfold d_classed. opcode. cbn [orb]. rewrite D.
  assert (read_area3d e data 0 false = Err TypeError) as ->; [|reflexivity].
  assert (At data (0 + 1) (s ++ area_bytes (fe_bv e) false base r1 r2 c1 c2 ++ extra)) as A1 by (apply (At_skip1 _ _ _ _ _ A); reflexivity).
  assert (At data (0 + 1 + zlen s) (area_bytes (fe_bv e) false base r1 r2 c1 c2 ++ extra)) as A2 by (apply (At_skip _ _ _ _ _ A1); reflexivity).
  assert (forall p, p = 0 + 1 + zlen s -> get_cell_range_addr data p (fe_bv e) false None None = Err TypeError) as G.
  { intros p ->. set (p := 0 + 1 + zlen s) in *.
    pose proof (row_word_range _ _ _ r1 c1 H1) as R1. pose proof (col_word_range (fe_bv e) _ _ r1 c1 H3) as C1.
    pose proof (row_word_range _ _ _ r2 c2 H2) as R2. pose proof (col_word_range (fe_bv e) _ _ r2 c2 H4) as C2.
    pose proof (row_number_range _ _ _ r1 H1) as RN. pose proof (col_number_range _ _ c1 H3) as CN.
    pose proof (At_slice _ _ _ _ _ A2 eq_refl) as SL. rewrite area_bytes_len in SL.
    pose proof (area_bytes_len (fe_bv e) false base r1 r2 c1 c2) as CL.
    unfold area_bytes in A2. rewrite <- !app_assoc in A2.
    assert (At data (p + 2) (le_enc 2 (row_word (fe_bv e) false base r2 c2) ++ le_enc (col_bytes (fe_bv e)) (col_word (fe_bv e) false base r1 c1)
      ++ le_enc (col_bytes (fe_bv e)) (col_word (fe_bv e) false base r2 c2) ++ extra)) as A3 by (apply (At_skip _ _ _ _ _ A2); rewrite zlen_le_enc; lia).
    assert (At data (p + 4) (le_enc (col_bytes (fe_bv e)) (col_word (fe_bv e) false base r1 c1)
      ++ le_enc (col_bytes (fe_bv e)) (col_word (fe_bv e) false base r2 c2) ++ extra)) as A4 by (apply (At_skip _ _ _ _ _ A3); rewrite zlen_le_enc; lia).
    assert (At data (p + 4 + Z.of_nat (col_bytes (fe_bv e))) (le_enc (col_bytes (fe_bv e)) (col_word (fe_bv e) false base r2 c2) ++ extra)) as A5
      by (apply (At_skip _ _ _ _ _ A4); rewrite zlen_le_enc; lia).
    unfold get_cell_range_addr. rewrite (At_u16 _ _ _ _ A2) by lia. rewrite (At_u16 _ _ _ _ A3) by lia. unfold unpack_u16.
    unfold rows in RN. unfold col_bytes in *. destruct (fe_bv e <? 80) eqn:E; destruct (fe_bv e >=? 80) eqn:E1; try lia.
    - change (p + (4 + 2 * Z.of_nat 1)) with (p + 6) in SL. rewrite SL, CL. cbn [Z.add Z.mul Pos.mul Z.of_nat Pos.of_succ_nat Pos.succ Pos.add Z.eqb Pos.eqb bind].
      replace (p + 5) with (p + 4 + Z.of_nat 1) by lia.
      rewrite (At_le _ _ _ _ _ 1 A4) by (try reflexivity; exact C1). rewrite (At_le _ _ _ _ _ 1 A5) by (try reflexivity; exact C2). cbn [bind].
      unfold adjust_cell_addr_biff_le7 at 1. unfold row_word, flags. rewrite E.
      destruct (flag_bits (row_number (fe_bv e) false base r1) (moving r1) (moving c1)) as (-> & -> & _); [lia|].
      destruct (moving r1); [reflexivity|]. cbn [orb] in M. rewrite M. reflexivity.
    - change (p + (4 + 2 * Z.of_nat 2)) with (p + 8) in SL. rewrite SL, CL. cbn [Z.add Z.mul Pos.mul Z.of_nat Pos.of_succ_nat Pos.succ Pos.add Z.eqb Pos.eqb bind].
      replace (p + 6) with (p + 4 + Z.of_nat 2) by lia.
      rewrite (At_le _ _ _ _ _ 2 A4) by (try reflexivity; exact C1). rewrite (At_le _ _ _ _ _ 2 A5) by (try reflexivity; exact C2). cbn [bind].
      unfold adjust_cell_addr_biff8 at 1. unfold col_word, flags. rewrite E.
      destruct (flag_bits (col_number false base c1) (moving r1) (moving c1)) as (-> & -> & _); [lia|].
      destruct (moving r1); [reflexivity|]. cbn [orb] in M. rewrite M. reflexivity. }
  unfold read_area3d. unfold sheet_bytes in LS. destruct (fe_bv e >=? 80) eqn:E; destruct (fe_bv e <? 80) eqn:E1; try lia; rewrite G by lia; reflexivity.
Qed.
Print Assumptions c93_area3_refuted.

(** It would also allow a range with an error on one side: AttributeError. *)
Theorem c93_range_refuted : forall {N} (ops : numops N) e names ft base r1c1 a b extra,
  biff (fe_bv e) -> (ft = 1 \/ ft = 2 \/ ft = 4 \/ ft = 8 \/ ft = 16 \/ ft = 32) ->
  formula_holds e names ft base a -> formula_holds e names ft base b -> erroneous a || erroneous b = true ->
  let t := formula_tokens e ft base (FSet Span a b) in
  decompile_formula ops e names (t ++ extra) (zlen t) (Some ft) (option_map fst base) (option_map snd base) r1c1 = Err AttributeError.
Proof.
  intros N ops e names ft base r1c1 a b extra BV FT Ha Hb M t.
  unfold decompile_formula. destruct (biff_szdict _ BV) as (tab & ->). cbn [bind]. cbv zeta.
  pose proof (tokens_nonempty e ft base (FSet Span a b)) as L. fold t in L. destruct (zlen t =? 0) eqn:E; [lia|].
  set (data := t ++ extra). set (fl := zlen t).
  assert (fl = zlen (formula_tokens e ft base a) + zlen (formula_tokens e ft base b) + 1) as FL
    by (unfold fl, t, formula_tokens; cbn [tokens]; rewrite !zlen_app, zlen_cons, zlen_nil; lia).
  assert (At data 0 (formula_tokens e ft base a ++ formula_tokens e ft base b ++ 0x11 :: extra)) as A
    by (unfold data, t, formula_tokens; cbn [tokens]; rewrite <- !app_assoc; apply At_0).
  pose proof (zlen_nonneg (formula_tokens e ft base a)). pose proof (zlen_nonneg (formula_tokens e ft base b)).
  destruct (formula_run ops e names BV ft base r1c1 FT data fl a Ha 0 _ [] None A ltac:(lia)) as (k1 & l1 & R1 & K1).
  assert (At data (0 + zlen (formula_tokens e ft base a)) (formula_tokens e ft base b ++ 0x11 :: extra)) as A2
    by (apply (At_skip _ _ _ _ _ A); reflexivity).
  set (i1 := DOp (mk_dop k1 (10 * grade a) (formula_text ops e names base r1c1 a))) in *.
  destruct (formula_run ops e names BV ft base r1c1 FT data fl b Hb _ _ [i1] l1 A2 ltac:(lia)) as (k2 & l2 & R2 & K2).
  assert (d_reach ops e names (Some ft) (option_map fst base) (option_map snd base) r1c1 data fl 0 [] None
    (0 + zlen (formula_tokens e ft base a) + zlen (formula_tokens e ft base b) + 1) [DNumber] l2) as R.
  { eapply d_reach_trans; [exact R1|].
    eapply (then_step ops e names ft base r1c1 FT data fl _ _ _ _ _ _ _ _ _ 0x11 1 _ R2 A2); [reflexivity|lia| |lia|lia|].
    - unfold biff in BV. repeat (destruct BV as [B|BV]; [rewrite B; reflexivity|]). rewrite BV. reflexivity.
    - unfold d_plain. opcode. unfold d_refop, i1. cbn [item_op bind]. opcode. cbv zeta. unfold d_either. cbn [d_kind]. rewrite K1, K2, orb_comm, M. reflexivity. }
  rewrite (d_loop_done _ _ _ _ _ _ _ _ _ _ _ _ _ _ _ _ R) by lia. reflexivity.
Qed.
Print Assumptions c93_range_refuted.

(** A formula that starts with a constant union (tMemArea), as Excel stores
    SUM((A1:A2,C1:C2)), cannot be read at all: the helper that would report the token
    is local to another function. *)
Theorem c93_mem_area_refuted : forall {N} (ops : numops N) e names ft browx bcolx r1c1 k rest fl,
  biff (fe_bv e) -> (ft = 1 \/ ft = 2 \/ ft = 4 \/ ft = 8 \/ ft = 16 \/ ft = 32) -> 0 < fl ->
  decompile_formula ops e names ((class_code k + 0x06) :: rest) fl (Some ft) browx bcolx r1c1 = Err NameError.
Proof.
  intros N ops e names ft browx bcolx r1c1 k rest fl BV FT L. apply first_fails; [exact BV|exact L|].
  assert (token_of (fe_bv e) (class_code k + 0x06) = Ok (6, Z.shiftr (class_code k) 5, if fe_bv e <? 30 then 5 else 7)) as T.
  { unfold biff in BV. destruct k; repeat (destruct BV as [B|BV]; [rewrite B; reflexivity|]); rewrite BV; reflexivity. }
  eapply fails_classed; [exact FT|apply At_0|exact T|apply class_nonzero|destruct (fe_bv e <? 30); lia|]. reflexivity.
Qed.
Print Assumptions c93_mem_area_refuted.

(** An array constant is a token and seven unused bytes, but nine bytes are skipped:
    the token after it is lost, here a percent sign. *)
Theorem c93_array_refuted : forall {N} (ops : numops N) e names ft browx bcolx r1c1 k u extra,
  fe_bv e = 80 -> (ft = 1 \/ ft = 2 \/ ft = 4 \/ ft = 8 \/ ft = 16 \/ ft = 32) -> zlen u = 7 ->
  decompile_formula ops e names (class_code k :: u ++ unary_code Percent :: extra) 9 (Some ft) browx bcolx r1c1 = Ok (Some (s2l "?")).
Proof.
  intros N ops e names ft browx bcolx r1c1 k u extra B FT U. unfold decompile_formula. rewrite B. cbn [szdict bind Z.eqb Pos.eqb orb]. cbv zeta.
  set (data := class_code k :: u ++ unary_code Percent :: extra).
  assert (token_of (fe_bv e) (class_code k) = Ok (0, Z.shiftr (class_code k) 5, 9)) as T by (rewrite B; destruct k; reflexivity).
  assert (d_reach ops e names (Some ft) browx bcolx r1c1 data 9 0 [] None (0 + 9) [d_unk] None) as R.
  { apply d_reach_one; [lia|]. eapply (step_classed ops e names ft browx bcolx r1c1 FT); [apply At_0|exact T|apply class_nonzero|lia|]. reflexivity. }
  rewrite (d_loop_done _ _ _ _ _ _ _ _ _ _ _ _ _ _ _ _ R) by lia. reflexivity.
Qed.
Print Assumptions c93_array_refuted.

Example c93_refuted_example :
  place_ok 80 (leads example_env) (has_name example_env) [0; 0] (On 0 0) /\
  row_ok 80 false (Some (4, 4)) (Away 1) /\ col_ok false (Some (4, 4)) (Away (-1)) /\
  formula_holds example_env [] 1 None (Lost Reference true false [0; 0; 0; 0; 0; 0; 0; 0]) /\
  decompile_formula int_ops example_env [] [0x3B; 0; 0; 5; 0; 5; 0; 3; 192; 3; 192] 11 (Some 1) (Some 4) (Some 4) false = Err TypeError.
Proof.
  split; [|split; [cbn; lia|split; [cbn; lia|split; [|reflexivity]]]].
  - unfold place_ok. split; [lia|]. split; [reflexivity|]. split.
    + unfold leads. cbn. exists 0, 0, 0, 0. repeat split; try lia; discriminate.
    + split; [lia|]. split; exists (s2l "Data"); (split; [discriminate|reflexivity]).
  - split; [discriminate|reflexivity].
Qed.
