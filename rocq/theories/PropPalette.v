(** Property theorems C56 for opened workbooks: colour_map and palette_record. *)
From Verif Require Import Base BaseFacts Text Strings Utf16 StringFacts PropBytes Framing GridModel GridFacts SheetObjects SheetModel SheetSteps
  SstModel FormatModel BitFields FormatFacts PropFormat PropColour FormulaModel PropFormulaText BookModel BookApi BookHistory PropSheetList BookContent FormatRun PropFonts PropCellFormat.

(** ** Specification *)

(** The contents of the PALETTE records. *)
Definition palettes (rs : list (Z * list Z)) : list (list Z) := flat_map (fun r => if fst r =? 0x92 then [snd r] else []) rs.

(** The standard colours of a version.  Some indexes have no colour (None) of their own. *)
Definition standard (bv k : Z) : option (option rgb) :=
  if (k =? palette_size bv + 8) || (k =? palette_size bv + 9) || (k =? 0x51) || (k =? 0x7FFF) then Some None
  else if (0 <=? k) && (k <? palette_size bv + 8) then option_map (fun n => Some (of_number n)) (usual_colour bv k)
  else None.

(** ** Proofs *)

Definition fpalettes (fs : files) : list (list Z) := flat_map (fun p => match snd p with RPalette d => [d] | _ => [] end) fs.

Lemma palettes_same : forall codec bv ov cp rs fs, formatting codec bv ov cp rs fs -> fpalettes fs = palettes rs.
Proof.
  intros codec bv ov cp rs fs H. induction H as [|? ? ? ? ? ? ? IH|cp rc data r e rs fs X EE H IH|cp rc data rs fs X NE H IH]; [reflexivity|exact IH| |]; cbn [fpalettes palettes flat_map fst snd].
  - fold (fpalettes fs). fold (palettes rs). rewrite IH. f_equal. unfold frec in X.
    destruct (rc =? 0x92) eqn:E; [assert (rc = 0x92) as -> by lia; cbn in X; injection X as <-; reflexivity|].
    repeat match type of X with (if ?c then _ else _) = _ => destruct c end; try discriminate X; injection X as <-; reflexivity.
  - fold (palettes rs). rewrite IH. destruct (rc =? 0x92) eqn:E; [|reflexivity]. assert (rc = 0x92) as -> by lia. cbn in X. discriminate X.
Qed.

Lemma fpalettes_app : forall p q, fpalettes (p ++ q) = fpalettes p ++ fpalettes q.
Proof. intros p q. unfold fpalettes. apply flat_map_app. Qed.

Lemma first_palette : forall fs d more, fpalettes fs = d :: more ->
  exists p dec q, fs = p ++ (dec, RPalette d) :: q /\ fpalettes p = [] /\ fpalettes q = more.
Proof.
  induction fs as [|[dec r] fs IH]; intros d more H; [discriminate|]. cbn [fpalettes flat_map snd] in H. fold (fpalettes fs) in H.
  assert ((exists x, r = RPalette x) \/ match r with RPalette x => [x] | _ => [] end = []) as [(x & ->)|E] by (destruct r; eauto).
  - injection H as <- <-. exists [], dec, fs. repeat split.
  - rewrite E in H. destruct (IH _ _ H) as (p & dec' & q & -> & P & Q). exists ((dec, r) :: p), dec', q. split; [reflexivity|]. split; [|exact Q].
    cbn [fpalettes flat_map snd]. rewrite E. exact P.
Qed.

Lemma no_palette : forall fs, fpalettes fs = [] -> forall d data, ~ In (d, RPalette data) fs.
Proof.
  intros fs H d data I. apply in_split in I as (p & q & ->). rewrite fpalettes_app in H. apply app_eq_nil in H as [_ H]. discriminate H.
Qed.

Lemma initial_standard : forall bv b k, fbook0 bv true = Ok b -> dget Z.eqb (b_colours b) k = standard bv k.
Proof.
  intros bv b k F. destruct (c56_initial bv b F) as (pal & _ & _ & I). unfold standard. pose proof (I k) as K.
  destruct ((k =? palette_size bv + 8) || (k =? palette_size bv + 9) || (k =? 81) || (k =? 32767)) eqn:E1; [exact K|].
  assert (PS : palette_size bv = 56 \/ palette_size bv = 16) by (unfold palette_size; destruct (50 <=? bv); auto).
  destruct ((0 <=? k) && (k <? palette_size bv + 8)) eqn:E2.
  - destruct (c56_standard bv b k F ltac:(lia)) as (n & U & D). rewrite U, D. reflexivity.
  - rewrite K. replace ((0 <=? k) && (k <? 8)) with false by lia. replace ((8 <=? k) && (k <? palette_size bv + 8)) with false by lia. reflexivity.
Qed.

Lemma finished_palette : forall f, b_palette (finished f) = b_palette f.
Proof.
  intros f. unfold finished, palette_epilogue. change (b_palette f) with (b_palette (xf_epilogue f)). generalize (b_fonts (xf_epilogue f)) as l. generalize (xf_epilogue f) as b. intros b l. revert b.
  induction l as [|x l IH]; intros b; [reflexivity|]. cbn [fold_left]. rewrite IH.
  destruct (fo_index x =? 4); [reflexivity|]. destruct (fo_colour_index x =? 32767); [reflexivity|]. unfold FormatModel.mark. destruct (dget _ _ _); reflexivity.
Qed.

Lemma frun_app : forall p q b b', frun b (p ++ q) = Ok b' -> exists b1, frun b p = Ok b1 /\ frun b1 q = Ok b'.
Proof.
  induction p as [|[d r] p IH]; intros q b b' H; [exists b; split; [reflexivity|exact H]|]. cbn [app frun] in *. apply bind_ok in H as (b1 & E & H).
  destruct (IH _ _ _ H) as (b2 & H1 & H2). exists b2. split; [rewrite E; exact H1|exact H2].
Qed.

Section Opened.
Context {N : Type}.
Variable codec : list Z -> list Z -> result (list Z).
Variable ops : numops N.
Variable lower : list Z -> list Z.
Variable num8 : list Z -> N.
Variable rk : list Z -> result N.
Variable ragged : bool.
Notation loaded := (loaded (N := N)).
Notation api := (api (N := N)).
Notation book := (book N loaded).
Variable old : book -> list Z -> Z -> list Z -> Z -> result (shared * loaded).
Notation history := (history codec num8 rk ragged old).
Notation open_stream := (open_stream codec ops lower num8 rk ragged old).

Definition palette_record (a : api) : list rgb := b_palette (bk_fmt (a_book a)).

(** A workbook without a PALETTE record has the standard colours; with one record it has the
    colours of the record from index 8 on, and the standard colours otherwise. *)
Theorem c56_workbook : forall fuel mem base bv rs override on_demand a es h fs,
  workbook mem base bv rs -> 50 <= bv -> lists codec bv override None rs es -> formatting codec bv override None rs fs ->
  open_stream fuel mem base override true on_demand = Ok a ->
  let a' := snd (history a h) in
  (palettes rs = [] -> palette_record a' = [] /\ forall k, colour_map a' k = standard bv k) /\
  (forall cs extra, palettes rs = [palette_bytes cs extra] -> Forall byte_entry cs -> zlen cs < 65536 -> zlen extra <= 4 ->
     palette_record a' = map fst cs /\ zlen cs <= palette_size bv + 2 /\
     forall k, colour_map a' k = if (8 <=? k) && (k <? 8 + zlen cs) then option_map (fun c => Some (fst c)) (znth cs (k - 8)) else standard bv k).
Proof.
  intros fuel mem base bv rs ov od a es h fs W V L FS H a'.
  destruct (opened_formatting codec ops lower num8 rk ragged old _ _ _ _ _ _ _ _ _ _ h _ W V L H FS) as (f0 & f & F0 & R & E).
  unfold palette_record, colour_map. subst a'. rewrite E. fold (finished f). rewrite finished_palette. destruct (finished_keeps f) as (_ & _ & -> & _).
  rewrite <- (palettes_same _ _ _ _ _ _ FS). split.
  - intros NP. destruct (frun_colours _ _ _ R (no_palette _ NP)) as [-> ->]. split; [|intros k; exact (initial_standard bv f0 k F0)].
    unfold fbook0 in F0. apply bind_ok in F0 as (m & _ & F0). injection F0 as <-. reflexivity.
  - intros cs extra PE B LC LE. destruct (first_palette _ _ _ PE) as (p & dec & q & -> & P & Q). apply frun_app in R as (b1 & R1 & R2).
    cbn [frun] in R2. apply bind_ok in R2 as (b2 & S2 & R2). cbn [fstep] in S2.
    destruct (frun_colours _ _ _ R2 (no_palette _ Q)) as [-> ->]. pose proof (c56_book bv f0 p b1 cs extra F0 R1 (no_palette _ P) B LC LE) as K.
    destruct (zlen cs <=? palette_size bv + 2) eqn:EL; [|congruence]. destruct K as (b3 & K1 & K2 & K3). assert (b3 = b2) as -> by congruence.
    split; [exact K2|]. split; [lia|]. intros k. rewrite K3. destruct ((8 <=? k) && (k <? 8 + zlen cs)); [reflexivity|exact (initial_standard bv f0 k F0)].
Qed.

(** With a second PALETTE record after one that has colours, the workbook cannot be opened with
    formatting_info. *)
Theorem c56_second : forall fuel mem base bv rs override on_demand a es fs c cs extra d more,
  workbook mem base bv rs -> 50 <= bv -> lists codec bv override None rs es -> formatting codec bv override None rs fs ->
  palettes rs = palette_bytes (c :: cs) extra :: d :: more -> Forall byte_entry (c :: cs) -> zlen (c :: cs) < 65536 -> zlen extra <= 4 ->
  open_stream fuel mem base override true on_demand <> Ok a.
Proof.
  intros fuel mem base bv rs ov od a es fs c cs extra d more W V L FS PE B LC LE H.
  destruct (opened_formatting codec ops lower num8 rk ragged old _ _ _ _ _ _ _ _ _ _ [] _ W V L H FS) as (f0 & f & F0 & R & _).
  rewrite <- (palettes_same _ _ _ _ _ _ FS) in PE. destruct (first_palette _ _ _ PE) as (p & dec & q & -> & P & Q). apply frun_app in R as (b1 & R1 & R2).
  cbn [frun] in R2. apply bind_ok in R2 as (b2 & S2 & R2). cbn [fstep] in S2.
  pose proof (c56_book bv f0 p b1 (c :: cs) extra F0 R1 (no_palette _ P) B LC LE) as K.
  destruct (zlen (c :: cs) <=? palette_size bv + 2); [|congruence]. destruct K as (b3 & K1 & K2 & _). assert (b3 = b2) as -> by congruence.
  destruct (first_palette _ _ _ Q) as (p' & dec' & q' & -> & P' & _). apply frun_app in R2 as (b4 & R3 & R4).
  destruct (frun_colours _ _ _ R3 (no_palette _ P')) as [_ E4]. cbn [frun] in R4. apply bind_ok in R4 as (b5 & S5 & _). cbn [fstep] in S5.
  destruct (frun_bv _ _ _ R3) as [_ FM3]. destruct (frun_bv _ _ _ R1) as [_ FM1].
  assert (F1 : b_fmt f0 = true) by (unfold fbook0 in F0; apply bind_ok in F0 as (m & _ & F0); injection F0 as <-; reflexivity).
  assert (F2 : b_fmt b2 = b_fmt b1).
  { destruct (frun_bv [(dec, RPalette (palette_bytes (c :: cs) extra))] b1 b2) as [_ X]; [cbn [frun fstep]; rewrite S2; reflexivity|exact X]. }
  unfold handle_palette in S5. rewrite FM3, F2, FM1, F1 in S5. cbn [negb] in S5. apply bind_ok in S5 as (n & _ & S5). cbv zeta in S5.
  destruct (negb _); [discriminate|]. apply bind_ok in S5 as (cols & _ & S5). apply bind_ok in S5 as (u & G & _).
  rewrite E4, K2 in G. cbn [map] in G. rewrite zlen_cons in G. pose proof (zlen_nonneg (map fst cs)) as NN.
  unfold guard in G. replace (zlen (map fst cs) + 1 =? 0) with false in G by lia. replace (1 + zlen (map fst cs) =? 0) with false in G by lia. discriminate G.
Qed.
End Opened.
Print Assumptions c56_workbook.
Print Assumptions c56_second.

Module ExPalette.
Definition cs : list (rgb * Z) := [((1, 2, 3), 0); ((250, 251, 252), 255)].
Definition records : list (Z * list Z) :=
  [(0x92, palette_bytes cs []); (0x85, le_enc 4 0 ++ [0; 0] ++ us_field 1 (Sample.plain (s2l "S")))].
Definition file : list Z := frame (Sample.bof 5) ++ frames records ++ frame (0x0a, []) ++ frame (Sample.bof 0x10) ++ frame (0x0a, []).
Definition opened := open_stream Sample.codec int_ops (fun s => s) le_val (fun b => Ok (le_val b)) false (fun _ _ _ _ _ => Err XLRDError) 50 file 0 None true true.
End ExPalette.

Example c56_workbook_case : workbook ExPalette.file 0 80 ExPalette.records /\
  lists Sample.codec 80 None None ExPalette.records [mk_entry 0 0 0 (s2l "S")] /\
  formatting Sample.codec 80 None None ExPalette.records [(Sample.codec [], RPalette (palette_bytes ExPalette.cs []))] /\
  palettes ExPalette.records = [palette_bytes ExPalette.cs []] /\ Forall byte_entry ExPalette.cs /\
  match ExPalette.opened with
  | Ok a => palette_record a = [(1, 2, 3); (250, 251, 252)] /\ map (colour_map a) [7; 8; 9; 10; 64; 66] =
      [Some (Some (0, 255, 255)); Some (Some (1, 2, 3)); Some (Some (250, 251, 252)); Some (Some (255, 0, 0)); Some None; None]
  | Err _ => False
  end.
Proof.
  assert (U' : us_ok (Sample.plain (s2l "S"))).
  { unfold us_ok. cbn [us_text us_wide us_opts us_runs us_phon Sample.plain]. repeat split; try reflexivity; repeat constructor; discriminate. }
  split; [|split; [|split; [|split; [|split]]]].
  - exists 12, [], (skipn (List.length ExPalette.file - 16) ExPalette.file).
    split; [vm_compute; reflexivity|]. split; [apply Forall_forall; intros [rc d] I; vm_compute in I; repeat (destruct I as [I|I]; [injection I as <- <-; split; cbn; lia|]); destruct I|].
    split; [reflexivity|]. split; [exists (firstn 12 ExPalette.file); split; vm_compute; reflexivity|].
    vm_compute. repeat constructor; discriminate.
  - apply L_other; [lia|lia|]. apply L_sheet.
    + change (le_enc 4 0 ++ [0; 0] ++ us_field 1 (Sample.plain (s2l "S"))) with (fixed_part (mk_entry 0 0 0 (s2l "S")) ++ us_field 1 (Sample.plain (s2l "S")) ++ []).
      apply Biff8; [lia|repeat split; cbn; lia|exact U'|vm_compute; reflexivity|reflexivity].
    + apply L_nil.
  - eapply F_record; [reflexivity|intros; lia|]. apply F_other; [reflexivity|lia|]. apply F_end.
  - reflexivity.
  - vm_compute. repeat constructor; discriminate.
  - vm_compute. split; reflexivity.
Qed.
