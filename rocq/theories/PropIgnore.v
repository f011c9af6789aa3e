(** C104: ignore_workbook_corruption changes nothing but one kind of failure. *)
From Verif Require Import Base BaseFacts Text Framing GridModel SheetObjects SheetModel FormatModel FormulaModel CompDoc CompDocFull PropDir BookModel BookApi PropSheetList PropFormulaText PropWorkbook PropFile.

(** The outcome with the option is the one without it, or the latter is a CompDocError. *)
Definition spared {A} (without with_ : result A) : Prop := with_ = without \/ without = Err CompDocError.

Lemma spared_refl : forall {A} (r : result A), spared r r.
Proof. intros. left. reflexivity. Qed.
Lemma spared_bind : forall {A B} (r1 r2 : result A) (f1 f2 : A -> result B), spared r1 r2 -> (forall a, spared (f1 a) (f2 a)) -> spared (do a <- r1; f1 a) (do a <- r2; f2 a).
Proof. intros A B r1 r2 f1 f2 [->| ->] F; [|right; reflexivity]. destruct r1 as [a|e]; [apply F|left; reflexivity]. Qed.

Lemma locate_loop_spared : forall fuel base sat ss id limit seen s p sp ep tot,
  spared (locate_loop fuel false base sat ss id limit seen s p sp ep tot) (locate_loop fuel true base sat ss id limit seen s p sp ep tot).
Proof.
  induction fuel as [|f IH]; intros; cbn [locate_loop]; [apply spared_refl|]. destruct (s <? 0); [apply spared_refl|].
  apply spared_bind; [apply spared_refl|]. intros v. apply spared_bind.
  { rewrite orb_true_r, orb_false_r. destruct (v =? 0); [left; reflexivity|right; reflexivity]. }
  intros _. apply spared_bind; [apply spared_refl|]. intros seen'. apply spared_bind; [apply spared_refl|]. intros _.
  destruct (s =? p + 1); (apply spared_bind; [apply spared_refl|]; intros s'; apply spared_bind; [apply IH|]; intros; apply spared_refl).
Qed.

Section Open.
Context {N : Type}.
Variable codec : list Z -> list Z -> result (list Z).
Variable ops : numops N.
Variable lower : list Z -> list Z.
Variable num8 : list Z -> N.
Variable rk : list Z -> result N.
Variable ragged : bool.
Notation loaded := (loaded (N := N)).
Notation book := (book N loaded).
Variable old : book -> list Z -> Z -> list Z -> Z -> result (shared * loaded).

(** The same compound document but for the option. *)
Definition with_ignore (cd : compdoc) (i : bool) : compdoc :=
  mk_compdoc (cd_mem cd) (cd_data_len cd) (cd_sec_size cd) (cd_short_sec_size cd) (cd_min_std cd) (cd_sat cd)
    (cd_ssat cd) (cd_sscs cd) (cd_dirlist cd) (cd_children cd) (cd_seen cd) i.

Lemma open_compdoc_ignore : forall fuel depth file i, open_compdoc fuel depth file i = do cd <- open_compdoc fuel depth file false; Ok (with_ignore cd i).
Proof.
  intros. unfold open_compdoc. cbv zeta.
  repeat match goal with
  | |- bind ?r _ = bind (bind ?r _) _ => destruct r as [?|?] eqn:?; cbn [bind]; [|reflexivity]
  | |- (let '(_, _) := ?x in _) = _ => destruct x
  | |- (match ?x with Ok _ => _ | Err _ => _ end) = _ => destruct x
  | |- (if ?b then _ else _) = _ => destruct b
  | x : (_ * _)%type |- _ => destruct x
  end; try reflexivity.
Qed.

Lemma locate_spared : forall fuel cd q,
  spared (do (r, cd) <- locate_named_stream lower fuel (with_ignore cd false) q; Ok (r, with_ignore cd true)) (locate_named_stream lower fuel (with_ignore cd true) q).
Proof.
  intros fuel cd q. unfold locate_named_stream. cbn [with_ignore cd_dirlist cd_children cd_data_len cd_min_std cd_mem cd_sat cd_sec_size cd_seen cd_ignore].
  destruct (dir_search lower _ _ _ 0) as [[d|]|e]; cbn [bind]; [|left; reflexivity..].
  destruct (d_size d >? cd_data_len cd); [left; reflexivity|]. destruct (d_size d >=? cd_min_std cd).
  - unfold locate_stream. destruct (d_first d <? 0); [left; reflexivity|].
    match goal with |- spared (bind (bind (bind (locate_loop ?a false ?b ?c ?d' ?e ?f ?g ?h ?i ?j ?k ?l) _) _) _) _ => destruct (locate_loop_spared a b c d' e f g h i j k l) as [E|E]; rewrite E end.
    + destruct (locate_loop fuel false _ _ _ _ _ _ _ _ _ _ _) as [[[[[? ?] ?] ?] ?]|?]; cbn [bind]; [|left; reflexivity].
      destruct (guard _ _); cbn [bind]; [|left; reflexivity]. destruct (guard _ _); cbn [bind]; [|left; reflexivity]. destruct l; left; reflexivity.
    + right. reflexivity.
  - change (get_short fuel (with_ignore cd true) d) with (get_short fuel (with_ignore cd false) d). destruct (get_short fuel (with_ignore cd false) d); left; reflexivity.
Qed.

Lemma find_spared : forall fuel depth file, spared (find_stream lower fuel depth file false) (find_stream lower fuel depth file true).
Proof.
  intros fuel depth file. unfold find_stream. destruct (negb _); [apply spared_refl|].
  rewrite (open_compdoc_ignore fuel depth file true). pose proof (open_compdoc_ignore fuel depth file false) as E.
  destruct (open_compdoc fuel depth file false) as [cd|e]; cbn [bind] in *; [|apply spared_refl]. injection E as E.
  replace (locate_named_stream lower fuel cd (s2l "Workbook")) with (locate_named_stream lower fuel (with_ignore cd false) (s2l "Workbook")) by congruence. clear E.
  destruct (locate_spared fuel cd (s2l "Workbook")) as [L|L].
  2: { right. destruct (locate_named_stream lower fuel (with_ignore cd false) (s2l "Workbook")) as [[? ?]|?]; [discriminate|]. cbn [bind] in *. congruence. }
  rewrite L. destruct (locate_named_stream lower fuel (with_ignore cd false) (s2l "Workbook")) as [[r1 cd1]|e1] eqn:E1; cbn [bind]; [|apply spared_refl].
  assert (I1 : cd1 = with_ignore cd1 false).
  { clear - E1. unfold locate_named_stream in E1. apply bind_ok in E1 as (d & _ & E1). destruct d as [d|]; [|injection E1 as _ <-; reflexivity].
    destruct (_ >? _); [discriminate|]. destruct (_ >=? _); [|apply bind_ok in E1 as (? & _ & E1); injection E1 as _ <-; reflexivity].
    apply bind_ok in E1 as ([? ?] & _ & E1). injection E1 as _ <-. reflexivity. }
  assert (G : spared (do (r2, _) <- locate_named_stream lower fuel cd1 (s2l "Book"); match r2 with Some ((_ :: _) as m, base, _) => Ok (m, base) | _ => Err XLRDError end)
                     (do (r2, _) <- locate_named_stream lower fuel (with_ignore cd1 true) (s2l "Book"); match r2 with Some ((_ :: _) as m, base, _) => Ok (m, base) | _ => Err XLRDError end)).
  { destruct (locate_spared fuel cd1 (s2l "Book")) as [L2|L2]; rewrite <- I1 in L2.
    - rewrite L2. destruct (locate_named_stream lower fuel cd1 (s2l "Book")) as [[? ?]|?]; apply spared_refl.
    - right. destruct (locate_named_stream lower fuel cd1 (s2l "Book")) as [[? ?]|?]; [discriminate|]. cbn [bind] in *. congruence. }
  destruct r1 as [[[[|x m] base] sz]|]; [exact G|apply spared_refl|exact G].
Qed.

(** Whatever the file: opening it with the option is opening it without, unless that ends in
    a CompDocError. *)
Theorem c104_ignore : forall fuel depth file ov fmt on_demand,
  let without := open_workbook_xls codec ops lower num8 rk ragged old fuel depth file ov fmt on_demand false in
  open_workbook_xls codec ops lower num8 rk ragged old fuel depth file ov fmt on_demand true = without \/ without = Err CompDocError.
Proof.
  intros fuel depth file ov fmt od. cbv zeta. change (spared (open_workbook_xls codec ops lower num8 rk ragged old fuel depth file ov fmt od false) (open_workbook_xls codec ops lower num8 rk ragged old fuel depth file ov fmt od true)).
  unfold open_workbook_xls. apply spared_bind; [apply spared_refl|]. intros _. apply spared_bind; [apply find_spared|]. intros [m base]. apply spared_refl.
Qed.
End Open.
Print Assumptions c104_ignore.

(** Both happen: the compound file of PropFile.v opens either way, and one whose short stream
    container is in the sectors of the workbook opens only with the option. *)
Module Shared.
Definition root : dirnode := mk_dirnode 0 (s2l "R") 5 (-1) (-1) 1 6 210.
Definition file : list Z := Eval vm_compute in
  Stored.header ++ flat_map i32_enc Stored.sat ++ Stored.entry root ++ Stored.entry Stored.stream ++ Stored.part 64 128 ++ Stored.part 0 64 ++ Stored.part 128 192 ++ Stored.part 192 210.
End Shared.

Example c104_both :
  let opens file ignore :=
    match open_workbook_xls (fun _ b => Ok b) int_ops ascii_low le_val (fun b => Ok (le_val b)) false (fun _ _ _ _ _ => Err XLRDError) 2000 2 file None true true ignore with
    | Ok a => Ok (sl_names (bk_sheets (a_book a)))
    | Err e => Err e
    end in
  opens Stored.file false = Ok [s2l "S"] /\ opens Stored.file true = Ok [s2l "S"] /\
  opens Shared.file false = Err CompDocError /\ opens Shared.file true = Ok [s2l "S"].
Proof. cbv zeta. repeat split; vm_compute; reflexivity. Qed.
