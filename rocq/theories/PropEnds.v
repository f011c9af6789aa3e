(** Reading a BIFF2 to BIFF4 worksheet ends (C67), and so does opening a file of any
    version without SHEETHDR records (C69). *)
From Verif Require Import Base BaseFacts Text Framing SheetObjects SheetModel SheetFacts FormatModel FormulaModel FormulaFacts PropFormulaText PropFormulaEnd CompDoc
  BookModel BookApi PropGlobals OldSheet OldEnds.

Theorem c67_old_reading_ends : forall {N} codec (num8 : list Z -> N) rk of_int ragged b mem pos name x,
  (forall e s, nofuel (codec e s)) -> (forall s, nofuel (rk s)) -> bytes mem ->
  nofuel (old_load codec num8 rk of_int ragged b mem pos name x).
Proof. intros. apply nofuel_old_load; assumption. Qed.
Print Assumptions c67_old_reading_ends.

(** With the reader of these versions in place, opening ends for every byte string without
    SHEETHDR records. *)
Theorem c69_all_versions_end : forall {N} codec (ops : numops N) lower (num8 : list Z -> N) rk of_int ragged mem base override fmt on_demand,
  (forall e s, nofuel (codec e s)) -> (forall s, nofuel (rk s)) -> (forall e, (forall s, nofuel (fe_decode e s)) -> total ops e) ->
  bytes mem -> 0 <= base -> no_sheethdr mem ->
  nofuel (open_stream codec ops lower num8 rk ragged (old_load codec num8 rk of_int ragged) (S (List.length mem)) mem base override fmt on_demand).
Proof.
  intros N codec ops lower num8 rk of_int ragged mem base override fmt on_demand C R T B P NS.
  apply c69_open_ends; auto. split; [exact C|]. split; [exact R|]. split; [|exact T].
  intros b m pos name x BM. apply nofuel_old_load; assumption.
Qed.
Print Assumptions c69_all_versions_end.

(** For a file that is not a compound document, this is open_workbook. *)
Theorem c69_plain_files_end : forall {N} codec (ops : numops N) lower (num8 : list Z -> N) rk of_int ragged depth file override fmt on_demand ignore,
  (forall e s, nofuel (codec e s)) -> (forall s, nofuel (rk s)) -> (forall e, (forall s, nofuel (fe_decode e s)) -> total ops e) ->
  bytes file -> py_slice file 0 8 <> [0xD0; 0xCF; 0x11; 0xE0; 0xA1; 0xB1; 0x1A; 0xE1] -> no_sheethdr file ->
  nofuel (open_workbook_xls codec ops lower num8 rk ragged (old_load codec num8 rk of_int ragged) (S (List.length file)) depth file override fmt on_demand ignore).
Proof.
  intros N codec ops lower num8 rk of_int ragged depth file override fmt on_demand ignore C R T B S NS.
  unfold open_workbook_xls. apply nofuel_bind; [apply nofuel_guard; discriminate|]. intros _ _. unfold find_stream.
  replace (list_eqb (py_slice file 0 8) SIGNATURE) with false.
  - cbn [negb bind]. apply c69_all_versions_end; auto. lia.
  - symmetry. apply not_true_is_false. intros E. apply list_eqb_eq in E. contradiction.
Qed.
Print Assumptions c69_plain_files_end.

(** A BIFF2 file of a BOF record, a number and an EOF record. *)
Example c69_old_example :
  let file := [9; 0; 4; 0; 0; 0; 16; 0; 3; 0; 15; 0; 0; 0; 1; 0; 64; 0; 0; 0; 0; 0; 0; 0; 0; 240; 63; 10; 0; 0; 0] in
  bytes file /\ py_slice file 0 8 <> [0xD0; 0xCF; 0x11; 0xE0; 0xA1; 0xB1; 0x1A; 0xE1] /\ no_sheethdr file /\
  (forall e s, nofuel ((fun _ b => Ok b : result (list Z)) (e : list Z) s)) /\
  match open_workbook_xls (fun _ b => Ok b) int_ops (fun s => s) le_val (fun b => Ok (le_val b)) false
          (old_load (fun _ b => Ok b) le_val (fun b => Ok (le_val b)) (fun n => n) false) 40 40 file None false false false with
  | Ok a => nsheets a = 1
  | Err _ => False
  end.
Proof.
  cbv zeta. split; [repeat constructor; lia|]. split; [discriminate|]. split; [|split; [discriminate|vm_compute; reflexivity]].
  intros p s E. assert (I : In 0x8f (p ++ [0x8f; 0x00] ++ s)) by (apply in_or_app; right; left; reflexivity).
  rewrite <- E in I. cbn [In] in I. lia.
Qed.
