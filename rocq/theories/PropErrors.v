(** C106: which exception a file that cannot be read raises. *)
From Verif Require Import Base BaseFacts Text Framing GridModel SheetObjects SheetModel FormatModel FormulaModel CompDoc CompDocFull PropChain PropDir BookModel BookApi PropBof PropSheetList PropFormulaText PropWorkbook PropFile.

(** ** Specification *)

(** A BIFF8 file with one worksheet, which has the given records: BOF, COUNTRY, BOUNDSHEET,
    EOF, BOF, the records, EOF. *)
Definition sheet_file (records : list (Z * list Z)) : list Z :=
  frame (0x809, [0; 6; 5; 0; 0; 0; 0xcd; 7]) ++ frame (0x8c, [1; 0; 1; 0]) ++ frame (0x85, [37; 0; 0; 0; 0; 0; 1; 0; 83]) ++ frame (0x0a, []) ++
  frame (0x809, [0; 6; 16; 0; 0; 0; 0xcd; 7]) ++ frames records ++ frame (0x0a, []).

(** The file begins with the BOF record of a workbook, or of a worksheet of an early version. *)
Definition begins_workbook (file : list Z) : Prop :=
  exists op body v, stands file 0 op body /\ 4 <= zlen body <= 20 /\ bof_says body op v /\ right_stream 5 v (word body 1).

Section Open.
Context {N : Type}.
Variable codec : list Z -> list Z -> result (list Z).
Variable ops : numops N.
Variable lower : list Z -> list Z.
Variable num8 : list Z -> N.
Variable rk : list Z -> result N.
Variable ragged : bool.
Notation loaded := (loaded (N := N)).
Notation book := (book N loaded).
Variable old : book -> list Z -> Z -> list Z -> Z -> result (shared * loaded).
Notation open_file := (open_workbook_xls codec ops lower num8 rk ragged old).

(** A file that is neither a compound document nor begins as a workbook does raises XLRDError. *)
Theorem c106_not_a_workbook : forall fuel depth file override fmt on_demand ignore,
  bytes file -> py_slice file 0 8 <> [0xD0; 0xCF; 0x11; 0xE0; 0xA1; 0xB1; 0x1A; 0xE1] -> ~ begins_workbook file ->
  open_file fuel depth file override fmt on_demand ignore = Err XLRDError.
Proof.
  intros fuel depth file ov fmt od ig B NS NW. unfold BookApi.open_workbook_xls. destruct (zlen file =? 0) eqn:Z0; [reflexivity|]. cbn [negb guard]. rewrite bind_Ok.
  unfold find_stream. destruct (list_eqb (py_slice file 0 8) SIGNATURE) eqn:LE; [apply list_eqb_eq in LE; contradiction|]. cbn [negb]. rewrite bind_Ok.
  unfold open_stream. destruct (getbof file 0 XL_WORKBOOK_GLOBALS) as [[v p]|e] eqn:G.
  - exfalso. apply NW. apply c47_getbof in G as (op & body & H1 & H2 & H3 & H4 & _); [|exact B|lia]. exists op, body, v. auto.
  - rewrite (c47_only_xlrderror _ _ _ _ G). reflexivity.
Qed.

(** But one record that is too short, or has an unexpected value, can raise eight other
    exceptions: struct.error, AssertionError, IndexError, KeyError, ValueError, AttributeError,
    UnboundLocalError and UnicodeDecodeError, none of which is an XLRDError or CompDocError. *)
Theorem c106_only_documented_refuted : forall fuel depth ignore, (10 < fuel)%nat ->
  (exists a, open_file fuel depth (sheet_file []) None true false ignore = Ok a) /\
  forall e, In e [StructError; AssertionError; IndexError; KeyError; ValueError; AttributeError; UnboundLocalError; UnicodeDecodeError] ->
  exists rc d, bytes d /\ zlen d < 20 /\ open_file fuel depth (sheet_file [(rc, d)]) None true false ignore = Err e.
Proof.
  intros fuel depth ig L. do 10 (destruct fuel as [|fuel]; [lia|]). clear L.
  match goal with |- _ /\ forall e, _ -> exists rc d, _ /\ _ /\ open_workbook_xls _ _ _ _ _ _ _ ?F _ _ _ _ _ _ = _ => set (f := F) end.
  assert (X : forall rc d e, open_file f depth (sheet_file [(rc, d)]) None true false ig = Err e -> (zlen d <? 20) && forallb (fun b => (0 <=? b) && (b <? 256)) d = true ->
    exists rc d, bytes d /\ zlen d < 20 /\ open_file f depth (sheet_file [(rc, d)]) None true false ig = Err e).
  { intros rc d e H B. apply andb_true_iff in B as [B1 B2]. exists rc, d. split; [apply bytes_check; exact B2|]. split; [lia|exact H]. }
  subst f. split.
  { match goal with |- exists a, ?x = Ok a => assert (T : match x with Ok _ => true | Err _ => false end = true) by (destruct ragged; vm_compute; reflexivity); destruct x; [eauto|discriminate] end. }
  intros e I; repeat (destruct I as [<-|I]); [..|destruct I].
  - apply (X 0x203 [0; 0; 0; 0]); destruct ragged; vm_compute; reflexivity.
  - apply (X 0x8c [2; 0; 2; 0]); destruct ragged; vm_compute; reflexivity.
  - apply (X 0xFD [0; 0; 0; 0; 0; 0; 0; 0; 0; 0]); destruct ragged; vm_compute; reflexivity.
  - apply (X 0x203 [0; 0; 0; 0; 1; 0; 0; 0; 0; 0; 0; 0; 0; 0]); destruct ragged; vm_compute; reflexivity.
  - apply (X 0xBE [0; 0]); destruct ragged; vm_compute; reflexivity.
  - apply (X 0x5D []); destruct ragged; vm_compute; reflexivity.
  - apply (X 0x1B6 [0; 0; 0; 0; 0; 0; 0; 0; 0; 0; 0; 0; 0; 0; 0; 0; 0; 0]); destruct ragged; vm_compute; reflexivity.
  - apply (X 0x204 [0; 0; 0; 0; 0; 0; 1; 0; 1; 0; 0xd8]); destruct ragged; vm_compute; reflexivity.
Qed.
End Open.
Print Assumptions c106_not_a_workbook.
Print Assumptions c106_only_documented_refuted.

(** A text file, for instance, is neither. *)
Example c106_hypotheses :
  let file := s2l "name;amount" in
  bytes file /\ py_slice file 0 8 <> [0xD0; 0xCF; 0x11; 0xE0; 0xA1; 0xB1; 0x1A; 0xE1] /\ ~ begins_workbook file.
Proof.
  cbv zeta. assert (B : bytes (s2l "name;amount")) by (apply bytes_check; reflexivity). split; [exact B|]. split; [discriminate|]. intros (op & body & v & S1 & S2 & S3 & S4).
  pose proof (proj2 (c47_getbof (s2l "name;amount") 0 5 v (0 + 4 + zlen body) B ltac:(lia)) ltac:(exists op, body; auto)) as G. discriminate G.
Qed.
