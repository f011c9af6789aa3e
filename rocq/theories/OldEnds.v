(** Reading a BIFF2 to BIFF4 worksheet ends (C67 and C69 for these versions). *)
From Verif Require Import Base BaseFacts Text Strings Framing GridModel SheetObjects SheetModel SheetFacts PropRead
  FormatModel FormulaModel FormulaFacts CompDoc BookModel BookFacts BookApi BookEnds PropGlobals OldSheet OldXf OldContent OldSteps OldTurns OldRead.

Lemma records_bytes : forall f mem pos, bytes mem -> Forall (fun r : record => bytes (snd r)) (records_of f mem pos).
Proof.
  induction f as [|f IH]; intros mem pos HB; [constructor|]. cbn [records_of].
  destruct (get_record_parts mem pos) as [[r pos']|e] eqn:E; [|constructor]. constructor; [|apply IH; exact HB].
  unfold get_record_parts in E. destruct (negb _); [discriminate|].
  apply bind_ok in E as (code & _ & E). apply bind_ok in E as (len & _ & E). injection E as <- _. cbn [snd].
  apply bytes_slice. exact HB.
Qed.

Section Ends.
Context {N : Type}.
Variable codec : list Z -> list Z -> result (list Z).
Variable num8 : list Z -> N.
Variable rk : list Z -> result N.
Variable of_int : Z -> N.
Variable ragged : bool.
Notation ost := (@ost N).
Notation old_step := (old_step codec num8 rk of_int ragged).
Notation old_all := (old_all codec num8 rk of_int ragged).
Hypothesis codec_total : forall e b, nofuel (codec e b).
Hypothesis rk_total : forall b, nofuel (rk b).

Lemma nofuel_uni : forall e b, nofuel (unicode codec e b).
Proof. exact (nofuel_unicode codec codec_total). Qed.
Hint Resolve nofuel_uni rk_total : nofuel.
Lemma nofuel_decode : forall (s : ost) b, nofuel (c_decode (cfg codec num8 rk ragged s) b).
Proof. intros. cbn. auto with nofuel. Qed.
Hint Resolve nofuel_decode : nofuel.
Lemma nofuel_os_ensure : forall (s : ost), nofuel (os_ensure codec s).
Proof. intros. unfold os_ensure, ensure. pose proof (nofuel_ensure codec codec_total). nofuel. Qed.
Hint Resolve nofuel_os_ensure : nofuel.
Lemma nofuel_o_put : forall (s : ost) r k t v x, nofuel (o_put codec num8 rk ragged s r k t v x).
Proof. intros. unfold o_put. pose proof (nofuel_put (cfg codec num8 rk ragged s)) as P. nofuel. Qed.
Hint Resolve nofuel_o_put : nofuel.

Lemma nofuel_fake : forall i a st, nofuel (fake_xf i a st).
Proof. intros. unfold fake_xf. nofuel. Qed.
Hint Resolve nofuel_fake : nofuel.
Lemma nofuel_insert : forall (s : ost) a st, nofuel (insert_xf s a st).
Proof. intros. unfold insert_xf. nofuel. Qed.
Hint Resolve nofuel_insert : nofuel.
Lemma nofuel_styles : forall l (s : ost), nofuel (insert_styles s l).
Proof. induction l as [|x l IH]; intros s; cbn [insert_styles]; nofuel. Qed.
Hint Resolve nofuel_styles : nofuel.
Lemma nofuel_fixed : forall (s : ost) a x, nofuel (fixed_xf s a x).
Proof. intros. unfold fixed_xf, attr_xf. nofuel. Qed.
Hint Resolve nofuel_fixed : nofuel.
Lemma nofuel_attr_cell : forall (s : ost) d t v, nofuel (attr_cell codec num8 rk ragged s d t v).
Proof. intros. unfold attr_cell. nofuel. Qed.
Hint Resolve nofuel_attr_cell : nofuel.
Lemma nofuel_columndefault : forall l (s : ost) first d, nofuel (columndefault_loop s l first d).
Proof. induction l as [|x l IH]; intros s first d; cbn [columndefault_loop]; nofuel. Qed.
Hint Resolve nofuel_columndefault : nofuel.
Lemma nofuel_o_format : forall (s : ost) r, nofuel (o_format codec s r).
Proof. intros. unfold o_format. pose proof (nofuel_format_record codec codec_total (os_book s) r). nofuel. Qed.
Hint Resolve nofuel_o_format : nofuel.
Lemma nofuel_next' : forall rs, nofuel (next rs).
Proof. intros []; discriminate. Qed.
Hint Resolve nofuel_next' : nofuel.
Lemma nofuel_string_record : forall rs, nofuel (string_record rs).
Proof. intros. unfold string_record. nofuel. Qed.
Hint Resolve nofuel_string_record : nofuel.
Lemma nofuel_o_step : forall (s : ost) rc len d rs, bytes d -> nofuel (o_step codec num8 rk ragged s rc len d rs).
Proof.
  intros s rc len d rs B. unfold o_step. apply nofuel_bind; [|intros [? ?] _; discriminate].
  apply nofuel_step; [auto with nofuel| |exact B]. intros b. cbn. auto.
Qed.
Hint Resolve nofuel_o_step : nofuel.
Lemma nofuel_loop : forall (s : ost) rs d o n f a, nofuel (string_loop (cfg codec num8 rk ragged s) rs d o n f a).
Proof. intros. apply nofuel_string_loop. auto with nofuel. Qed.
Hint Resolve nofuel_loop : nofuel.

Lemma nofuel_old_step : forall bv (s : ost) rc len d rs, bytes d -> nofuel (old_step bv s rc len d rs).
Proof.
  intros bv s rc len d rs B. unfold OldSheet.old_step. cbv zeta.
  pose proof (nofuel_codepage codec codec_total) as C1. pose proof (nofuel_writeaccess codec codec_total) as C2.
  repeat (match goal with |- nofuel (if ?b then _ else _) => destruct b end).
  all: try (unfold o_formula, o_colinfo, h_colinfo, handle_datemode, h_number_b2, h_integer, h_label_b2, h_boolerr_b2, h_blank_b2, h_row_b2, h_colwidth, h_columndefault,
    h_window2_b2, unpack_string; nofuel; fail).
  apply nofuel_bind.
  - apply nofuel_step; [|intros b; apply rk_total|exact B]. intros b. cbn [cfg_deriving c_decode]. pose proof (nofuel_ensure codec codec_total). nofuel.
  - intros [sh rs'] _. nofuel.
Qed.

Lemma nofuel_old_all : forall bv rs (s : ost), Forall (fun r : record => bytes (snd r)) rs -> nofuel (old_all bv s rs).
Proof.
  intros bv rs. remember (List.length rs) as n eqn:En. revert rs En.
  induction n as [n IH] using (well_founded_induction Wf_nat.lt_wf). intros rs En s HB.
  destruct rs as [|[[rc len] d] rs]; [discriminate|]. rewrite old_all_cons. destruct (rc =? XL_EOF); [discriminate|].
  inversion HB; subst. apply nofuel_bind; [apply nofuel_old_step; assumption|]. intros [s' rs'] S.
  destruct (Local_old_step codec num8 rk of_int ragged _ _ _ _ _ _ _ _ S) as (u & -> & _).
  apply (IH (List.length rs')); [cbn [List.length]; rewrite app_length; lia|reflexivity|].
  apply Forall_app in H2 as [_ H2]. exact H2.
Qed.

Lemma nofuel_old_load : forall b mem pos name x, bytes mem -> nofuel (old_load codec num8 rk of_int ragged b mem pos name x).
Proof.
  intros b mem pos name x B. unfold old_load, old_read. apply nofuel_bind; [nofuel|]. intros v _. apply nofuel_bind; [|intros s _; discriminate].
  apply nofuel_bind; [|intros s _; apply nofuel_bind; [apply nofuel_tidy|intros; discriminate]].
  apply (nofuel_old_all (bk_bv b) (stream mem pos) (ost0 b)). unfold stream. apply records_bytes. exact B.
Qed.
End Ends.
