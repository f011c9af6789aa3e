(** C102: ragged_rows cuts the empty cells off the end of every row, and changes nothing else. *)
From Verif Require Import Base BaseFacts Utf16 Strings Framing GridModel GridFacts PropGrid
  SheetObjects SheetModel SheetFacts SheetSteps PropSheet SheetTrace PropView PropRowCol PropLinks SheetOwn PropRead CellAccess PropFmtSheet.

(** ** Specification *)

Section Spec.
Context {N : Type}.
Variable c : config N.

Definition nothing (x : cellobj N) : Prop := co_type x = 0 /\ co_value x = vempty.

(** Row [r] of the ragged sheet [s1] is row [r] of the padded sheet [s2] without some empty
    cells at the end.  All of them are gone, except that the last row, made for merged cells,
    keeps one. *)
Definition row_cut (s1 s2 : sheet N) (r : Z) : Prop :=
  exists long, row_of c s2 r = Ok long /\ zlen long = g_ncols (sh_grid s2) /\
  exists w, 0 <= w <= zlen long /\ row_len (sh_grid s1) r = Ok w /\ row_of c s1 r = Ok (firstn (Z.to_nat w) long) /\ Forall nothing (skipn (Z.to_nat w) long) /\
    (w = 0 \/ (exists x, znth long (w - 1) = Some x /\ co_type x <> 0) \/ w = 1 /\ r = g_nrows (sh_grid s1) - 1).

Definition same_but_cut (s1 s2 : sheet N) : Prop :=
  g_nrows (sh_grid s1) = g_nrows (sh_grid s2) /\ g_ncols (sh_grid s1) = g_ncols (sh_grid s2) /\
  (forall r, 0 <= r < g_nrows (sh_grid s1) -> row_cut s1 s2 r) /\
  sh_fmt s1 = sh_fmt s2 /\ sh_view s1 = sh_view s2 /\ sh_obj s1 = sh_obj s2.
End Spec.

(** ** One sheet *)

Section One.
Context {N : Type}.
Variable c : config N.
Hypothesis TYPED : forall x, c_xftype c x <> Some 0.
Variables ra rb : bool.

(** The same options and workbook, with the given ragged_rows. *)
Definition rag_config (r : bool) : config N := mk_config (c_bv c) (c_fmt c) r (c_sst c) (c_rich c) (c_xftype c) (c_decode c) (c_num8 c) (c_rk c) (c_nearest c).
Notation c1 := (rag_config ra).
Notation c2 := (rag_config rb).

Definition G (seen : bool) (g1 g2 : @grid (value N)) : Prop :=
  exists h, Forall (in_bounds (c_fmt c) (max_rows c) 256) h /\ Forall (fun s => s_type s <> 0) h /\
    put_cells vempty ra (c_fmt c) (max_rows c) 256 grid0 h = Ok g1 /\ put_cells vempty rb (c_fmt c) (max_rows c) 256 grid0 h = Ok g2 /\ (seen = false -> h = []).

Definition R (seen : bool) (sh1 sh2 : sheet N) : Prop :=
  exists g2, sh2 = with_grid sh1 g2 /\ G seen (sh_grid sh1) g2 /\ Forall range_pos (f_merged (sh_fmt sh1)).

Lemma R_weak : forall b sh1 sh2, R b sh1 sh2 -> R true sh1 sh2.
Proof. intros b sh1 sh2 (g2 & E & (h & A & B & C & D & _) & M). exists g2. split; [exact E|]. split; [|exact M]. exists h. repeat split; auto. discriminate. Qed.

Definition sim (b : bool) (r1 r2 : result (sheet N)) : Prop := forall sh', r1 = Ok sh' -> exists sh2', r2 = Ok sh2' /\ R b sh' sh2'.
Definition sims (b : bool) (r1 r2 : result (sheet N * list record)) : Prop := forall sh' rs', r1 = Ok (sh', rs') -> exists sh2', r2 = Ok (sh2', rs') /\ R b sh' sh2'.

Lemma sim_bind : forall A b (x : result A) f g, (forall a, x = Ok a -> sim b (f a) (g a)) -> sim b (bind x f) (bind x g).
Proof. intros A b x f g H sh' E. destruct x as [a|e]; [|discriminate]. exact (H a eq_refl sh' E). Qed.
Lemma sims_bind : forall A b (x : result A) f g, (forall a, x = Ok a -> sims b (f a) (g a)) -> sims b (bind x f) (bind x g).
Proof. intros A b x f g H sh' rs' E. destruct x as [a|e]; [|discriminate]. exact (H a eq_refl sh' rs' E). Qed.
Lemma sim_then : forall b b' r1 r2 f g, sim b r1 r2 -> (forall s1 s2, R b s1 s2 -> sim b' (f s1) (g s2)) -> sim b' (bind r1 f) (bind r2 g).
Proof. intros b b' r1 r2 f g H K sh' E. destruct r1 as [s1|e]; [|discriminate]. destruct (H s1 eq_refl) as (s2 & -> & RR). exact (K s1 s2 RR sh' E). Qed.
Lemma sims_then : forall b b' r1 r2 f g, sim b r1 r2 -> (forall s1 s2, R b s1 s2 -> sims b' (f s1) (g s2)) -> sims b' (bind r1 f) (bind r2 g).
Proof. intros b b' r1 r2 f g H K sh' rs' E. destruct r1 as [s1|e]; [|discriminate]. destruct (H s1 eq_refl) as (s2 & -> & RR). exact (K s1 s2 RR sh' rs' E). Qed.
Lemma sim_ret : forall b s1 s2, R b s1 s2 -> sim b (Ok s1) (Ok s2).
Proof. intros b s1 s2 RR sh' [= <-]. eauto. Qed.
Lemma sims_ret : forall b s1 s2 rs, R b s1 s2 -> sims b (Ok (s1, rs)) (Ok (s2, rs)).
Proof. intros b s1 s2 rs RR sh' rs' [= <- <-]. eauto. Qed.
Lemma sim_err : forall b e r, sim b (Err e) r.
Proof. intros b e r sh' E. discriminate. Qed.
Lemma sims_err : forall b e r, sims b (Err e) r.
Proof. intros b e r sh' rs' E. discriminate. Qed.
Lemma sims_plain : forall b r1 r2 rs, sim b r1 r2 -> sims b (plain r1 rs) (plain r2 rs).
Proof. intros b r1 r2 rs H. unfold plain. apply (sims_then b b); [exact H|]. intros. apply sims_ret. assumption. Qed.

Lemma put_fine : forall h, Forall (in_bounds (c_fmt c) (max_rows c) 256) h -> exists g, put_cells vempty rb (c_fmt c) (max_rows c) 256 (@grid0 (value N)) h = Ok g.
Proof. intros h F. exact (put_cells_fine c2 h F). Qed.

Lemma put_sim : forall b sh1 sh2 r k ct v xf, R b sh1 sh2 -> 0 <= r -> 0 <= k -> ct <> Some 0 -> sim true (put c1 sh1 r k ct v xf) (put c2 sh2 r k ct v xf).
Proof.
  intros b sh1 sh2 r k ct v xf (g2 & -> & (h & F & TY & P1 & P2 & _) & M) R0 K0 CT. unfold put. change (c_xftype c2) with (c_xftype c). change (c_xftype c1) with (c_xftype c). apply sim_bind. intros t ET.
  assert (NT : t <> 0).
  { destruct ct as [t0|]; [congruence|]. destruct (c_xftype c xf) as [t0|] eqn:X; [|discriminate]. intros ->. apply (TYPED xf). congruence. }
  intros sh' E. apply bind_ok in E as (g1' & E & E2). injection E2 as <-. change (put_cell vempty ra (c_fmt c) (max_rows c) 256 (sh_grid sh1) (mk_store r k t v xf) = Ok g1') in E.
  set (s := mk_store r k t v xf) in *.
  assert (IB : in_bounds (c_fmt c) (max_rows c) 256 s) by (apply (put_bounds vempty ra (c_fmt c) (max_rows c) 256 h (sh_grid sh1) s g1' (mr_nonneg c)); auto; lia).
  assert (F' : Forall (in_bounds (c_fmt c) (max_rows c) 256) (h ++ [s])) by (apply Forall_app; split; [exact F|constructor; [exact IB|constructor]]).
  destruct (put_fine (h ++ [s]) F') as (g2' & E'). pose proof E' as E3. rewrite put_cells_app, P2 in E3. cbn [bind put_cells] in E3. apply bind_ok in E3 as (g3 & E3 & E4). injection E4 as ->.
  change (put_cell vempty (c_ragged c2) (c_fmt c2) (max_rows c2) 256 (sh_grid (with_grid sh1 g2)) s) with (put_cell vempty rb (c_fmt c) (max_rows c) 256 g2 s).
  rewrite E3. cbn [bind]. eexists. split; [reflexivity|]. exists g2'. split; [reflexivity|]. split; [|exact M].
  exists (h ++ [s]). split; [exact F'|]. split; [apply Forall_app; split; [exact TY|constructor; [exact NT|constructor]]|]. split; [rewrite put_cells_app, P1; cbn [bind put_cells sh_grid with_grid]; rewrite E; reflexivity|]. split; [exact E'|discriminate].
Qed.

Lemma rich_sim : forall b sh1 sh2 r k runs, R b sh1 sh2 -> R b (set_rich sh1 r k runs) (set_rich sh2 r k runs).
Proof. intros b sh1 sh2 r k runs (g2 & -> & GG & M). exists g2. split; [reflexivity|]. split; assumption. Qed.

Ltac prefix := repeat match goal with |- sim _ (bind _ _) (bind _ _) => apply sim_bind; let a := fresh "a" in let E := fresh "E" in intros a E end.
Ltac cells := first [eapply (u16_nonneg c); eassumption].
Ltac store b := apply (put_sim b); [assumption|cells|cells|discriminate].

Section Handler.
Variables (b : bool) (sh1 sh2 : sheet N) (d : list Z).
Hypothesis RR : R b sh1 sh2.
Hypothesis HB : bytes d.

Lemma number_sim : sim true (h_number c1 sh1 d) (h_number c2 sh2 d).
Proof. unfold h_number. prefix. store b. Qed.
Lemma labelsst_sim : sim true (h_labelsst c1 sh1 d) (h_labelsst c2 sh2 d).
Proof.
  unfold h_labelsst. change (c_fmt c2) with (c_fmt c1). change (c_sst c2) with (c_sst c1). change (c_rich c2) with (c_rich c1).
  apply sim_bind; intros ? ?. apply sim_bind; intros r0 ?. apply sim_bind; intros k0 ?. apply sim_bind; intros x0 ?. apply sim_bind; intros ix ?. apply sim_bind; intros ? ?.
  apply (sim_then true true); [store b|]. intros s1 s2 R2. destruct (c_fmt c1); [|apply sim_ret; exact R2].
  destruct (dget Z.eqb (c_rich c1) ix) as [[|r runs]|]; apply sim_ret; [exact R2|apply rich_sim; exact R2|exact R2].
Qed.
Lemma label_sim : sim true (h_label c1 sh1 d) (h_label c2 sh2 d).
Proof. unfold h_label. change (c_bv c2) with (c_bv c1). change (c_decode c2) with (c_decode c1). destruct (c_bv c1 <? 80); prefix; store b. Qed.
Lemma rstring_sim : sim true (h_rstring c1 sh1 d) (h_rstring c2 sh2 d).
Proof.
  unfold h_rstring. change (c_bv c2) with (c_bv c1). change (c_decode c2) with (c_decode c1). destruct (c_bv c1 <? 80); do 4 (apply sim_bind; intros ? ?); apply sim_bind; intros [strg runs] _;
  (apply (sim_then true true); [store b|]; intros s1 s2 R2; apply sim_ret, rich_sim; exact R2).
Qed.
Lemma rk_sim : sim true (h_rk c1 sh1 d) (h_rk c2 sh2 d).
Proof. unfold h_rk. change (c_rk c2) with (c_rk c1). prefix. store b. Qed.
Lemma boolerr_sim : sim true (h_boolerr c1 sh1 d) (h_boolerr c2 sh2 d).
Proof.
  unfold h_boolerr. prefix. apply (put_sim b); [assumption|cells|cells|]. intros [= ->].
  match goal with H : py_index _ ?i = Ok 0 |- _ => revert H; generalize i end. intros i H. unfold py_index in H. cbv zeta in H. set (j := if i <? 0 then _ else _) in H. clearbody j. unfold znth in H.
  destruct (j <? 0); [discriminate|]. destruct (Z.to_nat j) as [|[|[|]]]; discriminate.
Qed.
Lemma blank_sim : sim true (h_blank c1 sh1 d) (h_blank c2 sh2 d).
Proof. unfold h_blank. change (c_fmt c2) with (c_fmt c1). destruct (negb (c_fmt c1)); [apply sim_ret, (R_weak b); exact RR|]. prefix. store b. Qed.
End Handler.

Lemma mulrk_loop_sim : forall cols row d pos, 0 <= row -> Forall (fun k => 0 <= k) cols -> forall b sh1 sh2, R b sh1 sh2 -> sim true (mulrk_loop c1 cols sh1 row d pos) (mulrk_loop c2 cols sh2 row d pos).
Proof.
  induction cols as [|k cols IH]; intros row d pos R0 F b sh1 sh2 RR; cbn [mulrk_loop]; [apply sim_ret, (R_weak b), RR|]. inversion F; subst.
  apply sim_bind. intros xf _. change (c_rk c2) with (c_rk c1). apply sim_bind. intros v _. apply (sim_then true true); [apply (put_sim b); auto; discriminate|]. intros s1 s2 R2. apply (IH row d (pos + 6) R0 H2 true). exact R2.
Qed.
Lemma mulrk_sim : forall b sh1 sh2 d, R b sh1 sh2 -> bytes d -> sim true (h_mulrk c1 sh1 d) (h_mulrk c2 sh2 d).
Proof.
  intros b sh1 sh2 d RR HB. unfold h_mulrk. apply sim_bind; intros ? ?. apply sim_bind; intros row ?. apply sim_bind; intros first ?. apply sim_bind; intros last ?.
  apply (mulrk_loop_sim (zrange first (last + 1)) row _ _ ltac:(cells) (zrange_nonneg c first _ ltac:(cells)) b). exact RR.
Qed.
Lemma mulblank_loop_sim : forall cols row items pos, 0 <= row -> Forall (fun k => 0 <= k) cols -> forall b sh1 sh2, R b sh1 sh2 -> sim true (mulblank_loop c1 cols sh1 row items pos) (mulblank_loop c2 cols sh2 row items pos).
Proof.
  induction cols as [|k cols IH]; intros row items pos R0 F b sh1 sh2 RR; cbn [mulblank_loop]; [apply sim_ret, (R_weak b), RR|]. inversion F; subst.
  apply sim_bind. intros xf _. apply (sim_then true true); [apply (put_sim b); auto; discriminate|]. intros s1 s2 R2. apply (IH row items (pos + 1) R0 H2 true). exact R2.
Qed.
Lemma mulblank_sim : forall b sh1 sh2 len d, R b sh1 sh2 -> bytes d -> sim true (h_mulblank c1 sh1 len d) (h_mulblank c2 sh2 len d).
Proof.
  intros b sh1 sh2 len d RR HB. unfold h_mulblank. change (c_fmt c2) with (c_fmt c1). destruct (negb (c_fmt c1)); [apply sim_ret, (R_weak b); exact RR|]. cbv zeta. apply sim_bind; intros ? ?.
  pose proof (u16s_nonneg c _ d (le_n _) HB) as NN. destruct (u16s d) as [|r [|k items]] eqn:U; try apply sim_err. inversion NN as [|? ? N1 N2]; subst. inversion N2 as [|? ? N3 _]; subst.
  apply sim_bind; intros last ?. apply sim_bind; intros ? ?. exact (mulblank_loop_sim _ _ _ _ N1 (zrange_nonneg c k _ N3) b sh1 sh2 RR).
Qed.

Lemma string_loop_same : forall rs data offset nexp nfound acc, string_loop c2 rs data offset nexp nfound acc = string_loop c1 rs data offset nexp nfound acc.
Proof.
  induction rs as [|[[rc len] d] rs IH]; intros data offset nexp nfound acc; cbn [string_loop]; change (c_bv c2) with (c_bv c1); change (c_decode c2) with (c_decode c1); [reflexivity|].
  match goal with |- bind ?x _ = _ => destruct x as [chunk|]; [|reflexivity] end. cbn [bind]. rewrite IH. reflexivity.
Qed.
Lemma formula_string_same : forall rs, formula_string c2 rs = formula_string c1 rs.
Proof.
  intros rs. unfold formula_string. destruct (next rs) as [[[[rc2 len2] data2] rs1]|]; [|reflexivity]. cbn [bind].
  match goal with |- bind ?x _ = _ => destruct x as [[data3 rs3]|]; [|reflexivity] end. cbn [bind]. unfold string_record_contents. change (c_bv c2) with (c_bv c1).
  cbv zeta. destruct (unpack_le _ data3 0); [|reflexivity]. cbn [bind]. apply string_loop_same.
Qed.
Lemma formula_sim : forall b sh1 sh2 d rs, R b sh1 sh2 -> bytes d -> sims true (h_formula c1 sh1 d rs) (h_formula c2 sh2 d rs).
Proof.
  intros b sh1 sh2 d rs RR HB. unfold h_formula. do 4 (apply sims_bind; intros ? ?). cbv zeta. change (c_num8 c2) with (c_num8 c1). rewrite formula_string_same.
  destruct (list_eqb _ _).
  - apply sims_bind. intros fb _. destruct (fb =? 0); [apply sims_bind; intros [strg rs1] _|destruct (fb =? 1); [apply sims_bind; intros v _|destruct (fb =? 2); [apply sims_bind; intros v _|destruct (fb =? 3); [|apply sims_err]]]];
    (apply (sims_then true true); [store b|intros; apply sims_ret; assumption]).
  - apply (sims_then true true); [store b|intros; apply sims_ret; assumption].
Qed.

(** Everything else. *)
Section Other.
Variables (b : bool) (sh1 sh2 : sheet N) (d : list Z).
Hypothesis RR : R b sh1 sh2.
Hypothesis HB : bytes d.

Ltac keep := match goal with |- R _ _ _ => destruct RR as (g2 & -> & GG & M); exists g2; split; [reflexivity|split; [exact GG|exact M]] end.
Ltac open := destruct RR as (g2 & E0 & GG & M).
Ltac optional := change (c_fmt c2) with (c_fmt c1); destruct (negb (c_fmt c1)); [apply sim_ret; exact RR|].
Lemma rest : sh_fmt sh2 = sh_fmt sh1 /\ sh_view sh2 = sh_view sh1 /\ sh_obj sh2 = sh_obj sh1 /\ sh_countries sh2 = sh_countries sh1.
Proof. open. subst sh2. repeat split. Qed.
Ltac same := destruct rest as (RF & RV & RO & RC); rewrite ?RF, ?RV, ?RO, ?RC.

Lemma row_sim : sim b (h_row c1 sh1 d) (h_row c2 sh2 d).
Proof. unfold h_row. optional. change (max_rows c2) with (max_rows c1). do 4 (apply sim_bind; intros ? _). destruct (negb _); apply sim_ret; [exact RR|keep]. Qed.
Lemma colinfo_sim : sim b (h_colinfo c1 sh1 d) (h_colinfo c2 sh2 d).
Proof. unfold h_colinfo. optional. do 6 (apply sim_bind; intros ? _). destruct (negb _); apply sim_ret; [exact RR|keep]. Qed.
Lemma defcolwidth_sim : sim b (h_defcolwidth sh1 d) (h_defcolwidth sh2 d).
Proof. unfold h_defcolwidth. apply sim_bind. intros w _. apply sim_ret. keep. Qed.
Lemma standardwidth_sim : sim b (h_standardwidth sh1 d) (h_standardwidth sh2 d).
Proof. unfold h_standardwidth. apply sim_bind. intros w _. apply sim_ret. keep. Qed.
Lemma gcw_sim : forall len, sim b (h_gcw c1 sh1 len d) (h_gcw c2 sh2 len d).
Proof. intros len. unfold h_gcw. optional. do 4 (apply sim_bind; intros ? _). apply sim_ret. keep. Qed.
Lemma dimension_sim : forall len, (b = true -> len = 0) -> sim b (h_dimension c1 sh1 len d) (h_dimension c2 sh2 len d).
Proof.
  intros len L. unfold h_dimension. destruct (len =? 0) eqn:E; [apply sim_ret; exact RR|]. destruct b; [exfalso; lia|].
  change (c_bv c2) with (c_bv c1). apply sim_bind. intros dims _. apply sim_ret. destruct RR as (g2 & -> & (h & F & TY & P1 & P2 & S0) & M). specialize (S0 eq_refl). subst h.
  cbn [put_cells] in P1, P2. injection P1 as P1. injection P2 as P2. exists grid0. split.
  - rewrite <- P2. reflexivity.
  - split; [|exact M]. exists []. cbn [with_view with_grid sh_grid]. rewrite <- P1. repeat split; auto.
Qed.
Lemma links_sim : forall (f : links -> list Z -> result links) rs, sims b (do l <- f (o_links (sh_obj sh1)) d; Ok (set_links sh1 l, rs)) (do l <- f (o_links (sh_obj sh2)) d; Ok (set_links sh2 l, rs)).
Proof. intros f rs. same. apply sims_bind. intros l _. apply sims_ret. keep. Qed.
Lemma obj_sim : sim b (h_obj c1 sh1 d) (h_obj c2 sh2 d).
Proof. unfold h_obj. change (c_bv c2) with (c_bv c1). apply sim_bind. intros saved _. apply sim_bind. intros id _. apply sim_ret. keep. Qed.
Lemma txo_sim : forall rs, sims b (h_txo c1 sh1 d rs) (h_txo c2 sh2 d rs).
Proof.
  intros rs. unfold h_txo. change (c_bv c2) with (c_bv c1). apply sims_bind. intros [txo rs1] _. cbv zeta. same. destruct txo as [t|]; [|apply sims_ret; exact RR]. destruct (o_saved (sh_obj sh1)) as [[id|]|]; [|apply sims_ret; exact RR|apply sims_err].
  destruct (id =? 0); apply sims_ret; [exact RR|keep].
Qed.
Lemma note_sim : forall rs, sims b (h_note c1 sh1 d rs) (h_note c2 sh2 d rs).
Proof.
  intros rs. unfold h_note. cbv zeta. change (c_bv c2) with (c_bv c1). change (c_decode c2) with (c_decode c1). same. apply sims_bind. intros [m rs1] _. apply sims_ret. keep.
Qed.
Lemma country_sim : sim b (h_country sh1 d) (h_country sh2 d).
Proof. unfold h_country. same. do 4 (apply sim_bind; intros ? _). apply sim_ret. keep. Qed.
Lemma labelranges_sim : forall len, sim b (h_labelranges sh1 len d) (h_labelranges sh2 len d).
Proof. intros len. unfold h_labelranges. same. apply sim_bind. intros [rl p] _. apply sim_bind. intros [cl p2] _. apply sim_bind. intros ? _. apply sim_ret. keep. Qed.
Lemma condfmt_sim : sim b (h_condfmt c1 sh1 d) (h_condfmt c2 sh2 d).
Proof. unfold h_condfmt. optional. change (c_bv c2) with (c_bv c1). do 3 (apply sim_bind; intros ? _). apply sim_ret. exact RR. Qed.
Lemma cf_sim : forall len, sim b (h_cf c1 sh1 len d) (h_cf c2 sh2 len d).
Proof. intros len. unfold h_cf. optional. do 6 (apply sim_bind; intros ? _). apply sim_ret. exact RR. Qed.
Lemma defaultrowheight_sim : forall len, sim b (h_defaultrowheight sh1 len d) (h_defaultrowheight sh2 len d).
Proof. intros len. unfold h_defaultrowheight. same. apply sim_bind. intros [h bits0] _. apply sim_ret. keep. Qed.
Lemma mergedcells_sim : forall len, sim b (h_mergedcells c1 sh1 len d) (h_mergedcells c2 sh2 len d).
Proof.
  intros len. unfold h_mergedcells. optional. cbv zeta. same. apply sim_bind. intros [m pos] E1. apply sim_bind. intros ? _. apply sim_ret.
  apply range_list_bits in E1 as (_ & ->); [|exact HB|lia]. destruct RR as (g2 & -> & GG & M). exists g2. split; [reflexivity|]. split; [exact GG|].
  cbn [with_fmt sh_fmt f_merged]. apply Forall_app. split; [exact M|]. unfold ranges_in. apply Forall_forall. intros rg I. apply in_map_iff in I as (i & <- & _). unfold range_pos, bits.
  split; match goal with |- 1 <= ?x mod ?y + 1 => assert (0 <= x mod y) by (apply Z.mod_pos_bound; lia); lia end.
Qed.
Lemma window2_sim : forall len, sim b (h_window2 c1 sh1 len d) (h_window2 c2 sh2 len d).
Proof.
  intros len. unfold h_window2. cbv zeta. change (c_bv c2) with (c_bv c1). change (c_nearest c2) with (c_nearest c1). destruct ((c_bv c1 >=? 80) && (len >=? 14)).
  - do 7 (apply sim_bind; intros ? _). apply sim_ret. keep.
  - do 8 (apply sim_bind; intros ? _). apply sim_ret. keep.
Qed.
Lemma scl_sim : sim b (h_scl sh1 d) (h_scl sh2 d).
Proof. unfold h_scl. cbv zeta. do 3 (apply sim_bind; intros ? _). apply sim_ret. keep. Qed.
Lemma pane_sim : sim b (h_pane sh1 d) (h_pane sh2 d).
Proof. unfold h_pane. cbv zeta. do 6 (apply sim_bind; intros ? _). apply sim_ret. keep. Qed.
Lemma hbreaks_sim : forall len, sim b (h_hbreaks c1 sh1 len d) (h_hbreaks c2 sh2 len d).
Proof. intros len. unfold h_hbreaks. optional. cbv zeta. change (read_breaks c2) with (read_breaks c1). apply sim_bind; intros ? _. apply sim_ret. keep. Qed.
Lemma vbreaks_sim : forall len, sim b (h_vbreaks c1 sh1 len d) (h_vbreaks c2 sh2 len d).
Proof. intros len. unfold h_vbreaks. optional. cbv zeta. change (read_breaks c2) with (read_breaks c1). apply sim_bind; intros ? _. apply sim_ret. keep. Qed.
End Other.

Lemma sims_weak : forall b x r1 r2, sims b r1 r2 -> sims (b || x) r1 r2.
Proof. intros b x r1 r2 H sh' rs' E. destruct (H sh' rs' E) as (s2 & E2 & RR). exists s2. split; [exact E2|]. destruct b, x; try exact RR. exact (R_weak _ _ _ RR). Qed.


Lemma step_sim : forall b sh1 sh2 rc len d rs, R b sh1 sh2 -> bytes d -> (b = true -> dimension_code rc = true -> len = 0) ->
  sims (b || cell_code rc) (step c1 sh1 rc len d rs) (step c2 sh2 rc len d rs).
Proof.
  intros b sh1 sh2 rc len d rs RR HB HD. unfold step.
  destruct (Z.eqb_spec rc XL_NUMBER) as [->|_]; [rewrite orb_true_r; apply sims_plain, (number_sim b); assumption|].
  destruct (Z.eqb_spec rc XL_LABELSST) as [->|_]; [rewrite orb_true_r; apply sims_plain, (labelsst_sim b); assumption|].
  destruct (Z.eqb_spec rc XL_LABEL) as [->|_]; [rewrite orb_true_r; apply sims_plain, (label_sim b); assumption|].
  destruct (Z.eqb_spec rc XL_RSTRING) as [->|_]; [rewrite orb_true_r; apply sims_plain, (rstring_sim b); assumption|].
  destruct (Z.eqb_spec rc XL_RK) as [->|_]; [rewrite orb_true_r; apply sims_plain, (rk_sim b); assumption|].
  destruct (Z.eqb_spec rc XL_MULRK) as [->|_]; [rewrite orb_true_r; apply sims_plain, (mulrk_sim b); assumption|].
  destruct (Z.eqb_spec rc XL_ROW) as [->|_]; [apply sims_weak, sims_plain, row_sim; assumption|].
  destruct (is_formula_code rc) eqn:FC.
  { assert (CC : cell_code rc = true).
    { unfold is_formula_code in FC. unfold cell_code. cbn [existsb]. rewrite !orb_true_iff, !Z.eqb_eq in FC. destruct FC as [[->| ->]| ->]; reflexivity. }
    rewrite CC, orb_true_r. apply (formula_sim b); assumption. }
  destruct (Z.eqb_spec rc XL_BOOLERR) as [->|_]; [rewrite orb_true_r; apply sims_plain, (boolerr_sim b); assumption|].
  destruct (rc =? XL_COLINFO); [apply sims_weak, sims_plain, colinfo_sim; assumption|].
  destruct (rc =? XL_DEFCOLWIDTH); [apply sims_weak, sims_plain, defcolwidth_sim; assumption|].
  destruct (rc =? XL_STANDARDWIDTH); [apply sims_weak, sims_plain, standardwidth_sim; assumption|].
  destruct (rc =? XL_GCW); [apply sims_weak, sims_plain, gcw_sim; assumption|].
  destruct (Z.eqb_spec rc XL_BLANK) as [->|_]; [rewrite orb_true_r; apply sims_plain, (blank_sim b); assumption|].
  destruct (Z.eqb_spec rc XL_MULBLANK) as [->|_]; [rewrite orb_true_r; apply sims_plain, (mulblank_sim b); assumption|].
  destruct ((rc =? XL_DIMENSION) || (rc =? XL_DIMENSION2)) eqn:DC; [apply sims_weak, sims_plain, dimension_sim; [assumption|intros X; apply HD; [exact X|exact DC]]|].
  destruct (rc =? XL_HLINK); [apply sims_weak, links_sim; assumption|].
  destruct (rc =? XL_QUICKTIP); [apply sims_weak, links_sim; assumption|].
  destruct (rc =? XL_OBJ); [apply sims_weak, sims_plain, obj_sim; assumption|].
  destruct (rc =? XL_MSO_DRAWING); [apply sims_weak, sims_ret; assumption|].
  destruct (rc =? XL_TXO); [apply sims_weak, txo_sim; assumption|].
  destruct (rc =? XL_NOTE); [apply sims_weak, note_sim; assumption|].
  destruct (rc =? XL_FEAT11); [apply sims_weak, sims_ret; assumption|].
  destruct (is_bof_code rc); [apply sims_weak, sims_bind; intros ? _; apply sims_bind; intros ? _; apply sims_ret; assumption|].
  destruct (rc =? XL_COUNTRY); [apply sims_weak, sims_plain, country_sim; assumption|].
  destruct (rc =? XL_LABELRANGES); [apply sims_weak, sims_plain, labelranges_sim; assumption|].
  destruct (rc =? XL_ARRAY); [apply sims_weak, sims_bind; intros ? _; apply sims_ret; assumption|].
  destruct (rc =? XL_SHRFMLA); [apply sims_weak, sims_bind; intros ? _; apply sims_ret; assumption|].
  destruct (rc =? XL_CONDFMT); [apply sims_weak, sims_plain, condfmt_sim; assumption|].
  destruct (rc =? XL_CF); [apply sims_weak, sims_plain, cf_sim; assumption|].
  destruct (rc =? XL_DEFAULTROWHEIGHT); [apply sims_weak, sims_plain, defaultrowheight_sim; assumption|].
  destruct (rc =? XL_MERGEDCELLS); [apply sims_weak, sims_plain, mergedcells_sim; assumption|].
  destruct (rc =? XL_WINDOW2); [apply sims_weak, sims_plain, window2_sim; assumption|].
  destruct (rc =? XL_SCL); [apply sims_weak, sims_plain, scl_sim; assumption|].
  destruct (rc =? XL_PANE); [apply sims_weak, sims_plain, pane_sim; assumption|].
  destruct (rc =? XL_HORIZONTALPAGEBREAKS); [apply sims_weak, sims_plain, hbreaks_sim; assumption|].
  destruct (rc =? XL_VERTICALPAGEBREAKS); [apply sims_weak, sims_plain, vbreaks_sim; assumption|].
  apply sims_weak, sims_ret. assumption.
Qed.

Lemma loop_sim : forall n b sh1 sh2 rs sh1', (length rs <= n)%nat -> R b sh1 sh2 -> complete false rs -> dimension_first b (own_records false rs) ->
  read_all c1 sh1 rs = Ok sh1' -> exists b' sh2', read_all c2 sh2 rs = Ok sh2' /\ R b' sh1' sh2'.
Proof.
  induction n as [|n IH]; intros b sh1 sh2 rs sh1' L RR C D E; destruct rs as [|[[rc len] d] rs]; try discriminate; [cbn in L; lia|].
  rewrite read_all_cons in *. change XL_EOF with 0x0A in *. cbn [complete negb andb own_records] in C, D. destruct (rc =? 0x0A) eqn:EF; [injection E as <-; eauto|].
  apply bind_ok in E as ([s1 rs1] & ES & E). destruct C as ((HB & _) & C).
  assert (HD : b = true -> dimension_code rc = true -> len = 0).
  { intros Hb Hd. destruct (opens_stream rc) eqn:OS; [exfalso|exact (proj1 D Hb Hd)]. unfold opens_stream in OS. unfold dimension_code in Hd. lia. }
  destruct (step_sim b sh1 sh2 rc len d rs RR HB HD s1 rs1 ES) as (s2 & E2 & R2). rewrite E2. cbn [bind].
  pose proof (step_length c1 _ _ _ _ _ _ _ ES) as SL. cbn [length] in L.
  apply (IH (b || cell_code rc) s1 s2 rs1 sh1'); auto; [lia| |].
  - destruct (opens_stream rc) eqn:OS.
    + exact (complete_embedded _ _ (step_embedded c1 _ _ _ _ _ _ _ OS ES) C).
    + destruct (step_takes c1 _ _ _ _ _ _ _ OS ES) as (u & -> & U). exact (complete_parts _ _ _ U C).
  - destruct (opens_stream rc) eqn:OS.
    + rewrite (bof_no_cell _ OS), orb_false_r. rewrite (own_embedded _ _ (step_embedded c1 _ _ _ _ _ _ _ OS ES)) in D. exact D.
    + destruct (step_takes c1 _ _ _ _ _ _ _ OS ES) as (u & -> & U). destruct D as (_ & D). exact (parts_first c _ _ _ U _ D).
Qed.
End One.

(** ** The finished sheet *)

Lemma holds_row : forall {N} (c : config N) hist sh W r w, Holds vempty (c_fmt c) hist (sh_grid sh) W -> znth W r = Some w ->
  row_len (sh_grid sh) r = Ok w /\
  row_of c sh r = Ok (map (fun k => mk_cellobj (spec_type hist r k) (spec_val vempty hist r k)
    (if c_fmt c then Some (let xfx := spec_xf hist r k in if xfx >? -1 then xfx else
       let col := match dget Z.eqb (f_cols (sh_fmt sh)) k with Some ci => if ci_xf ci =? -1 then 15 else ci_xf ci | None => 15 end in
       match dget Z.eqb (f_rows (sh_fmt sh)) r with Some ri => if ri_xf ri >? -1 then ri_xf ri else col | None => col end) else None)) (zrange 0 w)).
Proof.
  intros N c hist sh W r w HH E. pose proof (Holds_row_len _ _ _ _ _ _ _ HH E) as RL. split; [exact RL|]. unfold row_of. rewrite RL. cbn [bind]. apply mapM_ok. intros k I. apply in_zrange in I.
  destruct HH as (HT & HV & HX & HN & LT & LV & LX). unfold cell_of, cell_type, cell_value.
  rewrite (plane_get_look XL_CELL_EMPTY (g_types (sh_grid sh)) r k w) by (try (rewrite HT; exact E); lia). rewrite (plane_get_look vempty (g_vals (sh_grid sh)) r k w) by (try (rewrite HV; exact E); lia).
  rewrite LT, LV. destruct (c_fmt c) eqn:FM; [|reflexivity].
  unfold cell_xf_index, req_fmt_info. rewrite FM. cbn [negb guard bind]. rewrite (plane_get_look (-1) (g_xfs (sh_grid sh)) r k w) by (try (rewrite HX; exact E); lia). rewrite (LX eq_refl). cbn [bind]. cbv zeta.
  destruct (spec_xf hist r k >? -1); [reflexivity|]. destruct (dget Z.eqb (f_rows (sh_fmt sh)) r) as [ri|]; [destruct (ri_xf ri >? -1)|]; reflexivity.
Qed.

Lemma extent_witness : forall l, extent l = 0 \/ exists x, In x l /\ extent l = x + 1.
Proof.
  induction l as [|a l IH]; [left; reflexivity|]. change (extent (a :: l)) with (Z.max (a + 1) (extent l)). pose proof (extent_nonneg l).
  destruct (Z_le_gt_dec (a + 1) (extent l)) as [L|L]; [replace (Z.max (a + 1) (extent l)) with (extent l) by lia|right; exists a; split; [left; reflexivity|lia]].
  destruct IH as [->|(x & I & ->)]; [left; reflexivity|right; exists x; split; [right; exact I|reflexivity]].
Qed.

Lemma last_at_in : forall {V} (h : list (@store V)) r k s, last_at h r k = Some s -> In s h /\ s_row s = r /\ s_col s = k.
Proof.
  intros V h r k s. induction h as [|x h IH] using rev_ind; [discriminate|]. rewrite last_at_snoc. destruct ((r =? s_row x) && (k =? s_col x)) eqn:E.
  - intros [= <-]. split; [apply in_or_app; right; left; reflexivity|lia].
  - intros H. destruct (IH H) as (I & A). split; [apply in_or_app; left; exact I|exact A].
Qed.
Lemma in_last_at : forall {V} (h : list (@store V)) s, In s h -> exists s', last_at h (s_row s) (s_col s) = Some s'.
Proof.
  intros V h s. induction h as [|x h IH] using rev_ind; [intros []|]. intros I. rewrite last_at_snoc. destruct ((s_row s =? s_row x) && (s_col s =? s_col x)) eqn:E; [eauto|].
  apply in_app_or in I as [I|[->|[]]]; [exact (IH I)|lia].
Qed.

Lemma finished : forall {N} (c : config N) h (s1 s2 : sheet N), Forall (in_bounds (c_fmt c) (max_rows c) 256) h -> Forall (fun s => s_type s <> 0) h -> merged_ok (max_rows c) (f_merged (sh_fmt s1)) ->
  sheet_of vempty true (c_fmt c) (max_rows c) 256 h (f_merged (sh_fmt s1)) = Ok (sh_grid s1) ->
  sheet_of vempty false (c_fmt c) (max_rows c) 256 h (f_merged (sh_fmt s1)) = Ok (sh_grid s2) ->
  sh_fmt s1 = sh_fmt s2 -> sh_view s1 = sh_view s2 -> sh_obj s1 = sh_obj s2 -> same_but_cut c s1 s2.
Proof.
  intros N c h s1 s2 F TY MO S1 S2 E1 E2 E3. pose proof (mr_nonneg c) as MN. set (M := f_merged (sh_fmt s1)) in *.
  destruct (sheet_ragged vempty (c_fmt c) (max_rows c) 256 h M MN ltac:(lia) F MO) as (g1 & W & X1 & NR1 & NC1 & H1 & RG). rewrite S1 in X1. injection X1 as <-.
  destruct (sheet_padded vempty (c_fmt c) (max_rows c) 256 h M MN ltac:(lia) F MO) as (g2 & X2 & NR2 & NC2 & H2). rewrite S2 in X2. injection X2 as <-.
  split; [congruence|]. split; [congruence|]. split; [|auto].
  intros r Hr. set (w := row_extent (h ++ placeholder vempty h M) r).
  assert (EW : znth W r = Some w).
  { pose proof H1 as (_ & _ & _ & HN & _). destruct (znth_in_range W r ltac:(lia)) as [w' Ew]. rewrite Ew. f_equal. exact (RG _ _ Ew). }
  assert (EP : znth (zrepeat (g_ncols (sh_grid s2)) (g_nrows (sh_grid s2))) r = Some (g_ncols (sh_grid s2))) by (apply znth_zrepeat; lia).
  destruct (holds_row c h s1 W r w H1 EW) as (L1 & R1). destruct (holds_row c h s2 _ r _ H2 EP) as (L2 & R2). rewrite <- E1 in R2.
  match type of R2 with _ = Ok (map ?f _) => set (f0 := f) in * end.
  assert (Bw : 0 <= w <= g_ncols (sh_grid s2)).
  { split; [apply extent_nonneg|]. unfold w, placeholder. unfold ncols_spec in NC2. unfold nrows_spec in NR1.
    pose proof (row_extent_le h r). pose proof (extent_nonneg (map s_col h)) as P. fold (cols_of h) in P.
    destruct (rows_of h <? merged_rows M) eqn:B1; [|rewrite app_nil_r; lia].
    rewrite row_extent_snoc by (cbn; lia). cbn [s_row s_col].
    pose proof (merged_ok_bounds (max_rows c) M MN MO) as [_ HM2].
    assert (0 <= rows_of h) by apply extent_nonneg.
    assert (M <> []) as NE by (intros HN; rewrite HN in B1; cbn in B1; lia). specialize (HM2 NE).
    destruct (r =? merged_rows M - 1); lia. }
  exists (map f0 (zrange 0 (g_ncols (sh_grid s2)))). split; [exact R2|]. split; [rewrite zlen_map, zlen_zrange; lia|].
  exists w. split; [rewrite zlen_map, zlen_zrange; lia|]. split; [exact L1|]. split; [rewrite R1, firstn_map, firstn_zrange by exact Bw; reflexivity|]. split.
  - rewrite skipn_map. apply Forall_forall. intros x I. apply in_map_iff in I as (k & <- & I).
    assert (Hk : w <= k).
    { rewrite (zrange_app 0 w (g_ncols (sh_grid s2))) in I by lia. rewrite skipn_app in I. 
      replace (Z.to_nat w) with (length (zrange 0 w)) in I by (pose proof (zlen_zrange 0 w); unfold zlen in *; lia). rewrite skipn_all, Nat.sub_diag in I. cbn [app skipn] in I. apply in_zrange in I. lia. }
    assert (LA : last_at h r k = None).
    { destruct (last_at h r k) as [s|] eqn:LA; [exfalso|reflexivity]. apply last_at_in in LA as (I2 & A & B).
      assert (s_col s < w). { unfold w, row_extent. apply extent_upper. apply in_map_iff. exists s. split; [reflexivity|]. apply filter_In. split; [apply in_or_app; left; exact I2|lia]. } lia. }
    unfold f0, nothing. cbn [co_type co_value]. unfold spec_type, spec_val. rewrite LA. split; reflexivity.
  - destruct (Z.eq_dec w 0) as [Z0|NZ]; [left; exact Z0|right]. unfold w, row_extent in NZ |- *.
    destruct (extent_witness (map s_col (filter (fun s => s_row s =? r) (h ++ placeholder vempty h M)))) as [Z0|(x & I & EX)]; [congruence|].
    fold (row_extent (h ++ placeholder vempty h M) r) in EX. fold w in EX. fold (row_extent (h ++ placeholder vempty h M) r). fold w.
    apply in_map_iff in I as (s & <- & I). apply filter_In in I as (I & RS). apply in_app_or in I as [I|I].
    + left. destruct (in_last_at h s I) as (s' & LA). replace (s_row s) with r in LA by lia. exists (f0 (s_col s)). split.
      * rewrite znth_map. replace (w - 1) with (s_col s) by lia. rewrite znth_zrange by (rewrite Forall_forall in F; destruct (F s I) as (_ & B & _); lia). reflexivity.
      * unfold f0. cbn [co_type]. unfold spec_type. rewrite LA. rewrite Forall_forall in TY. apply TY. apply (last_at_in h r (s_col s)). exact LA.
    + right. unfold placeholder in I. destruct (rows_of h <? merged_rows M) eqn:B1; [|destruct I]. destruct I as [<-|[]]. cbn [s_row s_col] in *. split; [lia|]. rewrite NR1. unfold nrows_spec. lia.
Qed.

Theorem c102_sheet : forall {N} (c : config N) countries rs, (forall x, c_xftype c x <> Some 0) -> complete false rs -> dimension_first false (own_records false rs) ->
  match sheet_read (rag_config c true) countries rs, sheet_read (rag_config c false) countries rs with
  | Ok s1, Ok s2 => same_but_cut c s1 s2 /\ sh_countries s1 = sh_countries s2
  | Err _, Err _ => True
  | _, _ => False
  end.
Proof.
  intros N c countries rs TY C D.
  assert (One : forall ra rb s1, sheet_read (rag_config c ra) countries rs = Ok s1 -> exists s2 h, sheet_read (rag_config c rb) countries rs = Ok s2 /\
    Forall (in_bounds (c_fmt c) (max_rows c) 256) h /\ Forall (fun s => s_type s <> 0) h /\ merged_ok (max_rows c) (f_merged (sh_fmt s1)) /\
    sheet_of vempty ra (c_fmt c) (max_rows c) 256 h (f_merged (sh_fmt s1)) = Ok (sh_grid s1) /\ sheet_of vempty rb (c_fmt c) (max_rows c) 256 h (f_merged (sh_fmt s1)) = Ok (sh_grid s2) /\
    s2 = with_grid s1 (sh_grid s2)).
  { intros ra rb s1 H. unfold sheet_read in H. apply bind_ok in H as (sh1 & L & H). apply bind_ok in H as (g1' & T1 & H). injection H as <-.
    change (tidy_dimensions vempty ra (c_fmt c) (max_rows c) 256 (f_merged (sh_fmt sh1)) (sh_grid sh1) = Ok g1') in T1.
    assert (R0 : R c ra rb false (sheet0 countries) (sheet0 countries)).
    { exists grid0. split; [reflexivity|]. split; [|constructor]. exists []. repeat split; constructor. }
    destruct (loop_sim c TY ra rb (length rs) false _ _ rs sh1 (le_n _) R0 C D L) as (b' & sh2 & L2 & (g2 & -> & (h & F & NT & P1 & P2 & _) & M)).
    pose proof (mr_nonneg c) as MN.
    pose proof (tidy_merged vempty ra (c_fmt c) (max_rows c) 256 h _ _ _ MN ltac:(lia) F P1 M T1) as MO.
    assert (S2 : exists g2', sheet_of vempty rb (c_fmt c) (max_rows c) 256 h (f_merged (sh_fmt sh1)) = Ok g2').
    { destruct rb; [destruct (sheet_ragged vempty (c_fmt c) (max_rows c) 256 h _ MN ltac:(lia) F MO) as (g & W & E & _)|destruct (sheet_padded vempty (c_fmt c) (max_rows c) 256 h _ MN ltac:(lia) F MO) as (g & E & _)]; eauto. }
    destruct S2 as (g2' & SO2). assert (T2 : tidy_dimensions vempty rb (c_fmt c) (max_rows c) 256 (f_merged (sh_fmt sh1)) g2 = Ok g2') by (unfold sheet_of in SO2; rewrite P2 in SO2; exact SO2).
    exists (with_grid sh1 g2'), h. split.
    - unfold sheet_read. change (read_loop (rag_config c rb) (S (length rs)) (sheet0 countries) rs) with (read_all (rag_config c rb) (sheet0 countries) rs). rewrite L2. cbn [bind].
      change (tidy_dimensions vempty (c_ragged (rag_config c rb)) (c_fmt (rag_config c rb)) (max_rows (rag_config c rb)) 256 (f_merged (sh_fmt (with_grid sh1 g2))) (sh_grid (with_grid sh1 g2)))
        with (tidy_dimensions vempty rb (c_fmt c) (max_rows c) 256 (f_merged (sh_fmt sh1)) g2). rewrite T2. reflexivity.
    - split; [exact F|]. split; [exact NT|]. split; [exact MO|]. split; [unfold sheet_of; rewrite P1; exact T1|]. split; [exact SO2|reflexivity]. }
  destruct (sheet_read (rag_config c true) countries rs) as [s1|e1] eqn:E1.
  - destruct (One true false s1 E1) as (s2 & h & E2 & F & NT & MO & S1 & S2 & EQ). rewrite E2. split; [|rewrite EQ; reflexivity].
    apply (finished c h); auto; rewrite EQ; reflexivity.
  - destruct (sheet_read (rag_config c false) countries rs) as [s2|e2] eqn:E2; [|exact I]. destruct (One false true s2 E2) as (s1 & h & E3 & _). congruence.
Qed.
Print Assumptions c102_sheet.
