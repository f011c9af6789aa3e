(** Facts about the formula model: no run stops for lack of fuel, and runs of the
    two loops as sequences of steps. *)
From Verif Require Import Base BaseFacts Text CellNames Utf16 Strings StringFacts GridModel SheetObjects SheetFacts
  FormulaTables FormulaModel Decompile.

(** ** Every token gives an answer *)

Lemma nofuel_colname : forall c, nofuel (colname c).
Proof. intros. unfold colname. nofuel. Qed.
#[export] Hint Resolve nofuel_colname : nofuel.
Lemma nofuel_cellnamerel : forall a b c d e f g, nofuel (cellnamerel a b c d e f g).
Proof. intros. unfold cellnamerel, cellnameabs, colnamerel, rownamerel. nofuel. Qed.
#[export] Hint Resolve nofuel_cellnamerel : nofuel.
Lemma nofuel_rangename2d : forall a b c d e, nofuel (rangename2d a b c d e).
Proof. intros. unfold rangename2d, cellnameabs. nofuel. Qed.
Lemma nofuel_rangename2drel : forall a b c d e f g h i j k, nofuel (rangename2drel a b c d e f g h i j k).
Proof. intros. unfold rangename2drel. nofuel. Qed.
#[export] Hint Resolve nofuel_rangename2d nofuel_rangename2drel : nofuel.
Lemma nofuel_quotedsheetname : forall a b, nofuel (quotedsheetname a b).
Proof. intros. unfold quotedsheetname. nofuel. Qed.
#[export] Hint Resolve nofuel_quotedsheetname : nofuel.
Lemma nofuel_sheetrange : forall a b c, nofuel (sheetrange a b c).
Proof. intros. unfold sheetrange. nofuel. Qed.
#[export] Hint Resolve nofuel_sheetrange : nofuel.
Lemma nofuel_sheetrangerel : forall a b c d e, nofuel (sheetrangerel a b c d e).
Proof. intros. unfold sheetrangerel. nofuel. Qed.
#[export] Hint Resolve nofuel_sheetrangerel : nofuel.
Lemma nofuel_rangename3d : forall e r, nofuel (rangename3d e r).
Proof. intros. unfold rangename3d. nofuel. Qed.
Lemma nofuel_rangename3drel : forall e r a b c, nofuel (rangename3drel e r a b c).
Proof. intros. unfold rangename3drel. nofuel. Qed.
#[export] Hint Resolve nofuel_rangename3d nofuel_rangename3drel : nofuel.

Lemma nofuel_adjust8 : forall a b c d e, nofuel (adjust_cell_addr_biff8 a b c d e).
Proof. intros. unfold adjust_cell_addr_biff8, sub_base. nofuel. Qed.
Lemma nofuel_adjust7 : forall a b c d e, nofuel (adjust_cell_addr_biff_le7 a b c d e).
Proof. intros. unfold adjust_cell_addr_biff_le7, sub_base. nofuel. Qed.
#[export] Hint Resolve nofuel_adjust8 nofuel_adjust7 : nofuel.
Lemma nofuel_get_cell_addr : forall a b c d e f, nofuel (get_cell_addr a b c d e f).
Proof. intros. unfold get_cell_addr. nofuel. Qed.
Lemma nofuel_get_cell_range_addr : forall a b c d e f, nofuel (get_cell_range_addr a b c d e f).
Proof. intros. unfold get_cell_range_addr. nofuel. Qed.
#[export] Hint Resolve nofuel_get_cell_addr nofuel_get_cell_range_addr : nofuel.

Lemma nofuel_local_range : forall e r, nofuel (get_externsheet_local_range e r).
Proof. intros. unfold get_externsheet_local_range. nofuel. Qed.
Lemma nofuel_local_range_b57 : forall e a b c, nofuel (get_externsheet_local_range_b57 e a b c).
Proof. intros. unfold get_externsheet_local_range_b57. nofuel. Qed.
#[export] Hint Resolve nofuel_local_range nofuel_local_range_b57 : nofuel.
Lemma nofuel_ref57 : forall d p, nofuel (unpack_ref57 d p).
Proof. intros. unfold unpack_ref57. nofuel. Qed.
#[export] Hint Resolve nofuel_ref57 : nofuel.
Lemma nofuel_read_ref3d : forall e d p r a b, nofuel (read_ref3d e d p r a b).
Proof. intros. unfold read_ref3d. nofuel. Qed.
Lemma nofuel_read_area3d : forall e d p r, nofuel (read_area3d e d p r).
Proof. intros. unfold read_area3d. nofuel. Qed.
Lemma nofuel_read_namex : forall e d p, nofuel (read_namex e d p).
Proof. intros. unfold read_namex. nofuel. Qed.
Lemma nofuel_namex_sheets : forall e a b, nofuel (namex_sheets e a b).
Proof. intros. unfold namex_sheets. nofuel. Qed.
#[export] Hint Resolve nofuel_read_ref3d nofuel_read_area3d nofuel_read_namex nofuel_namex_sheets : nofuel.
Lemma nofuel_szdict : forall bv, nofuel (szdict bv).
Proof. intros. unfold szdict. nofuel. Qed.
#[export] Hint Resolve nofuel_szdict : nofuel.
Lemma nofuel_token : forall bv d p, nofuel (token bv d p).
Proof. intros. unfold token. nofuel. Qed.
#[export] Hint Resolve nofuel_token : nofuel.

Section Ends.
Context {N : Type}.
Variable ops : numops N.
Variable e : fenv.

(** Decoding and arithmetic raise Python's errors, never the model's own. *)
Definition total : Prop :=
  (forall b, nofuel (fe_decode e b)) /\ (forall s, nofuel (n_parse ops s)) /\
  (forall x y, nofuel (n_add ops x y)) /\ (forall x y, nofuel (n_sub ops x y)) /\
  (forall x y, nofuel (n_mul ops x y)) /\ (forall x y, nofuel (n_div ops x y)) /\
  (forall x y, nofuel (n_pow ops x y)) /\ (forall x, nofuel (n_pct ops x)) /\
  (forall x y, nofuel (n_lt ops x y)) /\ (forall x y, nofuel (n_le ops x y)) /\
  (forall x, nofuel (n_trunc ops x)) /\ (forall k s t, nofuel (refs_cmp ops k s t)).

Hypothesis T : total.

Let Tdec : forall b, nofuel (fe_decode e b). Proof. apply T. Qed.
Let Tparse : forall s, nofuel (n_parse ops s). Proof. apply T. Qed.
Let Tadd : forall x y, nofuel (n_add ops x y). Proof. apply T. Qed.
Let Tsub : forall x y, nofuel (n_sub ops x y). Proof. apply T. Qed.
Let Tmul : forall x y, nofuel (n_mul ops x y). Proof. apply T. Qed.
Let Tdiv : forall x y, nofuel (n_div ops x y). Proof. apply T. Qed.
Let Tpow : forall x y, nofuel (n_pow ops x y). Proof. apply T. Qed.
Let Tpct : forall x, nofuel (n_pct ops x). Proof. apply T. Qed.
Let Tlt : forall x y, nofuel (n_lt ops x y). Proof. apply T. Qed.
Let Tle : forall x y, nofuel (n_le ops x y). Proof. apply T. Qed.
Let Ttrunc : forall x, nofuel (n_trunc ops x). Proof. apply T. Qed.
Let Tcmp : forall k s t, nofuel (refs_cmp ops k s t). Proof. apply T. Qed.
Hint Resolve Tdec Tparse Tadd Tsub Tmul Tdiv Tpow Tpct Tlt Tle Ttrunc Tcmp : nofuel.

Lemma nofuel_read_str : forall d p, nofuel (read_str e d p).
Proof. intros. unfold read_str, unpack_string_update_pos. nofuel. Qed.
Hint Resolve nofuel_read_str : nofuel.
Lemma nofuel_read_const : forall o d p, nofuel (read_const ops o d p).
Proof. intros. unfold read_const. nofuel. Qed.
Lemma nofuel_read_func : forall d p, nofuel (read_func e d p).
Proof. intros. unfold read_func. nofuel. Qed.
Lemma nofuel_read_funcvar : forall d p, nofuel (read_funcvar e d p).
Proof. intros. unfold read_funcvar. nofuel. Qed.
Hint Resolve nofuel_read_const nofuel_read_func nofuel_read_funcvar : nofuel.

Lemma nofuel_arith : forall o a b, nofuel (py_arith ops o a b).
Proof. intros. unfold py_arith. nofuel. Qed.
Lemma nofuel_compare : forall o a b, nofuel (py_compare ops o a b).
Proof. intros. unfold py_compare. nofuel. Qed.
Hint Resolve nofuel_arith nofuel_compare : nofuel.
Lemma nofuel_argconv : forall o k v r, argconv ops o k v = Some r -> nofuel r.
Proof.
  intros o k v r. unfold argconv.
  destruct (o <=? 7); [|destruct (o =? 8)]; destruct k; intros H; try discriminate H; injection H as <-;
    try apply nofuel_ok. unfold py_float. nofuel.
Qed.
Lemma nofuel_binop : forall o k, nofuel (do_binop ops o k).
Proof.
  intros. unfold do_binop. destruct k as [|bop [|aop k]]; try discriminate.
  destruct (binop_rule o) as [[[kind rank] sym]|]; [|discriminate]. cbv zeta.
  destruct (argconv ops o (o_kind bop) (o_value bop)) as [rb|] eqn:Eb; [|apply nofuel_ok].
  destruct (argconv ops o (o_kind aop) (o_value aop)) as [ra|] eqn:Ea; [|apply nofuel_ok].
  apply nofuel_argconv in Eb. apply nofuel_argconv in Ea. nofuel.
Qed.
Lemma nofuel_unaryop : forall o k, nofuel (do_unaryop ops o k).
Proof. intros. unfold do_unaryop. nofuel. Qed.
Lemma nofuel_combine : forall f k a b, nofuel (combine (N := N) f k a b).
Proof. intros. unfold combine. nofuel. Qed.
Hint Resolve nofuel_combine nofuel_binop nofuel_unaryop : nofuel.
Lemma nofuel_isect : forall k, nofuel (do_isect (N := N) k).
Proof. intros. unfold do_isect. nofuel. Qed.
Lemma nofuel_range : forall k, nofuel (do_range (N := N) k).
Proof. intros. unfold do_range. nofuel. Qed.
Lemma nofuel_list : forall k, nofuel (do_list (N := N) k).
Proof. intros. unfold do_list. nofuel. Qed.
Lemma nofuel_func : forall f k, nofuel (do_func (N := N) f k).
Proof. intros. unfold do_func. nofuel. Qed.
Lemma nofuel_from_top : forall {A} (s : list A) k, nofuel (from_top s k).
Proof. intros. unfold from_top. nofuel. Qed.
Hint Resolve nofuel_isect nofuel_range nofuel_list nofuel_func nofuel_from_top : nofuel.
Lemma nofuel_if : forall n k, nofuel (do_if ops n k).
Proof. intros. unfold do_if. nofuel. Qed.
Lemma nofuel_choose : forall n k, nofuel (do_choose ops n k).
Proof. intros. unfold do_choose. nofuel. Qed.
Hint Resolve nofuel_if nofuel_choose : nofuel.
Lemma nofuel_funcvar : forall n f k, nofuel (do_funcvar ops n f k).
Proof. intros. unfold do_funcvar. nofuel. Qed.
Hint Resolve nofuel_funcvar : nofuel.
Lemma nofuel_name_text : forall n, nofuel (name_text (N := N) e n).
Proof. intros. unfold name_text. nofuel. Qed.
Hint Resolve nofuel_name_text : nofuel.
Lemma nofuel_plain : forall d p o sz s, nofuel (eval_plain ops e d p o sz s).
Proof. intros. unfold eval_plain. nofuel. Qed.
Lemma nofuel_ref_operand : forall b r o, nofuel (ref_operand (N := N) e b r o).
Proof. intros. unfold ref_operand. nofuel. Qed.
Hint Resolve nofuel_plain nofuel_ref_operand : nofuel.

Lemma nofuel_use_name : forall rec, (forall l k, nofuel (rec l k)) -> forall t s, nofuel (use_name (N := N) e rec t s).
Proof. intros rec R t s. unfold use_name. nofuel. Qed.
Lemma nofuel_classed : forall rec, (forall l k, nofuel (rec l k)) -> forall n d p o t s,
  nofuel (eval_classed ops e rec n d p o t s).
Proof.
  intros rec R n d p o t s. pose proof (nofuel_use_name rec R) as U. unfold eval_classed.
  nofuel.
Qed.
Lemma nofuel_eval_step : forall rec, (forall l k, nofuel (rec l k)) -> forall n d p s,
  nofuel (eval_step ops e rec n d p s).
Proof. intros rec R n d p s. pose proof (nofuel_classed rec R) as U. unfold eval_step. nofuel. Qed.

(** A step moves forward. *)
Lemma eval_step_forward : forall rec n d p s s' p', eval_step ops e rec n d p s = Ok (s', p') -> p < p'.
Proof using Type.
  intros rec n d p s s' p' H. unfold eval_step in H.
  apply bind_ok in H as ([[o t] sz] & _ & H). apply bind_ok in H as ([] & _ & H).
  apply bind_ok in H as ([s1 sz1] & _ & H). apply bind_ok in H as ([] & G & H).
  unfold guard in G. destruct (sz1 <=? 0) eqn:E; [discriminate G|]. injection H as _ <-. clear - E. lia.
Qed.

Lemma nofuel_eval_loop : forall rec, (forall l k, nofuel (rec l k)) -> forall fuel n d fl p s,
  0 <= p -> fl - p <= Z.of_nat fuel -> nofuel (eval_loop ops e fuel rec n d fl p s).
Proof.
  intros rec R. induction fuel as [|fuel IH]; intros n d fl p s P F; cbn [eval_loop].
  - destruct (0 <=? p) eqn:E1; [|lia]. destruct (p <? fl) eqn:E2; [lia|]. apply nofuel_ok.
  - destruct (negb _); [apply nofuel_ok|]. apply nofuel_bind; [apply nofuel_eval_step; exact R|].
    intros [s' p'] E. apply eval_step_forward in E. apply IH; lia.
Qed.

Theorem evaluate_ends : forall levels names namex, nofuel (evaluate_name_formula ops e levels names namex).
Proof.
  induction levels as [|lv IH]; intros names namex; cbn [evaluate_name_formula].
  - nofuel.
  - apply nofuel_bind; [apply nofuel_index|]. intros n _. nofuel.
    apply nofuel_eval_loop; [exact IH|lia|lia].
Qed.

(** ** The decompiler *)

Variable names : list (list Z * option Z).

Lemma nofuel_item : forall i, nofuel (item_op i).
Proof. intros []; discriminate. Qed.
Hint Resolve nofuel_item : nofuel.
Lemma nofuel_d_binop : forall o k, nofuel (d_binop o k).
Proof. intros. unfold d_binop. nofuel. Qed.
Lemma nofuel_d_unaryop : forall o k, nofuel (d_unaryop o k).
Proof. intros. unfold d_unaryop. nofuel. Qed.
Lemma nofuel_d_refop : forall o k, nofuel (d_refop o k).
Proof. intros. unfold d_refop. nofuel. Qed.
Lemma nofuel_item_text : forall i, nofuel (item_text i).
Proof. intros. unfold item_text. nofuel. Qed.
Hint Resolve nofuel_d_binop nofuel_d_unaryop nofuel_d_refop nofuel_item_text : nofuel.
Lemma nofuel_d_call : forall n a k, nofuel (d_call n a k).
Proof. intros. unfold d_call. nofuel. apply nofuel_mapM. apply nofuel_item_text. Qed.
Hint Resolve nofuel_d_call : nofuel.
Lemma nofuel_d_func : forall f k, nofuel (d_func f k).
Proof. intros. unfold d_func. nofuel. Qed.
Lemma nofuel_d_funcvar : forall n f k, nofuel (d_funcvar n f k).
Proof. intros. unfold d_funcvar. nofuel. Qed.
Lemma nofuel_d_name : forall k, nofuel (d_name e names k).
Proof. intros. unfold d_name. nofuel. Qed.
Lemma nofuel_unexpected : forall k, nofuel (unexpected_opcode k).
Proof. intros. unfold unexpected_opcode. nofuel. Qed.
Hint Resolve nofuel_d_func nofuel_d_funcvar nofuel_d_name nofuel_unexpected : nofuel.
Lemma nofuel_d_plain : forall t d l p o sz k, nofuel (d_plain ops e t d l p o sz k).
Proof. intros. unfold d_plain. nofuel. Qed.
Lemma nofuel_d_cell : forall d p r a b c, nofuel (d_cell e d p r a b c).
Proof. intros. unfold d_cell. nofuel. Qed.
Lemma nofuel_d_area : forall d p r a b c, nofuel (d_area e d p r a b c).
Proof. intros. unfold d_area. nofuel. Qed.
Lemma nofuel_d_ref3d : forall b r x y c, nofuel (d_ref3d e b r x y c).
Proof. intros. unfold d_ref3d. nofuel. Qed.
Hint Resolve nofuel_d_plain nofuel_d_cell nofuel_d_area nofuel_d_ref3d : nofuel.
Lemma nofuel_d_classed : forall r a b c d p o t k l, nofuel (d_classed e names r a b c d p o t k l).
Proof. intros. unfold d_classed. nofuel. Qed.
Hint Resolve nofuel_d_classed : nofuel.
Lemma nofuel_d_step : forall t a b c d l p k x, nofuel (d_step ops e names t a b c d l p k x).
Proof. intros. unfold d_step. nofuel. Qed.

Lemma d_step_forward : forall t a b c d l p k x k' x' p',
  d_step ops e names t a b c d l p k x = Ok (k', x', p') -> p < p'.
Proof using Type.
  intros t a b c d l p k x k' x' p' H. unfold d_step in H.
  apply bind_ok in H as ([[o ot] sz] & _ & H). apply bind_ok in H as ([] & _ & H).
  destruct t as [ft|]; [|discriminate H]. cbv zeta in H.
  apply bind_ok in H as ([] & _ & H). apply bind_ok in H as ([[k1 x1] sz1] & _ & H).
  apply bind_ok in H as ([] & G & H).
  unfold guard in G. destruct (sz1 <=? 0) eqn:E; [discriminate G|]. injection H as _ _ <-. clear - E. lia.
Qed.

Lemma nofuel_d_loop : forall fuel t a b c d fl p k x,
  0 <= p -> fl - p <= Z.of_nat fuel -> nofuel (d_loop ops e names fuel t a b c d fl p k x).
Proof.
  induction fuel as [|fuel IH]; intros t a b c d fl p k x P F; cbn [d_loop].
  - destruct (0 <=? p) eqn:E1; [|lia]. destruct (p <? fl) eqn:E2; [lia|]. apply nofuel_ok.
  - destruct (negb _); [apply nofuel_ok|]. apply nofuel_bind; [apply nofuel_d_step|].
    intros [[k' x'] p'] E. apply d_step_forward in E. apply IH; lia.
Qed.

Theorem decompile_ends : forall fmla fl t a b c, nofuel (decompile_formula ops e names fmla fl t a b c).
Proof. intros. unfold decompile_formula. nofuel. apply nofuel_d_loop; lia. Qed.

End Ends.

(** ** Runs of the decompiler's loop *)

Section DRuns.
Context {N : Type}.
Variable ops : numops N.
Variable e : fenv.
Variable names : list (list Z * option Z).
Variables (t : option Z) (browx bcolx : option Z) (r1c1 : bool).
Variables (data : list Z) (fl : Z).

Inductive d_reach : Z -> list ditem -> option Z -> Z -> list ditem -> option Z -> Prop :=
| d_reach_refl : forall p k x, d_reach p k x p k x
| d_reach_step : forall p k x p1 k1 x1 p2 k2 x2, 0 <= p < fl ->
    d_step ops e names t browx bcolx r1c1 data fl p k x = Ok (k1, x1, p1) ->
    d_reach p1 k1 x1 p2 k2 x2 -> d_reach p k x p2 k2 x2.

Lemma d_reach_one : forall p k x p1 k1 x1, 0 <= p < fl ->
  d_step ops e names t browx bcolx r1c1 data fl p k x = Ok (k1, x1, p1) -> d_reach p k x p1 k1 x1.
Proof. intros. eapply d_reach_step; [assumption|eassumption|constructor]. Qed.

Lemma d_reach_trans : forall p k x p1 k1 x1 p2 k2 x2,
  d_reach p k x p1 k1 x1 -> d_reach p1 k1 x1 p2 k2 x2 -> d_reach p k x p2 k2 x2.
Proof. intros p k x p1 k1 x1 p2 k2 x2 H. induction H; intros; [assumption|]. eapply d_reach_step; eauto. Qed.

Lemma d_loop_reach : forall p k x p1 k1 x1, d_reach p k x p1 k1 x1 -> forall fuel, 0 <= p ->
  fl - p <= Z.of_nat fuel -> exists fuel', 0 <= p1 /\ fl - p1 <= Z.of_nat fuel' /\
  d_loop ops e names fuel t browx bcolx r1c1 data fl p k x = d_loop ops e names fuel' t browx bcolx r1c1 data fl p1 k1 x1.
Proof.
  intros p k x p1 k1 x1 H. induction H as [p k x|p k x p1 k1 x1 p2 k2 x2 R S H IH]; intros fuel P F.
  - exists fuel. auto.
  - destruct fuel as [|fuel]; [lia|]. pose proof S as L. apply d_step_forward in L.
    destruct (IH fuel) as (f' & P' & F' & E); [lia|lia|]. exists f'. split; [exact P'|]. split; [exact F'|].
    cbn [d_loop]. destruct (0 <=? p) eqn:E1; [|lia]. destruct (p <? fl) eqn:E2; [|lia]. cbn [negb andb].
    rewrite S. cbn [bind]. exact E.
Qed.

(** A run to the end, and a run to an error. *)
Lemma d_loop_done : forall p k x p1 k1 x1 fuel, d_reach p k x p1 k1 x1 -> 0 <= p ->
  fl - p <= Z.of_nat fuel -> fl <= p1 -> d_loop ops e names fuel t browx bcolx r1c1 data fl p k x = Ok k1.
Proof.
  intros p k x p1 k1 x1 fuel R P F L. destruct (d_loop_reach _ _ _ _ _ _ R fuel P F) as (f' & P' & F' & ->).
  destruct f'; cbn [d_loop]; destruct (p1 <? fl) eqn:E2; try lia; rewrite andb_false_r; reflexivity.
Qed.
Lemma d_loop_fails : forall p k x p1 k1 x1 fuel err, d_reach p k x p1 k1 x1 -> 0 <= p ->
  fl - p <= Z.of_nat fuel -> p1 < fl -> d_step ops e names t browx bcolx r1c1 data fl p1 k1 x1 = Err err ->
  d_loop ops e names fuel t browx bcolx r1c1 data fl p k x = Err err.
Proof.
  intros p k x p1 k1 x1 fuel err R P F L S. destruct (d_loop_reach _ _ _ _ _ _ R fuel P F) as (f' & P' & F' & ->).
  destruct f' as [|f']; [lia|]; cbn [d_loop]; destruct (0 <=? p1) eqn:E1; try lia; destruct (p1 <? fl) eqn:E2; try lia.
  cbn [negb andb]. rewrite S. reflexivity.
Qed.
End DRuns.

(** ** Runs of the evaluator's loop *)

Section ERuns.
Context {N : Type}.
Variable ops : numops N.
Variable e : fenv.
Variable rec : list (nameobj N) -> Z -> result (list (nameobj N)).
Variable namex : Z.
Variables (data : list Z) (fl : Z).

Inductive e_reach : Z -> est N -> Z -> est N -> Prop :=
| e_reach_refl : forall p s, e_reach p s p s
| e_reach_step : forall p s p1 s1 p2 s2, 0 <= p < fl ->
    eval_step ops e rec namex data p s = Ok (s1, p1) -> e_reach p1 s1 p2 s2 -> e_reach p s p2 s2.

Lemma e_reach_one : forall p s p1 s1, 0 <= p < fl ->
  eval_step ops e rec namex data p s = Ok (s1, p1) -> e_reach p s p1 s1.
Proof. intros. eapply e_reach_step; [assumption|eassumption|constructor]. Qed.

Lemma e_reach_trans : forall p s p1 s1 p2 s2, e_reach p s p1 s1 -> e_reach p1 s1 p2 s2 -> e_reach p s p2 s2.
Proof. intros p s p1 s1 p2 s2 H. induction H; intros; [assumption|]. eapply e_reach_step; eauto. Qed.

Lemma eval_loop_reach : forall p s p1 s1, e_reach p s p1 s1 -> forall fuel, 0 <= p ->
  fl - p <= Z.of_nat fuel -> exists fuel', 0 <= p1 /\ fl - p1 <= Z.of_nat fuel' /\
  eval_loop ops e fuel rec namex data fl p s = eval_loop ops e fuel' rec namex data fl p1 s1.
Proof.
  intros p s p1 s1 H. induction H as [p s|p s p1 s1 p2 s2 R S H IH]; intros fuel P F.
  - exists fuel. auto.
  - destruct fuel as [|fuel]; [lia|]. pose proof S as L. apply eval_step_forward in L.
    destruct (IH fuel) as (f' & P' & F' & E); [lia|lia|]. exists f'. split; [exact P'|]. split; [exact F'|].
    cbn [eval_loop]. destruct (0 <=? p) eqn:E1; [|lia]. destruct (p <? fl) eqn:E2; [|lia]. cbn [negb andb].
    rewrite S. cbn [bind]. exact E.
Qed.

Lemma eval_loop_done : forall p s p1 s1 fuel, e_reach p s p1 s1 -> 0 <= p ->
  fl - p <= Z.of_nat fuel -> fl <= p1 -> eval_loop ops e fuel rec namex data fl p s = Ok s1.
Proof.
  intros p s p1 s1 fuel R P F L. destruct (eval_loop_reach _ _ _ _ R fuel P F) as (f' & P' & F' & ->).
  destruct f'; cbn [eval_loop]; destruct (p1 <? fl) eqn:E2; try lia; rewrite andb_false_r; reflexivity.
Qed.
Lemma eval_loop_fails : forall p s p1 s1 fuel err, e_reach p s p1 s1 -> 0 <= p ->
  fl - p <= Z.of_nat fuel -> p1 < fl -> eval_step ops e rec namex data p1 s1 = Err err ->
  eval_loop ops e fuel rec namex data fl p s = Err err.
Proof.
  intros p s p1 s1 fuel err R P F L S. destruct (eval_loop_reach _ _ _ _ R fuel P F) as (f' & P' & F' & ->).
  destruct f' as [|f']; [lia|]; cbn [eval_loop]; destruct (0 <=? p1) eqn:E1; try lia; destruct (p1 <? fl) eqn:E2; try lia.
  cbn [negb andb]. rewrite S. reflexivity.
Qed.
End ERuns.

(** ** Tokens *)

(** The token that starts with byte [b]. *)
Definition token_of (bv b : Z) : result (Z * Z * Z) :=
  let opcode := Z.land b 0x1f in
  let optype := Z.shiftr (Z.land b 0x60) 5 in
  do tab <- szdict bv;
  do sz <- py_index tab (if negb (optype =? 0) then opcode + 32 else opcode);
  Ok (opcode, optype, sz).

Lemma token_at : forall bv data pos b t, At data pos (b :: t) -> token bv data pos = token_of bv b.
Proof. intros bv data pos b t A. unfold token. rewrite (At_index _ _ _ _ A). reflexivity. Qed.
