(** Property theorems C60: when the text of a formula determines it. *)
From Verif Require Import Base BaseFacts Text TextFacts CellNames Utf16 Strings GridModel SheetObjects
  FormulaTables FormulaModel Decompile FormulaFacts PropBytes FormulaExpr PropFormulaText PropFormulaEnd.

(** ** Formulas without the marks that leave no trace *)

Inductive tree : Type :=
| TInt (n : Z) | TText (s : list Z) | TBool (b : bool)
| TUn (o : unary) (a : tree) | TBin (o : binary) (a b : tree)
| TCall (f : Z) (args : list tree).          (* by function number *)

Section Induction.
Variable P : tree -> Prop.
Hypothesis HInt : forall n, P (TInt n).
Hypothesis HText : forall s, P (TText s).
Hypothesis HBool : forall b, P (TBool b).
Hypothesis HUn : forall o a, P a -> P (TUn o a).
Hypothesis HBin : forall o a b, P a -> P b -> P (TBin o a b).
Hypothesis HCall : forall f args, Forall P args -> P (TCall f args).
Fixpoint tree_ind' (t : tree) : P t :=
  let all := fix all (l : list tree) : Forall P l :=
    match l with [] => Forall_nil P | x :: r => Forall_cons x (tree_ind' x) (all r) end in
  match t with
  | TInt n => HInt n | TText s => HText s | TBool b => HBool b
  | TUn o a => HUn o a (tree_ind' a)
  | TBin o a b => HBin o a b (tree_ind' a) (tree_ind' b)
  | TCall f args => HCall f args (all args)
  end.
End Induction.

Definition tlevel (t : tree) : Z :=
  match t with TUn o _ => unary_level o | TBin o _ _ => binary_level o | _ => 8 end.

Fixpoint show (t : tree) : list Z :=
  match t with
  | TInt n => fmt_d n ++ [46; 48]
  | TText s => in_quotes s
  | TBool b => if b then s2l "TRUE" else s2l "FALSE"
  | TUn o a =>
      let s := wrapped (tlevel a <? unary_level o) (show a) in
      match o with Negate => 45 :: s | Affirm => 43 :: s | Percent => s ++ [37] end
  | TBin o a b =>
      wrapped (tlevel a <? binary_level o) (show a) ++ binary_sign o ++ wrapped (tlevel b <? binary_level o) (show b)
  | TCall f args => fname (variadic f) ++ 40 :: commas (map show args) ++ [41]
  end.

Definition upper (c : Z) : bool := (65 <=? c) && (c <=? 90).
Definition identc (c : Z) : bool := upper c || digitb c || (c =? 46) || (c =? 95).
Definition ident (w : list Z) : bool := match w with c :: _ => upper c && forallb identc w | [] => false end.

(** No right operand has the precedence of its operator; integers are not negative
    and functions exist. *)
Fixpoint right_normal (t : tree) : Prop :=
  match t with
  | TInt n => 0 <= n
  | TUn _ a => right_normal a
  | TBin o a b => right_normal a /\ right_normal b /\ tlevel b <> binary_level o
  | TCall f args =>
      variadic f <> None /\ (fix all l := match l with [] => True | x :: r => right_normal x /\ all r end) args
  | _ => True
  end.

(** ** A reader of such texts *)

Fixpoint span (f : Z -> bool) (s : list Z) : list Z * list Z :=
  match s with
  | c :: r => if f c then let '(a, b) := span f r in (c :: a, b) else ([], s)
  | [] => ([], [])
  end.
Fixpoint unquote (s : list Z) : option (list Z * list Z) :=
  match s with
  | [] => None
  | c :: r =>
      if c =? 34 then
        match r with
        | d :: r' => if d =? 34 then match unquote r' with Some (t, u) => Some (34 :: t, u) | None => None end
                     else Some ([], r)
        | [] => Some ([], r)
        end
      else match unquote r with Some (t, u) => Some (c :: t, u) | None => None end
  end.
Definition operator (s : list Z) : option (binary * list Z) :=
  match s with
  | [] => None
  | c :: r =>
      if c =? 43 then Some (Plus, r) else if c =? 45 then Some (Minus, r)
      else if c =? 42 then Some (Times, r) else if c =? 47 then Some (Divide, r)
      else if c =? 94 then Some (Power, r) else if c =? 38 then Some (Concat, r)
      else if c =? 61 then Some (Equal, r)
      else if c =? 60 then
        match r with
        | d :: r' => if d =? 61 then Some (LessEq, r') else if d =? 62 then Some (Unequal, r') else Some (Less, r)
        | [] => Some (Less, r)
        end
      else if c =? 62 then
        match r with d :: r' => if d =? 61 then Some (GreaterEq, r') else Some (Greater, r) | [] => Some (Greater, r) end
      else None
  end.

(** The number of the function of a given name. *)
Definition number_of (w : list Z) : Z :=
  if list_eqb w (s2l "CALL_ADDIN") then 255
  else match find (fun d => list_eqb w (fst (fst (snd d)))) func_defs with Some d => fst d | None => -1 end.

Definition got : Type := option (tree * list Z).

Fixpoint parse (n : nat) (min : Z) (s : list Z) : got :=
  match n with
  | O => None
  | S n =>
      match s with
      | [] => None
      | c :: r =>
          if c =? 45 then match parse n 7 r with Some (a, u) => loop n min (TUn Negate a) u | None => None end
          else if c =? 43 then match parse n 7 r with Some (a, u) => loop n min (TUn Affirm a) u | None => None end
          else if c =? 40 then
            match parse n 1 r with
            | Some (a, d :: u) => if d =? 41 then loop n min a u else None
            | _ => None
            end
          else if c =? 34 then match unquote r with Some (t, u) => loop n min (TText t) u | None => None end
          else if digitb c then
            let '(ds, u) := span digitb s in
            match u with _ :: _ :: v => loop n min (TInt (dec_val ds)) v | _ => None end
          else
            let '(w, u) := span identc s in
            match u with
            | d :: v =>
                if d =? 40 then
                  match v with
                  | g :: z => if g =? 41 then loop n min (TCall (number_of w) []) z
                              else match parse_args n v with Some (l, z) => loop n min (TCall (number_of w) l) z | None => None end
                  | [] => None
                  end
                else loop n min (TBool (list_eqb w (s2l "TRUE"))) u
            | [] => loop n min (TBool (list_eqb w (s2l "TRUE"))) u
            end
      end
  end
with loop (n : nat) (min : Z) (a : tree) (s : list Z) : got :=
  match n with
  | O => None
  | S n =>
      match s with
      | [] => Some (a, s)
      | c :: r =>
          if c =? 37 then if min <=? 6 then loop n min (TUn Percent a) r else Some (a, s)
          else match operator s with
               | Some (o, u) =>
                   if min <=? binary_level o then
                     match parse n (binary_level o + 1) u with
                     | Some (b, v) => loop n min (TBin o a b) v
                     | None => None
                     end
                   else Some (a, s)
               | None => Some (a, s)
               end
      end
  end
with parse_args (n : nat) (s : list Z) : option (list tree * list Z) :=
  match n with
  | O => None
  | S n =>
      match parse n 1 s with
      | Some (a, c :: u) =>
          if c =? 44 then match parse_args n u with Some (l, v) => Some (a :: l, v) | None => None end
          else if c =? 41 then Some ([a], u) else None
      | _ => None
      end
  end.

(** ** The reader recovers the formula *)

Definition ends {A} (f : nat -> option A) (r : A) : Prop := exists N, forall n, (N <= n)%nat -> f n = Some r.

Lemma ends_step : forall {A} (f g : nat -> option A) r, ends g r -> (forall n, g n = Some r -> f (S n) = Some r) -> ends f r.
Proof.
  intros A f g r (N & H) S. exists (Datatypes.S N). intros n L. destruct n as [|n]; [lia|]. apply S, H. lia.
Qed.
Lemma ends_step2 : forall {A B} (f : nat -> option A) (g : nat -> option B) (h : nat -> option A) b r, ends g b -> ends h r ->
  (forall n, g n = Some b -> h n = Some r -> f (S n) = Some r) -> ends f r.
Proof.
  intros A B f g h b r (N & H) (M & K) S. exists (Datatypes.S (N + M)). intros n L. destruct n as [|n]; [lia|]. apply S; [apply H|apply K]; lia.
Qed.

(** Function names are words, and different functions have different ones. *)
Lemma function_names : forallb (fun d => ident (fst (fst (snd d))) && (number_of (fst (fst (snd d))) =? fst d)) func_defs = true.
Proof. vm_compute. reflexivity. Qed.
Lemma dget_in : forall {A} (l : list (Z * A)) k v, dget Z.eqb l k = Some v -> In (k, v) l.
Proof.
  intros A l k v. induction l as [|[k' v'] l IH]; cbn [dget]; [discriminate|]. destruct (k =? k') eqn:E.
  - intros [= ->]. apply Z.eqb_eq in E. subst. left. reflexivity.
  - intros H. right. apply IH. exact H.
Qed.
Lemma variadic_name : forall f, variadic f <> None -> ident (fname (variadic f)) = true /\ number_of (fname (variadic f)) = f.
Proof.
  intros f H. unfold variadic in *. destruct (f =? 255) eqn:E.
  - apply Z.eqb_eq in E. subst. split; reflexivity.
  - unfold function in *. destruct (dget Z.eqb func_defs f) as [[[n lo] hi]|] eqn:D; [|congruence]. apply dget_in in D.
    pose proof function_names as A. rewrite forallb_forall in A. specialize (A _ D). cbn [fst snd] in A.
    apply andb_true_iff in A as [A B]. apply Z.eqb_eq in B. cbn [fname]. auto.
Qed.

(** First characters of operands. *)
Definition starts (s : list Z) : Prop :=
  match s with
  | c :: _ => c = 34 \/ c = 40 \/ c = 43 \/ c = 45 \/ digitb c = true \/ upper c = true
  | [] => False
  end.
(** What may follow a formula that binds with strength [l]. *)
Inductive follow (l : Z) : list Z -> Prop :=
| F_end : follow l []
| F_close : forall t, follow l (41 :: t)
| F_comma : forall t, follow l (44 :: t)
| F_percent : forall t, 6 <= l -> follow l (37 :: t)
| F_op : forall o t, starts t -> binary_level o <= l -> follow l (binary_sign o ++ t).

Lemma follow_weaken : forall l m s, follow l s -> l <= m -> follow m s.
Proof. intros l m s F L. destruct F; constructor; auto; lia. Qed.

Lemma operator_sign : forall o t, starts t -> operator (binary_sign o ++ t) = Some (o, t).
Proof.
  intros o t S. destruct o; try reflexivity; destruct t as [|c t]; try contradiction; cbn [binary_sign app operator s2l];
    unfold starts, digitb, upper in S; change (s2l "<") with [60]; change (s2l ">") with [62]; cbn [app operator Z.eqb Pos.eqb];
    destruct (c =? 61) eqn:E1; try lia; destruct (c =? 62) eqn:E2; try lia; reflexivity.
Qed.

Lemma loop_stops : forall l min a s n, follow l s -> l < min -> loop (S n) min a s = Some (a, s).
Proof.
  intros l min a s n F L. destruct F as [|t|t|t H|o t S H]; cbn [loop]; try reflexivity.
  - cbn [Z.eqb Pos.eqb]. destruct (min <=? 6) eqn:E; [lia|reflexivity].
  - rewrite (operator_sign o t S). destruct (min <=? binary_level o) eqn:E; [lia|]. destruct o; reflexivity.
Qed.
Lemma ends_stops : forall l min a s, follow l s -> l < min -> ends (fun n => loop n min a s) (a, s).
Proof. intros l min a s F L. exists 1%nat. intros [|n] H; [lia|]. eapply loop_stops; eassumption. Qed.

Lemma span_app : forall f w s, forallb f w = true -> match s with c :: _ => f c = false | [] => True end -> span f (w ++ s) = (w, s).
Proof.
  intros f w s. induction w as [|c w IH]; intros H S; cbn [app span].
  - destruct s as [|c s]; [reflexivity|]. cbn [span]. rewrite S. reflexivity.
  - cbn [forallb] in H. apply andb_true_iff in H as [-> H]. rewrite IH by assumption. reflexivity.
Qed.
Lemma unquote_body : forall t s, match s with c :: _ => c <> 34 | [] => True end ->
  unquote (flat_map (fun c => if c =? 34 then [34; 34] else [c]) t ++ 34 :: s) = Some (t, s).
Proof.
  induction t as [|c t IH]; intros s S; cbn [flat_map app].
  - cbn [unquote Z.eqb Pos.eqb]. destruct s as [|d s]; [reflexivity|]. destruct (d =? 34) eqn:E; [lia|reflexivity].
  - destruct (c =? 34) eqn:E; cbn [app unquote]; rewrite ?E; cbn [Z.eqb Pos.eqb]; rewrite IH by exact S; [|reflexivity].
    apply Z.eqb_eq in E. subst. reflexivity.
Qed.

Lemma follow_head : forall l s, follow l s ->
  match s with c :: _ => c <> 34 /\ identc c = false /\ c <> 40 | [] => True end.
Proof. intros l s F. destruct F; try exact I; try (cbn; split; [lia|split; [reflexivity|lia]]). destruct o; cbn; (split; [lia|split; [reflexivity|lia]]). Qed.

Lemma show_starts : forall t x, right_normal t -> starts (show t ++ x).
Proof.
  intros t x. revert x. induction t using tree_ind'; intros x W; cbn [show right_normal] in *.
  - unfold fmt_d. destruct (n <? 0) eqn:E; [lia|]. pose proof (digits_digits n W) as D. pose proof (digits_nonempty n) as D0.
    destruct (digits n) as [|c ds]; [congruence|]. cbn [forallb] in D. apply andb_true_iff in D as [D _]. cbn. auto 10.
  - cbn. auto.
  - destruct b; cbn; auto 10.
  - destruct o; cbn; auto. destruct (_ <? _); cbn [wrapped]; [cbn; auto|]. rewrite <- app_assoc. apply IHt. exact W.
  - destruct (tlevel t1 <? _); cbn [wrapped]; [cbn; auto|]. rewrite <- app_assoc. apply IHt1. apply W.
  - destruct W as [W _]. apply variadic_name in W as [W _]. destruct (fname (variadic f)) as [|c w]; [discriminate|]. cbn in W. apply andb_true_iff in W as [W _]. cbn. auto 10.
Qed.
Lemma wrapped_starts : forall b t x, right_normal t -> starts (wrapped b (show t) ++ x).
Proof. intros [] t x W; [cbn; auto|apply show_starts; exact W]. Qed.

Definition reads (t : tree) : Prop := right_normal t -> forall min rest r, 1 <= min <= tlevel t -> follow (tlevel t) rest ->
  ends (fun n => loop n min t rest) r -> ends (fun n => parse n min (show t ++ rest)) r.

(** An operand, in parentheses or not. *)
Lemma reads_operand : forall t, reads t -> right_normal t -> forall l min rest r, 1 <= min -> 1 <= tlevel t ->
  (l <= tlevel t -> min <= tlevel t /\ follow (tlevel t) rest) ->
  ends (fun n => loop n min t rest) r -> ends (fun n => parse n min (wrapped (tlevel t <? l) (show t) ++ rest)) r.
Proof.
  intros t R W l min rest r M1 TL C E. destruct (tlevel t <? l) eqn:L; cbn [wrapped].
  - cbn [app]. rewrite <- app_assoc. cbn [app].
    eapply (ends_step2 _ (fun n => parse n 1 (show t ++ 41 :: rest)) (fun n => loop n min t rest) (t, 41 :: rest)); [|exact E|].
    + apply (R W); [lia|constructor|]. apply (ends_stops 0); [constructor|lia].
    + intros n G H. cbn [parse Z.eqb Pos.eqb]. rewrite G. cbn [Z.eqb Pos.eqb]. exact H.
  - destruct C as [C1 C2]; [lia|]. apply (R W); [lia|exact C2|exact E].
Qed.

Lemma tlevel_range : forall t, 1 <= tlevel t <= 8.
Proof. intros []; cbn; try lia; destruct o; cbn; lia. Qed.

Lemma reads_args : forall args, Forall reads args -> Forall right_normal args -> args <> [] -> forall rest,
  ends (fun n => parse_args n (commas (map show args) ++ 41 :: rest)) (args, rest).
Proof.
  induction args as [|a args IH]; intros R W NE rest; [congruence|]. inversion_clear R. inversion_clear W.
  pose proof (tlevel_range a) as TL.
  destruct args as [|b args].
  - cbn [map commas].
    assert (ends (fun n => parse n 1 (show a ++ 41 :: rest)) (a, 41 :: rest)) as (N & E)
      by (apply (H H1); [lia|constructor|apply (ends_stops 0); [constructor|lia]]).
    exists (S N). intros [|n] L; [lia|]. cbn [parse_args]. rewrite E by lia. reflexivity.
  - specialize (IH H0 H2 ltac:(discriminate) rest).
    assert (commas (map show (a :: b :: args)) = show a ++ 44 :: commas (map show (b :: args))) as -> by reflexivity.
    rewrite <- app_assoc. cbn [app].
    assert (ends (fun n => parse n 1 (show a ++ 44 :: commas (map show (b :: args)) ++ 41 :: rest))
                 (a, 44 :: commas (map show (b :: args)) ++ 41 :: rest)) as E
      by (apply (H H1); [lia|constructor|apply (ends_stops 0); [constructor|lia]]).
    destruct E as (N & E), IH as (M & IH). exists (S (N + M)). intros [|n] L; [lia|]. cbn [parse_args].
    rewrite E by lia. cbn [Z.eqb Pos.eqb]. rewrite IH by lia. reflexivity.
Qed.

Lemma upper_not : forall c, upper c = true -> (c =? 45) = false /\ (c =? 43) = false /\ (c =? 40) = false /\ (c =? 34) = false /\ digitb c = false.
Proof. intros c H. unfold upper, digitb in *. lia. Qed.

Theorem reads_all : forall t, reads t.
Proof.
  induction t using tree_ind'; intros W min rest r M F E; cbn [show right_normal tlevel] in *.
  - unfold fmt_d. destruct (n <? 0) eqn:E0; [lia|]. rewrite <- app_assoc. cbn [app].
    eapply ends_step; [exact E|]. intros k G.
    pose proof (digits_digits n W) as D. pose proof (digits_nonempty n) as D0. pose proof (digits_val n W) as DV.
    destruct (digits n) as [|c ds]; [congruence|]. cbn [app parse].
    assert (digitb c = true) as DC by (cbn [forallb] in D; apply andb_true_iff in D; apply D).
    assert ((c =? 45) = false /\ (c =? 43) = false /\ (c =? 40) = false /\ (c =? 34) = false) as (-> & -> & -> & ->)
      by (unfold digitb in DC; lia).
    rewrite DC. change (c :: ds ++ 46 :: 48 :: rest) with ((c :: ds) ++ 46 :: 48 :: rest).
    rewrite span_app by (auto; reflexivity). rewrite DV. exact G.
  - eapply ends_step; [exact E|]. intros k G. unfold in_quotes. cbn [app parse Z.eqb Pos.eqb]. rewrite <- app_assoc. cbn [app].
    rewrite unquote_body; [exact G|]. pose proof (follow_head _ _ F). destruct rest; [exact I|]. apply H.
  - eapply ends_step; [exact E|]. intros k G. pose proof (follow_head _ _ F) as FH.
    assert (exists c w, (if b then s2l "TRUE" else s2l "FALSE") = c :: w /\ forallb identc (c :: w) = true /\ upper c = true /\
      list_eqb (c :: w) (s2l "TRUE") = b) as (c & w & -> & I1 & I2 & I3) by (destruct b; eexists _, _; repeat split).
    cbn [app parse]. destruct (upper_not c I2) as (-> & -> & -> & -> & ->).
    change (c :: w ++ rest) with ((c :: w) ++ rest).
    rewrite span_app; [|exact I1|destruct rest; [exact I|apply FH]].
    destruct rest as [|d rest]; [rewrite I3; exact G|]. destruct (d =? 40) eqn:E40; [lia|]. rewrite I3. exact G.
  - pose proof (tlevel_range t) as TL. destruct o; cbn [unary_level] in *.
    + (* Negate *) cbn [app].
      eapply (ends_step2 _ (fun n => parse n 7 (wrapped (tlevel t <? 7) (show t) ++ rest)) _ (t, rest)); [|exact E|].
      * apply reads_operand; auto; try lia.
        -- intros L. split; [lia|]. eapply follow_weaken; [exact F|lia].
        -- apply (ends_stops 6); [|lia]. destruct F; constructor; auto; try lia. destruct o; cbn; lia.
      * intros n G H. cbn [parse Z.eqb Pos.eqb]. rewrite G. exact H.
    + cbn [app].
      eapply (ends_step2 _ (fun n => parse n 7 (wrapped (tlevel t <? 7) (show t) ++ rest)) _ (t, rest)); [|exact E|].
      * apply reads_operand; auto; try lia.
        -- intros L. split; [lia|]. eapply follow_weaken; [exact F|lia].
        -- apply (ends_stops 6); [|lia]. destruct F; constructor; auto; try lia. destruct o; cbn; lia.
      * intros n G H. cbn [parse Z.eqb Pos.eqb]. rewrite G. exact H.
    + (* Percent *) rewrite <- app_assoc. cbn [app]. apply reads_operand; auto; try lia.
      * intros L. split; [lia|]. constructor. lia.
      * eapply ends_step; [exact E|]. intros n G. cbn [loop Z.eqb Pos.eqb]. destruct (min <=? 6) eqn:E6; [exact G|lia].
  - destruct W as (W1 & W2 & W3). pose proof (tlevel_range t1) as TL1. pose proof (tlevel_range t2) as TL2.
    rewrite <- !app_assoc.
    assert (starts (wrapped (tlevel t2 <? binary_level o) (show t2) ++ rest)) as ST by (apply wrapped_starts; exact W2).
    apply reads_operand; auto; try lia.
    + intros L. split; [lia|]. constructor; [exact ST|lia].
    + eapply (ends_step2 _ (fun n => parse n (binary_level o + 1) (wrapped (tlevel t2 <? binary_level o) (show t2) ++ rest)) _ (t2, rest)); [|exact E|].
      * apply reads_operand; auto; try lia.
        -- intros L. split; [lia|]. eapply follow_weaken; [exact F|lia].
        -- eapply ends_stops; [exact F|lia].
      * intros n G H. cbn [loop]. pose proof (operator_sign o _ ST) as OS.
        destruct (binary_sign o ++ wrapped (tlevel t2 <? binary_level o) (show t2) ++ rest) as [|c x] eqn:X; [destruct o; discriminate|].
        destruct (c =? 37) eqn:E37; [apply Z.eqb_eq in E37; subst c; destruct o; discriminate|].
        rewrite OS. destruct (min <=? binary_level o) eqn:EM; [|lia]. rewrite G. exact H.
  - destruct W as (W & WA). rename H into HA.
    assert (Forall right_normal args) as WA' by (clear - WA; induction args as [|a args IH]; constructor; [apply WA|apply IH; apply WA]).
    clear WA. rewrite <- app_assoc. cbn [app]. rewrite <- app_assoc. cbn [app].
    apply variadic_name in W as [W NO]. destruct (fname (variadic f)) as [|c w]; [discriminate|].
    cbn in W. apply andb_true_iff in W as [U I1].
    destruct (upper_not c U) as (U1 & U2 & U3 & U4 & U5).
    assert (forall n, parse (S n) min ((c :: w) ++ 40 :: commas (map show args) ++ 41 :: rest) =
      match commas (map show args) ++ 41 :: rest with
      | g :: z => if g =? 41 then loop n min (TCall f []) z
                  else match parse_args n (commas (map show args) ++ 41 :: rest) with Some (l, z) => loop n min (TCall f l) z | None => None end
      | [] => None
      end) as PE.
    { intros n. cbn [app parse]. rewrite U1, U2, U3, U4, U5.
      change (c :: w ++ 40 :: commas (map show args) ++ 41 :: rest) with ((c :: w) ++ 40 :: commas (map show args) ++ 41 :: rest).
      rewrite span_app by (auto; reflexivity). rewrite NO. reflexivity. }
    destruct args as [|a args].
    + eapply ends_step; [exact E|]. intros n G. rewrite PE. exact G.
    + assert (starts (commas (map show (a :: args)) ++ 41 :: rest)) as ST.
      { inversion_clear WA'. destruct args as [|b args]; [apply show_starts; exact H|].
        assert (commas (map show (a :: b :: args)) = show a ++ 44 :: commas (map show (b :: args))) as -> by reflexivity.
        rewrite <- app_assoc. apply show_starts. exact H. }
      eapply (ends_step2 _ _ _ (a :: args, rest)); [apply (reads_args (a :: args) HA WA' ltac:(discriminate) rest)|exact E|].
      intros n G H. rewrite PE. destruct (commas (map show (a :: args)) ++ 41 :: rest) as [|g z]; [contradiction|].
      destruct (g =? 41) eqn:E41; [apply Z.eqb_eq in E41; subst g; cbn in ST; unfold digitb, upper in ST; lia|].
      rewrite G. exact H.
Qed.

Theorem show_injective : forall t u, right_normal t -> right_normal u -> show t = show u -> t = u.
Proof.
  intros t u T U E.
  assert (forall t, right_normal t -> ends (fun n => parse n 1 (show t)) (t, [])) as R.
  { intros v V. rewrite <- (app_nil_r (show v)). apply (reads_all v V); [pose proof (tlevel_range v); lia|constructor|].
    apply (ends_stops 0); [constructor|lia]. }
  destruct (R t T) as (N & A), (R u U) as (M & B). specialize (A (N + M)%nat ltac:(lia)). specialize (B (N + M)%nat ltac:(lia)).
  rewrite E in A. congruence.
Qed.

(** ** Stored formulas *)

(** The formula without parenthesis and attribute tokens, token classes and string
    layout.  Doubles, error constants, defined names and missing arguments are left
    out: their texts are the user's or overlap with others. *)
Fixpoint core (x : expr) : option tree :=
  let all := fix all l :=
    match l with
    | [] => Some []
    | y :: r => match core y, all r with Some t, Some ts => Some (t :: ts) | _, _ => None end
    end in
  match x with
  | Int n => Some (TInt n)
  | Str u => Some (TText (us_text u))
  | OldStr _ t => Some (TText t)
  | Bool b => Some (TBool b)
  | Un o a => match core a with Some t => Some (TUn o t) | None => None end
  | Bin o a b => match core a, core b with Some t, Some u => Some (TBin o t u) | _, _ => None end
  | Paren a => core a
  | Spaced _ _ a => core a
  | Call _ f args => match all args with Some l => Some (TCall f l) | None => None end
  | CallVar _ _ _ f args => match all args with Some l => Some (TCall f l) | None => None end
  | _ => None
  end.

(** No right operand has the precedence of its operator. *)
Fixpoint no_tie (t : tree) : Prop :=
  match t with
  | TUn _ a => no_tie a
  | TBin o a b => no_tie a /\ no_tie b /\ tlevel b <> binary_level o
  | TCall _ args => (fix all l := match l with [] => True | x :: r => no_tie x /\ all r end) args
  | _ => True
  end.

Section Core.
Context {N : Type}.
Variable ops : numops N.
Variable e : fenv.
Variable names : list (list Z * option Z).
(** Python's str of the float of a small integer. *)
Hypothesis floats : forall n, 0 <= n < 65536 -> int_text ops n = fmt_d n ++ [46; 48].

Definition agrees (x : expr) : Prop := stored e names x -> forall t, core x = Some t ->
  text_of ops e names x = show t /\ level x = tlevel t /\ (no_tie t -> right_normal t).

Lemma agrees_args : forall args, Forall agrees args -> Forall (stored e names) args -> forall ts,
  (fix all l := match l with
    | [] => Some []
    | y :: r => match core y, all r with Some t, Some ts => Some (t :: ts) | _, _ => None end
    end) args = Some ts ->
  map (text_of ops e names) args = map show ts /\
  ((fix all l := match l with [] => True | x :: r => no_tie x /\ all r end) ts ->
   (fix all l := match l with [] => True | x :: r => right_normal x /\ all r end) ts).
Proof using Type.
  induction args as [|a args IH]; intros A S ts H; [injection H as <-; split; [reflexivity|intros _; exact I]|].
  inversion_clear A. inversion_clear S. destruct (core a) as [t|] eqn:C; [|discriminate].
  match type of H with match ?X with Some _ => _ | None => _ end = _ => destruct X as [us|] eqn:R end; [|discriminate]. injection H as <-.
  destruct (IH H1 H3 us eq_refl) as (E & W). destruct (H0 H2 t C) as (E1 & _ & W1).
  cbn [map]. rewrite E, E1. split; [reflexivity|]. intros (V & Vs). exact (conj (W1 V) (W Vs)).
Qed.

Lemma function_variadic : forall f d, function f = Some d -> variadic f = Some d.
Proof using Type.
  intros f d H. unfold variadic. destruct (f =? 255) eqn:E; [|exact H]. apply Z.eqb_eq in E. subst. discriminate.
Qed.

Lemma agrees_all : forall x, agrees x.
Proof.
  induction x using expr_ind'; intros S w0 C; cbn [core] in C; try discriminate.
  - injection C as <-. cbn in S. repeat split; [|cbn; lia]. apply floats. exact S.
  - injection C as <-. repeat split.
  - injection C as <-. repeat split.
  - injection C as <-. repeat split.
  - destruct (core x) as [u|] eqn:D; [|discriminate]. injection C as <-. destruct (IHx S u D) as (E & L & W).
    unfold text_of in *. cbn [written show level tlevel no_tie right_normal]. rewrite E, L. repeat split. exact W.
  - destruct S as (S1 & S2). destruct (core x1) as [u|] eqn:D1; [|discriminate]. destruct (core x2) as [v|] eqn:D2; [|discriminate]. injection C as <-.
    destruct (IHx1 S1 u D1) as (E1 & L1 & W1). destruct (IHx2 S2 v D2) as (E2 & L2 & W2).
    unfold text_of in *. cbn [written show level tlevel no_tie right_normal]. rewrite E1, E2, L1, L2. repeat split; intuition.
  - exact (IHx S w0 C).
  - destruct S as (_ & _ & _ & _ & S). exact (IHx S w0 C).
  - destruct S as (_ & (name & most & F) & S). apply all_stored in S.
    match type of C with match ?X with Some _ => _ | None => _ end = _ => destruct X as [ts|] eqn:R end; [|discriminate]. injection C as <-.
    destruct (agrees_args args H S ts R) as (E & W). pose proof (function_variadic _ _ F) as V.
    unfold text_of at 1. cbn [written show level tlevel no_tie right_normal]. change (map (written (int_text ops) (num_text ops) (names_text e names)) args) with (map (text_of ops e names) args).
    rewrite V, F, E. split; [reflexivity|]. split; [reflexivity|]. intros NT. split; [discriminate|exact (W NT)].
  - destruct S as (_ & _ & _ & _ & (name & least & most & V & _) & S). apply all_stored in S.
    match type of C with match ?X with Some _ => _ | None => _ end = _ => destruct X as [ts|] eqn:R end; [|discriminate]. injection C as <-.
    destruct (agrees_args args H S ts R) as (E & W).
    unfold text_of at 1. cbn [written show level tlevel no_tie right_normal]. change (map (written (int_text ops) (num_text ops) (names_text e names)) args) with (map (text_of ops e names) args).
    rewrite V, E. split; [reflexivity|]. split; [reflexivity|]. intros NT. split; [discriminate|exact (W NT)].
Qed.
End Core.

Definition some_type (ft : Z) : Prop := ft = 1 \/ ft = 2 \/ ft = 4 \/ ft = 8 \/ ft = 16 \/ ft = 32.

(** C60: if no right operand has the precedence of its operator, the decompiled text
    of a formula determines it, up to parenthesis and attribute tokens, token classes
    and string layout. *)
Theorem c60_determines : forall {N} (ops : numops N) e names x y t u ft browx bcolx r1c1 extra ft' browx' bcolx' r1c1' extra',
  (forall n, 0 <= n < 65536 -> n_str ops (n_float ops n) = fmt_d n ++ s2l ".0") ->
  biff (fe_bv e) -> some_type ft -> some_type ft' -> stored e names x -> stored e names y ->
  core x = Some t -> core y = Some u -> no_tie t -> no_tie u ->
  decompile_formula ops e names (codes (fe_bv e) x ++ extra) (zlen (codes (fe_bv e) x)) (Some ft) browx bcolx r1c1
  = decompile_formula ops e names (codes (fe_bv e) y ++ extra') (zlen (codes (fe_bv e) y)) (Some ft') browx' bcolx' r1c1' ->
  t = u.
Proof.
  intros N ops e names x y t u ft browx bcolx r1c1 extra ft' browx' bcolx' r1c1' extra' FL BV FT FT' SX SY CX CY NX NY.
  rewrite !c59_text by assumption. intros E.
  destruct (agrees_all ops e names FL x SX t CX) as (TX & _ & RX). destruct (agrees_all ops e names FL y SY u CY) as (TY & _ & RY).
  apply show_injective; auto. congruence.
Qed.
Print Assumptions c60_determines.

(** C60: a chain of operators of one precedence has the same text whichever way it is
    grouped, although the groupings are different formulas. *)
Theorem c60_ambiguous : forall {N} (ops : numops N) e names o1 o2 a b c ft browx bcolx r1c1 extra,
  biff (fe_bv e) -> some_type ft -> stored e names a -> stored e names b -> stored e names c ->
  binary_level o1 = binary_level o2 ->
  let right_first := Bin o1 a (Paren (Bin o2 b c)) in
  let left_first := Bin o2 (Paren (Bin o1 a b)) c in
  decompile_formula ops e names (codes (fe_bv e) right_first ++ extra) (zlen (codes (fe_bv e) right_first)) (Some ft) browx bcolx r1c1
  = decompile_formula ops e names (codes (fe_bv e) left_first ++ extra) (zlen (codes (fe_bv e) left_first)) (Some ft) browx bcolx r1c1.
Proof.
  intros N ops e names o1 o2 a b c ft browx bcolx r1c1 extra BV FT SA SB SC L right_first left_first.
  subst right_first left_first. rewrite !c59_text; [|assumption|assumption|exact (conj (conj SA SB) SC)|assumption|assumption|exact (conj SA (conj SB SC))].
  do 2 f_equal. unfold text_of. cbn [written level]. rewrite L.
  destruct (binary_level o2 <? binary_level o2) eqn:E; [lia|]. cbn [wrapped]. rewrite <- !app_assoc. reflexivity.
Qed.
Print Assumptions c60_ambiguous.

(** C60: hence the text does not determine the formula in general: 1-(2-3) and (1-2)-3. *)
Theorem c60_unique_text_refuted : exists x y t u,
  stored example_env [] x /\ stored example_env [] y /\ core x = Some t /\ core y = Some u /\ t <> u /\
  forall ft, some_type ft ->
    decompile_formula int_ops example_env [] (codes 80 x) (zlen (codes 80 x)) (Some ft) None None false = Ok (Some (s2l "1.0-2.0-3.0")) /\
    decompile_formula int_ops example_env [] (codes 80 y) (zlen (codes 80 y)) (Some ft) None None false = Ok (Some (s2l "1.0-2.0-3.0")).
Proof.
  exists (Bin Minus (Int 1) (Paren (Bin Minus (Int 2) (Int 3)))), (Bin Minus (Paren (Bin Minus (Int 1) (Int 2))) (Int 3)).
  eexists _, _. split; [cbn; lia|]. split; [cbn; lia|]. split; [reflexivity|]. split; [reflexivity|]. split; [discriminate|].
  intros ft [->|[->|[->|[->|[->| ->]]]]]; vm_compute; split; reflexivity.
Qed.
Print Assumptions c60_unique_text_refuted.

(** C60: an error constant has the same text as the string of its name. *)
Theorem c60_error_text_refuted : forall {N} (ops : numops N) e names c u ft browx bcolx r1c1 extra,
  biff (fe_bv e) -> some_type ft -> stored e names (ErrorCode c) -> stored e names (Str u) -> us_text u = error_name c ->
  decompile_formula ops e names (codes (fe_bv e) (ErrorCode c) ++ extra) 2 (Some ft) browx bcolx r1c1
  = decompile_formula ops e names (codes (fe_bv e) (Str u) ++ extra) (zlen (codes (fe_bv e) (Str u))) (Some ft) browx bcolx r1c1.
Proof.
  intros N ops e names c u ft browx bcolx r1c1 extra BV FT SE SU T.
  change 2 with (zlen (codes (fe_bv e) (ErrorCode c))). rewrite !c59_text by assumption.
  do 2 f_equal. unfold text_of. cbn [written]. rewrite T. unfold in_quotes.
  cbn in SE. destruct SE as [->|[->|[->|[->|[->|[->| ->]]]]]]; reflexivity.
Qed.
Print Assumptions c60_error_text_refuted.

(** Cases that meet the hypotheses. *)
Definition tie_free : expr := Bin Minus (Paren (Bin Minus (Int 1) (Bin Times (Int 2) (Paren (Bin Plus (Int 3) (Int 4))))))
  (CallVar Value false false 4 [Bool true; Un Percent (Un Negate (Int 5))]).
Example c60_example : exists t, core tie_free = Some t /\ no_tie t /\ stored example_env [] tie_free /\
  show t = s2l "1.0-2.0*(3.0+4.0)-SUM(TRUE,-5.0%)" /\
  forall n, 0 <= n < 65536 -> n_str int_ops (n_float int_ops n) = fmt_d n ++ s2l ".0".
Proof.
  eexists. split; [reflexivity|]. split; [cbn; repeat split; lia|]. split.
  - unfold stored. cbn. repeat split; try lia. exists (s2l "SUM"), 0, 30. split; [reflexivity|lia].
  - split; [vm_compute; reflexivity|]. reflexivity.
Qed.
Definition div_text : ustring := {| us_text := s2l "#DIV/0!"; us_wide := false; us_opts := 0; us_runs := None; us_phon := None |}.
Example c60_error_example : us_text div_text = error_name 7 /\ stored example_env [] (ErrorCode 7) /\
  stored example_env [] (Str div_text).
Proof. split; [reflexivity|]. split; [cbn; auto|]. unfold stored. cbn [storable]. split; [reflexivity|]. split; [|vm_compute; reflexivity].
  unfold us_ok. cbn. repeat split; repeat constructor; try lia. Qed.
