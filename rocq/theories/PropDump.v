(** C79, C80: the dump of a stream of records and the count of its records. *)
From Coq Require Import Sorted Permutation.
From Verif Require Import Base BaseFacts Text TextFacts Framing DumpModel.

(** ** Specification: reading a dump back *)

Inductive entry : Type :=
| Rec (rc : Z) (name : list Z) (length : Z)       (* the line of a record *)
| Hex (bs : list Z) (chars : list Z)              (* a line of bytes, in hexadecimal and as characters *)
| Zeros (n : Z)                                   (* zero bytes left out *)
| Note                                            (* the heading of the last bytes *)
| Warning.                                        (* the last record is too large *)

Definition hexval (c : Z) : Z := if c <=? 57 then c - 48 else c - 87.
Definition hex4 (t : list Z) : Z := fold_left (fun v c => 16 * v + hexval c) t 0.
(** Groups of two digits and a space; a group of spaces ends them *)
Fixpoint hexes (t : list Z) : list Z :=
  match t with a :: b :: _ :: r => if a =? 32 then [] else (16 * hexval a + hexval b) :: hexes r | _ => [] end.
(** What comes before the first [c], and after it *)
Fixpoint until (c : Z) (t : list Z) : list Z * list Z :=
  match t with [] => ([], []) | x :: r => if x =? c then ([], r) else let '(a, b) := until c r in (x :: a, b) end.
Fixpoint strip (t : list Z) : list Z := match t with x :: r => if x =? 32 then strip r else t | [] => [] end.
(** A decimal number after spaces *)
Definition number (t : list Z) : Z := match strip t with x :: r => if x =? 45 then - dec_val r else dec_val (x :: r) | [] => 0 end.

Definition body (t : list Z) : entry :=
  match t with
  | 32 :: _ => Hex (hexes (firstn 48 (skipn 5 t))) (skipn 54 t)
  | 45 :: _ => let '(w, r) := until 32 (skipn 5 t) in if list_eqb r (s2l "zero bytes skipped ----") then Zeros (number w) else Note
  | _ => let '(name, r) := until 32 (skipn 5 t) in Rec (hex4 (firstn 4 t)) name (hex4 (firstn 4 (skipn 6 r)))
  end.

(** A line: its offset, if lines are numbered, and what it says *)
Definition read_line (numbered : bool) (t : list Z) : option Z * entry :=
  match t with
  | 76 :: _ => (None, Warning)
  | _ => if numbered then let '(n, r) := until 58 t in (Some (number n), body (skipn 1 r)) else (None, body t)
  end.

(** The bytes that a line stands for *)
Definition entry_bytes (p : entry) : list Z :=
  match p with
  | Rec rc _ n => le_enc 2 rc ++ le_enc 2 n
  | Hex bs _ => bs
  | Zeros n => zrepeat 0 n
  | _ => []
  end.
Definition line_bytes (numbered : bool) (t : list Z) : list Z := entry_bytes (snd (read_line numbered t)).

(** Bytes are shown as the character if it is printable, zero bytes as "~" and others as "?" *)
Definition shown (b c : Z) : Prop := if b =? 0 then c = 126 else if b <? 32 then c = 63 else if b <=? 126 then c = b else c = 63.
Definition fair (p : entry) : Prop :=
  match p with
  | Rec rc name _ => In (rc, name) biff_rec_names \/ (forall t, ~ In (rc, t) biff_rec_names) /\ name = s2l "<UNKNOWN>"
  | Hex bs chars => 1 <= zlen bs <= 16 /\ Forall2 shown bs chars
  | Zeros n => 4 <= n
  | Note => True
  | Warning => False
  end.

(** How far the records go, the first line being at offset [n] *)
Fixpoint reach (numbered : bool) (n : Z) (lines : list (list Z)) : Z :=
  match lines with
  | [] => n
  | l :: r => Z.max (match snd (read_line numbered l) with Rec _ _ k => Z.max n (n + 4 + k) | _ => n end) (reach numbered (n + zlen (line_bytes numbered l)) r)
  end.

(** ** Proofs *)

Lemma until_app : forall c a b, Forall (fun x => x <> c) a -> until c (a ++ c :: b) = (a, b).
Proof.
  intros c a b H. induction H as [|x a Hx Ha IH]; cbn [app until]; [rewrite Z.eqb_refl; reflexivity|].
  destruct (Z.eqb_spec x c); [contradiction|]. rewrite IH. reflexivity.
Qed.

Lemma digits_are : forall n, 0 <= n -> Forall (fun x => 48 <= x <= 57) (digits n).
Proof.
  intros n H. pose proof (digits_digits n H) as D. rewrite forallb_forall in D. apply Forall_forall. intros x Hx. apply D in Hx. unfold digitb in Hx. lia.
Qed.

Lemma strip_spaces : forall k t, strip (zrepeat 32 k ++ t) = strip t.
Proof. intros k t. unfold zrepeat. induction (Z.to_nat k) as [|m IH]; cbn [repeat app strip]; [reflexivity|]. exact IH. Qed.

Lemma number_fmt : forall k n, number (zrepeat 32 k ++ fmt_d n) = n.
Proof.
  intros k n. unfold number. rewrite strip_spaces. unfold fmt_d. destruct (Z.ltb_spec n 0).
  - cbn [strip]. change (45 =? 32) with false. cbv iota. change (45 =? 45) with true. cbv iota.
    rewrite digits_val by lia. lia.
  - pose proof (digits_are n ltac:(lia)) as D. destruct (digits n) as [|x r] eqn:E; [destruct (digits_nonempty n E)|].
    inversion D as [|? ? Hx _]; subst. cbn [strip]. destruct (Z.eqb_spec x 32); [lia|]. destruct (Z.eqb_spec x 45); [lia|].
    rewrite <- E. apply digits_val. lia.
Qed.

Lemma fmt_d_chars : forall n, Forall (fun x => 48 <= x <= 57 \/ x = 45) (fmt_d n).
Proof.
  intros n. assert (forall m, 0 <= m -> Forall (fun x => 48 <= x <= 57 \/ x = 45) (digits m)) as D
    by (intros m Hm; eapply Forall_impl; [|apply (digits_are m Hm)]; cbv beta; lia).
  unfold fmt_d. destruct (Z.ltb_spec n 0); [constructor; [lia|]|]; apply D; lia.
Qed.

Definition prefix_like (t : list Z) : Prop := Forall (fun x => x = 32 \/ 48 <= x <= 57 \/ x = 45) t.
Lemma pad_chars : forall k n, prefix_like (pad_left k (fmt_d n)).
Proof.
  intros k n. unfold prefix_like, pad_left. apply Forall_app. split.
  - unfold zrepeat. apply Forall_forall. intros x Hx. apply repeat_spec in Hx. lia.
  - eapply Forall_impl; [|apply fmt_d_chars]. cbv beta. lia.
Qed.
Lemma pad_nonempty : forall k n t, exists x r, pad_left k (fmt_d n) ++ t = x :: r /\ x <> 76.
Proof.
  intros k n t. pose proof (pad_chars k n) as P. destruct (pad_left k (fmt_d n)) as [|x r] eqn:E.
  - unfold pad_left in E. apply app_eq_nil in E as [_ E]. unfold fmt_d in E. destruct (n <? 0); [discriminate|]. destruct (digits_nonempty n E).
  - exists x, (r ++ t). split; [reflexivity|]. inversion P; subst. lia.
Qed.

(** Reading a line that has its prefix *)
Lemma read_prefixed : forall numbered n t, (forall r, t <> 76 :: r) ->
  read_line numbered (num_prefix numbered n ++ t) = ((if numbered then Some n else None), body t).
Proof.
  intros numbered n t Ht. unfold num_prefix. destruct numbered.
  - change (s2l ": ") with [58; 32]. rewrite <- app_assoc. cbn [app].
    destruct (pad_nonempty 5 n (58 :: 32 :: t)) as (x & r & E & Hx). unfold read_line. rewrite E.
    assert ((let '(n0, r0) := until 58 (x :: r) in (Some (number n0), body (skipn 1 r0))) = (Some n, body t)) as R.
    { rewrite <- E, until_app.
      - unfold pad_left. rewrite number_fmt. reflexivity.
      - eapply Forall_impl; [|apply pad_chars]. cbv beta. lia. }
    rewrite R. destruct x as [|p|p]; try reflexivity. repeat (destruct p as [p|p|]; try reflexivity). contradiction.
  - cbn [app]. unfold read_line. destruct t as [|x t]; [reflexivity|]. destruct x as [|p|p]; try reflexivity.
    repeat (destruct p as [p|p|]; try reflexivity). destruct (Ht t eq_refl).
Qed.

Lemma hexdigit_val : forall n, 0 <= n < 16 -> hexval (hexdigit 97 n) = n /\ 48 <= hexdigit 97 n <= 102 /\ hexdigit 97 n <> 76.
Proof. intros n H. unfold hexval, hexdigit. destruct (Z.ltb_spec n 10); [destruct (Z.leb_spec (48 + n) 57)|destruct (Z.leb_spec (97 + (n - 10)) 57)]; lia. Qed.

Lemma hexes_spaces : forall k, hexes (zrepeat 32 k) = [].
Proof. intros k. unfold zrepeat. destruct (Z.to_nat k) as [|[|[|m]]]; reflexivity. Qed.

Lemma hexes_read : forall bs k, bytes bs -> hexes (flat_map (fun b => fmt_02x b ++ [32]) bs ++ zrepeat 32 k) = bs.
Proof.
  intros bs k H. unfold fmt_02x. cbn [app]. induction H as [|b bs Hb Hbs IH]; [apply hexes_spaces|].
  cbn [flat_map app hexes].
  destruct (hexdigit_val (b / 16) ltac:(lia)) as (E1 & R1 & _). destruct (hexdigit_val (b mod 16) ltac:(lia)) as (E2 & _).
  destruct (Z.eqb_spec (hexdigit 97 (b / 16)) 32); [lia|]. rewrite E1, E2, IH. f_equal. lia.
Qed.

Lemma hexes_len : forall bs, zlen (flat_map (fun b => fmt_02x b ++ [32]) bs) = 3 * zlen bs.
Proof. unfold fmt_02x. cbn [app]. induction bs as [|b bs IH]; [reflexivity|]. cbn [flat_map app]. rewrite !zlen_cons, IH. lia. Qed.

Lemma chars_shown : forall bs, bytes bs -> Forall2 shown bs (map char_of bs).
Proof.
  intros bs H. induction H as [|b bs Hb Hbs IH]; cbn [map]; constructor; [|exact IH]. unfold shown, char_of.
  destruct (Z.eqb_spec b 0); [reflexivity|]. destruct (Z.ltb_spec b 32), (Z.leb_spec 32 b), (Z.leb_spec b 126); cbn [andb]; try lia; reflexivity.
Qed.

Lemma firstn_zlen : forall {A} (a b : list A) n, Z.of_nat n = zlen a -> firstn n (a ++ b) = a.
Proof. intros A a b n H. unfold zlen in H. apply Nat2Z.inj in H. subst. rewrite firstn_app, firstn_all, Nat.sub_diag. cbn. apply app_nil_r. Qed.
Lemma skipn_zlen : forall {A} (a b : list A) n, Z.of_nat n = zlen a -> skipn n (a ++ b) = b.
Proof. intros A a b n H. unfold zlen in H. apply Nat2Z.inj in H. subst. rewrite skipn_app, skipn_all, Nat.sub_diag. reflexivity. Qed.

Lemma hex_line_reads : forall numbered n bs, bytes bs -> zlen bs <= 16 ->
  read_line numbered (hex_line numbered n bs) = ((if numbered then Some n else None), Hex bs (map char_of bs)).
Proof.
  intros numbered n bs H L. unfold hex_line. rewrite read_prefixed by (intros r; discriminate). f_equal.
  set (p := pad_right 48 (flat_map (fun b => fmt_02x b ++ [32]) bs)).
  assert (ZP : zlen p = 48). { unfold p, pad_right. rewrite zlen_app, hexes_len, zlen_zrepeat by lia. lia. }
  change (Hex (hexes (firstn 48 (p ++ 32 :: map char_of bs))) (skipn 49 (p ++ 32 :: map char_of bs)) = Hex bs (map char_of bs)).
  rewrite (firstn_zlen p (32 :: map char_of bs) 48) by (rewrite ZP; reflexivity). f_equal.
  - unfold p, pad_right. apply hexes_read. exact H.
  - replace (p ++ 32 :: map char_of bs) with ((p ++ [32]) ++ map char_of bs) by (rewrite <- app_assoc; reflexivity).
    apply skipn_zlen. rewrite zlen_app, ZP. reflexivity.
Qed.

Lemma hex4_read : forall n, 0 <= n < 65536 -> hex4 (fmt_04x n) = n.
Proof.
  intros n H. unfold hex4, fmt_04x, fmt_04. cbn [fold_left].
  rewrite !(proj1 (hexdigit_val _ ltac:(apply Z.mod_pos_bound; lia))). lia.
Qed.

Lemma zero_line_reads : forall numbered n k, 0 <= k -> read_line numbered (zero_line numbered n k) = ((if numbered then Some n else None), Zeros k).
Proof.
  intros numbered n k Hk. unfold zero_line. rewrite read_prefixed by (intros r; discriminate). f_equal.
  change (s2l " zero bytes skipped ----") with (32 :: s2l "zero bytes skipped ----").
  set (t := s2l "zero bytes skipped ----").
  change ((let '(w, r) := until 32 (fmt_d k ++ 32 :: t) in if list_eqb r (s2l "zero bytes skipped ----") then Zeros (number w) else Note) = Zeros k).
  rewrite until_app by (eapply Forall_impl; [|apply fmt_d_chars]; cbv beta; lia).
  unfold t. destruct (list_eqb _ _) eqn:E; [|vm_compute in E; discriminate E]. f_equal. apply (number_fmt 0 k).
Qed.

Lemma misc_line_reads : forall numbered n, read_line numbered (misc_line numbered n) = ((if numbered then Some n else None), Note).
Proof. intros numbered n. unfold misc_line. rewrite read_prefixed by (intros r; discriminate). reflexivity. Qed.

Lemma large_line_reads : forall numbered n, read_line numbered (large_line n) = (None, Warning).
Proof. reflexivity. Qed.

Definition no_space (t : list Z) : Prop := Forall (fun x => x <> 32) t.
Lemma names_no_space : Forall (fun p => no_space (snd p)) biff_rec_names.
Proof.
  assert (forallb (fun p => forallb (fun x => negb (x =? 32)) (snd p)) biff_rec_names = true) as E by (vm_compute; reflexivity).
  rewrite forallb_forall in E. apply Forall_forall. intros p Hp. apply E in Hp. rewrite forallb_forall in Hp.
  apply Forall_forall. intros x Hx. apply Hp in Hx. lia.
Qed.

Lemma rec_name_in : forall rc t, rec_name rc = Some t -> In (rc, t) biff_rec_names.
Proof.
  intros rc t H. unfold rec_name in H. destruct (find _ _) as [[k v]|] eqn:E; [|discriminate]. cbn [option_map snd] in H. injection H as <-.
  apply find_some in E as [E1 E2]. cbn [fst] in E2. apply Z.eqb_eq in E2. subst. exact E1.
Qed.
Lemma rec_name_none : forall rc t, rec_name rc = None -> ~ In (rc, t) biff_rec_names.
Proof.
  intros rc t H HI. unfold rec_name in H. destruct (find _ _) as [[k v]|] eqn:E; [discriminate|].
  apply (find_none _ _ E) in HI. cbn [fst] in HI. rewrite Z.eqb_refl in HI. discriminate.
Qed.

Lemma body_rec : forall x t, x <> 32 -> x <> 45 ->
  body (x :: t) = let '(name, r) := until 32 (skipn 4 t) in Rec (hex4 (firstn 4 (x :: t))) name (hex4 (firstn 4 (skipn 6 r))).
Proof.
  intros x t H1 H2. destruct x as [|p|p]; try reflexivity. repeat (destruct p as [p|p|]; try reflexivity); contradiction.
Qed.

Lemma rec_line_reads : forall numbered n rc k, 0 <= rc < 65536 -> 0 <= k < 65536 ->
  exists name, read_line numbered (rec_line numbered n rc k) = ((if numbered then Some n else None), Rec rc name k) /\ fair (Rec rc name k).
Proof.
  intros numbered n rc k Hrc Hk. unfold rec_line. set (name := match rec_name rc with Some t => t | None => s2l "<UNKNOWN>" end).
  assert (NS : no_space name /\ fair (Rec rc name k)).
  { unfold name. destruct (rec_name rc) as [t|] eqn:E.
    - apply rec_name_in in E. split; [|left; exact E]. pose proof names_no_space as A. rewrite Forall_forall in A. apply (A _ E).
    - split; [|right; split; [intros t; apply rec_name_none; exact E|reflexivity]]. unfold no_space. vm_compute. repeat constructor; discriminate. }
  destruct NS as [NS F]. exists name. split; [|exact F].
  set (d := hexdigit 97 (rc / 4096 mod 16)).
  assert (D : 48 <= d <= 102 /\ d <> 76) by (destruct (hexdigit_val (rc / 4096 mod 16) ltac:(apply Z.mod_pos_bound; lia)) as (_ & ? & ?); split; assumption).
  rewrite read_prefixed by (intros r E; unfold fmt_04x, fmt_04 in E; cbn [app] in E; injection E as E _; fold d in E; lia). f_equal.
  set (tl := s2l " (" ++ fmt_d k ++ s2l ")").
  change (s2l " len = ") with (32 :: s2l "len = "). change (s2l " ") with [32].
  assert (exists t, fmt_04x rc ++ [32] ++ name ++ (32 :: s2l "len = ") ++ fmt_04x k ++ tl = d :: t /\
    skipn 4 t = name ++ 32 :: (s2l "len = " ++ fmt_04x k ++ tl) /\ firstn 4 (d :: t) = fmt_04x rc) as (t & E & E1 & E2).
  { eexists. split; [unfold fmt_04x at 1, fmt_04 at 1; cbn [app]; fold d; reflexivity|]. split; reflexivity. }
  rewrite E, body_rec by lia. rewrite E1, E2, until_app by exact NS. rewrite hex4_read by exact Hrc. f_equal.
  rewrite (skipn_zlen (s2l "len = ")) by reflexivity. rewrite (firstn_zlen (fmt_04x k)) by reflexivity. apply hex4_read. exact Hk.
Qed.

(** ** Lines that stand for given bytes *)

Inductive covers (numbered : bool) : Z -> list (list Z) -> list Z -> Prop :=
| covers_nil : forall n, covers numbered n [] []
| covers_line : forall n l p rest bs, read_line numbered l = ((if numbered then Some n else None), p) -> fair p ->
    covers numbered (n + zlen (entry_bytes p)) rest bs -> covers numbered n (l :: rest) (entry_bytes p ++ bs).

Lemma covers_app : forall numbered n l1 b1 l2 b2, covers numbered n l1 b1 -> covers numbered (n + zlen b1) l2 b2 -> covers numbered n (l1 ++ l2) (b1 ++ b2).
Proof.
  intros numbered n l1 b1 l2 b2 H. revert l2 b2. induction H as [n|n l p rest bs R F C IH]; intros l2 b2 C2.
  - rewrite zlen_nil, Z.add_0_r in C2. exact C2.
  - cbn [app]. rewrite <- app_assoc. eapply covers_line; [exact R|exact F|]. apply IH. rewrite zlen_app in C2. replace (n + zlen (entry_bytes p) + zlen bs) with (n + (zlen (entry_bytes p) + zlen bs)) by lia. exact C2.
Qed.

Lemma covers_bytes : forall numbered n l b, covers numbered n l b -> flat_map (line_bytes numbered) l = b.
Proof. intros numbered n l b H. induction H as [n|n l p rest bs R F C IH]; [reflexivity|]. cbn [flat_map]. unfold line_bytes at 1. rewrite R, IH. reflexivity. Qed.

Lemma covers_fair : forall numbered n l b, covers numbered n l b -> Forall (fun t => fair (snd (read_line numbered t))) l.
Proof. intros numbered n l b H. induction H as [n|n l p rest bs R F C IH]; constructor; [rewrite R; exact F|exact IH]. Qed.

Lemma covers_offset : forall numbered n l b l1 t l2, covers numbered n l b -> l = l1 ++ t :: l2 ->
  fst (read_line numbered t) = if numbered then Some (n + zlen (flat_map (line_bytes numbered) l1)) else None.
Proof.
  intros numbered n l b l1 t l2 H. revert l1. induction H as [n|n l p rest bs R F C IH]; intros l1 E; [destruct l1; discriminate|].
  destruct l1 as [|a l1]; cbn [app] in E; injection E as -> E.
  - rewrite R. cbn [flat_map fst]. rewrite zlen_nil, Z.add_0_r. reflexivity.
  - rewrite (IH l1 E). cbn [flat_map]. unfold line_bytes at 2. rewrite R. cbn [snd]. rewrite zlen_app, Z.add_assoc. reflexivity.
Qed.

Lemma reach_from : forall numbered l n, n <= reach numbered n l.
Proof. intros numbered l n. destruct l as [|a l]; cbn [reach]; [lia|]. destruct (snd (read_line numbered a)); lia. Qed.

Lemma reach_app : forall numbered l1 l2 n, reach numbered n (l1 ++ l2) = Z.max (reach numbered n l1) (reach numbered (n + zlen (flat_map (line_bytes numbered) l1)) l2).
Proof.
  intros numbered l1 l2. induction l1 as [|a l1 IH]; intros n.
  - cbn [app reach flat_map]. rewrite zlen_nil, Z.add_0_r. pose proof (reach_from numbered l2 n). lia.
  - cbn [app reach flat_map]. rewrite IH, zlen_app, Z.add_assoc. lia.
Qed.

(** ** hex_char_dump *)

Lemma hex_loop_covers : forall fuel strg ofs base endpos numbered p s t, strg = p ++ s ++ t -> bytes s -> endpos = zlen p + zlen s -> zlen s < Z.of_nat fuel ->
  exists lines, hex_loop fuel strg ofs base endpos numbered (zlen p) = Ok lines /\ covers numbered (base + zlen p - ofs) lines s /\
    reach numbered (base + zlen p - ofs) lines = base + endpos - ofs.
Proof.
  induction fuel as [|f IH]; intros strg ofs base endpos numbered p s t E HB HE HF; [pose proof (zlen_nonneg s); lia|].
  cbn [hex_loop]. destruct (Z.ltb_spec (zlen p) endpos) as [L|L].
  - set (k := Z.min 16 (zlen s)). assert (K : 1 <= k <= 16 /\ k <= zlen s) by lia.
    set (a := firstn (Z.to_nat k) s). set (b := skipn (Z.to_nat k) s). assert (S : s = a ++ b) by (symmetry; apply firstn_skipn).
    assert (ZA : zlen a = k) by (unfold a, zlen; rewrite firstn_length; unfold zlen in *; lia).
    assert (ZS : zlen s = k + zlen b) by (rewrite S at 1; rewrite zlen_app, ZA; reflexivity).
    replace (Z.min (zlen p + 16) endpos) with (zlen p + k) by lia.
    assert (py_slice strg (zlen p) (zlen p + k) = a) as ->.
    { rewrite E, S, <- app_assoc. apply py_slice_mid; lia. }
    replace (zlen p + k - zlen p) with k by lia. rewrite ZA, Z.eqb_refl. destruct (Z.leb_spec k 0); [lia|]. cbn [orb negb].
    rewrite S in HB. apply bytes_app in HB as [HA HB].
    destruct (IH strg ofs base endpos numbered (p ++ a) b t) as (lines & EL & C & RE).
    { rewrite E, S, <- !app_assoc. reflexivity. } { exact HB. } { rewrite zlen_app. lia. } { lia. }
    rewrite zlen_app, ZA in EL, C, RE. rewrite EL. cbn [bind]. eexists. split; [reflexivity|].
    pose proof (hex_line_reads numbered (base + zlen p - ofs) a HA ltac:(lia)) as R. split.
    + rewrite S. change a with (entry_bytes (Hex a (map char_of a))) at 2. eapply covers_line; [exact R|split; [lia|apply chars_shown; exact HA]|].
      cbn [entry_bytes]. rewrite ZA. replace (base + zlen p - ofs + k) with (base + (zlen p + k) - ofs) by lia. exact C.
    + cbn [reach]. unfold line_bytes. rewrite R. cbn [snd entry_bytes]. rewrite ZA. replace (base + zlen p - ofs + k) with (base + (zlen p + k) - ofs) by lia. rewrite RE. lia.
  - assert (s = []) as -> by (destruct s; [reflexivity|rewrite zlen_cons in HE; pose proof (zlen_nonneg s); lia]).
    exists []. split; [reflexivity|]. split; [constructor|]. cbn [reach]. rewrite zlen_nil in HE. lia.
Qed.

Lemma hex_covers : forall strg p s t dlen base numbered, strg = p ++ s ++ t -> bytes s -> zlen s = dlen \/ t = [] /\ zlen s <= dlen ->
  exists lines, hex_char_dump strg (zlen p) dlen base numbered = Ok lines /\ covers numbered base lines s /\ reach numbered base lines = base + zlen s.
Proof.
  intros strg p s t dlen base numbered E HB HD. unfold hex_char_dump.
  assert (Z.min (zlen p + dlen) (zlen strg) = zlen p + zlen s) as ->.
  { rewrite E, !zlen_app. pose proof (zlen_nonneg t). destruct HD as [<-|[-> HD]]; [lia|]. rewrite zlen_nil. lia. }
  destruct (hex_loop_covers (S (Z.to_nat (zlen p + zlen s - zlen p))) strg (zlen p) base (zlen p + zlen s) numbered p s t E HB eq_refl) as (lines & EL & C & RE); [pose proof (zlen_nonneg s); lia|].
  exists lines. split; [exact EL|]. replace (base + zlen p - zlen p) with base in * by lia. split; [exact C|]. rewrite RE. lia.
Qed.

(** ** biff_dump *)

Section Loop.
Variables (mem : list Z) (stream_end adj : Z) (numbered : bool).
Hypothesis HB : bytes mem.
Hypothesis HE : stream_end <= zlen mem.

(** What the rest of a dump is, from the position [zlen p], after [dummies] zero bytes *)
Definition finished (p rest : list Z) (dummies : Z) (r : result (list (list Z))) : Prop :=
  exists lines tail a b, r = Ok (lines ++ tail) /\ rest = a ++ b /\ covers numbered (adj + zlen p - dummies) lines (zrepeat 0 dummies ++ a) /\
    (tail = [] /\ zlen p + zlen a = stream_end /\ reach numbered (adj + zlen p - dummies) lines <= adj + stream_end \/
     (exists w, tail = [w] /\ snd (read_line numbered w) = Warning) /\ stream_end <= zlen p + zlen a /\ adj + stream_end < reach numbered (adj + zlen p - dummies) lines).

Lemma zeros_covers : forall dummies savpos, dummies = 0 \/ 4 <= dummies ->
  covers numbered (adj + savpos) (if dummies =? 0 then [] else [zero_line numbered (adj + savpos) dummies]) (zrepeat 0 dummies) /\
  reach numbered (adj + savpos) (if dummies =? 0 then [] else [zero_line numbered (adj + savpos) dummies]) = adj + savpos + dummies.
Proof using.
  intros dummies savpos H. destruct (Z.eqb_spec dummies 0) as [-> |N].
  - split; [constructor|cbn [reach]; lia].
  - pose proof (zero_line_reads numbered (adj + savpos) dummies ltac:(lia)) as R. split.
    + rewrite <- (app_nil_r (zrepeat 0 dummies)). change (zrepeat 0 dummies) with (entry_bytes (Zeros dummies)).
      eapply covers_line; [exact R|cbn [fair]; lia|constructor].
    + cbn [reach]. unfold line_bytes. rewrite R. cbn [snd entry_bytes]. rewrite zlen_zrepeat by lia. lia.
Qed.

Lemma end_finished : forall p rest dummies savpos length, mem = p ++ rest -> zlen p <= stream_end -> dummies = 0 \/ 4 <= dummies -> (dummies <> 0 -> savpos = zlen p - dummies) ->
  finished p rest dummies (dump_end mem stream_end adj numbered (zlen p) dummies savpos length).
Proof.
  intros p rest dummies savpos length E HP HD HS. unfold dump_end.
  set (sv := zlen p - dummies).
  assert ((if dummies =? 0 then [] else [zero_line numbered (adj + savpos) dummies]) = (if dummies =? 0 then [] else [zero_line numbered (adj + sv) dummies])) as ->
    by (destruct (Z.eqb_spec dummies 0) as [_|N]; [reflexivity|rewrite (HS N); reflexivity]).
  destruct (zeros_covers dummies sv HD) as [ZC ZR]. set (zl := if dummies =? 0 then _ else _) in *.
  assert (ZD : 0 <= dummies) by lia.
  destruct (Z.ltb_spec (zlen p) stream_end) as [L|L].
  - set (k := stream_end - zlen p). set (a := firstn (Z.to_nat k) rest). set (b := skipn (Z.to_nat k) rest).
    assert (R : rest = a ++ b) by (symmetry; apply firstn_skipn).
    assert (zlen rest = zlen mem - zlen p) as ZR0 by (rewrite E, zlen_app; lia).
    assert (ZA : zlen a = k) by (unfold a, zlen; rewrite firstn_length; unfold zlen in *; lia).
    assert (BA : bytes a). { rewrite E, R in HB. apply bytes_app in HB as [_ B]. apply bytes_app in B as [B _]. exact B. }
    destruct (hex_covers mem p a b k (adj + zlen p) numbered) as (h & EH & CH & RH); [rewrite E, R; reflexivity|exact BA|left; exact ZA|].
    rewrite EH. cbn [bind]. exists (zl ++ misc_line numbered (adj + zlen p) :: h), [], a, b. split; [rewrite app_nil_r; reflexivity|]. split; [exact R|].
    pose proof (misc_line_reads numbered (adj + zlen p)) as M.
    assert (MC : covers numbered (adj + zlen p) (misc_line numbered (adj + zlen p) :: h) a).
    { change a with (entry_bytes Note ++ a). eapply covers_line; [exact M|exact I|]. cbn [entry_bytes]. rewrite zlen_nil, Z.add_0_r. exact CH. }
    replace (adj + zlen p - dummies) with (adj + sv) by (unfold sv; lia). split.
    + eapply covers_app; [exact ZC|]. rewrite zlen_zrepeat by lia. replace (adj + sv + dummies) with (adj + zlen p) by (unfold sv; lia). exact MC.
    + left. split; [reflexivity|]. split; [lia|]. rewrite reach_app, ZR. rewrite (covers_bytes _ _ _ _ ZC), zlen_zrepeat by lia.
      replace (adj + sv + dummies) with (adj + zlen p) by (unfold sv; lia). cbn [reach]. unfold line_bytes. rewrite M. cbn [snd entry_bytes]. rewrite zlen_nil, Z.add_0_r, RH. lia.
  - assert (stream_end = zlen p) as -> by lia. destruct (Z.gtb_spec (zlen p) (zlen p)); [lia|]. cbn [bind].
    exists zl, [], [], rest. split; [reflexivity|]. split; [reflexivity|]. replace (adj + zlen p - dummies) with (adj + sv) by (unfold sv; lia).
    split; [rewrite app_nil_r; exact ZC|]. left. split; [reflexivity|]. split; [rewrite zlen_nil; lia|]. rewrite ZR. unfold sv. lia.
Qed.

Lemma zrepeat_more : forall k, 0 <= k -> zrepeat 0 (k + 4) = zrepeat 0 k ++ [0; 0; 0; 0].
Proof using. intros k H. unfold zrepeat. replace (Z.to_nat (k + 4)) with (Z.to_nat k + 4)%nat by lia. rewrite repeat_app. reflexivity. Qed.

Lemma finished_zero : forall p rest dummies r, 0 <= dummies -> finished (p ++ [0; 0; 0; 0]) rest (dummies + 4) r -> finished p (0 :: 0 :: 0 :: 0 :: rest) dummies r.
Proof using.
  intros p rest dummies r HD (lines & tail & a & b & E & ER & C & T). exists lines, tail, (0 :: 0 :: 0 :: 0 :: a), b.
  rewrite zlen_app in C, T. change (zlen [0; 0; 0; 0]) with 4 in C, T.
  replace (adj + (zlen p + 4) - (dummies + 4)) with (adj + zlen p - dummies) in C, T by lia.
  split; [exact E|]. split; [rewrite ER; reflexivity|]. split.
  - rewrite zrepeat_more, <- app_assoc in C by exact HD. exact C.
  - rewrite !zlen_cons. destruct T as [(T1 & T2 & T3)|(T1 & T2 & T3)]; [left|right]; (split; [exact T1|]); (split; [lia|exact T3]).
Qed.

Lemma loop_finished : forall fuel p rest dummies savpos length, mem = p ++ rest -> zlen p <= stream_end -> stream_end - zlen p < Z.of_nat fuel ->
  dummies = 0 \/ 4 <= dummies -> (dummies <> 0 -> savpos = zlen p - dummies /\ rest <> zrepeat 0 (stream_end - zlen p)) ->
  finished p rest dummies (dump_loop fuel mem stream_end adj numbered (zlen p) dummies savpos length).
Proof.
  induction fuel as [|f IH]; intros p rest dummies savpos length E HP HF HD HS; [lia|].
  cbn [dump_loop]. destruct (Z.geb_spec (stream_end - zlen p) 4) as [L|L].
  2:{ apply end_finished; try assumption. intros N. apply HS. exact N. }
  assert (ZR0 : zlen rest = zlen mem - zlen p) by (rewrite E, zlen_app; lia).
  destruct rest as [|b0 [|b1 [|b2 [|b3 rest]]]]; rewrite ?zlen_cons, ?zlen_nil in ZR0; try lia.
  assert (HB' : bytes (b0 :: b1 :: b2 :: b3 :: rest)) by (rewrite E in HB; apply bytes_app in HB as [_ B]; exact B).
  pose proof (Forall_inv HB') as B0. pose proof (Forall_inv (Forall_inv_tail HB')) as B1.
  pose proof (Forall_inv (Forall_inv_tail (Forall_inv_tail HB'))) as B2. pose proof (Forall_inv (Forall_inv_tail (Forall_inv_tail (Forall_inv_tail HB')))) as B3.
  pose proof (Forall_inv_tail (Forall_inv_tail (Forall_inv_tail (Forall_inv_tail HB')))) as HBr. cbv beta in B0, B1, B2, B3.
  assert (unpack_u16 mem (zlen p) = Ok (le_val [b0; b1])) as ->.
  { rewrite E. apply (unpack_le_bytes p (b2 :: b3 :: rest) [b0; b1]); reflexivity. }
  assert (unpack_u16 mem (zlen p + 2) = Ok (le_val [b2; b3])) as ->.
  { rewrite E. replace (p ++ b0 :: b1 :: b2 :: b3 :: rest) with ((p ++ [b0; b1]) ++ [b2; b3] ++ rest) by (rewrite <- app_assoc; reflexivity).
    apply unpack_le_bytes; [rewrite zlen_app; reflexivity|reflexivity]. }
  cbn [bind]. set (rc := le_val [b0; b1]). set (n := le_val [b2; b3]).
  assert (RC : rc = b0 + 256 * b1) by (unfold rc; cbn [le_val]; lia). assert (NN : n = b2 + 256 * b3) by (unfold n; cbn [le_val]; lia).
  destruct ((rc =? 0) && (n =? 0)) eqn:Z0.
  - assert (b0 = 0 /\ b1 = 0 /\ b2 = 0 /\ b3 = 0) as (-> & -> & -> & ->) by lia.
    assert (py_from mem (zlen p) = 0 :: 0 :: 0 :: 0 :: rest) as -> by (rewrite E; apply py_from_app; reflexivity).
    destruct (list_eqb (0 :: 0 :: 0 :: 0 :: rest) (zrepeat 0 (stream_end - zlen p))) eqn:A.
    + apply list_eqb_eq in A. destruct HD as [-> |HD]; [|destruct (HS ltac:(lia)) as [_ N]; contradiction].
      unfold dump_end. destruct (Z.ltb_spec stream_end stream_end); [lia|]. destruct (Z.gtb_spec stream_end stream_end); [lia|]. cbn [bind].
      destruct (zeros_covers (stream_end - zlen p) (zlen p) ltac:(lia)) as [ZC ZR].
      eexists. exists [], (0 :: 0 :: 0 :: 0 :: rest), []. split; [reflexivity|]. split; [rewrite app_nil_r; reflexivity|].
      rewrite Z.sub_0_r. split; [rewrite A; exact ZC|]. left. split; [reflexivity|].
      split; [rewrite A, zlen_zrepeat by lia; lia|]. rewrite ZR. lia.
    + assert (NZ : rest <> zrepeat 0 (stream_end - zlen (p ++ [0; 0; 0; 0]))).
      { intros ->. rewrite zlen_app in A. change (zlen [0; 0; 0; 0]) with 4 in A.
        assert (0 :: 0 :: 0 :: 0 :: zrepeat 0 (stream_end - (zlen p + 4)) = zrepeat 0 (stream_end - zlen p)) as Q.
        { unfold zrepeat. replace (Z.to_nat (stream_end - zlen p)) with (4 + Z.to_nat (stream_end - (zlen p + 4)))%nat by lia. reflexivity. }
        rewrite Q in A. rewrite (proj2 (list_eqb_eq _ _) eq_refl) in A. discriminate. }
      assert (Z4 : zlen (p ++ [0; 0; 0; 0]) = zlen p + 4) by (rewrite zlen_app; reflexivity).
      assert (EE : mem = (p ++ [0; 0; 0; 0]) ++ rest) by (rewrite E, <- app_assoc; reflexivity).
      apply finished_zero; [lia|]. destruct (Z.eqb_spec dummies 0) as [-> |N]; rewrite <- Z4.
      * apply IH; [exact EE|lia|lia|right; lia|intros _; split; [lia|exact NZ]].
      * apply IH; [exact EE|lia|lia|right; lia|intros _; split; [destruct (HS N) as [-> _]; lia|exact NZ]].
  - set (sv := zlen p - dummies).
    assert ((if dummies =? 0 then [] else [zero_line numbered (adj + savpos) dummies]) = (if dummies =? 0 then [] else [zero_line numbered (adj + sv) dummies])) as ->
      by (destruct (Z.eqb_spec dummies 0) as [_|N]; [reflexivity|destruct (HS N) as [-> _]; reflexivity]).
    destruct (zeros_covers dummies sv HD) as [ZC ZR]. set (zl := if dummies =? 0 then _ else _) in *. clearbody zl.
    set (hdr := [b0; b1; b2; b3]).
    set (s := firstn (Z.to_nat n) rest). set (t := skipn (Z.to_nat n) rest). assert (ST : rest = s ++ t) by (symmetry; apply firstn_skipn).
    assert (BS : bytes s) by (unfold bytes in *; rewrite ST in HBr; apply Forall_app in HBr as [? _]; assumption).
    assert (E4 : mem = (p ++ hdr) ++ s ++ t) by (rewrite <- ST, E, <- app_assoc; reflexivity).
    assert (Z4 : zlen (p ++ hdr) = zlen p + 4) by (rewrite zlen_app; reflexivity).
    assert (LS : zlen s = n \/ t = [] /\ zlen s <= n).
    { destruct (Z_le_gt_dec n (zlen rest)).
      - left. unfold s, zlen. rewrite firstn_length. unfold zlen in *. lia.
      - right. unfold s, t, zlen. rewrite skipn_all2, firstn_all2 by (unfold zlen in *; lia). split; [reflexivity|unfold zlen in *; lia]. }
    destruct (hex_covers mem (p ++ hdr) s t n (adj + (zlen p + 4)) numbered E4 BS LS) as (h & EH & CH & RH). rewrite Z4 in EH. rewrite EH. cbn [bind].
    destruct (rec_line_reads numbered (adj + zlen p) rc n ltac:(lia) ltac:(lia)) as (nm & RR & FR). set (rl := rec_line numbered (adj + zlen p) rc n) in *.
    assert (HB4 : entry_bytes (Rec rc nm n) = hdr).
    { cbn [entry_bytes]. unfold hdr. cbn [le_enc app]. rewrite RC, NN. repeat f_equal; lia. }
    assert (CR : covers numbered (adj + sv) (zl ++ rl :: h) (zrepeat 0 dummies ++ hdr ++ s)).
    { eapply covers_app; [exact ZC|]. rewrite <- HB4. eapply covers_line; [|exact FR|].
      - rewrite zlen_zrepeat by lia. replace (adj + sv + dummies) with (adj + zlen p) by (unfold sv; lia). exact RR.
      - rewrite HB4, zlen_zrepeat by lia. change (zlen hdr) with 4. replace (adj + sv + dummies + 4) with (adj + (zlen p + 4)) by (unfold sv; lia). exact CH. }
    assert (ZB : zlen (flat_map (line_bytes numbered) (zl ++ rl :: h)) = dummies + 4 + zlen s).
    { rewrite (covers_bytes _ _ _ _ CR), !zlen_app, zlen_zrepeat by lia. change (zlen hdr) with 4. lia. }
    assert (RCH : reach numbered (adj + sv) (zl ++ rl :: h) = adj + zlen p + 4 + n).
    { rewrite reach_app, ZR, (covers_bytes _ _ _ _ ZC), zlen_zrepeat by lia. cbn [reach]. unfold line_bytes. rewrite RR. cbn [snd]. rewrite HB4. change (zlen hdr) with 4.
      replace (adj + sv + dummies + 4) with (adj + (zlen p + 4)) by (unfold sv; lia). rewrite RH. unfold sv. destruct LS as [LS|[_ LS]]; lia. }
    destruct (Z_le_gt_dec (zlen p + 4 + n) stream_end) as [G|G].
    + assert (LN : zlen s = n) by (destruct LS as [LS|[-> LS]]; [exact LS|]; rewrite app_nil_r in ST; rewrite <- ST in *; lia).
      set (p' := p ++ hdr ++ s). assert (ZP' : zlen p' = zlen p + 4 + n) by (unfold p'; rewrite !zlen_app; change (zlen hdr) with 4; lia).
      assert (FIN : finished p' t 0 (dump_loop f mem stream_end adj numbered (zlen p') 0 savpos n)).
      { apply IH; [unfold p'; rewrite E4, <- !app_assoc; reflexivity|lia|lia|left; reflexivity|intros N; contradiction]. }
      rewrite ZP' in FIN. destruct FIN as (lines & tail & a & b & EQ & ER & C & T). rewrite EQ. cbn [bind].
      exists ((zl ++ rl :: h) ++ lines), tail, (hdr ++ s ++ a), b. rewrite ZP', Z.sub_0_r in C, T.
      split; [rewrite <- !app_assoc; reflexivity|]. split; [rewrite <- !app_assoc, <- ER, <- ST; reflexivity|].
      replace (adj + zlen p - dummies) with (adj + sv) by (unfold sv; lia). split.
      * replace (zrepeat 0 dummies ++ hdr ++ s ++ a) with ((zrepeat 0 dummies ++ hdr ++ s) ++ a) by (rewrite <- !app_assoc; reflexivity).
        eapply covers_app; [exact CR|]. rewrite !zlen_app, zlen_zrepeat by lia. change (zlen hdr) with 4. rewrite LN.
        replace (adj + sv + (dummies + (4 + n))) with (adj + (zlen p + 4 + n)) by (unfold sv; lia). exact C.
      * rewrite reach_app, RCH, ZB, LN. replace (adj + sv + (dummies + 4 + n)) with (adj + (zlen p + 4 + n)) by (unfold sv; lia).
        rewrite !zlen_app. change (zlen hdr) with 4.
        destruct T as [(T1 & T2 & T3)|(T1 & T2 & T3)]; [left|right]; (split; [exact T1|]); (split; [lia|lia]).
    + destruct f as [|f]; [lia|]. cbn [dump_loop]. destruct (Z.geb_spec (stream_end - (zlen p + 4 + n)) 4); [lia|].
      unfold dump_end. change (0 =? 0) with true. cbv iota. destruct (Z.ltb_spec (zlen p + 4 + n) stream_end); [lia|].
      destruct (Z.gtb_spec (zlen p + 4 + n) stream_end); [|lia]. cbn [bind app].
      exists (zl ++ rl :: h), [large_line n], (hdr ++ s), t. split; [rewrite <- app_assoc; reflexivity|].
      split; [rewrite <- app_assoc, <- ST; reflexivity|]. replace (adj + zlen p - dummies) with (adj + sv) by (unfold sv; lia).
      split; [exact CR|]. right. split; [exists (large_line n); split; [reflexivity|rewrite large_line_reads; reflexivity]|].
      split; [|rewrite RCH; lia]. rewrite zlen_app. change (zlen hdr) with 4. destruct LS as [LS|[-> LS]]; [lia|].
      rewrite app_nil_r in ST. rewrite <- ST. lia.
Qed.
End Loop.

(** ** C79 *)

(** The dump of a stream inside a file: its lines, read back, give every byte of the stream,
    in order and once.  With numbered lines each has the offset of its first byte.  A warning
    ends the dump if and only if a record goes beyond the end of the stream; only then can
    the bytes that follow the stream be shown too. *)
Theorem c79_dump : forall pre stream post base unnumbered, bytes (pre ++ stream ++ post) ->
  let numbered := negb unnumbered in
  exists lines tail a b, biff_dump (pre ++ stream ++ post) (zlen pre) (zlen stream) base unnumbered = Ok (lines ++ tail) /\
    post = a ++ b /\ flat_map (line_bytes numbered) lines = stream ++ a /\
    Forall (fun t => fair (snd (read_line numbered t))) lines /\
    (forall l1 t l2, lines = l1 ++ t :: l2 ->
       fst (read_line numbered t) = if numbered then Some (base + zlen (flat_map (line_bytes numbered) l1)) else None) /\
    (reach numbered base lines <= base + zlen stream /\ tail = [] /\ a = [] \/
     base + zlen stream < reach numbered base lines /\ exists w, tail = [w] /\ snd (read_line numbered w) = Warning).
Proof.
  intros pre stream post base unnumbered HB numbered. unfold biff_dump. fold numbered.
  pose proof (zlen_nonneg stream) as ZS. pose proof (zlen_nonneg post) as ZP.
  pose proof (loop_finished (pre ++ stream ++ post) (zlen pre + zlen stream) (base - zlen pre) numbered HB ltac:(rewrite !zlen_app; lia)
    (S (Z.to_nat (zlen stream))) pre (stream ++ post) 0 0 0 eq_refl ltac:(lia) ltac:(lia) (or_introl eq_refl) ltac:(intros N; contradiction)) as F.
  destruct F as (lines & tail & a & b & E & EA & C & T).
  replace (base - zlen pre + zlen pre - 0) with base in C, T by lia. cbn [app] in C. change (zrepeat 0 0 ++ a) with a in C.
  assert (LA : zlen stream <= zlen a) by lia.
  assert (exists a', a = stream ++ a' /\ post = a' ++ b) as (a' & -> & EP).
  { exists (skipn (List.length stream) a). assert (firstn (List.length stream) a = stream) as F1.
    { apply (f_equal (firstn (List.length stream))) in EA. rewrite firstn_app, firstn_all, Nat.sub_diag, app_nil_r in EA.
      rewrite firstn_app in EA. replace (List.length stream - List.length a)%nat with 0%nat in EA by (unfold zlen in LA; lia). rewrite app_nil_r in EA. symmetry. exact EA. }
    split; [rewrite <- F1 at 1; symmetry; apply firstn_skipn|].
    apply (app_inv_head stream). rewrite EA, app_assoc. f_equal. rewrite <- F1 at 1. symmetry. apply firstn_skipn. }
  exists lines, tail, a', b. split; [exact E|]. split; [exact EP|]. split; [exact (covers_bytes _ _ _ _ C)|].
  split; [exact (covers_fair _ _ _ _ C)|]. split; [intros l1 t l2 EL; exact (covers_offset _ _ _ _ _ _ _ C EL)|].
  rewrite zlen_app in T. destruct T as [(T1 & T2 & T3)|(T1 & T2 & T3)]; [left|right].
  - split; [lia|]. split; [exact T1|]. destruct a' as [|x a']; [reflexivity|]. rewrite zlen_cons in T2. pose proof (zlen_nonneg a'). lia.
  - split; [lia|exact T1].
Qed.
Print Assumptions c79_dump.

(** A stream of a record, zero bytes and a record that is too long, inside a file *)
Definition ex_stream : list Z := [0x09; 0x08; 3; 0; 65; 0; 200;  0; 0; 0; 0;  0x34; 0x12; 5; 0; 66].
Example c79_example : bytes ([7] ++ ex_stream ++ [1; 2]) /\
  biff_dump ([7] ++ ex_stream ++ [1; 2]) 1 (zlen ex_stream) 0 false = Ok
   [s2l "    0: 0809 BOF len = 0003 (3)";
    s2l "    4:      41 00 c8                                         A~?";
    s2l "    7: ---- 4 zero bytes skipped ----";
    s2l "   11: 1234 <UNKNOWN> len = 0005 (5)";
    s2l "   15:      42 01 02                                         B??";
    s2l "Last dumped record has length (5) that is too large"].
Proof. split; [repeat constructor; lia|vm_compute; reflexivity]. Qed.

(** ** C80 *)

(** The name under which a record is counted *)
Definition counted_as (r : Z * list Z) (name : list Z) : Prop :=
  if (fst r =? 0) && (zlen (snd r) =? 0) then name = s2l "<Dummy (zero)>"
  else In (fst r, name) biff_rec_names \/ (forall t, ~ In (fst r, t) biff_rec_names) /\
       exists a b c d, name = s2l "Unknown_0x" ++ [a; b; c; d] /\
         Forall2 (fun ch v => ch = nth (Z.to_nat v) (s2l "0123456789ABCDEF") 0) [a; b; c; d] [fst r / 4096; fst r / 256 mod 16; fst r / 16 mod 16; fst r mod 16].

(** A text comes before another in the order of code points *)
Inductive before : list Z -> list Z -> Prop :=
| before_nil : forall x t, before [] (x :: t)
| before_head : forall x y a b, x < y -> before (x :: a) (y :: b)
| before_tail : forall x a b, before a b -> before (x :: a) (x :: b).

Lemma tally_counted : forall r, 0 <= fst r < 65536 -> counted_as r (tally_name (fst r) (zlen (snd r))).
Proof.
  intros [rc d] H. cbn [fst snd] in *. unfold counted_as, tally_name. cbn [fst snd]. destruct (_ && _); [reflexivity|].
  destruct (rec_name rc) as [t|] eqn:E; [left; apply rec_name_in; exact E|]. right. split; [intros t; apply rec_name_none; exact E|].
  unfold fmt_04X, fmt_04. do 4 eexists. split; [reflexivity|].
  assert (D : forall n, 0 <= n < 16 -> hexdigit 65 n = nth (Z.to_nat n) (s2l "0123456789ABCDEF") 0).
  { intros n Hn. assert (In n (zrange 0 16)) as I by (apply in_zrange; lia). vm_compute in I.
    repeat (destruct I as [<- | I]; [vm_compute; reflexivity|]). destruct I. }
  repeat constructor; try (apply D; lia). replace (rc / 4096) with (rc / 4096 mod 16) at 2 by lia. apply D. lia.
Qed.

Lemma names_once : NoDup (map fst biff_rec_names).
Proof.
  assert (forall l, (fix nd (l : list Z) : bool := match l with [] => true | x :: r => negb (existsb (Z.eqb x) r) && nd r end) l = true -> NoDup l) as N.
  { induction l as [|x l IH]; intros H; constructor; cbn in H; apply andb_prop in H as [H1 H2]; [|apply IH; exact H2].
    intros I. apply negb_true_iff in H1. assert (existsb (Z.eqb x) l = true) as K; [|rewrite K in H1; discriminate]. apply existsb_exists. exists x. split; [exact I|apply Z.eqb_refl]. }
  apply N. vm_compute. reflexivity.
Qed.

Lemma counted_one : forall r a b, counted_as r a -> counted_as r b -> a = b.
Proof.
  intros r a b. unfold counted_as. destruct (_ && _); [congruence|].
  assert (U : forall (l : list (Z * list Z)) k (x y : list Z), NoDup (map fst l) -> In (k, x) l -> In (k, y) l -> x = y).
  { induction l as [|[k' v] l IH]; intros k x y ND Hx Hy; [destruct Hx|]. cbn [map fst] in ND. inversion ND as [|? ? N1 N2]; subst.
    assert (forall z, In (k', z) l -> False) as F by (intros z Hz; apply N1; apply in_map_iff; exists (k', z); split; [reflexivity|exact Hz]).
    destruct Hx as [Hx|Hx], Hy as [Hy|Hy].
    - congruence.
    - injection Hx as -> ->. destruct (F _ Hy).
    - injection Hy as -> ->. destruct (F _ Hx).
    - eapply IH; eauto. }
  intros [Ha|[Na Ha]] [Hb|[Nb Hb]].
  - eapply U; [apply names_once| |]; eauto.
  - destruct (Nb _ Ha).
  - destruct (Na _ Hb).
  - destruct Ha as (a1 & a2 & a3 & a4 & -> & Fa), Hb as (b1 & b2 & b3 & b4 & -> & Fb).
    assert (forall (l1 l2 l : list Z) (f : Z -> Z), Forall2 (fun c v => c = f v) l1 l -> Forall2 (fun c v => c = f v) l2 l -> l1 = l2) as G.
    { intros l1 l2 l f F1. revert l2. induction F1 as [|c v l1 l Hc F1 IH]; intros l2 F2; inversion F2; subst; [reflexivity|]. f_equal. apply IH. assumption. }
    f_equal. exact (G _ _ _ (fun v => nth (Z.to_nat v) (s2l "0123456789ABCDEF") 0) Fa Fb).
Qed.

Definition name_of (r : Z * list Z) : list Z := tally_name (fst r) (zlen (snd r)).
Definition occurrences (nm : list Z) (rs : list (Z * list Z)) : Z := zlen (filter (fun r => list_eqb (name_of r) nm) rs).

(** The tally is exact *)
Definition exact (t : list (list Z * Z)) (rs : list (Z * list Z)) : Prop :=
  NoDup (map fst t) /\ (forall nm, In nm (map fst t) <-> exists r, In r rs /\ name_of r = nm) /\ Forall (fun p => snd p = occurrences (fst p) rs) t.

Lemma count_one_fst : forall nm t, exists l, map fst (count_one nm t) = map fst t ++ l /\ (l = [] /\ In nm (map fst t) \/ l = [nm] /\ ~ In nm (map fst t)).
Proof.
  intros nm. induction t as [|[n k] t IH].
  - exists [nm]. split; [reflexivity|right; split; [reflexivity|intros []]].
  - cbn [count_one]. destruct (list_eqb n nm) eqn:E.
    + apply list_eqb_eq in E. subst. exists []. split; [rewrite app_nil_r; reflexivity|left; split; [reflexivity|left; reflexivity]].
    + destruct IH as (l & E1 & E2). exists l. cbn [map fst app]. rewrite E1. split; [reflexivity|].
      destruct E2 as [[-> I]|[-> I]]; [left; split; [reflexivity|right; exact I]|right; split; [reflexivity|]].
      intros [->|H]; [rewrite (proj2 (list_eqb_eq _ _) eq_refl) in E; discriminate|contradiction].
Qed.

Lemma count_one_in : forall nm t p, NoDup (map fst t) -> In p (count_one nm t) ->
  (fst p <> nm /\ In p t) \/ (fst p = nm /\ (In (nm, snd p - 1) t \/ ~ In nm (map fst t) /\ snd p = 1)).
Proof.
  intros nm. induction t as [|[n k] t IH]; intros p ND H; cbn [count_one] in H.
  - destruct H as [<- |[]]. right. split; [reflexivity|right; split; [intros []|reflexivity]].
  - cbn [map fst] in ND. inversion ND as [|? ? N1 N2]; subst. destruct (list_eqb n nm) eqn:E.
    + apply list_eqb_eq in E. subst. destruct H as [<- |H].
      * right. split; [reflexivity|left; left; cbn [snd]; f_equal; lia].
      * left. split; [|right; exact H]. intros <-. apply N1. apply in_map. exact H.
    + assert (NE : n <> nm) by (intros ->; rewrite (proj2 (list_eqb_eq _ _) eq_refl) in E; discriminate).
      destruct H as [<- |H]; [left; split; [exact NE|left; reflexivity]|].
      destruct (IH p N2 H) as [[A B]|[A [B|[B C]]]]; [left; split; [exact A|right; exact B]|right; split; [exact A|left; right; exact B]|].
      right. split; [exact A|right]. split; [intros [D|D]; contradiction|exact C].
Qed.

Lemma occurrences_snoc : forall nm rs r, occurrences nm (rs ++ [r]) = occurrences nm rs + (if list_eqb (name_of r) nm then 1 else 0).
Proof. intros nm rs r. unfold occurrences. rewrite filter_app, zlen_app. cbn [filter]. destruct (list_eqb (name_of r) nm); reflexivity. Qed.

Lemma occurrences_none : forall nm rs, ~ (exists r, In r rs /\ name_of r = nm) -> occurrences nm rs = 0.
Proof.
  intros nm rs H. unfold occurrences. induction rs as [|r rs IH]; [reflexivity|]. cbn [filter]. destruct (list_eqb (name_of r) nm) eqn:E.
  - apply list_eqb_eq in E. destruct H. exists r. split; [left; reflexivity|exact E].
  - apply IH. intros (r' & I & E'). apply H. exists r'. split; [right; exact I|exact E'].
Qed.

Lemma exact_step : forall t rs r, exact t rs -> exact (count_one (name_of r) t) (rs ++ [r]).
Proof.
  intros t rs r (ND & IN & CN). destruct (count_one_fst (name_of r) t) as (l & E & C). unfold exact. rewrite E. split; [|split].
  - destruct C as [[-> _]|[-> N]]; [rewrite app_nil_r; exact ND|]. apply NoDup_rev in ND. rewrite <- (rev_involutive (map fst t ++ [name_of r])). apply NoDup_rev.
    rewrite rev_app_distr. cbn [rev app]. constructor; [rewrite <- in_rev; exact N|exact ND].
  - intros nm. rewrite in_app_iff, IN. split.
    + intros [(r' & I & <-)|H]; [exists r'; split; [apply in_or_app; left; exact I|reflexivity]|].
      destruct C as [[-> _]|[-> _]]; [destruct H|]. destruct H as [<- |[]]. exists r. split; [apply in_or_app; right; left; reflexivity|reflexivity].
    + intros (r' & I & <-). apply in_app_or in I as [I|[<- |[]]]; [left; exists r'; auto|].
      destruct C as [[_ I]|[-> _]]; [left; apply IN; exact I|right; left; reflexivity].
  - rewrite Forall_forall in CN. apply Forall_forall. intros p Hp. rewrite occurrences_snoc.
    destruct (count_one_in _ _ _ ND Hp) as [[A B]|[A B]].
    + destruct (list_eqb (name_of r) (fst p)) eqn:Q; [apply list_eqb_eq in Q; congruence|]. rewrite Z.add_0_r. apply CN. exact B.
    + rewrite A, (proj2 (list_eqb_eq _ _) eq_refl). destruct B as [B|[B1 B2]].
      * apply CN in B. cbn [fst snd] in B. lia.
      * rewrite occurrences_none; [lia|]. rewrite <- IN. exact B1.
Qed.

(** Sorting *)
Lemma text_leb_before : forall a b, a <> b -> if text_leb a b then before a b else before b a.
Proof.
  induction a as [|x a IH]; intros [|y b] N; cbn [text_leb].
  - contradiction.
  - constructor.
  - constructor.
  - destruct (Z.ltb_spec x y); cbn [orb]; [constructor; assumption|]. destruct (Z.eqb_spec x y) as [-> |NE]; cbn [andb]; [|constructor; lia].
    assert (a <> b) as NA by (intros ->; contradiction). specialize (IH b NA). destruct (text_leb a b); constructor; exact IH.
Qed.
Lemma before_trans : forall a b c, before a b -> before b c -> before a c.
Proof.
  intros a b c H. revert c. induction H as [x t|x y a b L|x a b H IH]; intros c K; inversion K; subst; try (constructor; lia); apply before_tail, IH; assumption.
Qed.

Definition ordered (l : list (list Z * Z)) : Prop := StronglySorted before (map fst l).
Lemma insert_in : forall x l p, In p (insert_name x l) <-> p = x \/ In p l.
Proof.
  intros x. induction l as [|y l IH]; intros p; cbn [insert_name].
  - cbn [In]. intuition.
  - destruct (text_leb _ _); cbn [In]; [intuition|]. rewrite IH. intuition.
Qed.
Lemma insert_ordered : forall x l, ordered l -> ~ In (fst x) (map fst l) -> ordered (insert_name x l).
Proof.
  intros x l. induction l as [|y l IH]; intros S N; cbn [insert_name].
  - repeat constructor.
  - unfold ordered in *. cbn [map] in S. apply StronglySorted_inv in S as [S1 S2].
    pose proof (text_leb_before (fst x) (fst y) ltac:(intros E; apply N; left; symmetry; exact E)) as B. destruct (text_leb (fst x) (fst y)); cbn [map].
    + constructor; [constructor; assumption|]. constructor; [exact B|]. eapply Forall_impl; [|exact S2]. cbv beta. intros z Hz. eapply before_trans; eauto.
    + constructor; [apply IH; [exact S1|intros I; apply N; right; exact I]|]. apply Forall_forall. intros z Hz. apply in_map_iff in Hz as (p & <- & Hp).
      apply insert_in in Hp as [-> |Hp]; [exact B|]. rewrite Forall_forall in S2. apply S2. apply in_map. exact Hp.
Qed.
Lemma sort_spec : forall l, NoDup (map fst l) -> ordered (sort_names l) /\ forall p, In p (sort_names l) <-> In p l.
Proof.
  induction l as [|x l IH]; intros ND; cbn [sort_names fold_right].
  - split; [constructor|reflexivity].
  - cbn [map] in ND. inversion ND as [|? ? N1 N2]; subst. destruct (IH N2) as [S I]. fold (sort_names l). split.
    + apply insert_ordered; [exact S|]. intros K. apply N1. apply in_map_iff in K as (p & E & Hp). rewrite <- E. apply in_map. apply I. exact Hp.
    + intros p. rewrite insert_in, I. cbn [In]. intuition.
Qed.

Lemma frame_len : forall r, zlen (frame r) = 4 + zlen (snd r).
Proof. intros r. unfold frame. rewrite !zlen_app. change (zlen (le_enc 2 (fst r))) with 2. change (zlen (le_enc 2 (zlen (snd r)))) with 2. lia. Qed.

Lemma count_frames : forall fuel rs p post n t done, Forall framable rs -> bytes (p ++ frames rs ++ zrepeat 0 n ++ post) -> 0 <= n ->
  (post = [] /\ (forall rs', rs <> rs' ++ [(0, [])]) \/ post <> [] /\ n < 4) ->
  zlen (frames rs) + n < Z.of_nat fuel -> exact t done ->
  exists t', count_loop fuel (p ++ frames rs ++ zrepeat 0 n ++ post) (zlen p + (zlen (frames rs) + n)) (zlen p) t = Ok t' /\ exact t' (done ++ rs).
Proof.
  induction fuel as [|f IH]; intros rs p post n t done HF HB Hn HC HL HX; [pose proof (zlen_nonneg (frames rs)); lia|].
  cbn [count_loop]. set (mem := p ++ frames rs ++ zrepeat 0 n ++ post) in *. set (stop := zlen p + (zlen (frames rs) + n)).
  destruct rs as [|r rs].
  - rewrite app_nil_r. change (zlen (frames [])) with 0 in *. exists t. split; [|exact HX].
    destruct (Z.geb_spec (stop - zlen p) 4) as [L|L]; [|reflexivity]. unfold stop in L.
    destruct HC as [[-> _]|[_ HC]]; [|lia].
    assert (MM : mem = p ++ [0; 0; 0; 0] ++ zrepeat 0 (n - 4)).
    { unfold mem. cbn [frames flat_map app]. rewrite app_nil_r. f_equal. unfold zrepeat. replace (Z.to_nat n) with (4 + Z.to_nat (n - 4))%nat by lia. reflexivity. }
    assert (unpack_u16 mem (zlen p) = Ok 0) as ->.
    { rewrite MM. change ([0; 0; 0; 0] ++ zrepeat 0 (n - 4)) with ([0; 0] ++ ([0; 0] ++ zrepeat 0 (n - 4))). apply (unpack_le_bytes p _ [0; 0]); reflexivity. }
    assert (unpack_u16 mem (zlen p + 2) = Ok 0) as ->.
    { rewrite MM. change ([0; 0; 0; 0] ++ zrepeat 0 (n - 4)) with ([0; 0] ++ ([0; 0] ++ zrepeat 0 (n - 4))). rewrite app_assoc.
      apply (unpack_le_bytes (p ++ [0; 0]) _ [0; 0]); [rewrite zlen_app; reflexivity|reflexivity]. }
    cbn [bind]. change ((0 =? 0) && (0 =? 0)) with true. cbn [andb].
    assert (py_from mem (zlen p) = zrepeat 0 (stop - zlen p)) as ->.
    { unfold mem, stop. cbn [frames flat_map app]. rewrite app_nil_r. rewrite py_from_app by reflexivity. f_equal. lia. }
    rewrite (proj2 (list_eqb_eq _ _) eq_refl). reflexivity.
  - inversion HF as [|? ? [Hr1 Hr2] HF']; subst.
    assert (STOP : stop = zlen p + (4 + zlen (snd r) + zlen (frames rs) + n)) by (unfold stop; cbn [frames flat_map]; fold (frames rs); rewrite zlen_app, frame_len; lia).
    clearbody stop. cbn [frames flat_map] in *. fold (frames rs) in *. rewrite zlen_app, frame_len in *.
    pose proof (zlen_nonneg (snd r)) as ZD. pose proof (zlen_nonneg (frames rs)) as ZF.
    destruct (Z.geb_spec (stop - zlen p) 4) as [L|L]; [|lia].
    set (rest := frames rs ++ zrepeat 0 n ++ post) in *.
    assert (MM : mem = p ++ le_enc 2 (fst r) ++ (le_enc 2 (zlen (snd r)) ++ snd r ++ rest)) by (unfold mem, frame, rest; rewrite <- !app_assoc; reflexivity).
    assert (unpack_u16 mem (zlen p) = Ok (fst r)) as ->.
    { rewrite MM. apply unpack_le_enc; [reflexivity|reflexivity|]. change (256 ^ 2) with 65536. lia. }
    assert (unpack_u16 mem (zlen p + 2) = Ok (zlen (snd r))) as ->.
    { rewrite MM, app_assoc. apply unpack_le_enc; [rewrite zlen_app; reflexivity|reflexivity|]. change (256 ^ 2) with 65536. lia. }
    cbn [bind].
    assert (NB : (fst r =? 0) && (zlen (snd r) =? 0) && list_eqb (py_from mem (zlen p)) (zrepeat 0 (stop - zlen p)) = false).
    { destruct ((fst r =? 0) && (zlen (snd r) =? 0)) eqn:Z0; [|reflexivity]. cbn [andb].
      assert (r = (0, [])) as ->.
      { destruct r as [rc d]. cbn [fst snd] in *. assert (rc = 0) as -> by lia. f_equal. destruct d; [reflexivity|]. rewrite zlen_cons in Z0. pose proof (zlen_nonneg d). lia. }
      cbn [fst snd] in *. destruct (list_eqb _ _) eqn:Q; [|reflexivity]. apply list_eqb_eq in Q. exfalso.
      assert (py_from mem (zlen p) = [0; 0; 0; 0] ++ rest) as P0 by (rewrite MM; apply py_from_app; reflexivity).
      rewrite P0 in Q. destruct HC as [[-> HC]|[HC1 HC2]].
      - assert (ZR : Forall (fun x => x = 0) ([0; 0; 0; 0] ++ rest)) by (rewrite Q; unfold zrepeat; apply Forall_forall; intros x Hx; apply repeat_spec in Hx; exact Hx).
        apply Forall_app in ZR as [_ ZR]. unfold rest in ZR. apply Forall_app in ZR as [ZR _].
        assert (AZ : forall l, Forall framable l -> Forall (fun x => x = 0) (frames l) -> Forall (fun r => r = (0, [])) l).
        { induction l as [|q l IHl]; intros FL FZ; constructor; cbn [frames flat_map] in FZ; fold (frames l) in FZ; apply Forall_app in FZ as [FZ1 FZ2]; inversion FL as [|? ? [FL1 FL2] FL3]; subst; [|apply IHl; assumption].
          destruct q as [rc d]. unfold frame in FZ1. cbn [fst snd] in *. apply Forall_app in FZ1 as [Y1 Y2]. apply Forall_app in Y2 as [Y2 Y3].
          assert (K : forall v, 0 <= v < 65536 -> Forall (fun x => x = 0) (le_enc 2 v) -> v = 0).
          { intros v Hv Y. cbn [le_enc] in Y. inversion Y as [|? ? W1 W2]; subst. inversion W2; subst. lia. }
          pose proof (zlen_nonneg d). apply K in Y1; [|lia]. apply K in Y2; [|lia]. subst. f_equal. destruct d; [reflexivity|]. rewrite zlen_cons in Y2. pose proof (zlen_nonneg d). lia. }
        specialize (AZ rs HF' ZR). destruct rs as [|q rs _] using rev_ind.
        + apply (HC []). reflexivity.
        + apply Forall_app in AZ as [_ AZ]. inversion AZ; subst. apply (HC ((0, []) :: rs)). reflexivity.
      - apply (f_equal zlen) in Q. rewrite zlen_app, zlen_zrepeat in Q by lia. change (zlen [0; 0; 0; 0]) with 4 in Q. unfold rest in Q. rewrite STOP in Q.
        rewrite !zlen_app, zlen_zrepeat, zlen_nil in Q by lia. destruct post as [|x post]; [contradiction|]. rewrite zlen_cons in Q. pose proof (zlen_nonneg post). lia. }
    rewrite NB.
    assert (ZP : zlen (p ++ frame r) = zlen p + (zlen (snd r) + 4)) by (rewrite zlen_app, frame_len; lia).
    assert (MM2 : mem = (p ++ frame r) ++ frames rs ++ zrepeat 0 n ++ post) by (unfold mem; rewrite <- !app_assoc; reflexivity).
    destruct (IH rs (p ++ frame r) post n (count_one (name_of r) t) (done ++ [r]) HF') as (t' & E & X).
    { rewrite <- MM2. exact HB. } { exact Hn. }
    { destruct HC as [[-> HC]|HC]; [left; split; [reflexivity|]|right; exact HC]. intros rs' E'. apply (HC (r :: rs')). rewrite E'. reflexivity. }
    { lia. } { apply exact_step. exact HX. }
    exists t'. split; [|rewrite <- app_assoc in X; exact X]. rewrite <- MM2, ZP in E. unfold name_of in E.
    replace (zlen p + (zlen (snd r) + 4) + (zlen (frames rs) + n)) with stop in E by lia. exact E.
Qed.

(** count_records gives one line for each name that a record of the stream has, in the order
    of the names; each has the number of records with that name, in eight columns or more.
    Zero bytes after the last record, to the end of the file, are not counted. *)
Theorem c80_counts : forall pre rs n post, Forall framable rs -> bytes (pre ++ frames rs ++ zrepeat 0 n ++ post) -> 0 <= n ->
  (post = [] /\ (forall rs', rs <> rs' ++ [(0, [])]) \/ post <> [] /\ n < 4) ->
  exists names lines, biff_count_records (pre ++ frames rs ++ zrepeat 0 n ++ post) (zlen pre) (zlen (frames rs) + n) = Ok lines /\
    StronglySorted before names /\ (forall nm, In nm names <-> exists r, In r rs /\ counted_as r nm) /\
    Forall2 (fun nm line => exists same k, (forall r, In r same <-> In r rs /\ counted_as r nm) /\
      (exists others, Permutation rs (same ++ others) /\ Forall (fun r => ~ counted_as r nm) others) /\
      line = zrepeat 32 k ++ fmt_d (zlen same) ++ [32] ++ nm /\ k = Z.max 0 (8 - zlen (fmt_d (zlen same)))) names lines.
Proof.
  intros pre rs n post HF HB Hn HC. unfold biff_count_records.
  destruct (count_frames (S (Z.to_nat (zlen (frames rs) + n))) rs pre post n [] [] HF HB Hn HC) as (t & E & ND & IN & CN).
  { pose proof (zlen_nonneg (frames rs)). lia. }
  { split; [constructor|]. split; [|constructor]. intros nm. split; [intros []|intros (r & [] & _)]. }
  cbn [app] in *. rewrite E. cbn [bind]. destruct (sort_spec t ND) as [S SI].
  assert (CA : forall r nm, In r rs -> (counted_as r nm <-> name_of r = nm)).
  { intros r nm I. rewrite Forall_forall in HF. destruct (HF r I) as [H1 _]. pose proof (tally_counted r H1) as T. split; [intros C; exact (counted_one r _ _ T C)|intros <-; exact T]. }
  exists (map fst (sort_names t)). eexists. split; [reflexivity|]. split; [exact S|]. split.
  - intros nm. rewrite in_map_iff. split.
    + intros (p & <- & Hp). apply SI in Hp. apply (in_map fst) in Hp. apply IN in Hp as (r & I & Q). exists r. split; [exact I|]. apply CA; assumption.
    + intros (r & I & C). apply CA in C; [|exact I]. assert (In nm (map fst t)) as K by (apply IN; exists r; auto). apply in_map_iff in K as (p & Q & Hp). exists p. split; [exact Q|apply SI; exact Hp].
  - assert (A : Forall (fun p => In p t) (sort_names t)) by (apply Forall_forall; intros p Hp; apply SI; exact Hp).
    clear S SI. induction A as [|p l Hp A IH]; cbn [map]; constructor; [|exact IH].
    rewrite Forall_forall in CN. specialize (CN p Hp).
    exists (filter (fun r => list_eqb (name_of r) (fst p)) rs). eexists. split.
    { intros r. rewrite filter_In. split; intros [I Q]; (split; [exact I|]); [apply CA; [exact I|apply list_eqb_eq; exact Q]|apply list_eqb_eq; apply CA; assumption]. }
    split.
    { exists (filter (fun r => negb (list_eqb (name_of r) (fst p))) rs). split.
      - clear. induction rs as [|r rs IH]; [constructor|]. cbn [filter]. destruct (list_eqb (name_of r) (fst p)); cbn [negb app]; [constructor; exact IH|].
        etransitivity; [constructor; exact IH|]. apply Permutation_middle.
      - apply Forall_forall. intros r I. apply filter_In in I as [I Q]. intros C. apply CA in C; [|exact I]. apply negb_true_iff in Q. rewrite C, (proj2 (list_eqb_eq _ _) eq_refl) in Q. discriminate. }
    fold (occurrences (fst p) rs). rewrite <- CN. split; [|reflexivity].
    unfold pad_left. rewrite <- app_assoc. change (s2l " ") with [32]. f_equal. unfold zrepeat. f_equal. lia.
Qed.
Print Assumptions c80_counts.

Example c80_example : let rs := [(0x809, [1; 2]); (0, []); (0x203, [3]); (0x1234, []); (0x203, [])] in
  Forall framable rs /\ bytes ([9] ++ frames rs ++ zrepeat 0 7 ++ []) /\ (forall rs', rs <> rs' ++ [(0, [])]) /\
  biff_count_records ([9] ++ frames rs ++ zrepeat 0 7 ++ []) 1 (zlen (frames rs) + 7) =
    Ok [s2l "       1 <Dummy (zero)>"; s2l "       1 BOF"; s2l "       2 NUMBER"; s2l "       1 Unknown_0x1234"].
Proof.
  split; [repeat constructor; cbn; lia|]. split; [repeat constructor; cbn; lia|]. split; [|vm_compute; reflexivity].
  intros rs' E. apply (f_equal (@rev _)) in E. rewrite rev_app_distr in E. discriminate E.
Qed.
