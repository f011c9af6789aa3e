(** The content of a BIFF2 to BIFF4 worksheet, its records, and what reading them does:
    specification and lemmas for the theorems of PropOldSheet.v. *)
From Verif Require Import Base BaseFacts Text Strings Framing GridModel GridFacts PropGrid SheetObjects SheetModel SheetFacts
  SheetSteps PropSheet FormatModel FormatFacts FormulaModel BookModel BookApi PropFormat OldSheet OldXf.

(** ** Specification: the content of a worksheet and its records *)

(** How a cell names its format: by the three attribute bytes of BIFF2, or by the index of
    an XF record (BIFF3 and BIFF4). *)
Inductive fref : Type := Attr (a0 a1 a2 : Z) | Xf (x : Z).

(** What a cell holds. *)
Inductive kind : Type :=
| KNumber (d8 : list Z) | KInteger (n : Z) | KRk (b : list Z) | KText (raw : list Z)
| KBool (v : Z) | KError (v : Z) | KBlank | KNoText.

Record ocell : Type := mk_ocell { oc_row : Z; oc_col : Z; oc_ref : fref; oc_kind : kind }.

Inductive oitem : Type :=
| OCell (c : ocell)
| OFormula (rc : Z) (c : ocell) (u : Z * Z * Z * Z) (rest : list Z) (between : list (Z * list Z)) (code n : Z)
| OIxfe (x : Z)
| OSetting (rc : Z) (d : list Z)               (* formats, XFs, styles, code page, dimensions *)
| OUse (rc : Z) (d : list Z)                   (* rows and columns of BIFF2 with a format of their own *)
| OEmbedded (rc : Z) (bof : list Z) (body : list (Z * list Z))
| ONoise (rc : Z) (d : list Z).                (* any other record *)

Definition ref_bytes (f : fref) : list Z := match f with Attr a0 a1 a2 => [a0; a1; a2] | Xf x => le_enc 2 x end.
Definition place (c : ocell) : list Z := le_enc 2 (oc_row c) ++ le_enc 2 (oc_col c) ++ ref_bytes (oc_ref c).
(** The width of the length field of a text. *)
Definition width (f : fref) : nat := match f with Attr _ _ _ => 1 | Xf _ => 2 end.

(** The record of a cell that is not a formula. *)
Definition cell_code (f : fref) (v : kind) : Z :=
  match f, v with
  | Attr _ _ _, KNumber _ => XL_NUMBER_B2 | Xf _, KNumber _ => XL_NUMBER
  | _, KInteger _ => XL_INTEGER
  | _, KRk _ => XL_RK
  | Attr _ _ _, KText _ => XL_LABEL_B2 | Xf _, KText _ => XL_LABEL
  | Attr _ _ _, (KBool _ | KError _) => XL_BOOLERR_B2 | Xf _, (KBool _ | KError _) => XL_BOOLERR
  | Attr _ _ _, _ => XL_BLANK_B2 | Xf _, _ => XL_BLANK
  end.
Definition cell_bytes (f : fref) (v : kind) : list Z :=
  match v with
  | KNumber d8 => d8
  | KInteger n => le_enc 2 n
  | KRk b => b
  | KText raw => le_enc (width f) (zlen raw) ++ raw
  | KBool v => [v; 0]
  | KError v => [v; 1]
  | KBlank | KNoText => []
  end.

(** The result of a formula. *)
Definition result_bytes (u : Z * Z * Z * Z) (v : kind) : list Z :=
  let '(u1, u3, u4, u5) := u in
  match v with
  | KNumber d8 => d8
  | KBool v => marked 1 v u1 u3 u4 u5
  | KError v => marked 2 v u1 u3 u4 u5
  | KText _ => marked 0 0 u1 u3 u4 u5
  | _ => marked 3 0 u1 u3 u4 u5
  end.

Definition oenc (it : oitem) : list (Z * list Z) :=
  match it with
  | OCell c => [(cell_code (oc_ref c) (oc_kind c), place c ++ cell_bytes (oc_ref c) (oc_kind c))]
  | OFormula rc c u rest between code n =>
      (rc, place c ++ result_bytes u (oc_kind c) ++ rest) ::
      match oc_kind c with
      | KText raw => between ++ [(code, le_enc (width (oc_ref c)) n ++ raw)]
      | _ => []
      end
  | OIxfe x => [(XL_IXFE, le_enc 2 x)]
  | OEmbedded rc bof body => (rc, bof) :: body ++ [(XL_EOF, [])]
  | OSetting rc d | OUse rc d | ONoise rc d => [(rc, d)]
  end.

Definition is_xf_code (rc : Z) : bool := (rc =? XL_XF2) || (rc =? XL_XF3) || (rc =? XL_XF4).
Definition is_format_code (rc : Z) : bool := (rc =? XL_FORMAT) || (rc =? XL_FORMAT2).
Definition setting_code (rc : Z) : bool :=
  is_xf_code rc || is_format_code rc || (rc =? XL_STYLE) || (rc =? XL_CODEPAGE) || (rc =? XL_DIMENSION) || (rc =? XL_DIMENSION2).
Definition use_code (rc : Z) : bool := (rc =? XL_ROW_B2) || (rc =? XL_COLUMNDEFAULT).
Definition attr_code (rc : Z) : bool :=
  (rc =? XL_NUMBER_B2) || (rc =? XL_INTEGER) || (rc =? XL_LABEL_B2) || (rc =? XL_BOOLERR_B2) || (rc =? XL_BLANK_B2).
Definition onoise_code (rc : Z) : bool :=
  noise_code rc && negb (attr_code rc || setting_code rc || use_code rc || (rc =? XL_IXFE) || (rc =? XL_CONTINUE)).

Definition ref_ok (bv : Z) (f : fref) : Prop :=
  match f with Attr a0 a1 a2 => bv < 30 /\ byte a0 /\ byte a1 /\ byte a2 | Xf x => 30 <= bv /\ u16v x end.
Definition place_ok (bv : Z) (c : ocell) : Prop := 0 <= oc_row c < 16384 /\ 0 <= oc_col c < 256 /\ ref_ok bv (oc_ref c).

Definition oitem_ok (bv : Z) (it : oitem) : Prop :=
  match it with
  | OCell c => place_ok bv c /\
      match oc_kind c with
      | KNumber d8 => zlen d8 = 8
      | KInteger n => bv < 30 /\ u16v n
      | KRk b => 30 <= bv /\ zlen b = 4
      | KText raw => zlen raw < 256 ^ Z.of_nat (width (oc_ref c))
      | KBool v | KError v => byte v
      | KBlank => True
      | KNoText => False
      end
  | OFormula rc c u rest between code n =>
      is_formula_code rc = true /\ place_ok bv c /\ (match oc_ref c with Attr _ _ _ => 1 | Xf _ => 2 end) <= zlen rest /\
      match oc_kind c with
      | KNumber d8 => zlen d8 = 8 /\ py_slice d8 6 8 <> [255; 255]
      | KBool v | KError v => True
      | KNoText => True
      | KText raw => Forall between_ok between /\ zlen between <= 1 /\ (code = XL_STRING \/ code = XL_STRING_B2) /\
          0 <= n < 256 ^ Z.of_nat (width (oc_ref c))
      | _ => False
      end
  | OIxfe x => u16v x
  | OSetting rc d => setting_code rc = true /\ (bv = 20 -> is_xf_code rc = false)
  | OUse rc d => use_code rc = true /\ bv < 30
  | OEmbedded rc bof body => is_bof_code rc = true /\ 4 <= zlen bof /\ Forall (fun r => fst r <> XL_EOF) body
  | ONoise rc d => onoise_code rc = true
  end.

Definition is_setting (it : oitem) : bool := match it with OSetting _ _ => true | _ => false end.
Definition is_xf (it : oitem) : bool := match it with OSetting rc _ => is_xf_code rc | _ => false end.
Definition is_format (it : oitem) : bool := match it with OSetting rc _ => is_format_code rc | _ => false end.
(** Settings stand before cells, and formats before the XFs that use them. *)
Fixpoint settings_first (items : list oitem) : Prop :=
  match items with
  | [] => True
  | it :: l =>
      match it with OCell _ | OFormula _ _ _ _ _ _ _ | OUse _ _ => existsb is_setting l = false | _ => settings_first l end
  end.
Fixpoint formats_first (items : list oitem) : Prop :=
  match items with
  | [] => True
  | it :: l => (is_xf it = true -> existsb is_format l = false) /\ formats_first l
  end.

(** The cells of the content, each with the IXFE record last met; blank cells only count
    with formatting_info. *)
Definition kept (fmt : bool) (c : ocell) : bool := match oc_kind c with KBlank => fmt | _ => true end.
Fixpoint written (fmt : bool) (ixfe : option Z) (items : list oitem) : list (option Z * ocell) :=
  match items with
  | [] => []
  | OIxfe x :: l => written fmt (Some x) l
  | OCell c :: l => (if kept fmt c then [(ixfe, c)] else []) ++ written fmt ixfe l
  | OFormula _ c _ _ _ _ _ :: l => (ixfe, c) :: written fmt ixfe l
  | _ :: l => written fmt ixfe l
  end.

Section Means.
Context {N : Type}.
Variable codec : list Z -> list Z -> result (list Z).
Variable num8 : list Z -> N.
Variable rk : list Z -> result N.
Variable of_int : Z -> N.
Notation ost := (@ost N).
Notation store := (@store (value N)).

(** The XF of a cell. *)
Definition xf_of (bv : Z) (real : bool) (s : ost) (ixfe : option Z) (f : fref) (i : Z) : Prop :=
  match f with
  | Xf x => i = x
  | Attr a0 a1 a2 =>
      if (bv =? 21) && real then if a0 mod 64 =? 63 then ixfe = Some i else i = a0 mod 64
      else dget list_eqb (os_attrs s) [a0; a1; a2] = Some i
  end.

Definition holds (bv : Z) (real : bool) (s : ost) (w : option Z * ocell) (st : store) : Prop :=
  s_row st = oc_row (snd w) /\ s_col st = oc_col (snd w) /\
  (b_fmt (os_fmt s) = true -> fits_h (s_xf st) = true) /\
  xf_of bv real s (fst w) (oc_ref (snd w)) (s_xf st) /\
  let number x := s_val st = VNum x /\ dget Z.eqb (b_xftype (os_fmt s)) (s_xf st) = Some (s_type st) /\
    (bv < 30 -> 0 <= s_xf st < zlen (b_xfs (os_fmt s))) in
  match oc_kind (snd w) with
  | KNumber d8 => number (num8 d8)
  | KInteger n => number (of_int n)
  | KRk b => exists x, rk b = Ok x /\ number x
  | KText raw => exists t, unicode codec (en_encoding (bk_enc (os_book s))) raw = Ok t /\ s_val st = VText t /\ s_type st = XL_CELL_TEXT /\
      truthy (en_encoding (bk_enc (os_book s))) = true
  | KBool v => s_val st = VInt v /\ s_type st = XL_CELL_BOOLEAN
  | KError v => s_val st = VInt v /\ s_type st = XL_CELL_ERROR
  | KBlank => s_val st = vempty /\ s_type st = XL_CELL_BLANK
  | KNoText => s_val st = VText [] /\ s_type st = XL_CELL_TEXT
  end.

Lemma holds_ext : forall bv real s s' w st, ext bv s s' -> holds bv real s w st -> holds bv real s' w st.
Proof.
  intros bv real s s' [ix c] st [[E1 E2 E3 E4 E5] EA] (H1 & H2 & H3 & H4 & H5). cbn [fst snd] in *.
  assert (ZL : zlen (b_xfs (os_fmt s)) <= zlen (b_xfs (os_fmt s'))) by (apply znth_le; exact E4).
  assert (NUM : forall x, s_val st = VNum x /\ dget Z.eqb (b_xftype (os_fmt s)) (s_xf st) = Some (s_type st) /\
    (bv < 30 -> 0 <= s_xf st < zlen (b_xfs (os_fmt s))) -> s_val st = VNum x /\ dget Z.eqb (b_xftype (os_fmt s')) (s_xf st) = Some (s_type st) /\
    (bv < 30 -> 0 <= s_xf st < zlen (b_xfs (os_fmt s')))).
  { intros x (N1 & N2 & N3). split; [exact N1|]. split.
    - destruct (Z_lt_ge_dec bv 30) as [L|L].
      + apply E5; [apply N3; exact L|exact N2].
      + destruct (E3 L) as [_ ->]. exact N2.
    - intros L. specialize (N3 L). lia. }
  split; [exact H1|]. split; [exact H2|]. split; [rewrite E1; exact H3|]. cbn [fst snd]. split.
  - unfold xf_of in *. destruct (oc_ref c); [|exact H4]. destruct ((bv =? 21) && real); [exact H4|]. apply EA. exact H4.
  - cbv zeta in *. destruct (oc_kind c); auto.
    + destruct H5 as (x & R & H5). exists x. auto.
    + destruct H5 as (t & T1 & T2 & T3 & T4). exists t. rewrite E2 by exact T4. auto.
Qed.
End Means.
