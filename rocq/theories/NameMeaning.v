(** Specification for C94: what the formula of a defined name means, with references,
    other names, IF and CHOOSE.  It builds on the trees of FormulaRefs.v and on the
    operations of PropFormulaValue.v. *)
From Verif Require Import Base Text Utf16 SheetObjects FormulaTables FormulaModel PropBytes FormulaExpr FormulaRefs
  PropFormulaText PropFormulaRefs PropFormulaValue.

(** What a formula may come out as: a known value, a value of a known sort, an error
    with or without its code, nothing, references that are known or not and fixed or
    relative, or something that is not worked out. *)
Inductive answer (N : Type) : Type :=
| Known (v : PropFormulaValue.value N)
| Sorted (s : sort)
| Failed (code : option Z)
| Omitted
| Located (rel : bool) (l : option (list ref3d))
| Unsure.
Arguments Known {N} _. Arguments Sorted {N} _. Arguments Failed {N} _.
Arguments Omitted {N}. Arguments Located {N} _ _. Arguments Unsure {N}.

(** With whether the formula has relative references, and errors. *)
Record outcome (N : Type) : Type := mk_outcome { out_answer : answer N; out_rel : bool; out_err : bool }.
Arguments mk_outcome {N} _ _ _. Arguments out_answer {N} _. Arguments out_rel {N} _. Arguments out_err {N} _.

Definition reference_class (k : class) : bool := match k with Reference => true | _ => false end.
Definition amount (c : coord) : Z := match c with Fixed n => n | Away d => d end.
(** First and last sheet of a reference; negative if it leads to no sheet of the book. *)
Definition sheets_at (w : place) : Z * Z :=
  match w with On lo hi => (lo, hi) | AnySheet => (-1, -1) | Gone => (-2, -2) | Outside => (-4, -4) end.
Definition no_sheets (w : place) : bool := match w with Gone | Outside => true | _ => false end.

(** A reference to cells: bounds, and which of them are relative. *)
Definition cells (lo hi : Z) (any : bool) (r1 r2 c1 c2 : coord) : ref3d :=
  mk_ref (mk_box lo (hi + 1) (amount r1) (amount r2 + 1) (amount c1) (amount c2 + 1))
         [any; any; moving r1; moving r2; moving c1; moving c2].

(** The box around two boxes, and what they have in common. *)
Definition around (a b : box) : box :=
  mk_box (Z.min (b_slo a) (b_slo b)) (Z.max (b_shi a) (b_shi b)) (Z.min (b_rlo a) (b_rlo b))
         (Z.max (b_rhi a) (b_rhi b)) (Z.min (b_clo a) (b_clo b)) (Z.max (b_chi a) (b_chi b)).
Definition overlap (a b : box) : box :=
  mk_box (Z.max (b_slo a) (b_slo b)) (Z.min (b_shi a) (b_shi b)) (Z.max (b_rlo a) (b_rlo b))
         (Z.min (b_rhi a) (b_rhi b)) (Z.max (b_clo a) (b_clo b)) (Z.min (b_chi a) (b_chi b)).

Section Meaning.
Context {N : Type}.
Variable ops : numops N.

Definition sort_made (o : binary) : sort :=
  match o with Plus | Minus | Times | Divide | Power => NumberSort | Concat => TextSort | _ => TruthSort end.

(** Operators work on known values; otherwise just the sort of the result is known.
    [None] means that nothing is claimed. *)
Definition binary_answer (o : binary) (a b : answer N) : option (answer N) :=
  match a, b with
  | Known v, Known w =>
      match operation ops o v w with
      | Ok (Some r) => Some (Known r)
      | Ok None => Some (Sorted (sort_made o))
      | Err _ => None
      end
  | _, _ => Some (Sorted (sort_made o))
  end.
Definition unary_answer (o : unary) (a : answer N) : option (answer N) :=
  match a with
  | Known v => match sign ops o v with Ok (Some r) => Some (Known r) | Ok None => Some (Sorted NumberSort) | Err _ => None end
  | Failed (Some _) | Located _ (Some _) => None
  | _ => Some (Sorted NumberSort)
  end.

(** Ranges and intersections of single references that are fixed or that are relative in
    the same way; the intersection may be empty. *)
Definition merged (f : box -> box -> box) (rel : bool) (a b : option (list ref3d)) : option (answer N) :=
  match a, b with
  | Some [x], Some [y] =>
      if negb rel then Some (Located false (Some [mk_ref (f (r_box x) (r_box y)) [false; false; false; false; false; false]]))
      else if bools_eqb (r_rel x) (r_rel y) then Some (Located true (Some [mk_ref (f (r_box x) (r_box y)) (r_rel x)]))
      else Some (Located true None)
  | None, _ | _, None => Some (Located rel None)
  | _, _ => None
  end.
Definition set_answer (o : setop) (a b : answer N) : option (answer N) :=
  match a, b with
  | Failed _, _ | _, Failed _ => Some (Failed None)
  | Located r l, Located r' l' =>
      match o with
      | Joined =>
          match l, l' with
          | None, _ | _, None => Some (Located (r || r') None)
          | Some (x :: l), Some [y] => Some (Located (r || r') (Some (x :: l ++ [y])))
          | _, _ => None
          end
      | Common => if Bool.eqb r r' then merged overlap r l l' else Some (Located false None)
      | Span => if Bool.eqb r r' then merged around r l l' else Some (Located false None)
      end
  | _, _ => Some (Located false None)
  end.

(** A missing argument counts as 0. *)
Definition given (a : answer N) : answer N := match a with Omitted => Known (Number (n_int ops 0)) | a => a end.

Definition if_answer (l : list (answer N)) : option (answer N) :=
  let branch (t : bool) :=
    match l, t with
    | _ :: a :: _, true => Some (given a)
    | [_; _], false => Some (Known (Truth false))
    | _ :: _ :: b :: _, false => Some (given b)
    | _, _ => None
    end in
  match l with
  | Known (Truth t) :: _ => branch t
  | Known (Number v) :: _ =>
      if n_eq ops v (n_int ops 0) then branch false else if n_eq ops v (n_int ops 1) then branch true else Some Unsure
  | _ :: _ => Some Unsure
  | [] => None
  end.
Definition choose_answer (l : list (answer N)) : option (answer N) :=
  match l with
  | Known (Number v) :: _ =>
      match n_le ops (n_int ops 1) v, n_lt ops v (n_int ops (zlen l)), n_trunc ops v with
      | Ok false, _, _ => Some Unsure
      | Ok true, Ok false, _ => Some Unsure
      | Ok true, Ok true, Ok i => if 1 <=? i then option_map given (znth l i) else None
      | _, _, _ => None
      end
  | Sorted NumberSort :: _ => None
  | _ :: _ => Some Unsure
  | [] => None
  end.

(** What a use of the n-th name gives. *)
Variable use : Z -> option (outcome N).

Definition plain_answer (x : expr) : option (answer N) :=
  match x with
  | Int n => Some (Known (Number (n_float ops n)))
  | Num b => Some (Known (Number (n_unpack ops b)))
  | Str u => Some (Known (Words (us_text u)))
  | OldStr _ t => Some (Known (Words t))
  | Bool b => Some (Known (Truth b))
  | ErrorCode c => Some (Failed (Some c))
  | Missing => Some Omitted
  | Name _ n _ => option_map out_answer (use n)
  | _ => None
  end.

Fixpoint answer_of (f : formula) : option (answer N) :=
  let all := fix all (l : list formula) : option (list (answer N)) :=
    match l with
    | [] => Some []
    | x :: r => match answer_of x, all r with Some a, Some l => Some (a :: l) | _, _ => None end
    end in
  match f with
  | Plain x => plain_answer x
  | Cell k alt r c =>
      if alt then None else Some (if reference_class k then Located true (Some [cells 0 0 true r r c c]) else Unsure)
  | Area k alt r1 r2 c1 c2 =>
      if alt then None else Some (if reference_class k then Located true (Some [cells 0 0 true r1 r2 c1 c2]) else Unsure)
  | Cell3 k _ w r c =>
      Some (Located (moving r || moving c)
        (if reference_class k then Some [cells (fst (sheets_at w)) (snd (sheets_at w)) false r r c c] else None))
  | Area3 k _ w r1 r2 c1 c2 =>
      Some (Located (moving r1 || moving r2 || moving c1 || moving c2)
        (if reference_class k then Some [cells (fst (sheets_at w)) (snd (sheets_at w)) false r1 r2 c1 c2] else None))
  | Outer _ _ _ => Some Unsure
  | Lost _ _ _ _ => Some (Failed None)
  | FUn o a => match answer_of a with Some a => unary_answer o a | None => None end
  | FBin o a b => match answer_of a, answer_of b with Some a, Some b => binary_answer o a b | _, _ => None end
  | FSet o a b => match answer_of a, answer_of b with Some a, Some b => set_answer o a b | _, _ => None end
  | FParen a | Before _ _ a | Jumps _ _ a | Mem _ _ a | After _ _ a => answer_of a
  | Sum _ a => match answer_of a with Some _ => Some (Sorted NumberSort) | None => None end
  | FCall _ _ args => match all args with Some _ => Some Unsure | None => None end
  | FCallVar _ _ _ f args =>
      match all args with
      | Some l => if f =? 1 then if_answer l else if f =? 100 then choose_answer l else Some Unsure
      | None => None
      end
  end.

(** Whether a formula has relative references, or errors; a use of a name counts as what
    [use] says. *)
Fixpoint somewhere (here : formula -> bool) (f : formula) : bool :=
  here f ||
  match f with
  | FUn _ a | FParen a | Before _ _ a | Jumps _ _ a | Mem _ _ a | After _ _ a | Sum _ a => somewhere here a
  | FBin _ a b | FSet _ a b => somewhere here a || somewhere here b
  | FCall _ _ args | FCallVar _ _ _ _ args => existsb (somewhere here) args
  | _ => false
  end.
Definition used (flag : outcome N -> bool) (n : Z) : bool := match use n with Some o => flag o | None => false end.
Definition relative_here (f : formula) : bool :=
  match f with
  | Cell _ _ _ _ | Area _ _ _ _ _ _ => true
  | Cell3 _ _ _ r c => moving r || moving c
  | Area3 _ _ _ r1 r2 c1 c2 => moving r1 || moving r2 || moving c1 || moving c2
  | Plain (Name _ n _) => used out_rel n
  | _ => false
  end.
Definition wrong_here (f : formula) : bool :=
  match f with
  | Lost _ _ _ _ => true
  | Cell3 _ _ w _ _ | Area3 _ _ w _ _ _ _ => no_sheets w
  | Plain (Name _ n _) => used out_err n
  | _ => false
  end.
Definition outcome_of (f : formula) : option (outcome N) :=
  option_map (fun a => mk_outcome a (somewhere relative_here f) (somewhere wrong_here f)) (answer_of f).
End Meaning.

(** References without a sheet cannot be shown: they are written as a question mark, like
    lost ones. *)
Fixpoint bare (f : formula) : formula :=
  match f with
  | Cell k _ _ _ => Lost k false false []
  | Area k _ _ _ _ _ => Lost k true false []
  | FUn o a => FUn o (bare a)
  | FBin o a b => FBin o (bare a) (bare b)
  | FSet o a b => FSet o (bare a) (bare b)
  | FParen a => FParen (bare a)
  | Before s w a => Before s w (bare a)
  | Jumps w l a => Jumps w l (bare a)
  | Mem k w a => Mem k w (bare a)
  | After s w a => After s w (bare a)
  | Sum w a => Sum w (bare a)
  | FCall k f args => FCall k f (map bare args)
  | FCallVar k p m f args => FCallVar k p m f (map bare args)
  | _ => f
  end.

Section Names.
Context {N : Type}.
Variable ops : numops N.
Variable defined : list (option formula).         (* the formulas of the names *)
Variable odd : Z -> bool.                         (* names that are macros or binary, from 0 *)

(** A use of a name gives what the name means, unless it is a macro or binary or has
    errors: then it is an error that is not worked out. *)
Definition used_as (strange : bool) (o : outcome N) : outcome N :=
  if strange || out_err o then mk_outcome Unsure (out_rel o) true else mk_outcome (out_answer o) false false.

(** The meaning of the j-th name, from 0, when names are nested at most [d] deep. *)
Fixpoint name_means (d : nat) (j : Z) : option (outcome N) :=
  match d with
  | O => None
  | S d =>
      match znth defined j with
      | Some (Some f) => outcome_of ops (fun n => option_map (used_as (odd (n - 1))) (name_means d (n - 1))) f
      | _ => None
      end
  end.
End Names.
