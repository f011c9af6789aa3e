(** Python text as lists of code points: literals and '%d' formatting. *)
From Coq Require Export Ascii String.
From Verif Require Import Base.

(** A literal. *)
Definition s2l (s : string) : list Z :=
  map (fun a => Z.of_N (N_of_ascii a)) (list_ascii_of_string s).

(** Decimal digits, most significant first (Python run time, '%d'). *)
Fixpoint digits_aux (fuel : nat) (n : Z) (acc : list Z) : list Z :=
  match fuel with
  | O => acc
  | S f =>
      let acc' := (48 + n mod 10) :: acc in
      if n / 10 =? 0 then acc' else digits_aux f (n / 10) acc'
  end.

Definition digits (n : Z) : list Z := digits_aux (S (Z.to_nat (Z.log2 n))) n [].

(** ['%d' % n] *)
Definition fmt_d (n : Z) : list Z := if n <? 0 then 45 :: digits (- n) else digits n.
