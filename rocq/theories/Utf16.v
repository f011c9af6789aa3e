(** The utf_16_le codec (Python run time), strict errors. *)
From Verif Require Import Base.

(** [unicode(bytes, 'utf_16_le')]: UnicodeDecodeError for an odd number of
    bytes and for surrogates that are not a high/low pair. *)
Fixpoint utf16_dec (b : list Z) : result (list Z) :=
  match b with
  | [] => Ok []
  | [_] => Err UnicodeDecodeError
  | b0 :: b1 :: r =>
      let u := b0 + 256 * b1 in
      if (u <? 55296) || (57344 <=? u) then do s <- utf16_dec r; Ok (u :: s)
      else if 56320 <=? u then Err UnicodeDecodeError
      else match r with
           | b2 :: b3 :: r' =>
               let v := b2 + 256 * b3 in
               if (56320 <=? v) && (v <? 57344)
               then do s <- utf16_dec r'; Ok ((65536 + (u - 55296) * 1024 + (v - 56320)) :: s)
               else Err UnicodeDecodeError
           | _ => Err UnicodeDecodeError
           end
  end.

(** ** Specification side: encoding *)

(** UTF-16 code units of a code point. *)
Definition units_of (c : Z) : list Z :=
  if c <? 65536 then [c]
  else [55296 + (c - 65536) / 1024; 56320 + (c - 65536) mod 1024].

Definition utf16_units (s : list Z) : list Z := flat_map units_of s.
Definition units_bytes (us : list Z) : list Z := flat_map (le_enc 2) us.
Definition utf16_enc (s : list Z) : list Z := units_bytes (utf16_units s).

(** A text: Unicode scalar values. *)
Definition scalar (c : Z) : Prop := 0 <= c < 55296 \/ 57344 <= c < 1114112.
Definition text (s : list Z) : Prop := Forall scalar s.
