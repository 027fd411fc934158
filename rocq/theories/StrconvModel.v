(** Model of the parts of Go's strconv the code calls: formatting an unsigned
    number in base ten.  This is Go's library, modelled by its documentation
    (shortest decimal numeral, no leading zero). *)
From Verif Require Import Go.

(** strconv.FormatUint(n, 10), called at math/integer/unsigned-*.go ToString. The
    fuel is one more than the number of binary digits, never less than the number
    of decimal digits. *)
Fixpoint fmt_loop (fuel : nat) (n : Z) (acc : bytes) : bytes :=
  match fuel with
  | O => acc
  | S f => if n <? 10 then (48 + n) :: acc
           else fmt_loop f (n / 10) ((48 + n mod 10) :: acc)
  end.
Definition FormatUint10 (n : Z) : bytes := fmt_loop (S (Z.to_nat (Z.log2 n))) n [].

(** strconv.AppendInt(nil, i, 10), called at json/encode.go:86. *)
Definition FormatInt10 (i : Z) : bytes :=
  if i <? 0 then 45 :: FormatUint10 (- i) else FormatUint10 i.

(** strconv.ParseInt(s, 10, bits), called at json/decode.go:223 and
    json/decode-minified.go:89,101: an optional sign and decimal digits; anything
    else, or a value out of range, is an error ([None]). *)
Definition digit (c : Z) : bool := (48 <=? c) && (c <=? 57).
Definition parse_digits (s : bytes) : option Z :=
  if beq s [] then None
  else if forallb digit s then Some (fold_left (fun a c => 10 * a + (c - 48)) s 0) else None.
Definition ParseInt10 (bits : Z) (s : bytes) : option Z :=
  let '(neg, ds) :=
    match s with
    | 43 :: t => (false, t)
    | 45 :: t => (true, t)
    | _ => (false, s)
    end in
  match parse_digits ds with
  | None => None
  | Some n =>
      if neg then if n <=? 2 ^ (bits - 1) then Some (- n) else None
      else if n <? 2 ^ (bits - 1) then Some n else None
  end.
