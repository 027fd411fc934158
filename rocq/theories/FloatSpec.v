(** What is meant by a float of a size, and what strconv promises. *)
From Verif Require Import Go FloatModel.
Local Open Scope Z_scope.

(** The two formats of IEEE 754: bits of the mantissa and the largest exponent *)
Definition prec (w : fsize) : Z := match w with F32 => 24 | F64 => 53 end.
Definition emax (w : fsize) : Z := match w with F32 => 128 | F64 => 1024 end.
(** The values a float of the size can have: mantissa and exponent in range and in normal form. *)
Definition is_float (w : fsize) (f : spec_float) : Prop := valid_binary (prec w) (emax w) f = true.
Definition is_zero (f : spec_float) : Prop := exists s, f = S754_zero s.
Definition is_infinite (f : spec_float) : Prop := exists s, f = S754_infinity s.

(** strconv: the shortest text that reads back as the same float; a float of the size from any text; an error comes
    with a zero (not a number's text) or an infinity (out of range). *)
Definition promises (L : library) : Prop := forall w,
  (forall f, is_float w f -> parse L w (format L w f) = (f, false)) /\
  (forall s, is_float w (fst (parse L w s))) /\
  (forall s, snd (parse L w s) = true -> is_zero (fst (parse L w s)) \/ is_infinite (fst (parse L w s))).
