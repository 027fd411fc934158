(** What the texts of floats look like (strconv, format 'g' with the fewest digits). *)
From Coq Require Import String.
From Verif Require Import Go FloatModel FloatSpec.
Import ListNotations.
Local Open Scope Z_scope.

(** Numbers that are not negative (plus zero too), the same below zero (minus zero too), and what is no number. *)
Definition nonnegative (f : spec_float) : Prop := match f with S754_zero s | S754_finite s _ _ => s = false | _ => False end.
Definition negative (f : spec_float) : Prop := match f with S754_zero s | S754_finite s _ _ => s = true | _ => False end.
Definition special (f : spec_float) : Prop := f = S754_nan \/ is_infinite f.
(** What ends a value in JSON: a comma, a closing bracket or a closing brace. *)
Definition ends (c : Z) : Prop := c = 44 \/ c = 93 \/ c = 125.
Definition is_decimal (c : Z) : Prop := 48 <= c <= 57.

Definition number_texts (L : library) : Prop := forall w,
  (forall f, is_float w f -> nonnegative f -> exists c t, format L w f = c :: t /\ is_decimal c /\ Forall (fun c => ~ ends c) (c :: t)) /\
  (forall f, is_float w f -> negative f -> format L w f = 45 :: format L w (SFopp f)) /\
  format L w S754_nan = str "NaN" /\ format L w (S754_infinity false) = str "+Inf" /\ format L w (S754_infinity true) = str "-Inf".
