(** Specification for C120, C121, C122. *)
From Verif Require Import Go IntSpec MathModel.

(** How many parts make the whole. *)
Definition whole (p : per) : Z :=
  match p with
  | Ten => 10 | Cent => 10 ^ 2 | Mille => 10 ^ 3 | Myriad => 10 ^ 4 | CentMille => 10 ^ 5 | Million => 10 ^ 6
  | Billion => 10 ^ 9 | Trillion => 10 ^ 12 | Quadrillion => 10 ^ 15
  end.
(** A share and a number of the types the methods take. *)
Definition typed (p : per) (b num : Z) : Prop := 0 <= b < 2 ^ bits p /\ 0 <= num < 2 ^ 64.
(** A signed decimal numeral. *)
Definition signed_value (s : bytes) (v : Z) : Prop :=
  (0 <= v /\ s <> [] /\ Forall is_digit s /\ dec_value s = v) \/
  (v < 0 /\ exists t, s = 45 :: t /\ t <> [] /\ Forall is_digit t /\ dec_value t = - v).
