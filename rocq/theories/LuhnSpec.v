(** The Luhn formula (ISO/IEC 7812-1 annex B), independent of the code. *)
From Verif Require Import Go.

Definition is_num (c : Z) : Prop := 48 <= c <= 57.
(** Digits counted from the right, starting with position 0: those at odd positions are
    doubled and the digits of the product added. *)
Definition digit_sum (x : Z) : Z := x / 10 + x mod 10.
Definition weigh (odd : bool) (d : Z) : Z := if odd then digit_sum (2 * d) else d.
Fixpoint sum_from_right (rev_digits : list Z) (odd : bool) : Z :=
  match rev_digits with
  | [] => 0
  | d :: r => weigh odd d + sum_from_right r (negb odd)
  end.
Definition value_of (c : Z) : Z := c - 48.
Definition luhn_sum (s : bytes) : Z := sum_from_right (rev (map value_of s)) false.
Definition luhn_valid (s : bytes) : Prop := luhn_sum s mod 10 = 0.
