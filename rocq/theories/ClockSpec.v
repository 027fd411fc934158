(** Time as integers, independent of the code. *)
From Verif Require Import Go.

Definition int64 (x : Z) : Prop := - 2 ^ 63 <= x < 2 ^ 63.
(** The instant (s, n) as nanoseconds since 1970. *)
Definition nanos (s n : Z) : Z := s * 1000000000 + n.
Definition normal (n : Z) : Prop := 0 <= n < 1000000000.
(** Day of the week: 0 is Monday; day number 0, 1970-01-01, was a Thursday. *)
Definition day_number (s : Z) : Z := s / 86400.
Definition weekday (s : Z) : Z := (day_number s + 3) mod 7.
Definition hour_of_day (s : Z) : Z := (s mod 86400) / 3600.
