(** The Gregorian calendar by counting, and the date of RFC 1123 as text. *)
From Coq Require Import String.
From Verif Require Import Go.
Import ListNotations.
Local Open Scope Z_scope.
Local Open Scope list_scope.

Definition leap_year (y : Z) : Prop := (4 | y) /\ (~ (100 | y) \/ (400 | y)).
(** Length of the months, with [f] days in February *)
Definition lengths (f : Z) : list Z := [31; f; 31; 30; 31; 30; 31; 31; 30; 31; 30; 31].
Definition sum (l : list Z) : Z := fold_right Z.add 0 l.
(** Multiples of k among 0 .. y - 1 *)
Definition multiples (k y : Z) : Z := (y + k - 1) / k.
(** [is_date z y m d]: day number [z] (0 is 1970-01-01, 719528 days after the start of year 0) is day [d] of month [m] (1 to 12) of year [y]. *)
Definition is_date (z y m d : Z) : Prop :=
  exists f, (leap_year y /\ f = 29 \/ ~ leap_year y /\ f = 28) /\ 1 <= m <= 12 /\ 1 <= d <= nth (Z.to_nat (m - 1)) (lengths f) 0 /\
  z = 365 * y + multiples 4 y - multiples 100 y + multiples 400 y + sum (firstn (Z.to_nat (m - 1)) (lengths f)) + d - 1 - 719528.
Definition two (n : Z) : bytes := [48 + n / 10; 48 + n mod 10].
Definition day_abbr (z : Z) : bytes := nth (Z.to_nat (z mod 7)) [str "Thu"; str "Fri"; str "Sat"; str "Sun"; str "Mon"; str "Tue"; str "Wed"]%string [].
Definition month_abbr (m : Z) : bytes :=
  nth (Z.to_nat (m - 1)) [str "Jan"; str "Feb"; str "Mar"; str "Apr"; str "May"; str "Jun"; str "Jul"; str "Aug"; str "Sep"; str "Oct"; str "Nov"; str "Dec"]%string [].
(** "Mon, 02 Jan 2006 15:04:05 GMT" for second [r] of day [z], with [sep] between day, month and year *)
Definition date_text (sep z y m d r : Z) : bytes :=
  day_abbr z ++ str ", "%string ++ two d ++ sep :: month_abbr m ++ sep :: two (y / 100) ++ two (y mod 100) ++
  32 :: two (r / 3600) ++ 58 :: two (r / 60 mod 60) ++ 58 :: two (r mod 60) ++ str " GMT"%string.
