(** net/http/header-set-cookie.go: the expiry of a cookie, with what it uses of Go's package time: the Gregorian calendar as absDate and
    Date compute it, Format and Parse for the two layouts. *)
From Coq Require Import String.
From Verif Require Import Go StrconvModel.
Import ListNotations.
Local Open Scope Z_scope.
Local Open Scope list_scope.

(** package time: years are counted in cycles of 400, 100, 4 and 1 years from the start of year 1 (absDate); the day number is counted from
    1970-01-01.  Only instants from year 1 on. *)
Definition isLeap (y : Z) : bool := (y mod 4 =? 0) && (negb (y mod 100 =? 0) || (y mod 400 =? 0)).
Definition absYear (z : Z) : Z * Z :=
  let d := z + 719162 in
  let n := d / 146097 in let y := 400 * n in let d := d - 146097 * n in
  let n := d / 36524 in let n := n - n / 4 in let y := y + 100 * n in let d := d - 36524 * n in
  let n := d / 1461 in let y := y + 4 * n in let d := d - 1461 * n in
  let n := d / 365 in let n := n - n / 4 in
  (y + n + 1, d - 365 * n).
Definition daysBefore : list Z := [0; 31; 59; 90; 120; 151; 181; 212; 243; 273; 304; 334; 365].
Definition before (m : Z) : Z := nth (Z.to_nat m) daysBefore 0.
(** package time absDate: month and day from the day of the year *)
Definition monthDay (leap : bool) (yday : Z) : Z * Z :=
  if leap && (yday =? 59) then (2, 29) else
  let day := if leap && (59 <? yday) then yday - 1 else yday in
  let m := day / 31 in
  if before (m + 1) <=? day then (m + 2, day - before (m + 1) + 1) else (m + 1, day - before m + 1).
(** package time Date: the day number of a date *)
Definition daysOf (y m d : Z) : Z :=
  let a := y - 1 in
  let n := a / 400 in let a := a - 400 * n in
  let k := a / 100 in let a := a - 100 * k in
  let j := a / 4 in let a := a - 4 * j in
  146097 * n + 36524 * k + 1461 * j + 365 * a + before (m - 1) + (if isLeap y && (3 <=? m) then 1 else 0) + d - 1 - 719162.

Definition dayNames : list bytes := [str "Sun"; str "Mon"; str "Tue"; str "Wed"; str "Thu"; str "Fri"; str "Sat"]%string.
Definition monthNames : list bytes := [str "Jan"; str "Feb"; str "Mar"; str "Apr"; str "May"; str "Jun"; str "Jul"; str "Aug"; str "Sep"; str "Oct"; str "Nov"; str "Dec"]%string.
Definition pad2 (n : Z) : bytes := [48 + n / 10; 48 + n mod 10].
(** package time appendInt(year, 4) *)
Definition pad4 (n : Z) : bytes :=
  if n <=? 9999 then [48 + n / 1000; 48 + n / 100 mod 10; 48 + n / 10 mod 10; 48 + n mod 10] else FormatUint10 n.
(** net/http/const.go:17 TimeFormat, "Mon, 02 Jan 2006 15:04:05 GMT", under package time Format in UTC *)
Definition Format (s : Z) : bytes :=
  let z := s / 86400 in let r := s mod 86400 in
  let '(y, yday) := absYear z in let '(m, d) := monthDay (isLeap y) yday in
  nth (Z.to_nat ((z + 4) mod 7)) dayNames [] ++ str ", "%string ++ pad2 d ++ 32 :: nth (Z.to_nat (m - 1)) monthNames [] ++ 32 :: pad4 y ++
  32 :: pad2 (r / 3600) ++ 58 :: pad2 (r mod 3600 / 60) ++ 58 :: pad2 (r mod 60) ++ str " GMT"%string.

Fixpoint lookup (t : list bytes) (i : Z) (s : bytes) : option Z :=
  match t with [] => None | n :: t => if beq n s then Some i else lookup t (i + 1) s end.
Definition monthLen (y m : Z) : Z := if (m =? 2) && isLeap y then 29 else before m - before (m - 1).
Definition isDig (c : Z) : bool := (48 <=? c) && (c <=? 57).
Definition num2 (a b : Z) : Z := (a - 48) * 10 + (b - 48).
(** package time Parse for time.RFC1123 ([sep] a space) and for "Mon, 02-Jan-2006 15:04:05 MST" ([sep] a dash).  Simplification: names are
    taken in the spelling of the layout, the zone is GMT, every number has its full width and there is no fraction; Go takes a few more
    spellings, of which nothing is claimed.  As in Go, the name of the day is not compared with the date. *)
Definition Parse (sep : Z) (t : bytes) : option Z :=
  match t with
  | [w1; w2; w3; c1; c2; d1; d2; p1; m1; m2; m3; p2; y1; y2; y3; y4; c3; h1; h2; k1; i1; i2; k2; e1; e2; c4; z1; z2; z3] =>
      match lookup dayNames 0 [w1; w2; w3], lookup monthNames 1 [m1; m2; m3] with
      | Some _, Some m =>
          let d := num2 d1 d2 in let y := num2 y1 y2 * 100 + num2 y3 y4 in
          let h := num2 h1 h2 in let i := num2 i1 i2 in let e := num2 e1 e2 in
          if beq [c1; c2; p1; p2; c3; k1; k2; c4; z1; z2; z3] [44; 32; sep; sep; 32; 58; 58; 32; 71; 77; 84] &&
             forallb isDig [d1; d2; y1; y2; y3; y4; h1; h2; i1; i2; e1; e2] &&
             (1 <=? d) && (d <=? monthLen y m) && (h <? 24) && (i <? 60) && (e <? 60)
          then Some (daysOf y m d * 86400 + h * 3600 + i * 60 + e) else None
      | _, _ => None
      end
  | _ => None
  end.
(** time.Time{}: the start of year 1, as seconds since 1970 *)
Definition zeroTime : Z := -62135596800.
(** header-set-cookie.go:105-107 SetExpire, on an instant of [s] seconds and [n] nanoseconds *)
Definition SetExpire (s n : Z) : bytes := Format s.
(** header-set-cookie.go:91-101 GetExpire, in seconds: none of the layouts has a fraction *)
Definition GetExpire (t : bytes) : Z :=
  match Parse 32 t with Some s => s | None => match Parse 45 t with Some s => s | None => zeroTime end end.
