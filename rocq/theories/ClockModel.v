(** Model of time/: durations, unix, monotonic and utc times. Go's integer division
    truncates: [Z.quot] and [Z.rem].  Seconds are int64, nanoseconds in a second
    int32.  The constant duration.OneSecond is 1 (time/duration/second.go:12). *)
From Verif Require Import Go.

(** time/duration/second.go:14 NanoSecondInSecond *)
Definition NanoSecondInSecond : Z := 1000000000.
Definition OneSecond : Z := 1.

(** time/duration/second.go:20-24 ToNanoSecond, 26-29 FromNanoSecond *)
Definition Second_ToNanoSecond (s : Z) : Z := i64 (s * NanoSecondInSecond).
Definition Second_FromNanoSecond (n : Z) : Z := Z.quot n NanoSecondInSecond.

(** time/duration/nano-second.go:16-26 ToSecAndNano, 28-30 FromSecAndNano *)
Definition ToSecAndNano (d : Z) : Z * Z :=
  let sec := Second_FromNanoSecond d in
  let secPass := Second_ToNanoSecond sec in
  (sec, i32 (i64 (d - secPass))).
Definition FromSecAndNano (sec nsec : Z) : Z := i64 (Second_ToNanoSecond sec + nsec).
(** time/duration/micro-second.go:16-18, milli-second.go:18-20 FromSecAndNano *)
Definition Micro_FromSecAndNano (sec nsec : Z) : Z := i64 (i64 (sec * 1000000) + Z.quot nsec 1000).
Definition Milli_FromSecAndNano (sec nsec : Z) : Z := i64 (i64 (sec * 1000) + Z.quot nsec 1000000).

(** time/unix/time.go:18-21 Time, time/utc/time.go:14-17 Time *)
Record instant := Instant { sec : Z; nsec : Z }.

(** time/unix/time.go:45-50 Pass, time/utc/time.go:91-96 Pass (the same text) *)
Definition Pass (t from : instant) : bool :=
  (sec from <? sec t) || ((sec t =? sec from) && (nsec from <? nsec t)).
(** time/unix/time.go:52-56 Add, time/utc/time.go:99-103 AddDuration (the same text) *)
Definition Add (t : instant) (d : Z) : instant :=
  let '(s, n) := ToSecAndNano d in
  Instant (i64 (sec t + s)) (i32 (nsec t + n)).
(** time/unix/time.go:57-61 Since *)
Definition Since (t base : instant) : Z :=
  i64 (i64 (i64 (sec base - sec t) * OneSecond) + i32 (nsec base - nsec t)).
(** time/unix/time.go:65-80 NanoElapsed, MicroElapsed, MilliElapsed; the same in
    time/utc/time.go:34-45 *)
Definition NanoElapsed (t : instant) : Z := FromSecAndNano (sec t) (nsec t).
Definition MicroElapsed (t : instant) : Z := Micro_FromSecAndNano (sec t) (nsec t).
Definition MilliElapsed (t : instant) : Z := Milli_FromSecAndNano (sec t) (nsec t).

(** time/earth/duration-*.go: FromSecond of minute, hour, day, week *)
Definition SecondInMinute : Z := 60.
Definition SecondInHour : Z := 60 * SecondInMinute.
Definition SecondInDay : Z := 24 * SecondInHour.
Definition SecondInWeek : Z := 7 * SecondInDay.
Definition Minute_FromSecond (d : Z) : Z := Z.quot d SecondInMinute.
Definition Hour_FromSecond (d : Z) : Z := Z.quot d SecondInHour.
Definition Day_FromSecond (d : Z) : Z := Z.quot d SecondInDay.
Definition Week_FromSecond (d : Z) : Z := Z.quot d SecondInWeek.
(** time/earth/duration-*.go: FromNanoSecond.  NanoSecondInMinute is written as
    60 * duration.OneSecond, that is 60 (the text does not type-check; its value is
    modelled). *)
Definition NanoSecondInMinute : Z := 60 * OneSecond.
Definition NanoSecondInHour : Z := 60 * NanoSecondInMinute.
Definition NanoSecondInDay : Z := 24 * NanoSecondInHour.
Definition NanoSecondInWeek : Z := 7 * NanoSecondInDay.
Definition Minute_FromNanoSecond (d : Z) : Z := Z.quot d NanoSecondInMinute.
Definition Hour_FromNanoSecond (d : Z) : Z := Z.quot d NanoSecondInHour.
Definition Day_FromNanoSecond (d : Z) : Z := Z.quot d NanoSecondInDay.
Definition Week_FromNanoSecond (d : Z) : Z := Z.quot d NanoSecondInWeek.

(** time/unix/time.go:84-85 HourElapsed, DayElapsed; time/utc/time.go:47-50 the same
    quotients and Minute, Week *)
Definition MinuteElapsed (t : instant) : Z := Minute_FromSecond (sec t).
Definition HourElapsed (t : instant) : Z := Hour_FromSecond (sec t).
Definition DayElapsed (t : instant) : Z := Day_FromSecond (sec t).
Definition WeekElapsed (t : instant) : Z := Week_FromSecond (sec t).

(** time/unix/time.go:88-106 ElapsedByNanoSecond *)
Definition ElapsedByNanoSecond (t : instant) (d : Z) : res Z :=
  if d <? 0 then Ok 0
  else if d =? 0 then Ok (NanoElapsed t)
  else
    let '(s, n) := ToSecAndNano d in
    if 0 <? s then
      let period := Z.quot (sec t) s in
      if 0 <? n then Ok (i64 (period + Z.quot (Z.quot (nsec t) n) OneSecond)) else Ok period
    else if n =? 0 then Panic
    else Ok (i64 (Z.quot (i64 (sec t * OneSecond)) n + Z.quot (nsec t) n)).
(** time/unix/time.go:109-119 ElapsedBySecond *)
Definition ElapsedBySecond (t : instant) (d : Z) : Z :=
  if d <? 0 then 0 else if d =? 0 then NanoElapsed t else Z.quot (sec t) d.

(** time/utc/time.go:77-83 Until, 86-88 UntilTo *)
Definition Until (t to : instant) : instant := Instant (i64 (sec t - sec to)) (i32 (nsec t - nsec to)).
Definition UntilTo (t to : instant) : Z := NanoElapsed (Until t to).

(** 1 << n in a type of [bits] bits; a negative count panics (Go specification). *)
Definition shl1 (bits n : Z) : res Z := if n <? 0 then Panic else Ok (Z.shiftl 1 n mod 2 ^ bits).
(** time/utc/time.go:111-116 DayHours (uint32) *)
Definition DayHours (t : instant) : res Z :=
  let secPassDay := Z.rem (sec t) (24 * 60 * 60) in
  let dayHour := Z.quot secPassDay (60 * 60) in
  shl1 32 dayHour.
(** time/utc/dayhour.go:9-34: the constant for hour h, 1 << iota with iota = h + 1 *)
Definition DayHours_const (h : Z) : Z := Z.shiftl 1 (h + 1).
(** time/utc/time.go:117-128 Weekdays (uint8) *)
Definition Weekdays (t : instant) : res Z :=
  let week := Z.rem (sec t) (7 * 24 * 60 * 60) in
  let weekDay := Z.quot week (24 * 60 * 60) in
  let weekDay := if weekDay <? 4 then weekDay + 3 else weekDay - 4 in
  shl1 8 weekDay.
(** time/utc/weekday.go:14-24: Monday is bit 0 ... Sunday is bit 6 *)
Definition Weekdays_const (d : Z) : Z := Z.shiftl 1 d.
(** time/utc/weekday.go:27, dayhour.go:39, time/earth/dayhour.go:63 Check *)
Definition Check (set one : Z) : bool := negb (Z.land one set =? 0).

(** * Atomic unix time, time/unix/atomic.go.  Each atomic operation is one step. *)
(** 42-46 Store: load nsec, store sec, compare-and-swap nsec.  The thread's local
    state is what remains to do. *)
Inductive astep :=
| SLoad (t : instant)              (* line 43 *)
| SSec (t : instant) (old : Z)     (* line 44 *)
| SNsec (t : instant) (old : Z)    (* line 45 *)
| SDone.
Definition run_step (m : instant) (s : astep) : instant * astep :=
  match s with
  | SLoad t => (m, SSec t (nsec m))
  | SSec t old => (Instant (sec t) (nsec m), SNsec t old)
  | SNsec t old => (if nsec m =? old then Instant (sec m) (nsec t) else m, SDone)
  | SDone => (m, SDone)
  end.
(** A schedule says which of two threads moves. *)
Fixpoint interleave (sched : list bool) (m : instant) (a b : astep) : instant * astep * astep :=
  match sched with
  | [] => (m, a, b)
  | true :: r => let '(m, a) := run_step m a in interleave r m a b
  | false :: r => let '(m, b) := run_step m b in interleave r m a b
  end.
(** 54-61 CompareAndSwap without interference: new memory, result. *)
Definition ACompareAndSwap (m old new : instant) : instant * bool :=
  if sec m =? sec old then
    let m := Instant (sec new) (nsec m) in
    if nsec m =? nsec old then (Instant (sec m) (nsec new), true) else (m, false)
  else (m, false).

(** * Monotonic time, time/monotonic/time.go: an int64 count of nanoseconds. *)
(** 42 Add, 48 Pass, 54 Since, 60 Until *)
Definition MAdd (t d : Z) : Z := i64 (t + d).
Definition MPass (t from : Z) : bool := from <? t.
Definition MSince (t from : Z) : Z := i64 (from - t).
Definition MUntil (t to : Z) : Z := i64 (t - to).
(** 22-27 SecondElapsed, NanoInSecondElapsed; % by zero panics. *)
Definition MSecondElapsed (t : Z) : Z := Z.quot t OneSecond.
Definition MNanoInSecondElapsed (t : Z) : res Z :=
  if MSecondElapsed t =? 0 then Panic else Ok (i32 (Z.rem t (MSecondElapsed t))).
