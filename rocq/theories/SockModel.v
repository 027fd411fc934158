(** net/socket-timing.go: the deadlines of a socket.
    Simplified: a timer is the time it is set to and whether it is running; times are nanoseconds
    after the epoch of the monotonic clock, and additions do not overflow. *)
From Verif Require Import Go.

Record Socket := { readDeadline : Z; writeDeadline : Z; timer_when : Z; running : bool }.
(** timer/timer-async.go:175-240 Reset at time [now]: a duration below 1 is refused *)
Definition timer_Reset (sk : Socket) (now d : Z) : Socket :=
  if d <? 1 then sk else {| readDeadline := readDeadline sk; writeDeadline := writeDeadline sk; timer_when := now + d; running := true |}.
(** timer-async.go:131-170 Stop: [when] is kept *)
Definition timer_Stop (sk : Socket) : Socket :=
  {| readDeadline := readDeadline sk; writeDeadline := writeDeadline sk; timer_when := timer_when sk; running := false |}.
Definition store_read (sk : Socket) (t : Z) : Socket := {| readDeadline := t; writeDeadline := writeDeadline sk; timer_when := timer_when sk; running := running sk |}.
Definition store_write (sk : Socket) (t : Z) : Socket := {| readDeadline := readDeadline sk; writeDeadline := t; timer_when := timer_when sk; running := running sk |}.
(** socket-timing.go:66-84 setReadTimeout; [now] is read once for the deadline, [now2] by Reset *)
Definition setReadTimeout (sk : Socket) (now now2 d : Z) : Socket :=
  if d <? 0 then
    let sk := store_read sk 0 in if writeDeadline sk =? 0 then timer_Stop sk else sk
  else
    let deadline := now + d in
    let sk := store_read sk deadline in
    if deadline <? timer_when sk then timer_Reset sk now2 d else sk.
(** socket-timing.go:85-102 setWriteTimeout: no return in the first branch *)
Definition setWriteTimeout (sk : Socket) (now now2 d : Z) : Socket :=
  let sk := if d <? 0 then let sk := store_write sk 0 in if readDeadline sk =? 0 then timer_Stop sk else sk else sk in
  let deadline := now + d in
  let sk := store_write sk deadline in
  if deadline <? timer_when sk then timer_Reset sk now2 d else sk.
(** socket-timing.go:47-55, 56-64, 39-46; net/socket.go:58 Check always gives nil *)
Definition SetReadTimeout (sk : Socket) (now now2 d : Z) : Socket := setWriteTimeout sk now now2 d.
Definition SetWriteTimeout (sk : Socket) (now now2 d : Z) : Socket := setReadTimeout sk now now2 d.
Definition SetTimeout (sk : Socket) (n1 n2 n3 n4 d : Z) : Socket := SetWriteTimeout (SetReadTimeout sk n1 n2 d) n3 n4 d.
(** socket-timing.go:26-36 TimerHandler: the status it sets *)
Inductive status := Timeout_Read | Timeout_Write.
Definition TimerHandler (sk : Socket) : option status :=
  if readDeadline sk <=? timer_when sk then Some Timeout_Read
  else if writeDeadline sk <=? timer_when sk then Some Timeout_Write else None.
