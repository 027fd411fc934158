(** Model of reusing a timer (timer/timer-async.go Init, Reinit, Deinit) and of the loop that
    serves the timers of a core (timer/timing.go Start). *)
From Verif Require Import Go HeapModel TimingModel.

(** Whether the timer has a callback. *)
Definition w_cb (t : timer) (b : bool) : timer :=
  {| t_when := t_when t; t_period := t_period t; t_status := t_status t; t_cb := b; t_on := t_on t |}.

(** timer/timer-async.go L53-61: func Init; false: ErrTimerAlreadyInit *)
Definition Init (g : timing) (id : Z) (cb : bool) : timing * bool :=
  if t_cb (g_timers g id) then (g, false) else (s_timer g id (w_cb (g_timers g id) cb), true).

(** timer/timer-async.go L64-76: func Reinit; [cb]: the new callback is not nil *)
Definition Reinit (g : timing) (id : Z) (cb : bool) : out (timing * option terr) :=
  do! r := Stop g id in
  let '(g, err) := r in
  match err with
  | Some _ => Done (g, err)
  | None => Done (s_timer g id (w_on (w_cb (g_timers g id) cb) false), None)
  end.

(** timer/timer-async.go L77-81: func Deinit *)
Definition Deinit (g : timing) (id : Z) : out (timing * option terr) := Stop g id.

(** timer/timing.go L101-106: one turn of the loop of Start.  The second result is how long the
    thread is told to sleep (monotonic/time.go L60: Until(to) = t - to, wrapping). *)
Definition turn (fuel : nat) (h : Z -> list uop) (g : timing) (now : Z) : out (timing * Z) :=
  do! r := checkTimers fuel h g now in
  let '(g, nextWhen, _) := r in
  Done (g, i64 (nextWhen - now)).

(** timer/timing.go L99-107: the loop, with what users of timers do meanwhile.  The state is the
    timing and the time before which the thread sleeps; Sleep does not return early, and at once
    when told to sleep for nothing or less. *)
Inductive serve (h : Z -> list uop) : timing * Z -> timing * Z -> Prop :=
| ServeEnd g w : serve h (g, w) (g, w)
| ServeUser g w now o g1 s : user_step g now o = Done g1 -> serve h (g1, w) s -> serve h (g, w) s
| ServeTurn g w now fuel g1 d s : w <= now -> turn fuel h g now = Done (g1, d) ->
    serve h (g1, now + Z.max 0 d) s -> serve h (g, w) s.
