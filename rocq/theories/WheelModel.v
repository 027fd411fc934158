(** Model of timer/timing-wheel/timing-wheel.go and of the limited ticker
    (timer/tick-limit.go).  A timer on the wheel is (identity, period); callbacks
    only report that they ran. *)
From Verif Require Import Go.

Definition wtimer : Type := Z * Z.

(** timing-wheel.go L11-18: type TimingWheel *)
Record wheel := { w_size : Z; w_interval : Z; w_pos : Z; w_slots : list (list wtimer) }.

Definition w_set (w : wheel) (pos : Z) (slots : list (list wtimer)) : wheel :=
  {| w_size := w_size w; w_interval := w_interval w; w_pos := pos; w_slots := slots |}.

(** timing-wheel.go L21-27: func Init; make panics for a negative size *)
Definition wheel_Init (interval wheelSize : Z) : res wheel :=
  if wheelSize <? 0 then Panic
  else Ok {| w_size := wheelSize; w_interval := interval; w_pos := 0; w_slots := repeat [] (Z.to_nat wheelSize) |}.

(** timing-wheel.go L99-101: func addedPosition *)
Definition addedPosition (w : wheel) (t : wtimer) : res Z :=
  if w_interval w =? 0 then Panic else Ok (i64 (i64 (Z.quot (snd t) (w_interval w)) + w_pos w)).

(** tw.wheel[p] = append(tw.wheel[p], t) *)
Definition slot_append (w : wheel) (p : Z) (t : wtimer) : res wheel :=
  let! s := idx (w_slots w) p in
  let! slots := set_idx (w_slots w) p (s ++ [t]) in
  Ok (w_set w (w_pos w) slots).

(** timing-wheel.go L92-97: func checkAndAddTimerAgain *)
Definition checkAndAddTimerAgain (w : wheel) (t : wtimer) : res wheel :=
  if 0 <? snd t then let! p := addedPosition w t in slot_append w p t else Ok w.

(** timing-wheel.go L29-41: func AddTimer; the list is the callbacks run *)
Definition wheel_AddTimer (w : wheel) (t : wtimer) : res (wheel * list Z) :=
  let! p := addedPosition w t in
  if w_size w <? p then Panic
  else if p =? w_pos w then
    let! w := checkAndAddTimerAgain w t in Ok (w, [fst t])
  else let! w := slot_append w p t in Ok (w, []).

(** timing-wheel.go L83-90: func incrementTickPosition *)
Definition incrementTickPosition (w : wheel) : wheel :=
  w_set w (if zlen (w_slots w) - 1 =? w_pos w then 0 else w_pos w + 1) (w_slots w).

(** timing-wheel.go L54-58: the callbacks of one slot *)
Fixpoint run_slot (w : wheel) (ts : list wtimer) : res (wheel * list Z) :=
  match ts with
  | [] => Ok (w, [])
  | t :: ts =>
      let! w := checkAndAddTimerAgain w t in
      let! r := run_slot w ts in
      Ok (fst r, fst t :: snd r)
  end.

(** timing-wheel.go L49-58: one tick *)
Definition wheel_tick (w : wheel) : res (wheel * list Z) :=
  let pos := w_pos w in
  let w := incrementTickPosition w in
  let! timers := idx (w_slots w) pos in
  let! slots := set_idx (w_slots w) pos [] in
  run_slot (w_set w (w_pos w) slots) timers.

(** A number of ticks; the callbacks run at each. *)
Fixpoint wheel_ticks (n : nat) (w : wheel) : res (wheel * list (list Z)) :=
  match n with
  | O => Ok (w, [])
  | S n =>
      let! r := wheel_tick w in
      let! r' := wheel_ticks n (fst r) in
      Ok (fst r', snd r :: snd r')
  end.

(** timer/tick-limit.go L28-31: type LimitTicker: what is left, whether the ticker was
    stopped, and how often its handler ran *)
Record limit_ticker := { lt_left : Z; lt_stopped : bool; lt_ticks : Z }.

(** timer/tick-limit.go L11-26: func NewLimitTicker, for periodNumber >= 1 *)
Definition NewLimitTicker (periodNumber : Z) : option limit_ticker :=
  if periodNumber <? 1 then None else Some {| lt_left := periodNumber; lt_stopped := false; lt_ticks := 0 |}.

(** timer/tick-limit.go L46-57: func TimerHandler *)
Definition lt_handler (t : limit_ticker) : limit_ticker :=
  if 0 <? lt_left t
  then {| lt_left := lt_left t - 1; lt_stopped := lt_stopped t; lt_ticks := lt_ticks t + 1 |}
  else {| lt_left := lt_left t; lt_stopped := true; lt_ticks := lt_ticks t + 1 |}.

(** The underlying periodic timer comes due [n] times; a stopped timer does not fire. *)
Fixpoint lt_run (n : nat) (t : limit_ticker) : limit_ticker :=
  match n with
  | O => t
  | S n => lt_run n (if lt_stopped t then t else lt_handler t)
  end.
