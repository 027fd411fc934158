(** timer/timing-wheel/timing-wheel.go: starting and stopping a wheel, as the moves of the goroutine
    that runs Start, of the ticker and of a caller of Stop.  What a tick does is WheelModel.v; here
    it is only counted.  One Start at a time; the interval is at least one, so that Tick is not
    refused for it. *)
From Verif Require Import Go.

(** The ticker: never started, running, stopped.  timer/timer-async.go L93-124, 131-168, 270-278: only one never
    started can be started (Tick of any other is refused, and Start of the wheel does not look at
    the error), stopping one never started changes nothing. *)
Inductive ticker := TNew | TRunning | TStopped.
Definition ticker_Tick (t : ticker) : ticker := match t with TNew => TRunning | _ => t end.
Definition ticker_Stop (t : ticker) : ticker := match t with TRunning => TStopped | _ => t end.

(** Where the goroutine is: not started; running the timers of a tick or about to look at its two
    channels; waiting at the select; past the receive from the stop channel; returned. *)
Inductive place := PNone | PBusy | PWaiting | PLeaving | PReturned.

(** timing-wheel.go L11-18; [stop]: the channel is not nil; [signal]: the ticker's channel, of one place, is full *)
Record life := { stop : bool; tick : ticker; signal : bool; at_ : place; handled : Z }.

(** timing-wheel.go L21-27: Init *)
Definition new_life : life := {| stop := true; tick := TNew; signal := false; at_ := PNone; handled := 0 |}.

Inductive move :=
| Start        (** L44-45 a goroutine calls Start *)
| Due          (** the ticker's time has come: timer-sync.go L74-79 TimerHandler *)
| Next         (** L47-59 the goroutine is done with a tick and looks at its channels *)
| Leave        (** L60-65 it closes the stop channel, forgets it, leaves the loop and stops the ticker *)
| Stop.        (** L69-81 a caller calls Stop *)

(** One move; the second part is what Stop reports ("already stopped").  [None]: the move cannot be made. *)
Definition make (s : life) (m : move) : option (life * option bool) :=
  match m with
  | Start =>
      match at_ s with
      | PNone | PReturned => Some ({| stop := stop s; tick := ticker_Tick (tick s); signal := signal s; at_ := PBusy; handled := handled s |}, None)
      | _ => None
      end
  | Due =>
      match tick s with
      | TRunning =>
          match at_ s with
          | PWaiting => Some ({| stop := stop s; tick := tick s; signal := signal s; at_ := PBusy; handled := handled s + 1 |}, None)
          | _ => Some ({| stop := stop s; tick := tick s; signal := true; at_ := at_ s; handled := handled s |}, None)
          end
      | _ => None
      end
  | Next =>
      match at_ s with
      | PBusy =>
          if signal s then Some ({| stop := stop s; tick := tick s; signal := false; at_ := PBusy; handled := handled s + 1 |}, None)
          else Some ({| stop := stop s; tick := tick s; signal := false; at_ := PWaiting; handled := handled s |}, None)
      | _ => None
      end
  | Leave =>
      match at_ s with
      | PLeaving => Some ({| stop := false; tick := ticker_Stop (tick s); signal := signal s; at_ := PReturned; handled := handled s |}, None)
      | _ => None
      end
  | Stop =>
      if negb (stop s) then Some (s, Some true)
      else match at_ s with
      | PWaiting => Some ({| stop := stop s; tick := ticker_Stop (tick s); signal := signal s; at_ := PLeaving; handled := handled s |}, Some false)
      | _ => Some ({| stop := stop s; tick := ticker_Stop (tick s); signal := signal s; at_ := at_ s; handled := handled s |}, Some true)
      end
  end.
Fixpoint moves (s : life) (l : list move) : option life :=
  match l with
  | [] => Some s
  | m :: l => match make s m with Some r => moves (fst r) l | None => None end
  end.

(** timing-wheel.go L49-58: one tick when callbacks add timers.  [timers[:0]] shares the array of the
    slot: what is added to the slot during the tick overwrites [timers] from its start, until the
    array is full and append moves the slot ([moved]). *)
From Verif Require Import WheelModel.
Record slot := { arr : list wtimer; used : nat; moved : option (list wtimer) }.
Definition slot_add (s : slot) (t : wtimer) : slot :=
  match moved s with
  | Some l => {| arr := arr s; used := used s; moved := Some (l ++ [t]) |}
  | None =>
      if (used s <? length (arr s))%nat then {| arr := upd (arr s) (used s) t; used := S (used s); moved := None |}
      else {| arr := arr s; used := used s; moved := Some (arr s ++ [t]) |}
  end.
(** [pos]: the slot of the tick; [w]: the wheel, with its other slots *)
Definition add_during (pos : Z) (w : wheel) (s : slot) (p : Z) (t : wtimer) : res (wheel * slot) :=
  if p =? pos then Ok (w, slot_add s t) else let! w := slot_append w p t in Ok (w, s).
(** L92-97 checkAndAddTimerAgain *)
Definition again_during (pos : Z) (w : wheel) (s : slot) (t : wtimer) : res (wheel * slot) :=
  if 0 <? snd t then let! p := addedPosition w t in add_during pos w s p t else Ok (w, s).
(** L29-41 AddTimer from a callback; a callback run by it adds nothing more *)
Definition AddTimer_during (pos : Z) (w : wheel) (s : slot) (t : wtimer) : res (wheel * slot * list Z) :=
  let! p := addedPosition w t in
  if w_size w <? p then Panic
  else if p =? w_pos w then let! r := again_during pos w s t in Ok (r, [fst t])
  else let! r := add_during pos w s p t in Ok (r, []).
Fixpoint adds_during (pos : Z) (w : wheel) (s : slot) (ts : list wtimer) : res (wheel * slot * list Z) :=
  match ts with
  | [] => Ok (w, s, [])
  | t :: ts =>
      let! r := AddTimer_during pos w s t in
      let '(w, s, f) := r in
      let! r := adds_during pos w s ts in
      let '(w, s, f') := r in Ok (w, s, f ++ f')
  end.
(** L54-58: [todo] are the indexes still to run, [h id] what the callback of a timer adds *)
Fixpoint run_during (h : Z -> list wtimer) (pos : Z) (w : wheel) (s : slot) (todo : list nat) : res (wheel * slot * list Z) :=
  match todo with
  | [] => Ok (w, s, [])
  | i :: todo =>
      match nth_error (arr s) i with
      | None => Panic
      | Some t =>
          let! r := adds_during pos w s (h (fst t)) in
          let '(w, s, f) := r in
          let! r := again_during pos w s t in
          let '(w, s) := r in
          let! r := run_during h pos w s todo in
          let '(w, s, f') := r in Ok (w, s, fst t :: f ++ f')
      end
  end.
Definition tick_during (h : Z -> list wtimer) (w : wheel) : res (wheel * list Z) :=
  let pos := w_pos w in
  let w := incrementTickPosition w in
  let! timers := idx (w_slots w) pos in
  let! r := run_during h pos w {| arr := timers; used := 0; moved := None |} (seq 0 (length timers)) in
  let '(w, s, f) := r in
  let! slots := set_idx (w_slots w) pos (match moved s with Some l => l | None => firstn (used s) (arr s) end) in
  Ok (w_set w (w_pos w) slots, f).
