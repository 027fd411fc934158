(** Model of timer/timer-sync.go, timer/tick.go and timer/sleep.go: a timer that signals on a
    channel, used by one client thread while the timing thread of its core runs timers.

    A step is one atomic action of one thread: a compare-and-swap of the status with what the thread
    does before its next one, an operation on the channel, or the call of the handler.  Simplified:
    the statuses ModifiedEarlier and ModifiedLater are read as Waiting (timing.go:393-403 moves them
    there before anything else), Removing as Deleted, and the due time is left out: a waiting timer
    may be run at any moment.  The heap itself is TimingModel's. *)
From Verif Require Import Go.

Inductive stat := Unset | Waiting | Running | Deleted | Removed.
(** Where the timing thread is with this timer: not working on it; has claimed it (status Running);
    has put its status back and is about to call the handler. *)
Inductive runner := RIdle | RClaimed | RCalling.
(** Where the client is: between calls; at the top of the loop of Stop; about to compare-and-swap
    Waiting to Deleted; about to close.  [dein]: inside Deinit. *)
Inductive client := CIdle | CLoop (dein : bool) | CSwap (dein : bool) | CClosing.

(** timer-sync.go:36-39 Sync with timer-async.go:32-48 Async: the status, whether it has a period,
    whether it is on a heap, the signals in the channel (one at most, its capacity), whether the
    channel is closed, whether a thread has panicked, and the result of the last Stop or Deinit. *)
Record sync := Sync { s_stat : stat; s_period : bool; s_on : bool; s_run : runner; s_cli : client;
                      s_sig : nat; s_closed : bool; s_crash : bool; s_ret : option bool }.

(** timer-sync.go:44-51 Init: a channel with room for one signal *)
Definition Init : sync := Sync Unset false false RIdle CIdle 0 false false None.

(** One atomic action. *)
Inductive act :=
| AStart          (** the client calls Start *)
| ATick           (** the client calls Tick *)
| AReset          (** the client calls Reset *)
| AStop           (** the client enters Stop *)
| ADeinit         (** the client enters Deinit *)
| ALoad           (** ... loads the status *)
| ASwap           (** ... compare-and-swaps it *)
| AClose          (** ... closes the channel *)
| ARecv           (** a reader receives from the signal channel *)
| RClaim          (** the timing thread claims the timer, which is due *)
| RSettle         (** ... puts the status back *)
| RCall           (** ... calls the handler *)
| RRemove.        (** the timing thread drops a deleted timer *)

(** timer-async.go:91-124 Start, refused unless Unset and on no heap; the period stays what it was. *)
Definition start (s : sync) : sync :=
  match s_stat s with
  | Unset => if s_on s then s else Sync Waiting (s_period s) true (s_run s) (s_cli s) (s_sig s) (s_closed s) (s_crash s) (s_ret s)
  | _ => s
  end.
(** timer-async.go:270-278 Tick, both durations positive: the period is set even when Start refuses. *)
Definition tick (s : sync) : sync :=
  start (Sync (s_stat s) true (s_on s) (s_run s) (s_cli s) (s_sig s) (s_closed s) (s_crash s) (s_ret s)).
Definition with_cli (s : sync) (c : client) : sync :=
  Sync (s_stat s) (s_period s) (s_on s) (s_run s) c (s_sig s) (s_closed s) (s_crash s) (s_ret s).
(** Stop returns [ok]; Deinit then closes the channel, timer-sync.go:55-62. *)
Definition stopped (s : sync) (dein ok : bool) : sync :=
  Sync (s_stat s) (s_period s) (s_on s) (s_run s) (if dein && ok then CClosing else CIdle) (s_sig s) (s_closed s) (s_crash s) (Some ok).

(** [None]: the thread cannot take this action now (it is elsewhere, or it would block). *)
Definition step (s : sync) (a : act) : option sync :=
  if s_crash s then None else
  match a with
  | AStart => match s_cli s with CIdle => Some (start s) | _ => None end
  | ATick => match s_cli s with CIdle => Some (tick s) | _ => None end
  (* timer-async.go:175-261; it waits while the timer is being run *)
  | AReset => match s_cli s, s_stat s with
              | CIdle, Running => None
              | CIdle, _ => Some (Sync Waiting (s_period s) true (s_run s) CIdle (s_sig s) (s_closed s) (s_crash s) (s_ret s))
              | _, _ => None
              end
  | AStop => match s_cli s with CIdle => Some (with_cli s (CLoop false)) | _ => None end
  | ADeinit => match s_cli s with CIdle => Some (with_cli s (CLoop true)) | _ => None end
  (* timer-async.go:138-167 *)
  | ALoad => match s_cli s with
             | CLoop dein =>
                 match s_stat s with
                 | Unset => Some (stopped s dein false)
                 | Waiting => Some (with_cli s (CSwap dein))
                 | Running => Some s
                 | Deleted | Removed => Some (stopped s dein true)
                 end
             | _ => None
             end
  | ASwap => match s_cli s with
             | CSwap dein =>
                 match s_stat s with
                 | Waiting => Some (stopped (Sync Deleted (s_period s) (s_on s) (s_run s) (s_cli s) (s_sig s) (s_closed s) (s_crash s) (s_ret s)) dein true)
                 | _ => Some (with_cli s (CLoop dein))
                 end
             | _ => None
             end
  (* timer-sync.go:60: closing a closed channel panics *)
  | AClose => match s_cli s with
              | CClosing => Some (Sync (s_stat s) (s_period s) (s_on s) (s_run s) CIdle (s_sig s) true (s_closed s) (s_ret s))
              | _ => None
              end
  (* a receive: a signal, or at once the zero value from a closed channel; else it blocks *)
  | ARecv => match s_sig s with
             | S k => Some (Sync (s_stat s) (s_period s) (s_on s) (s_run s) (s_cli s) k (s_closed s) (s_crash s) (s_ret s))
             | O => if s_closed s then Some s else None
             end
  (* timing.go:366-381 *)
  | RClaim => match s_run s, s_stat s with
              | RIdle, Waiting => if s_on s then Some (Sync Running (s_period s) (s_on s) RClaimed (s_cli s) (s_sig s) (s_closed s) (s_crash s) (s_ret s)) else None
              | _, _ => None
              end
  (* timing.go:428-447 *)
  | RSettle => match s_run s with
               | RClaimed =>
                   if s_period s then Some (Sync Waiting true (s_on s) RCalling (s_cli s) (s_sig s) (s_closed s) (s_crash s) (s_ret s))
                   else Some (Sync Unset false false RCalling (s_cli s) (s_sig s) (s_closed s) (s_crash s) (s_ret s))
               | _ => None
               end
  (* timing.go:454-457, timer-sync.go:68-73: a non-blocking send; on a closed channel it panics *)
  | RCall => match s_run s with
             | RCalling =>
                 if s_closed s then Some (Sync (s_stat s) (s_period s) (s_on s) RIdle (s_cli s) (s_sig s) true true (s_ret s))
                 else Some (Sync (s_stat s) (s_period s) (s_on s) RIdle (s_cli s) 1 false (s_crash s) (s_ret s))
             | _ => None
             end
  (* timing.go:383-391 *)
  | RRemove => match s_run s, s_stat s with
               | RIdle, Deleted => Some (Sync Removed (s_period s) false RIdle (s_cli s) (s_sig s) (s_closed s) (s_crash s) (s_ret s))
               | _, _ => None
               end
  end.
Fixpoint run (s : sync) (l : list act) : option sync :=
  match l with [] => Some s | a :: l => match step s a with Some s => run s l | None => None end end.
