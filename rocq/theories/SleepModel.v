(** Model of the functions that make a timer and start it in one call (timer/timer-async.go
    NewAsync, timer/timer-sync.go After and NewSync, timer/tick.go) and of timer/sleep.go. *)
From Verif Require Import Go HeapModel TimingModel TimerLifeModel.

(** var timer Async (or Sync): the zero value, in a place no other timer is *)
Definition declare (g : timing) (id : Z) : timing :=
  s_timer g id {| t_when := 0; t_period := 0; t_status := Unset; t_cb := false; t_on := false |}.

(** timer/timer-async.go L21-27: func NewAsync, and timer/timer-sync.go L28-34: func NewSync; [cb]: the
    callback is not nil, for NewSync it is the timer itself.  The error of Init is ignored. *)
Definition NewAsync (g : timing) (id d : Z) (cb : bool) (now : Z) : out (timing * option terr) :=
  Start (fst (Init (declare g id) id cb)) id d now.
(** timer/timer-sync.go L15-23: func After panics on any error *)
Definition After (g : timing) (id d now : Z) : out timing :=
  do! r := NewAsync g id d true now in
  let '(g, err) := r in
  match err with Some _ => Crash | None => Done g end.
(** timer/tick.go L15-21: func NewSyncTick and L27-33: func NewAsyncTick *)
Definition NewAsyncTick (g : timing) (id first interval : Z) (cb : bool) (now : Z) : out (timing * option terr) :=
  Tick (fst (Init (declare g id) id cb)) id first interval now.

(** timer/sleep.go L12-24: func Sleep.  The thread is before its Yield (L23), waiting in it, or has
    returned.  The package scheduler the file imports is not in the repository: a thread waiting in
    Yield is taken to go on when its TimerHandler is called, and the call to mean nothing to a thread
    that is not waiting (the case the TODO of L22 asks about). *)
Inductive phase := Before | Waits | Returned.
Definition Sleep (g : timing) (id d now : Z) : out (timing * phase) :=
  if d <=? 0 then Done (g, Returned)
  else
    do! r := NewAsync g id d true now in            (* the error of Start is ignored *)
    Done (fst r, Before).
Definition fires (id : Z) (e : event) : bool := match e with EFire k _ => k =? id | _ => false end.
(** What may happen next: the thread calls Yield, or anything happens to the timers of the core. *)
Inductive sact := SYield | SOp (o : op).
Definition sleep_step (h : Z -> list uop) (id : Z) (s : timing * phase) (a : sact) : out (timing * phase) :=
  let '(g, p) := s in
  match a with
  | SYield => Done (g, match p with Before => Waits | _ => p end)
  | SOp o =>
      do! g' := step h g o in
      Done (g', match p with
                | Waits => if existsb (fires id) (skipn (length (g_log g)) (g_log g')) then Returned else Waits
                | _ => p
                end)
  end.
Fixpoint sleep_run (h : Z -> list uop) (id : Z) (s : timing * phase) (l : list sact) : out (timing * phase) :=
  match l with
  | [] => Done s
  | a :: l => do! s := sleep_step h id s a in sleep_run h id s l
  end.
