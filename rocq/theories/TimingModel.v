(** Model of the timer scheduler: timer/timing.go, timer/timer-async.go, timer/util.go.

    One Timing (one CPU core), one thread at a time: every CompareAndSwap sees the
    value just loaded, so the retry branches and the Running/Removing/Moving/
    Modifying waits never occur.  Counters are unbounded (int32 in the code).
    Timers are named by numbers; [g_timers] is their memory.  The mutex
    timingHeapSync is not re-entrant: taking it while held is [Blocked]. *)
From Verif Require Import Go HeapModel.

(** timer/status.go L58-99 *)
Inductive status := Unset | Waiting | Running | Deleted | Removing | Removed
                  | Modifying | ModifiedEarlier | ModifiedLater | Moving.

(** timer/timer-async.go L32-48: type Async; [t_cb]: callback != nil, [t_on]: timing != nil *)
Record timer := { t_when : Z; t_period : Z; t_status : status; t_cb : bool; t_on : bool }.

(** What happened, in order: the observable history. *)
Inductive event :=
| EArm (id due : Z)        (** a successful Start or Reset *)
| EStop (id : Z)           (** a successful Stop of a pending timer *)
| EFire (id now : Z)       (** the callback of the timer is called *)
| ERearm (id due : Z).     (** a periodic timer set its next due time *)

(** timer/timing.go L26-51: type Timing; [g_log] is the history *)
Record timing := {
  g_heap : list bucket;
  g_timers : Z -> timer;
  g_t0 : Z;            (* timer0When *)
  g_me : Z;            (* timerModifiedEarliest *)
  g_count : Z;         (* timersCount *)
  g_del : Z;           (* deletedTimersCount *)
  g_log : list event;
}.

(** How a call ends. *)
Inductive out (A : Type) :=
| Done (a : A)
| Crash            (** run-time panic: index out of range or nil dereference *)
| Blocked          (** waits for a lock the caller itself holds *)
| Hang.            (** never returns (or the model's fuel ran out) *)
Arguments Done {A} a. Arguments Crash {A}. Arguments Blocked {A}. Arguments Hang {A}.

Definition obind {A B} (r : out A) (f : A -> out B) : out B :=
  match r with Done a => f a | Crash => Crash | Blocked => Blocked | Hang => Hang end.
Notation "'do!' x ':=' r 'in' k" := (obind r (fun x => k))
  (at level 200, x binder, r at level 100, k at level 200, right associativity).
Definition lift {A} (r : res A) : out A := match r with Ok a => Done a | Panic => Crash end.

(** Field updates. *)
Definition tset (m : Z -> timer) (id : Z) (t : timer) : Z -> timer :=
  fun k => if k =? id then t else m k.
Definition w_status (t : timer) (s : status) : timer :=
  {| t_when := t_when t; t_period := t_period t; t_status := s; t_cb := t_cb t; t_on := t_on t |}.
Definition w_when (t : timer) (w : Z) : timer :=
  {| t_when := w; t_period := t_period t; t_status := t_status t; t_cb := t_cb t; t_on := t_on t |}.
Definition w_period (t : timer) (p : Z) : timer :=
  {| t_when := t_when t; t_period := p; t_status := t_status t; t_cb := t_cb t; t_on := t_on t |}.
Definition w_on (t : timer) (b : bool) : timer :=
  {| t_when := t_when t; t_period := t_period t; t_status := t_status t; t_cb := t_cb t; t_on := b |}.
Definition s_heap (g : timing) (h : list bucket) : timing :=
  {| g_heap := h; g_timers := g_timers g; g_t0 := g_t0 g; g_me := g_me g; g_count := g_count g; g_del := g_del g; g_log := g_log g |}.
Definition s_timer (g : timing) (id : Z) (t : timer) : timing :=
  {| g_heap := g_heap g; g_timers := tset (g_timers g) id t; g_t0 := g_t0 g; g_me := g_me g; g_count := g_count g; g_del := g_del g; g_log := g_log g |}.
Definition s_t0 (g : timing) (x : Z) : timing :=
  {| g_heap := g_heap g; g_timers := g_timers g; g_t0 := x; g_me := g_me g; g_count := g_count g; g_del := g_del g; g_log := g_log g |}.
Definition s_me (g : timing) (x : Z) : timing :=
  {| g_heap := g_heap g; g_timers := g_timers g; g_t0 := g_t0 g; g_me := x; g_count := g_count g; g_del := g_del g; g_log := g_log g |}.
Definition s_count (g : timing) (x : Z) : timing :=
  {| g_heap := g_heap g; g_timers := g_timers g; g_t0 := g_t0 g; g_me := g_me g; g_count := x; g_del := g_del g; g_log := g_log g |}.
Definition s_del (g : timing) (x : Z) : timing :=
  {| g_heap := g_heap g; g_timers := g_timers g; g_t0 := g_t0 g; g_me := g_me g; g_count := g_count g; g_del := x; g_log := g_log g |}.
Definition s_log (g : timing) (e : event) : timing :=
  {| g_heap := g_heap g; g_timers := g_timers g; g_t0 := g_t0 g; g_me := g_me g; g_count := g_count g; g_del := g_del g; g_log := g_log g ++ [e] |}.

Definition set_status (g : timing) (id : Z) (s : status) : timing :=
  s_timer g id (w_status (g_timers g id) s).

(** timer/const.go L10 *)
Definition maxWhen : Z := 2 ^ 63 - 1.

(** timer/util.go L14-27: func when; [now] is what the clock returns.
    monotonic/time.go L42: Add wraps at 64 bits. *)
Definition when_ (d now : Z) : Z :=
  if d <=? 0 then now
  else let t := i64 (now + d) in if t <? 0 then maxWhen else t.

(** timer/timing.go L574-580: func updateTimer0When *)
Definition updateTimer0When (g : timing) : timing :=
  match g_heap g with
  | [] => s_t0 g 0
  | b :: _ => s_t0 g (b_when b)
  end.

(** The counter bookkeeping shared by L148-152 and L163-167. *)
Definition count_removed (g : timing) : timing :=
  let g := s_count g (g_count g - 1) in
  if g_count g =? 0 then s_me g 0 else g.

(** timer/timing.go L159-168: func deleteTimer0; timing-heap.go L74 clears timer.timing *)
Definition deleteTimer0 (g : timing) : out timing :=
  do! b := lift (at_ (g_heap g) 0) in
  do! h := lift (DeleteTimer0 (g_heap g)) in
  let g := s_timer g (b_timer b) (w_on (g_timers g (b_timer b)) false) in
  let g := updateTimer0When (s_heap g h) in
  Done (count_removed g).

(** timer/timing.go L141-154: func deleteTimer *)
Definition deleteTimer (g : timing) (i : nat) : out (timing * nat) :=
  do! b := lift (at_ (g_heap g) i) in
  do! r := lift (DeleteTimer (g_heap g) i) in
  let g := s_timer g (b_timer b) (w_on (g_timers g (b_timer b)) false) in
  let g := s_heap g (fst r) in
  let g := if Nat.eqb i 0 then updateTimer0When g else g in
  Done (count_removed g, snd r).

(** timer/timing.go L124-133: AddTimer after cleaning, under the lock *)
Definition add_locked (g : timing) (id : Z) : out timing :=
  let timerWhen := t_when (g_timers g id) in
  let g := s_timer g id (w_on (g_timers g id) true) in
  do! h := lift (heap_add (g_heap g) {| b_timer := id; b_when := timerWhen |}) in
  let g := s_heap g h in
  do! b0 := lift (at_ h 0) in
  let g := if b_timer b0 =? id then s_t0 g timerWhen else g in
  Done (s_count g (g_count g + 1)).

(** timer/timing.go L179-215: the loop of cleanTimers, entered with the lock held;
    re-adding a modified timer (L207) takes the lock again: [Blocked].
    Every other round removes one entry, so fuel [S (length heap)] suffices. *)
Fixpoint clean_loop (fuel : nat) (g : timing) : out timing :=
  match fuel with
  | O => Hang
  | S f =>
      do! b := lift (at_ (g_heap g) 0) in
      let id := b_timer b in
      match t_status (g_timers g id) with
      | Deleted =>
          let g := set_status g id Removing in
          do! g := deleteTimer0 g in
          let g := set_status g id Removed in
          clean_loop f (s_del g (g_del g - 1))
      | ModifiedEarlier | ModifiedLater =>
          let g := set_status g id Moving in
          do! h := lift (let! x := at_ (g_heap g) 0 in
                         Ok (upd (g_heap g) 0 {| b_timer := b_timer x; b_when := t_when (g_timers g id) |})) in
          do! g := deleteTimer0 (s_heap g h) in
          Blocked
      | _ => Done g
      end
  end.

(** timer/timing.go L174-216: func cleanTimers *)
Definition cleanTimers (g : timing) : out timing :=
  match g_heap g with
  | [] => Done g
  | _ => clean_loop (S (length (g_heap g))) g
  end.

(** timer/timing.go L119-136: func AddTimer, lock free at entry *)
Definition AddTimer (g : timing) (id : Z) : out timing :=
  do! g := cleanTimers g in add_locked g id.

(** timer/timing.go L584-594: func updateTimerModifiedEarliest *)
Definition updateTimerModifiedEarliest (g : timing) (nextWhen : Z) : timing :=
  if negb (g_me g =? 0) && (g_me g <? nextWhen) then g else s_me g nextWhen.

(** Errors of the timer API. *)
Inductive terr := ErrTimerNotInit | ErrNegativeDuration | ErrTimerAlreadyStarted | ErrTimerBadStatus.

(** timer/timer-async.go L93-124: func Start; [now]: the clock *)
Definition Start (g : timing) (id d now : Z) : out (timing * option terr) :=
  let t := g_timers g id in
  if negb (t_cb t) then Done (g, Some ErrTimerNotInit)
  else if d <? 1 then Done (g, Some ErrNegativeDuration)
  else match t_status t with
  | Unset =>
      if t_on t then Done (g, Some ErrTimerAlreadyStarted)
      else
        let g := set_status g id Waiting in
        let g := s_timer g id (w_when (g_timers g id) (when_ d now)) in
        let g := s_timer g id (w_on (g_timers g id) true) in
        let g := s_log g (EArm id (when_ d now)) in
        do! g := AddTimer g id in
        Done (g, None)
  | _ => Done (g, Some ErrTimerAlreadyStarted)
  end.

(** timer/timer-async.go L270-278: func Tick *)
Definition Tick (g : timing) (id first interval now : Z) : out (timing * option terr) :=
  if (first <? 1) || (interval <? 1) then Done (g, Some ErrNegativeDuration)
  else Start (s_timer g id (w_period (g_timers g id) interval)) id first now.

(** timer/timer-async.go L131-168: func Stop; a Waiting or modified timer with a nil
    timing would be a nil dereference (L151) *)
Definition Stop (g : timing) (id : Z) : out (timing * option terr) :=
  let t := g_timers g id in
  if negb (t_cb t) then Done (g, Some ErrTimerNotInit)
  else match t_status t with
  | Unset => Done (g, Some ErrTimerNotInit)
  | Waiting | ModifiedLater | ModifiedEarlier =>
      let g := s_log (set_status g id Deleted) (EStop id) in
      if t_on t then Done (s_del g (g_del g + 1), None) else Crash
  | Deleted | Removing | Removed => Done (g, None)
  | Running | Moving | Modifying => Hang
  end.

(** timer/timer-async.go L228-260: the second half of Reset *)
Definition reset_finish (g : timing) (id d now : Z) (wasRemoved : bool) : out (timing * option terr) :=
  let t := g_timers g id in
  let timerOldWhen := t_when t in
  let timerNewWhen := when_ d now in
  let t := w_when t timerNewWhen in
  let t := if negb (t_period t =? 0) then w_period t d else t in
  let g := s_log (s_timer g id t) (EArm id timerNewWhen) in
  if wasRemoved then
    let g := s_timer g id (w_on (g_timers g id) true) in
    do! g := AddTimer g id in
    Done (set_status g id Waiting, None)
  else if timerNewWhen <? timerOldWhen then
    if t_on (g_timers g id) then
      Done (set_status (updateTimerModifiedEarliest g timerNewWhen) id ModifiedEarlier, None)
    else Crash
  else Done (set_status g id ModifiedLater, None).

(** timer/timer-async.go L175-261: func Reset *)
Definition Reset (g : timing) (id d now : Z) : out (timing * option terr) :=
  let t := g_timers g id in
  if d <? 1 then Done (g, Some ErrNegativeDuration)
  else if negb (t_cb t) then Done (g, Some ErrTimerNotInit)
  else match t_status t with
  | Waiting | ModifiedEarlier | ModifiedLater =>
      reset_finish (set_status g id Modifying) id d now false
  | Unset | Removed => reset_finish (set_status g id Modifying) id d now true
  | Deleted =>
      let g := set_status g id Modifying in
      if t_on t then reset_finish (s_del g (g_del g - 1)) id d now false else Crash
  | Running | Removing | Moving | Modifying => Hang
  end.

(** What user code may call on a timer. *)
Inductive uop :=
| UStart (id d : Z)
| UTick (id first interval : Z)
| UStop (id : Z)
| UReset (id d : Z).

Definition user_step (g : timing) (now : Z) (o : uop) : out timing :=
  match o with
  | UStart id d => do! r := Start g id d now in Done (fst r)
  | UTick id f i => do! r := Tick g id f i now in Done (fst r)
  | UStop id => do! r := Stop g id in Done (fst r)
  | UReset id d => do! r := Reset g id d now in Done (fst r)
  end.

Fixpoint user_steps (g : timing) (now : Z) (ops : list uop) : out timing :=
  match ops with
  | [] => Done g
  | o :: ops => do! g := user_step g now o in user_steps g now ops
  end.

(** timer/timing.go L431-435: the next due time of a periodic timer.
    monotonic/time.go L54: Since(from) = from - t; Go division truncates; every
    operation wraps at 64 bits. *)
Definition next_when (when period now : Z) : Z :=
  let delta := i64 (now - when) in
  let w := i64 (when + i64 (period * i64 (1 + Z.quot (i64 (- delta)) period))) in
  if w <? 0 then maxWhen else w.

(** timer/timing.go L424-462: func runOneTimer; [h id] is what the callback of timer
    [id] does to timers while the lock is released (L455-457). *)
Definition runOneTimer (h : Z -> list uop) (g : timing) (id now : Z) : out timing :=
  do! g :=
    (if 0 <? t_period (g_timers g id) then
       let t := g_timers g id in
       let w := next_when (t_when t) (t_period t) now in
       let g := s_timer g id (w_when t w) in
       do! hp := lift (SiftDownTimer (g_heap g) 0) in
       let g := set_status (s_heap g hp) id Waiting in
       Done (s_log (s_log (updateTimer0When g) (EFire id now)) (ERearm id w))
     else
       do! g := deleteTimer0 g in
       Done (s_log (set_status g id Unset) (EFire id now))) in
  user_steps g now (h id).

(** timer/timing.go L364-419: func runTimer; rounds that loop remove one entry.
    Returns the code's result: 0 ran one, -1 no more, else when the first is due. *)
Fixpoint runTimer (fuel : nat) (h : Z -> list uop) (g : timing) (now : Z) : out (timing * Z) :=
  match fuel with
  | O => Hang
  | S f =>
      do! b := lift (at_ (g_heap g) 0) in
      let id := b_timer b in
      match t_status (g_timers g id) with
      | Waiting =>
          if now <? t_when (g_timers g id) then Done (g, t_when (g_timers g id))
          else do! g := runOneTimer h (set_status g id Running) id now in Done (g, 0)
      | Deleted =>
          let g := set_status g id Removing in
          do! g := deleteTimer0 g in
          let g := set_status g id Removed in
          let g := s_del g (g_del g - 1) in
          match g_heap g with
          | [] => Done (g, -1)
          | _ => runTimer f h g now
          end
      | ModifiedEarlier | ModifiedLater =>
          do! g := deleteTimer0 (set_status g id Moving) in
          Blocked                                    (* L401: AddTimer locks again *)
      | _ => Hang                                    (* log.Fatal only logs; the loop repeats *)
      end
  end.

(** timer/timing.go L298-336: the loop of adjustTimers over the slice taken before any
    deletion: [n] slots; a slot vacated by a deletion holds a nil timer (timing-heap.go
    L57), whose status cannot be loaded. [moved] are the timers taken off. *)
Fixpoint adjust_loop (fuel : nat) (g : timing) (n i : nat) (moved : list Z) : out (timing * list Z) :=
  if Nat.leb n i then Done (g, moved) else
  match fuel with
  | O => Hang
  | S f =>
      match nth_error (g_heap g) i with
      | None => Crash
      | Some b =>
          let id := b_timer b in
          match t_status (g_timers g id) with
          | Deleted =>
              do! r := deleteTimer (set_status g id Removing) i in
              let g := set_status (fst r) id Removed in
              adjust_loop f (s_del g (g_del g - 1)) n (snd r) moved
          | ModifiedEarlier | ModifiedLater =>
              do! r := deleteTimer (set_status g id Moving) i in
              adjust_loop f (fst r) n (snd r) (moved ++ [id])
          | Waiting => adjust_loop f g n (S i) moved
          | Modifying => Hang
          | _ => adjust_loop f g n (S i) moved       (* log.Fatal only logs *)
          end
      end
  end.

(** timer/timing.go L278-345: func adjustTimers, lock held; L339/L351 AddTimer locks again *)
Definition adjustTimers (fuel : nat) (g : timing) (now : Z) : out timing :=
  if (g_me g =? 0) || (now <? g_me g) then Done g
  else
    do! r := adjust_loop fuel (s_me g 0) (length (g_heap g)) 0 [] in
    match snd r with
    | [] => Done (fst r)
    | _ => Blocked
    end.

(** timer/timing.go L483-531: the loop of clearDeletedTimers; [arr] is the whole slice. *)
Fixpoint clear_loop (todo : list nat) (g : timing) (arr : list bucket) (to : nat) (changed : bool) (cdel : Z)
  : out (timing * list bucket * nat * Z) :=
  match todo with
  | [] => Done (g, arr, to, cdel)
  | i :: todo =>
      do! b := lift (at_ arr i) in
      let id := b_timer b in
      match t_status (g_timers g id) with
      | Waiting =>
          if changed then
            do! r := lift (SiftUpTimer (upd arr to b) to) in
            clear_loop todo g (fst r) (S to) changed cdel
          else clear_loop todo g arr (S to) changed cdel
      | ModifiedEarlier | ModifiedLater =>
          let b := {| b_timer := id; b_when := t_when (g_timers g id) |} in
          let arr := upd (upd arr i b) to b in
          do! r := lift (SiftUpTimer arr to) in
          clear_loop todo (set_status g id Waiting) (fst r) (S to) true cdel
      | Deleted =>
          let g := s_timer g id (w_on (w_status (g_timers g id) Removed) false) in
          clear_loop todo g arr to true (cdel + 1)
      | _ => Hang
      end
  end.

(** timer/timing.go L473-549: func clearDeletedTimers *)
Definition clearDeletedTimers (g : timing) : out timing :=
  let g := s_me g 0 in
  let arr := g_heap g in
  do! r := clear_loop (seq 0 (length arr)) g arr 0 false 0 in
  let '(g, arr, to, cdel) := r in
  let g := s_count (s_del g (g_del g - cdel)) (g_count g - cdel) in
  Done (updateTimer0When (s_heap g (firstn to arr))).

(** timer/timing.go L615-622: func noBarrierWakeTime *)
Definition noBarrierWakeTime (g : timing) : Z :=
  if (g_t0 g =? 0) || (negb (g_me g =? 0) && (g_me g <? g_t0 g)) then g_me g else g_t0 g.

(** timer/timing.go L597-610: func sleepUntil *)
Definition sleepUntil (g : timing) : Z :=
  let u := maxWhen in
  let u := if negb (g_t0 g =? 0) && (g_t0 g <? u) then g_t0 g else u in
  if negb (g_me g =? 0) && (g_me g <? u) then g_me g else u.

(** timer/timing.go L626-631: func isCleanNeed *)
Definition isCleanNeed (g : timing) : bool := negb (g_del g <=? Z.quot (g_count g) 4).

(** timer/timing.go L658-668: the loop of checkTimers *)
Fixpoint run_loop (fuel : nat) (h : Z -> list uop) (g : timing) (now : Z) (ran : bool)
  : out (timing * Z * bool) :=
  match g_heap g with
  | [] => Done (g, 0, ran)
  | _ =>
      match fuel with
      | O => Hang
      | S f =>
          do! r := runTimer (S (length (g_heap g))) h g now in
          let '(g, tw) := r in
          if tw =? 0 then run_loop f h g now true
          else Done (g, if 0 <? tw then tw else 0, ran)
      end
  end.

(** timer/timing.go L637-678: func checkTimers; returns nextWhen and ran.
    [fuel] bounds the rounds: callbacks may add timers. *)
Definition checkTimers (fuel : nat) (h : Z -> list uop) (g : timing) (now : Z) : out (timing * Z * bool) :=
  let next := noBarrierWakeTime g in
  if next =? 0 then Done (g, 0, false)
  else if (now <? next) && negb (isCleanNeed g) then Done (g, next, false)
  else
    do! r :=
      (match g_heap g with
       | [] => Done (g, 0, false)
       | _ => do! g := adjustTimers fuel g now in run_loop fuel h g now false
       end) in
    let '(g, nextWhen, ran) := r in
    do! g := (if Z.quot (zlen (g_heap g)) 4 <? g_del g then clearDeletedTimers g else Done g) in
    Done (g, nextWhen, ran).

(** A history: user calls and scheduler wake-ups, each at a clock reading. *)
Inductive op := OUser (now : Z) (o : uop) | OCheck (fuel : nat) (now : Z).

Definition step (h : Z -> list uop) (g : timing) (o : op) : out timing :=
  match o with
  | OUser now o => user_step g now o
  | OCheck fuel now => do! r := checkTimers fuel h g now in Done (fst (fst r))
  end.

Fixpoint run (h : Z -> list uop) (g : timing) (ops : list op) : out timing :=
  match ops with
  | [] => Done g
  | o :: ops => do! g := step h g o in run h g ops
  end.

(** A scheduler with no pending timer, and timers whose callback is set. *)
Definition new_timer : timer := {| t_when := 0; t_period := 0; t_status := Unset; t_cb := true; t_on := false |}.
Definition new_timing : timing :=
  {| g_heap := []; g_timers := fun _ => new_timer; g_t0 := 0; g_me := 0; g_count := 0; g_del := 0; g_log := [] |}.
