(** Model of timers used from several threads at once: timer/timer-async.go Start, Stop, Reset and Tick
    running beside timer/timing.go checkTimers, on one core.

    A step is one atomic action of one thread: a load or a compare-and-swap of the status of a timer, an
    addition to a counter, one access to a field that several threads use, taking or releasing the lock,
    the call of a callback.  A load followed by a compare-and-swap from the loaded value is one step where
    nothing is read in between and a failure only loads again.  Memory is sequentially consistent.

    Simplified: the queue is the set of its timers, and the thread that holds the lock may turn to any of
    them, in any order and at any moment (TimingModel and C141 have the order; every order the code can
    take is one of these).  timerModifiedEarliest and timer0When, which only choose that order, are left
    out.  Timers are initialised; the clock never goes back. *)
From Verif Require Import Go TimingModel.

(** What a thread calls on a timer. *)
Inductive cop := CStart (id d : Z) | CTick (id first interval : Z) | CStop (id : Z) | CReset (id d : Z).
Definition op_timer (o : cop) : Z := match o with CStart id _ | CTick id _ _ | CStop id | CReset id _ => id end.

(** How a call answers: nil, or the error. *)
Inductive ans := Fine | NotInit | NegativeDuration | AlreadyStarted | RacyAccess.

(** Where a thread is in its call. *)
Inductive upc :=
| UIdle
| UTick1 (id d interval : Z)            (** Tick, timer-async.go L275: about to set the period *)
| UStart1 (id d : Z)                    (** Start, L106: about to load the status *)
| UStart2 (id d : Z)                    (** L107: about to read t.timing *)
| UStart3 (id d : Z)                    (** L112: about to swap Unset to Waiting *)
| UStart4 (id d : Z)                    (** L121: about to set t.when *)
| UAdd1 (id : Z) (reset : bool)         (** L122, L236: about to set t.timing *)
| UAdd2 (id : Z) (reset : bool)         (** timing.go L120: about to lock *)
| UAdd3 (id : Z) (reset : bool)         (** L122-133: has the lock, cleaning, then appending *)
| UAdd4 (id : Z) (reset : bool)         (** L135: about to unlock *)
| UStop1 (id : Z)                       (** Stop, timer-async.go L139: about to load the status *)
| UStop2 (id : Z) (s : status)          (** L147: about to read t.timing *)
| UStop3 (id : Z) (s : status) (on : bool) (** L150: about to swap s to Deleted *)
| UStop4 (id : Z) (on : bool)           (** L151: about to count the deletion *)
| UReset1 (id d : Z)                    (** Reset, L195-226: about to claim the timer *)
| UReset2 (id d : Z)                    (** L212: about to take back the deletion *)
| UReset3 (id d : Z) (removed : bool)   (** L228-233: about to set t.when and the period *)
| UReset4 (id : Z) (earlier : bool)     (** L248-258: about to set the new status *)
| UReset5 (id : Z).                     (** L238: about to swap Modifying to Waiting *)

(** Where the thread that holds the lock is with a timer of the queue. *)
Inductive mpc :=
| MReady                                (** between two timers *)
| MRemoving (id : Z)                    (** swapped Deleted to Removing, about to take it off *)
| MGone (id : Z)                        (** took it off, about to swap Removing to Removed *)
| MCount                                (** about to take one from the deleted counter *)
| MMoving (id : Z)                      (** swapped Modified to Moving, about to take it off *)
| MSaw (id : Z)                         (** runTimer, timing.go L370: saw Waiting, about to read when *)
| MDue (id : Z)                         (** L376: about to swap Waiting to Running *)
| MRun (id : Z)                         (** L429: runOneTimer, status Running *)
| MAgain (id : Z)                       (** L438: about to swap Running to Waiting *)
| MOnce (id : Z)                        (** L445: took it off, about to swap Running to Unset *)
| MOut (id : Z)                         (** L455: about to unlock and call *)
| MClear1 (id : Z)                      (** clearDeletedTimers L511: Removing, about to clear t.timing *)
| MClear2 (id : Z)                      (** L513: about to swap Removing to Removed *)
| MClear3 (id : Z).                     (** L500-503: Moving, about to swap to Waiting *)

(** The lock of the queue: who holds it ([None]: the thread of the core), the clock reading that
    thread works with, whether a modified timer was taken off (the holder will lock again and never
    get on), the timers to be dropped when clearDeletedTimers runs, and where the holder is. *)
Inductive lk := Free | Held (who : option Z) (now : Z) (moved : bool) (drop : option (list Z)) (m : mpc).

(** The thread of the core, when it does not hold the lock. *)
Inductive spc := SIdle | SLocked | SCall (id now : Z) | SCallback (id now : Z).

(** What is seen from outside, with the clock, and the moments at which timers are set, stopped and
    taken to be run ([CLin]: the events of TimingModel). *)
Inductive cev :=
| CCall (a : Z) (o : cop) (clk : Z)
| CRet (a : Z) (o : cop) (r : ans) (clk : Z)
| CFire (id clk : Z)
| CLin (e : event).

Record cs := { c_q : list Z; c_t : Z -> timer; c_lock : lk; c_del : Z; c_clk : Z; c_sch : spc;
               c_usr : Z -> upc; c_op : Z -> cop; c_crash : bool; c_log : list cev }.

Definition x_t (s : cs) (id : Z) (t : timer) : cs :=
  {| c_q := c_q s; c_t := tset (c_t s) id t; c_lock := c_lock s; c_del := c_del s; c_clk := c_clk s; c_sch := c_sch s;
     c_usr := c_usr s; c_op := c_op s; c_crash := c_crash s; c_log := c_log s |}.
Definition x_q (s : cs) (q : list Z) : cs :=
  {| c_q := q; c_t := c_t s; c_lock := c_lock s; c_del := c_del s; c_clk := c_clk s; c_sch := c_sch s;
     c_usr := c_usr s; c_op := c_op s; c_crash := c_crash s; c_log := c_log s |}.
Definition x_lock (s : cs) (l : lk) : cs :=
  {| c_q := c_q s; c_t := c_t s; c_lock := l; c_del := c_del s; c_clk := c_clk s; c_sch := c_sch s;
     c_usr := c_usr s; c_op := c_op s; c_crash := c_crash s; c_log := c_log s |}.
Definition x_del (s : cs) (n : Z) : cs :=
  {| c_q := c_q s; c_t := c_t s; c_lock := c_lock s; c_del := n; c_clk := c_clk s; c_sch := c_sch s;
     c_usr := c_usr s; c_op := c_op s; c_crash := c_crash s; c_log := c_log s |}.
Definition x_clk (s : cs) (n : Z) : cs :=
  {| c_q := c_q s; c_t := c_t s; c_lock := c_lock s; c_del := c_del s; c_clk := n; c_sch := c_sch s;
     c_usr := c_usr s; c_op := c_op s; c_crash := c_crash s; c_log := c_log s |}.
Definition x_sch (s : cs) (p : spc) : cs :=
  {| c_q := c_q s; c_t := c_t s; c_lock := c_lock s; c_del := c_del s; c_clk := c_clk s; c_sch := p;
     c_usr := c_usr s; c_op := c_op s; c_crash := c_crash s; c_log := c_log s |}.
Definition x_usr (s : cs) (a : Z) (p : upc) : cs :=
  {| c_q := c_q s; c_t := c_t s; c_lock := c_lock s; c_del := c_del s; c_clk := c_clk s; c_sch := c_sch s;
     c_usr := fun k => if k =? a then p else c_usr s k; c_op := c_op s; c_crash := c_crash s; c_log := c_log s |}.
Definition x_op (s : cs) (a : Z) (o : cop) : cs :=
  {| c_q := c_q s; c_t := c_t s; c_lock := c_lock s; c_del := c_del s; c_clk := c_clk s; c_sch := c_sch s;
     c_usr := c_usr s; c_op := (fun k => if k =? a then o else c_op s k); c_crash := c_crash s; c_log := c_log s |}.
Definition x_crash (s : cs) : cs :=
  {| c_q := c_q s; c_t := c_t s; c_lock := c_lock s; c_del := c_del s; c_clk := c_clk s; c_sch := c_sch s;
     c_usr := c_usr s; c_op := c_op s; c_crash := true; c_log := c_log s |}.
Definition x_log (s : cs) (e : cev) : cs :=
  {| c_q := c_q s; c_t := c_t s; c_lock := c_lock s; c_del := c_del s; c_clk := c_clk s; c_sch := c_sch s;
     c_usr := c_usr s; c_op := c_op s; c_crash := c_crash s; c_log := c_log s ++ [e] |}.

Definition st_eqb (a b : status) : bool :=
  match a, b with
  | Unset, Unset | Waiting, Waiting | Running, Running | Deleted, Deleted | Removing, Removing
  | Removed, Removed | Modifying, Modifying | ModifiedEarlier, ModifiedEarlier
  | ModifiedLater, ModifiedLater | Moving, Moving => true
  | _, _ => false
  end.
Definition stat (s : cs) (id : Z) : status := t_status (c_t s id).
Definition to (s : cs) (id : Z) (st : status) : cs := x_t s id (w_status (c_t s id) st).
Definition off (s : cs) (id : Z) (b : bool) : cs := x_t s id (w_on (c_t s id) b).
(** A call comes back. *)
Definition ret (s : cs) (a : Z) (r : ans) : cs := x_log (x_usr s a UIdle) (CRet a (c_op s a) r (c_clk s)).

(** One step of the call thread [a] is in. *)
Definition user_step (s : cs) (a : Z) : option cs :=
  match c_usr s a with
  | UIdle => None
  | UTick1 id d i => Some (x_usr (x_t s id (w_period (c_t s id) i)) a (UStart1 id d))
  | UStart1 id d =>
      Some (if d <? 1 then ret s a NegativeDuration
            else if st_eqb (stat s id) Unset then x_usr s a (UStart2 id d) else ret s a AlreadyStarted)
  | UStart2 id d => Some (if t_on (c_t s id) then ret s a AlreadyStarted else x_usr s a (UStart3 id d))
  | UStart3 id d => Some (if st_eqb (stat s id) Unset then x_usr (to s id Waiting) a (UStart4 id d) else ret s a RacyAccess)
  | UStart4 id d =>
      let due := when_ d (c_clk s) in
      Some (x_log (x_usr (x_t s id (w_when (c_t s id) due)) a (UAdd1 id false)) (CLin (EArm id due)))
  | UAdd1 id r => Some (x_usr (off s id true) a (UAdd2 id r))
  | UAdd2 id r =>
      match c_lock s with
      | Free => Some (x_usr (x_lock s (Held (Some a) 0 false None MReady)) a (UAdd3 id r))
      | _ => None
      end
  | UAdd3 id r =>
      match c_lock s with
      | Held (Some b) _ false None MReady => if b =? a then Some (x_usr (x_q (off s id true) (c_q s ++ [id])) a (UAdd4 id r)) else None
      | _ => None
      end
  | UAdd4 id r =>
      match c_lock s with
      | Held (Some b) _ false None MReady => if b =? a then let s := x_lock s Free in Some (if r then x_usr s a (UReset5 id) else ret s a Fine) else None
      | _ => None
      end
  | UStop1 id =>
      match stat s id with
      | Unset => Some (ret s a NotInit)
      | Waiting | ModifiedLater | ModifiedEarlier => Some (x_usr s a (UStop2 id (stat s id)))
      | Deleted | Removing | Removed => Some (ret s a Fine)
      | Running | Moving | Modifying => Some s
      end
  | UStop2 id w => Some (x_usr s a (UStop3 id w (t_on (c_t s id))))
  | UStop3 id w on =>
      Some (if st_eqb (stat s id) w then x_log (x_usr (to s id Deleted) a (UStop4 id on)) (CLin (EStop id))
            else x_usr s a (UStop1 id))
  | UStop4 id on => Some (if on then ret (x_del s (c_del s + 1)) a Fine else x_crash s)
  | UReset1 id d =>
      if d <? 1 then Some (ret s a NegativeDuration)
      else match stat s id with
      | Waiting | ModifiedEarlier | ModifiedLater => Some (x_usr (to s id Modifying) a (UReset3 id d false))
      | Unset | Removed => Some (x_usr (to s id Modifying) a (UReset3 id d true))
      | Deleted => Some (x_usr (to s id Modifying) a (UReset2 id d))
      | Running | Removing | Moving | Modifying => Some s
      end
  | UReset2 id d => Some (if t_on (c_t s id) then x_usr (x_del s (c_del s - 1)) a (UReset3 id d false) else x_crash s)
  | UReset3 id d removed =>
      let t := c_t s id in
      let due := when_ d (c_clk s) in
      let t' := w_when t due in
      let t' := if negb (t_period t' =? 0) then w_period t' d else t' in
      let s' := x_log (x_t s id t') (CLin (EArm id due)) in
      Some (if removed then x_usr s' a (UAdd1 id true) else x_usr s' a (UReset4 id (due <? t_when t)))
  | UReset4 id earlier =>
      Some (if earlier && negb (t_on (c_t s id)) then x_crash s
            else if st_eqb (stat s id) Modifying then ret (to s id (if earlier then ModifiedEarlier else ModifiedLater)) a Fine
            else ret s a RacyAccess)
  | UReset5 id => Some (if st_eqb (stat s id) Modifying then ret (to s id Waiting) a Fine else ret s a RacyAccess)
  end.

(** Where a call begins. *)
Definition entry (o : cop) : upc :=
  match o with
  | CStart id d => UStart1 id d
  | CTick id f i => UTick1 id f i
  | CStop id => UStop1 id
  | CReset id d => UReset1 id d
  end.
(** timer-async.go L270-274: Tick looks at its durations before anything else *)
Definition refused (o : cop) : bool := match o with CTick _ f i => (f <? 1) || (i <? 1) | _ => false end.

Definition in_q (s : cs) (id : Z) : bool := existsb (Z.eqb id) (c_q s).
Definition unq (s : cs) (id : Z) : cs := x_q s (filter (fun k => negb (k =? id)) (c_q s)).

(** The holder of the lock turns to timer [id] of the queue: the loops of cleanTimers (timing.go
    L179-215), adjustTimers (L298-336), runTimer (L364-419) and clearDeletedTimers (L483-531). *)
Definition pick (s : cs) (id : Z) : option cs :=
  match c_lock s with
  | Held who now moved drop MReady =>
      if negb (in_q s id) || match who with Some a => match c_usr s a with UAdd3 _ _ => false | _ => true end | None => false end then None else
      match stat s id, drop with
      | Deleted, None => Some (x_lock (to s id Removing) (Held who now moved drop (MRemoving id)))
      | Deleted, Some _ => Some (x_lock (to s id Removing) (Held who now moved drop (MClear1 id)))
      | (ModifiedEarlier | ModifiedLater), None => Some (x_lock (to s id Moving) (Held who now moved drop (MMoving id)))
      | (ModifiedEarlier | ModifiedLater), Some _ => Some (x_lock (to s id Moving) (Held who now moved drop (MClear3 id)))
      | Waiting, None =>
          match who with
          | None => if moved then Some s else Some (x_lock s (Held who now moved drop (MSaw id)))
          | Some _ => Some s
          end
      | _, _ => Some s
      end
  | _ => None
  end.

(** The holder goes on with the timer it has turned to. *)
Definition hold_step (s : cs) : option cs :=
  match c_lock s with
  | Held who now moved drop m =>
      let at_ (s : cs) (m : mpc) := x_lock s (Held who now moved drop m) in
      match m with
      | MReady => None
      | MRemoving id => Some (at_ (off (unq s id) id false) (MGone id))
      | MGone id => Some (at_ (if st_eqb (stat s id) Removing then to s id Removed else s) MCount)
      | MCount => Some (at_ (x_del s (c_del s - 1)) MReady)
      | MMoving id => Some (x_lock (off (unq s id) id false) (Held who now true drop MReady))
      | MSaw id => Some (at_ s (if now <? t_when (c_t s id) then MReady else MDue id))
      | MDue id =>
          Some (if st_eqb (stat s id) Waiting then x_log (at_ (to s id Running) (MRun id)) (CLin (EFire id now)) else at_ s MReady)
      | MRun id =>
          let t := c_t s id in
          Some (if 0 <? t_period t then at_ (x_t s id (w_when t (next_when (t_when t) (t_period t) now))) (MAgain id)
                else at_ (off (unq s id) id false) (MOnce id))
      | MAgain id => Some (at_ (if st_eqb (stat s id) Running then x_log (to s id Waiting) (CLin (ERearm id (t_when (c_t s id)))) else s) (MOut id))
      | MOnce id => Some (at_ (if st_eqb (stat s id) Running then to s id Unset else s) (MOut id))
      | MOut id => Some (x_sch (x_lock s Free) (SCall id now))
      | MClear1 id => Some (at_ (off s id false) (MClear2 id))
      | MClear2 id =>
          Some (x_lock (if st_eqb (stat s id) Removing then to s id Removed else s)
                  (Held who now moved (match drop with Some l => Some (id :: l) | None => None end) MReady))
      | MClear3 id => Some (at_ (if st_eqb (stat s id) Moving then to s id Waiting else s) MReady)
      end
  | Free => None
  end.

(** What the thread of the core does besides: lock (timing.go L660, L457), call the callback (L456),
    begin clearDeletedTimers (L682), finish it (L533-542) and unlock (L685). *)
Inductive sact := ALock | ACall | ABack | AClear | AUnlock.
Definition core_step (s : cs) (x : sact) : option cs :=
  match x, c_sch s, c_lock s with
  | ALock, SIdle, Free => Some (x_sch (x_lock s (Held None (c_clk s) false None MReady)) SLocked)
  | ACall, SCall id now, _ => Some (x_log (x_sch s (SCallback id now)) (CFire id (c_clk s)))
  | ABack, SCallback id now, Free =>
      match c_usr s 0 with
      | UIdle => Some (x_sch (x_lock s (Held None now false None MReady)) SLocked)
      | _ => None
      end
  | AClear, _, Held None now false None MReady => Some (x_lock s (Held None now false (Some []) MReady))
  | AUnlock, _, Held None now false None MReady => Some (x_sch (x_lock s Free) SIdle)
  | AUnlock, _, Held None now false (Some l) MReady =>
      let s := x_q s (filter (fun k => negb (existsb (Z.eqb k) l)) (c_q s)) in
      Some (x_sch (x_lock (x_del s (c_del s - zlen l)) Free) SIdle)
  | _, _, _ => None
  end.

(** A schedule is a list of these; thread 0 is the thread of the core inside a callback. *)
Inductive lab := LTime (d : Z) | LCall (a : Z) (o : cop) | LUser (a : Z) | LPick (id : Z) | LHold | LCore (x : sact).
Definition cstep (s : cs) (l : lab) : option cs :=
  if c_crash s then None else
  match l with
  | LTime d => if d <? 0 then None else Some (x_clk s (c_clk s + d))
  | LCall a o =>
      match c_usr s a with
      | UIdle =>
          if (a =? 0) && match c_sch s with SCallback _ _ => false | _ => true end then None
          else
            let s := x_log (x_op s a o) (CCall a o (c_clk s)) in
            Some (if refused o then ret s a NegativeDuration else x_usr s a (entry o))
      | _ => None
      end
  | LUser a => user_step s a
  | LPick id => pick s id
  | LHold => hold_step s
  | LCore x => core_step s x
  end.
Fixpoint crun (s : cs) (ls : list lab) : option cs :=
  match ls with
  | [] => Some s
  | l :: ls => match cstep s l with Some s => crun s ls | None => None end
  end.
(** Nothing started, the clock at [clk]. *)
Definition cinit (clk : Z) : cs :=
  {| c_q := []; c_t := fun _ => {| t_when := 0; t_period := 0; t_status := Unset; t_cb := true; t_on := false |};
     c_lock := Free; c_del := 0; c_clk := clk; c_sch := SIdle; c_usr := fun _ => UIdle; c_op := fun _ => CStop 0;
     c_crash := false; c_log := [] |}.
