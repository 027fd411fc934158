(** Model of log/log-helpers.go, log/event.go, log/event-utf8.go, log/panic_handler.go, log/util.go and
    log/protocol/level.go: log events and the panic handler, over the event target of event/target.go. *)
From Verif Require Import Go.

(** log/protocol/level.go:16-76: powers of two, every second value of iota from 2 *)
Inductive level := Information | Notice | Error | Debug | DeepDebug | Warning | Alert | Critical | Emergency | Fatal | Security | Confidential.
Definition level_iota (l : level) : Z :=
  match l with
  | Information => 2 | Notice => 4 | Error => 6 | Debug => 8 | DeepDebug => 10 | Warning => 12 | Alert => 14
  | Critical => 16 | Emergency => 18 | Fatal => 20 | Security => 22 | Confidential => 24
  end.
Definition level_value (l : level) : Z := Z.shiftl 1 (level_iota l).
(** Level_Unset and Level_AllSet, level.go:17-21 *)
Definition Level_Unset : Z := 0.
Definition Level_AllSet : Z := u32 (Z.lnot Level_Unset).

(** log/event.go:14-20, event-utf8.go:14-19.  Simplified: the domain is a number, [0] for the log
    package's own; the stack is whether one was taken; the time is left out. *)
Record event := Event { e_domain : Z; e_level : Z; e_message : bytes; e_stack : bool }.

(** What a panic carries, by the interfaces its value has, panic_handler.go:18-55: *Event, an event of
    another kind, a message, a protocol error (its domain and DataTypeID_string), an error, a string,
    a ToString, a String method, and what fmt.Sprint prints of it. *)
Record panic := Panic_ { p_event : option event; p_foreign : option event; p_message : option bytes;
  p_perror : option (Z * bytes); p_error : option bytes; p_string : option bytes;
  p_tostring : option bytes; p_stringer : option bytes; p_sprint : bytes }.

(** A listener: the panic its handler ends in for an event, if any. *)
Definition listener := event -> option panic.
(** event/target.go:14-17 with what the listeners have been given so far: the listener's position and
    the event, oldest first. *)
Record logger := Logger { held : bool; listeners : list listener; given : list (nat * event) }.
(** How a call ends: it returns; it panics; it waits for the mutex and never returns. *)
Inductive out := Return (g : logger) | Panicking (p : panic) (g : logger) | Hangs (g : logger).

(** target.go:34-37: the listeners from position [i] on are called in turn *)
Fixpoint call_all (g : logger) (i : nat) (l : list listener) (e : event) : option panic * logger :=
  match l with
  | [] => (None, g)
  | f :: l =>
      let g := Logger (held g) (listeners g) (given g ++ [(i, e)]) in
      match f e with
      | Some p => (Some p, g)
      | None => call_all g (S i) l e
      end
  end.
(** target.go:31-40 DispatchEvent: the mutex is not released when a handler panics *)
Definition DispatchEvent (g : logger) (e : event) : out :=
  if held g then Hangs g
  else match call_all (Logger true (listeners g) (given g)) 0 (listeners g) e with
       | (Some p, g) => Panicking p g
       | (None, g) => Return (Logger false (listeners g) (given g))
       end.
(** target.go:41-49 AddEventListener *)
Definition AddEventListener (g : logger) (f : listener) : out :=
  if held g then Hangs g else Return (Logger false (listeners g ++ [f]) (given g)).

(** log-helpers.go:14-75 *)
Inductive helper := HTrace (l : Z) | HInfo | HNotice | HError | HDebug | HDeepDebug | HWarn | HFatal | HConf.
Definition helper_event (h : helper) (dt : Z) (msg : bytes) : event :=
  match h with
  | HTrace l => Event dt l msg true
  | HInfo => Event dt (level_value Information) msg false
  | HNotice => Event dt (level_value Notice) msg false
  | HError => Event dt (level_value Error) msg true
  | HDebug => Event dt (level_value Debug) msg false
  | HDeepDebug => Event dt (level_value DeepDebug) msg true
  | HWarn => Event dt (level_value Warning) msg false
  | HFatal => Event dt (level_value Fatal) msg true
  | HConf => Event dt (level_value Confidential) msg false
  end.
Definition log (g : logger) (h : helper) (dt : Z) (msg : bytes) : out := DispatchEvent g (helper_event h dt msg).

(** panic_handler.go:17-56: the type switch, in its order *)
Definition panic_event (p : panic) : event :=
  match p_event p with Some e => e | None =>
  match p_foreign p with Some e => e | None =>
  match p_message p with Some m => Event 0 (level_value Error) m true | None =>
  match p_perror p with Some (d, m) => Event d (level_value Error) m true | None =>
  match p_error p with Some m => Event 0 (level_value Error) m true | None =>
  match p_string p with Some m => Event 0 (level_value Error) m true | None =>
  match p_tostring p with Some m => Event 0 (level_value Error) m true | None =>
  match p_stringer p with Some m => Event 0 (level_value Error) m true | None =>
  Event 0 (level_value Error) (p_sprint p) true
  end end end end end end end end.
(** panic_handler.go:14-61, deferred: [r] is what recover gives *)
Definition PanicHandler (g : logger) (r : option panic) : out :=
  match r with None => Return g | Some p => DispatchEvent g (panic_event p) end.
(** util.go:24-29 FatalError *)
Definition FatalError (e : option panic) (g : logger) : out :=
  match e with Some p => Panicking p g | None => Return g end.

(** A goroutine: log calls and the like, then a normal end or a panic of its own. *)
Inductive stmt := SLog (h : helper) (dt : Z) (msg : bytes) | SListen (f : listener) | SPanic (p : panic).
Fixpoint body (g : logger) (l : list stmt) : out :=
  match l with
  | [] => Return g
  | s :: l =>
      match (match s with SLog h dt m => log g h dt m | SListen f => AddEventListener g f | SPanic p => Panicking p g end) with
      | Return g => body g l
      | o => o
      end
  end.
(** ... with PanicHandler deferred.  A panic of the handler itself ends the program. *)
Definition protected (g : logger) (l : list stmt) : out :=
  match body g l with
  | Return g => PanicHandler g None
  | Panicking p g => PanicHandler g (Some p)
  | Hangs g => Hangs g
  end.
