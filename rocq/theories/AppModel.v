(** Model of achaemenid/application.go and achaemenid/status.go: the life cycle of an application.
    Simplified: the messages it logs are left out; what the log package does is LogModel's. *)
From Verif Require Import Go.

(** protocol.ApplicationStatus as the code uses it *)
Inductive status := Unset | Starting | Running | Stopping.
(** A listener's channel: its capacity, the values in it, whether a reader is blocked in a receive, and
    what its readers have received so far. *)
Record chan := Chan { cap : nat; buf : list status; waiting : bool; got : list status }.
(** status.go:10-14 *)
Record app := App { stat : status; listeners : list chan }.
Definition zero_app : app := App Unset [].

(** select { case listener <- status: default: }, status.go:33-36 *)
Definition offer (s : status) (c : chan) : chan :=
  if waiting c then Chan (cap c) (buf c) false (got c ++ [s])
  else if (length (buf c) <? cap c)%nat then Chan (cap c) (buf c ++ [s]) false (got c) else c.
(** <-listener by a reader *)
Definition receive (c : chan) : chan :=
  match buf c with
  | s :: b => Chan (cap c) b (waiting c) (got c ++ [s])
  | [] => Chan (cap c) [] true (got c)
  end.
(** status.go:26-38 changeState *)
Definition changeState (a : app) (s : status) : app := App s (map (offer s) (listeners a)).
(** status.go:16 Status, 17-19 NotifyStatus *)
Definition Status (a : app) : status := stat a.
Definition NotifyStatus (a : app) (n : nat) : app := App (stat a) (listeners a ++ [Chan n [] false []]).

(** How a part of the application initialises.  The bodies in the repository always give [Fine]
    (cryptography.go:18-25, net/packet-listener.go:13-16); the results are part of their interface. *)
Inductive part := Fine | Fails (e : Z) | Panics.
(** application.go:39-57 Init with the deferred PanicHandler: the named result is what was last assigned
    when a part panics.  [None] is the nil error. *)
Definition Init (a : app) (event manifest crypto packet : part) : app * option Z :=
  let a := changeState a Starting in
  match event with
  | Panics => (a, None)
  | Fails e => (a, Some e)
  | Fine =>
      match manifest with
      | Panics => (a, None)
      | _ =>
          match crypto with
          | Panics => (a, None)
          | _ =>
              let err := match crypto with Fails e => Some e | _ => None end in
              match packet with
              | Panics => (a, err)
              | Fails e => (a, Some e)
              | Fine => (a, None)
              end
          end
      end
  end.
(** application.go:60-62 Reinit, 109-114 Upgrade *)
Definition Reinit (a : app) : app := a.
(** application.go:65-83 Deinit; [Panics] of a part propagates *)
Definition Deinit (a : app) (crypto packet : part) : app * res (option Z) :=
  let a := changeState (changeState a Stopping) Stopping in
  match crypto with
  | Panics => (a, Panic)
  | Fails e => (a, Ok (Some e))
  | Fine => match packet with Panics => (a, Panic) | Fails e => (a, Ok (Some e)) | Fine => (a, Ok None) end
  end.
(** application.go:86-106 OsSignalHandler: the signals it knows, and any other number.  [true]: it
    starts Deinit in a new goroutine. *)
Inductive signal := Interrupt | Quit | Terminated | Killed | Urgent | Hangup | Upgrade | Other (n : Z).
Definition OsSignalHandler (a : app) (g : signal) : app * bool :=
  match g with
  | Interrupt | Quit | Terminated | Killed => (a, match Status a with Running => true | _ => false end)
  | Hangup | Upgrade => (Reinit a, false)
  | Urgent | Other _ => (a, false)
  end.

(** What can happen to an application: calls, signals, new listeners and receives by the readers.
    [ODeinit] is a call by the user of the application or the goroutine a signal has started. *)
Inductive op := OInit (e m c p : part) | OReinit | ODeinit (c p : part) | OSignal (g : signal) | ONotify (n : nat) | ORecv (i : nat).
Definition exec (a : app) (o : op) : app :=
  match o with
  | OInit e m c p => fst (Init a e m c p)
  | OReinit => Reinit a
  | ODeinit c p => fst (Deinit a c p)
  | OSignal g => fst (OsSignalHandler a g)
  | ONotify n => NotifyStatus a n
  | ORecv i => match nth_error (listeners a) i with
               | Some c => App (stat a) (upd (listeners a) i (receive c))
               | None => a
               end
  end.
Definition run (a : app) (l : list op) : app := fold_left exec l a.
