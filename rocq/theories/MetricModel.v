(** net/metric/connections-metric.go and net/metric/connection.go: the counters of a set of
    connections and of one connection, updated by atomic additions from many goroutines.
    Not modelled: the time of last use (lastUsage). *)
From Verif Require Import Go.

(** The counters.  connections-metric.go:13-25 and connection.go:13-29 *)
Inductive counter :=
  | openCount | guestCount | inUseCount | idleCount | waitCount | closedCount | guestClosedCount
  | idleClosedCount | waitClosedCount | lifetimeClosedCount
  | bytesSent | packetsSent | bytesReceived | packetsReceived | lostPackets | lostBytes
  | resendPackets | resendBytes | succeedStreamCount | failedStreamCount.
Definition counter_eqb (a b : counter) : bool :=
  match a, b with
  | openCount, openCount | guestCount, guestCount | inUseCount, inUseCount | idleCount, idleCount
  | waitCount, waitCount | closedCount, closedCount | guestClosedCount, guestClosedCount
  | idleClosedCount, idleClosedCount | waitClosedCount, waitClosedCount
  | lifetimeClosedCount, lifetimeClosedCount
  | bytesSent, bytesSent | packetsSent, packetsSent | bytesReceived, bytesReceived
  | packetsReceived, packetsReceived | lostPackets, lostPackets | lostBytes, lostBytes
  | resendPackets, resendPackets | resendBytes, resendBytes
  | succeedStreamCount, succeedStreamCount | failedStreamCount, failedStreamCount => true
  | _, _ => false
  end.
(** the counters of one connection are atomic.Uint64, those of the set atomic.Int64 *)
Definition signed (c : counter) : bool :=
  match c with
  | openCount | guestCount | inUseCount | idleCount | waitCount | closedCount | guestClosedCount
  | idleClosedCount | waitClosedCount | lifetimeClosedCount => true
  | _ => false
  end.
Definition wrap (c : counter) (x : Z) : Z := if signed c then i64 x else u64 x.
Definition counters := counter -> Z.
Definition zero : counters := fun _ => 0.

(** One atomic addition: Add is sync/atomic, so it is one step. *)
Definition add := (counter * Z)%type.
Definition apply (s : counters) (a : add) : counters :=
  fun c => if counter_eqb c (fst a) then wrap c (s c + snd a) else s c.

(** The methods: connections-metric.go:40-77, connection.go:49-85 *)
Inductive call :=
  | ConnOpened | GuestConnOpened | ConnIdled | ConnWaited | ConnClosed | GuestConnClosed
  | IdleConnClosed | WaitConnClosed | LifetimeConnClosed
  | StreamSucceed | StreamFailed
  | PacketReceived (n : Z) | DuplicatePacketReceived (n : Z) | PacketSent (n : Z) | PacketResend (n : Z).
Definition body (k : call) : list add :=
  match k with
  | ConnOpened => [(openCount, 1); (inUseCount, 1)]
  | GuestConnOpened => [(openCount, 1); (inUseCount, 1); (guestCount, 1)]
  | ConnIdled => [(inUseCount, -1); (idleCount, 1)]
  | ConnWaited => [(inUseCount, -1); (waitCount, 1)]
  | ConnClosed => [(inUseCount, -1); (closedCount, 1)]
  | GuestConnClosed => [(inUseCount, -1); (closedCount, 1); (guestClosedCount, 1)]
  | IdleConnClosed => [(closedCount, 1); (idleCount, -1); (idleClosedCount, 1)]
  | WaitConnClosed => [(closedCount, 1); (waitCount, -1); (waitClosedCount, 1)]
  | LifetimeConnClosed => [(inUseCount, -1); (closedCount, 1); (lifetimeClosedCount, 1)]
  | StreamSucceed => [(succeedStreamCount, 1)]
  | StreamFailed => [(failedStreamCount, 1)]
  | PacketReceived n => [(packetsReceived, 1); (bytesReceived, n)]
  | DuplicatePacketReceived n => [(resendPackets, 1); (resendBytes, n)]
  | PacketSent n => [(packetsSent, 1); (bytesSent, n)]
  | PacketResend n => [(packetsSent, 1); (bytesSent, n); (lostPackets, 1); (lostBytes, n)]
  end.

(** A goroutine: the additions left of the call it is in, and the calls after it.  Any goroutine
    can take the next step. *)
Record thread := { now : list add; later : list call }.
Inductive step : counters * list thread -> counters * list thread -> Prop :=
  | step_call : forall s a b k ks,
      step (s, a ++ {| now := []; later := k :: ks |} :: b) (s, a ++ {| now := body k; later := ks |} :: b)
  | step_add : forall s a b x xs ks,
      step (s, a ++ {| now := x :: xs; later := ks |} :: b) (apply s x, a ++ {| now := xs; later := ks |} :: b).
Inductive steps : counters * list thread -> counters * list thread -> Prop :=
  | steps_refl : forall c, steps c c
  | steps_more : forall a b c, steps a b -> step b c -> steps a c.
Definition start (progs : list (list call)) : list thread := map (fun p => {| now := []; later := p |}) progs.
Definition finished (ts : list thread) : Prop := Forall (fun t => now t = [] /\ later t = []) ts.
(** goroutines in the middle of a call *)
Definition in_call (ts : list thread) : Z := zlen (filter (fun t => match now t with [] => false | _ => true end) ts).
