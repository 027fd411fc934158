(** What the counters of net/metric are to count: written without the additions of the code. *)
From Verif Require Import Go MetricModel.

(** The life of a connection as the code is told about it. *)
Inductive life := InUse | Idle | Waiting | Closed.
Record conn := { is_guest : bool; state : life; how : option call }.
(** The event [k] moves a connection from [old] to its new state; opening makes a new one. *)
Definition moves (k : call) (old : life) : option life :=
  match k, old with
  | ConnIdled, InUse => Some Idle
  | ConnWaited, InUse => Some Waiting
  | (ConnClosed | GuestConnClosed | LifetimeConnClosed), InUse => Some Closed
  | IdleConnClosed, Idle => Some Closed
  | WaitConnClosed, Waiting => Some Closed
  | _, _ => None
  end.
Inductive history : list call -> list conn -> Prop :=
  | h_none : history [] []
  | h_open : forall h cs, history h cs -> history (h ++ [ConnOpened]) (cs ++ [{| is_guest := false; state := InUse; how := None |}])
  | h_guest : forall h cs, history h cs -> history (h ++ [GuestConnOpened]) (cs ++ [{| is_guest := true; state := InUse; how := None |}])
  | h_move : forall h a c b k new, history h (a ++ c :: b) -> moves k (state c) = Some new ->
      history (h ++ [k]) (a ++ {| is_guest := is_guest c; state := new; how := Some k |} :: b).
Definition life_eqb (a b : life) : bool :=
  match a, b with InUse, InUse | Idle, Idle | Waiting, Waiting | Closed, Closed => true | _, _ => false end.
Definition how_many (p : conn -> bool) (cs : list conn) : Z := zlen (filter p cs).
Definition closed_by (k : call) (c : conn) : bool :=
  match how c, k with
  | Some GuestConnClosed, GuestConnClosed | Some IdleConnClosed, IdleConnClosed
  | Some WaitConnClosed, WaitConnClosed | Some LifetimeConnClosed, LifetimeConnClosed => true
  | _, _ => false
  end.
(** What each counter of the set of connections should show. *)
Definition shows (cs : list conn) (c : counter) : Z :=
  match c with
  | openCount => zlen cs
  | guestCount => how_many is_guest cs
  | inUseCount => how_many (fun x => life_eqb (state x) InUse) cs
  | idleCount => how_many (fun x => life_eqb (state x) Idle) cs
  | waitCount => how_many (fun x => life_eqb (state x) Waiting) cs
  | closedCount => how_many (fun x => life_eqb (state x) Closed) cs
  | guestClosedCount => how_many (closed_by GuestConnClosed) cs
  | idleClosedCount => how_many (closed_by IdleConnClosed) cs
  | waitClosedCount => how_many (closed_by WaitConnClosed) cs
  | lifetimeClosedCount => how_many (closed_by LifetimeConnClosed) cs
  | _ => 0
  end.

(** Traffic: what the calls were told. *)
Definition sent (k : call) : list Z := match k with PacketSent n | PacketResend n => [n] | _ => [] end.
Definition lost (k : call) : list Z := match k with PacketResend n => [n] | _ => [] end.
Definition received (k : call) : list Z := match k with PacketReceived n => [n] | _ => [] end.
Definition duplicate (k : call) : list Z := match k with DuplicatePacketReceived n => [n] | _ => [] end.
Fixpoint sum (l : list Z) : Z := match l with [] => 0 | x :: t => x + sum t end.
