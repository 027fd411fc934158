(** Model of net/chapar/mux.go, port.go and port-bridge.go: frames passed from switch to switch.  The
    multiplexers and their ports are a graph; of Connections (an interface) only the question whether a
    path is known is modelled, not the registering. *)
From Verif Require Import Go LinkModel.

(** mux.go:14-21 and port.go:9-13: each multiplexer has a port number, and each of its 256 ports may lead
    to a multiplexer (nil until it is wired) and to a physical connection (nil likewise); [known]: it has a connection with that path *)
Record net (N : Type) := Net { pnum : N -> Z; link : N -> Z -> option N; wired : N -> Z -> bool; known : N -> bytes -> bool }.
Arguments Net {N}. Arguments pnum {N}. Arguments link {N}. Arguments wired {N}. Arguments known {N}.
(** What becomes of a frame that is received *)
Inductive outcome (N : Type) :=
| Refused (e : ferr)               (** an error of CheckFrame comes back *)
| Arrived (at_ : N) (f : bytes)    (** the last hop: the connection of that path is looked up or made *)
| Spread (at_ : N) (f : bytes).    (** sendBroadcast of that multiplexer; its loop is LinkModel.port_loop *)
Arguments Refused {N}. Arguments Arrived {N}. Arguments Spread {N}.
(** mux.go:93-113: the last hop; a connection that is not known is made from the frame *)
Definition zero_conn : conn := Conn (Path (repeat 0 255) 0) (Path (repeat 0 255) 0) [].
Definition arrive {N} (g : net N) (v : N) (f : bytes) : option (res (outcome N)) :=
  match PathOf f with
  | Panic => Some Panic
  | Ok path =>
      if known g v path then Some (Ok (Arrived v f))
      else match ConnInit zero_conn f with
           | None => None
           | Some Panic => Some Panic
           | Some (Ok _) => Some (Ok (Arrived v f))
           end
  end.
(** mux.go:83-122 Receive, with port.go:30-33 Receive.  const.go:12 AcceptLastHop is true.  [None] as the
    multiplexer is the nil pointer: the frame is checked before the pointer is used.
    [None] as the answer: more hops are taken than the depth allows. *)
Fixpoint Receive {N} (g : net N) (k : nat) (v : option N) (f : bytes) : option (res (outcome N)) :=
  match k with
  | O => None
  | S k =>
      match CheckFrame f with
      | Panic => Some Panic
      | Ok FOk =>
          match v with
          | None => Some Panic
          | Some v =>
              match IncrementNextHop f (pnum g v) with
              | Panic => Some Panic
              | Ok (f, true) => arrive g v f
              | Ok (f, false) =>
                  match IsBroadcastFrame f with
                  | Panic => Some Panic
                  | Ok true => Some (Ok (Spread v f))
                  | Ok false =>
                      match NextPortNum f with
                      | Panic => Some Panic
                      | Ok p => Receive g k (link g v p) f
                      end
                  end
              end
          end
      | Ok e => Some (Ok (Refused e))
      end
  end.
(** mux.go:53-70 Send with port.go:24-27: the port a frame leaves by; a broadcast is the loop above.
    [Panic] also when the port has no physical connection. *)
Definition Send {N} (g : net N) (v : N) (f : bytes) : res (option Z * bytes) :=
  let! b := IsBroadcastFrame f in
  if b then Ok (None, f)
  else let! p := NextPortNum f in if wired g v p then Ok (Some p, f) else Panic.
(** port-bridge.go:35-44 Send: what goes to the physical side, if anything; the error it returns is that
    of the physical side, and none when nothing is sent.  [phys] is the physical side. *)
Definition BridgeSend {E : Type} (phys : bytes -> option E) (port : Z) (f : bytes) : res (option bytes * option E) :=
  let! r_ := IncrementNextHop f port in let '(f, last) := r_ in
  if last : bool then Ok (None, None) else Ok (Some f, phys f).
(** port-bridge.go:45-54 Receive: what the multiplexer makes of it, and the error that is returned *)
Definition BridgeReceive {N} (g : net N) (k : nat) (v : N) (side : Z) (f : bytes) : option (res (option (outcome N) * option ferr)) :=
  match IncrementNextHop f side with
  | Panic => Some Panic
  | Ok (f, last) =>
      if last : bool then Some (Ok (None, None))
      else match Receive g k (Some v) f with
           | None => None
           | Some Panic => Some Panic
           | Some (Ok o) => Some (Ok (Some o, None))
           end
  end.
