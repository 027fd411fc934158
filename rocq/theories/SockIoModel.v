(** Model of adt/queue/queue.go, adt/queue/queue-codec.go, net/socket-codec.go and
    net/connection-status.go: the byte queue and reading and writing through a socket. *)
From Verif Require Import Go.

(** * The queue *)
(** queue.go:62-67 ringBuf; the list is never longer than two here: head.next is overwritten *)
Record ring := Ring { data : bytes; ln : Z; rnext : option (bytes * Z) }.
(** queue.go:11-17; [head] is the nil pointer until something sets it, and nothing does *)
Record queue := Queue { head : option ring; tail : option (bytes * Z); totalLen : Z; totalCap : Z }.
Definition zero_queue : queue := Queue None None 0 0.
(** queue.go:20-24 Init, 25-32 Reinit and Deinit, 34 Full *)
Definition Init (q : queue) (n : Z) : queue := Queue (head q) (tail q) (totalLen q) n.
Definition Reinit (q : queue) : queue := q.
Definition Full (q : queue) : bool := false.
(** queue.go:36-38 Read: the number of bytes and what they are *)
Definition Read (q : queue) (b : bytes) : Z * bytes := (0, b).
(** queue.go:39-55 Write: [Panic] is the nil dereference; the count returned is never set *)
Definition Write (q : queue) (b : bytes) : res (queue * Z) :=
  match head q with
  | None => Panic
  | Some h =>
      if ln h =? 0 then Ok (Queue (Some (Ring b (ln h) (rnext h))) (tail q) (totalLen q) (totalCap q), 0)
      else Ok (Queue (Some (Ring (data h) (ln h) (Some (b, zlen b)))) (Some (b, zlen b)) (totalLen q) (totalCap q), 0)
  end.
(** queue.go:55-58 WriteIn; queue-codec.go:12-23 Marshal, Unmarshal, SerializationLength *)
Definition WriteIn (q : queue) (b : bytes) (at_ : Z) : queue * Z := (q, 0).
Definition Marshal (q : queue) : bytes := [].
Definition Unmarshal (q : queue) (src : bytes) : queue * Z := (q, 0).
Definition SerializationLength (q : queue) : Z := totalLen q.
Inductive qop := QInit (n : Z) | QReinit | QRead (b : bytes) | QWrite (b : bytes) | QWriteIn (b : bytes) (a : Z) | QUnmarshal (b : bytes).
Definition qexec (q : queue) (o : qop) : res queue :=
  match o with
  | QInit n => Ok (Init q n)
  | QReinit | QRead _ => Ok q
  | QWrite b => let! r := Write q b in Ok (fst r)
  | QWriteIn b a => Ok (fst (WriteIn q b a))
  | QUnmarshal b => Ok (fst (Unmarshal q b))
  end.
Fixpoint qrun (q : queue) (l : list qop) : res queue :=
  match l with [] => Ok q | o :: l => let! q := qexec q o in qrun q l end.

(** * The socket *)
(** The states of a stream the socket is told of; [ReceivedCompletely] and all the others *)
Inductive state := ReceivedCompletely | Timeout | Closed | OtherState (n : Z).
(** connection-status.go:15-18: the status and the channel of state changes, [None] the nil channel.
    net/socket.go:27-30: Init does not make it. *)
Record socket := Socket { sk_status : option state; sk_chan : option (list state); sk_buf : queue }.
Definition new_socket (n : Z) : socket := Socket None None (Init zero_queue n).
(** connection-status.go:22-28 SetStatus: the status is stored, then the send blocks.  [None]: it never
    returns.  Simplified: a channel that exists is taken to be unbounded. *)
Definition SetStatus (sk : socket) (s : state) : socket * option unit :=
  match sk_chan sk with
  | None => (Socket (Some s) None (sk_buf sk), None)
  | Some l => (Socket (Some s) (Some (l ++ [s])) (sk_buf sk), Some tt)
  end.
(** socket-codec.go:65-85 blockInSelect over the states that ever arrive; [None]: it waits for ever *)
Fixpoint select (l : list state) : option (list state) :=
  match l with
  | [] => None
  | ReceivedCompletely :: l => Some l
  | _ :: l => select l
  end.
Definition blockInSelect (c : option (list state)) : option (list state) := match c with None => None | Some l => select l end.
(** socket-codec.go:18-29 Marshal; Check gives nil (net/socket.go:58-61) *)
Definition sk_Marshal (sk : socket) : option (bytes * socket) :=
  if Full (sk_buf sk) then Some (Marshal (sk_buf sk), sk)
  else match blockInSelect (sk_chan sk) with
       | Some l => Some (Marshal (sk_buf sk), Socket (sk_status sk) (Some l) (sk_buf sk))
       | None => None
       end.
(** socket-codec.go:87-89 sendPayload *)
Definition sendPayload (sk : socket) (b : bytes) : Z := 0.
(** socket-codec.go:42-58 Unmarshal: one turn per unit of fuel; [None]: still looping *)
Fixpoint sk_Unmarshal (fuel : nat) (sk : socket) (d : bytes) (n : Z) : option Z :=
  match d with
  | [] => Some n
  | _ => match fuel with
         | O => None
         | S f => let k := sendPayload sk d in sk_Unmarshal f sk (skipn (Z.to_nat k) d) (n + k)
         end
  end.
(** socket-codec.go:59-61 UnmarshalFrom: what remains, and no error *)
Definition sk_UnmarshalFrom (sk : socket) (d : bytes) : bytes := [].
