(** Model of the sending half of net/http/v1/handler.go, of net/srpc/handler.go and of net/std/net.go. *)
From Verif Require Import Go SockModel.

(** * Waiting for the end of an exchange *)
(** protocol.NetworkStatus (declared outside the repository): the three the code names, and any other;
    its zero value is taken to be one of the others *)
Inductive state := Timeout | ReceivedCompletely | SentCompletely | OtherState (n : Z).
(** The channel State() gives: the values that will ever be sent on it and whether it is closed after them *)
Record chan := Chan { values : list state; closes : bool }.
(** <-c: a receive from a closed channel gives the zero value; [None]: it waits for ever *)
Definition recv (c : chan) : option (state * chan) :=
  match values c with
  | s :: r => Some (s, Chan r (closes c))
  | [] => if closes c then Some (OtherState 0, c) else None
  end.
(** How a call ends: it returns; it waits for ever; it is still running after the given number of turns *)
Inductive outcome (A : Type) := Returned (a : A) | Waits | Running.
Arguments Returned {A}. Arguments Waits {A}. Arguments Running {A}.
(** http/v1/handler.go:115-135 and 152-164: the loop; [final] tells what a status does *)
Fixpoint http_wait {A} (k : nat) (final : state -> option A) (c : chan) : outcome A :=
  match k with
  | O => Running
  | S k =>
      match recv c with
      | None => Waits
      | Some (s, c) => match final s with Some a => Returned a | None => http_wait k final c end
      end
  end.
(** What a call gives back and how often it has closed the stream *)
Record reply (R E : Type) := Reply { response : option R; error : option E; closed : nat }.
Arguments Reply {R E}. Arguments response {R E}. Arguments error {R E}. Arguments closed {R E}.
(** What the stream and its codec do: opening it, sending the request, decoding what has arrived, and the
    error a response carries (HttpMsgModel.GetError) *)
Record stream (R E : Type) := Stream { open : option E; encode : option E; decode : R * option E; get_error : R -> option E; state_ : chan }.
Arguments Stream {R E}. Arguments open {R E}. Arguments encode {R E}. Arguments decode {R E}. Arguments get_error {R E}. Arguments state_ {R E}.
(** handler.go:102-137 SendBidirectionalRequest *)
Definition http_bidirectional {R E} (k : nat) (st : stream R E) : outcome (reply R E) :=
  match open st with
  | Some e => Returned (Reply None (Some e) 0)
  | None =>
      match encode st with
      | Some e => Returned (Reply None (Some e) 0)
      | None =>
          http_wait k (fun s => match s with
            | Timeout => Some (Reply None None 1)
            | ReceivedCompletely =>
                let '(r, e) := decode st in
                Some (Reply (Some r) (match e with None => get_error st r | Some e => Some e end) 1)
            | _ => None
            end) (state_ st)
      end
  end.
(** handler.go:139-166 SendUnidirectionalRequest *)
Definition http_unidirectional {R E} (k : nat) (st : stream R E) : outcome (reply R E) :=
  match open st with
  | Some e => Returned (Reply None (Some e) 0)
  | None =>
      match encode st with
      | Some e => Returned (Reply None (Some e) 0)
      | None => http_wait k (fun s => match s with Timeout | SentCompletely => Some (Reply None None 1) | _ => None end) (state_ st)
      end
  end.

(** * sRPC *)
(** srpc/handler.go:49-62 and 75-88: range over the channel ends when it is closed; [None] then *)
Fixpoint srpc_range {A} (final : state -> option A) (l : list state) (closes_ : bool) : outcome (option A) :=
  match l with
  | [] => if closes_ then Returned None else Waits
  | s :: r => match final s with Some a => Returned (Some a) | None => srpc_range final r closes_ end
  end.
(** The socket: sending the request, and the error its application layer carries *)
Record rpc (E : Type) := Rpc { send : option E; app_error : option E; rpc_state : chan }.
Arguments Rpc {E}. Arguments send {E}. Arguments app_error {E}. Arguments rpc_state {E}.
(** srpc/handler.go:41-63 SendBidirectionalRequest: whether the socket is given back as the response, and
    the error; 68-89 SendUnidirectionalRequest *)
Definition rpc_bidirectional {E} (sk : rpc E) : outcome (bool * option E) :=
  match send sk with
  | Some e => Returned (false, Some e)
  | None =>
      match srpc_range (fun s => match s with Timeout => Some (false, None) | ReceivedCompletely => Some (true, app_error sk) | _ => None end) (values (rpc_state sk)) (closes (rpc_state sk)) with
      | Returned (Some r) => Returned r
      | Returned None => Returned (false, None)
      | Waits => Waits
      | Running => Running
      end
  end.
Definition rpc_unidirectional {E} (sk : rpc E) : outcome (option E) :=
  match send sk with
  | Some e => Returned (Some e)
  | None =>
      match srpc_range (fun s => match s with Timeout | SentCompletely => Some tt | _ => None end) (values (rpc_state sk)) (closes (rpc_state sk)) with
      | Returned _ => Returned None
      | Waits => Waits
      | Running => Running
      end
  end.
(** srpc/handler.go:14-36 HandleIncomeRequest: what the service of the socket is, and what it answers;
    the result: the error given back, and what the socket is told *)
Inductive svc (R E : Type) := NoService | NotRPC | Serves (r : R + E).
Arguments NoService {R E}. Arguments NotRPC {R E}. Arguments Serves {R E}.
Inductive told (R E : Type) := Silence | ToldError (e : E) | ToldResponse (r : R).
Arguments Silence {R E}. Arguments ToldError {R E}. Arguments ToldResponse {R E}.
Definition HandleIncomeRequest {R E} (s : svc R E) : option E * told R E :=
  match s with
  | NoService | NotRPC => (None, Silence)
  | Serves (inr e) => (Some e, ToldError e)
  | Serves (inl r) => (None, ToldResponse r)
  end.

(** * The net.Conn of the standard library, over the socket of SockModel *)
(** net/std/net.go:34-42 Close: Check gives no error (net/socket.go:58), then it calls itself; the calls
    still open after [k] of them *)
Fixpoint std_Close (k : nat) : outcome unit := match k with O => Running | S k => std_Close k end.
(** net.go:87-95 untilTo; times in nanoseconds after the epoch of the clock, [None] the zero time.Time *)
Definition untilTo (t : option Z) (now : Z) : Z :=
  match t with None => 0 | Some t => let d := t - now in if d =? 0 then -1 else d end.
(** net.go:61-75; the clock is read again by each of the functions called *)
Definition SetDeadline (sk : Socket) (t : option Z) (n0 n1 n2 n3 n4 : Z) : Socket := SetTimeout sk n1 n2 n3 n4 (untilTo t n0).
Definition SetReadDeadline (sk : Socket) (t : option Z) (n0 n1 n2 : Z) : Socket := SetReadTimeout sk n1 n2 (untilTo t n0).
Definition SetWriteDeadline (sk : Socket) (t : option Z) (n0 n1 n2 : Z) : Socket := SetWriteTimeout sk n1 n2 (untilTo t n0).
(** net/std/io.go:14-20: ReadFrom and WriteTo; [None] of [marshal] is an error of Marshal, which is dropped.
    ReadFrom: the bytes taken from the reader; WriteTo: the bytes given to the writer *)
Definition std_ReadFrom (input : bytes) : bytes * Z := ([], 0).
Definition std_WriteTo (marshal : option bytes) : bytes * Z := let d := match marshal with Some d => d | None => [] end in (d, zlen d).
