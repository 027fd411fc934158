(** Model of the TCP stream: net/tcp/stream.go, stream-internal.go, stream-status.go,
    stream-timing.go, stream-timing-keep_alive.go, option.go, option-mss.go. *)
From Verif Require Import Go NetModel.

(** net/tcp/stream-status.go:14-50 *)
Inductive status := Unset | Listen | SynSent | SynReceived | Established | Close | CloseWait | Closing
  | LastAck | TimeWait | FinWait1 | FinWait2.

(** net/tcp/stream.go:15-46: the fields the code reads; the receive buffer is the socket's,
    an interface whose documentation (adt/protocol/container-operations.go:137-153) gives Append
    and Insert; [woken] counts ScheduleProcessingSocket calls.  The status channel is left out:
    notify never blocks (stream-status.go:76-83). *)
Record stream := Stream { st : status; next : Z; rbuf : bytes; woken : Z }.

(** Insert at an index: later elements move up; simplification: outside the buffer it is an
    error and nothing changes. *)
Definition insert (b : bytes) (i : Z) (x : bytes) : option bytes :=
  if (0 <=? i) && (i <=? zlen b) then Some (firstn (Z.to_nat i) b ++ x ++ skipn (Z.to_nat i) b) else None.

Inductive rerr := ROk | RCheck (c : check) | RInsert.
(** stream-internal.go:24-38 incomeSegmentOnListenState *)
Definition on_listen (s : stream) (g : bytes) : res (stream * rerr) :=
  let! syn := tcp_Flag g SYN in
  Ok (if syn then Stream SynReceived (next s) (rbuf s) (woken s) else s, ROk).
(** stream-internal.go:40-49 incomeSegmentOnSynSentState *)
Definition on_syn_sent (s : stream) (g : bytes) : res (stream * rerr) :=
  let! syn := tcp_Flag g SYN in
  if syn then let! ack := tcp_Flag g ACK in
    Ok (if ack then Stream Established (next s) (rbuf s) (woken s) else s, ROk)
  else Ok (s, ROk).
(** stream-internal.go:193-203 validateSequence; the subtraction is on uint32 *)
Definition validateSequence (s : stream) (g : bytes) : res (stream * rerr) :=
  let! p := tcp_Payload g in let! sn := tcp_SequenceNumber g in
  Ok match insert (rbuf s) (u32 (sn - next s)) p with
     | Some b => (Stream (st s) (next s) b (woken s), ROk)
     | None => (s, RInsert)
     end.
(** stream-internal.go:56-81 incomeSegmentOnEstablishedState with sendACK 159-167 *)
Definition on_established (s : stream) (g : bytes) : res (stream * rerr) :=
  let! p := tcp_Payload g in let! sn := tcp_SequenceNumber g in
  if sn =? next s then
    let! psh := tcp_Flag g PSH in
    Ok (Stream (st s) (u32 (next s + 1)) (rbuf s ++ p) (woken s + if psh then 1 else 0), ROk)
  else validateSequence s g.
(** stream.go:112-152 Receive; every other state's handler is empty (stream-internal.go:51-54, 83-116) *)
Definition Receive (s : stream) (g : bytes) : res (stream * rerr) :=
  let! c := tcp_CheckSegment g in
  match c with
  | Good =>
      match st s with
      | Listen => on_listen s g
      | SynSent => on_syn_sent s g
      | Established => on_established s g
      | _ => Ok (s, ROk)
      end
  | _ => Ok (s, RCheck c)
  end.
(** stream.go:97-102 Open *)
Definition Open (s : stream) : stream := Stream SynSent (next s) (rbuf s) (woken s).
(** stream.go:51-69 Init (zero value, status Listen) *)
Definition Init : stream := Stream Listen 0 [] 0.

(** Receiving a list of segments *)
Fixpoint receive_all (s : stream) (gs : list bytes) : res stream :=
  match gs with
  | [] => Ok s
  | g :: gs => let! r := Receive s g in receive_all (fst r) gs
  end.

(** One turn of the loop in stream-internal.go:118-142 handleOptions; option.go:13-14,
    option-mss.go:19.  The turn either ends the loop, goes on with other options, or panics. *)
Inductive turn := TStop | TNext (o : bytes) | TPanic.
Definition option_turn (o : bytes) : turn :=
  match o with
  | [] => TStop
  | k :: payload =>
      if k =? 0 then TStop
      else if k =? 1 then TNext o
      else if k =? 2 then match slice_from payload 3 with Ok r => TNext r | Panic => TPanic end
      else TNext o
  end.
(** [n] turns: [None] means still running *)
Fixpoint handleOptions (n : nat) (o : bytes) : option (res unit) :=
  match n with
  | O => None
  | S n => match option_turn o with TStop => Some (Ok tt) | TPanic => Some Panic | TNext r => handleOptions n r end
  end.

(** net/tcp/stream-timing-keep_alive.go:11-18; times and durations are int64 *)
Record keep := Keep { enable : bool; idle : Z; interval : Z; lastUse : Z; nextCheck : Z; retry : Z }.
(** 21-30 Init with const.go:109-121 *)
Definition one_second := 1000000000.
Definition ka_Init (now : Z) : keep * Z :=
  (Keep false (7200 * one_second) (75 * one_second) 0 (i64 (now + 7200 * one_second)) 0, 7200 * one_second).
(** 46-52 SetEnable *)
Definition ka_SetEnable (k : keep) (b : bool) : keep := Keep b (idle k) (interval k) (lastUse k) (nextCheck k) (retry k).
(** 31-37 Reinit: the idle time and the last use stay *)
Definition ka_Reinit (k : keep) : keep := Keep false (idle k) 0 (lastUse k) 0 0.
(** 61-118 CheckInterval; the action is what is done to the stream *)
Inductive action := Nothing | Probe | CloseStream.
Definition CheckInterval (k : keep) (status_ : status) (use now : Z) : keep * action * Z :=
  if negb (enable k) then (k, Nothing, -1)
  else let n := i64 (nextCheck k - now) in
  if 0 <? n then (k, Nothing, n)
  else match status_ with
  | Established =>
      if negb (lastUse k =? use) then
        (Keep (enable k) (idle k) (interval k) use (i64 (now + idle k)) 0, Nothing, idle k)
      else
        let n := if n <? 0 then i64 (interval k + n) else n in
        let k1 := Keep (enable k) (idle k) (interval k) (lastUse k) (i64 (nextCheck k + n)) (retry k) in
        if retry k <=? 9 then
          (Keep (enable k1) (idle k1) (interval k1) (lastUse k1) (nextCheck k1) (i64 (retry k + 1)), Probe, n)
        else (k1, CloseStream, n)
  | _ => (k, Nothing, -1)
  end.
(** Calls at the given times with no traffic, on an established stream: the actions *)
Fixpoint checks (k : keep) (use : Z) (times : list Z) : keep * list action :=
  match times with
  | [] => (k, [])
  | t :: r => let '(k1, a, _) := CheckInterval k Established use t in
              let '(k2, l) := checks k1 use r in (k2, a :: l)
  end.

(** stream-timing.go:22-52 Init and 86-111 TimerHandler: the delay given to the timer, from the
    delays the parts ask for; [None] when the timer is not started *)
Definition arm (asked : list Z) : option Z :=
  let next := fold_left (fun next n => if (0 <? n) && (n <? next) then n else next) asked 0 in
  if 0 <? next then Some next else None.
