(** Model of the rest of /repo/net/tcp: user timeout, delayed acknowledgement, handshake retry
    counters and the option views. *)
From Verif Require Import Go BinModel NetModel TcpModel.

(** net/tcp/stream-timing-user_timeout.go:13-21; the fields retransmission and synIdle are never
    read or written and are left out *)
Record user := User { u_enable : bool; u_idle : Z; u_lastUse : Z; u_nextCheck : Z; u_retry : Z }.
(** 24-30 Init on the zero value, with const.go:116,133; the second component is the returned delay *)
Definition ut_Init (now : Z) : user * Z :=
  (User true (7200 * one_second) 0 (i64 (now + 7200 * one_second)) 0, 7200 * one_second).
(** 31-36 Reinit *)
Definition ut_Reinit (k : user) : user := User true (u_idle k) (u_lastUse k) 0 0.
(** 42-84 CheckInterval; [nextCheck.Until now] is [nextCheck - now] (time/monotonic/time.go:60) *)
Definition ut_CheckInterval (k : user) (status_ : status) (use now : Z) : user * action * Z :=
  if negb (u_enable k) then (k, Nothing, -1)
  else let n := i64 (u_nextCheck k - now) in
  if 0 <? n then (k, Nothing, n)
  else match status_ with
  | Established =>
      if negb (u_lastUse k =? use) then
        (User (u_enable k) (u_idle k) use (i64 (now + u_idle k)) 0, Nothing, u_idle k)
      else
        let nc := i64 (u_nextCheck k + n) in
        if u_retry k <=? 9 then
          (User (u_enable k) (u_idle k) (u_lastUse k) nc (i64 (u_retry k + 1)), Probe, n)
        else (User (u_enable k) (u_idle k) (u_lastUse k) nc (u_retry k), CloseStream, n)
  | _ => (k, Nothing, -1)
  end.
(** Calls at the given times with no traffic, on an established stream: the actions *)
Fixpoint ut_checks (k : user) (use : Z) (times : list Z) : user * list action :=
  match times with
  | [] => (k, [])
  | t :: r => let '(k1, a, _) := ut_CheckInterval k Established use t in
              let '(k2, l) := ut_checks k1 use r in (k2, a :: l)
  end.

(** stream-timing-delayed_acknowledgment.go:11-17 *)
Record delack := Delack { d_enable : bool; d_interval : Z; d_nextCheck : Z }.
(** 20-26 Init with const.go:101; the returned delay is the zero value *)
Definition da_Init (now : Z) : delack * Z := (Delack true 500000000 (i64 (now + 500000000)), 0).
(** 37-52 CheckInterval with next 55-58: it changes nothing and does nothing to the stream *)
Definition da_CheckInterval (d : delack) (now : Z) : delack * action * Z :=
  if negb (d_enable d) then (d, Nothing, -1) else (d, Nothing, i64 (d_nextCheck d - now)).

(** stream-internal-syn.go:19-22 and stream-internal-syn-ack.go:9-12: maximum and counter, uint8 *)
Record retries := Retries { r_max : Z; r_count : Z }.
(** stream-internal-syn.go:23-26 Init and Reinit with const.go:21: the counter is not touched *)
Definition syn_Init (r : retries) : retries := Retries 6 (r_count r).
Definition syn_Reinit (r : retries) : retries := Retries 6 (r_count r).
(** stream-internal-syn.go:35-40 ReachMaxSyn *)
Definition ReachMaxSyn (r : retries) : bool := if r_max r <? r_count r then true else false.
(** stream-internal-syn.go:42-44 SendNewSyn *)
Definition SendNewSyn (r : retries) : retries := Retries (r_max r) (u8 (r_count r + 1)).
(** stream-internal-syn-ack.go:14-21 Init and Reinit with const.go:25 *)
Definition synack_Init (r : retries) : retries := Retries 5 (r_count r).
Definition synack_Reinit (r : retries) : retries := Retries 5 (r_count r).
(** stream-internal-syn-ack.go:26-31 ReachMaxSynACK *)
Definition ReachMaxSynACK (r : retries) : bool := if r_max r <? r_count r then true else false.
(** stream-internal-syn-ack.go:33-35 ReceiveNewSynAck *)
Definition ReceiveNewSynAck (r : retries) : retries := Retries (r_max r) (u8 (r_count r + 1)).

(** net/tcp/option-*.go: the option views, one constructor for each type *)
Inductive opt := OMSS | OWindowScale | OSACKPermitted | OEcho | OEchoReply | OTimestamps | OPOCPermitted
  | OPOCProfile | OCC | OCCNew | OCCEcho | OAltChecksum | OAltChecksumData.
(** Length: line 11, 12, 18 or 22 of each file *)
Definition opt_Length (_ : opt) (o : bytes) : res Z := idx o 0.
(** NextOption: option-mss.go:20, option-window-scale.go:14, option-stack-permited.go:14,
    option-echo.go:14, option-echo-reply.go:14, option-timestamps.go:14,
    option-partial-order-connection-permitted.go:16, option-partial-order-service-profile.go:27,
    option-cc.go:14, option-ccnew.go:14, option-ccecho.go:14, option-alt-checksum.go:14,
    option-alt-checksum-data.go:14 *)
Definition NextOption (k : opt) (o : bytes) : res bytes :=
  match k with
  | OMSS => slice_from o 3
  | OWindowScale => slice_from o 2
  | OSACKPermitted => slice_from o 1
  | OEcho => slice_from o 5
  | OEchoReply => slice_from o 5
  | OTimestamps => slice_from o 8
  | OPOCPermitted => slice_from o 3
  | OPOCProfile => slice_from o 3
  | OCC => slice_from o 5
  | OCCNew => slice_from o 5
  | OCCEcho => slice_from o 5
  | OAltChecksum => slice_from o 3
  | OAltChecksumData => slice_from o 3
  end.
(** The value readers, on line 13 of the files (19 of option-mss.go, 23 of the service profile):
    MSS, WindowScale, Echo, EchoReply, Timestamps, PartialOrderServiceProfile, CC, CCNew, CCEcho,
    AltChecksum, AltChecksumData.  The two -Permitted options have none; the model answers 0. *)
Definition opt_Value (k : opt) (o : bytes) : res Z :=
  match k with
  | OSACKPermitted | OPOCPermitted => Ok 0
  | _ => let! s := slice_from o 1 in bele_Uint16 s
  end.
