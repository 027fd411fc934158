(** Model of net/frames.go with net/frame.go and the frames of net/sec, net/srpc, net/l4.
    net/protocol/frame-type.go numbers the types. *)
From Verif Require Import Go BinModel SyllabModel LinkModel.

(** What one round of the loop does: go on with the rest, return an error, panic, or come round
    again with the same bytes. *)
Inductive round := Rest (r : bytes) | Fail | Crash | Same.
Definition rest (r : res bytes) : round := match r with Ok r => Rest r | Panic => Crash end.
(** net/sec/frame-padding.go:17,21 and net/l4/frame-data.go:20,26: length in network order *)
Definition NextByBE (p : bytes) : res bytes :=
  let! s := slice_from p 0 in let! n := bele_Uint16 s in slice_from p n.
(** net/srpc/frame-call-service.go:25,32: length by syllab, little endian *)
Definition NextByLE (p : bytes) : res bytes := let! n := GetUInt16 p 0 in slice_from p n.
(** net/srpc/frame-open-stream.go:24 ServiceID, 30 NextFrame, 32-48 Do; [known] is the service registry *)
Definition open_service (p : bytes) : res Z := let! s := slice_from p 2 in lele_Uint64 s.
(** net/frames.go:18-77 one round.  The socket is nil, so Do of an error frame panics
    (net/srpc/frame-error.go:27). *)
Definition frame_round (known : Z -> bool) (f : bytes) : round :=
  match f with
  | [] => Crash
  | t :: p =>
      if t =? 3 then rest (NextFrame p)
      else if t =? 4 then rest (gp_NextFrame p)
      else if t =? 5 then rest (NextByBE p)
      else if t =? 6 then rest (NextByLE p)
      else if t =? 7 then
        match open_service p with
        | Panic => Crash
        | Ok id => if known id then rest (slice_from p 25) else Fail
        end
      else if t =? 9 then rest (NextByBE p)
      else if t =? 10 then Crash
      else if t =? 11 then rest (slice_from p 8)
      else Same
  end.
(** 15-79 HandleFrames after at most [k] rounds; [None] when that was not enough *)
Inductive verdict := Processed | Refused | Crashed.
Fixpoint HandleFrames (known : Z -> bool) (k : nat) (f : bytes) : option verdict :=
  match k with
  | O => None
  | S k =>
      if 0 <? zlen f then
        match frame_round known f with
        | Rest r => HandleFrames known k r
        | Same => HandleFrames known k f
        | Fail => Some Refused
        | Crash => Some Crashed
        end
      else Some Processed
  end.
