(** Model of net/gp/frame.go, net/gp/address.go, net/chapar/frame.go, net/chapar/path.go and the
    paths of net/chapar/connection.go.  Byte arithmetic wraps at 256. *)
From Verif Require Import Go NetModel.

(** * GP *)
Inductive ferr := FOk | FShort | FLong | FLength | FType.
(** net/gp/frame.go:13-21 CheckFrame; net/gp/const.go:15 FrameLen = 33; the GP frame type is 4 *)
Definition gp_CheckFrame (f : bytes) : res ferr :=
  if negb (zlen f =? 33) then Ok FLength
  else let! t := idx f 0 in if negb (t =? 4) then Ok FType else Ok FOk.
(** net/gp/frame.go:24-35 *)
Definition gp_FrameType (f : bytes) := idx f 0.
Definition gp_DestinationAddr f := copy_out f 1 16.
Definition gp_SourceAddr f := copy_out f 17 16.
Definition gp_SetFrameType (f : bytes) (t : Z) := set_idx f 0 t.
Definition gp_SetDestinationAddr f a := copy_in f 1 a.
Definition gp_SetSourceAddr f a := copy_in f 17 a.
Definition gp_NextFrame (f : bytes) := slice_from f 33.
(** net/gp/address.go:18-28 *)
Definition PlanetID a := get16 a 0.
Definition SocietyID a := get32 a 2.
Definition RouterID a := get32 a 6.
Definition UserID a := get32 a 10.
Definition AppID a := get16 a 14.
Definition SetPlanetID a v := put16 a 0 v.
Definition SetSocietyID a v := put32 a 2 v.
Definition SetRouterID a v := put32 a 6 v.
Definition SetUserID a v := put32 a 10 v.
Definition SetAppID a v := put16 a 14 v.

(** * Chapar frames, net/chapar/frame.go *)
(** 74 IsBroadcastFrame, 39-44 HopCount, 45 NextHop *)
Definition IsBroadcastFrame (f : bytes) : res bool := let! c := idx f 1 in Ok (c =? 0).
Definition HopCount (f : bytes) : res Z := let! b := IsBroadcastFrame f in if b then Ok 255 else idx f 1.
Definition NextHop (f : bytes) : res Z := idx f 2.
(** 46-48: the sums are bytes *)
Definition PortNum (f : bytes) (hop : Z) : res Z := idx f (u8 (3 + hop)).
Definition NextPortNum (f : bytes) : res Z := let! h := NextHop f in PortNum f h.
Definition PathOf (f : bytes) : res bytes := let! c := HopCount f in slice f 3 (u8 (3 + c)).
(** 51-54 *)
Definition SetFrameType (f : bytes) (t : Z) := set_idx f 0 t.
Definition SetHopCount (f : bytes) (c : Z) := set_idx f 1 c.
Definition SetPortNum (f : bytes) (hop port : Z) : res bytes := set_idx f (u8 (3 + hop)) port.
Definition SetPath (f path : bytes) : res bytes := copy_at f 3 path.
(** 14-25 Init; the Chapar frame type is 3 *)
Definition FrameInit (f path : bytes) : res bytes :=
  let n := u8 (zlen path) in
  let n := if n =? 0 then 255 else n in
  let! f := SetFrameType f 3 in let! f := SetHopCount f n in SetPath f path.
(** 58-70 CheckFrame; const.go:7-9 lengths 4 to 258 *)
Definition CheckFrame (f : bytes) : res ferr :=
  if zlen f <? 4 then Ok FShort
  else if 258 <? zlen f then Ok FLong
  else let! t := idx f 0 in if negb (t =? 3) then Ok FType else Ok FOk.
(** 77-87 IncrementNextHop *)
Definition IncrementNextHop (f : bytes) (port : Z) : res (bytes * bool) :=
  let! next := NextHop f in
  let! count := HopCount f in
  let! f := SetPortNum f next port in
  if next =? u8 (count - 1) then Ok (f, true)
  else let! h := idx f 2 in let! f := set_idx f 2 (u8 (h + 1)) in Ok (f, false).
(** 91-92 FrameLen, NextFrame *)
Definition FrameLen (f : bytes) : res Z := let! c := HopCount f in Ok (u8 (3 + c)).
Definition NextFrame (f : bytes) : res bytes := let! c := HopCount f in slice_from f (u8 (3 + c)).

(** One switch after another *)
Fixpoint forward (f : bytes) (ports : list Z) : res (bytes * list bool) :=
  match ports with
  | [] => Ok (f, [])
  | p :: r =>
      let! r_ := IncrementNextHop f p in let '(f, last) := r_ in
      let! s_ := forward f r in let '(f, l) := s_ in Ok (f, last :: l)
  end.

(** * Paths, net/chapar/path.go *)
(** 10-13: an array of 255 bytes and a length byte *)
Record path := Path { parr : bytes; plen : Z }.
(** 16-20 Init, 22-25 Set, 27-29 Get *)
Definition PathInit (p : path) (f : bytes) : res path :=
  let! c := HopCount f in let! s := slice f 3 (u8 (3 + c)) in Ok (Path (overwrite (parr p) 0 s) c).
Definition PathSet (p : path) (s : bytes) : path := Path (overwrite (parr p) 0 s) (u8 (zlen s)).
Definition PathGet (p : path) : res bytes := slice_to (parr p) (plen p).
(** 76-85 Unmarshal *)
Definition PathUnmarshal (p : path) (s : bytes) : path := if zlen s =? 0 then p else PathSet p s.
(** 40-44 the loop; the fuel of 256 rounds is never used up *)
Fixpoint rev_loop (k : nat) (p r : bytes) (ln j : Z) : option (res (bytes * Z)) :=
  match k with
  | O => None
  | S k =>
      if j <=? ln then
        match (let! a := idx p j in let! b := idx p ln in let! r := set_idx r ln a in set_idx r j b) with
        | Ok r => rev_loop k p r (u8 (ln - 1)) (u8 (j + 1))
        | Panic => Some Panic
        end
      else Some (Ok (r, ln))
  end.
(** 36-48 CopyReverseTo.  The two stores happen after both loads. *)
Definition CopyReverseTo (p r : path) : option (res path) :=
  match rev_loop 256 (parr p) (parr r) (u8 (plen p - 1)) 0 with
  | None => None
  | Some Panic => Some Panic
  | Some (Ok (a, ln)) => Some (Ok (Path a ln))
  end.

(** * Connections, net/chapar/connection.go *)
Record conn := Conn { toPeer : path; fromPeer : path; alts : list path }.
(** 27-38 Init; the frame itself, header included, is passed to Unmarshal *)
Definition ConnInit (c : conn) (f : bytes) : option (res conn) :=
  let from := PathUnmarshal (fromPeer c) f in
  match CopyReverseTo from (toPeer c) with
  | None => None
  | Some Panic => Some Panic
  | Some (Ok to) => Some (Ok (Conn to from (alts c)))
  end.
Inductive perr := PNone | PInUse | PExists.
(** 93-106 setAlternativePath *)
Definition setAlternativePath (c : conn) (p : path) : conn * perr :=
  if beq (parr (toPeer c)) (parr p) then (c, PInUse)
  else if existsb (fun q => beq (parr q) (parr p)) (alts c) then (c, PExists)
  else (Conn (toPeer c) (fromPeer c) (alts c ++ [p]), PNone).
(** 125-134 changePath *)
Definition changePath (c : conn) (i : Z) : option (res conn) :=
  match nth_error (alts c) (Z.to_nat i) with
  | None => Some Panic
  | Some a =>
      if i <? 0 then Some Panic
      else match CopyReverseTo (fromPeer c) a with
           | None => None
           | Some Panic => Some Panic
           | Some (Ok to) => Some (Ok (Conn to (fromPeer c) (firstn (Z.to_nat i) (alts c) ++ toPeer c :: skipn (S (Z.to_nat i)) (alts c))))
           end
  end.
(** 61-66 WriteFrame: the whole array is the path *)
Definition WriteFrame (c : conn) (f : bytes) : res (bytes * Z) :=
  let! f := FrameInit f (parr (toPeer c)) in let! n := FrameLen f in Ok (f, n).

(** net/chapar/mux.go:36-43 and 72-78: for i = 0; i <= 255; i++ over a byte; one round *)
Definition port_loop_round (i : Z) : option Z := if i <=? 255 then Some (u8 (i + 1)) else None.
Fixpoint port_loop (n : nat) (i : Z) : option Z :=
  match n with
  | O => Some i
  | S n => match port_loop_round i with Some i => port_loop n i | None => None end
  end.
