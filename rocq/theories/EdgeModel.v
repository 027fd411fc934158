(** Model of net/ipv4/tcp.go and net/ipv6/tcp.go (finding the stream of a segment) and of
    net/ipv6/extension-routing.go (the routing header). *)
From Verif Require Import Go NetModel TcpModel RegModel.

(** * Segments to streams *)
(** ipv4/tcp.go:12-17 and ipv6/tcp.go:14-19: addresses as byte lists *)
Record key := Key { src_ip : bytes; src_port : Z; dst_ip : bytes; dst_port : Z }.
Definition key_eqb (a b : key) : bool :=
  beq (src_ip a) (src_ip b) && (src_port a =? src_port b) && beq (dst_ip a) (dst_ip b) && (dst_port a =? dst_port b).
(** The map of pointers: an absent entry and a nil one read alike *)
Definition table := key -> option stream.
(** tcp/stream.go:112-152 Receive with a receiver that may be nil: the segment is checked first *)
Definition receive_at (s : option stream) (g : bytes) : res (option stream * rerr) :=
  match s with
  | Some s => let! r := TcpModel.Receive s g in Ok (Some (fst r), snd r)
  | None => let! c := tcp_CheckSegment g in match c with Good => Panic | _ => Ok (None, RCheck c) end
  end.
(** ipv4/tcp.go:43-47 newSocketOverIPv4, ipv6/tcp.go:63-67: the stream is never made *)
Definition newSocket (m : table) (k : key) : table * option stream := (map_set key_eqb m k None, None).
(** ipv4/tcp.go:31-40 and ipv6/tcp.go:51-60; the stream behind a pointer changes in place *)
Definition find_and_receive (m : table) (k : key) (g : bytes) : res (table * rerr) :=
  let '(m, s) := match m k with Some s => (m, Some s) | None => newSocket m k end in
  let! r := receive_at s g in
  Ok (match fst r with Some s => map_set key_eqb m k (Some s) | None => m end, snd r).
(** ipv4/tcp.go:22-41 ReceiveOverIPv4 *)
Definition ReceiveOverIPv4 (m : table) (g src dst : bytes) : res (table * rerr) :=
  let! sp := tcp_SourcePort g in let! dp := tcp_DestinationPort g in
  find_and_receive m (Key src sp dst dp) g.
(** ipv6/tcp.go:24-61 ReceiveTCPOverIPv6; [service] says whether a service has the number of the port;
    nothing comes back but its error when there is none *)
Definition ReceiveTCPOverIPv6 (service : Z -> bool) (m : table) (src dst g : bytes) : res (table * option rerr) :=
  let! sp := tcp_SourcePort g in let! dp := tcp_DestinationPort g in
  if service dp then let! r := find_and_receive m (Key src sp dst dp) g in Ok (fst r, Some (snd r))
  else Ok (m, None).
(** A process: segments arrive one after the other, from the empty map (ipv4/tcp.go:10) *)
Definition no_streams : table := fun _ => None.
Fixpoint arrivals (m : table) (l : list (bytes * bytes * bytes)) : res table :=
  match l with
  | [] => Ok m
  | (g, src, dst) :: r => let! x := ReceiveOverIPv4 m g src dst in arrivals (fst x) r
  end.

(** * The routing header, extension-routing.go:18-24; the sum of line 24 is a byte *)
Definition NextHeader (e : bytes) := idx e 0.
Definition Length (e : bytes) := idx e 1.
Definition RoutingType (e : bytes) := idx e 2.
Definition SegmentsLeft (e : bytes) := idx e 3.
Definition TypeSpecificData (e : bytes) := copy_out e 4 4.
Definition Optional (e : bytes) : res bytes := let! n := Length e in slice e 8 n.
Definition NextFrame (e : bytes) : res bytes := let! n := Length e in slice_from e (u8 (8 + n)).
