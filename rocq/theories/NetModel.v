(** Model of the packet accessors: net/tcp/segment.go, net/ipv4/packet.go,
    net/ipv6/packet.go, net/udp/packet.go.  binary.BigEndian is the little-endian-host
    build ([bele_], see BinModel).  A setter returns the new packet. *)
From Verif Require Import Go BinModel.

(** binary.BigEndian(p[k:]).Uint16() and PutUint16, and the 32-bit ones *)
Definition get16 (p : bytes) (k : Z) : res Z := let! s := slice_from p k in bele_Uint16 s.
Definition get32 (p : bytes) (k : Z) : res Z := let! s := slice_from p k in bele_Uint32 s.
Definition put16 (p : bytes) (k v : Z) : res bytes :=
  let! s := slice_from p k in let! s := bele_PutUint16 s v in Ok (firstn (Z.to_nat k) p ++ s).
Definition put32 (p : bytes) (k v : Z) : res bytes :=
  let! s := slice_from p k in let! s := bele_PutUint32 s v in Ok (firstn (Z.to_nat k) p ++ s).
(** copy(a[:], p[k:]) into a zeroed array of n bytes; copy(p[k:], a) *)
Definition copy_out (p : bytes) (k : Z) (n : nat) : res bytes :=
  let! s := slice_from p k in Ok (overwrite (repeat 0 n) 0 s).
Definition copy_in (p : bytes) (k : Z) (a : bytes) : res bytes := copy_at p k a.
(** p[k] |= v, p[k] &= ^m, p[k]&m != 0 *)
Definition or_byte (p : bytes) (k v : Z) : res bytes := let! b := idx p k in set_idx p k (Z.lor b v).
Definition clear_byte (p : bytes) (k m : Z) : res bytes := let! b := idx p k in set_idx p k (Z.land b (255 - m)).
Definition test_byte (p : bytes) (k m : Z) : res bool := let! b := idx p k in Ok (negb (Z.land b m =? 0)).

(** * TCP, net/tcp/segment.go *)
(** 31-34, 36-38 *)
Definition tcp_SourcePort s := get16 s 0.
Definition tcp_DestinationPort s := get16 s 2.
Definition tcp_SequenceNumber s := get32 s 4.
Definition tcp_AckNumber s := get32 s 8.
Definition tcp_Window s := get16 s 14.
Definition tcp_Checksum s := get16 s 16.
Definition tcp_UrgentPointer s := get16 s 18.
(** 35 DataOffset (uint8) *)
Definition tcp_DataOffset (s : bytes) : res Z := let! b := idx s 12 in Ok (u8 (Z.shiftr b 4 * 4)).
(** 39-40 Options, Payload *)
Definition tcp_Options (s : bytes) : res bytes := let! d := tcp_DataOffset s in slice s 20 d.
Definition tcp_Payload (s : bytes) : res bytes := let! d := tcp_DataOffset s in slice_from s d.
(** 45-48, 52-54 *)
Definition tcp_SetSourcePort s v := put16 s 0 v.
Definition tcp_SetDestinationPort s v := put16 s 2 v.
Definition tcp_SetSequenceNumber s v := put32 s 4 v.
Definition tcp_SetAckNumber s v := put32 s 8 v.
Definition tcp_SetWindow s v := put16 s 14 v.
Definition tcp_SetChecksum s v := put16 s 16 v.
Definition tcp_SetUrgentPointer s v := put16 s 18 v.
(** 49-51 SetDataOffset, SetFlagPartOne, SetFlagPartTwo *)
Definition tcp_SetDataOffset (s : bytes) (ln : Z) : res bytes := or_byte s 12 (u8 (Z.shiftl (ln / 4) 4)).
Definition tcp_SetFlagPartOne (s : bytes) (flags : Z) : res bytes := or_byte s 12 flags.
Definition tcp_SetFlagPartTwo (s : bytes) (flags : Z) : res bytes := set_idx s 13 flags.
(** 55-56 SetOptions, SetPayload *)
Definition tcp_SetOptions (s o : bytes) : res bytes := copy_in s 20 o.
Definition tcp_SetPayload (s p : bytes) : res bytes := let! d := tcp_DataOffset s in copy_in s d p.
(** 61-98 Flag*, SetFlag*, UnsetFlag*; net/tcp/flag.go:8-22 the masks *)
Inductive tcp_flag := Reserved1 | Reserved2 | Reserved3 | NS | CWR | ECE | URG | ACK | PSH | RST | SYN | FIN.
Definition flag_byte (f : tcp_flag) : Z :=
  match f with Reserved1 | Reserved2 | Reserved3 | NS => 12 | _ => 13 end.
Definition flag_mask (f : tcp_flag) : Z :=
  match f with
  | Reserved1 => 8 | Reserved2 => 4 | Reserved3 => 2 | NS => 1
  | CWR => 128 | ECE => 64 | URG => 32 | ACK => 16 | PSH => 8 | RST => 4 | SYN => 2 | FIN => 1
  end.
Definition tcp_Flag (s : bytes) (f : tcp_flag) : res bool := test_byte s (flag_byte f) (flag_mask f).
Definition tcp_SetFlag (s : bytes) (f : tcp_flag) : res bytes := or_byte s (flag_byte f) (flag_mask f).
Definition tcp_UnsetFlag (s : bytes) (f : tcp_flag) : res bytes := clear_byte s (flag_byte f) (flag_mask f).
(** 17-26 CheckSegment; CNF_Segment_MinSize is 20 *)
Inductive check := Good | TooShort | WrongLength.
Definition tcp_CheckSegment (s : bytes) : res check :=
  if zlen s <? 20 then Ok TooShort
  else let! d := tcp_DataOffset s in Ok (if zlen s <? d then WrongLength else Good).

(** * IPv4, net/ipv4/packet.go *)
(** 29-41 *)
Definition ip4_Version (p : bytes) : res Z := let! b := idx p 0 in Ok (Z.shiftr b 4).
Definition ip4_IHL (p : bytes) : res Z := let! b := idx p 0 in Ok (u8 (Z.land b 15 * 4)).
Definition ip4_DSCP (p : bytes) : res Z := let! b := idx p 1 in Ok (Z.shiftr b 2).
Definition ip4_TotalLength p := get16 p 2.
Definition ip4_Identification p := copy_out p 4 2.
Definition ip4_FragmentOffset (p : bytes) : res Z := let! v := get16 p 6 in Ok (Z.land v 57344).
Definition ip4_TimeToLive (p : bytes) : res Z := idx p 8.
Definition ip4_Protocol (p : bytes) : res Z := idx p 9.
Definition ip4_HeaderChecksum p := copy_out p 10 2.
Definition ip4_SourceAddr p := copy_out p 12 4.
Definition ip4_DestinationAddr p := copy_out p 16 4.
Definition ip4_Options (p : bytes) : res bytes := slice_from p 20.
Definition ip4_Payload (p : bytes) : res bytes := let! h := ip4_IHL p in slice_from p h.
(** 46-58 *)
Definition ip4_SetVersion (p : bytes) (v : Z) : res bytes := set_idx p 0 (u8 (Z.shiftl v 4)).
Definition ip4_SetIHL (p : bytes) (ln : Z) : res bytes := or_byte p 0 (ln / 4).
Definition ip4_SetDSCP (p : bytes) (dscp : Z) : res bytes := or_byte p 1 (Z.shiftr dscp 2).
Definition ip4_SetTotalLength p v := put16 p 2 v.
Definition ip4_SetIdentification p a := copy_in p 4 a.
Definition ip4_SetFragmentOffset p v := put16 p 6 v.
Definition ip4_SetTimeToLive (p : bytes) (v : Z) : res bytes := set_idx p 8 v.
Definition ip4_SetProtocol (p : bytes) (v : Z) : res bytes := set_idx p 9 v.
Definition ip4_SetHeaderChecksum p a := copy_in p 10 a.
Definition ip4_SetSourceAddr p a := copy_in p 12 a.
Definition ip4_SetDestinationAddr p a := copy_in p 16 a.
Definition ip4_SetOptions (p o : bytes) : res bytes := copy_in p 20 o.
Definition ip4_SetPayload (p a : bytes) : res bytes := let! h := ip4_IHL p in copy_in p h a.
(** 63-69, 71-77, 79-85; net/ipv4/flag.go:5-14.  The single-bit flags; ECT0 and ECT1 are the
    two bits of the congestion field. *)
Inductive ip4_flag := FReserved | DF | MF | ECT0 | ECT1.
Definition ip4_flag_byte (f : ip4_flag) : Z := match f with ECT0 | ECT1 => 1 | _ => 6 end.
Definition ip4_flag_mask (f : ip4_flag) : Z :=
  match f with FReserved => 128 | DF => 64 | MF => 32 | ECT0 => 2 | ECT1 => 1 end.
Definition ip4_Flag (p : bytes) (f : ip4_flag) : res bool := test_byte p (ip4_flag_byte f) (ip4_flag_mask f).
Definition ip4_SetFlag (p : bytes) (f : ip4_flag) : res bytes := or_byte p (ip4_flag_byte f) (ip4_flag_mask f).
Definition ip4_UnsetFlag (p : bytes) (f : ip4_flag) : res bytes := clear_byte p (ip4_flag_byte f) (ip4_flag_mask f).
Definition ip4_FlagECT (p : bytes) : res bool :=
  let! a := ip4_Flag p ECT0 in if a then Ok true else ip4_Flag p ECT1.
Definition ip4_FlagCE (p : bytes) : res bool := test_byte p 1 3.
Definition ip4_SetFlagCE (p : bytes) : res bytes := or_byte p 1 3.
Definition ip4_UnsetFlagECT (p : bytes) : res bytes := clear_byte p 1 3.
(** 15-24 CheckPacket; MinHeaderLen is 40 (net/ipv4/const.go:22) *)
Definition ip4_CheckPacket (p : bytes) : res check :=
  if zlen p <? 40 then Ok TooShort
  else let! h := ip4_IHL p in Ok (if zlen p <? h then WrongLength else Good).

(** * IPv6, net/ipv6/packet.go *)
(** 25-33 *)
Definition ip6_Version (p : bytes) : res Z := let! b := idx p 0 in Ok (Z.shiftr b 4).
Definition ip6_TrafficClass (p : bytes) : res Z :=
  let! a := idx p 0 in let! b := idx p 1 in Ok (Z.lor (u8 (Z.shiftl a 4)) (Z.shiftr b 4)).
Definition ip6_FlowLabel (p : bytes) : res bytes :=
  let! fl := copy_out p 1 3 in let! b := idx fl 0 in set_idx fl 0 (Z.land b 15).
Definition ip6_PayloadLength p := get16 p 4.
Definition ip6_NextHeader (p : bytes) : res Z := idx p 6.
Definition ip6_HopLimit (p : bytes) : res Z := idx p 7.
Definition ip6_SourceAddr p := copy_out p 8 16.
Definition ip6_DestinationAddr p := copy_out p 24 16.
Definition ip6_Payload (p : bytes) : res bytes := slice_from p 40.
(** 38-46 *)
Definition ip6_SetVersion (p : bytes) (v : Z) : res bytes := set_idx p 0 (u8 (Z.shiftl v 4)).
Definition ip6_SetTrafficClass (p : bytes) (tc : Z) : res bytes :=
  let! p := or_byte p 0 (Z.shiftr tc 4) in set_idx p 1 (u8 (Z.shiftl tc 4)).
Definition ip6_SetFlowLabel (p fl : bytes) : res bytes :=
  let! a := idx fl 0 in let! b := idx fl 1 in let! c := idx fl 2 in
  let! p := or_byte p 1 a in let! p := set_idx p 2 b in set_idx p 3 c.
Definition ip6_SetPayloadLength p v := put16 p 4 v.
Definition ip6_SetNextHeader (p : bytes) (v : Z) : res bytes := set_idx p 6 v.
Definition ip6_SetHopLimit (p : bytes) (v : Z) : res bytes := set_idx p 7 v.
Definition ip6_SetSourceAddr p a := copy_in p 8 a.
Definition ip6_SetDestinationAddr p a := copy_in p 24 a.
Definition ip6_SetPayload (p a : bytes) : res bytes := copy_in p 40 a.
(** 15-20 CheckPacket *)
Definition ip6_CheckPacket (p : bytes) : check := if zlen p <? 40 then TooShort else Good.

(** * UDP, net/udp/packet.go *)
(** 30-34 *)
Definition udp_SourcePort p := get16 p 0.
Definition udp_DestinationPort p := get16 p 2.
Definition udp_Length p := get16 p 4.
Definition udp_Checksum p := get16 p 6.
Definition udp_Payload (p : bytes) : res bytes := slice_from p 8.
(** 39-43; SetLength writes at 5 *)
Definition udp_SetSourcePort p v := put16 p 0 v.
Definition udp_SetDestinationPort p v := put16 p 2 v.
Definition udp_SetLength p v := put16 p 5 v.
Definition udp_SetChecksum p v := put16 p 6 v.
Definition udp_SetPayload (p a : bytes) : res bytes := copy_in p 8 a.
(** 16-25 CheckPacket *)
Definition udp_CheckPacket (p : bytes) : res check :=
  if zlen p <? 8 then Ok TooShort
  else let! l := udp_Length p in Ok (if zlen p <? l then WrongLength else Good).
