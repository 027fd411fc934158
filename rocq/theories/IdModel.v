(** Identifiers: identifier/8byte, identifier/uuid-time-16byte, identifier/32byte,
    identifier/rfc-4122, user/.  Arrays are lists of their fixed length; the random source is a
    parameter (the bytes it delivers, as many as asked for), and so is the clock (seconds and
    nanoseconds, time/unix Now).  SHA-3 (NewHash) is not modelled. *)
From Verif Require Import Go BinModel Base64Model.
Open Scope string_scope. Import ListNotations. Open Scope Z_scope.

(** binary.LittleEndian.PutUint64/PutUint32 (id[off:], v) through the slice of the array *)
Definition put64_at (id : bytes) (off v : Z) : res bytes :=
  let! s := slice_from id off in let! s' := lele_PutUint64 s v in Ok (firstn (Z.to_nat off) id ++ s')%list.
Definition put32_at (id : bytes) (off v : Z) : res bytes :=
  let! s := slice_from id off in let! s' := lele_PutUint32 s v in Ok (firstn (Z.to_nat off) id ++ s')%list.
Definition get64_at (id : bytes) (off : Z) : res Z := let! s := slice_from id off in lele_Uint64 s.
Definition get32_at (id : bytes) (off : Z) : res Z := let! s := slice_from id off in lele_Uint32 s.

(** identifier/8byte/uuid.go:82-84 setSecondElapsed *)
Definition set_second8 (id : bytes) (sec : Z) : res bytes := put64_at id 0 (u64 (Z.shiftl (u64 sec) 24)).
(** 77-81 secondElapsed (conversion to int64 first, then an arithmetic shift) *)
Definition second8 (id : bytes) : res Z := let! v := get64_at id 0 in Ok (Z.shiftr (i64 v) 24).
(** 43-53 New: id[5:] is filled with random bytes, then the time is set *)
Definition New8 (rnd : bytes) (sec : Z) : res bytes :=
  let! id := copy_at (repeat 0 8) 5 rnd in set_second8 id sec.
(** 76 id() : copy(rid[:], id[5:]) *)
Definition id8 (id : bytes) : bytes := skipn 5 id.

(** identifier/uuid-time-16byte/uuid.go:79-93 and identifier/32byte/uuid.go:86-100: the same
    layout in 16 and in 32 bytes *)
Definition set_second (id : bytes) (sec : Z) : res bytes := put64_at id 0 (u64 sec).
Definition set_nano (id : bytes) (nsec : Z) : res bytes := put32_at id 8 (u32 nsec).
Definition second (id : bytes) : res Z := let! v := get64_at id 0 in Ok (i64 v).
Definition nano (id : bytes) : res Z := let! v := get32_at id 8 in Ok (i32 v).
(** uuid-time-16byte/uuid.go:46-57 New, 32byte/uuid.go:52-63 New *)
Definition New_sized (n : nat) (rnd : bytes) (sec nsec : Z) : res bytes :=
  let! id := copy_at (repeat 0 n) 12 rnd in let! id := set_second id sec in set_nano id nsec.
Definition New16 := New_sized 16.
Definition New32 := New_sized 32.
(** uuid-time-16byte/uuid.go:81 id() *)
Definition id16 (id : bytes) : bytes := skipn 12 id.
(** 32byte/uuid.go:86-88 id(): the first eight bytes as an unsigned number *)
Definition id32 (id : bytes) : res Z := get64_at id 0.
(** 32byte/uuid.go:30 IDasString: base64.RawURLEncoding.EncodeToString(id[:8]) *)
Definition IDasString (id : bytes) : res bytes := let! s := slice_to id 8 in Ok (b64_encode url_char s).

(** encoding/base64 Encoding.Decode (library, as documented) into a destination of [cap] bytes:
    four characters at a time, storing into the destination panics when it is full; CR and LF are
    skipped.  [Ok None] is a CorruptInputError. *)
Fixpoint b64_into (dg : Z -> option Z) (cap : Z) (l : bytes) : res (option bytes) :=
  match l with
  | [] => Ok (Some [])
  | [_] => Ok None
  | [a; b] =>
      match dg a, dg b with
      | Some x, Some y => if cap <? 1 then Panic else Ok (Some [x * 4 + y / 16])
      | _, _ => Ok None
      end
  | [a; b; c] =>
      match dg a, dg b, dg c with
      | Some x, Some y, Some z => if cap <? 2 then Panic else Ok (Some [x * 4 + y / 16; y mod 16 * 16 + z / 4])
      | _, _, _ => Ok None
      end
  | a :: b :: c :: d :: t =>
      match dg a, dg b, dg c, dg d with
      | Some x, Some y, Some z, Some w =>
          if cap <? 3 then Panic
          else
            let! r := b64_into dg (cap - 3) t in
            Ok (match r with
                | Some r => Some (x * 4 + y / 16 :: y mod 16 * 16 + z / 4 :: z mod 4 * 64 + w :: r)
                | None => None
                end)
      | _, _, _, _ => Ok None
      end
  end.
(** 32byte/uuid.go:102-112 IDfromString: on a decoding error the id stays 0 and the error nil
    ("err =" is commented out) *)
Definition IDfromString (s : bytes) : res Z :=
  let! d := b64_into url_digit 8 (filter (fun c => negb ((c =? 10) || (c =? 13))) s) in
  match d with
  | Some r => lele_Uint64 (overwrite (repeat 0 8) 0 r)
  | None => Ok 0
  end.

(** identifier/rfc-4122/uuid.go:27-40 V4 *)
Definition V4 (rnd : bytes) : res bytes :=
  let! b6 := idx rnd 6 in
  let! u := set_idx rnd 6 (Z.lor (Z.land b6 15) 64) in
  let! b8 := idx u 8 in
  set_idx u 8 (Z.lor (Z.land b8 63) 128).
(** encoding/hex Encode (library): two lower-case digits per byte *)
Definition hex_char (d : Z) : Z := if d <? 10 then 48 + d else 87 + d.
Fixpoint hex_encode (l : bytes) : bytes :=
  match l with [] => [] | a :: t => hex_char (a / 16) :: hex_char (a mod 16) :: hex_encode t end.
(** uuid.go:86-96 encodeHex: the five pieces and the four dashes stored into [dst] *)
Definition encodeHex (dst u : bytes) : res bytes :=
  let! p1 := slice_to u 4 in let! p2 := slice u 4 6 in let! p3 := slice u 6 8 in let! p4 := slice u 8 10 in let! p5 := slice_from u 10 in
  let dst := overwrite dst 0 (hex_encode p1) in
  let! dst := set_idx dst 8 45 in
  let dst := overwrite dst 9 (hex_encode p2) in
  let! dst := set_idx dst 13 45 in
  let dst := overwrite dst 14 (hex_encode p3) in
  let! dst := set_idx dst 18 45 in
  let dst := overwrite dst 19 (hex_encode p4) in
  let! dst := set_idx dst 23 45 in
  Ok (overwrite dst 24 (hex_encode p5)).
(** uuid.go:71-75 String, and utility.go:17-30 ToString, which does the same on a [16]byte *)
Definition uuid_String (u : bytes) : res bytes := encodeHex (repeat 0 36) u.
(** uuid.go:79-84 URI *)
Definition uuid_URI (u : bytes) : res bytes :=
  let buf := overwrite (repeat 0 45) 0 (str "urn:uuid:") in
  let! s := slice_from buf 9 in let! s' := encodeHex s u in Ok (firstn 9 buf ++ s')%list.
(** encoding/hex Decode (library): pairs of digits of either case; stops at the first character
    that is not a digit (what was stored stays), panics when the destination is full *)
Definition hex_digit (c : Z) : option Z :=
  if (48 <=? c) && (c <=? 57) then Some (c - 48)
  else if (97 <=? c) && (c <=? 102) then Some (c - 87)
  else if (65 <=? c) && (c <=? 70) then Some (c - 55) else None.
Fixpoint hex_into (cap : Z) (l : bytes) : res bytes :=
  match l with
  | a :: b :: t =>
      match hex_digit a, hex_digit b with
      | Some x, Some y => if cap <? 1 then Panic else let! r := hex_into (cap - 1) t in Ok (x * 16 + y :: r)
      | _, _ => Ok []
      end
  | _ => Ok []
  end.
(** uuid.go:59-67 FromString, the local copy the method fills *)
Definition uuid_parse (u s : bytes) : res bytes :=
  let! t := slice_to s 8 in let! h := hex_into 4 t in let u := overwrite u 0 h in
  let! t := slice s 9 13 in let! h := hex_into 2 t in let u := overwrite u 4 h in
  let! t := slice s 14 18 in let! h := hex_into 2 t in let u := overwrite u 6 h in
  let! t := slice s 19 23 in let! h := hex_into 2 t in let u := overwrite u 8 h in
  let! t := slice_from s 24 in let! h := hex_into 6 t in Ok (overwrite u 10 h).
(** The receiver is a value: what the caller's variable holds after u.FromString(s) *)
Definition uuid_FromString (u s : bytes) : res bytes := let! _ := uuid_parse u s in Ok u.
(** identifier/rfc-4122/utility.go:33-35 FromString *)
Definition util_FromString (s : bytes) : bytes := repeat 0 16.

(** user/user-type.go:8-11 CheckUserType *)
Definition CheckUserType (baseUsers user : Z) : bool := Z.land user baseUsers =? user.
(** user/user.go:13-21 NewID: the setters have value receivers, so only the
    type and the random bytes reach the identifier *)
Definition user_NewID (userType sec nsec : Z) (rnd : bytes) : res bytes :=
  let id := repeat 0 16 in
  let! _ := put64_at id 0 (u64 sec) in
  let! _ := put32_at id 8 (u32 nsec) in
  let! id := set_idx id 12 (u8 userType) in
  copy_at id 13 rnd.
(** 30 Type, 31 ID, 39 secondElapsed, 40 nanoSecondElapsed *)
Definition user_Type (id : bytes) : res Z := idx id 8.
Definition user_ID (id : bytes) : bytes := skipn 13 id.
