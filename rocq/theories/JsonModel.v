(** json: model of json/encode.go, json/decode.go, json/decode-minified.go. *)
From Verif Require Import Go IntSpec IntModel StrconvModel Base64Model.

(** * Encoder, json/encode.go.  [ecap] is the capacity of the buffer: the base64
    methods reslice into it.  [append] grows it by just what is needed (Go may
    take more). *)
Record enc := Enc { ebuf : bytes; ecap : Z }.
Definition eapp (e : enc) (s : bytes) : enc :=
  let b := ebuf e ++ s in Enc b (Z.max (ecap e) (zlen b)).

(** encode.go:36-38 AddTrailingComma *)
Definition AddTrailingComma (e : enc) : enc := eapp e [44].
(** encode.go:41-46 RemoveTrailingComma: panics on an empty buffer. *)
Definition RemoveTrailingComma (e : enc) : res enc :=
  let last := zlen (ebuf e) - 1 in
  let! c := idx (ebuf e) last in
  if c =? 44 then let! b := slice_to (ebuf e) last in Ok (Enc b (ecap e)) else Ok e.
(** encode.go:49-51 EncodeByte *)
Definition EncodeByte (e : enc) (b : Z) : enc := eapp e [b].
(** encode.go:54-60 EncodeBoolean *)
Definition EncodeBoolean (e : enc) (b : bool) : enc := eapp e (if b then str "true" else str "false").
(** encode.go:64-66, 70-72, 75-77, 80-82 EncodeUInt8 .. EncodeUInt64 *)
Definition EncodeUInt (e : enc) (ui : Z) : enc := eapp e (FormatUint10 ui).
(** encode.go:85-87 EncodeInt64 *)
Definition EncodeInt64 (e : enc) (i : Z) : enc := eapp e (FormatInt10 i).
(** encode.go:100-102 EncodeString *)
Definition EncodeString (e : enc) (s : bytes) : enc := eapp e s.
(** encode.go:105-109 EncodeKey *)
Definition EncodeKey (e : enc) (s : bytes) : enc := eapp (eapp (eapp e [34]) s) [34; 58].
(** encode.go:112-116 EncodeStringValue *)
Definition EncodeStringValue (e : enc) (s : bytes) : enc := eapp (eapp (eapp e [34]) s) [34; 44].
(** encode.go:125-162 EncodeByteSliceAsNumber .. EncodeUInt64SliceAsNumber *)
Fixpoint encode_numbers (e : enc) (l : list Z) : enc :=
  match l with [] => e | n :: t => encode_numbers (eapp (eapp e (FormatUint10 n)) [44]) t end.
Definition EncodeSliceAsNumber (e : enc) (l : list Z) : res enc :=
  RemoveTrailingComma (encode_numbers e l).
(** encode.go:171-176 EncodeByteSliceAsBase64: reslices up to the capacity. *)
Definition EncodeByteSliceAsBase64 (e : enc) (l : bytes) : res enc :=
  let n := encoded_len (zlen l) in
  if zlen (ebuf e) + n <=? ecap e then Ok (Enc (ebuf e ++ b64_encode std_char l) (ecap e))
  else Panic.

(** * Decoder state, json/decode.go:15-24 (the options are never read). *)
Record dec := Dec { dbuf : bytes; dtok : Z; dlast : bytes }.
Definition dec_init (b : bytes) : dec := Dec b 0 [].

(** decode.go:35-37 Offset *)
Definition Offset (d : dec) (o : Z) : res dec :=
  let! b := slice_from (dbuf d) o in Ok (Dec b (dtok d) (dlast d)).

(** decode.go:40-60 FindEndToken: nothing changes when no terminator is found. *)
Definition is_end (c : Z) : bool := (c =? 44) || (c =? 93) || (c =? 125).
Fixpoint cut_end (b : bytes) : option (bytes * Z * bytes) :=
  match b with
  | [] => None
  | c :: t => if is_end c then Some ([], c, b)
              else match cut_end t with
                   | Some (p, k, r) => Some (c :: p, k, r)
                   | None => None
                   end
  end.
Definition FindEndToken (d : dec) : dec :=
  match cut_end (dbuf d) with
  | Some (p, k, r) => Dec r k p
  | None => d
  end.

(** decode.go:63-70 TrimToDigit *)
Fixpoint drop_to_digit (b : bytes) : option bytes :=
  match b with
  | [] => None
  | c :: t => if (48 <=? c) && (c <=? 57) then Some b else drop_to_digit t
  end.
Definition TrimToDigit (d : dec) : dec :=
  match drop_to_digit (dbuf d) with Some b => Dec b (dtok d) (dlast d) | None => d end.

(** decode.go:73-80 TrimSpaces *)
Fixpoint drop_spaces (b : bytes) : option bytes :=
  match b with [] => None | c :: t => if c =? 32 then drop_spaces t else Some b end.
Definition TrimSpaces (d : dec) : dec :=
  match drop_spaces (dbuf d) with Some b => Dec b (dtok d) (dlast d) | None => d end.

(** bytes.IndexByte, as the text before and after the first occurrence. *)
Fixpoint cut_byte (q : Z) (b : bytes) : option (bytes * bytes) :=
  match b with
  | [] => None
  | c :: t => if c =? q then Some ([], t)
              else match cut_byte q t with Some (p, r) => Some (c :: p, r) | None => None end
  end.

(** decode.go:83-90 TrimToStringStart *)
Definition TrimToStringStart (d : dec) : dec :=
  match cut_byte 34 (dbuf d) with Some (_, r) => Dec r (dtok d) (dlast d) | None => d end.

(** decode.go:93-107 CheckNullValue; d.buf[i:i+4] panics near the end. *)
Fixpoint check_null (b : bytes) (null : bool) : res bool :=
  match b with
  | [] => Ok null
  | c :: t =>
      if c =? 110 then
        let! w := slice_to b 4 in
        check_null t (if beq w (str "null") then true else null)
      else if c =? 34 then Ok false
      else if c =? 44 then Ok null
      else check_null t null
  end.
Definition CheckNullValue (d : dec) : res bool := check_null (dbuf d) false.

(** decode.go:115-121 CheckToken *)
Definition CheckToken (d : dec) (t : Z) : bool * dec :=
  if dtok d =? t then (true, Dec (dbuf d) 0 (dlast d)) else (false, d).

(** decode.go:124-137 DecodeKey.  Without a ':' the index is -1 and nothing is cut. *)
Definition DecodeKey (d : dec) : bytes * dec :=
  let d := TrimToStringStart d in
  match cut_byte 34 (dbuf d) with
  | None => ([], d)
  | Some (key, r) =>
      match cut_byte 58 r with
      | Some (_, r') => (key, Dec r' (dtok d) (dlast d))
      | None => (key, Dec r (dtok d) (dlast d))
      end
  end.

(** Errors, json/errors.go. *)
Inductive jerr := ErrIntegerCorrupted | ErrStringCorrupted | ErrSliceCorrupted | ErrArrayCorrupted.

(** decode.go:158-168 DecodeBool *)
Definition DecodeBool (d : dec) : res (bool * dec) :=
  let d := TrimSpaces d in
  let! c := idx (dbuf d) 0 in
  if c =? 116 then let! d' := Offset d 5 in Ok (true, d')
  else let! d' := Offset d 6 in Ok (false, d').

(** decode.go:171-216 DecodeUInt8 .. DecodeUInt64.  convert.StringToUintNBase10 is
    no longer in the repository; its body is FromString_Base10 of
    math/integer/unsigned-*.go (parameter [parse]). *)
Definition parser := bytes -> Z -> option perr * Z.
Definition DecodeUInt (parse : parser) (d : dec) : option jerr * Z * dec :=
  let d := FindEndToken (TrimToDigit d) in
  match parse (dlast d) 0 with
  | (None, n) => (None, n, d)
  | (Some _, n) => (Some ErrIntegerCorrupted, n, d)
  end.
(** decode.go:219-228 DecodeInt64 *)
Definition DecodeInt64 (d : dec) : option jerr * Z * dec :=
  let d := FindEndToken (TrimToDigit d) in
  match ParseInt10 64 (dlast d) with
  | Some n => (None, n, d)
  | None => (Some ErrIntegerCorrupted, 0, d)
  end.
(** decode.go:243-260 DecodeString *)
Definition DecodeString (d : dec) : res (option jerr * bytes * dec) :=
  let! null := CheckNullValue d in
  if null then Ok (None, [], d)
  else
    let d := TrimToStringStart d in
    match cut_byte 34 (dbuf d) with
    | None => Ok (Some ErrStringCorrupted, [], d)
    | Some (s, r) => Ok (None, s, Dec r (dtok d) (dlast d))
    end.

(** decode.go:316-385 DecodeByteSliceAsNumber .. DecodeUInt64SliceAsNumber.
    [None]: the fuel ran out. *)
Fixpoint slice_loop (parse : parser) (fuel : nat) (d : dec) (acc : list Z)
  : option (option jerr * list Z * dec) :=
  match fuel with
  | O => None
  | S f =>
      let '(stop, d) := CheckToken d 93 in
      if stop then Some (None, acc, d)
      else match DecodeUInt parse d with
           | (Some _, _, d) => Some (Some ErrSliceCorrupted, acc, d)
           | (None, n, d) => slice_loop parse f (FindEndToken d) (acc ++ [n])
           end
  end.
Definition DecodeSliceAsNumber (parse : parser) (fuel : nat) (d : dec) := slice_loop parse fuel d [].

(** decode.go:392-411 DecodeByteSliceAsBase64; the half-filled slice beside an error is left out *)
Definition DecodeByteSliceAsBase64 (d : dec) : option jerr * bytes * dec :=
  let d := TrimToStringStart d in
  match cut_byte 34 (dbuf d) with
  | None => (Some ErrSliceCorrupted, [], d)
  | Some (s, _) =>
      match b64_decode std_digit s with
      | None => (Some ErrSliceCorrupted, [], d)
      | Some l => (None, l, FindEndToken d)
      end
  end.

(** * DecoderMinified, json/decode-minified.go *)
(** decode-minified.go:20-26 DecodeKey *)
Definition MDecodeKey (d : dec) : res (bytes * dec) :=
  let! d := Offset d 2 in
  match cut_byte 34 (dbuf d) with
  | None => Panic
  | Some (key, _) => let! d' := Offset d (zlen key + 2) in Ok (key, d')
  end.
(** decode-minified.go:29-38 DecodeBool *)
Definition MDecodeBool (d : dec) : res (bool * dec) :=
  let! c := idx (dbuf d) 0 in
  if c =? 116 then let! d' := Offset d 5 in Ok (true, d')
  else let! d' := Offset d 6 in Ok (false, d').
(** decode-minified.go:41-82 DecodeUInt8 .. DecodeUInt64 *)
Definition MDecodeUInt (parse : parser) (d : dec) : option jerr * Z * dec :=
  let d := FindEndToken d in
  match parse (dlast d) 0 with
  | (None, n) => (None, n, d)
  | (Some _, n) => (Some ErrIntegerCorrupted, n, d)
  end.
(** decode-minified.go:98-106 DecodeInt64 *)
Definition MDecodeInt64 (d : dec) : option jerr * Z * dec :=
  let d := FindEndToken d in
  match ParseInt10 64 (dlast d) with
  | Some n => (None, n, d)
  | None => (Some ErrStringCorrupted, 0, d)
  end.
(** decode-minified.go:120-131 DecodeString: without a quote everything but the
    last byte is the string; an empty buffer panics. *)
Definition MDecodeString (d : dec) : res (bytes * dec) :=
  match cut_byte 34 (dbuf d) with
  | Some (s, r) => Ok (s, Dec r (dtok d) (dlast d))
  | None =>
      let loc := zlen (dbuf d) - 1 in
      let! s := slice_to (dbuf d) loc in
      let! d' := Offset d (loc + 1) in Ok (s, d')
  end.
(** decode-minified.go:181-250 DecodeByteSliceAsNumber .. DecodeUInt64SliceAsNumber *)
Fixpoint mslice_loop (parse : parser) (fuel : nat) (d : dec) (acc : list Z)
  : option (res (option jerr * list Z * dec)) :=
  match fuel with
  | O => None
  | S f =>
      let '(stop, d) := CheckToken d 93 in
      if stop then Some (Ok (None, acc, d))
      else match MDecodeUInt parse d with
           | (Some _, _, d) => Some (Ok (Some ErrSliceCorrupted, acc, d))
           | (None, n, d) =>
               match Offset d 1 with
               | Panic => Some Panic
               | Ok d => mslice_loop parse f d (acc ++ [n])
               end
           end
  end.
Definition MDecodeSliceAsNumber (parse : parser) (fuel : nat) (d : dec) :=
  match Offset d 1 with
  | Panic => Some Panic
  | Ok d => mslice_loop parse fuel d []
  end.
