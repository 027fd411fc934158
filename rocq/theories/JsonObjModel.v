(** json, second part: the methods left out of JsonModel (fixed arrays, 32-byte
    identifiers, the unsafe decoders) and the two client programs that write and
    read one object with them. *)
From Verif Require Import Go IntSpec IntModel StrconvModel Base64Model JsonModel.

(** json/decode-unsafe.go:18-37 DecoderUnsafe.DecodeString: without a first quote
    [loc] is -1 and nothing is cut, as in TrimToStringStart. *)
Definition UDecodeString (d : dec) : res (option jerr * bytes * dec) :=
  let! null := CheckNullValue d in
  if null then Ok (None, [], d)
  else
    let d := match cut_byte 34 (dbuf d) with Some (_, r) => Dec r (dtok d) (dlast d) | None => d end in
    match cut_byte 34 (dbuf d) with
    | None => Ok (Some ErrStringCorrupted, [], d)
    | Some (s, r) => Ok (None, s, Dec r (dtok d) (dlast d))
    end.
(** json/decode-minified-unsafe.go:18-31 DecoderUnsafeMinified.DecodeString *)
Definition UMDecodeString (d : dec) : res (option jerr * bytes * dec) :=
  let! d := Offset d 1 in
  match cut_byte 34 (dbuf d) with
  | None => Ok (Some ErrStringCorrupted, [], d)
  | Some (s, _) => let! d' := Offset d (zlen s + 1) in Ok (None, s, d')
  end.
(** json/decode-minified.go:85-95 DecodeInt32 (a method of DecoderUnsafe). *)
Definition UDecodeInt32 (d : dec) : option jerr * Z * dec :=
  let d := FindEndToken d in
  match ParseInt10 32 (dlast d) with
  | Some n => (None, n, d)
  | None => (Some ErrIntegerCorrupted, 0, d)
  end.

(** base64.RawStdEncoding.Decode(array, text): library code.  A text that decodes to
    more than the array holds panics.  Simplified: a malformed text is an error even
    if its well-formed beginning overflows the array (Go would panic), and leaves the
    array as it was (Go has written the beginning); a shorter text leaves the rest of the
    array as it was (the library, writing words of eight octets, may set two of them to 0). *)
Definition b64_into (array text : bytes) : res (option bytes) :=
  match b64_decode std_digit text with
  | None => Ok None
  | Some l => if zlen l <=? zlen array then Ok (Some (overwrite array 0 l)) else Panic
  end.

(** json/decode.go:267-287 DecodeByteArrayAsBase64 *)
Definition DecodeByteArrayAsBase64 (array : bytes) (d : dec) : res (option jerr * bytes * dec) :=
  let! null := CheckNullValue d in
  if null then Ok (None, array, d)
  else
    let d := TrimToStringStart d in
    match cut_byte 34 (dbuf d) with
    | None => Ok (Some ErrArrayCorrupted, array, d)
    | Some (s, _) =>
        let! a := b64_into array s in
        match a with
        | None => Ok (Some ErrArrayCorrupted, array, d)
        | Some a => Ok (None, a, FindEndToken d)
        end
    end.
(** json/decode.go:290-309 DecodeByteArrayAsNumber: [todo] is what is left of the
    array. *)
Fixpoint array_loop (d : dec) (todo done : bytes) : option jerr * bytes * dec :=
  match todo with
  | [] => (if dtok d =? 93 then None else Some ErrArrayCorrupted, done, d)
  | _ :: t =>
      match DecodeUInt U8_FromString_Base10 d with
      | (Some _, _, d) => (Some ErrArrayCorrupted, done ++ todo, d)
      | (None, n, d) => array_loop (FindEndToken d) t (done ++ [n])
      end
  end.
Definition DecodeByteArrayAsNumber (array : bytes) (d : dec) : res (option jerr * bytes * dec) :=
  let! null := CheckNullValue d in
  if null then Ok (None, array, d) else Ok (array_loop d array []).

(** json/decode-minified.go:138-156 DecodeByteArrayAsBase64 *)
Definition MDecodeByteArrayAsBase64 (array : bytes) (d : dec) : res (option jerr * bytes * dec) :=
  let! d := Offset d 1 in
  match cut_byte 34 (dbuf d) with
  | None => Ok (Some ErrArrayCorrupted, array, d)
  | Some (s, _) =>
      let! a := b64_into array s in
      match a with
      | None => Ok (Some ErrArrayCorrupted, array, d)
      | Some a => let! d' := Offset d (zlen s + 1) in Ok (None, a, d')
      end
  end.
(** json/decode-minified.go:158-174 DecodeByteArrayAsNumber *)
Fixpoint marray_loop (d : dec) (todo done : bytes) : res (option jerr * bytes * dec) :=
  match todo with
  | [] =>
      let! c := idx (dbuf d) 0 in
      let! d' := Offset d 1 in
      Ok (if c =? 93 then None else Some ErrArrayCorrupted, done, d')
  | _ :: t =>
      let! d := Offset d 1 in
      match MDecodeUInt U8_FromString_Base10 d with
      | (Some _, _, d) => Ok (Some ErrArrayCorrupted, done ++ todo, d)
      | (None, n, d) => marray_loop d t (done ++ [n])
      end
  end.
Definition MDecodeByteArrayAsNumber (array : bytes) (d : dec) : res (option jerr * bytes * dec) :=
  marray_loop d array [].
(** json/decode-minified.go:257-275 DecodeByteSliceAsBase64: no closing quote panics
    (the slice expression with -1).  The half-filled slice beside an error is left out. *)
Definition MDecodeByteSliceAsBase64 (d : dec) : res (option jerr * bytes * dec) :=
  let! d := Offset d 1 in
  match cut_byte 34 (dbuf d) with
  | None => Panic
  | Some (s, _) =>
      match b64_decode std_digit s with
      | None => Ok (Some ErrSliceCorrupted, [], d)
      | Some l => let! d' := Offset d (zlen s + 1) in Ok (None, l, d')
      end
  end.

(** json/encode.go:194-205 Encode32ByteArraySliceAsBase64 *)
Fixpoint encode_32s (e : enc) (ls : list bytes) : res enc :=
  match ls with
  | [] => Ok e
  | s :: t =>
      let e := eapp e [34] in
      if zlen (ebuf e) + 43 <=? ecap e
      then encode_32s (eapp (Enc (ebuf e ++ b64_encode std_char s) (ecap e)) [34; 44]) t
      else Panic
  end.
Definition Encode32ByteArraySliceAsBase64 (e : enc) (ls : list bytes) : res enc :=
  let! e := encode_32s e ls in RemoveTrailingComma e.
(** json/decode.go:414-438 Decode32ByteArraySliceAsBase64.  [None]: fuel ran out. *)
Fixpoint loop_32 (fuel : nat) (d : dec) (array : bytes) (acc : list bytes)
  : option (res (option jerr * list bytes * dec)) :=
  match fuel with
  | O => None
  | S f =>
      let '(stop, d) := CheckToken d 93 in
      if stop then Some (Ok (None, acc, d))
      else
        let d := TrimToStringStart d in
        match slice_to (dbuf d) 43 with
        | Panic => Some Panic
        | Ok w =>
            match b64_into array w with
            | Panic => Some Panic
            | Ok None => Some (Ok (Some ErrSliceCorrupted, acc, d))
            | Ok (Some a) =>
                match Offset d 43 with
                | Panic => Some Panic
                | Ok d => loop_32 f (FindEndToken d) a (acc ++ [a])
                end
            end
        end
  end.
Definition Decode32ByteArraySliceAsBase64 (fuel : nat) (d : dec) :=
  match cut_byte 91 (dbuf d) with
  | None => Some (Ok (Some ErrSliceCorrupted, [], d))
  | Some (_, r) => loop_32 fuel (Dec r (dtok d) (dlast d)) (repeat 0 32) []
  end.
(** json/decode-minified.go:277-298 Decode32ByteArraySliceAsBase64 *)
Fixpoint mloop_32 (fuel : nat) (d : dec) (array : bytes) (acc : list bytes)
  : option (res (option jerr * list bytes * dec)) :=
  match fuel with
  | O => None
  | S f =>
      match idx (dbuf d) 1 with
      | Panic => Some Panic
      | Ok c =>
          if c =? 93 then
            Some (let! d' := Offset d 2 in Ok (None, acc, d'))
          else
            match Offset d 2 with
            | Panic => Some Panic
            | Ok d =>
                match slice_to (dbuf d) 43 with
                | Panic => Some Panic
                | Ok w =>
                    match b64_into array w with
                    | Panic => Some Panic
                    | Ok None => Some (Ok (Some ErrSliceCorrupted, acc, d))
                    | Ok (Some a) =>
                        match Offset d 43 with
                        | Panic => Some Panic
                        | Ok d => mloop_32 f d a (acc ++ [a])
                        end
                    end
                end
            end
      end
  end.
Definition MDecode32ByteArraySliceAsBase64 (fuel : nat) (d : dec) :=
  match Offset d 1 with
  | Panic => Some Panic
  | Ok d => mloop_32 fuel d (repeat 0 32) []
  end.

(** * Client programs
    What the ToJSON and FromJSON methods of an application do (json/codec.go:13-94
    calls them through protocol.JSON): one Encode method per field after EncodeKey,
    commas by AddTrailingComma; one Decode method per field after DecodeKey. *)
Inductive width := W8 | W16 | W32 | W64.
Definition parser_of (w : width) : parser :=
  match w with
  | W8 => U8_FromString_Base10 | W16 => U16_FromString_Base10
  | W32 => U32_FromString_Base10 | W64 => U64_FromString_Base10
  end.
Inductive jval :=
| JU (w : width) (n : Z)       (* uint8 .. uint64 *)
| JI (i : Z)                   (* int64 *)
| JB (b : bool)
| JS (s : bytes)
| JN (w : width) (l : list Z)  (* []uint8 .. []uint64 as numbers *)
| JA (l : bytes)               (* [n]byte as numbers *)
| J64 (l : bytes)              (* []byte as base64 *)
| JA64 (l : bytes)             (* [n]byte as base64 *)
| J32 (ls : list bytes).       (* [][32]byte as base64 *)
Inductive jkind := KU (w : width) | KI | KB | KS | KN (w : width) | KA (n : nat) | K64 | KA64 (n : nat) | K32.
Definition kind_of (v : jval) : jkind :=
  match v with
  | JU w _ => KU w | JI _ => KI | JB _ => KB | JS _ => KS | JN w _ => KN w
  | JA l => KA (length l) | J64 _ => K64 | JA64 l => KA64 (length l) | J32 _ => K32
  end.

Definition put_value (e : enc) (v : jval) : res enc :=
  match v with
  | JU _ n => Ok (AddTrailingComma (EncodeUInt e n))
  | JI i => Ok (AddTrailingComma (EncodeInt64 e i))
  | JB b => Ok (AddTrailingComma (EncodeBoolean e b))
  | JS s => Ok (EncodeStringValue e s)
  | JN _ l | JA l =>
      let! e := EncodeSliceAsNumber (EncodeByte e 91) l in
      Ok (AddTrailingComma (EncodeByte e 93))
  | J64 l | JA64 l =>
      let! e := EncodeByteSliceAsBase64 (EncodeByte e 34) l in
      Ok (AddTrailingComma (EncodeByte e 34))
  | J32 ls =>
      let! e := Encode32ByteArraySliceAsBase64 (EncodeByte e 91) ls in
      Ok (AddTrailingComma (EncodeByte e 93))
  end.
Fixpoint put_fields (e : enc) (fs : list (bytes * jval)) : res enc :=
  match fs with
  | [] => Ok e
  | (k, v) :: t => let! e := put_value (EncodeKey e k) v in put_fields e t
  end.
(** Writing into an empty buffer of the given capacity. *)
Definition put_object (cap : Z) (fs : list (bytes * jval)) : res enc :=
  let! e := put_fields (EncodeByte (Enc [] cap) 123) fs in
  let! e := RemoveTrailingComma e in
  Ok (EncodeByte e 125).

(** Reading: [None] is an error, a panic or a decoder that never returns. *)
Definition got {A} (r : res (option jerr * A * dec)) (f : A -> jval) : option (jval * dec) :=
  match r with Ok (None, a, d) => Some (f a, d) | _ => None end.
Definition get_value (d : dec) (k : jkind) : option (jval * dec) :=
  let fuel := S (S (length (dbuf d))) in
  match k with
  | KU w => got (Ok (DecodeUInt (parser_of w) d)) (JU w)
  | KI => got (Ok (DecodeInt64 d)) JI
  | KB => match DecodeBool d with Ok (b, d) => Some (JB b, d) | Panic => None end
  | KS => got (DecodeString d) JS
  | KN w => match DecodeSliceAsNumber (parser_of w) fuel d with
            | Some r => got (Ok r) (JN w) | None => None end
  | KA n => got (DecodeByteArrayAsNumber (repeat 0 n) d) JA
  | K64 => got (Ok (DecodeByteSliceAsBase64 d)) J64
  | KA64 n => got (DecodeByteArrayAsBase64 (repeat 0 n) d) JA64
  | K32 => match Decode32ByteArraySliceAsBase64 fuel d with
           | Some r => got r J32 | None => None end
  end.
Fixpoint get_fields (d : dec) (ks : list jkind) : option (list (bytes * jval)) :=
  match ks with
  | [] => Some []
  | k :: t =>
      let '(key, d) := DecodeKey d in
      match get_value d k with
      | None => None
      | Some (v, d) =>
          match get_fields d t with Some l => Some ((key, v) :: l) | None => None end
      end
  end.
Definition get_object (b : bytes) (ks : list jkind) := get_fields (dec_init b) ks.

(** The same with DecoderUnsafeMinified. *)
Definition mget_value (d : dec) (k : jkind) : option (jval * dec) :=
  let fuel := S (S (length (dbuf d))) in
  match k with
  | KU w => got (Ok (MDecodeUInt (parser_of w) d)) (JU w)
  | KI => got (Ok (MDecodeInt64 d)) JI
  | KB => match MDecodeBool d with Ok (b, d) => Some (JB b, d) | Panic => None end
  | KS => got (UMDecodeString d) JS
  | KN w => match MDecodeSliceAsNumber (parser_of w) fuel d with
            | Some r => got r (JN w) | None => None end
  | KA n => got (MDecodeByteArrayAsNumber (repeat 0 n) d) JA
  | K64 => got (MDecodeByteSliceAsBase64 d) J64
  | KA64 n => got (MDecodeByteArrayAsBase64 (repeat 0 n) d) JA64
  | K32 => match MDecode32ByteArraySliceAsBase64 fuel d with
           | Some r => got r J32 | None => None end
  end.
Fixpoint mget_fields (d : dec) (ks : list jkind) : option (list (bytes * jval)) :=
  match ks with
  | [] => Some []
  | k :: t =>
      match MDecodeKey d with
      | Panic => None
      | Ok (key, d) =>
          match mget_value d k with
          | None => None
          | Some (v, d) =>
              match mget_fields d t with Some l => Some ((key, v) :: l) | None => None end
          end
      end
  end.
Definition mget_object (b : bytes) (ks : list jkind) := mget_fields (dec_init b) ks.
