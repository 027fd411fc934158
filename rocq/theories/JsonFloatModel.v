(** json/encode.go, json/decode.go, json/decode-minified.go: floats.  strconv's AppendFloat is its FormatFloat at the
    end of the buffer. *)
From Verif Require Import Go JsonModel FloatModel.
Local Open Scope Z_scope.

(** json/encode.go:89-92 EncodeFloat32, 94-97 EncodeFloat64 *)
Definition EncodeFloat (L : library) (w : fsize) (e : enc) (f : spec_float) : enc := eapp e (format L w f).

(** json/decode.go:230-240 DecodeFloat64AsNumber *)
Definition DecodeFloat64AsNumber (L : library) (d : dec) : option jerr * spec_float * dec :=
  let d := FindEndToken (TrimToDigit d) in
  let '(f, bad) := parse L F64 (dlast d) in
  if bad then (Some ErrIntegerCorrupted, S754_zero false, d) else (None, f, d).
(** json/decode-minified.go:108-117 DecodeFloat64AsNumber *)
Definition MDecodeFloat64AsNumber (L : library) (d : dec) : option jerr * spec_float * dec :=
  let d := FindEndToken d in
  let '(f, bad) := parse L F64 (dlast d) in
  if bad then (Some ErrStringCorrupted, S754_zero false, d) else (None, f, d).
