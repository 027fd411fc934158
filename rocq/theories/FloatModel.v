(** math/float/float-32.go, math/float/float-64.go: the two float types.  A float is a [spec_float] of the standard
    library: a zero or infinity with a sign, a NaN (one only: the payload bits are left out), or sign, mantissa and
    exponent.  strconv's FormatFloat and ParseFloat are parameters. *)
From Coq Require Export SpecFloat.
From Verif Require Import Go.
Local Open Scope Z_scope.

(** float-32.go:13,32 and float-64.go:13,32: the types and bitSize *)
Inductive fsize := F32 | F64.

(** strconv.FormatFloat(f, 'g', -1, bits), called at float-32.go:22 and float-64.go:22; strconv.ParseFloat(s, bits),
    called at float-32.go:27 and float-64.go:27: a value and whether there is an error.  With 32 bits the value is
    one of float32, so the conversion at float-32.go:28 keeps it. *)
Record library := Library { format : fsize -> spec_float -> bytes; parse : fsize -> bytes -> spec_float * bool }.

(** float-32.go:16-18, float-64.go:16-18 Equal: Go's == on floats, the comparison of IEEE 754 *)
Definition F_Equal (f with_ : spec_float) : bool := SFeqb f with_.
(** float-32.go:21-24, float-64.go:21-24 ToString: the text; the error is always nil *)
Definition F_ToString (L : library) (w : fsize) (f : spec_float) : bytes * option unit := (format L w f, None).
(** float-32.go:25-30, float-64.go:25-30 FromString: the value left in the receiver and the error, always nil: that of
    ParseFloat is dropped *)
Definition F_FromString (L : library) (w : fsize) (old : spec_float) (s : bytes) : spec_float * option unit :=
  (fst (parse L w s), None).
