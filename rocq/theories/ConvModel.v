(** Model of convert/*.go: slices seen as slices of another element type by rewriting their header. *)
From Verif Require Import Go.

(** reflect.SliceHeader: where the elements are and how many; memory is a byte at each address *)
Record header := Header { data : Z; len : Z; cap : Z }.
Definition memory := Z -> Z.

(** The element widths of the package: bool, int8, uint8 1; int16, uint16 2; int32, uint32, float32 4;
    int64, uint64, float64, complex64 8; complex128 and [16]byte 16; [32]byte 32.
    integer-slice-unsafe.go, signed-integer-slice-unsafe.go, float-slice-unsafe.go,
    complex-slice-unsafe.go, bool-slice-unsafe.go, array-slice-unsafe.go. *)
Inductive elem := Bool | Int8 | UInt8 | Int16 | UInt16 | Int32 | UInt32 | Float32 | Int64 | UInt64 | Float64 | Complex64 | Complex128 | Array16 | Array32.
Definition factor (e : elem) : Z :=
  match e with
  | Bool | Int8 | UInt8 => 1 | Int16 | UInt16 => 2 | Int32 | UInt32 | Float32 => 4
  | Int64 | UInt64 | Float64 | Complex64 => 8 | Complex128 | Array16 => 16 | Array32 => 32
  end.
(** Unsafe<E>SliceToByteSlice: the same data, length and capacity times the factor, in 64-bit integers *)
Definition ToByteSlice (e : elem) (h : header) : header := Header (data h) (i64 (len h * factor e)) (i64 (cap h * factor e)).
(** UnsafeByteSliceTo<E>Slice: divided by it *)
Definition FromByteSlice (e : elem) (h : header) : header := Header (data h) (Z.quot (len h) (factor e)) (Z.quot (cap h) (factor e)).

(** string-unsafe.go:11-18 UnsafeStringToByteSlice, 21-27 UnsafeByteSliceToString; a string header is
    where its bytes are and how many *)
Record sheader := SHeader { sdata : Z; slen : Z }.
Definition StringToByteSlice (s : sheader) : header := Header (sdata s) (slen s) (slen s).
Definition ByteSliceToString (h : header) : sheader := SHeader (data h) (len h).
