(** syllab: in-place binary records, model of syllab/encode.go,
    syllab/decode-safe.go and syllab/decode-unsafe.go.

    A panic half way through a setter loses the bytes already written in the
    model ([Panic] carries no buffer); the code would keep them. *)
From Verif Require Import Go.
From Coq Require Import QArith Qround.
Local Open Scope Z_scope.

(** p[stackIndex+k] with the index computed in uint32. *)
Definition sidx (p : bytes) (si k : Z) : res Z := idx p (u32 (si + k)).

(** A run of assignments p[stackIndex+k] = b for k = k0, k0+1, ... *)
Fixpoint sput (p : bytes) (si k : Z) (bs : bytes) : res bytes :=
  match bs with
  | [] => Ok p
  | b :: t => let! p' := set_idx p (u32 (si + k)) b in sput p' si (k + 1) t
  end.

(** int8/int16 conversions. *)
Definition i8 (x : Z) : Z := (x + 2 ^ 7) mod 2 ^ 8 - 2 ^ 7.
Definition i16 (x : Z) : Z := (x + 2 ^ 15) mod 2 ^ 16 - 2 ^ 15.

(** * Fixed-size fields, encode.go:14-97 *)

(** encode.go:14-16 SetArray *)
Definition SetArray (p : bytes) (si : Z) (a : bytes) : res bytes := copy_at p si a.
(** encode.go:19-21 SetByte *)
Definition SetByte (p : bytes) (si b : Z) : res bytes := sput p si 0 [b].
(** encode.go:24-26 SetInt8 *)
Definition SetInt8 (p : bytes) (si n : Z) : res bytes := sput p si 0 [u8 n].
(** encode.go:29-31 SetUInt8 *)
Definition SetUInt8 (p : bytes) (si n : Z) : res bytes := sput p si 0 [u8 n].
(** encode.go:34-40 SetBool: nothing is written for false. *)
Definition SetBool (p : bytes) (si : Z) (b : bool) : res bytes :=
  if b then sput p si 0 [1] else Ok p.
(** encode.go:43-46 SetInt16, 49-52 SetUInt16 *)
Definition SetInt16 (p : bytes) (si n : Z) : res bytes :=
  sput p si 0 [u8 n; u8 (Z.shiftr n 8)].
Definition SetUInt16 (p : bytes) (si n : Z) : res bytes :=
  sput p si 0 [u8 n; u8 (Z.shiftr n 8)].
(** encode.go:55-60 SetInt32, 63-68 SetUInt32 *)
Definition SetInt32 (p : bytes) (si n : Z) : res bytes :=
  sput p si 0 [u8 n; u8 (Z.shiftr n 8); u8 (Z.shiftr n 16); u8 (Z.shiftr n 24)].
Definition SetUInt32 (p : bytes) (si n : Z) : res bytes :=
  sput p si 0 [u8 n; u8 (Z.shiftr n 8); u8 (Z.shiftr n 16); u8 (Z.shiftr n 24)].
(** encode.go:75-85 SetInt64, 88-97 SetUInt64 *)
Definition SetInt64 (p : bytes) (si n : Z) : res bytes :=
  sput p si 0 [u8 n; u8 (Z.shiftr n 8); u8 (Z.shiftr n 16); u8 (Z.shiftr n 24);
               u8 (Z.shiftr n 32); u8 (Z.shiftr n 40); u8 (Z.shiftr n 48); u8 (Z.shiftr n 56)].
Definition SetUInt64 (p : bytes) (si n : Z) : res bytes :=
  sput p si 0 [u8 n; u8 (Z.shiftr n 8); u8 (Z.shiftr n 16); u8 (Z.shiftr n 24);
               u8 (Z.shiftr n 32); u8 (Z.shiftr n 40); u8 (Z.shiftr n 48); u8 (Z.shiftr n 56)].

(** * Floats.  A finite float is the rational it denotes.  The conversion
    uint32(n) truncates; for negative or too large [n] Go leaves the result
    implementation-specific: the theorems only speak of 0 <= n below the range.
    The conversions back (decode-safe.go:64,81) round to 24/53 bits; the model
    returns the exact integer, so it is faithful below 2^24 and 2^53. *)
(** encode.go:71-73 SetFloat32, 100-102 SetFloat64 *)
Definition SetFloat32 (p : bytes) (si : Z) (n : Q) : res bytes := SetUInt32 p si (u32 (Qfloor n)).
Definition SetFloat64 (p : bytes) (si : Z) (n : Q) : res bytes := SetUInt64 p si (u64 (Qfloor n)).
(** encode.go:115-118 SetComplex64: the imaginary part goes to stackIndex+3. *)
Definition SetComplex64 (p : bytes) (si : Z) (re im : Q) : res bytes :=
  let! p1 := SetFloat32 p si re in SetFloat32 p1 (u32 (si + 3)) im.
(** encode.go:121-124 SetComplex128: the imaginary part goes to stackIndex+7. *)
Definition SetComplex128 (p : bytes) (si : Z) (re im : Q) : res bytes :=
  let! p1 := SetFloat64 p si re in SetFloat64 p1 (u32 (si + 7)) im.

(** decode-safe.go:17-20 GetFixedByteArray: the destination is a nil slice, so
    nothing is copied; the range of the source is still checked. *)
Definition GetFixedByteArray (p : bytes) (si n : Z) : res bytes :=
  let! _ := slice p si (u32 (si + n)) in Ok [].
(** decode-safe.go:23-25 GetByte, 28-30 GetInt8, 33-35 GetUInt8, 38-40 GetBool *)
Definition GetByte (p : bytes) (si : Z) : res Z := sidx p si 0.
Definition GetInt8 (p : bytes) (si : Z) : res Z := let! b := sidx p si 0 in Ok (i8 b).
Definition GetUInt8 (p : bytes) (si : Z) : res Z := let! b := sidx p si 0 in Ok (u8 b).
Definition GetBool (p : bytes) (si : Z) : res bool := let! b := sidx p si 0 in Ok (b =? 1).
(** decode-safe.go:43-45 GetInt16, 48-50 GetUInt16 *)
Definition GetInt16 (p : bytes) (si : Z) : res Z :=
  let! b0 := sidx p si 0 in let! b1 := sidx p si 1 in
  Ok (Z.lor b0 (i16 (Z.shiftl b1 8))).
Definition GetUInt16 (p : bytes) (si : Z) : res Z :=
  let! b0 := sidx p si 0 in let! b1 := sidx p si 1 in
  Ok (Z.lor b0 (u16 (Z.shiftl b1 8))).
(** decode-safe.go:53-55 GetInt32, 58-60 GetUInt32 *)
Definition GetInt32 (p : bytes) (si : Z) : res Z :=
  let! b0 := sidx p si 0 in let! b1 := sidx p si 1 in
  let! b2 := sidx p si 2 in let! b3 := sidx p si 3 in
  Ok (Z.lor (Z.lor (Z.lor b0 (i32 (Z.shiftl b1 8))) (i32 (Z.shiftl b2 16)))
            (i32 (Z.shiftl b3 24))).
Definition GetUInt32 (p : bytes) (si : Z) : res Z :=
  let! b0 := sidx p si 0 in let! b1 := sidx p si 1 in
  let! b2 := sidx p si 2 in let! b3 := sidx p si 3 in
  Ok (Z.lor (Z.lor (Z.lor b0 (u32 (Z.shiftl b1 8))) (u32 (Z.shiftl b2 16)))
            (u32 (Z.shiftl b3 24))).
(** decode-safe.go:68-71 GetInt64, 74-77 GetUInt64 *)
Definition GetInt64 (p : bytes) (si : Z) : res Z :=
  let! b0 := sidx p si 0 in let! b1 := sidx p si 1 in
  let! b2 := sidx p si 2 in let! b3 := sidx p si 3 in
  let! b4 := sidx p si 4 in let! b5 := sidx p si 5 in
  let! b6 := sidx p si 6 in let! b7 := sidx p si 7 in
  Ok (Z.lor (Z.lor (Z.lor (Z.lor (Z.lor (Z.lor (Z.lor b0 (i64 (Z.shiftl b1 8)))
     (i64 (Z.shiftl b2 16))) (i64 (Z.shiftl b3 24))) (i64 (Z.shiftl b4 32)))
     (i64 (Z.shiftl b5 40))) (i64 (Z.shiftl b6 48))) (i64 (Z.shiftl b7 56))).
Definition GetUInt64 (p : bytes) (si : Z) : res Z :=
  let! b0 := sidx p si 0 in let! b1 := sidx p si 1 in
  let! b2 := sidx p si 2 in let! b3 := sidx p si 3 in
  let! b4 := sidx p si 4 in let! b5 := sidx p si 5 in
  let! b6 := sidx p si 6 in let! b7 := sidx p si 7 in
  Ok (Z.lor (Z.lor (Z.lor (Z.lor (Z.lor (Z.lor (Z.lor b0 (u64 (Z.shiftl b1 8)))
     (u64 (Z.shiftl b2 16))) (u64 (Z.shiftl b3 24))) (u64 (Z.shiftl b4 32)))
     (u64 (Z.shiftl b5 40))) (u64 (Z.shiftl b6 48))) (u64 (Z.shiftl b7 56))).
(** decode-safe.go:63-65 GetFloat32, 80-82 GetFloat64 *)
Definition GetFloat32 (p : bytes) (si : Z) : res Q := let! u := GetUInt32 p si in Ok (inject_Z u).
Definition GetFloat64 (p : bytes) (si : Z) : res Q := let! u := GetUInt64 p si in Ok (inject_Z u).
(** decode-safe.go:85-87 GetComplex64, 90-92 GetComplex128: imaginary part at +4, +8. *)
Definition GetComplex64 (p : bytes) (si : Z) : res (Q * Q) :=
  let! r := GetFloat32 p si in let! i := GetFloat32 p (u32 (si + 4)) in Ok (r, i).
Definition GetComplex128 (p : bytes) (si : Z) : res (Q * Q) :=
  let! r := GetFloat64 p si in let! i := GetFloat64 p (u32 (si + 8)) in Ok (r, i).

(** * Arrays of fixed-size elements.

    The element types of the dynamic arrays.  [float32] and [float64] elements
    are their IEEE bit patterns; complex elements are the two bit patterns of
    their parts, real part in the low half. *)
Inductive elem := EByte | EInt8 | EBool | EInt16 | EUInt16 | EInt32 | EUInt32
  | EInt64 | EUInt64 | EFloat32 | EFloat64 | EComplex64 | EComplex128.

(** unsafe.Sizeof of the element, the factor in convert/*-slice-unsafe.go and in
    encode.go:164,173,182,191,200,209,218,227,236,245,254,263. *)
Definition esize (e : elem) : nat :=
  match e with
  | EByte | EInt8 | EBool => 1
  | EInt16 | EUInt16 => 2
  | EInt32 | EUInt32 | EFloat32 => 4
  | EInt64 | EUInt64 | EFloat64 | EComplex64 => 8
  | EComplex128 => 16
  end.

(** Memory of one element on a little-endian host, and back. *)
Fixpoint mem_le (n : nat) (v : Z) : bytes :=
  match n with O => [] | S k => v mod 256 :: mem_le k (v / 256) end.
Fixpoint val_le (l : bytes) : Z :=
  match l with [] => 0 | b :: t => b + 256 * val_le t end.
Definition elem_mem (e : elem) (v : Z) : bytes := mem_le (esize e) v.
Definition elem_val (e : elem) (l : bytes) : Z :=
  let u := val_le l in
  match e with
  | EInt8 => i8 u | EInt16 => i16 u | EInt32 => i32 u | EInt64 => i64 u
  | _ => u
  end.

(** convert/integer-slice-unsafe.go, signed-integer-slice-unsafe.go,
    bool-slice-unsafe.go, float-slice-unsafe.go, complex-slice-unsafe.go:
    the same memory seen as bytes, and bytes seen as elements
    (length divided by the element size). *)
Definition to_byte_slice (e : elem) (s : list Z) : bytes := flat_map (elem_mem e) s.
Fixpoint cast (e : elem) (n : nat) (p : bytes) : list Z :=
  match n with
  | O => []
  | S k => elem_val e (firstn (esize e) p) :: cast e k (skipn (esize e) p)
  end.
Definition of_byte_slice (e : elem) (p : bytes) : list Z :=
  cast e (length p / esize e)%nat p.

(** encode.go:150-264 SetByteArray, SetInt8Array, ..., SetComplex128Array:
    the same statements with the element type's conversion and size. *)
Definition SetTypedArray (e : elem) (p : bytes) (s : list Z) (si ha : Z) : res (bytes * Z) :=
  let ln := u32 (zlen s) in
  let! p1 := SetUInt32 p si ha in
  let! p2 := SetUInt32 p1 (u32 (si + 4)) ln in
  let! p3 := copy_at p2 ha (to_byte_slice e s) in
  Ok (p3, u32 (ha + u32 (ln * Z.of_nat (esize e)))).

(** encode.go:133-147 SetString *)
Definition SetString (p : bytes) (s : bytes) (si ha : Z) : res (bytes * Z) :=
  let ln := u32 (zlen s) in
  let! p1 := sput p si 0 [u8 ha; u8 (Z.shiftr ha 8); u8 (Z.shiftr ha 16); u8 (Z.shiftr ha 24)] in
  let! p2 := sput p1 si 4 [u8 ln; u8 (Z.shiftr ln 8); u8 (Z.shiftr ln 16); u8 (Z.shiftr ln 24)] in
  let! p3 := copy_at p2 ha s in
  Ok (p3, u32 (ha + ln)).

(** decode-safe.go:106-220 GetByteArray, GetInt8Array, ..., GetComplex128Array:
    slice = make([]T, ln); copy(slice, cast(p[add:])). *)
Definition GetTypedArray (e : elem) (p : bytes) (si : Z) : res (list Z) :=
  let! add := GetUInt32 p si in
  let! ln := GetUInt32 p (u32 (si + 4)) in
  let! rest := slice_from p add in
  Ok (overwrite (repeat 0 (Z.to_nat ln)) 0 (of_byte_slice e rest)).
(** decode-safe.go:101-103 GetString *)
Definition GetString (p : bytes) (si : Z) : res bytes := GetTypedArray EByte p si.

(** decode-unsafe.go:22-124 UnsafeGetString, UnsafeGetByteArray, ...:
    cast(p[add : add+(ln*size)]) *)
Definition UnsafeGetTypedArray (e : elem) (p : bytes) (si : Z) : res (list Z) :=
  let! add := GetUInt32 p si in
  let! ln := GetUInt32 p (u32 (si + 4)) in
  let! s := slice p add (u32 (add + u32 (ln * Z.of_nat (esize e)))) in
  Ok (of_byte_slice e s).
Definition UnsafeGetString (p : bytes) (si : Z) : res bytes := UnsafeGetTypedArray EByte p si.

(** encode.go:273-288 SetStringArray *)
Fixpoint set_strings (p : bytes) (s : list bytes) (ha next : Z) : res (bytes * Z) :=
  match s with
  | [] => Ok (p, next)
  | x :: t =>
      let eln := u32 (zlen x) in
      let! p1 := SetUInt32 p ha next in
      let! p2 := SetUInt32 p1 (u32 (ha + 4)) eln in
      let! p3 := copy_at p2 next x in
      set_strings p3 t (u32 (ha + 8)) (u32 (next + eln))
  end.
Definition SetStringArray (p : bytes) (s : list bytes) (si ha : Z) : res (bytes * Z) :=
  let ln := u32 (zlen s) in
  let! p1 := SetUInt32 p si ha in
  let! p2 := SetUInt32 p1 (u32 (si + 4)) ln in
  set_strings p2 (firstn (Z.to_nat ln) s) ha (u32 (ha + u32 (ln * 8))).

(** The loop of decode-safe.go:234-239. *)
Fixpoint get_strings (p : bytes) (n : nat) (add : Z) : res (list bytes) :=
  match n with
  | O => Ok []
  | S k =>
      let! eadd := GetUInt32 p add in
      let! eln := GetUInt32 p (u32 (add + 4)) in
      let! x := slice p eadd (u32 (eadd + eln)) in
      let! t := get_strings p k (u32 (add + 8)) in
      Ok (x :: t)
  end.
(** decode-safe.go:229-241 GetStringArray and decode-unsafe.go:126-138
    UnsafeGetStringArray, which differ only in whether the text is copied. *)
Definition GetStringArray (p : bytes) (si : Z) : res (list bytes) :=
  let! add := GetUInt32 p si in
  let! ln := GetUInt32 p (u32 (si + 4)) in
  get_strings p (Z.to_nat ln) add.
