(** Model of package math/integer: unsigned decimal parsing and formatting. *)
From Verif Require Import Go StrconvModel.
From Verif Require Import IntSpec.

(** math/integer/unsigned-8.go L47-62: the loop over the characters; [n] is the
    uint16 accumulator.  [inl e]: returned with error e; [inr n]: loop finished. *)
Fixpoint U8_loop (s : bytes) (n : Z) : perr + Z :=
  match s with
  | [] => inr n
  | char :: t =>
      if (48 <=? char) && (char <=? 57) then
        let numSegment := u8 (char - 48) in
        let n := u16 (n * 10) in
        let n := u16 (n + numSegment) in
        if 255 <? n then inl ErrValueOutOfRange else U8_loop t n
      else inl ErrBadValue
  end.

(** math/integer/unsigned-8.go L36-65: func (u *U8) FromString_Base10; the second
    component is the receiver afterwards. *)
Definition U8_FromString_Base10 (s : bytes) (old : Z) : option perr * Z :=
  if beq s [] then (Some ErrEmptyValue, old)
  else if 3 <? zlen s then (Some ErrValueOutOfRange, old)
  else match U8_loop s 0 with inl e => (Some e, old) | inr n => (None, u8 n) end.

(** math/integer/unsigned-16.go L46-61 *)
Fixpoint U16_loop (s : bytes) (n : Z) : perr + Z :=
  match s with
  | [] => inr n
  | char :: t =>
      if (48 <=? char) && (char <=? 57) then
        let numSegment := u8 (char - 48) in
        let n := u32 (n * 10) in
        let n := u32 (n + numSegment) in
        if 65535 <? n then inl ErrValueOutOfRange else U16_loop t n
      else inl ErrBadValue
  end.

(** math/integer/unsigned-16.go L36-64 *)
Definition U16_FromString_Base10 (s : bytes) (old : Z) : option perr * Z :=
  if beq s [] then (Some ErrEmptyValue, old)
  else if 5 <? zlen s then (Some ErrValueOutOfRange, old)
  else match U16_loop s 0 with inl e => (Some e, old) | inr n => (None, u16 n) end.

(** math/integer/unsigned-32.go L46-61 *)
Fixpoint U32_loop (s : bytes) (n : Z) : perr + Z :=
  match s with
  | [] => inr n
  | char :: t =>
      if (48 <=? char) && (char <=? 57) then
        let numSegment := u8 (char - 48) in
        let n := u64 (n * 10) in
        let n := u64 (n + numSegment) in
        if 4294967295 <? n then inl ErrValueOutOfRange else U32_loop t n
      else inl ErrBadValue
  end.

(** math/integer/unsigned-32.go L36-64 *)
Definition U32_FromString_Base10 (s : bytes) (old : Z) : option perr * Z :=
  if beq s [] then (Some ErrEmptyValue, old)
  else if 10 <? zlen s then (Some ErrValueOutOfRange, old)
  else match U32_loop s 0 with inl e => (Some e, old) | inr n => (None, u32 n) end.

(** math/integer/unsigned-64.go L46-61: the product is compared with the old
    value to detect overflow, the sum is not checked. *)
Fixpoint U64_loop (s : bytes) (num : Z) : perr + Z :=
  match s with
  | [] => inr num
  | char :: t =>
      if (48 <=? char) && (char <=? 57) then
        let numSegment := u8 (char - 48) in
        let n1 := u64 (num * 10) in
        if n1 <? num then inl ErrValueOutOfRange
        else U64_loop t (u64 (n1 + numSegment))
      else inl ErrBadValue
  end.

(** math/integer/unsigned-64.go L36-65 *)
Definition U64_FromString_Base10 (s : bytes) (old : Z) : option perr * Z :=
  if beq s [] then (Some ErrEmptyValue, old)
  else if 20 <? zlen s then (Some ErrValueOutOfRange, old)
  else match U64_loop s 0 with inl e => (Some e, old) | inr n => (None, n) end.

(** math/integer/unsigned-8.go, -16.go, -32.go, -64.go L22-25: func ToString *)
Definition U_ToString (u : Z) : bytes := FormatUint10 u.
