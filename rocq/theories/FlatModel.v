(** Model of buffer/flat.go.  A Go slice is its bytes and the bytes of its spare capacity;
    a nil slice has neither.  When append or make allocates, the spare capacity is whatever
    the caller of the step gives ([extra]): the Go runtime chooses it. *)
From Verif Require Import Go.

(** buffer/flat.go:14-17 Flat *)
Record flat := Flat { isnil : bool; buf : bytes; spare : bytes; off : Z }.
(** The zero value *)
Definition zero_flat : flat := Flat true [] [] 0.
(** buffer/flat.go:19-21 Init, 55 Set (the offset stays), with a non-nil slice *)
Definition Set_ (b : flat) (p sp : bytes) : flat := Flat false p sp (off b).
(** buffer/flat.go:23-26 Reset *)
Definition Reset (b : flat) : flat := Flat (isnil b) [] (buf b ++ spare b) 0.
(** buffer/flat.go:28-29 Bytes, String; 70-72 Cap, Len, LenOfUnread *)
Definition Bytes (b : flat) : bytes := buf b.
Definition Cap (b : flat) : Z := zlen (buf b) + zlen (spare b).
Definition Len (b : flat) : Z := zlen (buf b).
Definition LenOfUnread (b : flat) : Z := zlen (buf b) - off b.
(** buffer/flat.go:31-39 Read: [n] is the result, so 0 at the test; p is the caller's slice *)
Definition Read (b : flat) (p : bytes) : res (Z * bytes * flat) :=
  let unReadLen := zlen (buf b) - off b in
  let n := if (0 <? 0) || (unReadLen <? 0) then unReadLen else 0 in
  let! s := slice (buf b ++ spare b) (off b) (off b + n) in
  Ok (n, overwrite p 0 s, Flat (isnil b) (buf b) (spare b) (off b + n)).
(** buffer/flat.go:41-48 ReadByte; the error is always nil *)
Definition ReadByte (b : flat) : res (Z * flat) :=
  let unReadLen := zlen (buf b) - off b in
  if 1 <? unReadLen then
    let! bt := idx (buf b) (off b) in Ok (bt, Flat (isnil b) (buf b) (spare b) (off b + 1))
  else Ok (0, b).
(** buffer/flat.go:50-53 ReadAt *)
Definition ReadAt (b : flat) (offset limit : Z) : bytes * flat :=
  ([], Flat (isnil b) (buf b) (spare b) (zlen (buf b))).
(** append(b.buf, p...): in place when it fits, else a new array *)
Definition append (b : flat) (p extra : bytes) : flat :=
  if zlen p <=? zlen (spare b) then Flat (isnil b && (zlen p =? 0)) (buf b ++ p) (skipn (length p) (spare b)) (off b)
  else Flat false (buf b ++ p) extra (off b).
(** buffer/flat.go:57-61 Write, 63-67 WriteString, 68 WriteByte *)
Definition Write (b : flat) (p extra : bytes) : Z * flat := (zlen p, append b p extra).
Definition WriteString := Write.
Definition WriteByte (b : flat) (c : Z) (extra : bytes) : flat := append b [c] extra.
(** make([]byte, n).  Simplified: an allocation too large for the machine is not modelled;
    the sizes below are never negative. *)
Definition zeros (n : Z) : bytes := repeat 0 (Z.to_nat n).
(** buffer/flat.go:74-92 Grow.  The length of the nil slice's replacement is 0. *)
Definition Grow (b : flat) (n : Z) : flat :=
  if isnil b then (Flat false [] (zeros (if n <=? 64 then 64 else n)) (off b))
  else if n <=? zlen (spare b) then b
  else (Flat false (buf b) (zeros (2 * Cap b + n - zlen (buf b))) (off b)).
(** buffer/flat.go:94-114 GrowLen *)
Definition GrowLen (b : flat) (n : Z) : res (Z * flat) :=
  if isnil b then Ok (0, Flat false [] (zeros (if n <=? 64 then 64 else n)) (off b))
  else if n <=? zlen (spare b) then
    let all := buf b ++ spare b in
    let k := zlen (buf b) + n in
    if k <? 0 then Panic
    else Ok (zlen (buf b), Flat false (firstn (Z.to_nat k) all) (skipn (Z.to_nat k) all) (off b))
  else Ok (zlen (buf b), Flat false (buf b ++ zeros n) (zeros (2 * Cap b - zlen (buf b))) (off b)).
