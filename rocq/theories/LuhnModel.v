(** Model of validators/luhn-algorithm.go.  A byte minus '0' wraps in 8 bits; int and
    uint sums of at most 9 or 510 per byte cannot wrap for any real slice length. *)
From Verif Require Import Go.

(** validators/luhn-algorithm.go:12-22 the loop of LuhnAlgorithm, from the last byte back *)
Fixpoint luhn_loop (rev_pan : bytes) (alter : bool) (checksum : Z) : Z :=
  match rev_pan with
  | [] => checksum
  | c :: r =>
      let digit := u8 (c - 48) in
      let digit := if alter then
        (let d := digit * 2 in if 9 <? d then Z.rem d 10 + 1 else d) else digit in
      luhn_loop r (negb alter) (checksum + digit)
  end.
(** validators/luhn-algorithm.go:7-24 LuhnAlgorithm *)
Definition LuhnAlgorithm (pan : bytes) : bool := Z.rem (luhn_loop (rev pan) false 0) 10 =? 0.

(** validators/luhn-algorithm.go:34-45 the loop of LuhnAlgorithmChecksum: [i] is the
    index of the head of the reversed slice *)
Fixpoint checksum_loop (rev_buf : bytes) (i : Z) (sum : Z) : Z :=
  match rev_buf with
  | [] => sum
  | c :: r =>
      let d := u8 (c - 48) in
      let d := if Z.land i 1 =? 0 then
        (let d := u8 (Z.shiftl d 1) in if 9 <? d then u8 (d - 9) else d) else d in
      checksum_loop r (i - 1) (sum + d)
  end.
(** validators/luhn-algorithm.go:28-50 LuhnAlgorithmChecksum *)
Definition LuhnAlgorithmChecksum (num : bytes) : res (bool * Z) :=
  let checksumLoc := zlen num - 1 in
  let! buf := slice num 0 checksumLoc in
  let sum := checksum_loop (rev buf) (zlen buf - 1) 0 in
  let checksum := u8 ((10 - sum mod 10) mod 10 + 48) in
  let! last := idx num checksumLoc in
  Ok (checksum =? last, checksum).
