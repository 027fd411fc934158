(** CRC-32 as ISO 3309 and IEEE 802.3 describe it: a register of 32 bits, fed bit by bit, low bits of a byte first. *)
From Verif Require Import Go.
Import ListNotations.
Local Open Scope Z_scope.
Local Open Scope list_scope.

(** x^32 + x^26 + x^23 + x^22 + x^16 + x^12 + x^11 + x^10 + x^8 + x^7 + x^5 + x^4 + x^2 + x + 1; the term x^e is bit 31 - e of the register *)
Definition generator : Z := fold_right (fun e s => 2 ^ (31 - e) + s) 0 [26; 23; 22; 16; 12; 11; 10; 8; 7; 5; 4; 2; 1; 0].
Definition feed (s : Z) (b : bool) : Z := Z.lxor (s / 2) (if xorb (Z.odd s) b then generator else 0).
Definition bits (b : Z) : list bool := map (fun i => Z.testbit b (Z.of_nat i)) (seq 0 8).
(** The register starts full of ones; the result is its complement. *)
Definition crc32 (l : bytes) : Z := Z.lxor (fold_left feed (flat_map bits l) (2 ^ 32 - 1)) (2 ^ 32 - 1).
