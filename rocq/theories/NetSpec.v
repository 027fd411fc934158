(** Packet headers as bit strings in network order (RFC 791, 8200, 768, 9293), independent
    of the code. *)
From Verif Require Import Go.

(** Bit [i] of a packet, bit 0 being the most significant bit of the first byte. *)
Definition bit (p : bytes) (i : Z) : bool := Z.testbit (nth (Z.to_nat (i / 8)) p 0) (7 - i mod 8).
(** The [w] bits from bit [off], as a number. *)
Fixpoint field (p : bytes) (off : Z) (w : nat) : Z :=
  match w with
  | O => 0
  | S k => 2 * field p off k + Z.b2z (bit p (off + Z.of_nat k))
  end.
(** [q] is [p] with the [w] bits from [off] set to the number [v], and nothing else changed. *)
Definition sets (p q : bytes) (off : Z) (w : nat) (v : Z) : Prop :=
  zlen q = zlen p /\ wf_bytes q /\ field q off w = v /\
  forall i, 0 <= i -> i < off \/ off + Z.of_nat w <= i -> bit q i = bit p i.

(** A getter reads a field, a setter writes it, in packets of at least [min] bytes. *)
Definition reads (min : Z) (get : bytes -> res Z) (off : Z) (w : nat) : Prop :=
  forall p, wf_bytes p -> min <= zlen p -> get p = Ok (field p off w).
Definition writes (min : Z) (set : bytes -> Z -> res bytes) (off : Z) (w : nat) : Prop :=
  forall p v, wf_bytes p -> min <= zlen p -> 0 <= v < 2 ^ Z.of_nat w ->
  exists q, set p v = Ok q /\ sets p q off w v.
(** The same for fields handled as byte arrays of [n] bytes. *)
Fixpoint number (l : bytes) : Z := match l with [] => 0 | b :: r => b * 256 ^ zlen r + number r end.
Definition reads_array (min : Z) (get : bytes -> res bytes) (off : Z) (n : nat) : Prop :=
  forall p, wf_bytes p -> min <= zlen p -> exists a, get p = Ok a /\ length a = n /\ wf_bytes a /\
    number a = field p off (8 * n).
Definition writes_array (min : Z) (set : bytes -> bytes -> res bytes) (off : Z) (n : nat) : Prop :=
  forall p a, wf_bytes p -> min <= zlen p -> length a = n -> wf_bytes a ->
  exists q, set p a = Ok q /\ sets p q off (8 * n) (number a).
