(** What a fixed-width integer codec must do, independent of any implementation. *)
From Verif Require Import Go.

(** The [n] base-256 digits of [v], least significant first / most significant first. *)
Fixpoint le_digits (n : nat) (v : Z) : bytes :=
  match n with
  | O => []
  | S k => v mod 256 :: le_digits k (v / 256)
  end.
Definition be_digits (n : nat) (v : Z) : bytes := rev (le_digits n v).

(** The number denoted by digits. *)
Fixpoint le_value (l : bytes) : Z :=
  match l with
  | [] => 0
  | b :: t => b + 256 * le_value t
  end.
Definition be_value (l : bytes) : Z := le_value (rev l).

(** A codec for [n]-byte numbers whose wire form is [digits]/[value]:
    writing puts the digits in front and keeps the rest of the buffer, reading
    takes the value of the first [n] bytes, reading back what was written gives
    it back, and both panic exactly on a buffer shorter than [n]. *)
Record codec_ok (n : nat) (digits : Z -> bytes) (value : bytes -> Z)
    (get : bytes -> res Z) (put : bytes -> Z -> res bytes) : Prop := {
  co_put : forall buf v, (n <= length buf)%nat -> 0 <= v < 256 ^ Z.of_nat n ->
    put buf v = Ok (digits v ++ skipn n buf);
  co_get : forall buf, wf_bytes (firstn n buf) -> (n <= length buf)%nat ->
    get buf = Ok (value (firstn n buf));
  co_back : forall buf v, (n <= length buf)%nat -> 0 <= v < 256 ^ Z.of_nat n ->
    exists buf', put buf v = Ok buf' /\ get buf' = Ok v;
  co_panic : forall buf v, (length buf < n)%nat -> put buf v = Panic /\ get buf = Panic;
}.
