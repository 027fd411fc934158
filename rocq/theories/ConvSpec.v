(** Specification for C123: what a program sees through a slice.  Elements are their bit patterns,
    stored lowest byte first (the machines the code is for). *)
From Verif Require Import Go BinSpec ConvModel.

(** [n] bytes at address [a]. *)
Definition load (m : memory) (a : Z) (n : nat) : bytes := map (fun i => m (a + Z.of_nat i)) (seq 0 n).
(** Storing bytes at an address. *)
Definition store (m : memory) (a : Z) (l : bytes) : memory :=
  fun x => if (a <=? x) && (x <? a + zlen l) then nth (Z.to_nat (x - a)) l 0 else m x.
(** Size of an element as the Go language defines it. *)
Definition size (e : elem) : nat :=
  match e with
  | Bool | Int8 | UInt8 => 1 | Int16 | UInt16 => 2 | Int32 | UInt32 | Float32 => 4 | Int64 | UInt64 | Float64 => 8
  | Complex64 => 4 + 4 | Complex128 => 8 + 8 | Array16 => 16 | Array32 => 32
  end.
(** Element [i] of a slice of elements of kind [e], and assigning to it. *)
Definition get (e : elem) (m : memory) (h : header) (i : Z) : Z := le_value (load m (data h + i * Z.of_nat (size e)) (size e)).
Definition set (e : elem) (m : memory) (h : header) (i v : Z) : memory := store m (data h + i * Z.of_nat (size e)) (le_digits (size e) v).
(** All of it. *)
Definition elements (e : elem) (m : memory) (h : header) : list Z := map (fun i => get e m h (Z.of_nat i)) (seq 0 (Z.to_nat (len h))).
Definition contents (m : memory) (h : header) : bytes := load m (data h) (Z.to_nat (len h)).
Definition text (m : memory) (s : sheader) : bytes := load m (sdata s) (Z.to_nat (slen s)).
(** A slice that a program can have: it lies in memory. *)
Definition valid (e : elem) (h : header) : Prop := 0 <= len h <= cap h /\ cap h * Z.of_nat (size e) < 2 ^ 63.
Definition bytes_everywhere (m : memory) : Prop := forall a, is_byte (m a).
