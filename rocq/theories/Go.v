(** Go values and operations used by every model file.  Definitions only.

    Conventions (part of the trusted base, see DESIGN.md section 1):
    - every integer is a [Z]; fixed-width arithmetic wraps through [u8]..[u64], [i64];
    - a byte slice or string is a [list Z] of elements in [0,256);
    - a slice's capacity equals its length, so [s[lo:hi]] needs [hi <= len s];
    - a run-time panic is the value [Panic]. *)
From Coq Require Export String Ascii.
From Coq Require Export ZArith List Lia Bool.
Export ListNotations.
Global Open Scope Z_scope.

Notation bytes := (list Z) (only parsing).

(** Result of a Go call that may panic. *)
Inductive res (A : Type) : Type :=
| Ok (a : A)
| Panic.
Arguments Ok {A} a.
Arguments Panic {A}.

Definition bind {A B} (r : res A) (f : A -> res B) : res B :=
  match r with Ok a => f a | Panic => Panic end.
Notation "'let!' x ':=' r 'in' k" := (bind r (fun x => k))
  (at level 200, x binder, r at level 100, k at level 200, right associativity).

(** Go's conversions to fixed-width integers (Go spec: "Conversions between
    numeric types": truncate). *)
Definition u8 (x : Z) : Z := x mod 2 ^ 8.
Definition u16 (x : Z) : Z := x mod 2 ^ 16.
Definition u32 (x : Z) : Z := x mod 2 ^ 32.
Definition u64 (x : Z) : Z := x mod 2 ^ 64.
Definition i64 (x : Z) : Z := (x + 2 ^ 63) mod 2 ^ 64 - 2 ^ 63.
Definition i32 (x : Z) : Z := (x + 2 ^ 31) mod 2 ^ 32 - 2 ^ 31.

(** A byte, and a slice of bytes. *)
Definition is_byte (b : Z) : Prop := 0 <= b < 256.
Definition wf_bytes (l : bytes) : Prop := Forall is_byte l.

(** len(s) *)
Definition zlen {A} (l : list A) : Z := Z.of_nat (length l).

(** s[i] *)
Definition idx {A} (l : list A) (i : Z) : res A :=
  if i <? 0 then Panic
  else match nth_error l (Z.to_nat i) with Some a => Ok a | None => Panic end.

(** s[i] = v *)
Fixpoint upd {A} (l : list A) (n : nat) (v : A) : list A :=
  match l, n with
  | [], _ => []
  | _ :: t, O => v :: t
  | h :: t, S k => h :: upd t k v
  end.
Definition set_idx {A} (l : list A) (i : Z) (v : A) : res (list A) :=
  if (i <? 0) || (zlen l <=? i) then Panic else Ok (upd l (Z.to_nat i) v).

(** s[lo:hi], s[lo:], s[:hi] *)
Definition slice {A} (l : list A) (lo hi : Z) : res (list A) :=
  if (0 <=? lo) && (lo <=? hi) && (hi <=? zlen l)
  then Ok (firstn (Z.to_nat (hi - lo)) (skipn (Z.to_nat lo) l))
  else Panic.
Definition slice_from {A} (l : list A) (lo : Z) : res (list A) := slice l lo (zlen l).
Definition slice_to {A} (l : list A) (hi : Z) : res (list A) := slice l 0 hi.

(** copy(dst[at:], src): number of bytes copied is min(len(dst)-at, len(src)). *)
Definition overwrite {A} (dst : list A) (at_ : nat) (src : list A) : list A :=
  firstn at_ dst ++ firstn (length dst - at_) src ++ skipn (at_ + length src) dst.
Definition copy_at {A} (dst : list A) (at_ : Z) (src : list A) : res (list A) :=
  if (0 <=? at_) && (at_ <=? zlen dst)
  then Ok (overwrite dst (Z.to_nat at_) src) else Panic.

(** Equality of byte strings. *)
Fixpoint beq (a b : bytes) : bool :=
  match a, b with
  | [], [] => true
  | x :: a', y :: b' => (x =? y) && beq a' b'
  | _, _ => false
  end.

(** Text literals. *)
Fixpoint str (s : string) : bytes :=
  match s with
  | EmptyString => []
  | String c t => Z.of_N (N_of_ascii c) :: str t
  end.
(** A character literal. *)
Definition chr (c : ascii) : Z := Z.of_N (N_of_ascii c).
