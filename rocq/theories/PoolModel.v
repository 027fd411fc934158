(** Model of pool/lifo.go.  Objects are numbers; [New] makes the next one.  The mutex makes
    popHead, pushHead, the swap in Clean and the loop in Close atomic, so each operation is
    one step, except for the check of the stopped state at its start: an operation that
    checked before Close may still run after it.  An event therefore says what its check
    saw.  Simplified: makeNew's increment, test and decrement of itemsCount and Clean's
    subtraction are merged with the step they belong to; the caller always sets New. *)
From Verif Require Import Go.

(** pool/lifo.go:17-36 LIFO.  Slices are kept last item first. [held], [closed], [swept]
    are bookkeeping for the statements: what Get handed out and was not Put back, the calls
    of CloseFunc with an object, how many empty slots Clean subtracted. *)
Record pool := Pool {
  max : Z; count : Z; hot : option Z; idle : list (option Z); victim : list (option Z);
  stopped : bool; fresh : Z; held : list Z; closed : list Z; swept : Z }.

(** pool/lifo.go:38-48 Init: MaxItems/4 empty slots *)
Definition empty_slots (m : Z) : list (option Z) := repeat None (Z.to_nat (Z.quot m 4)).
Definition Init (m : Z) : pool := Pool m 0 None (empty_slots m) [] false 0 [] [] 0.

(** pool/lifo.go:54-59 Len *)
Definition Len (p : pool) : Z := zlen (idle p) + zlen (victim p).

(** pool/lifo.go:131-151 popHead *)
Definition popHead (p : pool) : option Z * pool :=
  match hot p with
  | Some x => (Some x, Pool (max p) (count p) None (idle p) (victim p) (stopped p) (fresh p) (held p) (closed p) (swept p))
  | None =>
      match idle p with
      | x :: r => (x, Pool (max p) (count p) None r (victim p) (stopped p) (fresh p) (held p) (closed p) (swept p))
      | [] =>
          match victim p with
          | x :: r => (x, Pool (max p) (count p) None [] r (stopped p) (fresh p) (held p) (closed p) (swept p))
          | [] => (None, p)
          end
      end
  end.
(** pool/lifo.go:163-171 makeNew *)
Definition makeNew (p : pool) : option Z * pool :=
  if count p + 1 <=? max p then
    (Some (fresh p), Pool (max p) (count p + 1) (hot p) (idle p) (victim p) (stopped p) (fresh p + 1) (held p) (closed p) (swept p))
  else (None, p).
(** pool/lifo.go:61-71 Get, [saw]: what isStop returned *)
Definition Get (p : pool) (saw : bool) : option Z * pool :=
  if saw then (None, p) else
  let '(x, p) := popHead p in
  let '(x, p) := match x with None => makeNew p | Some _ => (x, p) end in
  (x, match x with
      | Some o => Pool (max p) (count p) (hot p) (idle p) (victim p) (stopped p) (fresh p) (o :: held p) (closed p) (swept p)
      | None => p end).
(** pool/lifo.go:73-80 Put, 153-161 pushHead *)
Definition Put (p : pool) (saw : bool) (x : Z) : pool :=
  let h := remove Z.eq_dec x (held p) in
  if saw then Pool (max p) (count p) (hot p) (idle p) (victim p) (stopped p) (fresh p) h (closed p ++ [x]) (swept p)
  else match hot p with
  | None => Pool (max p) (count p) (Some x) (idle p) (victim p) (stopped p) (fresh p) h (closed p) (swept p)
  | Some _ => Pool (max p) (count p) (hot p) (Some x :: idle p) (victim p) (stopped p) (fresh p) h (closed p) (swept p)
  end.
(** The objects in a slice of slots, in the order of the Go slice *)
Definition objects (l : list (option Z)) : list Z :=
  flat_map (fun o => match o with Some x => [x] | None => [] end) l.
(** pool/lifo.go:82-99 Close; panics unless running *)
Definition Close (p : pool) : res pool :=
  if stopped p then Panic else
  Ok (Pool (max p) (count p) (hot p) (idle p) (victim p) true (fresh p) (held p)
        (closed p ++ objects (rev (idle p))) (swept p)).
(** pool/lifo.go:103-123 one round of Clean; CloseFunc is also called on empty slots *)
Definition Clean (p : pool) (saw : bool) : pool :=
  if saw then p else
  let vi := victim p in
  Pool (max p) (count p - zlen vi) (hot p) (empty_slots (max p)) (idle p) (stopped p) (fresh p) (held p)
    (closed p ++ objects (rev vi)) (swept p + (zlen vi - zlen (objects vi))).

Inductive event := EGet (saw : bool) | EPut (saw : bool) (x : Z) | EClose | EClean (saw : bool).
Definition step (p : pool) (e : event) : res pool :=
  match e with
  | EGet saw => Ok (snd (Get p saw))
  | EPut saw x => Ok (Put p saw x)
  | EClose => Close p
  | EClean saw => Ok (Clean p saw)
  end.
