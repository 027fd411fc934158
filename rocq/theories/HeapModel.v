(** Model of timer/timing-heap.go: the 4-ary heap of pending timers.
    A bucket is a pair (timer pointer, when); the pointer is a number naming the
    timer.  Positions are natural numbers; an out-of-range position is a panic.
    The writes to timer.timing (L51, L74) and the nil-ing of the vacated slot
    (L57, L80) concern garbage, not the heap, and are left to the Timing model. *)
From Verif Require Import Go.

(** timer/timing-heap-bucket.go L10-16: type timerBucketHeap *)
Record bucket := { b_timer : Z; b_when : Z }.

(** Go's == on the struct. *)
Definition bucket_eqb (a b : bucket) : bool :=
  (b_timer a =? b_timer b) && (b_when a =? b_when b).

(** timer/const.go: heapAry = 4 *)
Definition heapAry : nat := 4.

Definition at_ (l : list bucket) (i : nat) : res bucket :=
  match nth_error l i with Some b => Ok b | None => Panic end.

(** timer/timing-heap.go L95-102: the loop of SiftUpTimer; the position strictly
    decreases, so fuel [i] suffices (exhaustion is [Panic], excluded by the theorems). *)
Fixpoint siftup_loop (fuel : nat) (timers : list bucket) (timerWhen : Z) (i : nat)
  : res (list bucket * nat) :=
  match i with
  | O => Ok (timers, O)
  | S i' =>
      match fuel with
      | O => Panic
      | S f =>
          let p := Nat.div i' heapAry in
          let! bp := at_ timers p in
          if b_when bp <=? timerWhen then Ok (timers, i)
          else siftup_loop f (upd timers i bp) timerWhen p
      end
  end.

(** timer/timing-heap.go L90-107: func SiftUpTimer *)
Definition SiftUpTimer (timers : list bucket) (i : nat) : res (list bucket * nat) :=
  let! tmp := at_ timers i in
  let! r := siftup_loop i timers (b_when tmp) i in
  let '(timers, i) := r in
  let! cur := at_ timers i in
  Ok (if bucket_eqb tmp cur then timers else upd timers i tmp, i).

(** timer/timing-heap.go L123-138: choice of the earliest child, for c < timersLen *)
Definition pick_child (timers : list bucket) (c : nat) : res (nat * Z) :=
  let timersLen := length timers in
  let c3 := (c + Nat.div heapAry 2)%nat in
  let! bc := at_ timers c in
  let w := b_when bc in
  let! cw :=
    (if Nat.ltb (c + 1) timersLen then
       let! b1 := at_ timers (c + 1)%nat in
       Ok (if b_when b1 <? w then ((c + 1)%nat, b_when b1) else (c, w))
     else Ok (c, w)) in
  let '(c, w) := cw in
  if Nat.ltb c3 timersLen then
    let! b3 := at_ timers c3 in
    let w3 := b_when b3 in
    let! cw3 :=
      (if Nat.ltb (c3 + 1) timersLen then
         let! b4 := at_ timers (c3 + 1)%nat in
         Ok (if b_when b4 <? w3 then ((c3 + 1)%nat, b_when b4) else (c3, w3))
       else Ok (c3, w3)) in
    let '(c3, w3) := cw3 in
    Ok (if w3 <? w then (c3, w3) else (c, w))
  else Ok (c, w).

(** timer/timing-heap.go L117-144: the loop of SiftDownTimer; the position strictly
    increases, so fuel [length timers] suffices (exhaustion is [Panic]). *)
Fixpoint siftdown_loop (fuel : nat) (timers : list bucket) (timerWhen : Z) (i : nat)
  : res (list bucket * nat) :=
  match fuel with
  | O => Panic
  | S f =>
      let c := (i * heapAry + 1)%nat in
      if Nat.leb (length timers) c then Ok (timers, i)
      else
        let! cw := pick_child timers c in
        let '(c, w) := cw in
        if timerWhen <=? w then Ok (timers, i)
        else
          let! bc := at_ timers c in
          siftdown_loop f (upd timers i bc) timerWhen c
  end.

(** timer/timing-heap.go L111-148: func SiftDownTimer *)
Definition SiftDownTimer (timers : list bucket) (i : nat) : res (list bucket) :=
  let! tmp := at_ timers i in
  let! r := siftdown_loop (S (length timers)) timers (b_when tmp) i in
  let '(timers, i) := r in
  let! cur := at_ timers i in
  Ok (if bucket_eqb tmp cur then timers else upd timers i tmp).

(** timer/timing-heap.go L46 and timing.go L126-129: append, then sift up. *)
Definition heap_add (timers : list bucket) (b : bucket) : res (list bucket) :=
  let i := length timers in
  let! r := SiftUpTimer (timers ++ [b]) i in
  Ok (fst r).

(** timer/timing-heap.go L50-69: func DeleteTimer *)
Definition DeleteTimer (timers : list bucket) (i : nat) : res (list bucket * nat) :=
  let! _ := at_ timers i in
  let last := (length timers - 1)%nat in
  let! bl := at_ timers last in
  let moved := if Nat.eqb i last then timers else upd timers i bl in
  let timers := firstn last moved in
  if Nat.eqb i last then Ok (timers, i)
  else
    let! r := SiftUpTimer timers i in
    let '(timers, smallestChanged) := r in
    let! timers := SiftDownTimer timers i in
    Ok (timers, smallestChanged).

(** timer/timing-heap.go L73-85: func DeleteTimer0 *)
Definition DeleteTimer0 (timers : list bucket) : res (list bucket) :=
  let! _ := at_ timers 0 in
  let last := (length timers - 1)%nat in
  let! bl := at_ timers last in
  let moved := if Nat.ltb 0 last then upd timers 0 bl else timers in
  let timers := firstn last moved in
  if Nat.ltb 0 last then SiftDownTimer timers 0 else Ok timers.

(** The operations a scheduler performs on its heap. *)
Inductive heap_op := HAdd (b : bucket) | HDelete (i : nat) | HDelete0.

Definition heap_step (timers : list bucket) (o : heap_op) : res (list bucket) :=
  match o with
  | HAdd b => heap_add timers b
  | HDelete i => let! r := DeleteTimer timers i in Ok (fst r)
  | HDelete0 => DeleteTimer0 timers
  end.

Fixpoint heap_run (timers : list bucket) (ops : list heap_op) : res (list bucket) :=
  match ops with
  | [] => Ok timers
  | o :: ops => let! timers := heap_step timers o in heap_run timers ops
  end.
