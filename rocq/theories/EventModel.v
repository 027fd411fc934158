(** event/target.go: a target of one kind of events and its listeners. *)
From Verif Require Import Go.

(** event/options.go *)
Record Options := { Capture : bool; Once : bool; Passive : bool }.
(** target.go:19-22; listeners are compared as interfaces, here by a number each *)
Record listener := { who : nat; options : Options }.
(** target.go:14-17: the mutex and the listeners *)
Record target := { locked : bool; ls : list listener }.
(** target.go:25-28 Init *)
Definition target0 : target := {| locked := false; ls := [] |}.
Inductive op := Add (w : nat) (o : Options) | Remove (w : nat) (o : Options) | Dispatch.
(** [Finished t calls]: the target afterwards and the listeners called, in order.
    [Stuck t calls]: the goroutine waits forever for the mutex. *)
Inductive outcome := Finished (t : target) (calls : list nat) | Stuck (t : target) (calls : list nat) | OutOfFuel.

(** sync.Mutex is not re-entrant: locking a mutex the goroutine already holds never returns *)
Definition Lock (t : target) : option target := if locked t then None else Some {| locked := true; ls := ls t |}.
Definition Unlock (t : target) : target := {| locked := false; ls := ls t |}.

(** Go's copy on a slice of listeners: target.go:57 copy(dls[i:], dls[i+1:]) moves everything after
    i one place down and leaves the last element in place *)
Definition shift_down (l : list listener) (i : nat) : list listener :=
  firstn i l ++ skipn (S i) l ++ match rev l with x :: _ => [x] | [] => [] end.
(** target.go:54-62: the loop over i; [k] iterations left *)
Fixpoint remove_loop (w : nat) (l : list listener) (i k : nat) : list listener :=
  match k with
  | O => l
  | S k => match nth_error l i with
           | Some x => if Nat.eqb (who x) w then firstn (length l - 1) (shift_down l i) else remove_loop w l (S i) k
           | None => l
           end
  end.

(** [beh w]: the calls on the same target that listener [w] makes when it is called. *)
Section Exec.
  Variable beh : nat -> list op.
  (** The body of a handler: its operations one after the other *)
  Fixpoint ops_ (run : target -> op -> outcome) (t : target) (l : list op) : outcome :=
    match l with
    | [] => Finished t []
    | o :: r => match run t o with
                | Finished t c => match ops_ run t r with Finished t c' => Finished t (c ++ c') | Stuck t c' => Stuck t (c ++ c') | OutOfFuel => OutOfFuel end
                | x => x
                end
    end.
  (** target.go:34-37: the loop over the listeners taken under the lock; the options are not used *)
  Fixpoint handlers (run : target -> op -> outcome) (t : target) (l : list listener) : outcome :=
    match l with
    | [] => Finished t []
    | x :: r => match ops_ run t (beh (who x)) with
                | Finished t c => match handlers run t r with Finished t c' => Finished t (who x :: c ++ c') | Stuck t c' => Stuck t (who x :: c ++ c') | OutOfFuel => OutOfFuel end
                | Stuck t c => Stuck t (who x :: c)
                | OutOfFuel => OutOfFuel
                end
    end.
  (** target.go:31-40 DispatchEvent, 41-49 AddEventListener, 50-65 RemoveEventListener; [n] bounds
      the nesting of calls *)
  Fixpoint exec (n : nat) (t : target) (o : op) : outcome :=
    match n with
    | O => OutOfFuel
    | S n =>
      match Lock t with
      | None => Stuck t []
      | Some t =>
        match o with
        | Add w o => Finished (Unlock {| locked := locked t; ls := ls t ++ [{| who := w; options := o |}] |}) []
        | Remove w _ => Finished (Unlock {| locked := locked t; ls := remove_loop w (ls t) 0 (length (ls t)) |}) []
        | Dispatch => match handlers (exec n) t (ls t) with Finished t c => Finished (Unlock t) c | x => x end
        end
      end
    end.
End Exec.
