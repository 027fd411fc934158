(** time/unix/atomic.go: every operation of Atomic, used by any number of goroutines, one step per operation on
    memory (sec and nsec are two atomic variables). *)
From Verif Require Import Go ClockModel PoolRaceModel.

Inductive xop := OLoad | OStore (t : instant) | OSwap (new : instant) | OCAS (old new : instant) | OAdd (d : Z).
(** Where a goroutine is; [b] is the moment its call began. *)
Inductive xpc :=
| XOut                                        (* in no call *)
| XFirst (o : xop) (b : nat)                  (* before the first operation on memory *)
| XLoad (s : Z) (b : nat)                     (* atomic.go:37 the seconds are read *)
| XStore (t : instant) (n : Z) (b : nat)      (* atomic.go:44 *)
| XStoreN (t : instant) (n : Z) (b : nat)     (* atomic.go:45 *)
| XSwap (new : instant) (s : Z) (b : nat)     (* atomic.go:50 *)
| XCAS (old new : instant) (b : nat)          (* atomic.go:59 *)
| XAdd (d n : Z) (b : nat).                   (* atomic.go:65 *)
Inductive xres := RNone | RTime (t : instant) | RBool (w : bool).
(** A call that has returned: who, what, the answer, the moments it began and returned. *)
Record xret := Ret { by_ : nat; op : xop; res_ : xres; began : nat; ended : nat }.
(** [hist]: the time in memory at every moment, oldest first; every step is one moment. *)
Record xtime := XTime { mem : instant; hist : list instant; xpcs : list xpc; done : list xret }.
Definition xtime0 (m : instant) (n : nat) : xtime := XTime m [m] (repeat XOut n) [].

Inductive xact := Begin (o : xop) | Go.
(** One step of goroutine [i]: the memory after it, where the goroutine is then, and what it returns. *)
Definition xnext (m : instant) (b : nat) (p : xpc) (a : xact) : option (instant * xpc * option (xop * xres * nat)) :=
  match p, a with
  | XOut, Begin o => Some (m, XFirst o b, None)
  | XFirst OLoad b, Go => Some (m, XLoad (sec m) b, None) (* atomic.go:37 Go evaluates left to right *)
  | XLoad s b, Go => Some (m, XOut, Some (OLoad, RTime (Instant s (nsec m)), b))
  | XFirst (OStore t) b, Go => Some (m, XStore t (nsec m) b, None) (* atomic.go:43 *)
  | XStore t n b, Go => Some (Instant (sec t) (nsec m), XStoreN t n b, None)
  | XStoreN t n b, Go => Some (if nsec m =? n then Instant (sec m) (nsec t) else m, XOut, Some (OStore t, RNone, b))
  | XFirst (OSwap new) b, Go => Some (Instant (sec new) (nsec m), XSwap new (sec m) b, None) (* atomic.go:49 *)
  | XSwap new s b, Go => Some (Instant (sec m) (nsec new), XOut, Some (OSwap new, RTime (Instant s (nsec m)), b))
  | XFirst (OCAS old new) b, Go => (* atomic.go:55-58 *)
      if sec m =? sec old then Some (Instant (sec new) (nsec m), XCAS old new b, None)
      else Some (m, XOut, Some (OCAS old new, RBool false, b))
  | XCAS old new b, Go => (* atomic.go:59 *)
      if nsec m =? nsec old then Some (Instant (sec m) (nsec new), XOut, Some (OCAS old new, RBool true, b))
      else Some (m, XOut, Some (OCAS old new, RBool false, b))
  | XFirst (OAdd d) b, Go => (* atomic.go:63-64 *)
      Some (Instant (i64 (sec m + fst (ToSecAndNano d))) (nsec m), XAdd d (snd (ToSecAndNano d)) b, None)
  | XAdd d n b, Go => Some (Instant (sec m) (i32 (nsec m + n)), XOut, Some (OAdd d, RNone, b))
  | _, _ => None
  end.
Definition xstep (s : xtime) (i : nat) (a : xact) : option xtime :=
  match nth_error (xpcs s) i with
  | None => None
  | Some p =>
      match xnext (mem s) (length (hist s) - 1) p a with
      | None => None
      | Some (m, p', r) =>
          Some (XTime m (hist s ++ [m]) (set_nth (xpcs s) i p')
                  (done s ++ match r with Some (o, v, b) => [Ret i o v b (length (hist s))] | None => [] end))
      end
  end.
Fixpoint xrun (s : xtime) (l : list (nat * xact)) : option xtime :=
  match l with
  | [] => Some s
  | (i, a) :: l => match xstep s i a with Some s1 => xrun s1 l | None => None end
  end.
