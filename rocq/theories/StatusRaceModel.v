(** achaemenid/status.go and net/tcp/stream-status.go used by any number of goroutines. *)
From Verif Require Import Go PoolRaceModel.

(** * achaemenid/status.go.  Statuses and channels are numbers.  Simplified: reading and writing the slice
    of listeners are one step each (Go promises less when they are not synchronised); whether a listener takes what
    it is offered is AppModel's. *)
Inductive apc :=
| Out
| Registering (c : nat) (ls : list nat)  (* status.go:18: the slice was read and not yet stored *)
| Wanting (v : Z)                        (* status.go:27: before the mutex *)
| Storing (v : Z)                        (* status.go:29 *)
| Reading (v : Z)                        (* status.go:30: before the slice is read *)
| Offering (v : Z) (ls : list nat).      (* status.go:30-37: the listeners still to be offered [v] *)
(** [offers]: what was offered to whom, oldest first; [stores]: the statuses in the order they were stored *)
Record astat := AStat { cur : Z; lsn : list nat; lock : option nat; offers : list (nat * Z); stores : list Z; apcs : list apc }.
Definition astat0 (n : nat) : astat := AStat 0 [] None [] [] (repeat Out n).
Inductive aact := Notify (c : nat) | Change (v : Z) | Go.
Definition aset (s : astat) (i : nat) (p : apc) : list apc := set_nth (apcs s) i p.
Definition astep (s : astat) (i : nat) (a : aact) : option astat :=
  match nth_error (apcs s) i, a with
  | Some Out, Notify c => Some (AStat (cur s) (lsn s) (lock s) (offers s) (stores s) (aset s i (Registering c (lsn s))))
  | Some (Registering c l), Go => (* status.go:18 append *)
      Some (AStat (cur s) (l ++ [c]) (lock s) (offers s) (stores s) (aset s i Out))
  | Some Out, Change v => Some (AStat (cur s) (lsn s) (lock s) (offers s) (stores s) (aset s i (Wanting v)))
  | Some (Wanting v), Go =>
      match lock s with
      | Some _ => None
      | None => Some (AStat (cur s) (lsn s) (Some i) (offers s) (stores s) (aset s i (Storing v)))
      end
  | Some (Storing v), Go => Some (AStat v (lsn s) (lock s) (offers s) (stores s ++ [v]) (aset s i (Reading v)))
  | Some (Reading v), Go => Some (AStat (cur s) (lsn s) (lock s) (offers s) (stores s) (aset s i (Offering v (lsn s))))
  | Some (Offering v (c :: l)), Go => Some (AStat (cur s) (lsn s) (lock s) (offers s ++ [(c, v)]) (stores s) (aset s i (Offering v l)))
  | Some (Offering v []), Go => (* status.go:28 *) Some (AStat (cur s) (lsn s) None (offers s) (stores s) (aset s i Out))
  | _, _ => None
  end.
Fixpoint arun (s : astat) (l : list (nat * aact)) : option astat :=
  match l with
  | [] => Some s
  | (i, a) :: l => match astep s i a with Some s1 => arun s1 l | None => None end
  end.

(** * net/tcp/stream-status.go *)
Inductive tpc := TOut | Telling (v : Z).  (* stream-status.go:66, 71: before notify *)
(** [writes]: the values stored with the values before; [ready]: a listener waits at the channel; [told]: what it got *)
Record tstat := TStat { val : Z; writes : list (Z * Z); ready : bool; told : list Z; tpcs : list tpc }.
(** stream-status.go:54-59 Init: the channel has no buffer *)
Definition tstat0 (v : Z) (n : nat) : tstat := TStat v [] false [] (repeat TOut n).
Inductive tact := Store (v : Z) | CAS (old new : Z) | Tell | Listen.
(** The second part is what CompareAndSwap returns. *)
Definition tstep (s : tstat) (i : nat) (a : tact) : option (tstat * option bool) :=
  match nth_error (tpcs s) i, a with
  | Some TOut, Store v => (* stream-status.go:64-67 *)
      Some (TStat v (writes s ++ [(val s, v)]) (ready s) (told s) (set_nth (tpcs s) i (Telling v)), None)
  | Some TOut, CAS old new => (* stream-status.go:68-74 *)
      if val s =? old then Some (TStat new (writes s ++ [(val s, new)]) (ready s) (told s) (set_nth (tpcs s) i (Telling new)), Some true)
      else Some (s, Some false)
  | Some (Telling v), Tell => (* stream-status.go:76-83 notify *)
      Some (if ready s then TStat (val s) (writes s) false (told s ++ [v]) (set_nth (tpcs s) i TOut)
            else TStat (val s) (writes s) (ready s) (told s) (set_nth (tpcs s) i TOut), None)
  | _, Listen => Some (TStat (val s) (writes s) true (told s) (tpcs s), None)
  | _, _ => None
  end.
Fixpoint trun (s : tstat) (l : list (nat * tact)) : option tstat :=
  match l with
  | [] => Some s
  | (i, a) :: l => match tstep s i a with Some r => trun (fst r) l | None => None end
  end.
