(** event/target.go used by any number of goroutines: taking the mutex, each call of a handler and the rest of a
    call are steps of their own, interleaved in any way. *)
From Verif Require Import Go EventModel PoolRaceModel.

(** Calls with a number each event is known by. *)
Inductive call := CAdd (w : nat) (o : Options) | CRemove (w : nat) (o : Options) | CDispatch (e : Z).
(** Where a goroutine is. *)
Inductive epc :=
| Out                                      (* in no call *)
| Wait (c : call)                          (* target.go:32, 42, 51: before the mutex *)
| In (c : call)                            (* it has the mutex *)
| Handing (e : Z) (rest : list listener)   (* target.go:34-37: the listeners still to call *)
| Nested.                                  (* a handler called the target and waits for the mutex *)
(** [owner]: who has the mutex.  [handed]: the calls of handlers so far, event and listener, oldest first;
    [order]: the calls in the order they got the mutex. *)
Record etarget := ETarget { owner : option nat; els : list listener; handed : list (Z * nat); order : list call; epcs : list epc }.
(** target.go:25-28 Init, [n] goroutines *)
Definition etarget0 (n : nat) : etarget := ETarget None [] [] [] (repeat Out n).

Inductive eact := Begin (c : call) | Go.
Section Target.
  (** [nests w]: the handler of listener [w] calls the target. *)
  Variable nests : nat -> bool.
  Definition estep (s : etarget) (i : nat) (a : eact) : option etarget :=
    match nth_error (epcs s) i, a with
    | Some Out, Begin c => Some (ETarget (owner s) (els s) (handed s) (order s) (set_nth (epcs s) i (Wait c)))
    | Some (Wait c), Go =>
        match owner s with
        | Some _ => None
        | None => Some (ETarget (Some i) (els s) (handed s) (order s ++ [c]) (set_nth (epcs s) i (In c)))
        end
    | Some (In (CAdd w o)), Go => (* target.go:43-47 *)
        Some (ETarget None (els s ++ [{| who := w; options := o |}]) (handed s) (order s) (set_nth (epcs s) i Out))
    | Some (In (CRemove w _)), Go => (* target.go:52-63 *)
        Some (ETarget None (remove_loop w (els s) 0 (length (els s))) (handed s) (order s) (set_nth (epcs s) i Out))
    | Some (In (CDispatch e)), Go => (* target.go:33 *)
        Some (ETarget (owner s) (els s) (handed s) (order s) (set_nth (epcs s) i (Handing e (els s))))
    | Some (Handing e (x :: r)), Go => (* target.go:36 *)
        Some (ETarget (owner s) (els s) (handed s ++ [(e, who x)]) (order s)
                (set_nth (epcs s) i (if nests (who x) then Nested else Handing e r)))
    | Some (Handing e []), Go => (* target.go:38 *)
        Some (ETarget None (els s) (handed s) (order s) (set_nth (epcs s) i Out))
    | _, _ => None (* also Nested: its own goroutine has the mutex *)
    end.
  Fixpoint erun (s : etarget) (l : list (nat * eact)) : option etarget :=
    match l with
    | [] => Some s
    | (i, a) :: l => match estep s i a with Some s1 => erun s1 l | None => None end
    end.
End Target.
