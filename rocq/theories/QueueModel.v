(** The check of a timer queue and the moving of timers between cores: timer/timing.go.
    The state of one core is [timing] of TimingModel; the timers of all cores are one memory. *)
From Verif Require Import Go HeapModel TimingModel.

(** What a check reports. *)
Inductive report := BadOrder (i p : nat) | BadLength.

(** timer/timing.go L559-565: an entry due before its parent is reported; [i] counts from 1 *)
Fixpoint verify_loop (timers : list bucket) (todo : list nat) : list report :=
  match todo with
  | [] => []
  | i :: todo =>
      let p := Nat.div (i - 1) heapAry in
      match nth_error timers i, nth_error timers p with
      | Some a, Some b => (if b_when a <? b_when b then [BadOrder i p] else []) ++ verify_loop timers todo
      | _, _ => verify_loop timers todo
      end
  end.
(** timer/timing.go L554-571: func verifyTimerHeap; log.Fatal only logs (log/log.go) *)
Definition verifyTimerHeap (g : timing) : list report :=
  verify_loop (g_heap g) (seq 1 (length (g_heap g) - 1)) ++
  (if zlen (g_heap g) =? g_count g then [] else [BadLength]).

(** timer/timing.go L234-272: func moveTimers, called with the mutex of the receiving core held
    (L222): adding a timer to it takes this mutex again.  A status the loop does not know is only
    logged and the loop repeated. *)
Fixpoint moveTimers (timers : list bucket) (m : Z -> timer) : out (Z -> timer) :=
  match timers with
  | [] => Done m
  | b :: r =>
      let id := b_timer b in
      match t_status (m id) with
      | Waiting | ModifiedEarlier | ModifiedLater => Blocked
      | Deleted => moveTimers r (tset m id (w_on (w_status (m id) Removed) false))
      | _ => Hang
      end
  end.
Definition s_timers (g : timing) (m : Z -> timer) : timing :=
  {| g_heap := g_heap g; g_timers := m; g_t0 := g_t0 g; g_me := g_me g; g_count := g_count g; g_del := g_del g; g_log := g_log g |}.
(** timer/timing.go L218-228: func moveTimersTo; [same]: the receiving core is this core, whose
    mutex is taken in L220 and again in L222 *)
Definition moveTimersTo (same : bool) (g : timing) : out timing :=
  match g_heap g with
  | [] => Done g
  | _ => if same then Blocked
         else do! m := moveTimers (g_heap g) (g_timers g) in Done (s_timers g m)
  end.
(** timer/timing.go L111-116: func MoveToMe; [same]: the caller runs on this core *)
Definition MoveToMe (same : bool) (g : timing) : out timing := moveTimersTo same g.
(** timer/timing.go L75-92: func Reinit, with timing-heap.go L28-32 *)
Definition Reinit (same : bool) (g : timing) : out timing :=
  do! g := moveTimersTo same g in
  Done (s_heap (s_del (s_count (s_me (s_t0 g 0) 0) 0) 0) []).
