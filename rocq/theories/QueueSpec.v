(** What a queue of timers must be at every time. *)
From Coq Require Import Permutation.
From Verif Require Import Go HeapModel TimingModel TimingSpec.

Definition queued (g : timing) (id : Z) : Prop := In id (map b_timer (g_heap g)).
(** stopped, and not yet taken off the queue *)
Definition stopped (g : timing) (b : bucket) : bool :=
  match t_status (g_timers g (b_timer b)) with Deleted => true | _ => false end.
(** there is a timer to run *)
Definition some_pending (g : timing) : Prop := exists id, pending (g_log g) id <> None.
