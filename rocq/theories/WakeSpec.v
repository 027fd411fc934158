(** Histories of single-shot timers, rescheduled at will, with clocks that do not overflow. *)
From Verif Require Import Go TimingModel TimingSpec.

Definition no_tick (o : uop) : Prop :=
  match o with UTick _ _ _ => False | UStart _ d | UReset _ d => d < 2 ^ 63 | UStop _ => True end.
Definition shot_op (o : op) : Prop :=
  match o with OUser now o => clock_ok now /\ no_tick o | OCheck _ now => clock_ok now end.
Definition shot_handler (h : Z -> list uop) : Prop := forall id, Forall no_tick (h id).
(** rescheduled, and not yet moved to its new place in the queue *)
Definition rescheduled (g : timing) (id : Z) : Prop :=
  t_status (g_timers g id) = ModifiedEarlier \/ t_status (g_timers g id) = ModifiedLater.
