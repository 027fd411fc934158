(** Property theorems C07-C12 (timers). *)
From Verif Require Import Go HeapModel TimingModel TimingSpec TimingProofs TimingProofs2 TimingProofs3
  WheelModel WheelSpec WheelProofs.

(** ** C07 *)
Theorem C07_due_time_saturates : forall d now, 0 <= now < 2 ^ 63 -> - 2 ^ 63 <= d < 2 ^ 63 ->
  when_ d now = spec_when d now.
Proof. exact when_spec. Qed.
Print Assumptions C07_due_time_saturates.

Theorem C07_longer_delay_not_earlier : forall d d' now, 0 <= now < 2 ^ 63 ->
  - 2 ^ 63 <= d < 2 ^ 63 -> - 2 ^ 63 <= d' < 2 ^ 63 -> d <= d' -> when_ d now <= when_ d' now.
Proof. exact when_mono. Qed.
Print Assumptions C07_longer_delay_not_earlier.

Example C07_example : when_ (2 ^ 63 - 5) 100 = 2 ^ 63 - 1 /\ when_ (-3) 100 = 100 /\ when_ 7 100 = 107.
Proof. vm_compute. auto. Qed.

(** ** C08 *)

(** The history records exactly the successful calls. *)
Theorem C08_start_recorded : forall g id d now r, Start g id d now = Done r ->
  g_log (fst r) = g_log g ++ match snd r with None => [EArm id (when_ d now)] | Some _ => [] end.
Proof. exact Start_log. Qed.
Print Assumptions C08_start_recorded.
Theorem C08_reset_recorded : forall g id d now r, Reset g id d now = Done r ->
  g_log (fst r) = g_log g ++ match snd r with None => [EArm id (when_ d now)] | Some _ => [] end.
Proof. exact Reset_log. Qed.
Print Assumptions C08_reset_recorded.

(** In every history of Start, Tick, Stop, Reset and wake-ups at any clock readings,
    with callbacks that themselves use timers: callbacks run only for pending timers
    that are due. *)
Theorem C08_fires_only_pending_and_due : forall h ops g,
  run h new_timing ops = Done g -> well_behaved (g_log g).
Proof. exact history_safe. Qed.
Print Assumptions C08_fires_only_pending_and_due.

(** Stopping an initialised timer: it is no longer pending, and if it was, the call succeeds. *)
Theorem C08_stop_disarms : forall h ops g id r, run h new_timing ops = Done g ->
  t_cb (g_timers g id) = true -> Stop g id = Done r ->
  pending (g_log (fst r)) id = None /\ (pending (g_log g) id <> None -> snd r = None).
Proof. exact stop_disarms. Qed.
Print Assumptions C08_stop_disarms.

(** But success does not tell whether the timer was still pending: stopping twice
    succeeds twice. *)
Theorem C08_stop_report_refuted : exists g g' g'' id,
  run (fun _ => []) new_timing [OUser 0 (UStart id 10)] = Done g /\
  pending (g_log g) id = Some 10 /\ Stop g id = Done (g', None) /\
  pending (g_log g') id = None /\ Stop g' id = Done (g'', None).
Proof. exact stop_report_refuted. Qed.
Print Assumptions C08_stop_report_refuted.

(** Nothing due is lost and timers fire in due order, for histories of single-shot
    timers (Start and Stop, also from callbacks): after a wake-up no pending timer is
    due.  Missing: Tick and Reset, for which it is false (below and C09). *)
Theorem C08_no_timer_lost_partial : forall h ops fuel now g r, simple_handler h -> Forall simple_op ops ->
  clock_ok now -> run h new_timing ops = Done g -> checkTimers fuel h g now = Done r ->
  earliest_first (g_log (fst (fst r))) /\
  forall id due, pending (g_log (fst (fst r))) id = Some due -> now < due.
Proof. exact no_timer_lost. Qed.
Print Assumptions C08_no_timer_lost_partial.

(** With callbacks that leave timers alone the wake-up always completes. *)
Theorem C08_wakeup_completes_partial : forall ops now g, Forall simple_op ops -> clock_ok now ->
  run (fun _ => []) new_timing ops = Done g ->
  exists fuel r, checkTimers fuel (fun _ => []) g now = Done r.
Proof. exact wakeup_completes. Qed.
Print Assumptions C08_wakeup_completes_partial.

(** A periodic timer keeps its old place in the heap, so it hides the others: a timer
    due at 20 is not fired by a wake-up at 25. *)
Definition starve_ops := [OUser 0 (UTick 1 10 100); OUser 0 (UStart 2 20); OCheck 50 10; OCheck 50 25].
Theorem C08_periodic_starves_refuted : exists g,
  run (fun _ => []) new_timing starve_ops = Done g /\ pending (g_log g) 2 = Some 20.
Proof. exact periodic_starves. Qed.
Print Assumptions C08_periodic_starves_refuted.
(** So it is whatever else is due: while the timer at the front of the heap waits for a later moment
    a wake-up runs nothing, and every due timer stays pending. *)
Theorem C08_front_hides_refuted : forall h fuel g now b rest r, g_heap g = b :: rest -> t_status (g_timers g (b_timer b)) = Waiting ->
  0 <= now < t_when (g_timers g (b_timer b)) -> g_me g = 0 \/ now < g_me g -> checkTimers fuel h g now = Done r -> g_log (fst (fst r)) = g_log g.
Proof.
  intros h fuel g now b rest r Hh St Hn Hm H. unfold checkTimers in H. destruct (_ =? 0) in H; [injection H as <-; reflexivity|]. destruct (_ && _) in H; [injection H as <-; reflexivity|].
  rewrite Hh in H. unfold adjustTimers in H. replace ((g_me g =? 0) || (now <? g_me g))%bool with true in H. 2: { symmetry. apply Bool.orb_true_iff. destruct Hm; [left; now apply Z.eqb_eq|right; now apply Z.ltb_lt]. }
  cbn [obind] in H. destruct fuel as [|f]; cbn [run_loop] in H; rewrite Hh in H; [discriminate|]. cbn [runTimer] in H. rewrite Hh in H. change (lift (at_ (b :: rest) 0)) with (Done b) in H. cbn [obind] in H.
  rewrite St in H. replace (now <? t_when (g_timers g (b_timer b))) with true in H by (symmetry; apply Z.ltb_lt; apply Hn). cbn [obind] in H.
  replace (t_when (g_timers g (b_timer b)) =? 0) with false in H by (symmetry; apply Z.eqb_neq; destruct Hn; intros E; rewrite E in *; apply (Z.lt_irrefl 0), (Z.le_lt_trans 0 now); assumption). cbn [obind] in H.
  destruct (_ <? g_del g) in H.
  - destruct (clearDeletedTimers g) as [g'| | |] eqn:E; try discriminate. injection H as <-. exact (proj1 (same_clearDeleted _ _ E)).
  - injection H as <-. reflexivity.
Qed.
Print Assumptions C08_front_hides_refuted.
Example C08_front_hides_case : exists g, run (fun _ => []) new_timing [OUser 0 (UTick 1 10 100); OUser 0 (UStart 2 20); OCheck 50 10] = Done g /\
  g_heap g = [{| b_timer := 1; b_when := 10 |}; {| b_timer := 2; b_when := 20 |}] /\ t_status (g_timers g 1) = Waiting /\ t_when (g_timers g 1) = 110 /\ g_me g = 0 /\ pending (g_log g) 2 = Some 20.
Proof. eexists. split; [vm_compute; reflexivity|]. repeat split; vm_compute; reflexivity. Qed.

Definition life_ops := [OUser 0 (UStart 1 50); OUser 0 (UStart 2 20); OUser 0 (UStart 3 70); OUser 5 (UStop 1);
  OCheck 10 60; OUser 61 (UStart 2 4); OCheck 10 100].
Example C08_example : exists g, run (fun id => if id =? 3 then [UStart 4 9] else []) new_timing life_ops = Done g /\
  g_log g = [EArm 1 50; EArm 2 20; EArm 3 70; EStop 1; EFire 2 60; EArm 2 65; EFire 2 100; EFire 3 100; EArm 4 109].
Proof. apply by_run. vm_compute. reflexivity. Qed.
Example C08_example_simple : Forall simple_op life_ops.
Proof. repeat constructor; cbn [simple_op]; unfold clock_ok, maxWhen; repeat split; try lia. Qed.

(** ** C09 *)

(** Starting a timer crashes when the only other timer was stopped. *)
Theorem C09_add_crashes_refuted : exists g,
  run (fun _ => []) new_timing [OUser 0 (UStart 1 10); OUser 1 (UStop 1)] = Done g /\ Start g 2 10 2 = Crash.
Proof. exact add_crashes. Qed.
Print Assumptions C09_add_crashes_refuted.

(** Starting a timer waits for its own lock when the earliest timer was rescheduled. *)
Theorem C09_add_deadlocks_refuted : exists g,
  run (fun _ => []) new_timing [OUser 0 (UStart 1 10); OUser 1 (UReset 1 30)] = Done g /\ Start g 2 10 2 = Blocked.
Proof. exact add_deadlocks. Qed.
Print Assumptions C09_add_deadlocks_refuted.

(** Without rescheduling, starting completes if some timer is pending or none was stopped. *)
Theorem C09_add_completes_partial : forall h ops g id d now,
  (forall id, Forall no_reset (h id)) -> Forall no_reset_op ops -> run h new_timing ops = Done g ->
  (exists k, pending (g_log g) k <> None) \/ (forall k, ~ In (EStop k) (g_log g)) ->
  exists r, Start g id d now = Done r.
Proof. exact start_total. Qed.
Print Assumptions C09_add_completes_partial.

(** And never waits for a lock, whatever was stopped. *)
Theorem C09_add_never_blocks_partial : forall h ops g id d now,
  (forall id, Forall no_reset (h id)) -> Forall no_reset_op ops -> run h new_timing ops = Done g ->
  Start g id d now <> Blocked /\ Start g id d now <> Hang.
Proof. exact start_never_blocks. Qed.
Print Assumptions C09_add_never_blocks_partial.

Example C09_example : exists g, run (fun _ => []) new_timing
   [OUser 0 (UStart 1 10); OUser 0 (UTick 2 20 20); OUser 1 (UStop 1)] = Done g /\
   pending (g_log g) 2 = Some 20 /\ exists g', Start g 3 5 2 = Done (g', None) /\ pending (g_log g') 3 = Some 7.
Proof. apply by_run. vm_compute. split; [reflexivity|]. eexists. split; reflexivity. Qed.

(** ** C10 *)

(** Late by less than a period: the next due time is the next multiple, after now. *)
Theorem C10_next_due_partial : forall due period now, 0 < period < 2 ^ 62 -> 0 <= due <= now -> now < 2 ^ 62 ->
  now - due < period ->
  next_when due period now = spec_next due period now /\ now < spec_next due period now.
Proof. exact next_ok. Qed.
Print Assumptions C10_next_due_partial.

(** Late by a period or more: never the right time; it moves back, or to the end of time. *)
Theorem C10_next_due_refuted : forall due period now, 0 < period < 2 ^ 62 -> 0 <= due <= now -> now < 2 ^ 62 ->
  period <= now - due ->
  next_when due period now <> spec_next due period now /\
  (next_when due period now <= due \/ next_when due period now = 2 ^ 63 - 1).
Proof. exact next_bad. Qed.
Print Assumptions C10_next_due_refuted.

(** Late by one to two periods: the wake-up never ends, running the callback for ever. *)
Theorem C10_late_wakeup_never_ends_refuted : forall id due period now g,
  0 < period < 2 ^ 62 -> 0 < due -> now < 2 ^ 62 -> due + period <= now < due + 2 * period ->
  g_heap g = [{| b_timer := id; b_when := due |}] /\ t_when (g_timers g id) = due /\ t_period (g_timers g id) = period /\
    t_status (g_timers g id) = Waiting /\ g_me g = 0 /\ g_t0 g = due ->
  forall fuel, checkTimers fuel (fun _ => []) g now = Hang.
Proof. exact (fun id due period now g a b c d e => livelock due period now id g a b c d e). Qed.
Print Assumptions C10_late_wakeup_never_ends_refuted.
Example C10_late_state : exists g, run (fun _ => []) new_timing [OUser 0 (UTick 1 10 5)] = Done g /\
  g_heap g = [{| b_timer := 1; b_when := 10 |}] /\ t_when (g_timers g 1) = 10 /\ t_period (g_timers g 1) = 5 /\
    t_status (g_timers g 1) = Waiting /\ g_me g = 0 /\ g_t0 g = 10.
Proof. apply by_run. vm_compute. repeat split. Qed.

(** The scheduler's ordering key is not updated. *)
Theorem C10_key_updated_refuted : exists g,
  run (fun _ => []) new_timing [OUser 0 (UTick 1 10 100); OCheck 50 10] = Done g /\
  pending (g_log g) 1 = Some 110 /\ g_heap g = [{| b_timer := 1; b_when := 10 |}].
Proof. apply by_run. vm_compute. auto. Qed.
Print Assumptions C10_key_updated_refuted.
Example C10_example : next_when 100 30 117 = 130 /\ spec_next 100 30 117 = 130 /\ next_when 100 30 131 = 100.
Proof. vm_compute. auto. Qed.

(** ** C11 *)
Theorem C11_exactly_n_refuted : forall n, 1 <= n -> exists t, NewLimitTicker n = Some t /\
  forall m, (Z.to_nat n < m)%nat -> lt_ticks (lt_run m t) = n + 1.
Proof. exact ticker_n_plus_1. Qed.
Print Assumptions C11_exactly_n_refuted.

(** It does stop: after n+1 ticks, and not before. *)
Theorem C11_stops_partial : forall n, 1 <= n -> exists t, NewLimitTicker n = Some t /\
  forall m, lt_ticks (lt_run m t) = Z.min (Z.of_nat m) (n + 1) /\
    (lt_stopped (lt_run m t) = true <-> n < Z.of_nat m).
Proof. exact ticker_stops. Qed.
Print Assumptions C11_stops_partial.
Example C11_example : option_map (fun t => lt_ticks (lt_run 10 t)) (NewLimitTicker 3) = Some 4.
Proof. reflexivity. Qed.

(** ** C12 *)

(** Adding never leaves the wheel iff the target slot does not pass its end. *)
Theorem C12_add_in_range_partial : forall w id p, wheel_ok w -> 0 <= p < 2 ^ 62 ->
  ((exists r, wheel_AddTimer w (id, p) = Ok r) <-> p / w_interval w + w_pos w < w_size w).
Proof. exact add_iff. Qed.
Print Assumptions C12_add_in_range_partial.

(** So a delay shorter than the wheel crashes once the wheel has advanced. *)
Theorem C12_wraps_refuted : exists w0 w, wheel_Init 10 8 = Ok w0 /\ wheel_ticks 5 w0 = Ok (w, repeat [] 5) /\
  wheel_ok w /\ wheel_AddTimer w (1, 30) = Panic.
Proof. exact wheel_wraps. Qed.
Print Assumptions C12_wraps_refuted.

(** A timer added with a delay of at least one interval does not run in the first
    delay/interval ticks and runs exactly once in the next one. *)
Theorem C12_fires_after_delay_partial : forall w id p w1 f r, wheel_ok w -> 0 <= p < 2 ^ 62 -> w_interval w <= p ->
  (forall j, slot_cnt w id j = 0%nat) ->
  wheel_AddTimer w (id, p) = Ok (w1, f) ->
  wheel_ticks (S (Z.to_nat (p / w_interval w))) w1 = Ok r ->
  f = [] /\ exists early last, snd r = early ++ [last] /\ length early = Z.to_nat (p / w_interval w) /\
    Forall (fun f => runs f id = 0%nat) early /\ runs last id = 1%nat.
Proof. exact fires_after_delay. Qed.
Print Assumptions C12_fires_after_delay_partial.
Example C12_example : exists w0 w1 r, wheel_Init 10 8 = Ok w0 /\ wheel_AddTimer w0 (1, 30) = Ok (w1, []) /\
  wheel_ticks 4 w1 = Ok r /\ snd r = [[]; []; []; [1]].
Proof. apply by_wheel. vm_compute. reflexivity. Qed.

(** Re-armed, a timer with period 10 on a wheel of interval 10 runs every second tick. *)
Theorem C12_period_drift_refuted : exists w0 w1 r, wheel_Init 10 8 = Ok w0 /\ wheel_AddTimer w0 (1, 10) = Ok (w1, []) /\
  wheel_ticks 6 w1 = Ok r /\ snd r = [[]; [1]; []; [1]; []; [1]].
Proof. apply by_wheel. vm_compute. reflexivity. Qed.
Print Assumptions C12_period_drift_refuted.

(** And then runs off the end of the wheel: the eighth tick crashes. *)
Theorem C12_periodic_crash_refuted : exists w0 w1, wheel_Init 10 8 = Ok w0 /\ wheel_AddTimer w0 (1, 50) = Ok (w1, []) /\
  wheel_ticks 6 w1 = Panic.
Proof. apply by_wheel_panic. vm_compute. reflexivity. Qed.
Print Assumptions C12_periodic_crash_refuted.
