(** C143: when the scheduler wakes up. *)
From Coq Require Import Permutation ZifyBool ZifyNat.
From Verif Require Import Go GoFacts HeapModel HeapSpec HeapProofs TimingModel TimingSpec TimingProofs TimingProofs2 TimingProofs3 QueueModel QueueSpec QueueProofs QueueTheorems WakeSpec WakeProofs.
Ltac Zify.zify_post_hook ::= Z.div_mod_to_equations.

Lemma pending_when h ops g id due : run h new_timing ops = Done g -> pending (g_log g) id = Some due -> t_when (g_timers g id) = due.
Proof.
  intros H P. eapply safe_run in H; [|apply safe_new]. destruct H as [Ha _]. rewrite (Ha id) in P. destruct (live _); congruence.
Qed.

(** C143.  After every history of single-shot timers, started, stopped and rescheduled at will, neither
    of the two wake-up times of the queue is after the due time of a timer that is to run. *)
Theorem C143_in_time_partial : forall h ops g id due, shot_handler h -> Forall shot_op ops -> run h new_timing ops = Done g ->
  pending (g_log g) id = Some due -> 0 < noBarrierWakeTime g <= due /\ 0 < sleepUntil g <= due.
Proof.
  intros h ops g id due Hh Ho H P. pose proof (W_history _ _ _ Hh Ho H) as Hw.
  destruct (C141_queue _ _ _ H) as [_ Pq]. destruct (proj1 (Pq id)) as [I _]; [congruence|].
  destruct (C141_first _ _ _ H) as (_ & F & G).
  unfold queued in I. apply in_map_iff in I as (b & E & Hb). specialize (F b Hb).
  destruct (w_b _ Hw b Hb) as (X1 & _ & X3 & X4). rewrite E, (pending_when _ _ _ _ _ H P) in *.
  assert (T0 : 1 <= g_t0 g). { destruct G as (c & Hc & <-); [destruct (g_heap g); [destruct Hb|discriminate]|]. apply (w_b _ Hw c Hc). }
  pose proof (w_me _ Hw). unfold noBarrierWakeTime, sleepUntil, maxWhen. cbv zeta. change (2 ^ 63) with 9223372036854775808.
  split.
  - destruct ((g_t0 g =? 0) || _) eqn:C; lia.
  - destruct (negb (g_t0 g =? 0) && (g_t0 g <? 9223372036854775808 - 1)) eqn:C1; destruct (negb (g_me g =? 0) && _) eqn:C2; lia.
Qed.
Print Assumptions C143_in_time_partial.

(** A wake-up before that time changes nothing, unless more than a quarter of the queue is stopped; *)
Theorem C143_early : forall h ops g fuel now, run h new_timing ops = Done g -> 0 < noBarrierWakeTime g -> now < noBarrierWakeTime g ->
  4 * zlen (filter (stopped g) (g_heap g)) <= zlen (g_heap g) -> checkTimers fuel h g now = Done (g, noBarrierWakeTime g, false).
Proof.
  intros h ops g fuel now H P L S4. destruct (C141_counts _ _ _ H) as (C & D & _). unfold checkTimers, isCleanNeed.
  replace (noBarrierWakeTime g =? 0) with false by lia. replace (now <? noBarrierWakeTime g) with true by lia.
  rewrite D, C. pose proof (zlen_nonneg (g_heap g)). rewrite Z.quot_div_nonneg by lia.
  replace (zlen (filter (stopped g) (g_heap g)) <=? zlen (g_heap g) / 4) with true by lia. reflexivity.
Qed.
Print Assumptions C143_early.

(** and after every wake-up that returns, at most a quarter of the queue is. *)
Theorem C143_quarter_partial : forall h ops g fuel now r, shot_handler h -> Forall shot_op ops -> clock_ok now ->
  run h new_timing ops = Done g -> checkTimers fuel h g now = Done r ->
  4 * zlen (filter (stopped (fst (fst r))) (g_heap (fst (fst r)))) <= zlen (g_heap (fst (fst r))).
Proof.
  intros h ops g fuel now r Hh Ho Hc H K. pose proof (W_history _ _ _ Hh Ho H) as Hw. pose proof (QI_history _ _ _ H) as Q.
  assert (Fin : forall g, QI none g -> g_del g <= Z.quot (zlen (g_heap g)) 4 -> 4 * zlen (filter (stopped g) (g_heap g)) <= zlen (g_heap g)).
  { intros g0 Q0 D. rewrite (q_del _ _ Q0) in D. change (stopped g0) with (del_ (g_timers g0)). pose proof (zlen_nonneg (g_heap g0)).
    rewrite Z.quot_div_nonneg in D by lia. lia. }
  unfold checkTimers in K. destruct (Z.eqb_spec (noBarrierWakeTime g) 0) as [N|N].
  { injection K as <-. cbn [fst]. destruct (g_heap g) as [|a l] eqn:Eh; [cbn; lia|]. exfalso.
    assert (Ia : In a (g_heap g)) by (rewrite Eh; now left). destruct (w_b _ Hw a Ia) as (_ & _ & X & _).
    pose proof (q_t0 _ _ Q) as T. rewrite Eh in T. cbn [first_when] in T. unfold noBarrierWakeTime in N.
    destruct ((g_t0 g =? 0) || _) eqn:C; lia. }
  destruct ((now <? _) && _) eqn:C.
  { injection K as <-. cbn [fst]. apply Fin; auto. unfold isCleanNeed in C. rewrite <- (q_count _ _ Q). lia. }
  apply obind_inv in K as ([[g1 nw] ran] & E & K). apply obind_inv in K as (g2 & E2 & K). injection K as <-. cbn [fst].
  assert (Q1 : QI none g1 /\ W g1).
  { destruct (g_heap g) eqn:Eh; [inversion E; subst; auto|]. apply obind_inv in E as (g3 & E3 & E).
    pose proof (QI_adjustTimers _ _ _ _ Q E3) as Q3. pose proof (W_adjust _ _ _ _ Q Hw E3) as W3.
    split; [exact (QI_run_loop _ _ _ _ _ _ Q3 E)|exact (W_run_loop _ _ _ _ _ _ Hc Hh Q3 W3 E)]. }
  destruct Q1 as [Q1 W1]. destruct (Z.ltb_spec (Z.quot (zlen (g_heap g1)) 4) (g_del g1)) as [X|X].
  - destruct (W_clear _ _ Q1 W1 E2) as [_ Z0]. change (stopped g2) with (del_ (g_timers g2)). rewrite Z0. pose proof (zlen_nonneg (g_heap g2)). unfold zlen at 1. cbn [length]. lia.
  - injection E2 as <-. now apply Fin.
Qed.
Print Assumptions C143_quarter_partial.

(** A wake-up that returns leaves no timer behind that was due, rescheduled or not. *)
Theorem C143_none_left_partial : forall h ops g fuel now r id due, shot_handler h -> Forall shot_op ops -> clock_ok now ->
  run h new_timing ops = Done g -> checkTimers fuel h g now = Done r -> pending (g_log (fst (fst r))) id = Some due -> now < due.
Proof.
  intros h ops g fuel now r id due Hh Ho Hc H K P. pose proof (W_history _ _ _ Hh Ho H) as Hw. pose proof (QI_history _ _ _ H) as Q.
  assert (Sg : safe g) by (eapply safe_run; [apply safe_new|exact H]).
  unfold checkTimers in K. destruct (Z.eqb_spec (noBarrierWakeTime g) 0) as [N|N].
  { injection K as <-. cbn [fst] in P. destruct (C143_in_time_partial _ _ _ _ _ Hh Ho H P). lia. }
  destruct ((now <? _) && _) eqn:C.
  { injection K as <-. cbn [fst] in P. destruct (C143_in_time_partial _ _ _ _ _ Hh Ho H P). lia. }
  apply obind_inv in K as ([[g1 nw] ran] & E & K). apply obind_inv in K as (g2 & E2 & K). injection K as <-. cbn [fst] in P.
  destruct (g_heap g) as [|a l] eqn:Eh.
  { exfalso. injection E as <- _ _. rewrite Eh in E2.
    assert (D : g_del g = 0) by (rewrite (q_del _ _ Q), Eh; reflexivity). rewrite D in E2. cbn in E2. injection E2 as <-.
    destruct (proj1 (proj2 (C141_queue _ _ _ H) id)) as [I _]; [congruence|]. unfold queued in I. rewrite Eh in I. destruct I. }
  apply obind_inv in E as (g3 & E3 & E).
  pose proof (QI_adjustTimers _ _ _ _ Q E3) as Q3. pose proof (W_adjust _ _ _ _ Q Hw E3) as W3. pose proof (M_adjust _ _ _ _ Q E3) as M3.
  pose proof (QI_run_loop _ _ _ _ _ _ Q3 E) as Q1. pose proof (W_run_loop _ _ _ _ _ _ Hc Hh Q3 W3 E) as W1.
  destruct (M_run_loop _ _ _ _ _ _ Hc Hh Q3 W3 M3 E) as [M1 A1]. cbn [fst] in *.
  assert (S1 : safe g1).
  { eapply (safe_run_loop h fuel g3 now false (g1, nw, ran)); [|exact E]. eapply same_safe; [eapply same_adjustTimers; exact E3|exact Sg]. }
  assert (Lg : g_log g2 = g_log g1).
  { destruct (_ <? _) in E2; [|congruence]. apply (same_clearDeleted _ _ E2). }
  rewrite Lg, (proj1 S1 id) in P. destruct (live (t_status (g_timers g1 id))) eqn:Lv; [|discriminate].
  eapply (ahead_all now g1 id); eauto; [|congruence].
  destruct (in_dec Z.eq_dec id (ids g1)) as [I|I]; auto. exfalso.
  destruct (q_off _ _ Q1 id (fun x => x) I) as [[X|X] _]; unfold st in X; rewrite X in Lv; discriminate.
Qed.
Print Assumptions C143_none_left_partial.

(** Whatever the history: once a timer that is to run was rescheduled to an earlier time, no wake-up at
    or after that time returns. *)
Theorem C143_earlier_refuted : forall h ops g id due d t g', shot_handler h -> Forall shot_op ops -> run h new_timing ops = Done g ->
  pending (g_log g) id = Some due -> clock_ok t -> d < 2 ^ 63 -> Reset g id d t = Done (g', None) -> spec_when d t < due ->
  pending (g_log g') id = Some (spec_when d t) /\ forall fuel now r, spec_when d t <= now -> checkTimers fuel h g' now <> Done r.
Proof.
  intros h ops g id due d t g' Hh Ho H P Hc Hd R L. pose proof (W_history _ _ _ Hh Ho H) as Hw. pose proof (QI_history _ _ _ H) as Q.
  assert (H' : run h new_timing (ops ++ [OUser t (UReset id d)]) = Done g').
  { assert (G : forall ops g0 g, run h g0 ops = Done g -> run h g0 (ops ++ [OUser t (UReset id d)]) = step h g (OUser t (UReset id d))).
    { induction ops0 as [|o l IH]; intros g0 g1 X; cbn [List.app run] in *.
      - assert (g1 = g0) by congruence. subst. destruct (step h g0 _); reflexivity.
      - apply obind_inv in X as (g2 & E & X). rewrite E. cbn [obind]. now apply IH. }
    rewrite (G _ _ _ H). cbn [step user_step]. rewrite R. reflexivity. }
  pose proof (QI_history _ _ _ H') as Q'. assert (Hw' : W g').
  { apply (W_history h (ops ++ [OUser t (UReset id d)]) g' Hh); auto. apply Forall_app. split; auto. repeat constructor; auto. apply Hc. apply Hc. }
  assert (Hd1 : 1 <= d) by (unfold Reset in R; destruct (Z.ltb_spec d 1); [discriminate|lia]).
  assert (Wn : when_ d t = spec_when d t) by (apply when_spec; unfold clock_ok, maxWhen in Hc; lia).
  pose proof (pending_when _ _ _ _ _ H P) as Tw.
  assert (Lv : live (t_status (g_timers g id)) = true) by (apply (history_pending _ _ _ H); congruence).
  assert (I : In id (ids g)) by (apply (C141_queue _ _ _ H); congruence).
  assert (F : t_status (g_timers g' id) = ModifiedEarlier /\ t_when (g_timers g' id) = when_ d t /\ g_me g' <> 0 /\ g_me g' <= when_ d t /\ g_heap g' = g_heap g).
  { destruct (when_range d t Hc) as [_ W1]; [lia|]. pose proof (w_me _ Hw) as M0. destruct (q_on _ _ Q id I) as [_ On]. unfold Reset in R. replace (d <? 1) with false in R by lia. destruct (negb _); [discriminate|].
    assert (X : reset_finish (set_status g id Modifying) id d t false = Done (g', None)).
    { destruct (t_status (g_timers g id)); try discriminate; exact R. }
    clear R. unfold reset_finish in X. cbv zeta in X. rewrite !st_set in X. cbn [t_period w_status w_when t_when] in X. rewrite (w_p _ Hw) in X.
    cbn [Z.eqb negb] in X. rewrite Tw, Wn in X. replace (spec_when d t <? due) with true in X by lia.
    cbn [g_timers s_log s_timer] in X. rewrite tset_eq in X. cbn [t_on w_when w_status] in X. rewrite On in X.
    match type of X with Done (?a, _) = _ => assert (g' = a) by congruence end. subst g'. clear X. rewrite st_set.
    set (x := s_log _ _). assert (Tx : t_when (g_timers x id) = spec_when d t) by (unfold x; cbn [g_timers s_log s_timer]; rewrite tset_eq; reflexivity).
    assert (Mx : g_me x = g_me g) by reflexivity. assert (Hx : g_heap x = g_heap g) by reflexivity. clearbody x.
    unfold updateTimerModifiedEarliest. rewrite Mx. destruct (negb (g_me g =? 0) && (g_me g <? spec_when d t)) eqn:C;
      cbn [g_timers s_me t_status w_status t_when g_me set_status s_timer g_heap]; rewrite ?Tx, ?Wn; repeat split; auto; lia. }
  destruct F as (F1 & F2 & F3 & F4 & F5). split.
  { assert (S' : safe g') by (eapply safe_run; [apply safe_new|exact H']). rewrite (proj1 S' id), F1, F2, Wn. reflexivity. }
  intros fuel now r Hn K. rewrite Wn in *.
  assert (Ng : noBarrierWakeTime g' <> 0 /\ noBarrierWakeTime g' <= now).
  { pose proof (w_me _ Hw'). unfold noBarrierWakeTime. destruct ((g_t0 g' =? 0) || _) eqn:C; lia. }
  assert (I' : In id (ids g')) by (unfold ids; rewrite F5; exact I).
  unfold checkTimers in K. replace (noBarrierWakeTime g' =? 0) with false in K by lia. replace (now <? noBarrierWakeTime g') with false in K by lia.
  cbn [andb] in K. destruct (g_heap g') as [|a l] eqn:Eh; [unfold ids in I'; rewrite Eh in I'; destruct I'|].
  apply obind_inv in K as (r1 & K & _). apply obind_inv in K as (g3 & K & _). unfold adjustTimers in K.
  replace (g_me g' =? 0) with false in K by lia. replace (now <? g_me g') with false in K by lia. cbn [orb] in K.
  apply obind_inv in K as (r2 & K & _).
  assert (Q0 : QI none (s_me g' 0)) by (eapply QI_same; [exact Q'| | | | |]; reflexivity).
  destruct (adjust_done fuel (s_me g' 0) 0 r2 Q0) as [_ A]; [cbn; lia|exact K|].
  apply in_map_iff in I' as (b & Eb & Hb). destruct (In_nth_error _ _ Hb) as (j & Hj). specialize (A j b ltac:(lia) Hj).
  cbn [g_timers s_me] in A. rewrite Eb in A. congruence.
Qed.
Print Assumptions C143_earlier_refuted.

(** The next time a wake-up reports leaves the rescheduled timers out: it may be after one of them. *)
Definition ops143 : list op := [OUser 0 (UStart 1 10); OUser 0 (UStart 2 100); OUser 0 (UStart 3 200); OUser 5 (UReset 3 45)].
Theorem C143_next_refuted : Forall shot_op ops143 /\ match run (fun _ => []) new_timing ops143 with
  | Done g => match checkTimers 9 (fun _ => []) g 10 with
    | Done (g', next, true) => next = 100 /\ pending (g_log g') 3 = Some 50 /\ noBarrierWakeTime g' = 50
    | _ => False end
  | _ => False end.
Proof. split; [repeat constructor; cbv; auto; discriminate|]. vm_compute. repeat split. Qed.
Print Assumptions C143_next_refuted.
Example C143_nonvacuous : match run (fun _ => []) new_timing ops143 with
  | Done g => (noBarrierWakeTime g, sleepUntil g, pending (g_log g) 3, map b_timer (g_heap g)) = (10, 10, Some 50, [1; 2; 3]) /\
      checkTimers 9 (fun _ => []) g 50 = Crash
  | _ => False end.
Proof. vm_compute. split; reflexivity. Qed.

(** C09.  Tick takes no first or later interval below one, and changes nothing then. *)
Theorem C09_tick_refuses : forall g id first interval now, first < 1 \/ interval < 1 ->
  Tick g id first interval now = Done (g, Some ErrNegativeDuration).
Proof. intros g id f i now H. unfold Tick. replace ((f <? 1) || (i <? 1)) with true by lia. reflexivity. Qed.
Print Assumptions C09_tick_refuses.
