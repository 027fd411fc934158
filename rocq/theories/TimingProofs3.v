(** Due times, periodic timers, and the failures of the scheduler. *)
From Coq Require Import Permutation ZifyBool ZifyNat.
From Verif Require Import Go GoFacts HeapModel HeapSpec HeapProofs TimingModel TimingSpec TimingProofs TimingProofs2
  WheelModel WheelSpec WheelProofs.
Ltac Zify.zify_post_hook ::= Z.div_mod_to_equations.

Lemma when_spec d now : 0 <= now < 2 ^ 63 -> - 2 ^ 63 <= d < 2 ^ 63 -> when_ d now = spec_when d now.
Proof.
  unfold when_, spec_when, maxWhen, i64. change (2 ^ 63) with 9223372036854775808. change (2 ^ 64) with 18446744073709551616.
  intros Hn Hd. destruct (Z.leb_spec d 0); auto. cbv zeta.
  destruct (Z.ltb_spec ((now + d + 9223372036854775808) mod 18446744073709551616 - 9223372036854775808) 0); lia.
Qed.

Lemma when_mono d d' now : 0 <= now < 2 ^ 63 -> - 2 ^ 63 <= d < 2 ^ 63 -> - 2 ^ 63 <= d' < 2 ^ 63 ->
  d <= d' -> when_ d now <= when_ d' now.
Proof.
  intros Hn H1 H2 Hle. rewrite !when_spec by auto. unfold spec_when.
  destruct (Z.leb_spec d 0), (Z.leb_spec d' 0); lia.
Qed.

(** ** Periodic timers *)

Lemma next_when_val due period now : 0 < period < 2 ^ 62 -> 0 <= due <= now -> now < 2 ^ 62 ->
  next_when due period now = (let w := due + period * (1 - (now - due) / period) in if w <? 0 then maxWhen else w).
Proof.
  intros Hp Hd Hn. unfold next_when. set (q := (now - due) / period).
  assert (Hq : 0 <= q /\ period * q <= now - due) by (unfold q; split; [apply Z.div_pos; lia|apply Z.mul_div_le; lia]).
  assert (q <= now - due) by nia.
  change (2 ^ 62) with 4611686018427387904 in *.
  rewrite (i64_small (now - due)) by (change (2 ^ 63) with 9223372036854775808; lia).
  rewrite (i64_small (- (now - due))) by (change (2 ^ 63) with 9223372036854775808; lia).
  rewrite Z.quot_opp_l, Z.quot_div_nonneg by lia. fold q.
  rewrite (i64_small (1 + - q)) by (change (2 ^ 63) with 9223372036854775808; lia).
  rewrite (i64_small (period * _)) by (change (2 ^ 63) with 9223372036854775808; nia).
  rewrite (i64_small (due + _)) by (change (2 ^ 63) with 9223372036854775808; nia).
  cbv zeta. replace (1 + - q) with (1 - q) by lia. reflexivity.
Qed.

Lemma next_ok due period now : 0 < period < 2 ^ 62 -> 0 <= due <= now -> now < 2 ^ 62 -> now - due < period ->
  next_when due period now = spec_next due period now /\ now < spec_next due period now.
Proof.
  intros Hp Hd Hn Hl. rewrite next_when_val by auto. unfold spec_next. rewrite Z.div_small by lia. cbv zeta.
  replace (due + period * (1 - 0) <? 0) with false by lia. lia.
Qed.

Lemma next_bad due period now : 0 < period < 2 ^ 62 -> 0 <= due <= now -> now < 2 ^ 62 -> period <= now - due ->
  next_when due period now <> spec_next due period now /\
  (next_when due period now <= due \/ next_when due period now = maxWhen).
Proof.
  intros Hp Hd Hn Hl. rewrite next_when_val by auto. unfold spec_next, maxWhen. cbv zeta.
  set (q := (now - due) / period).
  assert (Hq : 1 <= q) by (unfold q; apply Z.div_le_lower_bound; lia).
  assert (Hq2 : period * q <= now - due) by (unfold q; apply Z.mul_div_le; lia).
  change (2 ^ 62) with 4611686018427387904 in *. change (2 ^ 63) with 9223372036854775808 in *.
  destruct (Z.ltb_spec (due + period * (1 - q)) 0); [split; [nia|right; lia]|split; [nia|left; nia]].
Qed.

(** A periodic timer late by one to two periods is run for ever. *)
Definition sole (g : timing) (id due period : Z) : Prop :=
  g_heap g = [{| b_timer := id; b_when := due |}] /\ t_when (g_timers g id) = due /\ t_period (g_timers g id) = period /\
  t_status (g_timers g id) = Waiting /\ g_me g = 0 /\ g_t0 g = due.

Lemma run_loop_livelock due period now id : 0 < period < 2 ^ 62 -> 0 < due -> now < 2 ^ 62 ->
  due + period <= now < due + 2 * period -> forall fuel g ran, sole g id due period ->
  run_loop fuel (fun _ => []) g now ran = Hang.
Proof.
  intros Hp Hd Hn Hl. induction fuel as [|f IH]; intros g ran (H1 & H2 & H3 & H4 & H5 & H6); cbn [run_loop]; rewrite H1; auto.
  cbn [length runTimer]. rewrite H1. cbn [at_ nth_error lift obind b_timer]. rewrite H4, H2.
  replace (now <? due) with false by lia. unfold runOneTimer.
  assert (Ht : g_timers (set_status g id Running) id = w_status (g_timers g id) Running).
  { cbn [g_timers set_status s_timer]. now rewrite tset_eq. }
  rewrite Ht. cbn [t_period t_when w_status]. rewrite H3, H2. replace (0 <? period) with true by lia.
  assert (En : next_when due period now = due).
  { rewrite next_when_val by lia. assert (Eq1 : (now - due) / period = 1).
    { symmetry. apply (Z.div_unique_pos (now - due) period 1 (now - due - period)); lia. }
    rewrite Eq1.
    cbv zeta. replace (due + period * (1 - 1) <? 0) with false by lia. lia. }
  rewrite En. cbn [g_heap s_timer set_status]. rewrite H1.
  replace (SiftDownTimer [{| b_timer := id; b_when := due |}] 0) with (Ok [{| b_timer := id; b_when := due |}]).
  2:{ unfold SiftDownTimer. cbn [at_ nth_error bind length siftdown_loop]. cbn. unfold bucket_eqb. cbn. destruct (_ && _); reflexivity. }
  cbn [lift obind user_steps]. rewrite Z.eqb_refl. apply IH.
  unfold sole, updateTimer0When. cbn [g_heap g_timers g_me g_t0 s_log s_t0 set_status s_timer s_heap b_when].
  rewrite !tset_eq. cbn. repeat split; auto.
Qed.

Lemma livelock due period now id g : 0 < period < 2 ^ 62 -> 0 < due -> now < 2 ^ 62 ->
  due + period <= now < due + 2 * period -> sole g id due period ->
  forall fuel, checkTimers fuel (fun _ => []) g now = Hang.
Proof.
  intros Hp Hd Hn Hl Hs fuel. unfold checkTimers, noBarrierWakeTime. pose proof Hs as (H1 & H2 & H3 & H4 & H5 & H6).
  rewrite H5, H6. cbn [Z.eqb negb andb]. rewrite orb_false_r. replace (due =? 0) with false by lia.
  replace (due =? 0) with false by lia. replace (now <? due) with false by lia. cbn [andb]. rewrite H1.
  unfold adjustTimers. rewrite H5. cbn [Z.eqb orb obind].
  rewrite (run_loop_livelock due period now id) by auto. reflexivity.
Qed.

(** What the calls record. *)
Lemma Start_log g id d now r : Start g id d now = Done r ->
  g_log (fst r) = g_log g ++ match snd r with None => [EArm id (when_ d now)] | Some _ => [] end.
Proof.
  unfold Start. intros H. destruct (t_cb _) in H; cbn [negb] in H; [|inv_done H; subst; cbn; now rewrite app_nil_r].
  destruct (d <? 1); [inv_done H; subst; cbn; now rewrite app_nil_r|].
  destruct (t_status _) in H; try (inv_done H; subst; cbn; now rewrite app_nil_r).
  destruct (t_on _) in H; [inv_done H; subst; cbn; now rewrite app_nil_r|].
  inv_done H. inv_done H. subst r. cbn [fst snd]. apply same_AddTimer in Hd. destruct Hd as [-> _]. reflexivity.
Qed.

Lemma Stop_log g id r : Stop g id = Done r ->
  g_log (fst r) = g_log g ++ (if live (t_status (g_timers g id)) && t_cb (g_timers g id) then [EStop id] else []) /\
  (live (t_status (g_timers g id)) = true -> t_cb (g_timers g id) = true -> snd r = None).
Proof.
  unfold Stop. intros H. destruct (t_cb _); cbn [negb] in H.
  2:{ inv_done H; subst; cbn. rewrite andb_false_r, app_nil_r. split; auto. discriminate. }
  destruct (t_status _); try discriminate; try (inv_done H; subst; cbn; rewrite app_nil_r; split; auto; discriminate);
    (destruct (t_on _) in H; [|discriminate]; inv_done H; subst; cbn; auto).
Qed.

Lemma Reset_log g id d now r : Reset g id d now = Done r ->
  g_log (fst r) = g_log g ++ match snd r with None => [EArm id (when_ d now)] | Some _ => [] end.
Proof.
  unfold Reset. intros H. destruct (d <? 1); [inv_done H; subst; cbn; now rewrite app_nil_r|].
  destruct (t_cb _) in H; cbn [negb] in H; [|inv_done H; subst; cbn; now rewrite app_nil_r].
  assert (F : forall g0 b, g_log g0 = g_log g -> reset_finish g0 id d now b = Done r ->
     g_log (fst r) = g_log g ++ match snd r with None => [EArm id (when_ d now)] | Some _ => [] end).
  { intros g0 b Hl H0. unfold reset_finish in H0. destruct b.
    - inv_done H0. inv_done H0. subst r. cbn [fst snd]. apply same_AddTimer in Hd. destruct Hd as [Hl2 _].
      cbn [g_log set_status s_timer]. rewrite Hl2. cbn [g_log s_log s_timer]. now rewrite Hl.
    - destruct (_ <? _) in H0.
      + destruct (t_on _) in H0; [|discriminate]. inv_done H0. subst r. cbn [fst snd].
        unfold updateTimerModifiedEarliest. cbn [g_log set_status s_timer]. destruct (_ && _); cbn [g_log s_me s_log s_timer]; now rewrite Hl.
      + inv_done H0. subst r. cbn [fst snd g_log set_status s_timer s_log]. now rewrite Hl. }
  destruct (t_status _) in H; try discriminate; try (eapply F; [|exact H]; reflexivity).
  destruct (t_on _) in H; [|discriminate]. eapply F; [|exact H]; reflexivity.
Qed.

(** Computing a witness. *)
Lemma by_run {A} (r : out A) (P : A -> Prop) : match r with Done g => P g | _ => False end -> exists g, r = Done g /\ P g.
Proof. destruct r; intros H; try destruct H. eauto. Qed.

Lemma stop_disarms h ops g id r : run h new_timing ops = Done g ->
  t_cb (g_timers g id) = true -> Stop g id = Done r ->
  pending (g_log (fst r)) id = None /\ (pending (g_log g) id <> None -> snd r = None).
Proof.
  intros Hr Ec H. destruct (Stop_log g id r H) as [Hl Hn].
  pose proof (history_pending h ops g Hr id) as Hp. split.
  - rewrite Hl, Ec, andb_true_r. destruct (live _) eqn:El.
    + rewrite pending_app. cbn. now rewrite Z.eqb_refl.
    + rewrite app_nil_r. destruct (pending (g_log g) id); [|reflexivity].
      assert (Hx : Some z <> None) by discriminate. apply Hp in Hx. congruence.
  - intros H1. apply Hn; auto. now apply Hp.
Qed.

Lemma stop_report_refuted : exists g g' g'' id,
  run (fun _ => []) new_timing [OUser 0 (UStart id 10)] = Done g /\
  pending (g_log g) id = Some 10 /\ Stop g id = Done (g', None) /\
  pending (g_log g') id = None /\ Stop g' id = Done (g'', None).
Proof.
  assert (H : exists g, run (fun _ => []) new_timing [OUser 0 (UStart 1 10)] = Done g /\
    (pending (g_log g) 1 = Some 10 /\ match Stop g 1 with Done (g', None) => pending (g_log g') 1 = None /\
      match Stop g' 1 with Done (_, None) => True | _ => False end | _ => False end)).
  { apply by_run. vm_compute. auto. }
  destruct H as (g & E & H1 & H2). destruct (Stop g 1) as [[g' [|]]| | |] eqn:E1; try tauto.
  destruct H2 as [H2 H3]. destruct (Stop g' 1) as [[g'' [|]]| | |] eqn:E2; try tauto. exists g, g', g'', 1. auto 10.
Qed.

Lemma no_timer_lost h ops fuel now g r : simple_handler h -> Forall simple_op ops ->
  clock_ok now -> run h new_timing ops = Done g -> checkTimers fuel h g now = Done r ->
  earliest_first (g_log (fst (fst r))) /\
  forall id due, pending (g_log (fst (fst r))) id = Some due -> now < due.
Proof.
  intros Hh Ho Hc Hr H. pose proof (SI_run h ops _ _ Hh Ho SI_new Hr) as HS.
  destruct (SI_checkTimers h fuel g now r Hc Hh HS H) as [S1 N1]. split; [apply S1|exact N1].
Qed.

Lemma wakeup_completes ops now g : Forall simple_op ops -> clock_ok now ->
  run (fun _ => []) new_timing ops = Done g ->
  exists fuel r, checkTimers fuel (fun _ => []) g now = Done r.
Proof.
  intros Ho Hc Hr. assert (Hh : simple_handler (fun _ => [])) by (intros id; constructor).
  pose proof (SI_run _ ops _ _ Hh Ho SI_new Hr) as HS. eexists. now apply checkTimers_done.
Qed.

Lemma periodic_starves : exists g,
  run (fun _ => []) new_timing [OUser 0 (UTick 1 10 100); OUser 0 (UStart 2 20); OCheck 50 10; OCheck 50 25] = Done g /\
  pending (g_log g) 2 = Some 20.
Proof. apply by_run. vm_compute. reflexivity. Qed.

Lemma add_crashes : exists g,
  run (fun _ => []) new_timing [OUser 0 (UStart 1 10); OUser 1 (UStop 1)] = Done g /\ Start g 2 10 2 = Crash.
Proof. apply by_run. vm_compute. reflexivity. Qed.

Lemma add_deadlocks : exists g,
  run (fun _ => []) new_timing [OUser 0 (UStart 1 10); OUser 1 (UReset 1 30)] = Done g /\ Start g 2 10 2 = Blocked.
Proof. apply by_run. vm_compute. reflexivity. Qed.

Lemma start_never_blocks h ops g id d now : (forall id, Forall no_reset (h id)) -> Forall no_reset_op ops ->
  run h new_timing ops = Done g -> Start g id d now <> Blocked /\ Start g id d now <> Hang.
Proof.
  intros Hh Hn Hr. pose proof (G_run h ops _ _ Hh Hn G_new Hr) as HG.
  pose proof (Start_spec g id d now HG) as SR. inversion SR; split; discriminate.
Qed.

Lemma ticker_stops n : 1 <= n -> exists t, NewLimitTicker n = Some t /\
  forall m, lt_ticks (lt_run m t) = Z.min (Z.of_nat m) (n + 1) /\
    (lt_stopped (lt_run m t) = true <-> n < Z.of_nat m).
Proof.
  intros Hn. unfold NewLimitTicker. replace (n <? 1) with false by lia. eexists. split; [reflexivity|].
  intros m. apply (lt_run_spec m {| lt_left := n; lt_stopped := false; lt_ticks := 0 |}); cbn; auto. lia.
Qed.

Lemma ticker_n_plus_1 n : 1 <= n -> exists t, NewLimitTicker n = Some t /\
  forall m, (Z.to_nat n < m)%nat -> lt_ticks (lt_run m t) = n + 1.
Proof.
  intros Hn. destruct (ticker_stops n Hn) as (t & E & H). exists t. split; auto. intros m Hm.
  destruct (H m) as [-> _]. lia.
Qed.

Lemma wheel_wraps : exists w0 w, wheel_Init 10 8 = Ok w0 /\ wheel_ticks 5 w0 = Ok (w, repeat [] 5) /\
  wheel_ok w /\ wheel_AddTimer w (1, 30) = Panic.
Proof.
  exists {| w_size := 8; w_interval := 10; w_pos := 0; w_slots := repeat [] 8 |},
    {| w_size := 8; w_interval := 10; w_pos := 5; w_slots := repeat [] 8 |}.
  split; [vm_compute; reflexivity|]. split; [vm_compute; reflexivity|]. split; [|vm_compute; reflexivity].
  unfold wheel_ok. cbn [w_size w_interval w_pos w_slots]. vm_compute. repeat split; congruence.
Qed.

Lemma by_wheel i n t k fs :
  match wheel_Init i n with Ok w0 => match wheel_AddTimer w0 t with Ok (w1, []) =>
    match wheel_ticks k w1 with Ok r => snd r = fs | Panic => False end | _ => False end | Panic => False end ->
  exists w0 w1 r, wheel_Init i n = Ok w0 /\ wheel_AddTimer w0 t = Ok (w1, []) /\ wheel_ticks k w1 = Ok r /\ snd r = fs.
Proof.
  intros H. destruct (wheel_Init i n) as [w0|]; [|tauto]. destruct (wheel_AddTimer w0 t) as [[w1 [|]]|] eqn:E1; try tauto.
  destruct (wheel_ticks k w1) as [r|] eqn:E2; [|tauto]. exists w0, w1, r. auto.
Qed.

Lemma by_wheel_panic i n t k :
  match wheel_Init i n with Ok w0 => match wheel_AddTimer w0 t with Ok (w1, []) =>
    wheel_ticks k w1 = Panic | _ => False end | Panic => False end ->
  exists w0 w1, wheel_Init i n = Ok w0 /\ wheel_AddTimer w0 t = Ok (w1, []) /\ wheel_ticks k w1 = Panic.
Proof.
  intros H. destruct (wheel_Init i n) as [w0|]; [|tauto]. destruct (wheel_AddTimer w0 t) as [[w1 [|]]|] eqn:E1; try tauto.
  exists w0, w1. auto.
Qed.
