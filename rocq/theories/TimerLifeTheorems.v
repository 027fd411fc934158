(** C157: using a timer again; C158: how long the thread of a core sleeps. *)
From Coq Require Import Permutation ZifyBool ZifyNat.
From Verif Require Import Go GoFacts HeapModel HeapSpec HeapProofs TimingModel TimingSpec TimingProofs TimingProofs2 TimingProofs3 QueueModel QueueSpec QueueProofs QueueTheorems WakeSpec WakeProofs WakeTheorems TimerLifeModel.
Ltac Zify.zify_post_hook ::= Z.div_mod_to_equations.

(** * C157.  Init gives a timer its callback only when it has none, and reports whether it did; it
    touches no other timer and nothing that is to run. *)
Theorem C157_init : forall g id cb, snd (Init g id cb) = negb (t_cb (g_timers g id)) /\
  t_cb (g_timers (fst (Init g id cb)) id) = t_cb (g_timers g id) || cb /\
  (snd (Init g id cb) = false -> fst (Init g id cb) = g) /\
  (forall k, k <> id -> g_timers (fst (Init g id cb)) k = g_timers g k) /\
  g_log (fst (Init g id cb)) = g_log g /\ g_heap (fst (Init g id cb)) = g_heap g.
Proof.
  intros g id cb. unfold Init. destruct (t_cb (g_timers g id)) eqn:E; cbn [fst snd negb orb]; [auto 10|].
  cbn [s_timer g_timers g_log g_heap]. unfold tset. rewrite Z.eqb_refl. repeat split; try discriminate.
  intros k N. replace (k =? id) with false by lia. reflexivity.
Qed.
Print Assumptions C157_init.
(** Reinit, when it reports no error, leaves nothing of the timer to run: *)
Theorem C157_disarms : forall h ops g id cb g', run h new_timing ops = Done g -> Reinit g id cb = Done (g', None) ->
  pending (g_log g') id = None /\ (forall k, k <> id -> pending (g_log g') k = pending (g_log g) k /\ g_timers g' k = g_timers g k) /\
  t_cb (g_timers g' id) = cb.
Proof.
  intros h ops g id cb g' H R. unfold Reinit in R. inv_done R. destruct a as [g1 [e|]]; inv_done R; [congruence|].
  assert (Sf : safe g1) by (change g1 with (fst (g1, @None terr)); eapply safe_Stop; [|exact Hd]; eapply safe_run; [apply safe_new|exact H]).
  subst g'. cbn [g_log s_timer g_timers]. unfold tset. rewrite Z.eqb_refl.
  unfold Stop in Hd. destruct (negb _); [inv_done Hd; congruence|].
  destruct (t_status (g_timers g id)) eqn:Es; try (inv_done Hd; congruence); try discriminate.
  all: match type of Hd with (if _ then _ else _) = _ => destruct (t_on _); [|discriminate] | _ => idtac end.
  all: inv_done Hd; subst g1.
  all: split; [destruct Sf as [A _]; rewrite (A id); try rewrite Es; cbn [g_timers s_del s_log set_status s_timer]; unfold tset; try rewrite Z.eqb_refl; try rewrite Es; reflexivity|].
  all: split; [|reflexivity].
  all: intros k N; cbn [g_log s_del s_log set_status s_timer g_timers]; unfold tset; replace (k =? id) with false by lia.
  all: split; [try rewrite pending_app; cbn [pend_step]; try replace (k =? id) with false by lia; reflexivity|reflexivity].
Qed.
Print Assumptions C157_disarms.

(** A timer that was never started, or whose callback has been called, is not reinitialised:
    it reports that it is not initialised, and keeps its callback. *)
Theorem C157_unused_refuted : forall g id cb, t_status (g_timers g id) = Unset -> Reinit g id cb = Done (g, Some ErrTimerNotInit).
Proof. intros g id cb E. unfold Reinit, Stop. rewrite E. destruct (negb _); reflexivity. Qed.
Print Assumptions C157_unused_refuted.

(** A timer that was reinitialised can never be started nor made to tick: *)
Theorem C157_start_refuted : forall g id g' d first interval now, Reinit g id true = Done (g', None) ->
  1 <= d -> 1 <= first -> 1 <= interval ->
  Start g' id d now = Done (g', Some ErrTimerAlreadyStarted) /\
  exists g2, Tick g' id first interval now = Done (g2, Some ErrTimerAlreadyStarted) /\ g_log g2 = g_log g' /\ g_heap g2 = g_heap g'.
Proof.
  intros g id g' d f i now R Hd1 Hf Hi.
  assert (X : t_cb (g_timers g' id) = true /\ t_status (g_timers g' id) <> Unset).
  { unfold Reinit in R. inv_done R. destruct a as [g1 [e|]]; inv_done R; [congruence|]. subst g'.
    cbn [g_timers s_timer]. unfold tset. rewrite Z.eqb_refl. split; [reflexivity|]. cbn [t_status w_on w_cb].
    unfold Stop in Hd. destruct (negb _); [inv_done Hd; congruence|].
    destruct (t_status (g_timers g id)) eqn:Es; try (inv_done Hd; congruence); try discriminate.
    all: try (destruct (t_on _); [|discriminate]).
    all: inv_done Hd; subst g1; cbn [g_timers s_del s_log set_status s_timer]; unfold tset; try rewrite Z.eqb_refl; try rewrite Es; cbn; congruence. }
  destruct X as [X1 X2]. assert (St : forall g2, t_cb (g_timers g2 id) = true -> t_status (g_timers g2 id) <> Unset -> forall d, 1 <= d ->
    Start g2 id d now = Done (g2, Some ErrTimerAlreadyStarted)).
  { intros g2 Y1 Y2 d' Hd'. unfold Start. cbv zeta. rewrite Y1. cbn [negb]. replace (d' <? 1) with false by lia. destruct (t_status (g_timers g2 id)); try reflexivity; congruence. }
  split; [now apply St|]. unfold Tick. replace (f <? 1) with false by lia. replace (i <? 1) with false by lia. cbn [orb].
  eexists. split; [apply St; auto|split; reflexivity].
  - cbn [g_timers s_timer]. unfold tset. rewrite Z.eqb_refl. exact X1.
  - cbn [g_timers s_timer]. unfold tset. rewrite Z.eqb_refl. exact X2.
Qed.
Print Assumptions C157_start_refuted.

(** while it is still on the queue of its core, as it is when it was to run, Reset panics; *)
Theorem C157_reset_refuted : forall h ops g id, run h new_timing ops = Done g -> t_cb (g_timers g id) = true ->
  pending (g_log g) id <> None ->
  exists g', Reinit g id true = Done (g', None) /\ queued g' id /\ forall d now, 1 <= d -> Reset g' id d now = Crash.
Proof.
  intros h ops g id H Cb P. destruct (C141_queue _ _ _ H) as [_ Pq]. destruct (proj1 (Pq id) P) as [I Ns].
  pose proof (QI_history _ _ _ H) as Q. destruct (q_on _ _ Q id I) as [O On].
  assert (Sf : safe g) by (eapply safe_run; [apply safe_new|exact H]). destruct Sf as [A _].
  assert (L : live (t_status (g_timers g id)) = true) by (rewrite (A id) in P; destruct (live _); congruence).
  unfold Reinit, Stop. rewrite Cb, On. cbn [negb].
  destruct (t_status (g_timers g id)) eqn:Es; try discriminate L; try (destruct O as [O|[O|[O|O]]]; unfold st in O; congruence).
  all: cbn [obind]; eexists; split; [reflexivity|]; split; [exact I|].
  all: intros d now Hd; unfold Reset; replace (d <? 1) with false by lia; cbn [g_timers s_timer]; unfold tset; rewrite Z.eqb_refl;
       cbn [t_cb w_on w_cb negb t_status g_timers s_del s_log set_status s_timer t_on]; unfold tset; rewrite Z.eqb_refl; reflexivity.
Qed.
Print Assumptions C157_reset_refuted.

(** once it is off the queue, Reset, if it returns, starts it again. *)
Theorem C157_reset_partial : forall h ops g id g' d now g2 e, run h new_timing ops = Done g -> t_cb (g_timers g id) = true ->
  t_status (g_timers g id) = Removed -> Reinit g id true = Done (g', None) -> 1 <= d -> Reset g' id d now = Done (g2, e) ->
  e = None /\ g_log g2 = g_log g ++ [EArm id (when_ d now)] /\ pending (g_log g2) id = Some (when_ d now).
Proof.
  intros h ops g id g' d now g2 e H Cb Es R Hd K. unfold Reinit, Stop in R. rewrite Cb, Es in R. cbn [negb obind] in R. injection R as <-.
  unfold Reset in K. replace (d <? 1) with false in K by lia. cbn [g_timers s_timer] in K. unfold tset at 1 2 in K. rewrite Z.eqb_refl in K.
  cbn [t_cb w_on w_cb negb t_status] in K. rewrite Es in K. unfold reset_finish in K. inv_done K. inv_done K.
  apply same_AddTimer in Hd0. destruct Hd0 as [L _]. cbn [g_log s_timer s_log set_status] in L. subst.
  assert (X : g_log (set_status a id Waiting) = g_log g ++ [EArm id (when_ d now)]) by exact L.
  split; [reflexivity|]. split; [exact X|]. rewrite X, pending_app. cbn [pend_step]. now rewrite Z.eqb_refl.
Qed.
Print Assumptions C157_reset_partial.

Example C157_nonvacuous : exists g g' g2 g3,
  run (fun _ => []) new_timing [OUser 10 (UStart 1 40); OUser 12 (UStart 2 10)] = Done g /\
  Reinit g 1 true = Done (g', None) /\ Reset g' 1 5 20 = Crash /\ Start g' 1 5 20 = Done (g', Some ErrTimerAlreadyStarted) /\
  run (fun _ => []) new_timing [OUser 10 (UStart 1 40); OUser 10 (UStart 4 50); OUser 11 (UStop 1); OUser 12 (UStart 2 10)] = Done g2 /\ t_status (g_timers g2 1) = Removed /\
  Reinit g2 1 true = Done (g3, None) /\ (exists g4, Reset g3 1 5 20 = Done (g4, None) /\ pending (g_log g4) 1 = Some 25) /\
  Reinit g2 3 true = Done (g2, Some ErrTimerNotInit).
Proof.
  do 4 eexists. split; [vm_compute; reflexivity|]. split; [vm_compute; reflexivity|]. split; [vm_compute; reflexivity|].
  split; [vm_compute; reflexivity|]. split; [vm_compute; reflexivity|]. split; [vm_compute; reflexivity|]. split; [vm_compute; reflexivity|].
  split; [eexists; split; [vm_compute; reflexivity|vm_compute; reflexivity]|reflexivity].
Qed.

(** What is added to the history: callbacks at the time of the turn only, due times within 64 bits. *)
Definition ev_ok (now : option Z) (e : event) : Prop :=
  match e with EFire _ t => Some t = now | EArm _ d | ERearm _ d => d <= 2 ^ 63 - 1 | EStop _ => True end.
Definition adds (now : option Z) (g g' : timing) : Prop := exists l, g_log g' = g_log g ++ l /\ Forall (ev_ok now) l.
Lemma adds_same now g g' : g_log g' = g_log g -> adds now g g'.
Proof. intros E. exists []. now rewrite app_nil_r. Qed.
Lemma adds_trans now a b c : adds now a b -> adds now b c -> adds now a c.
Proof. intros (l & E & F) (l' & E' & F'). exists (l ++ l'). rewrite E', E, app_assoc. split; auto. apply Forall_app; auto. Qed.
Lemma adds_one now g g' e : g_log g' = g_log g ++ [e] -> ev_ok now e -> adds now g g'.
Proof. intros E F. exists [e]. auto. Qed.
Lemma adds_weak now g g' : adds None g g' -> adds (Some now) g g'.
Proof. intros (l & E & F). exists l. split; auto. eapply Forall_impl; [|exact F]. intros [] X; auto. discriminate. Qed.

Lemma when_max d now : 1 <= d -> when_ d now <= 2 ^ 63 - 1.
Proof. intros H. unfold when_, maxWhen, i64. cbv zeta. destruct (d <=? 0) eqn:?; [lia|]. destruct (_ <? 0) eqn:?; lia. Qed.
Lemma next_max a p now : next_when a p now <= 2 ^ 63 - 1.
Proof.
  assert (B : forall x, i64 x <= 2 ^ 63 - 1) by (intros x; unfold i64; lia).
  unfold next_when, maxWhen. cbv zeta. destruct (_ <? 0); [lia|apply B].
Qed.

Lemma adds_Start g id d now r : Start g id d now = Done r -> adds None g (fst r).
Proof.
  unfold Start. cbv zeta. intros H. destruct (negb _); [inv_done H; subst; now apply adds_same|].
  destruct (Z.ltb_spec d 1); [inv_done H; subst; now apply adds_same|].
  destruct (t_status _); try (inv_done H; subst; now apply adds_same).
  destruct (t_on _); [inv_done H; subst; now apply adds_same|].
  inv_done H. inv_done H. subst r. cbn [fst]. apply same_AddTimer in Hd. destruct Hd as [L _].
  eapply adds_one; [exact L|]. now apply when_max.
Qed.

Lemma adds_reset g id d now b r : 1 <= d -> reset_finish g id d now b = Done r -> adds None g (fst r).
Proof.
  unfold reset_finish. cbv zeta. intros Hd H. destruct b.
  - inv_done H. inv_done H. subst r. cbn [fst]. apply same_AddTimer in Hd0. destruct Hd0 as [L _].
    eapply adds_one; [exact L|]. now apply when_max.
  - destruct (_ <? _); [destruct (t_on _); [|discriminate]|]; inv_done H; subst r; cbn [fst].
    + eapply (adds_one _ _ _ (EArm id (when_ d now))); [|now apply when_max]. unfold updateTimerModifiedEarliest. destruct (_ && _); reflexivity.
    + eapply adds_one; [reflexivity|]. now apply when_max.
Qed.

Lemma adds_user_step g now o g' : user_step g now o = Done g' -> adds None g g'.
Proof.
  destruct o; cbn [user_step]; intros H; inv_done H; inv_done H; subst g'.
  - eapply adds_Start; eauto.
  - unfold Tick in Hd. destruct (_ || _); [inv_done Hd; subst; now apply adds_same|]. apply adds_Start in Hd. exact Hd.
  - unfold Stop in Hd. cbv zeta in Hd. destruct (negb _); [inv_done Hd; subst; now apply adds_same|].
    destruct (t_status _); try discriminate; try (inv_done Hd; subst; now apply adds_same).
    all: destruct (t_on _); [|discriminate]; inv_done Hd; subst; eapply adds_one; [reflexivity|exact I].
  - unfold Reset in Hd. cbv zeta in Hd. destruct (Z.ltb_spec d 1); [inv_done Hd; subst; now apply adds_same|].
    destruct (negb _); [inv_done Hd; subst; now apply adds_same|].
    destruct (t_status _); try discriminate; try (apply adds_reset in Hd; auto).
    destruct (t_on _); [|discriminate]. apply adds_reset in Hd; auto.
Qed.

Lemma adds_user_steps ops : forall g now g', user_steps g now ops = Done g' -> adds None g g'.
Proof.
  induction ops as [|o ops IH]; intros g now g' H; cbn [user_steps] in H; inv_done H; [subst; now apply adds_same|].
  eapply adds_trans; [eapply adds_user_step; eauto|eauto].
Qed.

Lemma adds_runOne h g id now g' : runOneTimer h g id now = Done g' -> adds (Some now) g g'.
Proof.
  unfold runOneTimer. intros H. inv_done H. eapply adds_trans; [|apply adds_weak; eapply adds_user_steps; exact H]. clear H.
  destruct (0 <? _).
  - inv_done Hd. inv_done Hd. subst a. set (w := next_when _ _ _). exists [EFire id now; ERearm id w]. split.
    + cbn [g_log s_log]. rewrite updt0_log. cbn [g_log s_heap s_timer set_status]. now rewrite <- app_assoc.
    + constructor; [cbn [ev_ok]; reflexivity|]. constructor; [apply next_max|constructor].
  - inv_done Hd. inv_done Hd. subst a. apply same_deleteTimer0 in Hd0. destruct Hd0 as [L _]. apply (adds_one _ _ _ (EFire id now)); [|cbn [ev_ok]; reflexivity]. cbn [g_log s_log set_status s_timer]. now rewrite L.
Qed.

Lemma adds_runTimer h fuel : forall g now r, runTimer fuel h g now = Done r -> adds (Some now) g (fst r).
Proof.
  induction fuel as [|f IH]; intros g now r H; cbn [runTimer] in H; [discriminate|]. inv_done H. rename a into b.
  destruct (t_status _) eqn:Es in H; try discriminate.
  - destruct (now <? _); inv_done H; [subst; now apply adds_same|]. inv_done H. subst r. apply adds_runOne in Hd0. exact Hd0.
  - inv_done H. apply same_deleteTimer0 in Hd0. destruct Hd0 as [L _].
    eapply adds_trans; [apply (adds_same _ _ _ L)|]. destruct (g_heap _) in H; [inv_done H; subst; now apply adds_same|]. apply IH in H. exact H.
  - inv_done H. discriminate.
  - inv_done H. discriminate.
Qed.

Lemma adds_checkTimers h fuel g now r : checkTimers fuel h g now = Done r -> adds (Some now) g (fst (fst r)).
Proof.
  unfold checkTimers. intros H. destruct (_ =? 0); [inv_done H; subst; now apply adds_same|].
  destruct (_ && _); [inv_done H; subst; now apply adds_same|]. inv_done H. destruct a as [[g1 nw] ran]. inv_done H. inv_done H. subst r. cbn [fst].
  assert (L2 : g_log a = g_log g1). { destruct (_ <? _); [|inv_done Hd0; congruence]. apply same_clearDeleted in Hd0. apply Hd0. }
  eapply adds_trans; [|apply (adds_same _ _ _ L2)]. destruct (g_heap g); [inv_done Hd; subst; now apply adds_same|].
  inv_done Hd. apply same_adjustTimers in Hd1. destruct Hd1 as [L1 _]. eapply adds_trans; [apply (adds_same _ _ _ L1)|].
  assert (R : forall f g0 ran0 r, run_loop f h g0 now ran0 = Done r -> adds (Some now) g0 (fst (fst r))).
  { clear. induction f as [|f IH]; intros g0 ran0 r H; cbn [run_loop] in H; destruct (g_heap g0) eqn:E; try discriminate; try (inv_done H; subst; now apply adds_same).
    inv_done H. destruct a as [g2 tw]. apply adds_runTimer in Hd. cbn [fst] in Hd. eapply adds_trans; [exact Hd|].
    destruct (tw =? 0); [eauto|inv_done H; subst; now apply adds_same]. }
  apply R in Hd. exact Hd.
Qed.

Lemma run_app h a : forall b g, run h g (a ++ b) = obind (run h g a) (fun g' => run h g' b).
Proof. induction a as [|o a IH]; intros b g; cbn [app run obind]; [reflexivity|]. destruct (step h g o); cbn [obind]; auto. Qed.

Lemma log_max h ops : forall g g', run h g ops = Done g' -> (forall id due, pending (g_log g) id = Some due -> due <= 2 ^ 63 - 1) ->
  forall id due, pending (g_log g') id = Some due -> due <= 2 ^ 63 - 1.
Proof.
  assert (A : forall now g g', adds now g g' -> (forall id due, pending (g_log g) id = Some due -> due <= 2 ^ 63 - 1) ->
    forall id due, pending (g_log g') id = Some due -> due <= 2 ^ 63 - 1).
  { intros now g g' (l & E & F) B. rewrite E. clear E g'. revert F. induction l as [|e l IH] using rev_ind; intros F id due.
    - rewrite app_nil_r. apply B.
    - apply Forall_app in F as [F F2]. inversion F2; subst. rewrite app_assoc, pending_app. specialize (IH F).
      destruct e; cbn [pend_step ev_ok] in *; destruct (id =? _); try (apply IH); congruence. }
  induction ops as [|o ops IH]; intros g g' H B; cbn [run] in H; inv_done H; [now subst|]. eapply IH; [exact H|].
  destruct o as [now o|fuel now]; cbn [step] in Hd.
  - eapply A; [eapply adds_user_step; exact Hd|exact B].
  - inv_done Hd. inv_done Hd. subst a. eapply A; [eapply adds_checkTimers; exact Hd0|exact B].
Qed.

(** * C158.  With timers that are only started and stopped, the thread is never told to sleep
    beyond the due time of a timer that is to run, and it does sleep: *)
Lemma next_runTimer h fuel : forall g now r, clock_ok now -> simple_handler h -> SI g ->
  runTimer fuel h g now = Done r -> snd r <> 0 -> SI (fst r) /\
  (forall k w, pending (g_log (fst r)) k = Some w -> 0 < snd r <= w) /\ (0 < snd r -> now < snd r).
Proof.
  induction fuel as [|f IH]; intros g now r Hc Hh HS H Hn; cbn [runTimer] in H; [discriminate|].
  destruct (g_heap g) as [|b tl] eqn:E; cbn [at_ nth_error lift obind] in H; [discriminate|].
  assert (Hw : t_when (g_timers g (b_timer b)) = b_when b) by (symmetry; apply HS; rewrite E; now left).
  assert (Hb1 : 1 <= b_when b) by (apply HS; rewrite E; now left).
  destruct (t_status _) eqn:Es in H; try discriminate.
  - destruct (Z.ltb_spec now (t_when (g_timers g (b_timer b)))) as [Hlt|Hge].
    + inv_done H. subst r. cbn [fst snd]. split; auto. split; [|lia]. intros k w Hk. pose proof (SI_first g b tl k w HS E Hk). lia.
    + inv_done H. inv_done H. subst r. cbn [snd] in Hn. congruence.
  - destruct (drop_deleted g b tl (g_hi g (si_g g HS)) E Es) as (g1 & E1 & S1 & Hi1 & _). cbv zeta in S1, Hi1.
    pose proof (same_remove_deleted g g1 (b_timer b) Es E1) as Sm.
    rewrite E1 in H. cbn [obind] in H. pose proof (SI_swept _ _ _ HS S1 Hi1 Sm) as HS1.
    set (g2 := s_del _ _) in *. destruct (g_heap g2) eqn:Eh.
    + inv_done H. subst r. cbn [fst snd]. split; auto. split; [|lia]. intros k w Hk.
      destruct (SI_pending g2 k w HS1 Hk) as (c & Hc0 & _). rewrite Eh in Hc0. destruct Hc0.
    + eapply IH; eauto.
  - inv_done H. discriminate.
  - inv_done H. discriminate.
Qed.

Definition in_time (now : Z) (r : timing * Z * bool) : Prop :=
  (forall k w, pending (g_log (fst (fst r))) k = Some w -> 0 < snd (fst r) <= w) /\ (snd (fst r) = 0 \/ now < snd (fst r)).

Lemma next_run_loop h fuel : forall g now ran r, clock_ok now -> simple_handler h -> SI g ->
  run_loop fuel h g now ran = Done r -> in_time now r.
Proof.
  assert (Hnil : forall g now ran, SI g -> g_heap g = [] -> in_time now (g, 0, ran)).
  { intros g now ran HS E. split; [|now left]. cbn [fst snd]. intros k w Hk. destruct (SI_pending g k w HS Hk) as (c & Hc0 & _). rewrite E in Hc0. destruct Hc0. }
  induction fuel as [|f IH]; intros g now ran r Hc Hh HS H; cbn [run_loop] in H.
  - destruct (g_heap g) eqn:E; [inv_done H; subst; auto|discriminate].
  - destruct (g_heap g) eqn:E; [inv_done H; subst; auto|]. inv_done H. destruct a as [g1 tw].
    destruct (Z.eqb_spec tw 0) as [->|Hne].
    + apply SI_runTimer in Hd; auto. cbn [fst snd] in Hd. destruct Hd as [S1 _]. eauto.
    + apply next_runTimer in Hd; auto. cbn [fst snd] in Hd. destruct Hd as (S1 & N1 & N2).
      inv_done H. subst. unfold in_time. cbn [fst snd]. split.
      * intros k w Hk. specialize (N1 k w Hk). replace (0 <? tw) with true by lia. lia.
      * destruct (Z.ltb_spec 0 tw); [right; auto|now left].
Qed.

Lemma next_checkTimers h fuel g now r : clock_ok now -> simple_handler h -> SI g ->
  checkTimers fuel h g now = Done r -> in_time now r.
Proof.
  intros Hc Hh HS H. pose proof (g_hi g (si_g g HS)) as Hi. unfold checkTimers, noBarrierWakeTime in H.
  rewrite (hi_me g Hi), (hi_t0 g Hi) in H. cbn [negb andb] in H. rewrite orb_false_r in H.
  destruct (g_heap g) as [|b tl] eqn:E; cbn [first_when Z.eqb] in H.
  - inv_done H. subst r. split; [|now left]. cbn [fst snd]. intros k w Hk.
    destruct (SI_pending g k w HS Hk) as (c & Hc0 & _). rewrite E in Hc0. destruct Hc0.
  - assert (Hb1 : 1 <= b_when b) by (apply HS; rewrite E; now left).
    replace (b_when b =? 0) with false in H by lia. replace (b_when b =? 0) with false in H by lia.
    destruct ((now <? b_when b) && negb (isCleanNeed g)) eqn:Eq.
    + inv_done H. subst r. split; cbn [fst snd]; [|right; lia]. intros k w Hk. pose proof (SI_first g b tl k w HS E Hk). lia.
    + inv_done H. destruct a as [[g1 nw] ran]. inv_done Hd. unfold adjustTimers in Hd0. rewrite (hi_me g Hi) in Hd0.
      cbn [Z.eqb orb] in Hd0. inv_done Hd0. subst a.
      pose proof (next_run_loop _ _ _ _ _ _ Hc Hh HS Hd) as [N1 N2]. apply SI_run_loop in Hd; auto. cbn [fst snd] in *. destruct Hd as [S1 _].
      inv_done H. inv_done H. subst r. split; cbn [fst snd]; [|exact N2].
      destruct (_ <? _) in Hd; [|inv_done Hd; subst; auto].
      destruct (clearDeleted_spec g1 (g_hi g1 (si_g g1 S1))) as (rm & g2 & E2 & S2 & Hi2).
      rewrite E2 in Hd. inv_done Hd. subst a. pose proof (same_clearDeleted _ _ E2) as Sm. intros k w. rewrite (proj1 Sm). apply N1.
Qed.

Theorem C158_sleep_partial : forall h ops g fuel now g' d id due, simple_handler h -> Forall simple_op ops -> clock_ok now ->
  run h new_timing ops = Done g -> turn fuel h g now = Done (g', d) -> pending (g_log g') id = Some due ->
  0 < d /\ now + d <= due.
Proof.
  intros h ops g fuel now g' d id due Hh Ho Hc H K P.
  assert (Hm : due <= 2 ^ 63 - 1).
  { unfold turn in K. inv_done K. destruct a as [[g1 nw] ran]. inv_done K. subst.
    eapply (log_max h (ops ++ [OCheck fuel now]) new_timing); [|discriminate|exact P].
    rewrite run_app, H. cbn [obind run step]. rewrite Hd. reflexivity. }
  unfold turn in K. inv_done K. destruct a as [[g1 nw] ran]. inv_done K. subst.
  assert (HS : SI g) by (eapply SI_run; eauto using SI_new).
  destruct (next_checkTimers _ _ _ _ _ Hc Hh HS Hd) as [N1 N2]. cbn [fst snd] in *. specialize (N1 _ _ P).
  unfold clock_ok, maxWhen in *. unfold i64 in *. lia.
Qed.
Print Assumptions C158_sleep_partial.

(** When nothing is queued it is told to sleep for minus the time: it does not sleep, however
    often it turns. *)
Theorem C158_spins_refuted : forall h g w fuel now, g_heap g = [] -> g_me g = 0 -> g_t0 g = 0 -> 0 <= now < 2 ^ 63 ->
  turn fuel h g now = Done (g, - now) /\ forall s, w <= now -> serve h (g, now) s -> serve h (g, w) s.
Proof.
  intros h g w fuel now Eh Em E0 Hn.
  assert (T : forall fuel now, 0 <= now < 2 ^ 63 -> turn fuel h g now = Done (g, - now)).
  { intros f n Hn'. unfold turn, checkTimers, noBarrierWakeTime. rewrite Em, E0. cbn [Z.eqb orb obind]. do 2 f_equal. unfold i64. lia. }
  split; [now apply T|]. intros s Hw K. eapply (ServeTurn h g w now fuel); [exact Hw|now apply T|].
  replace (now + Z.max 0 (- now)) with now by lia. exact K.
Qed.
Print Assumptions C158_spins_refuted.

Lemma serve_log h s s' : serve h s s' -> exists l, g_log (fst s') = g_log (fst s) ++ l.
Proof.
  induction 1 as [|g0 w0 now o g1 s X K IH|g0 w0 now fuel g1 d s Hw X K IH]; cbn [fst] in *.
  - exists []. now rewrite app_nil_r.
  - destruct IH as (l & E). apply adds_user_step in X. destruct X as (l1 & L1 & _). exists (l1 ++ l). now rewrite E, L1, app_assoc.
  - destruct IH as (l & E). unfold turn in X. inv_done X. destruct a as [[g2 nw] ran]. inv_done X. subst. apply adds_checkTimers in Hd. cbn [fst] in Hd.
    destruct Hd as (l1 & L1 & _). exists (l1 ++ l). now rewrite E, L1, app_assoc.
Qed.

(** And it is not woken when a timer is started: whatever is started, stopped or rescheduled
    while it sleeps, no callback is called before its sleep ends; *)
Theorem C158_deaf_refuted : forall h g w g' w' l id t, serve h (g, w) (g', w') -> g_log g' = g_log g ++ l ->
  In (EFire id t) l -> w <= t.
Proof.
  intros h g w g' w' l id t K. remember (g, w) as s0 eqn:E0. remember (g', w') as s1 eqn:E1. revert g w l E0.
  induction K as [g0 w0|g0 w0 now o g1 s X K IH|g0 w0 now fuel g1 d s Hw X K IH]; intros g w l E0 L I; inversion E0; subst; clear E0.
  - inversion E1; subst. assert (l = []) by (apply (f_equal (@length event)) in L; rewrite app_length in L; destruct l; [reflexivity|cbn [length] in L; lia]).
    subst. destruct I.
  - apply adds_user_step in X. destruct X as (l1 & L1 & F). 
    assert (Y : exists l2, g_log g' = g_log g1 ++ l2) by (apply serve_log in K; exact K). destruct Y as (l2 & L2).
    assert (l = l1 ++ l2) by (rewrite L1, <- app_assoc in L2; rewrite L in L2; eapply app_inv_head; exact L2). subst l.
    apply in_app_iff in I as [I|I]; [|eapply (IH eq_refl); eauto]. rewrite Forall_forall in F. apply F in I. discriminate.
  - unfold turn in X. inv_done X. destruct a as [[g2 nw] ran]. inv_done X. subst. apply adds_checkTimers in Hd. cbn [fst] in Hd. destruct Hd as (l1 & L1 & F).
    assert (Y : exists l2, g_log g' = g_log g1 ++ l2) by (apply serve_log in K; exact K). destruct Y as (l2 & L2).
    assert (l = l1 ++ l2) by (rewrite L1, <- app_assoc in L2; rewrite L in L2; eapply app_inv_head; exact L2). subst l.
    apply in_app_iff in I as [I|I].
    + rewrite Forall_forall in F. apply F in I. cbn in I. injection I as ->. exact Hw.
    + assert (now + Z.max 0 (i64 (nw - now)) <= t) by (eapply (IH eq_refl); eauto). lia.
Qed.
Print Assumptions C158_deaf_refuted.

(** so a timer started meanwhile with an earlier due time is always late. *)
Theorem C158_late_refuted : forall h g w id d now g1 g' w' l t, Start g id d now = Done (g1, None) -> when_ d now < w ->
  serve h (g1, w) (g', w') -> g_log g' = g_log g1 ++ l -> In (EFire id t) l -> when_ d now < t /\ w <= t.
Proof. intros h g w id d now g1 g' w' l t _ L K E I. pose proof (C158_deaf_refuted _ _ _ _ _ _ _ _ K E I). lia. Qed.
Print Assumptions C158_late_refuted.

Example C158_nonvacuous : exists g g1 g2 g3, run (fun _ => []) new_timing [OUser 10 (UStart 1 1000)] = Done g /\
  turn 5 (fun _ => []) g 20 = Done (g1, 990) /\ Start g1 2 5 21 = Done (g2, None) /\ when_ 5 21 = 26 /\
  turn 5 (fun _ => []) g2 1010 = Done (g3, -1010) /\ g_log g3 = g_log g2 ++ [EFire 2 1010; EFire 1 1010] /\
  serve (fun _ => []) (g2, 1010) (g3, 1010) /\ turn 5 (fun _ => []) g3 1020 = Done (g3, -1020).
Proof.
  do 4 eexists. split; [vm_compute; reflexivity|]. split; [vm_compute; reflexivity|]. split; [vm_compute; reflexivity|]. split; [reflexivity|].
  split; [vm_compute; reflexivity|]. split; [vm_compute; reflexivity|]. split; [|vm_compute; reflexivity].
  eapply (ServeTurn _ _ _ 1010 5); [lia|vm_compute; reflexivity|]. apply ServeEnd.
Qed.
