(** C164: making timers in one call; sleeping. *)
From Coq Require Import ZifyBool ZifyNat.
From Verif Require Import Go GoFacts HeapModel HeapSpec TimingModel TimingSpec TimingProofs TimingProofs2 TimingTheorems TimerLifeModel TimerLifeTheorems SleepModel.
Ltac Zify.zify_post_hook ::= Z.div_mod_to_equations.

Lemma fresh_Init g id cb : fst (Init (declare g id) id cb) =
  s_timer (declare g id) id {| t_when := 0; t_period := 0; t_status := Unset; t_cb := cb; t_on := false |}.
Proof. unfold Init. unfold declare at 1. cbn [g_timers s_timer]. unfold tset at 1. rewrite Z.eqb_refl. cbn [t_cb fst]. f_equal. unfold declare, w_cb. cbn [g_timers s_timer]. unfold tset. now rewrite Z.eqb_refl. Qed.
Lemma safe_fresh g id cb : safe g -> pending (g_log g) id = None -> safe (fst (Init (declare g id) id cb)).
Proof.
  intros [A W] P. rewrite fresh_Init. split; [|exact W]. intros k. cbn [g_log s_timer declare g_timers]. unfold tset.
  destruct (Z.eqb_spec k id) as [->|N]; [exact P|apply A].
Qed.

(** A timer made and started in one call: started exactly if there is a callback and the delay is
    positive; otherwise an error, and nothing will be called. *)
Theorem C164_new : forall g id d cb now g' e, NewAsync g id d cb now = Done (g', e) ->
  (e = None <-> cb = true /\ 1 <= d) /\
  g_log g' = g_log g ++ match e with None => [EArm id (when_ d now)] | Some _ => [] end.
Proof.
  intros g id d cb now g' e H. unfold NewAsync in H. pose proof (C08_start_recorded _ _ _ _ _ H) as L. cbn [fst snd] in L.
  rewrite fresh_Init in L. split; [|exact L]. rewrite fresh_Init in H. unfold Start in H. cbv zeta in H. cbn [g_timers s_timer] in H. unfold tset at 1 2 3 in H.
  rewrite Z.eqb_refl in H. cbn [t_cb t_status t_on] in H. destruct cb; cbn [negb] in H; [|inv_done H; split; [congruence|intros [K _]; discriminate K]].
  destruct (Z.ltb_spec d 1); [inv_done H; split; [congruence|lia]|]. inv_done H. inv_done H. split; [auto|intros _; congruence].
Qed.
Print Assumptions C164_new.
Theorem C164_new_tick : forall g id first interval cb now g' e, NewAsyncTick g id first interval cb now = Done (g', e) ->
  (e = None <-> cb = true /\ 1 <= first /\ 1 <= interval) /\
  g_log g' = g_log g ++ match e with None => [EArm id (when_ first now)] | Some _ => [] end.
Proof.
  intros g id f i cb now g' e H. unfold NewAsyncTick, Tick in H.
  destruct ((f <? 1) || (i <? 1)) eqn:B.
  - injection H as <- <-. split; [split; [discriminate|lia]|]. rewrite fresh_Init. cbn [g_log s_timer declare]. now rewrite app_nil_r.
  - pose proof (C08_start_recorded _ _ _ _ _ H) as L. cbn [fst snd] in L. rewrite fresh_Init in L. split; [|exact L].
    rewrite fresh_Init in H. unfold Start in H. cbv zeta in H. cbn [g_timers s_timer] in H. unfold tset in H. rewrite !Z.eqb_refl in H.
    cbn [t_cb t_status t_on w_period t_when t_period] in H. destruct cb; cbn [negb] in H; [|inv_done H; split; [congruence|intros [K _]; discriminate K]].
    replace (f <? 1) with false in H by lia. inv_done H. inv_done H. split; [intros _; repeat split; lia|intros _; congruence].
Qed.
Print Assumptions C164_new_tick.

(** After panics on delays that are not positive, and starts a timer otherwise. *)
Theorem C164_after : forall g id d now,
  (d < 1 -> After g id d now = Crash) /\
  (1 <= d -> forall g', After g id d now = Done g' -> g_log g' = g_log g ++ [EArm id (when_ d now)] /\ pending (g_log g') id = Some (when_ d now)).
Proof.
  intros g id d now. split.
  - intros H. unfold After, NewAsync. rewrite fresh_Init. unfold Start. cbv zeta. cbn [g_timers s_timer]. unfold tset at 1. rewrite Z.eqb_refl.
    cbn [t_cb negb]. replace (d <? 1) with true by lia. reflexivity.
  - intros H g' K. unfold After in K. inv_done K. destruct a as [g1 [e|]]; [discriminate|]. inv_done K. subst g'.
    destruct (C164_new _ _ _ _ _ _ _ Hd) as [_ L]. rewrite L. split; [reflexivity|]. rewrite pending_app. cbn [pend_step]. now rewrite Z.eqb_refl.
Qed.
Print Assumptions C164_after.

(** * Sleep.  Nothing, for delays that are not positive. *)
Theorem C164_at_once : forall g id d now, d <= 0 -> Sleep g id d now = Done (g, Returned).
Proof. intros g id d now H. unfold Sleep. replace (d <=? 0) with true by lia. reflexivity. Qed.
Print Assumptions C164_at_once.

(** Nobody else uses the timer of this Sleep: *)
Definition own (id : Z) (l : list event) : Prop :=
  Forall (fun e => match e with EArm k _ | ERearm k _ => k <> id | _ => True end) l.

Lemma pending_own L id : forall l, own id l -> pending (L ++ l) id = pending L id \/ pending (L ++ l) id = None.
Proof.
  induction l as [|e l IH] using rev_ind; intros O; [rewrite app_nil_r; auto|]. apply Forall_app in O as [O E]. inversion E as [|? ? E1 _]; subst.
  rewrite app_assoc, pending_app. destruct e as [k w|k|k w|k w]; cbn [pend_step]; destruct (Z.eqb_spec id k) as [->|N]; auto; congruence.
Qed.
Lemma step_log h g o g' : step h g o = Done g' -> exists l, g_log g' = g_log g ++ l.
Proof.
  destruct o as [now o|fuel now]; cbn [step]; intros H.
  - apply adds_user_step in H. destruct H as (l & E & _). eauto.
  - inv_done H. inv_done H. subst. apply adds_checkTimers in Hd. destruct Hd as (l & E & _). eauto.
Qed.
Lemma sleep_log h id l : forall s s', sleep_run h id s l = Done s' -> exists x, g_log (fst s') = g_log (fst s) ++ x.
Proof.
  induction l as [|a l IH]; intros s s' H; cbn [sleep_run] in H; inv_done H; [subst; exists []; now rewrite app_nil_r|].
  destruct (IH _ _ H) as (x & E). destruct s as [g p]. destruct a as [|o]; cbn [sleep_step] in Hd; inv_done Hd; [subst; eauto|].
  inv_done Hd. subst. cbn [fst] in *. destruct (step_log _ _ _ _ Hd0) as (y & E'). exists (y ++ x). now rewrite E, E', app_assoc.
Qed.
Lemma sleep_safe h id l : forall s s', safe (fst s) -> sleep_run h id s l = Done s' -> safe (fst s').
Proof.
  induction l as [|a l IH]; intros s s' S0 H; cbn [sleep_run] in H; inv_done H; [now subst|]. eapply IH; [|exact H]. clear H IH.
  destruct s as [g p]. destruct a as [|o]; cbn [sleep_step] in Hd; inv_done Hd; [now subst|]. inv_done Hd. subst. cbn [fst] in *.
  eapply (safe_run h [o]); [exact S0|]. cbn [run]. rewrite Hd0. reflexivity.
Qed.
Lemma returned_fired h id l : forall g p g', sleep_run h id (g, p) l = Done (g', Returned) -> p <> Returned ->
  exists x t y, g_log g' = g_log g ++ x ++ EFire id t :: y.
Proof.
  induction l as [|o l IH]; intros g p g' H N; cbn [sleep_run] in H; inv_done H; [congruence|].
  destruct a as [g1 p1]. destruct (sleep_log _ _ _ _ _ H) as (z & Ez). cbn [fst] in Ez.
  assert (exists w, g_log g1 = g_log g ++ w) as (w & Ew).
  { assert (R : sleep_run h id (g, p) [o] = Done (g1, p1)) by (cbn [sleep_run]; rewrite Hd; reflexivity). destruct (sleep_log _ _ _ _ _ R) as (w & Ew). exists w. exact Ew. }
  assert (C : p1 <> Returned \/ p1 = Returned) by (destruct p1; auto; left; discriminate). destruct C as [C| ->].
  - destruct (IH _ _ _ H C) as (x & t & y & E). exists (w ++ x), t, y. rewrite E, Ew, <- !app_assoc. reflexivity.
  - destruct o as [|o]; cbn [sleep_step] in Hd; inv_done Hd; [destruct p; congruence|]. injection Hd as -> K.
    destruct p; try congruence. rewrite Ew, skipn_app, skipn_all, Nat.sub_diag in K. cbn [app skipn] in K.
    destruct (existsb (fires id) w) eqn:X; [|congruence]. apply existsb_exists in X as (e & I & F). destruct e as [| |k t|]; try discriminate F.
    cbn [fires] in F. apply Z.eqb_eq in F. subst k. apply in_split in I as (x & y & ->). exists x, t, (y ++ z). rewrite Ez, Ew, <- !app_assoc. reflexivity.
Qed.

Lemma slept g id d now s : 1 <= d -> Sleep g id d now = Done s -> safe g -> pending (g_log g) id = None ->
  g_log (fst s) = g_log g ++ [EArm id (when_ d now)] /\ safe (fst s) /\ snd s = Before.
Proof.
  intros D H S0 P. unfold Sleep in H. replace (d <=? 0) with false in H by lia. inv_done H. inv_done H. subst s. destruct a as [g1 e]. cbn [fst snd].
  destruct (C164_new _ _ _ _ _ _ _ Hd) as [E L]. replace e with (@None terr) in L by (symmetry; now apply E). split; [exact L|]. split; [|reflexivity].
  unfold NewAsync in Hd. change g1 with (fst (g1, e)). eapply safe_Start; [|exact Hd]. now apply safe_fresh.
Qed.

(** It does not return before its time: whatever else happens to timers, if it has returned then
    its timer was run, by a core that had reached that time. *)
Theorem C164_not_early : forall h ops g id d now s l g', run h new_timing ops = Done g -> pending (g_log g) id = None ->
  0 <= now < 2 ^ 63 -> 1 <= d < 2 ^ 63 -> Sleep g id d now = Done s -> sleep_run h id s l = Done (g', Returned) ->
  own id (skipn (length (g_log (fst s))) (g_log g')) ->
  exists x t y, g_log g' = g_log (fst s) ++ x ++ EFire id t :: y /\ Z.min (now + d) (2 ^ 63 - 1) <= t.
Proof.
  intros h ops g id d now [g1 p] l g' R P N D H K O.
  assert (S0 : safe g) by (eapply safe_run; [apply safe_new|exact R]).
  destruct (slept _ _ _ _ _ (proj1 D) H S0 P) as (L & S1 & E). cbn [fst snd] in *. subst p.
  destruct (returned_fired _ _ _ _ _ _ K) as (x & t & y & F); [discriminate|]. exists x, t, y. split; [exact F|].
  pose proof (sleep_safe _ _ _ (g1, Before) _ S1 K) as [_ [W _]]. cbn [fst] in W. rewrite app_assoc in F. destruct (W _ _ _ _ F) as (due & Pd & Le).
  rewrite F, <- app_assoc, skipn_app, skipn_all, Nat.sub_diag in O. cbn [app skipn] in O. apply Forall_app in O as [O _].
  destruct (pending_own (g_log g1) id x O) as [Q|Q]; [|congruence]. rewrite Q, L, pending_app in Pd. cbn [pend_step] in Pd. rewrite Z.eqb_refl in Pd.
  injection Pd as <-. rewrite C07_due_time_saturates in Le by lia. unfold spec_when in Le. replace (d <=? 0) with false in Le by lia. exact Le.
Qed.
Print Assumptions C164_not_early.

(** A thread that is waiting goes on when its timer is run; *)
Theorem C164_wakes_partial : forall h id g o g' x, step h g o = Done g' -> g_log g' = g_log g ++ x -> (exists t, In (EFire id t) x) ->
  sleep_run h id (g, Waits) [SOp o] = Done (g', Returned).
Proof.
  intros h id g o g' x H E (t & I). cbn [sleep_run sleep_step]. rewrite H. cbn [obind]. rewrite E, skipn_app, skipn_all, Nat.sub_diag. cbn [app skipn].
  replace (existsb (fires id) x) with true; [reflexivity|]. symmetry. apply existsb_exists. exists (EFire id t). split; [exact I|]. cbn [fires]. apply Z.eqb_refl.
Qed.
Print Assumptions C164_wakes_partial.
(** but if its timer is run before it waits, it never returns. *)
Theorem C164_lost_refuted : forall h ops g id d now s l1 g1 p1 l2 g2 p2, run h new_timing ops = Done g -> pending (g_log g) id = None -> 1 <= d ->
  Sleep g id d now = Done s -> sleep_run h id s l1 = Done (g1, p1) -> p1 = Before ->
  (exists t, In (EFire id t) (skipn (length (g_log (fst s))) (g_log g1))) ->
  sleep_run h id (g1, p1) l2 = Done (g2, p2) -> own id (skipn (length (g_log (fst s))) (g_log g2)) -> p2 <> Returned.
Proof.
  intros h ops g id d now s l1 g1 p1 l2 g2 p2 R P D H K1 E1 (t & I) K2 O ->.
  assert (S0 : safe g) by (eapply safe_run; [apply safe_new|exact R]).
  destruct (slept _ _ _ _ _ D H S0 P) as (L & S1 & E). pose proof (sleep_safe _ _ _ _ _ S1 K1) as S2. pose proof (sleep_safe _ _ _ (g1, p1) _ S2 K2) as [_ [W _]]. cbn [fst] in *.
  destruct (returned_fired _ _ _ _ _ _ K2) as (x & t2 & y & F); [congruence|].
  destruct (sleep_log _ _ _ _ _ K1) as (z & Ez). cbn [fst] in Ez. rewrite Ez, skipn_app, skipn_all, Nat.sub_diag in I. cbn [app skipn] in I.
  apply in_split in I as (u & v & ->). rewrite app_assoc in F. destruct (W _ _ _ _ F) as (due & Pd & _).
  rewrite F, Ez, <- !app_assoc, skipn_app, skipn_all, Nat.sub_diag in O. cbn [app skipn] in O.
  apply Forall_app in O as [_ O]. inversion O as [|? ? _ O1]; subst. apply Forall_app in O1 as [O2 O3]. apply Forall_app in O3 as [O3 _].
  assert (Q : pending ((g_log (fst s) ++ u) ++ [EFire id t]) id = None) by (rewrite pending_app; cbn [pend_step]; now rewrite Z.eqb_refl).
  rewrite Ez in Pd. replace ((g_log (fst s) ++ u ++ EFire id t :: v) ++ x) with (((g_log (fst s) ++ u) ++ [EFire id t]) ++ (v ++ x)) in Pd by (rewrite <- !app_assoc; reflexivity).
  destruct (pending_own ((g_log (fst s) ++ u) ++ [EFire id t]) id (v ++ x)) as [G|G]; [apply Forall_app; now split|congruence|congruence].
Qed.
Print Assumptions C164_lost_refuted.

Example C164_nonvacuous : exists g s g1 g2 g3 g4,
  run (fun _ => []) new_timing [OUser 3 (UStart 2 100)] = Done g /\ pending (g_log g) 1 = None /\
  Sleep g 1 20 10 = Done s /\
  (* woken while it waits *)
  sleep_run (fun _ => []) 1 s [SYield; SOp (OCheck 9 25); SOp (OCheck 9 31)] = Done (g1, Returned) /\ own 1 (skipn (length (g_log (fst s))) (g_log g1)) /\
  sleep_run (fun _ => []) 1 s [SYield; SOp (OCheck 9 29)] = Done (g2, Waits) /\
  (* woken before: *)
  sleep_run (fun _ => []) 1 s [SOp (OCheck 9 31)] = Done (g3, Before) /\ In (EFire 1 31) (skipn (length (g_log (fst s))) (g_log g3)) /\
  sleep_run (fun _ => []) 1 (g3, Before) [SYield; SOp (OCheck 9 40); SOp (OCheck 9 200)] = Done (g4, Waits) /\ own 1 (skipn (length (g_log (fst s))) (g_log g4)) /\
  After g 1 0 10 = Crash /\ (exists g5, After g 1 7 10 = Done g5 /\ pending (g_log g5) 1 = Some 17) /\
  (exists g6, NewAsyncTick g 1 7 0 true 10 = Done (g6, Some ErrNegativeDuration)) /\ (exists g7, NewAsyncTick g 1 7 5 true 10 = Done (g7, None)).
Proof.
  do 6 eexists. split; [vm_compute; reflexivity|]. split; [reflexivity|]. split; [vm_compute; reflexivity|]. split; [vm_compute; reflexivity|].
  split; [vm_compute; repeat constructor; congruence|]. split; [vm_compute; reflexivity|]. split; [vm_compute; reflexivity|].
  split; [vm_compute; auto|]. split; [vm_compute; reflexivity|]. split; [vm_compute; repeat constructor; congruence|]. split; [vm_compute; reflexivity|].
  split; [eexists; split; vm_compute; reflexivity|]. split; eexists; vm_compute; reflexivity.
Qed.
