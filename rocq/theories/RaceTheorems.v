(** Theorems about timers used from several threads at once (C165). *)
From Coq Require Import ZifyBool ZifyNat.
From Verif Require Import Go GoFacts TimingModel TimingSpec RaceModel RaceSpec RaceProofs RaceProofs2 RaceProofs3 RaceProofs4.

(** ** C165: whatever the schedule, a timer runs only while it waits and is due, and every answer is
    true at some moment of the call *)

(** Whatever threads do to their timers while the core works on its queue, what happens to each
    timer is what the property asks for: it is taken to be run only while it is pending and due, at
    most once per setting or period; it is stopped only while it is pending. *)
Theorem C165_story : forall owner clk ls s, legal owner ls -> crun (cinit clk) ls = Some s -> forall id, well_behaved (story id (c_log s)).
Proof. exact story_wb. Qed.
Print Assumptions C165_story.

(** Callbacks are called in the order in which their timers were taken, once for each, and at most one
    has yet to be called. *)
Theorem C165_callbacks : forall owner clk ls s, legal owner ls -> crun (cinit clk) ls = Some s ->
  exists past left, decided (c_log s) = past ++ left /\ (length left <= 1)%nat /\
    Forall2 (fun d c => fst d = fst c /\ snd d <= snd c) past (called (c_log s)).
Proof.
  intros owner clk ls s Lg H. destruct (fly_run owner clk ls s Lg H) as (past & D & F). exists past, (fl_lock (c_lock s) ++ fl_sch (c_sch s)). split; [exact D|]. split; [|exact F].
  destruct (good_run owner clk ls s Lg H) as ([_ K] & _). destruct (c_lock s) as [|who now mv dr m] eqn:E; [cbn; destruct (c_sch s); cbn; lia|]. destruct K as [K1 K2].
  destruct m; cbn [fl_lock app]; try (destruct (c_sch s); cbn; lia). all: destruct K2 as (-> & _ & _); destruct K1 as [-> _]; cbn; lia.
Qed.
Print Assumptions C165_callbacks.

(** A callback is called only after its timer was taken to be run, when it was pending and due: never
    before the time it was set for. *)
Theorem C165_never_early : forall owner clk ls s pre id k post, legal owner ls -> crun (cinit clk) ls = Some s -> c_log s = pre ++ CFire id k :: post ->
  exists a due now b, story id pre = a ++ EFire id now :: b /\ pending a id = Some due /\ due <= now <= k.
Proof.
  intros owner clk ls s pre id k post Lg H E. destruct (call_after owner clk ls s Lg H pre id k post E) as (now & I & Le). apply decided_in in I. apply in_split in I. destruct I as (a & b & I).
  destruct (story_wb owner clk ls s Lg H id) as (W & _). rewrite E, story_app, I, <- app_assoc in W. destruct (W a id now _ eq_refl) as (due & P & Ld). exists a, due, now, b. repeat split; auto.
Qed.
Print Assumptions C165_never_early.

(** What a call answers is what happened between its beginning and its end: Start, Tick and Reset
    that answer no error have set their timer once, to the duration after a moment of the call; with
    an error they have not touched it.  Stop that answers no error has stopped it, or it had been
    stopped; Stop that answers an error has found it never set, or run and not set again.  No call
    answers that it ran into another. *)
Theorem C165_calls : forall owner clk ls s pre a o r k post, legal owner ls -> crun (cinit clk) ls = Some s -> c_log s = pre ++ CRet a o r k :: post ->
  exists before k0 mid, pre = before ++ CCall a o k0 :: mid /\ silent a mid /\ k0 <= k /\ answered o r k0 k before mid.
Proof. intros owner clk ls s pre a o r k post Lg H E. exact (proj2 (busy_run owner clk ls s Lg H) pre a o r k post E). Qed.
Print Assumptions C165_calls.

(** No thread ever uses a queue that is not there. *)
Theorem C165_no_crash : forall owner clk ls s, legal owner ls -> crun (cinit clk) ls = Some s -> c_crash s = false.
Proof. exact no_crash. Qed.
Print Assumptions C165_no_crash.

(** A timer that is never periodic runs, and is stopped in time, at most as often as it is set. *)
Theorem C165_runs : forall owner clk ls s id, legal owner ls -> crun (cinit clk) ls = Some s -> ticked id (c_log s) = false ->
  (length (runs id (c_log s)) + length (stops id (c_log s)) <= length (set_calls id (c_log s)))%nat.
Proof.
  intros owner clk ls s id Lg H T. pose proof (runs_decided s id (fly_run owner clk ls s Lg H)) as R. pose proof (wb_count id _ (story_timer id _) (story_wb owner clk ls s Lg H id)) as W.
  pose proof (na_run owner clk ls s Lg H id) as N. destruct (per_run owner clk ls s Lg H id T) as (_ & P & _). rewrite stops_count. destruct (pend1 _); lia.
Qed.
Print Assumptions C165_runs.

(** ** C166: after Stop no callback; rescheduling and restarting do no harm — not always *)

(** Once Stop has answered no error, the callback of a timer set once is not called, then or later:
    it was not called before either. *)
Theorem C166_stop_partial : forall owner clk ls s id a k, legal owner ls -> crun (cinit clk) ls = Some s -> ticked id (c_log s) = false ->
  (length (set_calls id (c_log s)) <= 1)%nat -> In (CRet a (CStop id) Fine k) (c_log s) -> runs id (c_log s) = [].
Proof.
  intros owner clk ls s id a k Lg H T N I. pose proof (C165_runs owner clk ls s id Lg H T) as R. apply in_split in I. destruct I as (pre & post & E).
  destruct (C165_calls _ _ _ _ _ _ _ _ _ _ Lg H E) as (bf & k0 & mid & Ep & _ & _ & A). cbn [answered] in A.
  assert (St : In (EStop id) (story id (c_log s))).
  { rewrite E, Ep, !story_app. change (story id (CCall a (CStop id) k0 :: mid)) with (story id mid). destruct A as [A|(_ & l & A)].
    - assert (X : In (EStop id) (orders id mid)) by (rewrite A; now left). apply filter_In in X. apply in_or_app. left. apply in_or_app. right. tauto.
    - rewrite story_app in A. apply in_or_app. left. rewrite A. apply in_or_app. right. now left. }
  assert (1 <= length (stops id (c_log s)))%nat. { rewrite stops_count. unfold cnt. assert (X : In (EStop id) (filter isstop (story id (c_log s)))) by (apply filter_In; auto). destruct (filter isstop _); [destruct X|cbn; lia]. }
  destruct (runs id (c_log s)); [reflexivity|cbn in R; lia].
Qed.
Print Assumptions C166_stop_partial.

(** Not so for a timer set again: the run decided for the first setting is still to be called when
    Stop answers, and is called after it.  Nor for a periodic one. *)
Definition doing (a : Z) (o : cop) (n : nat) : list lab := LCall a o :: repeat (LUser a) n.
Definition take (id : Z) : list lab := [LCore ALock; LPick id; LHold; LHold; LHold; LHold; LHold].
Definition after (ls : list lab) : cs := match crun (cinit 0) ls with Some s => s | None => cinit 0 end.
Definition again : list lab := doing 1 (CStart 7 5) 8 ++ [LTime 5] ++ take 7 ++ doing 1 (CStart 7 5) 8 ++ doing 1 (CStop 7) 4 ++ [LCore ACall].
Definition ticking : list lab := doing 1 (CTick 7 5 5) 9 ++ [LTime 5] ++ take 7 ++ doing 1 (CStop 7) 4 ++ [LCore ACall].
Theorem C166_stop_late_refuted :
  (exists ls s log k, legal (fun _ => 1) ls /\ crun (cinit 0) ls = Some s /\ ticked 7 (c_log s) = false /\ c_log s = log ++ [CRet 1 (CStop 7) Fine k; CFire 7 k]) /\
  (exists ls s log k, legal (fun _ => 1) ls /\ crun (cinit 0) ls = Some s /\ length (set_calls 7 (c_log s)) = 1%nat /\ c_log s = log ++ [CRet 1 (CStop 7) Fine k; CFire 7 k]).
Proof.
  split.
  - exists again, (after again), (removelast (removelast (c_log (after again)))), 5. split; [repeat constructor|]. split; [vm_compute; reflexivity|]. split; vm_compute; reflexivity.
  - exists ticking, (after ticking), (removelast (removelast (c_log (after ticking)))), 5. split; [repeat constructor|]. split; [vm_compute; reflexivity|]. split; vm_compute; reflexivity.
Qed.
Print Assumptions C166_stop_late_refuted.

(** A timer that is also started again by its own callback, while another thread is in Stop: Stop
    crashes. *)
Definition restarted : list lab :=
  doing 1 (CStart 7 5) 8 ++ [LTime 5] ++ doing 1 (CStop 7) 1 ++ take 7 ++ [LCore ACall] ++ doing 0 (CStart 7 5) 3 ++ repeat (LUser 1) 3.
Theorem C166_restart_refuted : exists ls s, crun (cinit 0) ls = Some s /\ c_crash s = true /\
  Forall (fun l => match l with LCall a o => o = CStart 7 5 \/ a = 1 /\ o = CStop 7 | _ => True end) ls.
Proof. exists restarted, (after restarted). split; [vm_compute; reflexivity|]. split; [vm_compute; reflexivity|]. unfold restarted, doing, take. cbn [repeat app]. repeat (apply Forall_cons; [auto|]). constructor. Qed.
Print Assumptions C166_restart_refuted.

Lemma f2_len {A B} (P : A -> B -> Prop) a b : Forall2 P a b -> length a = length b.
Proof. induction 1; cbn; congruence. Qed.
(** A timer of the queue that was rescheduled while it waited, once the thread that has the lock turns
    to it: the lock is never released again, no timer is taken to be run from then on, at most one
    callback is still called, and no Start answers. *)
Theorem C166_reschedule_refuted : forall owner clk ls0 s id s1 s2, legal owner ls0 -> crun (cinit clk) ls0 = Some s ->
  stat s id = ModifiedEarlier \/ stat s id = ModifiedLater -> (match c_lock s with Held _ _ _ drop _ => drop = None | Free => True end) ->
  cstep s (LPick id) = Some s1 -> cstep s1 LHold = Some s2 ->
  forall ls s3, legal owner ls -> crun s2 ls = Some s3 ->
    c_lock s3 <> Free /\ exists es, c_log s3 = c_log s ++ es /\ decided es = [] /\ (length (called es) <= 1)%nat /\ (forall a i d k, ~ In (CRet a (CStart i d) Fine k) es).
Proof.
  intros owner clk ls0 s id s1 s2 Lg0 H0 St Dr H1 H2 ls s3 Lg H3.
  assert (X : stuck s2 /\ c_log s2 = c_log s /\ c_sch s2 = c_sch s).
  { clear H3. unfold cstep in H1, H2. destruct (c_crash s) eqn:Cr; [discriminate|]. unfold pick in H1. destruct (c_lock s) as [|who now mv dr []] eqn:KL; try discriminate. subst dr.
    match type of H1 with (if ?c then _ else _) = _ => destruct c; [discriminate|] end. destruct St as [St|St]; rewrite St in H1; injection H1 as <-; unfold to in *; cbn [c_crash x_lock x_t] in H2; rewrite Cr in H2; unfold hold_step in H2; cbn [c_lock x_lock] in H2; injection H2 as <-; repeat split. }
  destruct X as (S2 & L2 & Sc2). assert (R2 : crun (cinit clk) (ls0 ++ [LPick id; LHold]) = Some s2).
  { clear - H0 H1 H2. revert H0. generalize (cinit clk). induction ls0 as [|x ls0 IH]; intros c H0; [injection H0 as ->; cbn [crun app]; rewrite H1, H2; reflexivity|]. cbn [crun app] in *. destruct (cstep c x); [apply IH, H0|discriminate]. }
  assert (Lg2 : legal owner (ls0 ++ [LPick id; LHold])) by (apply Forall_app; split; [exact Lg0|repeat constructor]).
  destruct (stuck_run owner clk _ s2 Lg2 R2 S2 ls s3 Lg H3) as (S3 & es & El & Fe). split; [unfold stuck in S3; destruct (c_lock s3); [destruct S3|discriminate]|]. exists es. rewrite El, L2. split; [reflexivity|].
  pose proof (no_start_decided _ Fe) as De. split; [exact De|]. split; [|intros a i d k I; rewrite Forall_forall in Fe; exact (Fe _ I)].
  assert (R3 : crun (cinit clk) ((ls0 ++ [LPick id; LHold]) ++ ls) = Some s3).
  { clear - R2 H3. revert R2. generalize (cinit clk). generalize (ls0 ++ [LPick id; LHold]). induction l as [|x l IH]; intros c R2; [injection R2 as ->; exact H3|]. cbn [crun app] in *. destruct (cstep c x); [apply IH, R2|discriminate]. }
  assert (Lg3 : legal owner ((ls0 ++ [LPick id; LHold]) ++ ls)) by (apply Forall_app; auto).
  destruct (C165_callbacks _ _ _ _ Lg2 R2) as (p2 & r2 & D2 & N2 & F2). destruct (C165_callbacks _ _ _ _ Lg3 R3) as (p3 & r3 & D3 & N3 & F3).
  rewrite El, decided_app, De, app_nil_r, D2 in D3. apply (f_equal (@length _)) in D3. rewrite !app_length in D3. apply f2_len in F2, F3. rewrite El, called_app, app_length in F3. lia.
Qed.
Print Assumptions C166_reschedule_refuted.

(** Cases: two timers of two threads, one stopped while the core is about to take it, one run; a
    timer stopped too late; a rescheduled timer. *)
Definition owners (id : Z) : Z := id.
Definition two : list lab :=
  doing 1 (CStart 1 5) 8 ++ doing 2 (CStart 2 5) 8 ++ [LTime 7; LCall 1 (CStop 1); LUser 1; LUser 1; LCore ALock; LPick 1; LHold; LUser 1; LHold; LUser 1; LPick 2; LHold; LHold; LHold; LHold; LHold; LCore ACall].
Example C165_nonvacuous : legal owners two /\ crun (cinit 0) two = Some (after two) /\
  c_log (after two) = [CCall 1 (CStart 1 5) 0; CLin (EArm 1 5); CRet 1 (CStart 1 5) Fine 0; CCall 2 (CStart 2 5) 0; CLin (EArm 2 5); CRet 2 (CStart 2 5) Fine 0;
    CCall 1 (CStop 1) 7; CLin (EStop 1); CRet 1 (CStop 1) Fine 7; CLin (EFire 2 7); CFire 2 7] /\
  ticked 1 (c_log (after two)) = false /\ runs 2 (c_log (after two)) = [CFire 2 7] /\ length (set_calls 1 (c_log (after two))) = 1%nat.
Proof. split; [repeat constructor|]. split; [vm_compute; reflexivity|]. split; [vm_compute; reflexivity|]. repeat split; vm_compute; reflexivity. Qed.
Definition late : list lab := doing 1 (CStart 1 5) 8 ++ [LTime 7; LCall 1 (CStop 1); LUser 1] ++ take 1 ++ repeat (LUser 1) 3 ++ [LCore ACall].
Example C165_late_case : legal owners late /\ crun (cinit 0) late = Some (after late) /\
  c_log (after late) = [CCall 1 (CStart 1 5) 0; CLin (EArm 1 5); CRet 1 (CStart 1 5) Fine 0; CCall 1 (CStop 1) 7; CLin (EFire 1 7); CRet 1 (CStop 1) NotInit 7; CFire 1 7].
Proof. split; [repeat constructor|]. split; vm_compute; reflexivity. Qed.
Definition moved : list lab := doing 1 (CStart 1 5) 8 ++ doing 1 (CReset 1 3) 3 ++ [LTime 7; LCore ALock].
Example C166_moved_case : exists s1 s2, legal owners moved /\ crun (cinit 0) moved = Some (after moved) /\ stat (after moved) 1 = ModifiedEarlier /\
  In (CRet 1 (CReset 1 3) Fine 0) (c_log (after moved)) /\ c_lock (after moved) = Held None 7 false None MReady /\ cstep (after moved) (LPick 1) = Some s1 /\ cstep s1 LHold = Some s2 /\
  crun s2 (doing 2 (CStart 2 5) 5) <> None /\ crun s2 (doing 2 (CStart 2 5) 6) = None.
Proof. do 2 eexists. split; [repeat constructor|]. split; [vm_compute; reflexivity|]. split; [vm_compute; reflexivity|]. split; [vm_compute; tauto|]. split; [vm_compute; reflexivity|]. split; [vm_compute; reflexivity|]. split; [vm_compute; reflexivity|]. split; [vm_compute; discriminate|vm_compute; reflexivity]. Qed.
Example C166_stop_nonvacuous : legal owners two /\ crun (cinit 0) two = Some (after two) /\ ticked 1 (c_log (after two)) = false /\
  length (set_calls 1 (c_log (after two))) = 1%nat /\ In (CRet 1 (CStop 1) Fine 7) (c_log (after two)).
Proof. split; [repeat constructor|]. split; [vm_compute; reflexivity|]. split; [vm_compute; reflexivity|]. split; [vm_compute; reflexivity|]. vm_compute. tauto. Qed.

(** ** C167: a queue holds a timer once, and knows how many of those it holds are stopped *)

(** Whatever the schedule, no timer is in the queue twice. *)
Theorem C167_once : forall owner clk ls s, legal owner ls -> crun (cinit clk) ls = Some s -> NoDup (c_q s).
Proof. intros owner clk ls s Lg H. exact (proj1 (nd_run owner clk ls s Lg H)). Qed.
Print Assumptions C167_once.

(** Between calls, when nobody works on the queue: the count of stopped timers is how many timers of
    the queue are stopped, and what the queue holds was set or stopped last, not run. *)
Theorem C167_rest_partial : forall owner clk ls s, legal owner ls -> crun (cinit clk) ls = Some s -> c_lock s = Free -> (forall a, c_usr s a = UIdle) ->
  c_del s = zlen (held_stopped s) /\
  (forall id, In id (c_q s) -> exists l e, story id (c_log s) = l ++ [e] /\ forall now, e <> EFire id now) /\
  (forall id, In id (held_stopped s) <-> In id (c_q s) /\ exists l, story id (c_log s) = l ++ [EStop id]).
Proof.
  intros owner clk ls s Lg H F U. assert (Vu : forall k, v_u owner s k = UIdle) by (intros k; unfold v_u; rewrite U; reflexivity). split.
  - destruct (count_free owner clk ls s (fun _ => 0) Lg H F) as (D & _ & _ & E); [intros k; now rewrite Vu|]. rewrite E. clear. induction D; cbn [sum]; lia.
  - destruct (good_run _ _ _ _ Lg H) as (_ & _ & _ & T).
    assert (Last : forall id, match v_l s id with Some e => exists l, story id (c_log s) = l ++ [e] | None => story id (c_log s) = [] end).
    { intros id. unfold v_l. destruct (story id (c_log s)) as [|x l] using rev_ind; [reflexivity|]. rewrite fold_left_app. cbn. now exists l. }
    assert (Ti : forall id e, v_l s id = Some e -> ev_timer e = id).
    { intros id e E. specialize (Last id). rewrite E in Last. destruct Last as (l & Ls). pose proof (story_timer id (c_log s)) as St. rewrite Ls in St. apply Forall_app in St. destruct St as [_ St]. now inversion St. }
    assert (Q : forall id, In id (c_q s) <-> in_q s id = true).
    { intros id. unfold in_q. rewrite existsb_exists. split; [intros I; exists id; split; [exact I|apply Z.eqb_refl]|intros (y & I & E); apply Z.eqb_eq in E; now subst]. }
    assert (St : forall id, in_q s id = true -> (t_status (c_t s id) = Deleted /\ stopped1 (v_l s id)) \/ (t_status (c_t s id) <> Deleted /\ exists w, pend1 (v_l s id) = Some w)).
    { intros id Iq. specialize (T id). unfold TIs in T. rewrite Vu, Iq in T. unfold v_h, v_dr in T. rewrite F in T. destruct (t_status (c_t s id)); norm; try tauto; try (right; split; [discriminate|eauto]; fail). }
    split.
    + intros id I. apply Q in I. specialize (Last id). destruct (St id I) as [[_ L]|[_ (w & L)]]; destruct (v_l s id) as [[]|]; try discriminate L; try (destruct L; fail); destruct Last as (l & Ls); exists l; eexists; (split; [exact Ls|]); intros; discriminate.
    + intros id. unfold held_stopped. rewrite filter_In, st_eqb_spec. specialize (Last id). specialize (Ti id). split.
      * intros [I D]. split; [exact I|]. apply Q in I. destruct (St id I) as [[_ L]|[N _]]; [|congruence]. destruct (v_l s id) as [[]|]; try destruct L. specialize (Ti _ eq_refl). cbn in Ti. subst. exact Last.
      * intros [I (l & Ls)]. split; [exact I|]. apply Q in I. destruct (St id I) as [[D _]|[_ (w & L)]]; [exact D|]. exfalso. destruct (v_l s id) as [e|]; [|discriminate]. destruct Last as (l' & Ls'). rewrite Ls in Ls'. apply app_inj_tail in Ls'. destruct Ls' as [_ <-]. discriminate.
Qed.
Print Assumptions C167_rest_partial.

(** Between calls, when nobody works on the queue, every timer that is to run is in the queue, with the
    time it was last set for, and no other one is there but stopped ones. *)
Theorem C167_kept_partial : forall owner clk ls s id due, legal owner ls -> crun (cinit clk) ls = Some s -> c_lock s = Free -> (forall a, c_usr s a = UIdle) ->
  (pending (story id (c_log s)) id = Some due <-> In id (c_q s) /\ ~ In id (held_stopped s) /\ t_when (c_t s id) = due).
Proof.
  intros owner clk ls s id due Lg H F U. destruct (good_run _ _ _ _ Lg H) as (_ & _ & _ & T). pose proof (mvi_run _ _ _ _ Lg H id) as M. rewrite F in M. specialize (T id). unfold TIs in T.
  assert (Vu : v_u owner s id = UIdle) by (unfold v_u; rewrite U; reflexivity). rewrite Vu in T. unfold v_h, v_dr in T. rewrite F in T.
  rewrite (last_pend id _ (story_timer id (c_log s))), <- vl_last. unfold held_stopped. rewrite filter_In, st_eqb_spec.
  assert (Q : In id (c_q s) <-> in_q s id = true). { unfold in_q. rewrite existsb_exists. split; [intros I; exists id; split; [exact I|apply Z.eqb_refl]|intros (y & I & E); apply Z.eqb_eq in E; now subst]. }
  rewrite Q. clear Q Vu H Lg. destruct (t_status (c_t s id)); try (destruct (M eq_refl)); norm; try (intuition congruence).
  all: destruct (v_l s id) as [[]|]; cbn [pend1 stopped1 fired1] in *; try tauto; try (intuition congruence).
Qed.
Print Assumptions C167_kept_partial.

Lemma crun_more s s1 l ls r : cstep s l = Some s1 -> crun s1 ls = r -> crun s (l :: ls) = r.
Proof. intros E H. cbn [crun]. now rewrite E. Qed.
Ltac go Q Et := repeat progress (lazy -[existsb Z.ltb Z.eqb next_when filter app]; rewrite ?Q, ?Et, ?Z.eqb_refl).
(** And the core can run it: with nobody else at work, a timer that is to run and due is run by the next
    steps of the core, once, now; unless it was rescheduled since the core last looked, when the core
    stops over it for good (C166_reschedule_refuted). *)
Theorem C167_next_partial : forall owner clk ls s id due, legal owner ls -> crun (cinit clk) ls = Some s -> c_lock s = Free -> (forall a, c_usr s a = UIdle) ->
  c_sch s = SIdle -> pending (story id (c_log s)) id = Some due -> due <= c_clk s ->
  (stat s id = Waiting /\ exists s' again, crun s (take id ++ [LCore ACall]) = Some s' /\ c_log s' = c_log s ++ [CLin (EFire id (c_clk s))] ++ again ++ [CFire id (c_clk s)] /\
     again = if 0 <? t_period (c_t s id) then [CLin (ERearm id (next_when due (t_period (c_t s id)) (c_clk s)))] else []) \/
  (stat s id = ModifiedEarlier \/ stat s id = ModifiedLater) /\ exists s', crun s [LCore ALock; LPick id; LHold] = Some s' /\ c_lock s' = Held None (c_clk s) true None MReady.
Proof.
  intros owner clk ls s id due Lg H F U Sc P Le. pose proof (proj1 (C167_kept_partial owner clk ls s id due Lg H F U) P) as (Iq & Nd & W). pose proof (no_crash _ _ _ _ Lg H) as Cr.
  destruct (good_run _ _ _ _ Lg H) as (_ & _ & _ & T). specialize (T id). unfold TIs in T.
  assert (Q : in_q s id = true) by (unfold in_q; apply existsb_exists; exists id; split; [exact Iq|apply Z.eqb_refl]).
  assert (Vu : v_u owner s id = UIdle) by (unfold v_u; rewrite U; reflexivity). rewrite Vu, Q in T. unfold v_h, v_dr in T. rewrite F in T. unfold stat.
  assert (St : t_status (c_t s id) = Waiting \/ t_status (c_t s id) = ModifiedEarlier \/ t_status (c_t s id) = ModifiedLater).
  { destruct (t_status (c_t s id)) eqn:E; norm; auto; try tauto. exfalso. apply Nd. unfold held_stopped. apply filter_In. rewrite E. auto. }
  destruct s as [q ts lock del now sch usr op cr log]. cbn [c_q c_t c_lock c_del c_clk c_sch c_usr c_op c_crash c_log] in *. subst lock sch cr. unfold in_q in Q. cbn [c_q] in Q.
  destruct (ts id) as [w pe st cb on] eqn:Et. cbn [t_status t_when t_period] in *. subst w.
  destruct St as [->|St].
  - left. split; [reflexivity|]. destruct (0 <? pe) eqn:Ep.
    all: eexists _, _; (split; [|split; [|reflexivity]]); [unfold take; cbn [app]; do 8 (eapply crun_more; [go Q Et; try (replace (now <? due) with false by lia); go Q Et; rewrite ?Ep; reflexivity|]); reflexivity|].
    all: cbn [c_log]; rewrite <- ?app_assoc; reflexivity.
  - right. split; [exact St|]. destruct St as [->| ->]; eexists; (split; [do 3 (eapply crun_more; [go Q Et; reflexivity|]); reflexivity|reflexivity]).
Qed.
Print Assumptions C167_next_partial.

(** While Stop is between marking a timer and counting it the count is one too low, in every such
    state: it can be below zero. *)
Theorem C167_during_refuted : forall owner clk ls s a id on, legal owner ls -> crun (cinit clk) ls = Some s -> c_lock s = Free ->
  c_usr s a = UStop4 id on -> (forall b, b <> a -> c_usr s b = UIdle) -> c_del s = zlen (held_stopped s) - 1.
Proof.
  intros owner clk ls s a id on Lg H F Ua Ub. destruct (good_run _ _ _ _ Lg H) as (_ & _ & O & _). pose proof (O a) as Oa. rewrite Ua in Oa. cbn [utimer] in Oa.
  destruct (count_free owner clk ls s (fun k => if k =? id then -1 else 0) Lg H F) as (D & Nd & C & E).
  - intros k. unfold v_u. destruct (Z.eq_dec (owner k) a) as [Ek|Nk].
    + rewrite Ek, Ua. cbn [utimer is]. destruct (Z.eqb_spec id k), (Z.eqb_spec k id); try congruence; reflexivity.
    + rewrite (Ub _ Nk). cbn [utimer is]. destruct (Z.eqb_spec k id); [congruence|reflexivity].
  - rewrite E. rewrite (sum_one (fun _ => 0) _ id D Nd).
    + rewrite Z.eqb_refl. assert (sum (fun _ => 0) D = 0) by (clear; induction D; cbn [sum]; lia). lia.
    + apply C. rewrite Z.eqb_refl. lia.
    + intros k Nk. cbn beta. destruct (Z.eqb_spec k id); [congruence|reflexivity].
Qed.
Print Assumptions C167_during_refuted.

(** Cases: a timer stopped and another waiting, at rest; the core takes off a timer whose Stop has not counted it. *)
Definition rest : list lab := doing 1 (CStart 1 5) 8 ++ doing 2 (CStart 2 5) 8 ++ doing 1 (CStop 1) 4.
Example C167_nonvacuous : legal owners rest /\ crun (cinit 0) rest = Some (after rest) /\ c_lock (after rest) = Free /\ (forall a, c_usr (after rest) a = UIdle) /\
  c_q (after rest) = [1; 2] /\ c_del (after rest) = 1 /\ held_stopped (after rest) = [1] /\ pending (story 2 (c_log (after rest))) 2 = Some 5.
Proof.
  split; [repeat constructor|]. split; [vm_compute; reflexivity|]. split; [vm_compute; reflexivity|]. split; [|repeat split; vm_compute; reflexivity].
  intros a. assert (E : c_usr (after rest) a = if a =? 1 then UIdle else if a =? 2 then UIdle else UIdle).
  { unfold after. vm_compute crun. cbn [c_usr]. repeat match goal with |- context [if ?b then _ else _] => destruct b end; reflexivity. }
  rewrite E. destruct (a =? 1), (a =? 2); reflexivity.
Qed.
Definition early : list lab := doing 1 (CStart 1 5) 8 ++ doing 1 (CStop 1) 3 ++ [LCore ALock; LPick 1; LHold; LHold; LHold; LCore AUnlock].
Example C167_during_case : legal owners early /\ crun (cinit 0) early = Some (after early) /\ c_lock (after early) = Free /\ c_usr (after early) 1 = UStop4 1 true /\
  c_q (after early) = [] /\ c_del (after early) = -1.
Proof. split; [repeat constructor|]. split; [vm_compute; reflexivity|]. repeat split; vm_compute; reflexivity. Qed.
Example C167_next_case : exists s, crun (after rest) [LTime 6] = Some s /\ c_lock s = Free /\ c_sch s = SIdle /\ pending (story 2 (c_log s)) 2 = Some 5 /\ c_clk s = 6 /\ stat s 2 = Waiting /\
  match crun s (take 2 ++ [LCore ACall]) with Some s' => runs 2 (c_log s') = [CFire 2 6] | None => False end.
Proof. eexists. split; [vm_compute; reflexivity|]. repeat split; vm_compute; reflexivity. Qed.
