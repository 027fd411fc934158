(** Proofs about the timer scheduler. *)
From Coq Require Import Permutation ZifyBool ZifyNat.
From Verif Require Import Go GoFacts HeapModel HeapSpec HeapProofs TimingModel TimingSpec.
Ltac Zify.zify_post_hook ::= Z.div_mod_to_equations.

Lemma pending_app l e : pending (l ++ [e]) = pend_step (pending l) e.
Proof. unfold pending. now rewrite fold_left_app. Qed.

Lemma obind_done {A B} (r : out A) (f : A -> out B) b :
  obind r f = Done b -> exists a, r = Done a /\ f a = Done b.
Proof. destruct r; cbn; try discriminate. eauto. Qed.

Ltac inv_done H :=
  match type of H with
  | obind ?r ?f = Done ?b =>
      let a := fresh "a" in let H1 := fresh "Hd" in
      apply obind_done in H; destruct H as (a & H1 & H); cbv beta in H
  | Done _ = Done _ => injection H as H
  end.

(** ** Safety of every history *)

Definition live (s : status) : bool :=
  match s with Waiting | Modifying | ModifiedEarlier | ModifiedLater => true | _ => false end.

Definition agrees (g : timing) (p : Z -> option Z) : Prop :=
  forall id, p id = if live (t_status (g_timers g id)) then Some (t_when (g_timers g id)) else None.

Definition safe (g : timing) : Prop := agrees g (pending (g_log g)) /\ well_behaved (g_log g).

(** [same g g']: nothing the history speaks about changed. *)
Definition same (g g' : timing) : Prop :=
  g_log g' = g_log g /\
  forall id, t_when (g_timers g' id) = t_when (g_timers g id) /\ t_period (g_timers g' id) = t_period (g_timers g id) /\
    t_cb (g_timers g' id) = t_cb (g_timers g id) /\
    live (t_status (g_timers g' id)) = live (t_status (g_timers g id)).

Lemma same_refl g : same g g. Proof. firstorder. Qed.
Lemma same_trans a b c : same a b -> same b c -> same a c.
Proof.
  intros [H1 H2] [H3 H4]. split. { congruence. }
  intros id. destruct (H2 id) as (?&?&?&?), (H4 id) as (?&?&?&?). repeat split; congruence.
Qed.

Lemma same_safe g g' : same g g' -> safe g -> safe g'.
Proof.
  intros [H1 H2] [Ha Hw]. unfold safe. rewrite H1. split; auto.
  intros id. rewrite (Ha id). destruct (H2 id) as (->&_&_&->). reflexivity.
Qed.

Lemma same_heap g h : same g (s_heap g h). Proof. firstorder. Qed.
Lemma same_t0 g h : same g (s_t0 g h). Proof. firstorder. Qed.
Lemma same_me g h : same g (s_me g h). Proof. firstorder. Qed.
Lemma same_count g h : same g (s_count g h). Proof. firstorder. Qed.
Lemma same_del g h : same g (s_del g h). Proof. firstorder. Qed.
Lemma same_updt0 g : same g (updateTimer0When g).
Proof. unfold updateTimer0When. destruct (g_heap g); apply same_t0. Qed.
Lemma same_timer g id t : t_when t = t_when (g_timers g id) -> t_period t = t_period (g_timers g id) ->
  t_cb t = t_cb (g_timers g id) -> live (t_status t) = live (t_status (g_timers g id)) -> same g (s_timer g id t).
Proof.
  intros. split. { reflexivity. } intros k. cbn [g_timers s_timer]. unfold tset.
  destruct (Z.eqb_spec k id) as [->|]; auto.
Qed.
Lemma same_status g id s : live s = live (t_status (g_timers g id)) -> same g (set_status g id s).
Proof. intros. now apply same_timer. Qed.
Lemma same_on g id b : same g (s_timer g id (w_on (g_timers g id) b)).
Proof. now apply same_timer. Qed.
Lemma same_removed g : same g (count_removed g).
Proof.
  unfold count_removed. cbn [g_count s_count].
  destruct (_ =? _). { eapply same_trans; [apply same_count|apply same_me]. } apply same_count.
Qed.

Lemma set_status_at g id s : t_status (g_timers (set_status g id s) id) = s.
Proof. cbn. unfold tset. now rewrite Z.eqb_refl. Qed.

Create HintDb same.
#[local] Hint Resolve same_refl same_heap same_t0 same_me same_count same_del same_updt0 same_on same_removed : same.

Lemma same_deleteTimer0 g g' : deleteTimer0 g = Done g' -> same g g'.
Proof.
  unfold deleteTimer0. intros H. repeat inv_done H. subst g'.
  eapply same_trans; [|apply same_removed]. eapply same_trans; [|apply same_updt0].
  eapply same_trans; [|apply same_heap]. apply same_on.
Qed.

Lemma same_deleteTimer g i r : deleteTimer g i = Done r -> same g (fst r).
Proof.
  unfold deleteTimer. intros H. repeat inv_done H. subst r. cbn [fst].
  eapply same_trans; [|apply same_removed].
  destruct (Nat.eqb i 0).
  - eapply same_trans; [|apply same_updt0]. eapply same_trans; [|apply same_heap]. apply same_on.
  - eapply same_trans; [|apply same_heap]. apply same_on.
Qed.

Lemma same_add_locked g id g' : add_locked g id = Done g' -> same g g'.
Proof.
  unfold add_locked. intros H. repeat inv_done H. subst g'.
  eapply same_trans; [|apply same_count].
  destruct (_ =? _).
  - eapply same_trans; [|apply same_t0]. eapply same_trans; [|apply same_heap]. apply same_on.
  - eapply same_trans; [|apply same_heap]. apply same_on.
Qed.

Lemma status_kept g g' id : same g g' -> live (t_status (g_timers g' id)) = live (t_status (g_timers g id)).
Proof. intros [_ H]. apply H. Qed.

Lemma same_clean_loop fuel : forall g g', clean_loop fuel g = Done g' -> same g g'.
Proof.
  induction fuel as [|f IH]; intros g g' H; cbn [clean_loop] in H; [discriminate|].
  inv_done H. destruct (t_status _) eqn:E in H; try (inv_done H; subst; apply same_refl).
  - inv_done H. apply IH in H. eapply same_trans; [|apply H].
    pose proof (same_deleteTimer0 _ _ Hd0) as S1.
    assert (S0 : same g (set_status g (b_timer a) Removing)) by (apply same_status; now rewrite E).
    eapply same_trans; [apply S0|]. eapply same_trans; [apply S1|].
    eapply same_trans; [|apply same_del]. apply same_status.
    rewrite (status_kept _ _ _ S1), set_status_at. reflexivity.
  - inv_done H. inv_done H. discriminate.
  - inv_done H. inv_done H. discriminate.
Qed.

Lemma same_AddTimer g id g' : AddTimer g id = Done g' -> same g g'.
Proof.
  unfold AddTimer, cleanTimers. intros H. inv_done H.
  apply same_add_locked in H. eapply same_trans; [|apply H].
  destruct (g_heap g); [inv_done Hd; subst; apply same_refl|]. eapply same_clean_loop; eauto.
Qed.

(** Appending an event to a well-behaved history. *)
Lemma snoc_split {A} (l a b : list A) e x : l ++ [e] = a ++ x :: b ->
  (b = [] /\ l = a /\ e = x) \/ (exists b', b = b' ++ [e] /\ l = a ++ x :: b').
Proof.
  destruct b as [|y b] using rev_ind; intros H.
  - apply app_inj_tail in H. left. tauto.
  - right. exists b. change (a ++ x :: b ++ [y]) with (a ++ (x :: b) ++ [y]) in H.
    rewrite app_assoc in H. apply app_inj_tail in H. destruct H as [-> ->]. auto.
Qed.

Lemma wb_arm l id d : well_behaved l -> well_behaved (l ++ [EArm id d]).
Proof.
  intros (H1 & H2 & H3). repeat split; intros; apply snoc_split in H;
    (destruct H as [(?&?&?)|(b'&?&?)]; [discriminate|eauto]).
Qed.
Lemma wb_stop l id : well_behaved l -> pending l id <> None -> well_behaved (l ++ [EStop id]).
Proof.
  intros (H1 & H2 & H3) Hp. repeat split; intros; apply snoc_split in H;
    (destruct H as [(?&?&?)|(b'&?&?)]; [|eauto]); try discriminate.
  injection H4 as <-. subst. exact Hp.
Qed.
Lemma wb_fire l id now due : well_behaved l -> pending l id = Some due -> due <= now ->
  well_behaved (l ++ [EFire id now]).
Proof.
  intros (H1 & H2 & H3) Hp Hle. repeat split; intros; apply snoc_split in H;
    (destruct H as [(?&?&?)|(b'&?&?)]; [|eauto]); try discriminate.
  injection H4 as <- <-. subst. eauto.
Qed.
Lemma wb_rearm l id now d : well_behaved (l ++ [EFire id now]) -> well_behaved ((l ++ [EFire id now]) ++ [ERearm id d]).
Proof.
  intros (H1 & H2 & H3). repeat split; intros; apply snoc_split in H;
    (destruct H as [(?&?&?)|(b'&?&?)]; [|eauto]); try discriminate.
  injection H4 as <- <-. subst. eauto.
Qed.

(** Logging an event while changing one timer. *)
Lemma agrees_tset g id t e p : agrees g p ->
  pend_step p e id = (if live (t_status t) then Some (t_when t) else None) ->
  (forall k, k <> id -> pend_step p e k = p k) ->
  agrees (s_log (s_timer g id t) e) (pend_step p e).
Proof.
  intros Ha He Hn k. cbn [g_timers s_log s_timer]. unfold tset.
  destruct (Z.eqb_spec k id) as [->|Hk]; [exact He|]. rewrite Hn by auto. apply Ha.
Qed.

Lemma safe_Start g id d now r : safe g -> Start g id d now = Done r -> safe (fst r).
Proof.
  intros [Ha Hw] H. unfold Start in H.
  destruct (t_cb _) eqn:Ecb in H; cbn [negb] in H; [|inv_done H; subst; split; auto].
  destruct (d <? 1); [inv_done H; subst; split; auto|].
  destruct (t_status _) eqn:Es in H; try (inv_done H; subst; split; auto; fail).
  destruct (t_on _) in H; [inv_done H; subst; split; auto|].
  inv_done H. inv_done H. subst r. cbn [fst].
  eapply same_safe; [eapply same_AddTimer; eauto|].
  split.
  - cbn [g_log s_log]. cbn [g_log s_timer set_status]. rewrite pending_app.
    intros k. cbn [g_timers s_log s_timer set_status]. unfold tset. cbn [pend_step].
    destruct (Z.eqb_spec k id) as [->|Hk]; [|apply Ha].
    rewrite !Z.eqb_refl. reflexivity.
  - apply wb_arm. exact Hw.
Qed.

Lemma safe_Tick g id f i now r : safe g -> Tick g id f i now = Done r -> safe (fst r).
Proof.
  intros Hs H. unfold Tick in H. destruct (_ || _); [inv_done H; subst; auto|].
  eapply safe_Start; [|exact H].
  destruct Hs as [Ha Hw]. split; [|exact Hw].
  intros k. cbn [g_timers g_log s_timer]. unfold tset. rewrite (Ha k).
  destruct (Z.eqb_spec k id) as [->|]; reflexivity.
Qed.

Lemma safe_Stop g id r : safe g -> Stop g id = Done r -> safe (fst r).
Proof.
  intros Hs H. unfold Stop in H.
  destruct (t_cb _) eqn:Ecb in H; cbn [negb] in H; [|inv_done H; subst; auto].
  assert (Hlive : live (t_status (g_timers g id)) = true ->
     (if t_on (g_timers g id)
       then Done (s_del (s_log (set_status g id Deleted) (EStop id)) (g_del (s_log (set_status g id Deleted) (EStop id)) + 1), @None terr)
       else Crash) = Done r -> safe (fst r)).
  { intros Hl H0. destruct (t_on _) in H0; [|discriminate]. inv_done H0. subst r. cbn [fst].
    eapply same_safe; [apply same_del|]. destruct Hs as [Ha Hw].
    assert (Hp : pending (g_log g) id <> None) by (rewrite (Ha id), Hl; discriminate).
    split; [|apply wb_stop; auto].
    cbn [g_log s_log]. cbn [g_log s_timer set_status]. rewrite pending_app. unfold set_status.
    apply agrees_tset; auto; cbn [pend_step]; [now rewrite Z.eqb_refl|].
    intros k Hk. now rewrite (proj2 (Z.eqb_neq k id) Hk). }
  destruct (t_status _) eqn:Es in H; rewrite ?Es in Hlive;
    try discriminate; try (inv_done H; subst; auto; fail); auto.
Qed.

Lemma safe_reset_finish g0 g id d now b r : safe g0 ->
  g_log g = g_log g0 -> (forall k, k <> id -> g_timers g k = g_timers g0 k) ->
  t_status (g_timers g id) = Modifying ->
  reset_finish g id d now b = Done r -> safe (fst r).
Proof.
  intros [Ha Hw] Hlog Hoth Hst H. unfold reset_finish in H.
  set (t := (if negb _ then _ else _)) in H.
  set (g1 := s_log (s_timer g id t) (EArm id (when_ d now))) in H.
  assert (Htw : t_when t = when_ d now) by (unfold t; destruct (negb _); reflexivity).
  assert (Hts : t_status t = Modifying) by (unfold t; destruct (negb _); exact Hst).
  assert (S1 : safe g1).
  { split.
    - unfold g1 at 2. cbn [g_log s_log]. cbn [g_log s_timer]. rewrite Hlog, pending_app.
      intros k. unfold g1. cbn [g_timers s_log s_timer]. unfold tset. cbn [pend_step].
      destruct (Z.eqb_spec k id) as [->|Hk]; [now rewrite Hts, Htw|]. rewrite Hoth by auto. apply Ha.
    - unfold g1. cbn [g_log s_log s_timer]. rewrite Hlog. now apply wb_arm. }
  assert (E1 : t_status (g_timers g1 id) = Modifying).
  { unfold g1. cbn [g_timers s_log s_timer]. unfold tset. now rewrite Z.eqb_refl. }
  destruct b.
  - inv_done H. inv_done H. subst r. cbn [fst].
    pose proof (same_AddTimer _ _ _ Hd) as S2.
    eapply same_safe; [|exact S1]. eapply same_trans; [apply same_on|]. eapply same_trans; [exact S2|].
    apply same_status. rewrite (status_kept _ _ id S2), (status_kept _ _ id (same_on g1 id true)), E1. reflexivity.
  - destruct (_ <? _) in H.
    + destruct (t_on _) in H; [|discriminate]. inv_done H. subst r. cbn [fst].
      eapply same_safe; [|exact S1].
      assert (S2 : same g1 (updateTimerModifiedEarliest g1 (when_ d now))).
      { unfold updateTimerModifiedEarliest. destruct (_ && _); [apply same_refl|apply same_me]. }
      eapply same_trans; [exact S2|]. apply same_status. rewrite (status_kept _ _ id S2), E1. reflexivity.
    + inv_done H. subst r. cbn [fst]. eapply same_safe; [|exact S1]. apply same_status. rewrite E1. reflexivity.
Qed.

Lemma set_status_other g id s k : k <> id -> g_timers (set_status g id s) k = g_timers g k.
Proof. intros H. cbn. unfold tset. now rewrite (proj2 (Z.eqb_neq k id) H). Qed.

Lemma safe_Reset g id d now r : safe g -> Reset g id d now = Done r -> safe (fst r).
Proof.
  intros Hs H. unfold Reset in H.
  destruct (d <? 1); [inv_done H; subst; auto|].
  destruct (t_cb _) eqn:Ecb in H; cbn [negb] in H; [|inv_done H; subst; auto].
  destruct (t_status _) eqn:Es in H; try discriminate;
    try (eapply safe_reset_finish; [exact Hs| | | |exact H];
         [reflexivity|intros; now apply set_status_other|apply set_status_at]).
  destruct (t_on _) in H; [|discriminate].
  eapply safe_reset_finish; [exact Hs| | | |exact H];
    [reflexivity|intros; now apply set_status_other|apply set_status_at].
Qed.

Lemma safe_user_step g now o g' : safe g -> user_step g now o = Done g' -> safe g'.
Proof.
  intros Hs H. destruct o; cbn [user_step] in H; inv_done H; inv_done H; subst g';
    eauto using safe_Start, safe_Tick, safe_Stop, safe_Reset.
Qed.

Lemma safe_user_steps ops : forall g now g', safe g -> user_steps g now ops = Done g' -> safe g'.
Proof.
  induction ops as [|o ops IH]; intros g now g' Hs H; cbn [user_steps] in H.
  - inv_done H. now subst.
  - inv_done H. eauto using safe_user_step.
Qed.

(** Firing a due timer whose status was just set to Running. *)
Lemma safe_runOneTimer h g id now g' : safe g ->
  live (t_status (g_timers g id)) = true -> t_when (g_timers g id) <= now ->
  runOneTimer h (set_status g id Running) id now = Done g' -> safe g'.
Proof.
  intros [Ha Hw] Hl Hdue H. unfold runOneTimer in H. inv_done H.
  eapply safe_user_steps; [|exact H]. clear H g'.
  assert (Hp : pending (g_log g) id = Some (t_when (g_timers g id))) by (rewrite (Ha id), Hl; reflexivity).
  destruct (0 <? _) in Hd.
  - inv_done Hd. inv_done Hd. subst a. rename a0 into hp. set (w := next_when _ _ _). clearbody w.
    set (g1 := set_status _ id Waiting).
    assert (S : same g1 (updateTimer0When g1)) by apply same_updt0.
    destruct S as [L S]. change (g_log g1) with (g_log g) in L. split.
    + cbn [g_log s_log]. rewrite L, !pending_app. intros k. cbn [g_timers s_log].
      destruct (S k) as (-> & _ & _ & ->). unfold g1. cbn [g_timers s_heap set_status s_timer]. unfold tset.
      rewrite ?Z.eqb_refl. cbn [pend_step].
      destruct (Z.eqb_spec k id) as [->|]; [reflexivity|]. apply Ha.
    + cbn [g_log s_log]. rewrite L.
      apply wb_rearm. eapply wb_fire; eauto.
  - inv_done Hd. inv_done Hd. subst a. rename a0 into g1.
    destruct (same_deleteTimer0 _ _ Hd0) as [L S]. split.
    + cbn [g_log s_log set_status s_timer]. rewrite L. cbn [g_log set_status s_timer]. rewrite pending_app.
      intros k. cbn [g_timers s_log set_status s_timer]. unfold tset. cbn [pend_step].
      destruct (Z.eqb_spec k id) as [->|Hk]; [reflexivity|].
      destruct (S k) as (-> & _ & _ & ->). rewrite set_status_other by auto. apply Ha.
    + cbn [g_log s_log set_status s_timer]. rewrite L. cbn [g_log set_status s_timer]. eapply wb_fire; eauto.
Qed.

Lemma same_remove_deleted g g' id : t_status (g_timers g id) = Deleted ->
  deleteTimer0 (set_status g id Removing) = Done g' ->
  same g (s_del (set_status g' id Removed) (g_del (set_status g' id Removed) - 1)).
Proof.
  intros E H. pose proof (same_deleteTimer0 _ _ H) as S1.
  assert (S0 : same g (set_status g id Removing)) by (apply same_status; now rewrite E).
  eapply same_trans; [apply S0|]. eapply same_trans; [apply S1|].
  eapply same_trans; [|apply same_del]. apply same_status.
  rewrite (status_kept _ _ _ S1), set_status_at. reflexivity.
Qed.

Lemma safe_runTimer h fuel : forall g now r, safe g -> runTimer fuel h g now = Done r -> safe (fst r).
Proof.
  induction fuel as [|f IH]; intros g now r Hs H; cbn [runTimer] in H; [discriminate|].
  inv_done H. destruct (t_status _) eqn:E in H; try discriminate.
  - destruct (_ <? _) eqn:Ew in H.
    + inv_done H. subst. exact Hs.
    + inv_done H. inv_done H. subst r. cbn [fst].
      eapply safe_runOneTimer; [exact Hs| | |exact Hd0]; [now rewrite E|]. now apply Z.ltb_ge.
  - inv_done H. pose proof (same_remove_deleted _ _ _ E Hd0) as S1.
    destruct (g_heap _) in H.
    + inv_done H. subst r. cbn [fst]. eapply same_safe; eauto.
    + eapply IH; [|exact H]. eapply same_safe; eauto.
  - inv_done H. discriminate.
  - inv_done H. discriminate.
Qed.

Lemma adjust_loop_moved fuel : forall g n i m r, adjust_loop fuel g n i m = Done r ->
  exists m', snd r = m ++ m'.
Proof.
  induction fuel as [|f IH]; intros g n i m r H; cbn [adjust_loop] in H;
    (destruct (Nat.leb n i); [inv_done H; subst; exists []; now rewrite app_nil_r|]); [discriminate|].
  destruct (nth_error _ _) in H; [|discriminate].
  destruct (t_status _) in H; try discriminate; try (inv_done H; apply IH in H; destruct H as [m' ->]);
    try (apply IH in H; destruct H as [m' ->]); try (rewrite <- app_assoc); eauto.
Qed.

Lemma same_adjust_loop fuel : forall g n i r, adjust_loop fuel g n i [] = Done r ->
  snd r = [] -> same g (fst r).
Proof.
  induction fuel as [|f IH]; intros g n i r H Hm; cbn [adjust_loop] in H;
    (destruct (Nat.leb n i); [inv_done H; subst; apply same_refl|]); [discriminate|].
  destruct (nth_error _ _) in H; [|discriminate].
  destruct (t_status _) eqn:E in H; try discriminate; eauto.
  - inv_done H. pose proof (same_deleteTimer _ _ _ Hd) as S1. apply IH in H; auto.
    eapply same_trans; [|exact H].
    assert (S0 : same g (set_status g (b_timer b) Removing)) by (apply same_status; now rewrite E).
    eapply same_trans; [apply S0|]. eapply same_trans; [apply S1|].
    eapply same_trans; [|apply same_del]. apply same_status.
    rewrite (status_kept _ _ _ S1), set_status_at. reflexivity.
  - inv_done H. apply adjust_loop_moved in H. destruct H as [m' H]. rewrite Hm in H. discriminate.
  - inv_done H. apply adjust_loop_moved in H. destruct H as [m' H]. rewrite Hm in H. discriminate.
Qed.

Lemma same_adjustTimers fuel g now g' : adjustTimers fuel g now = Done g' -> same g g'.
Proof.
  unfold adjustTimers. intros H. destruct (_ || _); [inv_done H; subst; apply same_refl|].
  inv_done H. destruct (snd a) eqn:E in H; [|discriminate]. inv_done H. subst g'.
  apply same_adjust_loop in Hd; [|exact E]. eapply same_trans; [apply same_me|exact Hd].
Qed.

Lemma same_clear_loop todo : forall g arr to ch cd r, clear_loop todo g arr to ch cd = Done r ->
  same g (fst (fst (fst r))).
Proof.
  induction todo as [|i todo IH]; intros g arr to ch cd r H; cbn [clear_loop] in H.
  - inv_done H. subst. apply same_refl.
  - inv_done H. destruct (t_status _) eqn:E in H; try discriminate.
    + destruct ch; [inv_done H|]; eauto.
    + apply IH in H. eapply same_trans; [|exact H]. apply same_timer; try reflexivity. cbn. now rewrite E.
    + inv_done H. apply IH in H. eapply same_trans; [|exact H]. apply same_status. now rewrite E.
    + inv_done H. apply IH in H. eapply same_trans; [|exact H]. apply same_status. now rewrite E.
Qed.

Lemma same_clearDeleted g g' : clearDeletedTimers g = Done g' -> same g g'.
Proof.
  unfold clearDeletedTimers. intros H. inv_done H. destruct a as [[[g1 arr] to] cd]. inv_done H. subst g'.
  apply same_clear_loop in Hd. cbn [fst] in Hd.
  eapply same_trans; [apply same_me|]. eapply same_trans; [exact Hd|].
  eapply same_trans; [|apply same_updt0]. eapply same_trans; [|apply same_heap].
  eapply same_trans; [|apply same_count]. apply same_del.
Qed.

Lemma safe_run_loop h fuel : forall g now ran r, safe g -> run_loop fuel h g now ran = Done r -> safe (fst (fst r)).
Proof.
  induction fuel as [|f IH]; intros g now ran r Hs H; cbn [run_loop] in H.
  - destruct (g_heap g); [inv_done H; now subst|discriminate].
  - destruct (g_heap g); [inv_done H; now subst|]. inv_done H. destruct a as [g1 tw].
    apply safe_runTimer in Hd; auto. cbn [fst] in Hd.
    destruct (tw =? 0); [eauto|]. inv_done H. now subst.
Qed.

Lemma safe_checkTimers h fuel g now r : safe g -> checkTimers fuel h g now = Done r -> safe (fst (fst r)).
Proof.
  intros Hs H. unfold checkTimers in H. destruct (_ =? 0); [inv_done H; now subst|].
  destruct (_ && _); [inv_done H; now subst|].
  inv_done H. destruct a as [[g1 nw] ran].
  assert (S1 : safe g1).
  { destruct (g_heap g); [inv_done Hd; congruence|].
    inv_done Hd. apply safe_run_loop in Hd; [exact Hd|]. eapply same_safe; [eapply same_adjustTimers; eauto|exact Hs]. }
  inv_done H. inv_done H. subst r. cbn [fst].
  destruct (_ <? _) in Hd0; [|inv_done Hd0; now subst]. eapply same_safe; [eapply same_clearDeleted; eauto|exact S1].
Qed.

Lemma safe_run h ops : forall g g', safe g -> run h g ops = Done g' -> safe g'.
Proof.
  induction ops as [|o ops IH]; intros g g' Hs H; cbn [run] in H.
  - inv_done H. now subst.
  - inv_done H. apply IH in H; auto. destruct o; cbn [step] in Hd.
    + eapply safe_user_step; eauto.
    + inv_done Hd. inv_done Hd. subst a. eapply safe_checkTimers; eauto.
Qed.

Lemma safe_new : safe new_timing.
Proof.
  split. { intros id. reflexivity. }
  repeat split; intros; destruct a; discriminate.
Qed.

Lemma history_safe h ops g : run h new_timing ops = Done g -> well_behaved (g_log g).
Proof. intros H. eapply safe_run in H; [apply H|apply safe_new]. Qed.

Lemma history_pending h ops g : run h new_timing ops = Done g ->
  forall id, pending (g_log g) id <> None <-> live (t_status (g_timers g id)) = true.
Proof.
  intros H id. eapply safe_run in H; [|apply safe_new]. destruct H as [Ha _]. rewrite (Ha id).
  destruct (live _); split; intros; congruence.
Qed.
