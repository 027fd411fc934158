(** Lemmas for C143: keys and wake-up times. *)
From Coq Require Import Permutation ZifyBool ZifyNat.
From Verif Require Import Go GoFacts HeapModel HeapSpec HeapProofs TimingModel TimingSpec TimingProofs TimingProofs2 QueueModel QueueSpec QueueProofs WakeSpec.
Ltac Zify.zify_post_hook ::= Z.div_mod_to_equations.

Definition Wb (me : Z) (m : Z -> timer) (b : bucket) : Prop :=
  let t := m (b_timer b) in
  (b_when b <= t_when t \/ (me <> 0 /\ me <= t_when t)) /\
  (t_status t = Waiting -> b_when b = t_when t) /\ 1 <= b_when b /\ 1 <= t_when t.
Record W (g : timing) : Prop := {
  w_b : forall b, In b (g_heap g) -> Wb (g_me g) (g_timers g) b;
  w_p : forall k, t_period (g_timers g k) = 0;
  w_me : 0 <= g_me g }.

Lemma W_sub g g' : W g -> (forall b, In b (g_heap g') -> In b (g_heap g)) ->
  (forall k, t_when (g_timers g' k) = t_when (g_timers g k) /\ t_period (g_timers g' k) = t_period (g_timers g k)) ->
  (forall k, In k (ids g') -> t_status (g_timers g' k) = Waiting -> t_status (g_timers g k) = Waiting) ->
  (g_me g' = g_me g \/ (g_heap g' = [] /\ g_me g' = 0)) -> W g'.
Proof.
  intros [B P M] H1 H2 H3 H4. constructor.
  - intros b Hb. destruct H4 as [->|[X _]]; [|rewrite X in Hb; destruct Hb].
    destruct (B b (H1 b Hb)) as (X1 & X2 & X3 & X4). destruct (H2 (b_timer b)) as [Y1 Y2]. unfold Wb. cbv zeta. rewrite Y1.
    repeat (split; auto). intros S_. apply X2, H3; auto. now apply in_map.
  - intros k. destruct (H2 k) as [_ ->]. apply P.
  - destruct H4 as [->|[_ ->]]; [auto|lia].
Qed.

Lemma count_removed_me g : g_me (count_removed g) = if g_count g - 1 =? 0 then 0 else g_me g.
Proof. unfold count_removed. cbn [g_count s_count]. destruct (_ =? 0); reflexivity. Qed.
Lemma updt0_me g : g_me (updateTimer0When g) = g_me g.
Proof. unfold updateTimer0When. destruct (g_heap g); reflexivity. Qed.
Lemma updt0_log g : g_log (updateTimer0When g) = g_log g.
Proof. unfold updateTimer0When. destruct (g_heap g); reflexivity. Qed.

Lemma del0_me g g' : deleteTimer0 g = Done g' -> g_me g' = if g_count g - 1 =? 0 then 0 else g_me g.
Proof.
  intros H. unfold deleteTimer0 in H. apply obind_inv in H as (b & _ & H). apply obind_inv in H as (h & _ & H).
  injection H as <-. rewrite count_removed_me.
  match goal with |- context [g_count (updateTimer0When ?x)] => destruct (updt0_fields x) as (_ & _ & _ & -> & _) end.
  rewrite updt0_me. reflexivity.
Qed.

Lemma W_del0 g b tl g' : W g -> heap_ordered (g_heap g) -> g_count g = zlen (g_heap g) -> g_heap g = b :: tl -> deleteTimer0 g = Done g' ->
  W g' /\ Permutation (g_heap g) (b :: g_heap g') /\ g_timers g' = tset (g_timers g) (b_timer b) (w_on (g_timers g (b_timer b)) false).
Proof.
  intros Hw O C Eh D. destruct (del0 g b tl g' O Eh D) as (P & _ & T & _). split; auto.
  apply (W_sub g); auto.
  - intros x Hx. eapply Permutation_in; [apply Permutation_sym; exact P|now right].
  - intros k. rewrite T. unfold tset. destruct (Z.eqb_spec k (b_timer b)) as [->|]; split; reflexivity.
  - intros k _. rewrite T. unfold tset. destruct (Z.eqb_spec k (b_timer b)) as [->|]; auto.
  - rewrite (del0_me _ _ D). destruct (Z.eqb_spec (g_count g - 1) 0); [right|now left]. split; auto.
    apply Permutation_length in P. rewrite C in e. unfold zlen in e. destruct (g_heap g'); auto. cbn [length] in P. lia.
Qed.

Lemma W_status g id s : W g -> s <> Waiting -> W (set_status g id s).
Proof.
  intros Hw N. apply (W_sub g); auto.
  - intros k. cbn [g_timers set_status s_timer]. unfold tset. destruct (Z.eqb_spec k id) as [->|]; split; reflexivity.
  - intros k _. cbn [g_timers set_status s_timer]. unfold tset. destruct (Z.eqb_spec k id) as [->|]; auto. intros X. cbn in X. congruence.
Qed.
Lemma W_same g g' : W g -> g_heap g' = g_heap g -> g_timers g' = g_timers g -> g_me g' = g_me g -> W g'.
Proof. intros Hw A B C. apply (W_sub g); auto; [rewrite A|rewrite B|rewrite B]; auto. Qed.
Lemma W_log g e : W g -> W (s_log g e).
Proof. intros H. eapply W_same; [exact H| | |]; reflexivity. Qed.
Lemma W_off g id t : W g -> ~ In id (ids g) -> t_period t = 0 -> W (s_timer g id t).
Proof.
  intros [B P M] N T. constructor; auto; cbn [g_heap g_timers s_timer g_me].
  - intros b Hb. specialize (B b Hb). unfold Wb in *. rewrite tset_neq; auto. intros <-. apply N. now apply in_map.
  - intros k. unfold tset. destruct (k =? id); auto.
Qed.

Lemma W_clean_loop E fuel : forall g g', QI E g -> W g -> clean_loop fuel g = Done g' -> W g'.
Proof.
  induction fuel as [|f IH]; intros g g' Q Hw H; [discriminate|]. cbn [clean_loop] in H.
  destruct (g_heap g) as [|b tl] eqn:Eh; [discriminate|]. cbn [at_ nth_error lift obind] in H.
  destruct (t_status (g_timers g (b_timer b))) eqn:Es;
    try (assert (g' = g) by congruence; subst; auto; fail).
  - apply obind_inv in H as (g1 & D & H).
    pose proof (QI_drop0 E g b tl g1 Q Eh Es D) as Q2. cbv zeta in Q2.
    eapply IH; [exact Q2| |exact H].
    destruct (W_del0 (set_status g (b_timer b) Removing) b tl g1) as (W1 & _); auto; try apply Q.
    { apply W_status; auto. discriminate. }
    eapply W_same; [apply (W_status g1 (b_timer b) Removed W1); discriminate| | |]; reflexivity.
  - apply obind_inv in H as (x1 & _ & H). apply obind_inv in H as (x2 & _ & H). discriminate.
  - apply obind_inv in H as (x1 & _ & H). apply obind_inv in H as (x2 & _ & H). discriminate.
Qed.

Lemma W_AddTimer g id g' : QI (just id) g -> ~ In id (ids g) -> W g -> 1 <= t_when (g_timers g id) -> AddTimer g id = Done g' ->
  W g' /\ (forall b, In b (g_heap g') -> b_timer b = id -> b_when b = t_when (g_timers g' id)).
Proof.
  intros Q N Hw Hp H. unfold AddTimer in H. apply obind_inv in H as (g1 & C & H).
  assert (X : W g1 /\ ~ In id (ids g1) /\ t_when (g_timers g1 id) = t_when (g_timers g id) /\ heap_ordered (g_heap g1)).
  { unfold cleanTimers in C. destruct (g_heap g) as [|b0 l0] eqn:Eh.
    - assert (g1 = g) by congruence. subst. repeat (split; auto). apply Q.
    - destruct (QI_clean_loop _ _ _ _ Q C) as [Q1 K]. destruct (K id N) as [K1 K2].
      split; [exact (W_clean_loop _ _ _ _ Q Hw C)|]. split; auto. rewrite K1. split; auto. apply Q1. }
  destruct X as (W1 & N1 & T1 & O1). unfold add_locked in H. apply obind_inv in H as (h & E & H).
  cbn [g_heap s_timer] in E. destruct (add_spec (g_heap g1) {| b_timer := id; b_when := t_when (g_timers g1 id) |} O1) as (h' & E1 & P & _).
  rewrite E1 in E. cbn [lift] in E. injection E as <-. apply obind_inv in H as (b0 & _ & H).
  set (x := s_timer g1 id (w_on (g_timers g1 id) true)) in *.
  assert (Wx : W x) by (apply W_off; auto; apply W1).
  assert (F : g_heap g' = h' /\ g_timers g' = g_timers x /\ g_me g' = g_me x).
  { injection H as <-. destruct (b_timer b0 =? id); repeat split. }
  destruct F as (F1 & F2 & F3).
  assert (Tx : t_when (g_timers x id) = t_when (g_timers g1 id)) by (unfold x; cbn [g_timers s_timer]; rewrite tset_eq; reflexivity).
  assert (In' : forall b, In b (g_heap g') -> b = {| b_timer := id; b_when := t_when (g_timers g1 id) |} \/ In b (g_heap g1)).
  { intros b Hb. rewrite F1 in Hb. apply (Permutation_in _ P) in Hb. destruct Hb; auto. }
  split.
  - constructor.
    + intros b Hb. rewrite F2, F3. destruct (In' b Hb) as [->|Hb'].
      * unfold Wb. cbn [b_timer b_when]. rewrite Tx, T1. repeat (split; try lia).
      * apply (w_b _ Wx). exact Hb'.
    + rewrite F2. apply Wx.
    + rewrite F3. apply Wx.
  - intros b Hb E. rewrite F2, Tx. destruct (In' b Hb) as [->|Hb']; [cbn; lia|].
    exfalso. apply N1. rewrite <- E. now apply in_map.
Qed.

Lemma W_Start g id d now r : clock_ok now -> d < 2 ^ 63 -> QI none g -> W g -> Start g id d now = Done r -> W (fst r).
Proof.
  intros Hc Hd Q Hw H. unfold Start in H. destruct (negb _); [inversion H; subst; auto|].
  destruct (d <? 1) eqn:D1; [inversion H; subst; auto|].
  destruct (t_status (g_timers g id)) eqn:Es; try (inversion H; subst; exact Hw).
  destruct (t_on (g_timers g id)) eqn:Eo; [inversion H; subst; exact Hw|].
  assert (N : ~ In id (ids g)). { intros X. apply (q_on _ _ Q) in X as [_ X]. congruence. }
  apply obind_inv in H as (g2 & A & H). injection H as <-. cbn [fst].
  match type of A with AddTimer ?y id = _ => set (x := y) in A end.
  assert (Qx : QI (just id) x).
  { unfold x. apply QI_log. repeat (apply QI_timer; [|intros; contradiction|intros _; left; reflexivity]).
    eapply QI_weaken; [exact Q|intros k []]. }
  apply (W_AddTimer x id); auto.
  - unfold x. apply W_log.
    assert (P : t_period (g_timers g id) = 0) by apply Hw.
    assert (R : forall g t, W g -> ~ In id (ids g) -> t_period t = 0 -> W (s_timer g id t) /\ ~ In id (ids (s_timer g id t))).
    { intros. split; auto using W_off. }
    destruct (R g (w_status (g_timers g id) Waiting)) as [R1 R1']; auto.
    unfold set_status. destruct (R (s_timer g id (w_status (g_timers g id) Waiting)) (w_when (g_timers (s_timer g id (w_status (g_timers g id) Waiting)) id) (when_ d now))) as [R2 R2']; auto.
    { cbn [g_timers s_timer]. rewrite tset_eq. exact P. }
    apply W_off; auto. cbn [g_timers s_timer]. rewrite !tset_eq. exact P.
  - unfold x. cbn [g_timers s_log s_timer set_status]. rewrite !tset_eq. cbn [t_when w_when w_on].
    destruct (when_range d now Hc); lia.
Qed.

Lemma W_Stop g id r : W g -> Stop g id = Done r -> W (fst r).
Proof.
  intros Hw H. unfold Stop in H. destruct (negb _); [inversion H; subst; auto|].
  destruct (t_status (g_timers g id)); try (inversion H; subst; exact Hw); try discriminate;
    destruct (t_on _); try discriminate; injection H as <-; cbn [fst];
    (eapply W_same; [apply (W_status g id Deleted Hw); discriminate|reflexivity|reflexivity|reflexivity]).
Qed.

Lemma W_reset g id d now b dl r : clock_ok now -> 1 <= d < 2 ^ 63 -> QI none g -> W g ->
  dl = g_del g - (match t_status (g_timers g id) with Deleted => 1 | _ => 0 end) ->
  (b = false -> In id (ids g)) -> (b = true -> ~ In id (ids g)) ->
  reset_finish (s_del (set_status g id Modifying) dl) id d now b = Done r -> W (fst r).
Proof.
  intros Hc Hd Q Hw D Hf Ht H. destruct (when_range d now Hc Hd) as [_ R]. unfold reset_finish in H. cbv zeta in H.
  set (g0 := s_del (set_status g id Modifying) dl) in *.
  assert (P0 : t_period (g_timers g0 id) = 0) by (unfold g0; cbn [g_timers s_del]; rewrite st_set; apply Hw).
  cbn [t_period w_when] in H. rewrite P0 in H. cbn [negb Z.eqb] in H.
  assert (W0 : W g0) by (eapply W_same; [apply (W_status g id Modifying Hw); discriminate|reflexivity|reflexivity|reflexivity]).
  assert (T0 : t_when (g_timers g0 id) = t_when (g_timers g id)) by (unfold g0; cbn [g_timers s_del]; rewrite st_set; reflexivity).
  set (nw := when_ d now) in *.
  set (g1 := s_log (s_timer g0 id (w_when (g_timers g0 id) nw)) (EArm id nw)) in *.
  assert (T1 : t_when (g_timers g1 id) = nw /\ t_status (g_timers g1 id) = Modifying).
  { unfold g1. cbn [g_timers s_log s_timer]. rewrite tset_eq. cbn [t_when t_status w_when]. split; auto.
    unfold g0. cbn [g_timers s_del]. now rewrite st_set. }
  destruct T1 as [T1 T1s].
  assert (Gk : forall k, k <> id -> g_timers g1 k = g_timers g0 k).
  { intros k N. unfold g1. cbn [g_timers s_log s_timer]. now rewrite tset_neq. }
  assert (Pk : forall k, t_period (g_timers g1 k) = 0).
  { intros k. destruct (Z.eq_dec k id) as [->|N]; [|rewrite Gk by auto; apply W0].
    unfold g1. cbn [g_timers s_log s_timer]. rewrite tset_eq. exact P0. }
  destruct b.
  - specialize (Ht eq_refl). apply obind_inv in H as (g2 & A & H). injection H as <-. cbn [fst].
    match type of A with AddTimer ?y id = _ => set (x := y) in A end.
    assert (Ds : t_status (g_timers g id) <> Deleted).
    { destruct (q_off _ _ Q id) as [[X|X] _]; auto; unfold st in X; congruence. }
    assert (Qx : QI (just id) x).
    { unfold x. apply QI_timer; [|intros X; exfalso; exact (Ht X)|intros _; left; reflexivity].
      unfold g1. apply QI_log. apply QI_timer; [|intros X; exfalso; exact (Ht X)|intros _; left; reflexivity].
      unfold g0. eapply QI_same with (g := set_status g id Modifying); try reflexivity.
      - apply QI_timer; [|intros X; exfalso; exact (Ht X)|intros _; left; reflexivity].
        eapply QI_weaken; [exact Q|intros k []].
      - cbn [g_del s_del set_status s_timer]. rewrite D. destruct (t_status (g_timers g id)); try congruence; lia. }
    assert (W1 : W g1).
    { unfold g1. eapply W_same; [apply (W_off g0 id (w_when (g_timers g0 id) nw)); auto| | |]; reflexivity. }
    destruct (W_AddTimer x id g2) as [W2 K]; auto.
    { unfold x. apply W_off; auto. cbn [t_period w_on]. apply Pk. }
    { unfold x. cbn [g_timers s_timer]. rewrite tset_eq. cbn [t_when w_on]. lia. }
    constructor; [|intros k|apply W2].
    + intros b Hb. pose proof (w_b _ W2 b Hb) as (X1 & X2 & X3 & X4). unfold Wb. cbn [g_timers set_status s_timer g_me]. unfold tset.
      destruct (Z.eqb_spec (b_timer b) id) as [E|N]; [|unfold Wb; auto]. cbn [t_when w_status t_status].
      rewrite E in *. repeat (split; auto).
    + cbn [g_timers set_status s_timer]. unfold tset. destruct (k =? id); apply W2.
  - specialize (Hf eq_refl).
    assert (Fin : forall me, (me = g_me g0 \/ (me <> 0 /\ (g_me g0 <> 0 -> me <= g_me g0))) -> 0 <= me ->
       (nw < t_when (g_timers g id) -> me <> 0 /\ me <= nw) ->
       forall s, s <> Waiting -> W (set_status (s_me g1 me) id s)).
    { intros me M1 M0 M2 s Ns. constructor; [|intros k|auto].
      - intros b Hb. pose proof (w_b _ W0 b Hb) as (X1 & X2 & X3 & X4). unfold Wb.
        cbn [g_timers set_status s_timer g_me s_me]. unfold tset. destruct (Z.eqb_spec (b_timer b) id) as [E|N].
        + cbn [t_when w_status t_status]. rewrite T1. rewrite E in *. rewrite T0 in *.
          split; [|repeat split; auto; congruence].
          destruct (Z.ltb_spec nw (t_when (g_timers g id))) as [L|L]; [right; auto|].
          destruct X1 as [X1|[X1 X1']]; [left; lia|]. destruct M1 as [->|[M1 M1']]; right; split; auto; try lia.
        + rewrite Gk by auto. repeat (split; auto). destruct X1 as [X1|[X1 X1']]; [now left|].
          destruct M1 as [->|[M1 M1']]; right; split; auto; lia.
      - cbn [g_timers set_status s_timer s_me]. unfold tset. destruct (k =? id); [cbn [t_period w_status]|]; apply Pk. }
    destruct (Z.ltb_spec nw (t_when (g_timers g0 id))) as [L|L].
    + destruct (t_on _); [|discriminate]. injection H as <-. cbn [fst]. rewrite T0 in L.
      assert (M := w_me _ W0). unfold updateTimerModifiedEarliest. change (g_me g1) with (g_me g0).
      destruct (negb (g_me g0 =? 0) && (g_me g0 <? nw)) eqn:C.
      * apply (W_same (set_status (s_me g1 (g_me g0)) id ModifiedEarlier)); try reflexivity. apply Fin; auto; [lia|discriminate].
      * apply Fin; auto; try discriminate; [right; split; [lia|intros; lia]|lia|lia].
    + injection H as <-. cbn [fst]. apply (W_same (set_status (s_me g1 (g_me g0)) id ModifiedLater)); try reflexivity.
      apply Fin; auto; [apply W0|lia|discriminate].
Qed.

Lemma W_Reset g id d now r : clock_ok now -> d < 2 ^ 63 -> QI none g -> W g -> Reset g id d now = Done r -> W (fst r).
Proof.
  intros Hc Hd Q Hw H. unfold Reset in H. destruct (d <? 1) eqn:D1; [inversion H; subst; auto|].
  destruct (negb _); [inversion H; subst; auto|].
  assert (Hin : onq (t_status (g_timers g id)) -> In id (ids g)).
  { intros X. destruct (in_dec Z.eq_dec id (ids g)) as [Y|Y]; auto.
    apply (q_off _ _ Q id) in Y; [|intros []]. destruct Y as [Y _]. unfold onq, offq, st in *. intuition congruence. }
  assert (Hout : offq (t_status (g_timers g id)) -> ~ In id (ids g)).
  { intros X Y. apply (q_on _ _ Q id) in Y. destruct Y as [Y _]. unfold onq, offq, st in *. intuition congruence. }
  assert (Idel : forall y, s_del y (g_del y) = y) by (intros []; reflexivity).
  assert (One : forall b, reset_finish (set_status g id Modifying) id d now b = Done r ->
     t_status (g_timers g id) <> Deleted -> (b = false -> In id (ids g)) -> (b = true -> ~ In id (ids g)) -> W (fst r)).
  { intros b Hf Nd B0 B1. rewrite <- (Idel (set_status g id Modifying)) in Hf.
    eapply (W_reset g id d now b); [exact Hc|lia|exact Q|exact Hw| |exact B0|exact B1|exact Hf].
    cbn [g_del set_status s_timer]. destruct (t_status (g_timers g id)); try congruence; lia. }
  destruct (t_status (g_timers g id)) eqn:Es; try discriminate.
  - apply (One true); auto; try discriminate. intros _. apply Hout. unfold offq; auto.
  - apply (One false); auto; try discriminate. intros _. apply Hin. unfold onq; auto.
  - destruct (t_on (g_timers g id)) eqn:Eo; [|discriminate].
    eapply (W_reset g id d now false); [exact Hc|lia|exact Q|exact Hw| | | |exact H].
    + rewrite Es. reflexivity.
    + intros _. apply Hin. unfold onq; auto.
    + discriminate.
  - apply (One true); auto; try discriminate. intros _. apply Hout. unfold offq; auto.
  - apply (One false); auto; try discriminate. intros _. apply Hin. unfold onq; auto.
  - apply (One false); auto; try discriminate. intros _. apply Hin. unfold onq; auto.
Qed.

Lemma W_user_step g now o g' : clock_ok now -> no_tick o -> QI none g -> W g -> user_step g now o = Done g' -> W g'.
Proof.
  intros Hc Ho Q Hw H. destruct o; cbn [user_step no_tick] in *; try contradiction; apply obind_inv in H as (r & E & X); inversion X; subst g'.
  - eapply W_Start; eauto. - eapply W_Stop; eauto. - eapply W_Reset; eauto.
Qed.
Lemma W_user_steps ops : forall g now g', clock_ok now -> Forall no_tick ops -> QI none g -> W g -> user_steps g now ops = Done g' -> W g'.
Proof.
  induction ops as [|o ops IH]; cbn [user_steps]; intros g now g' Hc Hn Q Hw H; [inversion H; subst; auto|].
  apply Forall_cons_iff in Hn as [H1 H2]. apply obind_inv in H as (g1 & E & X).
  eapply IH; [exact Hc|exact H2| | |exact X]; [eapply QI_user_step; eauto|eapply W_user_step; eauto].
Qed.

Lemma W_runOneTimer h g b tl now g' : clock_ok now -> shot_handler h -> QI none g -> W g -> g_heap g = b :: tl -> st (g_timers g) (b_timer b) = Waiting ->
  runOneTimer h (set_status g (b_timer b) Running) (b_timer b) now = Done g' -> W g'.
Proof.
  intros Hc Hh Q Hw Eh Es H. unfold runOneTimer in H.
  assert (P : 0 <? t_period (g_timers (set_status g (b_timer b) Running) (b_timer b)) = false).
  { rewrite st_set. cbn [t_period w_status]. rewrite (w_p _ Hw). reflexivity. }
  pose proof (QI_runOneTimer (fun _ => []) g b tl now) as Qone. unfold runOneTimer in Qone. rewrite P in H, Qone.
  apply obind_inv in H as (g2 & H & U). apply obind_inv in H as (g1 & D & H). injection H as <-.
  eapply W_user_steps; [exact Hc|apply Hh| | |exact U].
  - eapply Qone; eauto. rewrite D. cbn [obind user_steps]. reflexivity.
  - destruct (W_del0 (set_status g (b_timer b) Running) b tl g1) as (W1 & _); auto; try apply Q.
    { apply W_status; auto. discriminate. }
    eapply W_same; [apply (W_status g1 (b_timer b) Unset W1); discriminate|reflexivity|reflexivity|reflexivity].
Qed.

Lemma W_runTimer h fuel : forall g now r, clock_ok now -> shot_handler h -> QI none g -> W g -> runTimer fuel h g now = Done r -> W (fst r).
Proof.
  induction fuel as [|f IH]; intros g now r Hc Hh Q Hw H; [discriminate|]. cbn [runTimer] in H.
  destruct (g_heap g) as [|b tl] eqn:Eh; [discriminate|]. cbn [at_ nth_error lift obind] in H.
  destruct (t_status (g_timers g (b_timer b))) eqn:Es; try discriminate.
  - destruct (now <? _); [inversion H; subst; auto|]. apply obind_inv in H as (g1 & E & X). inversion X; subst r. cbn [fst].
    eapply W_runOneTimer; eauto.
  - apply obind_inv in H as (g1 & D & H). cbv zeta in H.
    pose proof (QI_drop0 none g b tl g1 Q Eh Es D) as Q2. cbv zeta in Q2.
    destruct (W_del0 (set_status g (b_timer b) Removing) b tl g1) as (W1 & _); auto; try apply Q.
    { apply W_status; auto. discriminate. }
    assert (W2 : W (s_del (set_status g1 (b_timer b) Removed) (g_del (set_status g1 (b_timer b) Removed) - 1))).
    { eapply W_same; [apply (W_status g1 (b_timer b) Removed W1); discriminate| | |]; reflexivity. }
    destruct (g_heap (s_del _ _)); [inversion H; subst; exact W2|]. eapply IH; eauto.
  - apply obind_inv in H as (? & _ & H). discriminate.
  - apply obind_inv in H as (? & _ & H). discriminate.
Qed.

Lemma deli_idx g i r : heap_ordered (g_heap g) -> (i < length (g_heap g))%nat -> deleteTimer g i = Done r -> (snd r <= i)%nat.
Proof.
  intros O Hi D. unfold deleteTimer in D. apply obind_inv in D as (b1 & _ & D). apply obind_inv in D as (r2 & D & D2).
  destruct (delete_spec (g_heap g) i O Hi) as (l' & s' & c & D' & _ & _ & _ & Ls). rewrite D' in D. cbn [lift] in D.
  assert (r2 = (l', s')) by congruence. subst r2. cbn [fst snd] in D2.
  match type of D2 with Done (?a, ?b) = Done r => assert (r = (a, b)) by congruence end. subst r. exact Ls.
Qed.

(** once an entry is taken off, the loop runs into the vacated end of the slice *)
Lemma adjust_short fuel : forall g n i mv r, heap_ordered (g_heap g) -> NoDup (ids g) -> g_t0 g = first_when (g_heap g) ->
  (length (g_heap g) < n)%nat -> (i <= length (g_heap g))%nat -> adjust_loop fuel g n i mv <> Done r.
Proof.
  assert (Del : forall g s i b r1, heap_ordered (g_heap g) -> NoDup (ids g) -> g_t0 g = first_when (g_heap g) -> nth_error (g_heap g) i = Some b ->
    deleteTimer (set_status g (b_timer b) s) i = Done r1 ->
    heap_ordered (g_heap (fst r1)) /\ NoDup (ids (fst r1)) /\ g_t0 (fst r1) = first_when (g_heap (fst r1)) /\
    S (length (g_heap (fst r1))) = length (g_heap g) /\ (snd r1 <= length (g_heap (fst r1)))%nat).
  { intros g s i b r1 O Nd T Eb D. destruct (deli (set_status g (b_timer b) s) i b r1 O Nd T Eb D) as (P & O1 & _ & T1 & _).
    assert (Hi : (i < length (g_heap g))%nat) by (apply nth_error_Some; congruence).
    assert (L : S (length (g_heap (fst r1))) = length (g_heap g)) by (apply Permutation_length in P; cbn [length] in P; auto).
    repeat (split; auto).
    - cbn [g_heap set_status s_timer] in P. apply (Permutation_map b_timer) in P.
      apply (Permutation_NoDup P) in Nd. cbn [map] in Nd. now inversion Nd.
    - pose proof (deli_idx (set_status g (b_timer b) s) _ _ O Hi D). lia. }
  induction fuel as [|f IH]; intros g n i mv r O Nd T L Hi; cbn [adjust_loop].
  - replace (Nat.leb n i) with false by lia. discriminate.
  - replace (Nat.leb n i) with false by lia. destruct (nth_error (g_heap g) i) as [b|] eqn:Eb; [|discriminate].
    assert (Hi' : (i < length (g_heap g))%nat) by (apply nth_error_Some; congruence).
    destruct (t_status (g_timers g (b_timer b))); try discriminate; try (apply IH; auto; lia).
    + intros H. apply obind_inv in H as (r1 & D & H). destruct (Del _ _ _ _ _ O Nd T Eb D) as (D1 & D2 & D3 & D4 & D5).
      revert H. apply IH; auto. cbn [g_heap s_del set_status s_timer]. lia.
    + intros H. apply obind_inv in H as (r1 & D & H). destruct (Del _ _ _ _ _ O Nd T Eb D) as (D1 & D2 & D3 & D4 & D5).
      revert H. apply IH; auto. lia.
    + intros H. apply obind_inv in H as (r1 & D & H). destruct (Del _ _ _ _ _ O Nd T Eb D) as (D1 & D2 & D3 & D4 & D5).
      revert H. apply IH; auto. lia.
Qed.

Lemma adjust_done fuel : forall g i r, QI none g -> (i <= length (g_heap g))%nat -> adjust_loop fuel g (length (g_heap g)) i [] = Done r ->
  fst r = g /\ forall j b, (i <= j)%nat -> nth_error (g_heap g) j = Some b -> t_status (g_timers g (b_timer b)) = Waiting.
Proof.
  induction fuel as [|f IH]; intros g i r Q Hi H; cbn [adjust_loop] in H.
  - destruct (Nat.leb_spec (length (g_heap g)) i) as [X|X]; [|discriminate]. injection H as <-. split; auto. intros j b Hj Hb.
    assert (Y : (j < length (g_heap g))%nat) by (apply nth_error_Some; congruence). lia.
  - destruct (Nat.leb_spec (length (g_heap g)) i) as [X|X].
    { injection H as <-. split; auto. intros j b Hj Hb.
      assert (Y : (j < length (g_heap g))%nat) by (apply nth_error_Some; congruence). lia. }
    destruct (nth_error (g_heap g) i) as [b|] eqn:Eb; [|discriminate].
    assert (Ib : In (b_timer b) (ids g)) by (apply in_map; eapply nth_error_In; exact Eb).
    destruct (q_on _ _ Q _ Ib) as [On _]. unfold onq, st in On.
    assert (Del : forall s mv r1, deleteTimer (set_status g (b_timer b) s) i = Done r1 -> forall g2, g_heap g2 = g_heap (fst r1) -> g_t0 g2 = g_t0 (fst r1) ->
       adjust_loop f g2 (length (g_heap g)) (snd r1) mv = Done r -> False).
    { intros s mv r1 D g2 E1 E2 A. pose proof Q as [O Nd _ _ T _ _].
      destruct (deli (set_status g (b_timer b) s) i b r1 O Nd T Eb D) as (P & O1 & _ & T1 & _).
      cbn [g_heap set_status s_timer] in P.
      assert (L : S (length (g_heap (fst r1))) = length (g_heap g)) by (apply Permutation_length in P; cbn [length] in P; auto).
      revert A. apply adjust_short; unfold ids; rewrite ?E1, ?E2; auto; try lia.
      - apply (Permutation_map b_timer) in P. apply (Permutation_NoDup P) in Nd. cbn [map] in Nd. now inversion Nd.
      - pose proof (deli_idx (set_status g (b_timer b) s) _ _ O X D). lia. }
    destruct (t_status (g_timers g (b_timer b))) eqn:Es; try (exfalso; intuition discriminate).
    + destruct (IH g (S i) r) as [A B]; auto. split; auto. intros j c Hj Hc.
      destruct (Nat.eq_dec i j) as [<-|N]; [|apply (B j c); auto; lia]. assert (c = b) by congruence. subst. exact Es.
    + exfalso. apply obind_inv in H as (r1 & D & H). eapply (Del Removing); [exact D| | |exact H]; reflexivity.
    + exfalso. apply obind_inv in H as (r1 & D & H). eapply (Del Moving); [exact D| | |exact H]; reflexivity.
    + exfalso. apply obind_inv in H as (r1 & D & H). eapply (Del Moving); [exact D| | |exact H]; reflexivity.
Qed.

Lemma W_adjust fuel g now g' : QI none g -> W g -> adjustTimers fuel g now = Done g' -> W g'.
Proof.
  intros Q Hw H. unfold adjustTimers in H. destruct (_ || _); [inversion H; subst; auto|].
  apply obind_inv in H as (r & E & H). destruct (snd r) eqn:Er; [|discriminate]. inversion H; subst g'.
  assert (Q0 : QI none (s_me g 0)) by (eapply QI_same; [exact Q| | | | |]; reflexivity).
  destruct (adjust_done fuel (s_me g 0) 0 r Q0) as [-> A]; [cbn; lia|exact E|].
  constructor; [|apply Hw|cbn; lia]. intros b Hb. destruct (In_nth_error _ _ Hb) as (j & Hj).
  specialize (A j b ltac:(lia) Hj). cbn [g_timers s_me] in A. destruct (w_b _ Hw b Hb) as (X1 & X2 & X3 & X4).
  unfold Wb. cbn [g_me s_me g_timers]. specialize (X2 A). split; [left; lia|]. auto.
Qed.

Lemma W_clear g g' : QI none g -> W g -> clearDeletedTimers g = Done g' -> W g' /\ filter (del_ (g_timers g')) (g_heap g') = [].
Proof.
  intros Q Hw H. pose proof H as H0. unfold clearDeletedTimers in H. pose proof Q as [Q1 Q2 Q3 Q4 Q5 Q6 Q7].
  destruct (clear_loop_gen (g_heap g) 0 [] [] (s_me g 0) false 0) as (g1 & arr & to & cd & p' & E & F1 & F2 & F3 & F4 & F5 & F6 & F7 & F8 & F9 & F10 & F11); auto.
  { apply heap_nil. }
  { intros k Hk. now apply Q3. }
  cbn [List.app length map] in E, F3. cbn [g_heap s_me] in H. rewrite E in H. cbn [obind] in H.
  assert (G : g' = updateTimer0When (s_heap (s_count (s_del g1 (g_del g1 - cd)) (g_count (s_del g1 (g_del g1 - cd)) - cd)) (firstn to arr))).
  { cbn [g_count s_del]. injection H as <-. reflexivity. }
  clear H. rewrite F1 in G.
  match type of G with _ = updateTimer0When ?y => set (x := y) in G end.
  destruct (updt0_fields x) as (B1 & B2 & _). pose proof (updt0_me x) as B3. rewrite <- G in B1, B2, B3.
  change (g_heap x) with p' in B1. change (g_timers x) with (g_timers g1) in B2. change (g_me x) with (g_me g1) in B3.
  cbn [g_me s_me g_timers] in *.
  assert (Key : forall b, In b p' -> b_when b = t_when (g_timers g (b_timer b)) /\ 1 <= b_when b /\ 1 <= t_when (g_timers g (b_timer b)) /\ In (b_timer b) (ids g)).
  { intros b Hb. destruct (F9 b Hb) as [[]|(b0 & C1 & C2 & C3)]. destruct (w_b _ Hw b0 C1) as (X1 & X2 & X3 & X4). rewrite C2 in *.
    assert (In (b_timer b0) (ids g)) by (now apply in_map).
    destruct C3 as [[-> C3]|C3]; [|rewrite C3]; repeat split; auto; lia. }
  split.
  - constructor.
    + intros b Hb. rewrite B1 in Hb. destruct (Key b Hb) as (K1 & K2 & K3 & _). rewrite B2, B3, F11. unfold Wb.
      rewrite (proj1 (F10 _)). split; [left; lia|]. auto.
    + intros k. rewrite B2, (proj2 (F10 _)). apply Hw.
    + rewrite B3, F11. lia.
  - rewrite B1, B2. destruct (filter (del_ (g_timers g1)) p') as [|b l] eqn:Ef; auto. exfalso.
    assert (Hb : In b (filter (del_ (g_timers g1)) p')) by (rewrite Ef; now left).
    apply filter_In in Hb as [Hb Hd]. destruct (Key b Hb) as (_ & _ & _ & Ib). apply (in_map b_timer) in Hb.
    apply (Permutation_in _ F3) in Hb. destruct (F8 _ Ib) as [_ X].
    destruct X as [X _]; [|unfold del_ in Hd; rewrite X in Hd; discriminate].
    apply (keep_in (g_timers g) (g_heap g)); auto.
Qed.

Lemma W_run_loop h fuel : forall g now ran r, clock_ok now -> shot_handler h -> QI none g -> W g -> run_loop fuel h g now ran = Done r -> W (fst (fst r)).
Proof.
  induction fuel as [|f IH]; intros g now ran r Hc Hh Q Hw H; cbn [run_loop] in H; destruct (g_heap g) as [|b tl] eqn:Eh;
    try (inversion H; subst; exact Hw); try discriminate.
  apply obind_inv in H as ([g1 tw] & E & H). pose proof (QI_runTimer _ _ _ _ _ Q E) as Q1. cbn [fst] in Q1.
  pose proof (W_runTimer _ _ _ _ _ Hc Hh Q Hw E) as W1. cbn [fst] in W1.
  destruct (tw =? 0); [eapply IH; eauto|]. inversion H; subst. exact W1.
Qed.
Lemma W_checkTimers h fuel g now r : clock_ok now -> shot_handler h -> QI none g -> W g -> checkTimers fuel h g now = Done r -> W (fst (fst r)).
Proof.
  intros Hc Hh Q Hw H. unfold checkTimers in H. destruct (_ =? 0); [inversion H; subst; auto|].
  destruct (_ && _); [inversion H; subst; auto|]. apply obind_inv in H as ([[g1 nw] ran] & E & H).
  apply obind_inv in H as (g2 & E2 & H). inversion H; subst r. cbn [fst].
  assert (Q1 : QI none g1 /\ W g1).
  { destruct (g_heap g) eqn:Eh; [inversion E; subst; auto|]. apply obind_inv in E as (g3 & E3 & E).
    pose proof (QI_adjustTimers _ _ _ _ Q E3) as Q3. pose proof (W_adjust _ _ _ _ Q Hw E3) as W3.
    split; [exact (QI_run_loop _ _ _ _ _ _ Q3 E)|exact (W_run_loop _ _ _ _ _ _ Hc Hh Q3 W3 E)]. }
  destruct Q1 as [Q1 W1]. destruct (_ <? _); [apply (W_clear _ _ Q1 W1 E2)|inversion E2; subst; exact W1].
Qed.
Lemma W_run h ops : shot_handler h -> forall g g', Forall shot_op ops -> QI none g -> W g -> run h g ops = Done g' -> W g'.
Proof.
  intros Hh. induction ops as [|o ops IH]; cbn [run]; intros g g' Ho Q Hw H; [inversion H; subst; auto|].
  apply Forall_cons_iff in Ho as [H1 H2]. apply obind_inv in H as (g1 & E & H). eapply IH; [exact H2| | |exact H]; destruct o; cbn [step shot_op] in *.
  - eapply QI_user_step; eauto.
  - apply obind_inv in E as (r & E & X). inversion X; subst. eapply QI_checkTimers; eauto.
  - destruct H1. eapply W_user_step; eauto.
  - apply obind_inv in E as (r & E & X). inversion X; subst. eapply W_checkTimers; eauto.
Qed.
Lemma W_new : W new_timing.
Proof. constructor; cbn; auto; try lia; contradiction. Qed.
Lemma W_history h ops g : shot_handler h -> Forall shot_op ops -> run h new_timing ops = Done g -> W g.
Proof. intros Hh Ho H. eapply W_run; eauto using QI_new, W_new. Qed.

(** ** Nothing due is left behind *)
Definition M (now : Z) (g : timing) : Prop := g_me g = 0 \/ now < g_me g.
Lemma M_zero now g g' : M now g -> g_me g' = g_me g \/ g_me g' = 0 -> M now g'.
Proof. unfold M. intros H [->| ->]; auto. Qed.
Lemma M_del0 now g g' : M now g -> deleteTimer0 g = Done g' -> M now g'.
Proof. intros H D. eapply M_zero; [exact H|]. rewrite (del0_me _ _ D). destruct (_ =? 0); auto. Qed.
Lemma M_clean_loop now fuel : forall g g', M now g -> clean_loop fuel g = Done g' -> M now g'.
Proof.
  induction fuel as [|f IH]; intros g g' Hm H; [discriminate|]. cbn [clean_loop] in H. apply obind_inv in H as (b & _ & H).
  destruct (t_status (g_timers g (b_timer b))); try (assert (g' = g) by congruence; subst; auto; fail).
  - apply obind_inv in H as (g1 & D & H). apply (IH _ _) in H; auto. apply (M_del0 now _ _) in D; auto.
  - apply obind_inv in H as (x1 & _ & H). apply obind_inv in H as (x2 & _ & H). discriminate.
  - apply obind_inv in H as (x1 & _ & H). apply obind_inv in H as (x2 & _ & H). discriminate.
Qed.
Lemma M_AddTimer now g id g' : M now g -> AddTimer g id = Done g' -> M now g'.
Proof.
  intros Hm H. unfold AddTimer in H. apply obind_inv in H as (g1 & C & H).
  assert (M1 : M now g1). { unfold cleanTimers in C. destruct (g_heap g); [congruence|]. eapply M_clean_loop; eauto. }
  unfold add_locked in H. apply obind_inv in H as (h & _ & H). apply obind_inv in H as (b0 & _ & H). injection H as <-.
  destruct (_ =? _); exact M1.
Qed.
Lemma M_Start now g id d t r : M now g -> Start g id d t = Done r -> M now (fst r).
Proof.
  intros Hm H. unfold Start in H. destruct (negb _); [inversion H; subst; auto|].
  destruct (d <? 1) eqn:D1; [inversion H; subst; auto|].
  destruct (t_status (g_timers g id)) eqn:Es; try (inversion H; subst; exact Hm).
  destruct (t_on (g_timers g id)) eqn:Eo; [inversion H; subst; exact Hm|].
  apply obind_inv in H as (g2 & A & H). injection H as <-. cbn [fst]. eapply M_AddTimer; [|exact A]. exact Hm.
Qed.
Lemma M_Stop now g id r : M now g -> Stop g id = Done r -> M now (fst r).
Proof.
  intros Hm H. unfold Stop in H. destruct (negb _); [inversion H; subst; auto|].
  destruct (t_status (g_timers g id)); try (inversion H; subst; exact Hm); try discriminate;
    destruct (t_on _); try discriminate; injection H as <-; exact Hm.
Qed.
Lemma M_Reset now g id d r : clock_ok now -> d < 2 ^ 63 -> M now g -> Reset g id d now = Done r -> M now (fst r).
Proof.
  intros Hc Hd Hm H. unfold Reset in H. destruct (d <? 1) eqn:D1; [inversion H; subst; auto|].
  destruct (negb _); [inversion H; subst; auto|]. destruct (when_range d now Hc) as [R _]; [lia|].
  assert (Fin : forall g b, M now g -> reset_finish g id d now b = Done r -> M now (fst r)).
  { clear H Hm g. intros g b Hm H. unfold reset_finish in H. cbv zeta in H. destruct b.
    - apply obind_inv in H as (g2 & A & H). injection H as <-. cbn [fst]. change (M now g2). eapply M_AddTimer; [|exact A]. exact Hm.
    - destruct (_ <? _) in H.
      + destruct (t_on _) in H; [|discriminate]. injection H as <-. cbn [fst]. unfold updateTimerModifiedEarliest. destruct (_ && _); [exact Hm|].
        right. exact R.
      + injection H as <-. exact Hm. }
  destruct (t_status (g_timers g id)); try discriminate; try (eapply Fin; [|exact H]; exact Hm).
  destruct (t_on _); [|discriminate]. eapply Fin; [|exact H]; exact Hm.
Qed.
Lemma M_user_steps ops : forall g now g', clock_ok now -> Forall no_tick ops -> M now g -> user_steps g now ops = Done g' -> M now g'.
Proof.
  induction ops as [|o ops IH]; cbn [user_steps]; intros g now g' Hc Hn Hm H; [inversion H; subst; auto|].
  apply Forall_cons_iff in Hn as [H1 H2]. apply obind_inv in H as (g1 & E & X).
  eapply IH; [exact Hc|exact H2| |exact X]. destruct o; cbn [user_step no_tick] in *; try contradiction; apply obind_inv in E as (r & E & Y);
    inversion Y; subst g1.
  - eapply M_Start; eauto. - eapply M_Stop; eauto. - eapply M_Reset; eauto.
Qed.
Definition ahead (now : Z) (g : timing) : Prop :=
  match g_heap g with [] => True | b :: _ => t_status (g_timers g (b_timer b)) = Waiting /\ now < t_when (g_timers g (b_timer b)) end.
Lemma M_runTimer h fuel : forall g now r, clock_ok now -> shot_handler h -> QI none g -> W g -> M now g -> runTimer fuel h g now = Done r ->
  M now (fst r) /\ (snd r <> 0 -> ahead now (fst r)).
Proof.
  induction fuel as [|f IH]; intros g now r Hc Hh Q Hw Hm H; [discriminate|]. cbn [runTimer] in H.
  destruct (g_heap g) as [|b tl] eqn:Eh; [discriminate|]. cbn [at_ nth_error lift obind] in H.
  destruct (t_status (g_timers g (b_timer b))) eqn:Es; try discriminate.
  - destruct (Z.ltb_spec now (t_when (g_timers g (b_timer b)))) as [L|L].
    + injection H as <-. split; auto. intros _. unfold ahead. cbn [fst]. rewrite Eh. auto.
    + apply obind_inv in H as (g1 & E & X). injection X as <-. cbn [fst snd]. split; [|congruence].
      unfold runOneTimer in E.
      assert (P : 0 <? t_period (g_timers (set_status g (b_timer b) Running) (b_timer b)) = false).
      { rewrite st_set. cbn [t_period w_status]. rewrite (w_p _ Hw). reflexivity. }
      rewrite P in E. apply obind_inv in E as (g2 & E & U). apply obind_inv in E as (g3 & D & E). injection E as <-.
      eapply M_user_steps; [exact Hc|apply Hh| |exact U]. change (M now g3). eapply M_del0; [|exact D]. exact Hm.
  - apply obind_inv in H as (g1 & D & H). cbv zeta in H.
    pose proof (QI_drop0 none g b tl g1 Q Eh Es D) as Q2. cbv zeta in Q2.
    destruct (W_del0 (set_status g (b_timer b) Removing) b tl g1) as (W1 & _); auto; try apply Q.
    { apply W_status; auto. discriminate. }
    assert (W2 : W (s_del (set_status g1 (b_timer b) Removed) (g_del (set_status g1 (b_timer b) Removed) - 1))).
    { eapply W_same; [apply (W_status g1 (b_timer b) Removed W1); discriminate| | |]; reflexivity. }
    assert (M1 : M now g1) by (eapply M_del0; [|exact D]; exact Hm).
    destruct (g_heap (s_del _ _)) eqn:Eg.
    + injection H as <-. cbn [fst snd]. split; [exact M1|]. intros _. unfold ahead. cbn [g_heap s_del set_status s_timer] in *. now rewrite Eg.
    + eapply IH; eauto.
  - apply obind_inv in H as (? & _ & H). discriminate.
  - apply obind_inv in H as (? & _ & H). discriminate.
Qed.
Lemma M_run_loop h fuel : forall g now ran r, clock_ok now -> shot_handler h -> QI none g -> W g -> M now g -> run_loop fuel h g now ran = Done r ->
  M now (fst (fst r)) /\ ahead now (fst (fst r)).
Proof.
  induction fuel as [|f IH]; intros g now ran r Hc Hh Q Hw Hm H; cbn [run_loop] in H; destruct (g_heap g) as [|b tl] eqn:Eh;
    try (injection H as <-; split; [exact Hm|unfold ahead; cbn [fst]; now rewrite Eh]); try discriminate.
  apply obind_inv in H as ([g1 tw] & E & H). pose proof (QI_runTimer _ _ _ _ _ Q E) as Q1. cbn [fst] in Q1.
  pose proof (W_runTimer _ _ _ _ _ Hc Hh Q Hw E) as W1. cbn [fst] in W1.
  pose proof (M_runTimer _ _ _ _ _ Hc Hh Q Hw Hm E) as [M1 A1]. cbn [fst snd] in M1, A1.
  destruct (Z.eqb_spec tw 0); [eapply IH; eauto|]. injection H as <-. auto.
Qed.
(** every timer to run is due after now *)
Lemma ahead_all now g id due : QI none g -> W g -> M now g -> ahead now g -> In id (ids g) -> t_when (g_timers g id) = due -> now < due.
Proof.
  intros Q Hw Hm A I <-. apply in_map_iff in I as (b & <- & Hb). destruct (w_b _ Hw b Hb) as (X1 & _).
  pose proof (heap_first _ (q_ord _ _ Q)) as F. unfold ahead in A. destruct (g_heap g) as [|a l] eqn:Eh; [destruct Hb|].
  destruct A as [A1 A2]. assert (Ia : In a (g_heap g)) by (rewrite Eh; now left).
  destruct (w_b _ Hw a Ia) as (_ & Y & _). specialize (Y A1). specialize (F a b eq_refl Hb). unfold M in Hm. lia.
Qed.
Lemma M_adjust fuel g now g' : QI none g -> adjustTimers fuel g now = Done g' -> M now g'.
Proof.
  intros Q H. unfold adjustTimers in H. destruct ((g_me g =? 0) || (now <? g_me g)) eqn:C.
  - assert (g' = g) by congruence. subst. unfold M. lia.
  - apply obind_inv in H as (r & E & H). destruct (snd r) eqn:Er; [|discriminate]. injection H as <-.
    assert (Q0 : QI none (s_me g 0)) by (eapply QI_same; [exact Q| | | | |]; reflexivity).
    destruct (adjust_done fuel (s_me g 0) 0 r Q0) as [-> A]; [cbn; lia|exact E|]. left. reflexivity.
Qed.
