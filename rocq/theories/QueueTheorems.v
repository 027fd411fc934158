(** C141-C142: the queue of a core at every time, and the moving of timers between cores. *)
From Coq Require Import Permutation ZifyBool ZifyNat.
From Verif Require Import Go GoFacts HeapModel HeapSpec HeapProofs TimingModel TimingSpec TimingProofs TimingProofs2 QueueModel QueueSpec QueueProofs.
Ltac Zify.zify_post_hook ::= Z.div_mod_to_equations.

(** C141.  After every history of calls and wake-ups, rescheduling included, no timer is queued
    twice, and a timer is to run exactly if it is queued and not stopped; *)
Theorem C141_queue : forall h ops g, run h new_timing ops = Done g ->
  NoDup (map b_timer (g_heap g)) /\
  (forall id, pending (g_log g) id <> None <-> queued g id /\ t_status (g_timers g id) <> Deleted).
Proof.
  intros h ops g H. pose proof (QI_history _ _ _ H) as Q. split; [apply Q|]. intros id.
  rewrite (history_pending _ _ _ H id). unfold queued. change (map b_timer (g_heap g)) with (ids g). split.
  - intros L. destruct (in_dec Z.eq_dec id (ids g)) as [I|I].
    + split; auto. intros X. rewrite X in L. discriminate.
    + exfalso. destruct (q_off _ _ Q id (fun x => x) I) as [[X|X] _]; unfold st in X; rewrite X in L; discriminate.
  - intros [I N]. destruct (q_on _ _ Q id I) as [[X|[X|[X|X]]] _]; unfold st in X; try contradiction; rewrite X; reflexivity.
Qed.
Print Assumptions C141_queue.
(** the two counters are the number of the entries and of the stopped ones among them, so that their
    difference is the number of the timers that are to run; *)
Theorem C141_counts : forall h ops g, run h new_timing ops = Done g ->
  g_count g = zlen (g_heap g) /\ g_del g = zlen (filter (stopped g) (g_heap g)) /\
  exists l, NoDup l /\ (forall id, In id l <-> pending (g_log g) id <> None) /\ zlen l = g_count g - g_del g.
Proof.
  intros h ops g H. pose proof (QI_history _ _ _ H) as Q.
  assert (D : g_del g = zlen (filter (stopped g) (g_heap g))) by apply Q.
  split; [apply Q|]. split; [exact D|].
  exists (map b_timer (filter (keep (g_timers g)) (g_heap g))). split; [|split].
  - apply NoDup_map_filter. apply Q.
  - intros id. destruct (C141_queue h ops g H) as [_ P]. rewrite P. unfold queued. split.
    + intros I. assert (J : In id (map b_timer (g_heap g))).
      { apply in_map_iff in I as (b & <- & Hb). apply filter_In in Hb as [Hb _]. now apply in_map. }
      split; auto. apply (keep_in (g_timers g) (g_heap g)) in I; auto. apply Q.
    + intros [I N]. apply keep_in; auto. apply Q.
  - rewrite (q_count _ _ Q), (q_del _ _ Q), (filter_split_len (del_ (g_timers g)) (g_heap g)).
    unfold zlen at 1. rewrite map_length. unfold keep, zlen. lia.
Qed.
Print Assumptions C141_counts.
(** the time kept for the next wake-up is the key of the first entry, and no key is before it; *)
Theorem C141_first : forall h ops g, run h new_timing ops = Done g ->
  (g_heap g = [] -> g_t0 g = 0) /\ (forall b, In b (g_heap g) -> g_t0 g <= b_when b) /\
  (g_heap g <> [] -> exists b, In b (g_heap g) /\ b_when b = g_t0 g).
Proof.
  intros h ops g H. pose proof (QI_history _ _ _ H) as Q. rewrite (q_t0 _ _ Q).
  pose proof (heap_first _ (q_ord _ _ Q)) as F. destruct (g_heap g) as [|a l]; cbn [first_when].
  - split; [reflexivity|]. split; [intros b []|congruence].
  - split; [discriminate|]. split; [intros b Hb; now apply (F a b)|]. intros _. exists a. split; [now left|reflexivity].
Qed.
Print Assumptions C141_first.
(** and the check of the queue, which the code makes only when it is debugged, never reports anything. *)
Lemma verify_loop_nil l : heap_ordered l -> forall todo, (forall i, In i todo -> (0 < i)%nat) -> verify_loop l todo = [].
Proof.
  intros O. induction todo as [|i todo IH]; intros Hp; cbn [verify_loop]; auto.
  assert (R : verify_loop l todo = []) by (apply IH; intros; apply Hp; now right).
  destruct (nth_error l i) as [a|] eqn:Ea; auto. destruct (nth_error l (Nat.div (i - 1) heapAry)) as [b|] eqn:Eb; auto.
  rewrite R, app_nil_r. destruct i as [|i]; [exfalso; specialize (Hp 0%nat (or_introl eq_refl)); lia|].
  replace (S i - 1)%nat with i in Eb by lia. pose proof (O i a b Ea Eb).
  assert (X : b_when a <? b_when b = false) by lia. now rewrite X.
Qed.
Theorem C141_check : forall h ops g, run h new_timing ops = Done g -> verifyTimerHeap g = [].
Proof.
  intros h ops g H. pose proof (QI_history _ _ _ H) as Q. unfold verifyTimerHeap.
  rewrite verify_loop_nil; [|apply Q|intros i Hi; apply in_seq in Hi; lia].
  rewrite (q_count _ _ Q), Z.eqb_refl. reflexivity.
Qed.
Print Assumptions C141_check.
(** For any queue whatsoever, verifyTimerHeap has nothing to report exactly if no entry is due before its
    parent and the counter is the number of entries. *)
Theorem C141_check_exact : forall g, verifyTimerHeap g = [] <-> heap_ordered (g_heap g) /\ g_count g = zlen (g_heap g).
Proof.
  intros g. unfold verifyTimerHeap. split.
  - intros H. apply app_eq_nil in H as [H C]. split; [|destruct (Z.eqb_spec (zlen (g_heap g)) (g_count g)); [lia|discriminate]].
    intros i a b A B. assert (Li : (S i < length (g_heap g))%nat) by (apply nth_error_Some; congruence).
    assert (I : In (S i) (seq 1 (length (g_heap g) - 1))) by (apply in_seq; lia).
    revert I H. generalize (seq 1 (length (g_heap g) - 1)). intros todo. induction todo as [|j todo IH]; intros I H; [easy|]. cbn [verify_loop] in H.
    destruct I as [->|I].
    + rewrite A in H. replace (S i - 1)%nat with i in H by lia. unfold heapAry in H. rewrite B in H. destruct (Z.ltb_spec (b_when a) (b_when b)); [discriminate|lia].
    + apply IH; auto. destruct (nth_error (g_heap g) j); auto. destruct (nth_error (g_heap g) (Nat.div (j - 1) heapAry)); auto. now apply app_eq_nil in H.
  - intros [O C]. rewrite verify_loop_nil; [|exact O|intros i Hi; apply in_seq in Hi; lia]. rewrite C, Z.eqb_refl. reflexivity.
Qed.
Print Assumptions C141_check_exact.
(** a history with a rescheduled, a stopped and a fired timer *)
Definition ops141 : list op :=
  [OUser 0 (UStart 1 50); OUser 0 (UStart 2 30); OUser 0 (UStart 3 70); OUser 0 (UStart 4 90);
   OUser 5 (UReset 3 200); OUser 5 (UStop 4); OCheck 9 40; OUser 45 (UStop 1)].
Example C141_nonvacuous :
  match run (fun _ => []) new_timing ops141 with
  | Done g => (map b_timer (g_heap g), g_count g, g_del g, pending (g_log g) 3, pending (g_log g) 1)
  | _ => ([], 0, 0, None, None)
  end = ([1; 3], 2, 1, Some 205, None) /\
  verifyTimerHeap {| g_heap := [{| b_timer := 1; b_when := 5 |}; {| b_timer := 2; b_when := 3 |}]; g_timers := fun _ => new_timer;
     g_t0 := 5; g_me := 0; g_count := 1; g_del := 0; g_log := [] |} = [BadOrder 1 0; BadLength].
Proof. split; vm_compute; reflexivity. Qed.

(** * C09, for every history.  Starting a timer crashes whenever nothing is to run and a stopped timer is
    still on the queue; *)
Lemma clean_crash E fuel : forall g, QI E g -> (length (g_heap g) < fuel)%nat -> (forall k, In k (ids g) -> st (g_timers g) k = Deleted) -> clean_loop fuel g = Crash.
Proof.
  induction fuel as [|f IH]; intros g Q L D; [lia|]. cbn [clean_loop].
  destruct (g_heap g) as [|b tl] eqn:Eh; [reflexivity|]. cbn [at_ nth_error lift obind].
  assert (Db : st (g_timers g) (b_timer b) = Deleted) by (apply D; unfold ids; rewrite Eh; now left). unfold st in Db. rewrite Db.
  assert (X : exists g1, deleteTimer0 (set_status g (b_timer b) Removing) = Done g1).
  { unfold deleteTimer0. cbn [g_heap set_status s_timer]. destruct (delete0_spec (g_heap g) (q_ord _ _ Q)) as (h' & c & D1 & N & _); [congruence|].
    unfold at_. rewrite N. cbn [lift obind]. rewrite D1. cbn [lift obind]. eauto. }
  destruct X as (g1 & X). rewrite X. cbn [obind].
  pose proof (QI_drop0 E g b tl g1 Q Eh Db X) as Q1. cbv zeta in Q1.
  destruct (del0 (set_status g (b_timer b) Removing) b tl g1) as (P & O & Tm & _); auto; [apply Q|]. cbn [g_heap set_status s_timer] in P.
  apply IH; [exact Q1| |].
  - cbn [g_heap s_del set_status s_timer]. apply Permutation_length in P. rewrite Eh in P. cbn [length] in *. lia.
  - intros k I. unfold ids in I. cbn [g_heap s_del set_status s_timer] in I.
    assert (K : k <> b_timer b). { intros ->. pose proof (q_nd _ _ Q) as Nd. unfold ids in Nd. eapply Permutation_NoDup in Nd; [|apply Permutation_map; exact P]. cbn [map] in Nd. inversion Nd; auto. }
    unfold st. cbn [g_timers s_del set_status s_timer]. rewrite tset_neq by auto. rewrite Tm, tset_neq by auto. cbn [g_timers set_status s_timer]. rewrite tset_neq by auto.
    apply D. unfold ids. eapply Permutation_in; [apply Permutation_map, Permutation_sym, P|]. now right.
Qed.
Theorem C09_start_crashes_refuted : forall h ops g id d now k, run h new_timing ops = Done g -> ~ some_pending g -> queued g k ->
  t_cb (g_timers g id) = true -> t_status (g_timers g id) = Unset -> 1 <= d -> Start g id d now = Crash.
Proof.
  intros h ops g id d now k H NP Qk Cb Es Hd. pose proof (QI_history _ _ _ H) as Q. destruct (C141_queue _ _ _ H) as [_ Pq].
  assert (Ni : ~ In id (ids g)). { intros I. destruct (q_on _ _ Q id I) as [O _]. destruct O as [O|[O|[O|O]]]; unfold st in O; congruence. }
  destruct (q_off _ _ Q id (fun x => x) Ni) as [_ On]. unfold Start. cbv zeta. rewrite Cb, Es, On. cbn [negb]. replace (d <? 1) with false by lia.
  set (g1 := s_log _ _). assert (Eh : g_heap g1 = g_heap g) by reflexivity.
  assert (Tm : forall j, j <> id -> g_timers g1 j = g_timers g j).
  { intros j Nj. unfold g1. cbn [g_timers s_log s_timer set_status]. now rewrite !tset_neq. }
  unfold AddTimer, cleanTimers. rewrite Eh. unfold queued in Qk. destruct (g_heap g) as [|b tl] eqn:E; [destruct Qk|]. rewrite <- E.
  rewrite (clean_crash (just id)); [reflexivity| | |].
  - destruct Q as [Q1 Q2 Q3 Q4 Q5 Q6 Q7]. constructor; auto.
    + intros j I. assert (I' : In j (ids g)) by exact I. unfold st. rewrite Tm by (intros ->; contradiction). now apply Q3.
    + intros j Nj I. unfold just in Nj. unfold st. rewrite Tm by auto. apply Q4; auto.
    + etransitivity; [exact Q7|]. f_equal. apply filter_ext_in. intros c Hc. unfold del_, st. rewrite Tm; [reflexivity|]. intros X. apply Ni. rewrite <- X. unfold ids. now apply in_map.
  - rewrite Eh, E. cbn [length]. lia.
  - intros j I0. assert (I : In j (ids g)) by exact I0. assert (Nj : j <> id) by (intros ->; contradiction). unfold st. rewrite Tm by auto.
    destruct (t_status (g_timers g j)) eqn:Ej; auto; exfalso; apply NP; exists j; apply Pq; (split; [exact I|congruence]).
Qed.
Print Assumptions C09_start_crashes_refuted.
Lemma delete0_head x y tl : DeleteTimer0 (x :: tl) = DeleteTimer0 (y :: tl).
Proof. destruct tl as [|t tl]; reflexivity. Qed.
(** and waits for ever for the lock it holds whenever the first of the queue has been rescheduled. *)
Theorem C09_start_blocks_refuted : forall h ops g b tl id d now, run h new_timing ops = Done g -> g_heap g = b :: tl ->
  t_status (g_timers g (b_timer b)) = ModifiedEarlier \/ t_status (g_timers g (b_timer b)) = ModifiedLater ->
  t_cb (g_timers g id) = true -> t_status (g_timers g id) = Unset -> 1 <= d -> Start g id d now = Blocked.
Proof.
  intros h ops g b tl id d now H Eh Ms Cb Es Hd. pose proof (QI_history _ _ _ H) as Q.
  assert (Ni : ~ In id (ids g)). { intros I. destruct (q_on _ _ Q id I) as [O _]. destruct O as [O|[O|[O|O]]]; unfold st in O; congruence. }
  destruct (q_off _ _ Q id (fun x => x) Ni) as [_ On]. unfold Start. cbv zeta. rewrite Cb, Es, On. cbn [negb]. replace (d <? 1) with false by lia.
  set (g1 := s_log _ _). assert (Eh1 : g_heap g1 = g_heap g) by reflexivity.
  assert (Nb : b_timer b <> id). { intros X. apply Ni. rewrite <- X. unfold ids. rewrite Eh. now left. }
  assert (Tm : g_timers g1 (b_timer b) = g_timers g (b_timer b)) by (unfold g1; cbn [g_timers s_log s_timer set_status]; now rewrite !tset_neq).
  unfold AddTimer, cleanTimers. rewrite Eh1, Eh. cbn [clean_loop]. rewrite Eh1, Eh. cbn [at_ nth_error lift obind]. rewrite Tm.
  assert (Dx : forall x, exists g2, deleteTimer0 (s_heap (set_status g1 (b_timer b) Moving) (upd (b :: tl) 0 {| b_timer := b_timer b; b_when := x |})) = Done g2).
  { intros x. unfold deleteTimer0. cbn [g_heap s_heap upd at_ nth_error lift obind].
    rewrite (delete0_head _ b). destruct (delete0_spec (b :: tl)) as (h' & c & D1 & _); [rewrite <- Eh; apply Q|discriminate|]. rewrite D1. cbn [lift obind]. eauto. }
  destruct Ms as [-> | ->]; cbn [g_heap set_status s_timer]; rewrite Eh1, Eh; cbn [at_ nth_error lift bind obind]; cbn [b_timer].
  all: match goal with |- context [{| b_timer := _; b_when := ?x |}] => destruct (Dx x) as (g2 & E2) end; rewrite E2; reflexivity.
Qed.
Print Assumptions C09_start_blocks_refuted.

(** C142.  Moving the timers of a core to another never moves one: with a timer to run the call
    waits for ever on a lock it holds, whichever core makes it; *)
Lemma move_blocked l : forall m, NoDup (map b_timer l) -> (forall id, In id (map b_timer l) -> onq (st m id)) ->
  (exists id, In id (map b_timer l) /\ st m id <> Deleted) -> moveTimers l m = Blocked.
Proof.
  induction l as [|b l IH]; intros m Nd Ho (id & Hi & Hd); [destruct Hi|]. cbn [moveTimers].
  cbn [map] in *. inversion Nd as [|? ? Ni Nd']; subst.
  destruct (Ho (b_timer b) (or_introl eq_refl)) as [X|[X|X]]; unfold st in X.
  - now rewrite X.
  - rewrite X. apply IH; auto.
    + intros k Hk. unfold st. rewrite tset_neq by (intros ->; contradiction). apply Ho. now right.
    + exists id. destruct Hi as [<-|Hi]; [unfold st in Hd; contradiction|]. split; auto. unfold st. rewrite tset_neq; auto. intros ->. contradiction.
  - destruct X as [X|X]; now rewrite X.
Qed.
Lemma move_done l : forall m, NoDup (map b_timer l) -> (forall id, In id (map b_timer l) -> st m id = Deleted) ->
  exists m', moveTimers l m = Done m' /\
    (forall id, In id (map b_timer l) -> m' id = w_on (w_status (m id) Removed) false) /\
    (forall id, ~ In id (map b_timer l) -> m' id = m id).
Proof.
  induction l as [|b l IH]; intros m Nd Hd; cbn [moveTimers]; [exists m; repeat split; auto; intros k []|].
  cbn [map] in *. inversion Nd as [|? ? Ni Nd']; subst.
  pose proof (Hd (b_timer b) (or_introl eq_refl)) as X. unfold st in X. rewrite X.
  destruct (IH (tset m (b_timer b) (w_on (w_status (m (b_timer b)) Removed) false)) Nd') as (m' & E & A & B).
  { intros k Hk. unfold st. rewrite tset_neq by (intros ->; contradiction). apply Hd. now right. }
  exists m'. split; [exact E|]. split.
  - intros k [<-|Hk].
    + rewrite B by exact Ni. now rewrite tset_eq.
    + rewrite A by exact Hk. rewrite tset_neq; auto. intros ->. contradiction.
  - intros k Hk. rewrite B by (intros X'; apply Hk; now right). rewrite tset_neq; auto. intros ->. apply Hk. now left.
Qed.
Lemma all_stopped h ops g : run h new_timing ops = Done g -> ~ some_pending g ->
  forall id, In id (map b_timer (g_heap g)) -> st (g_timers g) id = Deleted.
Proof.
  intros H N id I. destruct (C141_queue _ _ _ H) as [_ P]. unfold st.
  destruct (t_status (g_timers g id)) eqn:E; auto; exfalso; apply N; exists id; apply P; split; auto; congruence.
Qed.

Theorem C142_move_refuted : forall h ops g same, run h new_timing ops = Done g -> some_pending g ->
  MoveToMe same g = Blocked /\ Reinit same g = Blocked.
Proof.
  intros h ops g same H (id & P). pose proof (QI_history _ _ _ H) as Q.
  apply (proj2 (C141_queue _ _ _ H)) in P as [I N].
  assert (M : moveTimersTo same g = Blocked).
  { unfold moveTimersTo, queued in *. destruct (g_heap g) as [|b l] eqn:Eh; [destruct I|]. destruct same; auto.
    rewrite <- Eh in *. rewrite (move_blocked (g_heap g) (g_timers g)); auto; [apply Q| |].
    - intros k Hk. now apply Q.
    - exists id. auto. }
  unfold MoveToMe, Reinit. now rewrite M.
Qed.
Print Assumptions C142_move_refuted.
(** it ends exactly if nothing is queued, or no timer is to run and another core makes it; then every
    stopped timer that was queued is free, no other timer changes, and after a Reinit the queue is
    empty and all its counters and times are as in a new one. *)
Theorem C142_move_partial : forall h ops g same, run h new_timing ops = Done g ->
  (g_heap g = [] \/ ~ some_pending g /\ same = false ->
     exists m, MoveToMe same g = Done (s_timers g m) /\
       Reinit same g = Done {| g_heap := []; g_timers := m; g_t0 := 0; g_me := 0; g_count := 0; g_del := 0; g_log := g_log g |} /\
       (forall id, queued g id -> t_status (m id) = Removed /\ t_on (m id) = false) /\
       (forall id, ~ queued g id -> m id = g_timers g id)) /\
  (~ (g_heap g = [] \/ ~ some_pending g /\ same = false) -> MoveToMe same g = Blocked /\ Reinit same g = Blocked).
Proof.
  intros h ops g same H. pose proof (QI_history _ _ _ H) as Q. split.
  - intros [E|[N ->]].
    + exists (g_timers g). unfold MoveToMe, Reinit, moveTimersTo. rewrite E. cbn [obind].
      split; [f_equal; destruct g; reflexivity|]. split; [reflexivity|]. split; [|auto]. unfold queued. rewrite E. intros id [].
    + destruct (g_heap g) as [|b l] eqn:Eh.
      * exists (g_timers g). unfold MoveToMe, Reinit, moveTimersTo. rewrite Eh. cbn [obind].
        split; [f_equal; destruct g; reflexivity|]. split; [reflexivity|]. split; [|auto]. unfold queued. rewrite Eh. intros id [].
      * assert (Nd : NoDup (map b_timer (g_heap g))) by apply Q.
        destruct (move_done (g_heap g) (g_timers g) Nd (all_stopped _ _ _ H N)) as (m & E & A & B).
        exists m. unfold MoveToMe, Reinit, moveTimersTo. rewrite Eh, <- Eh, E. cbn [obind].
        split; [reflexivity|]. split; [reflexivity|]. split.
        -- intros id I. rewrite (A id I). split; reflexivity.
        -- exact B.
  - intros N.
    assert (Eh : g_heap g <> []) by tauto.
    destruct same.
    + unfold MoveToMe, Reinit, moveTimersTo. destruct (g_heap g); [congruence|]. auto.
    + apply (C142_move_refuted h ops g false H).
      destruct (filter (keep (g_timers g)) (g_heap g)) as [|b l] eqn:F.
      * exfalso. apply N. right. split; auto. intros (id & P). apply (proj2 (C141_queue _ _ _ H)) in P as [I D].
        apply (keep_in (g_timers g) (g_heap g)) in D; auto; [|apply Q]. rewrite F in D. destruct D.
      * assert (X : In b (filter (keep (g_timers g)) (g_heap g))) by (rewrite F; now left).
        apply filter_In in X as [X K]. exists (b_timer b). apply (proj2 (C141_queue _ _ _ H)). split; [now apply in_map|].
        unfold keep, del_, st in K. intros Y. rewrite Y in K. discriminate.
Qed.
Print Assumptions C142_move_partial.
(** But a move that ends leaves the freed timers in the queue: the next wake-up of the core that is
    due, or cleans, never ends, whatever was to be called back. *)
Theorem C142_left_refuted : forall h ops g g' now fuel k, run h new_timing ops = Done g -> g_heap g <> [] ->
  MoveToMe false g = Done g' -> noBarrierWakeTime g' <> 0 -> (length (g_heap g) < fuel)%nat ->
  checkTimers fuel k g' now = Hang.
Proof.
  intros h ops g g' now fuel k H Eh M W Hf. pose proof (QI_history _ _ _ H) as Q.
  assert (NP : ~ some_pending g).
  { intros X. destruct (C142_move_refuted h ops g false H X) as [Y _]. congruence. }
  destruct (C142_move_partial h ops g false H) as [X _]. destruct X as (m & E & _ & A & _); [auto|].
  assert (G : g' = s_timers g m) by congruence.
  assert (Hh : g_heap g' = g_heap g) by (rewrite G; reflexivity).
  assert (Ht : forall b, In b (g_heap g') -> t_status (g_timers g' (b_timer b)) = Removed).
  { intros b Hb. rewrite Hh in Hb. rewrite G. cbn [g_timers s_timers]. apply A. now apply in_map. }
  assert (Hd : g_del g' = zlen (g_heap g') /\ g_count g' = zlen (g_heap g')).
  { rewrite G. cbn [g_del g_count g_heap s_timers]. split; [|apply Q]. rewrite (q_del _ _ Q). f_equal.
    assert (Y : forall l, (forall b, In b l -> del_ (g_timers g) b = true) -> filter (del_ (g_timers g)) l = l).
    { induction l as [|x l IH]; intros Hl; auto. cbn [filter]. rewrite (Hl x (or_introl eq_refl)), IH; auto. intros; apply Hl; now right. }
    apply Y. intros b Hb. unfold del_. rewrite (all_stopped _ _ _ H NP); auto. now apply in_map. }
  destruct Hd as [Hd Hc]. unfold checkTimers. rewrite (proj2 (Z.eqb_neq _ _) W).
  assert (Ic : isCleanNeed g' = true).
  { unfold isCleanNeed. rewrite Hd, Hc. assert (0 < zlen (g_heap g')). { rewrite Hh. destruct (g_heap g); [congruence|]. rewrite zlen_cons. pose proof (zlen_nonneg l). lia. }
    assert (Z.quot (zlen (g_heap g')) 4 < zlen (g_heap g')) by (apply Z.quot_lt; lia). lia. }
  rewrite Ic, andb_false_r. destruct (g_heap g') as [|b l] eqn:El; [congruence|]. rewrite <- El in *.
  assert (L : forall f y n i, g_heap y = g_heap g' -> g_timers y = g_timers g' -> n = length (g_heap g') -> (n <= f + i)%nat ->
     adjust_loop f y n i [] = Done (y, [])).
  { induction f as [|f IH]; intros y n i Y1 Y2 Yn Yf; cbn [adjust_loop]; destruct (Nat.leb_spec n i) as [Le|Le]; auto; [lia|].
    rewrite Y1. destruct (nth_error (g_heap g') i) as [c|] eqn:En; [|apply nth_error_None in En; lia].
    rewrite Y2, (Ht c) by (eapply nth_error_In; eauto). apply IH; auto. lia. }
  assert (Adj : exists y, adjustTimers fuel g' now = Done y /\ g_heap y = g_heap g' /\ g_timers y = g_timers g').
  { unfold adjustTimers. destruct (_ || _); [exists g'; auto|]. rewrite L; auto; [|rewrite Hh; lia]. cbn [obind fst snd].
    exists (s_me g' 0). auto. }
  destruct Adj as (y & -> & Y1 & Y2). cbn [obind].
  destruct fuel as [|f]; [lia|]. cbn [run_loop]. rewrite Y1, El. cbn [length runTimer]. rewrite Y1, El. cbn [at_ nth_error lift obind].
  rewrite Y2, (Ht b) by (rewrite El; now left). reflexivity.
Qed.
Print Assumptions C142_left_refuted.
(** one timer to run; one stopped, whose move leaves the core unable to wake up *)
Example C142_nonvacuous :
  match run (fun _ => []) new_timing [OUser 0 (UStart 1 50)] with
  | Done g => pending (g_log g) 1 = Some 50 /\ MoveToMe false g = Blocked | _ => False end /\
  match run (fun _ => []) new_timing [OUser 0 (UStart 1 50); OUser 5 (UStop 1)] with
  | Done g => g_heap g <> [] /\ match MoveToMe false g with
              | Done g' => noBarrierWakeTime g' = 50 /\ t_status (g_timers g' 1) = Removed /\ checkTimers 5 (fun _ => []) g' 60 = Hang
              | _ => False end
  | _ => False end.
Proof. vm_compute. repeat split; discriminate. Qed.

(** C09 for histories with rescheduling: what adding a timer does is decided by the timers queued.
    It crashes when all queued are stopped, it ends when the ones to run were not rescheduled, and it
    waits for ever when all of them were. *)
Lemma drop_ok E g b tl : QI E g -> g_heap g = b :: tl -> st (g_timers g) (b_timer b) = Deleted ->
  exists g1, deleteTimer0 (set_status g (b_timer b) Removing) = Done g1 /\
    let g2 := set_status g1 (b_timer b) Removed in
    let g3 := s_del g2 (g_del g2 - 1) in
    QI E g3 /\ S (length (g_heap g3)) = length (g_heap g) /\
    (forall k, In k (ids g3) -> In k (ids g) /\ st (g_timers g3) k = st (g_timers g) k) /\
    (forall k, In k (ids g) -> k <> b_timer b -> In k (ids g3)).
Proof.
  intros Q Eh Hs.
  assert (D : exists g1, deleteTimer0 (set_status g (b_timer b) Removing) = Done g1).
  { unfold deleteTimer0. change (g_heap (set_status g (b_timer b) Removing)) with (g_heap g).
    destruct (delete0_spec (g_heap g) (q_ord _ _ Q)) as (h' & c & D & N & P & O'); [congruence|].
    unfold at_. rewrite N, D. cbn [lift obind]. eauto. }
  destruct D as (g1 & D). exists g1. split; [exact D|]. cbv zeta.
  split; [exact (QI_drop0 E g b tl g1 Q Eh Hs D)|].
  destruct (del0 (set_status g (b_timer b) Removing) b tl g1) as (P & O & Tm & T0 & C & Dl); auto; [apply Q|].
  change (g_heap (set_status g (b_timer b) Removing)) with (g_heap g) in P.
  assert (Pi : Permutation (ids g) (b_timer b :: ids g1)) by exact (Permutation_map b_timer P).
  assert (Nd : NoDup (b_timer b :: ids g1)) by (eapply Permutation_NoDup; [exact Pi|apply Q]). inversion Nd as [|? ? Ni Nd']; subst.
  split; [apply Permutation_length in P; cbn [length] in P; cbn [g_heap s_del set_status s_timer]; lia|]. split.
  - intros k Hk. change (ids (s_del (set_status g1 (b_timer b) Removed) (g_del (set_status g1 (b_timer b) Removed) - 1))) with (ids g1) in Hk.
    split; [eapply Permutation_in; [apply Permutation_sym; exact Pi|now right]|].
    assert (N : k <> b_timer b) by (intros ->; contradiction).
    unfold st. cbn [g_timers s_del set_status s_timer]. rewrite tset_neq by auto. rewrite Tm, tset_neq by auto.
    cbn [g_timers set_status s_timer]. now rewrite tset_neq.
  - intros k Hk N. change (In k (ids g1)). apply (Permutation_in _ Pi) in Hk. destruct Hk; [congruence|auto].
Qed.

Lemma clean_cases E fuel : forall g, QI E g -> (length (g_heap g) < fuel)%nat -> 
  ((forall id, In id (ids g) -> st (g_timers g) id = Deleted) -> clean_loop fuel g = Crash) /\
  ((exists id, In id (ids g) /\ st (g_timers g) id <> Deleted) ->
   ((forall id, In id (ids g) -> st (g_timers g) id = Deleted \/ st (g_timers g) id = Waiting) -> exists g', clean_loop fuel g = Done g') /\
   ((forall id, In id (ids g) -> st (g_timers g) id <> Waiting) -> clean_loop fuel g = Blocked)).
Proof.
  induction fuel as [|f IH]; intros g Q Hf; [lia|]. cbn [clean_loop].
  destruct (g_heap g) as [|b tl] eqn:Eh.
  { cbn [at_ nth_error lift obind]. split; [reflexivity|]. intros (id & X & _). unfold ids in X. rewrite Eh in X. destruct X. }
  cbn [at_ nth_error lift obind].
  assert (Ib : In (b_timer b) (ids g)) by (unfold ids; rewrite Eh; now left).
  destruct (q_on _ _ Q _ Ib) as [Hs _].
  assert (Mod : (st (g_timers g) (b_timer b) = ModifiedEarlier \/ st (g_timers g) (b_timer b) = ModifiedLater) ->
    (do! h := lift (let! x := at_ (g_heap (set_status g (b_timer b) Moving)) 0 in
       Ok (upd (g_heap (set_status g (b_timer b) Moving)) 0 {| b_timer := b_timer x; b_when := t_when (g_timers (set_status g (b_timer b) Moving) (b_timer b)) |})) in
     do! _ := deleteTimer0 (s_heap (set_status g (b_timer b) Moving) h) in (@Blocked timing)) = Blocked).
  { intros _. cbn [g_heap set_status s_timer]. rewrite Eh. cbn [at_ nth_error bind lift obind upd].
    match goal with |- (do! _ := ?d in Blocked) = Blocked => assert (X : exists y, d = Done y) end.
    { unfold deleteTimer0. cbn [g_heap s_heap]. cbn [at_ nth_error lift obind].
      match goal with |- context [DeleteTimer0 ?l] => assert (X : exists h', DeleteTimer0 l = Ok h') end.
      { unfold DeleteTimer0. cbn [at_ nth_error bind]. set (l := _ :: tl).
        destruct (at_ok l (length l - 1)) as (c & Ec & Nc); [cbn; lia|]. rewrite Ec. cbn [bind].
        destruct (Nat.ltb_spec 0 (length l - 1)) as [Lt|Le]; [|eauto].
        assert (Ll : length (firstn (length l - 1) (upd l 0 c)) = (length l - 1)%nat) by (rewrite firstn_length, upd_length; lia).
        destruct (siftdown_spec (firstn (length l - 1) (upd l 0 c)) 0) as (l' & E1 & _); [lia| |eauto].
        assert (O : heap_ordered (b :: tl)) by (rewrite <- Eh; apply Q).
        assert (Ex : firstn (length l - 1) (upd l 0 c) = upd (firstn (length (b :: tl) - 1) (b :: tl)) 0 c).
        { unfold l. cbn [upd length]. replace (S (length tl) - 1)%nat with (length tl) in * by lia.
          destruct tl; [unfold l in Lt; cbn in Lt; lia|]. reflexivity. }
        rewrite Ex. split; [apply near_moved; [exact O|unfold l in Lt; cbn [length] in *; lia]|lia]. }
      destruct X as (h' & ->). cbn [lift obind]. eauto. }
    destruct X as (y & ->). reflexivity. }
  destruct Hs as [Hs|[Hs|[Hs|Hs]]].
  - unfold st in Hs. rewrite Hs. split.
    + intros A. specialize (A _ Ib). unfold st in A. congruence.
    + intros _. split; [eauto|]. intros A. exfalso. apply (A _ Ib). exact Hs.
  - destruct (drop_ok E g b tl Q Eh Hs) as (g1 & D & Q3 & Ln & K1 & K2). cbv zeta in Q3, Ln, K1, K2.
    assert (Hs' := Hs). unfold st in Hs'. rewrite Hs'. rewrite D. cbn [obind].
    assert (Lf : (length (g_heap (s_del (set_status g1 (b_timer b) Removed) (g_del (set_status g1 (b_timer b) Removed) - 1))) < f)%nat).
    { rewrite Eh in Ln. cbn [length] in *. lia. }
    destruct (IH _ Q3 Lf) as [R1 R2]. split.
    + intros A. apply R1. intros k Hk. destruct (K1 k Hk) as [K3 K4]. rewrite K4. auto.
    + intros (id & I1 & I2). destruct R2 as [R3 R4].
      { exists id. assert (N : id <> b_timer b) by congruence. pose proof (K2 id I1 N) as I3. split; auto.
        destruct (K1 id I3) as [_ ->]. exact I2. }
      split.
      * intros A. apply R3. intros k Hk. destruct (K1 k Hk) as [K3 K4]. rewrite K4. auto.
      * intros A. apply R4. intros k Hk. destruct (K1 k Hk) as [K3 K4]. rewrite K4. auto.
  - assert (Hs' := Hs). unfold st in Hs'. rewrite Hs'. split; [intros A; specialize (A _ Ib); congruence|]. intros _. split.
    + intros A. destruct (A _ Ib); congruence.
    + intros _. apply Mod. auto.
  - assert (Hs' := Hs). unfold st in Hs'. rewrite Hs'. split; [intros A; specialize (A _ Ib); congruence|]. intros _. split.
    + intros A. destruct (A _ Ib); congruence.
    + intros _. apply Mod. auto.
Qed.

Theorem C09_start_any_partial : forall h ops g id d now, run h new_timing ops = Done g ->
  t_cb (g_timers g id) = true -> t_status (g_timers g id) = Unset -> 1 <= d ->
  ((g_heap g <> [] /\ forall k, queued g k -> t_status (g_timers g k) = Deleted) -> Start g id d now = Crash) /\
  ((g_heap g = [] \/ (exists k, queued g k /\ t_status (g_timers g k) = Waiting) /\
      (forall k, queued g k -> t_status (g_timers g k) = Waiting \/ t_status (g_timers g k) = Deleted)) ->
     exists g', Start g id d now = Done (g', None)) /\
  (((exists k, pending (g_log g) k <> None) /\ forall k, queued g k -> t_status (g_timers g k) <> Waiting) -> Start g id d now = Blocked).
Proof.
  intros h ops g id d now H Cb Us Hd. pose proof (QI_history _ _ _ H) as Q. unfold Start. rewrite Cb. cbn [negb].
  assert (D1 : d <? 1 = false) by lia. rewrite D1, Us.
  assert (Hn : ~ In id (ids g)).
  { intros X. destruct (q_on _ _ Q id X) as [[Y|[Y|[Y|Y]]] _]; unfold st in Y; congruence. }
  destruct (q_off _ _ Q id (fun x => x) Hn) as [_ Ho]. rewrite Ho.
  match goal with |- context [AddTimer ?y id] => set (x := y) end.
  assert (Qx : QI (just id) x).
  { unfold x. apply QI_log. repeat (apply QI_timer; [|intros; contradiction|intros _; left; reflexivity]).
    eapply QI_weaken; [exact Q|intros k []]. }
  assert (Sx : forall k, In k (ids g) -> st (g_timers x) k = t_status (g_timers g k)).
  { intros k Hk. assert (N : k <> id) by (intros ->; contradiction). unfold x, st. cbn [g_timers s_log s_timer set_status]. now rewrite !tset_neq. }
  assert (Hx : g_heap x = g_heap g) by reflexivity. assert (Ix : ids x = ids g) by reflexivity.
  unfold AddTimer, cleanTimers.
  assert (Ad : forall y, QI (just id) y -> exists g', add_locked y id = Done g').
  { intros y Qy. unfold add_locked. cbn [g_heap s_timer].
    destruct (add_spec (g_heap y) {| b_timer := id; b_when := t_when (g_timers y id) |} (q_ord _ _ Qy)) as (hh & E1 & P & _).
    rewrite E1. cbn [lift obind]. destruct hh as [|b0 hh]; [apply Permutation_length in P; discriminate|].
    cbn [at_ nth_error lift obind]. eauto. }
  destruct (clean_cases (just id) (S (length (g_heap x))) x Qx) as [C1 C2]; [lia|].
  split; [|split].
  - intros [Ne A]. rewrite Hx in *. destruct (g_heap g) as [|b l] eqn:Eh; [congruence|].
    rewrite C1; [reflexivity|]. intros k Hk. rewrite Ix in Hk. rewrite Sx by exact Hk. apply A. exact Hk.
  - intros [Ne|[(k & K1 & K2) A]].
    + rewrite Hx, Ne. cbn [obind]. destruct (Ad x Qx) as (g' & ->). cbn [obind]. eauto.
    + destruct C2 as [C2 _]. { exists k. rewrite Ix. split; [exact K1|]. rewrite Sx by exact K1. congruence. }
      destruct C2 as (g' & C2). { intros j Hj. rewrite Ix in Hj. rewrite Sx by exact Hj. destruct (A j Hj); auto. }
      rewrite Hx in *. destruct (g_heap g) as [|b l] eqn:Eh; [unfold queued in K1; rewrite Eh in K1; destruct K1|].
      rewrite C2. cbn [obind]. destruct (QI_clean_loop (just id) _ _ _ Qx C2) as [Qy _].
      destruct (Ad g' Qy) as (g2 & ->). cbn [obind]. eauto.
  - intros [(k & K1) A]. apply (proj2 (C141_queue _ _ _ H)) in K1 as [K1 K2].
    destruct C2 as [_ C2]. { exists k. rewrite Ix. split; [exact K1|]. rewrite Sx by exact K1. exact K2. }
    rewrite Hx in *. destruct (g_heap g) as [|b l] eqn:Eh; [unfold queued in K1; rewrite Eh in K1; destruct K1|].
    rewrite C2; [reflexivity|]. intros j Hj. rewrite Ix in Hj. rewrite Sx by exact Hj. apply A. exact Hj.
Qed.
Print Assumptions C09_start_any_partial.
Example C09_start_any_nonvacuous :
  match run (fun _ => []) new_timing [OUser 0 (UStart 1 50); OUser 5 (UReset 1 60)] with
  | Done g => t_status (g_timers g 1) = ModifiedLater /\ t_status (g_timers g 2) = Unset /\ Start g 2 5 6 = Blocked | _ => False end /\
  match run (fun _ => []) new_timing [OUser 0 (UStart 1 50); OUser 0 (UStart 3 70); OUser 5 (UStop 1)] with
  | Done g => t_status (g_timers g 1) = Deleted /\ match Start g 2 5 6 with Done (g', None) => map b_timer (g_heap g') = [2; 3] | _ => False end | _ => False end.
Proof. vm_compute. repeat split. Qed.
