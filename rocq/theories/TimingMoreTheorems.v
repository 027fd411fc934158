(** C08, C10 in general: stopping twice, and a periodic timer that hides the others. *)
From Coq Require Import Permutation ZifyBool ZifyNat.
From Verif Require Import Go GoFacts HeapModel HeapSpec HeapProofs TimingModel TimingSpec TimingProofs TimingProofs2 TimingProofs3 QueueModel QueueSpec QueueProofs QueueTheorems WakeSpec WakeProofs.
Ltac Zify.zify_post_hook ::= Z.div_mod_to_equations.

(** Success of Stop never tells whether the timer was still to run: whatever the state, after a Stop that
    succeeds the next one succeeds too, and changes nothing. *)
Theorem C08_stop_twice_refuted : forall g id g', Stop g id = Done (g', None) -> Stop g' id = Done (g', None).
Proof.
  intros g id g' H. unfold Stop in *. destruct (t_cb (g_timers g id)) eqn:C; cbn [negb] in H; [|discriminate].
  destruct (t_status (g_timers g id)) eqn:S0; try discriminate.
  all: try (destruct (t_on (g_timers g id)); [|discriminate]; assert (g' = s_del (s_log (set_status g id Deleted) (EStop id)) (g_del (s_log (set_status g id Deleted) (EStop id)) + 1)) by congruence; subst g';
    unfold set_status, s_del, s_log, s_timer, tset, w_status; cbn [g_timers]; rewrite Z.eqb_refl; cbn [t_cb t_status]; rewrite C; reflexivity).
  all: assert (g' = g) by congruence; subst g'; rewrite C, S0; reflexivity.
Qed.
Print Assumptions C08_stop_twice_refuted.

Lemma siftdown_same b tl : heap_ordered (b :: tl) -> SiftDownTimer (b :: tl) 0 = Ok (b :: tl).
Proof.
  intros O. unfold SiftDownTimer.
  assert (R : siftdown_loop (S (length (b :: tl))) (b :: tl) (b_when b) 0 = Ok (b :: tl, 0%nat)).
  { cbn [siftdown_loop]. change (0 * heapAry + 1)%nat with 1%nat. destruct (Nat.leb (length (b :: tl)) 1) eqn:L; [reflexivity|].
    apply Nat.leb_gt in L. destruct (pick_child_spec (b :: tl) 0 ltac:(lia)) as (c & P & Hc & Pc & _). change (0 * 4 + 1)%nat with 1%nat in P. rewrite P. cbn [bind].
    rewrite heap_wh in O. specialize (O c Hc). rewrite Pc in O. change (wh (b :: tl) 0) with (b_when b) in O. replace (b_when b <=? wh (b :: tl) c) with true by lia. reflexivity. }
  change (at_ (b :: tl) 0) with (Ok b). cbn [bind]. rewrite R. cbn [bind]. change (at_ (b :: tl) 0) with (Ok b). cbn [bind].
  rewrite (proj2 (bucket_eqb_eq b b) eq_refl). reflexivity.
Qed.

(** At the head of the queue is a periodic timer whose callback leaves timers alone; no timer was stopped
    or rescheduled. *)
Record at_head (h : Z -> list uop) (b : bucket) (tl : list bucket) (period : Z) (g : timing) : Prop := {
  ah_heap : g_heap g = b :: tl;
  ah_status : t_status (g_timers g (b_timer b)) = Waiting;
  ah_period : t_period (g_timers g (b_timer b)) = period;
  ah_quiet : h (b_timer b) = [];
  ah_me : g_me g = 0;
  ah_del : g_del g = 0 }.
(** wake-ups at these times: never back, and each less than a period after the one before *)
Fixpoint often (period last : Z) (ts : list Z) : Prop :=
  match ts with [] => True | t :: ts => last <= t < last + period /\ t < 2 ^ 62 /\ often period t ts end.

Lemma at_head_step h b tl period g fuel now : heap_ordered (b :: tl) -> g_t0 g = b_when b -> at_head h b tl period g -> 0 < period < 2 ^ 62 ->
  0 < b_when b <= t_when (g_timers g (b_timer b)) -> 0 <= now < 2 ^ 62 -> now < t_when (g_timers g (b_timer b)) + period -> (2 <= fuel)%nat ->
  exists g' n r, checkTimers fuel h g now = Done (g', n, r) /\ at_head h b tl period g' /\ g_t0 g' = b_when b /\
    b_when b <= t_when (g_timers g' (b_timer b)) /\ now < t_when (g_timers g' (b_timer b)) /\ (forall k, k <> b_timer b -> pending (g_log g') k = pending (g_log g) k).
Proof.
  intros O T0 AH Per W Now Late Fu. pose proof AH as [Hh Hs Hp Hq Hm Hd]. set (id := b_timer b) in *. unfold checkTimers.
  assert (NB : noBarrierWakeTime g = b_when b).
  { unfold noBarrierWakeTime. rewrite Hm, T0. change (0 =? 0) with true. cbn [negb andb]. replace (b_when b =? 0) with false by lia. reflexivity. }
  rewrite NB. replace (b_when b =? 0) with false by lia. destruct ((now <? b_when b) && negb (isCleanNeed g)) eqn:Early.
  { exists g, (b_when b), false. split; [reflexivity|]. split; [exact AH|]. repeat split; auto; try lia. }
  rewrite Hh. unfold adjustTimers. rewrite Hm. change (0 =? 0) with true. cbn [orb obind].
  destruct fuel as [|[|f]]; [lia|lia|].
  assert (RT : forall g1, at_head h b tl period g1 -> now < t_when (g_timers g1 id) -> forall n, runTimer (S n) h g1 now = Done (g1, t_when (g_timers g1 id))).
  { intros g1 [H1 S1 _ _ _ _] L n. cbn [runTimer]. rewrite H1. change (at_ (b :: tl) 0) with (Ok b). cbn [lift obind]. fold id. unfold id in *. rewrite S1. replace (now <? t_when (g_timers g1 (b_timer b))) with true by lia. reflexivity. }
  assert (CL : forall g1, at_head h b tl period g1 -> Z.quot (zlen (g_heap g1)) 4 <? g_del g1 = false).
  { intros g1 [H1 _ _ _ _ D1]. rewrite D1. pose proof (zlen_nonneg (g_heap g1)). pose proof (Z.quot_pos (zlen (g_heap g1)) 4). lia. }
  destruct (Z.ltb_spec now (t_when (g_timers g id))) as [L|L].
  { cbn [run_loop]. rewrite Hh. rewrite (RT g AH L). cbn [obind]. replace (t_when (g_timers g id) =? 0) with false by lia. cbn [obind]. rewrite (CL g AH). cbn [obind].
    exists g. eexists. eexists. split; [reflexivity|]. split; [exact AH|]. repeat split; auto; lia. }
  set (w := next_when (t_when (g_timers g id)) period now).
  assert (Hw : now < w) by (destruct (next_ok (t_when (g_timers g id)) period now) as (E & K); [lia|lia|lia|lia|]; unfold w; rewrite E; exact K).
  set (g0 := set_status g id Running).
  set (g1 := s_log (s_log (updateTimer0When (set_status (s_heap (s_timer g0 id (w_when (g_timers g0 id) w)) (b :: tl)) id Waiting)) (EFire id now)) (ERearm id w)).
  assert (F0 : t_period (g_timers g0 id) = period /\ t_when (g_timers g0 id) = t_when (g_timers g id)).
  { unfold g0, set_status, s_timer, tset, w_status. cbn [g_timers]. rewrite Z.eqb_refl. cbn [t_period t_when]. auto. }
  assert (R1 : runOneTimer h g0 id now = Done g1).
  { unfold runOneTimer. destruct F0 as (Fp & Fw). rewrite Fp, Fw. replace (0 <? period) with true by lia. fold w.
    assert (Hh0 : g_heap (s_timer g0 id (w_when (g_timers g0 id) w)) = b :: tl) by (unfold g0, set_status, s_timer; cbn [g_heap]; exact Hh).
    rewrite Hh0, (siftdown_same b tl O). cbn [lift obind]. unfold id in *. rewrite Hq. reflexivity. }
  assert (T1 : t_when (g_timers g1 id) = w).
  { unfold g1, updateTimer0When, set_status, s_heap, s_timer, s_log, s_t0, tset. cbn [g_timers g_heap]. rewrite !Z.eqb_refl. reflexivity. }
  assert (A1 : at_head h b tl period g1).
  { constructor; try assumption; unfold g1, g0, updateTimer0When, set_status, s_heap, s_timer, s_log, s_t0, tset; cbn [g_timers g_heap g_me g_del]; try reflexivity; try assumption; fold id; rewrite !Z.eqb_refl; [reflexivity|]. cbn [w_status w_when t_period]. exact Hp. }
  assert (RT0 : runTimer (S (length (b :: tl))) h g now = Done (g1, 0)).
  { cbn [runTimer]. rewrite Hh. change (at_ (b :: tl) 0) with (Ok b). cbn [lift obind]. fold id. rewrite Hs. replace (now <? t_when (g_timers g id)) with false by lia. fold g0. rewrite R1. reflexivity. }
  cbn [run_loop]. rewrite Hh, RT0. cbn [obind]. change (0 =? 0) with true. cbn iota. rewrite (ah_heap _ _ _ _ _ A1). rewrite (RT g1 A1) by (rewrite T1; exact Hw). cbn [obind]. rewrite T1. replace (w =? 0) with false by lia. cbn [obind].
  rewrite (CL g1 A1). cbn [obind]. exists g1. eexists. eexists. split; [reflexivity|]. split; [exact A1|]. split; [reflexivity|]. rewrite T1. split; [lia|]. split; [exact Hw|].
  intros k Nk. change (g_log g1) with ((g_log g ++ [EFire id now]) ++ [ERearm id w]). unfold pending. rewrite !fold_left_app. cbn [fold_left pend_step].
  replace (k =? id) with false by (unfold id; lia). reflexivity.
Qed.

(** The key of a periodic timer in the queue is never renewed, so once its due time is the first it hides
    all other timers: however often it has run since, and however long ago another timer was due, no
    wake-up runs that other timer, as long as wake-ups are less than a period apart. *)
Theorem C08_periodic_hides_refuted : forall h ops g b tl period fuel last ts,
  run h new_timing ops = Done g -> at_head h b tl period g -> 0 < b_when b <= t_when (g_timers g (b_timer b)) ->
  0 < period < 2 ^ 62 -> 0 <= last <= t_when (g_timers g (b_timer b)) -> often period last ts -> (2 <= fuel)%nat ->
  exists g', run h g (map (OCheck fuel) ts) = Done g' /\ g_heap g' = g_heap g /\
    forall id, id <> b_timer b -> pending (g_log g') id = pending (g_log g) id.
Proof.
  intros h ops g b tl period fuel last ts R AH W Per Last Of Fu. pose proof (QI_history _ _ _ R) as Q. pose proof (q_ord _ _ Q) as O. pose proof (q_t0 _ _ Q) as T0.
  rewrite (ah_heap _ _ _ _ _ AH) in O, T0. change (first_when (b :: tl)) with (b_when b) in T0. clear R Q ops.
  revert g last AH W T0 Last Of. induction ts as [|t ts IH]; intros g last AH W T0 Last Of.
  - exists g. repeat split; reflexivity.
  - destruct Of as (Lt & Lm & Of). destruct (at_head_step h b tl period g fuel t O T0 AH Per W ltac:(lia) ltac:(lia) Fu) as (g1 & n & r & E & A1 & T1 & W1 & L1 & P1).
    destruct (IH g1 t A1 ltac:(lia) T1 ltac:(lia) Of) as (g' & E' & H' & P'). exists g'.
    cbn [map run step]. rewrite E. cbn [obind fst]. split; [exact E'|]. split; [rewrite H', (ah_heap _ _ _ _ _ A1), (ah_heap _ _ _ _ _ AH); reflexivity|]. intros id N. rewrite P', P1 by exact N. reflexivity.
Qed.
Print Assumptions C08_periodic_hides_refuted.

(** In that state a wake-up on time renews the due time of the periodic timer, but not its place. *)
Theorem C10_place_refuted : forall h ops g b tl period fuel now,
  run h new_timing ops = Done g -> at_head h b tl period g -> 0 < b_when b <= t_when (g_timers g (b_timer b)) ->
  0 < period < 2 ^ 62 -> t_when (g_timers g (b_timer b)) <= now < t_when (g_timers g (b_timer b)) + period -> now < 2 ^ 62 -> (2 <= fuel)%nat ->
  exists g' n r, checkTimers fuel h g now = Done (g', n, r) /\ now < t_when (g_timers g' (b_timer b)) /\ g_heap g' = b :: tl /\ noBarrierWakeTime g' = b_when b.
Proof.
  intros h ops g b tl period fuel now R AH W Per L Lm Fu. pose proof (QI_history _ _ _ R) as Q. pose proof (q_ord _ _ Q) as O. pose proof (q_t0 _ _ Q) as T0.
  rewrite (ah_heap _ _ _ _ _ AH) in O, T0. change (first_when (b :: tl)) with (b_when b) in T0.
  destruct (at_head_step h b tl period g fuel now O T0 AH Per W ltac:(lia) ltac:(lia) Fu) as (g1 & n & r & E & A1 & T1 & W1 & L1 & _).
  exists g1, n, r. split; [exact E|]. split; [exact L1|]. split; [exact (ah_heap _ _ _ _ _ A1)|]. unfold noBarrierWakeTime. rewrite (ah_me _ _ _ _ _ A1), T1. change (0 =? 0) with true. cbn [negb andb]. replace (b_when b =? 0) with false by lia. reflexivity.
Qed.
Print Assumptions C10_place_refuted.

Example C08_hides_nonvacuous : exists g, run (fun _ => []) new_timing [OUser 0 (UTick 1 10 100); OUser 0 (UStart 2 20)] = Done g /\
  at_head (fun _ => []) {| b_timer := 1; b_when := 10 |} [{| b_timer := 2; b_when := 20 |}] 100 g /\ t_when (g_timers g 1) = 10 /\ pending (g_log g) 2 = Some 20 /\ often 100 0 [10; 100; 190; 280].
Proof.
  eexists. split; [vm_compute; reflexivity|]. split; [constructor; vm_compute; reflexivity|]. split; [vm_compute; reflexivity|]. split; [vm_compute; reflexivity|]. cbn [often]. lia.
Qed.
