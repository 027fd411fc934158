(** Property theorems C28-C30 and C70-C73 (time). *)
From Coq Require Import ZifyBool.
From Verif Require Import Go GoFacts ClockModel ClockSpec ClockProofs.

(** C28: splitting a duration and joining it again gives it back; the parts have the
    duration's sign and the remainder is below a second. *)
Theorem C28_split_join : forall d, int64 d -> exists s n,
  ToSecAndNano d = (s, n) /\ FromSecAndNano s n = d /\ d = nanos s n /\ Z.abs n < 1000000000 /\
  (0 <= d -> 0 <= s /\ 0 <= n) /\ (d <= 0 -> s <= 0 /\ n <= 0).
Proof.
  intros d H. destruct (split_spec d H) as (s & n & E & Hd & _ & _ & Hp & Hm & _).
  exists s, n. split; [exact E|]. split; [exact (split_join d H s n E)|]. repeat split; try lia.
Qed.
Print Assumptions C28_split_join.
Theorem C28_join_split : forall s n, int64 (nanos s n) -> Z.abs n < 1000000000 ->
  (0 <= s /\ 0 <= n \/ s <= 0 /\ n <= 0) ->
  FromSecAndNano s n = nanos s n /\ ToSecAndNano (FromSecAndNano s n) = (s, n).
Proof.
  intros s n H Hn Hs. destruct (join_split s n H ltac:(lia) Hs) as [E E2]. now rewrite E.
Qed.
Print Assumptions C28_join_split.
Example C28_example : ToSecAndNano (-2500000000) = (-2, -500000000) /\ FromSecAndNano (-2) (-500000000) = -2500000000
  /\ ToSecAndNano (2 ^ 63 - 1) = (9223372036, 854775807).
Proof. vm_compute. auto. Qed.

(** C29: from 1970 on the weekday is right; *)
Theorem C29_weekday_partial : forall s n, 0 <= s ->
  Weekdays (Instant s n) = Ok (Weekdays_const (weekday s)).
Proof.
  intros. rewrite weekday_ok by auto. unfold Weekdays_const.
  pose proof (weekday_range s). rewrite Z.shiftl_mul_pow2 by lia. f_equal; lia.
Qed.
Print Assumptions C29_weekday_partial.
(** before 1970 it is right only at the midnights of the days Monday to Thursday that end
    a week's count; at every other second it is another day or the call panics. *)
Theorem C29_weekday_before_1970_refuted : forall s n, s < 0 -> s mod 86400 <> 0 ->
  Weekdays (Instant s n) <> Ok (Weekdays_const (weekday s)).
Proof.
  intros s n H Hm E. pose proof (weekday_range s). unfold Weekdays_const in E.
  rewrite Z.shiftl_mul_pow2, Z.mul_1_l in E by lia. apply weekday_negative in E; lia.
Qed.
Print Assumptions C29_weekday_before_1970_refuted.
Theorem C29_weekday_exact : forall s n,
  Weekdays (Instant s n) = Ok (Weekdays_const (weekday s)) <->
  0 <= s \/ (s mod 86400 = 0 /\ (- s / 86400) mod 7 <= 3).
Proof.
  intros s n. pose proof (weekday_range s) as R. unfold Weekdays_const.
  rewrite Z.shiftl_mul_pow2, Z.mul_1_l by lia. destruct (Z.le_gt_cases 0 s).
  - rewrite weekday_ok by auto. tauto.
  - rewrite weekday_negative by auto. split; [auto|intros [?|?]; [lia|auto]].
Qed.
Print Assumptions C29_weekday_exact.
(** The hour set never is the published constant of the hour: it is one bit lower. *)
Theorem C29_hours_refuted : forall s n,
  DayHours (Instant s n) <> Ok (DayHours_const (hour_of_day s)).
Proof. exact hours_never. Qed.
Print Assumptions C29_hours_refuted.
Theorem C29_hours_partial : forall s n, 0 <= s -> DayHours (Instant s n) = Ok (2 ^ hour_of_day s).
Proof. exact hours_ok. Qed.
Print Assumptions C29_hours_partial.
(** A set of days (or hours, or half hours) made from the published constants contains exactly its
    members: [shift] 0 for days, 1 for hours of the UTC and of the earth clock. *)
Definition mask (shift : Z) (members : list Z) : Z := fold_right (fun d m => Z.lor (Z.shiftl 1 (d + shift)) m) 0 members.
Theorem C29_membership : forall shift l d, 0 <= shift -> 0 <= d -> Forall (fun x => 0 <= x) l ->
  (Check (mask shift l) (Z.shiftl 1 (d + shift)) = true <-> In d l).
Proof.
  intros shift l d S D F. unfold Check.
  assert (B : forall k, 0 <= k -> Z.testbit (mask shift l) (k + shift) = existsb (Z.eqb k) l).
  { intros k K. clear D. induction l as [|x l IH]; cbn [mask fold_right existsb]; [apply Z.bits_0|].
    fold (mask shift l). rewrite Z.lor_spec, IH by now apply Forall_inv_tail in F. f_equal.
    apply Forall_inv in F. rewrite Z.shiftl_1_l, Z.pow2_bits_eqb by lia. lia. }
  specialize (B d D).
  assert (E : Z.land (Z.shiftl 1 (d + shift)) (mask shift l) = if existsb (Z.eqb d) l then 2 ^ (d + shift) else 0).
  { apply Z.bits_inj'. intros n N. rewrite Z.land_spec, Z.shiftl_1_l, Z.pow2_bits_eqb by lia.
    destruct (Z.eqb_spec (d + shift) n) as [<- |Q].
    - rewrite B. destruct (existsb _ l); [now rewrite Z.pow2_bits_true by lia|now rewrite Z.bits_0].
    - cbn [andb]. destruct (existsb _ l); [now rewrite Z.pow2_bits_false by lia|now rewrite Z.bits_0]. }
  rewrite E. rewrite <- (existsb_exists (Z.eqb d) l) at 1 || idtac.
  assert (X : existsb (Z.eqb d) l = true <-> In d l).
  { rewrite existsb_exists. split; [intros (x & I & Q); apply Z.eqb_eq in Q; now subst|]. intros I. exists d. split; [exact I|apply Z.eqb_refl]. }
  rewrite <- X. destruct (existsb _ l); [|cbn; split; discriminate].
  split; [reflexivity|]. intros _. assert (0 < 2 ^ (d + shift)) by (apply Z.pow_pos_nonneg; lia). lia.
Qed.
Print Assumptions C29_membership.
(** So from 1970 on a schedule of days is followed on the days it names; *)
Theorem C29_schedule_days_partial : forall s n l, 0 <= s -> Forall (fun x => 0 <= x <= 6) l ->
  exists d, Weekdays (Instant s n) = Ok d /\ (Check (mask 0 l) d = true <-> In (weekday s) l).
Proof.
  intros s n l H F. rewrite C29_weekday_partial by assumption. eexists. split; [reflexivity|]. unfold Weekdays_const.
  pose proof (weekday_range s). replace (weekday s) with (weekday s + 0) at 1 by lia.
  apply C29_membership; [lia|lia|]. eapply Forall_impl; [|exact F]. cbn. lia.
Qed.
Print Assumptions C29_schedule_days_partial.
(** but a schedule of hours is followed one hour late: during the hour after each hour it names,
    and during no other. *)
Theorem C29_schedule_hours_refuted : forall s n l, 0 <= s -> Forall (fun x => 0 <= x <= 23) l ->
  exists h, DayHours (Instant s n) = Ok h /\ (Check (mask 1 l) h = true <-> In (hour_of_day s - 1) l).
Proof.
  intros s n l H F. rewrite C29_hours_partial by assumption. eexists. split; [reflexivity|].
  assert (R : 0 <= hour_of_day s <= 23).
  { unfold hour_of_day. pose proof (Z.mod_pos_bound s 86400). split; [apply Z.div_pos; lia|].
    enough (s mod 86400 / 3600 < 24) by lia. apply Z.div_lt_upper_bound; lia. }
  destruct (Z.eq_dec (hour_of_day s) 0) as [Z0|Z0].
  - rewrite Z0. split.
    + intros C. exfalso. revert C. unfold Check.
      assert (T : Z.testbit (mask 1 l) 0 = false).
      { clear -F. induction l as [|x l IH]; [reflexivity|]. pose proof (Forall_inv F) as Fx. apply Forall_inv_tail in F.
        cbn [mask fold_right]. fold (mask 1 l). cbn beta in Fx. rewrite Z.lor_spec, IH, Z.shiftl_1_l, Z.pow2_bits_false by (assumption || lia). reflexivity. }
      replace (Z.land (2 ^ 0) (mask 1 l)) with 0; [discriminate|].
      symmetry. apply Z.bits_inj'. intros k K. rewrite Z.land_spec, Z.bits_0.
      destruct (Z.eq_dec k 0) as [-> |Q]; [now rewrite T, andb_false_r|]. rewrite Z.pow2_bits_false by lia. reflexivity.
    + intros I. exfalso. rewrite Forall_forall in F. apply F in I. lia.
  - replace (2 ^ hour_of_day s) with (Z.shiftl 1 (hour_of_day s - 1 + 1)) by (rewrite Z.shiftl_1_l; f_equal; lia).
    apply C29_membership; [lia|lia|]. eapply Forall_impl; [|exact F]. cbn. lia.
Qed.
Print Assumptions C29_schedule_hours_refuted.
Example C29_schedule_case : mask 0 [0; 4] = 17 /\ Check 17 (Weekdays_const 4) = true /\ mask 1 [9] = DayHours_const 9 /\
  DayHours (Instant (9 * 3600) 0) = Ok (2 ^ 9) /\ Check (mask 1 [9]) (2 ^ 9) = false /\ Check (mask 1 [9]) (2 ^ 10) = true.
Proof. vm_compute. repeat split. Qed.
Example C29_example : Weekdays (Instant 0 0) = Ok (Weekdays_const 3) /\
  Weekdays (Instant 1000000000 0) = Ok (Weekdays_const 6) /\ Weekdays (Instant (-1) 0) = Ok (Weekdays_const 3) /\
  Weekdays (Instant (-400000) 0) = Panic /\ weekday (-1) = 2 /\
  DayHours (Instant 3600 0) = Ok (DayHours_const 0) /\ DayHours (Instant (-3600) 0) = Panic.
Proof. vm_compute. repeat split. Qed.

(** C30: comparing instants is a strict total order, *)
Theorem C30_order : (forall t, Pass t t = false) /\
  (forall a b c, Pass a b = true -> Pass b c = true -> Pass a c = true) /\
  (forall a b, Pass a b = true \/ Pass b a = true \/ a = b).
Proof. exact pass_order. Qed.
Print Assumptions C30_order.
(** the order of time when nanoseconds are below a second, *)
Theorem C30_order_is_time : forall a b, normal (nsec a) -> normal (nsec b) ->
  (Pass a b = true <-> nanos (sec b) (nsec b) < nanos (sec a) (nsec a)).
Proof. exact pass_nanos. Qed.
Print Assumptions C30_order_is_time.
(** adding a duration adds it exactly and never goes back in one step, *)
Theorem C30_add_partial : forall t d, normal (nsec t) -> 0 <= d -> int64 d -> 0 <= sec t ->
  int64 (sec t + d / 1000000000) ->
  nanos (sec (Add t d)) (nsec (Add t d)) = nanos (sec t) (nsec t) + d /\ Pass t (Add t d) = false.
Proof.
  intros t d Hn Hd Hi Ht Hs. rewrite (add_spec t d) by auto. unfold Pass, nanos; cbn [sec nsec].
  pose proof (Z.div_mod d 1000000000). pose proof (Z.mod_pos_bound d 1000000000).
  pose proof (Z.div_pos d 1000000000). lia.
Qed.
Print Assumptions C30_add_partial.
(** but there is no carry: whenever the nanoseconds pass a second the result is another
    representation than the normal one, and compares as earlier than itself; *)
Theorem C30_add_no_carry_refuted : forall t d, normal (nsec t) -> 0 <= d -> int64 d -> 0 <= sec t ->
  int64 (sec t + d / 1000000000) -> 1000000000 <= nsec t + d mod 1000000000 ->
  forall u, normal (nsec u) -> nanos (sec u) (nsec u) = nanos (sec t) (nsec t) + d ->
  Pass u (Add t d) = true.
Proof.
  intros t d Hn Hd Hi Ht Hs Hc u Hu E. rewrite (add_spec t d) by auto. unfold Pass, nanos, normal in *; cbn [sec nsec].
  pose proof (Z.div_mod d 1000000000). pose proof (Z.mod_pos_bound d 1000000000). lia.
Qed.
Print Assumptions C30_add_no_carry_refuted.
(** and three additions of almost a second go back in time. *)
Theorem C30_add_overflow_refuted : exists t d, normal (nsec t) /\ 0 <= d < 1000000000 /\
  Pass t (Add (Add (Add t d) d) d) = true.
Proof. exists (Instant 100 999999999), 999999999. vm_compute. repeat split; congruence. Qed.
Print Assumptions C30_add_overflow_refuted.
(** The elapsed time is exact exactly for instants in the same second. *)
Theorem C30_since_refuted : forall t b, normal (nsec t) -> normal (nsec b) ->
  int64 (sec b - sec t) -> int64 (sec b - sec t + (nsec b - nsec t)) ->
  (Since t b = nanos (sec b) (nsec b) - nanos (sec t) (nsec t) <-> sec b = sec t).
Proof. intros t b Ht Hb H1 H2. rewrite since_spec by auto. unfold nanos. lia. Qed.
Print Assumptions C30_since_refuted.
(** Reading an instant as nanoseconds, microseconds and milliseconds rounds down. *)
Theorem C30_elapsed_units : forall s n, normal n -> int64 (nanos s n) -> 0 <= s ->
  NanoElapsed (Instant s n) = nanos s n /\ MicroElapsed (Instant s n) = nanos s n / 1000 /\
  MilliElapsed (Instant s n) = nanos s n / 1000000.
Proof.
  intros s n Hn H Hs. unfold normal in *. split; [now apply elapsed_exact|].
  unfold nanos, int64 in *. change (2 ^ 63) with 9223372036854775808 in *.
  split; [apply micro_exact|apply milli_exact]; unfold int64, normal; lia.
Qed.
Print Assumptions C30_elapsed_units.
Example C30_example : Pass (Instant 5 3) (Instant 4 999999999) = true /\
  Add (Instant 7 100) 2000000005 = Instant 9 105 /\ Add (Instant 7 999999999) 1 = Instant 7 1000000000 /\
  Since (Instant 7 0) (Instant 9 5) = 7 /\ MilliElapsed (Instant 7 5999999) = 7005.
Proof. vm_compute. repeat split. Qed.

(** C70: monotonic times: order, addition and differences agree, even when the counter wraps; *)
Theorem C70_monotonic_partial : (forall t, MPass t t = false) /\
  (forall a b c, MPass a b = true -> MPass b c = true -> MPass a c = true) /\
  (forall a b, MPass a b = true \/ MPass b a = true \/ a = b) /\
  (forall t d, int64 d -> MSince t (MAdd t d) = d /\ MUntil (MAdd t d) t = d) /\
  (forall t d, int64 (t + d) -> (MPass (MAdd t d) t = true <-> 0 < d)) /\
  (forall a b, int64 (b - a) -> (0 < MSince a b <-> MPass b a = true)).
Proof.
  unfold MPass, MSince, MUntil, MAdd. repeat split; intros; try lia.
  - now apply i64_sub_add.
  - now apply i64_sub_add.
  - rewrite i64_id in * by auto; lia.
  - rewrite i64_id in * by auto; lia.
  - rewrite i64_id in * by auto; lia.
  - rewrite i64_id in * by auto; lia.
Qed.
Print Assumptions C70_monotonic_partial.
(** but seconds are counted as nanoseconds, and the nanoseconds in the second are lost:
    always zero, and a panic at time zero. *)
Theorem C70_seconds_refuted : forall t,
  (MSecondElapsed t = Z.quot t 1000000000 <-> t = 0) /\
  MNanoInSecondElapsed t = (if t =? 0 then Panic else Ok 0).
Proof.
  intros t. unfold MNanoInSecondElapsed, MSecondElapsed, OneSecond. rewrite Z.quot_1_r. split.
  - split; [|intros ->; reflexivity]. intros E. pose proof (Z.quot_rem' t 1000000000) as Q.
    destruct (Z.le_gt_cases 0 t).
    + pose proof (Z.rem_bound_pos t 1000000000 ltac:(lia) ltac:(lia)). lia.
    + pose proof (rem_neg t 1000000000 ltac:(lia) ltac:(lia)). lia.
  - destruct (t =? 0) eqn:E; auto. rewrite Z.rem_same by lia. reflexivity.
Qed.
Print Assumptions C70_seconds_refuted.
Example C70_example : MSecondElapsed 3000000001 = 3000000001 /\ MSince 5 (MAdd 5 7) = 7 /\
  MSince (2 ^ 63 - 1) (MAdd (2 ^ 63 - 1) 5) = 5.
Proof. vm_compute. auto. Qed.

(** C71: the number of whole periods elapsed: right for periods in seconds, *)
Theorem C71_periods_in_seconds : forall s n d, 0 <= s -> normal n -> 0 < d ->
  ElapsedBySecond (Instant s n) d = nanos s n / (d * 1000000000).
Proof. exact by_second. Qed.
Print Assumptions C71_periods_in_seconds.
(** and for periods given in nanoseconds when they are whole seconds; *)
Theorem C71_periods_whole_seconds_partial : forall s n k, 0 <= s -> normal n -> 0 < k -> int64 (k * 1000000000) ->
  ElapsedByNanoSecond (Instant s n) (k * 1000000000) = Ok (nanos s n / (k * 1000000000)).
Proof. exact by_nano_whole. Qed.
Print Assumptions C71_periods_whole_seconds_partial.
(** for every period below a second it is right exactly in the first second of 1970. *)
Theorem C71_periods_below_second_refuted : forall s n d, 0 <= s -> normal n -> int64 (s + n) -> 0 < d < 1000000000 ->
  (ElapsedByNanoSecond (Instant s n) d = Ok (nanos s n / d) <-> s = 0).
Proof.
  intros s n d Hs Hn Hi Hd. rewrite by_nano_small by auto. split.
  - intros E. apply Ok_inj in E. destruct (Z.eq_dec s 0); auto.
    pose proof (by_nano_small_short s n d ltac:(lia) Hn Hd). lia.
  - intros ->. reflexivity.
Qed.
Print Assumptions C71_periods_below_second_refuted.
(** For one longer than a second that is no whole number of seconds, the seconds are divided by its seconds and the nanoseconds by its
    nanoseconds, and the two are added: never too few periods, and the right number exactly while the nanoseconds count none and the
    whole seconds alone hold that many periods; wrong for good once the lost fractions sum up. *)
Theorem C71_periods_mixed_exact : forall s n k r, 0 <= s -> int64 (s + n) -> normal n -> 0 < k -> 0 < r < 1000000000 -> int64 (k * 1000000000 + r) ->
  let d := k * 1000000000 + r in
  exists p, ElapsedByNanoSecond (Instant s n) d = Ok p /\ p = s / k + n / r /\
  nanos s n / d <= p /\
  (p = nanos s n / d <-> n < r /\ (s / k) * d <= nanos s n) /\
  ((k + 1) * 1000000000 <= (s / k) * r -> nanos s n / d < p).
Proof.
  intros s n k r Hs Is Hn Hk Hr Hi d.
  assert (J : ToSecAndNano d = (k, r)).
  { unfold d. replace (k * 1000000000 + r) with (nanos k r) in * by reflexivity. apply join_split; auto; lia. }
  exists (s / k + n / r). unfold normal, int64 in *.
  assert (P : 0 <= s / k <= s) by (split; [apply Z.div_pos; lia|apply Z.div_le_upper_bound; nia]).
  assert (N : 0 <= n / r <= n) by (split; [apply Z.div_pos; lia|apply Z.div_le_upper_bound; nia]).
  pose proof (Z.div_mod s k ltac:(lia)) as E. pose proof (Z.mod_pos_bound s k Hk) as B.
  assert (Dp : 0 < d) by (unfold d; lia).
  assert (Le : nanos s n / d <= s / k).
  { apply Z.lt_succ_r, Z.div_lt_upper_bound; [lia|]. unfold nanos, d. nia. }
  assert (Sm : n / r = 0 <-> n < r) by (split; intros; [pose proof (Z.div_small_iff n r ltac:(lia)); lia|apply Z.div_small; lia]).
  assert (Q : s / k = nanos s n / d <-> (s / k) * d <= nanos s n).
  { split; [intros ->; rewrite Z.mul_comm; apply Z.mul_div_le; lia|]. intros H.
    assert (s / k <= nanos s n / d) by (apply Z.div_le_lower_bound; lia). lia. }
  split; [|split; [reflexivity|split; [lia|split]]].
  - unfold ElapsedByNanoSecond. replace (d <? 0) with false by lia. replace (d =? 0) with false by lia. rewrite J.
    replace (0 <? k) with true by lia. replace (0 <? r) with true by lia. cbn [sec nsec]. unfold OneSecond. rewrite Z.quot_1_r.
    rewrite !quot_floor by lia. rewrite i64_id by (unfold int64; lia). reflexivity.
  - split.
    + intros H. assert (n / r = 0) by lia. split; [tauto|]. apply Q. lia.
    + intros [H1 H2]. apply Sm in H1. apply Q in H2. lia.
  - intros H. destruct (Z.eq_dec (s / k) (nanos s n / d)) as [e|]; [|lia]. apply Q in e. exfalso. unfold nanos, d in e. nia.
Qed.
Print Assumptions C71_periods_mixed_exact.
(** No period at all counts nanoseconds, and a negative one nothing. *)
Theorem C71_no_period : forall t d, ElapsedByNanoSecond t 0 = Ok (NanoElapsed t) /\ (d < 0 -> ElapsedByNanoSecond t d = Ok 0).
Proof. intros t d. split; [reflexivity|]. intros H. unfold ElapsedByNanoSecond. now replace (d <? 0) with true by lia. Qed.
Print Assumptions C71_no_period.
Example C71_example : ElapsedBySecond (Instant 100 5) 7 = 14 /\
  ElapsedByNanoSecond (Instant 100 5) 7000000000 = Ok 14 /\ ElapsedByNanoSecond (Instant 100 5) 500000000 = Ok 0
  /\ ElapsedByNanoSecond (Instant 10 0) 1500000000 = Ok 10.
Proof. vm_compute. auto. Qed.

(** C72: whole minutes, hours, days and weeks of a time from 1970 on, *)
Theorem C72_units_of_seconds : forall s n, 0 <= s ->
  MinuteElapsed (Instant s n) = s / 60 /\ HourElapsed (Instant s n) = s / 3600 /\
  DayElapsed (Instant s n) = day_number s /\ WeekElapsed (Instant s n) = s / 604800.
Proof. intros. repeat split; apply quot_floor; cbv; auto; lia. Qed.
Print Assumptions C72_units_of_seconds.
(** and of a duration in nanoseconds: each unit is wrong from its 60, 3600, ... th
    nanosecond on. *)
Theorem C72_units_of_nanoseconds_refuted : forall d,
  (60 <= d -> Minute_FromNanoSecond d <> d / 60000000000) /\
  (3600 <= d -> Hour_FromNanoSecond d <> d / 3600000000000) /\
  (86400 <= d -> Day_FromNanoSecond d <> d / 86400000000000) /\
  (604800 <= d -> Week_FromNanoSecond d <> d / 604800000000000).
Proof.
  intros d. unfold Minute_FromNanoSecond, Hour_FromNanoSecond, Day_FromNanoSecond, Week_FromNanoSecond.
  change NanoSecondInMinute with 60. change NanoSecondInHour with 3600.
  change NanoSecondInDay with 86400. change NanoSecondInWeek with 604800.
  repeat split; intros H; rewrite quot_floor by lia; Z.div_mod_to_equations; lia.
Qed.
Print Assumptions C72_units_of_nanoseconds_refuted.
Example C72_example : DayElapsed (Instant 1000000000 0) = 11574 /\ Hour_FromNanoSecond 7200 = 2.
Proof. vm_compute. auto. Qed.

(** C73: the atomic time.  Alone, a store is read back, *)
Theorem C73_store_alone_partial : forall m t, interleave [true; true; true] m (SLoad t) SDone = (t, SDone, SDone).
Proof. intros m [s n]. cbn. now rewrite Z.eqb_refl. Qed.
Print Assumptions C73_store_alone_partial.
(** but a reader in the middle of a store sees a time nobody stored, *)
Theorem C73_torn_read_refuted : forall old new, sec old <> sec new -> nsec old <> nsec new ->
  exists sched m a b, interleave sched old (SLoad new) SDone = (m, a, b) /\ m <> old /\ m <> new.
Proof.
  intros old new Hs Hn. exists [true; true]. cbn. eexists _, _, _. split; [reflexivity|].
  split; intros E; [apply Hs|apply Hn]; rewrite <- E; reflexivity.
Qed.
Print Assumptions C73_torn_read_refuted.
(** two concurrent stores can leave a mixture of both, for good, *)
Theorem C73_mixed_stores_refuted : forall old t u, sec t <> sec u -> nsec t <> nsec u ->
  nsec t <> nsec old ->
  exists sched m, interleave sched old (SLoad t) (SLoad u) = (m, SDone, SDone) /\ m <> t /\ m <> u.
Proof.
  intros old t u Hs Hn Ho. exists [true; false; true; true; false; false], (Instant (sec u) (nsec t)).
  cbn. rewrite Z.eqb_refl. cbn. replace (nsec t =? nsec old) with false by lia.
  split; [reflexivity|]. split; intros E; [apply Hs|apply Hn]; rewrite <- E; reflexivity.
Qed.
Print Assumptions C73_mixed_stores_refuted.
(** and a compare-and-swap that reports failure has changed the time exactly when the
    seconds agree, the nanoseconds do not and the new seconds differ. *)
Theorem C73_failed_cas_refuted : forall m old new,
  (snd (ACompareAndSwap m old new) = true <-> m = old) /\
  (m = old -> fst (ACompareAndSwap m old new) = new) /\
  (snd (ACompareAndSwap m old new) = false ->
    (fst (ACompareAndSwap m old new) <> m <-> sec m = sec old /\ sec new <> sec m)).
Proof.
  intros [s n] [s1 n1] [s2 n2]. unfold ACompareAndSwap; cbn [sec nsec].
  destruct (Z.eqb_spec s s1) as [->|Hs]; cbn [sec nsec fst snd].
  - destruct (Z.eqb_spec n n1) as [->|Hn]; cbn [sec nsec fst snd].
    + repeat split; congruence.
    + split; [split; congruence|]. split; [congruence|]. intros _. split.
      * intros H; split; congruence.
      * intros [_ H] E. apply H. now injection E.
  - split; [split; congruence|]. split; [congruence|]. intros _. split; [congruence|intros [? _]; congruence].
Qed.
Print Assumptions C73_failed_cas_refuted.
Example C73_example : ACompareAndSwap (Instant 5 1) (Instant 5 2) (Instant 9 9) = (Instant 9 1, false).
Proof. reflexivity. Qed.
Example C73_cases : exists sched m a b, interleave sched (Instant 5 1) (SLoad (Instant 9 9)) SDone = (m, a, b) /\ m <> Instant 5 1 /\ m <> Instant 9 9.
Proof. apply C73_torn_read_refuted; discriminate. Qed.
