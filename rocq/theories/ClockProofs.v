(** Proofs about times. *)
From Coq Require Import ZifyBool ZifyNat.
From Verif Require Import Go GoFacts ClockModel ClockSpec.

Lemma i64_id x : int64 x -> i64 x = x.
Proof. unfold int64. intros; apply i64_small; lia. Qed.
Lemma i32_id x : - 2 ^ 31 <= x < 2 ^ 31 -> i32 x = x.
Proof.
  unfold i32. change (2 ^ 31) with 2147483648. change (2 ^ 32) with 4294967296. intros H.
  rewrite Z.mod_small by lia. lia.
Qed.

Lemma Ok_inj {A} (a b : A) : Ok a = Ok b -> a = b.
Proof. now injection 1. Qed.

Ltac nums := change (2 ^ 63) with 9223372036854775808 in *; change (2 ^ 31) with 2147483648 in *.
Ltac qr a b := let H := fresh "Q" in let H2 := fresh "Q" in let H3 := fresh "Q" in
  pose proof (Z.quot_rem' a b) as H;
  assert (H2 : 0 <= a -> 0 <= Z.rem a b < b) by (intros; apply Z.rem_bound_pos; lia);
  assert (H3 : a <= 0 -> - b < Z.rem a b <= 0) by (intros; apply Z.rem_bound_pos_neg || apply Z.rem_bound_neg_pos; lia).

Lemma split_spec d : int64 d -> exists s n, ToSecAndNano d = (s, n) /\ d = nanos s n /\
  s = Z.quot d 1000000000 /\ n = Z.rem d 1000000000 /\
  (0 <= d -> 0 <= s /\ 0 <= n < 1000000000) /\ (d <= 0 -> s <= 0 /\ - 1000000000 < n <= 0) /\ int64 s.
Proof.
  intros H. unfold ToSecAndNano, Second_FromNanoSecond, Second_ToNanoSecond, NanoSecondInSecond.
  qr d 1000000000. unfold int64, nanos in *; nums.
  set (q := Z.quot d 1000000000) in *. set (r := Z.rem d 1000000000) in *.
  rewrite (i64_id (q * 1000000000)) by (unfold int64; nums; lia).
  replace (d - q * 1000000000) with r by lia.
  rewrite (i64_id r) by (unfold int64; nums; lia). rewrite (i32_id r) by (nums; lia).
  exists q, r. repeat split; lia.
Qed.

Lemma split_join d : int64 d -> forall s n, ToSecAndNano d = (s, n) -> FromSecAndNano s n = d.
Proof.
  intros H s n E. destruct (split_spec d H) as (s' & n' & E' & Hd & Hs & Hn & Hp & Hm & Hi).
  rewrite E in E'. assert (s' = s /\ n' = n) as [-> ->] by (split; congruence). clear Hs Hn. unfold FromSecAndNano, Second_ToNanoSecond, NanoSecondInSecond.
  unfold nanos, int64 in *. nums.
  rewrite (i64_id (s * 1000000000)) by (unfold int64; nums; lia).
  rewrite <- Hd. apply i64_id; unfold int64; nums; lia.
Qed.

Lemma join_split s n : int64 (nanos s n) -> -1000000000 < n < 1000000000 ->
  (0 <= s /\ 0 <= n \/ s <= 0 /\ n <= 0) ->
  FromSecAndNano s n = nanos s n /\ ToSecAndNano (nanos s n) = (s, n).
Proof.
  intros H Hn Hs. split.
  - unfold FromSecAndNano, Second_ToNanoSecond, NanoSecondInSecond, nanos, int64 in *. nums.
    rewrite (i64_id (s * 1000000000)) by (unfold int64; nums; lia).
    apply i64_id; unfold int64; nums; lia.
  - destruct (split_spec _ H) as (s' & n' & -> & Hd & -> & -> & Hp & Hm & _).
    qr (nanos s n) 1000000000. unfold nanos, int64 in *. nums.
    set (q := Z.quot _ _) in *. set (r := Z.rem _ _) in *. f_equal; lia.
Qed.

Lemma elapsed_exact s n : normal n -> int64 (nanos s n) -> NanoElapsed (Instant s n) = nanos s n.
Proof.
  intros Hn H. unfold NanoElapsed, FromSecAndNano, Second_ToNanoSecond, NanoSecondInSecond, nanos, normal, int64 in *.
  cbn [sec nsec]. transitivity (i64 (s * 1000000000 + n)); [|apply i64_id; unfold int64; lia].
  unfold i64. change (2 ^ 63) with 9223372036854775808. change (2 ^ 64) with 18446744073709551616. 
  Z.div_mod_to_equations; lia.
Qed.

Lemma quot_floor a b : 0 <= a -> 0 < b -> Z.quot a b = a / b.
Proof. intros; apply Z.quot_div_nonneg; lia. Qed.

Lemma micro_exact s n : normal n -> int64 (s * 1000000) -> int64 (s * 1000000 + 1000000) ->
  MicroElapsed (Instant s n) = nanos s n / 1000.
Proof.
  intros Hn H H'. unfold MicroElapsed, Micro_FromSecAndNano, nanos, normal, int64 in *. cbn [sec nsec].
  rewrite (i64_id (s * 1000000)) by (unfold int64; lia). rewrite quot_floor by lia. nums.
  rewrite i64_id by (unfold int64; nums; Z.div_mod_to_equations; lia). Z.div_mod_to_equations; lia.
Qed.
Lemma milli_exact s n : normal n -> int64 (s * 1000) -> int64 (s * 1000 + 1000) ->
  MilliElapsed (Instant s n) = nanos s n / 1000000.
Proof.
  intros Hn H H'. unfold MilliElapsed, Milli_FromSecAndNano, nanos, normal, int64 in *. cbn [sec nsec].
  rewrite (i64_id (s * 1000)) by (unfold int64; lia). rewrite quot_floor by lia. nums.
  rewrite i64_id by (unfold int64; nums; Z.div_mod_to_equations; lia). Z.div_mod_to_equations; lia.
Qed.

Lemma rem_neg a b : a <= 0 -> 0 < b -> - b < Z.rem a b <= 0.
Proof.
  intros Ha Hb. pose proof (Z.rem_bound_pos (- a) b ltac:(lia) Hb) as R. rewrite Z.rem_opp_l in R by lia. lia.
Qed.

(** * Calendar *)
Lemma shl1_ok bits n : 0 <= n < bits -> shl1 bits n = Ok (2 ^ n).
Proof.
  intros H. unfold shl1. destruct (Z.ltb_spec n 0); [lia|].
  rewrite Z.shiftl_mul_pow2, Z.mul_1_l by lia. rewrite Z.mod_small; auto.
  split; [apply Z.pow_nonneg; lia|apply Z.pow_lt_mono_r; lia].
Qed.

Lemma weekday_ok s n : 0 <= s -> Weekdays (Instant s n) = Ok (2 ^ weekday s).
Proof.
  intros H. unfold Weekdays; cbn [sec]. rewrite Z.rem_mod_nonneg, quot_floor by (try apply Z.mod_pos_bound; lia).
  change (7 * 24 * 60 * 60) with 604800. change (24 * 60 * 60) with 86400.
  set (q := s mod 604800 / 86400).
  assert (Hq : 0 <= q < 7) by (subst q; Z.div_mod_to_equations; lia).
  assert (Hw : weekday s = if q <? 4 then q + 3 else q - 4).
  { unfold weekday, day_number. replace (s / 86400) with (7 * (s / 604800) + q) by (subst q; Z.div_mod_to_equations; lia).
    destruct (Z.ltb_spec q 4); Z.div_mod_to_equations; lia. }
  rewrite Hw. apply shl1_ok. destruct (Z.ltb_spec q 4); lia.
Qed.

Lemma weekday_range s : 0 <= weekday s < 7.
Proof. unfold weekday. Z.div_mod_to_equations; lia. Qed.

Lemma pow2_inj a b : 0 <= a -> 0 <= b -> 2 ^ a = 2 ^ b -> a = b.
Proof. intros Ha Hb H. apply (Z.pow_inj_r 2); lia. Qed.

(** Before 1970 the truncated day index is minus the days back, rounded towards 1970. *)
Lemma weekday_negative s n : s < 0 ->
  (Weekdays (Instant s n) = Ok (2 ^ weekday s) <-> s mod 86400 = 0 /\ (- s / 86400) mod 7 <= 3).
Proof.
  intros H. unfold Weekdays; cbn [sec].
  change (7 * 24 * 60 * 60) with 604800. change (24 * 60 * 60) with 86400.
  set (k := (- s) mod 604800 / 86400).
  assert (Hk : 0 <= k < 7) by (subst k; Z.div_mod_to_equations; lia).
  replace (Z.quot (Z.rem s 604800) 86400) with (- k).
  2:{ replace s with (- (- s)) at 1 by lia. rewrite Z.rem_opp_l by lia. rewrite Z.quot_opp_l by lia.
      rewrite Z.rem_mod_nonneg, quot_floor by (try apply Z.mod_pos_bound; lia). reflexivity. }
  replace (- k <? 4) with true by lia.
  assert (Hm : (- s / 86400) mod 7 = k).
  { replace (- s / 86400) with (7 * (- s / 604800) + k) by (subst k; Z.div_mod_to_equations; lia).
    Z.div_mod_to_equations; lia. }
  rewrite Hm. pose proof (weekday_range s) as Hr.
  assert (Hd : exists a r, - s = 86400 * (7 * a + k) + r /\ 0 <= r < 86400).
  { exists (- s / 604800), (- s mod 604800 mod 86400). subst k. Z.div_mod_to_equations; lia. }
  destruct Hd as (a & r & Hd & Hr').
  assert (Hw : s mod 86400 = 0 -> weekday s = (3 - k) mod 7).
  { intros E. assert (r = 0) by (clear Hm; Z.div_mod_to_equations; lia). unfold weekday, day_number.
    replace (s / 86400) with (- (7 * a + k)) by (clear Hm; Z.div_mod_to_equations; lia).
    replace (- (7 * a + k) + 3) with (3 - k + (- a) * 7) by lia. apply Z.mod_add; lia. }
  assert (Hw' : s mod 86400 <> 0 -> weekday s = (2 - k) mod 7).
  { intros E. assert (r <> 0).
    { intros ->. apply E. replace s with (- (7 * a + k) * 86400) by lia. apply Z.mod_mul; lia. }
    unfold weekday, day_number.
    replace (s / 86400) with (- (7 * a + k) - 1) by (clear Hm E; Z.div_mod_to_equations; lia).
    replace (- (7 * a + k) - 1 + 3) with (2 - k + (- a) * 7) by lia. apply Z.mod_add; lia. }
  destruct (Z.le_gt_cases k 3) as [H3|H3].
  - rewrite shl1_ok by lia. replace (- k + 3) with (3 - k) by lia. destruct (Z.eq_dec (s mod 86400) 0) as [E|E].
    + rewrite (Hw E), Z.mod_small by lia. split; [lia|reflexivity].
    + split; [|lia]. intros E2; pose proof (Ok_inj _ _ E2) as E3. apply pow2_inj in E3; try lia.
  - unfold shl1. replace (- k + 3 <? 0) with true by lia. split; [discriminate|lia].
Qed.

Lemma hours_ok s n : 0 <= s -> DayHours (Instant s n) = Ok (2 ^ hour_of_day s).
Proof.
  intros H. unfold DayHours, hour_of_day; cbn [sec].
  rewrite Z.rem_mod_nonneg, quot_floor by (try apply Z.mod_pos_bound; lia).
  change (24 * 60 * 60) with 86400. change (60 * 60) with 3600.
  apply shl1_ok. Z.div_mod_to_equations; lia.
Qed.

Lemma hour_range s : 0 <= hour_of_day s < 24.
Proof. unfold hour_of_day. Z.div_mod_to_equations; lia. Qed.

Lemma const_pow h : 0 <= h -> DayHours_const h = 2 ^ (h + 1).
Proof. intros. unfold DayHours_const. rewrite Z.shiftl_mul_pow2 by lia. lia. Qed.

Lemma hours_never s n : DayHours (Instant s n) <> Ok (DayHours_const (hour_of_day s)).
Proof.
  pose proof (hour_range s) as Hr. rewrite const_pow by lia.
  destruct (Z.le_gt_cases 0 s) as [H|H].
  - rewrite hours_ok by lia. intros E; pose proof (Ok_inj _ _ E) as E1. apply pow2_inj in E1; lia.
  - unfold DayHours; cbn [sec].
    change (24 * 60 * 60) with 86400. change (60 * 60) with 3600.
    set (k := Z.quot (Z.rem s 86400) 3600). assert (Hk : k <= 0).
    { subst k. pose proof (rem_neg s 86400 ltac:(lia) ltac:(lia)) as R.
      assert (Z.quot (- Z.rem s 86400) 3600 = (- Z.rem s 86400) / 3600) as R2 by (apply quot_floor; lia).
      rewrite Z.quot_opp_l in R2 by lia. pose proof (Z.div_pos (- Z.rem s 86400) 3600 ltac:(lia) ltac:(lia)). lia. }
    destruct (Z.eq_dec k 0) as [->|Hk0].
    + rewrite shl1_ok by lia. intros E; pose proof (Ok_inj _ _ E) as E1.
      symmetry in E1; apply (pow2_inj _ 0) in E1; lia.
    + unfold shl1. destruct (Z.ltb_spec k 0); [discriminate|lia].
Qed.

(** * Order *)
Lemma pass_order : (forall t, Pass t t = false) /\
  (forall a b c, Pass a b = true -> Pass b c = true -> Pass a c = true) /\
  (forall a b, Pass a b = true \/ Pass b a = true \/ a = b).
Proof.
  unfold Pass. repeat split.
  - intros; lia.
  - intros; lia.
  - intros [s n] [s' n']; cbn [sec nsec].
    destruct (Z.lt_trichotomy s s') as [?|[?|?]], (Z.lt_trichotomy n n') as [?|[?|?]]; try lia.
    right; right; congruence.
Qed.

Lemma pass_nanos a b : normal (nsec a) -> normal (nsec b) ->
  (Pass a b = true <-> nanos (sec b) (nsec b) < nanos (sec a) (nsec a)).
Proof. unfold normal, Pass, nanos. lia. Qed.

Lemma add_spec t d : normal (nsec t) -> 0 <= d -> int64 d -> 0 <= sec t -> int64 (sec t + d / 1000000000) ->
  Add t d = Instant (sec t + d / 1000000000) (nsec t + d mod 1000000000).
Proof.
  intros Hn Hd Hi Ht Hs. unfold Add. destruct (split_spec d Hi) as (s & n & -> & E & -> & -> & Hp & _).
  rewrite quot_floor, Z.rem_mod_nonneg in * by lia. unfold normal in *.
  rewrite i64_id by (unfold int64 in *; lia). rewrite i32_id by (nums; Z.div_mod_to_equations; lia). reflexivity.
Qed.

Lemma since_spec t b : int64 (sec b - sec t) -> normal (nsec t) -> normal (nsec b) ->
  int64 (sec b - sec t + (nsec b - nsec t)) ->
  Since t b = sec b - sec t + (nsec b - nsec t).
Proof.
  intros. unfold Since, OneSecond, normal, int64 in *. rewrite (i32_id (nsec b - nsec t)) by (nums; lia).
  rewrite Z.mul_1_r. rewrite (i64_id (sec b - sec t)) by (unfold int64; lia).
  rewrite (i64_id (sec b - sec t)) by (unfold int64; lia). apply i64_id; unfold int64; lia.
Qed.

(** * Counting periods *)
Lemma by_second s n d : 0 <= s -> normal n -> 0 < d ->
  ElapsedBySecond (Instant s n) d = nanos s n / (d * 1000000000).
Proof.
  intros Hs Hn Hd. unfold ElapsedBySecond; cbn [sec]. replace (d <? 0) with false by lia.
  replace (d =? 0) with false by lia. rewrite quot_floor by lia.
  unfold nanos, normal in *. rewrite (Z.mul_comm d). rewrite <- Z.div_div by lia.
  rewrite Z.div_add_l by lia. rewrite (Z.div_small n) by lia. now rewrite Z.add_0_r.
Qed.

Lemma by_nano_whole s n k : 0 <= s -> normal n -> 0 < k -> int64 (k * 1000000000) ->
  ElapsedByNanoSecond (Instant s n) (k * 1000000000) = Ok (nanos s n / (k * 1000000000)).
Proof.
  intros Hs Hn Hk Hi. unfold ElapsedByNanoSecond.
  replace (k * 1000000000 <? 0) with false by lia. replace (k * 1000000000 =? 0) with false by lia.
  assert (J : ToSecAndNano (k * 1000000000) = (k, 0)).
  { replace (k * 1000000000) with (nanos k 0) in * by (unfold nanos; lia). apply join_split; auto; lia. }
  rewrite J. replace (0 <? k) with true by lia. replace (0 <? 0) with false by lia.
  f_equal. pose proof (by_second s n k Hs Hn Hk) as B. unfold ElapsedBySecond in B; cbn [sec nsec] in *.
  replace (k <? 0) with false in B by lia. replace (k =? 0) with false in B by lia. exact B.
Qed.

Lemma by_nano_small s n d : 0 <= s -> int64 (s + n) -> normal n -> 0 < d < 1000000000 ->
  ElapsedByNanoSecond (Instant s n) d = Ok (s / d + n / d).
Proof.
  intros Hs Hi Hn Hd. unfold ElapsedByNanoSecond.
  replace (d <? 0) with false by lia. replace (d =? 0) with false by lia.
  assert (J : ToSecAndNano d = (0, d)).
  { replace d with (nanos 0 d) at 1 by (unfold nanos; lia). apply join_split; try lia.
    unfold int64, nanos; nums; lia. }
  rewrite J.
  replace (0 <? 0) with false by lia. replace (d =? 0) with false by lia. cbn [sec nsec].
  unfold OneSecond, normal, int64 in *. nums. rewrite Z.mul_1_r, (i64_id s) by (unfold int64; nums; lia).
  rewrite !quot_floor by lia.
  assert (0 <= s / d <= s) by (split; [apply Z.div_pos; lia|apply Z.div_le_upper_bound; nia]).
  assert (0 <= n / d <= n) by (split; [apply Z.div_pos; lia|apply Z.div_le_upper_bound; nia]).
  rewrite i64_id by (unfold int64; nums; lia). reflexivity.
Qed.

Lemma by_nano_small_short s n d : 0 < s -> normal n -> 0 < d < 1000000000 ->
  s / d + n / d < nanos s n / d.
Proof.
  intros Hs Hn Hd. unfold nanos, normal in *.
  apply Z.lt_le_trans with ((s * 1000000000) / d + n / d).
  - assert (s / d + 1 <= s * 1000000000 / d); [|lia].
    rewrite <- (Z.div_add s 1 d) by lia. apply Z.div_le_mono; nia.
  - apply Z.div_le_lower_bound; [lia|].
    pose proof (Z.mul_div_le (s * 1000000000) d ltac:(lia)). pose proof (Z.mul_div_le n d ltac:(lia)). lia.
Qed.

(** * Monotonic *)
Lemma i64_sub_add t d : int64 d -> i64 (i64 (t + d) - t) = d.
Proof.
  intros H. transitivity (i64 d); [|now apply i64_id]. unfold i64.
  change (2 ^ 63) with 9223372036854775808. change (2 ^ 64) with 18446744073709551616.
  Z.div_mod_to_equations; lia.
Qed.
