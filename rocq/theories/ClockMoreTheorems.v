(** C161 the names of days; C162 adding to and exchanging an atomic time from many threads. *)
From Coq Require Import String ZifyBool ZifyNat Permutation.
From Verif Require Import Go GoFacts ClockModel ClockSpec ClockProofs ClockTheorems ClockMoreModel.
Import ListNotations.
Open Scope string_scope. Open Scope Z_scope. Open Scope list_scope.

(** The days from Monday on. *)
Definition english : list bytes := [str "Monday"; str "Tuesday"; str "Wednesday"; str "Thursday"; str "Friday"; str "Saturday"; str "Sunday"].
(** C161.  From 1970 on the day of a time is given its English name; *)
Theorem C161_named_partial : forall s n, 0 <= s ->
  exists d, Weekdays (Instant s n) = Ok d /\ nth_error english (Z.to_nat (weekday s)) = Some (Weekdays_String English d).
Proof.
  intros s n H. rewrite C29_weekday_partial by assumption. eexists. split; [reflexivity|]. pose proof (weekday_range s) as R. unfold Weekdays_const.
  assert (C : weekday s = 0 \/ weekday s = 1 \/ weekday s = 2 \/ weekday s = 3 \/ weekday s = 4 \/ weekday s = 5 \/ weekday s = 6) by lia.
  repeat (destruct C as [->|C]; [reflexivity|]). rewrite C. reflexivity.
Qed.
Print Assumptions C161_named_partial.
(** in Persian, its Persian name (the code points of the letters, in UTF-8); *)
Definition utf8_2 (c : Z) : bytes := if c <? 128 then [c] else [192 + c / 64; 128 + c mod 64].
Definition text (l : list Z) : bytes := flat_map utf8_2 l.
(* U+0634 U+0646 U+0628 U+0647: the name of Saturday, which the names of five other days end with *)
Definition shanbeh : list Z := [0x634; 0x646; 0x628; 0x647].
Definition persian : list bytes := map text
  [[0x62F; 0x648] ++ shanbeh; [0x633; 0x647; 0x20] ++ shanbeh; [0x686; 0x647; 0x627; 0x631] ++ shanbeh; [0x67E; 0x646; 0x686; 0x20] ++ shanbeh;
   [0x62C; 0x645; 0x639; 0x647]; shanbeh; [0x6CC; 0x6A9] ++ shanbeh].
Theorem C161_persian_partial : forall s n, 0 <= s ->
  exists d, Weekdays (Instant s n) = Ok d /\ nth_error persian (Z.to_nat (weekday s)) = Some (Weekdays_String Persian d).
Proof.
  intros s n H. rewrite C29_weekday_partial by assumption. eexists. split; [reflexivity|]. pose proof (weekday_range s) as R. unfold Weekdays_const.
  assert (C : weekday s = 0 \/ weekday s = 1 \/ weekday s = 2 \/ weekday s = 3 \/ weekday s = 4 \/ weekday s = 5 \/ weekday s = 6) by lia.
  repeat (destruct C as [->|C]; [vm_compute; reflexivity|]). rewrite C. vm_compute. reflexivity.
Qed.
Print Assumptions C161_persian_partial.
(** different days have different names, in both languages; *)
Theorem C161_distinct : forall lang d e, lang <> OtherLanguage -> 0 <= d <= 6 -> 0 <= e <= 6 ->
  Weekdays_String lang (Weekdays_const d) <> [] /\
  (Weekdays_String lang (Weekdays_const d) = Weekdays_String lang (Weekdays_const e) -> d = e).
Proof.
  intros lang d e L D E. unfold Weekdays_const.
  assert (Cd : d = 0 \/ d = 1 \/ d = 2 \/ d = 3 \/ d = 4 \/ d = 5 \/ d = 6) by lia.
  assert (Ce : e = 0 \/ e = 1 \/ e = 2 \/ e = 3 \/ e = 4 \/ e = 5 \/ e = 6) by lia.
  destruct lang; [| |congruence]; clear L D E;
  (repeat (destruct Cd as [->|Cd]); try rewrite Cd; (split; [vm_compute; discriminate|]);
   repeat (destruct Ce as [->|Ce]); try rewrite Ce; vm_compute; first [reflexivity | discriminate]).
Qed.
Print Assumptions C161_distinct.
(** a set that is not one day has no name, and no day has one in another language. *)
Theorem C161_sets_refuted : forall lang w, Weekdays_String lang w = [] <-> lang = OtherLanguage \/ forall d, 0 <= d <= 6 -> w <> Weekdays_const d.
Proof.
  intros lang w. split.
  - intros H. destruct lang; [right|right|left; reflexivity]; intros d D ->; revert H; apply (C161_distinct _ d d); (discriminate || assumption).
  - intros [->|H]; [reflexivity|].
    pose proof (H 0 ltac:(lia)). pose proof (H 1 ltac:(lia)). pose proof (H 2 ltac:(lia)). pose proof (H 3 ltac:(lia)).
    pose proof (H 4 ltac:(lia)). pose proof (H 5 ltac:(lia)). pose proof (H 6 ltac:(lia)). unfold Weekdays_const in *.
    change (Z.shiftl 1 0) with 1 in *. change (Z.shiftl 1 1) with 2 in *. change (Z.shiftl 1 2) with 4 in *. change (Z.shiftl 1 3) with 8 in *.
    change (Z.shiftl 1 4) with 16 in *. change (Z.shiftl 1 5) with 32 in *. change (Z.shiftl 1 6) with 64 in *.
    unfold Weekdays_String.
    replace (w =? 1) with false by lia. replace (w =? 2) with false by lia. replace (w =? 4) with false by lia. replace (w =? 8) with false by lia.
    replace (w =? 16) with false by lia. replace (w =? 32) with false by lia. replace (w =? 64) with false by lia. destruct lang; reflexivity.
Qed.
Print Assumptions C161_sets_refuted.
Example C161_nonvacuous : (exists d, Weekdays (Instant 1700000000 0) = Ok d /\ Weekdays_String English d = str "Tuesday") /\
  Weekdays_String English (Z.lor 1 2) = [] /\ Weekdays_String OtherLanguage 1 = [].
Proof. split; [eexists; split; vm_compute; reflexivity|]. split; reflexivity. Qed.

(** * C162 *)
Definition secs (d : Z) : Z := d ÷ 1000000000.
Definition rest (d : Z) : Z := Z.rem d 1000000000.
Definition sum (l : list Z) : Z := fold_right Z.add 0 l.
(** What is still to be added. *)
Definition left_s (t : thread) : Z := match t with TAdd d => secs d | _ => 0 end.
Definition left_n (t : thread) : Z := match t with TAdd d => rest d | TAddNano n => n | _ => 0 end.
Definition adder (t : thread) : Prop := match t with TAdd d => int64 d | TAddNano _ | TDone => True | _ => False end.
Lemma sum_upd f (ts : list thread) i t t' : nth_error ts i = Some t -> sum (map f (upd ts i t')) = sum (map f ts) - f t + f t'.
Proof.
  revert i. induction ts as [|x ts IH]; intros [|i] H; try discriminate; cbn [nth_error upd map sum fold_right] in *.
  - injection H as ->. lia.
  - fold (sum (map f (upd ts i t'))). fold (sum (map f ts)). rewrite (IH i H). lia.
Qed.
Lemma i64_add a b : i64 (i64 a + b) = i64 (a + b).
Proof.
  unfold i64. f_equal. replace ((a + 2 ^ 63) mod 2 ^ 64 - 2 ^ 63 + b + 2 ^ 63) with ((a + 2 ^ 63) mod 2 ^ 64 + b) by ring.
  rewrite Z.add_mod_idemp_l by discriminate. f_equal. ring.
Qed.
Lemma i32_add a b : i32 (i32 a + b) = i32 (a + b).
Proof.
  unfold i32. f_equal. replace ((a + 2 ^ 31) mod 2 ^ 32 - 2 ^ 31 + b + 2 ^ 31) with ((a + 2 ^ 31) mod 2 ^ 32 + b) by ring.
  rewrite Z.add_mod_idemp_l by discriminate. f_equal. ring.
Qed.
Definition int32 (x : Z) : Prop := - 2 ^ 31 <= x < 2 ^ 31.
Lemma i64_range x : int64 (i64 x).
Proof. unfold int64, i64. pose proof (Z.mod_pos_bound (x + 2 ^ 63) (2 ^ 64)). lia. Qed.
Lemma i32_range x : int32 (i32 x).
Proof. unfold int32, i32. pose proof (Z.mod_pos_bound (x + 2 ^ 31) (2 ^ 32)). lia. Qed.
Lemma split_ok d : int64 d -> ToSecAndNano d = (secs d, rest d).
Proof. intros H. destruct (split_spec d H) as (a & b & E & _ & -> & -> & _). exact E. Qed.
Lemma Forall_upd {A} (P : A -> Prop) l i x : Forall P l -> P x -> Forall P (upd l i x).
Proof. revert i. induction l as [|a l IH]; intros [|i] F X; cbn [upd]; auto; inversion F; subst; constructor; auto. Qed.
Lemma schedule_adds l : forall m ts m' ts', int64 (sec m) -> int32 (nsec m) -> Forall adder ts -> schedule m ts l = (m', ts') ->
  Forall adder ts' /\ int64 (sec m') /\ int32 (nsec m') /\ i64 (sec m' + sum (map left_s ts')) = i64 (sec m + sum (map left_s ts)) /\
  i32 (nsec m' + sum (map left_n ts')) = i32 (nsec m + sum (map left_n ts)).
Proof.
  induction l as [|i l IH]; intros m ts m' ts' Is In F E; cbn [schedule] in E.
  - injection E as <- <-. auto.
  - destruct (nth_error ts i) as [t|] eqn:N; [|eapply IH; eassumption].
    assert (A : adder t) by (eapply Forall_forall; [exact F|eapply nth_error_In; exact N]).
    destruct (thread_step m t) as [m1 t1] eqn:T.
    destruct t as [d|n|?|? ?|?|]; cbn [adder] in A; try contradiction.
    + cbn [thread_step] in T. rewrite (split_ok d A) in T. injection T as <- <-.
      pose proof (fun a b c => IH _ _ _ _ a b c E) as Q. cbn [sec nsec] in Q. destruct (Q (i64_range _) In (Forall_upd adder ts i (TAddNano (rest d)) F I)) as (F' & I1 & I2 & E1 & E2).
      cbn [sec nsec] in E1, E2. rewrite (sum_upd left_s _ _ _ _ N) in E1. rewrite (sum_upd left_n _ _ _ _ N) in E2. cbn [left_s left_n] in E1, E2. rewrite i64_add in E1.
      refine (conj F' (conj I1 (conj I2 (conj _ _)))); [rewrite E1|rewrite E2]; f_equal; lia.
    + cbn [thread_step] in T. injection T as <- <-.
      pose proof (fun a b c => IH _ _ _ _ a b c E) as Q. cbn [sec nsec] in Q. destruct (Q Is (i32_range _) (Forall_upd adder ts i TDone F I)) as (F' & I1 & I2 & E1 & E2).
      cbn [sec nsec] in E1, E2. rewrite (sum_upd left_s _ _ _ _ N) in E1. rewrite (sum_upd left_n _ _ _ _ N) in E2. cbn [left_s left_n] in E1, E2. rewrite i32_add in E2.
      refine (conj F' (conj I1 (conj I2 (conj _ _)))); [rewrite E1|rewrite E2]; f_equal; lia.
    + cbn [thread_step] in T. injection T as <- <-.
      pose proof (fun a b c => IH _ _ _ _ a b c E) as Q. cbn [sec nsec] in Q. destruct (Q Is In (Forall_upd adder ts i TDone F I)) as (F' & I1 & I2 & E1 & E2).
      rewrite (sum_upd left_s _ _ _ _ N) in E1. rewrite (sum_upd left_n _ _ _ _ N) in E2. cbn [left_s left_n] in E1, E2.
      refine (conj F' (conj I1 (conj I2 (conj _ _)))); [rewrite E1|rewrite E2]; f_equal; lia.
Qed.
Lemma done_sums ts : Forall adder ts -> forallb finished ts = true -> sum (map left_s ts) = 0 /\ sum (map left_n ts) = 0.
Proof.
  induction ts as [|t ts IH]; intros F D; [auto|]. inversion F; subst. cbn [forallb] in D. apply andb_true_iff in D as (D1 & D2).
  destruct (IH H2 D2) as (A & B). destruct t; try discriminate; try contradiction. cbn [map sum fold_right left_s left_n]. unfold sum in *. lia.
Qed.
(** C162.  Whatever the schedule, when all additions have returned each is counted once: the seconds
    and the nanoseconds are the sums, wrapped; *)
Theorem C162_adds : forall m ds l m' ts', int64 (sec m) -> int32 (nsec m) -> Forall int64 ds ->
  schedule m (map TAdd ds) l = (m', ts') -> forallb finished ts' = true ->
  sec m' = i64 (sec m + sum (map secs ds)) /\ nsec m' = i32 (nsec m + sum (map rest ds)).
Proof.
  intros m ds l m' ts' Is In F E D.
  assert (A : Forall adder (map TAdd ds)) by (clear - F; induction F; cbn [map]; constructor; auto).
  destruct (schedule_adds l _ _ _ _ Is In A E) as (A' & I1 & I2 & E1 & E2). destruct (done_sums ts' A' D) as (Z1 & Z2).
  rewrite Z1, Z.add_0_r, (i64_id _ I1) in E1. rewrite Z2, Z.add_0_r, (i32_id _ I2) in E2. rewrite !map_map in E1, E2. cbn [left_s left_n] in E1, E2. auto.
Qed.
Print Assumptions C162_adds.
Lemma secs_rest ds : sum (map secs ds) * 1000000000 + sum (map rest ds) = sum ds.
Proof.
  induction ds as [|d ds IH]; [reflexivity|]. cbn [map].
  assert (C : forall a l, sum (a :: l) = a + sum l) by reflexivity. rewrite !C. assert (Q : secs d * 1000000000 + rest d = d) by (unfold secs, rest; pose proof (Z.quot_rem' d 1000000000); lia). lia.
Qed.
(** so the time is the start and all durations together, while both sums fit; *)
Theorem C162_total_partial : forall m ds l m' ts', int64 (sec m) -> int32 (nsec m) -> Forall int64 ds ->
  schedule m (map TAdd ds) l = (m', ts') -> forallb finished ts' = true ->
  int64 (sec m + sum (map secs ds)) -> int32 (nsec m + sum (map rest ds)) ->
  nanos (sec m') (nsec m') = nanos (sec m) (nsec m) + sum ds.
Proof.
  intros m ds l m' ts' Is In F E D Bs Bn. destruct (C162_adds _ _ _ _ _ Is In F E D) as (-> & ->).
  rewrite (i64_id _ Bs), (i32_id _ Bn). unfold nanos. rewrite <- (secs_rest ds). lia.
Qed.
Print Assumptions C162_total_partial.
(** but nanoseconds are not carried: once they sum to a second or more the time is not normal, and
    once they do not fit the additions are lost. *)
Theorem C162_carry_refuted : forall m ds l m' ts', int64 (sec m) -> normal (nsec m) -> Forall int64 ds -> Forall (fun d => 0 <= d) ds ->
  schedule m (map TAdd ds) l = (m', ts') -> forallb finished ts' = true -> int64 (sec m + sum (map secs ds)) ->
  1000000000 <= nsec m + sum (map rest ds) ->
  (~ normal (nsec m') \/ nanos (sec m') (nsec m') <> nanos (sec m) (nsec m) + sum ds) /\
  (2 ^ 31 <= nsec m + sum (map rest ds) -> nanos (sec m') (nsec m') <> nanos (sec m) (nsec m) + sum ds).
Proof.
  intros m ds l m' ts' Is Nn F P E D Bs C. assert (In : int32 (nsec m)) by (unfold normal, int32 in *; lia).
  destruct (C162_adds _ _ _ _ _ Is In F E D) as (-> & ->). rewrite (i64_id _ Bs).
  assert (W : 2 ^ 31 <= nsec m + sum (map rest ds) -> nanos (sec m + sum (map secs ds)) (i32 (nsec m + sum (map rest ds))) <> nanos (sec m) (nsec m) + sum ds).
  { intros B H. unfold nanos in H. rewrite <- (secs_rest ds) in H. pose proof (i32_range (nsec m + sum (map rest ds))) as R. unfold int32 in R. lia. }
  split; [|exact W]. destruct (Z.lt_ge_cases (nsec m + sum (map rest ds)) (2 ^ 31)) as [B|B]; [left|right; auto].
  rewrite i32_id by (unfold int32; lia). unfold normal. lia.
Qed.
Print Assumptions C162_carry_refuted.

(** * Exchanging *)
Lemma flat_upd {A} (f : thread -> list A) ts i t t' : nth_error ts i = Some t ->
  Permutation (f t ++ flat_map f (upd ts i t')) (f t' ++ flat_map f ts).
Proof.
  revert i. induction ts as [|x ts IH]; intros [|i] H; try discriminate; cbn [nth_error upd flat_map] in *.
  - injection H as ->. rewrite !app_assoc. apply Permutation_app_tail. apply Permutation_app_comm.
  - specialize (IH i H). rewrite (Permutation_app_comm (f x)), app_assoc, IH. rewrite <- app_assoc. apply Permutation_app_head. apply Permutation_app_comm.
Qed.
(** What swaps hold of seconds and nanoseconds: given out already, or still to be put in. *)
Definition held_s (t : thread) : list Z := match t with TSwap new => [sec new] | TSwapNano _ s => [s] | TGot o => [sec o] | _ => [] end.
Definition held_n (t : thread) : list Z := match t with TSwap new | TSwapNano new _ => [nsec new] | TGot o => [nsec o] | _ => [] end.
Definition swapper (t : thread) : Prop := match t with TSwap _ | TSwapNano _ _ | TGot _ => True | _ => False end.
Lemma schedule_swaps l : forall m ts m' ts', Forall swapper ts -> schedule m ts l = (m', ts') ->
  Forall swapper ts' /\ length ts' = length ts /\ Permutation (sec m' :: flat_map held_s ts') (sec m :: flat_map held_s ts) /\
  Permutation (nsec m' :: flat_map held_n ts') (nsec m :: flat_map held_n ts).
Proof.
  induction l as [|i l IH]; intros m ts m' ts' F E; cbn [schedule] in E.
  - injection E as <- <-. auto.
  - destruct (nth_error ts i) as [t|] eqn:N; [|eapply IH; eassumption].
    assert (A : swapper t) by (eapply Forall_forall; [exact F|eapply nth_error_In; exact N]).
    destruct (thread_step m t) as [m1 t1] eqn:T.
    assert (G : swapper t1 /\ Permutation (sec m1 :: held_s t1) (sec m :: held_s t) /\ Permutation (nsec m1 :: held_n t1) (nsec m :: held_n t)).
    { destruct t; try contradiction; cbn [thread_step] in T; injection T as <- <-; cbn [swapper held_s held_n sec nsec]; repeat split; try apply Permutation_refl; apply perm_swap. }
    destruct G as (G1 & G2 & G3). destruct (IH _ _ _ _ (Forall_upd swapper ts i t1 F G1) E) as (F' & L & P1 & P2).
    rewrite upd_length in L. split; [exact F'|]. split; [exact L|]. split.
    + rewrite P1. apply (Permutation_app_inv_l (held_s t)). rewrite <- Permutation_middle, (flat_upd held_s ts i t t1 N).
      rewrite <- Permutation_middle. change (Permutation ((sec m1 :: held_s t1) ++ flat_map held_s ts) ((sec m :: held_s t) ++ flat_map held_s ts)). now apply Permutation_app_tail.
    + rewrite P2. apply (Permutation_app_inv_l (held_n t)). rewrite <- Permutation_middle, (flat_upd held_n ts i t t1 N).
      rewrite <- Permutation_middle. change (Permutation ((nsec m1 :: held_n t1) ++ flat_map held_n ts) ((nsec m :: held_n t) ++ flat_map held_n ts)). now apply Permutation_app_tail.
Qed.
(** Whatever the schedule, every count of seconds put in is given to exactly one of the swaps or is
    there at the end, and so is every count of nanoseconds; *)
Theorem C162_swaps_partial : forall m news l m' olds, schedule m (map TSwap news) l = (m', map TGot olds) ->
  length olds = length news /\ Permutation (sec m' :: map sec olds) (sec m :: map sec news) /\ Permutation (nsec m' :: map nsec olds) (nsec m :: map nsec news).
Proof.
  intros m news l m' olds E.
  assert (A : Forall swapper (map TSwap news)) by (clear; induction news; cbn [map]; constructor; auto; exact I).
  destruct (schedule_swaps l _ _ _ _ A E) as (_ & L & P1 & P2). rewrite !map_length in L. split; [exact L|].
  assert (S1 : forall k, flat_map held_s (map TGot k) = map sec k /\ flat_map held_n (map TGot k) = map nsec k) by (induction k as [|x k [H1 H2]]; [split; reflexivity|]; cbn [map flat_map held_s held_n app]; rewrite H1, H2; split; reflexivity).
  assert (S2 : forall k, flat_map held_s (map TSwap k) = map sec k /\ flat_map held_n (map TSwap k) = map nsec k) by (induction k as [|x k [H1 H2]]; [split; reflexivity|]; cbn [map flat_map held_s held_n app]; rewrite H1, H2; split; reflexivity).
  destruct (S1 olds) as (A1 & A2). destruct (S2 news) as (A3 & A4). rewrite A1, A3 in P1. rewrite A2, A4 in P2. auto.
Qed.
Print Assumptions C162_swaps_partial.
(** but not together: two swaps at once may return, and leave, times that nobody has stored. *)
Theorem C162_swaps_refuted : forall m a b,
  schedule m [TSwap a; TSwap b] [0; 1; 1; 0]%nat = (Instant (sec b) (nsec a), [TGot (Instant (sec m) (nsec b)); TGot (Instant (sec a) (nsec m))]).
Proof. intros [s n] [sa na] [sb nb]. reflexivity. Qed.
Print Assumptions C162_swaps_refuted.
(** A monotonic atomic time counts every addition, in any order. *)
Theorem C162_monotonic : forall ds ds' a, int64 a -> Permutation ds ds' ->
  fold_left mono_Add ds a = i64 (a + sum ds) /\ fold_left mono_Add ds' a = fold_left mono_Add ds a.
Proof.
  assert (G : forall ds a, int64 a -> fold_left mono_Add ds a = i64 (a + sum ds)).
  { induction ds as [|d ds IH]; intros a H; cbn [fold_left sum fold_right].
    - rewrite Z.add_0_r. symmetry. now apply i64_id.
    - rewrite IH by apply i64_range. unfold mono_Add. rewrite i64_add. f_equal. unfold sum. lia. }
  intros ds ds' a H P. split; [now apply G|]. rewrite !G by assumption. do 2 f_equal.
  clear - P. induction P; cbn [sum fold_right]; unfold sum in *; lia.
Qed.
Print Assumptions C162_monotonic.
Example C162_nonvacuous : exists m, schedule (Instant 10 0) (map TAdd [1600000000; 2300000000]) [0; 1; 1; 0]%nat = (m, [TDone; TDone]) /\
  m = Instant 13 900000000 /\ normal 900000000 /\
  schedule (Instant 0 900000000) (map TAdd [900000000; 900000000]) [1; 0; 0; 1]%nat = (Instant 0 (-1594967296), [TDone; TDone]).
Proof. eexists. split; [vm_compute; reflexivity|]. split; [reflexivity|]. split; [unfold normal; lia|vm_compute; reflexivity]. Qed.

(** * C30: the time until another *)
(** The time from one instant until another comes out with the wrong sign: it is negative exactly
    when the other is still to come, and right only when there is none. *)
Theorem C30_until_refuted : forall t to, normal (nsec t) -> normal (nsec to) -> int64 (sec t - sec to) ->
  int64 (nanos (sec t) (nsec t) - nanos (sec to) (nsec to)) ->
  let wanted := nanos (sec to) (nsec to) - nanos (sec t) (nsec t) in
  UntilTo t to = - wanted /\ (UntilTo t to = wanted <-> t = to) /\
  (UntilTo t to < 0 <-> Pass to t = true).
Proof.
  intros [s n] [s2 n2] N1 N2 I1 I2. cbn [sec nsec] in *. cbv zeta.
  assert (E : UntilTo (Instant s n) (Instant s2 n2) = nanos s n - nanos s2 n2).
  { unfold UntilTo, Until, NanoElapsed, FromSecAndNano, Second_ToNanoSecond, NanoSecondInSecond. cbn [sec nsec]. rewrite (i64_id (s - s2)) by exact I1.
    rewrite (i32_id (n - n2)) by (unfold normal in *; lia). unfold nanos, int64, normal in *. transitivity (i64 ((s - s2) * 1000000000 + (n - n2))); [|rewrite i64_id by (unfold int64; lia); lia].
    unfold i64. change (2 ^ 63) with 9223372036854775808. change (2 ^ 64) with 18446744073709551616. Z.div_mod_to_equations; lia. }
  rewrite E. unfold nanos, normal in *. split; [lia|]. split.
  - split; [intros H; f_equal; lia|]. intros H. injection H as -> ->. lia.
  - unfold Pass. cbn [sec nsec]. rewrite orb_true_iff, andb_true_iff. lia.
Qed.
Print Assumptions C30_until_refuted.
Example C30_until_case : UntilTo (Instant 5 0) (Instant 7 500000000) = - 2500000000.
Proof. reflexivity. Qed.
