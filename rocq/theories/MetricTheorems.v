(** C86, C87: counters of connections and of their traffic. *)
From Coq Require Import ZifyBool ZifyNat Permutation.
From Verif Require Import Go GoFacts MetricModel MetricSpec.

Definition total (c : counter) (l : list add) : Z := sum (map (fun a => if counter_eqb c (fst a) then snd a else 0) l).
Lemma sum_app a : forall b, sum (a ++ b) = sum a + sum b.
Proof. induction a; intro b; cbn [app sum]; [lia|rewrite IHa; lia]. Qed.
Lemma total_app c a b : total c (a ++ b) = total c a + total c b.
Proof. unfold total. rewrite map_app. apply sum_app. Qed.
Lemma total_cons c x l : total c (x :: l) = (if counter_eqb c (fst x) then snd x else 0) + total c l.
Proof. reflexivity. Qed.
(** additions a thread still has to make *)
Definition rest (t : thread) : list add := now t ++ flat_map body (later t).
Definition left (c : counter) (ts : list thread) : Z := sum (map (fun t => total c (rest t)) ts).
Lemma left_app c a b : left c (a ++ b) = left c a + left c b.
Proof. unfold left. rewrite map_app. apply sum_app. Qed.
Lemma left_cons c t b : left c (t :: b) = total c (rest t) + left c b.
Proof. reflexivity. Qed.
Lemma wrap_eqm c x : (wrap c x - x) mod 2 ^ 64 = 0.
Proof. unfold wrap, i64, u64. destruct (signed c); Z.div_mod_to_equations; lia. Qed.
Lemma wrap_of c x y : (x - y) mod 2 ^ 64 = 0 -> wrap c x = wrap c y.
Proof. unfold wrap, i64, u64. destruct (signed c); intro; Z.div_mod_to_equations; lia. Qed.
Lemma wrap_wrap c x y : wrap c (wrap c x + y) = wrap c (x + y).
Proof. apply wrap_of. replace (wrap c x + y - (x + y)) with (wrap c x - x) by lia. apply wrap_eqm. Qed.
Lemma step_sum x y c : step x y -> wrap c (fst y c + left c (snd y)) = wrap c (fst x c + left c (snd x)).
Proof.
  destruct 1; cbn [fst snd]; rewrite !left_app, !left_cons; unfold rest; cbn [now later flat_map app].
  - reflexivity.
  - rewrite total_cons. unfold apply. destruct (counter_eqb c (fst x)).
    + rewrite wrap_wrap. f_equal. lia.
    + reflexivity.
Qed.
Lemma steps_sum x y c : steps x y -> wrap c (fst y c + left c (snd y)) = wrap c (fst x c + left c (snd x)).
Proof. induction 1; [reflexivity|]. rewrite (step_sum b c0 c H0). exact IHsteps. Qed.
Lemma left_finished c ts : finished ts -> left c ts = 0.
Proof. induction 1 as [|t ts (N & L) _ IH]; [reflexivity|]. rewrite left_cons, IH. unfold rest. rewrite N, L. reflexivity. Qed.
Definition wrapped (s : counters) : Prop := forall c, wrap c (s c) = s c.
Lemma apply_wrapped s x : wrapped s -> wrapped (apply s x).
Proof. intros W c. unfold apply. destruct (counter_eqb c (fst x)); [|apply W]. transitivity (wrap c (wrap c (s c + snd x) + 0)); [now rewrite Z.add_0_r|]. rewrite wrap_wrap, Z.add_0_r. reflexivity. Qed.
Lemma steps_wrapped x y : steps x y -> wrapped (fst x) -> wrapped (fst y).
Proof. induction 1 as [|a b c' _ IH St]; [auto|]. intro W. specialize (IH W). destruct St; cbn in *; auto using apply_wrapped. Qed.
Lemma zero_wrapped : wrapped zero.
Proof. intro c. unfold zero, wrap. destruct (signed c); reflexivity. Qed.
Lemma left_start c progs : left c (start progs) = total c (flat_map body (concat progs)).
Proof.
  induction progs as [|p ps IH]; [reflexivity|]. cbn [start map concat]. rewrite left_cons, flat_map_app, total_app. unfold start in IH. rewrite IH. reflexivity.
Qed.
Lemma final_value progs s ts c : steps (zero, start progs) (s, ts) -> finished ts ->
  s c = wrap c (total c (flat_map body (concat progs))).
Proof.
  intros R F. pose proof (steps_sum _ _ c R) as E. cbn [fst snd] in E. rewrite (left_finished c ts F), left_start in E. unfold zero in E.
  rewrite Z.add_0_r, Z.add_0_l in E. rewrite <- E. symmetry. apply (steps_wrapped _ _ R zero_wrapped).
Qed.
Lemma total_perm c a b : Permutation a b -> total c a = total c b.
Proof. induction 1; try rewrite !total_cons; try lia; congruence || lia. Qed.
Lemma flat_map_perm {A B} (f : A -> list B) a b : Permutation a b -> Permutation (flat_map f a) (flat_map f b).
Proof.
  induction 1; cbn [flat_map]; auto.
  - now apply Permutation_app_head.
  - rewrite !app_assoc. apply Permutation_app_tail, Permutation_app_comm.
  - etransitivity; eauto.
Qed.
Lemma total_history h cs c : history h cs -> signed c = true -> total c (flat_map body h) = shows cs c.
Proof.
  induction 1 as [|h cs H IH|h cs H IH|h a x b k new H IH M]; intro G.
  - destruct c; try discriminate G; reflexivity.
  - rewrite flat_map_app, total_app, (IH G). destruct c; try discriminate G; cbn [shows]; unfold how_many; rewrite ?filter_app, ?zlen_app; cbn; lia.
  - rewrite flat_map_app, total_app, (IH G). destruct c; try discriminate G; cbn [shows]; unfold how_many; rewrite ?filter_app, ?zlen_app; cbn; lia.
  - rewrite flat_map_app, total_app, (IH G). destruct x as [g st hw]. cbn [state is_guest] in *.
    assert (forall p, how_many p (a ++ {| is_guest := g; state := st; how := hw |} :: b) = how_many p a + (if p {| is_guest := g; state := st; how := hw |} then 1 else 0) + how_many p b) as E1.
    { intro p. unfold how_many. rewrite filter_app, zlen_app. cbn [filter]. destruct (p _); rewrite ?zlen_cons; lia. }
    assert (forall p, how_many p (a ++ {| is_guest := g; state := new; how := Some k |} :: b) = how_many p a + (if p {| is_guest := g; state := new; how := Some k |} then 1 else 0) + how_many p b) as E2.
    { intro p. unfold how_many. rewrite filter_app, zlen_app. cbn [filter]. destruct (p _); rewrite ?zlen_cons; lia. }
    (* a connection that is not closed was not closed by any report *)
    assert (forall k', closed_by k' {| is_guest := g; state := st; how := hw |} = false) as NC.
    { assert (forall h0 cs0, history h0 cs0 -> forall y, In y cs0 -> state y <> Closed -> forall k', closed_by k' y = false) as All.
      { clear. induction 1 as [|h cs H IH|h cs H IH|h a x b k new H IH M]; intros y I N k'.
        - destruct I.
        - apply in_app_or in I. destruct I as [I | [<- | []]]; [eauto|reflexivity].
        - apply in_app_or in I. destruct I as [I | [<- | []]]; [eauto|reflexivity].
        - apply in_app_or in I. destruct I as [I | [<- | I]].
          + apply IH; auto. apply in_or_app. auto.
          + cbn [state] in N. destruct k; cbn in M; destruct (state x); inversion M; subst; try (exfalso; apply N; reflexivity); destruct k'; reflexivity.
          + apply IH; auto. apply in_or_app. right. right. auto. }
      intro k'. apply (All _ _ H); [apply in_or_app; right; left; reflexivity|]. cbn. intro E. subst st. destruct k; discriminate. }
    destruct c; try discriminate G; cbn [shows]; rewrite ?E1, ?E2, ?NC, ?zlen_app, ?zlen_cons; cbn [is_guest state how];
      destruct k; cbn in M; destruct st; inversion M; subst; cbn; lia.
Qed.

(** When every call has returned, each counter of a set of connections shows the number of
    connections it is named after, whatever the interleaving of the calls: [h] is any order in
    which the reports make sense.  The counters wrap around at 64 bits. *)
Theorem C86_counters : forall progs h cs s ts c, history h cs -> Permutation h (concat progs) -> signed c = true ->
  steps (zero, start progs) (s, ts) -> finished ts -> s c = i64 (shows cs c).
Proof.
  intros progs h cs s ts c H P G R F. rewrite (final_value progs s ts c R F). unfold wrap. rewrite G. f_equal.
  rewrite <- (total_history h cs c H G). symmetry. apply total_perm, flat_map_perm, P.
Qed.
Print Assumptions C86_counters.
Lemma steps_trans x y z : steps x y -> steps y z -> steps x z.
Proof. intros A B. revert A. induction B; intro A; [exact A|]. eapply steps_more; [apply IHB, A|assumption]. Qed.
Definition done : thread := {| now := []; later := [] |}.
Lemma run_adds xs : forall s a b ks, exists s', steps (s, a ++ {| now := xs; later := ks |} :: b) (s', a ++ {| now := []; later := ks |} :: b).
Proof.
  induction xs as [|x xs IH]; intros s a b ks; [exists s; constructor|].
  destruct (IH (apply s x) a b ks) as (s' & R). exists s'. eapply steps_trans; [|exact R]. eapply steps_more; [constructor|]. apply step_add.
Qed.
Lemma run_thread ks : forall s a b, exists s', steps (s, a ++ {| now := []; later := ks |} :: b) (s', a ++ done :: b).
Proof.
  induction ks as [|k ks IH]; intros s a b; [exists s; constructor|].
  destruct (run_adds (body k) s a b ks) as (s1 & R1). destruct (IH s1 a b) as (s2 & R2). exists s2.
  eapply steps_trans; [eapply steps_more; [constructor|apply step_call]|]. eapply steps_trans; eauto.
Qed.
Lemma run_all progs : forall s a, exists s', steps (s, a ++ start progs) (s', a ++ repeat done (length progs)).
Proof.
  induction progs as [|p ps IH]; intros s a; [exists s; constructor|].
  destruct (run_thread p s a (start ps)) as (s1 & R1). destruct (IH s1 (a ++ [done])) as (s2 & R2). exists s2.
  rewrite <- !app_assoc in R2. eapply steps_trans; [exact R1|exact R2].
Qed.
(** No call waits for another: every program can be run to its end. *)
Theorem C86_never_blocks : forall progs, exists s ts, steps (zero, start progs) (s, ts) /\ finished ts.
Proof.
  intro progs. destruct (run_all progs zero []) as (s & R). exists s, (repeat done (length progs)). split; [exact R|].
  clear. unfold finished. induction progs; constructor; auto.
Qed.
Print Assumptions C86_never_blocks.
Example C86_nonvacuous :
  let progs := [[ConnOpened; ConnIdled; IdleConnClosed]; [GuestConnOpened; ConnWaited]; [ConnOpened]] in
  let cs := [{| is_guest := false; state := Closed; how := Some IdleConnClosed |}; {| is_guest := true; state := Waiting; how := Some ConnWaited |}; {| is_guest := false; state := InUse; how := None |}] in
  history (concat progs) cs /\ exists s ts, steps (zero, start progs) (s, ts) /\ finished ts /\ s openCount = 3 /\ s idleClosedCount = 1 /\ s guestCount = 1.
Proof.
  intros progs cs. assert (history (concat progs) cs) as H.
  { change (concat progs) with ((((([] ++ [ConnOpened]) ++ [ConnIdled]) ++ [IdleConnClosed]) ++ [GuestConnOpened]) ++ [ConnWaited] ++ [ConnOpened]).
    rewrite app_assoc. apply (h_open _ [_; _]). apply (h_move _ [_] {| is_guest := true; state := InUse; how := None |} [] ConnWaited Waiting); [|reflexivity].
    apply (h_guest _ [_]). apply (h_move _ [] {| is_guest := false; state := Idle; how := Some ConnIdled |} [] IdleConnClosed Closed); [|reflexivity].
    apply (h_move _ [] {| is_guest := false; state := InUse; how := None |} [] ConnIdled Idle); [|reflexivity]. apply (h_open [] []). constructor. }
  split; [exact H|]. destruct (C86_never_blocks progs) as (s & ts & R & F). exists s, ts. split; [exact R|]. split; [exact F|].
  repeat split; rewrite (C86_counters progs _ cs s ts _ H (Permutation_refl _) (eq_refl : signed _ = true) R F) || (eapply eq_trans; [apply (C86_counters progs (concat progs) cs s ts); auto|]); reflexivity.
Qed.

(** Someone reading while calls are in progress sees the books off by at most one for each
    goroutine in the middle of a call. *)
Definition imbalance (s : counters) : Z := s openCount - (s inUseCount + s idleCount + s waitCount + s closedCount).
Definition imb (l : list add) : Z := total openCount l - (total inUseCount l + total idleCount l + total waitCount l + total closedCount l).
(** what is left of one call *)
Definition tail_of (l : list add) : Prop := exists k p, body k = p ++ l.
Definition one (l : list add) : Prop := l = [] \/ -1 <= imb l <= 1.
Lemma tail_imb l : tail_of l -> -1 <= imb l <= 1.
Proof.
  intros (k & p & E). assert (l = skipn (length p) (body k)) as -> by (rewrite E, skipn_app, skipn_all, Nat.sub_diag; reflexivity). clear E.
  generalize (length p). intro n. destruct k; cbn [body]; do 4 (destruct n as [|n]; [cbn; lia|cbn [skipn]; rewrite ?skipn_nil]); cbn; try lia; destruct n; cbn; lia.
Qed.
Lemma body_imb k : imb (body k) = 0.
Proof. destruct k; reflexivity. Qed.
Lemma imb_app a b : imb (a ++ b) = imb a + imb b.
Proof. unfold imb. rewrite !total_app. lia. Qed.
Lemma calls_imb ks : imb (flat_map body ks) = 0.
Proof. induction ks as [|k ks IH]; [reflexivity|]. cbn [flat_map]. rewrite imb_app, body_imb, IH. reflexivity. Qed.
Definition left_imb (ts : list thread) : Z := sum (map (fun t => imb (rest t)) ts).
Lemma left_imb_eq ts : left_imb ts = left openCount ts - (left inUseCount ts + left idleCount ts + left waitCount ts + left closedCount ts).
Proof. induction ts as [|t ts IH]; [reflexivity|]. rewrite !left_cons. unfold left_imb in *. cbn [map sum]. rewrite IH. unfold imb. lia. Qed.
Definition sound (ts : list thread) : Prop := Forall (fun t => tail_of (now t)) ts.
Lemma sound_steps x y : steps x y -> sound (snd x) -> sound (snd y).
Proof.
  induction 1 as [|a b c _ IH St]; [auto|]. intro W. specialize (IH W). unfold sound in *. destruct St; cbn [snd] in *; rewrite Forall_app, Forall_cons_iff in *; cbn [now] in *; destruct IH as (U & T & V); (split; [exact U|split; [|exact V]]).
  - exists k, []. reflexivity.
  - destruct T as (k & p & E). exists k, (p ++ [x]). rewrite <- app_assoc. exact E.
Qed.
Lemma left_imb_bound ts : sound ts -> Z.abs (left_imb ts) <= in_call ts.
Proof.
  unfold sound, in_call. induction 1 as [|t ts T _ IH]; [cbn; lia|]. unfold left_imb in *. cbn [map sum filter]. unfold rest at 1. rewrite imb_app, calls_imb.
  apply tail_imb in T. destruct (now t) eqn:E; [change (imb []) with 0; lia|]. rewrite zlen_cons. lia.
Qed.
Theorem C86_books : forall progs s ts, steps (zero, start progs) (s, ts) ->
  exists off, Z.abs off <= in_call ts /\ (s openCount - (s inUseCount + s idleCount + s waitCount + s closedCount) - off) mod 2 ^ 64 = 0.
Proof.
  intros progs s ts R. exists (- left_imb ts). split.
  - rewrite Z.abs_opp. apply left_imb_bound. apply (sound_steps _ _ R). cbn [snd]. unfold sound, start. clear. induction progs; constructor; auto. exists ConnOpened, (body ConnOpened). rewrite app_nil_r. reflexivity.
  - assert (forall c, signed c = true -> (s c + left c ts - left c (start progs)) mod 2 ^ 64 = 0) as V.
    { intros c G. pose proof (steps_sum _ _ c R) as E. cbn [fst snd] in E. unfold zero in E. rewrite Z.add_0_l in E. unfold wrap in E. rewrite G in E. unfold i64 in E. Z.div_mod_to_equations; lia. }
    assert (left_imb (start progs) = 0) as Z0.
    { unfold left_imb, start. clear. induction progs as [|p ps IH]; [reflexivity|]. cbn [map sum]. rewrite IH. unfold rest at 1. cbn [now later app]. rewrite calls_imb. reflexivity. }
    rewrite left_imb_eq in *. pose proof (V openCount eq_refl). pose proof (V inUseCount eq_refl). pose proof (V idleCount eq_refl). pose proof (V waitCount eq_refl). pose proof (V closedCount eq_refl).
    Z.div_mod_to_equations; lia.
Qed.
Print Assumptions C86_books.

(** C87: when every call has returned, the traffic counters are the number and the sum of what was
    reported, modulo 2^64, whatever the interleaving; what was sent again is counted as sent too. *)
Theorem C87_traffic : forall progs s ts, steps (zero, start progs) (s, ts) -> finished ts ->
  let all := concat progs in
  s packetsSent = u64 (zlen (flat_map sent all)) /\ s bytesSent = u64 (sum (flat_map sent all)) /\
  s lostPackets = u64 (zlen (flat_map lost all)) /\ s lostBytes = u64 (sum (flat_map lost all)) /\
  s packetsReceived = u64 (zlen (flat_map received all)) /\ s bytesReceived = u64 (sum (flat_map received all)) /\
  s resendPackets = u64 (zlen (flat_map duplicate all)) /\ s resendBytes = u64 (sum (flat_map duplicate all)).
Proof.
  intros progs s ts R F all. rewrite !(fun c => final_value progs s ts c R F). fold all. unfold wrap. cbn [signed].
  enough (forall l : list call,
    total packetsSent (flat_map body l) = zlen (flat_map sent l) /\ total bytesSent (flat_map body l) = sum (flat_map sent l) /\
    total lostPackets (flat_map body l) = zlen (flat_map lost l) /\ total lostBytes (flat_map body l) = sum (flat_map lost l) /\
    total packetsReceived (flat_map body l) = zlen (flat_map received l) /\ total bytesReceived (flat_map body l) = sum (flat_map received l) /\
    total resendPackets (flat_map body l) = zlen (flat_map duplicate l) /\ total resendBytes (flat_map body l) = sum (flat_map duplicate l)) as A.
  { destruct (A all) as (-> & -> & -> & -> & -> & -> & -> & ->). repeat split. }
  clear. induction l as [|k l IH]; [repeat split|]. cbn [flat_map]. rewrite !total_app, !zlen_app, !sum_app.
  destruct IH as (-> & -> & -> & -> & -> & -> & -> & ->).
  destruct k; cbn; repeat split; lia.
Qed.
Print Assumptions C87_traffic.
Theorem C87_streams : forall progs s ts, steps (zero, start progs) (s, ts) -> finished ts ->
  s succeedStreamCount = u64 (zlen (filter (fun k => match k with StreamSucceed => true | _ => false end) (concat progs))) /\
  s failedStreamCount = u64 (zlen (filter (fun k => match k with StreamFailed => true | _ => false end) (concat progs))).
Proof.
  intros progs s ts R F. rewrite !(fun c => final_value progs s ts c R F). unfold wrap. cbn [signed].
  enough (forall l, total succeedStreamCount (flat_map body l) = zlen (filter (fun k => match k with StreamSucceed => true | _ => false end) l) /\
    total failedStreamCount (flat_map body l) = zlen (filter (fun k => match k with StreamFailed => true | _ => false end) l)) as A by (destruct (A (concat progs)) as (-> & ->); auto).
  clear. induction l as [|k l (I1 & I2)]; [auto|]. cbn [flat_map filter]. rewrite !total_app, I1, I2. destruct k; unfold total; cbn [body map fst snd counter_eqb sum]; rewrite ?zlen_cons; split; lia.
Qed.
Print Assumptions C87_streams.
(** what each goroutine has done so far *)
Lemma prefix_steps x y progs : steps x y -> x = (zero, start progs) ->
  exists es, Forall2 (fun p et => flat_map body p = fst et ++ rest (snd et)) progs (combine es (snd y)) /\ length es = length (snd y) /\
    forall c, fst y c = wrap c (sum (map (total c) es)).
Proof.
  induction 1 as [|a b c _ IH St]; intro E.
  - subst. exists (repeat [] (length progs)). cbn [snd fst]. split; [|split].
    + unfold start. induction progs as [|p ps IH]; cbn; constructor; auto.
    + unfold start. rewrite repeat_length, map_length. reflexivity.
    + intro c. unfold zero. replace (sum (map (total c) (repeat [] (length progs)))) with 0 by (induction progs; cbn; auto). unfold wrap. destruct (signed c); reflexivity.
  - destruct (IH E) as (es & F & L & V). clear IH E. destruct St as [s u v k ks|s u v x xs ks]; cbn [fst snd] in *.
    + exists es. split; [|split; [rewrite L, !app_length; reflexivity|exact V]].
      assert (rest {| now := body k; later := ks |} = rest {| now := []; later := k :: ks |}) as R by reflexivity.
      clear V. revert es L F. generalize dependent progs. induction u as [|w u IH]; intros progs es L F.
      * destruct es as [|e es]; [discriminate|]. cbn [combine app] in *. inversion F; subst. constructor; [|assumption]. cbn [fst snd] in *. rewrite R. assumption.
      * destruct es as [|e es]; [discriminate|]. cbn [combine app] in *. inversion F; subst. constructor; [assumption|]. apply IH; [cbn in L; lia|assumption].
    + assert (exists eu e ev, es = eu ++ e :: ev /\ length eu = length u) as (eu & e & ev & -> & Lu).
      { rewrite app_length in L. cbn in L. exists (firstn (length u) es), (nth (length u) es []), (skipn (S (length u)) es). split.
        - rewrite <- (firstn_skipn (length u) es) at 1. f_equal. assert (length u < length es)%nat as K by lia. revert K. clear. revert es. induction (length u) as [|n IH]; intros es K; destruct es as [|z es]; cbn in *; try lia; [reflexivity|]. apply IH. lia.
        - rewrite firstn_length. lia. }
      exists (eu ++ (e ++ [x]) :: ev). split; [|split].
      * clear L V. revert eu Lu F. generalize dependent progs. induction u as [|w u IH]; intros progs eu Lu F.
        { destruct eu; [|discriminate]. cbn [app combine] in *. inversion F as [|? ? ? ? Hd Tl]; subst. constructor; [|assumption]. cbn [fst snd] in *. rewrite Hd. unfold rest. cbn [now later]. rewrite <- app_assoc. reflexivity. }
        { destruct eu as [|e0 eu]; [discriminate|]. cbn [app combine] in *. inversion F; subst. constructor; [assumption|]. apply IH; [cbn in Lu; lia|assumption]. }
      * rewrite !app_length in *. cbn [length] in *. lia.
      * intro c. unfold apply. rewrite map_app, sum_app. cbn [map sum]. rewrite total_app, total_cons. change (total c []) with 0. specialize (V c). rewrite map_app, sum_app in V. cbn [map sum] in V.
        destruct (counter_eqb c (fst x)); [rewrite V, wrap_wrap|rewrite V]; f_equal; lia.
Qed.
Definition nonneg (k : call) : Prop := Forall (fun n => 0 <= n) (sent k).
Definition bounds (e : list add) (p : list call) : Prop :=
  0 <= total lostPackets e <= total packetsSent e /\ total packetsSent e <= zlen (flat_map sent p) /\
  0 <= total lostBytes e <= total bytesSent e /\ total bytesSent e <= sum (flat_map sent p).
Lemma sum_nonneg l : Forall (fun n => 0 <= n) l -> 0 <= sum l.
Proof. induction 1; cbn [sum]; lia. Qed.
Lemma sent_nonneg p : Forall nonneg p -> 0 <= sum (flat_map sent p).
Proof. intro F. apply sum_nonneg. induction F; cbn [flat_map]; [constructor|]. apply Forall_app. auto. Qed.
Lemma prefix_one k e r : nonneg k -> body k = e ++ r -> bounds e [k].
Proof.
  intros N E. destruct k; cbn in E;
  repeat (destruct e as [|? e]; cbn [app] in E;
    [unfold bounds; cbn; try (inversion N; subst); lia|injection E as <- E]);
  try discriminate E; destruct e; try discriminate E; unfold bounds; cbn; try (inversion N; subst); lia.
Qed.
Lemma prefix_bounds p : forall e r, Forall nonneg p -> flat_map body p = e ++ r -> bounds e p.
Proof.
  induction p as [|k p IH]; intros e r F E.
  - destruct e; [|discriminate]. unfold bounds. cbn. lia.
  - inversion F as [|? ? N F']; subst. cbn [flat_map] in E.
    destruct (Nat.le_gt_cases (length e) (length (body k))) as [L|L].
    + assert (body k = e ++ skipn (length e) (body k)) as E1.
      { rewrite <- (firstn_skipn (length e) (body k)) at 1. f_equal. apply (f_equal (firstn (length e))) in E. rewrite firstn_app in E. replace (length e - length (body k))%nat with 0%nat in E by lia. cbn [firstn] in E. rewrite app_nil_r in E. rewrite E. rewrite firstn_app, firstn_all, Nat.sub_diag. cbn [firstn]. apply app_nil_r. }
      pose proof (prefix_one k e _ N E1) as B. unfold bounds in *. cbn [flat_map] in *. rewrite app_nil_r in B. rewrite zlen_app, sum_app. pose proof (sent_nonneg p F'). pose proof (zlen_nonneg (flat_map sent p)). lia.
    + assert (e = body k ++ skipn (length (body k)) e) as E1.
      { rewrite <- (firstn_skipn (length (body k)) e) at 1. f_equal. apply (f_equal (firstn (length (body k)))) in E. rewrite !firstn_app in E. replace (length (body k) - length e)%nat with 0%nat in E by lia. rewrite Nat.sub_diag in E. cbn [firstn] in E. rewrite !app_nil_r, firstn_all in E. congruence. }
      rewrite E1 in E |- *. rewrite <- app_assoc in E. apply app_inv_head in E. specialize (IH _ _ F' E).
      assert (bounds (body k) [k]) as B by (apply (prefix_one k (body k) []); [exact N|symmetry; apply app_nil_r]).
      unfold bounds in *. cbn [flat_map] in *. rewrite app_nil_r in B. rewrite zlen_app, sum_app, !total_app. lia.
Qed.
(** While calls are in progress too, never more bytes and packets are shown lost than sent, as long
    as the totals fit in 64 bits. *)
Theorem C87_lost_below_sent : forall progs s ts, Forall (fun k => Forall (fun n => 0 <= n) (sent k)) (concat progs) ->
  zlen (flat_map sent (concat progs)) < 2 ^ 64 -> sum (flat_map sent (concat progs)) < 2 ^ 64 ->
  steps (zero, start progs) (s, ts) -> s lostPackets <= s packetsSent /\ s lostBytes <= s bytesSent.
Proof.
  intros progs s ts N P B R. destruct (prefix_steps _ _ progs R eq_refl) as (es & F & L & V). cbn [fst snd] in *. rewrite !V.
  assert (0 <= sum (map (total lostPackets) es) <= sum (map (total packetsSent) es) /\ sum (map (total packetsSent) es) <= zlen (flat_map sent (concat progs)) /\
    0 <= sum (map (total lostBytes) es) <= sum (map (total bytesSent) es) /\ sum (map (total bytesSent) es) <= sum (flat_map sent (concat progs))) as K.
  { clear P B V R. revert es ts F L N. induction progs as [|p ps IH]; intros es ts F L N.
    - inversion F as [E|]. destruct es as [|e es]; [cbn; lia|]. destruct ts; discriminate.
    - destruct es as [|e es]; [inversion F|]. destruct ts as [|t ts]; [discriminate|]. cbn [combine] in F. inversion F as [|? ? ? ? Hd Tl]; subst. cbn [concat] in *. apply Forall_app in N. destruct N as (N1 & N2).
      specialize (IH es ts Tl ltac:(cbn in L; lia) N2). pose proof (prefix_bounds p e (rest t) N1 Hd) as Bd. unfold bounds in Bd. cbn [map sum]. rewrite flat_map_app, zlen_app, sum_app. lia. }
  unfold wrap. cbn [signed]. rewrite !u64_small by lia. lia.
Qed.
Print Assumptions C87_lost_below_sent.
Example C87_nonvacuous :
  let progs := [[PacketSent 100; PacketResend 60]; [PacketReceived 7; StreamFailed]] in
  Forall (fun k => Forall (fun n => 0 <= n) (sent k)) (concat progs) /\ zlen (flat_map sent (concat progs)) < 2 ^ 64 /\ sum (flat_map sent (concat progs)) < 2 ^ 64 /\
  exists s ts, steps (zero, start progs) (s, ts) /\ finished ts /\ s bytesSent = 160 /\ s lostBytes = 60.
Proof.
  intro progs. split; [repeat constructor; lia|]. split; [reflexivity|]. split; [reflexivity|].
  destruct (C86_never_blocks progs) as (s & ts & R & F). exists s, ts. split; [exact R|]. split; [exact F|].
  destruct (C87_traffic progs s ts R F) as (_ & -> & _ & -> & _). split; reflexivity.
Qed.
