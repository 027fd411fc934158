(** Property theorems C111-C112 (timer/timer-sync.go). *)
From Verif Require Import Go SyncModel SyncSpec.
Local Open Scope nat_scope.

Lemma run_app : forall l l' s, run s (l ++ l') = match run s l with Some s' => run s' l' | None => None end.
Proof. induction l as [|a l IH]; intros l' s; cbn [app run]; [reflexivity|]. destruct (step s a); [apply IH|reflexivity]. Qed.
Lemma run_snoc l a s : run s (l ++ [a]) = match run s l with Some s' => step s' a | None => None end.
Proof. rewrite run_app. destruct (run s l); [|reflexivity]. cbn [run]. now destruct (step _ a). Qed.

Lemma step_live s a s' : step s a = Some s' -> s_crash s = false.
Proof. unfold step. destruct (s_crash s); [discriminate|reflexivity]. Qed.

(** ** C111: the signal *)
Ltac crush s a :=
  destruct s as [st pe on ru cl sg clo cr re]; unfold step; cbn [s_crash];
  destruct cr; [discriminate|];
  destruct a; cbn [s_stat s_period s_on s_run s_cli s_sig s_closed s_crash s_ret];
  repeat (match goal with
  | |- context [match ?x with _ => _ end] => is_var x; destruct x
  | |- context [start _] => unfold tick, start; cbn [s_stat s_period s_on s_run s_cli s_sig s_closed s_crash s_ret]
  | |- context [tick _] => unfold tick, start; cbn [s_stat s_period s_on s_run s_cli s_sig s_closed s_crash s_ret]
  end);
  try (intros X; discriminate X);
  let E := fresh in intros E; assert (Q := f_equal (fun o => match o with Some v => v | None => Init end) E); cbn beta iota in Q; clear E; subst;
  cbn [stopped with_cli s_stat s_period s_on s_run s_cli s_sig s_closed s_crash s_ret andb].

Definition upd_ticks (n : nat) (a : act) : nat := match a with RCall => S n | ARecv => 0 | _ => n end.
Lemma ticks_snoc : forall l a n, ticks_since n (l ++ [a]) = upd_ticks (ticks_since n l) a.
Proof. induction l as [|x l IH]; intros a n; [destruct a; reflexivity|]. destruct x; cbn [app ticks_since]; apply IH. Qed.

Lemma sig_step s a s' n : step s a = Some s' -> s_crash s' = false -> s_sig s = Nat.min 1 n -> s_sig s' = Nat.min 1 (upd_ticks n a).
Proof.
  crush s a; intros C E; cbn [upd_ticks]; try discriminate C; try exact E; try lia.
Qed.
(** At every moment of every schedule the channel holds one signal if the timer has ticked since the
    last receive, and none otherwise: a tick is never lost to a reader that is behind, and never
    counted twice. *)
Theorem C111_pending : forall l s, run Init l = Some s -> s_crash s = false -> s_sig s = Nat.min 1 (ticks_since 0 l).
Proof.
  intros l. induction l as [|a l IH] using rev_ind; intros s R C.
  - cbn in R. assert (s = Init) by congruence. subst. reflexivity.
  - rewrite run_snoc in R. destruct (run Init l) as [s0|] eqn:E; [|discriminate].
    rewrite ticks_snoc. eapply sig_step; [exact R|exact C|]. apply IH; [reflexivity|]. eapply step_live. exact R.
Qed.
Print Assumptions C111_pending.

(** The timing thread is never blocked by a reader. *)
Theorem C111_never_blocks : forall l s, run Init l = Some s -> s_crash s = false -> s_run s = RCalling ->
  exists s', step s RCall = Some s' /\ s_run s' = RIdle.
Proof.
  intros l s R C Q. unfold step. rewrite C, Q. destruct (s_closed s); eexists; split; reflexivity.
Qed.
Print Assumptions C111_never_blocks.

Lemma count_app f l l' : count f (l ++ l') = count f l + count f l'.
Proof. unfold count. rewrite filter_app, app_length. reflexivity. Qed.
(** Until the timer is closed every receive answers a tick, and at most one: *)
Theorem C111_no_phantom_partial : forall l s, run Init l = Some s -> s_closed s = false -> receives l + s_sig s <= ticks l.
Proof.
  intros l s R C. enough (G : s_crash s = false /\ receives l + s_sig s <= ticks l) by tauto.
  revert s R C. induction l as [|a l IH] using rev_ind; intros s R C.
  - cbn in R. assert (s = Init) by congruence. subst. cbn. lia.
  - rewrite run_snoc in R. destruct (run Init l) as [s0|] eqn:E; [|discriminate].
    unfold receives, ticks in *. rewrite !filter_app, !app_length.
    assert (C0 : s_closed s0 = false).
    { revert R C. clear. crush s0 a; intros; try discriminate; auto. }
    specialize (IH s0 eq_refl C0). revert R C C0 IH. clear.
    crush s0 a; intros C C0 (_ & IH); cbn [filter is_call is_recv length app]; try discriminate; split; try reflexivity; try lia.
Qed.
Print Assumptions C111_no_phantom_partial.
(** after that every receive succeeds at once, with no tick at all. *)
Definition close_unfired : list act := [AStart; ADeinit; ALoad; ASwap; AClose].
Theorem C111_phantom_refuted : forall n, exists s, run Init (close_unfired ++ repeat ARecv n) = Some s /\
  s_crash s = false /\ receives (close_unfired ++ repeat ARecv n) = n /\ ticks (close_unfired ++ repeat ARecv n) = 0.
Proof.
  intros n. rewrite run_app.
  change (run Init close_unfired) with (Some (Sync Deleted false true RIdle CIdle 0 true false (Some true))).
  eexists. split; [|split; [|split]].
  { instantiate (1 := Sync Deleted false true RIdle CIdle 0 true false (Some true)).
    induction n as [|n IH]; [reflexivity|]. cbn [repeat run]. exact IH. }
  { reflexivity. }
  - unfold receives. rewrite filter_app, app_length. cbn [close_unfired filter is_recv length].
    induction n as [|n IH]; [reflexivity|]. cbn [repeat filter is_recv length Nat.add] in *. now rewrite IH.
  - unfold ticks. rewrite filter_app, app_length. cbn [close_unfired filter is_call length].
    induction n as [|n IH]; [reflexivity|]. cbn [repeat filter is_call] in *. exact IH.
Qed.
Print Assumptions C111_phantom_refuted.
Definition two_ticks : list act := [ATick; RClaim; RSettle; RCall; RClaim; RSettle; RCall; ARecv].
Example C111_case : exists s, run Init two_ticks = Some s /\ s_crash s = false /\ s_closed s = false /\
  ticks two_ticks = 2 /\ receives two_ticks = 1 /\ s_sig s = 0 /\ step s ARecv = None.
Proof. exists (Sync Waiting true true RIdle CIdle 0 false false None). vm_compute. auto 10. Qed.

(** ** C112: Deinit *)

(** What holds of a timer armed at most once, never as a ticker, and closed at most once. *)
Definition inv (armed dein : bool) (s : sync) : bool :=
  negb (s_crash s) && negb (s_period s) &&
  (if armed then true else match s_stat s, s_run s, s_cli s with
     | Unset, RIdle, (CIdle | CLoop _) => negb (s_closed s) && negb (s_on s) | _, _, _ => false end) &&
  match s_run s, s_stat s with RClaimed, Running => true | RClaimed, _ => false | _, Running => false
     | RCalling, Unset => true | RCalling, _ => false | RIdle, _ => true end &&
  (if s_closed s then match s_stat s, s_run s with (Deleted | Removed), RIdle => dein | _, _ => false end
     && match s_cli s with CIdle | CLoop false => true | _ => false end else true) &&
  match s_cli s with CLoop true | CSwap true => dein | CClosing => dein && negb (s_closed s) && match s_stat s, s_run s with (Deleted | Removed), RIdle => true | _, _ => false end | _ => true end.

Lemma inv_step armed dein s a s' : step s a = Some s' -> tickers a = false ->
  (arms a = true -> armed = false) -> (deinits a = true -> dein = false) ->
  inv armed dein s = true -> inv (armed || arms a) (dein || deinits a) s' = true.
Proof.
  intros H T A D I. destruct s as [st pe on ru cl sg clo cr re].
  unfold inv in I. cbn [s_stat s_period s_on s_run s_cli s_sig s_closed s_crash s_ret] in I.
  destruct cr; [discriminate I|]. destruct pe; [discriminate I|]. cbn [negb andb] in I.
  unfold step in H; cbn [s_crash] in H.
  destruct a; cbn [tickers] in T; try discriminate T; clear T; cbn [arms] in A; cbn [deinits] in D; cbn [arms deinits orb];
  rewrite ?orb_false_r, ?orb_true_r;
  try (rewrite (A eq_refl) in *); try (rewrite (D eq_refl) in *); clear A D;
  cbn [s_stat s_period s_on s_run s_cli s_sig s_closed s_crash s_ret] in H;
  destruct clo, ru, st; try discriminate I; cbn [negb andb] in I; rewrite ?andb_false_r, ?andb_true_r in I; try discriminate I; try discriminate H;
  destruct cl as [|[|]|[|]|]; try discriminate I; try discriminate H; cbn [negb andb] in I; rewrite ?andb_false_r, ?andb_true_r in I; try discriminate I;
  try (destruct on; try discriminate I; cbn in H; try discriminate H);
  try (destruct sg; cbn in H; try discriminate H);
  (assert (Q := f_equal (fun o => match o with Some v => v | None => Init end) H); cbn beta iota in Q; subst; 
   try destruct armed; try destruct dein; try discriminate I; reflexivity).
Qed.
Lemma count_snoc f l a : count f (l ++ [a]) = count f l + (if f a then 1 else 0).
Proof. rewrite count_app. unfold count at 2. cbn [filter]. now destruct (f a). Qed.
(** A one-shot timer, armed once and closed once at any moment: nothing ever panics. *)
Theorem C112_one_shot_partial : forall l s, run Init l = Some s ->
  count tickers l = 0 -> count arms l <= 1 -> count deinits l <= 1 -> s_crash s = false.
Proof.
  assert (G : forall l s, run Init l = Some s -> count tickers l = 0 -> count arms l <= 1 -> count deinits l <= 1 ->
    inv (0 <? count arms l) (0 <? count deinits l) s = true).
  { intros l. induction l as [|a l IH] using rev_ind; intros s R T A D.
    - cbn in R. assert (s = Init) by congruence. subst. reflexivity.
    - rewrite run_snoc in R. destruct (run Init l) as [s0|] eqn:E; [|discriminate].
      rewrite !count_snoc in *. specialize (IH s0 eq_refl ltac:(lia) ltac:(lia) ltac:(lia)).
      assert (T' : tickers a = false) by (destruct (tickers a); [lia|reflexivity]).
      pose proof (fun x y => inv_step x y _ _ _ R T') as P.
      replace (0 <? count arms l + (if arms a then 1 else 0)) with ((0 <? count arms l) || arms a).
      2:{ destruct (arms a); destruct (Nat.ltb_spec 0 (count arms l)); cbn [orb]; symmetry; [apply Nat.ltb_lt|apply Nat.ltb_lt|apply Nat.ltb_lt|apply Nat.ltb_ge]; lia. }
      replace (0 <? count deinits l + (if deinits a then 1 else 0)) with ((0 <? count deinits l) || deinits a).
      2:{ destruct (deinits a); destruct (Nat.ltb_spec 0 (count deinits l)); cbn [orb]; symmetry; [apply Nat.ltb_lt|apply Nat.ltb_lt|apply Nat.ltb_lt|apply Nat.ltb_ge]; lia. }
      apply P; [| |exact IH].
      + intros X. rewrite X in A. apply Nat.ltb_ge. lia.
      + intros X. rewrite X in D. apply Nat.ltb_ge. lia. }
  intros l s R T A D. specialize (G l s R T A D). unfold inv in G. destruct (s_crash s); [discriminate|reflexivity].
Qed.
Print Assumptions C112_one_shot_partial.

Example C112_one_shot_case : exists s, run Init [AStart; RClaim; ADeinit; ALoad; RSettle; ALoad; RCall; ARecv] = Some s /\
  s_ret s = Some false /\ s_closed s = false.
Proof. exists (Sync Unset false false RIdle CIdle 0 false false (Some false)). vm_compute. auto. Qed.

Definition one_tick : list act := [RClaim; RSettle; RCall].
Definition close_while_calling : list act := [RClaim; RSettle; ADeinit; ALoad; ASwap; AClose; RCall].
Lemma ticking : forall n sg re, (sg <= 1) -> exists sg', sg' <= 1 /\
  run (Sync Waiting true true RIdle CIdle sg false false re) (concat (repeat one_tick n)) = Some (Sync Waiting true true RIdle CIdle sg' false false re).
Proof.
  induction n as [|n IH]; intros sg re H; cbn [repeat concat]; [exists sg; split; [exact H|reflexivity]|].
  destruct (IH 1 re (le_n 1)) as (sg' & L & E). exists sg'. split; [exact L|]. rewrite run_app. exact E.
Qed.
(** A ticker, whatever the number of its ticks, panics when it is closed between the moment the timing
    thread puts its status back and the moment it sends: one Deinit suffices. *)
Theorem C112_ticker_refuted : forall n, exists s, let l := ATick :: concat (repeat one_tick n) ++ close_while_calling in
  run Init l = Some s /\ s_crash s = true /\ count deinits l = 1 /\ count arms l = 1.
Proof.
  intros n. destruct (ticking n 0 None (le_S _ _ (le_n 0))) as (sg & _ & E).
  exists (Sync Deleted true true RIdle CIdle sg true true (Some true)). cbn zeta.
  split; [|split; [reflexivity|]].
  - change (ATick :: concat (repeat one_tick n) ++ close_while_calling) with ([ATick] ++ (concat (repeat one_tick n) ++ close_while_calling)).
    rewrite run_app. change (run Init [ATick]) with (Some (Sync Waiting true true RIdle CIdle 0 false false None)). cbn iota beta.
    rewrite run_app, E. reflexivity.
  - change (ATick :: concat (repeat one_tick n) ++ close_while_calling) with ([ATick] ++ (concat (repeat one_tick n) ++ close_while_calling)).
    rewrite !count_app. assert (C : forall f, f RClaim = false -> f RSettle = false -> f RCall = false -> count f (concat (repeat one_tick n)) = 0).
    { clear E. intros f A B C. induction n as [|m IH]; [reflexivity|]. cbn [repeat concat]. rewrite count_app, IH. unfold count. cbn [one_tick filter]. now rewrite A, B, C. }
    split; rewrite C by reflexivity; reflexivity.
Qed.
Print Assumptions C112_ticker_refuted.

(** A one-shot timer that is started again while its handler is about to be called, and closed. *)
Theorem C112_restart_refuted : exists s, run Init ([AStart; RClaim; RSettle; AStart; ADeinit; ALoad; ASwap; AClose; RCall]) = Some s /\ s_crash s = true.
Proof. exists (Sync Deleted false true RIdle CIdle 0 true true (Some true)). vm_compute. auto. Qed.
Print Assumptions C112_restart_refuted.

Lemma invd_step s a s' : step s a = Some s' ->
  (s_run s = RClaimed -> s_stat s = Running) /\ (s_cli s = CClosing -> s_stat s = Deleted \/ s_stat s = Removed) ->
  (s_run s' = RClaimed -> s_stat s' = Running) /\ (s_cli s' = CClosing -> s_stat s' = Deleted \/ s_stat s' = Removed).
Proof.
  crush s a; intros (A0 & A); (split; [intros B0|intros B]); try discriminate; try auto; try (destruct dein; discriminate B);
  try (specialize (A0 B0)); try discriminate; try (specialize (A B)); try (destruct A; discriminate); try (specialize (A0 eq_refl));
  try congruence; try (destruct A; congruence).
Qed.
Lemma closing l s : run Init l = Some s -> s_cli s = CClosing -> s_stat s = Deleted \/ s_stat s = Removed.
Proof.
  intros R. enough (G : (s_run s = RClaimed -> s_stat s = Running) /\ (s_cli s = CClosing -> s_stat s = Deleted \/ s_stat s = Removed)) by apply G.
  revert s R. induction l as [|a l IH] using rev_ind; intros s R; [cbn in R; assert (s = Init) by congruence; subst; split; discriminate|].
  rewrite run_snoc in R. destruct (run Init l) as [s0|] eqn:E; [|discriminate]. eapply invd_step; [exact R|]. now apply IH.
Qed.
(** Closing any timer, ticker or not, at a moment when the timing thread is not working on it, and
    using it no more, never panics: the exact guard for a ticker. *)
Definition idle (s : sync) : Prop := s_run s = RIdle /\ (s_stat s = Deleted \/ s_stat s = Removed) /\ s_crash s = false /\
  s_cli s <> CClosing /\ s_cli s <> CLoop true /\ s_cli s <> CSwap true.
Lemma idle_step s a s' : step s a = Some s' -> arms a = false -> deinits a = false -> idle s -> idle s'.
Proof.
  unfold idle. crush s a; intros A B (I1 & I2 & I3 & I4 & I5 & I6); try discriminate; try congruence;
  cbn [s_stat s_period s_on s_run s_cli s_sig s_closed s_crash s_ret] in *;
  try (destruct dein); try congruence; repeat split; auto; try congruence; try discriminate; try (destruct I2; discriminate).
Qed.
Theorem C112_quiet_partial : forall l1 l2 s1 s, run Init l1 = Some s1 -> s_cli s1 = CClosing -> s_closed s1 = false ->
  s_run s1 = RIdle -> run s1 (AClose :: l2) = Some s -> count arms l2 = 0 -> count deinits l2 = 0 -> s_crash s = false.
Proof.
  intros l1 l2 s1 s R C N Q R2 A D. pose proof (closing _ _ R C) as K.
  cbn [run] in R2. destruct (step s1 AClose) as [s2|] eqn:E; [|discriminate].
  assert (I : idle s2).
  { pose proof (step_live _ _ _ E) as Lv. unfold step in E. rewrite Lv, C in E. rewrite N, Q in E.
    assert (s2 = Sync (s_stat s1) (s_period s1) (s_on s1) RIdle CIdle (s_sig s1) true false (s_ret s1)) by congruence. subst s2.
    unfold idle. cbn [s_stat s_run s_crash s_cli]. repeat split; auto; discriminate. }
  clear -R2 A D I. revert s2 I R2. induction l2 as [|a l2 IH]; intros s2 I R2.
  - cbn in R2. assert (s = s2) by congruence. subst. apply I.
  - cbn [run] in R2. destruct (step s2 a) as [s3|] eqn:E; [|discriminate].
    unfold count in A, D. cbn [filter] in A, D. destruct (arms a) eqn:Aa; [discriminate|]. destruct (deinits a) eqn:Da; [discriminate|].
    apply (IH A D s3); [|exact R2]. eapply idle_step; eauto.
Qed.
Print Assumptions C112_quiet_partial.
Example C112_quiet_case : exists s, run Init [ATick; RClaim; RSettle; RCall; ADeinit; ALoad; ASwap] = Some s /\
  s_cli s = CClosing /\ s_closed s = false /\ s_run s = RIdle.
Proof. exists (Sync Deleted true true RIdle CClosing 1 false false (Some true)). vm_compute. auto. Qed.

(** Closing a closed timer always panics. *)
Theorem C112_twice_refuted : forall l s, run Init l = Some s -> s_closed s = true -> s_crash s = false ->
  s_cli s = CIdle -> s_stat s = Deleted \/ s_stat s = Removed ->
  exists s', run s [ADeinit; ALoad; AClose] = Some s' /\ s_crash s' = true.
Proof.
  intros l s R C N K D. destruct s as [st pe on ru cl sg clo cr re]. cbn [s_closed s_crash s_cli s_stat] in *. subst.
  destruct D as [-> | ->]; eexists; (split; [reflexivity|reflexivity]).
Qed.
Print Assumptions C112_twice_refuted.
Example C112_twice_case : run Init close_unfired = Some (Sync Deleted false true RIdle CIdle 0 true false (Some true)).
Proof. reflexivity. Qed.

(** A one-shot timer that has fired cannot be closed: Deinit reports an error, the channel stays open,
    and a reader that waits on it waits for ever. *)
Theorem C112_fired_refuted : forall l s, run Init l = Some s -> s_crash s = false -> s_stat s = Unset -> s_cli s = CIdle ->
  s_run s = RIdle -> s_sig s = 0 -> s_closed s = false ->
  exists s', run s [ADeinit; ALoad] = Some s' /\ s_ret s' = Some false /\ s_closed s' = false /\
  forall l' s'', run s' l' = Some s'' -> count arms l' = 0 -> step s'' ARecv = None.
Proof.
  intros l s R N U K Q Z C. destruct s as [st pe on ru cl sg clo cr re]. cbn [s_closed s_crash s_cli s_stat s_run s_sig] in *. subst.
  eexists. split; [reflexivity|]. split; [reflexivity|]. split; [reflexivity|].
  set (P := fun s => s_stat s = Unset /\ s_run s = RIdle /\ s_sig s = 0 /\ s_closed s = false /\ s_crash s = false /\
     s_cli s <> CClosing /\ (forall d, s_cli s <> CSwap d)).
  assert (S1 : forall s a s', step s a = Some s' -> arms a = false -> P s -> P s').
  { clear. intros s a s'. unfold P. crush s a; intros A (I1 & I2 & I3 & I4 & I5 & I6 & I7); try discriminate; try congruence;
    cbn [s_stat s_period s_on s_run s_cli s_sig s_closed s_crash s_ret] in *; try congruence;
    try (rewrite andb_false_r); repeat split; auto; try congruence; try discriminate. 
    all: try (exfalso; eapply I7; reflexivity). }
  match goal with |- forall l' s'', run ?s0 l' = _ -> _ => assert (P0 : P s0) by (unfold P; cbn; repeat split; try congruence; destruct dein; discriminate || (intros; discriminate)) end.
  intros l' s''. match type of P0 with P ?s0 => generalize dependent s0 end. clear -S1.
  induction l' as [|a l' IH]; intros s0 P0 R A.
  - cbn in R. assert (s'' = s0) by congruence. subst. destruct P0 as (I1 & I2 & I3 & I4 & I5 & _). unfold step. rewrite I5, I3, I4. reflexivity.
  - cbn [run] in R. destruct (step s0 a) as [s1|] eqn:E; [|discriminate]. unfold count in A. cbn [filter] in A.
    destruct (arms a) eqn:Aa; [discriminate|]. apply (IH s1); [eapply S1; eauto|exact R|exact A].
Qed.
Print Assumptions C112_fired_refuted.
Example C112_fired_case : exists s, run Init [AStart; RClaim; RSettle; RCall; ARecv] = Some s /\ s_crash s = false /\ s_stat s = Unset /\
  s_cli s = CIdle /\ s_run s = RIdle /\ s_sig s = 0 /\ s_closed s = false.
Proof. exists (Sync Unset false false RIdle CIdle 0 false false None). vm_compute. auto 10. Qed.

(** C112.  A timer that was never armed, or has fired for good, is on no heap: Start always takes it. *)
Theorem C112_unset_off : forall l s, run Init l = Some s -> s_stat s = Unset -> s_on s = false.
Proof.
  intros l. induction l as [|a l IH] using rev_ind; intros s R U.
  - cbn in R. assert (s = Init) by congruence. now subst.
  - rewrite run_snoc in R. destruct (run Init l) as [s0|] eqn:E; [|discriminate]. specialize (IH s0 eq_refl). clear E.
    destruct s0 as [st pe on rn cl sg cd cr rt]. cbn [s_stat s_on] in IH. unfold step in R. cbn [s_crash s_cli s_stat s_run s_sig s_closed s_on s_period s_ret] in R.
    destruct cr; [discriminate|].
    destruct a, st, cl, rn; try discriminate; unfold start, tick, with_cli, stopped in R; cbn in R; try discriminate;
      repeat match type of R with context[if ?b then _ else _] => destruct b end; try discriminate;
      repeat match type of R with context[match ?b with O => _ | S _ => _ end] => destruct b end; try discriminate;
      injection R as <-; cbn in *; auto; try discriminate.
Qed.
Print Assumptions C112_unset_off.
Example C112_unset_case : exists s, run Init [AStart; RClaim; RSettle] = Some s /\ s_stat s = Unset /\ s_on s = false.
Proof. eexists. repeat split; reflexivity. Qed.
