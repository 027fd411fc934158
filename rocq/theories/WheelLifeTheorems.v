(** C160: stopping a timing wheel. *)
From Coq Require Import ZifyBool ZifyNat.
From Verif Require Import Go GoFacts WheelLifeModel.

(** What holds of every reached state. *)
Record inv (s : life) : Prop := {
  i_wait : at_ s = PWaiting -> signal s = false;
  i_leave : at_ s = PLeaving -> signal s = false /\ tick s <> TRunning /\ stop s = true;
  i_new : tick s = TNew -> at_ s = PNone;
  i_none : at_ s = PNone -> tick s = TNew /\ stop s = true /\ signal s = false;
  i_returned : at_ s = PReturned -> stop s = false;
  i_gone : stop s = false -> tick s = TStopped /\ signal s = false }.
Lemma inv_new : inv new_life.
Proof. constructor; cbn; intros; try discriminate; auto. Qed.
Lemma inv_make s m r : inv s -> make s m = Some r -> inv (fst r).
Proof.
  intros [A B C D E F] M. destruct s as [st tk sg at0 hd]; cbn in *. destruct m; cbn in M.
  all: destruct at0, tk, sg, st; cbn in M; try discriminate; injection M as <-; constructor; cbn; intros; try discriminate; try tauto;
    repeat match goal with H : ?a = ?a -> _ |- _ => specialize (H eq_refl) end; try tauto; try (split; [congruence|tauto]); try (repeat split; congruence); try intuition congruence.
Qed.
Lemma inv_moves l : forall s s', inv s -> moves s l = Some s' -> inv s'.
Proof.
  induction l as [|m l IH]; intros s s' I M; cbn [moves] in M; [now injection M as <-|].
  destruct (make s m) as [r|] eqn:E; [|discriminate]. eapply IH; [eapply inv_make; eauto|exact M].
Qed.

(** * C160.  Stop reports that it stopped the wheel exactly when it finds the goroutine waiting for
    the next tick and the wheel not stopped before; *)
Theorem C160_report_exact : forall s r b, make s Stop = Some (r, Some b) -> (b = false <-> at_ s = PWaiting /\ stop s = true).
Proof.
  intros [st tk sg at0 hd] r b M. cbn in *. destruct st, at0; cbn in M; injection M as <- <-; split; intros X; try discriminate; try tauto; destruct X; discriminate.
Qed.
Print Assumptions C160_report_exact.

(** then no tick is handled ever after, and the goroutine has nothing left to do but return. *)
Theorem C160_stops_partial : forall before s s1 after s2, moves new_life before = Some s -> make s Stop = Some (s1, Some false) ->
  moves s1 after = Some s2 -> ~ In Start after ->
  handled s2 = handled s /\ (at_ s2 = PLeaving \/ at_ s2 = PReturned) /\ exists l s3, moves s2 l = Some s3 /\ at_ s3 = PReturned.
Proof.
  intros l1 s s1 l2 s2 M1 Ms M2 Ns. apply inv_moves in M1; [|apply inv_new].
  assert (X : handled s1 = handled s /\ inv s1 /\ at_ s1 = PLeaving).
  { split; [|split]; [| change s1 with (fst (s1, Some false)); eapply inv_make; eauto|].
    all: destruct s as [st tk sg at0 hd]; cbn in Ms; destruct st, at0; cbn in Ms; try discriminate; injection Ms as <-; reflexivity. }
  destruct X as (Eh & I1 & P1). rewrite <- Eh. clear Ms Eh M1 s l1.
  assert (G : handled s2 = handled s1 /\ (at_ s2 = PLeaving \/ at_ s2 = PReturned) /\ inv s2).
  { assert (P : at_ s1 = PLeaving \/ at_ s1 = PReturned) by auto. clear P1. revert s1 I1 P M2. induction l2 as [|m l2 IH]; intros s1 I1 P M2; cbn [moves] in M2.
    - injection M2 as <-. auto.
    - destruct (make s1 m) as [r|] eqn:E; [|discriminate]. pose proof (inv_make _ _ _ I1 E) as Ir.
      assert (Y : handled (fst r) = handled s1 /\ (at_ (fst r) = PLeaving \/ at_ (fst r) = PReturned)).
      { destruct I1 as [A B C D E' F]. destruct s1 as [st tk sg at0 hd]; cbn in *. destruct m; cbn in E.
        - exfalso. apply Ns. now left.
        - destruct tk; try discriminate. destruct P as [->| ->]; [destruct (B eq_refl) as (_ & B2 & _); congruence|]. destruct (F (E' eq_refl)). discriminate.
        - destruct P as [->| ->]; discriminate.
        - destruct P as [->| ->]; [|discriminate]. injection E as <-. cbn. auto.
        - destruct st; cbn in E; [destruct P as [->| ->]|]; injection E as <-; cbn; auto. }
      destruct Y as [Y1 Y2]. destruct (IH (fun X => Ns (or_intror X)) _ Ir Y2 M2) as (Z1 & Z2 & Z3). split; [congruence|auto]. }
  destruct G as (G1 & G2 & G3). split; [exact G1|]. split; [exact G2|]. destruct G2 as [G2|G2].
  - exists [Leave]. eexists. cbn [moves make]. rewrite G2. split; reflexivity.
  - exists [], s2. auto.
Qed.
Print Assumptions C160_stops_partial.

(** While the goroutine is busy with a tick, Stop reports that the wheel was stopped already; *)
Theorem C160_busy_refuted : forall s, at_ s = PBusy -> exists s1, make s Stop = Some (s1, Some true).
Proof. intros [st tk sg at0 hd] E. cbn in E. subst. destruct st; eexists; reflexivity. Qed.
Print Assumptions C160_busy_refuted.

(** the goroutine then never returns, however it goes on, unless Stop is called again: it may handle
    one more tick, and waits for ever. *)
Theorem C160_leak_refuted : forall before s s1 after s2, moves new_life before = Some s -> at_ s = PBusy -> make s Stop = Some (s1, Some true) ->
  moves s1 after = Some s2 -> ~ In Stop after ->
  (at_ s2 = PBusy \/ at_ s2 = PWaiting) /\ handled s <= handled s2 <= handled s + 1 /\ (at_ s2 = PWaiting -> forall m, m <> Stop -> make s2 m = None).
Proof.
  intros l1 s s1 l2 s2 M1 Pb Ms M2 Ns. apply inv_moves in M1; [|apply inv_new].
  assert (X : at_ s1 = PBusy /\ tick s1 = TStopped /\ handled s1 = handled s).
  { destruct M1 as [A B C D E F]. destruct s as [st tk sg at0 hd]; cbn in *. subst at0. destruct st, tk; cbn in Ms; try discriminate; injection Ms as <-; cbn; auto;
      try (specialize (C eq_refl); discriminate); destruct (F eq_refl); discriminate. }
  destruct X as (X1 & X2 & X3). rewrite <- X3. clear X3 Ms M1 Pb s l1.
  assert (G : (at_ s2 = PBusy \/ at_ s2 = PWaiting) /\ tick s2 = TStopped /\ handled s1 <= handled s2 /\
    handled s2 + (if signal s2 then 1 else 0) <= handled s1 + (if signal s1 then 1 else 0)).
  { assert (P : at_ s1 = PBusy \/ at_ s1 = PWaiting) by auto. clear X1. revert s1 P X2 M2. induction l2 as [|m l2 IH]; intros s1 P T M2; cbn [moves] in M2.
    - injection M2 as <-. repeat split; auto; lia.
    - destruct (make s1 m) as [r|] eqn:E; [|discriminate].
      assert (Y : (at_ (fst r) = PBusy \/ at_ (fst r) = PWaiting) /\ tick (fst r) = TStopped /\ handled s1 <= handled (fst r) /\
        handled (fst r) + (if signal (fst r) then 1 else 0) <= handled s1 + (if signal s1 then 1 else 0)).
      { destruct s1 as [st tk sg at0 hd]; cbn in *. subst tk. destruct m; cbn in E; try discriminate.
        - destruct P as [->| ->]; discriminate.
        - destruct P as [->| ->]; [|discriminate]. destruct sg; injection E as <-; cbn; repeat split; auto; lia.
        - destruct P as [->| ->]; discriminate.
        - exfalso. apply Ns. now left. }
      destruct Y as (Y1 & Y2 & Y3 & Y4). destruct (IH (fun Z => Ns (or_intror Z)) _ Y1 Y2 M2) as (Z1 & Z2 & Z3 & Z4). repeat split; auto; lia. }
  destruct G as (G1 & G2 & G3 & G4). split; [exact G1|]. split; [destruct (signal s1), (signal s2); lia|].
  intros W m Nm. destruct s2 as [st tk sg at0 hd]; cbn in *. subst. destruct m; try reflexivity. congruence.
Qed.
Print Assumptions C160_leak_refuted.

(** A wheel that was stopped and is started again never ticks, reports that it is stopped already,
    and its goroutine never returns. *)
Theorem C160_restart_refuted : forall before s s1 after s2, moves new_life before = Some s -> at_ s = PReturned -> make s Start = Some (s1, None) ->
  moves s1 after = Some s2 -> handled s2 = handled s /\ (at_ s2 = PBusy \/ at_ s2 = PWaiting) /\ make s2 Stop = Some (s2, Some true).
Proof.
  intros l1 s s1 l2 s2 M1 Pr Ms M2. apply inv_moves in M1; [|apply inv_new].
  assert (X : at_ s1 = PBusy /\ tick s1 = TStopped /\ signal s1 = false /\ stop s1 = false /\ handled s1 = handled s).
  { destruct M1 as [A B C D E F]. destruct s as [st tk sg at0 hd]; cbn in *. subst at0. specialize (E eq_refl). destruct (F E). subst. cbn in Ms. injection Ms as <-. cbn. auto. }
  destruct X as (X1 & X2 & X3 & X4 & X5). rewrite <- X5. clear X5 Ms M1 Pr s l1.
  assert (P : at_ s1 = PBusy \/ at_ s1 = PWaiting) by auto. clear X1. revert s1 P X2 X3 X4 M2. induction l2 as [|m l2 IH]; intros s1 P T Sg St M2; cbn [moves] in M2.
  - injection M2 as <-. split; [reflexivity|]. split; [exact P|]. cbn [make]. now rewrite St.
  - destruct (make s1 m) as [r|] eqn:E; [|discriminate].
    assert (Y : handled (fst r) = handled s1 /\ (at_ (fst r) = PBusy \/ at_ (fst r) = PWaiting) /\ tick (fst r) = TStopped /\ signal (fst r) = false /\ stop (fst r) = false).
    { destruct s1 as [st tk sg at0 hd]; cbn in *. subst. destruct m; cbn in E; try discriminate.
      - destruct P as [->| ->]; discriminate.
      - destruct P as [->| ->]; [|discriminate]. injection E as <-. cbn. auto.
      - destruct P as [->| ->]; discriminate.
      - injection E as <-. cbn. auto. }
    destruct Y as (Y1 & Y2 & Y3 & Y4 & Y5). rewrite <- Y1. eapply IH; eauto.
Qed.
Print Assumptions C160_restart_refuted.

(** A wheel that runs and is not stopped handles every tick that finds it waiting. *)
Theorem C160_ticks_partial : forall s s1, at_ s = PWaiting -> make s Due = Some (s1, None) -> handled s1 = handled s + 1 /\ at_ s1 = PBusy.
Proof. intros [st tk sg at0 hd] s1 E M. cbn in *. subst. destruct tk; try discriminate. injection M as <-. auto. Qed.
Print Assumptions C160_ticks_partial.

(** A wheel never handles more ticks than came due, *)
Definition dues (l : list move) : Z := Z.of_nat (length (filter (fun m => match m with Due => true | _ => false end) l)).
Theorem C160_no_more : forall l s, moves new_life l = Some s -> 0 <= handled s <= dues l.
Proof.
  intros l s M. assert (G : forall l s0 s, moves s0 l = Some s -> handled s0 <= handled s /\
    handled s + (if signal s then 1 else 0) <= handled s0 + (if signal s0 then 1 else 0) + dues l).
  { clear. unfold dues. induction l as [|m l IH]; intros s0 s M; cbn [moves] in M; [injection M as <-; cbn; lia|].
    destruct (make s0 m) as [r|] eqn:E; [|discriminate]. specialize (IH _ _ M). cbn [filter].
    destruct s0 as [st tk sg at0 hd]. destruct m; cbn in E; cbn [length handled signal] in *.
    - destruct at0; try discriminate; injection E as <-; cbn in IH; lia.
    - destruct tk; try discriminate; destruct at0; injection E as <-; cbn [fst handled signal] in IH; destruct sg; lia.
    - destruct at0; try discriminate. destruct sg; injection E as <-; cbn [fst handled signal] in IH; lia.
    - destruct at0; try discriminate. injection E as <-; cbn [fst handled signal] in IH; lia.
    - destruct st, at0; cbn in E; injection E as <-; cbn [fst handled signal] in IH; lia. }
  specialize (G _ _ _ M). change (handled new_life) with 0 in G. change (signal new_life) with false in G. destruct (signal s); lia.
Qed.
Print Assumptions C160_no_more.

(** and one that comes due while it is busy is handled next; of more than one, all but one are lost. *)
Theorem C160_late : forall s n, at_ s = PBusy -> tick s = TRunning ->
  exists s1, moves s (repeat Due (S n) ++ [Next; Next]) = Some s1 /\ handled s1 = handled s + 1 /\ at_ s1 = PWaiting.
Proof.
  intros s n A T. assert (E : forall s, at_ s = PBusy -> tick s = TRunning -> make s Due = Some ({| stop := stop s; tick := tick s; signal := true; at_ := at_ s; handled := handled s |}, None)).
  { intros s0 A0 T0. cbn. now rewrite A0, T0. }
  assert (G : forall n s, at_ s = PBusy -> tick s = TRunning -> signal s = true -> exists s1, moves s (repeat Due n ++ [Next; Next]) = Some s1 /\ handled s1 = handled s + 1 /\ at_ s1 = PWaiting).
  { clear s n A T. induction n as [|n IH]; intros s A T Sg.
    - cbn [repeat app moves make]. rewrite A, Sg. cbn. eexists. repeat split.
    - cbn [repeat app moves]. rewrite (E s A T). cbn [fst]. destruct (IH {| stop := stop s; tick := tick s; signal := true; at_ := at_ s; handled := handled s |} A T eq_refl) as (s1 & M & H & P). eauto. }
  cbn [repeat app moves]. rewrite (E s A T). cbn [fst]. exact (G n {| stop := stop s; tick := tick s; signal := true; at_ := at_ s; handled := handled s |} A T eq_refl).
Qed.
Print Assumptions C160_late.

Example C160_nonvacuous :
  (exists s, moves new_life [Start; Next; Due; Next; Stop] = Some s /\ at_ s = PLeaving /\ handled s = 1) /\
  (exists s s1 s2, moves new_life [Start; Next; Due; Due] = Some s /\ make s Stop = Some (s1, Some true) /\ moves s1 [Next; Next] = Some s2 /\
     at_ s2 = PWaiting /\ handled s2 = 2 /\ make s2 Due = None) /\
  (exists s, moves new_life [Start; Next; Stop; Leave; Start; Next; Stop] = Some s /\ at_ s = PWaiting /\ handled s = 0).
Proof.
  split; [eexists; split; [reflexivity|split; reflexivity]|]. split; [|eexists; split; [reflexivity|split; reflexivity]].
  do 3 eexists. split; [reflexivity|]. split; [reflexivity|]. split; [reflexivity|]. repeat split.
Qed.
