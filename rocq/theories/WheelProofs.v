(** Proofs about the timing wheel and the limited ticker. *)
From Coq Require Import ZifyBool ZifyNat.
From Verif Require Import Go GoFacts WheelModel WheelSpec.
Ltac Zify.zify_post_hook ::= Z.div_mod_to_equations.


Lemma addedPosition_ok w id p : wheel_ok w -> 0 <= p < 2 ^ 62 ->
  addedPosition w (id, p) = Ok (p / w_interval w + w_pos w).
Proof.
  intros (H1 & H2 & H3 & H4) Hp. unfold addedPosition. replace (w_interval w =? 0) with false by lia. cbn [snd].
  rewrite Z.quot_div_nonneg by lia.
  assert (0 <= p / w_interval w <= p) by (split; [apply Z.div_pos; lia|apply Z.div_le_upper_bound; nia]).
  rewrite (i64_small (p / _)) by lia. rewrite i64_small by lia. reflexivity.
Qed.

Lemma slot_append_in w p t : 0 <= p < zlen (w_slots w) ->
  exists s, nth_error (w_slots w) (Z.to_nat p) = Some s /\
    slot_append w p t = Ok (w_set w (w_pos w) (upd (w_slots w) (Z.to_nat p) (s ++ [t]))).
Proof.
  intros H. unfold slot_append. destruct (nth_error (w_slots w) (Z.to_nat p)) as [s|] eqn:E.
  - exists s. split; auto. unfold idx. replace (p <? 0) with false by lia. rewrite E. cbn [bind].
    rewrite set_idx_ok by auto. reflexivity.
  - apply nth_error_None in E. unfold zlen in H. lia.
Qed.

Lemma slot_append_out w p t : zlen (w_slots w) <= p -> slot_append w p t = Panic.
Proof. intros H. unfold slot_append. rewrite idx_panic; auto. Qed.

Lemma add_iff w id p : wheel_ok w -> 0 <= p < 2 ^ 62 ->
  (exists r, wheel_AddTimer w (id, p) = Ok r) <-> p / w_interval w + w_pos w < w_size w.
Proof.
  intros Hw Hp. unfold wheel_AddTimer. rewrite (addedPosition_ok w id p Hw Hp). cbn [bind].
  destruct Hw as (H1 & H2 & H3 & H4).
  assert (0 <= p / w_interval w) by (apply Z.div_pos; lia).
  set (q := p / w_interval w) in *.
  destruct (Z.ltb_spec (w_size w) (q + w_pos w)); [split; [intros [r Hr]; discriminate|lia]|].
  destruct (Z.eqb_spec (q + w_pos w) (w_pos w)).
  - split; [lia|intros _]. unfold checkAndAddTimerAgain. cbn [snd]. destruct (0 <? p); [|cbn; eauto].
    rewrite (addedPosition_ok w id p) by (unfold wheel_ok; auto). cbn [bind]. fold q.
    destruct (slot_append_in w (q + w_pos w) (id, p)) as (s & _ & ->); [lia|]. cbn. eauto.
  - split.
    + intros [r Hr]. destruct (Z.lt_ge_cases (q + w_pos w) (w_size w)); auto.
      rewrite slot_append_out in Hr by lia. discriminate.
    + intros Hlt. destruct (slot_append_in w (q + w_pos w) (id, p)) as (s & _ & ->); [lia|]. cbn. eauto.
Qed.

(** ** When an entry fires *)


Lemma run_slot_frame : forall ts w w' f id, run_slot w ts = Ok (w', f) -> cnt id ts = 0%nat ->
  (forall j, slot_cnt w' id j = slot_cnt w id j) /\ count_occ Z.eq_dec f id = 0%nat /\ w_pos w' = w_pos w /\
  length (w_slots w') = length (w_slots w) /\ w_size w' = w_size w /\ w_interval w' = w_interval w /\
  (forall j s, nth_error (w_slots w) j = Some s -> exists s', nth_error (w_slots w') j = Some (s ++ s')).
Proof.
  induction ts as [|t ts IH]; intros w w' f id H Hc; cbn [run_slot] in H.
  - injection H as <- <-. repeat split; auto. intros j s Hs. exists []. now rewrite app_nil_r.
  - unfold cnt in Hc. cbn [map count_occ] in Hc. destruct (Z.eq_dec (fst t) id) as [|Hne]; [discriminate|].
    destruct (checkAndAddTimerAgain w t) as [w1|] eqn:E1; cbn [bind] in H; [|discriminate].
    destruct (run_slot w1 ts) as [[w2 f2]|] eqn:E2; cbn [bind fst snd] in H; [|discriminate]. injection H as <- <-.
    destruct (IH w1 w2 f2 id E2 Hc) as (I1 & I2 & I3 & I4 & I5 & I6 & I7).
    assert (F : (forall j, slot_cnt w1 id j = slot_cnt w id j) /\ w_pos w1 = w_pos w /\
        length (w_slots w1) = length (w_slots w) /\ w_size w1 = w_size w /\ w_interval w1 = w_interval w /\
        (forall j s, nth_error (w_slots w) j = Some s -> exists s', nth_error (w_slots w1) j = Some (s ++ s'))).
    { unfold checkAndAddTimerAgain in E1. destruct (0 <? snd t).
      2:{ injection E1 as <-. repeat split; auto. intros j s Hs. exists []. now rewrite app_nil_r. }
      destruct (addedPosition w t) as [p|]; cbn [bind] in E1; [|discriminate].
      unfold slot_append in E1. destruct (idx (w_slots w) p) as [s|] eqn:Es; cbn [bind] in E1; [|discriminate].
      apply idx_inv in Es. destruct Es as [Hr Es].
      rewrite set_idx_ok in E1 by auto. cbn [bind] in E1. injection E1 as <-. cbn [w_set w_slots w_pos w_size w_interval].
      rewrite upd_length. repeat split; auto.
      - intros j. unfold slot_cnt. cbn [w_set w_slots]. destruct (Nat.eq_dec j (Z.to_nat p)) as [->|Hj].
        + rewrite nth_error_upd_eq by (unfold zlen in Hr; lia). rewrite Es. unfold cnt. rewrite map_app, count_occ_app. cbn [map count_occ].
          destruct (Z.eq_dec (fst t) id); [congruence|rewrite Nat.add_0_r; reflexivity].
        + now rewrite nth_error_upd_neq by auto.
      - intros j s0 Hs0. destruct (Nat.eq_dec j (Z.to_nat p)) as [->|Hj].
        + rewrite nth_error_upd_eq by (unfold zlen in Hr; lia). exists [t]. congruence.
        + rewrite nth_error_upd_neq by auto. exists []. now rewrite app_nil_r. }
    destruct F as (F1 & F2 & F3 & F4 & F5 & F6).
    split; [intros j; now rewrite I1, F1|]. split.
    { cbn [count_occ]. destruct (Z.eq_dec (fst t) id); [congruence|auto]. }
    split; [congruence|]. split; [congruence|]. split; [congruence|]. split; [congruence|].
    intros j s Hs. destruct (F6 j s Hs) as (s1 & E3). destruct (I7 j _ E3) as (s2 & E4). exists (s1 ++ s2). now rewrite app_assoc.
Qed.

(** All callbacks of the slot run, in order. *)
Lemma run_slot_fires : forall ts w w' f, run_slot w ts = Ok (w', f) -> f = map fst ts.
Proof.
  induction ts as [|t ts IH]; intros w w' f H; cbn [run_slot] in H.
  - now injection H as <- <-.
  - destruct (checkAndAddTimerAgain w t) as [w1|]; cbn [bind] in H; [|discriminate].
    destruct (run_slot w1 ts) as [[w2 f2]|] eqn:E2; cbn [bind fst snd] in H; [|discriminate]. injection H as <- <-.
    cbn. f_equal. eauto.
Qed.

Definition only_in (w : wheel) (id : Z) (j : nat) (s : list wtimer) : Prop :=
  nth_error (w_slots w) j = Some s /\ (forall i, i <> j -> slot_cnt w id i = 0%nat).

Lemma tick_other w id j s w' f : w_size w = zlen (w_slots w) -> 0 <= w_pos w < w_size w ->
  w_pos w < Z.of_nat j < w_size w -> only_in w id j s -> wheel_tick w = Ok (w', f) ->
  count_occ Z.eq_dec f id = 0%nat /\ w_pos w' = w_pos w + 1 /\ w_size w' = w_size w /\ w_size w' = zlen (w_slots w') /\
  slot_cnt w' id j = slot_cnt w id j /\ exists s', only_in w' id j (s ++ s').
Proof.
  intros H1 H3 Hj [Hs Ho] H. unfold wheel_tick in H.
  set (w0 := incrementTickPosition w) in H.
  assert (E0 : w_pos w0 = w_pos w + 1 /\ w_slots w0 = w_slots w /\ w_size w0 = w_size w).
  { unfold w0, incrementTickPosition. cbn [w_set w_pos w_slots w_size]. replace (zlen (w_slots w) - 1 =? w_pos w) with false by lia. auto. }
  destruct E0 as (E1 & E2 & E3). rewrite E1, E2 in H.
  destruct (idx (w_slots w) (w_pos w)) as [ts|] eqn:Et; cbn [bind] in H; [|discriminate].
  apply idx_inv in Et. destruct Et as [Hr Et]. rewrite set_idx_ok in H by auto. cbn [bind] in H.
  assert (Hz : cnt id ts = 0%nat).
  { specialize (Ho (Z.to_nat (w_pos w))). unfold slot_cnt in Ho. rewrite Et in Ho. apply Ho. lia. }
  destruct (run_slot_frame _ _ _ _ id H Hz) as (F1 & F2 & F3 & F4 & F5 & F6 & F7).
  cbn [w_set w_pos w_slots w_size] in *.
  assert (Hju : nth_error (upd (w_slots w) (Z.to_nat (w_pos w)) []) j = Some s).
  { rewrite nth_error_upd_neq by lia. exact Hs. }
  rewrite upd_length in F4.
  split; [exact F2|]. split; [exact F3|]. split; [congruence|]. split; [unfold zlen in *; lia|]. split.
  - rewrite F1. unfold slot_cnt. cbn [w_set w_slots]. now rewrite Hju, Hs.
  - destruct (F7 j s Hju) as (s' & E'). exists s'. split; auto. intros i Hi. rewrite F1. unfold slot_cnt. cbn [w_set w_slots].
    destruct (Nat.eq_dec i (Z.to_nat (w_pos w))) as [->|Hne].
    + rewrite nth_error_upd_eq by (unfold zlen in Hr; lia). reflexivity.
    + rewrite nth_error_upd_neq by auto. apply Ho. exact Hi.
Qed.

(** [k] ticks that do not reach slot [j], then the one that does. *)
Lemma ticks_fire : forall k w id j s r, w_size w = zlen (w_slots w) -> 0 <= w_pos w < w_size w ->
  Z.of_nat j < w_size w -> w_pos w + Z.of_nat k = Z.of_nat j -> only_in w id j s ->
  wheel_ticks (S k) w = Ok r ->
  exists early last, snd r = early ++ [last] /\ length early = k /\
    Forall (fun f => count_occ Z.eq_dec f id = 0%nat) early /\ count_occ Z.eq_dec last id = slot_cnt w id j.
Proof.
  induction k as [|k IH]; intros w id j s r H1 H3 Hj Hk Ho H.
  - cbn [wheel_ticks] in H. destruct (wheel_tick w) as [[w1 f]|] eqn:E; cbn [bind fst snd] in H; [|discriminate].
    injection H as <-. cbn [fst snd]. exists [], f. split; [reflexivity|]. split; [reflexivity|]. split; [constructor|].
    unfold wheel_tick in E. set (w0 := incrementTickPosition w) in E.
    assert (E2 : w_slots w0 = w_slots w) by reflexivity. rewrite E2 in E.
    destruct (idx (w_slots w) (w_pos w)) as [ts|] eqn:Et; cbn [bind] in E; [|discriminate].
    apply idx_inv in Et. destruct Et as [Hr Et]. rewrite set_idx_ok in E by auto. cbn [bind] in E.
    apply run_slot_fires in E. subst f. unfold slot_cnt. replace j with (Z.to_nat (w_pos w)) by lia. rewrite Et. reflexivity.
  - change (wheel_ticks (S (S k)) w) with (let! r0 := wheel_tick w in let! r' := wheel_ticks (S k) (fst r0) in Ok (fst r', snd r0 :: snd r')) in H.
    destruct (wheel_tick w) as [[w1 f]|] eqn:E; cbn [bind fst snd] in H; [|discriminate].
    destruct (wheel_ticks (S k) w1) as [r1|] eqn:E1; cbn [bind fst snd] in H; [|discriminate]. injection H as <-. cbn [snd].
    destruct (tick_other w id j s w1 f H1 H3) as (T1 & T2 & T3 & T4 & T5 & s' & T6); auto; [lia|].
    destruct (IH w1 id j (s ++ s') r1) as (early & last & I1 & I2 & I3 & I4); auto; try lia.
    exists (f :: early), last. rewrite I1. split; [reflexivity|]. split; [cbn; lia|]. split; [constructor; auto|]. congruence.
Qed.

Lemma fires_after_delay w id p w1 f r : wheel_ok w -> 0 <= p < 2 ^ 62 -> w_interval w <= p ->
  (forall j, slot_cnt w id j = 0%nat) ->
  wheel_AddTimer w (id, p) = Ok (w1, f) ->
  wheel_ticks (S (Z.to_nat (p / w_interval w))) w1 = Ok r ->
  f = [] /\ exists early last, snd r = early ++ [last] /\ length early = Z.to_nat (p / w_interval w) /\
    Forall (fun f => count_occ Z.eq_dec f id = 0%nat) early /\ count_occ Z.eq_dec last id = 1%nat.
Proof.
  intros Hw Hp Hi Hn Ha Ht.
  assert (Hr : p / w_interval w + w_pos w < w_size w) by (apply (add_iff w id p Hw Hp); eauto).
  unfold wheel_AddTimer in Ha. rewrite (addedPosition_ok w id p Hw Hp) in Ha. cbn [bind] in Ha.
  destruct Hw as (H1 & H2 & H3 & H4).
  assert (Hq : 1 <= p / w_interval w) by (apply Z.div_le_lower_bound; lia).
  set (q := p / w_interval w) in *.
  replace (w_size w <? q + w_pos w) with false in Ha by lia. replace (q + w_pos w =? w_pos w) with false in Ha by lia.
  destruct (slot_append_in w (q + w_pos w) (id, p)) as (s & Es & Ea); [lia|]. rewrite Ea in Ha. cbn [bind] in Ha.
  injection Ha as <- <-. split; auto.
  set (j := Z.to_nat (q + w_pos w)) in *.
  assert (Hjl : (j < length (w_slots w))%nat) by (unfold zlen in *; lia).
  destruct (ticks_fire (Z.to_nat q) (w_set w (w_pos w) (upd (w_slots w) j (s ++ [(id, p)]))) id j (s ++ [(id, p)]) r)
    as (early & last & I1 & I2 & I3 & I4); cbn [w_set w_size w_slots w_pos]; auto; try lia.
  - unfold zlen in *. rewrite upd_length. lia.
  - split; cbn [w_set w_slots]. { now rewrite nth_error_upd_eq. }
    intros i Hij. unfold slot_cnt. cbn [w_set w_slots]. rewrite nth_error_upd_neq by auto. apply Hn.
  - exists early, last. repeat split; auto. rewrite I4. unfold slot_cnt. cbn [w_set w_slots]. rewrite nth_error_upd_eq by auto.
    unfold cnt. rewrite map_app, count_occ_app. cbn [map count_occ fst]. destruct (Z.eq_dec id id); [|congruence].
    specialize (Hn j). unfold slot_cnt, cnt in Hn. rewrite Es in Hn. exact (f_equal (fun x => (x + 1)%nat) Hn).
Qed.

(** ** The limited ticker *)

Lemma lt_run_stopped n : forall t, lt_stopped t = true -> lt_run n t = t.
Proof. induction n; intros t H; cbn; auto. rewrite H. auto. Qed.

Lemma lt_run_spec : forall m t, lt_stopped t = false -> 0 <= lt_left t ->
  lt_ticks (lt_run m t) = lt_ticks t + Z.min (Z.of_nat m) (lt_left t + 1) /\
  (lt_stopped (lt_run m t) = true <-> lt_left t < Z.of_nat m).
Proof.
  induction m as [|m IH]; intros t Hs Hl; cbn [lt_run].
  - rewrite Hs. split; [lia|]. split; [discriminate|lia].
  - rewrite Hs. unfold lt_handler. destruct (Z.ltb_spec 0 (lt_left t)).
    + destruct (IH {| lt_left := lt_left t - 1; lt_stopped := lt_stopped t; lt_ticks := lt_ticks t + 1 |}) as [I1 I2];
        cbn [lt_left lt_stopped lt_ticks] in *; auto; [lia|]. split; [lia|]. rewrite I2. lia.
    + rewrite lt_run_stopped by reflexivity. cbn [lt_left lt_stopped lt_ticks]. split; [lia|]. split; auto. lia.
Qed.
