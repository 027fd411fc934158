(** C12: periodic timers on a wheel, and callbacks that add timers, in general. *)
From Coq Require Import ZifyBool ZifyNat.
From Verif Require Import Go GoFacts WheelModel WheelSpec WheelProofs WheelLifeModel.
Ltac Zify.zify_post_hook ::= Z.div_mod_to_equations.

Lemma upd_same {A} (l : list A) n x : nth_error l n = Some x -> upd l n x = l.
Proof. revert n. induction l as [|a l IH]; intros [|n] H; cbn in *; try discriminate; [congruence|]. now rewrite IH. Qed.
Lemma upd_upd {A} (l : list A) n x y : upd (upd l n x) n y = upd l n y.
Proof. revert n. induction l as [|a l IH]; intros [|n]; cbn; try reflexivity. now rewrite IH. Qed.
Lemma nth_repeat_some {A} (x : A) n k : (k < n)%nat -> nth_error (repeat x n) k = Some x.
Proof. revert k. induction n as [|n IH]; intros k H; [lia|]. destruct k; cbn; [reflexivity|apply IH; lia]. Qed.
Lemma ticks_S n w : wheel_ticks (S n) w = let! r := wheel_tick w in let! r' := wheel_ticks n (fst r) in Ok (fst r', snd r :: snd r').
Proof. reflexivity. Qed.

(** one timer alone on the wheel, in slot [s] *)
Definition lone (w : wheel) (t : wtimer) (s : Z) : Prop :=
  wheel_ok w /\ 0 <= s < w_size w /\ w_slots w = upd (repeat [] (Z.to_nat (w_size w))) (Z.to_nat s) [t].
Definition follow (w : wheel) : Z := if w_size w - 1 =? w_pos w then 0 else w_pos w + 1.

Lemma lone_wait w t s : lone w t s -> w_pos w < s -> exists w', wheel_tick w = Ok (w', []) /\ lone w' t s /\ w_pos w' = w_pos w + 1 /\
  w_size w' = w_size w /\ w_interval w' = w_interval w.
Proof.
  intros ((H1 & H2 & H3 & H4) & Hs & E) L. unfold wheel_tick, incrementTickPosition. cbn [w_set w_pos w_slots].
  assert (N : nth_error (w_slots w) (Z.to_nat (w_pos w)) = Some []).
  { rewrite E, nth_error_upd_neq by lia. apply nth_repeat_some. lia. }
  rewrite (idx_ok _ _ []) by (auto; lia). cbn [bind]. rewrite set_idx_ok by lia. cbn [bind run_slot].
  replace (zlen (w_slots w) - 1 =? w_pos w) with false by lia. rewrite (upd_same _ _ _ N).
  eexists. split; [reflexivity|]. cbn [w_set w_pos w_size w_interval w_slots]. split; [|auto].
  split; [|split; [exact Hs|exact E]]. unfold wheel_ok. cbn [w_set w_pos w_size w_interval w_slots]. lia.
Qed.

Lemma lone_fire w id p : lone w (id, p) (w_pos w) -> 0 < p < 2 ^ 62 ->
  let q := p / w_interval w in
  if q + follow w <? w_size w
  then exists w', wheel_tick w = Ok (w', [id]) /\ lone w' (id, p) (q + follow w) /\ w_pos w' = follow w /\ w_size w' = w_size w /\ w_interval w' = w_interval w
  else wheel_tick w = Panic.
Proof.
  intros ((H1 & H2 & H3 & H4) & Hs & E) Hp q. unfold wheel_tick, incrementTickPosition. cbn [w_set w_pos w_slots].
  assert (Hq : 0 <= q) by (apply Z.div_pos; lia).
  assert (N : nth_error (w_slots w) (Z.to_nat (w_pos w)) = Some [(id, p)]).
  { rewrite E, nth_error_upd_eq; [reflexivity|]. rewrite repeat_length. lia. }
  rewrite (idx_ok _ _ [(id, p)]) by (auto; lia). cbn [bind]. rewrite set_idx_ok by lia. cbn [bind].
  rewrite E, upd_upd, (upd_same _ _ []) by (apply nth_repeat_some; lia).
  assert (ZL : zlen (w_slots w) = w_size w) by lia. rewrite E in ZL. rewrite ZL.
  fold (follow w). cbn [run_slot]. unfold checkAndAddTimerAgain. cbn [snd]. replace (0 <? p) with true by lia.
  assert (F : 0 <= follow w < w_size w) by (unfold follow; destruct (_ =? _) eqn:?; lia).
  set (w1 := w_set _ _ _).
  assert (W1 : wheel_ok w1).
  { unfold w1, wheel_ok. cbn [w_set w_pos w_size w_interval w_slots]. unfold zlen. rewrite repeat_length. lia. }
  rewrite (addedPosition_ok w1 id p W1) by lia. cbn [bind]. change (p / w_interval w1 + w_pos w1) with (q + follow w).
  destruct (Z.ltb_spec (q + follow w) (w_size w)) as [L|L].
  - destruct (slot_append_in w1 (q + follow w) (id, p)) as (s0 & N0 & ->). { unfold w1. cbn [w_set w_slots]. unfold zlen. rewrite repeat_length. lia. }
    cbn [bind fst snd]. eexists. split; [reflexivity|]. unfold w1 in *. cbn [w_set w_pos w_size w_interval w_slots] in *.
    rewrite nth_repeat_some in N0 by lia. injection N0 as <-. cbn [app]. split; [|auto].
    split; [|split; [cbn [w_set w_size]; clearbody q; lia|reflexivity]]. unfold wheel_ok. cbn [w_set w_pos w_size w_interval w_slots]. unfold zlen. rewrite upd_length, repeat_length. lia.
  - rewrite slot_append_out; [reflexivity|]. unfold w1. cbn [w_set w_slots]. unfold zlen. rewrite repeat_length. lia.
Qed.

Section One.
Variables (id p q size interval : Z).
Hypothesis Hp : 0 < p < 2 ^ 62.
Hypothesis Hq : q = p / interval.
Hypothesis Hi : 0 < interval <= p.
Definition st_ (w : wheel) (s : Z) : Prop := lone w (id, p) s /\ w_size w = size /\ w_interval w = interval /\ w_pos w <= s <= w_pos w + q.
Lemma q_pos : 1 <= q.
Proof. subst q. apply Z.div_le_lower_bound; lia. Qed.
Lemma one_tick w s : st_ w s ->
  (w_pos w < s /\ exists w', wheel_tick w = Ok (w', []) /\ st_ w' s /\ w_pos w' = w_pos w + 1) \/
  (w_pos w = s /\ q + follow w < size /\ exists w', wheel_tick w = Ok (w', [id]) /\ st_ w' (q + follow w) /\ w_pos w' = follow w) \/
  (w_pos w = s /\ size <= q + follow w /\ wheel_tick w = Panic).
Proof.
  intros (L & Es & Ei & B). pose proof q_pos as Q1. destruct (Z.eq_dec (w_pos w) s) as [E|E].
  - right. subst s. pose proof (lone_fire w id p L Hp) as X. cbv zeta in X. rewrite Ei, Es, <- Hq in X.
    destruct (Z.ltb_spec (q + follow w) size) as [Y|Y].
    + left. destruct X as (w' & T & L' & P' & S' & I'). split; [reflexivity|]. split; [exact Y|]. exists w'. split; [exact T|].
      split; [|exact P']. split; [exact L'|]. rewrite P'. repeat split; congruence || lia.
    + right. auto.
  - left. split; [lia|]. destruct (lone_wait w _ s L) as (w' & T & L' & P' & S' & I'); [lia|]. exists w'. split; [exact T|].
    split; [|exact P']. split; [exact L'|]. rewrite P'. repeat split; congruence || lia.
Qed.
Lemma pattern n : forall w s r, st_ w s -> wheel_ticks n w = Ok r -> forall k, (k < n)%nat ->
  nth_error (snd r) k = Some (if (Z.of_nat k + 1 + (q - (s - w_pos w))) mod (q + 1) =? 0 then [id] else []).
Proof.
  pose proof q_pos as Q1. induction n as [|n IH]; intros w s r S1 T k K; [lia|]. rewrite ticks_S in T.
  pose proof S1 as (_ & _ & _ & B).
  destruct (one_tick w s S1) as [(P & w' & Et & S' & P')|[(P & _ & w' & Et & S' & P')|(P & _ & Et)]]; rewrite Et in T; cbn [bind fst snd] in T; [| |discriminate].
  - destruct (wheel_ticks n w') as [r'|] eqn:E'; [|discriminate]. cbn [bind] in T. injection T as <-. cbn [snd].
    destruct k as [|k]; cbn [nth_error].
    + f_equal. rewrite Z.mod_small by lia. replace (_ =? 0) with false by lia. reflexivity.
    + rewrite (IH _ _ _ S' E' k) by lia. rewrite P'. replace (Z.of_nat (S k) + 1 + (q - (s - w_pos w))) with (Z.of_nat k + 1 + (q - (s - (w_pos w + 1)))) by lia. reflexivity.
  - destruct (wheel_ticks n w') as [r'|] eqn:E'; [|discriminate]. cbn [bind] in T. injection T as <-. cbn [snd].
    destruct k as [|k]; cbn [nth_error].
    + f_equal. replace (Z.of_nat 0 + 1 + (q - (s - w_pos w))) with (1 * (q + 1)) by lia. rewrite Z.mod_mul by lia. reflexivity.
    + rewrite (IH _ _ _ S' E' k) by lia. rewrite P'. replace (Z.of_nat (S k) + 1 + (q - (s - w_pos w))) with (Z.of_nat k + 1 + (q - (q + follow w - follow w)) + 1 * (q + 1)) by lia.
      rewrite Z.mod_add by lia. reflexivity.
Qed.
Lemma survives n : forall w s, st_ w s -> (q + 1 | size) -> (q + 1 | size - 1 - s) -> exists r, wheel_ticks n w = Ok r.
Proof.
  pose proof q_pos as Q1. induction n as [|n IH]; intros w s S1 D1 D2; [eexists; reflexivity|]. rewrite ticks_S.
  assert (G : forall w' s' f, wheel_tick w = Ok (w', f) -> st_ w' s' -> (q + 1 | size - 1 - s') -> exists r, (let! r := wheel_tick w in let! r' := wheel_ticks n (fst r) in Ok (fst r', snd r :: snd r')) = Ok r).
  { intros w' s' f Et S' D'. rewrite Et. cbn [bind fst]. destruct (IH w' s' S' D1 D') as (r & ->). cbn [bind]. eauto. }
  pose proof S1 as ((W & Sr & _) & Es & _ & B). pose proof W as (_ & _ & Wp & _).
  destruct D1 as (x & X), D2 as (y & Y).
  destruct (one_tick w s S1) as [(P & w' & Et & S' & P')|[(P & L & w' & Et & S' & P')|(P & L & Et)]].
  - eapply G; eauto. exists y. exact Y.
  - eapply G; eauto. unfold follow. rewrite Es. destruct (Z.eqb_spec (size - 1) (w_pos w)) as [E|E].
    + exists (x - 1). lia.
    + exists (y - 1). lia.
  - exfalso. unfold follow in L. rewrite Es in L. destruct (Z.eqb_spec (size - 1) (w_pos w)) as [E|E].
    + assert (1 <= x) by nia. nia.
    + assert (1 <= y) by nia. nia.
Qed.
Lemma passes w w' f : (forall n, exists r, wheel_ticks n w = Ok r) -> wheel_tick w = Ok (w', f) -> forall n, exists r, wheel_ticks n w' = Ok r.
Proof.
  intros F E n. destruct (F (S n)) as (r & R). rewrite ticks_S, E in R. cbn [bind fst] in R. destruct (wheel_ticks n w') as [r'|]; [eauto|discriminate].
Qed.
(** after waiting, it fires *)
Lemma to_fire k : forall w s, st_ w s -> s - w_pos w = Z.of_nat k -> (forall n, exists r, wheel_ticks n w = Ok r) ->
  let f := if size - 1 =? s then 0 else s + 1 in q + f < size /\ exists w', st_ w' (q + f) /\ w_pos w' = f /\ forall n, exists r, wheel_ticks n w' = Ok r.
Proof.
  induction k as [|k IH]; intros w s S1 D F f; pose proof S1 as (_ & Es & _ & _).
  - destruct (one_tick w s S1) as [(P & _)|[(P & L & w' & Et & S' & P')|(P & L & Et)]]; [lia| |].
    + unfold follow in *. rewrite Es, P in *. fold f in L, S', P'. split; [exact L|]. exists w'. split; [exact S'|]. split; [exact P'|]. eapply passes; eauto.
    + destruct (F 1%nat) as (r & R). rewrite ticks_S, Et in R. discriminate.
  - destruct (one_tick w s S1) as [(P & w' & Et & S' & P')|[(P & _)|(P & _)]]; [|lia|lia].
    eapply IH; [exact S'|lia|]. eapply passes; eauto.
Qed.
Lemma dies1 n : forall w s, st_ w s -> size - 1 - s <= Z.of_nat n -> (forall n, exists r, wheel_ticks n w = Ok r) -> (q + 1 | size - 1 - s).
Proof.
  pose proof q_pos as Q1. induction n as [|n IH]; intros w s S1 L F; pose proof S1 as ((_ & Sr & _) & Es & _ & B).
  - exists 0. lia.
  - destruct (Z.eq_dec s (size - 1)) as [->|N]; [exists 0; lia|].
    destruct (to_fire (Z.to_nat (s - w_pos w)) w s S1 ltac:(lia) F) as (Lt & w' & S' & P' & F'). replace (size - 1 =? s) with false in * by lia.
    destruct (IH w' _ S' ltac:(lia) F') as (y & Y). exists (y + 1). lia.
Qed.
Lemma dies2 n : forall w s, st_ w s -> size - 1 - s <= Z.of_nat n -> (forall n, exists r, wheel_ticks n w = Ok r) -> (q + 1 | size).
Proof.
  pose proof q_pos as Q1. induction n as [|n IH]; intros w s S1 L F; pose proof S1 as ((_ & Sr & _) & Es & _ & B).
  all: destruct (to_fire (Z.to_nat (s - w_pos w)) w s S1 ltac:(lia) F) as (Lt & w' & S' & P' & F').
  all: destruct (Z.eqb_spec (size - 1) s) as [E|E].
  - destruct (dies1 (Z.to_nat size) w' _ S' ltac:(lia) F') as (y & Y). exists (y + 1). lia.
  - lia.
  - destruct (dies1 (Z.to_nat size) w' _ S' ltac:(lia) F') as (y & Y). exists (y + 1). lia.
  - eapply IH; [exact S'|lia|exact F'].
Qed.
End One.

Lemma added w id p w1 f : wheel_ok w -> w_slots w = repeat [] (Z.to_nat (w_size w)) -> w_interval w <= p < 2 ^ 62 ->
  wheel_AddTimer w (id, p) = Ok (w1, f) -> f = [] /\ w_pos w1 = w_pos w /\ st_ id p (p / w_interval w) (w_size w) (w_interval w) w1 (p / w_interval w + w_pos w).
Proof.
  intros W E P A. pose proof W as (H1 & H2 & H3 & H4). assert (Q : 1 <= p / w_interval w) by (apply Z.div_le_lower_bound; lia).
  unfold wheel_AddTimer in A. rewrite (addedPosition_ok w id p W) in A by lia. cbn [bind] in A. destruct (_ <? _) eqn:L1; [discriminate|].
  replace (p / w_interval w + w_pos w =? w_pos w) with false in A by lia.
  destruct (Z.lt_ge_cases (p / w_interval w + w_pos w) (w_size w)) as [L|L]; [|rewrite slot_append_out in A by lia; discriminate].
  destruct (slot_append_in w (p / w_interval w + w_pos w) (id, p)) as (s & N & Ea); [lia|]. rewrite Ea in A. cbn [bind] in A. injection A as <- <-.
  rewrite E, nth_repeat_some in N by lia. injection N as <-. rewrite E. cbn [app].
  split; [reflexivity|]. split; [reflexivity|]. split; [|cbn [w_set w_size w_interval w_pos]; repeat split; lia].
  split; [|split; [cbn [w_set w_size]; lia|reflexivity]]. unfold wheel_ok. cbn [w_set w_pos w_size w_interval w_slots]. unfold zlen. rewrite upd_length, repeat_length. lia.
Qed.

(** C12.  A timer of a period of q intervals, alone on a wheel, runs every q + 1 ticks, not every q,
    for as long as the wheel runs; *)
Theorem C12_period_refuted : forall w id p w1 f n r, wheel_ok w -> w_slots w = repeat [] (Z.to_nat (w_size w)) -> w_interval w <= p < 2 ^ 62 ->
  wheel_AddTimer w (id, p) = Ok (w1, f) -> wheel_ticks n w1 = Ok r ->
  forall k, (k < n)%nat -> nth_error (snd r) k = Some (if (Z.of_nat k + 1) mod (p / w_interval w + 1) =? 0 then [id] else []).
Proof.
  intros w id p w1 f n r W E P A T k K. destruct (added _ _ _ _ _ W E P A) as (_ & Ep & S1). pose proof W as (_ & Wi & _).
  rewrite (pattern id p (p / w_interval w) (w_size w) (w_interval w)) with (4 := S1) (5 := T) by (auto; lia).
  rewrite Ep. set (q := p / w_interval w). replace (Z.of_nat k + 1 + (q - (q + w_pos w - w_pos w))) with (Z.of_nat k + 1) by (clearbody q; lia). reflexivity.
Qed.
Print Assumptions C12_period_refuted.

(** and the wheel runs for ever exactly when q + 1 divides both its size and what was left of it
    when the timer was added: otherwise some tick panics. *)
Theorem C12_period_panics_exact : forall w id p w1 f, wheel_ok w -> w_slots w = repeat [] (Z.to_nat (w_size w)) -> w_interval w <= p < 2 ^ 62 ->
  wheel_AddTimer w (id, p) = Ok (w1, f) ->
  ((forall n, exists r, wheel_ticks n w1 = Ok r) <-> (p / w_interval w + 1 | w_size w) /\ (p / w_interval w + 1 | w_size w - w_pos w)).
Proof.
  intros w id p w1 f W E P A. destruct (added _ _ _ _ _ W E P A) as (_ & Ep & S1). pose proof W as (_ & Wi & _). set (q := p / w_interval w) in *.
  assert (Hp : 0 < p < 2 ^ 62) by lia. assert (Hi : 0 < w_interval w <= p) by lia. split.
  - intros F. pose proof (dies1 id p q _ _ Hp eq_refl Hi (Z.to_nat (w_size w)) _ _ S1 ltac:(destruct S1 as ((_ & X & _) & Y & _); lia) F) as (y & Y).
    pose proof (dies2 id p q _ _ Hp eq_refl Hi (Z.to_nat (w_size w)) _ _ S1 ltac:(destruct S1 as ((_ & X & _) & Y' & _); lia) F) as D.
    split; [exact D|]. exists (y + 1). lia.
  - intros (D1 & (y & Y)) n. eapply (survives id p q _ _ Hp eq_refl Hi n _ _ S1 D1). exists (y - 1). lia.
Qed.
Print Assumptions C12_period_panics_exact.

Example C12_period_nonvacuous : exists w0 w1 w2 w3, wheel_Init 10 8 = Ok w0 /\ wheel_ok w0 /\ w_slots w0 = repeat [] (Z.to_nat (w_size w0)) /\
  wheel_AddTimer w0 (1, 30) = Ok (w1, []) /\ (forall n, exists r, wheel_ticks n w1 = Ok r) /\
  wheel_AddTimer w0 (2, 50) = Ok (w2, []) /\ wheel_ticks 6 w2 = Panic /\ wheel_ticks 8 w1 = Ok (w3, [[]; []; []; [1]; []; []; []; [1]]).
Proof.
  set (w0 := {| w_size := 8; w_interval := 10; w_pos := 0; w_slots := repeat [] 8 |}).
  assert (W : wheel_ok w0) by (unfold wheel_ok; vm_compute; repeat split; congruence).
  assert (A : wheel_AddTimer w0 (1, 30) = Ok ({| w_size := 8; w_interval := 10; w_pos := 0; w_slots := [[]; []; []; [(1, 30)]; []; []; []; []] |}, [])) by (vm_compute; reflexivity).
  do 4 eexists. split; [vm_compute; reflexivity|]. split; [exact W|]. split; [vm_compute; reflexivity|].
  split; [exact A|]. split; [|split; [vm_compute; reflexivity|split; [vm_compute; reflexivity|vm_compute; reflexivity]]].
  apply (C12_period_panics_exact w0 1 30 _ [] W); [reflexivity|unfold w0; cbn [w_interval]; lia|exact A|].
  unfold w0. cbn [w_interval w_size w_pos]. split; exists 2; vm_compute; reflexivity.
Qed.

(** When a callback of the last slot adds two timers with the longest delay, they take the places of
    the first two timers of the slot: the second timer is not run, and the second new one runs at
    once. *)
Theorem C12_overwritten_refuted : forall h w a b rest x y w' f, wheel_ok w -> 2 <= w_size w -> w_pos w = w_size w - 1 ->
  nth_error (w_slots w) (Z.to_nat (w_pos w)) = Some (a :: b :: rest) -> 0 <= snd x < 2 ^ 62 -> 0 <= snd y < 2 ^ 62 ->
  snd x / w_interval w = w_size w - 1 -> snd y / w_interval w = w_size w - 1 -> h (fst a) = [x; y] ->
  tick_during h w = Ok (w', f) -> exists f', f = fst a :: fst y :: f'.
Proof.
  intros h w a b rest x y w' f W Sz Ep N Bx By Ex Ey Eh T. pose proof W as (H1 & H2 & H3 & H4).
  unfold tick_during, incrementTickPosition in T. replace (zlen (w_slots w) - 1 =? w_pos w) with true in T by lia. cbn [w_set w_slots] in T.
  rewrite (idx_ok (w_slots w) (w_pos w) _ ltac:(lia) N) in T. cbn [bind length seq run_during arr nth_error] in T. rewrite Eh in T.
  set (w0 := w_set w 0 (w_slots w)) in T.
  assert (W0 : wheel_ok w0) by (unfold wheel_ok, w0; cbn [w_set w_size w_slots w_interval w_pos]; lia).
  assert (Px : forall z, 0 <= snd z < 2 ^ 62 -> snd z / w_interval w = w_size w - 1 -> forall s, AddTimer_during (w_pos w) w0 s z = Ok (w0, slot_add s z, [])).
  { intros [zi zp] Bz Ez s. cbn [snd] in *. unfold AddTimer_during. rewrite (addedPosition_ok w0 zi zp W0 Bz). cbn [bind].
    change (w_interval w0) with (w_interval w). change (w_pos w0) with 0. change (w_size w0) with (w_size w). rewrite Ez.
    replace (w_size w <? w_size w - 1 + 0) with false by lia. replace (w_size w - 1 + 0 =? 0) with false by lia.
    unfold add_during. replace (w_size w - 1 + 0 =? w_pos w) with true by lia. reflexivity. }
  cbn [adds_during] in T. rewrite (Px x Bx Ex) in T. cbn [bind] in T. rewrite (Px y By Ey) in T. cbn [bind app] in T.
  unfold slot_add at 2 in T. cbn [moved used arr length Nat.ltb Nat.leb upd] in T. unfold slot_add at 1 in T. cbn [moved used arr length Nat.ltb Nat.leb upd] in T.
  destruct (again_during (w_pos w) w0 _ a) as [[w1 s1]|] eqn:Ea; [|discriminate]. cbn [bind] in T.
  assert (A1 : nth_error (arr s1) 1 = Some y).
  { unfold again_during in Ea. destruct (0 <? snd a); [|injection Ea as <- <-; reflexivity].
    destruct (addedPosition w0 a) as [pa|]; [|discriminate]. cbn [bind] in Ea. unfold add_during in Ea.
    destruct (pa =? w_pos w).
    - injection Ea as <- <-. unfold slot_add. cbn [moved used arr length]. destruct rest; reflexivity.
    - destruct (slot_append w0 pa a); [|discriminate]. injection Ea as <- <-. reflexivity. }
  destruct (arr s1) as [|t0 [|t1 l1]]; try discriminate A1. injection A1 as ->.
  destruct (adds_during _ w1 s1 (h (fst y))) as [[[w2 s2] f2]|]; [|discriminate]. cbn [bind] in T.
  destruct (again_during _ w2 s2 y) as [[w3 s3]|]; [|discriminate]. cbn [bind] in T.
  destruct (run_during h _ w3 s3 _) as [[[w4 s4] f4]|]; [|discriminate]. cbn [bind] in T.
  destruct (set_idx _ _ _) as [sl|]; [|discriminate]. cbn [bind app] in T. injection T as <- <-. eauto.
Qed.
Print Assumptions C12_overwritten_refuted.

Example C12_overwritten_nonvacuous : exists w0 w1 w2 w3 r, wheel_Init 10 3 = Ok w0 /\ wheel_AddTimer w0 (1, 20) = Ok (w1, []) /\ wheel_AddTimer w1 (2, 20) = Ok (w2, []) /\
  wheel_ticks 2 w2 = Ok (w3, [[]; []]) /\ tick_during (fun id => if id =? 1 then [(8, 20); (9, 20)] else []) w3 = Ok r /\ snd r = [1; 9].
Proof. do 5 eexists. repeat (split; [vm_compute; reflexivity|]). reflexivity. Qed.

(** What callbacks add to the slot of the tick is kept, in the order added, however much it is. *)
Definition slot_holds (s : slot) : list wtimer := match moved s with Some l => l | None => firstn (used s) (arr s) end.
Lemma slot_add_holds s t : (moved s = None -> (used s <= length (arr s))%nat) ->
  slot_holds (slot_add s t) = slot_holds s ++ [t] /\ (moved (slot_add s t) = None -> (used (slot_add s t) <= length (arr (slot_add s t)))%nat).
Proof.
  intros H. unfold slot_holds, slot_add. destruct (moved s) as [l|] eqn:M; [cbn; rewrite ?M; auto; split; [reflexivity|discriminate]|].
  specialize (H eq_refl). destruct (Nat.ltb_spec (used s) (length (arr s))) as [L|L]; cbn [moved used arr].
  - rewrite upd_length. split; [|lia]. clear H. revert L. generalize (used s). induction (arr s) as [|x l IH]; intros [|n] L; cbn [length] in L; try lia; [reflexivity|].
    cbn [upd]. change (firstn (S (S n)) (x :: upd l n t)) with (x :: firstn (S n) (upd l n t)). rewrite IH by lia. reflexivity.
  - split; [|discriminate]. rewrite firstn_all2 by lia. reflexivity.
Qed.
Theorem C12_slot_keeps : forall timers added, slot_holds (fold_left slot_add added {| arr := timers; used := 0; moved := None |}) = added.
Proof.
  intros timers added. assert (G : forall s, (moved s = None -> (used s <= length (arr s))%nat) -> slot_holds (fold_left slot_add added s) = slot_holds s ++ added).
  { induction added as [|t l IH]; intros s H; cbn [fold_left]; [now rewrite app_nil_r|]. destruct (slot_add_holds s t H) as [E K]. rewrite IH by exact K. rewrite E, <- app_assoc. reflexivity. }
  rewrite G by (cbn; lia). reflexivity.
Qed.
Print Assumptions C12_slot_keeps.
Example C12_slot_keeps_nonvacuous : moved (fold_left slot_add [(7, 1); (8, 1); (9, 1)] {| arr := [(1, 1); (2, 1)]; used := 0; moved := None |}) = Some [(7, 1); (8, 1); (9, 1)].
Proof. reflexivity. Qed.

(** When no callback adds a timer to the slot of the tick, a tick runs every timer of the slot, in
    order, each followed by those its callback added with less than an interval to wait. *)
Definition at_once (w : wheel) (added : list wtimer) : list Z := map fst (filter (fun x => snd x <? w_interval w) added).
Definition alike (w w' : wheel) : Prop := w_size w' = w_size w /\ w_interval w' = w_interval w /\ w_pos w' = w_pos w /\ zlen (w_slots w') = zlen (w_slots w).
Lemma append_alike w p t w' : slot_append w p t = Ok w' -> alike w w'.
Proof.
  unfold slot_append. destruct (idx (w_slots w) p) as [s|] eqn:E; [|discriminate]. cbn [bind]. destruct (idx_inv _ _ _ E) as [B _].
  rewrite set_idx_ok by exact B. cbn [bind]. injection 1 as <-. unfold alike. cbn. repeat split. unfold zlen. now rewrite upd_length.
Qed.
Lemma alike_ok w w' : wheel_ok w -> alike w w' -> wheel_ok w'.
Proof. unfold wheel_ok, alike. lia. Qed.
Lemma alike_trans w1 w2 w3 : alike w1 w2 -> alike w2 w3 -> alike w1 w3.
Proof. unfold alike. lia. Qed.
Lemma adds_apart pos l : forall w s w' s' f, wheel_ok w -> (forall x, In x l -> 0 <= snd x < 2 ^ 62 /\ snd x / w_interval w + w_pos w <> pos) ->
  adds_during pos w s l = Ok (w', s', f) -> alike w w' /\ s' = s /\ f = at_once w l.
Proof.
  induction l as [|x l IH]; intros w s w' s' f W H A; cbn [adds_during] in A.
  { injection A as <- <- <-. unfold alike. auto. }
  destruct x as [i p]. destruct (H _ (or_introl eq_refl)) as [B N]. cbn [snd] in *. pose proof W as (W1 & W2 & W3 & W4).
  unfold AddTimer_during in A. rewrite (addedPosition_ok w i p W B) in A. cbn [bind] in A.
  assert (Q : 0 <= p / w_interval w) by (apply Z.div_pos; lia).
  destruct (_ <? _); [discriminate|].
  assert (G : forall w1 s1 f1 K, (let! r := adds_during pos w1 s1 l in let '(w, s, f') := r in Ok (w, s, f1 ++ f')) = Ok (w', s', f) ->
     alike w w1 -> s1 = s -> f1 = (if p <? w_interval w then [i] else []) -> K = 0 -> alike w w' /\ s' = s /\ f = at_once w ((i, p) :: l)).
  { intros w1 s1 f1 _ R Al -> -> _. destruct (adds_during pos w1 s l) as [[[w2 s2] f2]|] eqn:E; [|discriminate]. cbn [bind] in R. injection R as <- <- <-.
    destruct (IH w1 s w2 s2 f2 (alike_ok _ _ W Al)) as (Y1 & Y2 & Y3); [|exact E|].
    - intros x Ix. destruct Al as (_ & -> & -> & _). apply H. now right.
    - split; [eapply alike_trans; eauto|]. split; [exact Y2|]. subst f2. unfold at_once. destruct Al as (_ & Ai & _ & _). rewrite Ai. cbn [filter snd].
      destruct (p <? w_interval w); reflexivity. }
  destruct (Z.eqb_spec (p / w_interval w + w_pos w) (w_pos w)) as [E|E].
  - assert (p < w_interval w) by (apply Z.div_small_iff in E || idtac; assert (p / w_interval w = 0) by lia; apply Z.div_small_iff in H0; lia).
    destruct (again_during pos w s (i, p)) as [[w1 s1]|] eqn:Ea; [|discriminate]. cbn [bind] in A.
    assert (alike w w1 /\ s1 = s).
    { unfold again_during in Ea. cbn [snd] in Ea. destruct (0 <? p); [|injection Ea as <- <-; unfold alike; auto].
      rewrite (addedPosition_ok w i p W B) in Ea. cbn [bind] in Ea. unfold add_during in Ea. replace (_ =? pos) with false in Ea by lia.
      destruct (slot_append w _ _) as [w2|] eqn:Es; [|discriminate]. cbn [bind] in Ea. injection Ea as <- <-. split; [eapply append_alike; eauto|reflexivity]. }
    eapply (G w1 s1 _ 0 A); [tauto|tauto| |reflexivity]. replace (p <? w_interval w) with true by lia. reflexivity.
  - assert (w_interval w <= p) by (destruct (Z_lt_le_dec p (w_interval w)) as [L|L]; [rewrite Z.div_small in E by lia; lia|exact L]).
    unfold add_during in A. replace (_ =? pos) with false in A by lia.
    destruct (slot_append w _ _) as [w2|] eqn:Es; [|discriminate]. cbn [bind] in A.
    eapply (G w2 s _ 0 A); [eapply append_alike; eauto|reflexivity| |reflexivity]. replace (p <? w_interval w) with false by lia. reflexivity.
Qed.
Lemma again_alike pos w s t w' s' : again_during pos w s t = Ok (w', s') -> alike w w' /\ (s' = s \/ s' = slot_add s t).
Proof.
  unfold again_during. destruct (0 <? snd t); [|injection 1 as <- <-; unfold alike; auto].
  destruct (addedPosition w t) as [p|]; [|discriminate]. cbn [bind]. unfold add_during. destruct (p =? pos); [injection 1 as <- <-; unfold alike; auto|].
  destruct (slot_append w p t) as [w2|] eqn:E; [|discriminate]. cbn [bind]. injection 1 as <- <-. split; [eapply append_alike; eauto|auto].
Qed.
Lemma upd_beyond {A} (l : list A) n k x : (n < k)%nat -> nth_error (upd l n x) k = nth_error l k.
Proof. revert n k. induction l as [|a l IH]; intros [|n] [|k] H; cbn; try reflexivity; try lia. apply IH. lia. Qed.
Theorem C12_during_partial : forall h w timers w' f, wheel_ok w -> nth_error (w_slots w) (Z.to_nat (w_pos w)) = Some timers ->
  (forall t x, In t timers -> In x (h (fst t)) -> 0 <= snd x < 2 ^ 62 /\ snd x / w_interval w + follow w <> w_pos w) ->
  tick_during h w = Ok (w', f) -> f = flat_map (fun t => fst t :: at_once w (h (fst t))) timers.
Proof.
  intros h w ts w' f W N H T. pose proof W as (W1 & W2 & W3 & W4). unfold tick_during in T. cbv zeta in T.
  set (w0 := incrementTickPosition w) in T. set (pos := w_pos w) in *.
  assert (A0 : w_size w0 = w_size w /\ w_interval w0 = w_interval w /\ w_pos w0 = follow w /\ w_slots w0 = w_slots w).
  { unfold w0, incrementTickPosition, follow. cbn. rewrite W1. auto. }
  destruct A0 as (A1 & A2 & A3 & A4). rewrite A4 in T. rewrite (idx_ok _ _ ts (proj1 W3) N) in T. cbn [bind] in T.
  assert (W0 : wheel_ok w0). { unfold wheel_ok. rewrite A1, A2, A3, A4. unfold follow. destruct (w_size w - 1 =? w_pos w) eqn:E; unfold pos in *; repeat split; lia. }
  destruct (run_during h pos w0 _ _) as [[[w1 s1] f1]|] eqn:R; [|discriminate]. cbn [bind] in T.
  destruct (set_idx _ _ _); [|discriminate]. cbn [bind] in T. injection T as <- <-.
  assert (G : forall n i wa s wb sb fb, (i + n = length ts)%nat -> (used s <= i)%nat -> (forall k, (i <= k)%nat -> nth_error (arr s) k = nth_error ts k) ->
    alike w0 wa -> run_during h pos wa s (seq i n) = Ok (wb, sb, fb) -> fb = flat_map (fun t => fst t :: at_once w (h (fst t))) (skipn i ts)).
  { clear R. induction n as [|n IH]; intros i wa s wb sb fb L U K Al R; cbn [seq run_during] in R.
    { injection R as <- <- <-. rewrite skipn_all2 by lia. reflexivity. }
    rewrite K in R by lia. destruct (nth_error ts i) as [t|] eqn:Ei; [|discriminate].
    destruct (adds_during pos wa s (h (fst t))) as [[[wc sc] fc]|] eqn:Ec; [|discriminate]. cbn [bind] in R.
    pose proof (nth_error_In _ _ Ei) as It.
    destruct (adds_apart pos (h (fst t)) wa s wc sc fc (alike_ok _ _ W0 Al)) as (Y1 & -> & ->); [|exact Ec|].
    { intros x Ix. destruct Al as (_ & -> & -> & _). rewrite A2, A3. exact (H t x It Ix). }
    destruct (again_during pos wc s t) as [[wd sd]|] eqn:Ed; [|discriminate]. cbn [bind] in R. destruct (again_alike _ _ _ _ _ _ Ed) as (Y2 & Sd).
    destruct (run_during h pos wd sd (seq (S i) n)) as [[[we se] fe]|] eqn:Ee; [|discriminate]. cbn [bind] in R. injection R as <- <- <-.
    assert (Ex : skipn i ts = t :: skipn (S i) ts).
    { clear -Ei. revert i Ei. induction ts as [|a l IH]; intros [|i] E; try discriminate; cbn in *; [congruence|]. now apply IH. }
    rewrite Ex. cbn [flat_map]. rewrite (IH (S i) wd sd we se fe); [| lia | | | |exact Ee].
    - unfold at_once. destruct Al as (_ & -> & _ & _). rewrite A2. reflexivity.
    - destruct Sd as [->| ->]; [lia|]. unfold slot_add. destruct (moved s); [cbn; lia|]. destruct (_ <? _)%nat; cbn; lia.
    - intros k Hk. destruct Sd as [->| ->]; [apply K; lia|]. unfold slot_add. destruct (moved s); [cbn; apply K; lia|]. destruct (_ <? _)%nat; cbn [arr]; [|apply K; lia].
      rewrite upd_beyond by lia. apply K. lia.
    - eapply alike_trans; [exact Al|]. eapply alike_trans; eauto. }
  apply (G (length ts) 0%nat w0 {| arr := ts; used := 0; moved := None |} w1 s1 f1 eq_refl (le_n 0) (fun _ _ => eq_refl)); [unfold alike; auto|exact R].
Qed.
Print Assumptions C12_during_partial.
Example C12_during_nonvacuous : exists w0 w1 w2 r, wheel_Init 10 3 = Ok w0 /\ wheel_AddTimer w0 (1, 20) = Ok (w1, []) /\ wheel_AddTimer w1 (2, 20) = Ok (w2, []) /\
  exists w3, wheel_ticks 2 w2 = Ok (w3, [[]; []]) /\ tick_during (fun id => if id =? 1 then [(8, 5); (9, 10); (10, 3)] else []) w3 = Ok r /\ snd r = [1; 8; 10; 2] /\
  follow w3 = 0 /\ w_pos w3 = 2.
Proof. do 4 eexists. do 3 (split; [vm_compute; reflexivity|]). eexists. do 2 (split; [vm_compute; reflexivity|]). repeat split. Qed.

(** When callbacks add nothing a tick is that of [wheel_tick], whatever the periods on the wheel. *)
Lemma upd_swap {A} (l : list A) n k x y : n <> k -> upd (upd l n x) k y = upd (upd l k y) n x.
Proof. revert n k. induction l as [|a l IH]; intros [|n] [|k] H; cbn; try reflexivity; try lia. now rewrite IH by lia. Qed.
Lemma nth_upd_other {A} (l : list A) n k x : n <> k -> nth_error (upd l n x) k = nth_error l k.
Proof. revert n k. induction l as [|a l IH]; intros [|n] [|k] H; cbn; try reflexivity; try lia. apply IH. lia. Qed.
Lemma nth_upd_same {A} (l : list A) n x : (n < length l)%nat -> nth_error (upd l n x) n = Some x.
Proof. revert n. induction l as [|a l IH]; intros [|n] H; cbn in *; try lia; [reflexivity|]. apply IH. lia. Qed.
Definition put (pos : Z) (w : wheel) (s : slot) : wheel := w_set w (w_pos w) (upd (w_slots w) (Z.to_nat pos) (slot_holds s)).
Definition room (s : slot) : Prop := moved s = None -> (used s <= length (arr s))%nat.
Lemma again_put pos w s t : 0 <= pos < zlen (w_slots w) -> room s ->
  checkAndAddTimerAgain (put pos w s) t = (let! r := again_during pos w s t in let '(w, s) := r in Ok (put pos w s)).
Proof.
  intros P R. unfold checkAndAddTimerAgain, again_during. destruct (0 <? snd t); [|reflexivity].
  change (addedPosition (put pos w s) t) with (addedPosition w t). destruct (addedPosition w t) as [p|]; [|reflexivity]. cbn [bind].
  unfold add_during. destruct (Z.eqb_spec p pos) as [->|N].
  - cbn [bind]. unfold slot_append, put. cbn [w_set w_slots w_pos].
    rewrite (idx_ok _ _ (slot_holds s)); [|lia|apply nth_upd_same; unfold zlen in P; lia]. cbn [bind].
    rewrite set_idx_ok by (unfold zlen in *; rewrite upd_length; lia). cbn [bind]. rewrite upd_upd. destruct (slot_add_holds s t R) as [-> _]. reflexivity.
  - unfold slot_append, put. cbn [w_set w_slots w_pos].
    destruct (Z_lt_le_dec p 0) as [L|L]; [rewrite !idx_panic by lia; reflexivity|].
    assert (E : idx (upd (w_slots w) (Z.to_nat pos) (slot_holds s)) p = idx (w_slots w) p).
    { unfold idx. replace (p <? 0) with false by lia. rewrite nth_upd_other by lia. reflexivity. }
    rewrite E. destruct (idx (w_slots w) p) as [x|] eqn:Ex; [|reflexivity]. cbn [bind]. apply idx_inv in Ex.
    rewrite !set_idx_ok by (unfold zlen in *; rewrite ?upd_length; lia). cbn [bind w_set w_slots w_pos]. rewrite upd_swap by lia. reflexivity.
Qed.
Theorem C12_quiet : forall h w, wheel_ok w -> (forall id, h id = []) -> tick_during h w = wheel_tick w.
Proof.
  intros h w W Hh. pose proof W as (W1 & W2 & W3 & W4). unfold tick_during, wheel_tick. cbv zeta. set (w0 := incrementTickPosition w).
  assert (A4 : w_slots w0 = w_slots w) by reflexivity. rewrite A4.
  destruct (idx_in_range (w_slots w) (w_pos w) ltac:(lia)) as [ts Ets]. rewrite Ets. cbn [bind]. rewrite (set_idx_ok (w_slots w)) by lia. cbn [bind].
  set (pos := w_pos w) in *.
  assert (G : forall n i wa s, (i + n = length ts)%nat -> (used s <= i)%nat -> length (arr s) = length ts -> room s -> (forall k, (i <= k)%nat -> nth_error (arr s) k = nth_error ts k) ->
    zlen (w_slots wa) = zlen (w_slots w) ->
    run_slot (put pos wa s) (skipn i ts) = (let! r := run_during h pos wa s (seq i n) in let '(w, s, f) := r in Ok (put pos w s, f)) /\
    forall wb sb fb, run_during h pos wa s (seq i n) = Ok (wb, sb, fb) -> zlen (w_slots wb) = zlen (w_slots w)).
  { induction n as [|n IH]; intros i wa s L U Ln R K Zl; cbn [seq run_during].
    { rewrite skipn_all2 by lia. cbn [bind]. split; [reflexivity|]. congruence. }
    rewrite K by lia. destruct (nth_error ts i) as [t|] eqn:Ei; [|apply nth_error_None in Ei; lia].
    assert (Ex : skipn i ts = t :: skipn (S i) ts).
    { clear -Ei. revert i Ei. induction ts as [|a l IH]; intros [|i] E; try discriminate; cbn in *; [congruence|]. now apply IH. }
    rewrite Ex, Hh. cbn [adds_during bind run_slot]. rewrite again_put; [|rewrite Zl, <- W1; exact W3|exact R].
    destruct (again_during pos wa s t) as [[wd sd]|] eqn:Ed; [|cbn [bind]; split; [reflexivity|discriminate]]. cbn [bind].
    destruct (again_alike _ _ _ _ _ _ Ed) as ((_ & _ & _ & Y2) & Sd).
    assert (Q : (used sd <= S i)%nat /\ length (arr sd) = length ts /\ room sd /\ forall k, (S i <= k)%nat -> nth_error (arr sd) k = nth_error ts k).
    { destruct Sd as [->| ->]; [repeat split; auto; try lia; intros k Hk; apply K; lia|]. split; [|split; [|split]].
      - unfold slot_add. destruct (moved s); [cbn; lia|]. destruct (_ <? _)%nat; cbn; lia.
      - unfold slot_add. destruct (moved s); [exact Ln|]. destruct (_ <? _)%nat; cbn [arr]; rewrite ?upd_length; exact Ln.
      - exact (proj2 (slot_add_holds s t R)).
      - intros k Hk. unfold slot_add. destruct (moved s); [cbn; apply K; lia|]. destruct (_ <? _)%nat; cbn [arr]; [|apply K; lia]. rewrite upd_beyond by lia. apply K. lia. }
    destruct Q as (Q1 & Q2 & Q3 & Q4). destruct (IH (S i) wd sd ltac:(lia) Q1 Q2 Q3 Q4 ltac:(congruence)) as [G1 G2]. rewrite G1.
    destruct (run_during h pos wd sd (seq (S i) n)) as [[[we se] fe]|] eqn:Ee; cbn [bind fst snd app]; split; try reflexivity; try discriminate.
    intros wb sb fb X. injection X as <- <- <-. eapply G2. reflexivity. }
  set (s0 := {| arr := ts; used := 0; moved := None |}).
  destruct (G (length ts) 0%nat w0 s0 eq_refl (le_n 0) eq_refl (fun _ => Nat.le_0_l _) (fun _ _ => eq_refl) eq_refl) as [G1 G2].
  change (skipn 0 ts) with ts in G1. change (put pos w0 s0) with (w_set w0 (w_pos w0) (upd (w_slots w) (Z.to_nat pos) [])) in G1. rewrite G1.
  destruct (run_during h pos w0 s0 (seq 0 (length ts))) as [[[we se] fe]|] eqn:Ee; [|reflexivity]. cbn [bind].
  rewrite set_idx_ok by (rewrite (G2 _ _ _ eq_refl), <- W1; exact W3). reflexivity.
Qed.
Print Assumptions C12_quiet.
