(** C12: which wheels can be made, and the wheel without slots. *)
From Coq Require Import ZifyBool ZifyNat.
From Verif Require Import Go GoFacts WheelModel.
Local Open Scope Z_scope.

(** Init crashes exactly for a negative size; else the wheel has that many empty slots and stands at the first. *)
Theorem C12_init_exact : forall i sz,
  (wheel_Init i sz = Panic <-> sz < 0) /\
  (0 <= sz -> exists w, wheel_Init i sz = Ok w /\ w_interval w = i /\ w_size w = sz /\ w_pos w = 0 /\ zlen (w_slots w) = sz /\ Forall (fun s => s = nil) (w_slots w)).
Proof.
  intros i sz. unfold wheel_Init. destruct (Z.ltb_spec sz 0).
  - split; [split; auto|intros; exfalso; lia].
  - split; [split; [discriminate|intros; exfalso; lia]|]. intros _. eexists. split; [reflexivity|]. cbn [w_interval w_size w_pos w_slots]. repeat split.
    + unfold zlen. rewrite repeat_length. lia.
    + apply Forall_forall. intros x X. now apply repeat_spec in X.
Qed.
Print Assumptions C12_init_exact.
(** A wheel of no slots is made without complaint, and crashes on its first tick. *)
Theorem C12_no_slots_refuted : forall i, exists w, wheel_Init i 0 = Ok w /\ wheel_tick w = Panic /\
  forall id p, 0 < p < 2 ^ 62 -> 0 < i -> wheel_AddTimer w (id, p) = Panic.
Proof.
  intros i. eexists. split; [reflexivity|]. split; [reflexivity|]. intros id p P I.
  unfold wheel_AddTimer, addedPosition. cbn [w_interval w_pos w_size w_slots snd fst]. replace (i =? 0) with false by lia. cbn [bind].
  assert (Q : 0 <= Z.quot p i < 2 ^ 62) by (rewrite Z.quot_div_nonneg by lia; split; [apply Z.div_pos; lia|apply Z.div_lt_upper_bound; nia]).
  remember (Z.quot p i) as q eqn:QE. assert (E : i64 (i64 q + 0) = q) by (rewrite (i64_small q) by lia; rewrite Z.add_0_r; apply i64_small; lia). rewrite E.
  destruct (Z.ltb_spec 0 q) as [L|L]; [reflexivity|]. assert (q0 : q = 0) by lia. replace (q =? 0) with true by lia.
  unfold checkAndAddTimerAgain. cbn [snd]. replace (0 <? p) with true by lia. unfold addedPosition. cbn [w_interval w_pos snd]. replace (i =? 0) with false by lia. rewrite <- QE. cbn [bind]. rewrite E, q0. reflexivity.
Qed.
Print Assumptions C12_no_slots_refuted.
Example C12_init_case : wheel_Init 10 (-1) = Panic /\ (exists w, wheel_Init 10 0 = Ok w) /\ exists w, wheel_Init 10 3 = Ok w /\ w_slots w = (nil :: nil :: nil :: nil)%list.
Proof. split; [reflexivity|]. split; eexists; [|split]; reflexivity. Qed.
