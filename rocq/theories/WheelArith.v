(** Arithmetic of a timer that goes round a wheel (used by WheelTheorems.v).  Nothing of the project is
    required here: with its lemmas loaded lia spends minutes on the quotients. *)
From Coq Require Import ZArith Lia Bool.
Local Open Scope Z_scope.

Definition succ_pos (sz pos : Z) : Z := if sz - 1 =? pos then 0 else pos + 1.
Lemma succ_mod sz n : 0 < sz -> 0 <= n -> succ_pos sz (n mod sz) = (n + 1) mod sz.
Proof.
  intros Hs Hn. unfold succ_pos. pose proof (Z.mod_pos_bound n sz Hs). pose proof (Z.div_mod n sz ltac:(lia)).
  destruct (Z.eqb_spec (sz - 1) (n mod sz)) as [E|N].
  - apply (Z.mod_unique _ _ (n / sz + 1)); lia.
  - apply (Z.mod_unique _ _ (n / sz)); lia.
Qed.
Lemma succ_pos_range sz pos : 0 <= pos < sz -> 0 <= succ_pos sz pos < sz.
Proof. intros H. unfold succ_pos. destruct (Z.eqb_spec (sz - 1) pos); lia. Qed.
Lemma mod_mul m c a r : 0 < m -> 0 < c -> 0 <= r < m -> (m * a + r) mod (m * c) = m * (a mod c) + r.
Proof.
  intros Hm Hc Hr. pose proof (Z.mod_pos_bound a c Hc). pose proof (Z.div_mod a c ltac:(lia)). symmetry.
  assert (m * (a mod c + 1) <= m * c) by (apply Z.mul_le_mono_nonneg_l; lia). assert (0 <= m * (a mod c)) by (apply Z.mul_nonneg_nonneg; lia).
  apply (Z.mod_unique _ _ (a / c)); [left; lia|]. rewrite H0 at 1. ring.
Qed.
Definition region (q sz n : Z) : Prop := (q + 1 | sz) \/ n < sz / (q + 1) * (q + 1).
Lemma where_ q sz n : 1 <= q < sz -> 0 <= n -> region q sz n ->
  let pos := n mod sz in let j := (n / (q + 1) * (q + 1) + q) mod sz in
  0 <= pos < sz /\ 0 <= j < sz /\ (pos = j <-> n mod (q + 1) = q).
Proof.
  intros Hq Hn R pos j. assert (P : 0 <= pos < sz) by (apply Z.mod_pos_bound; lia). assert (J : 0 <= j < sz) by (apply Z.mod_pos_bound; lia).
  split; auto. split; auto. unfold region, pos, j in *. remember (q + 1) as m eqn:Em.
  pose proof (Z.div_mod n m ltac:(lia)) as D. pose proof (Z.mod_pos_bound n m ltac:(lia)) as B. destruct R as [(c & Ec)|R].
  - assert (0 < c) by (apply (Z.mul_pos_cancel_r c m); lia). assert (Es : sz = m * c) by lia.
    assert (Ep : n mod sz = m * (n / m mod c) + n mod m).
    { rewrite Es. rewrite <- (mod_mul m c (n / m) (n mod m)) by lia. f_equal. lia. }
    assert (Ej : (n / m * m + q) mod sz = m * (n / m mod c) + q).
    { rewrite Es. rewrite <- (mod_mul m c (n / m) q) by lia. f_equal. lia. }
    lia.
  - pose proof (Z.mul_div_le sz m ltac:(lia)). assert (n / m < sz / m) by (apply (Z.mul_lt_mono_pos_l m); lia).
    assert (m * (n / m + 1) <= m * (sz / m)) by (apply Z.mul_le_mono_nonneg_l; lia).
    assert (0 <= n / m) by (apply Z.div_pos; lia). assert (0 <= m * (n / m)) by (apply Z.mul_nonneg_nonneg; lia).
    rewrite !Z.mod_small by lia. lia.
Qed.
Lemma next_hit q n : 1 <= q -> n mod (q + 1) = q -> (n + 1) mod (q + 1) = 0 /\ (n + 1) / (q + 1) = n / (q + 1) + 1.
Proof.
  intros Hq X. pose proof (Z.div_mod n (q + 1) ltac:(lia)) as D. split; symmetry.
  - apply (Z.mod_unique _ _ (n / (q + 1) + 1)); lia.
  - apply (Z.div_unique _ _ _ 0); lia.
Qed.
Lemma next_miss q n : 1 <= q -> n mod (q + 1) <> q -> (n + 1) mod (q + 1) <> 0 /\ (n + 1) / (q + 1) = n / (q + 1).
Proof.
  intros Hq X. pose proof (Z.div_mod n (q + 1) ltac:(lia)) as D. pose proof (Z.mod_pos_bound n (q + 1) ltac:(lia)) as B. split.
  - replace ((n + 1) mod (q + 1)) with (n mod (q + 1) + 1); [lia|]. apply (Z.mod_unique _ _ (n / (q + 1))); lia.
  - symmetry. apply (Z.div_unique _ _ _ (n mod (q + 1) + 1)); lia.
Qed.
Lemma slot_hit q sz n : 1 <= q < sz -> 0 <= n -> n mod (q + 1) = q -> q + (n + 1) mod sz < sz ->
  ((n / (q + 1) + 1) * (q + 1) + q) mod sz = q + (n + 1) mod sz.
Proof.
  intros Hq Hn X L. pose proof (Z.div_mod n (q + 1) ltac:(lia)) as D.
  replace ((n / (q + 1) + 1) * (q + 1) + q) with (q + (n + 1)) by lia. rewrite <- (Z.add_mod_idemp_r q (n + 1) sz) by lia.
  apply Z.mod_small. pose proof (Z.mod_pos_bound (n + 1) sz ltac:(lia)). lia.
Qed.
Lemma safe_div q sz n : 1 <= q < sz -> 0 <= n -> (q + 1 | sz) -> n mod (q + 1) = q -> q + (n + 1) mod sz < sz.
Proof.
  intros Hq Hn (c & Ec) X. remember (q + 1) as m eqn:Em. pose proof (Z.div_mod n m ltac:(lia)) as D.
  assert (0 < c) by (apply (Z.mul_pos_cancel_r c m); lia).
  replace (n + 1) with (m * (n / m + 1) + 0) by lia. replace sz with (m * c) by lia. rewrite mod_mul by lia.
  pose proof (Z.mod_pos_bound (n / m + 1) c ltac:(lia)).
  assert (m * ((n / m + 1) mod c + 1) <= m * c) by (apply Z.mul_le_mono_nonneg_l; lia). lia.
Qed.
Lemma safe_small q sz n : 1 <= q < sz -> 0 <= n -> n + 1 < sz / (q + 1) * (q + 1) -> n mod (q + 1) = q -> q + (n + 1) mod sz < sz.
Proof.
  intros Hq Hn L X. remember (q + 1) as m eqn:Em. pose proof (Z.div_mod n m ltac:(lia)) as D. pose proof (Z.mul_div_le sz m ltac:(lia)).
  rewrite Z.mod_small by lia. assert (n / m + 1 < sz / m) by (apply (Z.mul_lt_mono_pos_l m); lia).
  assert (m * (n / m + 2) <= m * (sz / m)) by (apply Z.mul_le_mono_nonneg_l; lia). lia.
Qed.
Lemma last_tick q sz : 1 <= q < sz -> ~ (q + 1 | sz) -> let last := sz / (q + 1) * (q + 1) in
  1 <= last < sz /\ (last - 1) mod (q + 1) = q /\ sz <= q + last.
Proof.
  intros Hq D last. pose proof (Z.mul_div_le sz (q + 1) ltac:(lia)) as U. pose proof (Z.mul_succ_div_gt sz (q + 1) ltac:(lia)) as U2.
  assert (K : 1 <= sz / (q + 1)) by (apply Z.div_le_lower_bound; lia).
  assert (N : last <> sz). { intros X. apply D. exists (sz / (q + 1)). unfold last in X. lia. }
  unfold last in *. assert ((q + 1) * 1 <= (q + 1) * (sz / (q + 1))) by (apply Z.mul_le_mono_nonneg_l; lia).
  split; [lia|]. split; [|lia]. symmetry. apply (Z.mod_unique _ _ (sz / (q + 1) - 1)); lia.
Qed.
Lemma split_last l : 1 <= l -> Z.of_nat (Z.to_nat (l - 1)) = l - 1.
Proof. intros H. apply Z2Nat.id. lia. Qed.
Lemma split_ticks l n : 1 <= l -> l <= Z.of_nat n -> n = (Z.to_nat (l - 1) + S (n - Z.to_nat l))%nat.
Proof. intros H K. assert (Z.to_nat l = S (Z.to_nat (l - 1))) by lia. assert (Z.to_nat l <= n)%nat by lia. lia. Qed.
