(** Proofs about the Luhn checks. *)
From Coq Require Import ZifyBool ZifyNat.
From Verif Require Import Go GoFacts LuhnModel LuhnSpec.

Lemma num_cases c : is_num c -> In c [48;49;50;51;52;53;54;55;56;57].
Proof. unfold is_num; cbn; lia. Qed.

Lemma loop_spec l odd acc : Forall is_num l ->
  luhn_loop l odd acc = acc + sum_from_right (map value_of l) odd.
Proof.
  revert odd acc; induction l as [|c r IH]; intros odd acc H; cbn [luhn_loop map sum_from_right].
  - lia.
  - inversion H; subst. rewrite IH by auto. rewrite <- Z.add_assoc. f_equal. f_equal.
    apply num_cases in H2. cbn in H2.
    destruct odd; repeat destruct H2 as [<-|H2]; try reflexivity; tauto.
Qed.

Lemma sum_nonneg l odd : Forall is_num l -> 0 <= sum_from_right (map value_of l) odd.
Proof.
  revert odd; induction l as [|c r IH]; intros odd H; cbn [map sum_from_right]; [lia|].
  inversion H; subst. specialize (IH (negb odd) H3).
  assert (0 <= weigh odd (value_of c)); [|lia].
  unfold weigh, digit_sum, value_of, is_num in *. destruct odd; Z.div_mod_to_equations; lia.
Qed.


Lemma luhn_exact s : Forall is_num s -> LuhnAlgorithm s = (luhn_sum s mod 10 =? 0).
Proof.
  intros H. unfold LuhnAlgorithm, luhn_sum.
  rewrite loop_spec by now apply Forall_rev. rewrite <- map_rev, Z.add_0_l.
  rewrite Z.rem_mod_nonneg; auto; [|lia]. apply sum_nonneg. now apply Forall_rev.
Qed.

(** * Sums of split strings *)
Definition flip (n : nat) (o : bool) : bool := xorb (Nat.odd n) o.
Lemma sum_app a b o : sum_from_right (a ++ b) o =
  sum_from_right a o + sum_from_right b (flip (length a) o).
Proof.
  revert o; induction a as [|x r IH]; intros o; cbn [app sum_from_right length].
  - unfold flip; cbn [Nat.odd xorb]. now destruct o.
  - rewrite IH. rewrite Nat.odd_succ || idtac.
    replace (flip (S (length r)) o) with (flip (length r) (negb o)); [lia|].
    unfold flip. rewrite Nat.odd_succ, <- Nat.negb_odd. now destruct (Nat.odd (length r)), o.
Qed.

Lemma luhn_sum_app a b : luhn_sum (a ++ b) =
  sum_from_right (rev (map value_of a)) (Nat.odd (length b)) + luhn_sum b.
Proof.
  unfold luhn_sum. rewrite map_app, rev_app_distr, sum_app. rewrite rev_length, map_length.
  unfold flip. rewrite xorb_false_r. lia.
Qed.

Lemma luhn_sum_mid a c b : luhn_sum (a ++ c :: b) =
  sum_from_right (rev (map value_of a)) (negb (Nat.odd (length b))) +
  weigh (Nat.odd (length b)) (value_of c) + luhn_sum b.
Proof.
  change (a ++ c :: b) with (a ++ [c] ++ b). rewrite app_assoc, luhn_sum_app. rewrite map_app, rev_app_distr.
  cbn [map rev app sum_from_right]. lia.
Qed.

Lemma weigh_inj o x y : 0 <= x <= 9 -> 0 <= y <= 9 -> (weigh o x - weigh o y) mod 10 = 0 -> x = y.
Proof.
  intros Hx Hy. unfold weigh, digit_sum. destruct o; Z.div_mod_to_equations; lia.
Qed.
Lemma weigh_swap x y : 0 <= x <= 9 -> 0 <= y <= 9 ->
  (forall o, (weigh o x + weigh (negb o) y - (weigh o y + weigh (negb o) x)) mod 10 = 0 ->
   x = y \/ x = 0 /\ y = 9 \/ x = 9 /\ y = 0).
Proof.
  intros Hx Hy o. unfold weigh, digit_sum. destruct o; cbn [negb]; Z.div_mod_to_equations; lia.
Qed.

Lemma val_range c : is_num c -> 0 <= value_of c <= 9.
Proof. unfold is_num, value_of; lia. Qed.

Lemma mod_sub a b : a mod 10 = 0 -> b mod 10 = 0 -> (a - b) mod 10 = 0.
Proof. intros; Z.div_mod_to_equations; lia. Qed.

Lemma single_change a c d b : Forall is_num (a ++ c :: b) -> is_num d -> c <> d ->
  LuhnAlgorithm (a ++ c :: b) = true -> LuhnAlgorithm (a ++ d :: b) = false.
Proof.
  intros H Hd Hn E. apply Forall_app in H as [Ha Hb]. inversion Hb; subst.
  assert (H' : Forall is_num (a ++ d :: b)) by (apply Forall_app; auto).
  rewrite luhn_exact in * by (auto; apply Forall_app; auto).
  apply Z.eqb_eq in E. apply Z.eqb_neq. intros E2. apply Hn.
  pose proof (mod_sub _ _ E E2) as M. rewrite !luhn_sum_mid in M.
  assert (value_of c = value_of d); [|unfold value_of in *; lia].
  apply (weigh_inj (Nat.odd (length b))); try now apply val_range.
  rewrite <- M. f_equal. lia.
Qed.

Lemma swap_detected a c d b : Forall is_num (a ++ c :: d :: b) -> c <> d ->
  ~ (c = 48 /\ d = 57) -> ~ (c = 57 /\ d = 48) ->
  LuhnAlgorithm (a ++ c :: d :: b) = true -> LuhnAlgorithm (a ++ d :: c :: b) = false.
Proof.
  intros H Hn H0 H9 E. pose proof H as H1. apply Forall_app in H1 as [Ha Hb]. inversion Hb; subst. inversion H4; subst.
  assert (H' : Forall is_num (a ++ d :: c :: b)) by (apply Forall_app; auto).
  rewrite luhn_exact in * by auto.
  apply Z.eqb_eq in E. apply Z.eqb_neq. intros E2.
  pose proof (mod_sub _ _ E E2) as M. rewrite !luhn_sum_mid in M.
  change (c :: b) with ([] ++ c :: b) in M. change (d :: b) with ([] ++ d :: b) in M.
  rewrite !luhn_sum_mid in M. cbn [app length] in M.
  assert (O : Nat.odd (S (length b)) = negb (Nat.odd (length b))).
  { rewrite Nat.odd_succ, <- Nat.negb_odd. reflexivity. }
  rewrite !O in M.
  destruct (weigh_swap (value_of c) (value_of d) ltac:(now apply val_range) ltac:(now apply val_range)
    (negb (Nat.odd (length b)))) as [K|[K|K]]; unfold value_of in *; try lia.
  rewrite Bool.negb_involutive, <- M. f_equal. lia.
Qed.

(** * The check digit *)
Lemma land1 i : Z.land i 1 = i mod 2.
Proof. change 1 with (Z.ones 1). rewrite Z.land_ones by lia. reflexivity. Qed.

Lemma cloop_spec l i acc : Forall is_num l ->
  checksum_loop l i acc = acc + sum_from_right (map value_of l) (i mod 2 =? 0).
Proof.
  revert i acc; induction l as [|c r IH]; intros i acc H; cbn [checksum_loop map sum_from_right].
  - lia.
  - inversion H; subst. rewrite IH by auto. rewrite land1.
    replace ((i - 1) mod 2 =? 0) with (negb (i mod 2 =? 0)) by (Z.div_mod_to_equations; lia).
    rewrite <- Z.add_assoc. f_equal. f_equal.
    apply num_cases in H2. cbn in H2.
    destruct (i mod 2 =? 0); repeat destruct H2 as [<-|H2]; try reflexivity; tauto.
Qed.

(** What the code computes: the digit that completes the sum in which the payload digits
    at even indices from the left are doubled. *)
Definition left_sum (p : bytes) : Z := sum_from_right (rev (map value_of p)) (Nat.odd (length p)).

Lemma left_sum_nonneg p : Forall is_num p -> 0 <= left_sum p.
Proof. intros. unfold left_sum. rewrite <- map_rev. apply sum_nonneg. now apply Forall_rev. Qed.

Lemma checksum_value p c : Forall is_num p ->
  LuhnAlgorithmChecksum (p ++ [c]) =
    Ok ((10 - left_sum p mod 10) mod 10 + 48 =? c, (10 - left_sum p mod 10) mod 10 + 48).
Proof.
  intros H. unfold LuhnAlgorithmChecksum.
  assert (Z1 : zlen (p ++ [c]) - 1 = zlen p) by (rewrite zlen_app, zlen_cons; change (zlen (@nil Z)) with 0; lia).
  rewrite !Z1.
  pose proof (zlen_nonneg p). rewrite slice_ok by lia.
  cbn [bind]. replace (firstn _ _) with p.
  2:{ unfold zlen. change (Z.to_nat 0) with 0%nat. cbn [skipn].
      replace (Z.to_nat (Z.of_nat (length p) - 0)) with (length p) by lia. rewrite firstn_app, Nat.sub_diag, firstn_all, app_nil_r. reflexivity. }
  rewrite (idx_ok (p ++ [c]) (zlen p) c).
  2:{ apply zlen_nonneg. }
  2:{ unfold zlen. rewrite Nat2Z.id, nth_error_app2, Nat.sub_diag by lia. reflexivity. }
  cbn [bind]. rewrite cloop_spec by now apply Forall_rev.
  replace (map value_of (rev p)) with (rev (map value_of p)) by now rewrite map_rev.
  replace ((zlen p - 1) mod 2 =? 0) with (Nat.odd (length p)).
  2:{ unfold zlen. rewrite <- Nat.negb_even. destruct (Nat.even (length p)) eqn:Ev.
      - apply Nat.even_spec in Ev as [k ->]. Z.div_mod_to_equations; lia.
      - assert (Od : Nat.odd (length p) = true) by (rewrite <- Nat.negb_even, Ev; auto).
        apply Nat.odd_spec in Od as [k ->]. cbn [negb]. Z.div_mod_to_equations; lia. }
  fold (left_sum p). rewrite Z.add_0_l.
  pose proof (left_sum_nonneg p H). rewrite u8_small by (Z.div_mod_to_equations; lia). reflexivity.
Qed.

Lemma check_digit_sum p d : Forall is_num p -> is_num d ->
  luhn_sum (p ++ [d]) = sum_from_right (rev (map value_of p)) true + value_of d.
Proof.
  intros. rewrite luhn_sum_app. f_equal. cbn. lia.
Qed.
