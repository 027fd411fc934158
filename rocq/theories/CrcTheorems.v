(** C146: the number put in names is the CRC-32. *)
From Coq Require Import String ZifyBool ZifyNat.
From Verif Require Import Go GoFacts TreeModel TreeProofs CrcSpec.
Import ListNotations.
Local Open Scope Z_scope.
Local Open Scope list_scope.

Lemma feed_bit s : crc_bit s = feed s false.
Proof. unfold crc_bit, feed. rewrite xorb_false_r. change generator with 3988292384. destruct (Z.odd s); [reflexivity|now rewrite Z.lxor_0_r]. Qed.
Lemma feed_one s : crc_bit (Z.lxor s 1) = feed s true.
Proof.
  rewrite feed_bit. unfold feed. rewrite xorb_false_r, xorb_true_r.
  replace (Z.odd (Z.lxor s 1)) with (negb (Z.odd s)) by (rewrite <- !Z.bit0_odd, Z.lxor_spec; change (Z.testbit 1 0) with true; now rewrite xorb_true_r).
  replace (Z.lxor s 1 / 2) with (s / 2); [reflexivity|]. rewrite <- !Z.div2_div, !Z.div2_spec, Z.shiftr_lxor. change (Z.shiftr 1 1) with 0. now rewrite Z.lxor_0_r.
Qed.
Lemma split_low b : b = Z.lxor (Z.b2z (Z.odd b)) (b / 2 * 2).
Proof.
  apply Z.bits_inj'. intros n N. rewrite Z.lxor_spec. destruct (Z.eq_dec n 0) as [->|P].
  - rewrite !Z.bit0_odd, Z.odd_mul. cbn [Z.odd]. rewrite andb_false_r, xorb_false_r. now destruct (Z.odd b).
  - replace (Z.testbit (Z.b2z (Z.odd b)) n) with false by (destruct (Z.odd b); cbn [Z.b2z]; [symmetry; apply Z.bits_above_log2; cbn; lia|now rewrite Z.bits_0]).
    rewrite xorb_false_l. change (b / 2 * 2) with (b / 2 ^ 1 * 2 ^ 1). rewrite Z.mul_pow2_bits, Z.div_pow2_bits by lia. f_equal. lia.
Qed.
Lemma one_bit s b : crc_bit (Z.lxor s b) = Z.lxor (feed s (Z.odd b)) (b / 2).
Proof.
  rewrite (split_low b) at 1. rewrite <- Z.lxor_assoc, bit_shift. f_equal. destruct (Z.odd b); cbn [Z.b2z]; [apply feed_one|]. rewrite Z.lxor_0_r. apply feed_bit.
Qed.
Lemma some_bits b n : forall s, Nat.iter n crc_bit (Z.lxor s b) = Z.lxor (fold_left feed (map (fun i => Z.testbit b (Z.of_nat i)) (seq 0 n)) s) (b / 2 ^ Z.of_nat n).
Proof.
  induction n as [|n IH]; intros s; [change (2 ^ Z.of_nat 0) with 1; now rewrite Z.div_1_r|].
  rewrite iter_S, IH, one_bit, seq_S, map_app, fold_left_app. cbn [map fold_left]. rewrite Nat.add_0_l. f_equal.
  - f_equal. rewrite Z.testbit_odd, Z.shiftr_div_pow2 by lia. reflexivity.
  - rewrite Z.div_div by lia. f_equal. rewrite Nat2Z.inj_succ, Z.pow_succ_r by lia. ring.
Qed.
(** For every content the number is the CRC-32 of the standard. *)
Theorem C146_crc32 : forall l, wf_bytes l -> ChecksumIEEE l = crc32 l.
Proof.
  intros l W. unfold ChecksumIEEE, crc32. change (2 ^ 32 - 1) with 4294967295. f_equal. generalize 4294967295. induction l as [|b l IH]; intros s; [reflexivity|].
  inversion W as [|? ? B W']; subst. cbn [fold_left flat_map]. rewrite fold_left_app, <- IH by exact W'. f_equal. unfold crc_byte. rewrite some_bits.
  change (Z.of_nat 8) with 8. rewrite (Z.div_small b) by (unfold is_byte in *; lia). apply Z.lxor_0_r.
Qed.
Print Assumptions C146_crc32.
(** The check value of the standard *)
Example C146_crc32_case : ChecksumIEEE (str "123456789"%string) = 3421780262 /\ crc32 (str "123456789"%string) = 3421780262 /\ crc32 [] = 0 /\ wf_bytes (str "a"%string).
Proof. repeat split; try (vm_compute; reflexivity). change (str "a"%string) with [97]. apply Forall_cons; [|apply Forall_nil]. unfold is_byte. lia. Qed.
