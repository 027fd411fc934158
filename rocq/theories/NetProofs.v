(** Proofs about header fields. *)
From Coq Require Import ZifyBool ZifyNat.
From Verif Require Import Go GoFacts BinModel BinSpec BinProofs NetModel NetSpec.

Lemma Forall_firstn {A} (P : A -> Prop) n l : Forall P l -> Forall P (firstn n l).
Proof. intros H. rewrite <- (firstn_skipn n l) in H. now apply Forall_app in H. Qed.
Lemma Forall_skipn {A} (P : A -> Prop) n l : Forall P l -> Forall P (skipn n l).
Proof. intros H. rewrite <- (firstn_skipn n l) in H. now apply Forall_app in H. Qed.

(** * Fields *)
Lemma field_range p off w : 0 <= field p off w < 2 ^ Z.of_nat w.
Proof.
  induction w as [|w IH]; [cbn; lia|]. cbn [field]. rewrite Nat2Z.inj_succ, Z.pow_succ_r by lia.
  destruct (bit p _); cbn [Z.b2z]; lia.
Qed.

Lemma field_app p off a b : field p off (a + b) = field p off a * 2 ^ Z.of_nat b + field p (off + Z.of_nat a) b.
Proof.
  induction b as [|b IH].
  - rewrite Nat.add_0_r. cbn [field Z.of_nat]. lia.
  - rewrite Nat.add_succ_r. cbn [field]. rewrite IH, Nat2Z.inj_succ, Z.pow_succ_r by lia.
    replace (off + Z.of_nat (a + b)) with (off + Z.of_nat a + Z.of_nat b) by lia. lia.
Qed.

Lemma field_ext p q off w : (forall i, off <= i < off + Z.of_nat w -> bit p i = bit q i) -> field p off w = field q off w.
Proof.
  induction w as [|w IH]; intros H; [reflexivity|]. cbn [field]. rewrite IH, H by (intros; rewrite ?H; auto; lia). reflexivity.
Qed.

Lemma byte_at p k : wf_bytes p -> is_byte (nth k p 0).
Proof.
  intros H. destruct (Nat.lt_ge_cases k (length p)).
  - unfold wf_bytes in H. rewrite Forall_forall in H. apply H. now apply nth_In.
  - rewrite nth_overflow by lia. unfold is_byte; lia.
Qed.

Lemma bit_in_byte p (k : nat) j : 0 <= j < 8 -> bit p (8 * Z.of_nat k + j) = Z.testbit (nth k p 0) (7 - j).
Proof.
  intros H. unfold bit. replace ((8 * Z.of_nat k + j) / 8) with (Z.of_nat k) by (Z.div_mod_to_equations; lia).
  replace ((8 * Z.of_nat k + j) mod 8) with j by (Z.div_mod_to_equations; lia). now rewrite Nat2Z.id.
Qed.

(** A field inside one byte *)
Lemma field_in_byte p (k : nat) j w : 0 <= j -> j + Z.of_nat w <= 8 -> wf_bytes p ->
  field p (8 * Z.of_nat k + j) w = (nth k p 0 / 2 ^ (8 - j - Z.of_nat w)) mod 2 ^ Z.of_nat w.
Proof.
  intros Hj Hw Hp. pose proof (byte_at p k Hp) as B. induction w as [|w IH].
  - cbn [field Z.of_nat]. change (2 ^ 0) with 1. now rewrite Z.mod_1_r.
  - cbn [field]. rewrite IH by lia. clear IH.
    rewrite <- Z.add_assoc, bit_in_byte by lia.
    replace (7 - (j + Z.of_nat w)) with (8 - j - Z.of_nat (S w)) by lia.
    replace (8 - j - Z.of_nat w) with (8 - j - Z.of_nat (S w) + 1) by lia.
    set (t := 8 - j - Z.of_nat (S w)). assert (Ht : 0 <= t) by lia.
    rewrite Z.pow_add_r by lia. change (2 ^ 1) with 2. rewrite <- Z.div_div by (try apply Z.pow_pos_nonneg; lia).
    replace (Z.b2z (Z.testbit (nth k p 0) t)) with ((nth k p 0 / 2 ^ t) mod 2) by (symmetry; apply Z.testbit_spec'; lia).
    rewrite Nat2Z.inj_succ, Z.pow_succ_r by lia. generalize (nth k p 0 / 2 ^ t). intros x.
    rewrite (Z.rem_mul_r x 2 (2 ^ Z.of_nat w)) by (try apply Z.pow_nonzero; try apply Z.pow_pos_nonneg; lia). lia.
Qed.

Lemma field_byte p k : wf_bytes p -> field p (8 * Z.of_nat k) 8 = nth k p 0.
Proof.
  intros Hp. rewrite <- (Z.add_0_r (8 * Z.of_nat k)). rewrite field_in_byte by (auto; lia).
  change (8 - 0 - Z.of_nat 8) with 0. change (2 ^ 0) with 1. change (2 ^ Z.of_nat 8) with 256. rewrite Z.div_1_r.
  pose proof (byte_at p k Hp) as B. unfold is_byte in B. apply Z.mod_small; lia.
Qed.

Lemma number_be l : number l = be_value l.
Proof.
  induction l as [|b r IH]; [reflexivity|]. cbn [number]. rewrite IH. unfold be_value. cbn [rev].
  assert (G : forall a c, le_value (a ++ [c]) = le_value a + 256 ^ zlen a * c).
  { induction a as [|x a IHa]; intros c; cbn [app le_value]; [change (zlen (@nil Z)) with 0; change (256^0) with 1; lia|]. rewrite IHa, zlen_cons.
    rewrite Z.pow_add_r by (pose proof (zlen_nonneg a); lia). change (256 ^ 1) with 256. lia. }
  rewrite G. unfold zlen. rewrite rev_length. lia.
Qed.

Lemma number_range l : wf_bytes l -> 0 <= number l < 256 ^ zlen l.
Proof. intros. rewrite number_be. now apply be_value_range. Qed.

(** A field of whole bytes *)
Lemma field_bytes p k n : wf_bytes p -> (k + n <= length p)%nat ->
  field p (8 * Z.of_nat k) (8 * n) = number (firstn n (skipn k p)).
Proof.
  revert k; induction n as [|n IH]; intros k Hp Hl; [reflexivity|].
  replace (8 * S n)%nat with (8 + 8 * n)%nat by lia. rewrite field_app, field_byte by auto.
  replace (8 * Z.of_nat k + Z.of_nat 8) with (8 * Z.of_nat (S k)) by lia. rewrite IH by (auto; lia).
  assert (E : skipn k p = nth k p 0 :: skipn (S k) p).
  { clear -Hl. revert k Hl. induction p as [|x p IHp]; intros [|k] Hl; cbn in *; try lia; auto. apply IHp; lia. }
  rewrite E. cbn [firstn number]. f_equal. f_equal. unfold zlen. rewrite firstn_length, skipn_length.
  replace (Z.of_nat (Nat.min n (length p - S k))) with (Z.of_nat n) by lia.
  change 256 with (2 ^ 8). rewrite <- Z.pow_mul_r by lia. f_equal. lia.
Qed.

(** * Changing bytes *)
Lemma nth_upd_same (p : bytes) k v : (k < length p)%nat -> nth k (upd p k v) 0 = v.
Proof. intros H. apply nth_error_nth. now apply nth_error_upd_eq. Qed.
Lemma nth_upd_other (p : bytes) k j v : k <> j -> nth j (upd p k v) 0 = nth j p 0.
Proof.
  intros H. destruct (nth_error p j) eqn:E.
  - rewrite (nth_error_nth p j 0 E). apply nth_error_nth. rewrite nth_error_upd_neq; auto.
  - apply nth_error_None in E. rewrite !nth_overflow; auto. now rewrite upd_length.
Qed.

(** Replace byte k: the bits that change lie in [8k+j, 8k+j+w) and hold v *)
Lemma sets_upd p (k : nat) j w b v : wf_bytes p -> (k < length p)%nat -> 0 <= j -> j + Z.of_nat w <= 8 ->
  is_byte b -> (b / 2 ^ (8 - j - Z.of_nat w)) mod 2 ^ Z.of_nat w = v ->
  (forall t, 0 <= t < 8 - j - Z.of_nat w \/ 8 - j <= t < 8 -> Z.testbit b t = Z.testbit (nth k p 0) t) ->
  sets p (upd p k b) (8 * Z.of_nat k + j) w v.
Proof.
  intros Hp Hk Hj Hw Hb Hv Ho. assert (Hq : wf_bytes (upd p k b)) by (apply Forall_upd; auto).
  split; [unfold zlen; now rewrite upd_length|]. split; [auto|]. split.
  - rewrite field_in_byte by auto. rewrite nth_upd_same by auto. exact Hv.
  - intros i Hi0 Hi. unfold bit. destruct (Nat.eq_dec k (Z.to_nat (i / 8))) as [E|E].
    + rewrite <- E, nth_upd_same by auto. apply Ho. Z.div_mod_to_equations; lia.
    + rewrite nth_upd_other by auto. reflexivity.
Qed.

Lemma sets_bytes p q k n v : wf_bytes p -> (k + n <= length p)%nat ->
  forall a, length a = n -> wf_bytes a -> number a = v ->
  q = firstn k p ++ a ++ skipn (k + n) p -> sets p q (8 * Z.of_nat k) (8 * n) v.
Proof.
  intros Hp Hl a La Wa Hv ->. set (q := firstn k p ++ a ++ skipn (k + n) p).
  assert (Lk : length (firstn k p) = k) by (rewrite firstn_length; lia).
  assert (Hq : wf_bytes q).
  { apply Forall_app; split; [now apply Forall_firstn|]. apply Forall_app; split; auto. now apply Forall_skipn. }
  assert (Lq : length q = length p) by (subst q; rewrite !app_length, skipn_length; lia).
  split; [unfold zlen; now rewrite Lq|]. split; [auto|]. split.
  - rewrite field_bytes by (auto; lia). subst q.
    rewrite skipn_app, Lk, Nat.sub_diag, skipn_all2 by lia. cbn [app skipn].
    rewrite firstn_app, La, Nat.sub_diag. cbn [firstn]. rewrite app_nil_r. rewrite firstn_all2 by lia. exact Hv.
  - intros i Hi0 Hi. unfold bit. f_equal. subst q. set (m := Z.to_nat (i / 8)).
    assert (Hm : (m < k)%nat \/ (k + n <= m)%nat) by (subst m; Z.div_mod_to_equations; lia).
    destruct Hm as [Hm|Hm].
    + rewrite app_nth1 by lia. rewrite <- (firstn_skipn k p) at 2. rewrite app_nth1 by lia. reflexivity.
    + rewrite app_nth2, Lk by lia. rewrite app_nth2, La by lia.
      rewrite <- (firstn_skipn (k + n) p) at 2. rewrite app_nth2 by (rewrite firstn_length; lia).
      f_equal. rewrite firstn_length. lia.
Qed.

(** * The accessors *)
Lemma nth_idx (p : bytes) (k : nat) : (k < length p)%nat -> idx p (Z.of_nat k) = Ok (nth k p 0).
Proof. intros H. apply idx_nat. now apply nth_error_nth'. Qed.

Lemma from_ok (p : bytes) (k : nat) : (k <= length p)%nat -> slice_from p (Z.of_nat k) = Ok (skipn k p).
Proof. intros H. rewrite slice_from_ok by (unfold zlen; lia). now rewrite Nat2Z.id. Qed.

Lemma get16_field min (k : nat) : Z.of_nat k + 2 <= min -> reads min (fun p => get16 p (Z.of_nat k)) (8 * Z.of_nat k) 16.
Proof.
  intros Hm p Hp Hl. unfold get16. unfold zlen in *. rewrite from_ok by lia. cbn [bind].
  rewrite (co_get _ _ _ _ _ bele16_ok); [|apply Forall_firstn, Forall_skipn; auto|rewrite skipn_length; lia].
  rewrite <- number_be. change 16%nat with (8 * 2)%nat. rewrite (field_bytes p k 2) by (auto; lia). reflexivity.
Qed.
Lemma get32_field min (k : nat) : Z.of_nat k + 4 <= min -> reads min (fun p => get32 p (Z.of_nat k)) (8 * Z.of_nat k) 32.
Proof.
  intros Hm p Hp Hl. unfold get32. unfold zlen in *. rewrite from_ok by lia. cbn [bind].
  rewrite (co_get _ _ _ _ _ bele32_ok); [|apply Forall_firstn, Forall_skipn; auto|rewrite skipn_length; lia].
  rewrite <- number_be. change 32%nat with (8 * 4)%nat. rewrite (field_bytes p k 4) by (auto; lia). reflexivity.
Qed.

Lemma skip2 {A} (l : list A) a b : skipn a (skipn b l) = skipn (b + a) l.
Proof. revert l; induction b as [|b IH]; intros l; [reflexivity|]. destruct l; cbn; [apply skipn_nil|apply IH]. Qed.

Lemma put16_field min (k : nat) : Z.of_nat k + 2 <= min -> writes min (fun p v => put16 p (Z.of_nat k) v) (8 * Z.of_nat k) 16.
Proof.
  intros Hm p v Hp Hl Hv. unfold put16. unfold zlen in *. rewrite from_ok by lia. cbn [bind].
  rewrite (co_put _ _ _ _ _ bele16_ok); [|rewrite skipn_length; lia|exact Hv]. cbn [bind].
  eexists. split; [reflexivity|]. apply (sets_bytes p _ k 2 v Hp ltac:(lia) (be_digits 2 v)).
  - apply be_digits_length.
  - apply be_digits_wf.
  - rewrite number_be. apply be_value_digits. exact Hv.
  - rewrite Nat2Z.id, skip2. reflexivity.
Qed.
Lemma put32_field min (k : nat) : Z.of_nat k + 4 <= min -> writes min (fun p v => put32 p (Z.of_nat k) v) (8 * Z.of_nat k) 32.
Proof.
  intros Hm p v Hp Hl Hv. unfold put32. unfold zlen in *. rewrite from_ok by lia. cbn [bind].
  rewrite (co_put _ _ _ _ _ bele32_ok); [|rewrite skipn_length; lia|exact Hv]. cbn [bind].
  eexists. split; [reflexivity|]. apply (sets_bytes p _ k 4 v Hp ltac:(lia) (be_digits 4 v)).
  - apply be_digits_length.
  - apply be_digits_wf.
  - rewrite number_be. apply be_value_digits. exact Hv.
  - rewrite Nat2Z.id, skip2. reflexivity.
Qed.

Lemma byte_field min (k : nat) : Z.of_nat k + 1 <= min -> reads min (fun p => idx p (Z.of_nat k)) (8 * Z.of_nat k) 8.
Proof. intros Hm p Hp Hl. unfold zlen in *. rewrite nth_idx by lia. now rewrite field_byte. Qed.
Lemma put_byte_field min (k : nat) : Z.of_nat k + 1 <= min -> writes min (fun p v => set_idx p (Z.of_nat k) v) (8 * Z.of_nat k) 8.
Proof.
  intros Hm p v Hp Hl Hv. unfold zlen in *. rewrite set_idx_ok by (unfold zlen; lia). rewrite Nat2Z.id.
  eexists. split; [reflexivity|]. rewrite <- (Z.add_0_r (8 * Z.of_nat k)). 
  change (2 ^ Z.of_nat 8) with 256 in Hv.
  apply sets_upd; auto; try lia.
Qed.

Lemma copy_out_ok p (k n : nat) : (k + n <= length p)%nat -> copy_out p (Z.of_nat k) n = Ok (firstn n (skipn k p)).
Proof.
  intros H. unfold copy_out. rewrite from_ok by lia. cbn [bind]. unfold overwrite. cbn [firstn app Nat.add].
  rewrite repeat_length, Nat.sub_0_r. rewrite (skipn_all2 (repeat 0 n)) by (rewrite repeat_length, skipn_length; lia). now rewrite app_nil_r.
Qed.
Lemma copy_out_field min (k n : nat) : Z.of_nat (k + n) <= min -> reads_array min (fun p => copy_out p (Z.of_nat k) n) (8 * Z.of_nat k) n.
Proof.
  intros Hm p Hp Hl. unfold zlen in *. rewrite copy_out_ok by lia. eexists. split; [reflexivity|].
  rewrite field_bytes by (auto; lia). repeat split; auto.
  - rewrite firstn_length, skipn_length. lia.
  - now apply Forall_firstn, Forall_skipn.
Qed.
Lemma copy_in_ok p (k : nat) a : (k + length a <= length p)%nat ->
  copy_in p (Z.of_nat k) a = Ok (firstn k p ++ a ++ skipn (k + length a) p).
Proof.
  intros H. unfold copy_in, copy_at, zlen. replace ((0 <=? Z.of_nat k) && (Z.of_nat k <=? Z.of_nat (length p))) with true by lia.
  rewrite Nat2Z.id. unfold overwrite. rewrite (firstn_all2 a) by lia. reflexivity.
Qed.
Lemma copy_in_field min (k n : nat) : Z.of_nat (k + n) <= min -> writes_array min (fun p a => copy_in p (Z.of_nat k) a) (8 * Z.of_nat k) n.
Proof.
  intros Hm p a Hp Hl La Wa. unfold zlen in *. rewrite copy_in_ok by lia. eexists. split; [reflexivity|].
  rewrite La. eapply sets_bytes; eauto. lia.
Qed.

(** * Bits *)
Lemma testbit_one t u : 0 <= t -> Z.testbit (2 ^ t) u = (t =? u).
Proof. intros H. now rewrite Z.pow2_bits_eqb by lia. Qed.

Lemma lor_byte a b : is_byte a -> is_byte b -> is_byte (Z.lor a b).
Proof.
  unfold is_byte. intros Ha Hb. assert (0 <= Z.lor a b) by (apply Z.lor_nonneg; lia). split; [auto|].
  destruct (Z.eq_dec (Z.lor a b) 0); [lia|]. apply Z.log2_lt_cancel. change (Z.log2 256) with 8.
  destruct (Z.eq_dec a 0) as [->|]; [rewrite Z.lor_0_l; destruct (Z.eq_dec b 0); [subst; cbn; lia|apply Z.log2_lt_pow2; lia]|].
  destruct (Z.eq_dec b 0) as [->|]; [rewrite Z.lor_0_r; apply Z.log2_lt_pow2; lia|].
  rewrite Z.log2_lor by lia. apply Z.max_lub_lt; apply Z.log2_lt_pow2; lia.
Qed.

Lemma flag_test p (k : nat) t : wf_bytes p -> (k < length p)%nat -> 0 <= t < 8 ->
  test_byte p (Z.of_nat k) (2 ^ t) = Ok (bit p (8 * Z.of_nat k + (7 - t))).
Proof.
  intros Hp Hk Ht. unfold test_byte. rewrite nth_idx by lia. cbn [bind]. rewrite bit_in_byte by lia.
  replace (7 - (7 - t)) with t by lia. f_equal. set (b := nth k p 0).
  destruct (Z.testbit b t) eqn:E.
  - destruct (Z.eqb_spec (Z.land b (2 ^ t)) 0) as [E0|]; auto.
    assert (Z.testbit (Z.land b (2 ^ t)) t = true) by (rewrite Z.land_spec, E, testbit_one by lia; lia).
    rewrite E0, Z.bits_0 in H. discriminate.
  - replace (Z.land b (2 ^ t)) with 0; auto. symmetry. apply Z.bits_inj'. intros n Hn.
    rewrite Z.land_spec, testbit_one, Z.bits_0 by lia. destruct (Z.eqb_spec t n); [subst; now rewrite E|apply andb_false_r].
Qed.

Lemma one_bit b t : 0 <= t -> (b / 2 ^ t) mod 2 = Z.b2z (Z.testbit b t).
Proof. intros. symmetry. apply Z.testbit_spec'; lia. Qed.

Lemma flag_set p (k : nat) t : wf_bytes p -> (k < length p)%nat -> 0 <= t < 8 ->
  exists q, or_byte p (Z.of_nat k) (2 ^ t) = Ok q /\ sets p q (8 * Z.of_nat k + (7 - t)) 1 1.
Proof.
  intros Hp Hk Ht. unfold or_byte. rewrite nth_idx by lia. cbn [bind]. rewrite set_idx_ok by (unfold zlen; lia).
  rewrite Nat2Z.id. eexists. split; [reflexivity|]. pose proof (byte_at p k Hp) as B.
  assert (B2 : is_byte (2 ^ t)) by (unfold is_byte; split; [apply Z.pow_nonneg; lia|change 256 with (2 ^ 8); apply Z.pow_lt_mono_r; lia]).
  apply sets_upd; auto; try lia.
  - now apply lor_byte.
  - replace (8 - (7 - t) - Z.of_nat 1) with t by lia. change (2 ^ Z.of_nat 1) with 2. rewrite one_bit by lia.
    rewrite Z.lor_spec, testbit_one by lia. rewrite Z.eqb_refl, orb_true_r. reflexivity.
  - intros u Hu. rewrite Z.lor_spec, testbit_one by lia. replace (t =? u) with false by lia. apply orb_false_r.
Qed.

(** A statement about two bytes, by computation over all of them *)
Lemma byte_sweep2 (p : Z -> Z -> bool) :
  forallb (fun a => forallb (p a) all_bytes) all_bytes = true -> forall a b, is_byte a -> is_byte b -> p a b = true.
Proof. intros H a b Ha Hb. apply (byte_sweep (p a)); auto. apply (byte_sweep (fun a => forallb (p a) all_bytes)); auto. Qed.
Lemma land_byte a b : is_byte a -> is_byte b -> is_byte (Z.land a b).
Proof.
  intros Ha Hb. pose proof (byte_sweep2 (fun a b => (0 <=? Z.land a b) && (Z.land a b <? 256)) ltac:(vm_compute; reflexivity) a b Ha Hb) as H.
  unfold is_byte. cbv beta in H. lia.
Qed.

Lemma compl_bits m u : is_byte m -> 0 <= u < 8 -> Z.testbit (255 - m) u = negb (Z.testbit m u).
Proof.
  intros Hm Hu. assert (E : 255 - m = Z.lxor m 255).
  { revert m Hm. apply (byte_sweep (fun m => 255 - m =? Z.lxor m 255)) || idtac. 
    intros m Hm. pose proof (all_bytes_in m Hm) as I.
    assert (A : forallb (fun m => 255 - m =? Z.lxor m 255) all_bytes = true) by (vm_compute; reflexivity).
    rewrite forallb_forall in A. specialize (A m I). lia. }
  rewrite E, Z.lxor_spec. change 255 with (Z.ones 8). rewrite Z.ones_spec_low by lia. apply xorb_true_r.
Qed.

Lemma flag_clear p (k : nat) t : wf_bytes p -> (k < length p)%nat -> 0 <= t < 8 ->
  exists q, clear_byte p (Z.of_nat k) (2 ^ t) = Ok q /\ sets p q (8 * Z.of_nat k + (7 - t)) 1 0.
Proof.
  intros Hp Hk Ht. unfold clear_byte. rewrite nth_idx by lia. cbn [bind]. rewrite set_idx_ok by (unfold zlen; lia).
  rewrite Nat2Z.id. eexists. split; [reflexivity|]. pose proof (byte_at p k Hp) as B.
  assert (B2 : is_byte (2 ^ t)) by (unfold is_byte; split; [apply Z.pow_nonneg; lia|change 256 with (2 ^ 8); apply Z.pow_lt_mono_r; lia]).
  apply sets_upd; auto; try lia.
  - apply land_byte; [auto|]. unfold is_byte in *. lia.
  - replace (8 - (7 - t) - Z.of_nat 1) with t by lia. change (2 ^ Z.of_nat 1) with 2. rewrite one_bit by lia.
    rewrite Z.land_spec, compl_bits, testbit_one by (auto; lia). rewrite Z.eqb_refl. cbn. now rewrite andb_false_r.
  - intros u Hu. rewrite Z.land_spec, compl_bits, testbit_one by (auto; lia). replace (t =? u) with false by lia. apply andb_true_r.
Qed.

(** * Or-ing into a field *)
Lemma or_val b v t w : 0 <= t -> 0 <= w -> 0 <= v < 2 ^ w ->
  (Z.lor b (v * 2 ^ t) / 2 ^ t) mod 2 ^ w = Z.lor ((b / 2 ^ t) mod 2 ^ w) v.
Proof.
  intros Ht Hw Hv. rewrite <- !Z.land_ones, <- !Z.shiftr_div_pow2, <- Z.shiftl_mul_pow2 by lia.
  rewrite Z.shiftr_lor, Z.shiftr_shiftl_l, Z.sub_diag, Z.shiftl_0_r by lia.
  rewrite Z.land_lor_distr_l. f_equal. rewrite Z.land_ones by lia. apply Z.mod_small. lia.
Qed.
Lemma or_out b v t w u : 0 <= t -> 0 <= w -> 0 <= v < 2 ^ w -> 0 <= u < t \/ t + w <= u ->
  Z.testbit (Z.lor b (v * 2 ^ t)) u = Z.testbit b u.
Proof.
  intros Ht Hw Hv Hu. rewrite Z.lor_spec, <- Z.shiftl_mul_pow2, Z.shiftl_spec by lia.
  replace (Z.testbit v (u - t)) with false; [apply orb_false_r|]. symmetry.
  destruct Hu; [apply Z.testbit_neg_r; lia|].
  rewrite <- (Z.mod_small v (2 ^ w)) by lia. apply Z.mod_pow2_bits_high. lia.
Qed.

Lemma small_byte v t w : 0 <= t -> 0 <= w -> t + w <= 8 -> 0 <= v < 2 ^ w -> is_byte (v * 2 ^ t).
Proof.
  intros Ht Hw H Hv. unfold is_byte. assert (0 < 2 ^ t) by (apply Z.pow_pos_nonneg; lia). split; [nia|].
  apply Z.lt_le_trans with (2 ^ w * 2 ^ t); [apply Z.mul_lt_mono_pos_r; lia|].
  rewrite <- Z.pow_add_r by lia. change 256 with (2 ^ 8). apply Z.pow_le_mono_r; lia.
Qed.

Lemma or_field p (k : nat) j w v : wf_bytes p -> (k < length p)%nat -> 0 <= j -> j + Z.of_nat w <= 8 ->
  0 <= v < 2 ^ Z.of_nat w ->
  exists q, or_byte p (Z.of_nat k) (v * 2 ^ (8 - j - Z.of_nat w)) = Ok q /\
    sets p q (8 * Z.of_nat k + j) w (Z.lor (field p (8 * Z.of_nat k + j) w) v).
Proof.
  intros Hp Hk Hj Hw Hv. unfold or_byte. rewrite nth_idx by lia. cbn [bind]. rewrite set_idx_ok by (unfold zlen; lia).
  rewrite Nat2Z.id. eexists. split; [reflexivity|]. pose proof (byte_at p k Hp) as B.
  set (t := 8 - j - Z.of_nat w). assert (Ht : 0 <= t) by lia.
  apply sets_upd; auto.
  - apply lor_byte; auto. apply small_byte with (Z.of_nat w); lia.
  - fold t. rewrite or_val by lia. rewrite field_in_byte by auto. reflexivity.
  - intros u Hu. fold t in Hu. apply (or_out _ _ _ (Z.of_nat w)); lia.
Qed.

Lemma or_subset a b : Z.lor a b = b <-> Z.ldiff a b = 0.
Proof.
  split; intros H; apply Z.bits_inj'; intros n Hn; assert (E := f_equal (fun x => Z.testbit x n) H); cbn beta in E;
    rewrite ?Z.lor_spec, ?Z.ldiff_spec, ?Z.bits_0 in *; destruct (Z.testbit a n), (Z.testbit b n); auto.
Qed.

(** Fields away from the written one keep their value *)
Lemma sets_keep p q off w v off' w' : sets p q off w v -> 0 <= off' ->
  off' + Z.of_nat w' <= off \/ off + Z.of_nat w <= off' -> field q off' w' = field p off' w'.
Proof. intros (_ & _ & _ & H) Ho Hd. apply field_ext. intros i Hi. apply H; lia. Qed.

(** Splitting a written field *)
Lemma sets_split p q off a b v : sets p q off (a + b) v ->
  field q off a = v / 2 ^ Z.of_nat b /\ field q (off + Z.of_nat a) b = v mod 2 ^ Z.of_nat b.
Proof.
  intros (_ & _ & H & _). rewrite field_app in H. pose proof (field_range q (off + Z.of_nat a) b).
  split.
  - apply (Z.div_unique_pos v (2 ^ Z.of_nat b) (field q off a) (field q (off + Z.of_nat a) b)); lia.
  - apply (Z.mod_unique_pos v (2 ^ Z.of_nat b) (field q off a) (field q (off + Z.of_nat a) b)); lia.
Qed.

(** A write that happens to put the old value next to a sub-field is a write of the sub-field *)
Lemma sets_narrow p q off a b c v : 0 <= off -> sets p q off (a + (b + c)) v ->
  (sets p q (off + Z.of_nat a) b (field q (off + Z.of_nat a) b) <->
   field q off a = field p off a /\ field q (off + Z.of_nat a + Z.of_nat b) c = field p (off + Z.of_nat a + Z.of_nat b) c).
Proof.
  intros Ho S. split.
  - intros T. split; apply (sets_keep _ _ _ _ _ _ _ T); lia.
  - intros (E1 & E2). destruct S as (L & W & F & R). split; auto. split; auto. split; auto.
    assert (Hb : forall p q o w, field q o w = field p o w -> forall i, o <= i < o + Z.of_nat w -> bit q i = bit p i).
    { clear. intros p q o w. induction w as [|w IH]; intros E i Hi; [lia|]. cbn [field] in E.
      assert (E2 : field q o w = field p o w /\ bit q (o + Z.of_nat w) = bit p (o + Z.of_nat w))
        by (destruct (bit q _), (bit p _); cbn [Z.b2z] in E; split; auto; lia).
      destruct E2 as (E2 & E3). destruct (Z.eq_dec i (o + Z.of_nat w)) as [->|]; auto. apply IH; auto; lia. }
    intros i Hi0 Hi. destruct (Z_lt_ge_dec i off); [apply R; lia|].
    destruct (Z_lt_ge_dec i (off + Z.of_nat a)); [apply (Hb _ _ off a); auto; lia|].
    destruct (Z_lt_ge_dec i (off + Z.of_nat a + Z.of_nat b + Z.of_nat c)).
    + apply (Hb _ _ _ _ E2). lia.
    + apply R; lia.
Qed.

(** * Getters written with shifts *)
Lemma hi_nibble p (k : nat) : wf_bytes p -> Z.shiftr (nth k p 0) 4 = field p (8 * Z.of_nat k) 4.
Proof.
  intros Hp. rewrite <- (Z.add_0_r (8 * Z.of_nat k)), field_in_byte by (auto; lia).
  rewrite Z.shiftr_div_pow2 by lia. change (8 - 0 - Z.of_nat 4) with 4. change (2 ^ Z.of_nat 4) with 16. change (2 ^ 4) with 16.
  pose proof (byte_at p k Hp) as B. unfold is_byte in B. rewrite Z.mod_small; auto. Z.div_mod_to_equations; lia.
Qed.
Lemma lo_nibble p (k : nat) : wf_bytes p -> Z.land (nth k p 0) 15 = field p (8 * Z.of_nat k + 4) 4.
Proof.
  intros Hp. rewrite field_in_byte by (auto; lia). change 15 with (Z.ones 4). rewrite Z.land_ones by lia.
  change (8 - 4 - Z.of_nat 4) with 0. change (2 ^ 0) with 1. now rewrite Z.div_1_r.
Qed.
