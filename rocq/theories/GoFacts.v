(** Generic lemmas about [Go]. *)
From Coq Require Import ZifyBool ZifyNat.
From Verif Require Import Go.
Ltac Zify.zify_post_hook ::= Z.div_mod_to_equations.

Lemma zlen_nonneg {A} (l : list A) : 0 <= zlen l.
Proof. unfold zlen; lia. Qed.

Lemma zlen_cons {A} (a : A) l : zlen (a :: l) = 1 + zlen l.
Proof. unfold zlen; cbn [length]; lia. Qed.

Lemma zlen_app {A} (l1 l2 : list A) : zlen (l1 ++ l2) = zlen l1 + zlen l2.
Proof. unfold zlen; rewrite app_length; lia. Qed.

Lemma zlen_nil {A} : zlen (@nil A) = 0.
Proof. reflexivity. Qed.

Lemma upd_length {A} (l : list A) n v : length (upd l n v) = length l.
Proof. revert n; induction l as [|h t IH]; intros [|n]; cbn; auto. Qed.

Lemma nth_error_upd_eq {A} (l : list A) n v :
  (n < length l)%nat -> nth_error (upd l n v) n = Some v.
Proof. revert n; induction l as [|h t IH]; intros [|n] H; cbn in *; try lia; auto. apply IH; lia. Qed.

Lemma nth_error_upd_neq {A} (l : list A) n m v :
  n <> m -> nth_error (upd l n v) m = nth_error l m.
Proof.
  revert n m; induction l as [|h t IH]; intros [|n] [|m] H; cbn; auto; try lia.
Qed.

Lemma upd_firstn_skipn {A} (l : list A) n v :
  (n < length l)%nat -> upd l n v = firstn n l ++ v :: skipn (S n) l.
Proof.
  revert n; induction l as [|h t IH]; intros [|n] H; cbn in *; try lia; auto.
  f_equal. apply IH; lia.
Qed.

Lemma Forall_upd {A} (P : A -> Prop) l n v : Forall P l -> P v -> Forall P (upd l n v).
Proof.
  revert n; induction l as [|h t IH]; intros [|n] H Hv; cbn; auto;
  inversion H; subst; constructor; auto.
Qed.

Lemma idx_ok {A} (l : list A) i a :
  0 <= i -> nth_error l (Z.to_nat i) = Some a -> idx l i = Ok a.
Proof. intros Hi H; unfold idx. destruct (Z.ltb_spec i 0); [lia|]. now rewrite H. Qed.

Lemma idx_panic {A} (l : list A) i : i < 0 \/ zlen l <= i -> idx l i = Panic.
Proof.
  intros H; unfold idx. destruct (Z.ltb_spec i 0); auto.
  replace (nth_error l (Z.to_nat i)) with (@None A); auto.
  symmetry; apply nth_error_None. unfold zlen in H; lia.
Qed.

Lemma idx_in_range {A} (l : list A) i : 0 <= i < zlen l -> exists a, idx l i = Ok a.
Proof.
  intros H; unfold idx. destruct (Z.ltb_spec i 0); [lia|].
  destruct (nth_error l (Z.to_nat i)) eqn:E; eauto.
  apply nth_error_None in E. unfold zlen in H; lia.
Qed.

Lemma idx_inv {A} (l : list A) i a : idx l i = Ok a ->
  0 <= i < zlen l /\ nth_error l (Z.to_nat i) = Some a.
Proof.
  unfold idx. destruct (Z.ltb_spec i 0); [discriminate|].
  destruct (nth_error l (Z.to_nat i)) eqn:E; [|discriminate].
  intros H'; inversion H'; subst. split; auto.
  assert (Z.to_nat i < length l)%nat by (apply nth_error_Some; congruence).
  unfold zlen; lia.
Qed.

Lemma idx_nat {A} (l : list A) n a : nth_error l n = Some a -> idx l (Z.of_nat n) = Ok a.
Proof. intros H. apply idx_ok; [lia|]. now rewrite Nat2Z.id. Qed.

Lemma set_idx_ok {A} (l : list A) i v :
  0 <= i < zlen l -> set_idx l i v = Ok (upd l (Z.to_nat i) v).
Proof.
  intros H; unfold set_idx.
  destruct (Z.ltb_spec i 0), (Z.leb_spec (zlen l) i); cbn; auto; lia.
Qed.

Lemma set_idx_panic {A} (l : list A) i v : i < 0 \/ zlen l <= i -> set_idx l i v = Panic.
Proof.
  intros H; unfold set_idx.
  destruct (Z.ltb_spec i 0), (Z.leb_spec (zlen l) i); cbn; auto; lia.
Qed.

Lemma slice_ok {A} (l : list A) lo hi :
  0 <= lo <= hi -> hi <= zlen l ->
  slice l lo hi = Ok (firstn (Z.to_nat (hi - lo)) (skipn (Z.to_nat lo) l)).
Proof.
  intros H1 H2; unfold slice.
  destruct (Z.leb_spec 0 lo), (Z.leb_spec lo hi), (Z.leb_spec hi (zlen l)); cbn; auto; lia.
Qed.

Lemma slice_panic {A} (l : list A) lo hi :
  ~ (0 <= lo <= hi /\ hi <= zlen l) -> slice l lo hi = Panic.
Proof.
  intros H; unfold slice.
  destruct (Z.leb_spec 0 lo), (Z.leb_spec lo hi), (Z.leb_spec hi (zlen l)); cbn; auto; lia.
Qed.

Lemma slice_from_ok {A} (l : list A) lo :
  0 <= lo <= zlen l -> slice_from l lo = Ok (skipn (Z.to_nat lo) l).
Proof.
  intros H. unfold slice_from. rewrite slice_ok by lia. f_equal.
  apply firstn_all2. rewrite skipn_length. unfold zlen in *; lia.
Qed.

Lemma slice_from_panic {A} (l : list A) lo :
  ~ (0 <= lo <= zlen l) -> slice_from l lo = Panic.
Proof. intros H. apply slice_panic. lia. Qed.

Lemma slice_to_ok {A} (l : list A) hi :
  0 <= hi <= zlen l -> slice_to l hi = Ok (firstn (Z.to_nat hi) l).
Proof.
  intros H. unfold slice_to. rewrite slice_ok by lia. f_equal.
  rewrite Z.sub_0_r. reflexivity.
Qed.

Lemma overwrite_length {A} (d : list A) n s :
  (n <= length d)%nat -> length (overwrite d n s) = length d.
Proof.
  intros H; unfold overwrite. rewrite !app_length, !firstn_length, skipn_length. lia.
Qed.

Lemma overwrite_fits {A} (d : list A) n s :
  (n + length s <= length d)%nat ->
  overwrite d n s = firstn n d ++ s ++ skipn (n + length s) d.
Proof. intros H; unfold overwrite. rewrite (firstn_all2 s) by lia. reflexivity. Qed.

Lemma beq_eq a b : beq a b = true <-> a = b.
Proof.
  revert b; induction a as [|x a IH]; intros [|y b]; cbn; split; intros H;
    try discriminate; auto.
  - apply andb_prop in H as [H1 H2]. apply Z.eqb_eq in H1; subst. f_equal. now apply IH.
  - inversion H; subst. rewrite Z.eqb_refl. cbn. now apply IH.
Qed.

Lemma beq_refl a : beq a a = true.
Proof. now apply beq_eq. Qed.

Lemma beq_neq a b : beq a b = false <-> a <> b.
Proof.
  split; intros H.
  - intros ->. rewrite beq_refl in H; discriminate.
  - destruct (beq a b) eqn:E; auto. now apply beq_eq in E.
Qed.

(** Disjoint [lor] is [+]. *)
Lemma lor_shiftl_add a b n :
  0 <= n -> 0 <= a < 2 ^ n -> Z.lor a (Z.shiftl b n) = a + b * 2 ^ n.
Proof.
  intros Hn Ha. rewrite Z.shiftl_mul_pow2 by lia.
  rewrite <- Z.lxor_lor, <- Z.add_nocarry_lxor; try lia.
  - apply Z.bits_inj'. intros k Hk. rewrite Z.land_spec, Z.bits_0.
    destruct (Z.lt_ge_cases k n).
    + rewrite Z.mul_pow2_bits_low by lia. apply andb_false_r.
    + rewrite <- (Z.mod_small a (2 ^ n)) by lia.
      rewrite Z.mod_pow2_bits_high by lia. reflexivity.
  - apply Z.bits_inj'. intros k Hk. rewrite Z.land_spec, Z.bits_0.
    destruct (Z.lt_ge_cases k n).
    + rewrite Z.mul_pow2_bits_low by lia. apply andb_false_r.
    + rewrite <- (Z.mod_small a (2 ^ n)) by lia.
      rewrite Z.mod_pow2_bits_high by lia. reflexivity.
Qed.

Lemma shiftr_div x n : 0 <= n -> Z.shiftr x n = x / 2 ^ n.
Proof. intros; now apply Z.shiftr_div_pow2. Qed.

Lemma u64_small x : 0 <= x < 2 ^ 64 -> u64 x = x.
Proof. intros; unfold u64; now apply Z.mod_small. Qed.
Lemma u32_small x : 0 <= x < 2 ^ 32 -> u32 x = x.
Proof. intros; unfold u32; now apply Z.mod_small. Qed.
Lemma u16_small x : 0 <= x < 2 ^ 16 -> u16 x = x.
Proof. intros; unfold u16; now apply Z.mod_small. Qed.
Lemma u8_small x : 0 <= x < 256 -> u8 x = x.
Proof. intros; unfold u8; now apply Z.mod_small. Qed.
Lemma i64_small x : - 2 ^ 63 <= x < 2 ^ 63 -> i64 x = x.
Proof. intros; unfold i64. rewrite Z.mod_small by lia. lia. Qed.
Lemma u8_byte x : is_byte (u8 x).
Proof. unfold is_byte, u8. apply Z.mod_pos_bound; lia. Qed.
Lemma u64_range x : 0 <= u64 x < 2 ^ 64.
Proof. unfold u64. apply Z.mod_pos_bound; lia. Qed.
Lemma i64_range x : - 2 ^ 63 <= i64 x < 2 ^ 63.
Proof. unfold i64. pose proof (Z.mod_pos_bound (x + 2 ^ 63) (2 ^ 64)). lia. Qed.

Lemma wf_app a b : wf_bytes (a ++ b) <-> wf_bytes a /\ wf_bytes b.
Proof. unfold wf_bytes. apply Forall_app. Qed.

(** Two lists with the same length and elements are equal. *)
Lemma list_ext {A} (a b : list A) :
  (forall n, nth_error a n = nth_error b n) -> a = b.
Proof.
  revert b; induction a as [|x a IH]; intros [|y b] H; auto.
  - specialize (H O); discriminate.
  - specialize (H O); discriminate.
  - f_equal.
    + specialize (H O); cbn in H; congruence.
    + apply IH; intros n. apply (H (S n)).
Qed.

(** A finite sweep over all bytes. *)
Definition all_bytes : list Z := map Z.of_nat (seq 0 256).
Lemma all_bytes_in b : is_byte b -> In b all_bytes.
Proof.
  intros [H1 H2]. unfold all_bytes. rewrite in_map_iff. exists (Z.to_nat b).
  split; [lia|]. apply in_seq. lia.
Qed.
Lemma byte_sweep (p : Z -> bool) :
  forallb p all_bytes = true -> forall b, is_byte b -> p b = true.
Proof. intros H b Hb. rewrite forallb_forall in H. apply H, all_bytes_in, Hb. Qed.

Lemma nth_error_firstn_lt {A} (l : list A) n k :
  (k < n)%nat -> nth_error (firstn n l) k = nth_error l k.
Proof.
  revert n k; induction l as [|h t IH]; intros [|n] [|k] H; cbn; auto; try lia.
  apply IH; lia.
Qed.

Lemma nth_error_skipn_add {A} (l : list A) n k :
  nth_error (skipn n l) k = nth_error l (n + k).
Proof.
  revert n; induction l as [|h t IH]; intros [|n]; cbn; auto. now destruct k.
Qed.
