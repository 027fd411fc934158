From Verif Require Import Go GoFacts BinSpec BinProofs SyllabModel SyllabSpec.
From Coq Require Import ZifyBool ZifyNat Permutation.
Ltac Zify.zify_post_hook ::= Z.div_mod_to_equations.
Local Open Scope Z_scope.

(** * Splicing *)
Lemma nth_overwrite {A} (p : list A) a s k : (a + length s <= length p)%nat ->
  nth_error (overwrite p a s) k =
  if ((a <=? k) && (k <? a + length s))%nat then nth_error s (k - a) else nth_error p k.
Proof.
  intros H. rewrite overwrite_fits by lia.
  destruct (Nat.leb_spec a k); cbn [andb].
  - rewrite nth_error_app2 by (rewrite firstn_length; lia).
    rewrite firstn_length, Nat.min_l by lia.
    destruct (Nat.ltb_spec k (a + length s)).
    + now rewrite nth_error_app1 by lia.
    + rewrite nth_error_app2 by lia. rewrite nth_error_skipn_add. f_equal. lia.
  - rewrite nth_error_app1 by (rewrite firstn_length; lia).
    now apply nth_error_firstn_lt.
Qed.

Lemma overwrite_nil {A} (p : list A) a : (a <= length p)%nat -> overwrite p a [] = p.
Proof.
  intros H. unfold overwrite. rewrite firstn_nil. cbn. rewrite Nat.add_0_r. apply firstn_skipn.
Qed.

Lemma overwrite_app {A} (p : list A) a s t : (a + length s + length t <= length p)%nat ->
  overwrite (overwrite p a s) (a + length s) t = overwrite p a (s ++ t).
Proof.
  intros H. apply list_ext; intros k.
  rewrite !nth_overwrite by (rewrite ?overwrite_length, ?app_length; lia).
  rewrite app_length.
  destruct (Nat.leb_spec (a + length s) k), (Nat.ltb_spec k (a + length s + length t)),
    (Nat.leb_spec a k), (Nat.ltb_spec k (a + length s)),
    (Nat.ltb_spec k (a + (length s + length t))); cbn [andb]; try lia; auto.
  - rewrite nth_error_app2 by lia. f_equal; lia.
  - now rewrite nth_error_app1 by lia.
Qed.

Lemma overwrite_comm {A} (p : list A) a s b t :
  (a + length s <= length p)%nat -> (b + length t <= length p)%nat ->
  (a + length s <= b \/ b + length t <= a)%nat ->
  overwrite (overwrite p a s) b t = overwrite (overwrite p b t) a s.
Proof.
  intros Ha Hb Hd. apply list_ext; intros k.
  rewrite !nth_overwrite by (rewrite ?overwrite_length; lia).
  destruct (Nat.leb_spec a k), (Nat.ltb_spec k (a + length s)),
    (Nat.leb_spec b k), (Nat.ltb_spec k (b + length t)); cbn [andb]; try lia; auto.
Qed.

Lemma nth_firstn {A} (l : list A) n k :
  nth_error (firstn n l) k = if (k <? n)%nat then nth_error l k else None.
Proof.
  destruct (Nat.ltb_spec k n); [now apply nth_error_firstn_lt|].
  apply nth_error_None. rewrite firstn_length. lia.
Qed.

Lemma nth_region p off n k : 0 <= off -> 0 <= n ->
  nth_error (region p off n) k =
  if (k <? Z.to_nat n)%nat then nth_error p (Z.to_nat off + k) else None.
Proof.
  intros. unfold region. rewrite nth_firstn, nth_error_skipn_add. reflexivity.
Qed.

Lemma region_length p off n : inside p off n -> 0 <= n -> zlen (region p off n) = n.
Proof.
  intros (H1 & H2 & H3) Hn. unfold region, zlen in *.
  rewrite firstn_length, skipn_length. lia.
Qed.

Lemma region_overwrite_same p a s : 0 <= a -> a + zlen s <= zlen p ->
  region (overwrite p (Z.to_nat a) s) a (zlen s) = s.
Proof.
  intros H1 H2. unfold zlen in *. apply list_ext; intros k. rewrite nth_region by lia.
  rewrite nth_overwrite by lia.
  destruct (Nat.ltb_spec k (Z.to_nat (Z.of_nat (length s)))).
  - destruct (Nat.leb_spec (Z.to_nat a) (Z.to_nat a + k)),
      (Nat.ltb_spec (Z.to_nat a + k) (Z.to_nat a + length s)); cbn [andb]; try lia.
    f_equal; lia.
  - symmetry; apply nth_error_None; lia.
Qed.

Lemma region_ext p q off n : 0 <= off -> 0 <= n ->
  (forall i, off <= i < off + n -> nth_error p (Z.to_nat i) = nth_error q (Z.to_nat i)) ->
  region p off n = region q off n.
Proof.
  intros H1 H2 H. apply list_ext; intros k. rewrite !nth_region by lia.
  destruct (Nat.ltb_spec k (Z.to_nat n)); auto.
  specialize (H (off + Z.of_nat k)). replace (Z.to_nat (off + Z.of_nat k)) with
    (Z.to_nat off + k)%nat in H by lia. apply H; lia.
Qed.

Lemma overwrite_outside {A} (p : list A) a s i : 0 <= a -> a + zlen s <= zlen p -> 0 <= i ->
  ~ (a <= i < a + zlen s) ->
  nth_error (overwrite p (Z.to_nat a) s) (Z.to_nat i) = nth_error p (Z.to_nat i).
Proof.
  intros. unfold zlen in *. rewrite nth_overwrite by lia.
  destruct (Nat.leb_spec (Z.to_nat a) (Z.to_nat i)),
    (Nat.ltb_spec (Z.to_nat i) (Z.to_nat a + length s)); cbn [andb]; try lia; auto.
Qed.

Lemma region_overwrite_apart p a s b n : 0 <= a -> a + zlen s <= zlen p ->
  0 <= b -> 0 <= n -> apart a (zlen s) b n ->
  region (overwrite p (Z.to_nat a) s) b n = region p b n.
Proof.
  intros Ha Hs Hb Hn Hd. apply region_ext; auto. intros i Hi.
  apply overwrite_outside; auto; unfold apart in Hd; lia.
Qed.

Lemma zlen_overwrite {A} (p : list A) a s : 0 <= a <= zlen p ->
  zlen (overwrite p (Z.to_nat a) s) = zlen p.
Proof. intros. unfold zlen in *. rewrite overwrite_length; lia. Qed.

(** * The byte-wise writer and readers *)
Lemma sput_ok bs : forall p si k, 0 <= si + k -> si + k + zlen bs <= zlen p ->
  si + k + zlen bs <= 2 ^ 32 ->
  sput p si k bs = Ok (overwrite p (Z.to_nat (si + k)) bs).
Proof.
  induction bs as [|b t IH]; intros p si k H1 H2 H3; cbn [sput].
  - rewrite overwrite_nil; auto. rewrite zlen_nil in *. unfold zlen in *; lia.
  - rewrite zlen_cons in *. pose proof (zlen_nonneg t).
    rewrite u32_small by lia. rewrite set_idx_ok by lia. rewrite bind_ok.
    rewrite IH; [|lia|unfold zlen in *; rewrite upd_length; lia|lia].
    apply Ok_eq. change (b :: t) with ([b] ++ t).
    unfold zlen in *.
    rewrite <- overwrite_app by (cbn [length]; lia). cbn [length].
    replace (Z.to_nat (si + (k + 1))) with (Z.to_nat (si + k) + 1)%nat by lia.
    f_equal. rewrite upd_firstn_skipn by lia. rewrite overwrite_fits by (cbn [length]; lia).
    cbn [length app]. replace (Z.to_nat (si + k) + 1)%nat with (S (Z.to_nat (si + k))) by lia.
    reflexivity.
Qed.


Lemma sput_panic bs : forall p si k, bs <> [] -> 0 <= si + k ->
  zlen p < si + k + zlen bs -> si + k + zlen bs <= 2 ^ 32 -> sput p si k bs = Panic.
Proof.
  induction bs as [|b t IH]; intros p si k Hne H1 H2 H3; [congruence|]; cbn [sput].
  rewrite zlen_cons in *. pose proof (zlen_nonneg t). rewrite u32_small by lia.
  destruct (Z.ltb_spec (si + k) (zlen p)).
  - rewrite set_idx_ok by lia. rewrite bind_ok. destruct t as [|b' t].
    + rewrite zlen_nil in *; lia.
    + apply IH; [congruence|lia|unfold zlen in *; rewrite upd_length; lia|lia].
  - rewrite set_idx_panic by lia. reflexivity.
Qed.

Lemma sidx_region p si n j b : inside p si n -> nth_error (region p si n) j = Some b ->
  sidx p si (Z.of_nat j) = Ok b.
Proof.
  intros (H1 & H2 & H3) H. unfold sidx.
  destruct (Z.leb_spec 0 n).
  2:{ unfold region in H. replace (Z.to_nat n) with O in H by lia. now destruct j. }
  rewrite nth_region in H by lia.
  destruct (Nat.ltb_spec j (Z.to_nat n)); [|discriminate].
  rewrite u32_small by lia. apply idx_ok; [lia|].
  replace (Z.to_nat (si + Z.of_nat j)) with (Z.to_nat si + j)%nat by lia. exact H.
Qed.

Lemma sidx_out p si k : 0 <= si + k < 2 ^ 32 -> zlen p <= si + k -> sidx p si k = Panic.
Proof. intros. unfold sidx. rewrite u32_small by lia. apply idx_panic. lia. Qed.

Lemma sidx_at p si n k b : inside p si n -> 0 <= k ->
  nth_error (region p si n) (Z.to_nat k) = Some b -> sidx p si k = Ok b.
Proof.
  intros Hin Hk H. rewrite <- (Z2Nat.id k) by lia. eapply sidx_region; eauto.
Qed.

Ltac rd Hin Hreg :=
  repeat match goal with
  | |- context [sidx ?p ?si ?k] =>
      erewrite (sidx_at p si _ k);
        [|exact Hin|discriminate|rewrite Hreg; cbv [Z.to_nat Pos.to_nat Pos.iter_op Nat.add nth_error]; reflexivity];
      rewrite ?bind_ok
  end.

Lemma le_digits_mod n : forall v, le_value (le_digits n v) = v mod 256 ^ Z.of_nat n.
Proof.
  induction n as [|n IH]; intros v; cbn [le_digits le_value].
  - rewrite Z.mod_1_r. reflexivity.
  - rewrite IH. rewrite Nat2Z.inj_succ, Z.pow_succ_r by lia.
    rewrite Z.rem_mul_r by (try apply Z.pow_pos_nonneg; lia). lia.
Qed.

Definition word (k : kind) (v : Z) : bytes := le_digits (Z.to_nat (width k)) v.

Lemma word_len k v : zlen (word k v) = width k.
Proof. unfold word, zlen. rewrite le_digits_length. destruct k; reflexivity. Qed.

Lemma set_field_bytes k p si v : fits k v -> set_field k p si v = sput p si 0 (word k v).
Proof.
  intros Hv.
  destruct k; unfold set_field, SetByte, SetInt8, SetUInt8, SetInt16, SetUInt16, SetInt32, SetUInt32, SetInt64, SetUInt64, word;
    cbn [width]; cbv [Z.to_nat Pos.to_nat Pos.iter_op Nat.add]; cbn [le_digits];
    rewrite ?shr_u8 by lia; unfold u8; rewrite ?Z.div_div by lia; try reflexivity.
  cbn [fits] in Hv. rewrite Z.mod_small by lia. reflexivity.
Qed.

Lemma set_field_ok k p si v : inside p si (width k) -> fits k v ->
  set_field k p si v = Ok (overwrite p (Z.to_nat si) (word k v)).
Proof.
  intros (H1 & H2 & H3) Hv. rewrite set_field_bytes by auto.
  rewrite sput_ok; rewrite ?word_len; try lia. now rewrite Z.add_0_r.
Qed.

Lemma set_field_panic k p si v : 0 <= si -> zlen p < si + width k -> si + width k <= 2 ^ 32 ->
  fits k v -> set_field k p si v = Panic.
Proof.
  intros H1 H2 H3 Hv. rewrite set_field_bytes by auto.
  apply sput_panic; rewrite ?word_len; try lia.
  intros E. pose proof (word_len k v) as L. rewrite E, zlen_nil in L. destruct k; cbn in L; lia.
Qed.

Lemma i_word w b : 0 <= b < 256 ->
  forall k, 0 <= k -> w = 256 * 2 ^ k ->
  (Z.shiftl b k + w / 2) mod w - w / 2 = Z.shiftl (if b <? 128 then b else b - 256) k.
Proof.
  intros Hb k Hk ->. rewrite !Z.shiftl_mul_pow2 by lia.
  assert (Hp : 0 < 2 ^ k) by (apply Z.pow_pos_nonneg; lia).
  replace (256 * 2 ^ k / 2) with (128 * 2 ^ k).
  2:{ apply Z.div_unique_exact; lia. }
  destruct (Z.ltb_spec b 128).
  - rewrite Z.mod_small by nia. lia.
  - symmetry. replace (b * 2 ^ k + 128 * 2 ^ k) with ((b - 128) * 2 ^ k + 1 * (256 * 2 ^ k)) by lia.
    rewrite Z.mod_add by nia. rewrite Z.mod_small by nia. lia.
Qed.

Lemma small_word m b k : 0 <= b < 256 -> 0 <= k -> 256 * 2 ^ k <= m / 2 -> 0 < m -> m mod 2 = 0 ->
  (Z.shiftl b k + m / 2) mod m - m / 2 = Z.shiftl b k.
Proof.
  intros Hb Hk Hm Hm0 He. rewrite Z.shiftl_mul_pow2 by lia.
  assert (Hp : 0 < 2 ^ k) by (apply Z.pow_pos_nonneg; lia).
  rewrite Z.mod_small; [lia|]. split; [|]; nia.
Qed.

Definition sgn (b : Z) : Z := if b <? 128 then b else b - 256.
Lemma i16_8 b : 0 <= b < 256 -> i16 (Z.shiftl b 8) = Z.shiftl (sgn b) 8.
Proof. intros. unfold i16. apply (i_word (2 ^ 16) b); lia. Qed.
Lemma i32_24 b : 0 <= b < 256 -> i32 (Z.shiftl b 24) = Z.shiftl (sgn b) 24.
Proof. intros. unfold i32. apply (i_word (2 ^ 32) b); lia. Qed.
Lemma i64_56 b : 0 <= b < 256 -> i64 (Z.shiftl b 56) = Z.shiftl (sgn b) 56.
Proof. intros. unfold i64. apply (i_word (2 ^ 64) b); lia. Qed.
Lemma i32_small_sh b k : 0 <= b < 256 -> 0 <= k -> 256 * 2 ^ k <= 2 ^ 31 ->
  i32 (Z.shiftl b k) = Z.shiftl b k.
Proof. intros. unfold i32. apply (small_word (2 ^ 32) b k); auto; lia. Qed.
Lemma i64_small_sh b k : 0 <= b < 256 -> 0 <= k -> 256 * 2 ^ k <= 2 ^ 63 ->
  i64 (Z.shiftl b k) = Z.shiftl b k.
Proof. intros. unfold i64. apply (small_word (2 ^ 64) b k); auto; lia. Qed.

Lemma mod256 x : 0 <= x mod 256 < 256.
Proof. apply Z.mod_pos_bound; lia. Qed.

(** Names the bytes of [v]; keeps only their ranges and their value. *)
Ltac digs n v :=
  let E := fresh "E" in
  pose proof (le_digits_mod n v) as E; cbn [le_digits le_value] in E;
  repeat match goal with
  | |- context [?x mod 256] =>
      let b := fresh "b" in let Hb := fresh "Hb" in
      pose proof (mod256 x) as Hb; set (b := x mod 256) in *; clearbody b
  end.
Ltac fin_u :=
  match goal with E : _ = ?v mod ?m |- _ =>
    rewrite (Z.mod_small v m) in E by (cbv [Z.pow Z.pow_pos Pos.iter Z.of_nat Z.mul Pos.mul Pos.of_succ_nat Pos.succ Pos.add] in *; lia)
  end; lia.
Ltac fin_s M :=
  match goal with E : _ = ?v mod ?m |- _ =>
    let q := fresh "q" in let Hq := fresh "Hq" in
    change m with M in E; pose proof (Z.div_mod v M ltac:(lia)) as Hq; rewrite <- E in Hq;
    set (q := v / M) in Hq; clearbody q; clear E
  end; unfold sgn; match goal with |- context [?b <? 128] => destruct (Z.ltb_spec b 128) end; lia.

(** Reading a field whose bytes are the digits of [v]. *)
Lemma get_field_word k p si v : inside p si (width k) -> fits k v ->
  region p si (width k) = word k v -> get_field k p si = Ok v.
Proof.
  intros Hin Hv Hreg.
  destruct k; unfold word in Hreg; cbn [width] in Hin, Hreg;
    cbv [Z.to_nat Pos.to_nat Pos.iter_op Nat.add] in Hreg; cbn [le_digits] in Hreg;
    cbn [get_field fits] in *;
    unfold GetByte, GetInt8, GetUInt8, GetInt16, GetUInt16, GetInt32, GetUInt32, GetInt64, GetUInt64.
  - rd Hin Hreg. apply Ok_eq. now apply Z.mod_small.
  - rd Hin Hreg. apply Ok_eq. unfold i8. lia.
  - rd Hin Hreg. apply Ok_eq. unfold u8. lia.
  - rd Hin Hreg. apply Ok_eq. digs 2%nat v.
    rewrite i16_8 by lia. lor_add. fin_s (2 ^ 16).
  - rd Hin Hreg. apply Ok_eq. digs 2%nat v.
    unfold u16. rewrite !wide_small by lia. lor_add. fin_u.
  - rd Hin Hreg. apply Ok_eq. digs 4%nat v.
    rewrite i32_24 by lia. rewrite !i32_small_sh by lia. lor_add. fin_s (2 ^ 32).
  - rd Hin Hreg. apply Ok_eq. digs 4%nat v.
    unfold u32. rewrite !wide_small by lia. lor_add. fin_u.
  - rd Hin Hreg. apply Ok_eq. digs 8%nat v.
    rewrite i64_56 by lia. rewrite !i64_small_sh by lia. lor_add. fin_s (2 ^ 64).
  - rd Hin Hreg. apply Ok_eq. digs 8%nat v.
    unfold u64. rewrite !wide_small by lia. lor_add. fin_u.
Qed.
