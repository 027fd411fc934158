(** C123: slices reinterpreted as slices of another element type. *)
From Coq Require Import ZifyBool ZifyNat.
From Verif Require Import Go GoFacts BinSpec BinProofs ConvModel ConvSpec.

Lemma factor_size e : factor e = Z.of_nat (size e).
Proof. destruct e; reflexivity. Qed.
Lemma size_pos e : (0 < size e)%nat.
Proof. destruct e; cbn; lia. Qed.
Lemma load_length m a n : length (load m a n) = n.
Proof. unfold load. now rewrite map_length, seq_length. Qed.
Lemma load_app m a n k : load m a (n + k) = load m a n ++ load m (a + Z.of_nat n) k.
Proof.
  unfold load. rewrite seq_app, map_app. f_equal. cbn [Nat.add]. rewrite <- (Nat.add_0_r n) at 1. generalize 0%nat as j. 
  induction k as [|k IH]; intros j; [reflexivity|]. cbn [seq map]. f_equal; [f_equal; lia|]. specialize (IH (S j)). rewrite Nat.add_succ_r in IH. exact IH.
Qed.
Lemma load_wf m a n : bytes_everywhere m -> wf_bytes (load m a n).
Proof. intros B. unfold wf_bytes, load. rewrite Forall_map. apply Forall_forall. intros i _. apply B. Qed.
Lemma i64_fits x : 0 <= x < 2 ^ 63 -> i64 x = x.
Proof. intros. apply i64_small. lia. Qed.
Lemma to_fits e h : valid e h -> ToByteSlice e h = Header (data h) (len h * Z.of_nat (size e)) (cap h * Z.of_nat (size e)).
Proof.
  intros (A & B). unfold ToByteSlice. rewrite factor_size. pose proof (size_pos e). rewrite !i64_fits by nia. reflexivity.
Qed.
Lemma contents_elements e m a (n : nat) c : bytes_everywhere m ->
  load m a (n * size e) = concat (map (le_digits (size e)) (elements e m (Header a (Z.of_nat n) c))).
Proof.
  intros B. unfold elements. cbn [len]. rewrite Nat2Z.id. rewrite map_map.
  assert (G : forall k j, load m (a + Z.of_nat (j * size e)) (k * size e) = concat (map (fun i => le_digits (size e) (get e m (Header a (Z.of_nat n) c) (Z.of_nat i))) (seq j k))).
  { induction k as [|k IH]; intros j; [reflexivity|]. cbn [seq map concat]. replace (S k * size e)%nat with (size e + k * size e)%nat by lia.
    rewrite load_app. f_equal.
    - unfold get. cbn [data]. replace (Z.of_nat j * Z.of_nat (size e)) with (Z.of_nat (j * size e)) by lia.
      set (l := load m (a + Z.of_nat (j * size e)) (size e)). assert (L : length l = size e) by apply load_length.
      rewrite <- L. symmetry. apply le_digits_value. now apply load_wf.
    - rewrite <- IH. f_equal. lia. }
  specialize (G n 0%nat). cbn [Nat.mul Z.of_nat] in G. rewrite Z.add_0_r in G. exact G.
Qed.
(** C123.  The bytes of a slice are its elements one after the other, lowest byte first, and the byte
    slice covers exactly the same memory. *)
Theorem C123_to_bytes : forall e m h, bytes_everywhere m -> valid e h -> let b := ToByteSlice e h in
  contents m b = concat (map (le_digits (size e)) (elements e m h)) /\
  data b = data h /\ len b = len h * Z.of_nat (size e) /\ cap b = cap h * Z.of_nat (size e).
Proof.
  intros e m h B V b. unfold b. rewrite to_fits by auto. cbn [data len cap]. split; [|auto]. destruct h as [a n c]. destruct V as (V & _). cbn [data len cap] in *.
  unfold contents. cbn [data len]. replace (Z.to_nat (n * Z.of_nat (size e))) with (Z.to_nat n * size e)%nat by lia.
  rewrite (contents_elements e m a (Z.to_nat n) c) by auto. rewrite Z2Nat.id by lia. reflexivity.
Qed.
Print Assumptions C123_to_bytes.
(** The elements of a byte slice are its whole groups of bytes; it never reaches past the bytes given, and
    what it leaves out is less than one element. *)
Theorem C123_from_bytes : forall e m h, bytes_everywhere m -> 0 <= len h <= cap h -> let s := FromByteSlice e h in
  concat (map (le_digits (size e)) (elements e m s)) = firstn (Z.to_nat (len s) * size e) (contents m h) /\
  data s = data h /\ 0 <= len s <= cap s /\ 0 <= len h - len s * Z.of_nat (size e) < Z.of_nat (size e) /\
  0 <= cap h - cap s * Z.of_nat (size e) < Z.of_nat (size e).
Proof.
  intros e m h B V s. pose proof (size_pos e) as P. unfold s, FromByteSlice. rewrite factor_size. cbn [data len cap].
  rewrite !Z.quot_div_nonneg by lia. set (w := Z.of_nat (size e)) in *. assert (W : 0 < w) by lia.
  pose proof (Z.div_mod (len h) w ltac:(lia)). pose proof (Z.mod_pos_bound (len h) w W).
  pose proof (Z.div_mod (cap h) w ltac:(lia)). pose proof (Z.mod_pos_bound (cap h) w W).
  assert (0 <= len h / w) by (apply Z.div_pos; lia). assert (len h / w <= cap h / w) by (apply Z.div_le_mono; lia).
  split; [|repeat split; try lia; nia].
  pose proof (contents_elements e m (data h) (Z.to_nat (len h / w)) (cap h / w) B) as K. rewrite Z2Nat.id in K by lia. rewrite <- K.
  unfold contents. replace (Z.to_nat (len h)) with (Z.to_nat (len h / w) * size e + Z.to_nat (len h mod w))%nat by nia.
  rewrite load_app, firstn_app, load_length, Nat.sub_diag. cbn [firstn]. rewrite app_nil_r. symmetry. apply firstn_all2. rewrite load_length. lia.
Qed.
Print Assumptions C123_from_bytes.
(** There and back is the same slice; *)
Theorem C123_round_trip : forall e h, valid e h -> FromByteSlice e (ToByteSlice e h) = h.
Proof.
  intros e h V. rewrite to_fits by auto. unfold FromByteSlice. cbn [data len cap]. rewrite factor_size. pose proof (size_pos e).
  rewrite !Z.quot_mul by lia. now destruct h.
Qed.
Print Assumptions C123_round_trip.
(** from bytes and back it is the same exactly when length and capacity are whole numbers of elements:
    otherwise trailing bytes are cut off, silently. *)
Theorem C123_truncates_refuted : forall e h, valid UInt8 h ->
  (ToByteSlice e (FromByteSlice e h) = h <-> len h mod Z.of_nat (size e) = 0 /\ cap h mod Z.of_nat (size e) = 0) /\
  0 <= len h - len (ToByteSlice e (FromByteSlice e h)) < Z.of_nat (size e).
Proof.
  intros e h (A & B). change (Z.of_nat (size UInt8)) with 1 in B. pose proof (size_pos e) as P. set (w := Z.of_nat (size e)) in *. assert (W : 0 < w) by lia.
  pose proof (Z.div_mod (len h) w ltac:(lia)). pose proof (Z.mod_pos_bound (len h) w W).
  pose proof (Z.div_mod (cap h) w ltac:(lia)). pose proof (Z.mod_pos_bound (cap h) w W).
  assert (0 <= len h / w) by (apply Z.div_pos; lia). assert (0 <= cap h / w) by (apply Z.div_pos; lia).
  unfold FromByteSlice, ToByteSlice. cbn [data len cap]. rewrite factor_size. fold w. rewrite !Z.quot_div_nonneg by lia.
  rewrite !i64_fits by nia. split; [|nia]. destruct h as [a n c]. cbn [data len cap] in *. split.
  - intros E. pose proof (f_equal len E) as E1. pose proof (f_equal cap E) as E2. cbn [len cap] in E1, E2. split; nia.
  - intros (E1 & E2). f_equal; nia.
Qed.
Print Assumptions C123_truncates_refuted.

Lemma store_in m a l i : (i < length l)%nat -> store m a l (a + Z.of_nat i) = nth i l 0.
Proof. intros H. unfold store, zlen. replace ((a <=? a + Z.of_nat i) && (a + Z.of_nat i <? a + Z.of_nat (length l))) with true by lia. f_equal. lia. Qed.
Lemma store_out m a l x : x < a \/ a + zlen l <= x -> store m a l x = m x.
Proof. intros H. unfold store. replace ((a <=? x) && (x <? a + zlen l)) with false by lia. reflexivity. Qed.
Lemma le_len n v : length (le_digits n v) = n.
Proof. revert v; induction n as [|n IH]; intros v; cbn; auto. Qed.
(** Both slices are the same memory: assigning an element through one changes exactly its bytes in the
    other, and no other byte or element. *)
Theorem C123_alias : forall e m h i v, valid e h -> 0 <= i < len h -> 0 <= v < 256 ^ Z.of_nat (size e) ->
  let m' := set e m h i v in
  get e m' h i = v /\ (forall j, 0 <= j < len h -> j <> i -> get e m' h j = get e m h j) /\
  load m' (data h + i * Z.of_nat (size e)) (size e) = le_digits (size e) v /\
  (forall k, k < i * Z.of_nat (size e) \/ (i + 1) * Z.of_nat (size e) <= k -> m' (data h + k) = m (data h + k)).
Proof.
  intros e m h i v V I Hv m'. pose proof (size_pos e) as P. set (w := Z.of_nat (size e)) in *.
  assert (Z0 : zlen (le_digits (size e) v) = w) by (unfold zlen; now rewrite le_len).
  assert (L : load m' (data h + i * w) (size e) = le_digits (size e) v).
  { unfold load, m', set. fold w. assert (K : size e = length (le_digits (size e) v)) by now rewrite le_len. set (l := le_digits (size e) v) in *. clearbody l. rewrite K. clear.
    set (a := data h + i * w). clearbody a.
    assert (G : forall q pre, map (fun i => store m a (pre ++ q) (a + Z.of_nat i)) (seq (length pre) (length q)) = q).
    { induction q as [|x q IH]; intros pre; [reflexivity|]. cbn [seq length map]. f_equal.
      - rewrite store_in by (rewrite app_length; cbn; lia). rewrite app_nth2 by lia. now rewrite Nat.sub_diag.
      - specialize (IH (pre ++ [x])). rewrite app_length in IH. cbn [length] in IH. rewrite Nat.add_1_r in IH. rewrite <- app_assoc in IH. exact IH. }
    exact (G l []). }
  split; [|split; [|split]].
  - unfold get. fold w. rewrite L. now apply le_value_digits.
  - intros j Hj N. unfold get. fold w. f_equal. unfold load. apply map_ext_in. intros k Hk. apply in_seq in Hk.
    unfold m', set. fold w. apply store_out. rewrite Z0. nia.
  - exact L.
  - intros k Hk. unfold m', set. fold w. apply store_out. rewrite Z0. nia.
Qed.
Print Assumptions C123_alias.
(** Strings: the bytes are the same, there and back, and a byte slice made of a string has no room to
    append in place. *)
Theorem C123_strings : forall m s h, 0 <= slen s ->
  contents m (StringToByteSlice s) = text m s /\ text m (ByteSliceToString h) = contents m h /\
  ByteSliceToString (StringToByteSlice s) = s /\ cap (StringToByteSlice s) = len (StringToByteSlice s) /\
  (StringToByteSlice (ByteSliceToString h) = h <-> cap h = len h).
Proof.
  intros m s h H. repeat split; try reflexivity.
  - now destruct s.
  - intros E. pose proof (f_equal cap E) as E1. cbn in E1. congruence.
  - intros E. destruct h as [a n c]. cbn in *. now subst.
Qed.
Print Assumptions C123_strings.
(** But such a string is not immutable: writing to the slice it came from changes it. *)
Theorem C123_string_refuted : forall m h i v, 0 <= i < len h -> is_byte v -> m (data h + i) <> v ->
  let m' := set UInt8 m h i v in text m' (ByteSliceToString h) <> text m (ByteSliceToString h).
Proof.
  intros m h i v I V N m' E. apply N. unfold text, ByteSliceToString in E. cbn [sdata slen] in E. unfold load in E.
  assert (X : nth (Z.to_nat i) (map (fun i => m' (data h + Z.of_nat i)) (seq 0 (Z.to_nat (len h)))) (m' (data h + Z.of_nat 0)) = m' (data h + i)).
  { rewrite (map_nth (fun i => m' (data h + Z.of_nat i))). rewrite seq_nth by lia. f_equal. lia. }
  assert (Y : nth (Z.to_nat i) (map (fun i => m (data h + Z.of_nat i)) (seq 0 (Z.to_nat (len h)))) (m (data h + Z.of_nat 0)) = m (data h + i)).
  { rewrite (map_nth (fun i => m (data h + Z.of_nat i))). rewrite seq_nth by lia. f_equal. lia. }
  rewrite (nth_indep _ _ (m (data h + Z.of_nat 0))) in X by (rewrite map_length, seq_length; lia).
  rewrite E in X. rewrite Y in X. rewrite X. unfold m', set. change (Z.of_nat (size UInt8)) with 1.
  replace (data h + i * 1) with (data h + i) by lia. unfold store. change (le_digits (size UInt8) v) with [v mod 256].
  change (zlen [v mod 256]) with 1. replace ((data h + i <=? data h + i) && (data h + i <? data h + i + 1)) with true by lia.
  rewrite Z.sub_diag. cbn. unfold is_byte in V. apply Z.mod_small. lia.
Qed.
Print Assumptions C123_string_refuted.
Example C123_case : let m := fun a => (a * 7) mod 256 in let h := Header 100 5 7 in
  valid UInt8 h /\ FromByteSlice UInt16 h = Header 100 2 3 /\ ToByteSlice UInt16 (FromByteSlice UInt16 h) = Header 100 4 6 /\
  elements UInt16 m (FromByteSlice UInt16 h) = [188 + 256 * 195; 202 + 256 * 209] /\
  contents m h = [188; 195; 202; 209; 216] /\ valid Int32 (Header 0 3 4) /\ ToByteSlice Int32 (Header 0 3 4) = Header 0 12 16.
Proof. unfold valid. repeat split; try reflexivity; vm_compute; congruence. Qed.
