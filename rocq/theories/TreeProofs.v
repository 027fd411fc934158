(** Lemmas for TreeTheorems.v. *)
From Coq Require Import ZifyBool ZifyNat Permutation Sorted.
From Verif Require Import Go GoFacts FileModel StrconvModel TreeModel TreeSpec JsonProofs.
From Verif Require WwwModel WwwSpec WwwProofs StringsProofs.

Scheme tree_mut := Induction for tree Sort Prop
  with forest_mut := Induction for forest Sort Prop.
Combined Scheme tree_forest from tree_mut, forest_mut.

Lemma entry_in {A} l n (v : A) : entry l n = Some v -> In (n, v) l.
Proof.
  induction l as [|[k w] r IH]; cbn; [discriminate|]. destruct (beq k n) eqn:B.
  - intros [= ->]. apply beq_eq in B. subst. now left.
  - auto.
Qed.
Lemma entry_at {A} l n (v : A) : NoDup (map fst l) -> In (n, v) l -> entry l n = Some v.
Proof.
  induction l as [|[k w] r IH]; cbn; intros N H; [easy|]. inversion N as [|? ? N1 N2]; subst. destruct H as [[= -> ->]|H].
  - now rewrite beq_refl.
  - destruct (beq k n) eqn:B; [|auto]. exfalso. apply beq_eq in B. subst. apply N1. apply in_map_iff. now exists (n, v).
Qed.
Lemma inside_inv fs ds p e : inside (Tree fs ds) p e -> (p = [] /\ e = Tree fs ds) \/ exists n d q, p = n :: q /\ sub_of n d ds /\ inside d q e.
Proof. intros H. inversion H; subst; [now left|right; eauto 6]. Qed.
Lemma inside_app t p e q x : inside t p e -> inside e q x -> inside t (p ++ q) x.
Proof. induction 1; cbn; auto. intros H1. econstructor; eauto. Qed.

(** ** files *)
Lemma found_both : (forall t n f, FindFileRecursively t n = Ok (Some f) -> holds t n f) /\
  (forall ds n f, find_in ds n = Ok (Some f) -> exists m d, sub_of m d ds /\ holds d n f).
Proof.
  apply tree_forest.
  - intros fs ds IH n f H. cbn [FindFileRecursively] in H. destruct (entry fs n) as [[g|]|] eqn:E.
    + injection H as ->. exists [], fs, ds. split; [constructor|now apply entry_in].
    + destruct (IH _ _ H) as (m & d & S & p & fs' & ds' & I & J). exists (m :: p), fs', ds'. split; auto. econstructor; eauto.
    + destruct (IH _ _ H) as (m & d & S & p & fs' & ds' & I & J). exists (m :: p), fs', ds'. split; auto. econstructor; eauto.
  - intros n f H. discriminate H.
  - intros k r IH n f H. discriminate H.
  - intros k d IHd r IHr n f H. cbn [find_in] in H. destruct (FindFileRecursively d n) as [[g|]|] eqn:E; cbn [bind] in H; try discriminate.
    + injection H as ->. exists k, d. split; [constructor|]. now apply IHd.
    + destruct (IHr _ _ H) as (m & e & S & J). exists m, e. split; [now constructor|auto].
Qed.
Lemma none_both : (forall t n, FindFileRecursively t n = Ok None ->
     (forall p fs ds f, inside t p (Tree fs ds) -> entry fs n <> Some (Some f)) /\ ~ some_closed t) /\
  (forall ds n, find_in ds n = Ok None -> (forall m, ~ closed_in m ds) /\ forall m d, sub_of m d ds ->
     (forall p fs ds f, inside d p (Tree fs ds) -> entry fs n <> Some (Some f)) /\ ~ some_closed d).
Proof.
  apply tree_forest.
  - intros fs ds IH n H. cbn [FindFileRecursively] in H.
    assert (K : find_in ds n = Ok None /\ forall f, entry fs n <> Some (Some f)) by (destruct (entry fs n) as [[g|]|]; [discriminate|split; [auto|discriminate]|split; [auto|discriminate]]).
    destruct K as [K1 K2]. destruct (IH _ K1) as [C D]. split.
    + intros p fs' ds' f I. destruct (inside_inv _ _ _ _ I) as [[-> [= -> ->]]|(m & d & q & -> & S & I2)]; auto. apply (D _ _ S) with (1 := I2).
    + intros (p & fs' & ds' & m & I & J). destruct (inside_inv _ _ _ _ I) as [[-> [= -> ->]]|(k & d & q & -> & S & I2)]; [now apply (C m)|].
      apply (proj2 (D _ _ S)). exists q, fs', ds', m. auto.
  - intros n _. split; [intros m H; inversion H|intros m d H; inversion H].
  - intros k r IH n H. discriminate H.
  - intros k d IHd r IHr n H. cbn [find_in] in H. destruct (FindFileRecursively d n) as [[g|]|] eqn:E; cbn [bind] in H; try discriminate.
    destruct (IHr _ H) as [C D]. split.
    + intros m X. inversion X; subst. eapply C; eauto.
    + intros m e X. inversion X; subst; [now apply IHd|]. eapply D; eauto.
Qed.
Lemma total_both : (forall t n, ~ some_closed t -> FindFileRecursively t n <> Panic) /\
  (forall ds n, (forall m, ~ closed_in m ds) -> (forall m d, sub_of m d ds -> ~ some_closed d) -> find_in ds n <> Panic).
Proof.
  apply tree_forest.
  - intros fs ds IH n H. cbn [FindFileRecursively].
    assert (K : find_in ds n <> Panic).
    { apply IH.
      - intros m X. apply H. exists [], fs, ds, m. split; [constructor|auto].
      - intros m d X (p & fs' & ds' & k & I & J). apply H. exists (m :: p), fs', ds', k. split; auto. econstructor; eauto. }
    destruct (entry fs n) as [[g|]|]; auto; discriminate.
  - intros n _ _. discriminate.
  - intros k r IH n H. exfalso. apply (H k). constructor.
  - intros k d IHd r IHr n H1 H2. cbn [find_in]. destruct (FindFileRecursively d n) as [[g|]|] eqn:E; cbn [bind]; try discriminate.
    + apply IHr; [intros m X; apply (H1 m); now constructor|intros m e X; apply (H2 m); now constructor].
    + exfalso. apply (IHd n); auto. apply (H2 k). constructor.
Qed.

(** ** directories *)
Lemma sub_entry_some ds n d : sub_entry ds n = Some (Some d) -> sub_of n d ds.
Proof.
  induction ds as [|k r IH|k e r IH]; cbn; [discriminate| |]; destruct (beq k n) eqn:B; intros H; try discriminate; try (constructor; auto; fail).
  injection H as ->. apply beq_eq in B. subst. constructor.
Qed.
Lemma sub_entry_closed ds n : sub_entry ds n = Some None -> closed_in n ds.
Proof.
  induction ds as [|k r IH|k e r IH]; cbn; [discriminate| |]; destruct (beq k n) eqn:B; intros H; try discriminate; try (constructor; auto; fail).
  apply beq_eq in B. subst. constructor.
Qed.
Lemma sub_entry_none ds n : sub_entry ds n = None -> ~ In n (sub_names ds).
Proof.
  induction ds as [|k r IH|k e r IH]; cbn; [auto| |]; destruct (beq k n) eqn:B; intros H; try discriminate; intros [X|X];
    try (apply IH; auto; fail); subst; rewrite beq_refl in B; discriminate.
Qed.
Lemma sub_name n d ds : sub_of n d ds -> In n (sub_names ds).
Proof. induction 1; cbn; auto. Qed.
Lemma dep_both : (forall t n e, GetDependencyRecursively t n = Ok (Some e) -> holds_dir t n e) /\
  (forall ds n e, dep_in ds n = Ok (Some e) -> exists m d, sub_of m d ds /\ holds_dir d n e).
Proof.
  apply tree_forest.
  - intros fs ds IH n e H. cbn [GetDependencyRecursively] in H. destruct (sub_entry ds n) as [x|] eqn:E.
    + injection H as ->. apply sub_entry_some in E. exists []. cbn. econstructor; eauto. constructor.
    + destruct (IH _ _ H) as (m & d & S & p & I). exists (m :: p). cbn. econstructor; eauto.
  - intros n f H. discriminate H.
  - intros k r IH n f H. discriminate H.
  - intros k d IHd r IHr n f H. cbn [dep_in] in H. destruct (GetDependencyRecursively d n) as [[g|]|] eqn:E; cbn [bind] in H; try discriminate.
    + injection H as ->. exists k, d. split; [constructor|]. now apply IHd.
    + destruct (IHr _ _ H) as (m & e & S & J). exists m, e. split; [now constructor|auto].
Qed.
Lemma dep_none_both : (forall t n, ~ some_closed t -> GetDependencyRecursively t n = Ok None -> forall e, ~ holds_dir t n e) /\
  (forall ds n, (forall m, ~ closed_in m ds) -> (forall m d, sub_of m d ds -> ~ some_closed d) -> dep_in ds n = Ok None -> forall m d e, sub_of m d ds -> ~ holds_dir d n e).
Proof.
  apply tree_forest.
  - intros fs ds IH n C H e. cbn [GetDependencyRecursively] in H.
    assert (C1 : forall m, ~ closed_in m ds) by (intros m X; apply C; exists [], fs, ds, m; split; [constructor|auto]).
    assert (C2 : forall m d, sub_of m d ds -> ~ some_closed d).
    { intros m d X (p & fs' & ds' & k & I & J). apply C. exists (m :: p), fs', ds', k. split; auto. econstructor; eauto. }
    destruct (sub_entry ds n) as [x|] eqn:E.
    { injection H as ->. exfalso. apply (C1 n). now apply sub_entry_closed. }
    intros (p & I). destruct (inside_inv _ _ _ _ I) as [[X _]|(m & d & q & X & S & I2)]; [now destruct p|].
    destruct p as [|a p]; cbn in X; injection X as -> X.
    + apply (sub_entry_none _ _ E). exact (sub_name _ _ _ S).
    + subst q. apply (IH n C1 C2 H _ _ e S). now exists p.
  - intros n _ _ _ m d e X. inversion X.
  - intros k r IH n C. exfalso. apply (C k). constructor.
  - intros k d IHd r IHr n C1 C2 H. cbn [dep_in] in H. destruct (GetDependencyRecursively d n) as [[g|]|] eqn:E; cbn [bind] in H; try discriminate.
    intros m x e X. inversion X; subst.
    + apply (IHd n); auto. eapply C2. constructor.
    + eapply (IHr n); eauto; [intros m0 Y; apply (C1 m0); now constructor|intros m0 e0 Y; apply (C2 m0); now constructor].
Qed.
Lemma dep_total_both : (forall t n, ~ some_closed t -> GetDependencyRecursively t n <> Panic) /\
  (forall ds n, (forall m, ~ closed_in m ds) -> (forall m d, sub_of m d ds -> ~ some_closed d) -> dep_in ds n <> Panic).
Proof.
  apply tree_forest.
  - intros fs ds IH n H. cbn [GetDependencyRecursively].
    assert (K : dep_in ds n <> Panic).
    { apply IH.
      - intros m X. apply H. exists [], fs, ds, m. split; [constructor|auto].
      - intros m d X (p & fs' & ds' & k & I & J). apply H. exists (m :: p), fs', ds', k. split; auto. econstructor; eauto. }
    destruct (sub_entry ds n) as [g|]; auto; discriminate.
  - intros n _ _. discriminate.
  - intros k r IH n H. exfalso. apply (H k). constructor.
  - intros k d IHd r IHr n H1 H2. cbn [dep_in]. destruct (GetDependencyRecursively d n) as [[g|]|] eqn:E; cbn [bind]; try discriminate.
    + apply IHr; [intros m X; apply (H1 m); now constructor|intros m e X; apply (H2 m); now constructor].
    + exfalso. apply (IHd n); auto. apply (H2 k). constructor.
Qed.

(** ** parts of names *)
Lemma Contains_iff s part : Contains s part = true <-> WwwSpec.occurs part s.
Proof.
  unfold Contains. destruct (WwwProofs.Index_cases part s) as [[N E]|(a & r & H & E)]; rewrite E.
  - split; [discriminate|intros X; easy].
  - split; [intros _; exists a, r; exact H|intros _; apply Z.leb_le; apply zlen_nonneg].
Qed.

(** ** sorting names *)
Lemma str_le_total a : forall b, str_le a b = true \/ str_le b a = true.
Proof.
  induction a as [|x a IH]; intros [|y b]; cbn; auto. destruct (Z.ltb_spec x y), (Z.ltb_spec y x); auto.
Qed.
Lemma str_le_trans a : forall b c, str_le a b = true -> str_le b c = true -> str_le a c = true.
Proof.
  induction a as [|x a IH]; intros [|y b] [|z c]; cbn; auto; try discriminate.
  destruct (Z.ltb_spec x y), (Z.ltb_spec y x), (Z.ltb_spec y z), (Z.ltb_spec z y), (Z.ltb_spec x z), (Z.ltb_spec z x); try lia; auto; try discriminate. apply IH.
Qed.
Lemma str_le_anti a : forall b, str_le a b = true -> str_le b a = true -> a = b.
Proof.
  induction a as [|x a IH]; intros [|y b]; cbn; auto; try discriminate.
  destruct (Z.ltb_spec x y), (Z.ltb_spec y x); try lia; auto; try discriminate. intros A B. rewrite (IH b) by auto. f_equal. lia.
Qed.
Definition leS (a b : bytes) : Prop := str_le a b = true.
Lemma insert_perm k l : Permutation (insert_key k l) (k :: l).
Proof.
  induction l as [|x r IH]; cbn; auto. destruct (str_le k x); auto. rewrite IH. constructor.
Qed.
Lemma insert_sorted k l : StronglySorted leS l -> StronglySorted leS (insert_key k l).
Proof.
  induction l as [|x r IH]; cbn; intros H; [repeat constructor|]. inversion H as [|? ? H1 H2]; subst. destruct (str_le k x) eqn:E.
  - constructor; auto. constructor; auto. eapply Forall_impl; [|exact H2]. intros y Y. unfold leS in *. eapply str_le_trans; eauto.
  - constructor; auto. rewrite Forall_forall in *. intros y Y. apply (Permutation_in _ (insert_perm k r)) in Y. destruct Y as [<-|Y]; auto.
    unfold leS. destruct (str_le_total k x) as [X|X]; congruence.
Qed.
Lemma sort_perm l : Permutation (sort_keys l) l.
Proof. induction l as [|k r IH]; cbn; auto. rewrite insert_perm. now constructor. Qed.
Lemma sort_sorted l : StronglySorted leS (sort_keys l).
Proof. induction l as [|k r IH]; cbn; [constructor|now apply insert_sorted]. Qed.
Lemma sorted_unique l : forall l', StronglySorted leS l -> StronglySorted leS l' -> Permutation l l' -> l = l'.
Proof.
  induction l as [|x r IH]; intros l' A B P.
  - apply Permutation_nil in P. auto.
  - destruct l' as [|y r']; [apply Permutation_sym, Permutation_nil in P; discriminate|].
    inversion A as [|? ? A1 A2]; inversion B as [|? ? B1 B2]; subst.
    assert (x = y). { rewrite Forall_forall in *. assert (X : In x (y :: r')) by (apply (Permutation_in _ P); now left).
      assert (Y : In y (x :: r)) by (apply (Permutation_in _ (Permutation_sym P)); now left).
      destruct X as [->|X]; auto. destruct Y as [->|Y]; auto. apply str_le_anti; [now apply A2|now apply B2]. }
    subst y. f_equal. apply IH; auto. now apply Permutation_cons_inv in P.
Qed.

(** ** the checksum *)
Lemma lxor_range a b k : 0 <= k -> 0 <= a < 2 ^ k -> 0 <= b < 2 ^ k -> 0 <= Z.lxor a b < 2 ^ k.
Proof.
  intros Hk Ha Hb. split; [now apply Z.lxor_nonneg|].
  destruct (Z.eq_dec (Z.lxor a b) 0) as [->|N]; [apply Z.pow_pos_nonneg; lia|].
  apply Z.log2_lt_cancel. rewrite Z.log2_pow2 by auto. eapply Z.le_lt_trans; [apply Z.log2_lxor; lia|].
  destruct (Z.eq_dec a 0) as [->|Na]; destruct (Z.eq_dec b 0) as [->|Nb].
  - now rewrite Z.lxor_0_l in N.
  - rewrite Z.max_r by (pose proof (Z.log2_nonneg b); cbn; lia). apply Z.log2_lt_pow2; lia.
  - rewrite Z.max_l by (pose proof (Z.log2_nonneg a); cbn; lia). apply Z.log2_lt_pow2; lia.
  - apply Z.max_lub_lt; apply Z.log2_lt_pow2; lia.
Qed.
Lemma lxor_inj a b c : Z.lxor a c = Z.lxor b c -> a = b.
Proof. intros H. rewrite <- (Z.lxor_0_r a), <- (Z.lxor_0_r b), <- (Z.lxor_nilpotent c), <- !Z.lxor_assoc. now rewrite H. Qed.
Lemma high_bit a : 0 <= a < 2 ^ 31 -> Z.testbit a 31 = false.
Proof. intros H. destruct (Z.eq_dec a 0) as [->|]; [apply Z.bits_0|]. apply Z.bits_above_log2; [lia|]. apply Z.log2_lt_pow2; lia. Qed.
Lemma half s : s = 2 * (s / 2) + Z.b2z (Z.odd s).
Proof. rewrite <- Z.div2_div. apply Z.div2_odd. Qed.
Lemma half_range s : 0 <= s < 2 ^ 32 -> 0 <= s / 2 < 2 ^ 31.
Proof. intros H. split; [apply Z.div_pos; lia|apply Z.div_lt_upper_bound; lia]. Qed.
Lemma bit_range s : 0 <= s < 2 ^ 32 -> 0 <= crc_bit s < 2 ^ 32.
Proof. intros H. pose proof (half_range s H). unfold crc_bit. destruct (Z.odd s); [apply lxor_range; lia|lia]. Qed.
Lemma bit_top s : 0 <= s < 2 ^ 32 -> Z.testbit (crc_bit s) 31 = Z.odd s.
Proof.
  intros H. pose proof (half_range s H). unfold crc_bit. destruct (Z.odd s).
  - rewrite Z.lxor_spec, high_bit by auto. reflexivity.
  - now apply high_bit.
Qed.
Lemma bit_inj s t : 0 <= s < 2 ^ 32 -> 0 <= t < 2 ^ 32 -> crc_bit s = crc_bit t -> s = t.
Proof.
  intros Hs Ht E. assert (P : Z.odd s = Z.odd t) by (rewrite <- (bit_top s), <- (bit_top t) by auto; now rewrite E).
  rewrite (half s), (half t), P. do 2 f_equal. unfold crc_bit in E. rewrite P in E. destruct (Z.odd t); [now apply lxor_inj in E|auto].
Qed.
Lemma iter_S n s : Nat.iter (S n) crc_bit s = crc_bit (Nat.iter n crc_bit s).
Proof. reflexivity. Qed.
Lemma iter_range n : forall s, 0 <= s < 2 ^ 32 -> 0 <= Nat.iter n crc_bit s < 2 ^ 32.
Proof. induction n as [|n IH]; intros s H; cbn [Nat.iter nat_rect]; auto. apply bit_range. now apply IH. Qed.
Lemma iter_inj n : forall s t, 0 <= s < 2 ^ 32 -> 0 <= t < 2 ^ 32 -> Nat.iter n crc_bit s = Nat.iter n crc_bit t -> s = t.
Proof.
  induction n as [|n IH]; intros s t Hs Ht E; cbn [Nat.iter nat_rect] in E; auto. apply IH; auto. apply bit_inj; auto; now apply iter_range.
Qed.
(** what comes in at the top is not touched before it is shifted down *)
Lemma bit_shift s y : crc_bit (Z.lxor s (y * 2)) = Z.lxor (crc_bit s) y.
Proof.
  unfold crc_bit. assert (O : Z.odd (Z.lxor s (y * 2)) = Z.odd s).
  { rewrite <- !Z.bit0_odd, Z.lxor_spec. rewrite (Z.bit0_odd (y * 2)), Z.odd_mul. cbn [Z.odd]. now rewrite andb_false_r, xorb_false_r. }
  assert (D : Z.lxor s (y * 2) / 2 = Z.lxor (s / 2) y).
  { rewrite <- !Z.div2_div, !Z.div2_spec. rewrite Z.shiftr_lxor. f_equal. rewrite Z.shiftr_div_pow2 by lia. apply Z.div_mul. lia. }
  rewrite O, D. destruct (Z.odd s); auto. rewrite !Z.lxor_assoc. f_equal. apply Z.lxor_comm.
Qed.
Lemma iter_shift n : forall s y, Nat.iter n crc_bit (Z.lxor s (y * 2 ^ Z.of_nat n)) = Z.lxor (Nat.iter n crc_bit s) y.
Proof.
  induction n as [|n IH]; intros s y; [change (2 ^ Z.of_nat 0) with 1; now rewrite Z.mul_1_r|]. rewrite !iter_S.
  replace (y * 2 ^ Z.of_nat (S n)) with (y * 2 * 2 ^ Z.of_nat n) by (rewrite Nat2Z.inj_succ, Z.pow_succ_r by lia; ring).
  rewrite IH. apply bit_shift.
Qed.
Fixpoint le (w : bytes) : Z := match w with [] => 0 | b :: r => Z.lxor b (le r * 2 ^ 8) end.
Lemma le_app w b : le (w ++ [b]) = Z.lxor (le w) (b * 2 ^ (8 * zlen w)).
Proof.
  induction w as [|x w IH]; cbn [app le]; [cbn [le]; change (zlen (@nil Z)) with 0; rewrite Z.mul_0_l, Z.lxor_0_r, Z.lxor_0_l; now rewrite Z.mul_1_r|].
  rewrite IH, zlen_cons. rewrite <- !Z.shiftl_mul_pow2 by (pose proof (zlen_nonneg w); lia). rewrite Z.shiftl_lxor, Z.shiftl_shiftl by (pose proof (zlen_nonneg w); lia).
  rewrite Z.lxor_assoc. do 3 f_equal. lia.
Qed.
Lemma iter_add a b s : Nat.iter a crc_bit (Nat.iter b crc_bit s) = Nat.iter (a + b) crc_bit s.
Proof. induction a as [|a IH]; [reflexivity|]. rewrite Nat.add_succ_l, !iter_S. now rewrite IH. Qed.
Lemma crc_word w : forall s, fold_left crc_byte w s = Nat.iter (8 * length w) crc_bit (Z.lxor s (le w)).
Proof.
  induction w as [|b w IH] using rev_ind; intros s; [cbn [fold_left length le]; now rewrite Z.lxor_0_r|].
  rewrite fold_left_app. cbn [fold_left]. rewrite IH. unfold crc_byte at 1. rewrite le_app.
  replace (8 * zlen w) with (Z.of_nat (8 * length w)) by (unfold zlen; lia). rewrite <- iter_shift, iter_add.
  rewrite app_length. cbn [length]. rewrite <- Z.lxor_assoc. f_equal. lia.
Qed.
Lemma low_bits b y : 0 <= b < 2 ^ 8 -> Z.lxor b (y * 2 ^ 8) = b + y * 2 ^ 8.
Proof.
  intros H. symmetry. apply Z.add_nocarry_lxor. apply Z.bits_inj'. intros i Hi. rewrite Z.land_spec, Z.bits_0. rewrite <- Z.shiftl_mul_pow2 by lia.
  rewrite Z.shiftl_spec by auto. destruct (Z.ltb_spec i 8).
  - rewrite (Z.testbit_neg_r y) by lia. apply andb_false_r.
  - destruct (Z.eq_dec b 0) as [->|N]; [now rewrite Z.bits_0|]. rewrite Z.bits_above_log2; [reflexivity|lia|].
    assert (Z.log2 b < 8) by (apply Z.log2_lt_pow2; lia). lia.
Qed.
Lemma le_range w : Forall (fun b => 0 <= b < 256) w -> 0 <= le w < 2 ^ (8 * zlen w).
Proof.
  induction 1 as [|b w Hb _ IH]; cbn [le]; [change (zlen (@nil Z)) with 0; lia|]. rewrite low_bits by lia.
  replace (8 * zlen (b :: w)) with (8 * zlen w + 8) by (rewrite zlen_cons; lia). rewrite Z.pow_add_r by (pose proof (zlen_nonneg w); lia). lia.
Qed.
Lemma le_inj w : forall v, length w = length v -> Forall (fun b => 0 <= b < 256) w -> Forall (fun b => 0 <= b < 256) v -> le w = le v -> w = v.
Proof.
  induction w as [|b w IH]; intros [|c v] L A B E; cbn in L; try discriminate; auto. inversion A; inversion B; subst. cbn [le] in E. rewrite !low_bits in E by lia.
  assert (b = c /\ le w = le v) as [-> K] by lia. f_equal. apply IH; auto.
Qed.
Lemma byte_range s b : 0 <= s < 2 ^ 32 -> 0 <= b < 256 -> 0 <= crc_byte s b < 2 ^ 32.
Proof. intros Hs Hb. unfold crc_byte. apply iter_range. apply lxor_range; lia. Qed.
Lemma fold_range w : Forall (fun b => 0 <= b < 256) w -> forall s, 0 <= s < 2 ^ 32 -> 0 <= fold_left crc_byte w s < 2 ^ 32.
Proof. induction 1; intros s Hs; cbn [fold_left]; auto. apply IHForall. now apply byte_range. Qed.
Lemma fold_inj w : Forall (fun b => 0 <= b < 256) w -> forall s t, 0 <= s < 2 ^ 32 -> 0 <= t < 2 ^ 32 -> fold_left crc_byte w s = fold_left crc_byte w t -> s = t.
Proof.
  induction 1 as [|b w Hb _ IH]; intros s t Hs Ht E; cbn [fold_left] in E; auto. apply IH in E; try (now apply byte_range). unfold crc_byte in E.
  apply iter_inj in E; try (apply lxor_range; lia). now apply lxor_inj in E.
Qed.
(** two texts that differ within four bytes have different checksums *)
Lemma crc_differs a w v c : Forall (fun b => 0 <= b < 256) (a ++ w ++ c) -> Forall (fun b => 0 <= b < 256) v -> length w = length v -> (length w <= 4)%nat -> w <> v ->
  ChecksumIEEE (a ++ w ++ c) <> ChecksumIEEE (a ++ v ++ c).
Proof.
  intros F Fv L L4 N E. apply Forall_app in F as [Fa F]. apply Forall_app in F as [Fw Fc]. unfold ChecksumIEEE in E. apply lxor_inj in E.
  rewrite !fold_left_app in E. assert (R : 0 <= fold_left crc_byte a 4294967295 < 2 ^ 32) by (apply fold_range; auto; lia). remember (fold_left crc_byte a 4294967295) as s0 eqn:Es. clear Es.
  apply fold_inj in E; auto; try (now apply fold_range). rewrite !crc_word, L in E.
  assert (P : forall u, Forall (fun b => 0 <= b < 256) u -> (length u <= 4)%nat -> 0 <= le u < 2 ^ 32).
  { intros u Fu Lu. pose proof (le_range u Fu). assert (2 ^ (8 * zlen u) <= 2 ^ 32) by (apply Z.pow_le_mono_r; unfold zlen; lia). lia. }
  apply iter_inj in E; try (apply lxor_range; try lia; try (apply P; auto; lia)).
  rewrite !(Z.lxor_comm s0) in E. apply lxor_inj in E. apply N. now apply le_inj.
Qed.
Lemma checksum_range l : Forall (fun b => 0 <= b < 256) l -> 0 <= ChecksumIEEE l < 2 ^ 32.
Proof. intros F. unfold ChecksumIEEE. apply lxor_range; try lia. apply fold_range; auto; lia. Qed.
Lemma format_inj n m : 0 <= n -> 0 <= m -> FormatUint10 n = FormatUint10 m -> n = m.
Proof. intros Hn Hm E. pose proof (parse_digits_format n Hn) as A. rewrite E, parse_digits_format in A by auto. now injection A. Qed.

(** ** paths of files *)
Lemma dir_path u0 u : names_file (path_ (FInit u0 u)) = false.
Proof.
  unfold FInit, filepath_Split. cbn [path_ Rename]. destruct (in_dec Z.eq_dec 47 u) as [I|I].
  - assert (G : exists b e, u = b ++ 47 :: e /\ ~ In 47 e).
    { clear -I. induction u as [|x n IH]; [destruct I|]. destruct (in_dec Z.eq_dec 47 n) as [J|J]; [destruct (IH J) as (b & e & -> & N); exists (x :: b), e; auto|].
      destruct I as [->|I]; [exists [], n; auto|contradiction]. }
    destruct G as (b & e & -> & N). rewrite StringsProofs.last_index_at by exact N. replace (b ++ 47 :: e) with ((b ++ [47]) ++ e) by (rewrite <- app_assoc; reflexivity).
    replace (Z.to_nat (zlen b + 1)) with (length (b ++ [47])) by (rewrite app_length; unfold zlen; cbn; lia). rewrite firstn_app, firstn_all, Nat.sub_diag. cbn [firstn].
    rewrite app_nil_r. unfold names_file. rewrite rev_app_distr. reflexivity.
  - rewrite StringsProofs.last_index_none by exact I. reflexivity.
Qed.
(** no call gives the file another directory, or another URI *)
Definition base (path : bytes) (f : dfile) : Prop := d_url f = [] /\ names_file (path_ (d_uri f)) = false.
Lemma base_step allowed path f d o : base path f -> exists f', fstep allowed (f, d) o = (f', d) /\ base path f'.
Proof.
  intros [A B]. destruct o as [x|x|x| |n]; cbn [fstep].
  - eexists. split; [reflexivity|]. split; assumption.
  - unfold Append. destruct (d_data f) as [b|]; [eexists; split; [reflexivity|split; assumption]|]. rewrite A. cbn. exists f. split; [reflexivity|split; assumption].
  - eexists. split; [reflexivity|]. unfold Prepend. destruct (d_data f); split; assumption.
  - unfold Save. destruct (d_data f); [unfold WriteFile; rewrite B; cbn [andb]|]; exists f; (split; [reflexivity|split; assumption]).
  - eexists. split; [reflexivity|]. split; assumption.
Qed.
Lemma base_steps allowed path l : forall f d, base path f -> exists f', fsteps allowed (f, d) l = (f', d) /\ base path f'.
Proof.
  induction l as [|o l IH]; intros f d H; cbn [fsteps fold_left]; [eauto|]. destruct (base_step allowed path f d o H) as (f1 & E & H1). rewrite E. apply IH; auto.
Qed.
Lemma nil_steps allowed path l : Forall not_unmarshal l -> forall f d, base path f -> d_data f = None -> exists f', fsteps allowed (f, d) l = (f', d) /\ base path f' /\ d_data f' = None.
Proof.
  induction 1 as [|o l Ho _ IH]; intros f d H N; cbn [fsteps fold_left]; [eauto|].
  assert (K : exists f1, fstep allowed (f, d) o = (f1, d) /\ base path f1 /\ d_data f1 = None).
  { destruct H as [A B]. destruct o as [x|x|x| |n]; cbn [fstep not_unmarshal] in *; [easy| | | |].
    - exists f. unfold Append. rewrite N, A. cbn. repeat split; auto.
    - exists f. unfold Prepend. rewrite N. repeat split; auto.
    - exists f. unfold Save. rewrite N. repeat split; auto.
    - eexists. split; [reflexivity|]. repeat split; auto. }
  destruct K as (f1 & E & H1 & N1). rewrite E. now apply IH.
Qed.
Lemma nil_reads path f d : base path f -> d_data f = None -> Marshal f d = None /\ Len f = 0.
Proof. intros [A B] N. unfold Marshal, Len, ReadFile. rewrite N, B. auto. Qed.
Lemma base_init path : base path (d_init path).
Proof. split; [reflexivity|apply dir_path]. Qed.
(** a text of five bytes the checksum does not see *)
Lemma bit_gen s : crc_bit (Z.lxor s 7976584769) = crc_bit s.
Proof.
  unfold crc_bit. assert (O : Z.odd (Z.lxor s 7976584769) = negb (Z.odd s)).
  { rewrite <- !Z.bit0_odd, Z.lxor_spec. change (Z.testbit 7976584769 0) with true. now destruct (Z.testbit s 0). }
  assert (D : Z.lxor s 7976584769 / 2 = Z.lxor (s / 2) 3988292384).
  { rewrite <- !Z.div2_div, !Z.div2_spec. now rewrite Z.shiftr_lxor. }
  rewrite O, D. destruct (Z.odd s); cbn [negb]; auto. rewrite Z.lxor_assoc, Z.lxor_nilpotent. apply Z.lxor_0_r.
Qed.
Lemma iter_gen n s : Nat.iter (S n) crc_bit (Z.lxor s 7976584769) = Nat.iter (S n) crc_bit s.
Proof. induction n as [|n IH]; [apply bit_gen|]. rewrite (iter_S (S n)), IH. reflexivity. Qed.
