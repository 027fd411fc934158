(** C34: what is left in the buffer of an established stream after segments that arrive in order, of any lengths. *)
From Coq Require Import ZifyBool ZifyNat.
From Verif Require Import Go GoFacts NetModel NetSpec NetProofs NetTheorems TcpModel TcpSpec TcpProofs TcpTheorems.

Definition total (gs : list bytes) : Z := zlen (concat (map payload gs)).
Lemma total_cons g gs : total (g :: gs) = zlen (payload g) + total gs.
Proof. unfold total. cbn [map concat]. apply zlen_app. Qed.

(** Once the expected number is behind by one byte or more, each segment is put [k] bytes in, after the ones before it. *)
Lemma behind gs : forall s k pre post n, st s = Established -> 0 <= next s < 2 ^ 32 -> rbuf s = pre ++ post -> zlen pre = k -> 0 < k ->
  k + total gs < 2 ^ 32 -> n = (next s + k) mod 2 ^ 32 -> consecutive n gs ->
  exists q, receive_all s gs = Ok q /\ st q = Established /\ next q = next s /\ rbuf q = pre ++ concat (map payload gs) ++ post.
Proof.
  induction gs as [|g gs IH]; intros s k pre post n Es Hn B Hk K T N C.
  - exists s. cbn. auto.
  - cbn [consecutive] in C. destruct C as (W & Sn & C). rewrite total_cons in T. assert (T0 : 0 <= total gs) by apply zlen_nonneg.
    pose proof (zlen_nonneg (payload g)) as P0.
    assert (D : u32 (seq_no g - next s) = k).
    { rewrite Sn, N. unfold u32. rewrite Zminus_mod_idemp_l. replace (next s + k - next s) with k by lia. apply Z.mod_small. lia. }
    cbn [receive_all]. rewrite est_other; [|exact W|exact Es|intros E; rewrite E, Z.sub_diag in D; change (u32 0) with 0 in D; lia].
    rewrite D. unfold insert. rewrite B, zlen_app. pose proof (zlen_nonneg post).
    replace ((0 <=? k) && (k <=? zlen pre + zlen post)) with true by lia. cbn [bind fst].
    assert (F : firstn (Z.to_nat k) (pre ++ post) = pre /\ skipn (Z.to_nat k) (pre ++ post) = post).
    { replace (Z.to_nat k) with (length pre) by (unfold zlen in Hk; lia). split; [rewrite firstn_app, Nat.sub_diag, firstn_all; apply app_nil_r|].
      rewrite skipn_app, Nat.sub_diag, skipn_all. reflexivity. }
    destruct F as [F1 F2]. rewrite F1, F2.
    destruct (IH (Stream Established (next s) (pre ++ payload g ++ post) (woken s)) (k + zlen (payload g)) (pre ++ payload g) post
                 ((n + zlen (payload g)) mod 2 ^ 32) eq_refl Hn) as (q & Eq & Sq & Nq & Bq); cbn [next rbuf].
    + now rewrite <- app_assoc.
    + rewrite zlen_app. lia.
    + lia.
    + lia.
    + rewrite N, Zplus_mod_idemp_l. f_equal. lia.
    + exact C.
    + exists q. split; [exact Eq|]. split; [exact Sq|]. split; [exact Nq|]. rewrite Bq. cbn [map concat]. rewrite <- !app_assoc. reflexivity.
Qed.

(** C34.  Segments in order: any number of one byte each, then one of two bytes or more, then any others.  All that follows the
    longer segment is put, in its own order, as many bytes into the buffer as that segment has bytes less one, whatever the buffer held. *)
Theorem C34_in_order_exact : forall s ones g gs, st s = Established -> 0 <= next s < 2 ^ 32 ->
  consecutive (next s) (ones ++ g :: gs) -> Forall (fun g => zlen (payload g) = 1) ones -> 2 <= zlen (payload g) -> total (g :: gs) < 2 ^ 32 ->
  let before := rbuf s ++ concat (map payload ones) ++ payload g in
  let k := Z.to_nat (zlen (payload g) - 1) in
  exists q, receive_all s (ones ++ g :: gs) = Ok q /\ st q = Established /\
    rbuf q = firstn k before ++ concat (map payload gs) ++ skipn k before.
Proof.
  intros s ones. revert s. induction ones as [|o ones IH]; intros s g gs Es Hn C F L T before k.
  - cbn [app] in *. cbn [consecutive] in C. destruct C as (W & Sn & C). cbn [receive_all]. rewrite est_in_order by auto. cbn [bind fst].
    unfold before. cbn [map concat app]. rewrite total_cons in T. assert (T0 : 0 <= total gs) by apply zlen_nonneg.
    set (s1 := Stream _ _ _ _).
    destruct (behind gs s1 (zlen (payload g) - 1) (firstn k (rbuf s ++ payload g)) (skipn k (rbuf s ++ payload g)) ((next s + zlen (payload g)) mod 2 ^ 32))
      as (q & Eq & Sq & _ & Bq).
    + reflexivity.
    + unfold s1, u32; cbn [next]. apply Z.mod_pos_bound. lia.
    + unfold s1; cbn [rbuf]. now rewrite firstn_skipn.
    + unfold k. unfold zlen. rewrite firstn_length_le; [unfold zlen in *; lia|]. rewrite app_length. unfold zlen in L |- *. lia.
    + lia.
    + lia.
    + unfold s1, u32; cbn [next]. rewrite Zplus_mod_idemp_l. f_equal. lia.
    + exact C.
    + exists q. auto.
  - cbn [app] in *. cbn [consecutive] in C. destruct C as (W & Sn & C). inversion F as [|? ? F1 F2]; subst.
    cbn [receive_all]. rewrite est_in_order by auto. cbn [bind fst]. rewrite F1 in C.
    set (s1 := Stream _ _ _ _).
    destruct (IH s1 g gs eq_refl) as (q & Eq & Sq & Bq).
    + unfold s1, u32; cbn [next]. apply Z.mod_pos_bound. lia.
    + exact C.
    + exact F2.
    + exact L.
    + exact T.
    + exists q. split; [exact Eq|]. split; [exact Sq|]. rewrite Bq. unfold s1, before, k; cbn [rbuf map concat]. now rewrite <- !app_assoc.
Qed.
Print Assumptions C34_in_order_exact.
(** So on a new buffer the last byte of the first longer segment comes after all the data that follows, however much. *)
Theorem C34_last_byte_refuted : forall s g gs p b, st s = Established -> 0 <= next s < 2 ^ 32 -> rbuf s = [] ->
  consecutive (next s) (g :: gs) -> payload g = p ++ [b] -> p <> [] -> total (g :: gs) < 2 ^ 32 ->
  exists q, receive_all s (g :: gs) = Ok q /\ rbuf q = p ++ concat (map payload gs) ++ [b].
Proof.
  intros s g gs p b Es Hn B C P NE T.
  assert (L : zlen (payload g) = zlen p + 1) by (rewrite P, zlen_app; reflexivity).
  assert (0 < zlen p) by (destruct p; [congruence|rewrite zlen_cons; pose proof (zlen_nonneg p); lia]).
  destruct (C34_in_order_exact s [] g gs Es Hn C (Forall_nil _) ltac:(lia) T) as (q & E & _ & R). exists q. split; [exact E|].
  rewrite R, B, P. cbn [map concat app]. rewrite P in L. rewrite L. replace (Z.to_nat (zlen p + 1 - 1)) with (length p) by (unfold zlen; lia).
  rewrite firstn_app, Nat.sub_diag, firstn_all, app_nil_r. rewrite skipn_app, Nat.sub_diag, skipn_all. reflexivity.
Qed.
Print Assumptions C34_last_byte_refuted.
(** A segment without data, as every bare acknowledgement is, makes the stream lose the data of the segment after it. *)
Theorem C34_acknowledgement_refuted : forall s g1 g2, st s = Established -> 0 <= next s < 2 ^ 32 -> zlen (rbuf s) < 2 ^ 32 - 1 ->
  consecutive (next s) [g1; g2] -> payload g1 = [] ->
  exists q, receive_all s [g1; g2] = Ok q /\ st q = Established /\ rbuf q = rbuf s.
Proof.
  intros s g1 g2 Es Hn Hb (W1 & S1 & W2 & S2 & _) P. cbn [receive_all]. rewrite est_in_order by auto. cbn [bind fst]. rewrite P, app_nil_r.
  rewrite P in S2. change (zlen (@nil Z)) with 0 in S2. rewrite Z.add_0_r, Z.mod_small in S2 by lia.
  assert (D : u32 (seq_no g2 - u32 (next s + 1)) = 2 ^ 32 - 1).
  { rewrite S2. unfold u32. rewrite Zminus_mod_idemp_r. replace (next s - (next s + 1)) with (2 ^ 32 - 1 + (-1) * 2 ^ 32) by lia.
    rewrite Z_mod_plus_full. apply Z.mod_small. lia. }
  rewrite est_other; [|exact W2|reflexivity|cbn [next]; intros E; rewrite E, Z.sub_diag in D; change (u32 0) with 0 in D; lia].
  cbn [next rbuf]. rewrite D. unfold insert. replace ((0 <=? 2 ^ 32 - 1) && (2 ^ 32 - 1 <=? zlen (rbuf s))) with false by lia.
  cbn [bind fst]. eexists. split; [reflexivity|]. split; reflexivity.
Qed.
Print Assumptions C34_acknowledgement_refuted.
Example C34_order_case :
  receive_all (Stream Established 0 [] 0) [seg 0 16 [1]; seg 1 16 [2; 3; 4]; seg 4 16 [5; 6]; seg 6 16 [7]] = Ok (Stream Established 2 [1; 2; 5; 6; 7; 3; 4] 0) /\
  receive_all (Stream Established 0 [] 0) [seg 0 16 [1; 2]; seg 2 16 [3]; seg 3 16 [4]] = Ok (Stream Established 1 [1; 3; 4; 2] 0) /\
  receive_all (Stream Established 0 [] 0) [seg 0 16 []; seg 0 16 [9; 9]] = Ok (Stream Established 1 [] 0).
Proof. repeat split; vm_compute; reflexivity. Qed.
