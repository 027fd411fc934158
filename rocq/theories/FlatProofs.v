(** Proofs about the buffer. *)
From Coq Require Import ZifyBool ZifyNat.
From Verif Require Import Go GoFacts FlatModel FlatSpec.

Definition good (b : flat) : Prop := 0 <= off b /\ (off b = 0 \/ off b < zlen (buf b)) /\ (isnil b = true -> buf b = [] /\ spare b = []).

Lemma good_le b : good b -> off b <= zlen (buf b).
Proof. intros (? & ? & ?). pose proof (zlen_nonneg (buf b)). lia. Qed.

Lemma append_buf b p extra : buf (append b p extra) = buf b ++ p /\ off (append b p extra) = off b.
Proof. unfold append. destruct (_ <=? _); auto. Qed.

Lemma append_good b p extra : good b -> good (append b p extra).
Proof.
  intros (H1 & H2 & H3). destruct (append_buf b p extra) as [Eb Eo]. unfold good. rewrite Eb, Eo, zlen_app.
  pose proof (zlen_nonneg p). split; [lia|]. split; [lia|]. intros Hn.
  unfold append in *. destruct (_ <=? _) eqn:E; cbn [isnil buf spare] in *; [|discriminate].
  apply andb_true_iff in Hn as [Hn Hp]. destruct (H3 Hn) as [K1 K2].
  assert (p = []) by (destruct p; auto; rewrite zlen_cons in Hp; pose proof (zlen_nonneg p); lia).
  subst p. rewrite K1, K2. auto.
Qed.

Lemma read_nothing b p : off b <= zlen (buf b) -> 0 <= off b -> Read b p = Ok (0, p, b).
Proof.
  intros H H0. unfold Read. replace ((0 <? 0) || (zlen (buf b) - off b <? 0)) with false by lia.
  rewrite Z.add_0_r, slice_ok by (rewrite ?zlen_app; pose proof (zlen_nonneg (spare b)); lia).
  rewrite Z.sub_diag. cbn [bind]. change (Z.to_nat 0) with 0%nat. cbn [firstn].
  assert (O : overwrite p 0 [] = p).
  { unfold overwrite. cbn [firstn app length Nat.add skipn]. now rewrite firstn_nil. }
  rewrite O. now destruct b.
Qed.

Lemma grow_buf b n : good b -> good (Grow b n) /\ buf (Grow b n) = buf b /\ off (Grow b n) = off b.
Proof.
  intros (H1 & H2 & H3). unfold Grow. destruct (isnil b) eqn:N.
  - destruct (H3 eq_refl) as [K _]. unfold good; cbn [buf off isnil]. rewrite K in *. repeat split; auto; discriminate.
  - destruct (_ <=? _); unfold good; cbn [buf off isnil]; repeat split; auto; congruence.
Qed.

(** Invariant of a run: the buffer holds all that was written; what was handed out is what
    lies before the offset. *)
Lemma run_spec ops b out b' : good b -> run b ops = Ok (out, b') ->
  good b' /\ buf b' = buf b ++ written ops /\ off b <= off b' /\
  out = firstn (Z.to_nat (off b' - off b)) (skipn (Z.to_nat (off b)) (buf b')).
Proof.
  revert b out b'; induction ops as [|o r IH]; intros b out b' G E; cbn [run] in E.
  - inversion E; subst. cbn [written flat_map]. rewrite app_nil_r, Z.sub_diag. split; [exact G|]. split; [auto|]. split; [lia|auto].
  - destruct (run_op b o) as [[o1 b1]|] eqn:E1; [|discriminate]. cbn [bind] in E.
    destruct (run b1 r) as [[o2 b2]|] eqn:E2; [|discriminate]. cbn [bind] in E. inversion E; subst; clear E.
    assert (S1 : good b1 /\ buf b1 = buf b ++ op_writes o /\ off b <= off b1 /\
      o1 = firstn (Z.to_nat (off b1 - off b)) (skipn (Z.to_nat (off b)) (buf b1)) /\ off b1 <= zlen (buf b1)).
    { assert (S0 : good b1 /\ buf b1 = buf b ++ op_writes o /\ off b <= off b1 /\
      o1 = firstn (Z.to_nat (off b1 - off b)) (skipn (Z.to_nat (off b)) (buf b1))).
      { destruct o as [p extra|c extra|p| |n]; cbn [run_op op_writes] in *.
        - inversion E1; subst. unfold Write; cbn [snd]. destruct (append_buf b p extra) as [-> ->].
          rewrite Z.sub_diag. split; [now apply append_good|]. split; [auto|]. split; [lia|auto].
        - inversion E1; subst. unfold WriteByte. destruct (append_buf b [c] extra) as [-> ->].
          rewrite Z.sub_diag. split; [now apply append_good|]. split; [auto|]. split; [lia|auto].
        - rewrite read_nothing in E1 by (try apply good_le; auto; apply G). cbn [bind] in E1. inversion E1; subst.
          rewrite Z.sub_diag, app_nil_r. split; [exact G|]. split; [auto|]. split; [lia|auto].
        - destruct G as (H1 & H2 & H3). unfold ReadByte in E1. destruct (Z.ltb_spec 1 (zlen (buf b) - off b)).
          + destruct (idx_in_range (buf b) (off b) ltac:(lia)) as [c Hc]. rewrite Hc in E1. cbn [bind] in E1.
            unfold LenOfUnread in E1; cbn [buf off] in E1. replace (zlen (buf b) - (off b + 1) =? zlen (buf b) - off b) with false in E1 by lia.
            inversion E1; subst. cbn [buf off isnil]. apply idx_inv in Hc as [_ Hc].
            rewrite app_nil_r. split; [unfold good; cbn [buf off isnil]; repeat split; try lia; now apply H3|].
            split; [auto|]. split; [lia|].
            replace (off b + 1 - off b) with 1 by lia. change (Z.to_nat 1) with 1%nat.
            destruct (skipn (Z.to_nat (off b)) (buf b)) as [|x t] eqn:Es.
            * apply (f_equal (@length Z)) in Es. rewrite skipn_length in Es. cbn in Es. unfold zlen in *; lia.
            * cbn. f_equal. rewrite <- (firstn_skipn (Z.to_nat (off b)) (buf b)), Es in Hc.
              rewrite nth_error_app2 in Hc by (rewrite firstn_length; lia).
              rewrite firstn_length_le, Nat.sub_diag in Hc by (unfold zlen in *; lia). cbn in Hc. congruence.
          + cbn [bind] in E1. rewrite Z.eqb_refl in E1. inversion E1; subst.
            rewrite Z.sub_diag, app_nil_r. split; [unfold good; auto|]. split; [auto|]. split; [lia|auto].
        - inversion E1; subst.
          destruct (grow_buf b n G) as (G' & -> & ->). rewrite Z.sub_diag, app_nil_r. split; [exact G'|]. split; [auto|]. split; [lia|auto]. }
      destruct S0 as (? & ? & ? & ?). pose proof (good_le b1 H). auto. }
    destruct S1 as (G1 & B1 & O1 & -> & L1). specialize (IH b1 o2 b' G1 E2) as (G2 & B2 & O2 & ->).
    split; [exact G2|]. split; [rewrite B2, B1, <- app_assoc; reflexivity|]. split; [lia|].
    assert (F : firstn (Z.to_nat (off b1 - off b)) (skipn (Z.to_nat (off b)) (buf b1)) =
                firstn (Z.to_nat (off b1 - off b)) (skipn (Z.to_nat (off b)) (buf b'))).
    { rewrite B2. assert (0 <= off b) by apply G. unfold zlen in L1.
      rewrite skipn_app, firstn_app. rewrite !skipn_length.
      replace (Z.to_nat (off b1 - off b) - _)%nat with 0%nat by lia. cbn [firstn]. now rewrite app_nil_r. }
    rewrite F. assert (0 <= off b) by apply G. clear - O1 O2 H.
    replace (Z.to_nat (off b')) with (Z.to_nat (off b')) by lia.
    set (l := buf b'). set (a := Z.to_nat (off b)). set (k := Z.to_nat (off b1 - off b)).
    replace (Z.to_nat (off b1)) with (a + k)%nat by (subst a k; lia).
    replace (Z.to_nat (off b' - off b)) with (k + Z.to_nat (off b' - off b1))%nat by (subst k; lia).
    set (j := Z.to_nat (off b' - off b1)).
    assert (S2 : skipn (a + k) l = skipn k (skipn a l)).
    { clearbody a k l. clear. revert l. induction a as [|a IH]; intros l; [reflexivity|]. destruct l; cbn; [now rewrite !skipn_nil|]. apply IH. }
    rewrite S2. clearbody k j. generalize (skipn a l). clear. intros l. revert k. induction l as [|x l IH]; intros [|k]; cbn; auto.
    + now rewrite firstn_nil.
    + now rewrite IH.
Qed.

Lemma good_zero : good zero_flat.
Proof. unfold good, zero_flat; cbn. repeat split; auto; lia. Qed.
