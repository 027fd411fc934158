From Coq Require Import ZifyBool ZifyNat.
From Verif Require Import Go GoFacts UriModel UriProofs UriProofs2 StringsModel.
Local Open Scope Z_scope.

Lemma index_at a c r : ~ In c a -> index_byte (a ++ c :: r) c = zlen a.
Proof.
  induction a as [|x a IH]; intros H; cbn [app index_byte].
  - now rewrite Z.eqb_refl.
  - destruct (x =? c) eqn:E; [exfalso; apply H; left; lia|].
    rewrite IH by (intros K; apply H; now right). rewrite zlen_cons.
    pose proof (zlen_nonneg a). destruct (zlen a =? -1) eqn:F; lia.
Qed.
Lemma index_range s c : index_byte s c = -1 \/ 0 <= index_byte s c < zlen s.
Proof.
  induction s as [|x s IH]; cbn [index_byte]; [now left|]. rewrite zlen_cons. pose proof (zlen_nonneg s).
  destruct (x =? c); [lia|]. destruct (index_byte s c =? -1) eqn:E; lia.
Qed.
(** The three cases: absent, or present with the text before and after. *)
Lemma index_cases s c :
  (~ In c s /\ index_byte s c = -1) \/ exists a r, s = a ++ c :: r /\ ~ In c a /\ index_byte s c = zlen a.
Proof.
  destruct (in_dec Z.eq_dec c s) as [I|N].
  - right. revert I. induction s as [|x s IH]; [intros []|]. intros I.
    destruct (Z.eq_dec x c) as [->|N].
    + exists [], s. repeat split; [intros []|]. cbn [index_byte]. now rewrite Z.eqb_refl.
    + destruct I as [->|I]; [congruence|]. destruct (IH I) as (a & r & -> & F & _).
      exists (x :: a), r. repeat split; [intros [K|K]; [congruence|contradiction]|].
      apply (index_at (x :: a)). intros [K|K]; [congruence|contradiction].
  - left. split; [assumption|]. now apply index_none.
Qed.

Lemma last_index_at a c r : ~ In c r -> last_index_byte (a ++ c :: r) c = zlen a.
Proof.
  intros H. assert (N : last_index_byte r c = -1).
  { induction r as [|x r IH]; [reflexivity|]. cbn [last_index_byte]. rewrite IH by (intros K; apply H; now right).
    cbn. destruct (x =? c) eqn:E; [exfalso; apply H; left; lia|reflexivity]. }
  induction a as [|x a IH]; cbn [app last_index_byte].
  - rewrite N. cbn. now rewrite Z.eqb_refl.
  - rewrite IH, zlen_cons. pose proof (zlen_nonneg a). destruct (zlen a =? -1) eqn:F; lia.
Qed.
Lemma last_index_none r c : ~ In c r -> last_index_byte r c = -1.
Proof.
  intros H. induction r as [|x r IH]; [reflexivity|]. cbn [last_index_byte]. rewrite IH by (intros K; apply H; now right).
  cbn. destruct (x =? c) eqn:E; [exfalso; apply H; left; lia|reflexivity].
Qed.

Lemma split_none s c : ~ In c s -> Split1 s c = [s].
Proof.
  induction s as [|x s IH]; intros H; [reflexivity|]. cbn [Split1].
  destruct (x =? c) eqn:E; [exfalso; apply H; left; lia|]. rewrite IH by (intros K; apply H; now right). reflexivity.
Qed.
Lemma split_app a c r : ~ In c a -> Split1 (a ++ c :: r) c = a :: Split1 r c.
Proof.
  induction a as [|x a IH]; intros H; cbn [app Split1].
  - now rewrite Z.eqb_refl.
  - destruct (x =? c) eqn:E; [exfalso; apply H; left; lia|]. rewrite IH by (intros K; apply H; now right). reflexivity.
Qed.
Lemma split_nonempty s c : Split1 s c <> [].
Proof. destruct s as [|x s]; cbn [Split1]; [discriminate|]. destruct (x =? c); [discriminate|]. destruct (Split1 s c); discriminate. Qed.
Lemma split_join l c : l <> [] -> Forall (fun p => ~ In c p) l -> Split1 (Join l [c]) c = l.
Proof.
  intros N F. induction F as [|p l Hp F IH]; [congruence|]. destruct l as [|q l]; [now apply split_none|].
  change (Join (p :: q :: l) [c]) with (p ++ [c] ++ Join (q :: l) [c]). cbn [app]. rewrite split_app by assumption.
  rewrite IH by discriminate. reflexivity.
Qed.
Lemma join_split s c : Join (Split1 s c) [c] = s.
Proof.
  induction s as [|x s IH]; [reflexivity|]. cbn [Split1]. destruct (x =? c) eqn:E.
  - assert (x = c) by lia. subst. pose proof (split_nonempty s c). destruct (Split1 s c) as [|p r] eqn:S; [congruence|].
    change (Join ([] :: p :: r) [c]) with ([] ++ [c] ++ Join (p :: r) [c]). rewrite IH. reflexivity.
  - pose proof (split_nonempty s c). destruct (Split1 s c) as [|p r] eqn:S; [congruence|].
    destruct r as [|q r]; cbn [Join] in *; rewrite <- IH; reflexivity.
Qed.
Lemma split_free s c : Forall (fun p => ~ In c p) (Split1 s c).
Proof.
  induction s as [|x s IH]; cbn [Split1]; [repeat constructor; intros []|]. destruct (x =? c) eqn:E.
  - constructor; [intros []|assumption].
  - destruct (Split1 s c) as [|p r]; inversion IH; subst; constructor; auto.
    + intros [K|[]]; lia.
    + intros [K|K]; [lia|contradiction].
Qed.

Lemma trim_left_id s c : hd_error s <> Some c -> trim_left s c = s.
Proof. destruct s as [|x s]; [reflexivity|]. cbn. intros H. destruct (x =? c) eqn:E; [exfalso; apply H; f_equal; lia|reflexivity]. Qed.
Lemma trim_left_pad s c n : hd_error s <> Some c -> trim_left (repeat c n ++ s) c = s.
Proof. intros H. induction n as [|n IH]; cbn [repeat app trim_left]; [now apply trim_left_id|]. now rewrite Z.eqb_refl. Qed.
Lemma rev_repeat {A} (x : A) n : rev (repeat x n) = repeat x n.
Proof.
  induction n as [|n IH]; [reflexivity|]. cbn [repeat rev]. rewrite IH. clear. induction n as [|n IH]; [reflexivity|].
  cbn [repeat app]. now rewrite IH.
Qed.
(** Trim removes exactly the padding of a text that neither starts nor ends with it. *)
Lemma trim_pad s c n m : ~ In c s -> Trim1 (repeat c n ++ s ++ repeat c m) c = s.
Proof.
  intros H. unfold Trim1.
  assert (H1 : forall t, ~ In c t -> hd_error t <> Some c).
  { intros [|x t] Ht; cbn; [discriminate|]. intros K. injection K as ->. apply Ht. now left. }
  destruct s as [|x s].
  - cbn [app]. replace (trim_left (repeat c n ++ repeat c m) c) with (@nil Z); [reflexivity|].
    rewrite <- repeat_app. set (k := (n + m)%nat). clearbody k. induction k as [|k IH]; [reflexivity|].
    cbn [repeat trim_left]. now rewrite Z.eqb_refl.
  - rewrite trim_left_pad by (cbn [app hd_error]; intros K; injection K as ->; apply H; now left).
    rewrite rev_app_distr, rev_repeat, trim_left_pad, rev_involutive; [reflexivity|].
    apply H1. intros K. apply in_rev in K. contradiction.
Qed.
