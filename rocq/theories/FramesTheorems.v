(** C42: dispatching the frames of a packet. *)
From Coq Require Import ZifyBool ZifyNat.
From Verif Require Import Go GoFacts BinModel BinSpec BinProofs SyllabModel NetProofs LinkModel FramesModel FramesSpec.

Lemma skip_app (a b : bytes) n : n = zlen a -> slice_from (a ++ b) n = Ok b.
Proof.
  intros ->. rewrite slice_from_ok by (rewrite zlen_app; pose proof (zlen_nonneg a); pose proof (zlen_nonneg b); lia).
  unfold zlen. rewrite Nat2Z.id, skipn_app, Nat.sub_diag, skipn_all. reflexivity.
Qed.
Lemma dig_len16 v : zlen (be_digits 2 v) = 2 /\ zlen (le_digits 2 v) = 2.
Proof. split; reflexivity. Qed.
Lemma next_be body r : 2 + zlen body < 65536 -> NextByBE ((be_digits 2 (2 + zlen body) ++ body) ++ r) = Ok r.
Proof.
  intros H. pose proof (zlen_nonneg body) as P. unfold NextByBE. rewrite <- app_assoc.
  assert (S0 : forall l : bytes, slice_from l 0 = Ok l) by (intros l; rewrite slice_from_ok by (pose proof (zlen_nonneg l); lia); reflexivity).
  rewrite S0. cbn [bind].
  destruct (co_back _ _ _ _ _ bele16_ok (repeat 0 2 ++ body ++ r) (2 + zlen body)) as (b & E1 & E2); [rewrite app_length; cbn; lia|change (256 ^ Z.of_nat 2) with 65536; lia|].
  rewrite (co_put _ _ _ _ _ bele16_ok) in E1; [|rewrite app_length; cbn; lia|change (256 ^ Z.of_nat 2) with 65536; lia].
  change (skipn 2 (repeat 0 2 ++ body ++ r)) with (body ++ r) in E1. assert (b = be_digits 2 (2 + zlen body) ++ body ++ r) by congruence. subst b.
  rewrite E2. cbn [bind]. rewrite app_assoc. apply skip_app. rewrite zlen_app. reflexivity.
Qed.
Lemma next_le body r : 2 + zlen body < 65536 -> NextByLE ((le_digits 2 (2 + zlen body) ++ body) ++ r) = Ok r.
Proof.
  intros H. pose proof (zlen_nonneg body) as P. unfold NextByLE.
  assert (E : GetUInt16 ((le_digits 2 (2 + zlen body) ++ body) ++ r) 0 = Ok (2 + zlen body)).
  { assert (V : 0 <= 2 + zlen body) by lia. set (v := 2 + zlen body) in *. clearbody v. cbn [le_digits app]. unfold GetUInt16, sidx.
    change (u32 (0 + 0)) with 0. change (u32 (0 + 1)) with 1.
    change (idx (v mod 256 :: (v / 256) mod 256 :: body ++ r) 0) with (Ok (v mod 256)).
    change (idx (v mod 256 :: (v / 256) mod 256 :: body ++ r) 1) with (Ok ((v / 256) mod 256)). cbn [bind]. f_equal.
    assert (0 <= v / 256 < 256) by (Z.div_mod_to_equations; lia). rewrite (Z.mod_small (v / 256)) by lia.
    rewrite u16_small by (rewrite Z.shiftl_mul_pow2 by lia; change (2 ^ 8) with 256; change (2 ^ 16) with 65536; lia).
    rewrite lor_shiftl_add by (try apply Z.mod_pos_bound; change (2 ^ 8) with 256; try apply Z.mod_pos_bound; lia). change (2 ^ 8) with 256. Z.div_mod_to_equations; lia. }
  rewrite E. cbn [bind]. apply skip_app. rewrite zlen_app. reflexivity.
Qed.
Lemma open_known a id b r : zlen a = 2 -> 0 <= id < 2 ^ 64 -> open_service (a ++ le_digits 8 id ++ b ++ r) = Ok id.
Proof.
  intros La Hi. unfold open_service. rewrite skip_app by lia. cbn [bind].
  destruct (co_back _ _ _ _ _ lele64_ok (repeat 0 8 ++ b ++ r) id) as (c & E1 & E2); [rewrite app_length, repeat_length; lia|exact Hi|].
  rewrite (co_put _ _ _ _ _ lele64_ok) in E1; [|rewrite app_length, repeat_length; lia|exact Hi].
  change (skipn 8 (repeat 0 8 ++ b ++ r)) with (b ++ r) in E1. assert (c = le_digits 8 id ++ b ++ r) by congruence. subst c. exact E2.
Qed.

(** A packet of well-formed frames is processed to its end, one round per frame. *)
Theorem C42_well_formed_partial : forall known f, wf_packet known f -> exists k, HandleFrames known k f = Some Processed.
Proof.
  intros known f W. induction W as [|f r F W (k & IH)]; [exists 1%nat; reflexivity|]. exists (S k). cbn [HandleFrames].
  assert (P : 0 < zlen (f ++ r)) by (rewrite zlen_app; pose proof (zlen_nonneg r); destruct F; rewrite zlen_cons, ?zlen_app; repeat match goal with |- context [zlen ?l] => pose proof (zlen_nonneg l); generalize dependent (zlen l); intros end; lia).
  replace (0 <? zlen (f ++ r)) with true by lia.
  assert (R : frame_round known (f ++ r) = Rest r); [|rewrite R; exact IH].
  clear - F. destruct F as [body H|body H|body H|body H|a id b La Hi K Lb]; cbn [app frame_round Z.eqb Pos.eqb].
  - rewrite next_be by auto. reflexivity.
  - rewrite next_be by auto. reflexivity.
  - rewrite next_le by auto. reflexivity.
  - rewrite skip_app by auto. reflexivity.
  - rewrite <- !app_assoc, open_known by auto. rewrite K, !app_assoc. rewrite skip_app; [reflexivity|]. rewrite !zlen_app, La, Lb. reflexivity.
Qed.
Print Assumptions C42_well_formed_partial.

Lemma skip2 (l : bytes) n m : skipn m (skipn n l) = skipn (n + m) l.
Proof. revert l. induction n as [|n IH]; intros l; [reflexivity|]. destruct l; [destruct m; reflexivity|apply IH]. Qed.
(** Whatever the packet, each round that goes on has consumed at least one byte, *)
Theorem C42_progress : forall known f r, frame_round known f = Rest r -> exists n, (1 <= n <= length f)%nat /\ r = skipn n f.
Proof.
  intros known f r E. destruct f as [|t p]; [discriminate|].
  assert (G : forall x, rest x = Rest r -> (exists n, x = slice_from p n) -> exists n, (1 <= n <= length (t :: p))%nat /\ r = skipn n (t :: p)).
  { intros x X (n & ->). unfold rest in X. destruct (slice_from p n) eqn:S; [|discriminate]. injection X as ->.
    destruct (Z_lt_ge_dec n 0) as [L|L]; [rewrite slice_from_panic in S by lia; discriminate|].
    destruct (Z_lt_ge_dec (zlen p) n) as [L2|L2]; [rewrite slice_from_panic in S by lia; discriminate|].
    rewrite slice_from_ok in S by lia. injection S as <-. exists (S (Z.to_nat n)). unfold zlen in L2. cbn [length skipn]. split; [lia|reflexivity]. }
  assert (P0 : forall x, x = Panic -> rest x = Rest r -> False) by (intros x -> C; discriminate).
  cbn [frame_round] in E.
  destruct (t =? 3). { unfold NextFrame in E. destruct (HopCount p); [|discriminate]. cbn [bind] in E; eapply G; [exact E|eauto]. }
  destruct (t =? 4). { unfold gp_NextFrame in E. eapply G; [exact E|eauto]. }
  destruct (t =? 5). { unfold NextByBE in E. destruct (slice_from p 0) as [s|]; [|discriminate]. cbn [bind] in E. destruct (bele_Uint16 s); [|discriminate]. cbn [bind] in E; eapply G; [exact E|eauto]. }
  destruct (t =? 6). { unfold NextByLE in E. destruct (GetUInt16 p 0); [|discriminate]. cbn [bind] in E; eapply G; [exact E|eauto]. }
  destruct (t =? 7). { destruct (open_service p); [|discriminate]. destruct (known _); [|discriminate]. cbn [bind] in E; eapply G; [exact E|eauto]. }
  destruct (t =? 9). { unfold NextByBE in E. destruct (slice_from p 0) as [s|]; [|discriminate]. cbn [bind] in E. destruct (bele_Uint16 s); [|discriminate]. cbn [bind] in E; eapply G; [exact E|eauto]. }
  destruct (t =? 10); [discriminate|]. destruct (t =? 11); [|discriminate]. eapply G; [exact E|eauto].
Qed.
Print Assumptions C42_progress.
(** so it ends within one round per byte, unless some frame has a type that is not handled, and
    then it never ends. *)
Definition handled (t : Z) : Prop := In t [3; 4; 5; 6; 7; 9; 10; 11].
Theorem C42_ends_partial : forall known f,
  (exists v, HandleFrames known (S (length f)) f = Some v) \/
  (exists n t u, skipn n f = t :: u /\ ~ handled t /\ forall k, HandleFrames known k f = None).
Proof.
  intros known f. remember (length f) as m eqn:M. assert (L : (length f <= m)%nat) by lia. clear M. revert f L.
  induction m as [|m IH]; intros f L.
  - destruct f; [|cbn in L; lia]. left. exists Processed. reflexivity.
  - destruct f as [|t u]; [left; exists Processed; reflexivity|].
    assert (P : (0 <? zlen (t :: u)) = true) by (rewrite zlen_cons; pose proof (zlen_nonneg u); lia).
    assert (St : forall k, HandleFrames known (S k) (t :: u) = match frame_round known (t :: u) with
        | Rest r => HandleFrames known k r | Same => HandleFrames known k (t :: u) | Fail => Some Refused | Crash => Some Crashed end).
    { intros k. cbn [HandleFrames]. rewrite P. reflexivity. }
    destruct (frame_round known (t :: u)) as [r| | |] eqn:R.
    + destruct (C42_progress known _ r R) as (n & Hn & ->). destruct (IH (skipn n (t :: u))) as [(v & E)|(n' & t' & u' & E1 & E2 & E3)].
      * rewrite skipn_length. cbn [length] in *. lia.
      * left. exists v. rewrite St. exact E.
      * right. exists (n + n')%nat, t', u'. split; [rewrite <- E1; symmetry; apply skip2|]. split; [exact E2|]. intros [|k]; [reflexivity|]. rewrite St. apply E3.
    + left. exists Refused. rewrite St. reflexivity.
    + left. exists Crashed. rewrite St. reflexivity.
    + right. exists 0%nat, t, u. split; [reflexivity|]. split.
      * intros H. unfold handled in H. cbn [In] in H. revert R. cbn [frame_round]. unfold rest.
        destruct H as [<-|[<-|[<-|[<-|[<-|[<-|[<-|[<-|[]]]]]]]]]; cbn [Z.eqb Pos.eqb];
          repeat match goal with |- context [match ?x with _ => _ end] => destruct x end; discriminate.
      * intros k. induction k as [|k IHk]; [reflexivity|]. rewrite St. exact IHk.
Qed.
Print Assumptions C42_ends_partial.
Theorem C42_unknown_refuted : forall known t u, ~ handled t -> forall k, HandleFrames known k (t :: u) = None.
Proof.
  intros known t u H k. induction k as [|k IH]; [reflexivity|]. cbn [HandleFrames].
  replace (0 <? zlen (t :: u)) with true by (rewrite zlen_cons; pose proof (zlen_nonneg u); lia).
  assert (R : frame_round known (t :: u) = Same); [|rewrite R; exact IH].
  unfold handled in H. cbn [In] in H. cbn [frame_round].
  replace (t =? 3) with false by lia. replace (t =? 4) with false by lia. replace (t =? 5) with false by lia. replace (t =? 6) with false by lia.
  replace (t =? 7) with false by lia. replace (t =? 9) with false by lia. replace (t =? 10) with false by lia. replace (t =? 11) with false by lia. reflexivity.
Qed.
Print Assumptions C42_unknown_refuted.
(** Not success or an error but a panic: every error frame, *)
Theorem C42_error_refuted : forall known u k, HandleFrames known (S k) (10 :: u) = Some Crashed.
Proof. intros known u k. cbn [HandleFrames]. replace (0 <? zlen (10 :: u)) with true by (rewrite zlen_cons; pose proof (zlen_nonneg u); lia). reflexivity. Qed.
Print Assumptions C42_error_refuted.
(** a GP frame of the right length that ends the packet, *)
Theorem C42_gp_refuted : forall known u k, gp_CheckFrame (4 :: u) = Ok FOk -> HandleFrames known (S k) (4 :: u) = Some Crashed.
Proof.
  intros known u k H. cbn [HandleFrames]. replace (0 <? zlen (4 :: u)) with true by (rewrite zlen_cons; pose proof (zlen_nonneg u); lia).
  unfold gp_CheckFrame in H. destruct (Z.eqb_spec (zlen (4 :: u)) 33) as [L|]; [|discriminate]. rewrite zlen_cons in L.
  cbn [frame_round Z.eqb Pos.eqb]. unfold gp_NextFrame. rewrite slice_from_panic by lia. reflexivity.
Qed.
Print Assumptions C42_gp_refuted.
(** and when more follows it, the next frame is read one octet too late: the first octet after the 33 of
    the frame, where the type of the next one stands, is skipped; *)
Theorem C42_gp_next_refuted : forall known h t r, gp_CheckFrame (4 :: h) = Ok FOk -> frame_round known ((4 :: h) ++ t :: r) = Rest r.
Proof.
  intros known h t r H. unfold gp_CheckFrame in H. destruct (Z.eqb_spec (zlen (4 :: h)) 33) as [L|]; [|discriminate]. rewrite zlen_cons in L.
  cbn [app frame_round Z.eqb Pos.eqb]. unfold gp_NextFrame. pose proof (zlen_nonneg r). rewrite slice_from_ok by (rewrite zlen_app, zlen_cons; lia).
  unfold rest. f_equal. replace (Z.to_nat 33) with (length (h ++ [t])) by (rewrite app_length; unfold zlen in L; cbn [length]; lia).
  change (t :: r) with ([t] ++ r). rewrite app_assoc, skipn_app, skipn_all, Nat.sub_diag. reflexivity.
Qed.
Print Assumptions C42_gp_next_refuted.
Example C42_gp_next_case : gp_CheckFrame (4 :: repeat 7 32) = Ok FOk /\ frame_round (fun _ => true) ((4 :: repeat 7 32) ++ 9 :: [2; 0]) = Rest [2; 0].
Proof. split; reflexivity. Qed.
(** and every frame cut short before its length, its service or its end. *)
Theorem C42_truncated_refuted : forall known u k,
  (zlen u < 2 -> HandleFrames known (S k) (5 :: u) = Some Crashed /\ HandleFrames known (S k) (9 :: u) = Some Crashed) /\
  (zlen u < 8 -> HandleFrames known (S k) (11 :: u) = Some Crashed).
Proof.
  intros known u k. assert (P : forall t, (0 <? zlen (t :: u)) = true) by (intros t; rewrite zlen_cons; pose proof (zlen_nonneg u); lia).
  assert (S0 : slice_from u 0 = Ok u) by (rewrite slice_from_ok by (pose proof (zlen_nonneg u); lia); reflexivity).
  split.
  - intros H. destruct (co_panic _ _ _ _ _ bele16_ok u 0 ltac:(unfold zlen in H; lia)) as (_ & E).
    split; cbn [HandleFrames]; rewrite P; cbn [frame_round Z.eqb Pos.eqb]; unfold NextByBE; rewrite S0; cbn [bind]; rewrite E; reflexivity.
  - intros H. cbn [HandleFrames]. rewrite P. cbn [frame_round Z.eqb Pos.eqb]. rewrite slice_from_panic by lia. reflexivity.
Qed.
Print Assumptions C42_truncated_refuted.
Lemma C42_sample : wf_packet (fun id => id =? 7) ((9 :: [0; 5] ++ [1; 2; 3]) ++ (7 :: [0; 0] ++ [7; 0; 0; 0; 0; 0; 0; 0] ++ repeat 0 15) ++ []).
Proof.
  apply wp_cons; [apply (wf_data _ [1; 2; 3]); reflexivity|]. apply wp_cons; [|apply wp_nil].
  apply (wf_open _ [0; 0] 7 (repeat 0 15)); try reflexivity. split; [lia|reflexivity].
Qed.
Example C42_nonvacuous : wf_packet (fun id => id =? 7) ((9 :: [0; 5] ++ [1; 2; 3]) ++ (7 :: [0; 0] ++ [7; 0; 0; 0; 0; 0; 0; 0] ++ repeat 0 15) ++ []) /\
  HandleFrames (fun _ => true) 5 [9; 0; 5; 1; 2; 3; 11; 1; 2; 3; 4; 5; 6; 7; 8] = Some Processed /\ ~ handled 2.
Proof. split; [exact C42_sample|]. split; [reflexivity|]. unfold handled. cbn [In]. lia. Qed.
