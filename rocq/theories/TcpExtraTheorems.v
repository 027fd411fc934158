(** Property theorems C103, C104, C105 (user timeout, handshake retries, option views). *)
From Coq Require Import ZifyBool ZifyNat.
From Verif Require Import Go GoFacts BinModel BinSpec BinProofs NetModel TcpModel TcpTheorems TcpExtraModel TcpExtraSpec.

(** C103.  Nothing happens while disabled, before the due time, or outside the established state; *)
Theorem C103_quiet : forall k s use now,
  (u_enable k = false -> ut_CheckInterval k s use now = (k, Nothing, -1)) /\
  (u_enable k = true -> - 2 ^ 63 <= u_nextCheck k - now < 2 ^ 63 -> now < u_nextCheck k ->
     ut_CheckInterval k s use now = (k, Nothing, u_nextCheck k - now)) /\
  (u_enable k = true -> - 2 ^ 63 <= u_nextCheck k - now < 2 ^ 63 -> u_nextCheck k <= now -> s <> Established ->
     ut_CheckInterval k s use now = (k, Nothing, -1)).
Proof.
  intros k s use now. unfold ut_CheckInterval. split; [intros ->; reflexivity|]. split.
  - intros -> R H. cbn [negb]. rewrite i64_small by lia. replace (0 <? u_nextCheck k - now) with true by lia. reflexivity.
  - intros -> R H Hs. cbn [negb]. rewrite i64_small by lia. replace (0 <? u_nextCheck k - now) with false by lia. destruct s; congruence.
Qed.
Print Assumptions C103_quiet.
(** so a stream is left alone for the whole idle period after its start, and after a check that
    saw traffic. *)
Theorem C103_start : forall now t s use, 0 <= now < 2 ^ 62 -> now <= t < now + 7200 * one_second ->
  ut_CheckInterval (fst (ut_Init now)) s use t = (fst (ut_Init now), Nothing, now + 7200 * one_second - t).
Proof.
  intros now t s use R H. unfold ut_CheckInterval, ut_Init. cbn [fst u_enable u_nextCheck negb].
  change (2 ^ 62) with 4611686018427387904 in R. unfold one_second in *.
  rewrite (i64_small (now + _)) by (change (2 ^ 63) with 9223372036854775808; lia).
  rewrite i64_small by (change (2 ^ 63) with 9223372036854775808; lia).
  replace (0 <? now + 7200 * 1000000000 - t) with true by lia. reflexivity.
Qed.
Print Assumptions C103_start.
Theorem C103_restart : forall k use now, u_enable k = true -> - 2 ^ 63 <= u_nextCheck k - now < 2 ^ 63 -> u_nextCheck k <= now ->
  - 2 ^ 63 <= now + u_idle k < 2 ^ 63 -> u_lastUse k <> use ->
  ut_CheckInterval k Established use now = (User true (u_idle k) use (now + u_idle k) 0, Nothing, u_idle k).
Proof.
  intros k use now E R H R2 U. unfold ut_CheckInterval. rewrite E. cbn [negb]. rewrite !i64_small by lia.
  replace (0 <? u_nextCheck k - now) with false by lia. replace (u_lastUse k =? use) with false by lia. reflexivity.
Qed.
Print Assumptions C103_restart.
(** Without traffic at most ten probes are sent, however often and whenever the checks run, *)
Theorem C103_bounded : forall times k use, u_lastUse k = use -> 0 <= u_retry k <= 10 ->
  u_retry k + probes (snd (ut_checks k use times)) <= 10.
Proof.
  induction times as [|t r IH]; intros k use U R; cbn [ut_checks].
  { cbn [snd]. unfold probes. cbn [filter]. change (zlen (@nil action)) with 0. lia. }
  destruct (ut_CheckInterval k Established use t) as ((k1, a), n) eqn:E.
  assert (P : u_lastUse k1 = use /\ 0 <= u_retry k1 <= 10 /\ u_retry k1 = u_retry k + (match a with Probe => 1 | _ => 0 end)).
  { unfold ut_CheckInterval in E. destruct (negb (u_enable k)); [injection E as <- <- _; repeat split; auto; lia|].
    destruct (0 <? _); [injection E as <- <- _; repeat split; auto; lia|]. rewrite U, Z.eqb_refl in E. cbn [negb] in E.
    destruct (Z.leb_spec (u_retry k) 9); injection E as <- <- _; cbn [u_lastUse u_retry]; rewrite ?i64_small by lia; repeat split; auto; lia. }
  destruct P as (P1 & P2 & P3). specialize (IH k1 use P1 P2). destruct (ut_checks k1 use r) as (k2, l). cbn [snd] in *.
  assert (PA : probes (a :: l) = (match a with Probe => 1 | _ => 0 end) + probes l).
  { unfold probes. cbn [filter]. destruct a; rewrite ?zlen_cons; lia. }
  lia.
Qed.
Print Assumptions C103_bounded.
(** but once the idle period is over every check is due, so the probes and the close are not spaced
    at all: whatever the times of the next eleven checks, even all the same instant, ten probes
    are sent and the stream is closed. *)
Lemma due_chain : forall ts k use, u_enable k = true -> u_lastUse k = use -> ts <> [] ->
  (forall t, In t ts -> 0 <= t < 2 ^ 52) -> - (2 ^ 52 * (2 ^ u_retry k - 1)) <= u_nextCheck k ->
  (forall t, In t ts -> u_nextCheck k <= t) -> 0 <= u_retry k ->
  u_retry k + Z.of_nat (length ts) = 11 ->
  snd (ut_checks k use ts) = repeat Probe (Z.to_nat (10 - u_retry k)) ++ [CloseStream].
Proof.
  change (2 ^ 52) with 4503599627370496.
  induction ts as [|t r IH]; intros k use E U NE B L D R C; [congruence|]. clear NE.
  cbn [ut_checks]. unfold ut_CheckInterval. rewrite E, U, Z.eqb_refl. cbn [negb].
  pose proof (B t (or_introl eq_refl)) as Bt. pose proof (D t (or_introl eq_refl)) as Dt.
  cbn [length] in C.
  assert (S64 : forall x, - 9223372036854775808 <= x < 9223372036854775808 -> i64 x = x) by (intros x Hx; apply i64_small; change (2 ^ 63) with 9223372036854775808; lia).
  assert (P2 : 2 ^ u_retry k <= 1024) by (change 1024 with (2 ^ 10); apply Z.pow_le_mono_r; lia).
  rewrite (S64 (u_nextCheck k - t)) by lia. replace (0 <? u_nextCheck k - t) with false by lia. cbv zeta.
  rewrite (S64 (u_nextCheck k + _)) by lia.
  destruct (Z.leb_spec (u_retry k) 9) as [Q|Q].
  - rewrite S64 by lia.
    set (k1 := User true (u_idle k) use (u_nextCheck k + (u_nextCheck k - t)) (u_retry k + 1)).
    assert (X : snd (ut_checks k1 use r) = repeat Probe (Z.to_nat (10 - u_retry k1)) ++ [CloseStream]).
    { apply IH; unfold k1; cbn [u_enable u_lastUse u_nextCheck u_retry]; auto.
      - intros ->. cbn [length] in C. lia.
      - intros t' I. apply B. now right.
      - rewrite Z.pow_add_r by lia. change (2 ^ 1) with 2. lia.
      - intros t' I. pose proof (D t' (or_intror I)). lia.
      - lia.
      - lia. }
    destruct (ut_checks k1 use r) as (k2, l). cbn [snd] in *. rewrite X. unfold k1. cbn [u_retry].
    replace (Z.to_nat (10 - u_retry k)) with (S (Z.to_nat (10 - (u_retry k + 1)))) by lia. reflexivity.
  - assert (r = []) by (destruct r; [reflexivity|cbn [length] in C; lia]). subst r. cbn [ut_checks snd].
    replace (Z.to_nat (10 - u_retry k)) with 0%nat by lia. reflexivity.
Qed.
Theorem C103_spacing_refuted : forall k use ts, u_enable k = true -> u_lastUse k = use -> u_retry k = 0 -> 0 <= u_nextCheck k ->
  length ts = 11%nat -> (forall t, In t ts -> u_nextCheck k <= t < 2 ^ 52) ->
  snd (ut_checks k use ts) = repeat Probe 10 ++ [CloseStream].
Proof.
  intros k use ts E U R N L B. replace 10%nat with (Z.to_nat (10 - u_retry k)) by lia. apply due_chain; auto.
  - destruct ts; [discriminate|congruence].
  - intros t I. specialize (B t I). lia.
  - rewrite R. change (2 ^ 0) with 1. lia.
  - intros t I. apply B in I. lia.
  - lia.
  - lia.
Qed.
Print Assumptions C103_spacing_refuted.
(** Delayed acknowledgement starts enabled, to be looked at after half a second, *)
Theorem C103_delayed_ack_start : forall now t, 0 <= now <= t -> t < 2 ^ 62 ->
  da_CheckInterval (fst (da_Init now)) t = (fst (da_Init now), Nothing, now + 500000000 - t) /\
  d_enable (fst (da_Init now)) = true /\ d_interval (fst (da_Init now)) = one_second / 2.
Proof. intros now t H T. split; [|split; reflexivity]. change (2 ^ 62) with 4611686018427387904 in T. unfold da_CheckInterval, da_Init. cbn [fst d_enable d_nextCheck negb]. rewrite (i64_small (now + 500000000)) by (change (2 ^ 63) with 9223372036854775808; lia). rewrite i64_small by (change (2 ^ 63) with 9223372036854775808; lia). reflexivity. Qed.
Print Assumptions C103_delayed_ack_start.
(** but: *)
(** The delayed acknowledgement never acknowledges: its check does nothing, whenever it runs. *)
Theorem C103_delayed_ack_refuted : forall d now, exists n, da_CheckInterval d now = (d, Nothing, n) /\ (d_enable d = false -> n = -1).
Proof. intros d now. unfold da_CheckInterval. destruct (d_enable d); cbn [negb]; eexists; (split; [reflexivity|]); [discriminate|reflexivity]. Qed.
Print Assumptions C103_delayed_ack_refuted.
(** Reinitialising a stream leaves the record of its last use and sets the next check to zero: if
    nothing has arrived meanwhile, the very first check probes, with the retries counted from zero,
    at whatever time it comes, without waiting for the two idle hours; a stream which was switched
    off is switched on again. *)
Theorem C103_reinit_refuted : forall k now, 0 < now < 2 ^ 62 ->
  exists k', ut_CheckInterval (ut_Reinit k) Established (u_lastUse k) now = (k', Probe, - now) /\ u_retry k' = 1 /\ u_enable k' = true /\ u_idle k' = u_idle k.
Proof.
  intros k now N. unfold ut_CheckInterval, ut_Reinit. cbn [u_enable u_nextCheck u_lastUse u_retry u_idle negb].
  replace (i64 (0 - now)) with (- now) by (unfold i64; lia).
  replace (0 <? - now) with false by lia. rewrite Z.eqb_refl. cbn [negb]. replace (0 <=? 9) with true by reflexivity.
  eexists. repeat split.
Qed.
Print Assumptions C103_reinit_refuted.
(** With traffic since, it is kept, and the idle hours start at this check. *)
Theorem C103_reinit_used : forall k use now, u_lastUse k <> use -> 0 <= now < 2 ^ 62 -> 0 <= u_idle k < 2 ^ 62 ->
  exists k', ut_CheckInterval (ut_Reinit k) Established use now = (k', Nothing, u_idle k) /\ u_retry k' = 0 /\ u_enable k' = true /\ u_lastUse k' = use /\ u_nextCheck k' = now + u_idle k.
Proof.
  intros k use now U N I. unfold ut_CheckInterval, ut_Reinit. cbn [u_enable u_nextCheck u_lastUse u_retry u_idle negb].
  replace (i64 (0 - now)) with (- now) by (unfold i64; lia).
  replace (0 <? - now) with false by lia. replace (u_lastUse k =? use) with false by lia. cbn [negb].
  eexists. repeat split. cbn [u_nextCheck]. unfold i64. lia.
Qed.
Print Assumptions C103_reinit_used.
Example C103_nonvacuous : let k := fst (ut_Init 1000) in
  u_enable k = true /\ u_lastUse k = 0 /\ u_retry k = 0 /\ u_nextCheck k = 7200 * one_second + 1000 /\
  snd (ut_checks k 0 (5 :: repeat (7200 * one_second + 1000) 12)) = Nothing :: repeat Probe 10 ++ [CloseStream; CloseStream] /\
  snd (ut_checks k 0 [2000]) = [Nothing] /\ snd (ut_checks (ut_Reinit k) 0 [2000]) = [Probe].
Proof. repeat split. Qed.
Example C103_cases : let k := User true (7200 * one_second) 5 1000 2 in
  ut_CheckInterval k Established 9 2000 = (User true (7200 * one_second) 9 (2000 + 7200 * one_second) 0, Nothing, 7200 * one_second) /\
  ut_CheckInterval k Established 5 900 = (k, Nothing, 100) /\ snd (da_CheckInterval (fst (da_Init 1000)) 1500) = 499999500 /\
  (exists k', ut_CheckInterval (ut_Reinit k) Established 9 2000 = (k', Nothing, 7200 * one_second)).
Proof. split; [vm_compute; reflexivity|]. split; [vm_compute; reflexivity|]. split; [vm_compute; reflexivity|]. eexists. vm_compute. reflexivity. Qed.

(** C104.  The handshake counters: the limit is reported after the seventh SYN, and the sixth
    SYN-ACK, and not before; *)
Lemma times_count f (F : forall r, f r = Retries (r_max r) (u8 (r_count r + 1))) : forall n r, 0 <= r_count r ->
  r_count r + Z.of_nat n < 256 -> times n f r = Retries (r_max r) (r_count r + Z.of_nat n).
Proof.
  induction n as [|n IH]; intros r H L; cbn [times].
  { destruct r as [m c]; cbn [r_max r_count]. f_equal. lia. }
  rewrite F. rewrite u8_small by lia. rewrite IH; cbn [r_max r_count]; try lia. f_equal. lia.
Qed.
Theorem C104_syn : forall n, Z.of_nat n < 256 ->
  ReachMaxSyn (times n SendNewSyn (syn_Init (Retries 0 0))) = (7 <=? Z.of_nat n) /\
  ReachMaxSynACK (times n ReceiveNewSynAck (synack_Init (Retries 0 0))) = (6 <=? Z.of_nat n).
Proof.
  intros n H. rewrite !(times_count _ ltac:(reflexivity)) by (cbn [r_count syn_Init synack_Init]; lia).
  unfold ReachMaxSyn, ReachMaxSynACK, syn_Init, synack_Init. cbn [r_max r_count].
  split; [destruct (Z.ltb_spec 6 (0 + Z.of_nat n)) as [Q|Q]|destruct (Z.ltb_spec 5 (0 + Z.of_nat n)) as [Q|Q]]; lia.
Qed.
Print Assumptions C104_syn.
(** but the counter is one octet: the report is withdrawn at the 256th, for every state; *)
Lemma times_mod f (F : forall r, f r = Retries (r_max r) (u8 (r_count r + 1))) : forall n r, 0 <= r_count r < 256 ->
  times n f r = Retries (r_max r) (u8 (r_count r + Z.of_nat n)).
Proof.
  induction n as [|n IH]; intros r H; cbn [times].
  { destruct r as [m c]; cbn [r_max r_count] in *. f_equal. rewrite u8_small; lia. }
  rewrite F. rewrite IH; cbn [r_max r_count]; unfold u8. 2: { apply Z.mod_pos_bound. lia. }
  f_equal. rewrite Zplus_mod_idemp_l. f_equal. lia.
Qed.
Theorem C104_wrap_refuted : forall r n, 0 <= r_count r < 256 ->
  times (n * 256) SendNewSyn r = r /\ times (n * 256) ReceiveNewSynAck r = r.
Proof.
  intros r n H. rewrite !(times_mod _ ltac:(reflexivity)) by auto.
  replace (u8 (r_count r + Z.of_nat (n * 256))) with (r_count r).
  - destruct r as [m c]; split; reflexivity.
  - unfold u8. rewrite Nat2Z.inj_mul. change (Z.of_nat 256) with 256. change (2 ^ 8) with 256. rewrite Z_mod_plus_full. rewrite Z.mod_small; lia.
Qed.
Print Assumptions C104_wrap_refuted.
(** and reinitialising a stream keeps the old count, so a reused stream gets no retries of its own. *)
Theorem C104_reuse_refuted : forall r,
  ReachMaxSyn (syn_Reinit r) = (7 <=? r_count r) /\ ReachMaxSynACK (synack_Reinit r) = (6 <=? r_count r).
Proof. intros r. unfold ReachMaxSyn, ReachMaxSynACK, syn_Reinit, synack_Reinit. cbn [r_max r_count].
  destruct (Z.ltb_spec 6 (r_count r)), (Z.ltb_spec 5 (r_count r)); split; lia. Qed.
Print Assumptions C104_reuse_refuted.
Example C104_nonvacuous : ReachMaxSyn (times 6 SendNewSyn (syn_Init (Retries 0 0))) = false /\
  ReachMaxSyn (syn_Reinit (times 7 SendNewSyn (syn_Init (Retries 0 0)))) = true /\
  ReachMaxSyn (times 256 SendNewSyn (syn_Init (Retries 0 0))) = false.
Proof. repeat split. Qed.

(** C105.  For eight of the kinds the next option is found exactly after the data, *)
Lemma skip_view (data rest : bytes) k : k = 1 + zlen data -> slice_from (view data rest) k = Ok rest.
Proof.
  intros ->. unfold view. change ((2 + zlen data) :: data ++ rest) with (((2 + zlen data) :: data) ++ rest).
  pose proof (zlen_nonneg data). pose proof (zlen_nonneg rest).
  rewrite slice_from_ok by (rewrite zlen_app, zlen_cons; lia). f_equal.
  replace (Z.to_nat (1 + zlen data)) with (length ((2 + zlen data) :: data)) by (unfold zlen; cbn [length]; lia).
  rewrite skipn_app, skipn_all, Nat.sub_diag. reflexivity.
Qed.
Theorem C105_next_partial : forall k n data rest, In k [OMSS; OWindowScale; OSACKPermitted; OEcho; OEchoReply; OCC; OCCNew; OCCEcho] ->
  data_octets k = Some n -> length data = n ->
  opt_Length k (view data rest) = Ok (Z.of_nat n + 2) /\ NextOption k (view data rest) = Ok rest.
Proof.
  intros k n data rest I D L. split.
  { unfold opt_Length, view. replace (2 + zlen data) with (Z.of_nat n + 2) by (unfold zlen; lia). reflexivity. }
  cbn [In] in I.
  destruct I as [<-|[<-|[<-|[<-|[<-|[<-|[<-|[<-|[]]]]]]]]]; cbn [data_octets] in D; injection D as D; unfold NextOption; apply skip_view; unfold zlen; lia.
Qed.
Print Assumptions C105_next_partial.
(** for the other four with a fixed length it never is: part of the timestamps is read as an option
    kind, and one or two octets of the following options are lost. *)
Lemma skip_len (o r : bytes) k : 0 <= k -> slice_from o k = Ok r -> zlen r = zlen o - k /\ k <= zlen o.
Proof.
  intros K H. destruct (Z_le_gt_dec k (zlen o)) as [Q|Q].
  - rewrite slice_from_ok in H by lia. assert (r = skipn (Z.to_nat k) o) by congruence. subst r. split; [|lia].
    unfold zlen in *. rewrite skipn_length. lia.
  - rewrite slice_from_panic in H by lia. discriminate.
Qed.
Theorem C105_next_refuted : forall k n data rest, In k [OTimestamps; OPOCPermitted; OPOCProfile; OAltChecksum] ->
  data_octets k = Some n -> length data = n -> NextOption k (view data rest) <> Ok rest.
Proof.
  intros k n data rest I D L H. cbn [In] in I.
  assert (V : zlen (view data rest) = 1 + Z.of_nat n + zlen rest) by (unfold view; rewrite zlen_cons, zlen_app; unfold zlen in *; lia).
  destruct I as [<-|[<-|[<-|[<-|[]]]]]; cbn [data_octets] in D; injection D as <-; unfold NextOption in H; apply skip_len in H; lia.
Qed.
Print Assumptions C105_next_refuted.
Theorem C105_timestamps_refuted : forall a b c d e f g h rest,
  NextOption OTimestamps (view [a; b; c; d; e; f; g; h] rest) = Ok (h :: rest).
Proof.
  intros. change (view [a; b; c; d; e; f; g; h] rest) with ((10 :: [a; b; c; d; e; f; g]) ++ h :: rest).
  unfold NextOption. pose proof (zlen_nonneg rest). rewrite slice_from_ok; [reflexivity|].
  rewrite zlen_app, !zlen_cons. change (zlen (@nil Z)) with 0. lia.
Qed.
Print Assumptions C105_timestamps_refuted.
(** The one of variable length is skipped rightly only when it holds two octets. *)
Theorem C105_variable_partial : forall data rest, NextOption OAltChecksumData (view data rest) = Ok rest <-> length data = 2%nat.
Proof.
  intros data rest. unfold NextOption. split.
  - intros H. apply skip_len in H; [|lia]. unfold view in H. rewrite zlen_cons, zlen_app in H. unfold zlen in *. lia.
  - intros H. apply skip_view. unfold zlen. lia.
Qed.
Print Assumptions C105_variable_partial.
(** The maximum segment size is read right, *)
Lemma value_view k (data rest : bytes) : k <> OSACKPermitted -> k <> OPOCPermitted ->
  opt_Value k (view data rest) = bele_Uint16 (data ++ rest).
Proof.
  intros A B. unfold opt_Value. replace (slice_from (view data rest) 1) with (Ok (data ++ rest)).
  - destruct k; try congruence; reflexivity.
  - symmetry. unfold view. pose proof (zlen_nonneg (data ++ rest)). rewrite slice_from_ok by (rewrite zlen_cons; lia). reflexivity.
Qed.
Lemma read2 (a b : Z) r : is_byte a -> is_byte b -> bele_Uint16 (a :: b :: r) = Ok (a * 256 + b).
Proof.
  intros A B. rewrite (co_get _ _ _ _ _ bele16_ok); [|repeat constructor; red in A, B; lia|cbn [length]; lia].
  f_equal. cbv [be_value]. cbn [firstn rev app le_value]. lia.
Qed.
Theorem C105_mss : forall data rest, wf_bytes data -> length data = 2%nat ->
  opt_Value OMSS (view data rest) = Ok (be_value data).
Proof.
  intros data rest W L. rewrite value_view by congruence.
  destruct data as [|a [|b [|]]]; try discriminate. unfold wf_bytes in W. inversion W as [|? ? A W']; subst. inversion W' as [|? ? B _]; subst.
  cbn [app]. rewrite read2 by auto. f_equal. cbv [be_value]. cbn [rev app le_value]. lia.
Qed.
Print Assumptions C105_mss.
(** but the one-octet values are read together with the octet after the option (a panic when the
    option is the last), *)
Theorem C105_one_octet_refuted : forall k s rest, In k [OWindowScale; OPOCProfile; OAltChecksum] -> is_byte s -> wf_bytes rest ->
  opt_Value k (view [s] rest) = match rest with [] => Panic | x :: _ => Ok (s * 256 + x) end.
Proof.
  intros k s rest I B W. rewrite value_view by (cbn [In] in I; destruct I as [<-|[<-|[<-|[]]]]; congruence).
  cbn [app]. destruct rest as [|x r].
  - apply (co_panic _ _ _ _ _ bele16_ok [s] 0). cbn [length]. lia.
  - apply read2; [exact B|]. unfold wf_bytes in W. now inversion W.
Qed.
Print Assumptions C105_one_octet_refuted.
(** and of the four-octet values only the upper half is read: right for no value but zero. *)
Theorem C105_four_octets_refuted : forall k data rest, In k [OEcho; OEchoReply; OCC; OCCNew; OCCEcho] ->
  wf_bytes data -> length data = 4%nat ->
  opt_Value k (view data rest) = Ok (be_value data / 65536) /\
  (opt_Value k (view data rest) = Ok (be_value data) <-> be_value data = 0).
Proof.
  intros k data rest I W L. rewrite value_view by (cbn [In] in I; destruct I as [<-|[<-|[<-|[<-|[<-|[]]]]]]; congruence).
  destruct data as [|a [|b [|c [|d [|]]]]]; try discriminate. unfold wf_bytes in W.
  inversion W as [|? ? A W1]; subst. inversion W1 as [|? ? B W2]; subst. inversion W2 as [|? ? C W3]; subst. inversion W3 as [|? ? D _]; subst.
  cbn [app]. rewrite read2 by auto. cbv [be_value]. cbn [rev app le_value]. red in A, B, C, D.
  set (v := d + 256 * (c + 256 * (b + 256 * (a + 256 * 0)))).
  assert (V : v / 65536 = a * 256 + b) by (unfold v; symmetry; apply (Z.div_unique _ _ _ (d + 256 * c)); lia).
  rewrite V. split; [reflexivity|]. split.
  - intros H. assert (a * 256 + b = v) by congruence. unfold v in *. lia.
  - intros H. f_equal. unfold v in *. lia.
Qed.
Print Assumptions C105_four_octets_refuted.
Example C105_nonvacuous : view [5; 180] [3; 3; 7] = [4; 5; 180; 3; 3; 7] /\ opt_Value OMSS [4; 5; 180; 3; 3; 7] = Ok 1460 /\
  NextOption OMSS [4; 5; 180; 3; 3; 7] = Ok [3; 3; 7] /\ opt_Value OWindowScale (view [7] []) = Panic /\
  NextOption OPOCPermitted (view [] [2; 4; 5; 180]) = Ok [5; 180] /\ opt_Value OCC (view [0; 1; 2; 3] []) = Ok 1.
Proof. repeat split. Qed.
