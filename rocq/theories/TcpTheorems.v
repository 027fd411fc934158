(** Property theorems C33, C34, C58, C77 (TCP options, stream, keep-alive). *)
From Coq Require Import ZifyBool ZifyNat.
From Verif Require Import Go GoFacts NetModel NetSpec NetProofs NetTheorems TcpModel TcpSpec TcpProofs.

(** C33.  What option processing does on every byte string: skip leading 4-byte MSS options;
    then it ends at the end or at an end-of-list, panics on a truncated MSS option, and
    loops forever on any other kind. *)
Theorem C33_exact_partial : forall o, exists r, mss_run o r /\
  match r with
  | [] => exists n, handleOptions n o = Some (Ok tt)
  | k :: t => (k = 0 -> exists n, handleOptions n o = Some (Ok tt)) /\
              (k = 2 -> zlen t < 3 -> exists n, handleOptions n o = Some Panic) /\
              (k <> 0 -> k <> 2 -> forall n, handleOptions n o = None) /\
              (k = 2 -> zlen t < 3)
  end.
Proof.
  intros o. destruct (mss_exists (length o) o (le_n _)) as (r & R & Q). exists r. split; [exact R|].
  destruct r as [|k t].
  - destruct (mss_steps _ _ R 1) as (m & E & _). exists (m + 1)%nat. rewrite E. reflexivity.
  - split; [|split; [|split]].
    + intros ->. destruct (mss_steps _ _ R 1) as (m & E & _). exists (m + 1)%nat. rewrite E. reflexivity.
    + intros -> H. destruct (mss_steps _ _ R 1) as (m & E & _). exists (m + 1)%nat. rewrite E. cbn [handleOptions].
      unfold option_turn. change (2 =? 0) with false. change (2 =? 1) with false. change (2 =? 2) with true. cbv iota.
      rewrite slice_from_panic by lia. reflexivity.
    + intros H0 H2 n. destruct (handleOptions n o) as [x|] eqn:E; [|reflexivity].
      destruct (mss_steps _ _ R n) as (m & E2 & _). rewrite (turns_mono n o x E (m + n)%nat ltac:(lia)) in E2.
      rewrite stuck in E2; [discriminate|]. unfold option_turn. replace (k =? 0) with false by lia. replace (k =? 2) with false by lia.
      now destruct (k =? 1).
    + intros ->. destruct t as [|a [|b [|c t]]]; try contradiction; vm_compute; reflexivity.
Qed.
Print Assumptions C33_exact_partial.
(** So a well-formed list (its MSS options of length 4) terminates normally when it has nothing
    but MSS options, *)
Theorem C33_mss_partial : forall l p, options l p -> (forall x, In x l -> hd 0 x = 2 -> length x = 4%nat) ->
  (forall x, In x l -> hd 0 x = 0 \/ hd 0 x = 2) -> exists n, handleOptions n p = Some (Ok tt).
Proof.
  intros l p O L A. destruct (options_run l p O L) as (r & R & [C|(k & t & -> & Hk)]).
  - destruct (mss_steps _ _ R 1) as (m & E & _). exists (m + 1)%nat. rewrite E. destruct C as [->|(t & ->)]; reflexivity.
  - exfalso. destruct Hk as (K0 & K2 & x & I & Hx). destruct (A x I); congruence.
Qed.
Print Assumptions C33_mss_partial.
(** and never terminates when it holds any no-operation or other option. *)
Theorem C33_refuted : forall l p, options l p -> (forall x, In x l -> hd 0 x = 2 -> length x = 4%nat) ->
  (exists x, In x l /\ hd 0 x <> 0 /\ hd 0 x <> 2) -> forall n, handleOptions n p = None.
Proof.
  intros l p O L (x & I & X0 & X2) n. destruct (options_run_bad l p O L x I X0 X2) as (k & t & R & K0 & K2).
  destruct (handleOptions n p) as [y|] eqn:E; [|reflexivity].
  destruct (mss_steps _ _ R n) as (m & E2 & _). rewrite (turns_mono n p y E (m + n)%nat ltac:(lia)) in E2.
  rewrite stuck in E2; [discriminate|]. unfold option_turn. replace (k =? 0) with false by lia. replace (k =? 2) with false by lia.
  now destruct (k =? 1).
Qed.
Print Assumptions C33_refuted.
Example C33_nonvacuous :
  options [[2; 4; 5; 180]; [0]] [2; 4; 5; 180; 0] /\ handleOptions 9 [2; 4; 5; 180; 0] = Some (Ok tt) /\
  options [[2; 4; 5; 180]; [1]; [3; 3; 7]] [2; 4; 5; 180; 1; 3; 3; 7] /\ mss_run [2; 4; 5; 180; 1; 3; 3; 7] [1; 3; 3; 7] /\
  handleOptions 5 [2; 4] = Some Panic.
Proof.
  split. { change [2; 4; 5; 180; 0] with (2 :: 2 + zlen [5; 180] :: [5; 180] ++ [0]). apply (opts_other [[0]] 2 [5; 180] [0]); [lia|vm_compute; discriminate|apply opts_end]. }
  split; [reflexivity|]. split.
  { apply (opts_other [[1]; [3; 3; 7]] 2 [5; 180] [1; 3; 3; 7]); [lia|vm_compute; discriminate|].
    apply opts_nop. apply (opts_other [] 3 [7] []); [lia|vm_compute; discriminate|constructor]. }
  split; [repeat constructor|reflexivity].
Qed.

(** C34.  Receiving any bytes never panics and what the checker refuses changes nothing; *)
Theorem C34_total : forall s g, wf_bytes g -> exists r, Receive s g = Ok r /\ (~ whole g -> fst r = s).
Proof. exact recv_total. Qed.
Print Assumptions C34_total.
(** a new stream answers the first step of the handshake, *)
Theorem C34_syn_partial : forall g, whole g -> syn g = true ->
  exists s, Receive Init g = Ok (s, ROk) /\ st s = SynReceived /\ next s = 0 /\ rbuf s = [] /\ woken s = 0.
Proof.
  intros g G H. rewrite recv_whole by auto. cbn [st Init]. unfold on_listen. rewrite flag_ok by auto. cbn [bind flag_at].
  unfold syn in H. rewrite H. eexists. repeat split; reflexivity.
Qed.
Print Assumptions C34_syn_partial.
(** but whatever it receives afterwards it is never established and delivers nothing; *)
Theorem C34_server_refuted : forall gs, Forall wf_bytes gs ->
  exists s, receive_all Init gs = Ok s /\ st s <> Established /\ rbuf s = [].
Proof.
  intros gs W. destruct (server_all gs Init W (or_introl eq_refl)) as (q & E & [S|S] & B); exists q; rewrite S; repeat split; auto; discriminate.
Qed.
Print Assumptions C34_server_refuted.
(** a client stream is established exactly by SYN and ACK together; *)
Theorem C34_client_partial : forall s g, whole g -> st s = SynSent ->
  exists q, Receive s g = Ok (q, ROk) /\ (st q = Established <-> syn g = true /\ ack g = true) /\ rbuf q = rbuf s /\ next q = next s.
Proof.
  intros s g G H. rewrite recv_whole, H by auto. unfold on_syn_sent. rewrite !flag_ok by auto. cbn [bind flag_at].
  unfold syn, ack. destruct (bit g 110); cbn [bind].
  - destruct (bit g 107); eexists; (split; [reflexivity|]); cbn [st rbuf next].
    + repeat split; auto.
    + rewrite H. split; [|auto]. split; [discriminate|intros (_ & C); discriminate].
  - eexists; (split; [reflexivity|]). rewrite H. split; [|auto]. split; [discriminate|intros (C & _); discriminate].
Qed.
Print Assumptions C34_client_partial.
(** which is what opening it makes of a stream; *)
Theorem C34_open_partial : forall s g, whole g -> exists q, Receive (Open s) g = Ok (q, ROk) /\
  (st q = Established <-> syn g = true /\ ack g = true) /\ rbuf q = rbuf s /\ next q = next s.
Proof. intros s g G. exact (C34_client_partial (Open s) g G eq_refl). Qed.
Print Assumptions C34_open_partial.
(** an established stream stays so whatever arrives: FIN and RST are ignored; *)
Theorem C34_close_refuted : forall gs s, Forall wf_bytes gs -> st s = Established ->
  exists q, receive_all s gs = Ok q /\ st q = Established.
Proof.
  induction gs as [|g gs IH]; intros s W H; cbn [receive_all]; [eauto|].
  inversion W; subst. destruct (recv_total s g H2) as (r & E & _). rewrite E. cbn [bind]. apply IH; auto. eapply est_step; eauto.
Qed.
Print Assumptions C34_close_refuted.
(** consecutive one-byte segments are delivered in order, without gap or duplicate; *)
Theorem C34_in_order_partial : forall gs s, st s = Established -> consecutive (next s) gs ->
  Forall (fun g => zlen (payload g) = 1) gs ->
  exists q, receive_all s gs = Ok q /\ st q = Established /\ rbuf q = rbuf s ++ concat (map payload gs).
Proof. exact bytewise. Qed.
Print Assumptions C34_in_order_partial.
(** but after a segment of two bytes or more, the next one is put before its last bytes:
    the expected number advances by one, not by the length. *)
Theorem C34_in_order_refuted : forall s g1 g2, st s = Established -> rbuf s = [] -> consecutive (next s) [g1; g2] ->
  0 <= next s < 2 ^ 32 -> 2 <= zlen (payload g1) < 2 ^ 32 -> payload g2 <> [] ->
  exists q, receive_all s [g1; g2] = Ok q /\
    rbuf q = firstn (Z.to_nat (zlen (payload g1) - 1)) (payload g1) ++ payload g2 ++ skipn (Z.to_nat (zlen (payload g1) - 1)) (payload g1) /\
    next q = (next s + 1) mod 2 ^ 32.
Proof.
  intros s g1 g2 H B (G1 & E1 & G2 & E2 & _) HN L1 P2. cbn [receive_all]. rewrite est_in_order by auto. cbn [bind fst].
  assert (N1 : u32 (next s + 1) = (next s + 1) mod 2 ^ 32) by reflexivity.
  assert (D : u32 (seq_no g2 - u32 (next s + 1)) = zlen (payload g1) - 1).
  { rewrite E2, N1. unfold u32. rewrite <- Zminus_mod. replace (next s + zlen (payload g1) - (next s + 1)) with (zlen (payload g1) - 1) by lia.
    apply Z.mod_small. lia. }
  rewrite est_other; [|auto|reflexivity|cbn [next]; intros C; rewrite C, Z.sub_diag in D; change (u32 0) with 0 in D; lia].
  cbn [next rbuf]. rewrite D. unfold insert. rewrite B. cbn [app].
  replace ((0 <=? zlen (payload g1) - 1) && (zlen (payload g1) - 1 <=? zlen (payload g1))) with true by lia.
  cbn [bind fst]. eexists. split; [reflexivity|]. split; [reflexivity|exact N1].
Qed.
Print Assumptions C34_in_order_refuted.
(** Sample segments: 20-byte header, sequence number n (below 256), payload p *)
Definition seg (n flags : Z) (p : bytes) : bytes := [0;0;0;0; 0;0;0;n; 0;0;0;0; 80;flags;0;0; 0;0;0;0] ++ p.
Example C34_nonvacuous :
  whole (seg 7 2 []) /\ syn (seg 7 2 []) = true /\ st (Open Init) = SynSent /\
  consecutive 0 [seg 0 16 [104; 105]; seg 2 16 [33]] /\
  receive_all (Stream Established 0 [] 0) [seg 0 16 [104; 105]; seg 2 16 [33]] = Ok (Stream Established 1 [104; 33; 105] 0) /\
  consecutive 0 [seg 0 16 [104]; seg 1 16 [105]].
Proof.
  assert (W : forall n f p, forallb (fun b => (0 <=? b) && (b <? 256)) (seg n f p) = true -> wf_bytes (seg n f p)).
  { intros n f p H. unfold wf_bytes. rewrite Forall_forall. rewrite forallb_forall in H. intros x Hx. specialize (H x Hx). unfold is_byte. lia. }
  unfold whole. cbn [consecutive]. unfold whole.
  repeat split; try (apply W; vm_compute; reflexivity); vm_compute; congruence.
Qed.

(** C58.  One call: nothing while disabled, not due or not established; *)
Theorem C58_quiet : forall k s use now,
  (enable k = false -> CheckInterval k s use now = (k, Nothing, -1)) /\
  (enable k = true -> - 2 ^ 63 <= nextCheck k - now < 2 ^ 63 -> now < nextCheck k ->
     CheckInterval k s use now = (k, Nothing, nextCheck k - now)) /\
  (enable k = true -> - 2 ^ 63 <= nextCheck k - now < 2 ^ 63 -> nextCheck k <= now -> s <> Established ->
     CheckInterval k s use now = (k, Nothing, -1)).
Proof.
  intros k s use now. unfold CheckInterval. split; [intros ->; reflexivity|]. split.
  - intros -> R H. cbn [negb]. rewrite i64_small by lia. replace (0 <? nextCheck k - now) with true by lia. reflexivity.
  - intros -> R H Hs. cbn [negb]. rewrite i64_small by lia. replace (0 <? nextCheck k - now) with false by lia. destruct s; congruence.
Qed.
Print Assumptions C58_quiet.
(** it is disabled on a new stream, and once enabled waits two hours; *)
Theorem C58_start : forall now, 0 <= now < 2 ^ 62 ->
  (forall s use t, CheckInterval (fst (ka_Init now)) s use t = (fst (ka_Init now), Nothing, -1)) /\
  (forall s use t, 0 <= t < now + 7200 * one_second -> CheckInterval (ka_SetEnable (fst (ka_Init now)) true) s use t =
     (ka_SetEnable (fst (ka_Init now)) true, Nothing, now + 7200 * one_second - t)) /\
  interval (fst (ka_Init now)) = 75 * one_second /\ retry (fst (ka_Init now)) = 0.
Proof.
  intros now N. change (2 ^ 62) with 4611686018427387904 in N. split; [reflexivity|]. split; [|split; reflexivity]. intros s use t H. unfold CheckInterval, ka_SetEnable, ka_Init.
  cbn [fst enable idle interval lastUse nextCheck retry negb]. unfold one_second in *. change (7200 * 1000000000) with 7200000000000 in *. rewrite (i64_small (now + 7200000000000)) by (change (2 ^ 63) with 9223372036854775808; lia). rewrite i64_small by (change (2 ^ 63) with 9223372036854775808; lia).
  replace (0 <? now + 7200000000000 - t) with true by lia. reflexivity.
Qed.
Print Assumptions C58_start.
(** traffic since the last check restarts the idle period and the count; *)
Theorem C58_restart : forall k use now, enable k = true -> - 2 ^ 63 <= nextCheck k - now < 2 ^ 63 -> nextCheck k <= now ->
  - 2 ^ 63 <= now + idle k < 2 ^ 63 -> lastUse k <> use ->
  CheckInterval k Established use now = (Keep true (idle k) (interval k) use (now + idle k) 0, Nothing, idle k).
Proof.
  intros k use now E R H R2 U. unfold CheckInterval. rewrite E. cbn [negb]. rewrite !i64_small by lia.
  replace (0 <? nextCheck k - now) with false by lia. replace (lastUse k =? use) with false by lia. reflexivity.
Qed.
Print Assumptions C58_restart.
(** otherwise a due check probes, or closes the stream after the tenth probe; the next check is
    one interval after the due time less the delay. *)
Theorem C58_due : forall k use now, enable k = true -> nextCheck k <= now -> lastUse k = use ->
  0 <= interval k < 2 ^ 40 -> 0 <= nextCheck k -> now < 2 ^ 62 -> 0 <= retry k < 2 ^ 40 ->
  CheckInterval k Established use now =
    let n := if now =? nextCheck k then 0 else interval k - (now - nextCheck k) in
    if retry k <? 10 then (Keep true (idle k) (interval k) use (nextCheck k + n) (retry k + 1), Probe, n)
    else (Keep true (idle k) (interval k) use (nextCheck k + n) (retry k), CloseStream, n).
Proof.
  intros k use now E H U RI RN RW RR. unfold CheckInterval. rewrite E, U. cbn [negb]. rewrite Z.eqb_refl. cbn [negb enable idle interval lastUse nextCheck retry].
  change (2 ^ 40) with 1099511627776 in *. change (2 ^ 62) with 4611686018427387904 in *.
  assert (S : forall x, - 4611686018427387904 * 2 <= x < 4611686018427387904 * 2 -> i64 x = x) by (intros x Hx; apply i64_small; change (2 ^ 63) with (4611686018427387904 * 2); lia).
  rewrite (S (nextCheck k - now)) by lia. replace (0 <? nextCheck k - now) with false by lia.
  destruct (Z.eqb_spec now (nextCheck k)) as [Q|Q].
  - replace (nextCheck k - now <? 0) with false by lia. replace (nextCheck k - now) with 0 by lia. cbv zeta.
    rewrite !S by lia. replace (retry k <=? 9) with (retry k <? 10) by lia. destruct (retry k <? 10); reflexivity.
  - replace (nextCheck k - now <? 0) with true by lia. cbv zeta. rewrite (S (interval k + _)) by lia.
    replace (interval k + (nextCheck k - now)) with (interval k - (now - nextCheck k)) by lia.
    rewrite (S (nextCheck k + _)), (S (retry k + 1)) by lia.
    replace (retry k <=? 9) with (retry k <? 10) by lia. destruct (retry k <? 10); reflexivity.
Qed.
Print Assumptions C58_due.
(** Without traffic, however often and whenever it is called, at most ten probes are sent, *)
Definition probes (l : list action) : Z := zlen (filter (fun a => match a with Probe => true | _ => false end) l).
Theorem C58_bounded : forall times k use, lastUse k = use -> 0 <= retry k <= 10 ->
  retry (fst (checks k use times)) = retry k + probes (snd (checks k use times)) /\
  retry k + probes (snd (checks k use times)) <= 10.
Proof.
  induction times as [|t r IH]; intros k use U R; cbn [checks].
  { cbn [fst snd]. unfold probes. cbn [filter]. change (zlen (@nil action)) with 0. lia. }
  destruct (CheckInterval k Established use t) as ((k1, a), n) eqn:E.
  assert (P : lastUse k1 = use /\ 0 <= retry k1 <= 10 /\ retry k1 = retry k + (match a with Probe => 1 | _ => 0 end)).
  { unfold CheckInterval in E. destruct (negb (enable k)); [injection E as <- <- _; repeat split; auto; lia|].
    destruct (0 <? _); [injection E as <- <- _; repeat split; auto; lia|]. rewrite U, Z.eqb_refl in E. cbn [negb] in E.
    destruct (Z.leb_spec (retry k) 9); injection E as <- <- _; cbn [lastUse retry]; rewrite ?i64_small by lia; repeat split; auto; lia. }
  destruct P as (P1 & P2 & P3). specialize (IH k1 use P1 P2). destruct (checks k1 use r) as (k2, l). cbn [fst snd] in *.
  assert (PA : probes (a :: l) = (match a with Probe => 1 | _ => 0 end) + probes l).
  { unfold probes. cbn [filter]. destruct a; rewrite ?zlen_cons; lia. }
  lia.
Qed.
Print Assumptions C58_bounded.
(** one more than the configured nine: ten checks, each late by less than half an interval, all
    probe, and the eleventh closes. *)
Theorem C58_count_refuted : exists k times, enable k = true /\ retry k = 0 /\
  snd (checks k 5 times) = repeat Probe 10 ++ [CloseStream].
Proof.
  exists (Keep true (7200 * one_second) (75 * one_second) 5 0 0), (map (fun i => Z.of_nat i * 75 * one_second + 1) (seq 0 11)).
  split; [reflexivity|]. split; [reflexivity|]. vm_compute. reflexivity.
Qed.
Print Assumptions C58_count_refuted.
(** A check at exactly the due time does not move it: calling again probes again at once; *)
Theorem C58_spacing_refuted : forall k use, enable k = true -> lastUse k = use -> 0 <= interval k < 2 ^ 40 ->
  0 <= nextCheck k < 2 ^ 62 -> 0 <= retry k < 9 ->
  snd (checks k use [nextCheck k; nextCheck k]) = [Probe; Probe].
Proof.
  intros k use E U RI RN RR. cbn [checks]. assert (P : 9 < 2 ^ 40) by reflexivity. rewrite (C58_due k use (nextCheck k)) by (auto; lia). cbv zeta. rewrite Z.eqb_refl.
  replace (retry k <? 10) with true by lia. rewrite Z.add_0_r. set (k1 := Keep true _ _ _ _ _).
  rewrite (C58_due k1 use (nextCheck k)) by (subst k1; cbn [enable lastUse interval nextCheck retry]; auto; lia).
  subst k1. cbv zeta. cbn [enable lastUse interval nextCheck retry]. rewrite Z.eqb_refl. replace (retry k + 1 <? 10) with true by lia. reflexivity.
Qed.
Print Assumptions C58_spacing_refuted.
(** Switched off it never probes and keeps its state, whatever the calls; switched on again it goes on as if it had never been off. *)
Theorem C58_switch : forall k calls,
  Forall (fun c => CheckInterval (ka_SetEnable k false) (fst (fst c)) (snd (fst c)) (snd c) = (ka_SetEnable k false, Nothing, -1)) calls /\
  (enable k = true -> ka_SetEnable (ka_SetEnable k false) true = k) /\ (enable k = false -> ka_SetEnable k false = k) /\
  (forall b, enable (ka_SetEnable k b) = b).
Proof.
  intros [e i v l n r] calls. split; [apply Forall_forall; intros ((s, u), t) _; reflexivity|]. cbn [enable]. split; [intros ->; reflexivity|]. split; [intros ->; reflexivity|reflexivity].
Qed.
Print Assumptions C58_switch.
(** A stream taken into use again has lost its interval: enabled, it probes at every check, however close they are, and at the eleventh it is closed. *)
Fixpoint burst (r : Z) (ts : list Z) : list action :=
  match ts with [] => [] | _ :: l => if r <? 10 then Probe :: burst (r + 1) l else CloseStream :: burst r l end.
Lemma spin : forall times k use b, enable k = true -> interval k = 0 -> lastUse k = use -> 0 <= retry k <= 10 -> 0 <= b ->
  - b <= nextCheck k <= 0 -> (b + 2 ^ 50) * 2 ^ zlen times <= 2 ^ 62 -> Forall (fun t => 0 <= t < 2 ^ 50) times ->
  snd (checks k use times) = burst (retry k) times.
Proof.
  induction times as [|t ts IH]; intros k use b E V U R B N S F; [reflexivity|].
  inversion F as [|? ? T F']; subst. rewrite zlen_cons, Z.pow_add_r in S by (unfold zlen; lia). change (2 ^ 1) with 2 in S.
  pose proof (Z.pow_pos_nonneg 2 (zlen ts) ltac:(lia) ltac:(unfold zlen; lia)) as P.
  change (2 ^ 50) with 1125899906842624 in *. change (2 ^ 62) with 4611686018427387904 in *.
  assert (Sm : 2 * (b + 1125899906842624) <= 4611686018427387904) by nia.
  assert (I : forall x, - 4611686018427387904 * 2 <= x < 4611686018427387904 * 2 -> i64 x = x) by (intros x Hx; apply i64_small; change (2 ^ 63) with (4611686018427387904 * 2); lia).
  cbn [checks burst]. unfold CheckInterval. rewrite E, V, Z.eqb_refl. cbn [negb enable idle interval lastUse nextCheck retry]. rewrite (I (nextCheck k - t)) by lia.
  replace (0 <? nextCheck k - t) with false by lia. cbv zeta.
  set (n := if nextCheck k - t <? 0 then i64 (0 + (nextCheck k - t)) else nextCheck k - t).
  assert (En : n = nextCheck k - t) by (unfold n; destruct (_ <? 0); [apply I; lia|reflexivity]).
  rewrite En, (I (nextCheck k + _)), (I (retry k + 1)) by lia.
  replace (retry k <=? 9) with (retry k <? 10) by lia. destruct (Z.ltb_spec (retry k) 10) as [L|L].
  - set (k1 := Keep _ _ _ _ _ _). pose proof (IH k1 (lastUse k) (2 * b + 1125899906842624)) as J. destruct (checks k1 (lastUse k) ts) as (k2, l). cbn [snd] in J |- *. f_equal.
    subst k1. cbn [enable idle interval lastUse nextCheck retry] in J. apply J; auto; try lia; nia.
  - set (k1 := Keep _ _ _ _ _ _). pose proof (IH k1 (lastUse k) (2 * b + 1125899906842624)) as J. destruct (checks k1 (lastUse k) ts) as (k2, l). cbn [snd] in J |- *. f_equal.
    subst k1. cbn [enable idle interval lastUse nextCheck retry] in J. apply J; auto; try lia; nia.
Qed.
Theorem C58_reuse_refuted : forall k times, length times = 11%nat -> Forall (fun t => 0 <= t < 2 ^ 50) times ->
  snd (checks (ka_SetEnable (ka_Reinit k) true) (lastUse k) times) = repeat Probe 10 ++ [CloseStream].
Proof.
  intros k times L F. rewrite (spin times _ (lastUse k) 0); try reflexivity; auto; cbn [ka_SetEnable ka_Reinit retry nextCheck]; try lia.
  - do 11 (destruct times as [|? times]; [discriminate L|]). destruct times; [reflexivity|discriminate L].
  - unfold zlen. rewrite L. discriminate.
Qed.
Print Assumptions C58_reuse_refuted.
Example C58_reuse_case : snd (checks (ka_SetEnable (ka_Reinit (fst (ka_Init 1000))) true) 0 [5; 6; 7; 8; 9; 10; 11; 12; 13; 14; 15]) = repeat Probe 10 ++ [CloseStream].
Proof. apply (C58_reuse_refuted (fst (ka_Init 1000))); [reflexivity|]. repeat constructor; lia. Qed.
Example C58_nonvacuous : snd (checks (ka_SetEnable (fst (ka_Init 1000)) true) 0 [5; 7200 * one_second + 1001]) = [Nothing; Probe].
Proof. vm_compute. reflexivity. Qed.
Example C58_cases : let k := Keep true (7200 * one_second) (75 * one_second) 5 1000 2 in
  CheckInterval k Established 9 2000 = (Keep true (7200 * one_second) (75 * one_second) 9 (2000 + 7200 * one_second) 0, Nothing, 7200 * one_second) /\
  snd (fst (CheckInterval k Established 5 1000)) = Probe /\ snd (fst (CheckInterval (Keep true 1 (75 * one_second) 5 1000 10) Established 5 1000)) = CloseStream /\
  CheckInterval k Established 5 900 = (k, Nothing, 100) /\ snd (checks k 5 [1000; 1000]) = [Probe; Probe].
Proof. repeat split; vm_compute; reflexivity. Qed.

(** C77: the stream timer is started when some part asks to be called: it never is. *)
Theorem C77_timer_refuted : forall asked, arm asked = None.
Proof.
  intros asked. unfold arm. replace (fold_left _ asked 0) with 0; [reflexivity|].
  induction asked as [|n l IH]; [reflexivity|]. cbn [fold_left]. replace ((0 <? n) && (n <? 0)) with false by lia. exact IH.
Qed.
Print Assumptions C77_timer_refuted.
Example C77_nonvacuous : snd (ka_Init 0) = 7200 * one_second /\ arm [snd (ka_Init 0); 0] = None.
Proof. split; vm_compute; reflexivity. Qed.
