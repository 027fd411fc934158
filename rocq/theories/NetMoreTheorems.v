(** More theorems for C34 and C35: what refused segments report, and the congestion field of IPv4. *)
From Coq Require Import ZifyBool ZifyNat.
From Verif Require Import Go GoFacts NetModel NetSpec NetProofs NetTheorems TcpModel TcpSpec TcpProofs.

(** C34.  A segment is reported as refused by the checker exactly when it is not whole, with the
    reason; a whole segment never is. *)
Theorem C34_reports : forall s g, wf_bytes g -> exists s' e, Receive s g = Ok (s', e) /\
  (zlen g < 20 -> e = RCheck TooShort) /\ (20 <= zlen g < header_len g -> e = RCheck WrongLength) /\
  (whole g -> e = ROk \/ e = RInsert /\ st s = Established /\ s' = s).
Proof.
  intros s g W. destruct (Z_lt_ge_dec (zlen g) 20) as [H|H].
  { unfold Receive. rewrite C32_check by auto. replace (zlen g <? 20) with true by lia. cbn [bind].
    exists s, (RCheck TooShort). repeat split; try lia. intros (_ & G & _). lia. }
  destruct (Z_lt_ge_dec (zlen g) (header_len g)) as [H2|H2].
  { unfold Receive. rewrite C32_check by auto. replace (zlen g <? 20) with false by lia. unfold header_len in H2.
    replace (zlen g <? 4 * field g 96 4) with true by lia. cbn [bind].
    exists s, (RCheck WrongLength). repeat split; try lia. intros (_ & _ & G). unfold header_len in G. lia. }
  assert (G : whole g) by (repeat split; auto; lia). rewrite recv_whole by auto.
  assert (K : exists s' e, match st s with Listen => on_listen s g | SynSent => on_syn_sent s g | Established => on_established s g | _ => Ok (s, ROk) end = Ok (s', e) /\
    (e = ROk \/ e = RInsert /\ st s = Established /\ s' = s)).
  { destruct (st s) eqn:St; try (do 2 eexists; split; [reflexivity|auto; fail]).
    - unfold on_listen. rewrite flag_ok by auto. cbn [bind]. do 2 eexists. split; [reflexivity|auto].
    - unfold on_syn_sent. rewrite !flag_ok by auto. cbn [bind]. destruct (bit g (flag_at SYN)); cbn [bind]; do 2 eexists; (split; [reflexivity|auto]).
    - unfold on_established, validateSequence. rewrite payload_ok, seq_ok by auto. cbn [bind]. destruct (seq_no g =? next s).
      + rewrite flag_ok by auto. cbn [bind]. do 2 eexists. split; [reflexivity|auto].
      + destruct (insert _ _ _); do 2 eexists; (split; [reflexivity|auto]). }
  destruct K as (s' & e & E & K). exists s', e. split; [exact E|]. repeat split; try lia; auto.
Qed.
Print Assumptions C34_reports.
Example C34_reports_case : Receive TcpModel.Init (repeat 7 19) = Ok (TcpModel.Init, RCheck TooShort) /\
  Receive TcpModel.Init (upd (repeat 7 20) 12 96) = Ok (TcpModel.Init, RCheck WrongLength) /\ header_len (upd (repeat 7 20) 12 96) = 24.
Proof. vm_compute. auto. Qed.

(** C35.  The congestion field is the two bits 14 and 15.  Marking congestion sets both and clearing
    clears both, and nothing else changes; the ECT test says whether the field is not zero; *)
Theorem C35_ip4_congestion : forall p, wf_bytes p -> 20 <= zlen p ->
  (exists q, ip4_SetFlagCE p = Ok q /\ sets p q 14 2 3) /\
  (exists q, ip4_UnsetFlagECT p = Ok q /\ sets p q 14 2 0) /\
  ip4_FlagECT p = Ok (negb (field p 14 2 =? 0)) /\ ip4_FlagCE p = Ok (negb (field p 14 2 =? 0)).
Proof.
  intros p Hp Hl. unfold zlen in Hl. pose proof (byte_at p 1 Hp) as B.
  assert (F : field p 14 2 = nth 1 p 0 mod 4).
  { change 14 with (8 * Z.of_nat 1 + 6). rewrite (field_in_byte p 1 6 2) by (auto; lia). change (8 - 6 - Z.of_nat 2) with 0. change (2 ^ 0) with 1. now rewrite Z.div_1_r. }
  assert (I : idx p 1 = Ok (nth 1 p 0)) by (apply (nth_idx p 1); lia).
  split; [|split; [|split]].
  - unfold ip4_SetFlagCE, or_byte. rewrite I. cbn [bind]. rewrite set_idx_ok by (unfold zlen; lia). eexists. split; [reflexivity|].
    apply (sets_upd p 1 6 2); auto; try lia.
    + apply lor_byte; auto. unfold is_byte. lia.
    + change (8 - 6 - Z.of_nat 2) with 0. change (2 ^ 0) with 1. rewrite Z.div_1_r. change (2 ^ Z.of_nat 2) with 4.
      pose proof (byte_sweep (fun b => Z.lor b 3 mod 4 =? 3) ltac:(vm_compute; reflexivity) _ B) as K. cbv beta in K. lia.
    + intros t Ht. rewrite Z.lor_spec. replace (Z.testbit 3 t) with false; [apply orb_false_r|].
      symmetry. apply Z.bits_above_log2; [lia|]. change (Z.log2 3) with 1. change (8 - 6 - Z.of_nat 2) with 0 in Ht. lia.
  - unfold ip4_UnsetFlagECT, clear_byte. rewrite I. cbn [bind]. rewrite set_idx_ok by (unfold zlen; lia). eexists. split; [reflexivity|].
    apply (sets_upd p 1 6 2); auto; try lia.
    + apply land_byte; auto. unfold is_byte. lia.
    + change (8 - 6 - Z.of_nat 2) with 0. change (2 ^ 0) with 1. rewrite Z.div_1_r. change (2 ^ Z.of_nat 2) with 4.
      pose proof (byte_sweep (fun b => Z.land b (255 - 3) mod 4 =? 0) ltac:(vm_compute; reflexivity) _ B) as K. cbv beta in K. lia.
    + intros t Ht. change (8 - 6 - Z.of_nat 2) with 0 in Ht. rewrite Z.land_spec, compl_bits by (unfold is_byte; lia).
      replace (Z.testbit 3 t) with false; [apply andb_true_r|].
      symmetry. apply Z.bits_above_log2; [lia|]. change (Z.log2 3) with 1. lia.
  - unfold ip4_FlagECT, ip4_Flag, test_byte, ip4_flag_byte, ip4_flag_mask. rewrite I. cbn [bind]. rewrite F.
    pose proof (byte_sweep (fun b => Bool.eqb (if negb (Z.land b 2 =? 0) then true else negb (Z.land b 1 =? 0)) (negb (b mod 4 =? 0))) ltac:(vm_compute; reflexivity) _ B) as K.
    cbv beta in K. apply Bool.eqb_prop in K. destruct (negb (Z.land (nth 1 p 0) 2 =? 0)); congruence.
  - unfold ip4_FlagCE, test_byte. rewrite I. cbn [bind]. rewrite F. f_equal.
    pose proof (byte_sweep (fun b => Bool.eqb (negb (Z.land b 3 =? 0)) (negb (b mod 4 =? 0))) ltac:(vm_compute; reflexivity) _ B) as K.
    cbv beta in K. now apply Bool.eqb_prop in K.
Qed.
Print Assumptions C35_ip4_congestion.
(** but so does the congestion test, which is true of every packet that merely can be marked. *)
Theorem C35_ip4_ce_refuted : forall p, wf_bytes p -> 20 <= zlen p -> field p 14 2 = 1 \/ field p 14 2 = 2 -> ip4_FlagCE p = Ok true.
Proof. intros p Hp Hl H. destruct (C35_ip4_congestion p Hp Hl) as (_ & _ & _ & ->). f_equal. lia. Qed.
Print Assumptions C35_ip4_ce_refuted.
Example C35_ip4_ce_case : field (upd (repeat 0 20) 1 2) 14 2 = 2 /\ ip4_FlagCE (upd (repeat 0 20) 1 2) = Ok true /\ wf_bytes (upd (repeat 0 20) 1 2).
Proof. split; [reflexivity|]. split; [reflexivity|]. unfold wf_bytes. cbn. repeat constructor; unfold is_byte; lia. Qed.

(** C76.  The two checkers, exactly: so a packet whose length field runs past its end is refused. *)
Theorem C76_exact : forall p, wf_bytes p ->
  ip4_CheckPacket p = Ok (if zlen p <? 40 then TooShort else if zlen p <? 4 * field p 4 4 then WrongLength else Good) /\
  udp_CheckPacket p = Ok (if zlen p <? 8 then TooShort else if zlen p <? field p 32 16 then WrongLength else Good).
Proof.
  intros p Hp. split.
  - unfold ip4_CheckPacket. destruct (Z.ltb_spec (zlen p) 40); [reflexivity|].
    destruct C35_ip4_get as (G & _). destruct (G p Hp ltac:(lia)) as (_ & -> & _). reflexivity.
  - unfold udp_CheckPacket. destruct (Z.ltb_spec (zlen p) 8); [reflexivity|].
    destruct C35_udp_get as (_ & _ & G & _). rewrite G by auto. reflexivity.
Qed.
Print Assumptions C76_exact.
Example C76_exact_case : udp_CheckPacket (upd (repeat 0 12) 5 13) = Ok WrongLength /\ udp_CheckPacket (upd (repeat 0 12) 5 12) = Ok Good.
Proof. split; reflexivity. Qed.
