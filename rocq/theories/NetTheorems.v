(** Property theorems C31, C32, C35, C36, C76 (TCP, IPv4, IPv6 and UDP headers). *)
From Coq Require Import ZifyBool ZifyNat.
From Verif Require Import Go GoFacts NetModel NetSpec NetProofs.

(** A segment / packet used in the examples: bytes 1, 2, 3, ... *)
Definition sample (n : nat) : bytes := map Z.of_nat (seq 1 n).

(** C31: the TCP fields are where RFC 9293 puts them, for every segment of 20 bytes or more, *)
Theorem C31_tcp_get :
  reads 20 tcp_SourcePort 0 16 /\ reads 20 tcp_DestinationPort 16 16 /\
  reads 20 tcp_SequenceNumber 32 32 /\ reads 20 tcp_AckNumber 64 32 /\
  reads 20 tcp_Window 112 16 /\ reads 20 tcp_Checksum 128 16 /\ reads 20 tcp_UrgentPointer 144 16.
Proof.
  repeat split.
  - apply (get16_field 20 0); lia. - apply (get16_field 20 2); lia.
  - apply (get32_field 20 4); lia. - apply (get32_field 20 8); lia.
  - apply (get16_field 20 14); lia. - apply (get16_field 20 16); lia. - apply (get16_field 20 18); lia.
Qed.
Print Assumptions C31_tcp_get.
Theorem C31_tcp_data_offset : forall s, wf_bytes s -> 20 <= zlen s -> tcp_DataOffset s = Ok (4 * field s 96 4).
Proof.
  intros s Hs Hl. unfold zlen in Hl. unfold tcp_DataOffset. change 12 with (Z.of_nat 12). rewrite nth_idx by lia. cbn [bind].
  rewrite hi_nibble by auto. change (8 * Z.of_nat 12) with 96. pose proof (field_range s 96 4) as R.
  change (2 ^ Z.of_nat 4) with 16 in R. rewrite u8_small by lia. f_equal. lia.
Qed.
Print Assumptions C31_tcp_data_offset.
(** each plain setter writes its field and nothing else, whatever the segment held, *)
Theorem C31_tcp_set :
  writes 20 tcp_SetSourcePort 0 16 /\ writes 20 tcp_SetDestinationPort 16 16 /\
  writes 20 tcp_SetSequenceNumber 32 32 /\ writes 20 tcp_SetAckNumber 64 32 /\
  writes 20 tcp_SetFlagPartTwo 104 8 /\
  writes 20 tcp_SetWindow 112 16 /\ writes 20 tcp_SetChecksum 128 16 /\ writes 20 tcp_SetUrgentPointer 144 16.
Proof.
  repeat split.
  - apply (put16_field 20 0); lia. - apply (put16_field 20 2); lia.
  - apply (put32_field 20 4); lia. - apply (put32_field 20 8); lia.
  - apply (put_byte_field 20 13); lia.
  - apply (put16_field 20 14); lia. - apply (put16_field 20 16); lia. - apply (put16_field 20 18); lia.
Qed.
Print Assumptions C31_tcp_set.
(** and writing a field keeps every field that does not overlap it. *)
Theorem C31_other_fields : forall p q off w v off' w', sets p q off w v -> 0 <= off' ->
  off' + Z.of_nat w' <= off \/ off + Z.of_nat w <= off' -> field q off' w' = field p off' w'.
Proof. exact sets_keep. Qed.
Print Assumptions C31_other_fields.
(** So, written out: any of the sixteen combinations of a set and a get behaves; one case in full. *)
Theorem C31_tcp_set_get : forall s v, wf_bytes s -> 20 <= zlen s -> 0 <= v < 2 ^ 32 ->
  exists q, tcp_SetSequenceNumber s v = Ok q /\ zlen q = zlen s /\ wf_bytes q /\
    tcp_SequenceNumber q = Ok v /\ tcp_SourcePort q = tcp_SourcePort s /\
    tcp_DestinationPort q = tcp_DestinationPort s /\ tcp_AckNumber q = tcp_AckNumber s /\
    tcp_DataOffset q = tcp_DataOffset s /\ (forall f, tcp_Flag q f = tcp_Flag s f) /\
    tcp_Window q = tcp_Window s /\ tcp_Checksum q = tcp_Checksum s /\ tcp_UrgentPointer q = tcp_UrgentPointer s /\
    skipn 20 q = skipn 20 s.
Proof.
  intros s v Hs Hl Hv. destruct C31_tcp_set as (_ & _ & W & _). destruct (W s v Hs Hl Hv) as (q & E & S).
  pose proof S as (L & Q & F & R). exists q. split; [exact E|].
  destruct C31_tcp_get as (G1 & G2 & G3 & G4 & G5 & G6 & G7). assert (Lq : 20 <= zlen q) by lia.
  assert (K : forall o w, 0 <= o -> o + Z.of_nat w <= 32 \/ 64 <= o -> field q o w = field s o w)
    by (intros o w Ho Hd; apply (sets_keep _ _ _ _ _ _ _ S); lia).
  split; [exact L|]. split; [exact Q|]. split; [rewrite G3 by auto; now rewrite F|].
  split; [rewrite !G1 by auto; f_equal; apply K; lia|].
  split; [rewrite !G2 by auto; f_equal; apply K; lia|].
  split; [rewrite !G4 by auto; f_equal; apply K; lia|].
  split; [rewrite !C31_tcp_data_offset by auto; f_equal; f_equal; apply K; lia|].
  split; [|split; [rewrite !G5 by auto; f_equal; apply K; lia|]; split; [rewrite !G6 by auto; f_equal; apply K; lia|];
    split; [rewrite !G7 by auto; f_equal; apply K; lia|]].
  - intros f. unfold tcp_Flag. unfold zlen in *.
    assert (H : exists (k : nat) t, flag_byte f = Z.of_nat k /\ flag_mask f = 2 ^ t /\ 0 <= t < 8 /\ (12 <= k < 20)%nat).
    { destruct f; cbn [flag_byte flag_mask];
        match goal with |- exists k t, ?a = _ /\ ?m = _ /\ _ => exists (Z.to_nat a), (Z.log2 m) end; repeat split; cbn; lia. }
    destruct H as (k & t & -> & -> & Ht & Hk). rewrite !flag_test by (auto; lia). f_equal. apply R; lia.
  - unfold tcp_SetSequenceNumber, put32, zlen in *. change 4 with (Z.of_nat 4) in E. rewrite from_ok in E by lia. cbn [bind] in E.
    destruct (BinModel.bele_PutUint32 (skipn 4 s) v) as [z|] eqn:P; [|discriminate]. cbn [bind] in E. assert (Eq : q = firstn (Z.to_nat (Z.of_nat 4)) s ++ z) by congruence. clear E. subst q.
    rewrite (BinSpec.co_put _ _ _ _ _ BinProofs.bele32_ok) in P by (rewrite ?skipn_length; auto; lia). assert (Ez : z = BinSpec.be_digits 4 v ++ skipn 4 (skipn 4 s)) by congruence. clear P. subst z.
    rewrite Nat2Z.id, skip2, skipn_app, firstn_length. replace (20 - Nat.min 4 (length s))%nat with 16%nat by lia.
    rewrite skipn_all2 by (rewrite firstn_length; lia). cbn [app]. rewrite skipn_app, BinProofs.be_digits_length.
    rewrite skipn_all2 by (rewrite BinProofs.be_digits_length; lia). cbn [app]. rewrite skip2. reflexivity.
Qed.
Print Assumptions C31_tcp_set_get.
(** The twelve flags are the bits 100 to 111; reading, setting and clearing one is exact. *)
Definition flag_at (f : tcp_flag) : Z :=
  match f with
  | Reserved1 => 100 | Reserved2 => 101 | Reserved3 => 102 | NS => 103
  | CWR => 104 | ECE => 105 | URG => 106 | ACK => 107 | PSH => 108 | RST => 109 | SYN => 110 | FIN => 111
  end.
Lemma flag_place f : exists (k : nat) t, flag_byte f = Z.of_nat k /\ flag_mask f = 2 ^ t /\ 0 <= t < 8 /\
  (k < 20)%nat /\ flag_at f = 8 * Z.of_nat k + (7 - t).
Proof.
  destruct f; cbn [flag_byte flag_mask];
    match goal with |- exists k t, ?a = _ /\ ?m = _ /\ _ => exists (Z.to_nat a), (Z.log2 m) end; repeat split; cbn; lia.
Qed.
Theorem C31_tcp_flags : forall s f, wf_bytes s -> 20 <= zlen s ->
  tcp_Flag s f = Ok (bit s (flag_at f)) /\
  (exists q, tcp_SetFlag s f = Ok q /\ sets s q (flag_at f) 1 1) /\
  (exists q, tcp_UnsetFlag s f = Ok q /\ sets s q (flag_at f) 1 0).
Proof.
  intros s f Hs Hl. unfold zlen in Hl. destruct (flag_place f) as (k & t & E1 & E2 & Ht & Hk & E3).
  unfold tcp_Flag, tcp_SetFlag, tcp_UnsetFlag. rewrite E1, E2, E3. split; [|split].
  - apply flag_test; auto; lia. - apply flag_set; auto; lia. - apply flag_clear; auto; lia.
Qed.
Print Assumptions C31_tcp_flags.
(** The data offset is or-ed into the old one: exact only if the old bits are among the new. *)
Theorem C31_tcp_set_data_offset_partial : forall s n, wf_bytes s -> 20 <= zlen s -> 0 <= n < 16 ->
  exists q, tcp_SetDataOffset s (4 * n) = Ok q /\ sets s q 96 4 (Z.lor (field s 96 4) n) /\
    tcp_DataOffset q = Ok (4 * Z.lor (field s 96 4) n) /\
    (sets s q 96 4 n <-> Z.ldiff (field s 96 4) n = 0).
Proof.
  intros s n Hs Hl Hn. pose proof Hl as Hl'. unfold zlen in Hl'.
  destruct (or_field s 12 0 4 n Hs ltac:(lia) ltac:(lia) ltac:(lia) Hn) as (q & E & S). exists q.
  change (8 * Z.of_nat 12 + 0) with 96 in S. pose proof S as (L & Q & F & R). split.
  - unfold tcp_SetDataOffset. change 12 with (Z.of_nat 12). rewrite <- E. f_equal. rewrite (Z.mul_comm 4 n), Z.div_mul by lia.
    rewrite Z.shiftl_mul_pow2 by lia. change (8 - 0 - Z.of_nat 4) with 4. change (2 ^ 4) with 16. apply u8_small; lia.
  - split; [auto|]. split.
    + rewrite C31_tcp_data_offset by (auto; lia). now rewrite F.
    + rewrite <- or_subset. split.
      * intros (_ & _ & F' & _). congruence.
      * intros H. rewrite H in S. exact S.
Qed.
Print Assumptions C31_tcp_set_data_offset_partial.
Theorem C31_tcp_set_data_offset_refuted : forall s n, wf_bytes s -> 20 <= zlen s -> 0 <= n < 16 ->
  Z.ldiff (field s 96 4) n <> 0 -> exists q, tcp_SetDataOffset s (4 * n) = Ok q /\ tcp_DataOffset q <> Ok (4 * n).
Proof.
  intros s n Hs Hl Hn Hd. destruct (C31_tcp_set_data_offset_partial s n Hs Hl Hn) as (q & E & _ & G & _).
  exists q. split; auto. rewrite G. intros C. apply Hd, or_subset. assert (4 * Z.lor (field s 96 4) n = 4 * n) by congruence. lia.
Qed.
Print Assumptions C31_tcp_set_data_offset_refuted.
(** The four flag bits next to it likewise. *)
Theorem C31_tcp_set_flag_part_one_partial : forall s n, wf_bytes s -> 20 <= zlen s -> 0 <= n < 16 ->
  exists q, tcp_SetFlagPartOne s n = Ok q /\ sets s q 100 4 (Z.lor (field s 100 4) n).
Proof.
  intros s n Hs Hl Hn. unfold zlen in Hl. destruct (or_field s 12 4 4 n Hs ltac:(lia) ltac:(lia) ltac:(lia) Hn) as (q & E & S).
  exists q. split; auto. unfold tcp_SetFlagPartOne. change 12 with (Z.of_nat 12). rewrite <- E. f_equal. change (2 ^ (8 - 4 - Z.of_nat 4)) with 1. lia.
Qed.
Print Assumptions C31_tcp_set_flag_part_one_partial.
(** Writing a payload that fits replaces that many bytes after the header. *)
Theorem C31_tcp_set_payload : forall s x d, wf_bytes s -> 20 <= zlen s -> d = 4 * field s 96 4 -> 20 <= d ->
  d + zlen x <= zlen s ->
  exists q, tcp_SetPayload s x = Ok q /\ firstn (Z.to_nat d) q = firstn (Z.to_nat d) s /\
    tcp_Payload q = Ok (x ++ skipn (Z.to_nat (d + zlen x)) s).
Proof.
  intros s x d Hs Hl Ed Hd Hx. unfold zlen in *. unfold tcp_SetPayload. rewrite C31_tcp_data_offset by auto. cbn [bind]. rewrite <- Ed.
  pose proof (copy_in_ok s (Z.to_nat d) x ltac:(lia)) as C. rewrite Z2Nat.id in C by lia. rewrite C. clear C.
  eexists. split; [reflexivity|]. set (k := Z.to_nat d). set (q := firstn k s ++ _).
  assert (Lk : length (firstn k s) = k) by (rewrite firstn_length; lia).
  assert (Fq : firstn k q = firstn k s).
  { subst q. rewrite firstn_app, Lk, Nat.sub_diag. cbn [firstn]. rewrite app_nil_r. apply firstn_all2. lia. }
  split; [exact Fq|].
  assert (B : nth 12 q 0 = nth 12 s 0).
  { subst q. rewrite app_nth1 by lia. rewrite <- (firstn_skipn k s) at 2. now rewrite app_nth1 by lia. }
  unfold tcp_Payload, tcp_DataOffset. change 12 with (Z.of_nat 12).
  assert (length q = length s) by (subst q; rewrite !app_length, Lk, skipn_length; lia).
  rewrite nth_idx by lia. rewrite B. cbn [bind]. rewrite hi_nibble by auto. change (8 * Z.of_nat 12) with 96.
  pose proof (field_range s 96 4) as R. change (2 ^ Z.of_nat 4) with 16 in R. rewrite u8_small by lia.
  replace (field s 96 4 * 4) with (Z.of_nat k) by lia. rewrite from_ok by lia. f_equal. subst q.
  rewrite skipn_app, Lk, Nat.sub_diag, skipn_all2 by lia. cbn [app skipn]. f_equal. f_equal. lia.
Qed.
Print Assumptions C31_tcp_set_payload.
(** Writing options writes them after the fixed header, and nothing else; those that do not fit are cut. *)
Theorem C31_tcp_set_options : forall s o, 20 <= zlen s -> exists q, tcp_SetOptions s o = Ok q /\ length q = length s /\
  firstn 20 q = firstn 20 s /\ (20 + zlen o <= zlen s -> q = firstn 20 s ++ o ++ skipn (20 + length o) s) /\
  (zlen s < 20 + zlen o -> q = firstn 20 s ++ firstn (length s - 20) o).
Proof.
  intros s o H. unfold tcp_SetOptions, copy_in, copy_at. replace ((0 <=? 20) && (20 <=? zlen s)) with true by lia. eexists. split; [reflexivity|].
  change (Z.to_nat 20) with 20%nat. unfold zlen in *.
  split; [apply overwrite_length; lia|]. split; [|split; intros L].
  - unfold overwrite. rewrite firstn_app, firstn_firstn, firstn_length. replace (20 - Nat.min 20 (length s))%nat with 0%nat by lia. rewrite firstn_O. apply app_nil_r.
  - apply overwrite_fits. lia.
  - unfold overwrite. f_equal. rewrite (skipn_all2 s) by lia. apply app_nil_r.
Qed.
Print Assumptions C31_tcp_set_options.
Example C31_nonvacuous : wf_bytes (sample 24) /\ 20 <= zlen (sample 24) /\
  tcp_SequenceNumber (sample 24) = Ok 84281096 /\
  (let! q := tcp_SetWindow (sample 24) 4660 in tcp_Window q) = Ok 4660 /\
  (let! q := tcp_SetDataOffset (upd (sample 24) 12 80) 32 in tcp_DataOffset q) = Ok 52 /\
  field (sample 24) 96 4 = 0 /\ Z.ldiff 5 8 <> 0.
Proof.
  split; [unfold wf_bytes, sample; repeat constructor; vm_compute; congruence|].
  repeat split; vm_compute; congruence.
Qed.
Example C31_cases : (let! q := tcp_SetFlag (sample 24) ACK in tcp_Flag q ACK) = Ok true /\ (let! q := tcp_UnsetFlag (sample 24) ACK in tcp_Flag q ACK) = Ok false /\
  field (upd (sample 24) 12 80) 96 4 = 5 /\ tcp_Payload (upd (sample 24) 12 80) = Ok (skipn 20 (sample 24)) /\
  (let! q := tcp_SetPayload (upd (sample 24) 12 80) [1; 2; 3] in tcp_Payload q) = Ok ([1; 2; 3] ++ skipn 23 (sample 24)) /\
  (let! q := tcp_SetFlagPartOne (sample 24) 3 in Ok (field q 100 4)) = Ok (Z.lor (field (sample 24) 100 4) 3).
Proof. repeat split; vm_compute; reflexivity. Qed.

(** C32: the checker accepts exactly the segments of 20 bytes or more that contain their header; *)
Theorem C32_check : forall s, wf_bytes s ->
  tcp_CheckSegment s = Ok (if zlen s <? 20 then TooShort else if zlen s <? 4 * field s 96 4 then WrongLength else Good).
Proof.
  intros s Hs. unfold tcp_CheckSegment. destruct (Z.ltb_spec (zlen s) 20); [reflexivity|].
  rewrite C31_tcp_data_offset by auto. reflexivity.
Qed.
Print Assumptions C32_check.
(** on these no accessor but Options panics; *)
Theorem C32_accessors : forall s, wf_bytes s -> tcp_CheckSegment s = Ok Good ->
  tcp_SourcePort s <> Panic /\ tcp_DestinationPort s <> Panic /\ tcp_SequenceNumber s <> Panic /\
  tcp_AckNumber s <> Panic /\ tcp_DataOffset s <> Panic /\ (forall f, tcp_Flag s f <> Panic) /\
  tcp_Window s <> Panic /\ tcp_Checksum s <> Panic /\ tcp_UrgentPointer s <> Panic /\ tcp_Payload s <> Panic.
Proof.
  intros s Hs Hc. rewrite C32_check in Hc by auto.
  destruct (Z.ltb_spec (zlen s) 20); [discriminate|]. destruct (Z.ltb_spec (zlen s) (4 * field s 96 4)); [discriminate|].
  destruct C31_tcp_get as (G1 & G2 & G3 & G4 & G5 & G6 & G7).
  rewrite G1, G2, G3, G4, G5, G6, G7, C31_tcp_data_offset by auto. pose proof (field_range s 96 4).
  repeat split; try discriminate.
  - intros f. destruct (C31_tcp_flags s f Hs ltac:(lia)) as (-> & _). discriminate.
  - unfold tcp_Payload. rewrite C31_tcp_data_offset by auto. cbn [bind]. rewrite slice_from_ok by lia. discriminate.
Qed.
Print Assumptions C32_accessors.
(** when the header length is 20 or more, header, options and payload partition the bytes; *)
Theorem C32_partition_partial : forall s, wf_bytes s -> tcp_CheckSegment s = Ok Good -> 5 <= field s 96 4 ->
  exists o p, tcp_Options s = Ok o /\ tcp_Payload s = Ok p /\ s = firstn 20 s ++ o ++ p /\ zlen o = 4 * field s 96 4 - 20.
Proof.
  intros s Hs Hc H5. rewrite C32_check in Hc by auto.
  destruct (Z.ltb_spec (zlen s) 20); [discriminate|]. destruct (Z.ltb_spec (zlen s) (4 * field s 96 4)); [discriminate|].
  unfold tcp_Options, tcp_Payload. rewrite C31_tcp_data_offset by auto. cbn [bind]. set (d := 4 * field s 96 4) in *.
  rewrite slice_from_ok, slice_ok by lia. eexists _, _. split; [reflexivity|]. split; [reflexivity|].
  change (Z.to_nat 20) with 20%nat. replace (Z.to_nat (d - 20)) with (Z.to_nat d - 20)%nat by lia. unfold zlen in *. split.
  - rewrite <- (firstn_skipn 20 s) at 1. f_equal. rewrite <- (firstn_skipn (Z.to_nat d - 20) (skipn 20 s)) at 1. f_equal.
    rewrite skip2. f_equal. lia.
  - rewrite firstn_length, skipn_length. lia.
Qed.
Print Assumptions C32_partition_partial.
(** a header length below 20 passes the checker and makes Options panic: exactly these. *)
Theorem C32_options_refuted : forall s, wf_bytes s -> tcp_CheckSegment s = Ok Good ->
  (tcp_Options s = Panic <-> field s 96 4 < 5).
Proof.
  intros s Hs Hc. split.
  - intros HP. destruct (Z_lt_ge_dec (field s 96 4) 5); auto.
    destruct (C32_partition_partial s Hs Hc ltac:(lia)) as (o & p & E & _). congruence.
  - intros H5. rewrite C32_check in Hc by auto.
    destruct (Z.ltb_spec (zlen s) 20); [discriminate|]. unfold tcp_Options. rewrite C31_tcp_data_offset by auto. cbn [bind].
    apply slice_panic. lia.
Qed.
Print Assumptions C32_options_refuted.
Example C32_nonvacuous :
  tcp_CheckSegment (upd (sample 26) 12 96) = Ok Good /\ field (upd (sample 26) 12 96) 96 4 = 6 /\
  tcp_CheckSegment (sample 26) = Ok Good /\ field (sample 26) 96 4 = 0 /\
  tcp_CheckSegment (sample 19) = Ok TooShort /\ tcp_CheckSegment (upd (sample 20) 12 96) = Ok WrongLength.
Proof. repeat split; vm_compute; reflexivity. Qed.

(** C35: IPv4 (RFC 791) *)
Theorem C35_ip4_get :
  (forall p, wf_bytes p -> 20 <= zlen p -> ip4_Version p = Ok (field p 0 4) /\ ip4_IHL p = Ok (4 * field p 4 4) /\
     ip4_DSCP p = Ok (field p 8 6)) /\
  reads 20 ip4_TotalLength 16 16 /\ reads_array 20 ip4_Identification 32 2 /\
  reads 20 ip4_TimeToLive 64 8 /\ reads 20 ip4_Protocol 72 8 /\ reads_array 20 ip4_HeaderChecksum 80 2 /\
  reads_array 20 ip4_SourceAddr 96 4 /\ reads_array 20 ip4_DestinationAddr 128 4.
Proof.
  split; [|repeat split].
  - intros p Hp Hl. unfold zlen in Hl. unfold ip4_Version, ip4_IHL, ip4_DSCP.
    change 0 with (Z.of_nat 0) at 1 3. change 1 with (Z.of_nat 1) at 1. rewrite !nth_idx by lia. cbn [bind].
    rewrite hi_nibble, lo_nibble by auto. change (8 * Z.of_nat 0) with 0. change (0 + 4) with 4.
    pose proof (field_range p 4 4) as R. change (2 ^ Z.of_nat 4) with 16 in R. rewrite u8_small by lia.
    split; [reflexivity|]. split; [f_equal; lia|]. change 8 with (8 * Z.of_nat 1 + 0). rewrite field_in_byte by (auto; lia).
    pose proof (byte_at p 1 Hp) as B. unfold is_byte in B.
    rewrite Z.shiftr_div_pow2 by lia. change (8 - 0 - Z.of_nat 6) with 2. change (2 ^ Z.of_nat 6) with 64. change (2 ^ 2) with 4.
    f_equal. symmetry. apply Z.mod_small. Z.div_mod_to_equations; lia.
  - apply (get16_field 20 2); lia. - apply (copy_out_field 20 4 2); lia.
  - apply (byte_field 20 8); lia. - apply (byte_field 20 9); lia. - apply (copy_out_field 20 10 2); lia.
  - apply (copy_out_field 20 12 4); lia. - apply (copy_out_field 20 16 4); lia.
Qed.
Print Assumptions C35_ip4_get.
Theorem C35_ip4_set :
  writes 20 ip4_SetTotalLength 16 16 /\ writes_array 20 ip4_SetIdentification 32 2 /\
  writes 20 ip4_SetTimeToLive 64 8 /\ writes 20 ip4_SetProtocol 72 8 /\ writes_array 20 ip4_SetHeaderChecksum 80 2 /\
  writes_array 20 ip4_SetSourceAddr 96 4 /\ writes_array 20 ip4_SetDestinationAddr 128 4.
Proof.
  repeat split.
  - apply (put16_field 20 2); lia. - apply (copy_in_field 20 4 2); lia.
  - apply (put_byte_field 20 8); lia. - apply (put_byte_field 20 9); lia. - apply (copy_in_field 20 10 2); lia.
  - apply (copy_in_field 20 12 4); lia. - apply (copy_in_field 20 16 4); lia.
Qed.
Print Assumptions C35_ip4_set.
(** The flag bits: reserved 48, don't fragment 49, more fragments 50, and the two congestion bits. *)
Definition ip4_flag_at (f : ip4_flag) : Z := match f with FReserved => 48 | DF => 49 | MF => 50 | ECT0 => 14 | ECT1 => 15 end.
Theorem C35_ip4_flags : forall p f, wf_bytes p -> 20 <= zlen p ->
  ip4_Flag p f = Ok (bit p (ip4_flag_at f)) /\
  (exists q, ip4_SetFlag p f = Ok q /\ sets p q (ip4_flag_at f) 1 1) /\
  (exists q, ip4_UnsetFlag p f = Ok q /\ sets p q (ip4_flag_at f) 1 0).
Proof.
  intros p f Hp Hl. unfold zlen in Hl.
  assert (H : exists (k : nat) t, ip4_flag_byte f = Z.of_nat k /\ ip4_flag_mask f = 2 ^ t /\ 0 <= t < 8 /\
    (k < 20)%nat /\ ip4_flag_at f = 8 * Z.of_nat k + (7 - t)).
  { destruct f; cbn [ip4_flag_byte ip4_flag_mask];
    match goal with |- exists k t, ?a = _ /\ ?m = _ /\ _ => exists (Z.to_nat a), (Z.log2 m) end; repeat split; cbn; lia. }
  destruct H as (k & t & E1 & E2 & Ht & Hk & E3).
  unfold ip4_Flag, ip4_SetFlag, ip4_UnsetFlag. rewrite E1, E2, E3. split; [|split].
  - apply flag_test; auto; lia. - apply flag_set; auto; lia. - apply flag_clear; auto; lia.
Qed.
Print Assumptions C35_ip4_flags.
(** SetVersion also clears the header length: exact only if it was zero. *)
Theorem C35_ip4_set_version_partial : forall p v, wf_bytes p -> 20 <= zlen p -> 0 <= v < 16 ->
  exists q, ip4_SetVersion p v = Ok q /\ ip4_Version q = Ok v /\ ip4_IHL q = Ok 0 /\ sets p q 0 8 (16 * v) /\
    (sets p q 0 4 v <-> ip4_IHL p = Ok 0).
Proof.
  intros p v Hp Hl Hv. destruct (put_byte_field 20 0 ltac:(lia) p (16 * v) Hp Hl ltac:(change (2 ^ Z.of_nat 8) with 256; lia)) as (q & E & S).
  change (8 * Z.of_nat 0) with 0 in S. exists q. pose proof S as (L & Q & F & _).
  destruct (sets_split p q 0 4 4 _ S) as (F1 & F2). change (2 ^ Z.of_nat 4) with 16 in *. change (0 + Z.of_nat 4) with 4 in *.
  replace (16 * v / 16) with v in F1 by (Z.div_mod_to_equations; lia). replace ((16 * v) mod 16) with 0 in F2 by (Z.div_mod_to_equations; lia).
  split. { unfold ip4_SetVersion. cbv beta in E. rewrite <- E. f_equal. rewrite Z.shiftl_mul_pow2 by lia. change (2 ^ 4) with 16. rewrite u8_small; lia. }
  destruct (C35_ip4_get) as (G & _). destruct (G q Q ltac:(lia)) as (-> & -> & _). destruct (G p Hp Hl) as (_ & -> & _).
  split; [now rewrite F1|]. split; [now rewrite F2|]. split; [exact S|].
  pose proof (sets_narrow p q 0 0 4 4 _ ltac:(lia) S) as N. change (0 + Z.of_nat 0) with 0 in N. change (0 + Z.of_nat 4) with 4 in N.
  rewrite F1, F2 in N. split.
  - intros H. apply N in H. destruct H as (_ & H). rewrite <- H. reflexivity.
  - intros H. apply N. split; [reflexivity|]. assert (4 * field p 4 4 = 0) by congruence. lia.
Qed.
Print Assumptions C35_ip4_set_version_partial.
Theorem C35_ip4_set_version_refuted : forall p v, wf_bytes p -> 20 <= zlen p -> 0 <= v < 16 -> field p 4 4 <> 0 ->
  exists q, ip4_SetVersion p v = Ok q /\ ip4_IHL q <> ip4_IHL p.
Proof.
  intros p v Hp Hl Hv H. destruct (C35_ip4_set_version_partial p v Hp Hl Hv) as (q & E & _ & I & _). exists q. split; auto.
  rewrite I. destruct C35_ip4_get as (G & _). destruct (G p Hp Hl) as (_ & -> & _). intros C. assert (0 = 4 * field p 4 4) by congruence. lia.
Qed.
Print Assumptions C35_ip4_set_version_refuted.
(** SetIHL is or-ed. *)
Theorem C35_ip4_set_ihl_partial : forall p n, wf_bytes p -> 20 <= zlen p -> 0 <= n < 16 ->
  exists q, ip4_SetIHL p (4 * n) = Ok q /\ sets p q 4 4 (Z.lor (field p 4 4) n) /\
    (sets p q 4 4 n <-> Z.ldiff (field p 4 4) n = 0).
Proof.
  intros p n Hp Hl Hn. unfold zlen in Hl. destruct (or_field p 0 4 4 n Hp ltac:(lia) ltac:(lia) ltac:(lia) Hn) as (q & E & S).
  exists q. change (8 * Z.of_nat 0 + 4) with 4 in S. split.
  - unfold ip4_SetIHL. rewrite (Z.mul_comm 4 n), Z.div_mul by lia. rewrite <- E. f_equal. change (2 ^ (8 - 4 - Z.of_nat 4)) with 1. lia.
  - split; [auto|]. rewrite <- or_subset. split.
    + intros (_ & _ & F' & _). destruct S as (_ & _ & F & _). congruence.
    + intros H. rewrite H in S. exact S.
Qed.
Print Assumptions C35_ip4_set_ihl_partial.
(** SetDSCP shifts the wrong way: on a clean byte it stores a sixteenth of the value, so no value but 0 reads back. *)
Theorem C35_ip4_set_dscp_refuted : forall p v, wf_bytes p -> 20 <= zlen p -> field p 8 8 = 0 -> 0 < v < 64 ->
  exists q, ip4_SetDSCP p v = Ok q /\ sets p q 8 8 (v / 4) /\ ip4_DSCP q = Ok (v / 16) /\ ip4_DSCP q <> Ok v.
Proof.
  intros p v Hp Hl H0 Hv. pose proof Hl as Hl'. unfold zlen in Hl'.
  destruct (or_field p 1 0 8 (v / 4) Hp ltac:(lia) ltac:(lia) ltac:(lia)) as (q & E & S).
  { change (2 ^ Z.of_nat 8) with 256. Z.div_mod_to_equations; lia. }
  change (8 * Z.of_nat 1 + 0) with 8 in S. rewrite H0, Z.lor_0_l in S. exists q. split.
  { unfold ip4_SetDSCP. rewrite Z.shiftr_div_pow2 by lia. change (2 ^ 2) with 4. change 1 with (Z.of_nat 1). rewrite <- E. f_equal.
    change (2 ^ (8 - 0 - Z.of_nat 8)) with 1. lia. }
  split; [exact S|]. destruct (sets_split p q 8 6 2 _ S) as (F1 & _). change (2 ^ Z.of_nat 2) with 4 in F1.
  rewrite Z.div_div in F1 by lia. change (4 * 4) with 16 in F1. pose proof S as (L & Q & _).
  destruct C35_ip4_get as (G & _). destruct (G q Q ltac:(lia)) as (_ & _ & ->). rewrite F1. split; [reflexivity|].
  intros C. assert (v / 16 = v) by congruence. Z.div_mod_to_equations; lia.
Qed.
Print Assumptions C35_ip4_set_dscp_refuted.
(** FragmentOffset returns the three flag bits in place, never the 13-bit offset (unless both are 0); *)
Theorem C35_ip4_fragment_get_refuted : forall p, wf_bytes p -> 20 <= zlen p ->
  ip4_FragmentOffset p = Ok (8192 * field p 48 3) /\
  (ip4_FragmentOffset p = Ok (field p 51 13) <-> field p 48 3 = 0 /\ field p 51 13 = 0).
Proof.
  intros p Hp Hl. assert (E : ip4_FragmentOffset p = Ok (8192 * field p 48 3)).
  { unfold ip4_FragmentOffset. change 6 with (Z.of_nat 6). rewrite (get16_field 20 6 ltac:(lia) p Hp Hl). cbn [bind]. f_equal.
    change (8 * Z.of_nat 6) with 48. change 16%nat with (3 + 13)%nat. rewrite field_app. change (48 + Z.of_nat 3) with 51.
    pose proof (field_range p 48 3) as R1. pose proof (field_range p 51 13) as R2. revert R1 R2. generalize (field p 48 3) (field p 51 13). intros a c R1 R2.
    change (2 ^ Z.of_nat 3) with 8 in R1. replace (Z.land (a * 2 ^ Z.of_nat 13 + c) 57344) with (Z.shiftl (Z.shiftr (a * 2 ^ Z.of_nat 13 + c) 13) 13).
    - rewrite Z.shiftr_div_pow2, Z.shiftl_mul_pow2 by lia. change (Z.of_nat 13) with 13 in *. rewrite Z.div_add_l, (Z.div_small c) by lia. change (2 ^ 13) with 8192. lia.
    - assert (Hx : 0 <= a * 2 ^ Z.of_nat 13 + c < 2 ^ 16) by (change (2 ^ Z.of_nat 13) with 8192 in *; change (2 ^ 16) with 65536; lia).
      revert Hx. generalize (a * 2 ^ Z.of_nat 13 + c). intros x Hx. apply Z.bits_inj'. intros n Hn.
      rewrite Z.land_spec, Z.shiftl_spec by lia.
      change 57344 with (Z.shiftl (Z.ones 3) 13). rewrite Z.shiftl_spec by lia. destruct (Z_lt_ge_dec n 13).
      + rewrite (Z.testbit_neg_r (Z.ones 3)), (Z.testbit_neg_r (Z.shiftr x 13)) by lia. now rewrite andb_false_r.
      + rewrite Z.shiftr_spec by lia. replace (n - 13 + 13) with n by lia. destruct (Z_lt_ge_dec n 16).
        * rewrite Z.ones_spec_low by lia. now rewrite andb_true_r.
        * rewrite <- (Z.mod_small x (2 ^ 16)) by lia. rewrite Z.mod_pow2_bits_high by lia. reflexivity. }
  split; [exact E|]. rewrite E. pose proof (field_range p 48 3) as R1. pose proof (field_range p 51 13) as R2.
  change (2 ^ Z.of_nat 13) with 8192 in R2. split.
  - intros C. assert (C' : 8192 * field p 48 3 = field p 51 13) by congruence. lia.
  - intros (-> & ->). reflexivity.
Qed.
Print Assumptions C35_ip4_fragment_get_refuted.
(** SetFragmentOffset stores the offset and clears the flags. *)
Theorem C35_ip4_fragment_set_partial : forall p v, wf_bytes p -> 20 <= zlen p -> 0 <= v < 8192 ->
  exists q, ip4_SetFragmentOffset p v = Ok q /\ sets p q 48 16 v /\ field q 51 13 = v /\
    (sets p q 51 13 v <-> field p 48 3 = 0).
Proof.
  intros p v Hp Hl Hv. destruct (put16_field 20 6 ltac:(lia) p v Hp Hl ltac:(change (2 ^ Z.of_nat 16) with 65536; lia)) as (q & E & S).
  change (8 * Z.of_nat 6) with 48 in S. exists q. split; [exact E|]. split; [exact S|].
  destruct (sets_split p q 48 3 13 _ S) as (F1 & F2). change (2 ^ Z.of_nat 13) with 8192 in *. change (48 + Z.of_nat 3) with 51 in *.
  rewrite Z.div_small in F1 by lia. rewrite Z.mod_small in F2 by lia. split; [exact F2|].
  pose proof (sets_narrow p q 48 3 13 0 _ ltac:(lia) S) as N. change (48 + Z.of_nat 3) with 51 in N. rewrite F1, F2 in N. cbn [field] in N.
  rewrite N. split; [intros (H & _)|intros H]; auto.
Qed.
Print Assumptions C35_ip4_fragment_set_partial.
(** FlagCE reports congestion for every congestion-capable packet. *)
Theorem C35_ip4_flag_ce_refuted : forall p, wf_bytes p -> 20 <= zlen p ->
  ip4_FlagCE p = Ok (negb (field p 14 2 =? 0)) /\
  (ip4_FlagCE p = Ok (field p 14 2 =? 3) <-> field p 14 2 = 0 \/ field p 14 2 = 3).
Proof.
  intros p Hp Hl. unfold zlen in Hl. assert (E : ip4_FlagCE p = Ok (negb (field p 14 2 =? 0))).
  { unfold ip4_FlagCE, test_byte. change 1 with (Z.of_nat 1). rewrite nth_idx by lia. cbn [bind].
    change 14 with (8 * Z.of_nat 1 + 6). rewrite field_in_byte by (auto; lia). change (8 - 6 - Z.of_nat 2) with 0.
    change (2 ^ 0) with 1. rewrite Z.div_1_r. change 3 with (Z.ones 2). rewrite Z.land_ones by lia. reflexivity. }
  split; [exact E|]. rewrite E. pose proof (field_range p 14 2) as R. change (2 ^ Z.of_nat 2) with 4 in R.
  clear E. revert R. generalize (field p 14 2). intros e R.
  destruct (Z.eqb_spec e 0), (Z.eqb_spec e 3); cbn [negb]; split; intros H; try lia; auto; try discriminate.
Qed.
Print Assumptions C35_ip4_flag_ce_refuted.

(** IPv6 (RFC 8200) *)
Theorem C35_ip6_get :
  reads 40 ip6_Version 0 4 /\ reads 40 ip6_TrafficClass 4 8 /\ 
  (forall p, wf_bytes p -> 40 <= zlen p -> exists a, ip6_FlowLabel p = Ok a /\ length a = 3%nat /\ number a = field p 12 20) /\
  reads 40 ip6_PayloadLength 32 16 /\ reads 40 ip6_NextHeader 48 8 /\ reads 40 ip6_HopLimit 56 8 /\
  reads_array 40 ip6_SourceAddr 64 16 /\ reads_array 40 ip6_DestinationAddr 192 16.
Proof.
  repeat split.
  - intros p Hp Hl. unfold zlen in Hl. unfold ip6_Version. change 0 with (Z.of_nat 0) at 1. rewrite nth_idx by lia. cbn [bind].
    now rewrite hi_nibble by auto.
  - intros p Hp Hl. unfold zlen in Hl. unfold ip6_TrafficClass. change 0 with (Z.of_nat 0) at 1. change 1 with (Z.of_nat 1) at 1.
    rewrite !nth_idx by lia. cbn [bind]. rewrite (hi_nibble p 1) by auto. change 8%nat with (4 + 4)%nat. rewrite field_app.
    pose proof (lo_nibble p 0 Hp) as LN. change (8 * Z.of_nat 0 + 4) with 4 in LN. rewrite <- LN. clear LN.
    change (4 + Z.of_nat 4) with (8 * Z.of_nat 1). f_equal.
    pose proof (field_range p (8 * Z.of_nat 1) 4) as R. revert R. generalize (field p (8 * Z.of_nat 1) 4). intros f R.
    change (2 ^ Z.of_nat 4) with 16 in *. pose proof (byte_at p 0 Hp) as B.
    assert (B2 : is_byte f) by (unfold is_byte; lia).
    pose proof (byte_sweep2 (fun b f => (16 <=? f) || (Z.lor (u8 (Z.shiftl b 4)) f =? Z.land b 15 * 16 + f)) ltac:(vm_compute; reflexivity) _ _ B B2) as W.
    cbv beta in W. lia.
  - intros p Hp Hl. unfold zlen in Hl. unfold ip6_FlowLabel. change 1 with (Z.of_nat 1) at 1. rewrite copy_out_ok by lia. cbn [bind].
    destruct p as [|a0 [|a1 [|a2 [|a3 r]]]]; cbn [length] in Hl; try lia. cbn [skipn firstn].
    exists [Z.land a1 15; a2; a3]. split; [reflexivity|]. split; [reflexivity|].
    change 12 with (8 * Z.of_nat 1 + 4). change 20%nat with (4 + 8 * 2)%nat. rewrite field_app, <- lo_nibble by auto.
    change (8 * Z.of_nat 1 + 4 + Z.of_nat 4) with (8 * Z.of_nat 2). rewrite field_bytes by (auto; cbn [length]; lia).
    cbn [nth skipn firstn number]. change (zlen [a2; a3]) with 2. change (2 ^ Z.of_nat (8 * 2)) with (256 ^ 2). reflexivity.
  - apply (get16_field 40 4); lia. - apply (byte_field 40 6); lia. - apply (byte_field 40 7); lia.
  - apply (copy_out_field 40 8 16); lia. - apply (copy_out_field 40 24 16); lia.
Qed.
Print Assumptions C35_ip6_get.
Theorem C35_ip6_set :
  writes 40 ip6_SetPayloadLength 32 16 /\ writes 40 ip6_SetNextHeader 48 8 /\ writes 40 ip6_SetHopLimit 56 8 /\
  writes_array 40 ip6_SetSourceAddr 64 16 /\ writes_array 40 ip6_SetDestinationAddr 192 16.
Proof.
  repeat split.
  - apply (put16_field 40 4); lia. - apply (put_byte_field 40 6); lia. - apply (put_byte_field 40 7); lia.
  - apply (copy_in_field 40 8 16); lia. - apply (copy_in_field 40 24 16); lia.
Qed.
Print Assumptions C35_ip6_set.
(** SetVersion also clears the upper half of the traffic class; *)
Theorem C35_ip6_set_version_partial : forall p v, wf_bytes p -> 40 <= zlen p -> 0 <= v < 16 ->
  exists q, ip6_SetVersion p v = Ok q /\ sets p q 0 8 (16 * v) /\ ip6_Version q = Ok v /\
    (sets p q 0 4 v <-> field p 4 4 = 0).
Proof.
  intros p v Hp Hl Hv. destruct (put_byte_field 40 0 ltac:(lia) p (16 * v) Hp Hl ltac:(change (2 ^ Z.of_nat 8) with 256; lia)) as (q & E & S).
  change (8 * Z.of_nat 0) with 0 in S. exists q. pose proof S as (L & Q & F & _).
  destruct (sets_split p q 0 4 4 _ S) as (F1 & F2). change (2 ^ Z.of_nat 4) with 16 in *. change (0 + Z.of_nat 4) with 4 in *.
  replace (16 * v / 16) with v in F1 by (Z.div_mod_to_equations; lia). replace ((16 * v) mod 16) with 0 in F2 by (Z.div_mod_to_equations; lia).
  split. { unfold ip6_SetVersion. cbv beta in E. rewrite <- E. f_equal. rewrite Z.shiftl_mul_pow2 by lia. change (2 ^ 4) with 16. rewrite u8_small; lia. }
  split; [exact S|]. destruct C35_ip6_get as (G & _). rewrite G by (auto; lia). split; [now rewrite F1|].
  pose proof (sets_narrow p q 0 0 4 4 _ ltac:(lia) S) as N. change (0 + Z.of_nat 0) with 0 in N. change (0 + Z.of_nat 4) with 4 in N.
  rewrite F1, F2 in N. rewrite N. cbn [field]. split; [intros (_ & H)|intros H; split]; auto.
Qed.
Print Assumptions C35_ip6_set_version_partial.
(** SetTrafficClass ors the upper half and clears the first four bits of the flow label; *)
Theorem C35_ip6_set_traffic_class_partial : forall p v, wf_bytes p -> 40 <= zlen p -> 0 <= v < 256 ->
  exists q, ip6_SetTrafficClass p v = Ok q /\ zlen q = zlen p /\ wf_bytes q /\
    field q 4 4 = Z.lor (field p 4 4) (v / 16) /\ field q 8 4 = v mod 16 /\ field q 12 4 = 0 /\
    (forall i, 0 <= i -> i < 4 \/ 16 <= i -> bit q i = bit p i) /\
    (sets p q 4 8 v <-> Z.ldiff (field p 4 4) (v / 16) = 0 /\ field p 12 4 = 0).
Proof.
  intros p v Hp Hl Hv. pose proof Hl as Hl'. unfold zlen in Hl'.
  destruct (or_field p 0 4 4 (v / 16) Hp ltac:(lia) ltac:(lia) ltac:(lia)) as (q1 & E1 & S1).
  { change (2 ^ Z.of_nat 4) with 16. Z.div_mod_to_equations; lia. }
  pose proof S1 as (L1 & Q1 & F1 & R1). change (8 * Z.of_nat 0 + 4) with 4 in *.
  destruct (put_byte_field 40 1 ltac:(lia) q1 (16 * (v mod 16)) Q1 ltac:(lia)) as (q & E & S).
  { change (2 ^ Z.of_nat 8) with 256. Z.div_mod_to_equations; lia. }
  change (8 * Z.of_nat 1) with 8 in S. pose proof S as (L & Q & F & R). exists q. split.
  { unfold ip6_SetTrafficClass. rewrite Z.shiftr_div_pow2 by lia. change (2 ^ 4) with 16.
    change (2 ^ (8 - 4 - Z.of_nat 4)) with 1 in E1. rewrite Z.mul_1_r in E1. change (Z.of_nat 0) with 0 in E1. rewrite E1. cbn [bind].
    cbv beta in E. rewrite <- E. change (Z.of_nat 1) with 1. f_equal. rewrite Z.shiftl_mul_pow2 by lia. unfold u8. change (2 ^ 4) with 16. change (2 ^ 8) with 256.
    Z.div_mod_to_equations; lia. }
  destruct (sets_split q1 q 8 4 4 _ S) as (F2 & F3). change (2 ^ Z.of_nat 4) with 16 in *. change (8 + Z.of_nat 4) with 12 in *.
  replace (16 * (v mod 16) / 16) with (v mod 16) in F2 by (Z.div_mod_to_equations; lia).
  replace ((16 * (v mod 16)) mod 16) with 0 in F3 by (Z.div_mod_to_equations; lia).
  assert (F0 : field q 4 4 = Z.lor (field p 4 4) (v / 16)) by (rewrite (sets_keep _ _ _ _ _ 4 4 S) by lia; exact F1).
  assert (RR : forall i, 0 <= i -> i < 4 \/ 16 <= i -> bit q i = bit p i).
  { intros i Hi Hd. rewrite R by lia. apply R1; lia. }
  split; [lia|]. split; [exact Q|]. split; [exact F0|]. split; [exact F2|]. split; [exact F3|]. split; [exact RR|].
  assert (F8 : field q 4 8 = Z.lor (field p 4 4) (v / 16) * 16 + v mod 16).
  { change 8%nat with (4 + 4)%nat. rewrite field_app. change (4 + Z.of_nat 4) with 8. rewrite F0, F2. reflexivity. }
  assert (S12 : sets p q 4 (0 + (8 + 4)) (field q 4 12)).
  { split; [lia|]. split; [exact Q|]. split; [reflexivity|]. intros i Hi Hd. apply RR; lia. }
  pose proof (sets_narrow p q 4 0 8 4 _ ltac:(lia) S12) as N. change (4 + Z.of_nat 0) with 4 in N. change (4 + Z.of_nat 8) with 12 in N.
  rewrite F3 in N. rewrite <- or_subset. split.
  - intros T. pose proof T as (_ & _ & T8 & _). rewrite F8 in T8. split; [Z.div_mod_to_equations; lia|].
    rewrite <- (sets_keep _ _ _ _ _ 12 4 T) by lia. exact F3.
  - intros (H1 & H2). replace v with (field q 4 8) by (rewrite F8, H1; Z.div_mod_to_equations; lia). apply N. cbn [field]. auto.
Qed.
Print Assumptions C35_ip6_set_traffic_class_partial.
(** so on a packet with a traffic class or a flow label already set, it is wrong. *)
Theorem C35_ip6_set_traffic_class_refuted : forall p v, wf_bytes p -> 40 <= zlen p -> 0 <= v < 256 ->
  Z.ldiff (field p 4 4) (v / 16) <> 0 \/ field p 12 4 <> 0 ->
  exists q, ip6_SetTrafficClass p v = Ok q /\ ~ sets p q 4 8 v.
Proof.
  intros p v Hp Hl Hv H. destruct (C35_ip6_set_traffic_class_partial p v Hp Hl Hv) as (q & E & _ & _ & _ & _ & _ & _ & I).
  exists q. split; auto. rewrite I. tauto.
Qed.
Print Assumptions C35_ip6_set_traffic_class_refuted.
(** SetFlowLabel ors its first four bits. *)
Theorem C35_ip6_set_flow_label_partial : forall p a b c, wf_bytes p -> 40 <= zlen p -> 0 <= a < 16 -> is_byte b -> is_byte c ->
  exists q, ip6_SetFlowLabel p [a; b; c] = Ok q /\
    sets p q 12 20 (Z.lor (field p 12 4) a * 65536 + b * 256 + c) /\
    (sets p q 12 20 (number [a; b; c]) <-> Z.ldiff (field p 12 4) a = 0).
Proof.
  intros p a b c Hp Hl Ha Hb Hc. pose proof Hl as Hl'. unfold zlen in Hl'.
  destruct (or_field p 1 4 4 a Hp ltac:(lia) ltac:(lia) ltac:(lia)) as (q1 & E1 & S1).
  { change (2 ^ Z.of_nat 4) with 16. lia. }
  pose proof S1 as (L1 & Q1 & F1 & R1). change (8 * Z.of_nat 1 + 4) with 12 in *.
  destruct (put_byte_field 40 2 ltac:(lia) q1 b Q1 ltac:(lia)) as (q2 & E2 & S2); [exact Hb|].
  pose proof S2 as (L2 & Q2 & F2 & R2). change (8 * Z.of_nat 2) with 16 in *.
  destruct (put_byte_field 40 3 ltac:(lia) q2 c Q2 ltac:(lia)) as (q & E & S); [exact Hc|].
  pose proof S as (L & Q & F & R). change (8 * Z.of_nat 3) with 24 in *. exists q. split.
  { unfold ip6_SetFlowLabel.
    change (idx [a; b; c] 0) with (Ok a). change (idx [a; b; c] 1) with (Ok b). change (idx [a; b; c] 2) with (Ok c). cbn [bind].
    change (2 ^ (8 - 4 - Z.of_nat 4)) with 1 in E1. rewrite Z.mul_1_r in E1. change (Z.of_nat 1) with 1 in E1. rewrite E1. cbn [bind].
    change (Z.of_nat 2) with 2 in E2. rewrite E2. cbn [bind]. exact E. }
  assert (FV : field q 12 20 = Z.lor (field p 12 4) a * 65536 + b * 256 + c).
  { change 20%nat with (4 + (8 + 8))%nat. rewrite !field_app. change (12 + Z.of_nat 4) with 16. change (16 + Z.of_nat 8) with 24.
    rewrite F. rewrite (sets_keep _ _ _ _ _ 12 4 S), (sets_keep _ _ _ _ _ 16 8 S) by lia. rewrite F2.
    rewrite (sets_keep _ _ _ _ _ 12 4 S2) by lia. rewrite F1. change (2 ^ Z.of_nat (8 + 8)) with 65536. change (2 ^ Z.of_nat 8) with 256. lia. }
  assert (SS : sets p q 12 20 (Z.lor (field p 12 4) a * 65536 + b * 256 + c)).
  { split; [lia|]. split; [exact Q|]. split; [exact FV|]. intros i Hi Hd. rewrite R, R2, R1 by lia. reflexivity. }
  split; [exact SS|]. assert (NE : number [a; b; c] = a * 65536 + b * 256 + c).
  { cbn [number]. change (zlen [b; c]) with 2. change (zlen [c]) with 1. change (zlen (@nil Z)) with 0.
    change (256 ^ 2) with 65536. change (256 ^ 1) with 256. change (256 ^ 0) with 1. lia. }
  rewrite NE, <- or_subset. split.
  - intros (_ & _ & H & _). rewrite FV in H. lia.
  - intros H. rewrite H in SS. exact SS.
Qed.
Print Assumptions C35_ip6_set_flow_label_partial.

(** UDP (RFC 768) *)
Theorem C35_udp_get :
  reads 8 udp_SourcePort 0 16 /\ reads 8 udp_DestinationPort 16 16 /\ reads 8 udp_Length 32 16 /\ reads 8 udp_Checksum 48 16.
Proof.
  repeat split.
  - apply (get16_field 8 0); lia. - apply (get16_field 8 2); lia. - apply (get16_field 8 4); lia. - apply (get16_field 8 6); lia.
Qed.
Print Assumptions C35_udp_get.
Theorem C35_udp_set :
  writes 8 udp_SetSourcePort 0 16 /\ writes 8 udp_SetDestinationPort 16 16 /\ writes 8 udp_SetChecksum 48 16.
Proof.
  repeat split.
  - apply (put16_field 8 0); lia. - apply (put16_field 8 2); lia. - apply (put16_field 8 6); lia.
Qed.
Print Assumptions C35_udp_set.
(** SetLength writes one byte too far: into the low byte of the length and the high byte of the checksum. *)
Theorem C35_udp_set_length_refuted : forall p v, wf_bytes p -> 8 <= zlen p -> 0 <= v < 65536 ->
  exists q, udp_SetLength p v = Ok q /\ sets p q 40 16 v /\
    udp_Length q = Ok (256 * field p 32 8 + v / 256) /\
    udp_Checksum q = Ok (256 * (v mod 256) + field p 56 8) /\
    (udp_Length q = Ok v <-> 256 * field p 32 8 + v / 256 = v).
Proof.
  intros p v Hp Hl Hv. destruct (put16_field 8 5 ltac:(lia) p v Hp Hl Hv) as (q & E & S). change (8 * Z.of_nat 5) with 40 in S.
  exists q. split; [exact E|]. split; [exact S|]. pose proof S as (L & Q & _).
  destruct (sets_split p q 40 8 8 _ S) as (F1 & F2). change (2 ^ Z.of_nat 8) with 256 in *. change (40 + Z.of_nat 8) with 48 in *.
  destruct C35_udp_get as (_ & _ & G3 & G4). rewrite G3, G4 by (auto; lia).
  change 16%nat with (8 + 8)%nat. rewrite !field_app. change (32 + Z.of_nat 8) with 40. change (48 + Z.of_nat 8) with 56. change (2 ^ Z.of_nat 8) with 256.
  rewrite F1, F2, (sets_keep _ _ _ _ _ 32 8 S), (sets_keep _ _ _ _ _ 56 8 S) by lia.
  split; [f_equal; lia|]. split; [f_equal; lia|]. split; intros H; [assert (H2 : field p 32 8 * 256 + v / 256 = v) by congruence; lia|f_equal; lia].
Qed.
Print Assumptions C35_udp_set_length_refuted.
(** Writing a payload (or IPv4 options) replaces the bytes after the header, as many as there are and
    as there is room for; the header and the length of the packet stay, and what is read back starts
    with what was written. *)
Definition payload_at (h : Z) (p a q : bytes) (read : bytes -> res bytes) : Prop :=
  let k := Z.to_nat h in
  length q = length p /\ firstn k q = firstn k p /\
  read q = Ok (firstn (length p - k) a ++ skipn (k + length a) p).
Lemma payload_at_ok p a h : 0 <= h <= zlen p -> exists q, copy_in p h a = Ok q /\ payload_at h p a q (fun q => slice_from q h).
Proof.
  intros H. unfold copy_in, copy_at. replace ((0 <=? h) && (h <=? zlen p)) with true by lia. eexists. split; [reflexivity|]. unfold payload_at. cbv zeta. unfold zlen in *. set (k := Z.to_nat h).
  assert (Lk : length (firstn k p) = k) by (rewrite firstn_length; lia).
  assert (Lo : length (overwrite p k a) = length p) by (apply overwrite_length; lia).
  split; [exact Lo|]. split.
  - unfold overwrite. rewrite firstn_app, Lk, Nat.sub_diag. cbn [firstn]. rewrite app_nil_r. apply firstn_all2. lia.
  - rewrite slice_from_ok by (unfold zlen; lia). fold k. f_equal. unfold overwrite. rewrite skipn_app, Lk, Nat.sub_diag, skipn_all2 by lia. cbn [app skipn]. reflexivity.
Qed.
Theorem C35_payloads : forall p a, wf_bytes p -> wf_bytes a ->
  (8 <= zlen p -> exists q, udp_SetPayload p a = Ok q /\ payload_at 8 p a q udp_Payload) /\
  (20 <= zlen p -> exists q, ip4_SetOptions p a = Ok q /\ payload_at 20 p a q ip4_Options) /\
  (20 <= zlen p -> 20 <= 4 * field p 4 4 <= zlen p -> exists q, ip4_SetPayload p a = Ok q /\ payload_at (4 * field p 4 4) p a q ip4_Payload) /\
  (40 <= zlen p -> exists q, ip6_SetPayload p a = Ok q /\ payload_at 40 p a q ip6_Payload).
Proof.
  intros p a Hp Ha. split; [|split; [|split]].
  - intros H. apply (payload_at_ok p a 8). lia.
  - intros H. apply (payload_at_ok p a 20). lia.
  - intros H Hh. destruct (proj1 C35_ip4_get p Hp H) as (_ & E & _). destruct (payload_at_ok p a (4 * field p 4 4)) as (q & Q & L & F & R); [lia|].
    exists q. unfold ip4_SetPayload. rewrite E. split; [exact Q|]. split; [exact L|]. split; [exact F|].
    assert (I : ip4_IHL q = ip4_IHL p).
    { unfold ip4_IHL. destruct p as [|x p]; [unfold zlen in H; cbn [length] in H; lia|].
      destruct (Z.to_nat (4 * field (x :: p) 4 4)) eqn:K; [lia|]. destruct q as [|y q]; [discriminate L|]. cbn [firstn] in F. injection F as -> _. reflexivity. }
    unfold ip4_Payload. rewrite I, E. exact R.
  - intros H. apply (payload_at_ok p a 40). lia.
Qed.
Print Assumptions C35_payloads.
Example C35_nonvacuous : wf_bytes (sample 48) /\
  (let! q := ip4_SetVersion (upd (sample 48) 0 69) 4 in ip4_IHL q) = Ok 0 /\
  (let! q := ip4_SetDSCP (upd (sample 48) 1 0) 46 in ip4_DSCP q) = Ok 2 /\
  ip4_FragmentOffset (sample 48) = Ok 0 /\ field (sample 48) 51 13 = 1800 /\
  (let! q := ip6_SetHopLimit (sample 48) 64 in ip6_HopLimit q) = Ok 64 /\
  (let! q := udp_SetLength (sample 8) 8 in udp_Length q) = Ok 1280 /\
  field (sample 48) 12 4 = 2 /\ Z.ldiff 2 1 <> 0.
Proof.
  split; [unfold wf_bytes, sample; repeat constructor; vm_compute; congruence|].
  repeat split; vm_compute; congruence.
Qed.
Example C35_cases : (let! q := ip4_SetIHL (upd (sample 48) 0 64) 20 in ip4_IHL q) = Ok 20 /\ (let! q := ip4_SetFragmentOffset (sample 48) 5 in Ok (field q 51 13)) = Ok 5 /\
  (let! q := ip6_SetVersion (sample 48) 6 in ip6_Version q) = Ok 6 /\ (let! q := ip6_SetTrafficClass (repeat 0 48) 171 in ip6_TrafficClass q) = Ok 171 /\
  (let! q := ip6_SetFlowLabel (repeat 0 48) [1; 2; 3] in ip6_FlowLabel q) = Ok [1; 2; 3] /\ (let! q := udp_SetPayload (sample 12) [1; 2; 3; 4] in udp_Payload q) = Ok [1; 2; 3; 4].
Proof. repeat split; vm_compute; reflexivity. Qed.

(** C36: no accessor panics on an accepted packet. *)
Theorem C36_ip4 : forall p, wf_bytes p -> ip4_CheckPacket p = Ok Good ->
  ip4_Version p <> Panic /\ ip4_IHL p <> Panic /\ ip4_DSCP p <> Panic /\ ip4_TotalLength p <> Panic /\
  ip4_Identification p <> Panic /\ ip4_FragmentOffset p <> Panic /\ ip4_TimeToLive p <> Panic /\ ip4_Protocol p <> Panic /\
  ip4_HeaderChecksum p <> Panic /\ ip4_SourceAddr p <> Panic /\ ip4_DestinationAddr p <> Panic /\
  ip4_Options p <> Panic /\ ip4_Payload p <> Panic /\ (forall f, ip4_Flag p f <> Panic) /\ ip4_FlagECT p <> Panic /\ ip4_FlagCE p <> Panic.
Proof.
  intros p Hp Hc. unfold ip4_CheckPacket in Hc. destruct (Z.ltb_spec (zlen p) 40); [discriminate|].
  assert (Hl : 20 <= zlen p) by lia.
  destruct C35_ip4_get as (G & G2 & G3 & G4 & G5 & G6 & G7 & G8). destruct (G p Hp Hl) as (V & I & D).
  rewrite I in Hc. cbn [bind] in Hc. destruct (Z.ltb_spec (zlen p) (4 * field p 4 4)); [discriminate|].
  destruct (G3 p Hp Hl) as (a3 & E3 & _), (G6 p Hp Hl) as (a6 & E6 & _), (G7 p Hp Hl) as (a7 & E7 & _), (G8 p Hp Hl) as (a8 & E8 & _).
  destruct (C35_ip4_fragment_get_refuted p Hp Hl) as (FO & _). destruct (C35_ip4_flag_ce_refuted p Hp Hl) as (FC & _).
  assert (FF : forall f, ip4_Flag p f = Ok (bit p (ip4_flag_at f))) by (intros f; apply (C35_ip4_flags p f Hp Hl)).
  unfold ip4_Payload, ip4_FlagECT. rewrite V, I, D, G2, E3, FO, G4, G5, E6, E7, E8, FC, !FF by auto. cbn [bind].
  pose proof (field_range p 4 4). rewrite slice_from_ok by lia. unfold ip4_Options. rewrite slice_from_ok by lia.
  repeat split; try discriminate.
  - intros f. rewrite FF. discriminate.
  - destruct (bit p _); discriminate.
Qed.
Print Assumptions C36_ip4.
Theorem C36_ip6 : forall p, wf_bytes p -> ip6_CheckPacket p = Good ->
  ip6_Version p <> Panic /\ ip6_TrafficClass p <> Panic /\ ip6_FlowLabel p <> Panic /\ ip6_PayloadLength p <> Panic /\
  ip6_NextHeader p <> Panic /\ ip6_HopLimit p <> Panic /\ ip6_SourceAddr p <> Panic /\ ip6_DestinationAddr p <> Panic /\
  exists b, ip6_Payload p = Ok b /\ p = firstn 40 p ++ b.
Proof.
  intros p Hp Hc. unfold ip6_CheckPacket in Hc. destruct (Z.ltb_spec (zlen p) 40); [discriminate|].
  destruct C35_ip6_get as (G1 & G2 & G3 & G4 & G5 & G6 & G7 & G8).
  destruct (G3 p Hp H) as (a3 & E3 & _), (G7 p Hp H) as (a7 & E7 & _), (G8 p Hp H) as (a8 & E8 & _).
  rewrite G1, G2, E3, G4, G5, G6, E7, E8 by auto. repeat split; try discriminate.
  unfold ip6_Payload. rewrite slice_from_ok by lia. eexists. split; [reflexivity|]. change (Z.to_nat 40) with 40%nat. symmetry. apply firstn_skipn.
Qed.
Print Assumptions C36_ip6.
Theorem C36_udp : forall p, wf_bytes p -> udp_CheckPacket p = Ok Good ->
  udp_SourcePort p <> Panic /\ udp_DestinationPort p <> Panic /\ udp_Length p <> Panic /\ udp_Checksum p <> Panic /\
  exists b, udp_Payload p = Ok b /\ p = firstn 8 p ++ b.
Proof.
  intros p Hp Hc. unfold udp_CheckPacket in Hc. destruct (Z.ltb_spec (zlen p) 8); [discriminate|].
  destruct C35_udp_get as (G1 & G2 & G3 & G4). rewrite G1, G2, G3, G4 by auto. repeat split; try discriminate.
  unfold udp_Payload. rewrite slice_from_ok by lia. eexists. split; [reflexivity|]. change (Z.to_nat 8) with 8%nat. symmetry. apply firstn_skipn.
Qed.
Print Assumptions C36_udp.
(** The checkers never panic. *)
Theorem C36_checkers_total : forall p, wf_bytes p -> ip4_CheckPacket p <> Panic /\ udp_CheckPacket p <> Panic.
Proof.
  intros p Hp. unfold ip4_CheckPacket, udp_CheckPacket. split.
  - destruct (Z.ltb_spec (zlen p) 40); [discriminate|]. destruct C35_ip4_get as (G & _). destruct (G p Hp ltac:(lia)) as (_ & -> & _). discriminate.
  - destruct (Z.ltb_spec (zlen p) 8); [discriminate|]. destruct C35_udp_get as (_ & _ & G & _). rewrite G by (auto; lia). discriminate.
Qed.
Print Assumptions C36_checkers_total.
Example C36_nonvacuous : ip4_CheckPacket (upd (sample 48) 0 69) = Ok Good /\ ip6_CheckPacket (sample 40) = Good /\
  udp_CheckPacket (upd (sample 12) 4 0) = Ok Good.
Proof. repeat split; vm_compute; reflexivity. Qed.

(** C76: the checkers accept the valid packets and the payload is the one the header describes.
    An IPv4 header is valid with 5 or more words, all inside the packet, and a total length that
    covers the header and lies inside the packet; a UDP length covers the 8 header bytes. *)
Definition ip4_valid (p : bytes) : Prop :=
  20 <= zlen p /\ 5 <= field p 4 4 /\ 4 * field p 4 4 <= field p 16 16 <= zlen p.
Definition udp_valid (p : bytes) : Prop := 8 <= zlen p /\ 8 <= field p 32 16 <= zlen p.
(** Valid UDP packets are accepted, valid IPv4 packets of 40 bytes or more too; *)
Theorem C76_accepts_partial : forall p, wf_bytes p ->
  (ip4_valid p -> 40 <= zlen p -> ip4_CheckPacket p = Ok Good) /\ (udp_valid p -> udp_CheckPacket p = Ok Good).
Proof.
  intros p Hp. split.
  - intros (H1 & H2 & H3) H. unfold ip4_CheckPacket. replace (zlen p <? 40) with false by lia.
    destruct C35_ip4_get as (G & _). destruct (G p Hp H1) as (_ & -> & _). cbn [bind]. replace (zlen p <? 4 * field p 4 4) with false by lia. reflexivity.
  - intros (H1 & H2). unfold udp_CheckPacket. replace (zlen p <? 8) with false by lia.
    destruct C35_udp_get as (_ & _ & G & _). rewrite G by auto. cbn [bind]. replace (zlen p <? field p 32 16) with false by lia. reflexivity.
Qed.
Print Assumptions C76_accepts_partial.
(** every valid IPv4 packet shorter than 40 bytes is refused; *)
Theorem C76_ip4_short_refuted : forall p, ip4_valid p -> zlen p < 40 -> ip4_CheckPacket p = Ok TooShort.
Proof. intros p _ H. unfold ip4_CheckPacket. replace (zlen p <? 40) with true by lia. reflexivity. Qed.
Print Assumptions C76_ip4_short_refuted.
(** a header length below 20, or a UDP length below 8, is accepted; *)
Theorem C76_bad_length_refuted : forall p, wf_bytes p ->
  (40 <= zlen p -> field p 4 4 < 5 -> ip4_CheckPacket p = Ok Good /\ ~ ip4_valid p) /\
  (8 <= zlen p -> field p 32 16 < 8 -> udp_CheckPacket p = Ok Good /\ ~ udp_valid p).
Proof.
  intros p Hp. split.
  - intros H1 H2. split; [|unfold ip4_valid; lia]. unfold ip4_CheckPacket. replace (zlen p <? 40) with false by lia.
    destruct C35_ip4_get as (G & _). destruct (G p Hp ltac:(lia)) as (_ & -> & _). cbn [bind]. replace (zlen p <? 4 * field p 4 4) with false by lia. reflexivity.
  - intros H1 H2. split; [|unfold udp_valid; lia]. unfold udp_CheckPacket. replace (zlen p <? 8) with false by lia.
    destruct C35_udp_get as (_ & _ & G & _). rewrite G by auto. cbn [bind]. replace (zlen p <? field p 32 16) with false by lia. reflexivity.
Qed.
Print Assumptions C76_bad_length_refuted.
(** the payload of a valid packet starts right after the header but runs to the end of the
    buffer: it is the described payload followed by the trailing bytes. *)
Theorem C76_payload_partial : forall p, wf_bytes p ->
  (ip4_valid p -> exists d t, ip4_Payload p = Ok (d ++ t) /\ zlen d = field p 16 16 - 4 * field p 4 4 /\ zlen t = zlen p - field p 16 16 /\
     p = firstn (Z.to_nat (4 * field p 4 4)) p ++ d ++ t) /\
  (udp_valid p -> exists d t, udp_Payload p = Ok (d ++ t) /\ zlen d = field p 32 16 - 8 /\ zlen t = zlen p - field p 32 16 /\
     p = firstn 8 p ++ d ++ t).
Proof.
  intros p Hp. split.
  - intros (H1 & H2 & H3). unfold ip4_Payload. destruct C35_ip4_get as (G & _). destruct (G p Hp H1) as (_ & -> & _). cbn [bind].
    set (h := 4 * field p 4 4) in *. set (n := field p 16 16) in *. rewrite slice_from_ok by lia.
    exists (firstn (Z.to_nat (n - h)) (skipn (Z.to_nat h) p)), (skipn (Z.to_nat (n - h)) (skipn (Z.to_nat h) p)).
    rewrite firstn_skipn. split; [reflexivity|]. unfold zlen in *. rewrite firstn_length, !skipn_length. rewrite firstn_skipn. repeat split; lia.
  - intros (H1 & H2). unfold udp_Payload. set (n := field p 32 16) in *. rewrite slice_from_ok by lia. change (Z.to_nat 8) with 8%nat.
    exists (firstn (Z.to_nat (n - 8)) (skipn 8 p)), (skipn (Z.to_nat (n - 8)) (skipn 8 p)).
    rewrite firstn_skipn. split; [reflexivity|]. unfold zlen in *. rewrite firstn_length, !skipn_length. rewrite firstn_skipn. repeat split; lia.
Qed.
Print Assumptions C76_payload_partial.
Example C76_nonvacuous : ip4_valid (upd (upd (upd (sample 48) 0 69) 2 0) 3 42) /\ udp_valid (upd (upd (sample 12) 4 0) 5 10) /\
  ip4_valid (upd (upd (upd (sample 30) 0 69) 2 0) 3 28) /\ field (sample 48) 4 4 < 5.
Proof. unfold ip4_valid, udp_valid. repeat split; vm_compute; congruence. Qed.
