(** C129 segments over IP reach their streams; C130 the IPv6 routing header. *)
From Coq Require Import ZifyBool ZifyNat.
From Verif Require Import Go GoFacts NetModel NetProofs TcpModel RegModel EdgeModel EdgeSpec.

Lemma port_ok g k : 0 <= k -> k + 2 <= zlen g -> exists v, get16 g k = Ok v.
Proof.
  intros K L. unfold get16. rewrite slice_from_ok by lia. cbn [bind]. set (s := skipn (Z.to_nat k) g).
  assert (2 <= zlen s) by (unfold s, zlen in *; rewrite skipn_length; lia). destruct s as [|a [|b s]]; try (unfold zlen in H; cbn [length] in H; lia). eexists. reflexivity.
Qed.
Lemma port_panic g k : 0 <= k -> zlen g < k + 2 -> get16 g k = Panic.
Proof.
  intros K L. unfold get16. destruct (Z_lt_ge_dec (zlen g) k) as [C|C]; [rewrite slice_from_panic by lia; reflexivity|].
  rewrite slice_from_ok by lia. cbn [bind]. set (s := skipn (Z.to_nat k) g).
  assert (zlen s < 2) by (unfold s, zlen in *; rewrite skipn_length; lia). destruct s as [|a [|b s]]; try reflexivity. exfalso. unfold zlen in H. cbn [length] in H. lia.
Qed.
Lemma empty_answers (m : table) k g : m k = None -> find_and_receive m k g =
  match tcp_CheckSegment g with Ok Good => Panic | Ok c => Ok (map_set key_eqb m k None, RCheck c) | Panic => Panic end.
Proof. intros E. unfold find_and_receive. rewrite E. cbn [newSocket receive_at]. destruct (tcp_CheckSegment g) as [[]|]; reflexivity. Qed.
Definition empty (m : table) : Prop := forall k, m k = None.
Lemma empty_set m k : empty m -> empty (map_set key_eqb m k None).
Proof. intros E x. unfold map_set. destruct (key_eqb k x); auto. Qed.
Lemma arrivals_empty : forall l m m', empty m -> arrivals m l = Ok m' -> empty m'.
Proof.
  induction l as [|((g, src), dst) r IH]; intros m m' E H; cbn [arrivals] in H; [congruence|].
  unfold ReceiveOverIPv4 in H. destruct (tcp_SourcePort g); [|discriminate]. destruct (tcp_DestinationPort g); [|discriminate]. cbn [bind] in H.
  rewrite empty_answers in H by apply E. destruct (tcp_CheckSegment g) as [[]|]; cbn [bind fst] in H; try discriminate; (eapply IH; [|exact H]; now apply empty_set).
Qed.
(** C129, refuted: whatever has arrived before, no segment is ever delivered: a proper one ends the process,
    one of less than four bytes too, and any other is refused; the map never holds a stream. *)
Theorem C129_delivered_refuted : forall l m, arrivals no_streams l = Ok m ->
  (forall k, m k = None) /\
  forall g src dst, match ReceiveOverIPv4 m g src dst with
    | Ok (m', e) => 4 <= zlen g /\ (forall k, m' k = None) /\ ((e = RCheck TooShort /\ zlen g < 20) \/ (e = RCheck WrongLength /\ 20 <= zlen g))
    | Panic => zlen g < 4 \/ tcp_CheckSegment g = Ok Good
    end.
Proof.
  intros l m H. assert (E : empty m) by (eapply arrivals_empty; [|exact H]; intros k; reflexivity). split; [exact E|].
  intros g src dst. unfold ReceiveOverIPv4. destruct (Z_lt_ge_dec (zlen g) 4) as [C|C].
  - unfold tcp_SourcePort, tcp_DestinationPort. destruct (get16 g 0); [|left; exact C]. cbn [bind]. rewrite port_panic by lia. left. exact C.
  - unfold tcp_SourcePort, tcp_DestinationPort. destruct (port_ok g 0 ltac:(lia) ltac:(lia)) as (sp & ->). destruct (port_ok g 2 ltac:(lia) ltac:(lia)) as (dp & ->). cbn [bind].
    rewrite empty_answers by apply E. unfold tcp_CheckSegment. destruct (Z.ltb_spec (zlen g) 20).
    + split; [lia|]. split; [now apply empty_set|]. left. auto.
    + destruct (tcp_DataOffset g) as [d|] eqn:D; cbn [bind].
      * destruct (zlen g <? d); [|right; reflexivity]. split; [lia|]. split; [now apply empty_set|]. right. auto.
      * exfalso. unfold tcp_DataOffset in D. destruct (nth_error g (Z.to_nat 12)) as [x|] eqn:NE; [|apply nth_error_None in NE; unfold zlen in *; lia].
        rewrite (idx_ok g 12 x ltac:(lia) NE) in D. discriminate.
Qed.
Print Assumptions C129_delivered_refuted.
(** C129.  If a stream were in the map, it would get the segment, and only it would change. *)
Lemma key_eqb_spec a b : key_eqb a b = true <-> a = b.
Proof.
  unfold key_eqb. destruct a as [a1 a2 a3 a4], b as [b1 b2 b3 b4]. cbn [src_ip src_port dst_ip dst_port]. rewrite !Bool.andb_true_iff, !beq_eq. split.
  - intros (((-> & A) & ->) & B). assert (a2 = b2) by lia. assert (a4 = b4) by lia. now subst.
  - intros E. injection E as -> -> -> ->. repeat split; lia.
Qed.
Theorem C129_known_partial : forall m g src dst sp dp s, tcp_SourcePort g = Ok sp -> tcp_DestinationPort g = Ok dp -> m (Key src sp dst dp) = Some s ->
  match TcpModel.Receive s g with
  | Panic => ReceiveOverIPv4 m g src dst = Panic
  | Ok (s', e) => exists m', ReceiveOverIPv4 m g src dst = Ok (m', e) /\ m' (Key src sp dst dp) = Some s' /\ forall k, k <> Key src sp dst dp -> m' k = m k
  end.
Proof.
  intros m g src dst sp dp s Sp Dp M. unfold ReceiveOverIPv4. rewrite Sp, Dp. cbn [bind]. unfold find_and_receive. rewrite M. cbn [receive_at].
  destruct (TcpModel.Receive s g) as [(s', e)|]; [|reflexivity]. cbn [bind fst snd]. eexists. split; [reflexivity|]. unfold map_set. split.
  - assert (E : key_eqb (Key src sp dst dp) (Key src sp dst dp) = true) by now apply key_eqb_spec. now rewrite E.
  - intros k N. destruct (key_eqb (Key src sp dst dp) k) eqn:E; [|reflexivity]. apply key_eqb_spec in E. congruence.
Qed.
Print Assumptions C129_known_partial.
(** C129.  Over IPv6 a segment for a port without a service is answered by an error and changes nothing. *)
Theorem C129_service : forall service m src dst g sp dp, tcp_SourcePort g = Ok sp -> tcp_DestinationPort g = Ok dp -> service dp = false ->
  ReceiveTCPOverIPv6 service m src dst g = Ok (m, None).
Proof. intros service m src dst g sp dp Sp Dp S0. unfold ReceiveTCPOverIPv6. rewrite Sp, Dp. cbn [bind]. now rewrite S0. Qed.
Print Assumptions C129_service.
Theorem C129_ipv6_refuted : forall service m src dst g sp dp, (forall k, m k = None) -> tcp_SourcePort g = Ok sp -> tcp_DestinationPort g = Ok dp -> service dp = true ->
  tcp_CheckSegment g = Ok Good -> ReceiveTCPOverIPv6 service m src dst g = Panic.
Proof. intros service m src dst g sp dp E Sp Dp S1 C. unfold ReceiveTCPOverIPv6. rewrite Sp, Dp. cbn [bind]. rewrite S1, empty_answers by apply E. now rewrite C. Qed.
Print Assumptions C129_ipv6_refuted.
Example C129_case : let g := [0; 80; 1; 187] ++ repeat 0 8 ++ [80; 2] ++ repeat 0 6 in
  tcp_CheckSegment g = Ok Good /\ ReceiveOverIPv4 no_streams g [10; 0; 0; 1] [10; 0; 0; 2] = Panic /\
  (exists m, arrivals no_streams [([1; 2; 3; 4; 5], [], [])] = Ok m) /\
  exists m', ReceiveOverIPv4 (fun _ => Some TcpModel.Init) g [1] [2] = Ok (m', ROk).
Proof. cbv zeta. split; [reflexivity|]. split; [reflexivity|]. split; eexists; reflexivity. Qed.

(** * The routing header *)
Lemma header_at next n type left data opt rest i : zlen data = 4 -> 
  slice_from (routing_header next n type left data opt rest) (8 + i) = if (0 <=? 8 + i) && (8 + i <=? 8 + zlen opt + zlen rest) then
     Ok (skipn (Z.to_nat (8 + i)) (routing_header next n type left data opt rest)) else Panic.
Proof.
  intros D. assert (L : zlen (routing_header next n type left data opt rest) = 8 + zlen opt + zlen rest) by (unfold routing_header; rewrite !zlen_cons, !zlen_app; lia).
  destruct ((0 <=? 8 + i) && (8 + i <=? 8 + zlen opt + zlen rest)) eqn:C; [rewrite slice_from_ok by lia; reflexivity|rewrite slice_from_panic by lia; reflexivity].
Qed.
(** C130.  The first eight bytes read as the standard says. *)
Theorem C130_fixed : forall next n type left data opt rest, zlen data = 4 ->
  let e := routing_header next n type left data opt rest in
  NextHeader e = Ok next /\ Length e = Ok n /\ RoutingType e = Ok type /\ SegmentsLeft e = Ok left /\ TypeSpecificData e = Ok data.
Proof.
  intros next n type left data opt rest D e. repeat split. unfold TypeSpecificData. change 4 with (Z.of_nat 4) at 1.
  do 4 (destruct data as [|? data]; [discriminate D|]). destruct data; [|unfold zlen in D; cbn [length] in D; lia].
  rewrite copy_out_ok by (unfold e, routing_header; cbn [length app]; lia). reflexivity.
Qed.
Print Assumptions C130_fixed.
(** C130.  The rest of the message is found exactly when the header has no optional data: the second byte,
    which counts groups of eight bytes, is taken for a number of bytes. *)
Theorem C130_next_partial : forall next type left data rest, zlen data = 4 ->
  NextFrame (routing_header next 0 type left data [] rest) = Ok rest.
Proof.
  intros next type left data rest D. unfold NextFrame, Length. change (idx (routing_header next 0 type left data [] rest) 1) with (Ok 0). cbn [bind].
  change (u8 (8 + 0)) with (8 + 0). rewrite header_at by exact D. change (zlen (@nil Z)) with 0. pose proof (zlen_nonneg rest).
  replace ((0 <=? 8 + 0) && (8 + 0 <=? 8 + 0 + zlen rest)) with true by lia. f_equal.
  do 4 (destruct data as [|? data]; [discriminate D|]). destruct data; [|unfold zlen in D; cbn [length] in D; lia]. reflexivity.
Qed.
Print Assumptions C130_next_partial.
(** C130, refuted: with optional data, what is found is not the rest of the message, *)
Theorem C130_next_refuted : forall next n type left data opt rest, 1 <= n -> well_formed n data opt ->
  NextFrame (routing_header next n type left data opt rest) <> Ok rest.
Proof.
  intros next n type left data opt rest N (B & D & O) H. unfold NextFrame, Length in H.
  change (idx (routing_header next n type left data opt rest) 1) with (Ok n) in H. cbn [bind] in H.
  assert (U : 0 <= u8 (8 + n) < 8 + 8 * n) by (unfold u8; pose proof (Z.mod_pos_bound (8 + n) 256 ltac:(lia)); pose proof (Z.mod_le (8 + n) 256 ltac:(lia) ltac:(lia)); lia).
  replace (u8 (8 + n)) with (8 + (u8 (8 + n) - 8)) in H by lia. rewrite header_at in H by exact D. destruct ((0 <=? _) && _) eqn:C; [|discriminate].
  assert (E : skipn (Z.to_nat (8 + (u8 (8 + n) - 8))) (routing_header next n type left data opt rest) = rest) by congruence.
  assert (L : zlen (skipn (Z.to_nat (8 + (u8 (8 + n) - 8))) (routing_header next n type left data opt rest)) = zlen rest) by now rewrite E.
  unfold zlen in L. rewrite skipn_length in L. unfold routing_header in L. cbn [length] in L. rewrite !app_length in L. unfold zlen in *. lia.
Qed.
Print Assumptions C130_next_refuted.
(** and the optional data is never what is given for it; with at most 7 groups reading it panics. *)
Theorem C130_optional_refuted : forall next n type left data opt rest, well_formed n data opt ->
  (n < 8 -> Optional (routing_header next n type left data opt rest) = Panic) /\
  (8 <= n -> Optional (routing_header next n type left data opt rest) <> Ok opt).
Proof.
  intros next n type left data opt rest (B & D & O). unfold Optional, Length.
  change (idx (routing_header next n type left data opt rest) 1) with (Ok n). cbn [bind].
  assert (L : zlen (routing_header next n type left data opt rest) = 8 + zlen opt + zlen rest) by (unfold routing_header; rewrite !zlen_cons, !zlen_app; lia).
  pose proof (zlen_nonneg rest). split; intros N.
  - apply slice_panic. lia.
  - rewrite slice_ok by lia. intros E. assert (F : firstn (Z.to_nat (n - 8)) (skipn (Z.to_nat 8) (routing_header next n type left data opt rest)) = opt) by congruence.
    assert (G : zlen (firstn (Z.to_nat (n - 8)) (skipn (Z.to_nat 8) (routing_header next n type left data opt rest))) = zlen opt) by now rewrite F.
    unfold zlen in G. rewrite firstn_length in G. unfold zlen in *. lia.
Qed.
Print Assumptions C130_optional_refuted.
Example C130_case : well_formed 1 [0; 0; 0; 0] (repeat 7 8) /\ NextFrame (routing_header 6 1 4 1 [0; 0; 0; 0] (repeat 7 8) [99]) = Ok (repeat 7 7 ++ [99]).
Proof. split; [repeat split; lia|reflexivity]. Qed.
