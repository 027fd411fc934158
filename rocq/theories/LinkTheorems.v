(** C39, C40, C41, C79, C80: GP frames, Chapar frames and paths. *)
From Coq Require Import ZifyBool ZifyNat Permutation.
From Verif Require Import Go GoFacts NetModel NetSpec NetProofs AddrProofs LinkModel LinkProofs.

(** C39: a GP frame is one type byte with the value 4, a 16-byte destination and a 16-byte source.
    Exactly the 33-byte strings starting with 4 are accepted; *)
Theorem C39_accepts : forall f, exists e, gp_CheckFrame f = Ok e /\ (e = FOk <-> zlen f = 33 /\ hd 0 f = 4).
Proof.
  intros f. unfold gp_CheckFrame. destruct (Z.eqb_spec (zlen f) 33) as [L|L]; cbn [negb].
  - destruct f as [|t f]; [discriminate L|]. change (idx (t :: f) 0) with (Ok t). cbn [bind hd].
    destruct (Z.eqb_spec t 4); cbn [negb]; eexists; (split; [reflexivity|]); split; try discriminate; auto. intros (_ & C). congruence.
  - exists FLength. split; [reflexivity|]. split; [discriminate|]. intros (C & _). congruence.
Qed.
Print Assumptions C39_accepts.
(** the accessors of a whole frame read and write their bytes and no others; *)
Theorem C39_frame_fields :
  reads 33 gp_FrameType 0 8 /\ reads_array 33 gp_DestinationAddr 8 16 /\ reads_array 33 gp_SourceAddr 136 16 /\
  writes 33 gp_SetFrameType 0 8 /\ writes_array 33 gp_SetDestinationAddr 8 16 /\ writes_array 33 gp_SetSourceAddr 136 16.
Proof.
  split; [apply (byte_field 33 0); lia|]. split; [apply (copy_out_field 33 1 16); lia|]. split; [apply (copy_out_field 33 17 16); lia|].
  split; [apply (put_byte_field 33 0); lia|]. split; [apply (copy_in_field 33 1 16); lia|]. apply (copy_in_field 33 17 16); lia.
Qed.
Print Assumptions C39_frame_fields.
(** so do the components of an address, in network order; *)
Theorem C39_address_fields :
  reads 16 PlanetID 0 16 /\ reads 16 SocietyID 16 32 /\ reads 16 RouterID 48 32 /\ reads 16 UserID 80 32 /\ reads 16 AppID 112 16 /\
  writes 16 SetPlanetID 0 16 /\ writes 16 SetSocietyID 16 32 /\ writes 16 SetRouterID 48 32 /\ writes 16 SetUserID 80 32 /\ writes 16 SetAppID 112 16.
Proof.
  split; [apply (get16_field 16 0); lia|]. split; [apply (get32_field 16 2); lia|]. split; [apply (get32_field 16 6); lia|].
  split; [apply (get32_field 16 10); lia|]. split; [apply (get16_field 16 14); lia|].
  split; [apply (put16_field 16 0); lia|]. split; [apply (put32_field 16 2); lia|]. split; [apply (put32_field 16 6); lia|].
  split; [apply (put32_field 16 10); lia|]. apply (put16_field 16 14); lia.
Qed.
Print Assumptions C39_address_fields.
(** setting one address of a frame sets it and keeps the other one and the type. *)
Theorem C39_set_get : forall f a, zlen f = 33 -> zlen a = 16 ->
  (exists g, gp_SetDestinationAddr f a = Ok g /\ gp_DestinationAddr g = Ok a /\ gp_SourceAddr g = gp_SourceAddr f /\ gp_FrameType g = gp_FrameType f /\ zlen g = 33) /\
  (exists g, gp_SetSourceAddr f a = Ok g /\ gp_SourceAddr g = Ok a /\ gp_DestinationAddr g = gp_DestinationAddr f /\ gp_FrameType g = gp_FrameType f /\ zlen g = 33).
Proof.
  intros f a L La. do 33 (destruct f as [|? f]; [discriminate L|]). destruct f; [|unfold zlen in L; cbn [length] in L; lia].
  do 16 (destruct a as [|? a]; [discriminate La|]). destruct a; [|unfold zlen in La; cbn [length] in La; lia].
  split; (eexists; split; [reflexivity|repeat split; reflexivity]).
Qed.
Print Assumptions C39_set_get.
Example C39_nonvacuous : gp_CheckFrame (4 :: repeat 7 32) = Ok FOk /\ SocietyID (0 :: 1 :: 0 :: 0 :: 1 :: 2 :: repeat 0 10) = Ok 258.
Proof. split; vm_compute; reflexivity. Qed.

(** C40: a unicast frame is the type 3, the hop count n, the next hop and n port numbers.  Passing
    n switches, for n up to 252, records the port each one received it on in place of the port
    used, counts the hops, and ends at the n-th switch only; *)
Theorem C40_forward_partial : forall n path ports rest, zlen path = n -> zlen ports = n -> 1 <= n <= 252 ->
  forward (3 :: n :: 0 :: path ++ rest) ports =
    Ok (3 :: n :: (n - 1) :: ports ++ rest, repeat false (Z.to_nat (n - 1)) ++ [true]).
Proof.
  intros n path ports rest Lp Lq H. destruct (snoc_case ports (Z.to_nat (n - 1))) as (q & p & -> & Lq'); [unfold zlen in Lq; lia|].
  destruct (snoc_case path (Z.to_nat (n - 1))) as (a & x & -> & La); [unfold zlen in Lp; lia|].
  rewrite forward_app. change (3 :: n :: 0 :: (a ++ [x]) ++ rest) with (3 :: n :: 0 :: [] ++ (a ++ [x]) ++ rest).
  rewrite forward_part; [|lia|reflexivity|lia|unfold zlen; lia|rewrite zlen_app; unfold zlen in *; rewrite app_length in *; cbn [length] in *; lia].
  cbn [bind app]. rewrite Lq'. rewrite <- app_assoc. rewrite skipn_app, skipn_all2 by lia. replace (Z.to_nat (n - 1) - length a)%nat with 0%nat by lia. cbn [skipn app].
  cbn [forward]. replace (0 + zlen q) with (n - 1) by (unfold zlen; lia).
  rewrite inc_step by (unfold zlen; lia). cbn [bind]. rewrite Z.eqb_refl. rewrite <- app_assoc. reflexivity.
Qed.
Print Assumptions C40_forward_partial.
(** before that, k switches leave the later port numbers untouched; *)
Theorem C40_midway_partial : forall n k path ports rest, zlen path = n -> zlen ports = k -> k < n <= 252 ->
  forward (3 :: n :: 0 :: path ++ rest) ports =
    Ok (3 :: n :: k :: ports ++ skipn (Z.to_nat k) path ++ rest, repeat false (Z.to_nat k)).
Proof.
  intros n k path ports rest Lp Lq H. pose proof (zlen_nonneg ports).
  change (3 :: n :: 0 :: path ++ rest) with (3 :: n :: 0 :: [] ++ path ++ rest).
  rewrite forward_part; [|lia|reflexivity|lia|lia|rewrite zlen_app; pose proof (zlen_nonneg rest); lia].
  cbn [app]. rewrite Z.add_0_l, Lq. unfold zlen in *. rewrite skipn_app. replace (length ports - length path)%nat with 0%nat by lia.
  cbn [skipn]. replace (Z.to_nat k) with (length ports) by lia. reflexivity.
Qed.
Print Assumptions C40_midway_partial.
(** the frame that arrives carries the ports received on as its path. *)
Theorem C40_path_partial : forall t n k path rest, zlen path = n -> 1 <= n <= 252 -> PathOf (t :: n :: k :: path ++ rest) = Ok path.
Proof.
  intros t n k path rest L H. unfold PathOf, HopCount, IsBroadcastFrame. destruct (hdr_idx t n k (path ++ rest)) as (_ & -> & _). cbn [bind].
  replace (n =? 0) with false by lia. cbn [bind]. rewrite u8_small by lia.
  rewrite slice_ok by (rewrite ?zlen_cons, ?zlen_app; pose proof (zlen_nonneg rest); lia). change (Z.to_nat 3) with 3%nat. cbn [skipn].
  rewrite firstn_app. unfold zlen in L. replace (Z.to_nat (3 + n - 3) - length path)%nat with 0%nat by lia. rewrite firstn_all2 by lia. cbn [firstn]. now rewrite app_nil_r.
Qed.
Print Assumptions C40_path_partial.
(** what follows the path is the next frame; *)
Theorem C40_next_partial : forall t n k path rest, zlen path = n -> 1 <= n <= 252 ->
  NextFrame (t :: n :: k :: path ++ rest) = Ok rest /\ FrameLen (t :: n :: k :: path ++ rest) = Ok (3 + n).
Proof.
  intros t n k path rest L H. unfold NextFrame, FrameLen, HopCount, IsBroadcastFrame. destruct (hdr_idx t n k (path ++ rest)) as (_ & -> & _). cbn [bind].
  replace (n =? 0) with false by lia. cbn [bind]. rewrite u8_small by lia. split; [|reflexivity].
  rewrite slice_from_ok by (rewrite ?zlen_cons, ?zlen_app; pose proof (zlen_nonneg rest); lia). f_equal.
  unfold zlen in L. replace (Z.to_nat (3 + n)) with (3 + length path)%nat by lia. cbn [Nat.add skipn]. rewrite skipn_app, skipn_all, Nat.sub_diag. reflexivity.
Qed.
Print Assumptions C40_next_partial.
(** with more hops, and in a broadcast frame, the next frame starts inside the header of this one, or
    is this one again; *)
Theorem C40_next_refuted : forall t n k rest, n = 0 \/ 253 <= n <= 255 ->
  exists i, (i <= 2)%nat /\ NextFrame (t :: n :: k :: rest) = Ok (skipn i (t :: n :: k :: rest)).
Proof.
  intros t n k rest H. unfold NextFrame, HopCount, IsBroadcastFrame. destruct (hdr_idx t n k rest) as (_ & -> & _). cbn [bind].
  assert (C : n = 0 \/ n = 253 \/ n = 254 \/ n = 255) by lia. pose proof (zlen_nonneg rest).
  destruct C as [-> | [-> | [-> | ->]]]; [exists 2%nat|exists 0%nat|exists 1%nat|exists 2%nat]; (split; [lia|]); cbn [Z.eqb Pos.eqb bind].
  - change (u8 (3 + 255)) with 2. rewrite slice_from_ok by (rewrite !zlen_cons; lia). reflexivity.
  - change (u8 (3 + 253)) with 0. rewrite slice_from_ok by (rewrite !zlen_cons; lia). reflexivity.
  - change (u8 (3 + 254)) with 1. rewrite slice_from_ok by (rewrite !zlen_cons; lia). reflexivity.
  - change (u8 (3 + 255)) with 2. rewrite slice_from_ok by (rewrite !zlen_cons; lia). reflexivity.
Qed.
Print Assumptions C40_next_refuted.
(** With more hops the position wraps: the 254th switch writes over the frame type; *)
Theorem C40_wrap_refuted : forall t n rest p, 253 < n <= 255 ->
  IncrementNextHop (t :: n :: 253 :: rest) p = Ok (p :: n :: (if n =? 254 then 253 else 254) :: rest, n =? 254).
Proof.
  intros t n rest p H. unfold IncrementNextHop, NextHop, HopCount, IsBroadcastFrame. destruct (hdr_idx t n 253 rest) as (_ & -> & ->). cbn [bind].
  replace (n =? 0) with false by lia. cbn [bind]. unfold SetPortNum. change (u8 (3 + 253)) with 0.
  change (t :: n :: 253 :: rest) with ([] ++ t :: n :: 253 :: rest). rewrite set_at by reflexivity. cbn [bind app]. rewrite u8_small by lia.
  destruct (Z.eqb_spec n 254) as [->|]; [reflexivity|]. replace (253 =? n - 1) with false by lia. destruct (hdr_idx p n 253 rest) as (_ & _ & ->). cbn [bind].
  change (p :: n :: 253 :: rest) with ([p; n] ++ 253 :: rest). rewrite set_at by reflexivity. reflexivity.
Qed.
Print Assumptions C40_wrap_refuted.
(** taking the path of such a frame, or of any broadcast frame, panics; *)
Theorem C40_path_refuted : forall t n k rest, n = 0 \/ 253 <= n <= 255 -> PathOf (t :: n :: k :: rest) = Panic.
Proof.
  intros t n k rest H. unfold PathOf, HopCount, IsBroadcastFrame. destruct (hdr_idx t n k rest) as (_ & -> & _). cbn [bind].
  assert (C : n = 0 \/ n = 253 \/ n = 254 \/ n = 255) by lia. destruct C as [-> | [-> | [-> | ->]]]; apply slice_panic; intros ((_ & C) & _); vm_compute in C; apply C; reflexivity.
Qed.
Print Assumptions C40_path_refuted.
(** and an accepted frame may be shorter than its next hop says: forwarding it panics. *)
Theorem C40_short_refuted : forall n k rest p, k <= 252 -> 1 <= zlen rest <= k -> zlen rest <= 255 ->
  CheckFrame (3 :: n :: k :: rest) = Ok FOk /\ IncrementNextHop (3 :: n :: k :: rest) p = Panic.
Proof.
  intros n k rest p K H1 H2. split.
  - unfold CheckFrame. rewrite !zlen_cons. replace (1 + (1 + (1 + zlen rest)) <? 4) with false by lia.
    replace (258 <? 1 + (1 + (1 + zlen rest))) with false by lia. reflexivity.
  - unfold IncrementNextHop, NextHop, HopCount, IsBroadcastFrame. destruct (hdr_idx 3 n k rest) as (_ & -> & ->). cbn [bind].
    assert (S : SetPortNum (3 :: n :: k :: rest) k p = Panic).
    { unfold SetPortNum. rewrite u8_small by lia. apply set_idx_panic. rewrite !zlen_cons. lia. }
    destruct (n =? 0); cbn [bind]; rewrite S; reflexivity.
Qed.
Print Assumptions C40_short_refuted.
(** A new frame with a path of up to 255 ports is laid out as said but keeps the buffer's next
    hop, and a new frame without a path is not a broadcast frame. *)
Theorem C40_init_partial : forall t c k old path, 1 <= zlen path <= 255 -> zlen old = zlen path ->
  FrameInit (t :: c :: k :: old) path = Ok (3 :: zlen path :: k :: path).
Proof.
  intros t c k old path H L. unfold FrameInit, SetFrameType, SetHopCount, SetPath. rewrite u8_small by lia. replace (zlen path =? 0) with false by lia.
  rewrite (set_at [] t (c :: k :: old) 3 0 eq_refl : set_idx (t :: c :: k :: old) 0 3 = _). cbn [bind app].
  rewrite (set_at [3] c (k :: old) (zlen path) 1 eq_refl : set_idx (3 :: c :: k :: old) 1 (zlen path) = _). cbn [bind app].
  pose proof (copy_in_ok (3 :: zlen path :: k :: old) 3 path) as E. unfold copy_in in E. change (Z.of_nat 3) with 3 in E. rewrite E by (unfold zlen in *; cbn [length]; lia).
  cbn [firstn app]. rewrite skipn_all2 by (unfold zlen in *; cbn [length]; lia). now rewrite app_nil_r.
Qed.
Print Assumptions C40_init_partial.
Theorem C40_broadcast_refuted : forall f, 3 <= zlen f -> exists g, FrameInit f [] = Ok g /\ IsBroadcastFrame g = Ok false.
Proof.
  intros f L. destruct f as [|t [|c [|k f]]]; unfold zlen in L; cbn [length] in L; try lia.
  exists (3 :: 255 :: k :: f). split; [|reflexivity]. unfold FrameInit, SetFrameType, SetHopCount, SetPath.
  rewrite (set_at [] t (c :: k :: f) 3 0 eq_refl : set_idx (t :: c :: k :: f) 0 3 = _). cbn [bind app]. change (u8 (zlen (@nil Z)) =? 0) with true. cbv iota.
  rewrite (set_at [3] c (k :: f) 255 1 eq_refl : set_idx (3 :: c :: k :: f) 1 255 = _). cbn [bind app].
  pose proof (copy_in_ok (3 :: 255 :: k :: f) 3 []) as E. unfold copy_in in E. change (Z.of_nat 3) with 3 in E. rewrite E by (cbn [length]; lia). reflexivity.
Qed.
Print Assumptions C40_broadcast_refuted.
Example C40_nonvacuous : CheckFrame [3; 3; 0; 11; 12; 13; 99] = Ok FOk /\
  forward [3; 3; 0; 11; 12; 13; 99] [21; 22; 23] = Ok ([3; 3; 2; 21; 22; 23; 99], [false; false; true]).
Proof. split; vm_compute; reflexivity. Qed.
Example C40_cases : forward [3; 3; 0; 11; 12; 13; 99] [21; 22] = Ok ([3; 3; 2; 21; 22; 13; 99], [false; false]) /\
  PathOf [3; 3; 1; 11; 12; 13; 99] = Ok [11; 12; 13] /\ NextFrame [3; 3; 1; 11; 12; 13; 99] = Ok [99] /\ PathOf [3; 254; 0; 1; 2] = Panic /\
  IncrementNextHop ([3; 254; 253] ++ repeat 7 254) 5 = Ok ([5; 254; 253] ++ repeat 7 254, true) /\
  CheckFrame [3; 5; 2; 8; 9] = Ok FOk /\ IncrementNextHop [3; 5; 2; 8; 9] 1 = Panic /\ FrameInit [0; 0; 0; 0; 0] [6; 7] = Ok [3; 2; 0; 6; 7].
Proof. repeat split. Qed.

(** C41: a path taken from a frame is the ports written in it; *)
Theorem C41_init_partial : forall p t n k ports rest, zlen (parr p) = 255 -> zlen ports = n -> 1 <= n <= 252 ->
  exists q, PathInit p (t :: n :: k :: ports ++ rest) = Ok q /\ PathGet q = Ok ports /\ plen q = n /\ zlen (parr q) = 255.
Proof.
  intros p t n k ports rest Lp L H. pose proof (C40_path_partial t n k ports rest L H) as E. unfold PathOf in E. unfold PathInit.
  destruct (HopCount (t :: n :: k :: ports ++ rest)) as [c|] eqn:C; [|discriminate]. cbn [bind] in *. rewrite E. cbn [bind]. eexists. split; [reflexivity|].
  assert (c = n) as ->. { unfold HopCount, IsBroadcastFrame in C. destruct (hdr_idx t n k (ports ++ rest)) as (_ & I & _). rewrite I in C. cbn [bind] in C. replace (n =? 0) with false in C by lia. rewrite ?I in C. cbn [bind] in C. congruence. }
  unfold PathGet. cbn [parr plen]. unfold zlen in *. split; [|split; [reflexivity|rewrite overwrite_length; lia]].
  unfold slice_to. rewrite slice_ok by (unfold zlen; try rewrite overwrite_length; lia). rewrite overwrite_fits by lia. cbn [firstn skipn app Z.to_nat]. f_equal.
  rewrite Z.sub_0_r, firstn_app, firstn_all2 by lia. replace (Z.to_nat n - length ports)%nat with 0%nat by lia. cbn [firstn]. apply app_nil_r.
Qed.
Print Assumptions C41_init_partial.
(** C41: the ports of a path of two or more hops are copied in opposite order and the rest of the
    target is kept; *)
Theorem C41_order_partial : forall p r, zlen (parr p) = 255 -> zlen (parr r) = 255 -> 2 <= plen p <= 255 ->
  exists q, CopyReverseTo p r = Some (Ok q) /\
    parr q = rev (firstn (Z.to_nat (plen p)) (parr p)) ++ skipn (Z.to_nat (plen p)) (parr r).
Proof. intros p r Lp Lr H. destruct (copy_reverse p r Lp Lr H) as (q & E & Q). exists (Path q (plen p / 2 - 1)). split; [exact E|exact Q]. Qed.
Print Assumptions C41_order_partial.
(** with the length put right, reversing twice gives the original ports; *)
Theorem C41_twice_partial : forall p r s, zlen (parr p) = 255 -> zlen (parr r) = 255 -> zlen (parr s) = 255 -> 2 <= plen p <= 255 ->
  exists q q2, CopyReverseTo p r = Some (Ok q) /\ CopyReverseTo (Path (parr q) (plen p)) s = Some (Ok q2) /\
    PathGet (Path (parr q2) (plen p)) = PathGet p.
Proof.
  intros p r s Lp Lr Ls H. destruct (C41_order_partial p r Lp Lr H) as (q & E & Q).
  assert (LF : length (rev (firstn (Z.to_nat (plen p)) (parr p))) = Z.to_nat (plen p)) by (unfold zlen in *; rewrite rev_length, firstn_length; lia).
  assert (Lq : zlen (parr q) = 255) by (rewrite Q, zlen_app; unfold zlen in *; rewrite LF, skipn_length; lia).
  destruct (C41_order_partial (Path (parr q) (plen p)) s Lq Ls H) as (q2 & E2 & Q2). cbn [parr plen] in Q2.
  exists q, q2. split; [exact E|]. split; [exact E2|]. unfold PathGet. cbn [parr plen].
  assert (F : firstn (Z.to_nat (plen p)) (parr q) = rev (firstn (Z.to_nat (plen p)) (parr p))).
  { rewrite Q. now apply firstn_len_app. }
  rewrite F, rev_involutive in Q2. assert (L2 : zlen (parr q2) = 255).
  { rewrite Q2, zlen_app. unfold zlen in *. rewrite firstn_length, skipn_length. lia. }
  rewrite !slice_to_ok by lia. f_equal. rewrite Q2, firstn_app, firstn_firstn, Nat.min_id.
  replace (Z.to_nat (plen p) - length (firstn (Z.to_nat (plen p)) (parr p)))%nat with 0%nat by (unfold zlen in *; rewrite firstn_length; lia).
  cbn [firstn]. now rewrite app_nil_r.
Qed.
Print Assumptions C41_twice_partial.
(** but the length of the result is always wrong, *)
Theorem C41_length_refuted : forall p r, zlen (parr p) = 255 -> zlen (parr r) = 255 -> 2 <= plen p <= 255 ->
  exists q, CopyReverseTo p r = Some (Ok q) /\ plen q = plen p / 2 - 1 /\ plen q <> plen p.
Proof.
  intros p r Lp Lr H. destruct (copy_reverse p r Lp Lr H) as (q & E & Q). eexists. split; [exact E|]. cbn [plen]. split; [reflexivity|].
  Z.div_mod_to_equations; lia.
Qed.
Print Assumptions C41_length_refuted.
(** and reversing a path of no or one hop panics. *)
Theorem C41_short_refuted : forall p r, zlen (parr p) = 255 -> zlen (parr r) = 255 -> plen p = 0 \/ plen p = 1 ->
  CopyReverseTo p r = Some Panic.
Proof.
  intros p r Lp Lr H. unfold CopyReverseTo. change 256%nat with (S (S 254)). generalize 254%nat. intros m.
  destruct H as [-> | ->].
  - change (u8 (0 - 1)) with 255. cbn [rev_loop]. change (0 <=? 255) with true. cbv iota. rewrite (idx_rd (parr p) 0) by lia. cbn [bind].
    rewrite idx_panic by lia. reflexivity.
  - change (u8 (1 - 1)) with 0. cbn [rev_loop]. change (0 <=? 0) with true. cbv iota. rewrite (idx_rd (parr p) 0) by lia. cbn [bind].
    rewrite set_idx_ok by lia. cbn [bind]. rewrite set_idx_ok by (rewrite zlen_upd; lia). change (u8 (0 - 1)) with 255. change (u8 (0 + 1)) with 1.
    change (1 <=? 255) with true. cbv iota. rewrite (idx_rd (parr p) 1) by lia. cbn [bind]. rewrite idx_panic by lia. reflexivity.
Qed.
Print Assumptions C41_short_refuted.
Example C41_nonvacuous : CopyReverseTo (Path ([1; 2; 3; 4] ++ repeat 0 251) 4) (Path (repeat 9 255) 7) = Some (Ok (Path ([4; 3; 2; 1] ++ repeat 9 251) 1)).
Proof. vm_compute. reflexivity. Qed.
Example C41_cases : (exists q, PathInit (Path (repeat 0 255) 0) [3; 2; 0; 8; 9; 99] = Ok q /\ PathGet q = Ok [8; 9]) /\
  CopyReverseTo (Path (repeat 5 255) 1) (Path (repeat 9 255) 0) = Some Panic.
Proof. split; [eexists; split; [vm_compute; reflexivity|vm_compute; reflexivity]|vm_compute; reflexivity]. Qed.

(** C79: the paths of a connection.  Registering alternatives, in any order and number, keeps them
    distinct from each other and from the active path, adds accepted ones at the end and leaves
    everything else alone; *)
Definition distinct (c : conn) : Prop := NoDup (map parr (toPeer c :: alts c)).
Theorem C79_alternatives : forall ps c, distinct c ->
  let c' := fold_left (fun c p => fst (setAlternativePath c p)) ps c in
  distinct c' /\ toPeer c' = toPeer c /\ fromPeer c' = fromPeer c /\
  (exists l, alts c' = alts c ++ l /\ incl l ps) /\ forall p, In p ps -> In (parr p) (map parr (toPeer c' :: alts c')).
Proof.
  induction ps as [|p r IH]; intros c D.
  - cbn [fold_left]. cbv zeta. split; [exact D|]. split; [auto|]. split; [auto|]. split; [exists []; rewrite app_nil_r; split; [auto|intros x []]|intros p []].
  - cbn [fold_left]. cbv zeta in IH |- *.
    assert (S : distinct (fst (setAlternativePath c p)) /\ toPeer (fst (setAlternativePath c p)) = toPeer c /\ fromPeer (fst (setAlternativePath c p)) = fromPeer c /\
      (alts (fst (setAlternativePath c p)) = alts c \/ alts (fst (setAlternativePath c p)) = alts c ++ [p]) /\
      In (parr p) (map parr (toPeer c :: alts (fst (setAlternativePath c p))))).
    { unfold setAlternativePath. destruct (beq (parr (toPeer c)) (parr p)) eqn:B1.
      - apply beq_eq in B1. cbn [fst]. repeat split; auto. left. exact B1.
      - destruct (existsb _ (alts c)) eqn:B2.
        + cbn [fst]. repeat split; auto. right. apply existsb_exists in B2. destruct B2 as (q & Q & B). apply beq_eq in B. rewrite <- B. now apply in_map.
        + cbn [fst alts toPeer fromPeer]. repeat split; auto.
          * unfold distinct in *. cbn [map toPeer alts] in *. rewrite map_app, app_comm_cons.
            assert (N : ~ In (parr p) (parr (toPeer c) :: map parr (alts c))).
            { intros [C|C]; [rewrite C, beq_refl in B1; discriminate|]. apply in_map_iff in C. destruct C as (q & E & Q).
              assert (existsb (fun q => beq (parr q) (parr p)) (alts c) = true) by (apply existsb_exists; exists q; split; auto; rewrite E; apply beq_refl). congruence. }
            revert D N. generalize (parr (toPeer c) :: map parr (alts c)). intros l D N. cbn [map].
            apply (Permutation_NoDup (l := parr p :: l)); [apply Permutation_cons_append|]. now constructor.
          * right. rewrite map_app. apply in_or_app. right. now left. }
    destruct S as (S1 & S2 & S3 & S4 & S5). destruct (IH _ S1) as (I1 & I2 & I3 & (l & I4 & I5) & I6).
    split; [exact I1|]. split; [congruence|]. split; [congruence|]. split.
    + destruct S4 as [S4|S4]; rewrite S4 in I4; [exists l|exists (p :: l)]; split; auto.
      * intros x Hx. right. auto.
      * rewrite I4, <- app_assoc. reflexivity.
      * intros x [<-|Hx]; [now left|right; auto].
    + intros q [<-|Q]; [|auto]. destruct S5 as [S5|S5]; [left; congruence|]. right. rewrite I4, map_app. apply in_or_app. left. exact S5.
Qed.
Print Assumptions C79_alternatives.
(** but switching to an alternative makes the reverse of the incoming path active instead; *)
Theorem C79_change_refuted : forall c i a, zlen (parr (fromPeer c)) = 255 -> 2 <= plen (fromPeer c) <= 255 ->
  0 <= i -> nth_error (alts c) (Z.to_nat i) = Some a -> zlen (parr a) = 255 ->
  exists c', changePath c i = Some (Ok c') /\
    firstn (Z.to_nat (plen (fromPeer c))) (parr (toPeer c')) = rev (firstn (Z.to_nat (plen (fromPeer c))) (parr (fromPeer c))) /\
    nth_error (alts c') (Z.to_nat i) = Some (toPeer c).
Proof.
  intros c i a Lf H Hi N La. unfold changePath. rewrite N. replace (i <? 0) with false by lia.
  destruct (C41_order_partial (fromPeer c) a Lf La H) as (q & E & Q). rewrite E. eexists. split; [reflexivity|]. cbn [toPeer alts].
  assert (LF : length (rev (firstn (Z.to_nat (plen (fromPeer c))) (parr (fromPeer c)))) = Z.to_nat (plen (fromPeer c))) by (unfold zlen in *; rewrite rev_length, firstn_length; lia).
  split.
  - rewrite Q. now apply firstn_len_app.
  - assert (length (firstn (Z.to_nat i) (alts c)) = Z.to_nat i).
    { rewrite firstn_length. apply Nat.min_l. apply Nat.lt_le_incl. apply nth_error_Some. congruence. }
    rewrite nth_error_app2 by lia. rewrite H0, Nat.sub_diag. reflexivity.
Qed.
Print Assumptions C79_change_refuted.
(** a connection made from a frame takes the three header bytes as the first hops of its path; *)
(** Switching panics for a path that is not there, and on a connection whose peer is next door *)
Theorem C79_change_panics_refuted : forall c i,
  (i < 0 \/ zlen (alts c) <= i -> changePath c i = Some Panic) /\
  (zlen (parr (fromPeer c)) = 255 -> plen (fromPeer c) = 0 \/ plen (fromPeer c) = 1 -> Forall (fun a => zlen (parr a) = 255) (alts c) -> changePath c i = Some Panic).
Proof.
  intros c i. split.
  - intros H. unfold changePath. destruct (nth_error (alts c) (Z.to_nat i)) as [a|] eqn:N; [|reflexivity].
    destruct H as [H|H]; [now replace (i <? 0) with true by lia|]. assert (Z.to_nat i < length (alts c))%nat by (apply nth_error_Some; congruence). unfold zlen in H. lia.
  - intros Lf P F. unfold changePath. destruct (nth_error (alts c) (Z.to_nat i)) as [a|] eqn:N; [|reflexivity].
    destruct (i <? 0); [reflexivity|]. rewrite (C41_short_refuted _ a Lf); [reflexivity| |exact P].
    rewrite Forall_forall in F. apply F. now apply nth_error_In in N.
Qed.
Print Assumptions C79_change_panics_refuted.
Theorem C79_from_frame_refuted : forall c t n k ports c', zlen (parr (fromPeer c)) = 255 -> zlen ports <= 252 ->
  ConnInit c (t :: n :: k :: ports) = Some (Ok c') -> PathGet (fromPeer c') = Ok (t :: n :: k :: ports).
Proof.
  intros c t n k ports c' L H E. unfold ConnInit, PathUnmarshal in E. pose proof (zlen_nonneg ports).
  assert (LZ : zlen (t :: n :: k :: ports) = 3 + zlen ports) by (rewrite !zlen_cons; lia).
  rewrite LZ in E. replace (3 + zlen ports =? 0) with false in E by lia.
  destruct (CopyReverseTo _ _) as [[to|]|] in E; try discriminate. injection E as <-. cbn [fromPeer].
  unfold PathGet, PathSet. cbn [parr plen]. rewrite LZ, u8_small by lia. set (s := t :: n :: k :: ports) in *.
  assert (O : overwrite (parr (fromPeer c)) 0 s = s ++ skipn (length s) (parr (fromPeer c))).
  { unfold overwrite. cbn [firstn app]. rewrite firstn_all2 by (unfold zlen in *; lia). reflexivity. }
  rewrite O. rewrite slice_to_ok by (rewrite zlen_app, LZ; pose proof (zlen_nonneg (skipn (length s) (parr (fromPeer c)))); lia). f_equal.
  rewrite firstn_app. unfold zlen in *. replace (Z.to_nat (3 + Z.of_nat (length ports)) - length s)%nat with 0%nat by lia. rewrite firstn_all2 by lia. cbn [firstn]. now rewrite app_nil_r.
Qed.
Print Assumptions C79_from_frame_refuted.
(** and every frame written has 255 hops and reports a length of two. *)
Theorem C79_write_refuted : forall c t n k old, zlen (parr (toPeer c)) = 255 -> zlen old = 255 ->
  WriteFrame c (t :: n :: k :: old) = Ok (3 :: 255 :: k :: parr (toPeer c), 2).
Proof.
  intros c t n k old L Lo. unfold WriteFrame. rewrite C40_init_partial by lia. cbn [bind]. rewrite L. reflexivity.
Qed.
Print Assumptions C79_write_refuted.
Example C79_nonvacuous : let p k := Path (repeat k 255) 4 in let c := Conn (p 1) (p 2) [p 3] in
  distinct c /\ alts (fst (setAlternativePath c (p 4))) = [p 3; p 4] /\ snd (setAlternativePath c (p 3)) = PExists /\ snd (setAlternativePath c (p 1)) = PInUse /\
  exists c', ConnInit c [3; 1; 0; 9] = Some (Ok c').
Proof.
  cbv zeta. split; [|vm_compute; repeat split; eauto]. unfold distinct. cbn [map toPeer alts parr].
  constructor; [intros [C|[]]; vm_compute in C; discriminate|]. constructor; [intros []|constructor].
Qed.

(** C80: visiting all ports, as start-up and broadcasting do, never ends: the port number is a
    byte compared with 255, so after any number of rounds there is another one. *)
Theorem C80_loop_refuted : forall n, exists i, port_loop n 0 = Some i /\ 0 <= i <= 255.
Proof.
  assert (G : forall n i, 0 <= i <= 255 -> exists j, port_loop n i = Some j /\ 0 <= j <= 255).
  { induction n as [|n IH]; intros i H; cbn [port_loop]; [eauto|]. unfold port_loop_round. replace (i <=? 255) with true by lia.
    apply IH. unfold u8. pose proof (Z.mod_pos_bound (i + 1) 256 ltac:(lia)). lia. }
  intros n. apply G. lia.
Qed.
Print Assumptions C80_loop_refuted.
(** Every port is visited within the first 256 rounds. *)
Theorem C80_visits : forall n, (n < 256)%nat -> port_loop n 0 = Some (Z.of_nat n).
Proof.
  assert (G : forall n i, 0 <= i -> i + Z.of_nat n < 256 -> port_loop n i = Some (i + Z.of_nat n)).
  { induction n as [|n IH]; intros i H H2; cbn [port_loop]; [f_equal; lia|]. unfold port_loop_round. replace (i <=? 255) with true by lia.
    rewrite u8_small by lia. rewrite IH by lia. f_equal. lia. }
  intros n H. rewrite G by lia. reflexivity.
Qed.
Print Assumptions C80_visits.
Example C80_nonvacuous : port_loop 255 0 = Some 255 /\ port_loop 256 0 = Some 0.
Proof. split; vm_compute; reflexivity. Qed.
