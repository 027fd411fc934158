(** C127 frames through a network of switches; C128 bridges. *)
From Coq Require Import ZifyBool ZifyNat.
From Verif Require Import Go GoFacts AddrProofs LinkModel LinkProofs LinkTheorems ChaparNetModel ChaparNetSpec.

Lemma zlen_over0 (l : bytes) : zlen (overwrite (repeat 0 255) 0 l) = 255.
Proof. unfold zlen. rewrite overwrite_length by lia. rewrite repeat_length. reflexivity. Qed.
Lemma check_ok n k l : 1 <= zlen l <= 255 -> CheckFrame (3 :: n :: k :: l) = Ok FOk.
Proof.
  intros H. unfold CheckFrame. rewrite !zlen_cons. replace (1 + (1 + (1 + zlen l)) <? 4) with false by lia.
  replace (258 <? 1 + (1 + (1 + zlen l))) with false by lia. reflexivity.
Qed.
Lemma arrive_ok {N} (g : net N) v n k l : 1 <= n <= 252 -> n <= zlen l -> zlen l <= 252 ->
  arrive g v (3 :: n :: k :: l) = Some (Ok (Arrived v (3 :: n :: k :: l))).
Proof.
  intros H L M. unfold arrive.
  assert (P : exists p, PathOf (3 :: n :: k :: l) = Ok p).
  { unfold PathOf, HopCount, IsBroadcastFrame. destruct (hdr_idx 3 n k l) as (_ & -> & _). cbn [bind]. replace (n =? 0) with false by lia. cbn [bind].
    rewrite u8_small by lia. eexists. apply slice_ok; rewrite ?zlen_cons; lia. }
  destruct P as (p & ->). destruct (known g v p); [reflexivity|].
  unfold ConnInit, PathUnmarshal. rewrite !zlen_cons. replace (1 + (1 + (1 + zlen l)) =? 0) with false by lia.
  unfold PathSet. cbn [parr zero_conn fromPeer toPeer].
  set (q := Path (overwrite (repeat 0 255) 0 (3 :: n :: k :: l)) (u8 (zlen (3 :: n :: k :: l)))).
  assert (LQ : zlen (parr q) = 255) by (unfold q; cbn [parr]; apply zlen_over0).
  assert (PQ : plen q = 3 + zlen l) by (unfold q; cbn [plen]; rewrite !zlen_cons, u8_small by lia; lia).
  destruct (copy_reverse q (Path (repeat 0 255) 0) LQ ltac:(cbn [parr]; unfold zlen; rewrite repeat_length; reflexivity) ltac:(lia)) as (r & -> & _). reflexivity.
Qed.
Lemma next_port t n k a x b : zlen a = k -> 0 <= k <= 252 -> NextPortNum (t :: n :: k :: a ++ x :: b) = Ok x.
Proof.
  intros L H. unfold NextPortNum, NextHop. destruct (hdr_idx t n k (a ++ x :: b)) as (_ & _ & ->). cbn [bind]. unfold PortNum. rewrite u8_small by lia.
  change (t :: n :: k :: a ++ x :: b) with ((t :: n :: k :: a) ++ x :: b).
  replace (3 + k) with (Z.of_nat (length (t :: n :: k :: a))) by (cbn [length]; unfold zlen in L; lia). apply idx_nat.
  rewrite nth_error_app2, Nat.sub_diag by lia. reflexivity.
Qed.
Lemma last_nonempty {N} (l : list N) v w : l <> [] -> last l v = last l w.
Proof. intros H. induction l as [|x [|y l] IH]; [now destruct H|reflexivity|]. change (last (y :: l) v = last (y :: l) w). apply IH. discriminate. Qed.
Lemma walk_nonempty {N} (g : net N) v ps vs : walk g v ps = Some vs -> vs <> [].
Proof. destruct ps; cbn [walk]; [congruence|]. destruct (link g v z) as [w|]; [|discriminate]. destruct (walk g w ps); congruence. Qed.
Lemma receive_walk {N} (g : net N) n : 1 <= n <= 252 -> forall ps v a x rest, zlen a + 1 + zlen ps = n -> n + zlen rest <= 252 ->
  Receive g (S (length ps)) (Some v) (3 :: n :: zlen a :: a ++ x :: ps ++ rest) =
  Some (match walk g v ps with
        | Some vs => Ok (Arrived (last vs v) (3 :: n :: (n - 1) :: a ++ map (pnum g) vs ++ rest))
        | None => Panic
        end).
Proof.
  intros Hn. induction ps as [|p r IH]; intros v a x rest L R; pose proof (zlen_nonneg a); pose proof (zlen_nonneg rest).
  - change (zlen (@nil Z)) with 0 in L. cbn [length Receive walk app]. rewrite check_ok by (rewrite zlen_app, zlen_cons; lia).
    rewrite inc_step by lia. replace (zlen a =? n - 1) with true by lia. cbv iota.
    rewrite arrive_ok by (rewrite ?zlen_app, ?zlen_cons; lia). cbn [last map app]. replace (zlen a) with (n - 1) by lia. reflexivity.
  - rewrite zlen_cons in L. pose proof (zlen_nonneg r). cbn [length]. remember (S (length r)) as k. cbn [Receive walk].
    rewrite check_ok by (cbn [app]; rewrite zlen_app, !zlen_cons, zlen_app; lia). rewrite inc_step by lia.
    replace (zlen a =? n - 1) with false by lia. cbv iota.
    assert (B : IsBroadcastFrame (3 :: n :: zlen a + 1 :: a ++ pnum g v :: (p :: r) ++ rest) = Ok false).
    { unfold IsBroadcastFrame. destruct (hdr_idx 3 n (zlen a + 1) (a ++ pnum g v :: (p :: r) ++ rest)) as (_ & -> & _). cbn [bind]. replace (n =? 0) with false by lia. reflexivity. }
    rewrite B. replace (a ++ pnum g v :: (p :: r) ++ rest) with ((a ++ [pnum g v]) ++ p :: r ++ rest) by (rewrite <- app_assoc; reflexivity).
    assert (LA : zlen (a ++ [pnum g v]) = zlen a + 1) by (rewrite zlen_app; reflexivity).
    rewrite next_port by lia. subst k. destruct (link g v p) as [w|].
    + rewrite <- LA, IH by lia. destruct (walk g w r) as [vs|] eqn:W; [|reflexivity]. do 2 f_equal.
      pose proof (walk_nonempty _ _ _ _ W). destruct vs as [|y vs]; [congruence|]. rewrite <- app_assoc. cbn [app map].
      change (last (v :: y :: vs) v) with (last (y :: vs) v). rewrite (last_nonempty (y :: vs) w v) by discriminate. reflexivity.
    + cbn [Receive]. rewrite check_ok by (rewrite zlen_app, LA, zlen_cons, zlen_app; lia). reflexivity.
Qed.
(** C127.  In any network, a unicast frame follows the ports written in its path and stops at the switch
    they lead to, and it then carries the port numbers of the switches it met; with a port on the way
    that leads nowhere, the process panics.  (Up to 252 hops, frames up to 255 bytes.) *)
Theorem C127_delivery_partial : forall N (g : net N) v p0 ps rest, zlen ps < 252 -> 4 + zlen ps + zlen rest <= 255 ->
  let n := 1 + zlen ps in
  Receive g (S (length ps)) (Some v) (3 :: n :: 0 :: p0 :: ps ++ rest) =
  Some (match walk g v ps with
        | Some vs => Ok (Arrived (last vs v) (3 :: n :: (n - 1) :: map (pnum g) vs ++ rest))
        | None => Panic
        end).
Proof.
  intros N g v p0 ps rest H R n. pose proof (zlen_nonneg ps). pose proof (receive_walk g n ltac:(lia) ps v [] p0 rest) as E.
  change (zlen (@nil Z)) with 0 in E. cbn [app] in E. apply E; lia.
Qed.
Print Assumptions C127_delivery_partial.
Lemma walk_snoc {N} (g : net N) p z : forall ps v vs, walk g v ps = Some vs -> link g (last vs v) p = Some z -> walk g v (ps ++ [p]) = Some (vs ++ [z]).
Proof.
  induction ps as [|q r IH]; intros v vs W L; cbn [walk app] in *.
  - assert (vs = [v]) by congruence. subst. cbn [last] in L. rewrite L. reflexivity.
  - destruct (link g v q) as [w|]; [|discriminate]. destruct (walk g w r) as [l|] eqn:W'; [|discriminate]. assert (vs = v :: l) by congruence. subst vs.
    pose proof (walk_nonempty _ _ _ _ W'). destruct l as [|y l]; [congruence|]. rewrite (IH w (y :: l) W'); [reflexivity|].
    change (last (v :: y :: l) v) with (last (y :: l) v) in L. rewrite (last_nonempty (y :: l) w v) by discriminate. exact L.
Qed.
Lemma walk_head {N} (g : net N) v ps vs : walk g v ps = Some vs -> exists l, vs = v :: l.
Proof. destruct ps; cbn [walk]; [intros; exists []; congruence|]. destruct (link g v z) as [w|]; [|discriminate]. destruct (walk g w ps); [|discriminate]. intros E. eexists. symmetry. injection E. intros <-. reflexivity. Qed.
Lemma walk_back {N} (g : net N) : two_way g -> forall ps v vs, walk g v ps = Some vs -> walk g (last vs v) (tl (rev (map (pnum g) vs))) = Some (rev vs).
Proof.
  intros T. induction ps as [|p r IH]; intros v vs W; cbn [walk] in W.
  - assert (vs = [v]) by congruence. subst. reflexivity.
  - destruct (link g v p) as [w|] eqn:L; [|discriminate]. destruct (walk g w r) as [l|] eqn:W'; [|discriminate]. assert (vs = v :: l) by congruence. subst vs.
    specialize (IH _ _ W'). destruct (walk_head _ _ _ _ W') as (l' & E). subst l.
    change (last (v :: w :: l') v) with (last (w :: l') v). rewrite (last_nonempty (w :: l') v w) by discriminate.
    change (rev (map (pnum g) (v :: w :: l'))) with (rev (map (pnum g) (w :: l')) ++ [pnum g v]).
    change (rev (v :: w :: l')) with (rev (w :: l') ++ [v]).
    assert (NE : rev (map (pnum g) (w :: l')) <> []) by (cbn [map rev]; intros C; apply app_eq_nil in C; destruct C; discriminate).
    destruct (rev (map (pnum g) (w :: l'))) as [|q qs] eqn:RQ; [congruence|]. cbn [tl app] in *.
    apply walk_snoc; [exact IH|]. cbn [rev]. rewrite last_last. apply T with p. exact L.
Qed.
(** C127.  Where links go both ways, a frame sent back along the reverse of the recorded path arrives at
    the switch the first one started from, and records the way the first one took. *)
Theorem C127_reply_partial : forall N (g : net N) v ps vs q0 qs rest, two_way g -> zlen ps < 252 -> 4 + zlen ps + zlen rest <= 255 ->
  walk g v ps = Some vs -> rev (map (pnum g) vs) = q0 :: qs ->
  let n := 1 + zlen ps in
  Receive g (S (length ps)) (Some (last vs v)) (3 :: n :: 0 :: q0 :: qs ++ rest) =
    Some (Ok (Arrived v (3 :: n :: (n - 1) :: q0 :: qs ++ rest))).
Proof.
  intros N g v ps vs q0 qs rest T H R W Q n.
  assert (LV : length vs = S (length ps)).
  { clear - W. revert v vs W. induction ps as [|p r IH]; intros v vs W; cbn [walk] in W; [assert (vs = [v]) by congruence; now subst|].
    destruct (link g v p) as [w|]; [|discriminate]. destruct (walk g w r) as [l|] eqn:E; [|discriminate]. assert (vs = v :: l) by congruence. subst. cbn [length]. now rewrite (IH _ _ E). }
  assert (LQ : length qs = length ps).
  { assert (length (rev (map (pnum g) vs)) = S (length ps)) by (rewrite rev_length, map_length; exact LV). rewrite Q in H0. now injection H0. }
  pose proof (walk_back g T _ _ _ W) as B. rewrite Q in B. cbn [tl] in B.
  pose proof (C127_delivery_partial N g (last vs v) q0 qs rest) as D. unfold zlen in *. rewrite LQ in D. specialize (D ltac:(lia) ltac:(lia)). cbv zeta in D.
  unfold n. rewrite D, B. do 3 f_equal.
  - destruct (walk_head _ _ _ _ W) as (l & ->). cbn [rev]. apply last_last.
  - rewrite map_rev, Q. reflexivity.
Qed.
Print Assumptions C127_reply_partial.
Lemma idx_upd_other (l : bytes) i j v : 0 <= i < zlen l -> 0 <= j < zlen l -> i <> j -> idx (upd l (Z.to_nat i) v) j = idx l j.
Proof.
  intros I J N. rewrite !idx_rd by (rewrite ?zlen_upd; lia). f_equal. unfold rd. rewrite <- !nth_default_eq. unfold nth_default. now rewrite nth_error_upd_neq by lia.
Qed.
(** C127.  Whatever the network and the frame, forwarding ends, for frames up to 255 bytes whose next hop
    is at most 252: within 254 hops. *)
Theorem C127_ends_partial : forall N (g : net N) v f, zlen f <= 255 -> (forall h, idx f 2 = Ok h -> 0 <= h <= 252) ->
  exists r, Receive g 254 v f = Some r.
Proof.
  intros N g. assert (A : forall k v f, zlen f <= 255 -> (forall h, idx f 2 = Ok h -> 253 - Z.of_nat k < h <= 252 /\ 0 <= h) -> (0 < k)%nat -> exists r, Receive g k v f = Some r).
  { induction k as [|k IH]; intros v f L H K; [lia|]. clear K. cbn [Receive].
    destruct (CheckFrame f) as [[]|] eqn:C; eauto. destruct v as [v|]; eauto.
    assert (L4 : 4 <= zlen f) by (unfold CheckFrame in C; destruct (Z.ltb_spec (zlen f) 4); [discriminate|lia]). clear C.
    pose proof (idx_rd f 2 ltac:(lia)) as E. destruct (H _ E) as (B & B0).
    destruct (IncrementNextHop f (pnum g v)) as [(f', b)|] eqn:I; eauto.
    unfold IncrementNextHop, NextHop in I. rewrite E in I. cbn [bind] in I. destruct (HopCount f) as [c|]; [|discriminate]. cbn [bind] in I.
    unfold SetPortNum in I. rewrite u8_small in I by lia. destruct (Z_lt_ge_dec (3 + rd f 2) (zlen f)) as [LT|GE]; [|rewrite set_idx_panic in I by lia; discriminate].
    rewrite set_idx_ok in I by lia. cbn [bind] in I. destruct (rd f 2 =? u8 (c - 1)).
    - assert (b = true) by congruence. subst. unfold arrive. destruct (PathOf f') as [pp|]; eauto. destruct (known g v pp); eauto.
      unfold ConnInit. assert (CR : forall p, zlen (parr p) = 255 -> 4 <= plen p <= 255 \/ plen p = 0 \/ plen p = 1 -> CopyReverseTo p (toPeer zero_conn) <> None).
      { intros p Lp [Q|Q].
        - destruct (copy_reverse p (toPeer zero_conn) Lp ltac:(cbn [zero_conn toPeer parr]; unfold zlen; rewrite repeat_length; reflexivity) ltac:(lia)) as (r & -> & _). discriminate.
        - rewrite C41_short_refuted; [discriminate|exact Lp|cbn [zero_conn toPeer parr]; unfold zlen; rewrite repeat_length; reflexivity|exact Q]. }
      assert (f' = upd f (Z.to_nat (3 + rd f 2)) (pnum g v)) by congruence. subst f'. 
      unfold PathUnmarshal. rewrite zlen_upd. replace (zlen f =? 0) with false by lia.
      match goal with |- context [CopyReverseTo ?p ?r] => specialize (CR p); destruct (CopyReverseTo p r) as [[q|]|]; eauto; exfalso; apply CR; [| |reflexivity] end.
      + unfold PathSet. cbn [parr zero_conn fromPeer]. apply zlen_over0.
      + unfold PathSet. cbn [plen]. rewrite zlen_upd, u8_small by lia. lia.
    - set (f1 := upd f (Z.to_nat (3 + rd f 2)) (pnum g v)) in *. assert (L1 : zlen f1 = zlen f) by (unfold f1; apply zlen_upd).
      assert (E1 : idx f1 2 = Ok (rd f 2)) by (unfold f1; rewrite idx_upd_other by lia; exact E). rewrite E1 in I. cbn [bind] in I.
      rewrite set_idx_ok in I by lia. cbn [bind] in I.
      assert (f' = upd f1 (Z.to_nat 2) (u8 (rd f 2 + 1))) by congruence. assert (b = false) by congruence. subst f' b.
      destruct (IsBroadcastFrame _) as [[]|]; eauto. destruct (NextPortNum _) as [p|]; eauto.
      apply IH; [rewrite zlen_upd; lia| |lia].
      intros h Eh. rewrite u8_small in Eh by lia. rewrite idx_rd in Eh by (rewrite zlen_upd; lia). rewrite rd_upd in Eh by lia. cbn [Z.eqb Pos.eqb] in Eh.
      change (2 =? 2) with true in Eh. cbv iota in Eh. assert (h = rd f 2 + 1) by congruence. lia. }
  intros v f L H. apply A; [exact L| |lia]. intros h E. specialize (H h E). lia.
Qed.
Print Assumptions C127_ends_partial.
(** C127, refuted: a switch with port number 254 whose port 255 leads back to it, and a frame whose next hop
    is 255: the frame goes round for ever, whatever else it contains. *)
Theorem C127_loop_refuted : forall N (g : net N) v c l, pnum g v = 254 -> link g v 255 = Some v -> 1 <= c <= 255 -> 1 <= zlen l <= 255 ->
  forall k, Receive g k (Some v) (3 :: c :: 255 :: l) = None.
Proof.
  intros N g v c l P L C Z. induction k as [|k IH]; [reflexivity|]. cbn [Receive]. rewrite check_ok by exact Z.
  assert (I : IncrementNextHop (3 :: c :: 255 :: l) (pnum g v) = Ok (3 :: c :: 255 :: l, false)).
  { unfold IncrementNextHop, NextHop, HopCount, IsBroadcastFrame. destruct (hdr_idx 3 c 255 l) as (_ & -> & ->). cbn [bind]. replace (c =? 0) with false by lia. cbn [bind].
    unfold SetPortNum. change (u8 (3 + 255)) with 2. rewrite set_idx_ok by (rewrite !zlen_cons; lia). cbn [bind]. rewrite u8_small by lia. replace (255 =? c - 1) with false by lia.
    cbv iota. change (Z.to_nat 2) with 2%nat. cbn [upd]. destruct (hdr_idx 3 c (pnum g v) l) as (_ & _ & ->). cbn [bind]. rewrite P. rewrite set_idx_ok by (rewrite !zlen_cons; lia). reflexivity. }
  rewrite I. assert (B : IsBroadcastFrame (3 :: c :: 255 :: l) = Ok false).
  { unfold IsBroadcastFrame. destruct (hdr_idx 3 c 255 l) as (_ & -> & _). cbn [bind]. replace (c =? 0) with false by lia. reflexivity. }
  rewrite B. assert (Q : NextPortNum (3 :: c :: 255 :: l) = Ok 255) by reflexivity. rewrite Q, L. exact IH.
Qed.
Print Assumptions C127_loop_refuted.
(** C127.  A frame that is not a Chapar frame of 4 to 258 bytes is refused without a change anywhere. *)
Theorem C127_refuses : forall N (g : net N) k v f e, CheckFrame f = Ok e -> e <> FOk -> Receive g (S k) v f = Some (Ok (Refused e)).
Proof. intros N g k v f e C E. cbn [Receive]. rewrite C. destruct e; try reflexivity. congruence. Qed.
Print Assumptions C127_refuses.
(** C127.  A broadcast frame is spread by every switch it comes to, with the port number of that switch
    written at its next hop; it never arrives there for good. *)
Theorem C127_spreads_partial : forall N (g : net N) j v k a x b, zlen a = k -> k <= 252 -> zlen a + zlen b <= 254 ->
  Receive g (S j) (Some v) (3 :: 0 :: k :: a ++ x :: b) = Some (Ok (Spread v (3 :: 0 :: (k + 1) :: a ++ pnum g v :: b))).
Proof.
  intros N g j v k a x b L K R. pose proof (zlen_nonneg a). pose proof (zlen_nonneg b). cbn [Receive].
  rewrite check_ok by (rewrite zlen_app, zlen_cons; lia).
  assert (I : IncrementNextHop (3 :: 0 :: k :: a ++ x :: b) (pnum g v) = Ok (3 :: 0 :: (k + 1) :: a ++ pnum g v :: b, false)).
  { unfold IncrementNextHop, NextHop, HopCount, IsBroadcastFrame. destruct (hdr_idx 3 0 k (a ++ x :: b)) as (_ & -> & ->). cbn [bind].
    replace (0 =? 0) with true by reflexivity. cbn [bind]. rewrite set_port by (auto; lia). cbn [bind].
    rewrite (u8_small (255 - 1)) by lia. replace (k =? 255 - 1) with false by lia.
    destruct (hdr_idx 3 0 k (a ++ pnum g v :: b)) as (_ & _ & ->). cbn [bind]. rewrite u8_small by lia.
    replace (set_idx (3 :: 0 :: k :: a ++ pnum g v :: b) 2 (k + 1)) with (Ok (3 :: 0 :: (k + 1) :: a ++ pnum g v :: b)); [reflexivity|].
    pose proof (zlen_nonneg (a ++ pnum g v :: b)). rewrite set_idx_ok by (rewrite !zlen_cons; lia). reflexivity. }
  rewrite I. reflexivity.
Qed.
Print Assumptions C127_spreads_partial.
(** C127.  Sending hands the frame, unchanged, to the port written at its next hop. *)
Theorem C127_send_partial : forall N (g : net N) v n k a x b, zlen a = k -> 0 <= k <= 252 -> n <> 0 ->
  Send g v (3 :: n :: k :: a ++ x :: b) = if wired g v x then Ok (Some x, 3 :: n :: k :: a ++ x :: b) else Panic.
Proof.
  intros N g v n k a x b L H Hn. unfold Send. unfold IsBroadcastFrame. destruct (hdr_idx 3 n k (a ++ x :: b)) as (_ & -> & _). cbn [bind]. replace (n =? 0) with false by lia.
  rewrite next_port by lia. reflexivity.
Qed.
Print Assumptions C127_send_partial.
Definition line_net : net nat := Net (fun v => 10 + Z.of_nat v) (fun v p => let w := Z.to_nat (p - 10) in if (10 <=? p) && (Nat.eqb w (S v) || Nat.eqb v (S w)) then Some w else None) (fun _ _ => true) (fun _ _ => false).
Example C127_case : two_way line_net /\ walk line_net 3%nat [14; 15; 14] = Some [3; 4; 5; 4]%nat /\
  Receive line_net 4 (Some 3%nat) (3 :: 4 :: 0 :: 9 :: [14; 15; 14] ++ [77]) = Some (Ok (Arrived 4%nat [3; 4; 3; 13; 14; 15; 14; 77])).
Proof.
  split; [|split; reflexivity]. intros v p w. unfold line_net. cbn [link pnum]. intros E. destruct ((10 <=? p) && _) eqn:C; [|discriminate].
  assert (w = Z.to_nat (p - 10)) by congruence. subst w. replace (Z.to_nat (10 + Z.of_nat v - 10)) with v by lia.
  replace (10 <=? 10 + Z.of_nat v) with true by lia. apply andb_prop in C. destruct C as (_ & C). rewrite Bool.orb_comm in C. rewrite C. reflexivity.
Qed.
Example C127_spreads_case :
  Receive line_net 4 (Some 3%nat) [3; 0; 1; 12; 0; 0; 77] = Some (Ok (Spread 3%nat [3; 0; 2; 12; 13; 0; 77])).
Proof. reflexivity. Qed.

(** * Bridges *)
(** C128.  Before the last hop a bridge writes its port number at the next hop, moves on by one hop and
    passes the frame to the physical side, whose error it returns. *)
Theorem C128_passes_partial : forall (E : Type) (phys : bytes -> option E) t n k a x b p, zlen a = k -> k < n - 1 -> n <= 252 ->
  let f := t :: n :: (k + 1) :: a ++ p :: b in BridgeSend phys p (t :: n :: k :: a ++ x :: b) = Ok (Some f, phys f).
Proof.
  intros E phys t n k a x b p L H Hn f. pose proof (zlen_nonneg a). unfold BridgeSend. rewrite inc_step by lia. cbn [bind]. replace (k =? n - 1) with false by lia. reflexivity.
Qed.
Print Assumptions C128_passes_partial.
(** C128, refuted: at the last hop of its path the frame goes nowhere, in either direction, and no error
    says so; nor does one when the switch behind the bridge refuses the frame. *)
Theorem C128_silent_refuted : forall (E N : Type) (phys : bytes -> option E) (g : net N) j v t n a x b p, zlen a = n - 1 -> n <= 252 -> 1 <= n ->
  BridgeSend phys p (t :: n :: (n - 1) :: a ++ x :: b) = Ok (None, None) /\
  BridgeReceive g j v p (t :: n :: (n - 1) :: a ++ x :: b) = Some (Ok (None, None)).
Proof.
  intros E N phys g j v t n a x b p L H Hn. unfold BridgeSend, BridgeReceive. rewrite inc_step by lia. cbn [bind]. rewrite Z.eqb_refl. split; reflexivity.
Qed.
Print Assumptions C128_silent_refuted.
Theorem C128_error_refuted : forall (N : Type) (g : net N) j v t n k a x b p, zlen a = k -> k < n - 1 -> n <= 252 -> t <> 3 -> zlen a + zlen b <= 254 ->
  BridgeReceive g (S j) v p (t :: n :: k :: a ++ x :: b) = Some (Ok (Some (Refused FType), None)).
Proof.
  intros N g j v t n k a x b p L H Hn T Z. pose proof (zlen_nonneg a). pose proof (zlen_nonneg b). unfold BridgeReceive. rewrite inc_step by lia. replace (k =? n - 1) with false by lia.
  rewrite (C127_refuses N g j (Some v) _ FType); [reflexivity| |discriminate]. unfold CheckFrame. rewrite !zlen_cons, zlen_app, zlen_cons.
  replace (1 + (1 + (1 + (zlen a + (1 + zlen b)))) <? 4) with false by lia. replace (258 <? 1 + (1 + (1 + (zlen a + (1 + zlen b))))) with false by lia.
  destruct (hdr_idx t n (k + 1) (a ++ p :: b)) as (-> & _ & _). cbn [bind]. replace (t =? 3) with false by lia. reflexivity.
Qed.
Print Assumptions C128_error_refuted.
(** C128.  A bridged link costs two hops of the path: sent by one side and received by the other, the frame
    reaches the switch behind with both port numbers recorded, as if it had met two more switches. *)
Theorem C128_crossing_partial : forall (E N : Type) (phys : bytes -> option E) (g : net N) j v n k a x y b out side, zlen a = k -> k + 2 < n -> n <= 252 ->
  exists f, BridgeSend phys out (3 :: n :: k :: a ++ x :: y :: b) = Ok (Some f, phys f) /\
    BridgeReceive g j v side f = match Receive g j (Some v) (3 :: n :: (k + 2) :: a ++ out :: side :: b) with
      | None => None | Some Panic => Some Panic | Some (Ok o) => Some (Ok (Some o, None)) end.
Proof.
  intros E N phys g j v n k a x y b out side L H Hn. pose proof (zlen_nonneg a). eexists. split; [apply C128_passes_partial; lia|].
  unfold BridgeReceive. replace (a ++ out :: y :: b) with ((a ++ [out]) ++ y :: b) by (rewrite <- app_assoc; reflexivity).
  rewrite inc_step by (rewrite ?zlen_app; change (zlen [out]) with 1; lia). replace (k + 1 =? n - 1) with false by lia. cbv iota.
  rewrite <- app_assoc. cbn [app]. replace (k + 1 + 1) with (k + 2) by lia. reflexivity.
Qed.
Print Assumptions C128_crossing_partial.
Example C128_case : exists f, BridgeSend (fun _ => @None unit) 200 [3; 4; 0; 1; 2; 3; 4; 5] = Ok (Some f, None) /\
  BridgeReceive line_net 3 6%nat 201 f = Some Panic /\
  BridgeReceive line_net 3 6%nat 201 [3; 4; 1; 200; 2; 3; 17; 5] = Some (Ok (Some (Arrived 7%nat [3; 4; 3; 200; 201; 16; 17; 5]), None)).
Proof. eexists. split; [reflexivity|]. split; reflexivity. Qed.
