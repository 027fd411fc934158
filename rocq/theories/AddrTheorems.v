(** C37, C38, C78: textual IPv4 and IPv6 addresses and IPv6 address classes. *)
From Coq Require Import ZifyBool ZifyNat.
From Verif Require Import Go GoFacts IntSpec AddrModel AddrSpec AddrProofs NetSpec NetProofs.

(** C37: printing gives dotted decimal text for every address; *)
Theorem C37_print : forall a, zlen a = 4 -> wf_bytes a -> exists s, ip4_ToString a = Ok s /\ dotted s a.
Proof.
  intros a L W. destruct a as [|a [|b [|c [|d [|? ?]]]]]; unfold zlen in L; cbn [length] in L; try lia.
  inversion W as [|? ? A W1]; subst. inversion W1 as [|? ? B W2]; subst. inversion W2 as [|? ? C W3]; subst. inversion W3 as [|? ? D W4]; subst.
  eexists. split; [apply ip4_tostring; auto|]. exists (otext a), (otext b), (otext c), (otext d), a, b, c, d.
  repeat (split; [first [reflexivity | now apply octet_otext]|]). reflexivity.
Qed.
Print Assumptions C37_print.
(** parsing dotted text sets exactly that address, whatever the variable held; so printing then parsing is the identity. *)
Theorem C37_parse : forall s a old, dotted s a -> zlen old = 4 -> ip4_FromString old s = Ok (a, NilErr).
Proof. intros s a old D L. pose proof (parse_dotted s a old [] D L I) as H. now rewrite app_nil_r in H. Qed.
Print Assumptions C37_parse.
Theorem C37_round_trip : forall a old, zlen a = 4 -> wf_bytes a -> zlen old = 4 ->
  exists s, ip4_ToString a = Ok s /\ ip4_FromString old s = Ok (a, NilErr).
Proof. intros a old L W Lo. destruct (C37_print a L W) as (s & E & D). exists s. split; [exact E|]. now apply C37_parse. Qed.
Print Assumptions C37_round_trip.
(** Two addresses never share a text. *)
Theorem C37_unique : forall s a b, dotted s a -> dotted s b -> a = b.
Proof.
  intros s a b A B. pose proof (C37_parse s a [0; 0; 0; 0] A eq_refl). pose proof (C37_parse s b [0; 0; 0; 0] B eq_refl). congruence.
Qed.
Print Assumptions C37_unique.
(** Parsing never panics and keeps four bytes, but it never reports an error for any text at all: *)
Theorem C37_bad_text_refuted : forall s old, zlen old = 4 -> exists a, ip4_FromString old s = Ok (a, NilErr) /\ zlen a = 4.
Proof. intros s old L. destruct (parse_total 4 0 old s) as (r & E & Lr); try lia. exists r. split; [exact E|lia]. Qed.
Print Assumptions C37_bad_text_refuted.
(** anything may follow the last octet, *)
Theorem C37_trailing_refuted : forall s a old c r, dotted s a -> zlen old = 4 -> ~ is_digit c -> ip4_FromString old (s ++ c :: r) = Ok (a, NilErr).
Proof. intros s a old c r D L H. now apply parse_dotted. Qed.
Print Assumptions C37_trailing_refuted.
(** and a text that goes wrong after its first octet leaves a mixture of the two addresses. *)
Theorem C37_mixture_refuted : forall s v c r o0 o1 o2 o3, octet s v -> ~ is_digit c -> c <> 46 ->
  ip4_FromString [o0; o1; o2; o3] (s ++ c :: r) = Ok ([v; o1; o2; o3], NilErr).
Proof.
  intros s v c r o0 o1 o2 o3 O D C. unfold ip4_FromString.
  pose proof (parse_step 3 0 [o0; o1; o2; o3] s v (c :: r) O D ltac:(unfold zlen; cbn; lia)) as P. cbn [Z.ltb Z.compare app] in P. rewrite P.
  change (0 + 1) with 1. cbn [upd Z.to_nat ip4_parse]. replace (zlen (c :: r) =? 0) with false by (rewrite zlen_cons; pose proof (zlen_nonneg r); lia).
  change (0 <? 1) with true. cbv iota. change (idx (c :: r) 0) with (Ok c). cbn [bind]. replace (c =? 46) with false by lia. reflexivity.
Qed.
Print Assumptions C37_mixture_refuted.
Example C37_nonvacuous : ip4_ToString [192; 168; 0; 1] = Ok (str "192.168.0.1") /\ octet (str "255") 255 /\
  ip4_FromString [9; 9; 9; 9] (str "10.20.x") = Ok ([10; 20; 9; 9], NilErr).
Proof. split; [vm_compute; reflexivity|]. split; [apply (octet_otext 255); unfold is_byte; lia|vm_compute; reflexivity]. Qed.
Example C37_cases : ip4_FromString [9; 9; 9; 9] (str "192.168.0.1") = Ok ([192; 168; 0; 1], NilErr) /\
  ip4_FromString [9; 9; 9; 9] (str "192.168.0.1/24") = Ok ([192; 168; 0; 1], NilErr) /\ ip4_FromString [9; 8; 7; 6] (str "255/1") = Ok ([255; 8; 7; 6], NilErr) /\
  ip4_FromString [9; 8; 7; 6] (str "nothing") = Ok ([9; 8; 7; 6], NilErr).
Proof. repeat split; vm_compute; reflexivity. Qed.

(** C38: every valid text but "::" sets all sixteen bytes, whatever the variable held; *)
Theorem C38_parse_partial : forall s a old, ip6_text s a -> zlen old = 16 -> s <> str "::" -> ip6_FromString old s = Ok (a, NilErr).
Proof. intros s a old T L N. now apply ip6_parse_ok. Qed.
Print Assumptions C38_parse_partial.
(** a text has one address; *)
Theorem C38_unique : forall s a b, ip6_text s a -> ip6_text s b -> a = b.
Proof.
  intros s a b A B. destruct (list_eq_dec Z.eq_dec s [58; 58]) as [->|N].
  - assert (G : forall a, ip6_text [58; 58] a -> a = repeat 0 16).
    { clear. intros a [(G & _)|(s1 & l1 & s2 & l2 & G1 & G2 & _ & E & ->)].
      - destruct (groups_hd _ _ G) as (c & t & E & C). congruence.
      - destruct G1 as [(-> & ->)|G1]; [|destruct (groups_hd _ _ G1) as (c & t & -> & C); cbn [app] in E; congruence].
        cbn [app] in E. assert (s2 = []) by congruence. subst s2.
        destruct G2 as [(_ & ->)|G2]; [reflexivity|destruct (groups_hd _ _ G2) as (c & t & H & C); congruence]. }
    now rewrite (G a A), (G b B).
  - pose proof (ip6_parse_ok s a (repeat 0 16) A eq_refl N). pose proof (ip6_parse_ok s b (repeat 0 16) B eq_refl N). congruence.
Qed.
Print Assumptions C38_unique.
(** "::" is the text of the unspecified address but leaves the variable as it was; *)
Theorem C38_unspecified_refuted : ip6_text (str "::") (repeat 0 16) /\ forall old, ip6_FromString old (str "::") = Ok (old, NilErr).
Proof.
  split; [|reflexivity]. right. exists [], [], [], []. repeat (split; [first [now left|vm_compute; congruence]|]). split; reflexivity.
Qed.
Print Assumptions C38_unspecified_refuted.
(** parsing never panics and never reports an error; *)
Theorem C38_errors_refuted : forall s old, zlen old = 16 -> exists a, ip6_FromString old s = Ok (a, NilErr) /\ zlen a = 16.
Proof. intros s old L. now apply ip6_parse_total. Qed.
Print Assumptions C38_errors_refuted.
(** and printing panics for every address but the unspecified one. *)
Theorem C38_print_refuted : forall a, zlen a = 16 ->
  (a = repeat 0 16 -> ip6_ToString a = Ok (str "::")) /\ (a <> repeat 0 16 -> ip6_ToString a = Panic).
Proof. apply ip6_print. Qed.
Print Assumptions C38_print_refuted.
Lemma C38_sample : ip6_text (str "fE80::1:2") (254 :: 128 :: repeat 0 11 ++ [1; 0; 2]).
Proof.
  assert (G : forall s a b, 1 <= zlen s <= 4 -> is_byte a -> is_byte b -> hex_value s (256 * a + b) -> group s a b) by (unfold group; auto).
  assert (H1 : forall c v, hex_digit c v -> hex_value [c] v).
  { intros c v D. pose proof (hv_snoc [] 0 c v hv_nil D) as H. exact H. }
  right. exists (str "fE80"), [254; 128], (str "1:2"), [0; 1; 0; 2].
  split; [right; apply gr_one; apply G; [vm_compute; split; congruence|unfold is_byte; lia|unfold is_byte; lia|]|].
  { change (256 * 254 + 128) with (16 * (16 * (16 * 15 + 14) + 8) + 0). change (str "fE80") with ((([102] ++ [69]) ++ [56]) ++ [48]).
    repeat (apply hv_snoc; [|unfold hex_digit; lia]). apply H1. unfold hex_digit; lia. }
  split; [right; apply (gr_more [49] 0 1 [50] [0; 2]); [|apply gr_one]; apply G; try (unfold is_byte; lia); try (vm_compute; split; congruence); apply H1; left; lia|].
  split; [vm_compute; congruence|]. split; reflexivity.
Qed.
Example C38_nonvacuous : ip6_text (str "fE80::1:2") (254 :: 128 :: repeat 0 11 ++ [1; 0; 2]) /\
  ip6_FromString (repeat 7 16) (str "fE80::1:2") = Ok (254 :: 128 :: repeat 0 11 ++ [1; 0; 2], NilErr) /\ ip6_ToString (repeat 0 15 ++ [1]) = Panic.
Proof. split; [exact C38_sample|]. split; vm_compute; reflexivity. Qed.

Lemma number_bound (l : bytes) : wf_bytes l -> 0 <= number l < 256 ^ zlen l.
Proof.
  induction 1 as [|b l B W IH]; [cbn; lia|]. cbn [number]. unfold is_byte in B. rewrite zlen_cons, Z.pow_add_r by (pose proof (zlen_nonneg l); lia).
  change (256 ^ 1) with 256. pose proof (zlen_nonneg l). assert (0 < 256 ^ zlen l) by (apply Z.pow_pos_nonneg; lia). nia.
Qed.
Lemma number_inj (l m : bytes) : length l = length m -> wf_bytes l -> wf_bytes m -> number l = number m -> l = m.
Proof.
  revert m. induction l as [|b l IH]; intros [|c m] L Wl Wm E; cbn [length] in L; try lia; [reflexivity|]. cbn [number] in E.
  inversion Wl as [|? ? B Wl']; subst. inversion Wm as [|? ? C Wm']; subst. pose proof (number_bound l Wl'). pose proof (number_bound m Wm').
  assert (Z' : zlen l = zlen m) by (unfold zlen; lia). rewrite Z' in *.
  assert (b = c) by nia. subst c. f_equal. apply IH; auto; lia.
Qed.
Lemma addr_number a : zlen a = 16 -> wf_bytes a -> field a 0 128 = number a.
Proof.
  intros L W. pose proof (field_bytes a 0 16 W ltac:(unfold zlen in L; lia)) as F. change (8 * Z.of_nat 0) with 0 in F. change (8 * 16)%nat with 128%nat in F.
  rewrite F. cbn [skipn]. rewrite firstn_all2 by (unfold zlen in L; lia). reflexivity.
Qed.
Lemma beq_number a b : zlen a = 16 -> zlen b = 16 -> wf_bytes a -> wf_bytes b -> beq a b = (number a =? number b).
Proof.
  intros La Lb Wa Wb. destruct (Z.eqb_spec (number a) (number b)) as [E|E].
  - apply number_inj in E; auto; [|unfold zlen in *; lia]. subst. apply beq_refl.
  - destruct (beq a b) eqn:B; auto. apply beq_eq in B. congruence.
Qed.
(** C78: the IPv6 address classes of RFC 4291 section 2.4: unspecified is zero, loopback is one,
    multicast starts with eight one bits and has its scope in bits 12 to 15, link local unicast
    starts with the ten bits 1111111010; global unicast is everything else. *)
Theorem C78_classes : forall a, zlen a = 16 -> wf_bytes a ->
  (ip6_IsUnspecified a = true <-> field a 0 128 = 0) /\
  (ip6_IsLoopback a = true <-> field a 0 128 = 1) /\
  ip6_IsMulticast a = Ok (field a 0 8 =? 255) /\
  ip6_IsInterfaceLocalMulticast a = Ok ((field a 0 8 =? 255) && (field a 12 4 =? 1)) /\
  ip6_IsLinkLocalMulticast a = Ok ((field a 0 8 =? 255) && (field a 12 4 =? 2)) /\
  ip6_IsLinkLocalUnicast a = Ok (field a 0 10 =? 1018) /\
  ip6_IsGlobalUnicast a = Ok (negb (field a 0 128 =? 0) && negb (field a 0 128 =? 1) && negb (field a 0 8 =? 255) && negb (field a 0 10 =? 1018)).
Proof.
  intros a L W. pose proof (addr_number a L W) as N.
  assert (U : ip6_IsUnspecified a = (field a 0 128 =? 0)).
  { unfold ip6_IsUnspecified. rewrite N. apply (beq_number a (repeat 0 16)); auto. repeat constructor; unfold is_byte; lia. }
  assert (O : ip6_IsLoopback a = (field a 0 128 =? 1)).
  { unfold ip6_IsLoopback. rewrite N. apply (beq_number a (repeat 0 15 ++ [1])); auto. repeat constructor; unfold is_byte; lia. }
  assert (I0 : idx a 0 = Ok (field a 0 8)).
  { change 0 with (8 * Z.of_nat 0) at 2. rewrite field_byte by auto. apply (nth_idx a 0). unfold zlen in L. lia. }
  assert (I1 : idx a 1 = Ok (nth 1 a 0)) by (apply (nth_idx a 1); unfold zlen in L; lia).
  assert (S : Z.land (nth 1 a 0) 15 = field a 12 4) by (change 12 with (8 * Z.of_nat 1 + 4); now apply lo_nibble).
  assert (K : (Z.land (nth 1 a 0) 192 =? 128) = (field a 8 2 =? 2)).
  { change 8 with (8 * Z.of_nat 1 + 0). rewrite field_in_byte by (auto; lia). change (8 - 0 - Z.of_nat 2) with 6. change (2 ^ 6) with 64. change (2 ^ Z.of_nat 2) with 4.
    pose proof (byte_sweep (fun y => Bool.eqb (Z.land y 192 =? 128) ((y / 64) mod 4 =? 2)) ltac:(vm_compute; reflexivity) (nth 1 a 0) (byte_at a 1 W)) as B.
    now apply Bool.eqb_prop in B. }
  assert (LL : ip6_IsLinkLocalUnicast a = Ok (field a 0 10 =? 1018)).
  { unfold ip6_IsLinkLocalUnicast. rewrite I0, I1. cbn [bind]. rewrite K. f_equal. change 10%nat with (8 + 2)%nat. rewrite field_app.
    change (2 ^ Z.of_nat 2) with 4. change (0 + Z.of_nat 8) with 8. pose proof (field_range a 8 2) as R. change (2 ^ Z.of_nat 2) with 4 in R. lia. }
  assert (M : ip6_IsMulticast a = Ok (field a 0 8 =? 255)) by (unfold ip6_IsMulticast; rewrite I0; reflexivity).
  split; [rewrite U; apply Z.eqb_eq|]. split; [rewrite O; apply Z.eqb_eq|]. split; [exact M|].
  split; [unfold ip6_IsInterfaceLocalMulticast; rewrite I0, I1; cbn [bind]; now rewrite S|].
  split; [unfold ip6_IsLinkLocalMulticast; rewrite I0, I1; cbn [bind]; now rewrite S|].
  split; [exact LL|]. unfold ip6_IsGlobalUnicast. rewrite M, LL, U, O. reflexivity.
Qed.
Print Assumptions C78_classes.
(** An IPv4 address becomes its mapped form ::ffff:a.b.c.d whatever the variable held. *)
Theorem C78_mapped : forall old v4, zlen old = 16 -> zlen v4 = 4 -> ip6_FromIPv4 old v4 = repeat 0 10 ++ [255; 255] ++ v4.
Proof.
  intros old v4 L L4. do 16 (destruct old as [|? old]; [discriminate L|]). destruct old; [|unfold zlen in L; cbn [length] in L; lia].
  destruct v4 as [|a [|b [|c [|d [|? ?]]]]]; unfold zlen in L4; cbn [length] in L4; try lia. reflexivity.
Qed.
Print Assumptions C78_mapped.
Example C78_nonvacuous : ip6_IsLinkLocalUnicast (254 :: 191 :: repeat 0 14) = Ok true /\ ip6_IsGlobalUnicast (32 :: repeat 0 15) = Ok true /\ ip6_IsLinkLocalMulticast (255 :: 2 :: repeat 0 14) = Ok true /\ ip6_FromIPv4 (repeat 9 16) [1; 2; 3; 4] = (repeat 0 10 ++ [255; 255; 1; 2; 3; 4])%list.
Proof. repeat split; vm_compute; reflexivity. Qed.
