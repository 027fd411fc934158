(** C43, C44, C56, C61, C81: identifiers and user types. *)
From Coq Require Import ZifyBool ZifyNat.
From Verif Require Import Go GoFacts BinModel BinSpec BinProofs Base64Model Base64Proofs AddrTheorems IdModel IdSpec.
Open Scope string_scope. Import ListNotations. Open Scope Z_scope. Open Scope list_scope.

Lemma p64 : 256 ^ Z.of_nat 8 = 2 ^ 64. Proof. reflexivity. Qed.
Lemma p32 : 256 ^ Z.of_nat 4 = 2 ^ 32. Proof. reflexivity. Qed.
Lemma from0 (l : bytes) : slice_from l 0 = Ok l.
Proof. rewrite slice_from_ok by (pose proof (zlen_nonneg l); lia). reflexivity. Qed.
Lemma put64_0 (a t : bytes) v : length a = 8%nat -> 0 <= v < 2 ^ 64 -> put64_at (a ++ t) 0 v = Ok (le_digits 8 v ++ t).
Proof.
  intros L H. unfold put64_at. rewrite from0. cbn [bind]. rewrite (co_put _ _ _ _ _ lele64_ok) by (try (rewrite app_length; lia); rewrite p64; exact H).
  cbn [bind Z.to_nat firstn app]. rewrite skipn_app, L, skipn_all2 by lia. reflexivity.
Qed.
Lemma put32_8 (h a t : bytes) v : length h = 8%nat -> length a = 4%nat -> 0 <= v < 2 ^ 32 -> put32_at (h ++ a ++ t) 8 v = Ok (h ++ le_digits 4 v ++ t).
Proof.
  intros Lh L H. unfold put32_at. rewrite slice_from_ok by (rewrite zlen_app; pose proof (zlen_nonneg (a ++ t)); assert (zlen h = 8) by (unfold zlen; lia); lia).
  change (Z.to_nat 8) with 8%nat. rewrite skipn_app, firstn_app, Lh, skipn_all2, firstn_all2 by lia. change (8 - 8)%nat with 0%nat. cbn [skipn firstn app bind]. rewrite app_nil_r.
  rewrite (co_put _ _ _ _ _ lele32_ok) by (try (rewrite app_length; lia); rewrite p32; exact H). cbn [bind].
  rewrite skipn_app, L, skipn_all2 by lia. reflexivity.
Qed.
Lemma get64_0 t v : 0 <= v < 2 ^ 64 -> get64_at (le_digits 8 v ++ t) 0 = Ok v.
Proof.
  intros H. unfold get64_at. rewrite from0. cbn [bind].
  destruct (co_back _ _ _ _ _ lele64_ok (repeat 0 8 ++ t) v) as (b & E1 & E2); [rewrite app_length, repeat_length; lia|rewrite p64; exact H|].
  rewrite (co_put _ _ _ _ _ lele64_ok) in E1; [|rewrite app_length, repeat_length; lia|rewrite p64; exact H].
  change (skipn 8 (repeat 0 8 ++ t)) with t in E1. assert (b = le_digits 8 v ++ t) by congruence. subst b. exact E2.
Qed.
Lemma get32_8 h t v : length h = 8%nat -> 0 <= v < 2 ^ 32 -> get32_at (h ++ le_digits 4 v ++ t) 8 = Ok v.
Proof.
  intros L H. unfold get32_at. rewrite slice_from_ok by (rewrite zlen_app; pose proof (zlen_nonneg (le_digits 4 v ++ t)); assert (zlen h = 8) by (unfold zlen; lia); lia).
  change (Z.to_nat 8) with 8%nat. rewrite skipn_app, L, skipn_all2 by lia. change (8 - 8)%nat with 0%nat. cbn [skipn app bind].
  destruct (co_back _ _ _ _ _ lele32_ok (repeat 0 4 ++ t) v) as (b & E1 & E2); [rewrite app_length, repeat_length; lia|rewrite p32; exact H|].
  rewrite (co_put _ _ _ _ _ lele32_ok) in E1; [|rewrite app_length, repeat_length; lia|rewrite p32; exact H].
  change (skipn 4 (repeat 0 4 ++ t)) with t in E1. assert (b = le_digits 4 v ++ t) by congruence. subst b. exact E2.
Qed.
Lemma dig_len n v : length (le_digits n v) = n.
Proof. apply le_digits_length. Qed.

(** * C43 *)
(** The 16- and the 32-byte identifier are the time followed by the random part, *)
Lemma new_sized n rnd sec nsec : n = (12 + length rnd)%nat -> New_sized n rnd sec nsec = Ok (time_uuid sec nsec rnd).
Proof.
  intros ->. unfold New_sized, copy_at. replace ((0 <=? 12) && (12 <=? zlen (repeat 0 (12 + length rnd)))) with true by (unfold zlen; rewrite repeat_length; lia).
  cbn [bind]. change (Z.to_nat 12) with 12%nat. unfold overwrite. rewrite repeat_length. replace (12 + length rnd - 12)%nat with (length rnd) by lia.
  rewrite firstn_all, skipn_all2, app_nil_r by (rewrite repeat_length; lia). rewrite repeat_app. change (repeat 0 12) with (repeat 0 8 ++ repeat 0 4).
  replace (firstn 12 ((repeat 0 8 ++ repeat 0 4) ++ repeat 0 (length rnd))) with (repeat 0 8 ++ repeat 0 4) by reflexivity.
  rewrite <- app_assoc. unfold set_second. rewrite put64_0 by (try apply repeat_length; apply Z.mod_pos_bound; reflexivity). cbn [bind].
  unfold set_nano. rewrite put32_8 by (try apply repeat_length; try apply dig_len; apply Z.mod_pos_bound; reflexivity). reflexivity.
Qed.
Theorem C43_layout16 : forall rnd sec nsec, length rnd = 4%nat -> New16 rnd sec nsec = Ok (time_uuid sec nsec rnd).
Proof. intros rnd sec nsec L. apply new_sized. lia. Qed.
Print Assumptions C43_layout16.
Theorem C43_layout32 : forall rnd sec nsec, length rnd = 20%nat -> New32 rnd sec nsec = Ok (time_uuid sec nsec rnd).
Proof. intros rnd sec nsec L. apply new_sized. lia. Qed.
Print Assumptions C43_layout32.
(** whose time and random part are read back, for every clock value, *)
Theorem C43_read_back : forall rnd sec nsec, - 2 ^ 63 <= sec < 2 ^ 63 -> - 2 ^ 31 <= nsec < 2 ^ 31 ->
  second (time_uuid sec nsec rnd) = Ok sec /\ nano (time_uuid sec nsec rnd) = Ok nsec /\ id16 (time_uuid sec nsec rnd) = rnd.
Proof.
  intros rnd sec nsec Hs Hn. unfold second, nano, id16, time_uuid.
  rewrite get64_0 by (apply Z.mod_pos_bound; reflexivity). rewrite get32_8 by (try apply dig_len; apply Z.mod_pos_bound; reflexivity). cbn [bind].
  split; [f_equal; unfold i64, u64; change (2 ^ 64) with 18446744073709551616 in *; change (2 ^ 63) with 9223372036854775808 in *; Z.div_mod_to_equations; lia|].
  split; [f_equal; unfold i32, u32; change (2 ^ 32) with 4294967296 in *; change (2 ^ 31) with 2147483648 in *; Z.div_mod_to_equations; lia|].
  rewrite skipn_app, dig_len, skipn_all2 by (rewrite dig_len; lia). change (12 - 8)%nat with 4%nat. cbn [app]. rewrite skipn_app, dig_len, skipn_all2 by (rewrite dig_len; lia). reflexivity.
Qed.
Print Assumptions C43_read_back.
(** so different random parts give different identifiers. *)
Theorem C43_distinct : forall sec nsec sec' nsec' r r', r <> r' -> time_uuid sec nsec r <> time_uuid sec' nsec' r'.
Proof.
  intros sec nsec sec' nsec' r r' N E. apply N. unfold time_uuid in E.
  apply (f_equal (skipn 8)) in E. rewrite !skipn_app, !dig_len, !(skipn_all2 (le_digits 8 _)) in E by (rewrite dig_len; lia).
  change (8 - 8)%nat with 0%nat in E. cbn [skipn app] in E. apply (f_equal (skipn 4)) in E.
  rewrite !skipn_app, !dig_len, !(skipn_all2 (le_digits 4 _)) in E by (rewrite dig_len; lia). exact E.
Qed.
Print Assumptions C43_distinct.
(** The 8-byte identifier keeps 40 bits of the seconds, *)
Lemma new8 rnd sec : length rnd = 3%nat -> New8 rnd sec = Ok (le_digits 8 (u64 (Z.shiftl (u64 sec) 24))).
Proof.
  intros L. destruct rnd as [|a [|b [|c [|d r]]]]; try discriminate. unfold New8.
  change (copy_at (repeat 0 8) 5 [a; b; c]) with (Ok ([0; 0; 0; 0; 0; a; b; c] ++ [])). cbn [bind]. unfold set_second8.
  rewrite put64_0 by (try reflexivity; apply u64_range). rewrite app_nil_r. reflexivity.
Qed.
Theorem C43_seconds8_partial : forall rnd sec, length rnd = 3%nat -> - 2 ^ 39 <= sec < 2 ^ 39 ->
  exists id, New8 rnd sec = Ok id /\ second8 id = Ok sec.
Proof.
  intros rnd sec L H. eexists. split; [apply new8; exact L|]. unfold second8.
  rewrite <- (app_nil_r (le_digits 8 _)). rewrite get64_0 by apply u64_range. cbn [bind]. f_equal.
  rewrite Z.shiftl_mul_pow2, Z.shiftr_div_pow2 by lia. unfold i64, u64. change (2 ^ 64) with 18446744073709551616 in *.
  change (2 ^ 63) with 9223372036854775808 in *. change (2 ^ 24) with 16777216. change (2 ^ 39) with 549755813888 in H.
  Z.div_mod_to_equations; lia.
Qed.
Print Assumptions C43_seconds8_partial.
(** The part of it meant to be random is bytes of the second; *)
Theorem C43_id8_refuted : forall rnd sec id, length rnd = 3%nat -> New8 rnd sec = Ok id ->
  id8 id = skipn 5 (le_digits 8 (u64 (Z.shiftl (u64 sec) 24))).
Proof. intros rnd sec id L N. rewrite new8 in N by exact L. injection N as <-. reflexivity. Qed.
Print Assumptions C43_id8_refuted.
(** nothing of what was random is in it: all identifiers of one second are equal. *)
Theorem C43_random8_refuted : forall rnd rnd' sec, length rnd = 3%nat -> length rnd' = 3%nat -> New8 rnd sec = New8 rnd' sec.
Proof. intros. rewrite !new8 by auto. reflexivity. Qed.
Print Assumptions C43_random8_refuted.
(** and the id of a 32-byte identifier is its creation second. *)
Theorem C43_id32_refuted : forall rnd sec nsec, 0 <= sec < 2 ^ 63 -> id32 (time_uuid sec nsec rnd) = Ok sec.
Proof.
  intros rnd sec nsec H. unfold id32, time_uuid. rewrite get64_0 by (apply Z.mod_pos_bound; reflexivity). f_equal. apply Z.mod_small.
  change (2 ^ 64) with 18446744073709551616. change (2 ^ 63) with 9223372036854775808 in H. lia.
Qed.
Print Assumptions C43_id32_refuted.
Example C43_nonvacuous : New16 [1; 2; 3; 4] 1700000000 999999999 = Ok [0; 241; 83; 101; 0; 0; 0; 0; 255; 201; 154; 59; 1; 2; 3; 4] /\
  New8 [1; 2; 3] 1700000000 = Ok [0; 0; 0; 0; 241; 83; 101; 0].
Proof. split; reflexivity. Qed.
Example C43_cases : New32 (repeat 9 20) 1700000000 5 = Ok (time_uuid 1700000000 5 (repeat 9 20)) /\
  second (time_uuid (-7) 5 [1; 2; 3; 4]) = Ok (-7) /\ nano (time_uuid (-7) 5 [1; 2; 3; 4]) = Ok 5 /\ time_uuid 1 2 [3; 4; 5; 6] <> time_uuid 1 2 [3; 4; 5; 7] /\
  New8 [9; 9; 9] 1700000000 = New8 [1; 2; 3] 1700000000 /\ id32 (time_uuid 1700000000 5 (repeat 9 20)) = Ok 1700000000.
Proof. repeat split; try (vm_compute; reflexivity). vm_compute. discriminate. Qed.

(** * C44 *)
Definition is_uuid (u : bytes) : Prop := length u = 16%nat /\ wf_bytes u.
Lemma ver_byte x : is_byte x -> is_byte (Z.lor (Z.land x 15) 64) /\ Z.lor (Z.land x 15) 64 / 16 = 4 /\ Z.lor (Z.land x 15) 64 mod 16 = x mod 16.
Proof.
  intros H. change 15 with (Z.ones 4). rewrite Z.land_ones by lia. change (2 ^ 4) with 16. assert (0 <= x mod 16 < 16) by (apply Z.mod_pos_bound; lia).
  change 64 with (Z.shiftl 4 4). rewrite lor_shiftl_add by (change (2 ^ 4) with 16; lia). change (2 ^ 4) with 16. unfold is_byte. Z.div_mod_to_equations; lia.
Qed.
Lemma var_byte x : is_byte x -> is_byte (Z.lor (Z.land x 63) 128) /\ Z.lor (Z.land x 63) 128 / 64 = 2 /\ Z.lor (Z.land x 63) 128 mod 64 = x mod 64.
Proof.
  intros H. change 63 with (Z.ones 6). rewrite Z.land_ones by lia. change (2 ^ 6) with 64. assert (0 <= x mod 64 < 64) by (apply Z.mod_pos_bound; lia).
  change 128 with (Z.shiftl 2 6). rewrite lor_shiftl_add by (change (2 ^ 6) with 64; lia). change (2 ^ 6) with 64. unfold is_byte. Z.div_mod_to_equations; lia.
Qed.
Theorem C44_version : forall r, is_uuid r -> exists u, V4 r = Ok u /\ is_uuid u /\
  nth 6 u 0 / 16 = 4 /\ nth 8 u 0 / 64 = 2 /\
  (forall i, i <> 6%nat -> i <> 8%nat -> nth i u 0 = nth i r 0) /\ nth 6 u 0 mod 16 = nth 6 r 0 mod 16 /\ nth 8 u 0 mod 64 = nth 8 r 0 mod 64.
Proof.
  intros r (L & W). destruct r as [|a0 [|a1 [|a2 [|a3 [|a4 [|a5 [|a6 [|a7 [|a8 [|a9 [|aa [|ab [|ac [|ad [|ae [|af [|x r]]]]]]]]]]]]]]]]]; try discriminate. clear L.
  assert (H6 : is_byte a6) by (apply (proj1 (Forall_forall _ _) W); cbn [In]; tauto).
  assert (H8 : is_byte a8) by (apply (proj1 (Forall_forall _ _) W); cbn [In]; tauto).
  destruct (ver_byte a6 H6) as (V1 & V2 & V3). destruct (var_byte a8 H8) as (U1 & U2 & U3). revert V1 V2 V3 U1 U2 U3.
  unfold V4.
  change (idx [a0; a1; a2; a3; a4; a5; a6; a7; a8; a9; aa; ab; ac; ad; ae; af] 6) with (Ok a6). cbn [bind].
  generalize (Z.lor (Z.land a6 15) 64). intros v6.
  change (set_idx [a0; a1; a2; a3; a4; a5; a6; a7; a8; a9; aa; ab; ac; ad; ae; af] 6 v6) with (Ok [a0; a1; a2; a3; a4; a5; v6; a7; a8; a9; aa; ab; ac; ad; ae; af]). cbn [bind].
  change (idx [a0; a1; a2; a3; a4; a5; v6; a7; a8; a9; aa; ab; ac; ad; ae; af] 8) with (Ok a8). cbn [bind].
  generalize (Z.lor (Z.land a8 63) 128). intros v8.
  change (set_idx [a0; a1; a2; a3; a4; a5; v6; a7; a8; a9; aa; ab; ac; ad; ae; af] 8 v8) with (Ok [a0; a1; a2; a3; a4; a5; v6; a7; v8; a9; aa; ab; ac; ad; ae; af]).
  intros V1 V2 V3 U1 U2 U3. eexists. split; [reflexivity|]. cbn [nth]. split.
  - split; [reflexivity|]. unfold wf_bytes in *. rewrite Forall_forall in *. intros y Hy. cbn [In] in Hy.
    assert (G : y = v6 \/ y = v8 \/ In y [a0; a1; a2; a3; a4; a5; a6; a7; a8; a9; aa; ab; ac; ad; ae; af]) by (cbn [In]; intuition auto).
    destruct G as [-> | [-> | G]]; auto.
  - repeat (split; [assumption|]). split; [|split; assumption]. intros i N6 N8. do 9 (destruct i as [|i]; [try reflexivity; try contradiction|]). reflexivity.
Qed.
Print Assumptions C44_version.

Lemma hex_byte x : is_byte x -> exists h l, hex_char (x / 16) = h /\ hex_char (x mod 16) = l /\ lower_hex h /\ lower_hex l /\
  hex_digit h = Some (x / 16) /\ hex_digit l = Some (x mod 16) /\ base16 h = x / 16 /\ base16 l = x mod 16.
Proof.
  intros H. unfold is_byte in H. assert (G : forall d, 0 <= d < 16 -> lower_hex (hex_char d) /\ hex_digit (hex_char d) = Some d /\ base16 (hex_char d) = d).
  { intros d Hd. unfold lower_hex, hex_char, hex_digit, base16. destruct (Z.ltb_spec d 10).
    - replace ((48 <=? 48 + d) && (48 + d <=? 57)) with true by lia. replace (48 + d <? 58) with true by lia. repeat split; [lia|f_equal; lia|lia].
    - replace ((48 <=? 87 + d) && (87 + d <=? 57)) with false by lia. replace ((97 <=? 87 + d) && (87 + d <=? 102)) with true by lia.
      replace (87 + d <? 58) with false by lia. repeat split; [lia|f_equal; lia|lia]. }
  assert (H1 : 0 <= x / 16 < 16) by (Z.div_mod_to_equations; lia). assert (H2 : 0 <= x mod 16 < 16) by (apply Z.mod_pos_bound; lia).
  destruct (G _ H1) as (A1 & A2 & A3). destruct (G _ H2) as (B1 & B2 & B3).
  exists (hex_char (x / 16)), (hex_char (x mod 16)). repeat (split; [assumption || reflexivity|]). assumption.
Qed.
Lemma hex_text a t : hex_encode (a :: t) = hex_char (a / 16) :: hex_char (a mod 16) :: hex_encode t.
Proof. reflexivity. Qed.
Lemma hex_lower l : wf_bytes l -> Forall lower_hex (hex_encode l).
Proof. induction 1 as [|x l H W IH]; [constructor|]. destruct (hex_byte x H) as (h & k & <- & <- & A & B & _). constructor; [exact A|constructor; [exact B|exact IH]]. Qed.
Lemma hex_length l : length (hex_encode l) = (2 * length l)%nat.
Proof. induction l; [reflexivity|]. cbn [hex_encode length]. lia. Qed.
Lemma hex_parse l cap : wf_bytes l -> zlen l <= cap -> hex_into cap (hex_encode l) = Ok l.
Proof.
  intros W. revert cap. induction W as [|x l H W IH]; intros cap C; [reflexivity|]. rewrite zlen_cons in C. pose proof (zlen_nonneg l).
  cbn [hex_encode hex_into]. destruct (hex_byte x H) as (h & k & -> & -> & _ & _ & -> & -> & _). replace (cap <? 1) with false by lia.
  rewrite IH by lia. cbn [bind]. do 2 f_equal. Z.div_mod_to_equations; lia.
Qed.
Lemma hex_num_acc l a : wf_bytes l -> fold_left (fun a c => a * 16 + base16 c) (hex_encode l) a = fold_left (fun a b => a * 256 + b) l a.
Proof.
  intros W. revert a. induction W as [|x l H W IH]; intros a; [reflexivity|]. cbn [hex_encode fold_left].
  destruct (hex_byte x H) as (h & k & -> & -> & _ & _ & _ & _ & -> & ->). rewrite IH. f_equal. Z.div_mod_to_equations; lia.
Qed.
Lemma hex_nodash l : wf_bytes l -> filter (fun c => negb (c =? 45)) (hex_encode l) = hex_encode l.
Proof.
  intros W. pose proof (hex_lower l W) as F. induction F as [|c t Hc F IH]; [reflexivity|]. cbn [filter]. unfold lower_hex in Hc.
  replace (c =? 45) with false by lia. cbn [negb]. rewrite IH. reflexivity.
Qed.
Lemma is_uuid_split u : is_uuid u -> exists p1 p2 p3 p4 p5, u = p1 ++ p2 ++ p3 ++ p4 ++ p5 /\ length p1 = 4%nat /\ length p2 = 2%nat /\ length p3 = 2%nat /\ length p4 = 2%nat /\ length p5 = 6%nat.
Proof.
  intros (L & _). destruct u as [|a0 [|a1 [|a2 [|a3 [|a4 [|a5 [|a6 [|a7 [|a8 [|a9 [|aa [|ab [|ac [|ad [|ae [|af [|x r]]]]]]]]]]]]]]]]]; try discriminate.
  exists [a0; a1; a2; a3], [a4; a5], [a6; a7], [a8; a9], [aa; ab; ac; ad; ae; af]. repeat split.
Qed.
Lemma text_is p1 p2 p3 p4 p5 : length p1 = 4%nat -> length p2 = 2%nat -> length p3 = 2%nat -> length p4 = 2%nat -> length p5 = 6%nat ->
  uuid_String (p1 ++ p2 ++ p3 ++ p4 ++ p5) = Ok (hex_encode p1 ++ 45 :: hex_encode p2 ++ 45 :: hex_encode p3 ++ 45 :: hex_encode p4 ++ 45 :: hex_encode p5).
Proof.
  intros. destruct p1 as [|a0 [|a1 [|a2 [|a3 [|]]]]]; try discriminate. destruct p2 as [|b0 [|b1 [|]]]; try discriminate. destruct p3 as [|c0 [|c1 [|]]]; try discriminate.
  destruct p4 as [|d0 [|d1 [|]]]; try discriminate. destruct p5 as [|e0 [|e1 [|e2 [|e3 [|e4 [|e5 [|]]]]]]]; try discriminate. reflexivity.
Qed.
Lemma wf_pieces p1 p2 p3 p4 p5 : wf_bytes (p1 ++ p2 ++ p3 ++ p4 ++ p5) -> wf_bytes p1 /\ wf_bytes p2 /\ wf_bytes p3 /\ wf_bytes p4 /\ wf_bytes p5.
Proof. unfold wf_bytes. rewrite !Forall_app. tauto. Qed.
(** The text of every UUID is the canonical one of its value, *)
Theorem C44_text : forall u, is_uuid u -> exists t, uuid_String u = Ok t /\ canonical t (bytes_number u).
Proof.
  intros u U. destruct (is_uuid_split u U) as (p1 & p2 & p3 & p4 & p5 & -> & L1 & L2 & L3 & L4 & L5). destruct U as (_ & W).
  destruct (wf_pieces _ _ _ _ _ W) as (W1 & W2 & W3 & W4 & W5). eexists. split; [apply text_is; auto|]. split.
  - unfold zlen. rewrite !app_length; cbn [length]. rewrite !app_length; cbn [length]. rewrite !app_length; cbn [length]. rewrite !app_length; cbn [length]. rewrite !hex_length, L1, L2, L3, L4, L5. reflexivity.
  - pose proof (hex_length p1) as K1. pose proof (hex_length p2) as K2. pose proof (hex_length p3) as K3. pose proof (hex_length p4) as K4. rewrite L1 in K1. rewrite L2 in K2. rewrite L3 in K3. rewrite L4 in K4.
    intros i Hi. cbn [In] in Hi. destruct Hi as [<- | [<- | [<- | [<- | []]]]].
    + rewrite app_nth2, K1 by lia. reflexivity.
    + rewrite app_nth2, K1 by lia. change (13 - 2 * 4)%nat with 5%nat. cbn [nth]. rewrite app_nth2, K2 by lia. reflexivity.
    + rewrite app_nth2, K1 by lia. change (18 - 2 * 4)%nat with 10%nat. cbn [nth]. rewrite app_nth2, K2 by lia. change (9 - 2 * 2)%nat with 5%nat. cbn [nth]. rewrite app_nth2, K3 by lia. reflexivity.
    + rewrite app_nth2, K1 by lia. change (23 - 2 * 4)%nat with 15%nat. cbn [nth]. rewrite app_nth2, K2 by lia. change (14 - 2 * 2)%nat with 10%nat. cbn [nth]. rewrite app_nth2, K3 by lia. change (9 - 2 * 2)%nat with 5%nat. cbn [nth]. rewrite app_nth2, K4 by lia. reflexivity.
  - pose proof (hex_lower p1 W1) as F1. pose proof (hex_lower p2 W2) as F2. pose proof (hex_lower p3 W3) as F3. pose proof (hex_lower p4 W4) as F4. pose proof (hex_lower p5 W5) as F5.
    pose proof (hex_length p1) as K1. pose proof (hex_length p2) as K2. pose proof (hex_length p3) as K3. pose proof (hex_length p4) as K4. pose proof (hex_length p5) as K5.
    rewrite L1 in K1. rewrite L2 in K2. rewrite L3 in K3. rewrite L4 in K4. rewrite L5 in K5. rewrite Forall_forall in *.
    intros i Hi N. cbn [In] in N.
    destruct (Nat.lt_ge_cases i 8); [rewrite app_nth1 by lia; apply F1, nth_In; lia|]. rewrite app_nth2, K1 by lia. change (2 * 4)%nat with 8%nat.
    destruct (i - 8)%nat as [|j] eqn:E; [lia|]. cbn [nth].
    destruct (Nat.lt_ge_cases j 4); [rewrite app_nth1 by lia; apply F2, nth_In; lia|]. rewrite app_nth2, K2 by lia. change (2 * 2)%nat with 4%nat.
    destruct (j - 4)%nat as [|k] eqn:E2; [lia|]. cbn [nth].
    destruct (Nat.lt_ge_cases k 4); [rewrite app_nth1 by lia; apply F3, nth_In; lia|]. rewrite app_nth2, K3 by lia. change (2 * 2)%nat with 4%nat.
    destruct (k - 4)%nat as [|m] eqn:E3; [lia|]. cbn [nth].
    destruct (Nat.lt_ge_cases m 4); [rewrite app_nth1 by lia; apply F4, nth_In; lia|]. rewrite app_nth2, K4 by lia. change (2 * 2)%nat with 4%nat.
    destruct (m - 4)%nat as [|n] eqn:E4; [lia|]. cbn [nth]. apply F5, nth_In. lia.
  - repeat (rewrite filter_app; cbn [filter]; change (negb (45 =? 45)) with false; cbn iota). rewrite !hex_nodash by assumption.
    unfold hex_number, bytes_number. rewrite !fold_left_app, !hex_num_acc by assumption. reflexivity.
Qed.
Print Assumptions C44_text.
(** two different UUIDs have different texts, *)
Lemma text_parse u t v : is_uuid u -> length v = 16%nat -> uuid_String u = Ok t -> uuid_parse v t = Ok u.
Proof.
  intros U Lv E. destruct (is_uuid_split u U) as (p1 & p2 & p3 & p4 & p5 & -> & L1 & L2 & L3 & L4 & L5). destruct U as (_ & W).
  destruct (wf_pieces _ _ _ _ _ W) as (W1 & W2 & W3 & W4 & W5). rewrite text_is in E by auto.
  assert (T : t = hex_encode p1 ++ 45 :: hex_encode p2 ++ 45 :: hex_encode p3 ++ 45 :: hex_encode p4 ++ 45 :: hex_encode p5) by congruence. subst t. clear E.
  assert (P1 : hex_into 4 (hex_encode p1) = Ok p1) by (apply hex_parse; [auto|unfold zlen; lia]).
  assert (P2 : hex_into 2 (hex_encode p2) = Ok p2) by (apply hex_parse; [auto|unfold zlen; lia]).
  assert (P3 : hex_into 2 (hex_encode p3) = Ok p3) by (apply hex_parse; [auto|unfold zlen; lia]).
  assert (P4 : hex_into 2 (hex_encode p4) = Ok p4) by (apply hex_parse; [auto|unfold zlen; lia]).
  assert (P5 : hex_into 6 (hex_encode p5) = Ok p5) by (apply hex_parse; [auto|unfold zlen; lia]).
  clear W W1 W2 W3 W4 W5.
  pose proof (hex_length p1) as K1. pose proof (hex_length p2) as K2. pose proof (hex_length p3) as K3. pose proof (hex_length p4) as K4. pose proof (hex_length p5) as K5.
  rewrite L1 in K1. rewrite L2 in K2. rewrite L3 in K3. rewrite L4 in K4. rewrite L5 in K5.
  revert P1 P2 P3 P4 P5 K1 K2 K3 K4 K5. generalize (hex_encode p1) (hex_encode p2) (hex_encode p3) (hex_encode p4) (hex_encode p5). intros t1 t2 t3 t4 t5 P1 P2 P3 P4 P5 K1 K2 K3 K4 K5.
  cbn in K1, K2, K3, K4, K5.
  destruct t1 as [|x0 [|x1 [|x2 [|x3 [|x4 [|x5 [|x6 [|x7 [|]]]]]]]]]; try discriminate.
  destruct t2 as [|y0 [|y1 [|y2 [|y3 [|]]]]]; try discriminate. destruct t3 as [|z0 [|z1 [|z2 [|z3 [|]]]]]; try discriminate. destruct t4 as [|w0 [|w1 [|w2 [|w3 [|]]]]]; try discriminate.
  destruct t5 as [|q0 [|q1 [|q2 [|q3 [|q4 [|q5 [|q6 [|q7 [|q8 [|q9 [|qa [|qb [|]]]]]]]]]]]]]; try discriminate.
  unfold uuid_parse. cbn [app].
  match goal with |- context [slice_to ?l 8] => set (T := l) in * end.
  change (slice_to T 8) with (Ok [x0; x1; x2; x3; x4; x5; x6; x7]). change (slice T 9 13) with (Ok [y0; y1; y2; y3]). change (slice T 14 18) with (Ok [z0; z1; z2; z3]).
  change (slice T 19 23) with (Ok [w0; w1; w2; w3]). change (slice_from T 24) with (Ok [q0; q1; q2; q3; q4; q5; q6; q7; q8; q9; qa; qb]). cbn [bind].
  rewrite P1. cbn [bind]. rewrite P2. cbn [bind]. rewrite P3. cbn [bind]. rewrite P4. cbn [bind]. rewrite P5. cbn [bind]. f_equal. clear - Lv L1 L2 L3 L4 L5.
  destruct p1 as [|a0 [|a1 [|a2 [|a3 [|]]]]]; try discriminate. destruct p2 as [|b0 [|b1 [|]]]; try discriminate. destruct p3 as [|c0 [|c1 [|]]]; try discriminate.
  destruct p4 as [|d0 [|d1 [|]]]; try discriminate. destruct p5 as [|e0 [|e1 [|e2 [|e3 [|e4 [|e5 [|]]]]]]]; try discriminate.
  destruct v as [|v0 [|v1 [|v2 [|v3 [|v4 [|v5 [|v6 [|v7 [|v8 [|v9 [|va [|vb [|vc [|vd [|ve [|vf [|]]]]]]]]]]]]]]]]]; try discriminate. reflexivity.
Qed.
Theorem C44_distinct : forall u v, is_uuid u -> is_uuid v -> u <> v -> uuid_String u <> uuid_String v.
Proof.
  intros u v U V N E. apply N. destruct (C44_text u U) as (t & T & _). rewrite T in E. symmetry in E.
  pose proof (text_parse u t v U (proj1 V) T) as A. pose proof (text_parse v t v V (proj1 V) E) as B. congruence.
Qed.
Print Assumptions C44_distinct.
(** and the parser computes the UUID of a text from that text alone - *)
Theorem C44_parse_partial : forall u t v, is_uuid u -> length v = 16%nat -> uuid_String u = Ok t -> uuid_parse v t = Ok u.
Proof. exact text_parse. Qed.
Print Assumptions C44_parse_partial.
(** - into a copy: the caller's UUID is never changed, and the package function returns zeros. *)
Theorem C44_from_string_refuted : forall u s, (uuid_FromString u s = Ok u \/ uuid_FromString u s = Panic) /\ util_FromString s = repeat 0 16.
Proof. intros u s. split; [|reflexivity]. unfold uuid_FromString. destruct (uuid_parse u s); auto. Qed.
Print Assumptions C44_from_string_refuted.
(** A text shorter than 24 characters makes it panic. *)
Theorem C44_short_refuted : forall u s, zlen s < 24 -> uuid_FromString u s = Panic.
Proof.
  intros u s H. unfold uuid_FromString, uuid_parse.
  destruct (slice_to s 8) as [t|]; [|reflexivity]. cbn [bind]. destruct (hex_into 4 t); [|reflexivity]. cbn [bind].
  destruct (slice s 9 13) as [t2|]; [|reflexivity]. cbn [bind]. destruct (hex_into 2 t2); [|reflexivity]. cbn [bind].
  destruct (slice s 14 18) as [t3|]; [|reflexivity]. cbn [bind]. destruct (hex_into 2 t3); [|reflexivity]. cbn [bind].
  destruct (slice s 19 23) as [t4|]; [|reflexivity]. cbn [bind]. destruct (hex_into 2 t4); [|reflexivity]. cbn [bind].
  rewrite slice_from_panic by lia. reflexivity.
Qed.
Print Assumptions C44_short_refuted.
(** The URN form is the text after its prefix. *)
Theorem C44_urn : forall u t, is_uuid u -> uuid_String u = Ok t -> uuid_URI u = Ok (str "urn:uuid:" ++ t).
Proof.
  intros u t U E. unfold uuid_URI. rewrite (overwrite_fits (repeat 0 45) 0 (str "urn:uuid:")) by (cbn; lia).
  change (firstn 0 (repeat 0 45) ++ str "urn:uuid:" ++ skipn (0 + length (str "urn:uuid:")) (repeat 0 45)) with (str "urn:uuid:" ++ repeat 0 36).
  change (slice_from (str "urn:uuid:" ++ repeat 0 36) 9) with (Ok (repeat 0 36)). cbn [bind]. change (encodeHex (repeat 0 36) u) with (uuid_String u). rewrite E. reflexivity.
Qed.
Print Assumptions C44_urn.
Example C44_nonvacuous : is_uuid [1; 2; 3; 4; 5; 6; 7; 8; 9; 10; 11; 12; 13; 14; 15; 255] /\
  uuid_String [1; 2; 3; 4; 5; 6; 7; 8; 9; 10; 11; 12; 13; 14; 15; 255] = Ok (str "01020304-0506-0708-090a-0b0c0d0e0fff").
Proof. split; [|reflexivity]. split; [reflexivity|]. repeat constructor; unfold is_byte; lia. Qed.
Example C44_cases : (exists u, V4 (repeat 255 16) = Ok u /\ u = [255; 255; 255; 255; 255; 255; 79; 255; 191; 255; 255; 255; 255; 255; 255; 255]) /\
  uuid_parse (repeat 9 16) (str "01020304-0506-0708-090a-0b0c0d0e0fff") = Ok [1; 2; 3; 4; 5; 6; 7; 8; 9; 10; 11; 12; 13; 14; 15; 255] /\
  uuid_FromString (repeat 9 16) (str "too short") = Panic.
Proof. split; [eexists; split; vm_compute; reflexivity|]. split; vm_compute; reflexivity. Qed.

(** * C56 *)
Theorem C56_inclusion : forall base user, CheckUserType base user = true <-> (forall i, 0 <= i -> Z.testbit user i = true -> Z.testbit base i = true).
Proof.
  intros base user. unfold CheckUserType. rewrite Z.eqb_eq. split.
  - intros E i Hi T. rewrite <- E in T. rewrite Z.land_spec in T. apply andb_true_iff in T. tauto.
  - intros H. apply Z.bits_inj'. intros i Hi. rewrite Z.land_spec. destruct (Z.testbit user i) eqn:T; [rewrite (H i Hi T)|]; reflexivity.
Qed.
Print Assumptions C56_inclusion.
Theorem C56_order : forall a b c, CheckUserType a a = true /\ (CheckUserType b a = true -> CheckUserType c b = true -> CheckUserType c a = true) /\
  (CheckUserType a b = true -> CheckUserType b a = true -> a = b).
Proof.
  intros a b c. repeat split.
  - apply C56_inclusion. auto.
  - rewrite !C56_inclusion. auto.
  - rewrite !C56_inclusion. intros H1 H2. apply Z.bits_inj'. intros i Hi. specialize (H1 i Hi). specialize (H2 i Hi).
    destruct (Z.testbit a i), (Z.testbit b i); auto. symmetry. auto.
Qed.
Print Assumptions C56_order.
Theorem C56_monotone : forall base more user, CheckUserType base user = true -> CheckUserType (Z.lor base more) user = true.
Proof. intros base more user. rewrite !C56_inclusion. intros H i Hi T. rewrite Z.lor_spec, (H i Hi T). reflexivity. Qed.
Print Assumptions C56_monotone.
Theorem C56_union : forall base u v, CheckUserType base (Z.lor u v) = CheckUserType base u && CheckUserType base v.
Proof.
  intros base u v. apply eq_true_iff_eq. rewrite andb_true_iff, !C56_inclusion. split.
  - intros H. split; intros i Hi T; apply (H i Hi); rewrite Z.lor_spec, T; destruct (Z.testbit u i); reflexivity.
  - intros (H1 & H2) i Hi T. rewrite Z.lor_spec in T. apply orb_true_iff in T. destruct T; auto.
Qed.
Print Assumptions C56_union.
Example C56_nonvacuous : CheckUserType 6 2 = true /\ CheckUserType 6 3 = false.
Proof. split; reflexivity. Qed.

(** * C61 *)
(** The text of a 32-byte identifier decodes to its id, *)
Lemma quad_ind (P : list Z -> Prop) : P [] -> (forall a, P [a]) -> (forall a b, P [a; b]) -> (forall a b c, P [a; b; c]) ->
  (forall a b c d t, P t -> P (a :: b :: c :: d :: t)) -> forall l, P l.
Proof.
  intros H0 H1 H2 H3 H4 l. remember (length l) as n eqn:E. assert (L : (length l <= n)%nat) by lia. clear E. revert l L.
  induction n as [|n IH]; intros [|a [|b [|c [|d t]]]] L; auto; cbn [length] in L; try lia. apply H4, IH. lia.
Qed.
Lemma into_groups dg l : forall cap, 0 <= cap -> match b64_groups dg l with
  | Some r => b64_into dg cap l = if zlen r <=? cap then Ok (Some r) else Panic
  | None => b64_into dg cap l = Ok None \/ b64_into dg cap l = Panic
  end.
Proof.
  induction l as [|a|a b|a b c|a b c d t IH] using quad_ind; intros cap C; cbn [b64_groups b64_into].
  - change (zlen (@nil Z)) with 0. replace (0 <=? cap) with true by lia. reflexivity.
  - auto.
  - destruct (dg a) as [x|], (dg b) as [y|]; auto. change (zlen [x * 4 + y / 16]) with 1. destruct (cap <? 1) eqn:E; [replace (1 <=? cap) with false by lia|replace (1 <=? cap) with true by lia]; reflexivity.
  - destruct (dg a) as [x|], (dg b) as [y|], (dg c) as [z|]; auto. change (zlen [x * 4 + y / 16; y mod 16 * 16 + z / 4]) with 2.
    destruct (cap <? 2) eqn:E; [replace (2 <=? cap) with false by lia|replace (2 <=? cap) with true by lia]; reflexivity.
  - destruct (dg a) as [x|], (dg b) as [y|], (dg c) as [z|], (dg d) as [w|]; auto. specialize (IH (cap - 3)).
    destruct (b64_groups dg t) as [r|].
    + rewrite !zlen_cons. destruct (cap <? 3) eqn:E.
      * pose proof (zlen_nonneg r). replace (1 + (1 + (1 + zlen r)) <=? cap) with false by lia. reflexivity.
      * rewrite IH by lia. destruct (zlen r <=? cap - 3) eqn:E2; [replace (1 + (1 + (1 + zlen r)) <=? cap) with true by lia|replace (1 + (1 + (1 + zlen r)) <=? cap) with false by lia]; reflexivity.
    + destruct (cap <? 3) eqn:E; auto. destruct IH as [-> | ->]; [lia|left; reflexivity|right; reflexivity].
Qed.
(** Decoding a text into the eight bytes of an id: what RFC 4648 says when it fits, nothing (and
    no error) when the text is malformed, a panic when there is more. *)
Theorem C61_decode : forall s, match b64_decode url_digit s with
  | Some r => IDfromString s = if zlen r <=? 8 then lele_Uint64 (overwrite (repeat 0 8) 0 r) else Panic
  | None => IDfromString s = Ok 0 \/ IDfromString s = Panic
  end.
Proof.
  intros s. unfold b64_decode, IDfromString. pose proof (into_groups url_digit (filter (fun c => negb ((c =? 10) || (c =? 13))) s) 8 ltac:(lia)) as H.
  destruct (b64_groups url_digit _) as [r|].
  - rewrite H. destruct (zlen r <=? 8); reflexivity.
  - destruct H as [-> | ->]; [left|right]; reflexivity.
Qed.
Print Assumptions C61_decode.
(** The text of every 32-byte identifier decodes to its id, *)
Theorem C61_round_trip : forall id, length id = 32%nat -> wf_bytes id -> exists t v, IDasString id = Ok t /\ id32 id = Ok v /\ IDfromString t = Ok v.
Proof.
  intros id L W. assert (W8 : wf_bytes (firstn 8 id)) by (rewrite <- (firstn_skipn 8 id) in W; apply Forall_app in W; tauto).
  unfold IDasString. rewrite slice_to_ok by (unfold zlen; lia). cbn [bind]. change (Z.to_nat 8) with 8%nat.
  eexists. exists (le_value (firstn 8 id)). split; [reflexivity|]. split.
  - unfold id32, get64_at. rewrite from0. cbn [bind]. apply (co_get _ _ _ _ _ lele64_ok); [exact W8|lia].
  - pose proof (C61_decode (b64_encode url_char (firstn 8 id))) as H. rewrite (b64_round_trip _ _ _ url_alphabet W8) in H. rewrite H. clear H.
    assert (L8 : length (firstn 8 id) = 8%nat) by (rewrite firstn_length; lia). replace (zlen (firstn 8 id) <=? 8) with true by (unfold zlen; lia).
    assert (O : overwrite (repeat 0 8) 0 (firstn 8 id) = firstn 8 id).
    { unfold overwrite. rewrite repeat_length. generalize dependent (firstn 8 id). intros q _ L8. change (firstn 0 (repeat 0 8)) with (@nil Z). rewrite (firstn_all2 q) by lia. rewrite skipn_all2 by (rewrite repeat_length, L8; lia). rewrite app_nil_r. reflexivity. }
    rewrite O. assert (G : firstn 8 (firstn 8 id) = firstn 8 id) by (rewrite firstn_firstn; reflexivity).
    rewrite <- G at 2. apply (co_get _ _ _ _ _ lele64_ok); [rewrite G; exact W8|lia].
Qed.
Print Assumptions C61_round_trip.
(** a text of at most eleven characters is handled without a panic, *)
Lemma groups_len dg l : forall r, b64_groups dg l = Some r -> 4 * zlen r <= 3 * zlen l.
Proof.
  induction l as [|a|a b|a b c|a b c d t IH] using quad_ind; intros r E; cbn [b64_groups] in E.
  - injection E as <-. cbn; lia.
  - discriminate.
  - destruct (dg a), (dg b); try discriminate. injection E as <-. unfold zlen; cbn [length]; lia.
  - destruct (dg a), (dg b), (dg c); try discriminate. injection E as <-. unfold zlen; cbn [length]; lia.
  - destruct (dg a), (dg b), (dg c), (dg d); try discriminate. destruct (b64_groups dg t) as [q|]; try discriminate. injection E as <-.
    specialize (IH q eq_refl). rewrite !zlen_cons. lia.
Qed.
Lemma into_safe dg l : forall cap, 0 <= cap -> 3 * zlen l <= 4 * cap + 3 -> b64_into dg cap l <> Panic.
Proof.
  induction l as [|a|a b|a b c|a b c d t IH] using quad_ind; intros cap C H; cbn [b64_into]; try discriminate; unfold zlen in H; cbn [length] in H.
  - destruct (dg a), (dg b); try discriminate. replace (cap <? 1) with false by lia. discriminate.
  - destruct (dg a), (dg b), (dg c); try discriminate. replace (cap <? 2) with false by lia. discriminate.
  - destruct (dg a), (dg b), (dg c), (dg d); try discriminate. replace (cap <? 3) with false by lia. specialize (IH (cap - 3) ltac:(lia) ltac:(unfold zlen; lia)).
    destruct (b64_into dg (cap - 3) t); [discriminate|contradiction].
Qed.
Lemma filter_short {A} (f : A -> bool) l : zlen (filter f l) <= zlen l.
Proof. induction l as [|a l IH]; [cbn; lia|]. cbn [filter]. destruct (f a); rewrite !zlen_cons; lia. Qed.
Theorem C61_short_partial : forall s, zlen s <= 11 -> IDfromString s <> Panic.
Proof.
  intros s H. unfold IDfromString. pose proof (filter_short (fun c => negb ((c =? 10) || (c =? 13))) s) as F.
  pose proof (into_safe url_digit (filter (fun c => negb ((c =? 10) || (c =? 13))) s) 8 ltac:(lia) ltac:(lia)) as P.
  destruct (b64_into url_digit 8 _) as [[r|]|]; [|discriminate|contradiction]. cbn [bind].
  assert (L : length (overwrite (repeat 0 8) 0 r) = 8%nat) by (rewrite overwrite_length; [reflexivity|cbn; lia]).
  destruct (overwrite (repeat 0 8) 0 r) as [|a0 [|a1 [|a2 [|a3 [|a4 [|a5 [|a6 [|a7 [|]]]]]]]]]; try discriminate L. discriminate.
Qed.
Print Assumptions C61_short_partial.
(** but the text of anything longer than eight bytes makes it panic, *)
Theorem C61_long_refuted : forall l, wf_bytes l -> 8 < zlen l -> IDfromString (b64_encode url_char l) = Panic.
Proof.
  intros l W H. pose proof (C61_decode (b64_encode url_char l)) as D. rewrite (b64_round_trip _ _ _ url_alphabet W) in D.
  replace (zlen l <=? 8) with false in D by lia. exact D.
Qed.
Print Assumptions C61_long_refuted.
(** and a malformed text is reported as the id 0 without an error, like a text of that id. *)
Theorem C61_malformed_refuted : IDfromString (str "!!") = Ok 0 /\ IDfromString (b64_encode url_char (repeat 0 8)) = Ok 0.
Proof. split; reflexivity. Qed.
Print Assumptions C61_malformed_refuted.
Example C61_nonvacuous : IDasString (repeat 7 32) = Ok (str "BwcHBwcHBwc") /\ IDfromString (str "BwcHBwcHBwc") = Ok 506381209866536711.
Proof. split; reflexivity. Qed.

(** * C81 *)
(** A user identifier keeps the random part and, in byte 12, the type, *)
Lemma user_new ty sec nsec a b c : user_NewID ty sec nsec [a; b; c] = Ok (repeat 0 12 ++ [u8 ty; a; b; c]).
Proof.
  unfold user_NewID. pose proof (put64_0 (repeat 0 8) (repeat 0 8) (u64 sec) ltac:(reflexivity) (u64_range _)) as P1.
  change (repeat 0 8 ++ repeat 0 8) with (repeat 0 16) in P1. rewrite P1. cbn [bind].
  pose proof (put32_8 (repeat 0 8) (repeat 0 4) (repeat 0 4) (u32 nsec) ltac:(reflexivity) ltac:(reflexivity) ltac:(apply Z.mod_pos_bound; reflexivity)) as P2.
  change (repeat 0 8 ++ repeat 0 4 ++ repeat 0 4) with (repeat 0 16) in P2. rewrite P2. cbn [bind]. generalize (u8 ty). intros t. reflexivity.
Qed.
Theorem C81_layout_partial : forall ty sec nsec r, length r = 3%nat ->
  exists id, user_NewID ty sec nsec r = Ok id /\ length id = 16%nat /\ user_ID id = r /\ nth 12 id 0 = ty mod 256.
Proof.
  intros ty sec nsec r L. destruct r as [|a [|b [|c [|]]]]; try discriminate. eexists. split; [apply user_new|]. repeat split.
Qed.
Print Assumptions C81_layout_partial.
(** but not its creation time, and its type is read from another byte: always 0. *)
Theorem C81_time_refuted : forall ty sec nsec sec' nsec' r, length r = 3%nat -> user_NewID ty sec nsec r = user_NewID ty sec' nsec' r.
Proof. intros ty sec nsec sec' nsec' r L. destruct r as [|a [|b [|c [|]]]]; try discriminate. rewrite !user_new. reflexivity. Qed.
Print Assumptions C81_time_refuted.
Theorem C81_type_refuted : forall ty sec nsec r, length r = 3%nat -> exists id, user_NewID ty sec nsec r = Ok id /\ user_Type id = Ok 0 /\ second id = Ok 0 /\ nano id = Ok 0.
Proof.
  intros ty sec nsec r L. destruct r as [|a [|b [|c [|]]]]; try discriminate. eexists. split; [apply user_new|]. repeat split.
Qed.
Print Assumptions C81_type_refuted.
Example C81_nonvacuous : user_NewID 4 1700000000 5 [1; 2; 3] = Ok [0; 0; 0; 0; 0; 0; 0; 0; 0; 0; 0; 0; 4; 1; 2; 3].
Proof. reflexivity. Qed.
