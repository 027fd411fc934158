(** Property theorems C45-C46 (Luhn). *)
From Coq Require Import ZifyBool ZifyNat.
From Verif Require Import Go GoFacts LuhnModel LuhnSpec LuhnProofs.

(** C45: a digit string is accepted exactly when its Luhn sum is a multiple of ten; *)
Theorem C45_exact : forall s, Forall is_num s -> (LuhnAlgorithm s = true <-> luhn_valid s).
Proof. intros s H. rewrite luhn_exact by auto. unfold luhn_valid. lia. Qed.
Print Assumptions C45_exact.
(** changing one digit anywhere, *)
Theorem C45_single_digit : forall a c d b, Forall is_num (a ++ c :: b) -> is_num d -> c <> d ->
  LuhnAlgorithm (a ++ c :: b) = true -> LuhnAlgorithm (a ++ d :: b) = false.
Proof. exact single_change. Qed.
Print Assumptions C45_single_digit.
(** or swapping two different neighbours, except 0 and 9, is detected; *)
Theorem C45_adjacent_swap : forall a c d b, Forall is_num (a ++ c :: d :: b) -> c <> d ->
  ~ (c = chr "0" /\ d = chr "9") -> ~ (c = chr "9" /\ d = chr "0") ->
  LuhnAlgorithm (a ++ c :: d :: b) = true -> LuhnAlgorithm (a ++ d :: c :: b) = false.
Proof. exact swap_detected. Qed.
Print Assumptions C45_adjacent_swap.
(** swapping 0 and 9 never is. *)
Theorem C45_swap_0_9 : forall a b, Forall is_num (a ++ b) ->
  LuhnAlgorithm (a ++ chr "0" :: chr "9" :: b) = LuhnAlgorithm (a ++ chr "9" :: chr "0" :: b).
Proof.
  intros a b H. apply Forall_app in H as [Ha Hb].
  assert (is_num (chr "0") /\ is_num (chr "9")) as [N0 N9] by (unfold is_num; cbn; lia).
  rewrite !luhn_exact by (apply Forall_app; auto). rewrite !luhn_sum_mid.
  change (chr "9" :: b) with ([] ++ chr "9" :: b). change (chr "0" :: b) with ([] ++ chr "0" :: b).
  rewrite !luhn_sum_mid. cbn [app length].
  rewrite !Nat.odd_succ, <- !Nat.negb_odd.
  assert (W0 : forall o, weigh o (value_of (chr "0")) = 0) by (intros [|]; reflexivity).
  assert (W9 : forall o, weigh o (value_of (chr "9")) = 9) by (intros [|]; reflexivity).
  rewrite !W0, !W9. f_equal. f_equal. lia.
Qed.
Print Assumptions C45_swap_0_9.
Example C45_example : LuhnAlgorithm (str "4539578763621486") = true /\
  LuhnAlgorithm (str "4539578763621487") = false /\ LuhnAlgorithm (str "4539578763612486") = false
  /\ luhn_valid (str "4539578763621486").
Proof. vm_compute. repeat split. Qed.
(** Bytes that are not digits are not rejected: a colon counts as the digit ten. *)
Example C45_not_a_digit : LuhnAlgorithm (str ":") = true /\ LuhnAlgorithm [] = true.
Proof. vm_compute. auto. Qed.

(** C46: the computed digit is a digit, the last byte is "valid" exactly when it is that
    digit, and for a payload of odd length the completed number is accepted; *)
Theorem C46_check_digit_partial : forall p c, Forall is_num p -> Nat.odd (length p) = true ->
  exists d, LuhnAlgorithmChecksum (p ++ [c]) = Ok (d =? c, d) /\ is_num d /\
    luhn_valid (p ++ [d]) /\ LuhnAlgorithm (p ++ [d]) = true /\
    forall d', is_num d' -> luhn_valid (p ++ [d']) -> d' = d.
Proof.
  intros p c H Ho. eexists. split; [apply checksum_value; auto|].
  pose proof (left_sum_nonneg p H).
  set (d := (10 - left_sum p mod 10) mod 10 + 48).
  assert (Hd : is_num d) by (unfold is_num; subst d; Z.div_mod_to_equations; lia).
  assert (V : luhn_valid (p ++ [d])).
  { unfold luhn_valid. rewrite check_digit_sum by auto. 
    replace (sum_from_right (rev (map value_of p)) true) with (left_sum p) by (unfold left_sum; now rewrite Ho).
    unfold value_of. subst d. generalize (left_sum p). intros y.
    replace (y + ((10 - y mod 10) mod 10 + 48 - 48)) with (y + (10 - y mod 10) mod 10) by lia.
    Z.div_mod_to_equations; lia. }
  split; [exact Hd|]. split; [exact V|]. split.
  - rewrite luhn_exact by (apply Forall_app; auto). unfold luhn_valid in V. lia.
  - intros d' Hd' V'. unfold luhn_valid in *. rewrite check_digit_sum in V, V' by auto.
    unfold is_num, value_of in *. clearbody d. Z.div_mod_to_equations; lia.
Qed.
Print Assumptions C46_check_digit_partial.
(** for a payload of even length the wrong digits
    are doubled: the completed number is accepted exactly when doubling the even and the odd
    positions of the payload give sums that agree modulo ten. *)
Theorem C46_even_payload_refuted : forall p c, Forall is_num p -> Nat.odd (length p) = false ->
  exists d, LuhnAlgorithmChecksum (p ++ [c]) = Ok (d =? c, d) /\
    (LuhnAlgorithm (p ++ [d]) = true <->
     sum_from_right (rev (map value_of p)) true mod 10 = luhn_sum p mod 10).
Proof.
  intros p c H Ho. eexists. split; [apply checksum_value; auto|].
  pose proof (left_sum_nonneg p H).
  set (d := (10 - left_sum p mod 10) mod 10 + 48).
  assert (Hd : is_num d) by (unfold is_num; subst d; Z.div_mod_to_equations; lia).
  rewrite luhn_exact by (apply Forall_app; auto). rewrite check_digit_sum by auto.
  replace (luhn_sum p) with (left_sum p) by (unfold left_sum; now rewrite Ho).
  unfold value_of at 2. subst d. generalize (left_sum p), (sum_from_right (rev (map value_of p)) true). intros x y.
  replace (y + ((10 - x mod 10) mod 10 + 48 - 48)) with (y + (10 - x mod 10) mod 10) by lia.
  Z.div_mod_to_equations; lia.
Qed.
Print Assumptions C46_even_payload_refuted.
Example C46_even_witness : LuhnAlgorithmChecksum (str "120") = Ok (false, chr "6") /\
  LuhnAlgorithm (str "126") = false /\ LuhnAlgorithm (str "125") = true.
Proof. vm_compute. auto. Qed.
Theorem C46_empty_panics : LuhnAlgorithmChecksum [] = Panic.
Proof. reflexivity. Qed.
Print Assumptions C46_empty_panics.
Example C46_example : LuhnAlgorithmChecksum (str "79927398713") = Ok (false, chr "4")
  /\ LuhnAlgorithmChecksum (str "453957876362148X") = Ok (false, chr "6").
Proof. vm_compute. auto. Qed.
