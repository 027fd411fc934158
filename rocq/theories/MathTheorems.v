(** C120 shares of a number; C121 booleans and signed integers as text; C122 text lengths. *)
From Coq Require Import ZifyBool ZifyNat String.
From Verif Require Import Go GoFacts IntSpec IntProofs StrconvModel MathModel MathSpec.
Import ListNotations.
Local Open Scope Z_scope.
Local Open Scope list_scope.

Lemma divisor_pos p : 0 < divisor p.
Proof. destruct p; reflexivity. Qed.
Lemma wrapped_differs d x : 0 < d <= 10 ^ 9 -> 2 ^ 64 <= x -> u64 x / d <> x / d.
Proof.
  intros D H E. unfold u64 in E. change (10 ^ 9) with 1000000000 in D. change (2 ^ 64) with 18446744073709551616 in *.
  pose proof (Z.mod_pos_bound x 18446744073709551616 ltac:(lia)). pose proof (Z.div_mod x 18446744073709551616 ltac:(lia)).
  assert (1 <= x / 18446744073709551616) by (apply Z.div_le_lower_bound; lia).
  assert (x mod 18446744073709551616 + d <= x) by nia.
  assert (x mod 18446744073709551616 / d < x / d); [|lia].
  apply Z.lt_le_trans with ((x mod 18446744073709551616 + 1 * d) / d); [rewrite Z.div_add by lia; lia|]. apply Z.div_le_mono; lia.
Qed.
(** C120.  Up to a billionth the share is exact, rounded down, exactly when the product fits 64 bits. *)
Theorem C120_exact_partial : forall p b num, typed p b num -> p <> Trillion -> p <> Quadrillion ->
  (Calculate p b num = num * b / whole p <-> num * b < 2 ^ 64).
Proof.
  intros p b num (B & N) NT NQ. unfold Calculate. assert (E : divisor p = whole p) by (destruct p; try reflexivity; congruence). rewrite <- E.
  assert (D : 0 < divisor p <= 10 ^ 9) by (destruct p; split; vm_compute; congruence).
  split.
  - intros H. destruct (Z_lt_ge_dec (num * b) (2 ^ 64)) as [L|L]; [exact L|]. exfalso. eapply (wrapped_differs (divisor p) (num * b)); eauto; lia.
  - intros H. rewrite u64_small; [reflexivity|]. split; [nia|exact H].
Qed.
Print Assumptions C120_exact_partial.
(** A share of at most the whole is at most the number, and it grows with the number. *)
Theorem C120_at_most_partial : forall p b num n2, typed p b num -> typed p b n2 -> p <> Trillion -> p <> Quadrillion ->
  b <= whole p -> num <= n2 -> n2 * b < 2 ^ 64 -> 0 <= Calculate p b num <= num /\ Calculate p b num <= Calculate p b n2.
Proof.
  intros p b num n2 T1 T2 NT NQ W L H. assert (num * b < 2 ^ 64) by (destruct T1, T2; nia).
  rewrite (proj2 (C120_exact_partial p b num T1 NT NQ)) by auto. rewrite (proj2 (C120_exact_partial p b n2 T2 NT NQ)) by auto.
  assert (P : 0 < whole p) by (destruct p; reflexivity). destruct T1, T2. repeat split.
  - apply Z.div_pos; nia. - apply Z.div_le_upper_bound; nia. - apply Z.div_le_mono; nia.
Qed.
Print Assumptions C120_at_most_partial.
(** The whole of a number is the number, only if it is small enough; *)
Theorem C120_whole_refuted : forall p num, p <> Trillion -> p <> Quadrillion -> typed p (whole p) num ->
  (Calculate p (whole p) num = num <-> num * whole p < 2 ^ 64).
Proof.
  intros p num NT NQ T. rewrite <- (C120_exact_partial p (whole p) num T NT NQ). rewrite Z.div_mul; [reflexivity|]. destruct p; discriminate.
Qed.
Print Assumptions C120_whole_refuted.
(** and trillionths and quadrillionths are taken for millionths: wrong for every product of a million
    or more, overflow aside. *)
Theorem C120_units_refuted : forall p b num, typed p b num -> p = Trillion \/ p = Quadrillion -> num * b < 2 ^ 64 ->
  Calculate p b num = num * b / 10 ^ 6 /\ (Calculate p b num = num * b / whole p <-> num * b < 10 ^ 6).
Proof.
  intros p b num (B & N) P H. unfold Calculate. rewrite u64_small by (split; [nia|exact H]).
  assert (E : divisor p = 1000000) by (destruct P; subst; reflexivity). rewrite E. change (10 ^ 6) with 1000000. split; [reflexivity|].
  assert (X : 0 <= num * b) by nia. set (x := num * b) in *. clearbody x.
  assert (W : whole p = 1000000000000 \/ whole p = 1000000000000000) by (destruct P; subst; auto).
  split; intros K.
  - destruct (Z_lt_ge_dec x 1000000) as [L|L]; [exact L|exfalso]. destruct W as [W|W]; rewrite W in K; Z.div_mod_to_equations; lia.
  - destruct W as [W|W]; rewrite W; rewrite !Z.div_small; lia.
Qed.
Print Assumptions C120_units_refuted.
(** C120.  The whole fits its type, the narrowest of Go's unsigned types that holds it. *)
Theorem C120_type : forall p, whole p < 2 ^ bits p /\ forall w, In w [8; 16; 32; 64] -> whole p < 2 ^ w -> bits p <= w.
Proof.
  intros p. split; [destruct p; reflexivity|]. intros w H L.
  destruct H as [<-|[<-|[<-|[<-|[]]]]]; destruct p; vm_compute in L |- *; congruence.
Qed.
Print Assumptions C120_type.
Example C120_case : typed Cent 15 2000 /\ Calculate Cent 15 2000 = 300 /\
  Calculate Trillion 500000000000 100 = 50000000 /\ Calculate Cent 100 (2 ^ 63) = 0 /\ typed Cent (whole Cent) (2 ^ 63).
Proof. unfold typed. repeat split; try reflexivity; vm_compute; congruence. Qed.

(** C121.  A boolean's text gives it back, whatever the receiver held; six texts are understood. *)
Theorem C121_bool : forall b old, Bool_FromString old (Bool_ToString b) = b.
Proof. intros [] []; reflexivity. Qed.
Print Assumptions C121_bool.
Theorem C121_bool_texts : forall s b, (forall old, Bool_FromString old s = b) <->
  In s (if b then [str "true"%string; str "TRUE"%string; str "True"%string] else [str "false"%string; str "FALSE"%string; str "False"%string]).
Proof.
  intros s b. unfold Bool_FromString. split.
  - intros H. destruct (beq s true_) eqn:E1; [apply beq_eq in E1; subst; specialize (H true); cbn in H; subst b; now left|].
    destruct (beq s TRUE_) eqn:E2; [apply beq_eq in E2; subst; specialize (H true); cbn in H; subst b; right; now left|].
    destruct (beq s True_) eqn:E3; [apply beq_eq in E3; subst; specialize (H true); cbn in H; subst b; right; right; now left|].
    destruct (beq s false_) eqn:E4; [apply beq_eq in E4; subst; specialize (H true); cbn in H; subst b; now left|].
    destruct (beq s FALSE_) eqn:E5; [apply beq_eq in E5; subst; specialize (H true); cbn in H; subst b; right; now left|].
    destruct (beq s False_) eqn:E6; [apply beq_eq in E6; subst; specialize (H true); cbn in H; subst b; right; right; now left|].
    cbn [orb] in H. pose proof (H true). pose proof (H false). congruence.
  - intros H old. destruct b; destruct H as [<- | [<- | [<- | []]]]; reflexivity.
Qed.
Print Assumptions C121_bool_texts.
(** Any other text is accepted too, and means what the receiver held before. *)
Theorem C121_bool_unknown_refuted : forall s, (forall b, ~ In s (if b : bool then [str "true"%string; str "TRUE"%string; str "True"%string] else [str "false"%string; str "FALSE"%string; str "False"%string])) ->
  forall old, Bool_FromString old s = old.
Proof.
  intros s H old. pose proof (H true) as T. pose proof (H false) as F. cbn [In] in T, F. unfold Bool_FromString.
  assert (K : forall t, t <> s -> beq s t = false) by (intros t N; apply beq_neq; congruence).
  change true_ with (str "true"%string). change TRUE_ with (str "TRUE"%string). change True_ with (str "True"%string).
  change false_ with (str "false"%string). change FALSE_ with (str "FALSE"%string). change False_ with (str "False"%string).
  rewrite !K by tauto. reflexivity.
Qed.
Print Assumptions C121_bool_unknown_refuted.
(** A signed integer is printed as its decimal numeral, *)
Theorem C121_signed_format : forall v, signed_value (S_ToString v) v.
Proof.
  intros v. unfold S_ToString, FormatInt10, signed_value. destruct (Z.ltb_spec v 0).
  - right. split; [auto|]. exists (FormatUint10 (- v)). destruct (format_spec (- v)) as (A & B & C & _); [lia|]. auto.
  - left. destruct (format_spec v) as (A & B & C & _); [lia|]. auto.
Qed.
Print Assumptions C121_signed_format.
(** but parsing leaves the receiver as it was, for every text: printing and parsing gives the number
    back only if the receiver held it already. *)
Theorem C121_signed_parse_refuted : forall w old v s, S_FromString w old s = old /\
  (S_FromString w old (S_ToString v) = v <-> old = v).
Proof. intros. split; [reflexivity|]. unfold S_FromString. reflexivity. Qed.
Print Assumptions C121_signed_parse_refuted.
Example C121_case : Bool_FromString true (str "no"%string) = true /\ Bool_FromString true (str "False"%string) = false /\
  S_ToString (-128) = str "-128"%string /\ S_FromString 8 5 (str "-128"%string) = 5.
Proof. repeat split. Qed.

(** C122.  A text passes exactly when its length in bytes is at least the minimum and, unless the maximum is
    zero, at most the maximum; otherwise the error says which. *)
Theorem C122_length : forall t min max,
  (ValidateTextLength t min max = None <-> min <= zlen t /\ (max <> 0 -> zlen t <= max)) /\
  (ValidateTextLength t min max = Some Lack <-> zlen t < min) /\
  (ValidateTextLength t min max = Some OverFlow <-> min <= zlen t /\ max <> 0 /\ max < zlen t).
Proof.
  intros t min max. unfold ValidateTextLength. destruct (Z.ltb_spec (zlen t) min).
  - repeat split; intros; try discriminate; lia.
  - destruct (Z.eqb_spec max 0); cbn [negb andb].
    + repeat split; intros; try discriminate; try lia.
    + destruct (Z.ltb_spec max (zlen t)); repeat split; intros; try discriminate; lia.
Qed.
Print Assumptions C122_length.
Example C122_case : ValidateTextLength (str "abc"%string) 3 3 = None /\ ValidateTextLength (str "abc"%string) 1 2 = Some OverFlow /\
  ValidateTextLength (str "abc"%string) 1 0 = None /\ ValidateTextLength [] 1 0 = Some Lack.
Proof. repeat split. Qed.
