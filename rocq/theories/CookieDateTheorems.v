(** C183: the expiry of a cookie. *)
From Coq Require Import String ZifyBool ZifyNat Znumtheory.
From Verif Require Import Go GoFacts IntSpec StrconvModel IntProofs CookieDateModel CookieDateSpec.
Import ListNotations.
Local Open Scope Z_scope.
Local Open Scope list_scope.

Lemma leap_iff y : isLeap y = true <-> leap_year y.
Proof. unfold isLeap, leap_year. rewrite <- !Z.mod_divide by lia. lia. Qed.
Lemma abs_year z y k : -719162 <= z -> absYear z = (y, k) ->
  1 <= y /\ 0 <= k <= (if isLeap y then 365 else 364) /\ z + 719528 = 365 * y + multiples 4 y - multiples 100 y + multiples 400 y + k.
Proof.
  intros H. unfold absYear. cbv zeta.
  set (n := (z + 719162) / 146097). set (r := z + 719162 - 146097 * n).
  assert (R : 0 <= r < 146097) by (unfold r, n; pose proof (Z.mod_pos_bound (z + 719162) 146097); pose proof (Z.div_mod (z + 719162) 146097); lia).
  assert (N : 0 <= n) by (unfold n; apply Z.div_pos; lia).
  set (a0 := r / 36524). set (a := a0 - a0 / 4).
  assert (A : 0 <= a <= 3 /\ 0 <= r - 36524 * a <= 36524 /\ (r - 36524 * a = 36524 -> a = 3)) by (unfold a, a0; lia).
  set (r2 := r - 36524 * a) in *. set (b := r2 / 1461).
  assert (B : 0 <= b <= 24 /\ 0 <= r2 - 1461 * b <= 1460 /\ (b = 24 -> r2 - 1461 * b <= 1459 \/ r2 = 36524)) by (unfold b; lia).
  set (r3 := r2 - 1461 * b) in *. set (c0 := r3 / 365). set (c := c0 - c0 / 4).
  assert (C : 0 <= c <= 3 /\ 0 <= r3 - 365 * c <= 365 /\ (r3 - 365 * c = 365 -> c = 3 /\ r3 = 1460)) by (unfold c, c0; lia).
  intros E. apply pair_equal_spec in E as (E1 & E2).
  assert (Y : y = 400 * n + 100 * a + 4 * b + c + 1) by lia. clear E1.
  assert (K : z + 719162 = 146097 * n + 36524 * a + 1461 * b + 365 * c + k) by lia.
  assert (M4 : multiples 4 y = 100 * n + 25 * a + b + 1) by (unfold multiples; lia).
  assert (M100 : multiples 100 y = 4 * n + a + 1) by (unfold multiples; lia).
  assert (M400 : multiples 400 y = n + 1) by (unfold multiples; lia).
  split; [lia|]. split; [|lia].
  assert (L : k = 365 -> isLeap y = true).
  { intros E3. destruct C as (_ & _ & C). destruct (C ltac:(lia)) as (C3 & C4). unfold isLeap. lia. }
  destruct (isLeap y); [lia|]. destruct (Z.eq_dec k 365) as [E4|E4]; [specialize (L E4); discriminate|lia].
Qed.
Definition md_ok (leap : bool) (k : Z) : bool :=
  let '(m, d) := monthDay leap k in let f := if leap then 29 else 28 in
  (1 <=? m) && (m <=? 12) && (1 <=? d) && (d <=? nth (Z.to_nat (m - 1)) (lengths f) 0) && (sum (firstn (Z.to_nat (m - 1)) (lengths f)) + d - 1 =? k).
Lemma md_all : forallb (fun i => md_ok true (Z.of_nat i)) (seq 0 366) = true /\ forallb (fun i => md_ok false (Z.of_nat i)) (seq 0 365) = true.
Proof. split; vm_compute; reflexivity. Qed.
Lemma month_day leap k m d : 0 <= k <= (if leap : bool then 365 else 364) -> monthDay leap k = (m, d) ->
  let f := if leap then 29 else 28 in 1 <= m <= 12 /\ 1 <= d <= nth (Z.to_nat (m - 1)) (lengths f) 0 /\ sum (firstn (Z.to_nat (m - 1)) (lengths f)) + d - 1 = k.
Proof.
  intros R E. assert (O : md_ok leap k = true).
  { destruct md_all as (A & B). rewrite forallb_forall in A, B. destruct leap; [specialize (A (Z.to_nat k))|specialize (B (Z.to_nat k))]; rewrite Z2Nat.id in * by lia; [apply A|apply B]; apply in_seq; lia. }
  unfold md_ok in O. rewrite E in O. cbv zeta. lia.
Qed.
(** Every instant from year 1 on has the date that the calendar gives by counting. *)
Lemma civil z y k m d : -719162 <= z -> absYear z = (y, k) -> monthDay (isLeap y) k = (m, d) -> is_date z y m d /\ 1 <= y.
Proof.
  intros H A M. destruct (abs_year z y k H A) as (Y & K & Z1). pose proof (month_day _ _ _ _ K M) as (M1 & D1 & S1). cbv zeta in *.
  split; [|exact Y]. exists (if isLeap y then 29 else 28). split; [|split; [exact M1|split; [exact D1|lia]]].
  pose proof (leap_iff y) as L. destruct (isLeap y); [left|right]; split; auto; [now apply L|]. intros X. apply L in X. discriminate.
Qed.
Ltac months m := let H := fresh in assert (H : m = 1 \/ m = 2 \/ m = 3 \/ m = 4 \/ m = 5 \/ m = 6 \/ m = 7 \/ m = 8 \/ m = 9 \/ m = 10 \/ m = 11 \/ m = 12) by lia;
  destruct H as [->|[->|[->|[->|[->|[->|[->|[->|[->|[->|[->| ->]]]]]]]]]]].
Lemma days_of z y m d : 1 <= y -> is_date z y m d -> daysOf y m d = z /\ d <= monthLen y m.
Proof.
  intros Y (f & F & M & D & ->).
  assert (YY : forall x, (let a := y - 1 in let n := a / 400 in let a := a - 400 * n in let k := a / 100 in let a := a - 100 * k in let j := a / 4 in let a := a - 4 * j in
     146097 * n + 36524 * k + 1461 * j + 365 * a) + x = 365 * y + multiples 4 y - multiples 100 y + multiples 400 y - 366 + x).
  { intros x. cbv zeta. unfold multiples. set (a := y - 1). assert (A : y = a + 1) by lia. rewrite A.
    set (n := a / 400). set (a1 := a - 400 * n). set (k := a1 / 100). set (a2 := a1 - 100 * k). set (j := a2 / 4). set (a3 := a2 - 4 * j).
    assert (0 <= a1 < 400) by (unfold a1, n; lia). assert (0 <= a2 < 100 /\ 0 <= k <= 3) by (unfold a2, k; lia). assert (0 <= a3 < 4 /\ 0 <= j <= 24) by (unfold a3, j; lia).
    assert (E : a = 400 * n + 100 * k + 4 * j + a3) by lia.
    assert (E4 : (a + 1 + 4 - 1) / 4 = 100 * n + 25 * k + j + 1) by lia.
    assert (E100 : (a + 1 + 100 - 1) / 100 = 4 * n + k + 1) by lia.
    assert (E400 : (a + 1 + 400 - 1) / 400 = n + 1) by lia. rewrite E4, E100, E400. lia. }
  assert (L : isLeap y = true /\ f = 29 \/ isLeap y = false /\ f = 28).
  { pose proof (leap_iff y) as L. destruct F as [(F & ->)|(F & ->)]; [left|right]; split; auto; [now apply L|]. destruct (isLeap y); auto. exfalso. apply F, L. reflexivity. }
  unfold daysOf. cbv zeta in YY |- *. unfold monthLen.
  destruct L as [(L & ->)|(L & ->)]; rewrite L; months m;
    repeat match goal with |- context [before ?x] => let v := eval vm_compute in (before x) in change (before x) with v end;
    repeat match goal with |- context [sum ?x] => let v := eval vm_compute in (sum x) in change (sum x) with v end;
    cbn [andb Z.leb Z.compare Pos.compare Pos.compare_cont Z.eqb Pos.eqb];
    match type of D with _ <= _ <= ?n => let v := eval vm_compute in n in change n with v in D end;
    (split; [|lia]); specialize (YY (d - 1 - 719162)); lia.
Qed.
Lemma two_pad n : pad2 n = two n. Proof. reflexivity. Qed.
Lemma name_of z : nth (Z.to_nat ((z + 4) mod 7)) dayNames [] = day_abbr z.
Proof.
  unfold day_abbr. assert (H : z mod 7 = 0 \/ z mod 7 = 1 \/ z mod 7 = 2 \/ z mod 7 = 3 \/ z mod 7 = 4 \/ z mod 7 = 5 \/ z mod 7 = 6) by lia.
  destruct H as [H|[H|[H|[H|[H|[H|H]]]]]]; rewrite H;
  [replace ((z + 4) mod 7) with 4 by lia|replace ((z + 4) mod 7) with 5 by lia|replace ((z + 4) mod 7) with 6 by lia|replace ((z + 4) mod 7) with 0 by lia|replace ((z + 4) mod 7) with 1 by lia|replace ((z + 4) mod 7) with 2 by lia|replace ((z + 4) mod 7) with 3 by lia]; reflexivity.
Qed.
Lemma year_pad y : 0 <= y <= 9999 -> pad4 y = two (y / 100) ++ two (y mod 100).
Proof. intros H. unfold pad4, two. replace (y <=? 9999) with true by lia. cbn [app].
  replace (y / 1000) with (y / 100 / 10) by lia. replace (y / 10 mod 10) with (y mod 100 / 10) by lia. replace ((y mod 100) mod 10) with (y mod 10) by lia. reflexivity. Qed.
Lemma last_year z y m d : 1 <= y -> is_date z y m d -> (z <= 2932896 <-> y <= 9999).
Proof.
  intros Y (f & F & M & D & ->).
  assert (S1 : 0 <= sum (firstn (Z.to_nat (m - 1)) (lengths f)) + d - 1 <= 365 /\ (f = 28 -> sum (firstn (Z.to_nat (m - 1)) (lengths f)) + d - 1 <= 364)).
  { destruct F as [(_ & ->)|(_ & ->)]; months m;
    repeat match goal with |- context [sum ?x] => let v := eval vm_compute in (sum x) in change (sum x) with v end;
    match type of D with _ <= _ <= ?n => let v := eval vm_compute in n in change n with v in D end; lia. }
  set (k := sum _ + d - 1) in *. replace (365 * y + multiples 4 y - multiples 100 y + multiples 400 y + sum (firstn (Z.to_nat (m - 1)) (lengths f)) + d - 1 - 719528) with (365 * y + multiples 4 y - multiples 100 y + multiples 400 y + k - 719528) by (unfold k; lia).
  unfold multiples. split; intros H.
  - destruct (Z_le_gt_dec y 9999); [assumption|]. exfalso. lia.
  - destruct (Z.eq_dec y 9999) as [->|NE]; [|lia]. destruct F as [(F & _)|(_ & F)]; [|lia]. apply leap_iff in F. discriminate F.
Qed.
(** The text is the date of RFC 1123 of the instant, for all of the years 1 to 9999. *)
Theorem C183_text : forall s n, -62135596800 <= s <= 253402300799 ->
  exists y m d, is_date (s / 86400) y m d /\ SetExpire s n = date_text 32 (s / 86400) y m d (s mod 86400).
Proof.
  intros s n H. unfold SetExpire, Format. cbv zeta. destruct (absYear (s / 86400)) as (y & k) eqn:A. destruct (monthDay (isLeap y) k) as (m & d) eqn:M.
  destruct (civil (s / 86400) y k m d ltac:(lia) A M) as (C & Y). exists y, m, d. split; [exact C|].
  assert (Y2 : y <= 9999) by (apply (last_year _ _ _ _ Y C); lia).
  unfold date_text. rewrite name_of, year_pad by lia. unfold month_abbr. rewrite !two_pad. fold monthNames.
  replace (s mod 86400 mod 3600 / 60) with (s mod 86400 / 60 mod 60) by (pose proof (Z.mod_pos_bound s 86400); lia). rewrite <- !app_assoc. reflexivity.
Qed.
Print Assumptions C183_text.
Lemma day_known z : exists i a b c, day_abbr z = [a; b; c] /\ lookup dayNames 0 [a; b; c] = Some i.
Proof.
  unfold day_abbr. assert (H : z mod 7 = 0 \/ z mod 7 = 1 \/ z mod 7 = 2 \/ z mod 7 = 3 \/ z mod 7 = 4 \/ z mod 7 = 5 \/ z mod 7 = 6) by lia.
  destruct H as [H|[H|[H|[H|[H|[H|H]]]]]]; rewrite H; repeat eexists.
Qed.
Lemma month_known m : 1 <= m <= 12 -> exists a b c, month_abbr m = [a; b; c] /\ lookup monthNames 1 [a; b; c] = Some m.
Proof. intros H. months m; repeat eexists. Qed.
Lemma parse_text sep z y m d r : 1 <= y <= 9999 -> is_date z y m d -> 0 <= r < 86400 -> Parse sep (date_text sep z y m d r) = Some (z * 86400 + r).
Proof.
  intros Y D R. destruct (days_of z y m d ltac:(lia) D) as (DO & DL). destruct D as (f & F & M & D & _).
  assert (D31 : d <= 31) by (destruct F as [(_ & ->)|(_ & ->)]; months m; match type of D with _ <= _ <= ?n => let v := eval vm_compute in n in change n with v in D end; lia).
  destruct (day_known z) as (i & a & b & c & W & WL). destruct (month_known m M) as (ma & mb & mc & MN & ML).
  unfold date_text. rewrite W, MN. unfold two. cbn [app]. change (str ", "%string) with [44; 32]. change (str " GMT"%string) with [32; 71; 77; 84]. cbn [app].
  unfold Parse. rewrite WL, ML. cbv zeta. unfold num2.
  replace ((48 + d / 10 - 48) * 10 + (48 + d mod 10 - 48)) with d by lia.
  replace (((48 + y / 100 / 10 - 48) * 10 + (48 + (y / 100) mod 10 - 48)) * 100 + ((48 + y mod 100 / 10 - 48) * 10 + (48 + (y mod 100) mod 10 - 48))) with y by lia.
  replace ((48 + r / 3600 / 10 - 48) * 10 + (48 + (r / 3600) mod 10 - 48)) with (r / 3600) by lia.
  replace ((48 + r / 60 mod 60 / 10 - 48) * 10 + (48 + (r / 60 mod 60) mod 10 - 48)) with (r / 60 mod 60) by lia.
  replace ((48 + r mod 60 / 10 - 48) * 10 + (48 + (r mod 60) mod 10 - 48)) with (r mod 60) by lia.
  rewrite DO. replace (beq _ _) with true by (symmetry; now apply beq_eq). replace (forallb isDig _) with true.
  2: { symmetry. cbn [forallb]. unfold isDig. lia. }
  replace (1 <=? d) with true by lia. replace (d <=? monthLen y m) with true by lia. replace (r / 3600 <? 24) with true by lia. replace (r / 60 mod 60 <? 60) with true by lia. replace (r mod 60 <? 60) with true by lia.
  cbn [andb]. f_equal. lia.
Qed.
Lemma parse_other sep sep' z y m d r : sep <> sep' -> 1 <= m <= 12 -> Parse sep (date_text sep' z y m d r) = None.
Proof.
  intros N M. destruct (day_known z) as (i & a & b & c & W & WL). destruct (month_known m M) as (ma & mb & mc & MN & ML).
  unfold date_text. rewrite W, MN. unfold two. cbn [app]. change (str ", "%string) with [44; 32]. change (str " GMT"%string) with [32; 71; 77; 84]. cbn [app].
  unfold Parse. rewrite WL, ML. cbv zeta. replace (beq _ _) with false; [reflexivity|]. symmetry. apply Bool.not_true_iff_false. intros B. apply beq_eq in B. congruence.
Qed.
(** An expiry in the years 1 to 9999 is read back to the second. *)
Theorem C183_round_trip_partial : forall s n, -62135596800 <= s <= 253402300799 -> GetExpire (SetExpire s n) = s.
Proof.
  intros s n H. destruct (C183_text s n H) as (y & m & d & D & ->). unfold GetExpire.
  assert (Y : 1 <= y <= 9999).
  { revert D. unfold SetExpire. intros D. destruct (absYear (s / 86400)) as (y0 & k) eqn:A. clear A.
    assert (Y1 : 1 <= y). { destruct D as (f & F & M & D & E). destruct (Z_le_gt_dec 1 y); [assumption|]. exfalso.
      assert (S1 : sum (firstn (Z.to_nat (m - 1)) (lengths f)) + d - 1 <= 365).
      { destruct F as [(_ & ->)|(_ & ->)]; months m; repeat match goal with |- context [sum ?x] => let v := eval vm_compute in (sum x) in change (sum x) with v end;
        match type of D with _ <= _ <= ?n => let v := eval vm_compute in n in change n with v in D end; lia. }
      unfold multiples in E. lia. }
    split; [exact Y1|]. apply (last_year _ _ _ _ Y1 D). lia. }
  rewrite (parse_text 32 _ y m d _ Y D) by (pose proof (Z.mod_pos_bound s 86400); lia). pose proof (Z.div_mod s 86400). lia.
Qed.
Print Assumptions C183_round_trip_partial.
(** Both layouts of any date in these years give its instant. *)
Theorem C183_both_layouts : forall sep z y m d r, sep = 32 \/ sep = 45 -> 1 <= y <= 9999 -> is_date z y m d -> 0 <= r < 86400 ->
  GetExpire (date_text sep z y m d r) = z * 86400 + r.
Proof.
  intros sep z y m d r S Y D R. unfold GetExpire. destruct S as [->| ->]; [now rewrite parse_text|].
  rewrite (parse_other 32 45) by (lia || (destruct D as (f & _ & M & _); exact M)). now rewrite parse_text.
Qed.
Print Assumptions C183_both_layouts.
(** Fractions of a second are lost: the instant comes back exactly when it is on a second. *)
Theorem C183_fraction_exact : forall s n, 0 <= n < 1000000000 -> -62135596800 <= s <= 253402300799 ->
  (GetExpire (SetExpire s n) * 1000000000 = s * 1000000000 + n <-> n = 0).
Proof. intros s n N H. rewrite C183_round_trip_partial by assumption. lia. Qed.
Print Assumptions C183_fraction_exact.
(** From year 10000 on the expiry read is the start of year 1: what never expires has expired. *)
Theorem C183_far_refuted : forall s n, 253402300799 < s -> GetExpire (SetExpire s n) = -62135596800.
Proof.
  intros s n H. unfold SetExpire, Format. cbv zeta. destruct (absYear (s / 86400)) as (y & k) eqn:A. destruct (monthDay (isLeap y) k) as (m & d) eqn:M.
  destruct (civil (s / 86400) y k m d ltac:(lia) A M) as (C & Y).
  assert (Y2 : 9999 < y) by (destruct (Z_le_gt_dec y 9999) as [L|L]; [apply (last_year _ _ _ _ Y C) in L|]; lia).
  unfold pad4. replace (y <=? 9999) with false by lia. rewrite name_of. fold (month_abbr m). change (nth (Z.to_nat (m - 1)) monthNames []) with (month_abbr m).
  destruct C as (f & _ & MM & _). destruct (day_known (s / 86400)) as (i & a & b & c & W & _). destruct (month_known m MM) as (ma & mb & mc & MN & _). rewrite W, MN.
  assert (L : exists v1 v2 v3 v4 v5 vs, FormatUint10 y = v1 :: v2 :: v3 :: v4 :: v5 :: vs).
  { destruct (format_spec y ltac:(lia)) as (D & _ & V & _).
    assert (B : forall ds, Forall is_digit ds -> dec_value ds < 10 ^ zlen ds) by (intros ds F; apply (dec_value_bound ds F)).
    specialize (B _ D). rewrite V in B.
    destruct (FormatUint10 y) as [|v1 [|v2 [|v3 [|v4 [|v5 vs]]]]]; [..|repeat eexists]; exfalso; unfold zlen in B; cbn [length] in B; change (10 ^ Z.of_nat 0) with 1 in B; change (10 ^ Z.of_nat 1) with 10 in B; change (10 ^ Z.of_nat 2) with 100 in B; change (10 ^ Z.of_nat 3) with 1000 in B; change (10 ^ Z.of_nat 4) with 10000 in B; lia. }
  destruct L as (v1 & v2 & v3 & v4 & v5 & vs & E). rewrite E. unfold pad2. cbn [app]. change (str ", "%string) with [44; 32]. change (str " GMT"%string) with [32; 71; 77; 84]. cbn [app].
  assert (P : forall sep h w3 g, Parse sep (a :: b :: c :: 44 :: 32 :: h :: g :: 32 :: ma :: mb :: mc :: 32 :: v1 :: v2 :: v3 :: v4 :: v5 :: vs ++ w3) = None \/ length (vs ++ w3) = 12%nat).
  { intros sep h w3 g. destruct (vs ++ w3) as [|x1 [|x2 [|x3 [|x4 [|x5 [|x6 [|x7 [|x8 [|x9 [|x10 [|x11 [|x12 [|x13 l]]]]]]]]]]]]]; auto. }
  unfold GetExpire. match goal with |- context [vs ++ ?w] => pose proof (P 32 (48 + d / 10) w (48 + d mod 10)) as P1; pose proof (P 45 (48 + d / 10) w (48 + d mod 10)) as P2; assert (LL : length (vs ++ w) <> 12%nat) by (rewrite app_length; cbn [length]; lia) end.
  destruct P1 as [P1|P1]; [|contradiction]. destruct P2 as [P2|P2]; [|contradiction]. rewrite P1, P2. reflexivity.
Qed.
Print Assumptions C183_far_refuted.
(** A leap day; the last second that works and the first that does not; a day that does not exist; both layouts. *)
Example C183_case :
  SetExpire 1709164800 5 = str "Thu, 29 Feb 2024 00:00:00 GMT"%string /\ GetExpire (str "Thu, 29-Feb-2024 00:00:00 GMT"%string) = 1709164800 /\
  is_date (1709164800 / 86400) 2024 2 29 /\ GetExpire (str "Wed, 29 Feb 2023 00:00:00 GMT"%string) = -62135596800 /\
  SetExpire 253402300799 0 = str "Fri, 31 Dec 9999 23:59:59 GMT"%string /\ GetExpire (SetExpire 253402300799 0) = 253402300799 /\
  SetExpire 253402300800 0 = str "Sat, 01 Jan 10000 00:00:00 GMT"%string /\ GetExpire (SetExpire 253402300800 0) = -62135596800.
Proof.
  split; [vm_compute; reflexivity|]. split; [vm_compute; reflexivity|]. split.
  { exists 29. split; [left; split; [apply leap_iff|]; reflexivity|]. vm_compute. repeat split; congruence. }
  repeat split; vm_compute; reflexivity.
Qed.
