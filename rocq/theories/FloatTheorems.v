(** C179: floats and their texts. *)
From Coq Require Import ZArith List Lia Bool.
Import ListNotations.
From Verif Require Import Go FloatModel FloatSpec.
Local Open Scope Z_scope.
Local Open Scope list_scope.

(** Two floats compare equal exactly when they are the same number: the same value that is not NaN, or two zeros. *)
Theorem C179_equal_exact : forall a b, F_Equal a b = true <-> (a = b /\ a <> S754_nan) \/ (is_zero a /\ is_zero b).
Proof.
  intros a b. unfold F_Equal, SFeqb, SFcompare, is_zero. split.
  - destruct a as [s|s| |s m e], b as [s'|s'| |s' m' e']; intros H; try (right; split; eauto; fail);
    try destruct s; try destruct s'; try discriminate H; left; try (split; congruence);
    (destruct (Z.compare_spec e e') as [->|K|K]; try discriminate H;
     change (Pos.compare_cont Eq m m') with (Pos.compare m m') in H;
     destruct (Pos.compare_spec m m') as [->|K'|K']; try discriminate H; split; congruence).
  - intros [[-> N]|[[s ->] [s' ->]]]; [|reflexivity].
    destruct b as [s|s| |s m e]; [reflexivity|now destruct s|congruence|].
    rewrite Z.compare_refl. change (Pos.compare_cont Eq m m) with (Pos.compare m m). rewrite Pos.compare_refl. now destruct s.
Qed.
Print Assumptions C179_equal_exact.

Theorem C179_equal_laws : forall a b c,
  F_Equal a b = F_Equal b a /\ (F_Equal a b = true -> F_Equal b c = true -> F_Equal a c = true) /\
  (F_Equal a a = true <-> a <> S754_nan).
Proof.
  intros a b c. split; [|split].
  - apply eq_true_iff_eq. rewrite !C179_equal_exact. split; intros [[-> N]|[A B]]; auto.
  - rewrite !C179_equal_exact. intros [[-> N]|[A B]] [[-> M]|[C D]]; auto.
  - rewrite C179_equal_exact. split; [intros [[_ N]|[[s ->] _]]; [exact N|discriminate]|auto].
Qed.
Print Assumptions C179_equal_laws.
Example C179_equal_case : F_Equal (S754_zero false) (S754_zero true) = true /\ F_Equal S754_nan S754_nan = false /\
  F_Equal (S754_finite false 3 (-1)) (S754_finite false 3 (-1)) = true /\ F_Equal (S754_infinity true) (S754_infinity false) = false.
Proof. vm_compute. auto. Qed.

(** The text of a float reads back as the float, whatever the receiver held, in both sizes; *)
Theorem C179_round_trip : forall L w old f, promises L -> is_float w f ->
  F_FromString L w old (fst (F_ToString L w f)) = (f, None) /\ snd (F_ToString L w f) = None.
Proof. intros L w old f P V. destruct (P w) as (R & _). unfold F_FromString, F_ToString. cbn [fst snd]. now rewrite (R f V). Qed.
Print Assumptions C179_round_trip.
(** it compares equal to the one written exactly when that is not NaN; *)
Theorem C179_read_equal_partial : forall L w old f, promises L -> is_float w f ->
  (F_Equal f (fst (F_FromString L w old (fst (F_ToString L w f)))) = true <-> f <> S754_nan).
Proof. intros L w old f P V. destruct (C179_round_trip L w old f P V) as [-> _]. cbn [fst]. apply (C179_equal_laws f f f). Qed.
Print Assumptions C179_read_equal_partial.
(** different floats have different texts, so that equal ones do exactly when they are the two zeros. *)
Theorem C179_texts : forall L w a b, promises L -> is_float w a -> is_float w b ->
  (fst (F_ToString L w a) = fst (F_ToString L w b) <-> a = b).
Proof.
  intros L w a b P A B. destruct (P w) as (R & _). unfold F_ToString. cbn [fst]. split; [|congruence].
  intros E. pose proof (R a A) as H. rewrite E, (R b B) in H. congruence.
Qed.
Print Assumptions C179_texts.
Theorem C179_zeros_refuted : forall L w a b, promises L -> is_float w a -> is_float w b -> F_Equal a b = true ->
  (fst (F_ToString L w a) <> fst (F_ToString L w b) <-> exists s, a = S754_zero s /\ b = S754_zero (negb s)).
Proof.
  intros L w a b P A B E. rewrite (C179_texts L w a b P A B). apply C179_equal_exact in E. split.
  - intros N. destruct E as [[-> _]|[[s ->] [s' ->]]]; [congruence|]. exists s. split; [reflexivity|]. destruct s, s'; cbn; congruence.
  - intros (s & -> & ->). destruct s; discriminate.
Qed.
Print Assumptions C179_zeros_refuted.
(** A text that is no number, or out of range, is not refused: no error is given, and the receiver loses what it held
    for a zero or an infinity. *)
Theorem C179_silent_refuted : forall L w old s, promises L -> snd (parse L w s) = true ->
  exists z, F_FromString L w old s = (z, None) /\ (is_zero z \/ is_infinite z) /\ (forall g m e, old = S754_finite g m e -> z <> old).
Proof.
  intros L w old s P E. destruct (P w) as (_ & _ & R). exists (fst (parse L w s)). split; [reflexivity|]. specialize (R s E). split; [exact R|].
  intros g m e ->. destruct R as [[h ->]|[h ->]]; discriminate.
Qed.
Print Assumptions C179_silent_refuted.
(** A bad text gives just what the text of some float gives: nothing tells the two apart. *)
Theorem C179_hidden_refuted : forall L w s, promises L -> snd (parse L w s) = true ->
  exists f, is_float w f /\ fst (F_ToString L w f) <> s /\ forall old, F_FromString L w old s = F_FromString L w old (fst (F_ToString L w f)).
Proof.
  intros L w s P E. destruct (P w) as (R & V & _). exists (fst (parse L w s)). split; [apply V|]. specialize (R _ (V s)).
  unfold F_ToString, F_FromString. cbn [fst]. rewrite R. split; [intros K; rewrite K in R; rewrite R in E; discriminate E|reflexivity].
Qed.
Print Assumptions C179_hidden_refuted.

(** A library with these promises: sign, mantissa and exponent one after the other. *)
Definition sign_of (s : bool) : Z := if s then 45 else 43.
Definition plain_format (w : fsize) (f : spec_float) : bytes :=
  match f with
  | S754_zero s => [sign_of s; 48] | S754_infinity s => [sign_of s; 73] | S754_nan => [78]
  | S754_finite s m e => [sign_of s; Zpos m; e]
  end.
Definition plain_parse (w : fsize) (b : bytes) : spec_float * bool :=
  match b with
  | [] => (S754_zero false, true)
  | [c] => if c =? 78 then (S754_nan, false) else (S754_zero false, true)
  | [c; k] => if k =? 48 then (S754_zero (c =? 45), false) else if k =? 73 then (S754_infinity (c =? 45), false) else (S754_zero false, true)
  | c :: k :: e :: _ => match k with
    | Zpos m => if bounded (prec w) (emax w) m e then (S754_finite (c =? 45) m e, false) else (S754_infinity (c =? 45), true)
    | _ => (S754_zero false, true) end
  end.
Definition plain : library := Library plain_format plain_parse.
Example C179_promises_case : promises plain /\ is_float F64 (S754_finite false 4503599627370496 1) /\ snd (parse plain F64 [120]) = true.
Proof.
  split; [|split; reflexivity]. intros w. split; [|split].
  - intros [s|s| |s m e] V; [now destruct s|now destruct s|reflexivity|]. unfold is_float, valid_binary in V.
    unfold plain, parse, format, plain_format, plain_parse. rewrite V. now destruct s.
  - intros b. unfold is_float, plain, parse, plain_parse. destruct b as [|c [|k [|e r]]]; [reflexivity| | |].
    + now destruct (c =? 78).
    + destruct (k =? 48); [reflexivity|]. now destruct (k =? 73).
    + destruct k as [|m|m]; try reflexivity. destruct (bounded _ _ m e) eqn:B; [exact B|reflexivity].
  - intros b. unfold is_zero, is_infinite, plain, parse, plain_parse. destruct b as [|c [|k [|e r]]]; [cbn [fst]; eauto| | |].
    + destruct (c =? 78); [discriminate|cbn [fst]; eauto].
    + destruct (k =? 48); [discriminate|]. destruct (k =? 73); [discriminate|cbn [fst]; eauto].
    + destruct k as [|m|m]; cbn [fst]; eauto. destruct (bounded _ _ m e) eqn:B; [discriminate|cbn [fst]; eauto].
Qed.
Print Assumptions C179_promises_case.
