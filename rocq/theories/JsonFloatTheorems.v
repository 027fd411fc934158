(** C180: floats in JSON. *)
From Coq Require Import String ZifyBool ZifyNat.
From Verif Require Import Go GoFacts IntSpec StrconvModel IntProofs JsonModel JsonProofs JsonCrashTheorems FloatModel FloatSpec JsonFloatModel JsonFloatSpec.
Import ListNotations.
Local Open Scope Z_scope.
Local Open Scope list_scope.

Lemma end_iff c : is_end c = true <-> ends c.
Proof. unfold is_end, ends. lia. Qed.
Lemma clean_iff t : Forall (fun c => ~ ends c) t -> Forall (fun c => is_end c = false) t.
Proof. apply Forall_impl. intros c H. destruct (is_end c) eqn:E; [apply end_iff in E; contradiction|reflexivity]. Qed.
Lemma opp_float w f : is_float w (SFopp f) <-> is_float w f.
Proof. unfold is_float. now destruct f. Qed.
Lemma opp_nonneg f : negative f -> nonnegative (SFopp f).
Proof. destruct f as [s|s| |s m e]; cbn; auto; now intros ->. Qed.
Ltac letters := change (str "NaN"%string) with [78; 97; 78]; change (str "+Inf"%string) with [43; 73; 110; 102]; change (str "-Inf"%string) with [45; 73; 110; 102];
  repeat (apply Forall_cons; [unfold ends, is_decimal; lia|]); apply Forall_nil.
Lemma text_clean L w f : number_texts L -> is_float w f -> Forall (fun c => ~ ends c) (format L w f).
Proof.
  intros T V. destruct (T w) as (A & B & N & I1 & I2). destruct f as [[|]|[|]| |[|] m e].
  - rewrite B by (exact V || reflexivity). constructor; [unfold ends; lia|]. destruct (A (SFopp (S754_zero true))) as (c & t & E & _ & F); [exact V|reflexivity|]. now rewrite E.
  - destruct (A (S754_zero false)) as (c & t & E & _ & F); [exact V|reflexivity|]. now rewrite E.
  - rewrite I2. letters.
  - rewrite I1. letters.
  - rewrite N. letters.
  - rewrite B by (exact V || reflexivity). constructor; [unfold ends; lia|]. destruct (A (SFopp (S754_finite true m e))) as (c & t & E & _ & F); [now apply opp_float|reflexivity|]. now rewrite E.
  - destruct (A (S754_finite false m e)) as (c & t & E & _ & F); [exact V|reflexivity|]. now rewrite E.
Qed.
Lemma trim_to L w f p r tok last : number_texts L -> is_float w f -> nonnegative f -> Forall (fun c => ~ is_decimal c) p ->
  TrimToDigit (Dec (p ++ format L w f ++ r) tok last) = Dec (format L w f ++ r) tok last.
Proof.
  intros T V N P. destruct (T w) as (A & _). destruct (A f V N) as (c & t & E & D & _). unfold TrimToDigit. cbn [dbuf dtok dlast].
  rewrite drop_digit_skip by exact P. rewrite E. cbn [app drop_to_digit]. unfold is_decimal in D. replace ((48 <=? c) && (c <=? 57)) with true by lia. reflexivity.
Qed.
Lemma read_item L f r k tok last : promises L -> number_texts L -> is_float F64 f -> ends k ->
  FindEndToken (Dec (format L F64 f ++ k :: r) tok last) = Dec (k :: r) k (format L F64 f) /\ parse L F64 (format L F64 f) = (f, false).
Proof.
  intros P T V K. split; [|now apply (P F64)]. apply find_some. apply cut_end_app; [apply clean_iff; now apply (text_clean L F64)|now apply end_iff].
Qed.

(** A float that is not negative is read back, with anything but digits before it; the decoder stands at the end of the value. *)
Theorem C180_round_trip_partial : forall L f p r k tok last, promises L -> number_texts L -> is_float F64 f -> nonnegative f ->
  Forall (fun c => ~ is_decimal c) p -> ends k ->
  DecodeFloat64AsNumber L (Dec (ebuf (EncodeFloat L F64 (Enc p 0) f) ++ k :: r) tok last) = (None, f, Dec (k :: r) k (format L F64 f)).
Proof.
  intros L f p r k tok last P T V N D K. unfold EncodeFloat, eapp. cbn [ebuf]. rewrite <- app_assoc. unfold DecodeFloat64AsNumber.
  rewrite trim_to by assumption. destruct (read_item L f r k tok last P T V K) as (E & Q). rewrite E. cbv zeta. cbn [dlast]. now rewrite Q.
Qed.
Print Assumptions C180_round_trip_partial.
(** The decoder of minified JSON reads every float back, the negative ones too. *)
Theorem C180_minified : forall L f r k tok last, promises L -> number_texts L -> is_float F64 f -> ends k ->
  MDecodeFloat64AsNumber L (Dec (ebuf (EncodeFloat L F64 (Enc [] 0) f) ++ k :: r) tok last) = (None, f, Dec (k :: r) k (format L F64 f)).
Proof.
  intros L f r k tok last P T V K. unfold EncodeFloat, eapp. cbn [ebuf app]. unfold MDecodeFloat64AsNumber.
  destruct (read_item L f r k tok last P T V K) as (E & Q). rewrite E. cbv zeta. cbn [dlast]. now rewrite Q.
Qed.
Print Assumptions C180_minified.
(** The other decoder loses every minus sign and reports nothing. *)
Theorem C180_sign_refuted : forall L f p r k tok last, promises L -> number_texts L -> is_float F64 f -> negative f ->
  Forall (fun c => ~ is_decimal c) p -> ends k ->
  DecodeFloat64AsNumber L (Dec (ebuf (EncodeFloat L F64 (Enc p 0) f) ++ k :: r) tok last) = (None, SFopp f, Dec (k :: r) k (format L F64 (SFopp f))) /\ SFopp f <> f.
Proof.
  intros L f p r k tok last P T V N D K. split; [|destruct f as [s|s| |s m e]; cbn in N |- *; try contradiction; subst s; discriminate].
  pose proof (C180_round_trip_partial L (SFopp f) (p ++ [45]) r k tok last P T (proj2 (opp_float F64 f) V) (opp_nonneg f N)) as R.
  rewrite <- R; [|apply Forall_app; split; [exact D|repeat constructor; unfold is_decimal; lia]|exact K].
  unfold EncodeFloat, eapp. cbn [ebuf]. destruct (T F64) as (_ & B & _). rewrite (B f V N), <- !app_assoc. reflexivity.
Qed.
Print Assumptions C180_sign_refuted.
(** An infinity or a NaN is written as a text that is no number; what is read for it is the next number there is, if there is one. *)
Theorem C180_special_refuted : forall L f g p q r c k tok last, promises L -> number_texts L -> special f -> is_float F64 g -> nonnegative g ->
  Forall (fun c => ~ is_decimal c) (p ++ q) -> ends c -> ends k ->
  DecodeFloat64AsNumber L (Dec (ebuf (EncodeFloat L F64 (Enc p 0) f) ++ c :: q ++ format L F64 g ++ k :: r) tok last) = (None, g, Dec (k :: r) k (format L F64 g)) /\ f <> g.
Proof.
  intros L f g p q r c k tok last P T S V N D C K. split; [|intros ->; destruct S as [->|(s & ->)]; contradiction].
  apply Forall_app in D. destruct D as (D1 & D2). destruct (T F64) as (_ & _ & X & Y & Z').
  pose proof (C180_round_trip_partial L g (p ++ format L F64 f ++ c :: q) r k tok last P T V N) as R. rewrite <- R; [| |exact K].
  - unfold EncodeFloat, eapp. cbn [ebuf]. rewrite <- !app_assoc. cbn [app]. rewrite <- ?app_assoc. reflexivity.
  - repeat (apply Forall_app; split); auto.
    + destruct S as [->|([|] & ->)]; rewrite ?X, ?Y, ?Z'; letters.
    + constructor; [unfold ends, is_decimal in *; lia|exact D2].
Qed.
Print Assumptions C180_special_refuted.
(** Where nothing ends the value, what is read is the item read before, whatever the text says. *)
Theorem C180_stale_refuted : forall L b tok f, promises L -> is_float F64 f -> Forall (fun c => ~ ends c) b ->
  fst (MDecodeFloat64AsNumber L (Dec b tok (format L F64 f))) = (None, f) /\ fst (DecodeFloat64AsNumber L (Dec b tok (format L F64 f))) = (None, f).
Proof.
  intros L b tok f P V B. pose proof (proj1 (P F64) f V) as Q.
  assert (S : forall b' tok last, Forall (fun c => ~ ends c) b' -> FindEndToken (Dec b' tok last) = Dec b' tok last).
  { intros b' tok' last H. apply find_none. apply cut_end_none. now apply clean_iff. }
  split.
  - unfold MDecodeFloat64AsNumber. rewrite S by exact B. cbv zeta. cbn [dlast]. now rewrite Q.
  - unfold DecodeFloat64AsNumber, TrimToDigit. cbn [dbuf dtok dlast]. destruct (drop_to_digit b) as [b'|] eqn:E.
    + apply drop_digit_some in E. destruct E as (p & ->). apply Forall_app in B. destruct B as (_ & B). rewrite S by exact B. cbv zeta. cbn [dlast]. now rewrite Q.
    + rewrite S by exact B. cbv zeta. cbn [dlast]. now rewrite Q.
Qed.
Print Assumptions C180_stale_refuted.
(** An error is reported exactly when the item is no float's text or out of range, and zero with it. *)
Theorem C180_errors_exact : forall L p s k r tok last, Forall (fun c => ~ ends c) s -> ends k -> Forall (fun c => ~ is_decimal c) p ->
  (exists c t, s = c :: t /\ is_decimal c) ->
  fst (DecodeFloat64AsNumber L (Dec (p ++ s ++ k :: r) tok last)) = (if snd (parse L F64 s) then (Some ErrIntegerCorrupted, S754_zero false) else (None, fst (parse L F64 s))) /\
  fst (MDecodeFloat64AsNumber L (Dec (s ++ k :: r) tok last)) = (if snd (parse L F64 s) then (Some ErrStringCorrupted, S754_zero false) else (None, fst (parse L F64 s))).
Proof.
  intros L p s k r tok last S K P (c & t & -> & D).
  assert (F : forall tok, FindEndToken (Dec ((c :: t) ++ k :: r) tok last) = Dec (k :: r) k (c :: t)).
  { intros tok'. apply find_some. apply cut_end_app; [now apply clean_iff|now apply end_iff]. }
  split.
  - unfold DecodeFloat64AsNumber, TrimToDigit. cbn [dbuf dtok dlast]. rewrite drop_digit_skip by exact P.
    unfold is_decimal in D. assert (E : drop_to_digit ((c :: t) ++ k :: r) = Some ((c :: t) ++ k :: r)) by (cbn [app drop_to_digit]; replace ((48 <=? c) && (c <=? 57)) with true by lia; reflexivity).
    rewrite E, F. cbv zeta. cbn [dlast]. destruct (parse L F64 (c :: t)) as (v, [|]); reflexivity.
  - unfold MDecodeFloat64AsNumber. rewrite F. cbv zeta. cbn [dlast]. destruct (parse L F64 (c :: t)) as (v, [|]); reflexivity.
Qed.
Print Assumptions C180_errors_exact.

(** A library as asked for: mantissa and exponent in decimal. *)
Definition sign_text (s : bool) : bytes := if s then [45] else [].
Definition decimal_format (w : fsize) (f : spec_float) : bytes :=
  match f with
  | S754_zero s => sign_text s ++ [48] | S754_infinity s => (if s then 45 else 43) :: str "Inf"%string | S754_nan => str "NaN"%string
  | S754_finite s m e => sign_text s ++ FormatUint10 (Zpos m) ++ 101 :: FormatInt10 e
  end.
Definition magnitude (w : fsize) (s : bool) (t : bytes) : spec_float * bool :=
  if beq t [48] then (S754_zero s, false) else
  match cut_byte 101 t with
  | Some (x, y) => match parse_digits x, ParseInt10 64 y with
      | Some (Zpos m), Some e => if bounded (prec w) (emax w) m e then (S754_finite s m e, false) else (S754_infinity s, true)
      | _, _ => (S754_zero false, true) end
  | None => (S754_zero false, true)
  end.
Definition decimal_parse (w : fsize) (b : bytes) : spec_float * bool :=
  if beq b (str "NaN"%string) then (S754_nan, false) else
  if beq b (str "+Inf"%string) then (S754_infinity false, false) else if beq b (str "-Inf"%string) then (S754_infinity true, false) else
  match b with c :: t => if c =? 45 then magnitude w true t else magnitude w false b | [] => (S754_zero false, true) end.
Definition decimal : library := Library decimal_format decimal_parse.
Lemma bounded_range w m e : bounded (prec w) (emax w) m e = true -> - 2 ^ 63 <= e < 2 ^ 63.
Proof.
  unfold bounded, canonical_mantissa, fexp, emin. intros H. apply andb_prop in H. destruct H as (A & B). apply Zeq_bool_eq in A. apply Zle_bool_imp_le in B.
  change (2 ^ 63) with 9223372036854775808. destruct w; unfold prec, emax in *; lia.
Qed.
Lemma magnitude_back w s m e : bounded (prec w) (emax w) m e = true -> magnitude w s (FormatUint10 (Zpos m) ++ 101 :: FormatInt10 e) = (S754_finite s m e, false).
Proof.
  intros B. destruct (format_hd (Zpos m) ltac:(lia)) as (c & t & E & D). unfold magnitude.
  replace (beq (FormatUint10 (Zpos m) ++ 101 :: FormatInt10 e) [48]) with false.
  2: { symmetry. apply Bool.not_true_iff_false. intros Q. apply beq_eq in Q. rewrite E in Q. destruct t; discriminate Q. }
  rewrite cut_byte_app.
  - rewrite parse_digits_format by lia. rewrite parse_int_format by (now apply (bounded_range w m)). now rewrite B.
  - assert (F : Forall is_digit (FormatUint10 (Zpos m))) by (apply format_spec; lia).
    eapply Forall_impl; [|exact F]. unfold is_digit. intros; lia.
Qed.
Lemma magnitude_float w s t : is_float w (fst (magnitude w s t)) /\ (snd (magnitude w s t) = true -> is_zero (fst (magnitude w s t)) \/ is_infinite (fst (magnitude w s t))).
Proof.
  unfold magnitude, is_float, is_zero, is_infinite. destruct (beq t [48]); [split; [reflexivity|discriminate]|].
  destruct (cut_byte 101 t) as [(x, y)|]; [|split; [reflexivity|cbn [fst]; eauto]].
  destruct (parse_digits x) as [[|m|m]|]; try (split; [reflexivity|cbn [fst]; eauto]).
  destruct (ParseInt10 64 y) as [e|]; [|split; [reflexivity|cbn [fst]; eauto]].
  destruct (bounded _ _ m e) eqn:B; [split; [exact B|discriminate]|split; [reflexivity|cbn [fst]; eauto]].
Qed.
Example C180_library_case : promises decimal /\ number_texts decimal /\ is_float F64 (S754_finite true 4503599627370496 1) /\ negative (S754_finite true 4503599627370496 1) /\
  nonnegative (S754_finite false 4503599627370496 1) /\ special S754_nan /\ snd (parse decimal F64 (str "5x"%string)) = true /\
  fst (DecodeFloat64AsNumber decimal (dec_init (str ":-4503599627370496e1,"%string))) = (None, S754_finite false 4503599627370496 1) /\
  fst (MDecodeFloat64AsNumber decimal (dec_init (str "-4503599627370496e1,"%string))) = (None, S754_finite true 4503599627370496 1) /\
  fst (DecodeFloat64AsNumber decimal (dec_init (str ":NaN,b:4503599627370496e1}"%string))) = (None, S754_finite false 4503599627370496 1).
Proof.
  split; [|split].
  - intros w. split; [|split].
    + intros [s|s| |s m e] V; [now destruct s|now destruct s|reflexivity|]. unfold is_float, valid_binary in V.
      destruct (format_hd (Zpos m) ltac:(lia)) as (c & t & E & D).
      assert (W : forall s, decimal_parse w (decimal_format w (S754_finite s m e)) = magnitude w s (FormatUint10 (Zpos m) ++ 101 :: FormatInt10 e)).
      { intros b. unfold decimal_parse, decimal_format.
        assert (Q : forall k l, k <> 45 -> (48 <= k <= 57 -> False) -> beq (sign_text b ++ FormatUint10 (Zpos m) ++ 101 :: FormatInt10 e) (k :: l) = false).
        { intros k l K1 K2. apply Bool.not_true_iff_false. intros Q. apply beq_eq in Q. rewrite E in Q. destruct b; cbn [sign_text app] in Q; [congruence|]. assert (c = k) by congruence. subst. tauto. }
        change (str "NaN"%string) with [78; 97; 78]. change (str "+Inf"%string) with [43; 73; 110; 102]. change (str "-Inf"%string) with [45; 73; 110; 102].
        rewrite !Q by lia.
        replace (beq (sign_text b ++ FormatUint10 (Zpos m) ++ 101 :: FormatInt10 e) [45; 73; 110; 102]) with false.
        2: { symmetry. apply Bool.not_true_iff_false. intros G. apply beq_eq in G. rewrite E in G. destruct b; cbn [sign_text app] in G; [assert (c = 73) by congruence|assert (c = 45) by congruence]; lia. }
        rewrite E. destruct b; cbn [sign_text app]; [reflexivity|]. replace (c =? 45) with false by lia. reflexivity. }
      change (parse decimal w (format decimal w (S754_finite s m e))) with (decimal_parse w (decimal_format w (S754_finite s m e))). rewrite W. now apply magnitude_back.
    + intros b. change (parse decimal w b) with (decimal_parse w b). unfold decimal_parse. destruct (beq b _); [reflexivity|]. destruct (beq b _); [reflexivity|]. destruct (beq b _); [reflexivity|].
      destruct b as [|c t]; [reflexivity|]. destruct (c =? 45); apply magnitude_float.
    + intros b. change (parse decimal w b) with (decimal_parse w b). unfold decimal_parse. destruct (beq b _); [discriminate|]. destruct (beq b _); [discriminate|]. destruct (beq b _); [discriminate|].
      destruct b as [|c t]; [intros _; left; exists false; reflexivity|]. destruct (c =? 45); apply magnitude_float.
  - intros w. split; [|split; [|repeat split]].
    + intros [s|s| |s m e] V N; cbn in N; try contradiction; subst s.
      * exists 48, []. split; [reflexivity|]. split; [unfold is_decimal; lia|]. apply Forall_cons; [unfold ends; lia|apply Forall_nil].
      * destruct (format_hd (Zpos m) ltac:(lia)) as (c & t & E & D). exists c, (t ++ 101 :: FormatInt10 e). split; [cbn [format decimal decimal_format sign_text app]; now rewrite E|]. split; [exact D|].
        change (c :: t ++ 101 :: FormatInt10 e) with ((c :: t) ++ 101 :: FormatInt10 e). rewrite <- E. apply Forall_app. split; [|apply Forall_cons].
        -- destruct (format_spec (Zpos m) ltac:(lia)) as (F & _). eapply Forall_impl; [|exact F]. unfold is_digit, ends. intros; lia.
        -- unfold ends. lia.
        -- eapply Forall_impl; [|apply int_chars]. intros k H K. apply end_iff in K. congruence.
    + intros [s|s| |s m e] V N; cbn in N; try contradiction; subst s; reflexivity.
  - repeat split; try (left; reflexivity); vm_compute; reflexivity.
Qed.
