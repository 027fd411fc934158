(** Property theorems C16 and C62 (JSON). *)
From Verif Require Import Go GoFacts IntSpec IntModel StrconvModel Base64Model Base64Proofs JsonModel JsonSpec JsonProofs.
Local Open Scope Z_scope.

(** A parser for the unsigned type with largest value [max]. *)
Definition width_of (parse : parser) (max : Z) : Prop :=
  (parse = U8_FromString_Base10 /\ max = 2 ^ 8 - 1) \/ (parse = U16_FromString_Base10 /\ max = 2 ^ 16 - 1) \/
  (parse = U32_FromString_Base10 /\ max = 2 ^ 32 - 1) \/ (parse = U64_FromString_Base10 /\ max = 2 ^ 64 - 1).

Lemma width_reads parse max : width_of parse max -> reads parse max.
Proof.
  destruct reads_all as (A & B & C & D).
  intros [[-> ->]|[[-> ->]|[[-> ->]|[-> ->]]]]; assumption.
Qed.

(** C16: unsigned integers of every width, through both decoders; the decoder is
    left at the character that ends the value; the text is a JSON integer. *)
Theorem C16_uint_round_trip : forall parse max n k rest tok last,
  width_of parse max -> 0 <= n <= max -> terminator k ->
  let text := ebuf (EncodeUInt (Enc [] 0) n) in
  json_int text n /\
  DecodeUInt parse (Dec (text ++ k :: rest) tok last) = (None, n, Dec (k :: rest) k text) /\
  MDecodeUInt parse (Dec (text ++ k :: rest) tok last) = (None, n, Dec (k :: rest) k text).
Proof.
  intros parse max n k rest tok last W Hn Hk. cbn zeta. unfold EncodeUInt, eapp. cbn [ebuf app].
  pose proof (width_reads _ _ W) as R. split; [|split].
  - apply uint_token. lia.
  - apply (decode_uint parse max [] n k rest tok last R Hn Hk). constructor.
  - apply (mdecode_uint parse max n k rest tok last R Hn Hk).
Qed.
Print Assumptions C16_uint_round_trip.

Example C16_uint_case : width_of U64_FromString_Base10 (2 ^ 64 - 1) /\
  DecodeUInt U64_FromString_Base10 (dec_init (str "18446744073709551615,""x"":1}")) =
    (None, 18446744073709551615, Dec (str ",""x"":1}") 44 (str "18446744073709551615")).
Proof. split; [unfold width_of; tauto|vm_compute; reflexivity]. Qed.

(** C16: the encoder only appends, whatever is already in the buffer. *)
Theorem C16_encoder_appends : forall e n i b s,
  ebuf (EncodeUInt e n) = ebuf e ++ ebuf (EncodeUInt (Enc [] 0) n) /\
  ebuf (EncodeInt64 e i) = ebuf e ++ ebuf (EncodeInt64 (Enc [] 0) i) /\
  ebuf (EncodeBoolean e b) = ebuf e ++ ebuf (EncodeBoolean (Enc [] 0) b) /\
  ebuf (EncodeStringValue e s) = ebuf e ++ str """" ++ s ++ str """," /\
  ebuf (EncodeKey e s) = ebuf e ++ str """" ++ s ++ str """:" /\
  ebuf (EncodeString e s) = ebuf e ++ s.
Proof.
  intros. unfold EncodeUInt, EncodeInt64, EncodeBoolean, EncodeString, EncodeStringValue, EncodeKey, eapp. cbn [ebuf].
  rewrite <- !app_assoc. repeat split.
Qed.
Print Assumptions C16_encoder_appends.

(** C16: signed integers. The minified decoder is exact. *)
Theorem C16_int64_minified_round_trip : forall i k rest tok last,
  - 2 ^ 63 <= i < 2 ^ 63 -> terminator k ->
  let text := ebuf (EncodeInt64 (Enc [] 0) i) in
  json_int text i /\
  MDecodeInt64 (Dec (text ++ k :: rest) tok last) = (None, i, Dec (k :: rest) k text).
Proof. intros. split; [apply int_token|now apply mdecode_int]. Qed.
Print Assumptions C16_int64_minified_round_trip.

Example C16_int64_minified_case :
  MDecodeInt64 (dec_init (str "-9223372036854775808]")) =
    (None, -9223372036854775808, Dec (str "]") 93 (str "-9223372036854775808")).
Proof. vm_compute. reflexivity. Qed.

(** On any item at all: the value of a numeral of 64 bits, or an error and zero; what follows the item is next. *)
Lemma digits_forallb ds : forallb digit ds = true <-> Forall is_digit ds.
Proof. rewrite forallb_forall, Forall_forall. split; intros H x J; specialize (H x J); unfold is_digit, digit in *; lia. Qed.
Lemma parse_digits_some ds n : parse_digits ds = Some n <-> ds <> [] /\ Forall is_digit ds /\ n = dec_value ds.
Proof.
  unfold parse_digits. rewrite <- digits_forallb. destruct (beq ds []) eqn:E; [apply beq_eq in E; subst; split; [discriminate|intros (K & _); congruence]|].
  assert (ds <> []) by (intros ->; discriminate E).
  destruct (forallb digit ds); [|split; [discriminate|intros (_ & K & _); discriminate]]. fold (dec_value ds). split; [intros [= <-]; auto|intros (_ & _ & ->); reflexivity].
Qed.
Lemma parse_int_sign c t : c <> 43 -> c <> 45 -> ParseInt10 64 (c :: t) = match parse_digits (c :: t) with None => None | Some n => if n <? 2 ^ 63 then Some n else None end.
Proof.
  intros A B. unfold ParseInt10. match goal with |- context [let '(neg, ds) := ?m in _] => replace m with (false, c :: t) end; [reflexivity|].
  clear -A B. destruct c as [|p|p]; try reflexivity. do 6 (destruct p as [p|p|]; try reflexivity); congruence.
Qed.
Lemma parse_int_exact s : (forall n, signed_digits s n -> - 2 ^ 63 <= n < 2 ^ 63 -> ParseInt10 64 s = Some n) /\
  ((forall n, signed_digits s n -> ~ - 2 ^ 63 <= n < 2 ^ 63) -> ParseInt10 64 s = None).
Proof.
  assert (G0 : forall ds, Forall is_digit ds -> 0 <= dec_value ds).
  { intros ds F. unfold dec_value. assert (G : forall l a, Forall is_digit l -> 0 <= a -> 0 <= fold_left (fun a c => 10 * a + (c - 48)) l a).
    { induction l as [|x l IH]; intros a Fl Ha; [assumption|]. inversion Fl as [|? ? Hx Fl']; subst. cbn [fold_left]. apply IH; [assumption|]. unfold is_digit in Hx. lia. }
    apply G; [exact F|lia]. }
  assert (SS : forall ds, ds <> [] -> Forall is_digit ds -> parse_digits ds = Some (dec_value ds)) by (intros; apply parse_digits_some; auto).
  split.
  - intros n H R. destruct H as [ds N F|ds N F|ds N F].
    + destruct ds as [|c t]; [congruence|]. assert (is_digit c) by (inversion F; auto). unfold is_digit in *. rewrite parse_int_sign by lia. rewrite SS by auto. now replace (dec_value (c :: t) <? 2 ^ 63) with true by lia.
    + unfold ParseInt10. rewrite SS by auto. change (2 ^ (64 - 1)) with (2 ^ 63). now replace (dec_value ds <? 2 ^ 63) with true by lia.
    + unfold ParseInt10. rewrite SS by auto. change (2 ^ (64 - 1)) with (2 ^ 63). now replace (dec_value ds <=? 2 ^ 63) with true by lia.
  - intros H. destruct s as [|c t]; [reflexivity|]. destruct (Z.eq_dec c 43) as [->|A]; [|destruct (Z.eq_dec c 45) as [->|B]].
    + unfold ParseInt10. change (2 ^ (64 - 1)) with (2 ^ 63). destruct (parse_digits t) as [n|] eqn:Q; [|reflexivity]. apply parse_digits_some in Q as (N & F & ->). specialize (H _ (sd_plus t N F)). specialize (G0 _ F). destruct (Z.ltb_spec (dec_value t) (2 ^ 63)); [lia|reflexivity].
    + unfold ParseInt10. change (2 ^ (64 - 1)) with (2 ^ 63). destruct (parse_digits t) as [n|] eqn:Q; [|reflexivity]. apply parse_digits_some in Q as (N & F & ->). specialize (H _ (sd_minus t N F)). specialize (G0 _ F). destruct (Z.leb_spec (dec_value t) (2 ^ 63)); [lia|reflexivity].
    + rewrite parse_int_sign by auto. destruct (parse_digits (c :: t)) as [n|] eqn:Q; [|reflexivity]. apply parse_digits_some in Q as (N & F & ->). specialize (H _ (sd_plain _ N F)). specialize (G0 _ F). destruct (Z.ltb_spec (dec_value (c :: t)) (2 ^ 63)); [lia|reflexivity].
Qed.
Theorem C16_int64_minified_exact : forall text k rest tok last, Forall (fun c => ~ terminator c) text -> terminator k ->
  (forall n, signed_digits text n -> - 2 ^ 63 <= n < 2 ^ 63 -> MDecodeInt64 (Dec (text ++ k :: rest) tok last) = (None, n, Dec (k :: rest) k text)) /\
  ((forall n, signed_digits text n -> ~ - 2 ^ 63 <= n < 2 ^ 63) -> MDecodeInt64 (Dec (text ++ k :: rest) tok last) = (Some ErrStringCorrupted, 0, Dec (k :: rest) k text)).
Proof.
  intros text k rest tok last F T. assert (NE : Forall (fun c => is_end c = false) text) by (eapply Forall_impl; [|exact F]; unfold terminator, is_end; intros c H; cbv beta in H; lia).
  assert (KE : is_end k = true) by (unfold terminator, is_end in *; lia). unfold MDecodeInt64. rewrite find_end by assumption. cbn [dlast]. destruct (parse_int_exact text) as (A & B). split.
  - intros n H R. now rewrite (A n H R).
  - intros H. now rewrite (B H).
Qed.
Print Assumptions C16_int64_minified_exact.
Example C16_int64_minified_exact_case : MDecodeInt64 (dec_init (str "9223372036854775808,")) = (Some ErrStringCorrupted, 0, Dec (str ",") 44 (str "9223372036854775808")) /\
  MDecodeInt64 (dec_init (str "+7]")) = (None, 7, Dec (str "]") 93 (str "+7")).
Proof. split; vm_compute; reflexivity. Qed.

(** The other decoder skips the sign: it returns the absolute value, and an error
    for the least integer. *)
Theorem C16_int64_refuted : exists i, - 2 ^ 63 <= i < 2 ^ 63 /\
  fst (DecodeInt64 (dec_init (ebuf (EncodeInt64 (Enc [] 0) i) ++ str ","))) = (None, 5) /\ i <> 5.
Proof. exists (-5). split; [lia|]. split; [vm_compute; reflexivity|lia]. Qed.
Print Assumptions C16_int64_refuted.

Theorem C16_int64_partial : forall i k rest tok last,
  - 2 ^ 63 <= i < 2 ^ 63 -> terminator k ->
  fst (DecodeInt64 (Dec (ebuf (EncodeInt64 (Enc [] 0) i) ++ k :: rest) tok last)) =
    if i =? - 2 ^ 63 then (Some ErrIntegerCorrupted, 0) else (None, Z.abs i).
Proof.
  intros. unfold EncodeInt64, eapp. cbn [ebuf app]. rewrite decode_int by assumption.
  now destruct (i =? - 2 ^ 63).
Qed.
Print Assumptions C16_int64_partial.

(** C16: strings.  They survive exactly when they contain no quote; the text is a
    JSON token for the string exactly when no character needed escaping. *)
Theorem C16_string_refuted : exists s d,
  DecodeString (dec_init (ebuf (EncodeStringValue (Enc [] 0) s))) = Ok (None, str "a", d) /\ s <> str "a" /\
  ~ json_string (str """" ++ s ++ str """") s.
Proof.
  exists (str "a""b"). eexists. split; [vm_compute; reflexivity|]. split; [discriminate|].
  change (str """") with [34]. rewrite string_token_iff. intros H. inversion H; subst. inversion H3; subst. lia.
Qed.
Print Assumptions C16_string_refuted.

Theorem C16_string_partial : forall s rest tok last,
  let text := ebuf (EncodeStringValue (Enc [] 0) s) in
  text = str """" ++ s ++ str """," /\
  (json_string (str """" ++ s ++ str """") s <-> plain s) /\
  ((exists d, DecodeString (Dec (text ++ rest) tok last) = Ok (None, s, d)) <-> ~ In 34 s) /\
  (~ In 34 s -> DecodeString (Dec (text ++ rest) tok last) = Ok (None, s, Dec (str "," ++ rest) tok last)) /\
  ((exists d, MDecodeString (Dec (s ++ str """" ++ rest) tok last) = Ok (s, d)) <-> ~ In 34 s).
Proof.
  intros s rest tok last text.
  assert (Q : Forall (fun c => c <> 34) s <-> ~ In 34 s).
  { rewrite Forall_forall. split; [intros H K; exact (H _ K eq_refl)|intros H x K E; subst; auto]. }
  assert (T : text = [34] ++ s ++ [34; 44]) by reflexivity.
  split; [exact T|]. split; [apply string_token_iff|]. rewrite T, <- !Q.
  rewrite <- !app_assoc. split; [|split].
  - apply (decode_string_iff [] s rest tok last). constructor.
  - intros H. apply (decode_string_gen [] s); [constructor|assumption].
  - apply mdecode_string_iff.
Qed.
Print Assumptions C16_string_partial.

Example C16_string_case : ~ In 34 (str "null, [x]}") /\
  DecodeString (dec_init (ebuf (EncodeStringValue (Enc [] 0) (str "null, [x]}")))) =
    Ok (None, str "null, [x]}", Dec (str ",") 0 []).
Proof. split; [vm_compute; intuition discriminate|vm_compute; reflexivity]. Qed.

(** C16: keys without quotes. *)
Theorem C16_key_round_trip : forall pre key rest tok last,
  ~ In 34 pre -> ~ In 34 key ->
  DecodeKey (Dec (pre ++ ebuf (EncodeKey (Enc [] 0) key) ++ rest) tok last) = (key, Dec rest tok last).
Proof.
  intros pre key rest tok last Hp Hk.
  assert (Q : forall s, ~ In 34 s -> Forall (fun c => c <> 34) s).
  { intros s H. rewrite Forall_forall. intros x K E; subst; auto. }
  replace (ebuf (EncodeKey (Enc [] 0) key) ++ rest) with ([34] ++ key ++ [34; 58] ++ rest)
    by (unfold EncodeKey, eapp; cbn [ebuf app]; now rewrite <- app_assoc).
  apply decode_key; auto.
Qed.
Print Assumptions C16_key_round_trip.

Example C16_key_case : DecodeKey (dec_init (str ",""age"":7}")) = (str "age", Dec (str "7}") 0 []).
Proof. vm_compute. reflexivity. Qed.

(** C16: booleans; the character after the value is consumed too and must exist. *)
Theorem C16_bool_round_trip : forall b k rest tok last,
  let text := ebuf (EncodeBoolean (Enc [] 0) b) in
  DecodeBool (Dec (text ++ k :: rest) tok last) = Ok (b, Dec rest tok last) /\
  MDecodeBool (Dec (text ++ k :: rest) tok last) = Ok (b, Dec rest tok last) /\
  DecodeBool (Dec text tok last) = Panic.
Proof.
  assert (S : forall (l : bytes) (r : bytes), slice_from (l ++ r) (zlen l) = Ok r).
  { intros l r. pose proof (GoFacts.zlen_nonneg l). pose proof (GoFacts.zlen_nonneg r).
    rewrite GoFacts.slice_from_ok by (rewrite GoFacts.zlen_app; lia). f_equal. unfold zlen. rewrite Nat2Z.id.
    rewrite skipn_app, skipn_all, Nat.sub_diag. reflexivity. }
  intros [] k rest tok last; cbn zeta.
  - pose proof (S [116; 114; 117; 101; k] rest) as E. change (zlen [116; 114; 117; 101; k]) with 5 in E.
    cbn [app] in E. unfold DecodeBool, MDecodeBool, Offset, TrimSpaces.
    cbn -[slice_from]. rewrite E. cbn [bind]. repeat split.
  - pose proof (S [102; 97; 108; 115; 101; k] rest) as E. change (zlen [102; 97; 108; 115; 101; k]) with 6 in E.
    cbn [app] in E. unfold DecodeBool, MDecodeBool, Offset, TrimSpaces.
    cbn -[slice_from]. rewrite E. cbn [bind]. repeat split.
Qed.
Print Assumptions C16_bool_round_trip.

(** C16: non-empty slices of unsigned integers, with any text without digits before
    the first number (such as the opening bracket). *)
Theorem C16_number_slice_round_trip : forall parse max l pre rest tok last fuel,
  width_of parse max -> Forall (fun n => 0 <= n <= max) l -> l <> [] ->
  tok <> 93 -> Forall (fun c => ~ is_digit c) pre -> (length l < fuel)%nat ->
  exists text cap, EncodeSliceAsNumber (Enc [] 0) l = Ok (Enc text cap) /\
    DecodeSliceAsNumber parse fuel (Dec (pre ++ text ++ str "]" ++ rest) tok last) =
      Some (None, l, Dec (str "]" ++ rest) 0 []) /\
    exists last', MDecodeSliceAsNumber parse fuel (Dec (str "[" ++ text ++ str "]" ++ rest) tok last) =
      Some (Ok (None, l, Dec rest 0 last')).
Proof.
  intros parse max l pre rest tok last fuel W Hl Hne Ht Hp Hf. pose proof (width_reads _ _ W) as R.
  destruct (encode_slice (Enc [] 0) l Hne) as (c & E). cbn [ebuf app] in E.
  exists (commas l), c. split; [exact E|]. split.
  - change (str "]" ++ rest) with (93 :: rest). unfold DecodeSliceAsNumber.
    rewrite (slice_loop_ok parse max l R Hl Hne) by assumption. reflexivity.
  - change (str "[") with [91]. change (str "]" ++ rest) with (93 :: rest). cbn [app]. unfold MDecodeSliceAsNumber. rewrite offset_cons.
    destruct (mslice_loop_ok parse max l R Hl Hne rest tok last [] fuel Ht Hf) as (x & Ex).
    exists x. exact Ex.
Qed.
Print Assumptions C16_number_slice_round_trip.

Example C16_number_slice_case :
  DecodeSliceAsNumber U16_FromString_Base10 4 (dec_init (str "[1,65535,0],")) =
    Some (None, [1; 65535; 0], Dec (str "],") 0 []).
Proof. vm_compute. reflexivity. Qed.

(** The empty slice does not survive: encoding panics on an empty buffer, eats the
    comma before it otherwise, and `[]` is an error for both decoders. *)
Theorem C16_empty_slice_refuted :
  EncodeSliceAsNumber (Enc [] 0) [] = Panic /\
  (exists e, EncodeSliceAsNumber (Enc (str "1,") 2) [] = Ok e /\ ebuf e = str "1") /\
  (exists d, DecodeSliceAsNumber U8_FromString_Base10 9 (dec_init (str "[]")) = Some (Some ErrSliceCorrupted, [], d)) /\
  (exists d, MDecodeSliceAsNumber U8_FromString_Base10 9 (dec_init (str "[]")) = Some (Ok (Some ErrSliceCorrupted, [], d))).
Proof.
  split; [vm_compute; reflexivity|].
  split; [eexists; split; vm_compute; reflexivity|].
  split; eexists; vm_compute; reflexivity.
Qed.
Print Assumptions C16_empty_slice_refuted.

(** C16: byte strings as base64, if the buffer has room for the text. *)
Theorem C16_base64_round_trip : forall l e k rest tok last,
  wf_bytes l -> zlen (ebuf e) + encoded_len (zlen l) <= ecap e -> terminator k ->
  exists text, EncodeByteSliceAsBase64 e l = Ok (Enc (ebuf e ++ text) (ecap e)) /\
    json_string (str """" ++ text ++ str """") text /\ zlen text = encoded_len (zlen l) /\
    DecodeByteSliceAsBase64 (Dec (str """" ++ text ++ str """" ++ k :: rest) tok last) =
      (None, l, Dec (k :: rest) k (text ++ str """")).
Proof.
  intros l e k rest tok last W Hc Hk. exists (b64_encode std_char l).
  split; [|split; [|split]].
  - unfold EncodeByteSliceAsBase64. now replace (zlen (ebuf e) + encoded_len (zlen l) <=? ecap e) with true by lia.
  - apply string_token_iff. now apply b64_json.
  - apply b64_length.
  - apply decode_b64; assumption.
Qed.
Print Assumptions C16_base64_round_trip.

Example C16_base64_case :
  EncodeByteSliceAsBase64 (Enc [] 8) (str "hello") = Ok (Enc (str "aGVsbG8") 8) /\
  DecodeByteSliceAsBase64 (dec_init (str """aGVsbG8"",")) = (None, str "hello", Dec (str ",") 44 (str "aGVsbG8""")).
Proof. split; vm_compute; reflexivity. Qed.

(** ... and without room the encoder panics. *)
Theorem C16_base64_no_room_refuted : forall l e,
  ecap e < zlen (ebuf e) + encoded_len (zlen l) -> EncodeByteSliceAsBase64 e l = Panic.
Proof.
  intros l e H. unfold EncodeByteSliceAsBase64.
  now replace (zlen (ebuf e) + encoded_len (zlen l) <=? ecap e) with false by lia.
Qed.
Print Assumptions C16_base64_no_room_refuted.

(** C62: malformed text never hangs or crashes a decoder: false. A number list cut
    short after an earlier number makes the decoder append that number for ever;
    a trailing comma makes the minified decoder panic; a boolean at the end panics. *)
Theorem C62_truncated_refuted :
  let d0 := dec_init (str """a"":5,""b"":[7") in
  let '(k1, d1) := DecodeKey d0 in
  let '(e, n, d2) := DecodeUInt U8_FromString_Base10 d1 in
  let '(k2, d3) := DecodeKey d2 in
  k1 = str "a" /\ e = None /\ n = 5 /\ k2 = str "b" /\
  (forall fuel, DecodeSliceAsNumber U8_FromString_Base10 fuel d3 = None) /\
  MDecodeSliceAsNumber U8_FromString_Base10 9 (dec_init (str "[7,")) = Some Panic /\
  DecodeBool (dec_init (str "true")) = Panic /\
  CheckNullValue (dec_init (str "nul")) = Panic.
Proof.
  pose (d3 := Dec (str "[7") 44 (str "5")).
  assert (H : forall fuel d acc, d = d3 \/ d = Dec (str "7") 44 (str "5") ->
            slice_loop U8_FromString_Base10 fuel d acc = None).
  { induction fuel as [|f IH]; intros d acc Hd; [reflexivity|].
    destruct Hd as [->| ->]; cbn [slice_loop]; (etransitivity; [|apply (IH (Dec (str "7") 44 (str "5")) (acc ++ [5])); now right]);
    reflexivity. }
  assert (E1 : DecodeKey (dec_init (str """a"":5,""b"":[7")) = (str "a", Dec (str "5,""b"":[7") 0 [])) by (vm_compute; reflexivity).
  assert (E2 : DecodeUInt U8_FromString_Base10 (Dec (str "5,""b"":[7") 0 []) = (None, 5, Dec (str ",""b"":[7") 44 (str "5"))) by (vm_compute; reflexivity).
  assert (E3 : DecodeKey (Dec (str ",""b"":[7") 44 (str "5")) = (str "b", d3)) by (vm_compute; reflexivity).
  cbn zeta. rewrite E1, E2, E3.
  split; [reflexivity|]. split; [reflexivity|]. split; [reflexivity|]. split; [reflexivity|].
  split; [intros fuel; apply H; now left|].
  split; [|split]; vm_compute; reflexivity.
Qed.
Print Assumptions C62_truncated_refuted.

(** What does hold of arbitrary bytes: each scalar method of the first decoder except
    DecodeBool, and DecodeString away from the letter n, returns; and every method
    leaves in its buffer a suffix of the text it was given. *)
Definition suffix (b a : bytes) : Prop := exists p, a = p ++ b.

Lemma suffix_refl a : suffix a a. Proof. exists []. reflexivity. Qed.
Lemma suffix_trans a b c : suffix a b -> suffix b c -> suffix a c.
Proof. intros (p & ->) (q & ->). exists (q ++ p). now rewrite app_assoc. Qed.
Lemma suffix_cons c a b : suffix a b -> suffix a (c :: b).
Proof. intros (p & ->). exists (c :: p). reflexivity. Qed.

Lemma find_end_suffix d : suffix (dbuf (FindEndToken d)) (dbuf d).
Proof.
  unfold FindEndToken. destruct (cut_end (dbuf d)) as [[[p k] r]|] eqn:E; [|apply suffix_refl].
  cbn [dbuf]. revert p k r E. induction (dbuf d) as [|c t IH]; intros p k r; cbn [cut_end]; [discriminate|].
  destruct (is_end c); [intros E; inversion E; apply suffix_refl|].
  destruct (cut_end t) as [[[p' k'] r']|]; [|discriminate]. intros E. inversion E; subst.
  apply suffix_cons. eapply IH. reflexivity.
Qed.
Lemma trim_digit_suffix d : suffix (dbuf (TrimToDigit d)) (dbuf d).
Proof.
  unfold TrimToDigit. destruct (drop_to_digit (dbuf d)) as [b|] eqn:E; [|apply suffix_refl].
  cbn [dbuf]. revert b E. induction (dbuf d) as [|c t IH]; intros b; cbn [drop_to_digit]; [discriminate|].
  destruct ((48 <=? c) && (c <=? 57)); intros E; [inversion E; apply suffix_refl|].
  apply suffix_cons. auto.
Qed.
Lemma string_start_suffix d : suffix (dbuf (TrimToStringStart d)) (dbuf d).
Proof.
  unfold TrimToStringStart. destruct (cut_byte 34 (dbuf d)) as [[p r]|] eqn:E; [|apply suffix_refl].
  apply cut_byte_some in E as [E _]. cbn [dbuf]. exists (p ++ [34]). rewrite E, <- app_assoc. reflexivity.
Qed.

Theorem C62_scalars_return_partial : forall parse d,
  suffix (dbuf (snd (DecodeUInt parse d))) (dbuf d) /\
  suffix (dbuf (snd (DecodeInt64 d))) (dbuf d) /\
  suffix (dbuf (snd (DecodeKey d))) (dbuf d) /\
  (~ In 110 (dbuf d) -> exists r, DecodeString d = Ok r /\ suffix (dbuf (snd r)) (dbuf d)) /\
  suffix (dbuf (snd (DecodeByteSliceAsBase64 d))) (dbuf d).
Proof.
  intros parse d. split; [|split; [|split; [|split]]].
  - unfold DecodeUInt. destruct (parse _ 0) as [[?|] n]; cbn [snd];
    eapply suffix_trans; [apply find_end_suffix|apply trim_digit_suffix|apply find_end_suffix|apply trim_digit_suffix].
  - unfold DecodeInt64. destruct (ParseInt10 64 _); cbn [snd];
    eapply suffix_trans; [apply find_end_suffix|apply trim_digit_suffix|apply find_end_suffix|apply trim_digit_suffix].
  - unfold DecodeKey. cbn zeta. destruct (cut_byte 34 (dbuf (TrimToStringStart d))) as [[p r]|] eqn:E;
      [|apply string_start_suffix].
    apply cut_byte_some in E as [E _].
    assert (H : suffix r (dbuf d)).
    { eapply suffix_trans; [|apply string_start_suffix]. rewrite E. exists (p ++ [34]). now rewrite <- app_assoc. }
    destruct (cut_byte 58 r) as [[p' r']|] eqn:E'; [|exact H].
    apply cut_byte_some in E' as [E' _]. cbn [snd dbuf]. eapply suffix_trans; [|exact H].
    rewrite E'. exists (p' ++ [58]). now rewrite <- app_assoc.
  - intros Hn. unfold DecodeString, CheckNullValue.
    assert (C : forall b null, ~ In 110 b -> exists v, check_null b null = Ok v).
    { induction b as [|c t IH]; intros null Hb; cbn [check_null]; [eauto|].
      cbn [In] in Hb. replace (c =? 110) with false by lia.
      destruct (c =? 34); [eauto|]. destruct (c =? 44); [eauto|]. apply IH. tauto. }
    destruct (C (dbuf d) false Hn) as (v & ->). cbn [bind]. destruct v.
    + eexists. split; [reflexivity|]. apply suffix_refl.
    + cbn zeta. destruct (cut_byte 34 (dbuf (TrimToStringStart d))) as [[p r]|] eqn:E.
      * eexists. split; [reflexivity|]. cbn [snd dbuf].
        apply cut_byte_some in E as [E _]. eapply suffix_trans; [|apply string_start_suffix]. rewrite E. exists (p ++ [34]). now rewrite <- app_assoc.
      * eexists. split; [reflexivity|]. cbn [snd]. apply string_start_suffix.
  - unfold DecodeByteSliceAsBase64. cbn zeta.
    destruct (cut_byte 34 (dbuf (TrimToStringStart d))) as [[p r]|]; [|apply string_start_suffix].
    destruct (b64_decode std_digit p); cbn [snd]; [|apply string_start_suffix].
    eapply suffix_trans; [apply find_end_suffix|apply string_start_suffix].
Qed.
Print Assumptions C62_scalars_return_partial.
