(** Property theorems C03, C04, C05 (package math/integer). *)
From Verif Require Import Go StrconvModel IntSpec IntModel IntProofs.

Theorem C03_uint8_parser : parser_ok 3 (2 ^ 8 - 1) U8_FromString_Base10.
Proof. exact u8_parser_ok. Qed.
Print Assumptions C03_uint8_parser.

Theorem C03_uint16_parser : parser_ok 5 (2 ^ 16 - 1) U16_FromString_Base10.
Proof. exact u16_parser_ok. Qed.
Print Assumptions C03_uint16_parser.

Theorem C03_uint32_parser : parser_ok 10 (2 ^ 32 - 1) U32_FromString_Base10.
Proof. exact u32_parser_ok. Qed.
Print Assumptions C03_uint32_parser.

Example C03_examples :
  U8_FromString_Base10 (str "255") 1 = (None, 255) /\
  U8_FromString_Base10 (str "256") 1 = (Some ErrValueOutOfRange, 1) /\
  U8_FromString_Base10 (str "2x") 1 = (Some ErrBadValue, 1) /\
  numeral 3 (str "007") /\ dec_value (str "007") = 7.
Proof.
  repeat split; try discriminate; try (vm_compute; congruence).
  repeat constructor; discriminate.
Qed.

(** The 64-bit parser accepts a numeral that no 64-bit number denotes. *)
Theorem C04_uint64_parser_refuted :
  exists s v, (forall n, n < 2 ^ 64 -> dec_value s <> n) /\ U64_FromString_Base10 s 7 = (None, v).
Proof. exact u64_refuted. Qed.
Print Assumptions C04_uint64_parser_refuted.

(** What holds: every representable numeral is parsed to its value. *)
Theorem C04_uint64_parser_partial : forall s old, numeral 20 s -> dec_value s < 2 ^ 64 ->
  U64_FromString_Base10 s old = (None, dec_value s).
Proof. exact u64_correct_below. Qed.
Print Assumptions C04_uint64_parser_partial.

(** Success always means a numeral of at most twenty digits, whose value is
    stored modulo 2^64; hence any numeral of at most nineteen digits is exact. *)
Theorem C04_uint64_success_partial : forall s old v, U64_FromString_Base10 s old = (None, v) ->
  numeral 20 s /\ v = dec_value s mod 2 ^ 64.
Proof. exact u64_success_mod. Qed.
Print Assumptions C04_uint64_success_partial.

(** The exact decision on twenty digits: rejected iff ten times the value of the
    first nineteen, truncated to 64 bits, is below that value. *)
Theorem C04_uint64_twenty_digits_partial : forall p c old,
  zlen p = 19 -> Forall is_digit p -> is_digit c ->
  U64_FromString_Base10 (p ++ [c]) old =
  if (10 * dec_value p) mod 2 ^ 64 <? dec_value p then (Some ErrValueOutOfRange, old)
  else (None, (10 * dec_value p + (c - 48)) mod 2 ^ 64).
Proof. exact u64_twenty. Qed.
Print Assumptions C04_uint64_twenty_digits_partial.

Theorem C04_uint64_error_keeps_receiver_partial : forall s old e v,
  U64_FromString_Base10 s old = (Some e, v) -> v = old.
Proof. exact u64_keep. Qed.
Print Assumptions C04_uint64_error_keeps_receiver_partial.

Example C04_examples :
  U64_FromString_Base10 (str "18446744073709551615") 0 = (None, 2 ^ 64 - 1) /\
  U64_FromString_Base10 (str "30000000000000000000") 0 = (None, 30000000000000000000 - 2 ^ 64) /\
  U64_FromString_Base10 (str "20000000000000000000") 5 = (Some ErrValueOutOfRange, 5).
Proof. vm_compute. repeat split. Qed.

Theorem C05_format_then_parse :
  (forall n old, 0 <= n < 2 ^ 8 -> U8_FromString_Base10 (U_ToString n) old = (None, n)) /\
  (forall n old, 0 <= n < 2 ^ 16 -> U16_FromString_Base10 (U_ToString n) old = (None, n)) /\
  (forall n old, 0 <= n < 2 ^ 32 -> U32_FromString_Base10 (U_ToString n) old = (None, n)) /\
  (forall n old, 0 <= n < 2 ^ 64 -> U64_FromString_Base10 (U_ToString n) old = (None, n)).
Proof. exact roundtrip_all. Qed.
Print Assumptions C05_format_then_parse.

Example C05_example : U_ToString 65535 = str "65535".
Proof. vm_compute. reflexivity. Qed.
