(** Decimal numerals. *)
From Verif Require Import Go.

Definition is_digit (c : Z) : Prop := 48 <= c <= 57.

(** The number a digit string denotes. *)
Definition dec_value (s : bytes) : Z := fold_left (fun a c => 10 * a + (c - 48)) s 0.

(** A decimal numeral of at most [k] digits. *)
Definition numeral (k : Z) (s : bytes) : Prop := s <> [] /\ zlen s <= k /\ Forall is_digit s.

(** The three errors a parser may report. *)
Inductive perr := ErrEmptyValue | ErrBadValue | ErrValueOutOfRange.

(** What it means to parse at most [k] digits into numbers up to [max]:
    success exactly on the representable numerals, with their value; otherwise
    an error that tells why, the receiver keeping its old value. *)
Record parser_ok (k max : Z) (parse : bytes -> Z -> option perr * Z) : Prop := {
  po_ok : forall s old v,
    parse s old = (None, v) <-> numeral k s /\ dec_value s <= max /\ v = dec_value s;
  po_keep : forall s old e v, parse s old = (Some e, v) -> v = old;
  po_empty : forall s old, fst (parse s old) = Some ErrEmptyValue <-> s = [];
  po_bad : forall s old, fst (parse s old) = Some ErrBadValue ->
    zlen s <= k /\ ~ Forall is_digit s;
  po_range : forall s old, fst (parse s old) = Some ErrValueOutOfRange ->
    k < zlen s \/ exists p r, s = p ++ r /\ Forall is_digit p /\ max < dec_value p;
}.
