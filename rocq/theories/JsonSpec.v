(** JSON tokens (RFC 8259), independent of the code. *)
From Verif Require Import Go IntSpec.

(** A JSON integer and its value: optional minus, digits, no leading zero. *)
Definition json_int (s : bytes) (n : Z) : Prop :=
  exists neg ds, s = (if (neg : bool) then [45] else []) ++ ds /\
    Forall is_digit ds /\ ds <> [] /\ (ds = [48] \/ hd 0 ds <> 48) /\
    n = if neg then - dec_value ds else dec_value ds.

(** The body of a JSON string and the bytes it denotes (escapes of the form \uXXXX
    are left out: no theorem below needs them). *)
Inductive json_body : bytes -> bytes -> Prop :=
| jb_nil : json_body [] []
| jb_char c b s : 32 <= c -> c <> 34 -> c <> 92 -> json_body b s -> json_body (c :: b) (c :: s)
| jb_esc e c b s : In (e, c) [(34, 34); (92, 92); (47, 47); (98, 8); (102, 12); (110, 10); (114, 13); (116, 9)] ->
    json_body b s -> json_body (92 :: e :: b) (c :: s).
Definition json_string (t s : bytes) : Prop := exists b, t = [34] ++ b ++ [34] /\ json_body b s.

(** Digits with a sign or none, and their value. *)
Inductive signed_digits : bytes -> Z -> Prop :=
| sd_plain ds : ds <> [] -> Forall is_digit ds -> signed_digits ds (dec_value ds)
| sd_plus ds : ds <> [] -> Forall is_digit ds -> signed_digits (43 :: ds) (dec_value ds)
| sd_minus ds : ds <> [] -> Forall is_digit ds -> signed_digits (45 :: ds) (- dec_value ds).

(** Text that needs no escaping. *)
Definition plain (s : bytes) : Prop := Forall (fun c => 32 <= c /\ c <> 34 /\ c <> 92) s.

(** Characters that end a JSON value inside an object or array. *)
Definition terminator (c : Z) : Prop := c = 44 \/ c = 93 \/ c = 125.
