(** Textual addresses, independent of the code. *)
From Verif Require Import Go IntSpec.

(** A decimal octet: one to three digits, no leading zero, at most 255. *)
Definition octet (s : bytes) (v : Z) : Prop :=
  numeral 3 s /\ dec_value s = v /\ v <= 255 /\ (1 < zlen s -> hd_error s <> Some 48).
(** Dotted decimal text of an address. *)
Definition dotted (s a : bytes) : Prop :=
  exists s0 s1 s2 s3 a0 a1 a2 a3, a = [a0; a1; a2; a3] /\
    octet s0 a0 /\ octet s1 a1 /\ octet s2 a2 /\ octet s3 a3 /\
    s = s0 ++ [46] ++ s1 ++ [46] ++ s2 ++ [46] ++ s3.

(** Hexadecimal digits in either case. *)
Definition hex_digit (c v : Z) : Prop :=
  (48 <= c <= 57 /\ v = c - 48) \/ (97 <= c <= 102 /\ v = c - 87) \/ (65 <= c <= 70 /\ v = c - 55).
Inductive hex_value : bytes -> Z -> Prop :=
| hv_nil : hex_value [] 0
| hv_snoc s n c v : hex_value s n -> hex_digit c v -> hex_value (s ++ [c]) (16 * n + v).
(** A group: one to four hexadecimal digits, for two bytes. *)
Definition group (s : bytes) (a b : Z) : Prop :=
  1 <= zlen s <= 4 /\ is_byte a /\ is_byte b /\ hex_value s (256 * a + b).
(** Groups separated by colons. *)
Inductive groups : bytes -> bytes -> Prop :=
| gr_one s a b : group s a b -> groups s [a; b]
| gr_more s a b t l : group s a b -> groups t l -> groups (s ++ [58] ++ t) ([a; b] ++ l).
Definition groups0 (s l : bytes) : Prop := (s = [] /\ l = []) \/ groups s l.
(** The texts of RFC 4291 section 2.2, forms 1 and 2: eight groups, or fewer with "::" for one or
    more groups of zeros. *)
Definition ip6_text (s a : bytes) : Prop :=
  (groups s a /\ zlen a = 16) \/
  exists s1 l1 s2 l2, groups0 s1 l1 /\ groups0 s2 l2 /\ zlen l1 + zlen l2 <= 14 /\
    s = s1 ++ [58; 58] ++ s2 /\ a = l1 ++ repeat 0 (16 - length l1 - length l2) ++ l2.
