(** What identifiers are expected to be, independent of the code. *)
From Verif Require Import Go BinSpec.
(** Time ordered identifiers: eight bytes of seconds and four of nanoseconds in two's complement,
    low byte first, then the random part. *)
Definition time_uuid (sec nsec : Z) (rnd : bytes) : bytes := le_digits 8 (sec mod 2 ^ 64) ++ le_digits 4 (nsec mod 2 ^ 32) ++ rnd.
(** A byte string read as one number, most significant byte first, and a string of lower-case
    hexadecimal digits read as one. *)
Definition base16 (c : Z) : Z := if c <? 58 then c - 48 else c - 87.
Definition bytes_number (l : bytes) : Z := fold_left (fun a b => a * 256 + b) l 0.
Definition hex_number (l : bytes) : Z := fold_left (fun a c => a * 16 + base16 c) l 0.
Definition lower_hex (c : Z) : Prop := 48 <= c <= 57 \/ 97 <= c <= 102.
(** RFC 4122, section 3: 8-4-4-4-12 digits. *)
Record canonical (t : bytes) (v : Z) : Prop := {
  ca_len : zlen t = 36;
  ca_dash : forall i, In i [8; 13; 18; 23]%nat -> nth i t 0 = 45;
  ca_hex : forall i, (i < 36)%nat -> ~ In i [8; 13; 18; 23]%nat -> lower_hex (nth i t 0);
  ca_value : hex_number (filter (fun c => negb (c =? 45)) t) = v;
}.
